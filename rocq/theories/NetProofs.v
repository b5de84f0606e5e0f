(** Proofs about the network model: matrix construction, updates, reduction. *)
From Coq Require Import Permutation.
From Verif Require Import Base BaseProofs Sums LoadModel LoadSpec LoadProofs ContractProofs NetModel NetSpec MatProofs.
Open Scope Z_scope.
Open Scope Qc_scope.

(* ------------------------------------------------------------------ *)
(** ** Accessors *)

Lemma vtab_length n f : length (vtab n f) = n.
Proof. unfold vtab. now rewrite map_length, seq_length. Qed.
Lemma vget_vtab n f i : (i < n)%nat -> vget (vtab n f) i = f i.
Proof. intros H. unfold vget, vtab. now rewrite nth_map_seq. Qed.
Lemma mtab_shape n m f : shape n m (mtab n m f).
Proof.
  split; [unfold mtab; now rewrite map_length, seq_length|]. intros j Hj. unfold mtab. rewrite nth_map_seq by auto. apply vtab_length.
Qed.
Lemma mget_mtab n m f i j : (i < n)%nat -> (j < m)%nat -> mget (mtab n m f) i j = f i j.
Proof. intros Hi Hj. unfold mget, mtab. rewrite nth_map_seq by auto. now apply vget_vtab. Qed.

Lemma mupd_shape n m (M : list (list Qc)) i j x : shape n m M -> (i < n)%nat -> shape n m (mupd M i j x).
Proof. intros S Hi. unfold mupd. apply shape_upd; auto. rewrite upd_length. apply S; auto. Qed.
Lemma mget_mupd n m (M : list (list Qc)) i j x a b : shape n m M -> (i < n)%nat -> (j < m)%nat -> (a < n)%nat -> (b < m)%nat ->
  mget (mupd M i j x) a b = if Nat.eqb a i && Nat.eqb b j then x else mget M a b.
Proof.
  intros S Hi Hj Ha Hb. unfold mupd. rewrite (mget_upd n m) by auto.
  destruct (Nat.eqb_spec a i) as [->|]; cbn [andb]; [|reflexivity].
  rewrite nth_upd, (Nat.eqb_sym j b). destruct S as (_ & R). rewrite R by auto.
  destruct (Nat.eqb_spec b j) as [->|]; cbn [andb]; [|reflexivity].
  destruct (Nat.ltb_spec j m); [reflexivity|lia].
Qed.
Lemma madd_shape n m (M : list (list Qc)) i j x : shape n m M -> (i < n)%nat -> shape n m (madd M i j x).
Proof. intros. unfold madd. now apply mupd_shape. Qed.
Lemma mget_madd n m (M : list (list Qc)) i j x a b : shape n m M -> (i < n)%nat -> (j < m)%nat -> (a < n)%nat -> (b < m)%nat ->
  mget (madd M i j x) a b = mget M a b + (if Nat.eqb a i && Nat.eqb b j then x else q0).
Proof.
  intros S Hi Hj Ha Hb. unfold madd. rewrite (mget_mupd n m) by auto.
  destruct (Nat.eqb_spec a i), (Nat.eqb_spec b j); subst; cbn [andb]; qring.
Qed.
Lemma mzeros_shape n m : shape n m (mzeros n m).
Proof.
  split; [unfold mzeros; now rewrite repeat_length|]. intros j Hj. unfold mzeros.
  rewrite nth_indep with (d' := vzeros m) by (now rewrite repeat_length). rewrite nth_repeat. unfold vzeros. now rewrite repeat_length.
Qed.
Lemma mget_mzeros n m i j : mget (mzeros n m) i j = q0.
Proof.
  unfold mget, mzeros. destruct (Nat.lt_ge_cases i n).
  - rewrite nth_indep with (d' := vzeros m) by (now rewrite repeat_length). rewrite nth_repeat. unfold vzeros.
    destruct (Nat.lt_ge_cases j m); [now rewrite nth_repeat|]. rewrite nth_overflow; auto. rewrite repeat_length; lia.
  - rewrite (nth_overflow (repeat (vzeros m) n)) by (rewrite repeat_length; lia). destruct j; reflexivity.
Qed.

(* ------------------------------------------------------------------ *)
(** ** admitb, admitm, admref *)

Lemma admitb_line_spec n BB l : shape n n BB -> (forall i j, (i < n)%nat -> (j < n)%nat -> mget BB i j = mget BB j i) ->
  (lfrom l < n)%nat -> (lto l < n)%nat -> lfrom l <> lto l ->
  shape n n (admitb_line BB l) /\ forall i j, (i < n)%nat -> (j < n)%nat -> mget (admitb_line BB l) i j = mget BB i j + lap1 l i j.
Proof.
  intros S Sy. destruct l as [[j k] b]. unfold lfrom, lto. cbn [fst snd]. intros Hj Hk N. unfold admitb_line.
  set (B1 := madd BB j k (b * qz (-1))). assert (S1 : shape n n B1) by (apply madd_shape; auto).
  set (B2 := mupd B1 k j (mget B1 j k)). assert (S2 : shape n n B2) by (apply mupd_shape; auto).
  set (B3 := madd B2 j j b). assert (S3 : shape n n B3) by (apply madd_shape; auto).
  split; [now apply madd_shape|]. intros x y Hx Hy.
  rewrite (mget_madd n n) by auto. unfold B3. rewrite (mget_madd n n) by auto. unfold B2. rewrite (mget_mupd n n) by auto.
  unfold B1. rewrite !(mget_madd n n) by auto. rewrite !Nat.eqb_refl. cbn [andb].
  unfold lap1, ends_at, joins, lfrom, lto, ladm. cbn [fst snd].
  rewrite (Nat.eqb_sym j x), (Nat.eqb_sym k x), (Nat.eqb_sym j y), (Nat.eqb_sym k y).
  change (qz (-1)) with (- (1))%Qc.
  destruct (Nat.eqb_spec x y), (Nat.eqb_spec x j), (Nat.eqb_spec x k), (Nat.eqb_spec y j), (Nat.eqb_spec y k); subst;
    cbn [andb orb]; try congruence; try (now contradict N); rewrite ?(Sy k j) by auto; qring.
Qed.

Lemma admitb_fold n ls : wlines_in n ls -> forall BB pre, shape n n BB ->
  (forall i j, (i < n)%nat -> (j < n)%nat -> mget BB i j = lap pre i j) ->
  shape n n (fold_left admitb_line ls BB) /\
  forall i j, (i < n)%nat -> (j < n)%nat -> mget (fold_left admitb_line ls BB) i j = lap (pre ++ ls) i j.
Proof.
  induction ls as [|l ls IH]; intros W BB pre S E; cbn [fold_left].
  - split; auto. intros. rewrite app_nil_r. auto.
  - destruct (W l (or_introl eq_refl)) as (H1 & H2 & H3).
    destruct (admitb_line_spec n BB l S) as (S1 & E1); auto.
    { intros. rewrite !E by auto. apply lap_sym. }
    destruct (IH (wlines_cons _ _ _ W) (admitb_line BB l) (pre ++ [l]) S1) as (S2 & E2).
    { intros. rewrite E1, E, lap_app, lap_cons, lap_nil by auto. qring. }
    split; auto. intros. rewrite E2 by auto. now rewrite <- app_assoc.
Qed.

Lemma wlines_ok n LP BLP : lines_in n LP -> wlines_in n (wlines LP BLP).
Proof.
  intros L l Hl. destruct l as [[j k] b]. apply in_combine_l in Hl. destruct (L _ Hl) as (A & B & C). auto.
Qed.
Lemma lp_areas_bound LP l : In l LP -> (fst l < lp_areas LP)%nat /\ (snd l < lp_areas LP)%nat.
Proof.
  intros H. unfold lp_areas. induction LP as [|a r IH]; [destruct H|]. cbn [fold_right].
  destruct H as [->|H]; [lia|]. specialize (IH H). lia.
Qed.
Lemma lp_areas_app LP l : (fst l < lp_areas LP)%nat -> (snd l < lp_areas LP)%nat -> lp_areas (LP ++ [l]) = lp_areas LP.
Proof.
  unfold lp_areas. intros H1 H2. f_equal. rewrite fold_right_app. cbn [fold_right].
  assert (G : forall x, (x <= fold_right (fun l a => Nat.max (Nat.max (fst l) (snd l)) a) 0%nat LP)%nat ->
    fold_right (fun l a => Nat.max (Nat.max (fst l) (snd l)) a) x LP = fold_right (fun l a => Nat.max (Nat.max (fst l) (snd l)) a) 0%nat LP).
  { clear. induction LP as [|a r IH]; cbn [fold_right]; intros x Hx; [lia|].
    destruct (Nat.le_gt_cases x (fold_right (fun l a => Nat.max (Nat.max (fst l) (snd l)) a) 0%nat r)); [rewrite IH by auto; reflexivity|].
    assert (M : forall r x, fold_right (fun l a => Nat.max (Nat.max (fst l) (snd l)) a) x r =
       Nat.max x (fold_right (fun l a => Nat.max (Nat.max (fst l) (snd l)) a) 0%nat r)).
    { clear. induction r as [|b r IH]; intros x; cbn [fold_right]; [lia|]. rewrite IH. lia. }
    rewrite M. lia. }
  apply G. lia.
Qed.

Lemma distinct_lines_in LP : distinct_ends LP -> lines_in (lp_areas LP) LP.
Proof. intros D l Hl. destruct (lp_areas_bound LP l Hl). split; auto. Qed.

Lemma admitb_ok LP BLP BB : distinct_ends LP -> admitb LP BLP = Ok BB ->
  shape (lp_areas LP) (lp_areas LP) BB /\
  forall i j, (i < lp_areas LP)%nat -> (j < lp_areas LP)%nat -> mget BB i j = lap (wlines LP BLP) i j.
Proof.
  intros D E. unfold admitb in E. destruct LP as [|l0 r] eqn:EL; [discriminate|]. rewrite <- EL in *.
  injection E as <-. apply (admitb_fold (lp_areas LP) (wlines LP BLP)) with (pre := []).
  - apply wlines_ok. now apply distinct_lines_in.
  - apply mzeros_shape.
  - intros. now rewrite mget_mzeros, lap_nil.
Qed.

Theorem admitb_spec : forall LP BLP BB, distinct_ends LP -> admitb LP BLP = Ok BB ->
  let n := lp_areas LP in
  shape n n BB /\
  (forall i j, (i < n)%nat -> (j < n)%nat -> mget BB i j = mget BB j i) /\
  (forall i, (i < n)%nat -> qs n (fun j => mget BB i j) = q0) /\
  (forall i j, (i < n)%nat -> (j < n)%nat -> i <> j ->
     mget BB i j = - adm_of (fun l => joins l i j) (wlines LP BLP)) /\
  (forall i, (i < n)%nat -> mget BB i i = adm_of (fun l => ends_at l i) (wlines LP BLP)).
Proof.
  intros LP BLP BB D E n. destruct (admitb_ok LP BLP BB D E) as (S & G). split; [exact S|].
  split. { intros. rewrite !G by auto. apply lap_sym. }
  split. { intros i Hi. transitivity (qs n (fun j => lap (wlines LP BLP) i j)).
    - apply qs_ext; intros; now apply G.
    - apply lap_rowsum. apply wlines_ok. now apply distinct_lines_in. }
  split. { intros i j Hi Hj N. rewrite G by auto. unfold lap. destruct (Nat.eqb_spec i j); [contradiction|reflexivity]. }
  intros i Hi. rewrite G by auto. unfold lap. now rewrite Nat.eqb_refl.
Qed.

Lemma admitm_spec n BB i j b : shape n n BB -> (i < n)%nat -> (j < n)%nat -> i <> j ->
  shape n n (admitm BB i j b) /\
  forall x y, (x < n)%nat -> (y < n)%nat -> mget (admitm BB i j b) x y = mget BB x y + lap1 ((i, j), b) x y.
Proof.
  intros S Hi Hj N. unfold admitm.
  set (B1 := madd BB i j (- b)). assert (S1 : shape n n B1) by (apply madd_shape; auto).
  set (B2 := madd B1 j i (- b)). assert (S2 : shape n n B2) by (apply madd_shape; auto).
  set (B3 := madd B2 i i b). assert (S3 : shape n n B3) by (apply madd_shape; auto).
  split; [now apply madd_shape|]. intros x y Hx Hy. rewrite (mget_madd n n) by auto.
  unfold B3. rewrite (mget_madd n n) by auto. unfold B2. rewrite (mget_madd n n) by auto. unfold B1. rewrite (mget_madd n n) by auto.
  unfold lap1, ends_at, joins, lfrom, lto, ladm. cbn [fst snd].
  rewrite (Nat.eqb_sym i x), (Nat.eqb_sym j x), (Nat.eqb_sym i y), (Nat.eqb_sym j y).
  destruct (Nat.eqb_spec x y), (Nat.eqb_spec x i), (Nat.eqb_spec x j), (Nat.eqb_spec y i), (Nat.eqb_spec y j); subst;
    cbn [andb orb]; try congruence; try (now contradict N); qring.
Qed.
Lemma admref_spec n BB i b : shape n n BB -> (i < n)%nat ->
  shape n n (admref BB i b) /\
  forall x y, (x < n)%nat -> (y < n)%nat -> mget (admref BB i b) x y = mget BB x y + (if Nat.eqb x i && Nat.eqb y i then b else q0).
Proof. intros S Hi. split; [now apply madd_shape|]. intros. unfold admref. now rewrite (mget_madd n n). Qed.

Theorem admitm_is_rebuild : forall LP BLP BB i j b, distinct_ends LP -> length BLP = length LP ->
  admitb LP BLP = Ok BB -> (i < lp_areas LP)%nat -> (j < lp_areas LP)%nat -> i <> j ->
  admitb (LP ++ [(i, j)]) (BLP ++ [[b]]) = Ok (admitm BB i j b).
Proof.
  intros LP BLP BB i j b D L E Hi Hj N. destruct (admitb_ok LP BLP BB D E) as (S & G).
  set (n := lp_areas LP) in *.
  assert (D' : distinct_ends (LP ++ [(i, j)])).
  { intros l Hl. apply in_app_or in Hl. destruct Hl as [Hl|[<-|[]]]; auto. }
  assert (A : lp_areas (LP ++ [(i, j)]) = n) by (apply lp_areas_app; auto).
  assert (exists BB', admitb (LP ++ [(i, j)]) (BLP ++ [[b]]) = Ok BB') as (BB' & E').
  { unfold admitb. destruct (LP ++ [(i, j)]) eqn:X; [destruct LP; discriminate|]. eauto. }
  rewrite E'. f_equal. destruct (admitb_ok _ _ _ D' E') as (S' & G'). rewrite A in *.
  destruct (admitm_spec n BB i j b S Hi Hj N) as (S2 & G2).
  apply (shape_ext n n); auto. intros x y Hx Hy. rewrite G', G2, G by auto.
  unfold wlines. assert (mcol (BLP ++ [[b]]) 0 = mcol BLP 0 ++ [b]) as ->.
  { unfold mcol. rewrite map_app. reflexivity. }
  assert (combine (LP ++ [(i, j)]) (mcol BLP 0 ++ [b]) = combine LP (mcol BLP 0) ++ [((i, j), b)]) as ->.
  { assert (LL : length (mcol BLP 0) = length LP) by (unfold mcol; now rewrite map_length).
    revert LL. generalize (mcol BLP 0). clear. induction LP as [|a r IH]; intros [|c v] H; cbn in *; try discriminate; [reflexivity|].
    f_equal. apply IH. lia. }
  rewrite lap_app, lap_cons, lap_nil. qring.
Qed.

(* ------------------------------------------------------------------ *)
(** ** Removing the reference *)

Lemma del_nth_length {A} k (l : list A) : (k < length l)%nat -> length (del_nth k l) = (length l - 1)%nat.
Proof. intros H. unfold del_nth. rewrite app_length, firstn_length, skipn_length. lia. Qed.
Definition skip_ref (NR a : nat) : nat := if (a <? NR)%nat then a else S a.
Lemma nth_del_nth {A} k (l : list A) a d : (k < length l)%nat -> nth a (del_nth k l) d = nth (skip_ref k a) l d.
Proof.
  intros H. unfold del_nth, skip_ref. destruct (Nat.ltb_spec a k).
  - rewrite app_nth1 by (rewrite firstn_length; lia). rewrite <- (firstn_skipn k l) at 2.
    rewrite app_nth1 by (rewrite firstn_length; lia). reflexivity.
  - rewrite app_nth2 by (rewrite firstn_length; lia). rewrite firstn_length, Nat.min_l by lia.
    rewrite <- (firstn_skipn (S k) l) at 2. rewrite app_nth2 by (rewrite firstn_length; lia).
    rewrite firstn_length, Nat.min_l by lia. f_equal.
Qed.

Lemma pad1_spec n M : shape n n M -> shape (S n) (S n) (pad1 M) /\
  forall a b, (a < S n)%nat -> (b < S n)%nat -> mget (pad1 M) a b = if (a <? n)%nat && (b <? n)%nat then mget M a b else q0.
Proof.
  intros (L & R). unfold pad1.
  assert (C : (0 < n)%nat -> length (nth 0 M []) = n) by (intros; now apply R).
  assert (C' : n = 0%nat -> length (nth 0 M []) = 0%nat) by (intros ->; destruct M; [reflexivity|discriminate]).
  assert (W : length (nth 0 M []) = n) by (destruct n; auto; apply C; lia).
  assert (LL : length (map (fun r => r ++ [q0]) M) = n) by now rewrite map_length.
  split.
  - split; [rewrite app_length, LL; cbn; lia|]. intros j Hj. destruct (Nat.eq_dec j n) as [->|Nj].
    + rewrite app_nth2 by lia. rewrite LL, Nat.sub_diag. cbn [nth]. unfold vzeros. now rewrite repeat_length, W.
    + rewrite app_nth1 by lia. rewrite (nth_map_in _ _ _ []) by lia. rewrite app_length, R by lia. cbn; lia.
  - intros a b Ha Hb. unfold mget. destruct (Nat.ltb_spec a n); cbn [andb].
    + rewrite app_nth1 by lia. rewrite (nth_map_in _ _ _ []) by lia. destruct (Nat.ltb_spec b n).
      * rewrite app_nth1 by (rewrite R; auto). reflexivity.
      * rewrite app_nth2 by (rewrite R; auto). rewrite R by auto. replace (b - n)%nat with 0%nat by lia. reflexivity.
    + rewrite app_nth2 by lia. rewrite LL. replace (a - n)%nat with 0%nat by lia. cbn [nth]. apply vzeros_nth.
Qed.

Lemma mcol_nth (M : list (list Qc)) c i : vget (mcol M c) i = mget M i c.
Proof.
  unfold vget, mcol, mget. destruct (Nat.lt_ge_cases i (length M)).
  - now rewrite (nth_map_in _ _ _ []).
  - rewrite !nth_overflow; auto. rewrite (nth_overflow M) by lia. cbn; lia. now rewrite map_length.
Qed.
Lemma mcol_length (M : list (list Qc)) c : length (mcol M c) = length M.
Proof. unfold mcol. now rewrite map_length. Qed.

Definition lt_list (n NR : nat) : list nat := map (skip_ref NR) (seq 0 (n - 1)) ++ [NR].
Lemma lt_list_nth n NR a : (a < n - 1)%nat -> nth a (lt_list n NR) 0%nat = skip_ref NR a.
Proof. intros H. unfold lt_list. rewrite app_nth1 by (rewrite map_length, seq_length; lia). now rewrite nth_map_seq. Qed.
Lemma lt_list_last n NR : nth (n - 1) (lt_list n NR) 0%nat = NR.
Proof. unfold lt_list. rewrite app_nth2 by (rewrite map_length, seq_length; lia). rewrite map_length, seq_length, Nat.sub_diag. reflexivity. Qed.
Lemma lt_list_order n NR : (NR < n)%nat -> order_ok n NR (lt_list n NR).
Proof.
  intros H. unfold order_ok. split; [unfold lt_list; rewrite app_length, map_length, seq_length; cbn; lia|].
  split.
  { unfold lt_list. apply (Permutation_NoDup (l := NR :: map (skip_ref NR) (seq 0 (n - 1)))).
    - apply (Permutation_app_comm [NR]).
    - constructor.
      + intros C. apply in_map_iff in C. destruct C as (x & E & _). unfold skip_ref in E. destruct (Nat.ltb_spec x NR); lia.
      + apply FinFun.Injective_map_NoDup; [|apply seq_NoDup]. intros x y E. unfold skip_ref in E.
        destruct (Nat.ltb_spec x NR), (Nat.ltb_spec y NR); lia. }
  split.
  { intros a Ha. unfold lt_list in Ha. apply in_app_or in Ha. destruct Ha as [Ha|[<-|[]]]; auto.
    apply in_map_iff in Ha. destruct Ha as (x & <- & Hx). apply in_seq in Hx. unfold skip_ref. destruct (Nat.ltb_spec x NR); lia. }
  split; [lia|]. apply lt_list_last.
Qed.

Theorem admitr_spec : forall n BB BN NR, shape n n BB -> areas_numbered n BN -> (NR < n)%nat ->
  let '(BR, LT) := admitr BB BN NR in
  LT = lt_list n NR /\ order_ok n NR LT /\ shape n n BR /\
  forall a b, (a < n)%nat -> (b < n)%nat ->
    mget BR a b = if (a <? n - 1)%nat && (b <? n - 1)%nat then mget BB (nth a LT 0%nat) (nth b LT 0%nat) else q0.
Proof.
  intros n BB BN NR S (LB & NB) Hr. unfold admitr.
  assert (EL : map (fun x => Z.to_nat (qtrunc x)) (del_nth NR (mcol BN 0) ++ [vget (mcol BN 0) NR]) = lt_list n NR).
  { assert (LC : length (mcol BN 0) = n) by now rewrite mcol_length.
    apply nth_ext with (d := 0%nat) (d' := 0%nat).
    - rewrite map_length, app_length, del_nth_length by lia. unfold lt_list. rewrite app_length, map_length, seq_length, LC. reflexivity.
    - intros a Ha. rewrite map_length, app_length, del_nth_length in Ha by lia. cbn [length] in Ha.
      rewrite (nth_map_in _ _ _ q0) by (rewrite app_length, del_nth_length by lia; cbn [length]; lia).
      destruct (Nat.eq_dec a (n - 1)) as [->|Na].
      + rewrite lt_list_last. rewrite app_nth2 by (rewrite del_nth_length by lia; lia).
        rewrite del_nth_length by lia. replace (n - 1 - (length (mcol BN 0%nat) - 1))%nat with 0%nat by lia. cbn [nth].
        rewrite mcol_nth, NB, qtrunc_qz, Nat2Z.id by auto. reflexivity.
      + rewrite lt_list_nth by lia. rewrite app_nth1 by (rewrite del_nth_length by lia; lia).
        rewrite nth_del_nth by lia. change (nth (skip_ref NR a) (mcol BN 0) q0) with (vget (mcol BN 0) (skip_ref NR a)).
        rewrite mcol_nth, NB, qtrunc_qz, Nat2Z.id; auto. unfold skip_ref. destruct (Nat.ltb_spec a NR); lia. }
  rewrite EL. split; [reflexivity|]. split; [now apply lt_list_order|].
  destruct S as (LS & RS).
  assert (SD : shape (n - 1) (n - 1) (map (del_nth NR) (del_nth NR BB))).
  { split; [rewrite map_length, del_nth_length by lia; lia|]. intros j Hj.
    rewrite (nth_map_in _ _ _ []) by (rewrite del_nth_length by lia; lia).
    rewrite nth_del_nth by lia. assert ((skip_ref NR j < n)%nat) by (unfold skip_ref; destruct (Nat.ltb_spec j NR); lia).
    rewrite del_nth_length; rewrite RS by auto; lia. }
  destruct (pad1_spec (n - 1) _ SD) as (SP & GP). replace (S (n - 1)) with n in * by lia.
  split; [exact SP|]. intros a b Ha Hb. rewrite GP by auto.
  destruct (Nat.ltb_spec a (n - 1)), (Nat.ltb_spec b (n - 1)); cbn [andb]; auto.
  rewrite !lt_list_nth by auto. unfold mget. rewrite (nth_map_in _ _ _ []) by (rewrite del_nth_length by lia; lia).
  rewrite (nth_del_nth NR BB) by lia. assert ((skip_ref NR a < n)%nat) by (unfold skip_ref; destruct (Nat.ltb_spec a NR); lia).
  rewrite nth_del_nth by (rewrite RS; auto). reflexivity.
Qed.

(** the loop version *)
Lemma kept_eq n NR : (NR < n)%nat -> kept n NR = map (skip_ref NR) (seq 0 (n - 1)).
Proof.
  intros H. unfold kept.
  assert (G : forall s m, (NR < s)%nat -> filter (fun i => negb (Nat.eqb i NR)) (seq s m) = seq s m).
  { intros s m; revert s; induction m as [|m IH]; intros s Hs; [reflexivity|]. cbn [seq filter].
    destruct (Nat.eqb_spec s NR); [lia|]. cbn [negb]. now rewrite IH by lia. }
  assert (G' : forall m s, (s + m <= NR)%nat -> filter (fun i => negb (Nat.eqb i NR)) (seq s m) = seq s m).
  { induction m as [|m IH]; intros s Hs; [reflexivity|]. cbn [seq filter].
    destruct (Nat.eqb_spec s NR); [lia|]. cbn [negb]. now rewrite IH by lia. }
  replace n with (NR + (1 + (n - 1 - NR)))%nat at 1 by lia. rewrite seq_app, filter_app, G' by lia.
  cbn [plus seq filter]. rewrite Nat.eqb_refl. cbn [negb]. rewrite G by lia.
  replace (n - 1)%nat with (NR + (n - 1 - NR))%nat by lia. rewrite seq_app, map_app. f_equal.
  - rewrite <- (map_id (seq 0 NR)) at 1. apply map_ext_in. intros a Ha. apply in_seq in Ha. unfold skip_ref. destruct (Nat.ltb_spec a NR); lia.
  - replace (NR + (n - 1 - NR) - NR)%nat with (n - 1 - NR)%nat by lia. cbn [plus]. rewrite <- seq_shift. apply map_ext_in. intros a Ha. apply in_seq in Ha.
    unfold skip_ref. destruct (Nat.ltb_spec a NR); lia.
Qed.
Theorem admitr_agree : forall n BB BN NR, shape n n BB -> areas_numbered n BN -> (NR < n)%nat ->
  admitr_loop BB BN NR = admitr BB BN NR.
Proof.
  intros n BB BN NR S AN Hr. pose proof (admitr_spec n BB BN NR S AN Hr) as H. destruct (admitr BB BN NR) as [BR LT].
  destruct H as (EL & _ & SR & GR). unfold admitr_loop. rewrite (proj1 S). rewrite kept_eq by auto.
  f_equal.
  - apply (shape_ext n n); auto; [apply mtab_shape|]. intros a b Ha Hb. rewrite mget_mtab, GR by auto.
    destruct (Nat.ltb_spec a (n - 1)), (Nat.ltb_spec b (n - 1)); cbn [andb]; auto. rewrite EL, !lt_list_nth by auto.
    unfold mget at 1. rewrite map_map, nth_map_seq, map_map, nth_map_seq by auto. reflexivity.
  - rewrite EL. unfold lt_list. rewrite map_map. f_equal. apply map_ext_in. intros a Ha. apply in_seq in Ha.
    rewrite (proj2 AN), qtrunc_qz, Nat2Z.id; auto. unfold skip_ref. destruct (Nat.ltb_spec a NR); lia.
Qed.
