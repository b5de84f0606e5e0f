(** Proofs about daily, weekly and pool peaks, load scaling, capacity at peak and
    forecast levels. *)
From Verif Require Import Base BaseProofs Sums LoadModel LoadSpec LoadProofs.
Open Scope Z_scope.

(** argmax *)
Lemma argmax_from_spec : forall l pre best bv, (best < length pre)%nat -> nth best pre q0 = bv ->
  first_max pre best ->
  let '(k, v) := argmax_from l (length pre) best bv in
  first_max (pre ++ l) k /\ v = nth k (pre ++ l) q0.
Proof.
  induction l as [|x l IH]; intros pre best bv HB E FM; cbn [argmax_from].
  - rewrite app_nil_r. auto.
  - assert (L1 : length (pre ++ [x]) = S (length pre)) by (rewrite app_length; cbn; lia).
    replace (pre ++ x :: l) with ((pre ++ [x]) ++ l) by now rewrite <- app_assoc.
    rewrite <- L1. destruct FM as (_ & F1 & F2).
    assert (NP : forall i, (i < length pre)%nat -> nth i (pre ++ [x]) q0 = nth i pre q0) by (intros; now rewrite app_nth1).
    assert (NX : nth (length pre) (pre ++ [x]) q0 = x) by (rewrite app_nth2, Nat.sub_diag by lia; reflexivity).
    destruct (qltb bv x) eqn:Q.
    + apply IH; [lia|exact NX|]. split; [lia|]. rewrite NX. split.
      * intros i Hi. destruct (Nat.eq_dec i (length pre)) as [->|]; [rewrite NX; apply Qcle_refl|].
        rewrite NP by lia. specialize (F1 i ltac:(lia)). rewrite E in F1. qlra.
      * intros i Hi. rewrite NP by lia. specialize (F1 i ltac:(lia)). rewrite E in F1. qlra.
    + apply IH; [lia|rewrite NP; auto|]. split; [lia|]. rewrite (NP best) by auto. split.
      * intros i Hi. destruct (Nat.eq_dec i (length pre)) as [->|]; [rewrite NX; rewrite E; qlra|].
        rewrite NP by lia. apply F1. lia.
      * intros i Hi. rewrite NP by lia. apply F2. lia.
Qed.

Lemma argmaxv_spec l : l <> [] -> first_max l (npargmax l) /\ npmax l = nth (npargmax l) l q0.
Proof.
  intros N. destruct l as [|x t]; [congruence|]. unfold npargmax, npmax, argmaxv.
  pose proof (argmax_from_spec t [x] 0 x ltac:(cbn; lia) eq_refl) as H.
  cbn [length] in H. destruct (argmax_from t 1 0 x) as [k v]. apply H.
  split; [cbn; lia|]. split; intros i Hi; [|lia]. cbn in Hi. destruct i; [apply Qcle_refl|lia].
Qed.

Lemma first_max_unique l k k' : first_max l k -> first_max l k' -> k = k'.
Proof.
  intros (H1 & M1 & F1) (H2 & M2 & F2). destruct (Nat.lt_trichotomy k k') as [L|[L|L]]; auto; exfalso.
  - specialize (F2 k L). specialize (M1 k' H2). qlra.
  - specialize (F1 k' L). specialize (M2 k H1). qlra.
Qed.

Lemma slice_length {A} (l : list A) a n : (a + n <= length l)%nat -> length (slice l a n) = n.
Proof. intros H. unfold slice. rewrite firstn_length, skipn_length. lia. Qed.
Lemma slice_nth {A} (l : list A) a n i d : (i < n)%nat -> nth i (slice l a n) d = nth (a + i) l d.
Proof.
  intros H. unfold slice.
  assert (G : forall (m : list A) k j, (j < k)%nat -> nth j (firstn k m) d = nth j m d).
  { intros m k; revert m; induction k as [|k IH]; intros m j Hj; [lia|]. destruct m; [reflexivity|]. cbn [firstn].
    destruct j; [reflexivity|]. cbn [nth]. apply IH. lia. }
  rewrite G by auto. clear. revert l; induction a as [|a IH]; intros l; [reflexivity|].
  destruct l; cbn [skipn nth plus]; [now destruct i|apply IH].
Qed.

(** the scanning loops *)
Definition scan_le (f : nat -> Qc) (st : option Qc * nat) (j : nat) : option Qc * nat :=
  match fst st with Some m => if qleb (f j) m then st else (Some (f j), j) | None => (Some (f j), j) end.

Lemma scan_spec (f : nat -> Qc) n : (0 < n)%nat ->
  exists k, fold_left (scan_le f) (seq 0 n) (None, 0%nat) = (Some (f k), k) /\ first_max (map f (seq 0 n)) k.
Proof.
  induction n as [|n IH]; [lia|]. intros _. rewrite seq_S, fold_left_app. cbn [fold_left plus].
  destruct n as [|n].
  - exists 0%nat. split; [reflexivity|]. split; [cbn; lia|]. split; intros i Hi; [|lia].
    cbn in Hi. destruct i; [apply Qcle_refl|lia].
  - destruct (IH ltac:(lia)) as (k & E & (HK & M & F)). rewrite map_length, seq_length in *.
    rewrite E. unfold scan_le. cbn [fst].
    assert (NF : forall i, (i < S (S n))%nat -> nth i (map f (seq 0 (S n) ++ [S n])) q0 = f i).
    { intros i Hi. replace (seq 0 (S n) ++ [S n]) with (seq 0 (S (S n))) by (now rewrite (seq_S (S n) 0)). now rewrite nth_map_seq. }
    assert (NF' : forall i, (i < S n)%nat -> nth i (map f (seq 0 (S n))) q0 = f i) by (intros; now rewrite nth_map_seq).
    assert (LEN : length (map f (seq 0 (S n) ++ [S n])) = S (S n)) by (rewrite map_length, app_length, seq_length; cbn; lia).
    destruct (qleb (f (S n)) (f k)) eqn:Q.
    + exists k. split; auto. split; [lia|]. rewrite LEN. split; intros i Hi; rewrite !NF by lia.
      * destruct (Nat.eq_dec i (S n)) as [->|]; [qlra|]. specialize (M i ltac:(lia)). rewrite !NF' in M by lia. auto.
      * specialize (F i ltac:(lia)). rewrite !NF' in F by lia. auto.
    + exists (S n). split; auto. split; [lia|]. rewrite LEN. split; intros i Hi; rewrite !NF by lia.
      * destruct (Nat.eq_dec i (S n)) as [->|]; [apply Qcle_refl|]. specialize (M i ltac:(lia)). rewrite !NF' in M by lia. qlra.
      * specialize (M i ltac:(lia)). rewrite !NF' in M by lia. qlra.
Qed.

Lemma day_eq hwd row d : (d * hwd + hwd <= length row)%nat ->
  day_of hwd row d = map (fun j => nth (d * hwd + j) row q0) (seq 0 hwd).
Proof.
  intros H. apply (nth_ext_eq _ _ q0).
  - unfold day_of. rewrite slice_length, map_length, seq_length; auto.
  - intros i Hi. unfold day_of in *. rewrite slice_length in Hi by auto. rewrite slice_nth by auto. now rewrite nth_map_seq.
Qed.

Lemma scan_day_spec hwd row d : (0 < hwd)%nat -> (d * hwd + hwd <= length row)%nat ->
  scan_day row hwd d = (Some (npmax (day_of hwd row d)), (npargmax (day_of hwd row d) + hwd * d)%nat).
Proof.
  intros HW L. destruct (scan_spec (fun j => nth (d * hwd + j) row q0) hwd HW) as (k & E & FM).
  assert (G : forall js xm hr hr', (xm = None -> hr' = hr) -> (xm <> None -> hr' = (d * hwd + hr)%nat) ->
    exists o k0, fold_left (scan_le (fun j => nth (d * hwd + j) row q0)) js (xm, hr) = (o, k0) /\
    (fold_left (fun st j =>
      let '(xm, hr) := st in
      let j1 := (d * hwd + j)%nat in
      let v := nth j1 row q0 in
      match xm with
      | Some m => if qleb v m then st else (Some v, j1)
      | None => (Some v, j1)
      end) js (xm, hr') = (o, match o with None => k0 | _ => d * hwd + k0 end)%nat)).
  { induction js as [|j js IH]; intros xm hr hr' A B.
    - exists xm, hr. split; [reflexivity|]. cbn [fold_left]. destruct xm; f_equal; auto. apply B. discriminate.
    - cbn [fold_left]. unfold scan_le at 2. cbn [fst]. destruct xm as [m|].
      + destruct (qleb (nth (d * hwd + j) row q0) m); apply IH; intros; auto; try discriminate.
      + apply IH; intros; auto; discriminate. }
  unfold scan_day. destruct (G (seq 0 hwd) None 0%nat 0%nat) as (o & k0 & E1 & E2); [auto|congruence|].
  cbv zeta in E2. rewrite E2. rewrite E in E1. apply pair_equal_spec in E1 as [<- <-].
  rewrite <- day_eq in FM by auto.
  assert (NE : day_of hwd row d <> []).
  { intros Z. apply (f_equal (@length _)) in Z. unfold day_of in Z. rewrite slice_length in Z by auto. cbn in Z. lia. }
  destruct (argmaxv_spec _ NE) as (FM2 & V). rewrite (first_max_unique _ _ _ FM2 FM) in *. rewrite V.
  f_equal; [|lia]. f_equal. unfold day_of. rewrite slice_nth; [reflexivity|].
  destruct FM as (HK & _). unfold day_of in HK. rewrite slice_length in HK; auto.
Qed.

Lemma scan_year_spec row : row <> [] -> scan_year row = npargmax row.
Proof.
  intros NE. destruct (scan_spec (fun d => nth d row q0) (length row)) as (k & E & FM).
  { destruct row; [congruence|cbn; lia]. }
  assert (EQ : map (fun d => nth d row q0) (seq 0 (length row)) = row).
  { apply (nth_ext_eq _ _ q0); [now rewrite map_length, seq_length|]. intros i Hi. rewrite map_length, seq_length in Hi. now rewrite nth_map_seq. }
  rewrite EQ in FM. destruct (argmaxv_spec row NE) as (FM2 & _). rewrite (first_max_unique _ _ _ FM2 FM).
  unfold scan_year.
  assert (G : forall ds st, fold_left (fun st d =>
    let '(xm, md) := st in
    let v := nth d row q0 in
    match xm with
    | Some m => if qltb m v then (Some v, d) else st
    | None => (Some v, d)
    end) ds st = fold_left (scan_le (fun d => nth d row q0)) ds st).
  { induction ds as [|d ds IH]; intros [xm md]; [reflexivity|]. cbn [fold_left]. rewrite IH. f_equal. unfold scan_le. cbn [fst].
    destruct xm as [m|]; auto. destruct (qltb m (nth d row q0)) eqn:A; destruct (qleb (nth d row q0) m) eqn:B; auto; exfalso; qlra. }
  rewrite G, E. reflexivity.
Qed.

Theorem dpeak_agree hwd n w HRLOAD : (0 < hwd)%nat -> (0 < w)%nat -> shape n (w * hwd) HRLOAD ->
  dpeak hwd HRLOAD = dpeak_loop hwd HRLOAD.
Proof.
  intros HW W (L & R). unfold dpeak, dpeak_loop.
  assert (RI : forall row, In row HRLOAD -> length row = (w * hwd)%nat).
  { intros row IN. destruct (In_nth _ _ [] IN) as (i & Hi & <-). apply R. lia. }
  assert (A : map (fun row => map (fun d => npmax (day_of hwd row d)) (seq 0 (length row / hwd))) HRLOAD =
    map (fun row => map (fun d => or0 (fst (scan_day row hwd d))) (seq 0 (length row / hwd))) HRLOAD).
  { apply map_ext_in. intros row IN. apply map_ext_in. intros d Hd. apply in_seq in Hd. rewrite RI, Nat.div_mul in Hd by (auto; lia).
    rewrite scan_day_spec; auto. rewrite RI by auto. nia. }
  rewrite <- A. f_equal; [f_equal|].
  - apply map_ext_in. intros row IN. apply map_ext_in. intros d Hd. apply in_seq in Hd. rewrite RI, Nat.div_mul in Hd by (auto; lia).
    rewrite scan_day_spec; auto. rewrite RI by auto. nia.
  - apply map_ext_in. intros row IN. apply in_map_iff in IN as (r & <- & IN). symmetry. apply scan_year_spec.
    rewrite RI, Nat.div_mul by (auto; lia). destruct w; [lia|discriminate].
Qed.

Theorem dpeak_spec hwd n w HRLOAD MAXHR DYLOAD MAXDAY : (0 < hwd)%nat -> (0 < w)%nat -> shape n (w * hwd) HRLOAD ->
  dpeak hwd HRLOAD = (MAXHR, DYLOAD, MAXDAY) ->
  shape n w DYLOAD /\ shape n w MAXHR /\ length MAXDAY = n /\
  forall a, (a < n)%nat ->
    (forall d, (d < w)%nat ->
       let t := nth d (nth a MAXHR []) 0%nat in
       (d * hwd <= t < (d + 1) * hwd)%nat /\
       mget DYLOAD a d = mget HRLOAD a t /\
       (forall h, (d * hwd <= h < (d + 1) * hwd)%nat -> (mget HRLOAD a h <= mget HRLOAD a t)%Qc) /\
       (forall h, (d * hwd <= h < t)%nat -> (mget HRLOAD a h < mget HRLOAD a t)%Qc)) /\
    first_max (nth a DYLOAD []) (nth a MAXDAY 0%nat).
Proof.
  intros HW W (L & R) E. unfold dpeak in E. apply pair_equal_spec in E as [E E3]. apply pair_equal_spec in E as [E1 E2].
  assert (ND : forall a, (a < n)%nat -> (length (nth a HRLOAD []) / hwd = w)%nat) by (intros; rewrite R, Nat.div_mul; auto; lia).
  assert (R1 : forall a, (a < n)%nat -> nth a MAXHR [] = map (fun d => (npargmax (day_of hwd (nth a HRLOAD []) d) + hwd * d)%nat) (seq 0 w)).
  { intros a Ha. rewrite <- E1. rewrite (nth_map_in _ HRLOAD a []) by lia. rewrite ND by auto. reflexivity. }
  assert (R2 : forall a, (a < n)%nat -> nth a DYLOAD [] = map (fun d => npmax (day_of hwd (nth a HRLOAD []) d)) (seq 0 w)).
  { intros a Ha. rewrite <- E2. rewrite (nth_map_in _ HRLOAD a []) by lia. rewrite ND by auto. reflexivity. }
  split. { split; [rewrite <- E2; now rewrite map_length|]. intros. rewrite R2 by auto. now rewrite map_length, seq_length. }
  split. { split; [rewrite <- E1; now rewrite map_length|]. intros. rewrite R1 by auto. now rewrite map_length, seq_length. }
  split. { rewrite <- E3. now rewrite !map_length. }
  intros a Ha. split.
  - intros d Hd. cbv zeta. rewrite R1 by auto. rewrite (nth_map_seq _ w d 0%nat) by auto.
    unfold mget at 1. rewrite R2 by auto. rewrite (nth_map_seq _ w d q0) by auto.
    assert (LR : (d * hwd + hwd <= length (nth a HRLOAD []))%nat) by (rewrite R by auto; nia).
    assert (NE : day_of hwd (nth a HRLOAD []) d <> []).
    { intros Z. apply (f_equal (@length _)) in Z. unfold day_of in Z. rewrite slice_length in Z by auto. cbn in Z. lia. }
    destruct (argmaxv_spec _ NE) as ((HK & M & F) & V). rewrite V. set (k := npargmax _) in *.
    unfold day_of in HK, M. rewrite slice_length in HK, M by auto. unfold day_of in *.
    rewrite slice_nth in * by auto.
    assert (KE : (k + hwd * d)%nat = (d * hwd + k)%nat) by lia. rewrite KE. clear KE.
    split; [lia|]. split; [reflexivity|]. split.
    + intros h Hh. specialize (M (h - d * hwd)%nat ltac:(lia)). rewrite slice_nth in M by lia.
      replace (d * hwd + (h - d * hwd))%nat with h in M by lia. exact M.
    + intros h Hh. specialize (F (h - d * hwd)%nat ltac:(lia)). rewrite slice_nth in F by lia.
      replace (d * hwd + (h - d * hwd))%nat with h in F by lia. exact F.
  - rewrite <- E3, E2. rewrite (nth_indep _ 0%nat (npargmax [])) by (rewrite map_length, <- E2, map_length; lia).
    rewrite map_nth. apply argmaxv_spec. rewrite R2 by auto. destruct w; [lia|discriminate].
Qed.

(* ------------------------------------------------------------------ *)
(** ** weekly peaks *)

(** the days of week [w]: 7, and 8 in the last week *)
Definition max_over (row : list Qc) (lo hi : nat) (v : Qc) : Prop :=
  (exists d, (lo <= d < hi)%nat /\ v = nth d row q0) /\ forall d, (lo <= d < hi)%nat -> (nth d row q0 <= v)%Qc.

Lemma max_over_unique row lo hi v v' : max_over row lo hi v -> max_over row lo hi v' -> v = v'.
Proof.
  intros ((d & H & ->) & M) ((d' & H' & ->) & M'). specialize (M d' H'). specialize (M' d H). now apply Qcle_antisym.
Qed.

Lemma npmax_slice row a n : (0 < n)%nat -> (a + n <= length row)%nat -> max_over row a (a + n) (npmax (slice row a n)).
Proof.
  intros H L. assert (NE : slice row a n <> []).
  { intros Z. apply (f_equal (@length _)) in Z. rewrite slice_length in Z by auto. cbn in Z. lia. }
  destruct (argmaxv_spec _ NE) as ((HK & M & F) & V). rewrite slice_length in * by auto. rewrite V, slice_nth in * by auto.
  split. { exists (a + npargmax (slice row a n))%nat. split; [lia|reflexivity]. }
  intros d Hd. specialize (M (d - a)%nat ltac:(lia)). rewrite slice_nth in M by lia. now replace (a + (d - a))%nat with d in M by lia.
Qed.

Lemma scan_max (f : nat -> Qc) n : (0 < n)%nat ->
  exists k, (k < n)%nat /\ fold_left (fun xm j => match xm with Some m => if qltb m (f j) then Some (f j) else xm | None => Some (f j) end)
    (seq 0 n) None = Some (f k) /\ forall i, (i < n)%nat -> (f i <= f k)%Qc.
Proof.
  induction n as [|n IH]; [lia|]. intros _. rewrite seq_S, fold_left_app. cbn [fold_left plus]. destruct n as [|n].
  - exists 0%nat. split; [lia|]. split; [reflexivity|]. intros i Hi. destruct i; [apply Qcle_refl|lia].
  - destruct (IH ltac:(lia)) as (k & HK & E & M). rewrite E. destruct (qltb (f k) (f (S n))) eqn:Q.
    + exists (S n). split; [lia|]. split; auto. intros i Hi. destruct (Nat.eq_dec i (S n)) as [->|]; [apply Qcle_refl|].
      specialize (M i ltac:(lia)). qlra.
    + exists k. split; [lia|]. split; auto. intros i Hi. destruct (Nat.eq_dec i (S n)) as [->|]; [qlra|]. apply M. lia.
Qed.

Definition week_end (w : nat) : nat := (if w =? 51 then 365 else 7 * w + 7)%nat.

Lemma last_nth (row : list Qc) d : row <> [] -> last row d = nth (length row - 1) row d.
Proof.
  induction row as [|a row IH]; [congruence|]. intros _. destruct row as [|b row]; [reflexivity|].
  change (last (a :: b :: row) d) with (last (b :: row) d). rewrite IH by discriminate. cbn [length].
  replace (S (S (length row)) - 1)%nat with (S (S (length row) - 1)) by lia. reflexivity.
Qed.

Theorem wpeakf_spec n DYLOAD : shape n 365 DYLOAD ->
  shape n 52 (wpeakf DYLOAD) /\ forall a w, (a < n)%nat -> (w < 52)%nat ->
    max_over (nth a DYLOAD []) (7 * w) (week_end w) (mget (wpeakf DYLOAD) a w).
Proof.
  intros (L & R). unfold wpeakf.
  assert (RW : forall a, (a < n)%nat -> nth a (wpeakf DYLOAD) [] =
    let row := nth a DYLOAD [] in let WP := map (fun w => npmax (slice row (w * 7) 7)) (seq 0 52) in
    upd WP 51 (qmax (nth 51 WP q0) (last row q0))).
  { intros a Ha. unfold wpeakf. rewrite (nth_map_in _ DYLOAD a []) by lia. reflexivity. }
  fold (wpeakf DYLOAD). split.
  - split; [unfold wpeakf; now rewrite map_length|]. intros a Ha. rewrite RW by auto. cbv zeta. now rewrite upd_length, map_length, seq_length.
  - intros a w Ha Hw. unfold mget. rewrite RW by auto. cbv zeta. set (row := nth a DYLOAD []).
    assert (LR : length row = 365%nat) by (apply R; auto). rewrite nth_upd, map_length, seq_length.
    rewrite !nth_map_seq by lia. unfold week_end.
    destruct (Nat.eqb_spec 51 w) as [<-|NW]; cbn [andb Nat.ltb Nat.leb].
    + change (51 * 7)%nat with 357%nat. change (7 * 51)%nat with 357%nat. cbn [Nat.eqb].
      rewrite last_nth by (intros Z; apply (f_equal (@length _)) in Z; cbn in Z; lia). rewrite LR. change (365 - 1)%nat with 364%nat.
      destruct (npmax_slice row 357 7 ltac:(lia) ltac:(lia)) as ((d & Hd & E) & M). cbn [plus] in *.
      unfold qmax. destruct (qleb (npmax (slice row 357 7)) (nth 364 row q0)) eqn:Q; apply (proj1 (qleb_iff _ _)) in Q || apply (proj1 (qleb_false _ _)) in Q.
      * split; [exists 364%nat; split; [lia|reflexivity]|]. intros i Hi. destruct (Nat.eq_dec i 364) as [->|]; [apply Qcle_refl|].
        eapply Qcle_trans; [apply M; lia|exact Q].
      * split; [exists d; split; [lia|exact E]|]. intros i Hi. destruct (Nat.eq_dec i 364) as [->|]; [now apply Qclt_le_weak|]. apply M. lia.
    + destruct (Nat.eqb_spec w 51); [lia|]. rewrite (Nat.mul_comm w 7). apply npmax_slice; lia.
Qed.

Theorem wpeakf_agree n DYLOAD : shape n 365 DYLOAD -> wpeakf DYLOAD = wpeakf_loop DYLOAD.
Proof.
  intros S. destruct (wpeakf_spec n DYLOAD S) as ((L1 & R1) & M1). destruct S as (L & R).
  apply (nth_ext_eq _ _ []); [unfold wpeakf, wpeakf_loop; now rewrite !map_length|].
  intros a Ha. rewrite L1 in Ha.
  set (g := fun (row : list Qc) w => or0 (fold_left (fun xm j =>
       let v := nth (w * 7 + j) row q0 in
       match xm with Some m => if qltb m v then Some v else xm | None => Some v end)
      (seq 0 (if (w =? 51)%nat then 8 else 7)) None)).
  assert (RL : nth a (wpeakf_loop DYLOAD) [] = map (g (nth a DYLOAD [])) (seq 0 52)).
  { unfold wpeakf_loop. rewrite (nth_map_in _ DYLOAD a []) by lia. reflexivity. }
  rewrite RL. apply (nth_ext_eq _ _ q0); [rewrite R1 by auto; now rewrite map_length, seq_length|].
  intros w Hw. rewrite R1 in Hw by auto. rewrite nth_map_seq by auto.
  apply (max_over_unique (nth a DYLOAD []) (7 * w) (week_end w)); [apply M1; auto|].
  unfold g, week_end. set (row := nth a DYLOAD []).
  destruct (scan_max (fun j => nth (w * 7 + j) row q0) (if (w =? 51)%nat then 8 else 7)) as (k & HK & E & M).
  { destruct (w =? 51)%nat; lia. }
  cbv zeta. rewrite E. cbn [or0]. split.
  - exists (w * 7 + k)%nat. split; [|reflexivity]. destruct (Nat.eqb_spec w 51); lia.
  - intros d Hd. assert (HH : (d - w * 7 < if w =? 51 then 8 else 7)%nat) by (destruct (Nat.eqb_spec w 51); lia).
    specialize (M _ HH). now replace (w * 7 + (d - w * 7))%nat with d in M by lia.
Qed.

Lemma every_day_one_week d : (d < 365)%nat ->
  exists w, (w < 52)%nat /\ (7 * w <= d < week_end w)%nat /\
   forall w', (w' < 52)%nat -> (7 * w' <= d < week_end w')%nat -> w' = w.
Proof.
  intros H. exists (Nat.min 51 (d / 7)). pose proof (Nat.div_mod d 7 ltac:(lia)). pose proof (Nat.mod_upper_bound d 7 ltac:(lia)).
  unfold week_end. destruct (Nat.le_gt_cases 51 (d / 7)).
  - rewrite Nat.min_l by auto. cbn [Nat.eqb]. split; [lia|]. split; [lia|].
    intros w' H' B. destruct (Nat.eqb_spec w' 51); lia.
  - rewrite Nat.min_r by lia. destruct (Nat.eqb_spec (d / 7) 51); [lia|]. split; [lia|]. split; [lia|].
    intros w' H' B. destruct (Nat.eqb_spec w' 51); lia.
Qed.

(* ------------------------------------------------------------------ *)
(** ** pool peak hour *)

Theorem plhr_spec n w HRLOAD : (0 < n)%nat -> shape n (w * 24) HRLOAD ->
  length (plhr HRLOAD) = w /\
  forall d, (d < w)%nat ->
    let t := nth d (plhr HRLOAD) 0%nat in
    let pool h := qs n (fun j => mget HRLOAD j h) in
    (d * 24 <= t < (d + 1) * 24)%nat /\
    (forall h, (d * 24 <= h < (d + 1) * 24)%nat -> (pool h <= pool t)%Qc) /\
    (forall h, (d * 24 <= h < t)%nat -> (pool h < pool t)%Qc).
Proof.
  intros N0 (L & R). unfold plhr. rewrite R by auto. rewrite Nat.div_mul by lia.
  split; [now rewrite map_length, seq_length|]. intros d Hd. cbv zeta. rewrite nth_map_seq by auto.
  set (sm := map (fun t => qsum (mcol HRLOAD t)) (seq 0 (w * 24))).
  assert (LS : length sm = (w * 24)%nat) by (unfold sm; now rewrite map_length, seq_length).
  assert (PS : forall h, (h < w * 24)%nat -> nth h sm q0 = qs n (fun j => mget HRLOAD j h)).
  { intros h Hh. unfold sm. rewrite nth_map_seq by auto. unfold mcol. rewrite (qsum_map_qs _ _ []), L. reflexivity. }
  assert (LD : (d * 24 + 24 <= length sm)%nat) by lia.
  assert (NE : day_of 24 sm d <> []).
  { intros Z. apply (f_equal (@length _)) in Z. unfold day_of in Z. rewrite slice_length in Z by auto. cbn in Z. lia. }
  destruct (argmaxv_spec _ NE) as ((HK & M & F) & _). set (k := npargmax (day_of 24 sm d)) in *. clearbody k.
  unfold day_of in *. rewrite slice_length in * by auto. rewrite (slice_nth sm (d * 24) 24 k) in * by auto.
  rewrite (PS (d * 24 + k)%nat) in * by lia. rewrite (Nat.add_comm k), (Nat.mul_comm 24).
  split; [lia|]. split; intros h Hh.
  - specialize (M (h - d * 24)%nat ltac:(lia)). rewrite slice_nth in M by lia.
    replace (d * 24 + (h - d * 24))%nat with h in M by lia. now rewrite PS in M by lia.
  - specialize (F (h - d * 24)%nat ltac:(lia)). rewrite slice_nth in F by lia.
    replace (d * 24 + (h - d * 24))%nat with h in F by lia. now rewrite PS in F by lia.
Qed.

(* ------------------------------------------------------------------ *)
(** ** load scaling *)

Lemma amax_spec l : forall i, let m := fold_left qmax l i in
  (i <= m)%Qc /\ (forall x, In x l -> (x <= m)%Qc) /\ (m = i \/ In m l).
Proof.
  induction l as [|a l IH]; intros i; cbn [fold_left]; cbv zeta.
  - split; [apply Qcle_refl|]. split; [intros x []|]. now left.
  - destruct (IH (qmax i a)) as (A & B & C). cbv zeta in *. set (m := fold_left qmax l (qmax i a)) in *.
    assert (HM : (i <= qmax i a)%Qc /\ (a <= qmax i a)%Qc /\ (qmax i a = i \/ qmax i a = a)).
    { unfold qmax. destruct (qleb i a) eqn:Q.
      - apply (proj1 (qleb_iff _ _)) in Q. repeat split; auto using Qcle_refl.
      - apply (proj1 (qleb_false _ _)) in Q. repeat split; auto using Qcle_refl, Qclt_le_weak. }
    destruct HM as (H1 & H2 & H3). split; [eapply Qcle_trans; eauto|]. split.
    + intros x [<-|IN]; [eapply Qcle_trans; eauto|auto].
    + destruct C as [C|C]; [|right; now right]. rewrite C. destruct H3 as [E|E]; rewrite E; [now left|right; now left].
Qed.

Theorem rescale_spec row pk : (exists v, In v row /\ (qq 1 1000 <= v)%Qc) -> (q0 <= pk)%Qc ->
  length (rescale row pk) = length row /\
  (exists t, (t < length row)%nat /\ nth t (rescale row pk) q0 = pk) /\
  (forall t, (t < length row)%nat -> (nth t (rescale row pk) q0 <= pk)%Qc) /\
  (forall s t, (s < length row)%nat -> (t < length row)%nat ->
     Qcmult (nth s (rescale row pk) q0) (nth t row q0) = Qcmult (nth t (rescale row pk) q0) (nth s row q0)).
Proof.
  intros (v & IN & HV) PK. unfold rescale, amax_init.
  destruct (amax_spec row (qq 1 1000)) as (A & B & C). cbv zeta in *. set (m := fold_left qmax row (qq 1 1000)) in *.
  assert (MP : (q0 < m)%Qc) by qlra.
  assert (MN : m <> 0%Qc) by (intros Z; rewrite Z in MP; change 0%Qc with q0 in MP; qlra).
  assert (INM : In m row).
  { destruct C as [C|C]; auto. assert (v = m); [|congruence]. specialize (B v IN). apply Qcle_antisym; auto. rewrite C. exact HV. }
  assert (NT : forall t, (t < length row)%nat -> nth t (map (fun v => Qcmult (Qcdiv v m) pk) row) q0 = Qcmult (Qcdiv (nth t row q0) m) pk).
  { intros t Ht. now rewrite (nth_map_in _ row t q0). }
  split; [now rewrite map_length|]. split; [|split].
  - destruct (In_nth _ _ q0 INM) as (t & Ht & E). exists t. split; auto. rewrite NT, E by auto.
    unfold Qcdiv. rewrite Qcmult_inv_r by auto. qring.
  - intros t Ht. rewrite NT by auto. assert (LE : (nth t row q0 <= m)%Qc) by (apply B, nth_In; auto).
    assert (D : (Qcdiv (nth t row q0) m <= q1)%Qc).
    { apply Qcmult_lt_0_le_reg_r with (z := m); auto. unfold Qcdiv. rewrite <- Qcmult_assoc, (Qcmult_comm (/ m)), Qcmult_inv_r by auto.
      change q1 with 1%Qc. rewrite Qcmult_1_r, Qcmult_1_l. auto. }
    set (x := Qcdiv (nth t row q0) m) in *. clearbody x. qnra.
  - intros s t Hs Ht. rewrite !NT by auto. unfold Qcdiv. qring.
Qed.

(* ------------------------------------------------------------------ *)
(** ** capacity at the annual peak *)

Lemma owned_qs CAPOWN RATES i s nu : length (nth i CAPOWN []) = nu ->
  owned CAPOWN RATES i s = qs nu (fun j => Qcmult (mget CAPOWN i j) (mget RATES j s)).
Proof.
  intros L. unfold owned. rewrite L. clear L. induction nu as [|nu IH]; [reflexivity|].
  rewrite seq_S, fold_left_app. cbn [fold_left plus]. rewrite IH, qs_S. reflexivity.
Qed.

Lemma fold_contracts_qs n (f g : nat -> Qc) (bf bg : nat -> bool) a :
  fold_left (fun acc j1 =>
      let acc := if bf j1 then acc else Qcminus acc (f j1) in
      if bg j1 then acc else Qcplus acc (g j1)) (seq 0 n) a
  = Qcplus (Qcminus a (qs n (fun k => if bf k then q0 else f k))) (qs n (fun k => if bg k then q0 else g k)).
Proof.
  cbv zeta. induction n as [|n IH]; [cbn; qring|]. rewrite seq_S, fold_left_app. cbn [fold_left plus]. rewrite IH, !qs_S.
  destruct (bf n), (bg n); qring.
Qed.

Lemma intch_sum_row n JENT INTCH i d : shape n n JENT -> (i < n)%nat ->
  intch_sum INTCH (nth i JENT []) d = qs n (fun k => amount JENT INTCH i k d).
Proof.
  intros (L & R) Hi. unfold intch_sum. rewrite qsum_filter, (qsum_map_qs _ _ 0), R by auto.
  apply qs_ext. intros k Hk. unfold amount, zmget. destruct (_ =? -1); reflexivity.
Qed.
Lemma intch_sum_col n JENT INTCH i d : shape n n JENT -> (i < n)%nat ->
  intch_sum INTCH (map (fun r => nth i r 0) JENT) d = qs n (fun k => amount JENT INTCH k i d).
Proof.
  intros (L & R) Hi. unfold intch_sum. rewrite qsum_filter, (qsum_map_qs _ _ 0), map_length, L by auto.
  apply qs_ext. intros k Hk. assert (E : nth k (map (fun r : list Z => nth i r 0) JENT) 0 = zmget JENT k i).
  { unfold zmget. rewrite (nth_map_in _ JENT k []) by lia. reflexivity. }
  rewrite E. unfold amount. destruct (_ =? -1); reflexivity.
Qed.

Theorem resca_value n nu MAXDAY QTR CAPOWN RATES JENT INTCH i :
  shape n n JENT -> shape n nu CAPOWN -> (i < n)%nat ->
  let d := nth i MAXDAY 0%nat in
  resca_area MAXDAY QTR CAPOWN RATES JENT INTCH i =
    Qcminus (qs nu (fun j => Qcmult (mget CAPOWN i j) (mget RATES j (peak_season QTR (Z.of_nat d)))))
            (net_export n JENT INTCH i d) /\
  resca_area_loop MAXDAY QTR CAPOWN RATES JENT INTCH i =
    Qcminus (qs nu (fun j => Qcmult (mget CAPOWN i j) (mget RATES j (peak_season_loop QTR (Z.of_nat d)))))
            (net_export n JENT INTCH i d).
Proof.
  intros S SO Hi d. unfold resca_area, resca_area_loop. fold d.
  rewrite !(owned_qs _ _ _ _ nu) by (apply SO; auto). split.
  - rewrite (intch_sum_row n), (intch_sum_col n) by auto. unfold net_export. qring.
  - destruct S as (L & R). rewrite L.
    etransitivity; [apply (fold_contracts_qs n (fun k => mget INTCH (Z.to_nat (zmget JENT i k)) d) (fun k => mget INTCH (Z.to_nat (zmget JENT k i)) d)
       (fun k => zmget JENT i k =? -1) (fun k => zmget JENT k i =? -1))|].
    unfold net_export, amount. qring.
Qed.

(** the loop version picks the season containing the hour *)
Theorem peak_season_loop_spec QTR d : length QTR = 3%nat ->
  (nth 0 QTR q0 <= nth 1 QTR q0)%Qc -> (nth 1 QTR q0 <= nth 2 QTR q0)%Qc ->
  season_of QTR (qz (d * 24)) (peak_season_loop QTR d).
Proof.
  intros L O1 O2. unfold peak_season_loop, season_of. set (h := qz (d * 24)). clearbody h.
  destruct (qltb (nth 2 QTR q0) h) eqn:E2; [|destruct (qltb (nth 1 QTR q0) h) eqn:E1; [|destruct (qltb (nth 0 QTR q0) h) eqn:E0]];
   qc_bool; (split; [lia|]); split; intros k H1 H2; destruct k as [|[|[|k]]]; try lia; try assumption; try qlra.
Qed.

(** the vectorised version agrees except in the last season (and on ties) *)
Theorem peak_season_agree QTR d : length QTR = 3%nat ->
  (nth 0 QTR q0 <= nth 1 QTR q0)%Qc -> (nth 1 QTR q0 <= nth 2 QTR q0)%Qc ->
  (qz (d * 24) < nth 2 QTR q0)%Qc -> qz (d * 24) <> nth 0 QTR q0 -> qz (d * 24) <> nth 1 QTR q0 ->
  peak_season QTR d = peak_season_loop QTR d.
Proof.
  intros L O1 O2 H2 N0 N1. unfold peak_season, peak_season_loop. rewrite L. cbn [seq find]. set (h := qz (d * 24)) in *. clearbody h.
  destruct (qltb h (nth 0 QTR q0)) eqn:A0; destruct (qltb h (nth 1 QTR q0)) eqn:A1; destruct (qltb h (nth 2 QTR q0)) eqn:A2;
  destruct (qltb (nth 0 QTR q0) h) eqn:B0; destruct (qltb (nth 1 QTR q0) h) eqn:B1; destruct (qltb (nth 2 QTR q0) h) eqn:B2;
  try reflexivity; exfalso; qc_bool; try (apply N0; qlra); try (apply N1; qlra); qlra.
Qed.

(* ------------------------------------------------------------------ *)
(** ** forecast levels *)

Lemma fcterr_mono fu k l : (q0 <= fu)%Qc -> (k <= l <= 4)%nat ->
  (nth l (fcterr_row fu) q0 <= nth k (fcterr_row fu) q0)%Qc.
Proof.
  intros F H. unfold fcterr_row.
  assert (D1 : Qcdiv fu (qz 100) = Qcmult fu (qq 1 100)) by (unfold Qcdiv; f_equal; apply Qc_is_canon; reflexivity).
  assert (D2 : Qcdiv (Qcmult fu (qq 5 2)) (qz 100) = Qcplus (Qcmult fu (qq 1 100)) (Qcmult fu (qq 3 200))).
  { unfold Qcdiv. rewrite <- Qcmult_assoc, <- Qcmult_plus_distr_r. f_equal. apply Qc_is_canon. reflexivity. }
  assert (P : forall n d, (0 <= n)%Z -> (q0 <= Qcmult fu (qq n d))%Qc).
  { intros n d Hn. assert ((q0 <= qq n d)%Qc) by (unfold q0, Qcle; rewrite this_qz, this_qq; unfold Qle; cbn; lia).
    set (x := qq n d) in *. clearbody x. qnra. }
  pose proof (P 1 100%positive ltac:(lia)) as P1. pose proof (P 3 200%positive ltac:(lia)) as P2.
  rewrite D1, D2. set (x := Qcmult fu (qq 1 100)) in *. set (y := Qcmult fu (qq 3 200)) in *. clearbody x y. clear D1 D2.
  destruct l as [|[|[|[|[|l]]]]]; try lia; destruct k as [|[|[|[|[|k]]]]]; try lia; cbn [nth]; qlra.
Qed.

Lemma findld_ok H F k JHOUR w t : length H = length F -> (forall r, In r H -> length r = w) -> pyidx w JHOUR = Some t ->
  findld k JHOUR H F = Ok (map2 (fun r f => Qcmult (nth t r q0) (nth k f q0)) H F).
Proof.
  intros L R P. revert F L; induction H as [|r H IH]; intros [|f F] L; try discriminate; [reflexivity|].
  unfold findld. cbn [combine fold_right]. fold (findld k JHOUR H F). rewrite IH by (auto; intros; apply R; now right).
  cbn [bind fst snd]. unfold pyget. rewrite (R r (or_introl eq_refl)), P.
  assert (t < w)%nat.
  { unfold pyidx in P. destruct (_ && _) eqn:B1 in P.
    - injection P as <-. apply andb_true_iff in B1 as [B1 B2]. apply Z.leb_le in B1. apply Z.ltb_lt in B2. lia.
    - destruct (_ && _) eqn:B2 in P; [|discriminate]. injection P as <-.
      apply andb_true_iff in B2 as [B2 B3]. apply Z.leb_le in B3. apply Z.ltb_lt in B2. lia. }
  destruct (nth_error r t) eqn:E.
  - cbn [of_option bind]. unfold map2. cbn [combine map fst snd]. do 3 f_equal. symmetry. now apply nth_error_nth.
  - apply nth_error_None in E. rewrite (R r (or_introl eq_refl)) in E. lia.
Qed.

Lemma qtrunc_mono a b : (a <= b)%Qc -> qtrunc a <= qtrunc b.
Proof.
  intros H. unfold Qcle, Qle in H. unfold qtrunc. set (x := Qnum (this a)) in *. set (y := Qnum (this b)) in *.
  set (p := Z.pos (Qden (this a))) in *. set (q := Z.pos (Qden (this b))) in *.
  assert (HP : 0 < p) by (unfold p; lia). assert (HQ : 0 < q) by (unfold q; lia). clearbody x y p q.
  assert (E1 : Z.quot x p = Z.quot (x * q) (p * q)) by (rewrite Z.quot_mul_cancel_r; lia).
  assert (E2 : Z.quot y q = Z.quot (y * p) (p * q)) by (rewrite (Z.mul_comm p q), Z.quot_mul_cancel_r; lia).
  rewrite E1, E2. apply Z.quot_le_mono; nia.
Qed.

Theorem levels_ordered n w FU H JHOUR t k l :
  shape n w H -> length FU = n -> pyidx w JHOUR = Some t ->
  (forall j, (j < n)%nat -> (q0 <= mget H j t)%Qc) -> (forall j, (j < n)%nat -> (q0 <= vget FU j)%Qc) ->
  (k <= l <= 4)%nat ->
  exists dk dl, findld k JHOUR H (map fcterr_row FU) = Ok dk /\ findld l JHOUR H (map fcterr_row FU) = Ok dl /\
    length dk = n /\ length dl = n /\
    (forall j, (j < n)%nat -> (vget dl j <= vget dk j)%Qc) /\
    (forall SYSCON, length SYSCON = n ->
       (forall m, In m (margins SYSCON dk) -> 0 <= m) -> forall m, In m (margins SYSCON dl) -> 0 <= m).
Proof.
  intros (L & R) LF P HN FN KL.
  assert (RI : forall r, In r H -> length r = w).
  { intros r IN. destruct (In_nth _ _ [] IN) as (i & Hi & <-). apply R. lia. }
  assert (LM : length H = length (map fcterr_row FU)) by (rewrite map_length; congruence).
  rewrite !(findld_ok H _ _ JHOUR w t) by auto.
  set (d := fun k => map2 (fun r f => Qcmult (nth t r q0) (nth k f q0)) H (map fcterr_row FU)).
  assert (LD : forall k, length (d k) = n) by (intros; unfold d; rewrite map2_length; auto).
  assert (ND : forall k j, (j < n)%nat -> vget (d k) j = Qcmult (mget H j t) (nth k (fcterr_row (vget FU j)) q0)).
  { intros k' j Hj. unfold vget at 1, d. rewrite (map2_nth _ _ _ _ [] []) by (auto; lia). unfold mget. do 2 f_equal.
    rewrite (nth_indep _ [] (fcterr_row q0)) by (rewrite map_length; lia). now rewrite map_nth. }
  assert (MO : forall j, (j < n)%nat -> (vget (d l) j <= vget (d k) j)%Qc).
  { intros j Hj. rewrite !ND by auto. pose proof (fcterr_mono (vget FU j) k l (FN j Hj) KL). pose proof (HN j Hj).
    set (x := mget H j t) in *. set (a := nth l _ q0) in *. set (b := nth k _ q0) in *. clearbody x a b. qnra. }
  exists (d k), (d l). do 2 (split; [reflexivity|]). do 2 (split; [apply LD|]). split; [exact MO|].
  intros SC LS NK m IN. destruct (In_nth _ _ 0 IN) as (j & Hj & <-).
  unfold margins in *. rewrite map2_length in Hj by (rewrite LD; auto). rewrite LS in Hj.
  rewrite (map2_nth _ _ _ _ q0 q0) by (rewrite ?LD; lia).
  apply Z.le_trans with (qtrunc (Qcminus (nth j SC q0) (nth j (d k) q0))).
  - apply NK. rewrite <- (map2_nth (fun a b => qtrunc (Qcminus a b)) SC (d k) j q0 q0 0) by (rewrite ?LD; lia). apply nth_In. rewrite map2_length; rewrite ?LD; lia.
  - apply qtrunc_mono. specialize (MO j Hj). unfold vget in MO. set (x := nth j (d l) q0) in *. set (y := nth j (d k) q0) in *. clearbody x y. qlra.
Qed.

Theorem resca_loop_season n nu MAXDAY QTR CAPOWN RATES JENT INTCH i :
  shape n n JENT -> shape n nu CAPOWN -> (i < n)%nat -> length QTR = 3%nat ->
  (nth 0 QTR q0 <= nth 1 QTR q0)%Qc -> (nth 1 QTR q0 <= nth 2 QTR q0)%Qc ->
  let d := nth i MAXDAY 0%nat in
  exists s, season_of QTR (qz (Z.of_nat d * 24)) s /\
  resca_area_loop MAXDAY QTR CAPOWN RATES JENT INTCH i =
    Qcminus (qs nu (fun j => Qcmult (mget CAPOWN i j) (mget RATES j s))) (net_export n JENT INTCH i d).
Proof.
  intros S SO Hi L O1 O2 d. exists (peak_season_loop QTR (Z.of_nat d)).
  split; [now apply peak_season_loop_spec|]. now apply (resca_value n nu MAXDAY QTR CAPOWN RATES JENT INTCH i S SO Hi).
Qed.

Theorem resca_season n nu MAXDAY QTR CAPOWN RATES JENT INTCH i :
  shape n n JENT -> shape n nu CAPOWN -> (i < n)%nat -> length QTR = 3%nat ->
  (nth 0 QTR q0 <= nth 1 QTR q0)%Qc -> (nth 1 QTR q0 <= nth 2 QTR q0)%Qc ->
  let d := nth i MAXDAY 0%nat in
  (qz (Z.of_nat d * 24) < nth 2 QTR q0)%Qc ->
  qz (Z.of_nat d * 24) <> nth 0 QTR q0 -> qz (Z.of_nat d * 24) <> nth 1 QTR q0 ->
  exists s, season_of QTR (qz (Z.of_nat d * 24)) s /\
  resca_area MAXDAY QTR CAPOWN RATES JENT INTCH i =
    Qcminus (qs nu (fun j => Qcmult (mget CAPOWN i j) (mget RATES j s))) (net_export n JENT INTCH i d) /\
  resca_area MAXDAY QTR CAPOWN RATES JENT INTCH i = resca_area_loop MAXDAY QTR CAPOWN RATES JENT INTCH i.
Proof.
  intros S SO Hi L O1 O2 d H2 N0 N1. exists (peak_season_loop QTR (Z.of_nat d)).
  split; [now apply peak_season_loop_spec|].
  destruct (resca_value n nu MAXDAY QTR CAPOWN RATES JENT INTCH i S SO Hi) as (E1 & E2). fold d in E1, E2.
  rewrite (peak_season_agree QTR (Z.of_nat d)) in E1 by auto. split; [exact E1|]. now rewrite E1, E2.
Qed.
