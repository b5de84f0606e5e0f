(** Sums of floats: exact on a grid, error bound in general; capacity, contracts, margins,
    load scaling, forecast factors. *)
From Coq Require Import Permutation.
From Verif Require Import Base BaseProofs Sums LoadModel LoadSpec FloatSpec FloatModel FloatProofs.
Open Scope Z_scope.

(* ---------------- the grid ---------------- *)
Lemma grid_0 k : on_grid k q0.
Proof. exists 0. change (qz 0) with 0%Qc. change q0 with 0%Qc. ring. Qed.
Lemma grid_plus k x y : on_grid k x -> on_grid k y -> on_grid k (Qcplus x y).
Proof. intros (n & ->) (m & ->). exists (n + m). rewrite qz_plus. ring. Qed.
Lemma grid_opp k x : on_grid k x -> on_grid k (Qcopp x).
Proof. intros (n & ->). exists (- n). rewrite qz_opp. ring. Qed.
Lemma grid_minus k x y : on_grid k x -> on_grid k y -> on_grid k (Qcminus x y).
Proof. intros A B. unfold Qcminus. apply grid_plus; auto. now apply grid_opp. Qed.
Lemma grid_qsum k l : Forall (on_grid k) l -> on_grid k (qsum l).
Proof. induction 1; [apply grid_0|]. rewrite qsum_cons. now apply grid_plus. Qed.
Lemma grid_qz z : on_grid 0 (qz z).
Proof. exists z. change (p2 (- 0)) with 1%Qc. ring. Qed.

Lemma grid_flt k x : 0 <= k <= 1074 -> on_grid k x -> (qabs x <= p2 (53 - k))%Qc -> flt x.
Proof.
  intros K (n & ->) H. apply flt_grid; [exact K|].
  rewrite qabs_mult, qabs_qz in H. pose proof (p2_pos (- k)) as P.
  rewrite (qabs_of_nonneg (p2 (- k))) in H by qlra.
  replace (53 - k) with (53 + - k) in H by lia. rewrite p2_plus in H.
  apply qmul_le_inv in H; [|exact P]. rewrite p2_nonneg in H by lia. now apply (proj1 (qz_le _ _)) in H.
Qed.
Lemma grid_exact k x : 0 <= k <= 1074 -> on_grid k x -> (qabs x <= p2 (53 - k))%Qc -> fl x = x.
Proof. intros. apply fl_exact. eapply grid_flt; eauto. Qed.

Definition qsabs (l : list Qc) : Qc := qsum (map qabs l).
Lemma qsabs_nonneg l : (q0 <= qsabs l)%Qc.
Proof. unfold qsabs. induction l; cbn [map]; [apply Qcle_refl|]. rewrite qsum_cons. pose proof (qabs_nonneg a). qlra. Qed.
Lemma qsabs_cons a l : qsabs (a :: l) = Qcplus (qabs a) (qsabs l). Proof. reflexivity. Qed.
Lemma qsabs_app l m : qsabs (l ++ m) = Qcplus (qsabs l) (qsabs m).
Proof. unfold qsabs. now rewrite map_app, qsum_app. Qed.
Lemma qsabs_ge l : (qabs (qsum l) <= qsabs l)%Qc.
Proof.
  induction l as [|a l IH].
  - rewrite (qabs_of_nonneg (qsum [])) by (rewrite qsum_nil; apply Qcle_refl). apply Qcle_refl.
  - rewrite qsum_cons, qsabs_cons. pose proof (qabs_triangle a (qsum l)). qlra.
Qed.
Lemma qsum_perm l m : Permutation l m -> qsum l = qsum m.
Proof. induction 1; rewrite ?qsum_cons; try congruence. qring. Qed.
Lemma qsabs_perm l m : Permutation l m -> qsabs l = qsabs m.
Proof. intros P. unfold qsabs. apply qsum_perm. now apply Permutation_map. Qed.

Theorem feval_grid k t : 0 <= k <= 1074 -> Forall (on_grid k) (leaves t) ->
  (qsum (map qabs (leaves t)) <= p2 (53 - k))%Qc -> feval t = qsum (leaves t).
Proof.
  intros K. change (qsum (map qabs (leaves t))) with (qsabs (leaves t)).
  induction t as [x|l IHl r IHr]; cbn [leaves feval]; intros G B.
  - rewrite qsum_cons, qsum_nil. qring.
  - rewrite Forall_app in G. destruct G as [Gl Gr]. rewrite qsabs_app in B.
    pose proof (qsabs_nonneg (leaves l)). pose proof (qsabs_nonneg (leaves r)).
    rewrite IHl, IHr by (auto; qlra). rewrite qsum_app. unfold fadd. apply (grid_exact k); auto.
    + apply grid_plus; now apply grid_qsum.
    + pose proof (qabs_triangle (qsum (leaves l)) (qsum (leaves r))).
      pose proof (qsabs_ge (leaves l)). pose proof (qsabs_ge (leaves r)). qlra.
Qed.
Theorem fsum_grid k l x : 0 <= k <= 1074 -> Forall (on_grid k) l ->
  (qsum (map qabs l) <= p2 (53 - k))%Qc -> fsum_to l x -> x = qsum l.
Proof.
  intros K G B S. destruct S as [|t l P]; [reflexivity|].
  assert (G' : Forall (on_grid k) (leaves t)) by (eapply Permutation_Forall; [apply Permutation_sym; exact P|exact G]).
  assert (B' : (qsum (map qabs (leaves t)) <= p2 (53 - k))%Qc).
  { change (qsabs (leaves t) <= p2 (53 - k))%Qc. rewrite (qsabs_perm _ _ P). exact B. }
  rewrite (feval_grid k t K G' B').
  now apply qsum_perm.
Qed.

(* ---------------- error of any sum ---------------- *)
Lemma feval_flt t : Forall flt (leaves t) -> flt (feval t).
Proof.
  destruct t; cbn [feval leaves]; intros H; [now inversion H|]. apply fl_flt.
Qed.
Fixpoint gpow (d : nat) : Qc := match d with O => q1 | S d => Qcmult (gpow d) (Qcplus q1 (p2 (-53))) end.
Lemma gpow_ge1 d : (q1 <= gpow d)%Qc.
Proof.
  pose proof (p2_pos (-53)) as P. set (u := p2 (-53)) in *. induction d; cbn [gpow]; [apply Qcle_refl|].
  fold u. clearbody u. qnra.
Qed.
Lemma gpow_mono a b : (a <= b)%nat -> (gpow a <= gpow b)%Qc.
Proof.
  induction 1; [apply Qcle_refl|]. cbn [gpow]. pose proof (gpow_ge1 m). pose proof (p2_pos (-53)) as P.
  set (u := p2 (-53)) in *. clearbody u. qnra.
Qed.
Lemma feval_gerr t : Forall flt (leaves t) ->
  (qabs (Qcminus (feval t) (qsum (leaves t))) <= (gpow (depth t) - q1) * qsabs (leaves t))%Qc.
Proof.
  induction t as [x|l IHl r IHr]; cbn [leaves feval depth]; intros F.
  - rewrite qsum_cons, qsum_nil. replace (Qcminus x (Qcplus x q0)) with q0 by (change q0 with 0%Qc; ring).
    rewrite (qabs_of_nonneg q0) by apply Qcle_refl. cbn [gpow].
    replace ((q1 - q1) * qsabs [x])%Qc with q0 by (change q0 with 0%Qc; ring). apply Qcle_refl.
  - rewrite Forall_app in F. destruct F as [Fl Fr]. specialize (IHl Fl). specialize (IHr Fr).
    pose proof (fadd_error _ _ (feval_flt l Fl) (feval_flt r Fr)) as E.
    rewrite qsum_app, qsabs_app.
    pose proof (gpow_mono (depth l) (Nat.max (depth l) (depth r)) ltac:(lia)) as M1.
    pose proof (gpow_mono (depth r) (Nat.max (depth l) (depth r)) ltac:(lia)) as M2.
    pose proof (gpow_ge1 (Nat.max (depth l) (depth r))) as G1.
    cbn [gpow]. set (g := gpow (Nat.max (depth l) (depth r))) in *.
    pose proof (qsabs_ge (leaves l)) as A1. pose proof (qsabs_ge (leaves r)) as A2.
    pose proof (qsabs_nonneg (leaves l)) as N1. pose proof (qsabs_nonneg (leaves r)) as N2.
    pose proof (p2_pos (-53)) as P.
    set (u := p2 (-53)) in *. set (a := feval l) in *. set (b := feval r) in *. set (v := fadd a b) in *.
    set (sl := qsum (leaves l)) in *. set (sr := qsum (leaves r)) in *.
    set (al := qsabs (leaves l)) in *. set (ar := qsabs (leaves r)) in *.
    assert (IL : (qabs (a - sl) <= (g - q1) * al)%Qc).
    { eapply Qcle_trans; [exact IHl|]. apply qmul_le; [exact N1|qlra]. }
    assert (IR : (qabs (b - sr) <= (g - q1) * ar)%Qc).
    { eapply Qcle_trans; [exact IHr|]. apply qmul_le; [exact N2|qlra]. }
    assert (AB : (qabs (a + b) <= g * (al + ar))%Qc).
    { pose proof (qabs_triangle a b). pose proof (qabs_triangle (a - sl) sl) as T1. pose proof (qabs_triangle (b - sr) sr) as T2.
      replace (a - sl + sl)%Qc with a in T1 by ring. replace (b - sr + sr)%Qc with b in T2 by ring.
      replace (g * (al + ar))%Qc with ((g - q1) * al + (g - q1) * ar + (al + ar))%Qc by (change q1 with 1%Qc; ring).
      set (x1 := ((g - q1) * al)%Qc) in *. set (x2 := ((g - q1) * ar)%Qc) in *. clearbody x1 x2.
      qlra. }
    assert (UE : (u * qabs (a + b) <= u * (g * (al + ar)))%Qc).
    { rewrite !(Qcmult_comm u). apply qmul_le; [qlra|exact AB]. }
    replace ((g * (q1 + u) - q1) * (al + ar))%Qc with (u * (g * (al + ar)) + ((g - q1) * al + (g - q1) * ar))%Qc by (change q1 with 1%Qc; ring).
    pose proof (qabs_triangle (v - (a + b)) ((a - sl) + (b - sr))) as T. pose proof (qabs_triangle (a - sl) (b - sr)) as T'.
    replace (v - (a + b) + ((a - sl) + (b - sr)))%Qc with (v - (sl + sr))%Qc in T by ring.
    rewrite (qabs_minus_sym v (a + b)) in T.
    set (x0 := (u * (g * (al + ar)))%Qc) in *. set (x1 := ((g - q1) * al)%Qc) in *. set (x2 := ((g - q1) * ar)%Qc) in *.
    set (y := (u * qabs (a + b))%Qc) in *. clearbody x0 x1 x2 y. qlra.
Qed.
Lemma gpow_bound d : Z.of_nat d <= 2 ^ 52 -> (gpow d <= q1 + qz (Z.of_nat d) * p2 (-52))%Qc.
Proof.
  induction d as [|d IH]; intros H.
  - cbn [gpow]. change (qz (Z.of_nat 0)) with 0%Qc. replace (q1 + 0 * p2 (-52))%Qc with q1 by ring. apply Qcle_refl.
  - rewrite Nat2Z.inj_succ in *. specialize (IH ltac:(lia)). cbn [gpow]. unfold Z.succ. rewrite qz_plus.
    assert (E : p2 (-52) = (p2 (-53) + p2 (-53))%Qc).
    { change (-52) with (-53 + 1). rewrite p2_plus. change (p2 1) with (1 + 1)%Qc. ring. }
    pose proof (p2_pos (-53)) as P.
    assert (D : (qz (Z.of_nat d) * p2 (-52) <= q1)%Qc).
    { assert (X : (qz (Z.of_nat d) <= qz (2 ^ 52))%Qc) by (apply qz_le; lia).
      pose proof (p2_pos (-52)) as P'. apply (qmul_le _ _ (p2 (-52)) ltac:(qlra)) in X.
      rewrite <- p2_nonneg in X by lia. rewrite p2_inv in X. exact X. }
    assert (D0 : (q0 <= qz (Z.of_nat d))%Qc) by (apply (proj2 (qz_le 0 _)); lia).
    rewrite E in *. set (u := p2 (-53)) in *. set (n := qz (Z.of_nat d)) in *. set (g := gpow d) in *. clearbody u n g.
    change (qz 1) with q1.
    assert (S1 : (g * (q1 + u) <= (q1 + n * (u + u)) * (q1 + u))%Qc) by (apply qmul_le; [unfold q1; qlra|exact IH]).
    eapply Qcle_trans; [exact S1|].
    assert (S2 : (n * (u + u) * u <= q1 * u)%Qc) by (apply qmul_le; [qlra|exact D]).
    replace ((q1 + n * (u + u)) * (q1 + u))%Qc with (q1 + n * (u + u) + u + n * (u + u) * u)%Qc by (change q1 with 1%Qc; ring).
    replace ((n + q1) * (u + u))%Qc with (n * (u + u) + u + q1 * u)%Qc by (change q1 with 1%Qc; ring).
    set (x := (n * (u + u) * u)%Qc) in *. set (y := (n * (u + u))%Qc) in *. set (z := (q1 * u)%Qc) in *. clearbody x y z. qlra.
Qed.
Lemma depth_leaves t : (depth t < length (leaves t))%nat.
Proof. induction t; cbn [depth leaves length]; [lia|]. rewrite app_length. lia. Qed.
Lemma b64_all l : Forall b64 l -> Forall flt l.
Proof. intros H. eapply Forall_impl; [|exact H]. apply b64_flt. Qed.

Theorem feval_error t : Forall flt (leaves t) -> Z.of_nat (length (leaves t)) <= 2 ^ 52 ->
  (qabs (Qcminus (feval t) (qsum (leaves t))) <=
     qz (Z.of_nat (length (leaves t))) * p2 (-52) * qsum (map qabs (leaves t)))%Qc.
Proof.
  intros F N. change (qsum (map qabs (leaves t))) with (qsabs (leaves t)).
  eapply Qcle_trans; [apply feval_gerr; exact F|]. apply qmul_le; [apply qsabs_nonneg|].
  pose proof (depth_leaves t) as D. pose proof (gpow_bound (depth t) ltac:(lia)) as G.
  assert (X : (qz (Z.of_nat (depth t)) <= qz (Z.of_nat (length (leaves t))))%Qc) by (apply qz_le; lia).
  pose proof (p2_pos (-52)) as P. apply (qmul_le _ _ (p2 (-52)) ltac:(qlra)) in X.
  set (a := (qz (Z.of_nat (depth t)) * p2 (-52))%Qc) in *. set (b := (qz (Z.of_nat (length (leaves t))) * p2 (-52))%Qc) in *.
  clearbody a b. qlra.
Qed.
Theorem fsum_error l x : Forall flt l -> Z.of_nat (length l) <= 2 ^ 52 -> fsum_to l x ->
  (qabs (Qcminus x (qsum l)) <= qz (Z.of_nat (length l)) * p2 (-52) * qsum (map qabs l))%Qc.
Proof.
  intros F N S. destruct S as [|t l P].
  - cbn [map length]. rewrite !qsum_nil. replace (Qcminus q0 q0) with q0 by reflexivity.
    rewrite (qabs_of_nonneg q0) by apply Qcle_refl.
    replace (qz (Z.of_nat 0) * p2 (-52) * q0)%Qc with q0 by (change q0 with 0%Qc; ring). apply Qcle_refl.
  - rewrite <- (qsum_perm _ _ P), <- (Permutation_length P).
    change (qsum (map qabs l)) with (qsabs l). rewrite <- (qsabs_perm _ _ P).
    apply feval_error; [|rewrite (Permutation_length P); exact N].
    eapply Permutation_Forall; [apply Permutation_sym; exact P|exact F].
Qed.

(* ---------------- updating an array ---------------- *)
Lemma Forall_upd {A} (P : A -> Prop) l : forall n x, Forall P l -> P x -> Forall P (upd l n x).
Proof. induction l as [|a l IH]; intros [|n] x F X; cbn [upd]; auto; inversion F; subst; constructor; auto. Qed.
Lemma Forall_nth_d {A} (P : A -> Prop) l d i : Forall P l -> P d -> P (nth i l d).
Proof. intros F D. revert i. induction F; intros [|i]; cbn [nth]; auto. Qed.
Lemma pyget_in {A} (l : list A) i x : pyget l i = Ok x -> In x l.
Proof.
  unfold pyget. destruct (pyidx (length l) i) as [k|]; [|discriminate]. unfold of_option.
  destruct (nth_error l k) eqn:E; [|discriminate]. intros H. injection H as <-. eapply nth_error_In; eauto.
Qed.

(* ---------------- capacity by area ---------------- *)
Theorem fsyscon_exact k : 0 <= k <= 1074 -> forall AVAIL CAPCON SYSCON,
  Forall (on_grid k) AVAIL -> Forall (on_grid k) SYSCON ->
  Forall (fun s => (qabs s + qsabs AVAIL <= p2 (53 - k))%Qc) SYSCON ->
  fsyscon_loop AVAIL CAPCON SYSCON = syscon_loop AVAIL CAPCON SYSCON.
Proof.
  intros K. induction AVAIL as [|a A IH]; intros [|j C] SC GA GS B; cbn [fsyscon_loop syscon_loop]; auto.
  destruct (pyget SC j) as [v|e] eqn:E; cbn [bind]; [|reflexivity]. apply pyget_in in E.
  inversion GA as [|? ? G1 G2]; subst. rewrite Forall_forall in B, GS. specialize (B v E) as BV. specialize (GS v E) as GV.
  rewrite qsabs_cons in BV. pose proof (qsabs_nonneg A) as N. pose proof (qabs_triangle v a) as T.
  assert (F : fadd v a = Qcplus v a).
  { unfold fadd. apply (grid_exact k); auto; [now apply grid_plus|]. qlra. }
  rewrite F. unfold pyset. destruct (pyidx (length SC) j) as [i|]; cbn [bind]; [|reflexivity].
  apply IH; auto.
  - apply Forall_upd; [now apply Forall_forall|]. now apply grid_plus.
  - apply Forall_upd.
    + apply Forall_forall. intros s Hs. specialize (B s Hs). rewrite qsabs_cons in B.
      pose proof (qabs_nonneg a). qlra.
    + qlra.
Qed.

(* ---------------- margins ---------------- *)
Lemma fsub_sign a b : flt a -> flt b ->
  ((fsub a b < q0)%Qc <-> (a < b)%Qc) /\ ((q0 < fsub a b)%Qc <-> (b < a)%Qc) /\ (fsub a b = q0 <-> a = b).
Proof.
  intros A B. apply flt_opp in B as B'. pose proof (flt_plus_multiple a _ A B') as M1.
  apply flt_opp in A as A'. pose proof (flt_plus_multiple b _ B A') as M2.
  fold (Qcminus a b) in M1. fold (Qcminus b a) in M2. unfold fsub.
  assert (P1 : (b < a)%Qc -> (q0 < fl (a - b))%Qc) by (intros H; apply fl_pos; [exact M1|qlra]).
  assert (N1 : (a < b)%Qc -> (fl (a - b) < q0)%Qc).
  { intros H. destruct M1 as (n & E). destruct M2 as (m & E2).
    assert (n <= -1).
    { destruct (Z.le_gt_cases n (-1)); auto. exfalso. assert (qz 0 <= qz n)%Qc by (apply qz_le; lia).
      pose proof (p2_pos (-1074)) as P. assert (a - b < q0)%Qc as L by qlra. rewrite E in L.
      fold q0 in *. set (t := p2 (-1074)) in *. clearbody t. qnra. }
    assert (L : (a - b <= Qcopp (p2 (-1074)))%Qc).
    { rewrite E. assert (qz n <= qz (-1))%Qc as L by (apply qz_le; lia). pose proof (p2_pos (-1074)) as P.
      apply (qmul_le _ _ (p2 (-1074)) ltac:(qlra)) in L. eapply Qcle_trans; [exact L|].
      replace (qz (-1)) with (Qcopp 1%Qc) by (apply Qc_is_canon; reflexivity).
      replace (Qcopp 1%Qc * p2 (-1074))%Qc with (- p2 (-1074))%Qc by ring. apply Qcle_refl. }
    apply fl_mono in L. rewrite (fl_exact (Qcopp (p2 (-1074)))) in L.
    - pose proof (p2_pos (-1074)) as P. set (t := p2 (-1074)) in *. clearbody t. qlra.
    - apply flt_opp. replace (p2 (-1074)) with (Qcmult (qz 1) (p2 (-1074))) by (change (qz 1) with 1%Qc; ring).
      apply flt_small. cbn. lia. }
  assert (Z1 : a = b -> fl (a - b) = q0).
  { intros ->. replace (b - b)%Qc with q0 by (change q0 with 0%Qc; ring). reflexivity. }
  destruct (qltb a b) eqn:X; qc_bool; [specialize (N1 X)|destruct (qltb b a) eqn:Y; qc_bool;[specialize (P1 Y)|]].
  - split; [tauto|]. split; split; intros; exfalso; qlra.
  - split; [split; intros; exfalso; qlra|]. split; [tauto|]. split; intros; exfalso; qlra.
  - assert (a = b) as E by qlra. specialize (Z1 E). split; [|split]; split; intros; try assumption; exfalso; qlra.
Qed.

Lemma qtrunc_neg_iff x : qtrunc x < 0 <-> (x <= qz (-1))%Qc.
Proof.
  unfold qtrunc, Qcle. rewrite this_qz. destruct (this x) as [n d]. unfold Qle, inject_Z. cbn [Qnum Qden].
  rewrite Z.mul_1_r. split; intros H.
  - destruct (Z.le_gt_cases n (-1 * Zpos d)); auto. exfalso.
    destruct (Z.le_gt_cases 0 n). { pose proof (Z.quot_pos n (Zpos d)). lia. }
    assert (Z.quot n (Zpos d) = 0); [|lia].
    rewrite <- (Z.opp_involutive n), Z.quot_opp_l by lia. rewrite (Z.quot_small (- n)) by lia. reflexivity.
  - rewrite <- (Z.opp_involutive n), Z.quot_opp_l by lia.
    assert (1 <= Z.quot (- n) (Zpos d)); [|lia].
    change 1 with (Z.quot 1 1). apply (Z.quot_le_lower_bound (- n) (Zpos d) 1); lia.
Qed.

Theorem counted_short a b : (a - b <= qz (-1))%Qc -> qtrunc (fsub a b) < 0.
Proof.
  intros H. apply qtrunc_neg_iff. unfold fsub. apply fl_mono in H. rewrite (fl_exact (qz (-1))) in H; auto.
  apply flt_Z. cbn. lia.
Qed.
Theorem counted_only_short a b : qtrunc (fsub a b) < 0 -> (a - b <= qz (-1) + p2 (-54))%Qc.
Proof.
  intros H. apply (proj1 (qtrunc_neg_iff _)) in H. unfold fsub in H.
  set (g := (qz (-1) + p2 (-53))%Qc).
  assert (G : flt g).
  { exists (- (2 ^ 53 - 1)), (-53). split; [reflexivity|]. split; [lia|].
    apply Qc_is_canon. vm_compute. reflexivity. }
  pose proof (fl_nearest (a - b) g G) as N.
  assert (E : p2 (-53) = (p2 (-54) + p2 (-54))%Qc).
  { change (-53) with (-54 + 1). rewrite p2_plus. change (p2 1) with (1 + 1)%Qc. ring. }
  unfold g in N. rewrite E in N. pose proof (p2_pos (-54)) as P. set (f := fl (a - b)) in *. set (x := (a - b)%Qc) in *.
  set (t := p2 (-54)) in *. clearbody f x t.
  destruct (qleb x (qz (-1) + t)) eqn:X; qc_bool; auto. exfalso. set (m := qz (-1)) in *. clearbody m. qabs_all; qlra.
Qed.
Theorem counted_iff_grid k a b : 0 <= k <= 53 -> on_grid k a -> on_grid k b ->
  (qtrunc (fsub a b) < 0 <-> (a - b <= qz (-1))%Qc).
Proof.
  intros K A B. split; [|apply counted_short]. intros H. apply counted_only_short in H.
  destruct (grid_minus k a b A B) as (n & E). rewrite E in *.
  destruct (Z.le_gt_cases n (- 2 ^ k)) as [L|L].
  - pose proof (p2_pos (- k)) as P. apply (proj2 (qz_le _ _)) in L.
    apply (qmul_le _ _ (p2 (- k)) ltac:(qlra)) in L. rewrite qz_opp, <- p2_nonneg in L by lia.
    eapply Qcle_trans; [exact L|]. replace (- p2 k * p2 (- k))%Qc with (- (p2 k * p2 (- k)))%Qc by ring.
    rewrite p2_inv. apply Qcle_refl.
  - exfalso. assert (L' : (qz (- 2 ^ k + 1) <= qz n)%Qc) by (apply qz_le; lia).
    pose proof (p2_pos (- k)) as P. apply (qmul_le _ _ (p2 (- k)) ltac:(qlra)) in L'.
    rewrite qz_plus, qz_opp, <- p2_nonneg in L' by lia.
    replace ((- p2 k + qz 1) * p2 (- k))%Qc with (- (p2 k * p2 (- k)) + p2 (- k))%Qc in L' by (change (qz 1) with 1%Qc; ring).
    rewrite p2_inv in L'. pose proof (p2_lt (-54) (- k) ltac:(lia)) as M.
    replace (qz (-1)) with (- q1)%Qc in H by (apply Qc_is_canon; reflexivity). set (x := (qz n * p2 (- k))%Qc) in *. set (u := p2 (-54)) in *. set (v := p2 (- k)) in *.
    clearbody x u v. qlra.
Qed.
