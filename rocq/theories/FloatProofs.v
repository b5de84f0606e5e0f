(** Proofs about binary64 rounding. *)
From Verif Require Import Base BaseProofs FloatSpec FloatModel.
Open Scope Z_scope.

(* ---------------- absolute value ---------------- *)
Lemma qabs_cases a : (q0 <= a)%Qc /\ qabs a = a \/ (a < q0)%Qc /\ qabs a = Qcopp a.
Proof. unfold qabs. destruct (qltb a q0) eqn:E; qc_bool; auto. Qed.
Ltac qabs_all :=
  repeat match goal with
  | |- context [qabs ?a] => let A := fresh in let B := fresh in let R := fresh in
      destruct (qabs_cases a) as [[A R]|[A R]]; rewrite R in *; clear R
  | H : context [qabs ?a] |- _ => let A := fresh in let R := fresh in
      destruct (qabs_cases a) as [[A R]|[A R]]; rewrite R in *; clear R
  end.
Lemma qabs_nonneg a : (q0 <= qabs a)%Qc.
Proof. qabs_all; qlra. Qed.
Lemma qabs_opp a : qabs (Qcopp a) = qabs a.
Proof. qabs_all; qlra. Qed.
Lemma qabs_mult a b : qabs (Qcmult a b) = Qcmult (qabs a) (qabs b).
Proof. qabs_all; first [qring | qnra]. Qed.
Lemma qabs_triangle a b : (qabs (Qcplus a b) <= Qcplus (qabs a) (qabs b))%Qc.
Proof. qabs_all; qlra. Qed.
Lemma qabs_le_iff a b : (qabs a <= b)%Qc <-> (Qcopp b <= a)%Qc /\ (a <= b)%Qc.
Proof. split; [intros H; qabs_all; split; qlra | intros [H1 H2]; qabs_all; qlra]. Qed.
Lemma qabs_zero a : (qabs a <= q0)%Qc -> a = q0.
Proof. intros H. qabs_all; qlra. Qed.
Lemma qabs_qz z : qabs (qz z) = qz (Z.abs z).
Proof.
  destruct (qabs_cases (qz z)) as [[A R]|[A R]]; rewrite R; unfold q0 in A.
  - apply (proj1 (qz_le _ _)) in A. now rewrite Z.abs_eq.
  - apply (proj1 (qz_lt _ _)) in A. rewrite Z.abs_neq by lia. now rewrite qz_opp.
Qed.
Lemma qabs_minus_sym a b : qabs (Qcminus a b) = qabs (Qcminus b a).
Proof. qabs_all; qlra. Qed.
Lemma qabs_of_nonneg a : (q0 <= a)%Qc -> qabs a = a.
Proof. intros H. qabs_all; qlra. Qed.

Lemma qmul_le a b c : (q0 <= c)%Qc -> (a <= b)%Qc -> (a * c <= b * c)%Qc.
Proof. intros. apply Qcmult_le_compat_r; auto. Qed.
Lemma qmul_lt a b c : (q0 < c)%Qc -> (a < b)%Qc -> (a * c < b * c)%Qc.
Proof. intros. apply Qcmult_lt_compat_r; auto. Qed.
Lemma qmul_le_inv a b c : (q0 < c)%Qc -> (a * c <= b * c)%Qc -> (a <= b)%Qc.
Proof.
  intros C H. destruct (qleb a b) eqn:X; qc_bool; auto. exfalso.
  pose proof (qmul_lt _ _ _ C X). qlra.
Qed.
Lemma qmul_lt_inv a b c : (q0 < c)%Qc -> (a * c < b * c)%Qc -> (a < b)%Qc.
Proof.
  intros C H. destruct (qltb a b) eqn:X; qc_bool; auto. exfalso.
  pose proof (qmul_le _ _ c ltac:(qlra) X). qlra.
Qed.

(* ---------------- powers of two ---------------- *)
Lemma p2_nonneg e : 0 <= e -> p2 e = qz (2 ^ e).
Proof. intros H. unfold p2. now rewrite (proj2 (Z.ltb_ge _ _) H). Qed.
Lemma pow_pos e : 0 <= e -> 0 < 2 ^ e.
Proof. intros H. now apply Z.pow_pos_nonneg. Qed.
Lemma qz_neq0 z : z <> 0 -> qz z <> 0%Qc.
Proof. intros H C. apply H. now apply (qz_inj z 0). Qed.
Lemma p2_inv e : Qcmult (p2 e) (p2 (- e)) = q1.
Proof.
  destruct (Z.eq_dec e 0) as [->|NE]; [apply Qc_is_canon; reflexivity|].
  assert (forall z, z <> 0 -> Qcmult (qz z) (Qcinv (qz z)) = q1) as R.
  { intros z Hz. apply qz_neq0 in Hz. change q1 with 1%Qc. field. exact Hz. }
  unfold p2. destruct (Z.ltb_spec e 0); destruct (Z.ltb_spec (- e) 0); try lia.
  - rewrite Qcmult_comm. apply R. pose proof (pow_pos (- e)). lia.
  - rewrite Z.opp_involutive. apply R. pose proof (pow_pos e). lia.
Qed.
Lemma p2_plus_nn a b : 0 <= a -> 0 <= b -> p2 (a + b) = Qcmult (p2 a) (p2 b).
Proof. intros A B. rewrite !p2_nonneg by lia. rewrite Z.pow_add_r by lia. apply qz_mult. Qed.
Lemma p2_neq0 e : p2 e <> 0%Qc.
Proof.
  intros C. pose proof (p2_inv e) as H. rewrite C in H. assert (E : Qcmult 0%Qc (p2 (- e)) = 0%Qc) by ring.
  rewrite E in H. discriminate.
Qed.
Lemma p2_neg e : p2 (- e) = Qcinv (p2 e).
Proof.
  pose proof (p2_inv e) as H. pose proof (p2_neq0 e) as N. change q1 with 1%Qc in H.
  assert (E : p2 (- e) = Qcmult (Qcinv (p2 e)) (Qcmult (p2 e) (p2 (- e)))) by (field; exact N).
  rewrite E, H. ring.
Qed.
Lemma p2_plus_np a b : 0 <= a -> 0 <= b -> p2 (a - b) = Qcmult (p2 a) (p2 (- b)).
Proof.
  intros A B. rewrite p2_neg. pose proof (p2_neq0 b) as N. pose proof (p2_neq0 a) as NA.
  destruct (Z.le_gt_cases b a).
  - assert (E : p2 a = Qcmult (p2 (a - b)) (p2 b)) by (rewrite <- p2_plus_nn by lia; f_equal; lia).
    rewrite E. field. exact N.
  - assert (E : p2 b = Qcmult (p2 (b - a)) (p2 a)) by (rewrite <- p2_plus_nn by lia; f_equal; lia).
    replace (a - b) with (- (b - a)) by lia. rewrite p2_neg.
    rewrite E. field. split; [exact NA|apply p2_neq0].
Qed.
Lemma p2_plus a b : p2 (a + b) = Qcmult (p2 a) (p2 b).
Proof.
  destruct (Z.le_gt_cases 0 a), (Z.le_gt_cases 0 b).
  - now apply p2_plus_nn.
  - replace (a + b) with (a - (- b)) by lia. rewrite p2_plus_np by lia. now rewrite Z.opp_involutive.
  - replace (a + b) with (b - (- a)) by lia. rewrite p2_plus_np by lia. rewrite Z.opp_involutive. apply Qcmult_comm.
  - pose proof (p2_inv a) as IA. pose proof (p2_inv b) as IB. pose proof (p2_inv (a + b)) as IC.
    replace (- (a + b)) with ((- a) + (- b)) in IC by lia. rewrite (p2_plus_nn (- a) (- b)) in IC by lia.
    pose proof (p2_neq0 (- a)) as NA. pose proof (p2_neq0 (- b)) as NB.
    generalize dependent (p2 (a + b)). generalize dependent (p2 (- a)). generalize dependent (p2 (- b)).
    generalize (p2 a). generalize (p2 b). intros u v x IB NB y IA NA z IC. change q1 with 1%Qc in *.
    transitivity (Qcmult (Qcmult z (Qcmult y x)) (Qcmult v u)).
    + transitivity (Qcmult z (Qcmult (Qcmult v y) (Qcmult u x))); [rewrite IA, IB; ring|ring].
    + rewrite IC. ring.
Qed.
Lemma p2_pos e : (q0 < p2 e)%Qc.
Proof.
  assert (P : forall e, 0 <= e -> (q0 < p2 e)%Qc).
  { intros k H. rewrite p2_nonneg by auto. apply (proj2 (qz_lt 0 _)). now apply pow_pos. }
  destruct (Z.le_gt_cases 0 e); [auto|].
  pose proof (P (- e) ltac:(lia)) as Q. pose proof (p2_inv e) as I.
  destruct (qltb q0 (p2 e)) eqn:X; qc_bool; auto. exfalso. qnra.
Qed.
Lemma p2_0 : p2 0 = q1. Proof. reflexivity. Qed.
Lemma p2_le a b : a <= b -> (p2 a <= p2 b)%Qc.
Proof.
  intros H. replace b with (a + (b - a)) by lia. rewrite p2_plus.
  assert (q1 <= p2 (b - a))%Qc as L.
  { rewrite p2_nonneg by lia. apply (proj2 (qz_le 1 _)). pose proof (pow_pos (b - a)). lia. }
  pose proof (p2_pos a). qnra.
Qed.
Lemma p2_lt a b : a < b -> (p2 a < p2 b)%Qc.
Proof.
  intros H. pose proof (p2_le (a + 1) b ltac:(lia)) as L. rewrite p2_plus in L.
  pose proof (p2_pos a). assert (p2 1 = qz 2) as E by reflexivity. rewrite E in L. qnra.
Qed.
Lemma p2_lt_inv a b : (p2 a < p2 b)%Qc -> a < b.
Proof.
  intros H. destruct (Z.lt_ge_cases a b); auto. exfalso. pose proof (p2_le b a ltac:(lia)). qlra.
Qed.
Lemma qz_p2_scale n k : 0 <= k -> qz (n * 2 ^ k) = Qcmult (qz n) (p2 k).
Proof. intros H. rewrite qz_mult, p2_nonneg by auto. reflexivity. Qed.

(* ---------------- ilog ---------------- *)
Lemma this_Z_frac x : x = Qcmult (qz (Qnum (this x))) (Qcinv (qz (Zpos (Qden (this x))))).
Proof.
  apply Qc_is_canon. rewrite this_mult, this_inv, !this_qz. destruct (this x) as [n d]. cbn [Qnum Qden].
  rewrite Qmake_Qdiv. unfold Qdiv. reflexivity.
Qed.
Lemma ilog_spec x : (q0 < x)%Qc -> (p2 (ilog x) <= x)%Qc /\ (x < p2 (ilog x + 1))%Qc.
Proof.
  intros H. unfold ilog. pose proof (this_Z_frac x) as F.
  set (n := Qnum (this x)) in *. set (d := Zpos (Qden (this x))) in *.
  assert (D : 0 < d) by (unfold d; lia).
  assert (N : 0 < n).
  { destruct (Z.lt_ge_cases 0 n) as [L|L]; auto. exfalso.
    unfold n in L. unfold Qclt, q0 in H. rewrite this_qz in H. unfold Qlt, inject_Z in H. cbn in H. lia. }
  pose proof (Z.log2_spec n N) as [N1 N2]. pose proof (Z.log2_spec d D) as [D1 D2].
  pose proof (Z.log2_nonneg n). pose proof (Z.log2_nonneg d).
  set (a := Z.log2 n) in *. set (b := Z.log2 d) in *.
  apply (proj2 (qz_le _ _)) in N1. apply (proj2 (qz_lt _ _)) in N2.
  apply (proj2 (qz_le _ _)) in D1. apply (proj2 (qz_lt _ _)) in D2.
  rewrite <- p2_nonneg in N1, D1 by lia. rewrite <- p2_nonneg in N2, D2 by lia.
  assert (QD : (q0 < qz d)%Qc) by (apply (proj2 (qz_lt 0 d)); auto).
  assert (XD : Qcmult x (qz d) = qz n).
  { rewrite F. field. apply qz_neq0. lia. }
  assert (LO : (p2 (a - b - 1) < x)%Qc).
  { assert (E : p2 a = Qcmult (p2 (a - b - 1)) (p2 (b + 1))) by (rewrite <- p2_plus; f_equal; lia).
    pose proof (p2_pos (a - b - 1)) as PP. apply (qmul_lt_inv _ _ (qz d)); [exact QD|]. rewrite XD.
    pose proof (qmul_lt _ _ _ PP D2) as M. change (Z.succ b) with (b + 1) in M.
    rewrite (Qcmult_comm (qz d)), (Qcmult_comm (p2 (b + 1))), <- E in M. eapply Qclt_le_trans; eauto. }
  assert (HI : (x < p2 (a - b + 1))%Qc).
  { assert (E : p2 (a + 1) = Qcmult (p2 (a - b + 1)) (p2 b)) by (rewrite <- p2_plus; f_equal; lia).
    pose proof (p2_pos (a - b + 1)) as PP. apply (qmul_lt_inv _ _ (qz d)); [exact QD|]. rewrite XD.
    change (Z.succ a) with (a + 1) in N2. eapply Qclt_le_trans; [exact N2|]. rewrite E.
    rewrite (Qcmult_comm _ (p2 b)), (Qcmult_comm _ (qz d)). apply qmul_le; [qlra|exact D1]. }
  destruct (qleb (p2 (a - b)) x) eqn:X; qc_bool.
  - auto.
  - split; [qlra|]. now replace (a - b - 1 + 1) with (a - b) by lia.
Qed.

(* ---------------- rounding to an integer ---------------- *)
Lemma rhe_nearest y k : (qabs (Qcminus y (qz (rhe y))) <= qabs (Qcminus y (qz k)))%Qc.
Proof.
  destruct (qfloor_spec y) as [F1 F2]. rewrite qz_plus in F2.
  assert (K : (qz k <= qz (qfloor y))%Qc \/ (qz (qfloor y) + qz 1 <= qz k)%Qc).
  { destruct (Z.le_gt_cases k (qfloor y)); [left; now apply qz_le|right].
    rewrite <- qz_plus. apply qz_le. lia. }
  assert (R : rhe y = qfloor y /\ (y - qz (qfloor y) <= qq 1 2)%Qc \/
              rhe y = qfloor y + 1 /\ (qq 1 2 <= y - qz (qfloor y))%Qc).
  { unfold rhe. destruct (qltb (y - qz (qfloor y)) (qq 1 2)) eqn:A; qc_bool; [left; split; auto; qlra|].
    destruct (qltb (qq 1 2) (y - qz (qfloor y))) eqn:B; qc_bool; [right; split; auto; qlra|].
    destruct (Z.even (qfloor y)); [left|right]; split; auto. }
  destruct R as [[-> R]|[-> R]]; [|rewrite qz_plus]; destruct K as [K|K]; qabs_all; qlra.
Qed.
Lemma rhe_half y : (qabs (Qcminus y (qz (rhe y))) <= qq 1 2)%Qc.
Proof.
  destruct (qfloor_spec y) as [F1 F2]. rewrite qz_plus in F2.
  pose proof (rhe_nearest y (qfloor y)) as A. pose proof (rhe_nearest y (qfloor y + 1)) as B.
  rewrite qz_plus in B. set (r := qabs (y - qz (rhe y))) in *. clearbody r. qabs_all; qlra.
Qed.

(* ---------------- binary64 without a largest exponent ---------------- *)
Definition flt (x : Qc) : Prop := exists m e, Z.abs m < 2 ^ 53 /\ -1074 <= e /\ x = Qcmult (qz m) (p2 e).

Lemma b64_flt x : b64 x -> flt x.
Proof. intros (m & e & A & B & C). exists m, e. tauto. Qed.

Lemma flt_intro m e : Z.abs m <= 2 ^ 53 -> -1074 <= e -> flt (Qcmult (qz m) (p2 e)).
Proof.
  intros A B. destruct (Z.eq_dec (Z.abs m) (2 ^ 53)) as [E|NE].
  - exists (m / 2), (e + 1). change (2 ^ 53) with (2 * 2 ^ 52) in E.
    assert (M : m = 2 * (m / 2)).
    { destruct (Z.abs_eq_or_opp m) as [X|X]; rewrite X in E.
      - rewrite E, Z.mul_comm, Z.div_mul by lia. lia.
      - replace m with (- 2 ^ 52 * 2) by lia. rewrite Z.div_mul by lia. lia. }
    split; [|split; [lia|]].
    + change (2 ^ 53) with (2 * 2 ^ 52). assert (0 < 2 ^ 52) by (apply pow_pos; lia).
      set (t := 2 ^ 52) in *. clearbody t. lia.
    + rewrite M at 1. rewrite qz_mult, p2_plus. change (p2 1) with (qz 2). ring.
  - exists m, e. split; [lia|]. auto.
Qed.
Lemma flt_0 : flt q0.
Proof. exists 0, 0. split; [reflexivity|]. split; [lia|]. apply Qc_is_canon; reflexivity. Qed.

Lemma max64_p2 : max64 = Qcmult (qz (2 ^ 53 - 1)) (p2 971).
Proof. unfold max64. apply qz_p2_scale. lia. Qed.
Lemma max64_flt : flt max64.
Proof. exists (2 ^ 53 - 1), 971. split; [reflexivity|]. split; [lia|]. apply max64_p2. Qed.

Lemma flt_b64 x : flt x -> in_range x -> b64 x.
Proof.
  intros (m & e & A & B & ->) R. unfold in_range in R.
  destruct (Z.le_gt_cases e 971) as [L|L]; [exists m, e; auto|].
  exists (m * 2 ^ (e - 971)), 971.
  assert (E : Qcmult (qz m) (p2 e) = Qcmult (qz (m * 2 ^ (e - 971))) (p2 971)).
  { rewrite qz_p2_scale by lia. rewrite <- Qcmult_assoc, <- p2_plus. do 2 f_equal. lia. }
  split; [|split; [lia|exact E]].
  rewrite E, qabs_mult, qabs_qz, max64_p2 in R. rewrite (qabs_of_nonneg (p2 971)) in R.
  2: { pose proof (p2_pos 971). qlra. }
  pose proof (p2_pos 971) as P. set (M := Z.abs (m * 2 ^ (e - 971))) in *. clearbody M.
  assert (qz M <= qz (2 ^ 53 - 1))%Qc as Q.
  { destruct (qleb (qz M) (qz (2 ^ 53 - 1))) eqn:X; qc_bool; auto. exfalso. 
    set (u := qz (2 ^ 53 - 1)) in *. clearbody u. set (v := p2 971) in *. clearbody v. qnra. }
  apply (proj1 (qz_le _ _)) in Q. lia.
Qed.

Lemma ulp_exp_ge x : -1074 <= ulp_exp x.
Proof. unfold ulp_exp. lia. Qed.
Lemma qabs_pos x : x <> q0 -> (q0 < qabs x)%Qc.
Proof. intros H. qabs_all; qlra. Qed.
(** |x| / 2^e < 2^53 *)
Lemma ulp_hi x : x <> q0 -> (qabs x < qz (2 ^ 53) * p2 (ulp_exp x))%Qc.
Proof.
  intros H. destruct (ilog_spec _ (qabs_pos x H)) as [_ U].
  eapply Qclt_le_trans; [exact U|]. rewrite <- p2_nonneg, <- p2_plus by lia. apply p2_le. unfold ulp_exp. lia.
Qed.
Lemma ulp_lo x : x <> q0 -> -1074 < ulp_exp x -> (qz (2 ^ 52) * p2 (ulp_exp x) <= qabs x)%Qc.
Proof.
  intros H L. destruct (ilog_spec _ (qabs_pos x H)) as [U _].
  eapply Qcle_trans; [|exact U]. rewrite <- p2_nonneg, <- p2_plus by lia. apply p2_le. unfold ulp_exp in *. lia.
Qed.

Lemma fl_form x : x <> q0 -> fl x = Qcmult (qz (rhe (Qcmult x (p2 (- ulp_exp x))))) (p2 (ulp_exp x)).
Proof. intros H. unfold fl. apply qeqb_false in H. now rewrite H. Qed.

Lemma scaled x e : x = Qcmult (Qcmult x (p2 (- e))) (p2 e).
Proof. rewrite <- Qcmult_assoc, (Qcmult_comm (p2 (- e))), p2_inv. qring. Qed.

Lemma scale_abs a b e : qabs (Qcminus (Qcmult a (p2 e)) (Qcmult b (p2 e))) = Qcmult (qabs (Qcminus a b)) (p2 e).
Proof.
  replace (Qcminus (Qcmult a (p2 e)) (Qcmult b (p2 e))) with (Qcmult (Qcminus a b) (p2 e)) by ring.
  rewrite qabs_mult. f_equal. apply qabs_of_nonneg. pose proof (p2_pos e). qlra.
Qed.

Lemma fl_error_ulp x : x <> q0 -> (qabs (Qcminus x (fl x)) <= qq 1 2 * p2 (ulp_exp x))%Qc.
Proof.
  intros H. rewrite fl_form by auto. set (e := ulp_exp x). rewrite (scaled x e) at 1. rewrite scale_abs.
  pose proof (rhe_half (Qcmult x (p2 (- e)))) as R. pose proof (p2_pos e). 
  set (t := qabs _) in *. clearbody t. qnra.
Qed.

Lemma fl_flt x : flt (fl x).
Proof.
  destruct (qeqb x q0) eqn:E; qc_bool; [subst; apply flt_0|].
  rewrite fl_form by auto. apply flt_intro; [|apply ulp_exp_ge].
  pose proof (ulp_hi x E) as U. set (e := ulp_exp x) in *. set (y := Qcmult x (p2 (- e))).
  assert (Y : (qabs y < qz (2 ^ 53))%Qc).
  { rewrite (scaled x e), qabs_mult in U. fold y in U. pose proof (p2_pos e) as P.
    rewrite (qabs_of_nonneg (p2 e)) in U by qlra.
    destruct (qltb (qabs y) (qz (2 ^ 53))) eqn:X; qc_bool; auto. exfalso.
    set (u := qz (2 ^ 53)) in *. clearbody u. qnra. }
  assert (R : (qabs (qz (rhe y)) <= qabs y + qq 1 2)%Qc).
  { pose proof (rhe_half y). set (z := qz (rhe y)) in *. clearbody z. qabs_all; qlra. }
  rewrite qabs_qz in R.
  assert (L : (qz (Z.abs (rhe y)) < qz (2 ^ 53 + 1))%Qc).
  { rewrite qz_plus. set (u := qz (2 ^ 53)) in *. clearbody u. qlra. }
  apply (proj1 (qz_lt _ _)) in L. lia.
Qed.

(** no representable number is nearer *)
Lemma fl_nearest x g : flt g -> (qabs (Qcminus x (fl x)) <= qabs (Qcminus x g))%Qc.
Proof.
  intros (m & e' & A & B & ->).
  destruct (qeqb x q0) eqn:E; qc_bool.
  { subst. replace (fl q0) with q0 by reflexivity. replace (Qcminus q0 q0) with q0 by reflexivity.
    rewrite (qabs_of_nonneg q0) by qlra. apply qabs_nonneg. }
  rewrite fl_form by auto. pose proof (ulp_lo x E) as UL. set (e := ulp_exp x) in *.
  set (y := Qcmult x (p2 (- e))).
  assert (XY : x = Qcmult y (p2 e)) by apply scaled.
  pose proof (p2_pos e) as P.
  destruct (Z.le_gt_cases e e') as [L|L].
  - assert (G : Qcmult (qz m) (p2 e') = Qcmult (qz (m * 2 ^ (e' - e))) (p2 e)).
    { rewrite qz_p2_scale by lia. rewrite <- Qcmult_assoc, <- p2_plus. do 2 f_equal. lia. }
    rewrite G, XY, !scale_abs. pose proof (rhe_nearest y (m * 2 ^ (e' - e))) as N.
    set (t := qabs (y - qz (rhe y))) in *. set (u := qabs _) in N |- *. clearbody t u. qnra.
  - assert (YL : (qz (2 ^ 52) <= qabs y)%Qc).
    { specialize (UL ltac:(lia)). rewrite XY, qabs_mult in UL. rewrite (qabs_of_nonneg (p2 e)) in UL by qlra.
      destruct (qleb (qz (2 ^ 52)) (qabs y)) eqn:X; qc_bool; auto. exfalso.
      set (u := qz (2 ^ 52)) in *. clearbody u. qnra. }
    set (g := Qcmult (qz m) (p2 (e' - e))).
    assert (G : Qcmult (qz m) (p2 e') = Qcmult g (p2 e)).
    { unfold g. rewrite <- Qcmult_assoc, <- p2_plus. do 2 f_equal. lia. }
    assert (GL : (qabs g <= qz (2 ^ 52))%Qc).
    { unfold g. rewrite qabs_mult, qabs_qz. pose proof (p2_pos (e' - e)) as P'.
      rewrite (qabs_of_nonneg (p2 (e' - e))) by qlra.
      pose proof (p2_le (e' - e) (-1) ltac:(lia)) as Q. change (p2 (-1)) with (qq 1 2) in Q.
      assert (qz (Z.abs m) <= qz (2 * 2 ^ 52))%Qc as M by (apply qz_le; change (2 * 2 ^ 52) with (2 ^ 53); lia).
      rewrite qz_mult in M.
      assert (q0 <= qz (Z.abs m))%Qc as M0 by (apply (proj2 (qz_le 0 _)); lia).
      set (u := qz (2 ^ 52)) in *. clearbody u. qnra. }
    rewrite G, XY, !scale_abs.
    assert (N : (qabs (y - qz (rhe y)) <= qabs (y - g))%Qc).
    { pose proof (rhe_nearest y (2 ^ 52)) as N1. pose proof (rhe_nearest y (- 2 ^ 52)) as N2.
      rewrite qz_opp in N2.
      set (u := qz (2 ^ 52)) in *. set (t := qabs (y - qz (rhe y))) in *. clearbody u t g y.
      assert (q0 <= u)%Qc by (eapply Qcle_trans; [apply qabs_nonneg|exact GL]).
      qabs_all; qlra. }
    set (t := qabs (y - qz (rhe y))) in *. set (u := qabs _) in N |- *. clearbody t u. qnra.
Qed.

(** ties *)
Lemma rhe_tie y k : qabs (Qcminus y (qz k)) = qabs (Qcminus y (qz (rhe y))) -> k <> rhe y ->
  Z.even (rhe y) = true /\ (k = rhe y + 1 \/ k = rhe y - 1).
Proof.
  intros E NE. destruct (qfloor_spec y) as [F1 F2]. rewrite qz_plus in F2.
  assert (K : (qz k <= qz (qfloor y))%Qc /\ k <= qfloor y \/ (qz (qfloor y) + qz 1 <= qz k)%Qc /\ qfloor y + 1 <= k).
  { destruct (Z.le_gt_cases k (qfloor y)); [left; split; auto; now apply qz_le|right].
    rewrite <- qz_plus. split; [apply qz_le|]; lia. }
  assert (R : rhe y = qfloor y /\ (y - qz (qfloor y) <= qq 1 2)%Qc /\ ((y - qz (qfloor y))%Qc = qq 1 2 -> Z.even (qfloor y) = true) \/
              rhe y = qfloor y + 1 /\ (qq 1 2 <= y - qz (qfloor y))%Qc /\ ((y - qz (qfloor y))%Qc = qq 1 2 -> Z.even (qfloor y) = false)).
  { unfold rhe. destruct (qltb (y - qz (qfloor y)) (qq 1 2)) eqn:A; qc_bool; [left; split; auto; split; [qlra|]; intros X; exfalso; qlra|].
    destruct (qltb (qq 1 2) (y - qz (qfloor y))) eqn:B; qc_bool; [right; split; auto; split; [qlra|]; intros X; exfalso; qlra|].
    destruct (Z.even (qfloor y)) eqn:V; [left|right]; auto. }
  destruct R as [(R1 & R2 & R3)|(R1 & R2 & R3)].
  - rewrite R1 in *. destruct K as [[K1 K2]|[K1 K2]].
    + exfalso. apply NE. apply qz_inj. qabs_all; qlra.
    + assert (KE : qz k = (qz (qfloor y) + qz 1)%Qc) by (qabs_all; qlra).
      assert (H : (y - qz (qfloor y) = qq 1 2)%Qc) by (rewrite KE in E; clear - E F1 F2 R2; qabs_all; qlra).
      split; [now apply R3|]. left. rewrite <- qz_plus in KE. now apply qz_inj in KE.
  - rewrite R1 in *. rewrite qz_plus in E. destruct K as [[K1 K2]|[K1 K2]].
    + assert (KE : qz k = qz (qfloor y)) by (qabs_all; qlra).
      assert (H : (y - qz (qfloor y) = qq 1 2)%Qc) by (rewrite KE in E; clear - E F1 F2 R2; qabs_all; qlra).
      specialize (R3 H). split.
      * replace (qfloor y + 1) with (Z.succ (qfloor y)) by lia. rewrite Z.even_succ, <- Z.negb_even, R3. reflexivity.
      * right. apply qz_inj in KE. lia.
    + exfalso. apply NE. apply qz_inj. rewrite qz_plus. qabs_all; qlra.
Qed.
Lemma p2_cancel a b e : Qcmult a (p2 e) = Qcmult b (p2 e) -> a = b.
Proof.
  intros H. apply (f_equal (fun v => Qcmult v (p2 (- e)))) in H. rewrite <- !Qcmult_assoc, p2_inv in H.
  replace (a * q1)%Qc with a in H by qring. replace (b * q1)%Qc with b in H by qring. exact H.
Qed.
Theorem fl_even x g : flt g -> g <> fl x -> qabs (Qcminus x g) = qabs (Qcminus x (fl x)) ->
  exists n e, fl x = Qcmult (qz (2 * n)) (p2 e) /\ (g = Qcplus (fl x) (p2 e) \/ g = Qcminus (fl x) (p2 e)).
Proof.
  intros G NE T. destruct (qeqb x q0) eqn:E; qc_bool.
  { exfalso. apply NE. subst x. change (fl q0) with q0 in *. clear - T. qabs_all; qlra. }
  rewrite fl_form in * by auto. pose proof (ulp_lo x E) as UL. set (e := ulp_exp x) in *.
  set (y := Qcmult x (p2 (- e))) in *.
  assert (XY : x = Qcmult y (p2 e)) by apply scaled.
  pose proof (p2_pos e) as P.
  assert (K : exists k, g = Qcmult (qz k) (p2 e)).
  { destruct G as (m & e' & A & B & ->). destruct (Z.le_gt_cases e e') as [L|L].
    { exists (m * 2 ^ (e' - e)). rewrite qz_p2_scale by lia. rewrite <- Qcmult_assoc, <- p2_plus. do 2 f_equal. lia. }
    assert (YL : (qz (2 ^ 52) <= qabs y)%Qc).
    { specialize (UL ltac:(lia)). rewrite XY, qabs_mult in UL. rewrite (qabs_of_nonneg (p2 e)) in UL by qlra.
      destruct (qleb (qz (2 ^ 52)) (qabs y)) eqn:X; qc_bool; auto. exfalso.
      set (u := qz (2 ^ 52)) in *. clearbody u. qnra. }
    set (g := Qcmult (qz m) (p2 (e' - e))).
    assert (GE : Qcmult (qz m) (p2 e') = Qcmult g (p2 e)).
    { unfold g. rewrite <- Qcmult_assoc, <- p2_plus. do 2 f_equal. lia. }
    assert (GL : (qabs g <= qz (2 ^ 52))%Qc).
    { unfold g. rewrite qabs_mult, qabs_qz. pose proof (p2_pos (e' - e)) as P'.
      rewrite (qabs_of_nonneg (p2 (e' - e))) by qlra.
      pose proof (p2_le (e' - e) (-1) ltac:(lia)) as Q. change (p2 (-1)) with (qq 1 2) in Q.
      assert (qz (Z.abs m) <= qz (2 * 2 ^ 52))%Qc as M by (apply qz_le; change (2 * 2 ^ 52) with (2 ^ 53); lia).
      rewrite qz_mult in M.
      assert (q0 <= qz (Z.abs m))%Qc as M0 by (apply (proj2 (qz_le 0 _)); lia).
      set (u := qz (2 ^ 52)) in *. clearbody u. qnra. }
    rewrite GE in T |- *. rewrite XY, !scale_abs in T. apply p2_cancel in T.
    pose proof (rhe_nearest y (2 ^ 52)) as N1. pose proof (rhe_nearest y (- 2 ^ 52)) as N2. rewrite qz_opp in N2.
    assert (G2 : g = qz (2 ^ 52) \/ g = qz (- 2 ^ 52)).
    { rewrite qz_opp. rewrite <- T in N1, N2. assert (U0 : (q0 < qz (2 ^ 52))%Qc) by (apply (proj2 (qz_lt 0 _)); reflexivity).
      set (u := qz (2 ^ 52)) in *. clear - N1 N2 YL GL U0. clearbody u g y.
      destruct (qleb q0 y) eqn:S; qc_bool; [left|right]; qabs_all; qlra. }
    destruct G2 as [-> | ->]; eauto. }
  destruct K as (k & ->). rewrite XY, !scale_abs in T. apply p2_cancel in T.
  destruct (rhe_tie y k) as [EV D]; auto. { intros ->. now apply NE. }
  exists (rhe y / 2), e.
  apply Z.even_spec in EV. destruct EV as [h EV]. rewrite EV.
  replace (2 * h / 2) with h by (rewrite Z.mul_comm, Z.div_mul; lia). split; [reflexivity|]. rewrite <- EV.
  destruct D as [-> | ->]; [left; rewrite qz_plus|right; rewrite qz_minus]; change (qz 1) with 1%Qc; ring.
Qed.
Lemma fl_exact x : flt x -> fl x = x.
Proof.
  intros H. pose proof (fl_nearest x x H) as N. replace (Qcminus x x) with q0 in N by (change q0 with 0%Qc; ring).
  rewrite (qabs_of_nonneg q0) in N by qlra. apply qabs_zero in N. qlra.
Qed.
Lemma fl_mono x y : (x <= y)%Qc -> (fl x <= fl y)%Qc.
Proof.
  intros H. destruct (qeqb x y) eqn:E; qc_bool; [subst; apply Qcle_refl|].
  pose proof (fl_nearest x _ (fl_flt y)) as A. pose proof (fl_nearest y _ (fl_flt x)) as B.
  destruct (qleb (fl x) (fl y)) eqn:X; qc_bool; auto. exfalso.
  assert (x < y)%Qc as L by qlra. clear E H. set (f := fl x) in *. set (g := fl y) in *. clearbody f g.
  qabs_all; qlra.
Qed.
Lemma flt_opp x : flt x -> flt (Qcopp x).
Proof.
  intros (m & e & A & B & ->). exists (- m), e. rewrite Z.abs_opp. split; auto. split; auto.
  rewrite qz_opp. ring.
Qed.
Lemma fl_in_range x : in_range x -> in_range (fl x).
Proof.
  unfold in_range. rewrite !qabs_le_iff. intros [A B]. apply fl_mono in A. apply fl_mono in B.
  rewrite (fl_exact max64 max64_flt) in B. rewrite (fl_exact (Qcopp max64)) in A by (apply flt_opp, max64_flt). auto.
Qed.
Theorem fl_correct x : in_range x -> nearest x (fl x).
Proof.
  intros H. split.
  - apply flt_b64; [apply fl_flt|now apply fl_in_range].
  - intros g Hg. apply fl_nearest. now apply b64_flt.
Qed.
Theorem fl_rounded x : in_range x -> rounded x (fl x).
Proof.
  intros H. split; [now apply fl_correct|]. intros g G NE T. apply fl_even; auto. now apply b64_flt.
Qed.

(* ---------------- relative error ---------------- *)
Lemma fl_0 : fl q0 = q0. Proof. reflexivity. Qed.

Lemma fl_error x : (p2 (-1022) <= qabs x)%Qc -> (qabs (Qcminus x (fl x)) <= p2 (-53) * qabs x)%Qc.
Proof.
  intros H. assert (N : x <> q0).
  { intros ->. rewrite (qabs_of_nonneg q0) in H by qlra. pose proof (p2_pos (-1022)). qlra. }
  pose proof (fl_error_ulp x N) as U. eapply Qcle_trans; [exact U|].
  destruct (ilog_spec _ (qabs_pos x N)) as [L1 L2].
  assert (E : ulp_exp x = ilog (qabs x) - 52).
  { unfold ulp_exp. apply Z.max_r. pose proof (p2_lt_inv (-1022) (ilog (qabs x) + 1)) as I.
    assert (p2 (-1022) < p2 (ilog (qabs x) + 1))%Qc as J by (eapply Qcle_lt_trans; eauto).
    apply I in J. lia. }
  rewrite E. unfold Z.sub. rewrite p2_plus.
  assert (F : (qq 1 2 * p2 (- (52)) = p2 (-53))%Qc) by (apply Qc_is_canon; vm_compute; reflexivity).
  rewrite <- F. pose proof (p2_pos (- (52))) as P. pose proof (p2_pos (ilog (qabs x))) as P'.
  set (u := p2 (- (52))) in *. set (v := p2 (ilog (qabs x))) in *. set (w := qabs x) in *. clearbody u v w.
  assert (q0 <= qq 1 2)%Qc by (apply qleb_iff; reflexivity). set (hf := qq 1 2) in *. clearbody hf.
  assert (q0 <= hf * u)%Qc by qnra. qnra.
Qed.

(** multiples of 2^-1074 below 2^-1021 are representable *)
Lemma flt_small n : Z.abs n <= 2 ^ 53 -> flt (Qcmult (qz n) (p2 (-1074))).
Proof. intros H. apply flt_intro; lia. Qed.

Lemma flt_multiple x : flt x -> exists n, x = Qcmult (qz n) (p2 (-1074)).
Proof.
  intros (m & e & A & B & ->). exists (m * 2 ^ (e + 1074)). rewrite qz_p2_scale by lia.
  rewrite <- Qcmult_assoc, <- p2_plus. do 2 f_equal. lia.
Qed.

(** sums and differences of floats have relative error 2^-53 without exception *)
Lemma fl_error_multiple x : (exists n, x = Qcmult (qz n) (p2 (-1074))) ->
  (qabs (Qcminus x (fl x)) <= p2 (-53) * qabs x)%Qc.
Proof.
  intros (n & E). destruct (qleb (p2 (-1022)) (qabs x)) eqn:X; qc_bool; [now apply fl_error|].
  rewrite fl_exact.
  - replace (Qcminus x x) with q0 by (change q0 with 0%Qc; ring). rewrite (qabs_of_nonneg q0) by qlra.
    pose proof (p2_pos (-53)). pose proof (qabs_nonneg x). set (u := p2 (-53)) in *. clearbody u. qnra.
  - rewrite E. apply flt_small. rewrite E, qabs_mult, qabs_qz in X.
    pose proof (p2_pos (-1074)) as P. rewrite (qabs_of_nonneg (p2 (-1074))) in X by qlra.
    assert (p2 (-1022) = qz (2 ^ 52) * p2 (-1074))%Qc as Y by (rewrite <- p2_nonneg, <- p2_plus by lia; reflexivity).
    rewrite Y in X. 
    assert (qz (Z.abs n) < qz (2 ^ 52))%Qc as L.
    { destruct (qltb (qz (Z.abs n)) (qz (2 ^ 52))) eqn:W; qc_bool; auto. exfalso.
      set (u := qz (2 ^ 52)) in *. set (v := p2 (-1074)) in *. clearbody u v. qnra. }
    apply (proj1 (qz_lt _ _)) in L. assert (2 ^ 52 < 2 ^ 53) by reflexivity. lia.
Qed.
Lemma flt_plus_multiple a b : flt a -> flt b -> exists n, Qcplus a b = Qcmult (qz n) (p2 (-1074)).
Proof.
  intros A B. apply flt_multiple in A. apply flt_multiple in B. destruct A as (n & ->). destruct B as (m & ->).
  exists (n + m). rewrite qz_plus. ring.
Qed.
Lemma fadd_error a b : flt a -> flt b ->
  (qabs (Qcminus (Qcplus a b) (fadd a b)) <= p2 (-53) * qabs (Qcplus a b))%Qc.
Proof. intros A B. unfold fadd. apply fl_error_multiple. now apply flt_plus_multiple. Qed.

(** the sign of a rounded number *)
Lemma fl_pos x : (exists n, x = Qcmult (qz n) (p2 (-1074))) -> (q0 < x)%Qc -> (q0 < fl x)%Qc.
Proof.
  intros (n & ->) H. pose proof (p2_pos (-1074)) as P.
  assert (1 <= n) as N.
  { destruct (Z.lt_ge_cases n 1); auto. exfalso. assert (qz n <= qz 0)%Qc by (apply qz_le; lia).
    fold q0 in *. set (v := p2 (-1074)) in *. clearbody v. qnra. }
  assert (L : (p2 (-1074) <= qz n * p2 (-1074))%Qc).
  { assert (qz 1 <= qz n)%Qc by (apply qz_le; lia). set (v := p2 (-1074)) in *. clearbody v. qnra. }
  apply fl_mono in L. rewrite (fl_exact (p2 (-1074))) in L.
  - eapply Qclt_le_trans; eauto.
  - replace (p2 (-1074)) with (Qcmult (qz 1) (p2 (-1074))) by (change (qz 1) with 1%Qc; ring).
    apply flt_small. cbn. lia.
Qed.

(* ---------------- integers, halves, grids ---------------- *)
Lemma flt_grid k n : 0 <= k <= 1074 -> Z.abs n <= 2 ^ 53 -> flt (Qcmult (qz n) (p2 (- k))).
Proof. intros A B. apply flt_intro; lia. Qed.
Lemma flt_Z n : Z.abs n <= 2 ^ 53 -> flt (qz n).
Proof.
  intros H. replace (qz n) with (Qcmult (qz n) (p2 (- 0))); [apply flt_grid; lia|].
  change (p2 (- 0)) with 1%Qc. ring.
Qed.
