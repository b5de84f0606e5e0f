(** The simulation loop under rounding: the clock is exact. *)
From Coq Require Import Permutation.
From Verif Require Import Base BaseProofs EventModel EventSpec EventProofs ControlModel ControlSpec
  ControlProofs RunProofs FloatSpec FloatModel FloatProofs.
Open Scope Z_scope.

Lemma hh_p2 k : hh k = Qcmult (qz k) (p2 (- 1)).
Proof. unfold hh. change (p2 (- 1)) with (qq 1 2). apply Qc_is_canon. rewrite this_mult, this_qz, !this_qq. unfold inject_Z, Qeq, Qmult. cbn [Qnum Qden]. lia. Qed.
Lemma flt_hh k : Z.abs k <= 2 ^ 53 -> flt (hh k).
Proof. intros H. rewrite hh_p2. apply (flt_grid 1 k); lia. Qed.
Lemma fadd_hh k d : Z.abs (k + 2 * d) <= 2 ^ 53 -> fadd (hh k) (qz d) = Qcplus (hh k) (qz d).
Proof. intros H. unfold fadd. apply fl_exact. rewrite hh_plus. now apply flt_hh. Qed.

Lemma fevents_same {W} (h : handlers W) cf N (s : lst W) ty k :
  step_ok (c_JSTEP cf) -> s_clock s = hh k -> 0 <= k <= 2 ^ 52 + 2 ->
  fevents h cf N s ty = events h cf N s ty.
Proof.
  intros SO E B. unfold step_ok in SO. unfold fevents, events. cbv zeta. rewrite E.
  assert (2 ^ 52 + 17522 <= 2 ^ 53) as M by (vm_compute; discriminate).
  rewrite (fadd_hh k (c_JSTEP cf)), (fadd_hh k 168), (fadd_hh k 8760) by lia. reflexivity.
Qed.

Lemma fstep_same {W} (h : handlers W) cf (s : lst W) a b c d n :
  step_ok (c_JSTEP cf) -> c_FINISH cf = qz n -> Z.abs n <= 2 ^ 51 -> inv (c_JSTEP cf) s a b c d ->
  fcontrl_step h cf s = contrl_step h cf s.
Proof.
  intros SO EF BF [(lz & m & H & P & T) (ck & EC & HC & FC)].
  destruct lz as [|p lz]. { apply Permutation_nil in P. discriminate. }
  destruct (holds_head _ _ _ _ H) as [HP HT].
  assert (PC : ck <= fst p).
  { eapply Forall_forall in FC; [exact FC|]. eapply Permutation_in; [exact P|now left]. }
  assert (FF : fadd (c_FINISH cf) q1 = Qcplus (c_FINISH cf) q1).
  { unfold fadd. apply fl_exact. rewrite EF. unfold q1. rewrite <- qz_plus. apply flt_Z.
    assert (2 ^ 51 + 1 <= 2 ^ 53) by (vm_compute; discriminate). lia. }
  unfold fcontrl_step, contrl_step. cbv zeta. rewrite HP, HT. cbn [of_res]. rewrite FF.
  destruct (qltb (hh (fst p)) (s_clock s)); [reflexivity|]. destruct (s_rflag s =? 1); [reflexivity|].
  destruct (qltb (Qcplus (c_FINISH cf) q1) (hh (fst p))) eqn:L; [reflexivity|]. apply qltb_false in L.
  destruct (remove_refines _ _ _ _ H) as (c' & R & _). rewrite R. cbn [of_res]. unfold inj. cbn beta iota.
  rewrite (fevents_same h cf _ _ _ (fst p)); [reflexivity|exact SO|reflexivity|].
  rewrite EF in L. unfold q1 in L. rewrite <- qz_plus in L. rewrite qz_hh in L.
  apply (proj1 (hh_le _ _)) in L.
  change (2 ^ 52) with (2 * 2 ^ 51). set (u := 2 ^ 51) in *. unfold step_ok in SO. clearbody u. nia.
Qed.

Lemma frun_same {W} (h : handlers W) cf n : step_ok (c_JSTEP cf) -> c_FINISH cf = qz n -> Z.abs n <= 2 ^ 51 ->
  forall fuel s a b c d, inv (c_JSTEP cf) s a b c d -> fcontrl fuel h cf s = contrl fuel h cf s.
Proof.
  intros SO EF BF. induction fuel as [|f IH]; intros s a b c d I; [reflexivity|].
  cbn [fcontrl contrl]. rewrite (fstep_same h cf s a b c d n) by auto.
  pose proof (step_spec h cf s a b c d SO I) as SP.
  destruct (contrl_step h cf s) as [| | |y|e s'|er]; try reflexivity.
  destruct SP as (_ & _ & _ & _ & _ & a' & b' & c' & d' & _ & I'). now rewrite (IH _ _ _ _ _ I').
Qed.

Theorem clock_exact {W} (h : handlers W) cf nu (w : W) fuel n :
  step_ok (c_JSTEP cf) -> c_FINISH cf = qz n -> Z.abs n <= 2 ^ 51 ->
  fcontrl fuel h cf (start cf nu w) = contrl fuel h cf (start cf nu w).
Proof. intros SO EF BF. eapply frun_same; eauto. now apply start_inv. Qed.

(** quotients of whole numbers: the rounded quotient has the same floor *)
Lemma fdiv_floor n d k : 0 < d <= 2 ^ k -> 0 <= k <= 1074 -> (Z.abs (n / d) + 2) * 2 ^ k <= 2 ^ 53 ->
  qfloor (fdiv (qz n) (qz d)) = n / d.
Proof.
  intros D K B. unfold fdiv. set (m := n / d) in *.
  pose proof (Z.div_mod n d ltac:(lia)) as E. pose proof (Z.mod_pos_bound n d ltac:(lia)) as R. fold m in E.
  set (r := n mod d) in *.
  assert (QD : (q0 < qz d)%Qc) by (apply (proj2 (qz_lt 0 d)); lia).
  assert (Q : Qcmult (qz n / qz d) (qz d) = qz n).
  { field. apply qz_neq0. lia. }
  assert (L : (qz m <= qz n / qz d)%Qc).
  { apply (qmul_le_inv _ _ (qz d) QD). rewrite Q, <- qz_mult. apply qz_le. lia. }
  pose proof (p2_pos (- k)) as P. pose proof (pow_pos k ltac:(lia)) as PK.
  assert (P1 : Qcmult (p2 (- k)) (qz (2 ^ k)) = q1).
  { rewrite <- p2_nonneg by lia. rewrite Qcmult_comm. apply p2_inv. }
  (* n/d <= m + 1 - 2^-k *)
  assert (U : (qz n / qz d <= qz ((m + 1) * 2 ^ k - 1) * p2 (- k))%Qc).
  { apply (qmul_le_inv _ _ (qz d) QD). rewrite Q.
    apply (qmul_le_inv _ _ (qz (2 ^ k))); [apply (proj2 (qz_lt 0 _)); lia|].
    replace (qz ((m + 1) * 2 ^ k - 1) * p2 (- k) * qz d * qz (2 ^ k))%Qc
      with (qz ((m + 1) * 2 ^ k - 1) * qz d * (p2 (- k) * qz (2 ^ k)))%Qc by ring.
    rewrite P1. replace (qz ((m + 1) * 2 ^ k - 1) * qz d * q1)%Qc with (qz ((m + 1) * 2 ^ k - 1) * qz d)%Qc by qring.
    rewrite <- !qz_mult. apply qz_le. set (t := 2 ^ k) in *. clearbody t. nia. }
  apply fl_mono in L. apply fl_mono in U.
  rewrite (fl_exact (qz m)) in L by (apply flt_Z; set (t := 2 ^ k) in *; clearbody t; nia).
  rewrite (fl_exact (Qcmult _ _)) in U.
  2: { apply flt_grid; [lia|]. set (t := 2 ^ k) in *. clearbody t. nia. }
  apply qfloor_unique; [exact L|]. eapply Qcle_lt_trans; [exact U|].
  apply (qmul_lt_inv _ _ (qz (2 ^ k))); [apply (proj2 (qz_lt 0 _)); lia|].
  rewrite <- Qcmult_assoc, P1. replace (qz ((m + 1) * 2 ^ k - 1) * q1)%Qc with (qz ((m + 1) * 2 ^ k - 1)) by qring.
  rewrite <- qz_mult. apply qz_lt. lia.
Qed.

Theorem day_number_exact n : -1 <= n <= 8760 -> fday_number n = n / 24.
Proof.
  intros H. unfold fday_number. apply (fdiv_floor n 24 5); [cbn; lia|lia|].
  pose proof (Z.div_le_mono n 8760 24 ltac:(lia) ltac:(lia)). pose proof (Z.div_le_mono (-1) n 24 ltac:(lia) ltac:(lia)).
  change (8760 / 24) with 365 in *. change (-1 / 24) with (-1) in *. change (2 ^ 5) with 32.
  assert (20000 <= 2 ^ 53) by (vm_compute; discriminate). lia.
Qed.
Theorem year_number_exact y : 0 <= y <= 2 ^ 38 -> fyear_number (qz (8760 * y)) = y.
Proof.
  intros H. unfold fyear_number.
  assert (E : fadd (qz (8760 * y)) q1 = qz (8760 * y + 1)).
  { unfold fadd, q1. rewrite <- qz_plus. apply fl_exact, flt_Z.
    assert (8760 * 2 ^ 38 + 1 <= 2 ^ 53) by (vm_compute; discriminate). lia. }
  rewrite E. assert (D : (8760 * y + 1) / 8760 = y).
  { rewrite Z.mul_comm, Z.div_add_l by lia. change (1 / 8760) with 0. lia. }
  assert (F : qfloor (fdiv (qz (8760 * y + 1)) (qz 8760)) = y).
  { rewrite (fdiv_floor _ 8760 14).
    - exact D.
    - split; [lia|vm_compute; discriminate].
    - lia.
    - rewrite D. assert ((2 ^ 38 + 2) * 2 ^ 14 <= 2 ^ 53) by (vm_compute; discriminate).
      set (t := 2 ^ 14) in *. assert (0 < t) by reflexivity. clearbody t. nia. }
  rewrite qtrunc_nonneg; [exact F|]. destruct (qfloor_spec (fdiv (qz (8760 * y + 1)) (qz 8760))) as [L _].
  rewrite F in L. eapply Qcle_trans; [|exact L]. apply (proj2 (qz_le 0 y)). lia.
Qed.
