(** Property theorems C118: the samplers of line states. *)
From Verif Require Import Base BaseProofs LoadModel SampleModel SampleProofs SamplersModel SamplersSpec.
Open Scope Z_scope.

Lemma share_unique P r k k' : cumulative P -> share P r k -> share P r k' -> k = k'.
Proof.
  intros [L S0 U E] (H1 & A1 & B1) (H2 & A2 & B2).
  assert (M : forall i j, (i <= j)%nat -> (j < 6)%nat -> (vget P i <= vget P j)%Qc).
  { intros i j Hij. induction Hij as [|j Hij IH]; intros Hj; [apply Qcle_refl|]. eapply Qcle_trans; [apply IH; lia|apply U; lia]. }
  destruct (Z.lt_trichotomy k k') as [K|[K|K]]; [|exact K|]; exfalso.
  - destruct B2 as [->|B2]; [lia|]. pose proof (M (Z.to_nat (k - 1)) (Z.to_nat (k' - 2)) ltac:(lia) ltac:(lia)). qlra.
  - destruct B1 as [->|B1]; [lia|]. pose proof (M (Z.to_nat (k' - 1)) (Z.to_nat (k - 2)) ltac:(lia) ltac:(lia)). qlra.
Qed.

Lemma six (P : list Qc) : length P = 6%nat -> exists a b c d e f, P = [a; b; c; d; e; f].
Proof. intros L. destruct P as [|a [|b [|c [|d [|e [|f [|? ?]]]]]]]; try discriminate. eauto 10. Qed.

Ltac step6 := repeat match goal with
  | |- context [qltb ?a ?b] => let E := fresh in destruct (qltb a b) eqn:E; [apply (proj1 (qltb_iff _ _)) in E|apply (proj1 (qltb_false _ _)) in E]
  | |- context [qleb ?a ?b] => let E := fresh in destruct (qleb a b) eqn:E; [apply (proj1 (qleb_iff _ _)) in E|apply (proj1 (qleb_false _ _)) in E]
  end.

Lemma alt_share P r : cumulative P -> (r < q1)%Qc -> share P r (line_state_alt r P).
Proof.
  intros C Hr. destruct (six P (cu_len P C)) as (a & b & c & d & e & f & ->). destruct C as [_ S0 U E].
  pose proof (U 0%nat ltac:(lia)) as U0. pose proof (U 1%nat ltac:(lia)) as U1. pose proof (U 2%nat ltac:(lia)) as U2. pose proof (U 3%nat ltac:(lia)) as U3. pose proof (U 4%nat ltac:(lia)) as U4.
  unfold vget in *. cbn [nth] in *. subst f. unfold line_state_alt, share. cbn [seq fold_left nth].
  step6; cbn; repeat split; try lia; try (left; reflexivity); try (right; assumption); try assumption; try qlra; exfalso; qlra.
Qed.
Lemma original_share P r : cumulative P -> (q0 < r)%Qc -> (r < q1)%Qc -> (forall i, (i < 6)%nat -> r <> vget P i) -> share P r (line_state r P).
Proof.
  intros C H0 Hr T. rewrite <- line_state_alt_eq; [now apply alt_share| |].
  - rewrite (cu_end P C). exact Hr.
  - intros i Hi. apply T. lia.
Qed.

Lemma sums_diffs : forall l x, sums x (diffs x l) = l.
Proof. induction l as [|y l IH]; intros x; cbn [diffs sums]; [reflexivity|]. replace (Qcplus x (Qcminus y x)) with y by qring. now rewrite IH. Qed.
Lemma sums_prob P : sums q0 (to_prob P) = P.
Proof. destruct P as [|p r]; cbn [to_prob sums]; [reflexivity|]. replace (Qcplus q0 p) with p by qring. now rewrite sums_diffs. Qed.
Lemma qsum_diffs : forall l x, qsum (diffs x l) = Qcminus (last l x) x.
Proof.
  induction l as [|y l IH]; intros x; [cbn; qring|]. change (diffs x (y :: l)) with (Qcminus y x :: diffs y l). rewrite qsum_cons, IH.
  assert (L : last (y :: l) x = last l y). { clear. revert y. induction l as [|z l IH]; intros y; [reflexivity|]. cbn [last] in *. destruct l; [reflexivity|]. apply (IH y). }
  rewrite L. qring.
Qed.
Lemma qsum_prob P : length P = 6%nat -> qsum (to_prob P) = vget P 5.
Proof. intros L. destruct (six P L) as (a & b & c & d & e & f & ->). cbn [to_prob]. rewrite qsum_cons, qsum_diffs. unfold vget. cbn [last nth]. qring. Qed.
Lemma is_one_1 : is_one q1 = true. Proof. vm_compute. reflexivity. Qed.
Lemma checked_ok n P : cumulative P -> 0 < n -> checked n P = Ok tt.
Proof. intros C Hn. unfold checked. destruct (Z.leb_spec n 0); [lia|]. rewrite (qsum_prob P (cu_len P C)), (cu_end P C), is_one_1. reflexivity. Qed.

Lemma search_share P r : cumulative P -> (q0 <= r)%Qc -> (r < q1)%Qc -> share P r (nth (search_right P r) [1; 2; 3; 4; 5; 6] 0).
Proof.
  intros C H0 Hr. destruct (six P (cu_len P C)) as (a & b & c & d & e & f & ->). destruct C as [_ S0 U E].
  pose proof (U 0%nat ltac:(lia)) as U0. pose proof (U 1%nat ltac:(lia)) as U1. pose proof (U 2%nat ltac:(lia)) as U2. pose proof (U 3%nat ltac:(lia)) as U3. pose proof (U 4%nat ltac:(lia)) as U4.
  unfold vget in *. cbn [nth] in *. subst f. unfold search_right, share. cbn [filter].
  step6; cbn; repeat split; try lia; try (left; reflexivity); try (right; assumption); try assumption; try qlra; exfalso; qlra.
Qed.

(** C118.  From cumulative probabilities and numbers of [0, 1) each sampler delivers one
    state per line: the matrix version and the one on numpy's choice each give every
    number's state, hence the same ones. *)
Theorem C118_same_states : forall n P R, cumulative P -> 0 < n -> length R = Z.to_nat n -> Forall (fun r => (q0 <= r)%Qc /\ (r < q1)%Qc) R ->
  exists S, discrete_prob_gen n P R = Ok S /\ lstate_matrix R (repeat P (Z.to_nat n)) = S /\ Forall2 (share P) R S.
Proof.
  intros n P R C Hn LR F. unfold discrete_prob_gen. rewrite checked_ok by auto. cbn [bind].
  rewrite <- LR, firstn_all. unfold choice. rewrite (qsum_prob P (cu_len P C)), (cu_end P C).
  assert (Q1 : qltb (qq 1 67108864) (qabs (Qcminus q1 q1)) = false) by (vm_compute; reflexivity). rewrite Q1. clear Q1.
  assert (Q2 : existsb (fun p => qltb p q0) (to_prob P) = false).
  { destruct (six P (cu_len P C)) as (a & b & c & d & e & f & EP). pose proof (cu_start P C) as S0. pose proof (cu_up P C) as U. rewrite EP in *.
    pose proof (U 0%nat ltac:(lia)) as U0. pose proof (U 1%nat ltac:(lia)) as U1. pose proof (U 2%nat ltac:(lia)) as U2. pose proof (U 3%nat ltac:(lia)) as U3. pose proof (U 4%nat ltac:(lia)) as U4.
    unfold vget in S0, U0, U1, U2, U3, U4. cbn [nth] in S0, U0, U1, U2, U3, U4. cbn [to_prob diffs existsb].
    step6; try qlra; reflexivity. }
  rewrite Q2. cbv zeta. rewrite sums_prob.
  assert (EC : map (fun c => Qcdiv c (last P q0)) P = P).
  { destruct (six P (cu_len P C)) as (a & b & c & d & e & f & EP). pose proof (cu_end P C) as E. rewrite EP in *. unfold vget in E. cbn [nth] in E. subst f.
    cbn [last map]. assert (D : forall x, Qcdiv x q1 = x) by (intros; change q1 with 1%Qc; field; discriminate). rewrite !D. reflexivity. }
  rewrite EC. eexists. split; [reflexivity|]. clear LR Q2 EC Hn. induction F as [|r R [F0 F1] F IH].
  - split; [reflexivity|constructor].
  - destruct IH as [IH1 IH2]. pose proof (search_share P r C F0 F1) as SH. cbn [map length repeat]. split.
    + unfold lstate_matrix, map2 in *. cbn [combine map]. f_equal; try exact IH1. apply (share_unique P r); auto. now apply alt_share.
    + constructor; auto.
Qed.
Print Assumptions C118_same_states.
(** The original version too, if no number is 0 or equals a cumulative probability. *)
Theorem C118_original_partial : forall n P R, cumulative P -> 0 < n -> length R = Z.to_nat n ->
  Forall (fun r => (q0 < r)%Qc /\ (r < q1)%Qc /\ forall i, (i < 6)%nat -> r <> vget P i) R ->
  lstate_original n P R = discrete_prob_gen n P R.
Proof.
  intros n P R C Hn LR F. destruct (C118_same_states n P R C Hn LR) as (S & E & _ & SH).
  { eapply Forall_impl; [|exact F]. cbn. intros r (A & B & _). split; [now apply Qclt_le_weak|exact B]. }
  rewrite E. unfold lstate_original. rewrite checked_ok by auto. cbn [bind]. f_equal. rewrite <- LR, firstn_all. clear E LR.
  induction SH as [|r s R S H SH IH]; [reflexivity|]. inversion F as [|r' R' (A & B & T) F']; subst. cbn [map]. f_equal; [|now apply IH].
  apply (share_unique P r); auto. now apply original_share.
Qed.
Print Assumptions C118_original_partial.
(** At such a number it takes the state before: a state of probability 0 can be drawn. *)
Theorem C118_impossible_state_refuted : exists P, cumulative P /\ vget P 0 = q0 /\
  lstate_original 1 P [q0] = Ok [1] /\ discrete_prob_gen 1 P [q0] = Ok [2] /\ share P q0 2.
Proof.
  exists [q0; qq 1 2; q1; q1; q1; q1]. split.
  { constructor; [reflexivity|apply Qcle_refl| |reflexivity]. intros i Hi. do 5 (destruct i as [|i]; [apply (proj1 (qleb_iff _ _)); vm_compute; reflexivity|]). lia. }
  split; [reflexivity|]. split; [vm_compute; reflexivity|]. split; [vm_compute; reflexivity|].
  split; [lia|]. split; [apply (proj1 (qltb_iff _ _)); vm_compute; reflexivity|right; apply Qcle_refl].
Qed.
Print Assumptions C118_impossible_state_refuted.
(** What is refused: no lines, or probabilities that do not sum to 1 (up to 1e-9).  The
    matrix version checks nothing: a number above the last entry gives state 0. *)
Theorem C118_refused : forall n P R, length P = 6%nat ->
  (n <= 0 -> lstate_original n P R = Err ValueError /\ discrete_prob_gen n P R = Err ValueError) /\
  (0 < n -> (vget P 5 < qq 99 100)%Qc -> lstate_original n P R = Err AssertionError /\ discrete_prob_gen n P R = Err AssertionError) /\
  (forall r, (forall i, (i < 6)%nat -> (vget P i <= r)%Qc) -> lstate_matrix [r] [P] = [0]).
Proof.
  intros n P R L. unfold lstate_original, discrete_prob_gen, checked. rewrite (qsum_prob P L). split; [|split].
  - intros Hn. destruct (Z.leb_spec n 0); [split; reflexivity|lia].
  - intros Hn H. destruct (Z.leb_spec n 0); [lia|].
    assert (I : is_one (vget P 5) = false).
    { set (x := vget P 5) in *. unfold is_one. destruct (qleb _ _) eqn:E; [|reflexivity]. exfalso. apply (proj1 (qleb_iff _ _)) in E. revert E. unfold qabs.
      assert (Q : (qq 99 100 < q1)%Qc) by (apply (proj1 (qltb_iff _ _)); vm_compute; reflexivity).
      assert (K1 : (qq 99 100 + qq 1 100 = q1)%Qc) by (apply Qc_is_canon; vm_compute; reflexivity).
      assert (K2 : (qq 1 1000000000 < qq 1 100)%Qc) by (apply (proj1 (qltb_iff _ _)); vm_compute; reflexivity).
      assert (K3 : (q0 < qq 1 1000000000)%Qc) by (apply (proj1 (qltb_iff _ _)); vm_compute; reflexivity).
      assert (K4 : (qq 1 1000000000 < q1)%Qc) by (apply (proj1 (qltb_iff _ _)); vm_compute; reflexivity).
      set (t := qq 1 1000000000) in *. set (u := qq 1 100) in *. set (v := qq 99 100) in *. clearbody t u v x. clear - H Q K1 K2 K3 K4. change q1 with 1%Qc in *. change q0 with 0%Qc in *.
      step6; intros; try qlra; try qnra. }
    rewrite I. split; reflexivity.
  - intros r H. unfold lstate_matrix, map2. cbn [combine map fst snd]. f_equal. destruct (six P L) as (a & b & c & d & e & f & ->).
    pose proof (H 0%nat ltac:(lia)) as U0. pose proof (H 1%nat ltac:(lia)) as U1. pose proof (H 2%nat ltac:(lia)) as U2. pose proof (H 3%nat ltac:(lia)) as U3. pose proof (H 4%nat ltac:(lia)) as U4. pose proof (H 5%nat ltac:(lia)) as U5.
    unfold vget in *. cbn [nth] in *. unfold line_state_alt. cbn [seq fold_left nth]. step6; try (exfalso; qlra). reflexivity.
Qed.
Print Assumptions C118_refused.

(** the probabilities of test_line_prob_sampling.py: 0.9216, 0.0768, 0.0016, 0, 0, 0 *)
Definition test_P : list Qc := [qq 9216 10000; qq 9984 10000; q1; q1; q1; q1].
Example C118_witness : cumulative test_P /\ Forall (fun r => (q0 < r)%Qc /\ (r < q1)%Qc /\ forall i, (i < 6)%nat -> r <> vget test_P i) [qq 1 2; qq 95 100; qq 999 1000] /\
  lstate_original 3 test_P [qq 1 2; qq 95 100; qq 999 1000] = Ok [1; 2; 3].
Proof.
  split.
  { constructor; [reflexivity|apply (proj1 (qleb_iff _ _)); vm_compute; reflexivity| |reflexivity]. intros i Hi. do 5 (destruct i as [|i]; [apply (proj1 (qleb_iff _ _)); vm_compute; reflexivity|]). lia. }
  split; [|vm_compute; reflexivity].
  repeat constructor; try (apply (proj1 (qltb_iff _ _)); vm_compute; reflexivity);
  intros i Hi E; do 6 (destruct i as [|i]; [apply (f_equal this) in E; vm_compute in E; discriminate E|]); lia.
Qed.
