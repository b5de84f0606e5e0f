(** C112: the streams of all units and lines with even (odd) numbers are one cycle. *)
From Coq Require Import Znumtheory Zpow_facts.
From Verif Require Import Base BaseProofs SampleModel SampleProofs ProgramSpec PeriodSpec PeriodProofs.
Open Scope Z_scope.

Definition two_units : Z := 2622368.
Lemma two_units_pow : (9649599 * 9649599) mod 2 ^ 25 = 65539 ^ two_units mod 2 ^ 25.
Proof. rewrite <- (Zpow_mod_correct 65539 two_units (2 ^ 25)) by discriminate. vm_compute. reflexivity. Qed.

Lemma seed_step_any T u k : 0 <= T -> (9649599 * 9649599) mod 2 ^ 25 = 65539 ^ T mod 2 ^ 25 -> unit_seed (u + 2) k = unit_seed u (k + Z.to_nat T).
Proof.
  intros HT ET. rewrite !seed_form. f_equal. rewrite Nat2Z.inj_add, Z2Nat.id by exact HT. rewrite Z.pow_add_r by lia.
  unfold odd_part. replace (Z.of_nat (u + 2) + 1) with ((Z.of_nat u + 1) + 2) by lia. rewrite (Z.pow_add_r 9649599) by lia. change (9649599 ^ 2) with (9649599 * 9649599).
  generalize (9649599 ^ (Z.of_nat u + 1)) (65539 ^ Z.of_nat k). intros a b.
  replace (1929 * (a * (9649599 * 9649599)) * b) with ((9649599 * 9649599) * (1929 * a * b)) by ring.
  replace (1929 * a * (b * 65539 ^ T)) with (65539 ^ T * (1929 * a * b)) by ring.
  rewrite <- Z.mul_mod_idemp_l by discriminate. rewrite ET. rewrite Z.mul_mod_idemp_l by discriminate. reflexivity.
Qed.
Lemma seed_step u k : unit_seed (u + 2) k = unit_seed u (k + Z.to_nat two_units).
Proof. apply seed_step_any; [discriminate|exact two_units_pow]. Qed.
Global Opaque two_units.
Lemma two_units_pos : 0 <= two_units. Proof. Transparent two_units. discriminate. Opaque two_units. Qed.
Lemma seed_steps j u k : unit_seed (u + 2 * j) k = unit_seed u (k + j * Z.to_nat two_units).
Proof.
  revert k. induction j as [|j IH]; intros k; [f_equal; lia|].
  replace (u + 2 * S j)%nat with ((u + 2 * j) + 2)%nat by lia. rewrite seed_step, IH. f_equal. rewrite Nat.mul_succ_l. lia.
Qed.

(** odd and even units differ modulo 8 *)
Lemma pow_mod8 m : 0 <= m -> 65539 ^ m mod 8 = 1 \/ 65539 ^ m mod 8 = 3.
Proof.
  revert m. apply natlike_ind; [left; reflexivity|]. intros m HM [E|E]; rewrite Z.pow_succ_r by lia; rewrite Z.mul_mod, E by discriminate; [right|left]; reflexivity.
Qed.
Lemma seed_mod8 m : 0 <= m -> (Z.even m = true -> 9649599 ^ m mod 8 = 1) /\ (Z.even m = false -> 9649599 ^ m mod 8 = 7).
Proof.
  revert m. apply natlike_ind; [split; [reflexivity|discriminate]|]. intros m HM (A & B). rewrite Z.pow_succ_r, Z.even_succ, <- Z.negb_even by lia.
  rewrite Z.mul_mod by discriminate. destruct (Z.even m); cbn [negb]; split; intros K; try discriminate K; [rewrite A by reflexivity|rewrite B by reflexivity]; reflexivity.
Qed.
Lemma class_of u k : let c := ((odd_part u * 65539 ^ Z.of_nat k) mod 2 ^ 25) mod 8 in
  (Nat.even u = false -> c = 1 \/ c = 3) /\ (Nat.even u = true -> c = 5 \/ c = 7).
Proof.
  cbn zeta. rewrite <- (Znumtheory.Zmod_div_mod 8 (2 ^ 25)) by (try reflexivity; exists (2 ^ 22); reflexivity).
  unfold odd_part. rewrite Z.mul_mod, (Z.mul_mod 1929) by discriminate. destruct (seed_mod8 (Z.of_nat u + 1) ltac:(lia)) as (A & B).
  assert (EV : Z.even (Z.of_nat u + 1) = negb (Nat.even u)).
  { change (Z.of_nat u + 1) with (Z.of_nat u + 1). rewrite Z.add_1_r, Z.even_succ, <- Z.negb_even. f_equal. clear. destruct (Nat.even u) eqn:E.
    - apply Nat.even_spec in E. destruct E as (q & ->). apply Z.even_spec. exists (Z.of_nat q). lia.
    - apply not_true_iff_false. intros H. apply Z.even_spec in H. destruct H as (q & H). rewrite <- Nat.negb_odd in E. apply negb_false_iff, Nat.odd_spec in E. destruct E as (r & ->). lia. }
  rewrite EV in A, B. split; intros K; rewrite K in A, B; cbn [negb] in A, B.
  - rewrite A by reflexivity. destruct (pow_mod8 (Z.of_nat k) ltac:(lia)) as [-> | ->]; [left|right]; reflexivity.
  - rewrite B by reflexivity. destruct (pow_mod8 (Z.of_nat k) ltac:(lia)) as [-> | ->]; [right|left]; reflexivity.
Qed.
Lemma parity u u' k k' : unit_seed u k = unit_seed u' k' -> Nat.even u = Nat.even u'.
Proof.
  rewrite !seed_form. intros E. apply Z.mul_reg_l in E; [|discriminate]. destruct (class_of u k) as (A & B). destruct (class_of u' k') as (A' & B'). rewrite E in A, B.
  destruct (Nat.even u) eqn:E1, (Nat.even u') eqn:E2; try reflexivity.
  - specialize (B eq_refl). specialize (A' eq_refl). lia.
  - specialize (A eq_refl). specialize (B' eq_refl). lia.
Qed.

(** which numbers two streams share *)
Lemma shared_le u j k k' : unit_seed u k = unit_seed (u + 2 * j) k' <-> (2 ^ 23 | Z.of_nat k - Z.of_nat k' - Z.of_nat j * two_units).
Proof.
  rewrite seed_steps, seed_period. replace (Z.of_nat k - Z.of_nat (k' + j * Z.to_nat two_units)) with (Z.of_nat k - Z.of_nat k' - Z.of_nat j * two_units); [reflexivity|].
  rewrite Nat2Z.inj_add, Nat2Z.inj_mul, Z2Nat.id by exact two_units_pos. lia.
Qed.
Lemma shared u u' k k' : unit_seed u k = unit_seed u' k' <->
  exists j, Z.of_nat u' = Z.of_nat u + 2 * j /\ (2 ^ 23 | Z.of_nat k - Z.of_nat k' - j * two_units).
Proof.
  split.
  - intros E. pose proof (parity _ _ _ _ E) as P. assert (X : exists j, Z.of_nat u' = Z.of_nat u + 2 * j).
    { destruct (Nat.even u) eqn:E1.
      - symmetry in P. apply Nat.even_spec in P, E1. destruct P as (a & ->), E1 as (b & ->). exists (Z.of_nat a - Z.of_nat b). lia.
      - symmetry in P. rewrite <- Nat.negb_odd in P, E1. apply negb_false_iff, Nat.odd_spec in P, E1. destruct P as (a & ->), E1 as (b & ->). exists (Z.of_nat a - Z.of_nat b). lia. }
    destruct X as (j & J). exists j. split; [exact J|]. destruct (Z_le_gt_dec 0 j) as [L|L].
    + assert (U : u' = (u + 2 * Z.to_nat j)%nat) by lia. rewrite U in E. apply (proj1 (shared_le _ _ _ _)) in E. rewrite Z2Nat.id in E by lia. exact E.
    + assert (U : u = (u' + 2 * Z.to_nat (- j))%nat) by lia. rewrite U in E. symmetry in E. apply (proj1 (shared_le _ _ _ _)) in E. rewrite Z2Nat.id in E by lia.
      apply Z.divide_opp_r in E. replace (Z.of_nat k - Z.of_nat k' - j * two_units) with (- (Z.of_nat k' - Z.of_nat k - - j * two_units)) by ring. exact E.
  - intros (j & J & D). destruct (Z_le_gt_dec 0 j) as [L|L].
    + assert (U : u' = (u + 2 * Z.to_nat j)%nat) by lia. rewrite U. apply shared_le. rewrite Z2Nat.id by lia. exact D.
    + assert (U : u = (u' + 2 * Z.to_nat (- j))%nat) by lia. rewrite U. symmetry. apply shared_le. rewrite Z2Nat.id by lia.
      apply Z.divide_opp_r in D. replace (Z.of_nat k' - Z.of_nat k - - j * two_units) with (- (Z.of_nat k - Z.of_nat k' - j * two_units)) by ring. exact D.
Qed.
(** lags of units less than 32 apart *)
Lemma lag_far j m : -16 < j < 16 -> j <> 0 -> (2 ^ 23 | m - j * two_units) -> 521504 <= Z.abs m.
Proof.
  intros J N (q & E). Local Transparent two_units. unfold two_units in E. change (2 ^ 23) with 8388608 in E. assert (M : m = j * 2622368 + q * 8388608) by lia. clear E.
  assert (C : j = -15 \/ j = -14 \/ j = -13 \/ j = -12 \/ j = -11 \/ j = -10 \/ j = -9 \/ j = -8 \/ j = -7 \/ j = -6 \/ j = -5 \/ j = -4 \/ j = -3 \/ j = -2 \/ j = -1 \/
    j = 1 \/ j = 2 \/ j = 3 \/ j = 4 \/ j = 5 \/ j = 6 \/ j = 7 \/ j = 8 \/ j = 9 \/ j = 10 \/ j = 11 \/ j = 12 \/ j = 13 \/ j = 14 \/ j = 15) by lia.
  repeat (destruct C as [-> |C]; [lia|]). subst j. lia.
Qed.
