(** C109: outage rates are reproduced in the long run.  C110: successive draws. *)
From Verif Require Import Base BaseProofs Sums SampleModel SampleProofs FloatProofs ControlModel HourModel HourSpec YearModel ProgramModel ProgramSpec PeriodSpec PeriodProofs PropertiesProgram.
Open Scope Z_scope.

(** ** C109.  The numbers of a stream repeat with period 2^23 exactly... *)
Theorem C109_period : forall u k k', unit_seed u k = unit_seed u k' <-> (2 ^ 23 | Z.of_nat k - Z.of_nat k').
Proof. exact seed_period. Qed.
Print Assumptions C109_period.

(** ... and over any 2^23 successive draws the share of numbers below [p] is [p]. *)
Theorem C109_uniform : forall u k p, (q0 <= p)%Qc -> (p <= q1)%Qc ->
  about (frequency (fun m => qltb (number_at u m) p) k) p.
Proof.
  intros u k p P0 P1. apply near_about, (frequency_about _ u); auto; intros m H; [now apply qltb_iff|]. apply qltb_iff in H. now apply Qclt_le_weak.
Qed.
Print Assumptions C109_uniform.

(** What draw [k] of a run gives the units and the lines. *)
Theorem C109_draws : forall n nu nl i k s AVAIL LNSTAT, input_ok n nu nl i -> length (s_rating s) = nu -> length (s_plndst s) = nu -> (1 <= k)%nat ->
  capacities nu i k s AVAIL -> line_states nu nl i k LNSTAT ->
  (forall u, (u < nu)%nat -> nth u AVAIL q0 = Qcmult (Qcmult (unit_fraction i u k) (nth u (s_rating s) q0)) (nth u (s_plndst s) q0)) /\
  (forall v, (v < nl)%nat -> nth v LNSTAT 0 = line_number i nu v k).
Proof.
  intros n nu nl i k s AV LN IO LR LP K (IG & LG & SG & ->) (IL & LL & SL & ->). pose proof (in_study _ _ _ _ IO) as ST.
  assert (LPG : length (x_PROBG (i_h i)) = nu) by apply ST. assert (LD : length (x_DERATE (i_h i)) = nu) by apply ST. assert (LPL : length (x_PROBL (i_h i)) = nl) by apply ST.
  assert (NX : forall w, (unit_seed w (k - 1) * 65539) mod 2147483648 = unit_seed w k).
  { intros w. unfold unit_seed. change 2147483648 with (2 ^ 31). rewrite Z.mul_mod_idemp_l by discriminate. f_equal. replace (Z.of_nat k) with (Z.succ (Z.of_nat (k - 1))) by lia. rewrite Z.pow_succ_r by lia. ring. }
  split.
  - intros u U. pose proof (gstate_spec (x_PROBG (i_h i)) IG (s_rating s) (x_DERATE (i_h i)) (s_plndst s) ltac:(lia) ltac:(lia) ltac:(lia) ltac:(lia)) as G.
    destruct (gstate IG _ _ _ _) as [[IG' F] AV]. destruct G as (_ & _ & _ & G & _). destruct (G u ltac:(lia)) as (E1 & E2 & E3). cbn [snd]. rewrite E3, E2, E1, SG, NX by exact U. reflexivity.
  - intros v V. pose proof (lstate_spec (x_PROBL (i_h i)) IL ltac:(lia)) as G. destruct (lstate IL _) as [IL' st]. destruct G as (_ & _ & G & _). destruct (G v ltac:(lia)) as (E1 & E2). cbn [snd].
    rewrite E2, E1, SL by exact V. unfold line_seed. rewrite NX. reflexivity.
Qed.
Print Assumptions C109_draws.

(** Units: full capacity with frequency p0, the derated fraction with p1 - p0, nothing
    with 1 - p1 (p0, p1 the unit's two cumulative probabilities). *)
Theorem C109_units : forall i u k, let p0 := mget (x_PROBG (i_h i)) u 0 in let p1 := mget (x_PROBG (i_h i)) u 1 in let der := vget (x_DERATE (i_h i)) u in
  (q0 <= p0)%Qc -> (p0 <= p1)%Qc -> (p1 <= q1)%Qc -> der <> q0 -> der <> q1 ->
  about (frequency (fun m => qeqb (unit_fraction i u m) q1) k) p0 /\
  about (frequency (fun m => qeqb (unit_fraction i u m) der) k) (Qcminus p1 p0) /\
  about (frequency (fun m => qeqb (unit_fraction i u m) q0) k) (Qcminus q1 p1).
Proof.
  intros i u k p0 p1 der A0 A1 A2 D0 D1.
  assert (F : forall p, (q0 <= p)%Qc -> (p <= q1)%Qc -> (qabs (Qcminus (frequency (fun m => qltb (number_at u m) p) k) p) <= qq 1 2000000)%Qc).
  { intros p P0 P1. apply (frequency_about _ u); auto; intros m H; [now apply qltb_iff|]. apply qltb_iff in H. now apply Qclt_le_weak. }
  assert (F0 := F p0 A0 (Qcle_trans _ _ _ A1 A2)). assert (F1 := F p1 (Qcle_trans _ _ _ A0 A1) A2).
  assert (N01 : qeqb q0 q1 = false) by reflexivity. assert (N10 : qeqb q1 q0 = false) by reflexivity.
  assert (ND0 : qeqb der q0 = false) by (apply not_true_iff_false; intros H; now apply qeqb_iff in H).
  assert (ND1 : qeqb der q1 = false) by (apply not_true_iff_false; intros H; now apply qeqb_iff in H).
  assert (N0D : qeqb q0 der = false) by (apply not_true_iff_false; intros H; apply qeqb_iff in H; now symmetry in H).
  assert (N1D : qeqb q1 der = false) by (apply not_true_iff_false; intros H; apply qeqb_iff in H; now symmetry in H).
  assert (REF : forall a, qeqb a a = true) by (intros; now apply qeqb_iff).
  assert (MO : forall m, qltb (number_at u m) p0 = true -> qltb (number_at u m) p1 = true) by (intros m H; apply qltb_iff in H; apply qltb_iff; eapply Qclt_le_trans; eauto).
  split; [|split].
  - apply near_about. apply (frequency_about _ u); auto; [eapply Qcle_trans; eauto| |].
    + intros m H. apply qltb_iff in H. unfold unit_fraction, gen_fraction. fold p0 p1 der. now rewrite H.
    + intros m H. apply qeqb_iff in H. unfold unit_fraction, gen_fraction in H. fold p0 p1 der in H. destruct (qltb (number_at u m) p0) eqn:E; [apply qltb_iff in E; now apply Qclt_le_weak|].
      destruct (qltb (number_at u m) p1); [now destruct D1|discriminate].
  - refine (near_minus _ _ _ _ _ _ F1 F0). apply frequency_plus. intros m. unfold unit_fraction, gen_fraction. fold p0 p1 der. specialize (MO m).
    destruct (qltb (number_at u m) p0); [rewrite MO by reflexivity; now rewrite N1D|]. destruct (qltb (number_at u m) p1); [now rewrite REF|now rewrite N0D].
  - refine (near_minus q1 _ _ _ _ _ _ F1); [|apply qleb_iff; reflexivity]. rewrite <- (always_one k). apply frequency_plus. intros m. unfold unit_fraction, gen_fraction. fold p0 p1 der. specialize (MO m).
    destruct (qltb (number_at u m) p0); [rewrite MO by reflexivity; now rewrite N10|]. destruct (qltb (number_at u m) p1); [now rewrite ND0|now rewrite REF].
Qed.
Print Assumptions C109_units.

(** Lines: each of the six states with its probability. *)
Theorem C109_lines : forall i nu v k state, cumulative (nth v (x_PROBL (i_h i)) []) -> (1 <= state <= 6)%nat ->
  about (frequency (fun m => line_number i nu v m =? Z.of_nat state) k) (probability (nth v (x_PROBL (i_h i)) []) state).
Proof.
  intros i nu v k state (C0 & CM & C1) ST. unfold line_number. set (P := nth v (x_PROBL (i_h i)) []) in *. set (u := (nu + v)%nat).
  assert (M : forall a b, (a <= b < 5)%nat -> (nth a P q0 <= nth b P q0)%Qc).
  { intros a b (L & B). induction L as [|b L IH]; [apply Qcle_refl|]. eapply Qcle_trans; [apply IH; lia|apply CM; lia]. }
  assert (F : forall j, (j < 5)%nat -> (qabs (Qcminus (frequency (fun m => qleb (number_at u m) (nth j P q0)) k) (nth j P q0)) <= qq 1 2000000)%Qc).
  { intros j J. apply (frequency_about _ u).
    - eapply Qcle_trans; [exact C0|apply M; lia].
    - eapply Qcle_trans; [apply (M j 4%nat); lia|exact C1].
    - intros m H. apply qleb_iff. now apply Qclt_le_weak.
    - intros m H. now apply qleb_iff. }
  assert (MO : forall m j, (j < 4)%nat -> qleb (number_at u m) (nth j P q0) = true -> qleb (number_at u m) (nth (S j) P q0) = true).
  { intros m j J H. apply qleb_iff in H. apply qleb_iff. eapply Qcle_trans; [exact H|apply CM; exact J]. }
  assert (G : forall m, let r := number_at u m in (qleb r (nth 0 P q0) = true -> qleb r (nth 1 P q0) = true) /\ (qleb r (nth 1 P q0) = true -> qleb r (nth 2 P q0) = true) /\
      (qleb r (nth 2 P q0) = true -> qleb r (nth 3 P q0) = true) /\ (qleb r (nth 3 P q0) = true -> qleb r (nth 4 P q0) = true)).
  { intros m r. repeat split; apply MO; lia. }
  assert (CS : state = 1%nat \/ state = 2%nat \/ state = 3%nat \/ state = 4%nat \/ state = 5%nat \/ state = 6%nat) by lia.
  destruct CS as [-> | CS].
  { unfold probability. cbn [Nat.eqb Nat.sub]. refine (near_minus _ q0 _ _ _ _ (F 0%nat ltac:(lia)) _); [|apply qleb_iff; reflexivity]. rewrite Qcplus_0_l. 
    apply frequency_ext. intros m. unfold line_state. destruct (G m) as (G1 & G2 & G3 & G4).
    destruct (qleb _ (nth 0 P q0)); [reflexivity|]. destruct (qleb _ (nth 1 P q0)); [reflexivity|]. destruct (qleb _ (nth 2 P q0)); [reflexivity|]. destruct (qleb _ (nth 3 P q0)); [reflexivity|].
    destruct (qleb _ (nth 4 P q0)); reflexivity. }
  assert (KEY : forall m, let r := number_at u m in let up := if Nat.eqb state 6 then true else qleb r (nth (state - 1) P q0) in
     (if up then 1 else 0) = (if qleb r (nth (state - 2) P q0) then 1 else 0) + (if line_state r P =? Z.of_nat state then 1 else 0)).
  { intros m r. destruct (G m) as (G1 & G2 & G3 & G4). fold r in G1, G2, G3, G4. unfold line_state.
    destruct CS as [-> | [-> | [-> | [-> | ->]]]]; cbn [Nat.eqb Nat.sub]; destruct (qleb r (nth 0 P q0)), (qleb r (nth 1 P q0)), (qleb r (nth 2 P q0)), (qleb r (nth 3 P q0)), (qleb r (nth 4 P q0));
      try reflexivity; exfalso; (discriminate (G1 eq_refl) || discriminate (G2 eq_refl) || discriminate (G3 eq_refl) || discriminate (G4 eq_refl)). }
  unfold probability. replace (Nat.eqb state 1) with false by (symmetry; apply Nat.eqb_neq; lia).
  refine (near_minus (frequency (fun m => if Nat.eqb state 6 then true else qleb (number_at u m) (nth (state - 1) P q0)) k) _ _ _ _ (frequency_plus _ _ _ k KEY) _ (F (state - 2)%nat ltac:(lia))).
  destruct (Nat.eqb_spec state 6); [rewrite always_one; apply qleb_iff; reflexivity|apply F; lia].
Qed.
Print Assumptions C109_lines.

Lemma mix a b N p0 p1 der : (qabs (Qcminus (Qcmult a N) p0) <= qq 1 2000000)%Qc -> (qabs (Qcminus (Qcmult b N) p1) <= qq 1 2000000)%Qc -> (q0 <= der)%Qc -> (der <= q1)%Qc ->
  (qabs (Qcminus (Qcmult (Qcplus (Qcmult (Qcminus q1 der) a) (Qcmult der b)) N) (Qcplus p0 (Qcmult der (Qcminus p1 p0)))) <= qq 1 1000000)%Qc.
Proof.
  intros F0 F1 D0 D1.
  replace (Qcminus (Qcmult (Qcplus (Qcmult (Qcminus q1 der) a) (Qcmult der b)) N) (Qcplus p0 (Qcmult der (Qcminus p1 p0))))
    with (Qcplus (Qcmult (Qcminus q1 der) (Qcminus (Qcmult a N) p0)) (Qcmult der (Qcminus (Qcmult b N) p1))) by qring.
  generalize dependent (Qcminus (Qcmult a N) p0). generalize dependent (Qcminus (Qcmult b N) p1). intros y F1 x F0. apply (proj1 (qabs_le_iff _ _)) in F0, F1. destruct F0 as (X1 & X2). destruct F1 as (Y1 & Y2).
  assert (E0 : (q0 <= Qcminus q1 der)%Qc) by qlra.
  pose proof (Qcmult_le_compat_r _ _ _ X1 E0). pose proof (Qcmult_le_compat_r _ _ _ X2 E0). pose proof (Qcmult_le_compat_r _ _ _ Y1 D0). pose proof (Qcmult_le_compat_r _ _ _ Y2 D0).
  assert (H3 : Qcplus (Qcmult (qq 1 2000000) (Qcminus q1 der)) (Qcmult (qq 1 2000000) der) = qq 1 2000000) by qring. assert (H4 : (qq 1 2000000 <= qq 1 1000000)%Qc) by (apply qleb_iff; reflexivity).
  assert (H5 : Qcplus (Qcmult (Qcopp (qq 1 2000000)) (Qcminus q1 der)) (Qcmult (Qcopp (qq 1 2000000)) der) = Qcopp (qq 1 2000000)) by qring.
  rewrite (Qcmult_comm x), (Qcmult_comm y) in *. apply qabs_le_iff.
  generalize dependent (Qcmult (Qcminus q1 der) x). generalize dependent (Qcmult der y). generalize dependent (Qcmult (qq 1 2000000) (Qcminus q1 der)). generalize dependent (Qcmult (qq 1 2000000) der).
  generalize dependent (Qcmult (Qcopp (qq 1 2000000)) (Qcminus q1 der)). generalize dependent (Qcmult (Qcopp (qq 1 2000000)) der). intros. split; qlra.
Qed.
(** The mean fraction over a period is the expected fraction p0 + der (p1 - p0). *)
Theorem C109_mean : forall i u k, let p0 := mget (x_PROBG (i_h i)) u 0 in let p1 := mget (x_PROBG (i_h i)) u 1 in let der := vget (x_DERATE (i_h i)) u in
  (q0 <= p0)%Qc -> (p0 <= p1)%Qc -> (p1 <= q1)%Qc -> (q0 <= der)%Qc -> (der <= q1)%Qc ->
  about (Qcdiv (qsum (map (unit_fraction i u) (seq k period))) (qz (2 ^ 23))) (Qcplus p0 (Qcmult der (Qcminus p1 p0))).
Proof.
  intros i u k p0 p1 der A0 A1 A2 D0 D1.
  assert (F : forall p, (q0 <= p)%Qc -> (p <= q1)%Qc -> (qabs (Qcminus (frequency (fun m => qltb (number_at u m) p) k) p) <= qq 1 2000000)%Qc).
  { intros p P0 P1. apply (frequency_about _ u); auto; intros m H; [now apply qltb_iff|]. apply qltb_iff in H. now apply Qclt_le_weak. }
  assert (F0 := F p0 A0 (Qcle_trans _ _ _ A1 A2)). assert (F1 := F p1 (Qcle_trans _ _ _ A0 A1) A2).
  assert (SUM : forall l, qsum (map (unit_fraction i u) l) =
     Qcplus (Qcmult (Qcminus q1 der) (qz (count (fun m => qltb (number_at u m) p0) l))) (Qcmult der (qz (count (fun m => qltb (number_at u m) p1) l)))).
  { intros l. induction l as [|m l IH].
    - unfold count. cbn [map qsum fold_right filter length]. change (qz (Z.of_nat 0)) with q0. qring.
    - change (qsum (map (unit_fraction i u) (m :: l))) with (Qcplus (unit_fraction i u m) (qsum (map (unit_fraction i u) l))). rewrite IH. unfold count. cbn [filter].
      unfold unit_fraction at 1, gen_fraction. fold p0 p1 der.
      assert (MO : qltb (number_at u m) p0 = true -> qltb (number_at u m) p1 = true) by (intros H; apply qltb_iff in H; apply qltb_iff; eapply Qclt_le_trans; eauto).
      destruct (qltb (number_at u m) p0); [rewrite MO by reflexivity|destruct (qltb (number_at u m) p1)]; cbn [length]; rewrite ?Nat2Z.inj_succ; unfold Z.succ; rewrite ?qz_plus; change (qz 1) with q1; qring. }
  rewrite SUM. clear SUM F. unfold about, frequency in *. unfold Qcdiv in *.
  exact (mix _ _ _ _ _ _ F0 F1 D0 D1).
Qed.
Print Assumptions C109_mean.

(** ** C110.  Successive draws of one unit or line are not independent: every stream obeys
    x'' = 6 x' - 9 x modulo 2^31... *)
Theorem C110_relation_refuted : forall u k, (2 ^ 31 | unit_seed u (S (S k)) - 6 * unit_seed u (S k) + 9 * unit_seed u k).
Proof. exact randu. Qed.
Print Assumptions C110_relation_refuted.

(** ... so that after two successive numbers of at least 1 - f the third is below 9f or
    above 1 - 6f. *)
Theorem C110_third_refuted : forall u k f, (f <= qq 1 10)%Qc -> (Qcminus q1 f <= number_at u k)%Qc -> (Qcminus q1 f <= number_at u (S k))%Qc ->
  (number_at u (S (S k)) < Qcplus (Qcmult (qz 9) f) (qq 1 1000000))%Qc \/ (Qcminus (Qcminus q1 (Qcmult (qz 6) f)) (qq 1 1000000) < number_at u (S (S k)))%Qc.
Proof.
  intros u k f F H1 H2. destruct (randu u k) as (q & E). unfold number_at, rand_of in *.
  assert (B : forall m, 0 <= unit_seed u m < 2 ^ 31) by (intros m; apply Z.mod_pos_bound; reflexivity). pose proof (B k) as B1. pose proof (B (S k)) as B2. pose proof (B (S (S k))) as B3. clear B.
  set (x := unit_seed u k) in *. set (y := unit_seed u (S k)) in *. set (z := unit_seed u (S (S k))) in *. clearbody x y z. change (2 ^ 31) with 2147483648 in *.
  assert (E' : z = 6 * y - 9 * x + q * 2147483648) by lia. clear E.
  assert (Q : q <= 2 \/ q = 3 \/ q = 4 \/ 5 <= q) by lia.
  assert (Z0 := proj1 B3). assert (Z1 := proj2 B3). assert (Y1 := proj2 B2). assert (X1 := proj2 B1). clear B1 B2 B3.
  unfold Qcle, Qclt, q0, q1 in *. repeat (rewrite ?this_plus, ?this_mult, ?this_minus, ?this_opp, ?this_qq, ?this_qz in * ). unfold inject_Z in *.
  rewrite Zlt_Qlt in Y1, X1, Z1. rewrite Zle_Qle in Z0.
  assert (EQ : (inject_Z z == 6 * inject_Z y - 9 * inject_Z x + inject_Z q * 2147483648)%Q) by (rewrite E'; unfold Z.sub; rewrite !inject_Z_plus, inject_Z_opp, !inject_Z_mult; unfold inject_Z; ring).
  unfold inject_Z in *. set (X := (x # 1)%Q) in *. set (Y := (y # 1)%Q) in *. set (V := (z # 1)%Q) in *. 
  destruct Q as [Q|[-> |[-> |Q]]].
  - exfalso. rewrite Zle_Qle in Q. unfold inject_Z in Q. set (q' := (q # 1)%Q) in *. clearbody X Y V q'. clear - F H1 H2 Z0 Z1 Y1 X1 EQ Q. generalize dependent (this f). intros. lra.
  - left. clearbody X Y V. clear - F H1 H2 Z0 Z1 Y1 X1 EQ. generalize dependent (this f). intros. lra.
  - right. clearbody X Y V. clear - F H1 H2 Z0 Z1 Y1 X1 EQ. generalize dependent (this f). intros. lra.
  - exfalso. rewrite Zle_Qle in Q. unfold inject_Z in Q. set (q' := (q # 1)%Q) in *. clearbody X Y V q'. clear - F H1 H2 Z0 Z1 Y1 X1 EQ Q. generalize dependent (this f). intros. lra.
Qed.
Print Assumptions C110_third_refuted.

(** A line with states of probability 20, 20, 20, 20, 18 and 2 %: after state 6 in two
    successive draws the states 2, 3 and 4 do not occur, in no study and at no draw,
    although they take 60 % of the draws of any period (C109_lines). *)
Definition six_states : list Qc := [qq 1 5; qq 2 5; qq 3 5; qq 4 5; qq 98 100; q1].
Theorem C110_states_refuted : forall i nu v k, nth v (x_PROBL (i_h i)) [] = six_states ->
  line_number i nu v k = 6 -> line_number i nu v (S k) = 6 -> let next := line_number i nu v (S (S k)) in next <> 2 /\ next <> 3 /\ next <> 4.
Proof.
  intros i nu v k EP. unfold line_number. rewrite EP. intros A B.
  assert (K : forall r, line_state r six_states = 6 -> (Qcminus q1 (qq 2 100) <= r)%Qc).
  { intros r. unfold line_state, six_states. cbn [nth]. destruct (qleb r (qq 1 5)); [discriminate|]. destruct (qleb r (qq 2 5)); [discriminate|]. destruct (qleb r (qq 3 5)); [discriminate|].
    destruct (qleb r (qq 4 5)); [discriminate|]. destruct (qleb r (qq 98 100)) eqn:E; [discriminate|]. intros _. qc_bool. qlra. }
  destruct (C110_third_refuted (nu + v) k (qq 2 100) ltac:(apply qleb_iff; reflexivity) (K _ A) (K _ B)) as [L|L]; clear A B; set (r := number_at _ _) in *; clearbody r; unfold line_state, six_states; cbn [nth].
  - replace (qleb r (qq 1 5)) with true; [repeat split; discriminate|]. symmetry. apply qleb_iff. apply Qclt_le_weak. eapply Qclt_le_trans; [exact L|]. apply qleb_iff. reflexivity.
  - assert (N : forall c, qltb c (Qcminus (Qcminus q1 (Qcmult (qz 6) (qq 2 100))) (qq 1 1000000)) = true -> qleb r c = false).
    { intros c C. apply not_true_iff_false. intros H. apply qleb_iff in H. apply qltb_iff in C. apply (Qclt_not_le _ _ L). apply Qclt_le_weak. eapply Qcle_lt_trans; eauto. }
    rewrite !N by reflexivity. destruct (qleb r (qq 98 100)); repeat split; discriminate.
Qed.
Print Assumptions C110_states_refuted.
(** The case occurs: the tenth stream, draws 9 and 10. *)
Example C110_occurs : line_state (number_at 9 9) six_states = 6 /\ line_state (number_at 9 10) six_states = 6.
Proof. split; vm_compute; reflexivity. Qed.
(** Witness of C109: a unit that is 90 % of the time available and 5 % half available, a
    line with the states above. *)
Definition sampled_input : input :=
  let i := demo_input 110 80 in let h := i_h i in
  mkInput (mkHcfg 1 1 5 (x_MXPLHR h) [[qq 9 10; qq 95 100]; [q1; q1]] [qq 1 2; q0] (x_CAPOWN h) (x_CAPCON h) [six_states] (x_JENT h) (x_INTCH h) (x_HRLOAD h) (x_FCTERR h)
             (x_LINENO h) (x_BLPA h) (x_LP h) (x_NR h) (x_NLS h))
          (i_RATES i) (i_JPLOUT i) (i_BN i) 2 2 (qz 2000) q1 10 0 1 1 1 1 0 0.
Example C109_witness : input_ok 2 2 1 sampled_input /\
  (forall k, about (frequency (fun m => qeqb (unit_fraction sampled_input 0 m) (qq 1 2)) k) (qq 5 100)) /\
  (forall k, about (frequency (fun m => line_number sampled_input 2 0 m =? 5) k) (qq 18 100)).
Proof.
  assert (LE : forall a b, qleb a b = true -> (a <= b)%Qc) by (intros; now apply qleb_iff).
  split; [|split].
  - destruct demo_input_ok. constructor; auto; try lia.
    + destruct in_study. constructor; auto.
    + split; discriminate.
  - intros k. destruct (C109_units sampled_input 0 k) as (_ & D & _); try (apply LE; reflexivity); try (intros K; discriminate K).
    replace (qq 5 100) with (Qcminus (qq 95 100) (qq 9 10)) by (apply Qc_is_canon; reflexivity). exact D.
  - intros k. replace (qq 18 100) with (probability six_states 5) by (apply Qc_is_canon; reflexivity). apply (C109_lines sampled_input 2 0 k 5%nat); [|lia].
    split; [apply LE; reflexivity|]. split; [|apply LE; reflexivity]. intros j J. apply LE. do 4 (destruct j as [|j]; [reflexivity|]). lia.
Qed.
