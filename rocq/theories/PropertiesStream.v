(** C111: two variants of a study meet the same random events.  C112: the units of a study
    have streams of their own (refuted). *)
From Coq Require Import Znumtheory.
From Verif Require Import Base BaseProofs Sums SampleModel SampleProofs ControlModel HourModel HourSpec YearModel ProgramModel ProgramSpec PeriodSpec PeriodProofs
  DataProofs PropertiesProgram PropertiesPeriod StreamSpec StreamProofs.
Open Scope Z_scope.

Lemma rand_inj a b : rand_of a = rand_of b -> a = b.
Proof.
  unfold rand_of. intros E. assert (Z0 : qq 4656613 10000000000000000 <> q0) by (intros K; discriminate K).
  assert (Q : qz a = qz b) by (rewrite <- (Qcmult_1_r (qz a)), <- (Qcmult_1_r (qz b)), <- (Qcmult_inv_r _ Z0), !Qcmult_assoc, E; reflexivity). now apply qz_inj in Q.
Qed.
(** what a draw gives one unit (C109_draws) *)
Lemma unit_draw n nu nl i k s AVAIL u : input_ok n nu nl i -> length (s_rating s) = nu -> length (s_plndst s) = nu -> (1 <= k)%nat -> capacities nu i k s AVAIL -> (u < nu)%nat ->
  nth u AVAIL q0 = Qcmult (Qcmult (unit_fraction i u k) (nth u (s_rating s) q0)) (nth u (s_plndst s) q0).
Proof.
  intros IO L1 L2 K C U. refine (proj1 (C109_draws n nu nl i k s AVAIL (snd (lstate (map (fun v => line_seed nu v (k - 1)) (seq 0 nl)) (x_PROBL (i_h i)))) IO L1 L2 K C _) u U).
  exists (map (fun v => line_seed nu v (k - 1)) (seq 0 nl)). rewrite map_length, seq_length. split; [lia|]. split; [|reflexivity]. intros v V. now rewrite nth_map_seq.
Qed.

(** ** C111.  In draw [k] of any two studies a unit of the same position, with the same
    probabilities, rating and planned outage has the same capacity, whatever else
    differs (other units, areas, lines, loads, shortages so far). *)
Theorem C111_units : forall n nu nl i n' nu' nl' i' k s s' AVAIL AVAIL' u,
  input_ok n nu nl i -> input_ok n' nu' nl' i' -> (1 <= k)%nat ->
  length (s_rating s) = nu -> length (s_plndst s) = nu -> length (s_rating s') = nu' -> length (s_plndst s') = nu' ->
  capacities nu i k s AVAIL -> capacities nu' i' k s' AVAIL' ->
  (u < nu)%nat -> (u < nu')%nat -> same_unit i i' u -> nth u (s_rating s') q0 = nth u (s_rating s) q0 -> nth u (s_plndst s') q0 = nth u (s_plndst s) q0 ->
  nth u AVAIL' q0 = nth u AVAIL q0.
Proof.
  intros n nu nl i n' nu' nl' i' k s s' AV AV' u IO IO' K L1 L2 L1' L2' C C' U U' (S1 & S2 & S3) R P.
  rewrite (unit_draw _ _ _ _ _ _ _ _ IO L1 L2 K C U), (unit_draw _ _ _ _ _ _ _ _ IO' L1' L2' K C' U'), R, P. unfold unit_fraction. now rewrite S1, S2, S3.
Qed.
Print Assumptions C111_units.

(** A unit made more reliable has, in every draw, at least the capacity it had: there is no
    draw in which the improvement comes out as a loss. *)
Theorem C111_better : forall n nu nl i n' nu' nl' i' k s s' AVAIL AVAIL' u,
  input_ok n nu nl i -> input_ok n' nu' nl' i' -> (1 <= k)%nat ->
  length (s_rating s) = nu -> length (s_plndst s) = nu -> length (s_rating s') = nu' -> length (s_plndst s') = nu' ->
  capacities nu i k s AVAIL -> capacities nu' i' k s' AVAIL' ->
  (u < nu)%nat -> (u < nu')%nat -> proper_unit i u -> proper_unit i' u -> better_unit i i' u ->
  (q0 <= nth u (s_rating s) q0 <= nth u (s_rating s') q0)%Qc -> (q0 <= nth u (s_plndst s) q0 <= nth u (s_plndst s') q0)%Qc ->
  (nth u AVAIL q0 <= nth u AVAIL' q0)%Qc.
Proof.
  intros n nu nl i n' nu' nl' i' k s s' AV AV' u IO IO' K L1 L2 L1' L2' C C' U U' ((D0 & D1) & M) ((D0' & D1') & M') (S1 & S2 & S3) (R0 & R) (P0 & P).
  rewrite (unit_draw _ _ _ _ _ _ _ _ IO L1 L2 K C U), (unit_draw _ _ _ _ _ _ _ _ IO' L1' L2' K C' U'). clear C C'.
  assert (F : (unit_fraction i u k <= unit_fraction i' u k)%Qc /\ (q0 <= unit_fraction i u k)%Qc).
  { unfold unit_fraction, gen_fraction. destruct (qltb (number_at u k) (mget (x_PROBG (i_h i)) u 0)) eqn:E0.
    - rewrite (proj2 (qltb_iff _ _)); [split; apply qleb_iff; reflexivity|]. apply qltb_iff in E0. eapply Qclt_le_trans; eauto.
    - destruct (qltb (number_at u k) (mget (x_PROBG (i_h i)) u 1)) eqn:E1.
      + split; [|exact D0]. destruct (qltb (number_at u k) (mget (x_PROBG (i_h i')) u 0)); [exact D1|]. rewrite (proj2 (qltb_iff _ _)); [exact S3|]. apply qltb_iff in E1. eapply Qclt_le_trans; eauto.
      + split; [|apply qleb_iff; reflexivity]. destruct (qltb _ (mget (x_PROBG (i_h i')) u 0)); [apply qleb_iff; reflexivity|]. destruct (qltb _ (mget (x_PROBG (i_h i')) u 1)); [exact D0'|apply qleb_iff; reflexivity]. }
  destruct F as (F & F0). set (f := unit_fraction i u k) in *. set (f' := unit_fraction i' u k) in *. clearbody f f'.
  set (r := nth u (s_rating s) q0) in *. set (r' := nth u (s_rating s') q0) in *. set (p := nth u (s_plndst s) q0) in *. set (p' := nth u (s_plndst s') q0) in *. clearbody r r' p p'. clear - F F0 R0 R P0 P.
  assert (MM : forall a b c d, (q0 <= a -> a <= b -> q0 <= c -> c <= d -> q0 <= a * c /\ a * c <= b * d)%Qc).
  { intros a b c d A AB C0 CD. split; [replace q0 with (q0 * c)%Qc by apply Qcmult_0_l; apply Qcmult_le_compat_r; assumption|].
    eapply Qcle_trans; [apply Qcmult_le_compat_r; eassumption|]. rewrite (Qcmult_comm b c), (Qcmult_comm b d). apply Qcmult_le_compat_r; [assumption|]. exact (Qcle_trans _ _ _ A AB). }
  destruct (MM f f' r r' F0 F R0 R) as (X0 & X). now apply MM.
Qed.
Print Assumptions C111_better.

(** Lines: the same state in studies with the same number of units; a line with higher
    cumulative probabilities is never in a worse state. *)
Theorem C111_lines : forall n nu nl i n' nl' i' k LNSTAT LNSTAT' v,
  input_ok n nu nl i -> input_ok n' nu nl' i' -> (1 <= k)%nat ->
  line_states nu nl i k LNSTAT -> line_states nu nl' i' k LNSTAT' -> (v < nl)%nat -> (v < nl')%nat ->
  (same_line i i' v -> nth v LNSTAT' 0 = nth v LNSTAT 0) /\ (better_line i i' v -> nth v LNSTAT' 0 <= nth v LNSTAT 0).
Proof.
  intros n nu nl i n' nl' i' k LN LN' v IO IO' K C C' V V'.
  assert (CS : forall n nl j LN, input_ok n nu nl j -> line_states nu nl j k LN -> forall v, (v < nl)%nat -> nth v LN 0 = line_number j nu v k).
  { intros m ml j L J (IL & LL & SL & ->) w W. pose proof (in_study _ _ _ _ J) as ST. assert (LPL : length (x_PROBL (i_h j)) = ml) by apply ST.
    pose proof (lstate_spec (x_PROBL (i_h j)) IL ltac:(lia)) as G. destruct (lstate IL _) as [IL' st]. destruct G as (_ & _ & G & _). destruct (G w ltac:(lia)) as (E1 & E2). cbn [snd].
    rewrite E2, E1, SL by exact W. unfold line_number, number_at, line_seed. do 2 f_equal. unfold unit_seed. change 2147483648 with (2 ^ 31). rewrite Z.mul_mod_idemp_l by discriminate. f_equal.
    replace (Z.of_nat k) with (Z.succ (Z.of_nat (k - 1))) by lia. rewrite Z.pow_succ_r by lia. ring. }
  rewrite (CS _ _ _ _ IO C v V), (CS _ _ _ _ IO' C' v V'). unfold line_number, same_line, better_line. split; [now intros ->|].
  intros B. generalize (number_at (nu + v) k). intros r. unfold line_state.
  assert (M : forall j, (j < 5)%nat -> qleb r (nth j (nth v (x_PROBL (i_h i)) []) q0) = true -> qleb r (nth j (nth v (x_PROBL (i_h i')) []) q0) = true).
  { intros j J H. apply qleb_iff in H. apply qleb_iff. eapply Qcle_trans; [exact H|now apply B]. }
  clear - M. pose proof (M 0%nat ltac:(lia)) as M0. pose proof (M 1%nat ltac:(lia)) as M1. pose proof (M 2%nat ltac:(lia)) as M2. pose proof (M 3%nat ltac:(lia)) as M3. pose proof (M 4%nat ltac:(lia)) as M4. clear M.
  destruct (qleb r (nth 0 (nth v (x_PROBL (i_h i)) []) q0)); [rewrite (M0 eq_refl); lia|]. destruct (qleb r (nth 0 (nth v (x_PROBL (i_h i')) []) q0)); [repeat match goal with |- context [if ?b then _ else _] => destruct b end; lia|].
  destruct (qleb r (nth 1 (nth v (x_PROBL (i_h i)) []) q0)); [rewrite (M1 eq_refl); lia|]. destruct (qleb r (nth 1 (nth v (x_PROBL (i_h i')) []) q0)); [repeat match goal with |- context [if ?b then _ else _] => destruct b end; lia|].
  destruct (qleb r (nth 2 (nth v (x_PROBL (i_h i)) []) q0)); [rewrite (M2 eq_refl); lia|]. destruct (qleb r (nth 2 (nth v (x_PROBL (i_h i')) []) q0)); [repeat match goal with |- context [if ?b then _ else _] => destruct b end; lia|].
  destruct (qleb r (nth 3 (nth v (x_PROBL (i_h i)) []) q0)); [rewrite (M3 eq_refl); lia|]. destruct (qleb r (nth 3 (nth v (x_PROBL (i_h i')) []) q0)); [repeat match goal with |- context [if ?b then _ else _] => destruct b end; lia|].
  destruct (qleb r (nth 4 (nth v (x_PROBL (i_h i)) []) q0)); [rewrite (M4 eq_refl); lia|]. destruct (qleb r (nth 4 (nth v (x_PROBL (i_h i')) []) q0)); lia.
Qed.
Print Assumptions C111_lines.

(** The study of C109_witness with a third unit, of area 1. *)
Definition third_unit : input :=
  let i := sampled_input in let h := i_h i in
  mkInput (mkHcfg (x_JSTEP h) (x_JFREQ h) (x_NFCST h) (x_MXPLHR h) [[qq 9 10; qq 95 100]; [q1; q1]; [q1; q1]] [qq 1 2; q0; q0] [[q1; q0; q0]; [q0; q1; q1]] [0; 1; 1] (x_PROBL h) (x_JENT h) (x_INTCH h) (x_HRLOAD h) (x_FCTERR h)
             (x_LINENO h) (x_BLPA h) (x_LP h) (x_NR h) (x_NLS h))
          [repeat (qz 100) 4; repeat (qz 50) 4; repeat (qz 10) 4] (i_JPLOUT i) (i_BN i) 2 2 (qz 2000) q1 10 0 1 1 1 1 0 0.
Lemma third_unit_ok : input_ok 2 3 1 third_unit.
Proof.
  destruct (proj1 C109_witness). constructor; auto. destruct in_study. constructor; auto.
  - split; [reflexivity|]. intros j J. destruct j as [|[|j]]; [reflexivity|reflexivity|lia].
  - split; [reflexivity|]. intros u U. destruct u as [|[|[|u]]]; [cbn; lia|cbn; lia|cbn; lia|lia].
Qed.
(** But not in a study with another number of units: the lines take the streams that follow
    those of the units, so that one unit more gives every line the stream of the next. *)
Theorem C111_added_unit_refuted :
  (forall i i' nu v k, same_line i i' v -> line_number i' (S nu) v k = line_state (number_at (nu + S v) k) (nth v (x_PROBL (i_h i)) [])) /\
  exists i i' LNSTAT LNSTAT', input_ok 2 2 1 i /\ input_ok 2 3 1 i' /\ same_line i i' 0 /\ (forall u, (u < 2)%nat -> same_unit i i' u) /\
    line_states 2 1 i 2 LNSTAT /\ line_states 3 1 i' 2 LNSTAT' /\ nth 0 LNSTAT 0 <> nth 0 LNSTAT' 0.
Proof.
  split; [intros i i' nu v k E; unfold line_number; rewrite E, Nat.add_succ_comm; reflexivity|].
  exists sampled_input, third_unit. exists (snd (lstate [line_seed 2 0 1] [six_states])), (snd (lstate [line_seed 3 0 1] [six_states])).
  split; [exact (proj1 C109_witness)|]. split; [exact third_unit_ok|]. split; [reflexivity|]. split; [intros u U; destruct u as [|[|u]]; [repeat split|repeat split|lia]|].
  split; [exists [line_seed 2 0 1]; split; [cbn; lia|split; [|reflexivity]]; intros v V; replace v with 0%nat by lia; reflexivity|].
  split; [exists [line_seed 3 0 1]; split; [cbn; lia|split; [|reflexivity]]; intros v V; replace v with 0%nat by lia; reflexivity|].
  vm_compute. discriminate.
Qed.
Print Assumptions C111_added_unit_refuted.

(** ** C112.  Which numbers two streams have in common: none if one of the positions is
    even and the other odd; otherwise all, shifted by 2622368 draws per pair of positions
    (modulo the period 8388608). *)
Theorem C112_shared : forall u u' k k', unit_seed u k = unit_seed u' k' <->
  exists j, Z.of_nat u' = Z.of_nat u + 2 * j /\ (2 ^ 23 | Z.of_nat k - Z.of_nat k' - j * 2622368).
Proof. exact shared. Qed.
Print Assumptions C112_shared.

(** A small study is safe: with at most 32 units and lines and less than 521504 draws (59
    years of hourly draws) no two of them ever use the same number. *)
Theorem C112_small_partial : forall u u' k k', (u < 32)%nat -> (u' < 32)%nat -> u <> u' -> Z.of_nat k < 521504 -> Z.of_nat k' < 521504 ->
  number_at u k <> number_at u' k'.
Proof.
  intros u u' k k' U U' N K K' E. unfold number_at in E. apply rand_inj, C112_shared in E. destruct E as (j & J & D).
  pose proof (lag_far j (Z.of_nat k - Z.of_nat k') ltac:(lia) ltac:(intros ->; lia) D). lia.
Qed.
Print Assumptions C112_small_partial.

(** With more, unit (or line) 32 + u is unit u 14848 draws later: in hourly draws, what
    happens to the one happens to the other a year and eight months later, for ever. *)
Theorem C112_streams_refuted : forall u, follows (u + 32) u twin_lag.
Proof.
  intros u k. unfold number_at. f_equal. symmetry. apply C112_shared. exists 16. split; [lia|]. exists (-5). rewrite Nat2Z.inj_add. unfold twin_lag. rewrite Z2Nat.id by discriminate. lia.
Qed.
Print Assumptions C112_streams_refuted.
(** In runs: two equal units, drawn 14848 draws apart. *)
Theorem C112_outages_refuted : forall n nu nl i k s s' AVAIL AVAIL' u,
  input_ok n nu nl i -> (1 <= k)%nat -> (u + 32 < nu)%nat -> 
  length (s_rating s) = nu -> length (s_plndst s) = nu -> length (s_rating s') = nu -> length (s_plndst s') = nu ->
  capacities nu i k s AVAIL -> capacities nu i (k + twin_lag) s' AVAIL' ->
  mget (x_PROBG (i_h i)) (u + 32) 0 = mget (x_PROBG (i_h i)) u 0 -> mget (x_PROBG (i_h i)) (u + 32) 1 = mget (x_PROBG (i_h i)) u 1 -> vget (x_DERATE (i_h i)) (u + 32) = vget (x_DERATE (i_h i)) u ->
  nth (u + 32) (s_rating s) q0 = nth u (s_rating s') q0 -> nth (u + 32) (s_plndst s) q0 = nth u (s_plndst s') q0 ->
  nth (u + 32) AVAIL q0 = nth u AVAIL' q0.
Proof.
  intros n nu nl i k s s' AV AV' u IO K U L1 L2 L1' L2' C C' P0 P1 D R O. assert (K2 : (1 <= k + twin_lag)%nat) by (generalize twin_lag; intros; lia).
  rewrite (unit_draw _ _ _ _ _ _ _ _ IO L1 L2 K C) by lia. rewrite (unit_draw _ _ _ _ _ _ _ _ IO L1' L2' K2 C') by lia.
  rewrite R, O. do 2 f_equal. unfold unit_fraction. rewrite P0, P1, D. now rewrite C112_streams_refuted.
Qed.
Print Assumptions C112_outages_refuted.

(** Witness: a study with 33 equal units. *)
Definition many_units : input :=
  let i := sampled_input in let h := i_h i in
  mkInput (mkHcfg (x_JSTEP h) (x_JFREQ h) (x_NFCST h) (x_MXPLHR h) (repeat [qq 9 10; qq 95 100] 33) (repeat (qq 1 2) 33) [repeat q1 33; repeat q0 33] (repeat 0 33) (x_PROBL h) (x_JENT h) (x_INTCH h) (x_HRLOAD h) (x_FCTERR h)
             (x_LINENO h) (x_BLPA h) (x_LP h) (x_NR h) (x_NLS h))
          (repeat (repeat (qz 10) 4) 33) (i_JPLOUT i) (i_BN i) 2 2 (qz 2000) q1 10 0 1 1 1 1 0 0.
Example C112_witness : input_ok 2 33 1 many_units /\ forall k, unit_fraction many_units 32 k = unit_fraction many_units 0 (k + twin_lag).
Proof.
  split.
  - destruct (proj1 C109_witness). constructor; auto. destruct in_study. constructor; auto.
    + split; [reflexivity|]. intros j J. destruct j as [|[|j]]; [reflexivity|reflexivity|lia].
    + split; [reflexivity|]. intros u U. cbn [x_CAPCON many_units i_h]. unfold zget. rewrite nth_repeat_lt by lia. lia.
  - intros k. unfold unit_fraction. change 32%nat with (0 + 32)%nat. rewrite (C112_streams_refuted 0 k). reflexivity.
Qed.
Example C111_witness : input_ok 2 2 1 sampled_input /\ input_ok 2 3 1 third_unit /\ same_unit sampled_input third_unit 0 /\ proper_unit sampled_input 0 /\
  (exists AVAIL, capacities 2 sampled_input 1 (start (loop_cfg sampled_input) 2 (first_world sampled_input [] [])) AVAIL).
Proof.
  split; [exact (proj1 C109_witness)|]. split; [exact third_unit_ok|]. split; [repeat split|]. split; [repeat split; apply qleb_iff; reflexivity|].
  eexists. exists (map (fun u => unit_seed u 0) (seq 0 2)). split; [cbn; lia|]. split; [|reflexivity]. intros u U. now rewrite nth_map_seq.
Qed.
