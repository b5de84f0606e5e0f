(** Property theorems C50-C52, C63: one simulated hour.

    [inv] and [lp] (matrix inversion, linear-programming branch) are arbitrary.  The
    clock is a whole number k >= 1: draws happen at multiples of the step (C07).
    AVAIL: the capacities drawn in this hour, LNSTAT the line states (C13-C16). *)
From Verif Require Import Base BaseProofs Sums SampleModel LoadModel LoadSpec NetModel StatModel StatSpec StatProofs
  ControlModel ControlSpec RunProofs HourModel HourSpec HourProofs PropertiesNet.
Open Scope Z_scope.

(** C52.  Whatever a completed hour adds to the statistics is the recording (C36) of
    the margins of the levels 0, 1, .., in this order; at each of these levels some
    area lacks a whole MW on its own.  If the levels recorded are not all, then at
    the next one the network covers every shortage.  No statistic decreases. *)
Theorem C52_only_shortage : forall inv lp n nu nl cf k s PLNDST RATING s',
  study n nu nl cf -> 1 <= k -> hst_ok n nu nl s -> length PLNDST = nu -> length RATING = nu -> keeps_areas lp ->
  hour inv lp cf (on k) PLNDST RATING s = Ok s' ->
  let AVAIL := snd (gstate (IGSEED s) (x_PROBG cf) RATING (x_DERATE cf) PLNDST) in
  let LNSTAT := snd (lstate (ILSEED s) (x_PROBL cf)) in
  exists recs peak,
    (LSFLG s', hrs s', pks s') = fold_left record_hour (map (fun r => (fst r, map qz (snd r), peak)) recs) (LSFLG s, hrs s, pks s) /\
    map fst recs = seq 0 (length recs) /\ (length recs <= x_NFCST cf)%nat /\
    Forall (level_record inv lp n cf k AVAIL LNSTAT) recs /\
    (length recs = x_NFCST cf \/ level_covered inv lp n cf k AVAIL LNSTAT (length recs)) /\
    stat_le n 5 (hrs s) (hrs s') /\ stat_le n 5 (pks s) (pks s') /\ hst_ok n nu nl s'.
Proof.
  intros inv lp n nu nl cf k s PL RT s' ST Hk HS LP LR KA E.
  destruct (hour_spec n nu nl cf ST k Hk inv lp s PL RT HS LP LR s' KA E) as (H' & _ & _ & recs & A & B & C & D & F & G & H).
  exists recs, (peak_hour cf k). repeat (split; [assumption|]). assumption.
Qed.
Print Assumptions C52_only_shortage.

(** In particular: a level without shortage, or one that comes after a covered level,
    keeps all its statistics. *)
Theorem C52_level_untouched : forall inv lp n nu nl cf k s PLNDST RATING s' l,
  study n nu nl cf -> 1 <= k -> hst_ok n nu nl s -> length PLNDST = nu -> length RATING = nu -> keeps_areas lp ->
  hour inv lp cf (on k) PLNDST RATING s = Ok s' -> (l < 5)%nat ->
  (forall j, (j < n)%nat -> ~ short cf (snd (gstate (IGSEED s) (x_PROBG cf) RATING (x_DERATE cf) PLNDST)) k l j) ->
  (forall j, (j < n)%nat -> zmget (lolG (hrs s')) j l = zmget (lolG (hrs s)) j l /\ zmget (lolT (hrs s')) j l = zmget (lolT (hrs s)) j l /\
                            zmget (mgnG (hrs s')) j l = zmget (mgnG (hrs s)) j l /\ zmget (mgnT (hrs s')) j l = zmget (mgnT (hrs s)) j l) /\
  zget (plolG (hrs s')) l = zget (plolG (hrs s)) l /\ zget (plolT (hrs s')) l = zget (plolT (hrs s)) l /\
  zget (pmgnG (hrs s')) l = zget (pmgnG (hrs s)) l /\ zget (pmgnT (hrs s')) l = zget (pmgnT (hrs s)) l.
Proof.
  intros inv lp n nu nl cf k s PL RT s' l ST Hk HS LP LR KA E Hl NS.
  destruct (C52_only_shortage inv lp n nu nl cf k s PL RT s' ST Hk HS LP LR KA E) as (recs & pk & R & F & LE & FO & _).
  assert (NIN : forall r, In r recs -> fst r <> l).
  { intros r Hr EQ. rewrite Forall_forall in FO. specialize (FO r Hr). destruct r as [l' M]. cbn in EQ. subst l'.
    destruct FO as (_ & _ & (j & Hj & SH) & _). exact (NS j Hj SH). }
  assert (HO : Forall (fun r : nat * list Z => (fst r < 5)%nat /\ length (snd r) = n) recs).
  { apply Forall_forall. intros r Hr. rewrite Forall_forall in FO. specialize (FO r Hr). destruct r as [l' M]. destruct FO as (LM & _). cbn. split; auto.
    assert (In l' (seq 0 (length recs))) as X by (rewrite <- F; apply in_map_iff; exists (l', M); auto). apply in_seq in X.
    pose proof (st_levels _ _ _ _ ST). lia. }
  clear - R NIN HO HS Hl. destruct HS as [_ _ _ LF SH SP]. destruct s as [? ? ? LS h p]. destruct s' as [? ? ? LS' h' p']. cbn [LSFLG hrs pks] in *.
  revert LS h p LF SH SP R. induction recs as [|[l' M] recs IH]; intros LS h p LF SH SP R; cbn [map fold_left fst snd] in R.
  - injection R as -> -> ->. auto 10.
  - pose proof (Forall_inv HO) as [H5 HM]; pose proof (Forall_inv_tail HO) as HO'. cbn [fst snd] in H5, HM.
    assert (NE : l' <> l) by (apply (NIN (l', M)); now left).
    pose proof (record_hour_spec n 5 (l', map qz M, pk) LS h p) as RH.
    destruct (record_hour (LS, h, p) (l', map qz M, pk)) as [[LS1 h1] p1].
    destruct RH as (L1 & RA & RP); auto. { split; auto. split; [now rewrite map_length|apply whole_qz]. }
    assert (SP' : stat_shape n 5 p1) by (destruct pk; [exact (re_shape _ _ _ _ _ _ RP)|congruence]).
    assert (NIN' : forall r, In r recs -> fst r <> l) by (intros r Hr; apply NIN; now right).
    destruct (IH NIN' HO' LS1 h1 p1 L1 (re_shape _ _ _ _ _ _ RA) SP' R) as (A & B1 & B2 & B3 & B4).
    destruct RA as [_ R1 R2 R3 R4 R5 R6 R7 R8].
    assert (NB : Nat.eqb l l' = false) by (apply Nat.eqb_neq; congruence).
    split.
    + intros j Hj. destruct (A j Hj) as (A1 & A2 & A3 & A4). rewrite A1, A2, A3, A4.
      rewrite R1, R2, R3, R4 by auto. rewrite NB. repeat split; lia.
    + rewrite B1, B2, B3, B4, R5, R6, R7, R8 by auto. rewrite NB. repeat split; lia.
Qed.
Print Assumptions C52_level_untouched.

(** A covered hour records nothing: if the network covers the shortages at the first
    level (the only way to have no record at all), all statistics stay. *)
Theorem C52_covered_hour : forall inv lp n nu nl cf k s PLNDST RATING s',
  study n nu nl cf -> 1 <= k -> hst_ok n nu nl s -> length PLNDST = nu -> length RATING = nu -> keeps_areas lp ->
  hour inv lp cf (on k) PLNDST RATING s = Ok s' ->
  (hrs s', pks s', LSFLG s') = (hrs s, pks s, LSFLG s) /\
   level_covered inv lp n cf k (snd (gstate (IGSEED s) (x_PROBG cf) RATING (x_DERATE cf) PLNDST)) (snd (lstate (ILSEED s) (x_PROBL cf))) 0 \/
  exists M, level_record inv lp n cf k (snd (gstate (IGSEED s) (x_PROBG cf) RATING (x_DERATE cf) PLNDST)) (snd (lstate (ILSEED s) (x_PROBL cf))) (0%nat, M) /\
   zget (plolG (hrs s')) 0 + zget (plolT (hrs s')) 0 = zget (plolG (hrs s)) 0 + zget (plolT (hrs s)) 0 + 1.
Proof.
  intros inv lp n nu nl cf k s PL RT s' ST Hk HS LP LR KA E.
  destruct (C52_only_shortage inv lp n nu nl cf k s PL RT s' ST Hk HS LP LR KA E) as (recs & pk & R & F & LE & FO & LAST & _).
  destruct recs as [|[l M] recs].
  - left. cbn in R, LAST. injection R as -> -> ->. split; auto. destruct LAST as [LAST|LAST]; auto. pose proof (st_levels _ _ _ _ ST). lia.
  - right. cbn [map length seq fst] in F. injection F as -> F. exists M. split; [exact (Forall_inv FO)|].
    pose proof (Forall_inv FO) as (LM & _). cbn [map fold_left fst snd] in R. pose proof (Forall_inv_tail FO) as FO'.
    pose proof (record_hour_spec n 5 (0%nat, map qz M, pk) (LSFLG s) (hrs s) (pks s)) as RH.
    destruct (record_hour (LSFLG s, hrs s, pks s) (0%nat, map qz M, pk)) as [[LS1 h1] p1].
    destruct HS as [_ _ _ LF SH SP].
    destruct RH as (L1 & RA & RP); auto. { split; [lia|]. split; [now rewrite map_length|apply whole_qz]. }
    assert (SP' : stat_shape n 5 p1) by (destruct pk; [exact (re_shape _ _ _ _ _ _ RP)|congruence]).
    assert (P0 : zget (plolG (hrs s')) 0 = zget (plolG h1) 0 /\ zget (plolT (hrs s')) 0 = zget (plolT h1) 0).
    { assert (NIN : Forall (fun r : nat * list Z => (fst r <> 0 /\ fst r < 5)%nat /\ length (snd r) = n) recs).
      { apply Forall_forall. intros r Hr. rewrite Forall_forall in FO'. specialize (FO' r Hr). destruct r as [l' M']. destruct FO' as (LM' & _). cbn. split; auto.
        assert (In l' (seq 1 (length recs))) as X by (rewrite <- F; apply in_map_iff; exists (l', M'); auto). apply in_seq in X.
        pose proof (st_levels _ _ _ _ ST). cbn [length] in LE. lia. }
      clear - R NIN L1 SP' RA. pose proof (re_shape _ _ _ _ _ _ RA) as SH. clear RA. destruct s' as [? ? ? LS' h' p']. cbn [LSFLG hrs pks] in *.
      revert LS1 h1 p1 L1 SH SP' R. induction recs as [|[l' M'] recs IH]; intros LS h p LF SH SP R; cbn [map fold_left fst snd] in R.
      - injection R as -> -> ->. auto.
      - pose proof (Forall_inv NIN) as [[H5 H6] HM]; pose proof (Forall_inv_tail NIN) as NIN'. cbn [fst snd] in H5, H6, HM.
        pose proof (record_hour_spec n 5 (l', map qz M', pk) LS h p) as RH.
        destruct (record_hour (LS, h, p) (l', map qz M', pk)) as [[LS1 h1] p1].
        destruct RH as (L1 & RA & RP); auto. { split; auto. split; [now rewrite map_length|apply whole_qz]. }
        assert (SP' : stat_shape n 5 p1) by (destruct pk; [exact (re_shape _ _ _ _ _ _ RP)|congruence]).
        destruct (IH NIN' LS1 h1 p1 L1 (re_shape _ _ _ _ _ _ RA) SP' R) as (A & B). rewrite A, B.
        destruct RA as [_ _ _ _ _ R5 R6 _ _]. rewrite R5, R6 by lia. destruct (Nat.eqb_spec 0 l'); [congruence|]. lia. }
    destruct P0 as (-> & ->). destruct RA as [_ _ _ _ _ R5 R6 _ _]. rewrite R5, R6 by lia. cbn [Nat.eqb]. destruct (qleb q0 (qsum (map qz M))); lia.
Qed.
Print Assumptions C52_covered_hour.

(** If every area is short at every level, all levels are recorded with the areas'
    own margins, whatever the network (which is not consulted). *)
Theorem C52_all_short : forall inv lp n nu nl cf k s PLNDST RATING,
  study n nu nl cf -> 1 <= k -> hst_ok n nu nl s -> length PLNDST = nu -> length RATING = nu -> x_JFREQ cf = 1 ->
  let AVAIL := snd (gstate (IGSEED s) (x_PROBG cf) RATING (x_DERATE cf) PLNDST) in
  (forall l j, (l < x_NFCST cf)%nat -> (j < n)%nat -> short cf AVAIL k l j) ->
  exists s' peak, hour inv lp cf (on k) PLNDST RATING s = Ok s' /\
    (LSFLG s', hrs s', pks s') =
      fold_left record_hour (map (fun l => (l, map (fun j => qz (own_margin cf AVAIL k l j)) (seq 0 n), peak)) (seq 0 (x_NFCST cf))) (LSFLG s, hrs s, pks s).
Proof.
  intros inv lp n nu nl cf k s PL RT ST Hk HS LP LR FQ AV AS. unfold hour.
  destruct (load_hour_ok n nu nl cf ST k Hk) as (J & EJ & IJ & DJ). rewrite EJ. cbn [bind]. unfold draws_now. rewrite FQ. cbn [Z.eqb].
  rewrite orb_true_r. cbn [bind].
  destruct (draw_ok n nu nl cf ST k Hk s PL RT HS LP LR) as (d & ED & G1 & G2 & G3 & D1 & D2 & D3). rewrite ED. cbn [bind].
  pose proof (drawn_state_ok n nu nl cf ST k s PL RT HS LP LR d ED G1 G2) as HS1.
  set (s1 := mkHst (d_IG d) (d_IL d) (hnet s) (LSFLG s) (hrs s) (pks s)) in *.
  change (LSFLG s, hrs s, pks s) with (LSFLG s1, hrs s1, pks s1). clearbody s1.
  assert (B : forall l, In l (seq 0 (x_NFCST cf)) -> (l < x_NFCST cf)%nat) by (intros l Hl; apply in_seq in Hl; lia).
  pose proof (st_levels _ _ _ _ ST) as LV.
  enough (G : forall ls s1, hst_ok n nu nl s1 -> (forall l, In l ls -> (l < x_NFCST cf)%nat) ->
     exists s', levels inv lp cf (on k) J d ls false s1 = Ok s' /\ (LSFLG s', hrs s', pks s') =
      fold_left record_hour (map (fun l => (l, map (fun j => qz (own_margin cf AV k l j)) (seq 0 n), peak_now cf k J)) ls) (LSFLG s1, hrs s1, pks s1)).
  { destruct (G _ s1 HS1 B) as (s' & E1 & E2). exists s', (peak_now cf k J). auto. }
  clear s1 HS1 B. induction ls as [|l ls IH]; intros s1 HS1 B.
  - exists s1. split; reflexivity.
  - cbn [levels map fold_left]. assert (Hl : (l < x_NFCST cf)%nat) by (apply B; now left).
    destruct (demand_ok n nu nl cf ST k J l IJ ltac:(lia)) as (C & EC & LC & VC). rewrite EC. cbn [bind].
    destruct (margins_ok n cf k (d_SYSCON d) C AV l) as (LM & VM & SM); auto.
    { rewrite D1. apply NetProofs.vtab_length. } { intros j Hj. rewrite D1. now apply NetProofs.vget_vtab. }
    set (M := margins (d_SYSCON d) C) in *.
    assert (NEG : forall j, (j < length M)%nat -> zget M j < 0) by (intros j Hj; rewrite LM in Hj; apply SM; auto).
    pose proof (short_areas_all_conv M NEG) as CNT. rewrite LM in CNT.
    destruct (last_short M) as [IT|e] eqn:EI.
    2:{ exfalso. unfold last_short in EI. destruct (rev (short_areas M)) eqn:ER; [|discriminate].
        apply (f_equal (@length _)) in ER. rewrite rev_length, CNT in ER. pose proof (st_areas _ _ _ _ ST). cbn in ER. lia. }
    cbn [bind]. rewrite CNT. pose proof (st_areas _ _ _ _ ST). destruct (Nat.eqb_spec n 0); [lia|].
    assert (LO : length (x_CAPOWN cf) = n) by apply (st_own _ _ _ _ ST). rewrite LO, Nat.eqb_refl.
    destruct (record_level_ok n nu nl cf ST k Hk J l M s1 HS1 ltac:(lia) LM) as (s2 & E2 & HS2 & RS & _). rewrite E2. cbn [bind].
    destruct (IH s2 HS2 ltac:(intros l' H'; apply B; now right)) as (s' & E' & R').
    assert (EM : map (fun j => qz (own_margin cf AV k l j)) (seq 0 n) = map qz M).
    { apply (nth_ext _ _ q0 q0); [rewrite !map_length, seq_length; lia|]. intros j Hj. rewrite map_length, seq_length in Hj.
      rewrite nth_map_seq by auto. rewrite (nth_indep (map qz M) q0 (qz 0)) by (rewrite map_length; lia). rewrite map_nth. f_equal. symmetry. now apply VM. }
    exists s'. split; [exact E'|]. rewrite EM. change (LSFLG s1, hrs s1, pks s1) with (stats_of s1). rewrite <- RS. exact R'.
Qed.
Print Assumptions C52_all_short.

(** C50.  An hour in which no area is short at the first level does not return: for
    every such hour the program stops with an IndexError. *)
Theorem C50_refuted : forall inv lp n nu nl cf k s PLNDST RATING,
  study n nu nl cf -> 1 <= k -> hst_ok n nu nl s -> length PLNDST = nu -> length RATING = nu -> x_JFREQ cf = 1 ->
  (forall j, (j < n)%nat -> ~ short cf (snd (gstate (IGSEED s) (x_PROBG cf) RATING (x_DERATE cf) PLNDST)) k 0 j) ->
  hour inv lp cf (on k) PLNDST RATING s = Err IndexError.
Proof.
  intros inv lp n nu nl cf k s PL RT ST Hk HS LP LR FQ NS. apply (hour_no_shortage n nu nl cf ST k Hk inv lp s PL RT HS LP LR); auto.
  rewrite FQ. unfold draws_now. cbn [Z.eqb]. now rewrite orb_true_r.
Qed.
Print Assumptions C50_refuted.

(** C51.  An hour that returns has drawn fresh states: every seed has moved on by
    exactly one step. *)
Theorem C51_fresh_states_partial : forall inv lp n nu nl cf k s PLNDST RATING s',
  study n nu nl cf -> 1 <= k -> hst_ok n nu nl s -> length PLNDST = nu -> length RATING = nu -> keeps_areas lp ->
  hour inv lp cf (on k) PLNDST RATING s = Ok s' ->
  (forall i, (i < nu)%nat -> nth i (IGSEED s') 0 = (nth i (IGSEED s) 0 * 65539) mod 2 ^ 31) /\
  (forall i, (i < nl)%nat -> nth i (ILSEED s') 0 = (nth i (ILSEED s) 0 * 65539) mod 2 ^ 31).
Proof.
  intros inv lp n nu nl cf k s PL RT s' ST Hk HS LP LR KA E.
  destruct (hour_spec n nu nl cf ST k Hk inv lp s PL RT HS LP LR s' KA E) as (_ & A & B & _). auto.
Qed.
Print Assumptions C51_fresh_states_partial.
(** With a draw frequency above 1 the hours in between stop the program, instead of
    keeping the states drawn last. *)
Theorem C51_refuted : forall inv lp n nu nl cf k s PLNDST RATING,
  study n nu nl cf -> 1 <= k -> 1 < x_JFREQ cf -> x_JSTEP cf <> 24 -> (k mod 8760 - 1) mod x_JFREQ cf <> 0 ->
  hour inv lp cf (on k) PLNDST RATING s = Err UnboundLocalError.
Proof.
  intros inv lp n nu nl cf k s PL RT ST Hk FQ JS NE. apply (hour_no_draw n nu nl cf ST k Hk inv lp s PL RT FQ).
  destruct (Z.eqb_spec (x_JSTEP cf) 24); [contradiction|auto].
Qed.
Print Assumptions C51_refuted.

(** C63.  Peak statistics: exactly the day's pool peak hour is recorded there too,
    except in the last hour of the year; with a daily step always. *)
Theorem C63_peak_hours_partial : forall inv lp n nu nl cf k s PLNDST RATING s',
  study n nu nl cf -> 1 <= k -> hst_ok n nu nl s -> length PLNDST = nu -> length RATING = nu -> keeps_areas lp ->
  hour inv lp cf (on k) PLNDST RATING s = Ok s' ->
  x_JSTEP cf = 24 \/ k mod 8760 <> 0 ->
  let peak := Nat.eqb (hour_used cf k) (Z.to_nat (zget (x_MXPLHR cf) (day_of_year k))) in
  exists recs, (LSFLG s', hrs s', pks s') = fold_left record_hour (map (fun r => (fst r, map qz (snd r), peak)) recs) (LSFLG s, hrs s, pks s) /\
    Forall (level_record inv lp n cf k (snd (gstate (IGSEED s) (x_PROBG cf) RATING (x_DERATE cf) PLNDST)) (snd (lstate (ILSEED s) (x_PROBL cf)))) recs.
Proof.
  intros inv lp n nu nl cf k s PL RT s' ST Hk HS LP LR KA E CASE.
  destruct (hour_spec n nu nl cf ST k Hk inv lp s PL RT HS LP LR s' KA E) as (_ & _ & _ & recs & A & _ & _ & D & _).
  exists recs. split; [|exact D]. rewrite A. f_equal. apply map_ext. intros r. f_equal.
  destruct (st_peak _ _ _ _ ST) as (_ & PB). specialize (PB _ (day_of_year_lt k)).
  unfold peak_hour, hour_used. destruct (Z.eqb_spec (x_JSTEP cf) 24) as [|NE]; [now rewrite Nat.eqb_refl|].
  destruct CASE as [C|C]; [contradiction|]. unfold hour_of_year. rewrite <- wrap_hour. pose proof (Z.mod_pos_bound k 8760 ltac:(lia)).
  rewrite (Z.mod_small (k mod 8760 - 1)) by lia.
  destruct (Z.eqb_spec (k mod 8760 - 1) (zget (x_MXPLHR cf) (day_of_year k))) as [EQ|NEQ].
  - rewrite EQ. symmetry. apply Nat.eqb_refl.
  - symmetry. apply Nat.eqb_neq. intros EQ. apply NEQ. lia.
Qed.
Print Assumptions C63_peak_hours_partial.
(** In the last hour of the year nothing is recorded as a peak, also when that hour
    is the peak hour of its day. *)
Theorem C63_last_hour_refuted : forall inv lp n nu nl cf k s PLNDST RATING s',
  study n nu nl cf -> 1 <= k -> hst_ok n nu nl s -> length PLNDST = nu -> length RATING = nu -> keeps_areas lp ->
  x_JSTEP cf <> 24 -> k mod 8760 = 0 ->
  hour inv lp cf (on k) PLNDST RATING s = Ok s' -> hour_used cf k = Z.to_nat 8759 /\ pks s' = pks s.
Proof.
  intros inv lp n nu nl cf k s PL RT s' ST Hk HS LP LR KA NE K0 E.
  destruct (hour_spec n nu nl cf ST k Hk inv lp s PL RT HS LP LR s' KA E) as (_ & _ & _ & recs & A & _).
  split.
  - unfold hour_used. destruct (Z.eqb_spec (x_JSTEP cf) 24); [contradiction|]. unfold hour_of_year. rewrite <- wrap_hour, K0. reflexivity.
  - assert (PF : peak_hour cf k = false).
    { destruct (st_peak _ _ _ _ ST) as (_ & PB). specialize (PB _ (day_of_year_lt k)). unfold peak_hour.
      destruct (Z.eqb_spec (x_JSTEP cf) 24); [contradiction|]. rewrite K0. apply Z.eqb_neq. lia. }
    rewrite PF in A. clear - A. pose proof (f_equal snd A) as B. cbn [snd] in B. rewrite B. clear A B.
    generalize (LSFLG s) (hrs s) (pks s). induction recs as [|r recs IH]; intros LS h p; [reflexivity|]. cbn [map fold_left].
    unfold record_hour at 2. destruct (hrstat _ _ _ _) as [LS' h']. apply IH.
Qed.
Print Assumptions C63_last_hour_refuted.

(** *** A concrete study: two areas with a unit each (100 and 50 MW), one line of
    capacity 100, constant loads, one forecast level, hourly steps. *)
Definition flat (l0 l1 : Z) : list (list Qc) := [repeat (qz l0) (365 * 24); repeat (qz l1) (365 * 24)].
Definition tiny (freq l0 l1 peak : Z) : hcfg :=
  mkHcfg 1 freq 1 (map (fun d => 24 * Z.of_nat d + peak) (seq 0 365)) [[q1; q1]; [q1; q1]] [q0; q0] [[q1; q0]; [q0; q1]] [0; 1]
    [[q1; q1; q1; q1; q1; q1]] [[-1; -1]; [-1; -1]] [] (flat l0 l1) [repeat q1 5; repeat q1 5]
    [[-1; 0]; [-1; -1]] [two_lines (-1) 100] [(0, 1)%nat] 1 true.
Definition tiny_state : hst := mkHst [1; 3; 5] [7; 7] (two_net 1000) [0; 0] (zero_stat 2 5) (zero_stat 2 5).
Definition tiny_hour freq l0 l1 peak k := hour (checked_inv [[qz (-1)]]) no_lp (tiny freq l0 l1 peak) (on k) [q1; q1] [qz 100; qz 50] tiny_state.
Lemma flat_shape (w : nat) (a b : Qc) : shape 2 w [repeat a w; repeat b w].
Proof. split; [reflexivity|]. intros [|[|j]] H; try apply repeat_length; exfalso; cbn in H; lia. Qed.
Example tiny_study freq l0 l1 peak : 0 <= peak < 24 -> study 2 2 1 (tiny freq l0 l1 peak).
Proof.
  intros HP. constructor; cbn [tiny x_HRLOAD x_FCTERR x_CAPOWN x_CAPCON x_PROBG x_DERATE x_PROBL x_JENT x_INTCH x_MXPLHR x_NFCST].
  - lia.
  - unfold flat. apply flat_shape.
  - apply (flat_shape 5).
  - split; [reflexivity|]. intros [|[|j]] H; try reflexivity; exfalso; cbn in H; lia.
  - split; [reflexivity|]. intros [|[|j]] H; cbn; lia.
  - auto.
  - reflexivity.
  - split; [|split].
    + split; [reflexivity|]. intros [|[|j]] H; try reflexivity; exfalso; cbn in H; lia.
    + intros [|[|i]] [|[|j]] H1 H2; try (left; reflexivity); exfalso; cbn in H1, H2; lia.
    + intros r [].
  - split; [now rewrite map_length, seq_length|]. intros d Hd. unfold zget. rewrite nth_map_seq by auto. lia.
  - lia.
Qed.
Example tiny_state_ok : hst_ok 2 2 1 tiny_state /\ keeps_areas no_lp.
Proof. split; [constructor; cbn; auto; apply zero_stat_shape|]. intros B L BN F BN' E. discriminate. Qed.
(** what is recorded at level 0: hours (generation, transmission), energy by area,
    pool energy in the hourly and in the peak statistics *)
Definition shown (r : res hst) := match r with
  | Ok s => Ok (zget (plolG (hrs s)) 0, zget (plolT (hrs s)) 0, map (fun j => zmget (mgnG (hrs s)) j 0) (seq 0 2), zget (pmgnG (hrs s)) 0, zget (pmgnG (pks s)) 0)
  | Err e => Err e end.
(** Area 1 lacks 30 (load 80).  Helped by area 0 (load 60) it lacks nothing; with load
    95 at area 0 it lacks 25; with load 110 both are short by 10 and 30.  Hour 8 of
    the year (index 7) is the daily peak hour. *)
Example C52_witness : map shown [tiny_hour 1 60 80 7 8; tiny_hour 1 95 80 7 8; tiny_hour 1 110 80 7 8; tiny_hour 1 110 80 6 8] =
  [Ok (0, 0, [0; 0], 0, 0); Ok (1, 0, [0; 25], 25, 25); Ok (1, 0, [10; 30], 40, 40); Ok (1, 0, [10; 30], 40, 0)].
Proof. vm_compute. reflexivity. Qed.
(** no shortage (loads 60 and 40); a draw every second hour *)
Example C50_witness : tiny_hour 1 60 40 7 8 = Err IndexError /\
  forall j, (j < 2)%nat -> ~ short (tiny 1 60 40 7) (snd (gstate (IGSEED tiny_state) [[q1; q1]; [q1; q1]] [qz 100; qz 50] [q0; q0] [q1; q1])) 8 0 j.
Proof.
  assert (NS : forall j, (j < 2)%nat -> ~ short (tiny 1 60 40 7) (snd (gstate (IGSEED tiny_state) [[q1; q1]; [q1; q1]] [qz 100; qz 50] [q0; q0] [q1; q1])) 8 0 j).
  { intros j Hj SH. unfold short in SH. apply qleb_iff in SH. destruct j as [|[|j]]; [| |lia]; vm_compute in SH; discriminate SH. }
  split; [|exact NS]. destruct tiny_state_ok. apply (C50_refuted _ _ 2 2 1); auto; try lia. apply tiny_study. lia.
Qed.
Example C51_witness : map shown [tiny_hour 2 110 80 7 1; tiny_hour 2 110 80 7 2; tiny_hour 2 110 80 7 3] =
  [Ok (1, 0, [10; 30], 40, 0); Err UnboundLocalError; Ok (1, 0, [10; 30], 40, 0)].
Proof. vm_compute. reflexivity. Qed.
(** the last hour of the year is its day's peak hour (index 23): not in the peak
    statistics; the hour before, if it is the peak hour: recorded *)
Example C63_witness : map shown [tiny_hour 1 110 80 23 8760; tiny_hour 1 110 80 22 8759] = [Ok (1, 0, [10; 30], 40, 0); Ok (1, 0, [10; 30], 40, 40)].
Proof. vm_compute. reflexivity. Qed.
