(** Property theorems: every failure of a run has a known cause (C101).

    The inversion routine [inv] inverts what has an inverse; the linear program [lp] is
    arbitrary.  All input tables are complete. *)
From Verif Require Import Base BaseProofs Sums SampleModel SampleProofs LoadModel LoadSpec NetModel NetSpec StatModel StatSpec StatProofs
  EventModel ControlModel ControlSpec ControlProofs RunProofs HourModel HourSpec HourProofs
  YearModel YearSpec YearProofs YearRun ReportModel ReportSpec ProgramModel ProgramSpec ProgramProofs PropertiesNet PropertiesProgram
  CauseSpec CauseProofs CauseRun LinpackModel PropertiesLinpack LpModel LpBranch PropertiesNever.
Open Scope Z_scope.

(** ** C101, network solution: the only exceptions are those of the linear program, and the
    type error of the loss-sharing branch. *)
Theorem C101_network : forall inv lp n nl cf k AVAIL LNSTAT l er, inverts inv -> keeps_areas lp -> base_net n cf -> lines_ok n nl cf ->
  network_fails inv lp n cf k AVAIL LNSTAT l er -> program_fails lp n cf er.
Proof.
  intros inv lp n nl cf k AV LN l er IV KA BN LO (first & net0 & LB & E).
  destruct (lo_count _ _ _ LO) as (L0 & L1). eapply transm_err; try exact E; auto; [lia|]. rewrite L1. apply (lo_rows _ _ _ LO).
Qed.
Print Assumptions C101_network.

(** ** C101, hours: an hour ends in an exception only if no fresh states are due in it, or
    if at some level, all levels before being recorded shortages, no area is short, or some
    but not all areas are short and the linear program fails. *)
Theorem C101_hour : forall inv lp n nu nl cf k s PL RT er, inverts inv -> keeps_areas lp -> study n nu nl cf -> lines_ok n nl cf -> base_net n cf ->
  1 <= k -> 1 <= x_JFREQ cf -> hst_ok n nu nl s -> length PL = nu -> length RT = nu ->
  hour inv lp cf (on k) PL RT s = Err er ->
  let AVAIL := snd (gstate (IGSEED s) (x_PROBG cf) RT (x_DERATE cf) PL) in
  let LNSTAT := snd (lstate (ILSEED s) (x_PROBL cf)) in
  (1 < x_JFREQ cf /\ (if x_JSTEP cf =? 24 then zget (x_MXPLHR cf) (day_of_year k) else k mod 8760 - 1) mod x_JFREQ cf <> 0 /\ er = UnboundLocalError) \/
  exists l, (l < x_NFCST cf)%nat /\ reached inv lp n cf k AVAIL LNSTAT l /\
    ((forall j, (j < n)%nat -> ~ short cf AVAIL k l j) /\ er = IndexError \/
     (exists j, (j < n)%nat /\ short cf AVAIL k l j) /\ (exists j, (j < n)%nat /\ ~ short cf AVAIL k l j) /\
     ((exists B L BN, length BN = n /\ lp B L BN = Err er) \/ x_NLS cf = false /\ er = TypeError)).
Proof.
  intros inv lp n nu nl cf k s PL RT er IV KA ST LO BN Hk FQ HS LPL LRT E AV LN.
  destruct (hour_err n nu nl cf ST LO k Hk inv lp KA s PL RT er HS LPL LRT FQ E) as [((F & M) & ->)|(l & Hl & RE & C)].
  - left. auto.
  - right. exists l. split; [exact Hl|]. split; [exact RE|]. destruct C as [C|(A & B & C)]; [left; exact C|right]. split; [exact A|]. split; [exact B|].
    exact (C101_network _ _ _ _ _ _ _ _ _ _ IV KA BN LO C).
Qed.
Print Assumptions C101_hour.

(** ** C101, runs.  A run of a complete input ends in finitely many steps: with its one
    report, or with an exception that has one of these causes:
    - no fresh states were due in the next draw ([UnboundLocalError], C51);
    - in the next draw no area was short at some level ([IndexError], C50);
    - in the next draw some but not all areas were short at some level, and the linear
      program failed, or was the one for loss sharing ([TypeError], C80);
    - annual printing, at the end of a year without generation-caused loss of the pool at
      the first level ([UnboundLocalError], C62). *)
Theorem C101_run : forall inv lp n nu nl i fuel, inverts inv -> keeps_areas lp -> input_ok n nu nl i -> lines_ok n nl (i_h i) -> base_net n (i_h i) ->
  rates_ok (i_RATES i) -> outages_ok nu (i_JPLOUT i) -> 1 <= x_JFREQ (i_h i) -> (qz 20 <= i_MAXEUE i)%Qc -> 1 <= i_years i ->
  (fuel_bound (i_FINISH i) < fuel)%nat ->
  exists lg x, narp inv lp fuel i = Ok (lg, Some x) /\
    (x = Converged \/ exists er, x = Failed er /\
      ((exists s AVAIL LNSTAT, capacities nu i (S (n_draws lg)) s AVAIL /\ line_states nu nl i (S (n_draws lg)) LNSTAT /\
          (exists lg' e, lg = lg' ++ [(e, s)]) /\
          let k := x_JSTEP (i_h i) * Z.of_nat (S (n_draws lg)) in
          hour_stops inv lp n (i_h i) k AVAIL LNSTAT er /\
          (er <> UnboundLocalError -> er <> IndexError -> program_fails lp n (i_h i) er)) \/
       er = UnboundLocalError /\ i_IOJ i <> 0 /\ x_JSTEP (i_h i) <> 24 /\
       n_draws lg = draws_upto i (S (n_years lg)) /\
       exists R, (forall k, (1 <= k <= n_draws lg)%nat -> draw_outcome inv lp n nu nl i lg k (R k)) /\
         total i Pool Hourly LOLE Gen 0 R (draws_of_year i (n_years lg)) <= 0)).
Proof.
  intros inv lp n nu nl i fuel IV KA IN LO BN RO OO FQ ME HY FB.
  assert (EN : exists lg x, narp inv lp fuel i = Ok (lg, Some x)).
  { unfold narp. destruct (seeder JSEED (i_units i) (i_lines i)) as [[IG IL]|er0] eqn:SD.
    2:{ exfalso. destruct (seeder_spec JSEED (i_units i) (i_lines i)) as (IG & IL & X & _). congruence. }
    cbn [bind fst snd]. destruct (terminates (program inv lp i) (loop_cfg i) (i_units i) (first_world i IG IL) fuel (in_step _ _ _ _ IN) FB) as (lg & x & E).
    exists lg, x. now rewrite E. }
  destruct EN as (lg & x & EN). exists lg, x. split; [exact EN|].
  assert (DEC : (exists er, x = Failed er) \/ forall er, x <> Failed er) by (destruct x; eauto; right; discriminate).
  destruct DEC as [(er & ->)|NF].
  2:{ left. exact (proj1 (C65_one_report inv lp n nu nl i fuel lg x KA IN HY EN NF)). }
  right. exists er. split; [reflexivity|]. rewrite <- (app_nil_r lg) in EN.
  destruct (narp_at inv lp KA n nu nl i IN fuel _ [] _ EN) as (IG & IL & s & a & b & c & d & R & l & f1 & SD & T & I & P & A & D & FS & C).
  apply contrl_last in C. pose proof (step_spec (program inv lp i) (loop_cfg i) s a b c d (in_step _ _ _ _ IN) I) as SP. rewrite C in SP. destruct SP as (RF & FA).
  rewrite <- A, <- D. destruct FA as [(MIN & FA)|[FA|[FA|(TY & FA)]]].
  - left. cbn [program h_hour] in FA. unfold do_hour in FA.
    destruct (hour inv lp (i_h i) _ _ _ _) as [h'|e] eqn:EH; cbn [bind] in FA; [discriminate|]. injection FA as ->.
    change (fst (draw_event (c_JSTEP (loop_cfg i)) (S a))) with (on (x_JSTEP (i_h i) * Z.of_nat (S a))) in EH.
    assert (K1 : 1 <= x_JSTEP (i_h i) * Z.of_nat (S a)) by (pose proof (proj1 (in_step _ _ _ _ IN)); nia).
    exists s, (snd (gstate (IGSEED (w_h (s_w s))) (x_PROBG (i_h i)) (s_rating s) (x_DERATE (i_h i)) (s_plndst s))), (snd (lstate (ILSEED (w_h (s_w s))) (x_PROBL (i_h i)))).
    pose proof (pi_ok _ _ _ _ _ _ _ _ _ _ _ _ P) as HS.
    split; [|split; [|split; [|cbv zeta; split]]].
    + exists (IGSEED (w_h (s_w s))). split; [apply HS|]. split; [|reflexivity]. intros u Hu. replace (S a - 1)%nat with a by lia. exact (pi_ig _ _ _ _ _ _ _ _ _ _ _ _ P u Hu).
    + exists (ILSEED (w_h (s_w s))). split; [apply HS|]. split; [|reflexivity]. intros u Hu. replace (S a - 1)%nat with a by lia. exact (pi_il _ _ _ _ _ _ _ _ _ _ _ _ P u Hu).
    + destruct (trace_kinds _ _ _ _ _ _ _ _ _ T) as (_ & _ & _ & _ & KL). apply trace_last in T. destruct T as [(T & _)|(lg' & e & T & _)]; [|eauto].
      exfalso. rewrite T in KL. cbn [length] in KL. assert (b = 0%nat) as -> by lia.
      unfold agenda in MIN. apply Forall_inv_tail, Forall_inv in MIN. rewrite inj_week in MIN. unfold draw_event, week_event in MIN. cbn [fst] in MIN.
      pose proof (proj1 (in_step _ _ _ _ IN)). change (c_JSTEP (loop_cfg i)) with (x_JSTEP (i_h i)) in MIN.
      assert (LE : (qz 1 <= on (x_JSTEP (i_h i) * Z.of_nat (S a)))%Qc) by (apply qz_le; lia).
      pose proof (Qcle_trans _ _ _ LE MIN) as X. apply qleb_iff in X. vm_compute in X. discriminate X.
    + apply (hour_err n nu nl (i_h i) (in_study _ _ _ _ IN) LO _ K1 inv lp KA _ _ _ _ HS (pi_pl _ _ _ _ _ _ _ _ _ _ _ _ P) (pi_rt _ _ _ _ _ _ _ _ _ _ _ _ P) FQ EH).
    + intros N1 N2. destruct (hour_err n nu nl (i_h i) (in_study _ _ _ _ IN) LO _ K1 inv lp KA _ _ _ _ HS (pi_pl _ _ _ _ _ _ _ _ _ _ _ _ P) (pi_rt _ _ _ _ _ _ _ _ _ _ _ _ P) FQ EH)
        as [(_ & X)|(l0 & _ & _ & [(_ & X)|(_ & _ & X)])]; [contradiction|contradiction|]. exact (C101_network _ _ _ _ _ _ _ _ _ _ IV KA BN LO X).
  - exfalso. destruct (week_never_fails inv lp n nu nl i IN IG IL s a b c d lg OO T) as (p & E). change (c_JPLOUT (loop_cfg i)) with (i_JPLOUT i) in FA. congruence.
  - exfalso. destruct (season_never_fails inv lp nu i IG IL s a b c d lg RO T) as (p & E). change (c_RATES (loop_cfg i)) with (i_RATES i) in FA. congruence.
  - right. cbn [program h_year] in FA. unfold do_year in FA. cbv zeta in FA.
    destruct (nonneg_trace inv lp KA n nu nl i IN IG IL SD lg s a b c d T) as (N1 & N2 & l1 & R1 & R2 & R3 & R4).
    assert (LS : 0 < LSTEP (year_cfg i)).
    { change (LSTEP (year_cfg i)) with (qfloor (Qcdiv (i_MAXEUE i) (qz 20))). apply Z.lt_le_trans with 1; [lia|].
      destruct (qfloor_spec (Qcdiv (i_MAXEUE i) (qz 20))) as [_ F]. apply (proj1 (qdiv_pos_lt _ _ _ (proj2 (qz_lt 0 20) eq_refl))) in F.
      pose proof (Qcle_lt_trans _ _ _ ME F) as F1. rewrite <- qz_mult in F1. apply (proj1 (qz_lt _ _)) in F1. lia. }
    destruct (hist_invariant (year_cfg i) n _ _ (in_levels _ _ _ _ IN) LS l1 _ _ R3 R4 R1) as [I1 I2 I3 _ _].
    pose proof (pi_ok _ _ _ _ _ _ _ _ _ _ _ _ P) as HS. rewrite (n_areas n nu nl i IN) in FA.
    destruct (year (year_cfg i) n _ _) as [[y' o]|e] eqn:EY; cbn [bind] in FA; [discriminate|]. injection FA as ->.
    destruct (print_fails (year_cfg i) (hrs (w_h (s_w s)))) eqn:PF.
    2:{ exfalso. edestruct (year_succeeds (year_cfg i) n) as (s' & o & EY'); [exact (in_levels _ _ _ _ IN)|exact LS| | | | | | | | |rewrite EY' in EY; discriminate EY]; cbn [y_h y_p y_HL y_DP y_EU]; auto; apply HS. }
    assert (NA : a = draws_upto i (S d)).
    { symmetry. apply (draws_upto_full n nu nl i IN); [rewrite <- Nat.add_1_r; exact (pi_time _ _ _ _ _ _ _ _ _ _ _ _ P)|exact TY]. }
    pose proof PF as PF0. unfold print_fails in PF. change (IOJ (year_cfg i)) with (i_IOJ i) in PF. change (INDX (year_cfg i)) with (if x_JSTEP (i_h i) =? 24 then 1 else 0) in PF.
    destruct (Z.eqb_spec (i_IOJ i) 0); [discriminate|]. destruct (Z.eqb_spec (x_JSTEP (i_h i)) 24); [discriminate|]. cbn [negb andb Z.eqb] in PF. apply Z.leb_le in PF.
    split; [|split; [assumption|split; [assumption|split; [exact NA|]]]].
    + unfold year in EY. cbv zeta in EY. cbn [y_h y_p y_HL y_DP y_EU y_ch y_cp y_XA y_XP] in EY.
      pose proof (in_levels _ _ _ _ IN) as HL. change (levels_ok (NFCST (year_cfg i)) (NORR (year_cfg i))) in HL. destruct (levels_le _ _ HL) as (L5 & LN & _).
      assert (Sh : stat_shape n 5 (hrs (w_h (s_w s)))) by apply HS. assert (Sp : stat_shape n 5 (pks (w_h (s_w s)))) by apply HS.
      rewrite (hist_areas_spec (LSTEP (year_cfg i)) LS _ _ _ _ n (hist_vals_length _ n _ _ Sh Sp) I1 I2 I3) in EY by (apply (hist_vals_ok _ n); auto; lia).
      cbn [bind] in EY. rewrite PF0 in EY. now injection EY as <-.
    + exists R. split; [exact (pi_draws _ _ _ _ _ _ _ _ _ _ _ _ P)|].
      pose proof (st_levels _ _ _ _ (in_study _ _ _ _ IN)) as NF.
      pose proof (pi_cur _ _ _ _ _ _ _ _ _ _ _ _ P Pool Hourly LOLE Gen 0%nat Logic.I ltac:(lia)) as EQ. unfold since in EQ. cbn [cleared] in EQ.
      unfold draws_of_year. rewrite (Nat.add_1_r d), <- NA, <- EQ. exact PF.
Qed.
Print Assumptions C101_run.

(** With fresh states in every draw, no annual printing (or daily steps), no loss sharing,
    and a linear program that always answers, the only failure left is the one of C50. *)
Theorem C101_only_cause : forall inv lp n nu nl i fuel, inverts inv -> keeps_areas lp -> input_ok n nu nl i -> lines_ok n nl (i_h i) -> base_net n (i_h i) ->
  rates_ok (i_RATES i) -> outages_ok nu (i_JPLOUT i) -> (qz 20 <= i_MAXEUE i)%Qc -> 1 <= i_years i -> (fuel_bound (i_FINISH i) < fuel)%nat ->
  x_JFREQ (i_h i) = 1 -> i_IOJ i = 0 \/ x_JSTEP (i_h i) = 24 -> x_NLS (i_h i) = true -> (forall B L BN, exists r, lp B L BN = Ok r) ->
  exists lg x, narp inv lp fuel i = Ok (lg, Some x) /\
    (x = Converged \/ x = Failed IndexError /\
      exists s AVAIL l, capacities nu i (S (n_draws lg)) s AVAIL /\ (exists lg' e, lg = lg' ++ [(e, s)]) /\ (l < x_NFCST (i_h i))%nat /\
        forall j, (j < n)%nat -> ~ short (i_h i) AVAIL (x_JSTEP (i_h i) * Z.of_nat (S (n_draws lg))) l j).
Proof.
  intros inv lp n nu nl i fuel IV KA IN LO BN RO OO ME HY FB J1 NP NL TOT.
  destruct (C101_run inv lp n nu nl i fuel IV KA IN LO BN RO OO ltac:(lia) ME HY FB) as (lg & x & EN & C). exists lg, x. split; [exact EN|].
  destruct C as [C|(er & -> & C)]; [now left|right]. destruct C as [(s & AV & LN & CA & LS & LAST & HS & PFL)|(_ & I0 & J24 & _)]; [|destruct NP; contradiction].
  cbv zeta in HS. destruct HS as [((F & _) & _)|(l & Hl & _ & [(NS & ->)|(_ & _ & NF)])]; [lia| |].
  - split; [reflexivity|]. exists s, AV, l. auto.
  - exfalso. destruct (C101_network _ _ _ _ _ _ _ _ _ _ IV KA BN LO NF) as [(B & L & BN0 & _ & E)|(X & _)]; [destruct (TOT B L BN0); congruence|congruence].
Qed.
Print Assumptions C101_only_cause.

(** *** Witnesses.  Complete inputs: the run of C65 (two areas, ends with its report), and
    the one of C75 (five areas; its linear program fails in the first hour). *)
Lemma no_outages nu m : outages_ok nu (repeat [0; 0] 52) /\ rates_ok (repeat (repeat q0 4) m).
Proof.
  split; [split; [reflexivity|]|]; apply Forall_forall; intros r H; apply repeat_spec in H; subst r; [|reflexivity].
  exists 0, [0]. split; [reflexivity|]. split; [cbn; lia|]. intros j Hj. cbn in Hj. lia.
Qed.
Example C101_witness_report : lines_ok 2 1 (i_h (demo_input 110 80)) /\ base_net 2 (i_h (demo_input 110 80)) /\ rates_ok (i_RATES (demo_input 110 80)) /\
  outages_ok 2 (i_JPLOUT (demo_input 110 80)) /\ 1 <= x_JFREQ (i_h (demo_input 110 80)) /\ (qz 20 <= i_MAXEUE (demo_input 110 80))%Qc /\ 1 <= i_years (demo_input 110 80) /\
  x_NLS (i_h (demo_input 110 80)) = true /\ i_IOJ (demo_input 110 80) = 0 /\ keeps_areas still_lp /\ (forall B L BN, exists r, still_lp B L BN = Ok r).
Proof.
  split; [|split; [|split; [|split; [exact (proj1 (no_outages 2 2))|split; [cbn; lia|split; [qineq|split; [cbn; lia|split; [reflexivity|split; [reflexivity|split]]]]]]]]].
  - constructor; cbn [demo_input i_h x_LP x_BLPA x_LINENO length].
    + lia. + split; [reflexivity|]. intros [|j] H; [reflexivity|lia].
    + split; [reflexivity|]. intros [|[|j]] H; try reflexivity; lia.
    + intros [|[|a]] [|[|b]] Ha Hb; try lia; cbn; lia.
  - constructor; cbn [demo_input i_h x_LP x_BLPA x_NR length].
    + reflexivity. + intros l [<-|[]]. cbn. lia. + lia.
    + intros [|k] H; [qineq|lia].
    + intros [|[|j]] Hj; [|apply conn_refl|lia]. apply conn_step with (j := 0%nat); [apply conn_refl|].
      eexists. split; [left; reflexivity|]. split; [qneq|reflexivity].
  - repeat constructor.
  - intros B L BN F BN' E. injection E as <- <-. now rewrite map_length.
  - intros B L BN. eexists. reflexivity.
Qed.
Example C101_witness_failure : lines_ok 5 7 (i_h v_input) /\ base_net 5 (i_h v_input) /\ rates_ok (i_RATES v_input) /\
  outages_ok 5 (i_JPLOUT v_input) /\ 1 <= x_JFREQ (i_h v_input) /\ (qz 20 <= i_MAXEUE v_input)%Qc /\ 1 <= i_years v_input /\
  forall passes, keeps_areas (lp_nls passes v_LP v_LT 0).
Proof.
  split; [|split; [|split; [|split; [exact (proj1 (no_outages 5 5))|split; [cbn; lia|split; [qineq|split; [cbn; lia|]]]]]]].
  - constructor; cbn [v_input i_h x_LP x_BLPA x_LINENO].
    + split; [lia|reflexivity].
    + split; [reflexivity|]. intros k H. do 7 (destruct k as [|k]; [reflexivity|]). lia.
    + split; [reflexivity|]. intros k H. do 5 (destruct k as [|k]; [reflexivity|]). lia.
    + intros a b Ha Hb. do 5 (destruct a as [|a]; [do 5 (destruct b as [|b]; [cbn; lia|]); lia|]). lia.
  - constructor; cbn [v_input i_h x_LP x_BLPA x_NR].
    + reflexivity. + intros l H. repeat (destruct H as [<-|H]; [cbn; lia|]). destruct H. + lia.
    + intros k H. change (length v_LP) with 7%nat in H. do 7 (destruct k as [|k]; [qineq|]). lia.
    + set (ls := combine v_LP (mcol v_BLPA 0)).
      assert (ST : forall k i a b, (k < 7)%nat -> joins (nth k ls ((0%nat, 0%nat), q0)) a b = true -> connected ls i a -> connected ls i b).
      { intros k i a b Hk J C. apply conn_step with (1 := C). exists (nth k ls ((0%nat, 0%nat), q0)).
        split; [apply nth_In; exact Hk|]. split; [|exact J]. clear J C. do 7 (destruct k as [|k]; [qneq|]). lia. }
      intros i Hi. destruct i as [|[|[|[|[|i]]]]]; [apply conn_refl| | | | |lia].
      * apply (ST 0%nat _ 1%nat); [lia|reflexivity|apply conn_refl].
      * apply (ST 0%nat _ 1%nat); [lia|reflexivity|]. apply (ST 4%nat _ 2%nat); [lia|reflexivity|apply conn_refl].
      * apply (ST 3%nat _ 3%nat); [lia|reflexivity|apply conn_refl].
      * apply (ST 0%nat _ 1%nat); [lia|reflexivity|]. apply (ST 5%nat _ 4%nat); [lia|reflexivity|apply conn_refl].
  - repeat constructor.
  - intros passes. apply lp_nls_keeps.
Qed.
