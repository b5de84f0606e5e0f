(** Property theorems of C125: the choice of the reference area. *)
From Verif Require Import Base BaseProofs Sums LoadModel LoadSpec LoadProofs SampleModel SampleProofs NetModel NetSpec MatProofs NetProofs UpdateProofs UniqueProofs TransmProofs LpModel StatModel StatSpec StatProofs
  EventModel EventSpec ControlModel ControlSpec ControlProofs RunProofs HourModel HourSpec HourProofs CauseSpec
  YearModel YearSpec YearProofs YearRun ReportModel ReportSpec ProgramModel ProgramSpec ProgramProofs HistorySpec HistoryProofs LevelsProofs
  PropertiesNet PropertiesHour PropertiesYear PropertiesReport PropertiesProgram PropertiesBounds CertainSpec PropertiesCertain PropertiesSingle PropertiesLevels
  PlateSpec PlateProofs PlateTrace PropertiesPlate ShortProofs CutProofs AmpleSpec AmpleProofs PropertiesAmple PropertiesMono LinpackModel CauseProofs PropertiesNever RefSpec RefProofs.
Open Scope Z_scope.

(** *** two runs side by side *)
Section Two.
  Context {W : Type}.
  Variables (h h' : handlers W) (cf : rcfg) (R : W -> W -> Prop).
  Hypothesis SO : step_ok (c_JSTEP cf).
  Hypothesis HY : forall t w w', R w w' -> match h_year h t w with Err e => h_year h' t w' = Err e | Ok (w1, f) => exists w1', h_year h' t w' = Ok (w1', f) /\ R w1 w1' end.
  Definition put (s : lst W) (w : W) : lst W := mkSt (s_cal s) (s_clock s) (s_rflag s) (s_jhour s) (s_iq s) (s_plndst s) (s_rating s) w.
  Definition entry (x x' : (Qc * Qc) * lst W) : Prop := fst x' = fst x /\ exists w', R (s_w (snd x)) w' /\ snd x' = put (snd x) w'.
  Definition hours_agree (t : Qc) (s : lst W) (w' : W) : Prop :=
    match h_hour h t (s_plndst s) (s_rating s) (s_w s) with Err e => h_hour h' t (s_plndst s) (s_rating s) w' = Err e | Ok w1 => exists w1', h_hour h' t (s_plndst s) (s_rating s) w' = Ok w1' /\ R w1 w1' end.

  Lemma step_two s a b c d w' : ControlProofs.inv (c_JSTEP cf) s a b c d -> R (s_w s) w' -> hours_agree (fst (draw_event (c_JSTEP cf) (S a))) s w' ->
    match contrl_step h cf s with
    | Continue e s1 => exists w1', contrl_step h' cf (put s w') = Continue e (put s1 w1') /\ R (s_w s1) w1'
    | o => contrl_step h' cf (put s w') = o
    end.
  Proof using SO HY.
    intros I RW HH. set (hd := mkHandlers W (fun _ _ _ w => Ok w) (h_year h)). pose proof (step_spec hd cf s a b c d SO I) as SP.
    unfold contrl_step in *. cbn [put s_cal s_clock s_rflag s_jhour s_iq s_plndst s_rating s_w] in *.
    destruct (IPOINT (s_cal s) =? -1); [reflexivity|]. destruct (pyget _ _) as [t|]; cbn [of_res] in *; [|reflexivity].
    destruct (qltb t (s_clock s)); [reflexivity|]. destruct (s_rflag s =? 1); [reflexivity|]. destruct (qltb _ t); [reflexivity|].
    destruct (remove (s_cal s)) as [r|]; cbn [of_res] in *; [|reflexivity]. destruct r as [[[t' ty] c']|]; [|reflexivity].
    unfold events in *. cbn [s_clock s_cal s_plndst s_rating s_w s_rflag s_iq s_jhour] in *.
    destruct (qtrunc ty =? 1) eqn:E1.
    - destruct (filem _ _) as [c1|]; cbn [bind of_res] in *; [|reflexivity]. cbn [hd h_hour bind of_res] in SP.
      destruct SP as (_ & _ & _ & _ & _ & a2 & b2 & c2 & d2 & ST & _).
      assert (ET : t' = fst (draw_event (c_JSTEP cf) (S a))).
      { inversion ST as [s' A1 A2 A3 A4 A5 A6 EV|s' A1 A2 A3 A4 A5 A6 EV|s' A1 A2 A3 A4 A5 A6 EV|s' A0 A1 A2 A3 A4 A5 EV]; [reflexivity| | |]; exfalso;
          match goal with K : _ = ty |- _ => rewrite <- K in E1; vm_compute in E1; discriminate end. }
      unfold hours_agree in HH. rewrite <- ET in HH. destruct (h_hour h t' _ _ _) as [w1|]; cbn [bind of_res] in *; [|rewrite HH; reflexivity].
      destruct HH as (w1' & -> & RW1). cbn [bind of_res]. exists w1'. auto.
    - destruct (qtrunc ty =? 2). { destruct (filem _ _) as [c1|e]; cbn [bind of_res]; [|reflexivity]. destruct (week_status _ _ _) as [p|e]; cbn [bind of_res]; [|reflexivity]. exists w'. auto. }
      destruct (qtrunc ty =? 3). { cbv zeta. destruct (rates_of _ _) as [r|e]; cbn [bind of_res]; [|reflexivity]. destruct (filem _ _) as [c1|e]; cbn [bind of_res]; [|reflexivity]. exists w'. auto. }
      destruct (qtrunc ty =? 4); [|cbn [of_res]; reflexivity].
      destruct (filem _ _) as [c1|]; cbn [bind of_res]; [|reflexivity]. pose proof (HY t' _ _ RW) as X.
      destruct (h_year h t' _) as [[w1 f1]|]; cbn [bind of_res]; [|rewrite X; reflexivity]. destruct X as (w1' & -> & RW1). cbn [bind of_res fst snd]. exists w1'. auto.
  Qed.

  Lemma contrl_two s0 : (forall lg s a b c d w', trace h cf s0 0 0 0 0 lg s a b c d -> ControlProofs.inv (c_JSTEP cf) s a b c d -> R (s_w s) w' ->
      hours_agree (fst (draw_event (c_JSTEP cf) (S a))) s w') ->
    forall fuel lg s a b c d w', trace h cf s0 0 0 0 0 lg s a b c d -> ControlProofs.inv (c_JSTEP cf) s a b c d -> R (s_w s) w' ->
    exists lg', contrl fuel h' cf (put s w') = (lg', snd (contrl fuel h cf s)) /\ Forall2 entry (fst (contrl fuel h cf s)) lg'.
  Proof using SO HY.
    intros HH. induction fuel as [|fuel IH]; intros lg s a b c d w' T I RW; cbn [contrl]; [exists []; split; [reflexivity|constructor]|].
    pose proof (step_two s a b c d w' I RW (HH _ _ _ _ _ _ _ T I RW)) as S2. pose proof (step_spec h cf s a b c d SO I) as SP.
    destruct (contrl_step h cf s) as [| | |y|e s1|er] eqn:ES; try (rewrite S2; exists []; split; [reflexivity|constructor]).
    destruct S2 as (w1' & -> & RW1).
    destruct SP as (RF & LF & LC & EC & FA & a2 & b2 & c2 & d2 & ST & I2).
    destruct (IH (lg ++ [(e, s1)]) s1 a2 b2 c2 d2 w1') as (lg' & E' & F); [eapply tr_snoc; eauto|exact I2|exact RW1|].
    rewrite E'. destruct (contrl fuel h cf s1) as [l1 o1]. cbn [fst snd] in *. exists ((e, put s1 w1') :: lg'). split; [reflexivity|].
    constructor; [|exact F]. split; [reflexivity|]. exists w1'. auto.
  Qed.
End Two.

Section Run.
  Variables (inv : list (list Qc) -> option (list (list Qc))) (er : pyerr).
  Hypothesis IO : inv_ok inv.
  Variables (n nu nl : nat) (i : input) (R : nat).
  Hypothesis IN : input_ok n nu nl i. Hypothesis JA : joined_areas n i. Hypothesis HR : (R < n)%nat.
  Hypothesis RS1 : reference_served n nu nl i. Hypothesis RS2 : reference_served n nu nl (with_reference i R).
  Hypothesis BI1 : base_inverted inv i. Hypothesis BI2 : base_inverted inv (with_reference i R).
  Notation i' := (with_reference i R).

  Lemma year_two t w w' : same_but_matrices w w' ->
    match h_year (program inv (refuse er) i) t w with Err e => h_year (program inv (refuse er) i') t w' = Err e
    | Ok (w1, f) => exists w1', h_year (program inv (refuse er) i') t w' = Ok (w1', f) /\ same_but_matrices w1 w1' end.
  Proof using .
    intros (N & -> & EN). cbn [program h_year]. unfold do_year. cbn [w_h w_y w_out with_net hrs pks].
    change (year_cfg i') with (year_cfg i). change (i_areas i') with (i_areas i).
    destruct (year _ _ _ _) as [[y' o]|e]; cbn [bind]; [|reflexivity]. eexists. split; [reflexivity|]. exists N. split; [reflexivity|exact EN].
  Qed.
  Lemma run_two fuel lg o : narp inv (refuse er) fuel i = Ok (lg, o) ->
    exists lg', narp inv (refuse er) fuel i' = Ok (lg', o) /\ Forall2 same_moment lg lg'.
  Proof using All.
    unfold narp. change (i_units i') with (i_units i). change (i_lines i') with (i_lines i). change (loop_cfg i') with (loop_cfg i). 
    assert (UN : i_units i = nu) by (apply (n_units n nu nl i IN)). assert (LI : i_lines i = nl).
    { unfold i_lines. exact (in_lp _ _ _ _ IN). }
    rewrite UN, LI. destruct (seeder _ _ _) as [[IG IL]|] eqn:SD; cbn [bind fst snd]; [|discriminate]. intros E.
    set (s0 := start (loop_cfg i) nu (first_world i IG IL)) in *.
    assert (E0 : start (loop_cfg i) nu (first_world i' IG IL) = put s0 (first_world i' IG IL)) by reflexivity. rewrite E0. clear E0.
    destruct (contrl_two (program inv (refuse er) i) (program inv (refuse er) i') (loop_cfg i) same_but_matrices (in_step _ _ _ _ IN) year_two s0) with (fuel := fuel) (lg := @nil ((Qc * Qc) * lst world)) (s := s0) (a := 0%nat) (b := 0%nat) (c := 0%nat) (d := 0%nat) (w' := first_world i' IG IL)
      as (lg' & E' & F); [|constructor|apply start_inv, (in_step _ _ _ _ IN)|exists (first_net i); split; reflexivity|].
    - intros lg1 s a b c d w' T I (N & -> & EN).
      destruct (generic_trace inv (refuse er) n nu nl i IN (kept_net n i) (fun _ _ _ _ => True) (kept_first n i JA) (hour_kept inv er n nu nl i IN) IG IL lg1 s a b c d SD T) as (RR & l & P & KN & _).
      unfold hours_agree. cbn [program h_hour]. unfold do_hour.
      pose proof (hour_ref n nu nl i R IN JA HR RS1 RS2 inv er IO BI1 BI2 (S a) (s_plndst s) (s_rating s) (w_h (s_w s)) N ltac:(lia)
        (pi_ok _ _ _ _ _ _ _ _ _ _ _ _ P) KN EN (pi_pl _ _ _ _ _ _ _ _ _ _ _ _ P) (pi_rt _ _ _ _ _ _ _ _ _ _ _ _ P)) as HF.
      specialize (HF ltac:(intros v Hv; rewrite Nat.sub_1_r; cbn [Nat.pred]; now apply (pi_il _ _ _ _ _ _ _ _ _ _ _ _ P))). cbv zeta in HF.
      change (fst (draw_event (c_JSTEP (loop_cfg i)) (S a))) with (on (x_JSTEP (i_h i) * Z.of_nat (S a))). cbn [w_h w_y w_out].
      destruct (hour inv (refuse er) (i_h i) _ _ _ _) as [s1|e]; cbn [bind]; [|rewrite HF; reflexivity].
      destruct HF as (N1 & -> & EN1). cbn [bind]. eexists. split; [reflexivity|]. exists N1. split; [reflexivity|exact EN1].
    - exists lg'. injection E as E. rewrite E in E', F. cbn [fst snd] in E', F. rewrite E'. split; [reflexivity|].
      clear -F. induction F as [|x x' l l' (E1 & w' & E2 & E3) F IH]; constructor; [|exact IH]. split; [exact E1|]. exists w'. split; [exact E2|exact E3].
  Qed.
End Run.

(** A routine that inverts what has an inverse inverts both base networks. *)
Lemma base_inverts inv n i R : inverts inv -> (0 < length (x_LP (i_h i)))%nat -> joined_areas n i -> (R < n)%nat -> length (i_BN i) = n -> base_inverted inv (with_reference i R).
Proof.
  intros IV L0 [A B C D F] HR LN. unfold base_inverted. cbn [with_reference i_BN i_h refer_to x_LP x_BLPA x_NR].
  apply (tm1_succeeds inv n (refer_to (i_h i) R) (i_BN i) IV (base_net_refer n (i_h i) R C HR)); [exact L0|exact D|exact LN].
Qed.
Lemma base_inverts_self inv n i : inverts inv -> (0 < length (x_LP (i_h i)))%nat -> joined_areas n i -> length (i_BN i) = n -> base_inverted inv i.
Proof.
  intros IV L0 [A B C D F] LN. apply (tm1_succeeds inv n (i_h i) (i_BN i) IV C); [exact L0|exact D|exact LN].
Qed.

(** The equations of the network (angles, Kirchhoff) seen from any two areas have the same
    flows. *)
Theorem C125_flows : forall n R1 R2 LP adm inj F G, lines_in n LP -> (forall k, (k < length LP)%nat -> (adm k <= q0)%Qc) ->
  dc_solution n R1 LP adm inj F -> dc_solution n R2 LP adm inj G -> forall k, (k < length LP)%nat -> F k = G k.
Proof. intros n R1 R2 LP adm inj F G LI AD D1 D2. exact (dc_unique n R1 LP adm inj F G LI AD D1 (dc_shift n R2 R1 LP adm inj G D2)). Qed.
Print Assumptions C125_flows.

(** One solution, where the linear program is not called ([refuse]: a program that fails
    with [er]): seen from area [R] instead of the area of the study the result is the same:
    loss flag, flows, margins and the table of areas, or the same failure.  No line at
    either area is out, and the network holds together. *)
Theorem C125_solved_partial : forall inv er n cf R s LN TR TJ SC CR, inverts inv -> base_net n cf -> (0 < length (x_LP cf))%nat -> length (x_BLPA cf) = length (x_LP cf) -> (R < n)%nat ->
  areas_numbered n (n_BN s) -> shape n 5 (n_BN s) -> length LN = length (x_LP cf) -> still_joined n cf LN -> still_joined n (refer_to cf R) LN ->
  length CR = n -> (x_NLS cf = false -> qsum CR <> q0) ->
  let answer NR := transm inv (refuse er) false s (x_BLPA cf) (x_LP cf) NR (repeat [q1; q1] (length LN)) LN (x_NLS cf) TR TJ SC CR in
  match answer (x_NR cf) with
  | Err e => answer R = Err e
  | Ok (JFLAG, FLOW, SADJ, s1) => exists s2, answer R = Ok (JFLAG, FLOW, SADJ, s2) /\ n_BN s2 = n_BN s1
  end.
Proof.
  intros inv er n cf R s LN TR TJ SC CR IV BN L0 LB HR AN S5 LL SJ SJ' LC SH answer.
  assert (IO : inv_ok inv) by exact (proj1 IV). assert (LN0 : length (n_BN s) = n) by exact (proj1 S5).
  pose proof (tm1_succeeds inv n cf (n_BN s) IV BN L0 LB LN0) as B1.
  pose proof (tm1_succeeds inv n (refer_to cf R) (n_BN s) IV (base_net_refer n cf R BN HR) L0 LB LN0) as B2.
  exact (transm_ref inv er n cf R IO BN LB HR false s s LN TR TJ SC CR AN S5 eq_refl ltac:(discriminate) LL SJ SJ' LC SH B1 B2).
Qed.
Print Assumptions C125_solved_partial.

(** The whole run, up to the first hour that needs the linear program: the same events,
    at each of them the same data (matrices apart), and the same end. *)
Theorem C125_run_partial : forall inv er n nu nl i R fuel lg o, inverts inv -> (0 < nl)%nat -> input_ok n nu nl i -> joined_areas n i -> (R < n)%nat ->
  reference_served n nu nl i -> reference_served n nu nl (with_reference i R) ->
  narp inv (refuse er) fuel i = Ok (lg, o) ->
  exists lg', narp inv (refuse er) fuel (with_reference i R) = Ok (lg', o) /\ Forall2 same_moment lg lg'.
Proof. intros inv er n nu nl i R fuel lg o IV NL IN JA HR RS1 RS2. exact (run_two inv er (proj1 IV) n nu nl i R IN JA HR RS1 RS2 (base_inverts_self inv n i IV (eq_ind_r (fun m => (0 < m)%nat) NL (in_lp _ _ _ _ IN)) JA (in_bn _ _ _ _ IN)) (base_inverts inv n i R IV (eq_ind_r (fun m => (0 < m)%nat) NL (in_lp _ _ _ _ IN)) JA HR (in_bn _ _ _ _ IN)) fuel lg o). Qed.
Print Assumptions C125_run_partial.

(** The report is the same. *)
Theorem C125_same_report : forall i R SU w w', same_but_matrices w w' -> printed_report (with_reference i R) SU w' = printed_report i SU w.
Proof. intros i R SU w w' (N & -> & _). reflexivity. Qed.
Print Assumptions C125_same_report.

(** With ample limits (C124) the linear program is never needed, so the reference does not
    matter, whatever the linear program would do. *)
Theorem C125_ample : forall inv lp lp' n nu nl i R fuel lg o, inverts inv -> (0 < nl)%nat -> input_ok n nu nl i -> joined_areas n i -> (R < n)%nat ->
  ample n nu nl i -> reference_served n nu nl (with_reference i R) ->
  narp inv lp fuel i = Ok (lg, o) ->
  exists lg', narp inv lp' fuel (with_reference i R) = Ok (lg', o) /\ Forall2 same_moment lg lg'.
Proof.
  intros inv lp lp' n nu nl i R fuel lg o IV NL IN JA HR AM RS2 E. assert (IO : inv_ok inv) by exact (proj1 IV).
  assert (IN' : input_ok n nu nl (with_reference i R)).
  { destruct IN as [ST B C D F G]. constructor; auto. destruct ST. constructor; auto. }
  assert (JA' : joined_areas n (with_reference i R)).
  { destruct JA as [A B C D F]. constructor; auto. exact (base_net_refer n (i_h i) R C HR). }
  assert (AM' : ample n nu nl (with_reference i R)).
  { destruct AM as [A B C D]. constructor; auto. }
  rewrite (run_free inv KeyError IO n nu nl i IN JA AM lp fuel) in E. rewrite (run_free inv KeyError IO n nu nl (with_reference i R) IN' JA' AM' lp' fuel).
  exact (run_two inv KeyError IO n nu nl i R IN JA HR (am_lines _ _ _ _ AM) RS2 (base_inverts_self inv n i IV (eq_ind_r (fun m => (0 < m)%nat) NL (in_lp _ _ _ _ IN)) JA (in_bn _ _ _ _ IN)) (base_inverts inv n i R IV (eq_ind_r (fun m => (0 < m)%nat) NL (in_lp _ _ _ _ IN)) JA HR (in_bn _ _ _ _ IN)) fuel lg o E).
Qed.
Print Assumptions C125_ample.

(** *** Refuted when a line at the reference area is out (C33): three areas in a triangle,
    the line between areas 1 and 2 out, area 2 short of 10 MW that area 0 has.  All of it
    must pass the line 0-2, which carries 8: 2 MW are lost.  Seen from area 1 or 2 the
    outage is not noticed and nothing is lost. *)
Definition triangle (cap out : Z) (R : nat) : hcfg := let c := t_study out in
  mkHcfg (x_JSTEP c) (x_JFREQ c) (x_NFCST c) (x_MXPLHR c) (x_PROBG c) (x_DERATE c) (x_CAPOWN c) (x_CAPCON c) (x_PROBL c) (x_JENT c) (x_INTCH c) (x_HRLOAD c) (x_FCTERR c) (x_LINENO c)
    [two_lines (-1) cap; two_lines (-1) cap; [qz (-1); qz 1; qz 1] ++ concat (repeat [q0; q0; q0] 5)] t_LP R true.
(** the order of the areas with R as reference, as the linear program is told it *)
Definition order_of (R : nat) : list nat := filter (fun j => negb (Nat.eqb j R)) [0; 1; 2]%nat ++ [R].
Definition triangle_hour (cap out : Z) (R : nat) (b c : Z) := hour t_inv (lp_nls 60 t_LP (order_of R) R) (triangle cap out R) (on 8) [q1; q1; q1] [qz 100; qz b; qz c] t_state.
Theorem C125_outage_refuted : (forall cap out R R', triangle cap out R' = refer_to (triangle cap out R) R') /\
  map (fun R => lost (triangle_hour 8 1 R 50 40)) [0; 1; 2]%nat = [Ok (1, [0; 0; 2], 2); Ok (0, [0; 0; 0], 0); Ok (0, [0; 0; 0], 0)].
Proof. split; [reflexivity|]. vm_compute. reflexivity. Qed.
Print Assumptions C125_outage_refuted.
(** And where the linear program is needed, even with all lines in service (C77): area 1
    is short of 10 MW and the line between areas 1 and 2 carries 1: 7 MW are lost, but with
    area 0 as reference area 1 is the first in the order and its loss is not counted. *)
Theorem C125_congested_refuted :
  map (fun R => lost (triangle_hour 90 0 R 40 50)) [0; 1; 2]%nat = [Ok (0, [0; 0; 0], 0); Ok (1, [0; 7; 0], 7); Ok (1, [0; 7; 0], 7)].
Proof. vm_compute. reflexivity. Qed.
Print Assumptions C125_congested_refuted.

(** *** Witness: the study of C124 (reference area 1) and the same with area 0: four draws a
    year with 5 MW lacking at each; the orders of the areas differ. *)
Lemma wide_served R : (R < 2)%nat -> reference_served 2 2 1 (with_reference wide_input R).
Proof.
  intros HR k LN Hk HL. destruct (am_lines _ _ _ _ wide_ample k LN Hk HL) as [A B C]. constructor; [exact A| |].
  - intros v Hv _. cbn in Hv. destruct v; [|lia]. apply B; [cbn; lia|]. right. reflexivity.
  - exact (network_any 2 _ R _ HR C).
Qed.
Example C125_witness : inverts sure_inv /\ input_ok 2 2 1 wide_input /\ joined_areas 2 wide_input /\ ample 2 2 1 wide_input /\ x_NR (i_h wide_input) = 1%nat /\
  reference_served 2 2 1 wide_input /\ reference_served 2 2 1 (with_reference wide_input 0) /\
  (let last_net r := match r with Ok (lg, _) => Some (n_LT (hnet (w_h (s_w (snd (last lg ((q0, q0), start (loop_cfg wide_input) 2 (first_world wide_input [] []))))))))  | Err _ => None end in
   let r1 := narp sure_inv (refuse KeyError) 200 wide_input in
   let r0 := narp sure_inv (refuse KeyError) 200 (with_reference wide_input 0) in
   run_shown r1 = Some (8%nat, 2%nat, Ok true, [(1, false); (2, true)]) /\ run_shown r0 = run_shown r1 /\ last_net r1 = Some [0; 1]%nat /\ last_net r0 = Some [1; 0]%nat).
Proof.
  split; [exact (proj1 C75_inverts_witness)|]. destruct C124_witness as (_ & I1 & J1 & A1 & _). split; [exact I1|]. split; [exact J1|]. split; [exact A1|]. split; [reflexivity|].
  split; [exact (wide_served 1 ltac:(lia))|]. split; [exact (wide_served 0 ltac:(lia))|].
  vm_compute. repeat split; reflexivity.
Qed.
