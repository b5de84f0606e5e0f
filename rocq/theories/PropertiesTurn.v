(** Property theorems of C126: the direction in which a line is written down. *)
From Verif Require Import Base BaseProofs Sums LoadModel LoadSpec LoadProofs SampleModel SampleProofs NetModel NetSpec MatProofs NetProofs UpdateProofs UniqueProofs TransmProofs LpModel StatModel StatSpec StatProofs
  EventModel EventSpec ControlModel ControlSpec ControlProofs RunProofs HourModel HourSpec HourProofs CauseSpec
  YearModel YearSpec YearProofs YearRun ReportModel ReportSpec ProgramModel ProgramSpec ProgramProofs HistorySpec HistoryProofs LevelsProofs
  PropertiesNet PropertiesHour PropertiesYear PropertiesReport PropertiesProgram PropertiesBounds CertainSpec PropertiesCertain PropertiesSingle PropertiesLevels
  PlateSpec PlateProofs PlateTrace PropertiesPlate ShortProofs CutProofs AmpleSpec AmpleProofs PropertiesAmple PropertiesMono PropertiesHistory RefSpec RefProofs TurnSpec TurnProofs TurnAmple.
Open Scope Z_scope.

(** Solutions of the network equations for lines written in other directions: the same
    flows, with the other sign on the lines turned. *)
Theorem C126_flows : forall sw n NR LP adm inj F G, lines_in n LP -> (forall k, (k < length LP)%nat -> (adm k <= q0)%Qc) ->
  dc_solution n NR LP adm inj F -> dc_solution n NR (turned_ends sw LP) adm inj G ->
  forall k, (k < length LP)%nat -> G k = if sw k then Qcopp (F k) else F k.
Proof.
  intros sw n NR LP adm inj F G LI AD D1 D2 k Hk. rewrite (dc_unique n NR LP adm inj F _ LI AD D1 (dc_turn sw n NR LP adm inj G D2) k Hk).
  unfold seen. destruct (sw k); [qring|reflexivity].
Qed.
Print Assumptions C126_flows.

(** The matrices of the network are the same: whatever the inversion routine does. *)
Theorem C126_matrices : forall sw inv BN LP B NR, distinct_ends LP -> shape (length LP) 18 B ->
  tm1 inv BN (turned_ends sw LP) (map (firstn 3) (turned_rows sw B)) NR = tm1 inv BN LP (map (firstn 3) B) NR.
Proof. intros sw inv BN LP B NR D SH. exact (tm1_turn sw inv (length LP) BN LP B NR D SH). Qed.
Print Assumptions C126_matrices.

(** One solution with loss sharing (the linear program, [refuse], is not called): the same
    result, with the flows on the turned lines in the other direction; or the same
    failure. *)
Theorem C126_solved_partial : forall inv er n cf sw s LN TR TJ SC CR, inv_ok inv -> base_net n cf -> line_cards cf -> x_NLS cf = false ->
  areas_numbered n (n_BN s) -> shape n 5 (n_BN s) -> length LN = length (x_LP cf) -> still_joined n cf LN -> length CR = n -> qsum CR <> q0 ->
  let answer c := transm inv (refuse er) false s (x_BLPA c) (x_LP c) (x_NR c) (repeat [q1; q1] (length LN)) LN (x_NLS c) TR TJ SC CR in
  match answer cf with
  | Err e => answer (turn_lines sw cf) = Err e
  | Ok (JFLAG, FLOW, SADJ, s1) => exists FLOW', answer (turn_lines sw cf) = Ok (JFLAG, FLOW', SADJ, s1) /\
      forall k, (k < length (x_LP cf))%nat -> vget FLOW k = if sw k then Qcopp (vget FLOW' k) else vget FLOW' k
  end.
Proof.
  intros inv er n cf sw s LN TR TJ SC CR IO BN CD NS AN S5 LL SJ LC SH answer. unfold answer. change (x_NR (turn_lines sw cf)) with (x_NR cf). change (x_NLS (turn_lines sw cf)) with (x_NLS cf). rewrite NS.
  exact (transm_turn inv er n cf sw IO BN (proj1 (proj1 CD)) CD NS false s LN TR TJ SC CR AN S5 ltac:(discriminate) LL SJ LC SH).
Qed.
Print Assumptions C126_solved_partial.

Section Run.
  Variables (inv : list (list Qc) -> option (list (list Qc))) (er : pyerr).
  Hypothesis IO : inv_ok inv.
  Variables (n nu nl : nat) (i : input) (sw : nat -> bool).
  Hypothesis IN : input_ok n nu nl i. Hypothesis JA : joined_areas n i. Hypothesis CD : line_cards (i_h i). Hypothesis NS : x_NLS (i_h i) = false.
  Hypothesis RS : reference_served n nu nl i.
  Notation i' := (with_lines_turned sw i).
  Lemma run_turn fuel : narp inv (refuse er) fuel i' = narp inv (refuse er) fuel i.
  Proof using All.
    unfold narp. change (i_units i') with (i_units i). assert (EL : i_lines i' = i_lines i) by (unfold i_lines; cbn [with_lines_turned i_h turn_lines x_LP]; apply turn_len). rewrite EL.
    change (loop_cfg i') with (loop_cfg i). 
    destruct (seeder _ _ _) as [[IG IL]|] eqn:SD; cbn [bind fst snd]; [|reflexivity]. f_equal. symmetry. replace (first_world i' IG IL) with (first_world i IG IL) by (unfold first_world, first_net; rewrite EL; reflexivity).
    assert (UN : i_units i = nu) by (apply (n_units n nu nl i IN)). assert (LI : i_lines i = nl).
    { unfold i_lines. exact (in_lp _ _ _ _ IN). }
    rewrite UN, LI in SD. rewrite UN.
    apply (contrl_same (program inv (refuse er) i) (program inv (refuse er) i') (loop_cfg i) (in_step _ _ _ _ IN) ltac:(reflexivity) (start (loop_cfg i) nu (first_world i IG IL))) with (lg := []) (a := 0%nat) (b := 0%nat) (c := 0%nat) (d := 0%nat);
      [|constructor|apply start_inv, (in_step _ _ _ _ IN)].
    intros lg s a b c d T I.
    destruct (generic_trace inv (refuse er) n nu nl i IN (kept_net n i) (fun _ _ _ _ => True) (kept_first n i JA) (hour_kept inv er n nu nl i IN) IG IL lg s a b c d SD T) as (R & l & P & KN & _).
    cbn [program h_hour]. unfold do_hour.
    change (fst (draw_event (c_JSTEP (loop_cfg i)) (S a))) with (on (x_JSTEP (i_h i) * Z.of_nat (S a))).
    change (i_h i') with (turn_lines sw (i_h i)).
    rewrite (hour_turn n nu nl i sw IN JA CD NS RS inv er IO (S a) ltac:(lia) (s_plndst s) (s_rating s) (w_h (s_w s))); [reflexivity| | | | |].
    - exact (pi_ok _ _ _ _ _ _ _ _ _ _ _ _ P).
    - exact KN.
    - exact (pi_pl _ _ _ _ _ _ _ _ _ _ _ _ P).
    - exact (pi_rt _ _ _ _ _ _ _ _ _ _ _ _ P).
    - intros v Hv. rewrite Nat.sub_1_r. cbn [Nat.pred]. now apply (pi_il _ _ _ _ _ _ _ _ _ _ _ _ P).
  Qed.
End Run.

(** The whole run with loss sharing, up to the first hour that needs the linear program:
    the same result: events, data of every moment (the matrices included), end. *)
Theorem C126_run_partial : forall inv er n nu nl i sw fuel, inv_ok inv -> input_ok n nu nl i -> joined_areas n i -> line_cards (i_h i) -> x_NLS (i_h i) = false ->
  reference_served n nu nl i -> narp inv (refuse er) fuel (with_lines_turned sw i) = narp inv (refuse er) fuel i.
Proof. intros inv er n nu nl i sw fuel IO IN JA CD NS RS. exact (run_turn inv er IO n nu nl i sw IN JA CD NS RS fuel). Qed.
Print Assumptions C126_run_partial.
(** And the same report. *)
Theorem C126_same_report : forall i sw SU w, printed_report (with_lines_turned sw i) SU w = printed_report i SU w.
Proof. intros. reflexivity. Qed.
Print Assumptions C126_same_report.

(** With ample limits (C124), whatever the linear program would do and with or without
    loss sharing: one solution ... *)
Theorem C126_ample_solved : forall inv lp n cf sw IFLAG s LN TR TJ SC CR, inv_ok inv -> base_net n cf -> line_cards cf ->
  areas_numbered n (n_BN s) -> shape n 5 (n_BN s) -> (IFLAG = true -> settled inv (x_LP cf) (x_BLPA cf) (x_NR cf) s) ->
  length LN = length (x_LP cf) -> still_joined n cf LN -> length CR = n ->
  (x_NLS cf = false -> qsum CR <> q0 /\ forall j, (j < n)%nat -> (q0 <= vget CR j)%Qc) ->
  wide_limits n cf (n_BN s) LN (qs n (fun j => Qcplus (qabs (Qcplus (vget TR j) (vget TJ j))) (qabs (Qcminus (vget SC j) (vget CR j))))) ->
  let answer c := transm inv lp IFLAG s (x_BLPA c) (x_LP c) (x_NR c) (repeat [q1; q1] (length LN)) LN (x_NLS c) TR TJ SC CR in
  match answer cf with
  | Err e => answer (turn_lines sw cf) = Err e
  | Ok (JFLAG, FLOW, SADJ, s1) => exists FLOW', answer (turn_lines sw cf) = Ok (JFLAG, FLOW', SADJ, s1) /\
      forall k, (k < length (x_LP cf))%nat -> vget FLOW k = if sw k then Qcopp (vget FLOW' k) else vget FLOW' k
  end.
Proof.
  intros inv lp n cf sw IFLAG s LN TR TJ SC CR IO BN CD AN S5 SE LL SJ LC SH W answer. unfold answer. change (x_NR (turn_lines sw cf)) with (x_NR cf). change (x_NLS (turn_lines sw cf)) with (x_NLS cf).
  rewrite (proj1 (C124_solved inv n cf IFLAG s LN TR TJ SC CR IO BN (proj1 (proj1 CD)) AN S5 SE LL SJ LC SH W) lp (refuse KeyError)).
  exact (transm_ample inv KeyError n cf sw IO BN (proj1 (proj1 CD)) CD lp IFLAG s LN TR TJ SC CR AN S5 SE LL SJ LC SH W).
Qed.
Print Assumptions C126_ample_solved.
(** ... and the whole run: the events, the data of every moment, the end. *)
Theorem C126_ample_run : forall inv lp lp' n nu nl i sw fuel, inv_ok inv -> input_ok n nu nl i -> joined_areas n i -> ample n nu nl i -> line_cards (i_h i) ->
  narp inv lp fuel (with_lines_turned sw i) = narp inv lp' fuel i.
Proof.
  intros inv lp lp' n nu nl i sw fuel IO IN JA AM CD. rewrite (run_ample inv KeyError IO n nu nl i sw IN JA AM CD lp fuel).
  rewrite (C124_run inv lp' (refuse KeyError) n nu nl i fuel IO IN JA AM). reflexivity.
Qed.
Print Assumptions C126_ample_run.

(** *** Refuted without loss sharing: the scheduled flow is added to the limits of both end
    areas with the same sign (transm.py 115-118).  Area 1 owns 20 MW in area 0; area 2 is
    25 MW short; an area can send or take 25 MW.  3 MW are lost, but nothing with the same
    lines written in the other direction. *)
Definition own_study : hcfg := let c := t_study 0 in
  mkHcfg (x_JSTEP c) (x_JFREQ c) (x_NFCST c) (x_MXPLHR c) (x_PROBG c) (x_DERATE c) [[qq 4 5; q0; q0]; [qq 1 5; q1; q0]; [q0; q0; q1]] (x_CAPCON c) (x_PROBL c) (x_JENT c) (x_INTCH c) (x_HRLOAD c) (x_FCTERR c) (x_LINENO c)
    (repeat (two_lines (-1) 90) 3) t_LP 0 true.
Definition own_state : hst := mkHst [1; 3; 5; 7] [7; 7; 7] (mkNet (map (fun i => [qz i; q0; q0; qz 25; qz 25]) [0; 1; 2]) [] [] [] []) [0; 0; 0] (zero_stat 3 5) (zero_stat 3 5).
Definition own_hour (cf : hcfg) := hour t_inv (lp_nls 60 (x_LP cf) [1; 2; 0]%nat 0) cf (on 8) [q1; q1; q1] [qz 100; qz 40; qz 25] own_state.
Theorem C126_no_sharing_refuted : line_cards own_study /\ x_NLS own_study = true /\
  map (fun d => lost (own_hour (turn_lines (fun _ => d) own_study))) [false; true] = [Ok (1, [0; 0; 3], 3); Ok (0, [0; 0; 0], 0)] /\
  lost (own_hour own_study) = Ok (1, [0; 0; 3], 3).
Proof.
  split; [|split; [reflexivity|vm_compute; split; reflexivity]]. split.
  - split; [reflexivity|]. intros [|[|[|j]]] H; try reflexivity. cbn in H. lia.
  - intros v c Hv Hc. apply qleb_iff. do 3 (destruct v as [|v]; [do 18 (destruct c as [|c]; [try reflexivity; exfalso; apply Hc; reflexivity|]); unfold mget; rewrite (nth_overflow _ q0); [reflexivity|cbn; lia]|]). cbn in Hv. lia.
Qed.
Print Assumptions C126_no_sharing_refuted.

(** *** Witness: the study of C123 with loss sharing: the same run with the line written
    from area 0 to 1 or from 1 to 0; its flow has the other sign. *)
Lemma shared_served : reference_served 2 2 1 shared_input.
Proof.
  intros k LN Hk HL.
  assert (V : forall v, (v < 1)%nat -> state_adm (x_BLPA (i_h shared_input)) LN v = qz (-1)).
  { intros v Hv. destruct HL as (IL & L & _ & ->). destruct v; [|lia]. cbn [shared_input demo_input i_h x_PROBL]. destruct IL as [|s IL]; [cbn in L; lia|]. cbn [lstate snd].
    set (r := rand_of (next_seed s 65539)). unfold state_adm, state_base. change (zget [line_state r [q1; q1; q1; q1; q1; q1]] 0) with (line_state r [q1; q1; q1; q1; q1; q1]).
    pose proof (line_state_range r [q1; q1; q1; q1; q1; q1]) as R. set (z := line_state r [q1; q1; q1; q1; q1; q1]) in *. clearbody z.
    assert (C : z = 1 \/ z = 2 \/ z = 3 \/ z = 4 \/ z = 5 \/ z = 6) by lia.
    destruct C as [-> | [-> | [-> | [-> | [-> | ->]]]]]; reflexivity. }
  constructor.
  - intros v Hv. cbn in Hv. rewrite V by exact Hv. apply qleb_iff; vm_compute; reflexivity.
  - intros v Hv _ Z0. cbn in Hv. rewrite V in Z0 by exact Hv. discriminate Z0.
  - assert (E : map (state_adm (x_BLPA (i_h shared_input)) LN) (seq 0 (length (x_LP (i_h shared_input)))) = mcol (x_BLPA (i_h shared_input)) 0).
    { change (seq 0 (length (x_LP (i_h shared_input)))) with [0%nat]. unfold map at 1. rewrite V by lia. reflexivity. }
    rewrite E. exact (bn_conn _ _ (ja_net _ _ (proj1 (proj2 (proj2 even_joined))))).
Qed.
Example C126_witness : inv_ok (checked_inv [[qz (-1)]]) /\ input_ok 2 2 1 shared_input /\ joined_areas 2 shared_input /\ line_cards (i_h shared_input) /\ x_NLS (i_h shared_input) = false /\
  reference_served 2 2 1 shared_input /\ x_LP (i_h shared_input) = [(0, 1)]%nat /\ x_LP (i_h (with_lines_turned (fun _ => true) shared_input)) = [(1, 0)]%nat /\
  plate_shown (with_lines_turned (fun _ => true) shared_input) = plate_shown shared_input /\
  plate_shown shared_input = Some (8%nat, 2%nat, [(8, 32); (8, 32)]) /\
  (let flows i := match transm (checked_inv [[qz (-1)]]) (refuse KeyError) false (first_net i) (x_BLPA (i_h i)) (x_LP (i_h i)) 1 [[q1; q1]] [1] false [q0; q0] [q0; q0] [qz 100; qz 50] [qz 110; qz 45] with
     | Ok (_, F, _, _) => F | Err _ => [] end in
   flows shared_input <> [q0] /\ map Qcopp (flows shared_input) = flows (with_lines_turned (fun _ => true) shared_input)).
Proof.
  split; [apply checked_inv_ok|]. split; [destruct (demo_input_ok_any 110 45); constructor; auto; destruct in_study; constructor; auto|].
  split; [apply even_joined|]. split.
  { split; [split; [reflexivity|intros [|j] H; [reflexivity|cbn in H; lia]]|]. intros v c Hv Hc. apply qleb_iff. destruct v as [|v]; [|cbn in Hv; lia].
    do 18 (destruct c as [|c]; [try reflexivity; exfalso; apply Hc; reflexivity|]). unfold mget. rewrite (nth_overflow _ q0); [reflexivity|cbn; lia]. }
  split; [reflexivity|]. split; [exact shared_served|]. split; [reflexivity|]. split; [reflexivity|].
  split; [vm_compute; reflexivity|]. split; [vm_compute; reflexivity|]. split; [vm_compute; discriminate|vm_compute; reflexivity].
Qed.

(** *** Witness: the study of C124 (a line of 400 MW) with and without loss sharing: the
    same runs with the line turned. *)
Definition without_sharing (i : input) : input := let c := i_h i in
  mkInput (mkHcfg (x_JSTEP c) (x_JFREQ c) (x_NFCST c) (x_MXPLHR c) (x_PROBG c) (x_DERATE c) (x_CAPOWN c) (x_CAPCON c)
    (x_PROBL c) (x_JENT c) (x_INTCH c) (x_HRLOAD c) (x_FCTERR c) (x_LINENO c) (x_BLPA c) (x_LP c) (x_NR c) true) (i_RATES i) (i_JPLOUT i) (i_BN i) (i_years i) (i_NORR i) (i_MAXEUE i) (i_CVTEST i) (i_INTV i) (i_IOJ i)
    (i_KWHERE i) (i_KVWHEN i) (i_KVSTAT i) (i_KVTYPE i) (i_KVLOC i) (i_ITAB i).
Example C126_ample_witness : forall i, i = wide_input \/ i = without_sharing wide_input ->
  inv_ok (checked_inv [[qz (-1)]]) /\ input_ok 2 2 1 i /\ joined_areas 2 i /\ ample 2 2 1 i /\ line_cards (i_h i) /\
  x_LP (i_h (with_lines_turned (fun _ => true) i)) = [(1, 0)]%nat /\
  run_shown (narp (checked_inv [[qz (-1)]]) still_lp 200 (with_lines_turned (fun _ => true) i)) = run_shown (narp (checked_inv [[qz (-1)]]) (refuse KeyError) 200 i) /\
  run_shown (narp (checked_inv [[qz (-1)]]) (refuse KeyError) 200 i) = Some (8%nat, 2%nat, Ok true, [(1, false); (2, true)]).
Proof.
  intros i Hi. split; [apply checked_inv_ok|]. split; [destruct Hi as [-> | ->]; destruct (demo_input_ok_any 110 45); constructor; auto; destruct in_study; constructor; auto|].
  split; [destruct Hi as [-> | ->]; [exact (proj1 wide_joined)|destruct wide_joined as ([J1 J2 J3 J4 J5] & _); constructor; [exact J1|exact J2|destruct J3 as [B1 B2 B3 B4 B5]; constructor; assumption|exact J4|intros EN; discriminate EN]]|].
  split.
  { destruct Hi as [-> | ->]; [exact wide_ample|]. destruct wide_ample as [A1 A2 A3 A4]. constructor; [exact A1|exact A2| |].
    - intros k LN Hk HL. destruct (A3 k LN Hk HL) as [B1 B2 B3]. constructor; assumption.
    - intros k l AV LN Hk Hl CA HL. exact (A4 k l AV LN Hk Hl CA HL). }
  split.
  { split; [destruct Hi as [-> | ->]; split; try reflexivity; intros [|j] H; try reflexivity; cbn in H; lia|]. intros v c Hv Hc.
    assert (EB : x_BLPA (i_h i) = [two_lines (-1) 400]) by (destruct Hi as [-> | ->]; reflexivity). assert (EV : (v < 1)%nat) by (destruct Hi as [-> | ->]; exact Hv).
    rewrite EB. apply qleb_iff. destruct v as [|v]; [|lia].
    do 18 (destruct c as [|c]; [try reflexivity; exfalso; apply Hc; reflexivity|]). unfold mget. rewrite (nth_overflow _ q0); [reflexivity|cbn; lia]. }
  split; [destruct Hi as [-> | ->]; reflexivity|].
  destruct Hi as [-> | ->]; vm_compute; split; reflexivity.
Qed.
