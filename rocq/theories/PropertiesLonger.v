(** C105: a longer study continues a shorter one. *)
From Verif Require Import Base BaseProofs EventModel StatModel YearModel HourModel HourSpec ControlModel ControlSpec ControlProofs SampleModel ProgramModel ProgramSpec LongerSpec LongerProofs
  PropertiesNet PropertiesHour PropertiesProgram.
Open Scope Z_scope.

(** ** C105.  Take a run and the run of the same study with at least as many years and a
    convergence tolerance at most as large.  Either both are the same, event by event and
    to their end; or the first has come to its last year end (it stops there), and the
    second has passed through the same states before, has the same results at that year
    end, and may go on.  For any number [fuel] of iterations of the loop, any inversion
    and any linear-programming branch. *)
Theorem C105_longer_run : forall inv lp fuel n nu nl i years test lg o,
  input_ok n nu nl i -> 1 <= i_years i <= years -> (q0 <= test)%Qc -> (tolerance test <= tolerance (i_CVTEST i))%Qc ->
  narp inv lp fuel i = Ok (lg, o) ->
  exists lg' o', narp inv lp fuel (with_stop i years test) = Ok (lg', o') /\
    ((lg' = lg /\ o' = o) \/
     exists pre y s s' post, lg = pre ++ [(year_event y, s)] /\ lg' = pre ++ (year_event y, s') :: post /\
       same_results s s' /\ (o = None \/ o = Some Converged)).
Proof.
  intros inv lp fuel n nu nl i years test lg o IN HY HT HL E. unfold narp in *.
  change (i_units (with_stop i years test)) with (i_units i). change (i_lines (with_stop i years test)) with (i_lines i).
  destruct (seeder _ _ _) as [sd|]; cbn [bind] in *; [|discriminate]. injection E as E.
  change (start (loop_cfg (with_stop i years test)) (i_units i) (first_world (with_stop i years test) (fst sd) (snd sd)))
    with (start (loop_cfg i) (i_units i) (first_world i (fst sd) (snd sd))).
  set (s0 := start _ _ _) in *.
  destruct (run_longer inv lp i years test HY HT HL (in_step _ _ _ _ IN) fuel s0 0 0 0 0 lg o) as (lg' & o' & E' & D); auto.
  - apply (start_inv (loop_cfg i)). exact (in_step _ _ _ _ IN).
  - cbn. discriminate.
  - cbn. lia.
  - exists lg', o'. rewrite E'. auto.
Qed.
Print Assumptions C105_longer_run.

(** In particular for a study that ends with its report: what it reports on is what the
    longer run has accumulated at that year end. *)
Theorem C105_results_kept : forall inv lp fuel n nu nl i years test lg,
  input_ok n nu nl i -> 1 <= i_years i <= years -> (q0 <= test)%Qc -> (tolerance test <= tolerance (i_CVTEST i))%Qc -> keeps_areas lp ->
  narp inv lp fuel i = Ok (lg, Some Converged) ->
  exists lg' o' pre y s s' post, narp inv lp fuel (with_stop i years test) = Ok (lg', o') /\
    lg = pre ++ [(year_event y, s)] /\ lg' = pre ++ (year_event y, s') :: post /\
    y_ch (w_y (s_w s')) = y_ch (w_y (s_w s)) /\ y_cp (w_y (s_w s')) = y_cp (w_y (s_w s)) /\
    y_HL (w_y (s_w s')) = y_HL (w_y (s_w s)) /\ y_DP (w_y (s_w s')) = y_DP (w_y (s_w s)) /\ y_EU (w_y (s_w s')) = y_EU (w_y (s_w s)).
Proof.
  intros inv lp fuel n nu nl i years test lg IN HY HT HL KA E.
  destruct (C105_longer_run inv lp fuel n nu nl i years test lg _ IN HY HT HL E) as (lg' & o' & E' & [(-> & ->)|(pre & y & s & s' & post & L1 & L2 & [_ _ (S1 & S2) (S3 & S4 & S5) _ _ _] & _)]).
  - destruct (C65_one_report inv lp n nu nl i fuel lg Converged KA IN ltac:(lia) E ltac:(discriminate)) as (_ & pre & s & _ & _ & L1 & _).
    exists lg, (Some Converged), pre, (n_years lg), s, s, []. auto 9.
  - exists lg', o', pre, y, s, s', post. auto 9.
Qed.
Print Assumptions C105_results_kept.

(** A study of two years and the same with three: 8 and 12 draws; the second goes on
    after the second year end. *)
Example C105_witness : input_ok 2 2 1 (demo_input 110 80) /\ 1 <= i_years (demo_input 110 80) <= 3 /\
  (tolerance q0 <= tolerance (i_CVTEST (demo_input 110 80)))%Qc /\
  run_shown demo_run = Some (8%nat, 2%nat, Ok true, [(1, false); (2, true)]) /\
  run_shown (narp (checked_inv [[qz (-1)]]) no_lp 200 (with_stop (demo_input 110 80) 3 q0)) = Some (12%nat, 3%nat, Ok true, [(1, false); (2, false); (3, true)]).
Proof.
  split; [exact demo_input_ok|]. split; [cbn; lia|]. split; [apply qleb_iff; vm_compute; reflexivity|]. split; [exact C65_witness|]. vm_compute. reflexivity.
Qed.
