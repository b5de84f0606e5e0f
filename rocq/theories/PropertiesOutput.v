(** C106: output options do not influence the results. *)
From Verif Require Import Base BaseProofs EventModel EventSpec StatModel YearModel HourModel HourSpec ControlModel ControlSpec ControlProofs ReportModel SampleModel ProgramModel ProgramSpec OutputSpec OutputProofs
  PropertiesNet PropertiesHour PropertiesProgram.
Open Scope Z_scope.

Lemma same_entries (l l' : list (event * lst world)) : Forall2 (entry same_data) l l' -> Forall2 same_entry l l'.
Proof. intros F. induction F as [|x x' l l' (E1 & w' & E2 & E3) F IH]; constructor; [|exact IH]. split; [exact E1|]. exists w'. split; [exact E2|exact E3]. Qed.

(** ** C106.  Take a study without annual printing (or with daily draws) and the same
    study with any other checkpoint interval [intv], printing option [ioj] and first table
    number [itab].  The second run delivers the same events, with the same states up to the
    checkpoint bookkeeping, and ends the same way.  The only exception is the failure of
    the annual printing described in C62: the second run may stop earlier with it, if it
    prints and its draws are not daily; it agrees with the first until then. *)
Theorem C106_output_options : forall inv lp fuel i intv ioj itab lg o,
  (i_IOJ i = 0 \/ x_JSTEP (i_h i) = 24) -> narp inv lp fuel i = Ok (lg, o) ->
  exists lg' o', narp inv lp fuel (with_output i intv ioj itab) = Ok (lg', o') /\
    ((Forall2 same_entry lg lg' /\ o' = o) \/
     (ioj <> 0 /\ x_JSTEP (i_h i) <> 24 /\ o' = Some (Failed UnboundLocalError) /\
      exists lg1 lg2, lg = lg1 ++ lg2 /\ Forall2 same_entry lg1 lg')).
Proof.
  intros inv lp fuel i intv ioj itab lg o NP E. unfold narp in *. set (i' := with_output i intv ioj itab).
  change (i_units i') with (i_units i). change (i_lines i') with (i_lines i).
  destruct (seeder _ _ _) as [sd|]; cbn [bind] in *; [|discriminate]. injection E as E.
  change (start (loop_cfg i') (i_units i) (first_world i' (fst sd) (snd sd)))
    with (put (start (loop_cfg i) (i_units i) (first_world i (fst sd) (snd sd))) (first_world i' (fst sd) (snd sd))).
  assert (R0 : same_data (s_w (start (loop_cfg i) (i_units i) (first_world i (fst sd) (snd sd)))) (first_world i' (fst sd) (snd sd))).
  { constructor; [reflexivity| |constructor]. exists intv, itab. reflexivity. }
  destruct (contrl_sim (program inv lp i) (program inv lp i') (loop_cfg i) (loop_cfg i') same_data UnboundLocalError (ioj <> 0 /\ x_JSTEP (i_h i) <> 24) eq_refl
      (hour_out inv lp i intv ioj itab) (year_out inv lp i intv ioj itab NP) fuel _ _ lg o R0 E) as (lg' & o' & E' & [(F & ->)|((D1 & D2) & l1 & l2 & -> & F & ->)]).
  - exists lg', o. rewrite E'. split; [reflexivity|]. left. split; [now apply same_entries|reflexivity].
  - exists lg', (Some (Failed UnboundLocalError)). rewrite E'. split; [reflexivity|]. right. split; [exact D1|]. split; [exact D2|]. split; [reflexivity|].
    exists l1, l2. split; [reflexivity|now apply same_entries].
Qed.
Print Assumptions C106_output_options.

(** The report printed from the same data is the same, table numbers apart. *)
Theorem C106_same_report : forall i intv ioj itab SU w w', same_data w w' ->
  same_report (printed_report i SU w) (printed_report (with_output i intv ioj itab) SU w').
Proof.
  intros i intv ioj itab SU w w' [_ (vt & tb & S2) S3]. unfold printed_report.
  assert (FR : Forall2 same_shown (rev (w_out w)) (rev (w_out w'))).
  { induction S3 as [|x x' l l' SX F IH]; cbn; [constructor|]. apply Forall2_app; [exact IH|constructor; [exact SX|constructor]]. }
  destruct FR as [|x x' l l' (E1 & E2 & E3 & _ & E5) F]; [exact I|]. rewrite S2. cbn [y_HL y_DP y_EU y_XA y_XP y_ITAB]. rewrite E1, E2, E3, E5.
  destruct (o_report x); [|exact I]. change (x_NFCST (i_h (with_output i intv ioj itab))) with (x_NFCST (i_h i)). unfold report.
  destruct (pool_row _ _ _) as [pr|er]; cbn [bind same_report]; [|reflexivity]. eexists. cbn [r_area_level r_area_avg r_pool_level r_pool_avg r_devA2 r_devP2 r_sustat r_pctA2 r_pctP2 r_PHL r_PDP r_PEUE]. reflexivity.
Qed.
Print Assumptions C106_same_report.

(** The two-year study without printing, and with checkpoints every year and tables
    numbered from 7; and with annual printing. *)
Example C106_witness : i_IOJ (demo_input 110 80) = 0 /\
  run_shown demo_run = Some (8%nat, 2%nat, Ok true, [(1, false); (2, true)]) /\
  run_shown (narp (checked_inv [[qz (-1)]]) no_lp 200 (with_output (demo_input 110 80) 1 0 7)) = Some (8%nat, 2%nat, Ok true, [(1, false); (2, true)]) /\
  run_shown (narp (checked_inv [[qz (-1)]]) no_lp 200 (with_output (demo_input 110 80) 1 1 7)) = Some (8%nat, 2%nat, Ok true, [(1, false); (2, true)]).
Proof. split; [reflexivity|]. split; [exact C65_witness|]. split; vm_compute; reflexivity. Qed.
