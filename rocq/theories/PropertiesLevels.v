(** Property theorems of C120: without load forecast uncertainty all forecast levels agree. *)
From Verif Require Import Base BaseProofs Sums LoadModel LoadSpec StatModel StatSpec YearModel YearSpec YearProofs YearRun ReportSpec SampleModel NetModel NetSpec EventModel ControlModel ControlSpec ControlProofs RunProofs
  HourModel HourSpec HourProofs CauseSpec LpModel LpNet ProgramModel ProgramSpec ProgramProofs HistorySpec HistoryProofs PropertiesNet PropertiesHour PropertiesYear PropertiesProgram PropertiesMono PropertiesHistory PropertiesCause CertainSpec CertainProofs PropertiesCertain LevelsSpec LevelsProofs.
Open Scope Z_scope.

(** [refuse er] is a linear-programming branch that is never willing to work.  What a
    program with such a branch does is what the program does with any branch: the log of
    its run is the beginning of the log of the run.  It ends where the branch is needed. *)
Theorem C120_uncongested : forall inv lp er fuel i lg o, narp inv (refuse er) fuel i = Ok (lg, o) -> exists post o', narp inv lp fuel i = Ok (lg ++ post, o').
Proof.
  intros inv lp er fuel i lg o. unfold narp. destruct (seeder _ _ _) as [sd|]; cbn [bind]; [|discriminate]. intros E. apply ok_inj in E.
  destruct (run_any inv lp er i fuel (start (loop_cfg i) (i_units i) (first_world i (fst sd) (snd sd)))) as (post & o' & H). rewrite E in H. cbn [fst] in H. exists post, o'. now rewrite H.
Qed.
Print Assumptions C120_uncongested.

(** An hour in which the network solution without the linear program does: everything it
    counts - for each area and for the pool, hours and energy, over all hours or at the
    peaks, by cause - it counts alike at all levels. *)
Theorem C120_hour_partial : forall inv er n nu nl cf t PL RT s s', inv_ok inv -> study n nu nl cf -> base_net n cf -> length (x_BLPA cf) = length (x_LP cf) -> no_uncertainty cf ->
  1 <= t -> hst_ok n nu nl s -> length PL = nu -> length RT = nu ->
  areas_numbered n (n_BN (hnet s)) -> wide (n_BN (hnet s)) -> equal_limits (n_BN (hnet s)) ->
  hour inv (refuse er) cf (on t) PL RT s = Ok s' ->
  (forall lp, hour inv lp cf (on t) PL RT s = Ok s') /\
  forall pl wn wt c, valid_place n pl -> exists g, forall k, (k < x_NFCST cf)%nat -> part pl wn wt c k (hrs s', pks s') = part pl wn wt c k (hrs s, pks s) + g.
Proof.
  intros inv er n nu nl cf t PL RT s s' IO ST BN LB NU Ht HS LP LR AN W EQ E. split; [intros lp; exact (hour_any inv lp er _ _ _ _ _ _ E)|].
  exact (hour_uniform n nu nl cf ST inv er IO BN LB NU t PL RT s s' Ht HS LP LR AN W EQ E).
Qed.
Print Assumptions C120_hour_partial.

(** Whole runs, up to the first hour that needs the linear program: at every moment the
    statistics counted so far, and those of every year that has ended, are the same at
    all levels (for the pool, and for the areas whose levels are treated alike at a year
    end).  [years] are the years whose ends have been run. *)
Theorem C120_run_partial : forall inv er n nu nl i fuel pre e s post o, inv_ok inv -> input_ok n nu nl i -> plain_areas n i -> no_uncertainty (i_h i) ->
  narp inv (refuse er) fuel i = Ok (pre ++ (e, s) :: post, o) ->
  levels_equal n (x_NFCST (i_h i)) (hrs (w_h (s_w s)), pks (w_h (s_w s))) /\
  exists years, run_years (year_cfg i) n 0 (start_year n (i_INTV i) (i_ITAB i)) years = Ok (w_y (s_w s), w_out (s_w s)) /\
    length years = n_years (pre ++ [(e, s)]) /\ Forall (annual_ok n) years /\ Forall (levels_equal n (x_NFCST (i_h i))) years.
Proof.
  intros inv er n nu nl i fuel pre e s post o IO IN PA NU E. change (pre ++ (e, s) :: post) with (pre ++ [(e, s)] ++ post) in E. rewrite app_assoc in E.
  destruct (narp_at inv (refuse er) (refuse_areas er) n nu nl i IN fuel _ post o E) as (IG & IL & s1 & a & b & c & d & R & l & f1 & SD & T & _ & _ & A & D & FS & _).
  unfold final_state in FS. rewrite map_app in FS. cbn [map] in FS. rewrite last_last in FS. cbn [snd] in FS. subst s1.
  destruct (levels_trace inv er n nu nl i IO IN PA NU IG IL _ s a b c d SD T) as (l' & [C1 C2 C3 C4 C5 C6]). split; [exact C2|]. exists l'. rewrite C4. repeat split; auto.
Qed.
Print Assumptions C120_run_partial.

(** Hence the totals over the years are the same at all levels ... *)
Theorem C120_totals_partial : forall inv er n nu nl i fuel pre e s post o, inv_ok inv -> input_ok n nu nl i -> plain_areas n i -> no_uncertainty (i_h i) ->
  narp inv (refuse er) fuel i = Ok (pre ++ (e, s) :: post, o) ->
  forall pl wn wt c k, valid_place n pl -> even_place n (x_NFCST (i_h i)) pl -> (k < x_NFCST (i_h i))%nat ->
    summed pl wn wt c k (w_y (s_w s)) = summed pl wn wt c 0 (w_y (s_w s)).
Proof.
  intros inv er n nu nl i fuel pre e s post o IO IN PA NU E pl wn wt c k VP EV Hk.
  destruct (C120_run_partial inv er n nu nl i fuel pre e s post o IO IN PA NU E) as (_ & l & RY & _ & FA & LE).
  pose proof (total_of n i l _ pl wn wt c k (in_levels _ _ _ _ IN) FA RY VP Hk) as T. pose proof (total_of n i l _ pl wn wt c 0 (in_levels _ _ _ _ IN) FA RY VP ltac:(lia)) as T0. cbn [fst] in T, T0. rewrite T, T0.
  unfold ysum. f_equal. apply map_ext_in. intros a Ha. rewrite Forall_forall in LE. now apply (LE a Ha).
Qed.
Print Assumptions C120_totals_partial.

(** ... and the value of a year weighted with the probabilities of the levels is the one
    without forecast error: the weights add up to 1. *)
Lemma expected_same NF NO f : levels_ok NF NO -> (forall k, (k < NF)%nat -> f k = f 0%nat) -> expected NF f = qz (f NO).
Proof.
  intros HL H. assert (EX : expected NF f = qs NF (fun k => (level_weight NF k * qz (f 0%nat))%Qc)) by (unfold expected; apply qs_ext; intros k Hk; now rewrite H).
  rewrite EX. assert (N0 : f NO = f 0%nat) by (apply H; destruct HL as [(-> & ->)|(-> & ->)]; lia). rewrite N0. destruct HL as [(-> & _)|(-> & _)]; unfold qs, level_weight; cbn [seq map fold_right]; unfold qsum; cbn [fold_right].
  - qring.
  - set (x := qz (f 0%nat)). clearbody x. assert (W : (qq 668 10000 + (qq 2417 10000 + (qq 383 1000 + (qq 2417 10000 + qq 668 10000))) = q1)%Qc) by (apply Qc_is_canon; vm_compute; reflexivity).
    transitivity ((qq 668 10000 + (qq 2417 10000 + (qq 383 1000 + (qq 2417 10000 + qq 668 10000)))) * x)%Qc; [qring|]. rewrite W. qring.
Qed.
Theorem C120_weighted_partial : forall inv er n nu nl i fuel pre e s post o, inv_ok inv -> input_ok n nu nl i -> plain_areas n i -> no_uncertainty (i_h i) ->
  narp inv (refuse er) fuel i = Ok (pre ++ (e, s) :: post, o) ->
  exists years, run_years (year_cfg i) n 0 (start_year n (i_INTV i) (i_ITAB i)) years = Ok (w_y (s_w s), w_out (s_w s)) /\
    length years = n_years (pre ++ [(e, s)]) /\
    forall a pl wn wt, In a years -> valid_place n pl -> even_place n (x_NFCST (i_h i)) pl ->
      annual_value (x_NFCST (i_h i)) (i_NORR i) pl wn wt Weighted a = annual_value (x_NFCST (i_h i)) (i_NORR i) pl wn wt Central a.
Proof.
  intros inv er n nu nl i fuel pre e s post o IO IN PA NU E.
  destruct (C120_run_partial inv er n nu nl i fuel pre e s post o IO IN PA NU E) as (_ & l & RY & LL & FA & LE). exists l. split; [exact RY|]. split; [exact LL|].
  intros a pl wn wt Ha VP EV. rewrite Forall_forall in LE. specialize (LE a Ha).
  assert (AV : forall b, annual_value (x_NFCST (i_h i)) (i_NORR i) pl wn wt b a = match b with Weighted => expected (x_NFCST (i_h i)) (fun k => part pl wn wt Both k a) | Central => qz (part pl wn wt Both (i_NORR i) a) end)
    by (intros b; destruct b, pl, wn, wt; reflexivity).
  rewrite !AV. apply (expected_same _ _ (fun k => part pl wn wt Both k a) (in_levels _ _ _ _ IN)). intros k Hk. now apply LE.
Qed.
Print Assumptions C120_weighted_partial.

(** Refuted when the linear program is needed (consequence of C32): three areas without
    forecast uncertainty; at the first level the linear program finds a loss of 4 MW, at
    the other four the flows are computed from the matrix in the place of its inverse and
    nothing is lost. *)
Theorem C120_congested_refuted : no_uncertainty (lv_study 5 q1 q1) /\ equal_limits (n_BN (hnet t_state)) /\
  map (fun k => lost_at k (lv_hour 5 q1 q1)) [0; 1; 2; 3; 4]%nat = Ok (1, [0; 0; 4]) :: repeat (Ok (0, [0; 0; 0])) 4.
Proof.
  split; [|split].
  - intros j l Hj Hl. cbn [lv_study x_FCTERR x_NFCST] in *. rewrite repeat_length in Hj. unfold mget. rewrite (nth_indep _ [] [q1; q1; q1; q1; q1]), nth_repeat by (rewrite repeat_length; exact Hj).
    do 5 (destruct l as [|l]; [reflexivity|]). lia.
  - intros [|[|[|j]]] Hj; (reflexivity || (cbn in Hj; lia)).
  - vm_compute. reflexivity.
Qed.
Print Assumptions C120_congested_refuted.

Lemma demo_base_net l0 l1 : base_net 2 (i_h (demo_input l0 l1)).
Proof. destruct C101_witness_report as (_ & B & _). destruct B. constructor; auto. Qed.
Lemma certain_base_net : base_net 2 (i_h certain_input).
Proof. destruct (demo_base_net 110 80). constructor; auto. Qed.

(** Refuted for the areas whose levels are not cleared alike at a year end (C41): the
    study of C114, in which every hour is the same: after two years area 0 has 10 hours of
    loss at levels 0 and 1 and 15 at the others. *)
Theorem C120_area_levels_refuted : exists s, no_uncertainty (i_h certain_input) /\ input_ok 2 2 1 certain_input /\ plain_areas 2 certain_input /\
  (exists lg o, narp (checked_inv [[qz (-1)]]) no_lp 200 certain_input = Ok (lg, o) /\ In s (map snd lg)) /\
  map (fun k => summed (Area 0) Hourly LOLE Both k (w_y (s_w s))) [0; 1; 2; 3; 4]%nat = [10; 10; 15; 15; 15] /\
  map (fun k => summed Pool Hourly LOLE Both k (w_y (s_w s))) [0; 1; 2; 3; 4]%nat = [10; 10; 10; 10; 10].
Proof.
  set (sh := fun (r : res (log world * option (outcome world))) => match r with
    | Ok (lg, _) => match rev lg with x :: _ => Some (map (fun k => summed (Area 0) Hourly LOLE Both k (w_y (s_w (snd x)))) [0; 1; 2; 3; 4]%nat, map (fun k => summed Pool Hourly LOLE Both k (w_y (s_w (snd x)))) [0; 1; 2; 3; 4]%nat) | [] => None end
    | Err _ => None end).
  assert (SH : sh (narp (checked_inv [[qz (-1)]]) no_lp 200 certain_input) = Some ([10; 10; 15; 15; 15], [10; 10; 10; 10; 10])) by (vm_compute; reflexivity).
  unfold sh in SH. clear sh. destruct (narp _ _ _ certain_input) as [[lg o]|]; cbv beta iota in SH; [|discriminate SH]. match type of SH with match ?a with _ => _ end = _ => destruct a as [|x r] eqn:ER end; [discriminate SH|]. injection SH as S1 S2 S3 S4 S5 S6 S7 S8 S9 S10.
  exists (snd x). split; [|split; [|split; [|split]]].
  - intros [|[|j]] l Hj Hl; [| |cbn in Hj; lia]; (do 5 (destruct l as [|l]; [reflexivity|])); cbn in Hl; lia.
  - exact certain_input_ok.
  - destruct certain_input_certain. constructor; auto; [|exact certain_base_net]. split; [reflexivity|intros [|[|j]] Hj; [reflexivity|reflexivity|lia]].
  - exists lg, o. split; [reflexivity|]. apply in_map. apply (proj2 (in_rev _ _)). match type of ER with ?a = _ => change (In x a) end. rewrite ER. now left.
  - unfold summed. cbn [map]. cbv zeta. rewrite S1, S2, S3, S4, S5, S6, S7, S8, S9, S10. split; reflexivity.
Qed.
Print Assumptions C120_area_levels_refuted.

(** *** Witness: area 0 is short of 10 MW, area 1 can send 5 over the line without the
    linear program; four draws a year, two years. *)
Lemma demo_sure l0 l1 : no_uncertainty (i_h (demo_input l0 l1)) /\ plain_areas 2 (demo_input l0 l1).
Proof.
  split.
  - intros [|[|j]] l Hj Hl; [| |cbn in Hj; lia]; (do 5 (destruct l as [|l]; [reflexivity|])); cbn in Hl; lia.
  - constructor; [split; [reflexivity|]|intros [|[|j]] Hj; cbn in Hj |- *; lia| |apply demo_base_net|reflexivity].
    + intros [|[|j]] Hj; [reflexivity|reflexivity|lia].
    + intros [|[|j]] Hj; cbn in Hj; (reflexivity || lia).
Qed.
Example C120_witness : inv_ok (checked_inv [[qz (-1)]]) /\ input_ok 2 2 1 (demo_input 110 45) /\ plain_areas 2 (demo_input 110 45) /\ no_uncertainty (i_h (demo_input 110 45)) /\
  match narp (checked_inv [[qz (-1)]]) (refuse KeyError) 200 (demo_input 110 45) with
  | Ok (lg, _) => match rev lg with x :: _ => Some (n_draws lg, n_years lg, map (fun k => (summed Pool Hourly LOLE Both k (w_y (s_w (snd x))), summed Pool Hourly EUE Both k (w_y (s_w (snd x))))) [0; 1; 2; 3; 4]%nat) | [] => None end
  | Err _ => None end = Some (8%nat, 2%nat, repeat (8, 40) 5).
Proof.
  split; [apply checked_inv_ok|]. split; [apply demo_input_ok_any|]. destruct (demo_sure 110 45) as (A & B). split; [exact B|]. split; [exact A|]. vm_compute. reflexivity.
Qed.
