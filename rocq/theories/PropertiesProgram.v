(** Property theorems about whole runs of the program (C13, C40, C48, C50, C51 for
    runs; C64, C65).

    [narp inv lp fuel i = Ok (lg, o)]: the log of the delivered events, each with the
    state after it, and how the run ended ([None]: still running after [fuel] events).
    The matrix inversion [inv] and the linear-programming branch [lp] are arbitrary. *)
From Coq Require Import Permutation.
From Verif Require Import Base BaseProofs Sums LoadModel LoadSpec LoadProofs SampleModel SampleProofs NetModel StatModel StatSpec StatProofs
  EventModel EventSpec ControlModel ControlSpec ControlProofs RunProofs HourModel HourSpec HourProofs
  YearModel YearSpec YearProofs YearRun ReportModel ReportSpec ProgramModel ProgramSpec ProgramProofs
  PropertiesNet PropertiesHour PropertiesYear PropertiesReport.
Open Scope Z_scope.

(** number of delivered events of a kind *)
Notation n_draws lg := (length (of_kind 1 lg)).
Notation n_years lg := (length (of_kind 4 lg)).

Section Runs.
  Variables (inv : list (list Qc) -> option (list (list Qc)))
            (lp : list (list Qc) -> list (list Qc) -> list (list Qc) -> res (list Qc * list (list Qc))).
  Hypothesis KA : keeps_areas lp.
  Variables (n nu nl : nat) (i : input).
  Hypothesis IN : input_ok n nu nl i.

  Lemma trace_counts {W} (h : handlers W) cf s0 lg s a b c d : trace h cf s0 0 0 0 0 lg s a b c d ->
    length (of_kind 1 lg) = a /\ length (of_kind 4 lg) = d.
  Proof.
    intros T. remember 0%nat as z0 eqn:Z0 in T at 1. remember 0%nat as z1 eqn:Z1 in T at 1.
    remember 0%nat as z2 eqn:Z2 in T at 1. remember 0%nat as z3 eqn:Z3 in T at 1.
    induction T as [|s0 a0 b0 c0 d0 lg s1 a1 b1 c1 d1 e s2 a2 b2 c2 d2 T IH I ES RF LF LC EC FA ST].
    - subst. auto.
    - destruct IH as (A & B); auto. rewrite !of_kind_snoc, !app_length, A, B. cbn [fst].
      destruct ST; unfold draw_event, week_event, season_event, year_event; cbn [snd];
        repeat match goal with |- context [qeqb (qz ?x) (qz ?y)] => let v := eval vm_compute in (qeqb (qz x) (qz y)) in change (qeqb (qz x) (qz y)) with v end; cbn [length]; lia.
  Qed.

  (** the state of a run after any part [pre] of its log *)
  Lemma narp_at fuel pre post o : narp inv lp fuel i = Ok (pre ++ post, o) ->
    exists IG IL s a b c d R l f1, seeder JSEED nu nl = Ok (IG, IL) /\
      trace (program inv lp i) (loop_cfg i) (start (loop_cfg i) nu (first_world i IG IL)) 0 0 0 0 pre s a b c d /\
      ControlProofs.inv (x_JSTEP (i_h i)) s a b c d /\
      pinv inv lp n nu nl i pre s a d R l /\ a = n_draws pre /\ d = n_years pre /\
      s = final_state (start (loop_cfg i) nu (first_world i IG IL)) pre /\
      contrl f1 (program inv lp i) (loop_cfg i) s = (post, o).
  Proof.
    intros E. unfold narp in E. rewrite (n_units n nu nl i IN) in E. unfold i_lines in E. rewrite (in_lp _ _ _ _ IN) in E.
    destruct (seeder JSEED nu nl) as [[IG IL]|] eqn:SD; cbn [bind fst snd] in E; [|discriminate]. apply (f_equal (fun r => match r with Ok x => x | Err _ => ([], None) end)) in E. cbn iota in E.
    destruct (run_trace (program inv lp i) (loop_cfg i) nu (first_world i IG IL) fuel pre post o (in_step _ _ _ _ IN) E)
      as (s & a & b & c & d & f1 & T & I & C & _).
    destruct (program_trace inv lp KA n nu nl i IN IG IL pre s a b c d SD T) as (R & l & P).
    destruct (trace_counts _ _ _ _ _ _ _ _ _ T) as (A & D).
    exists IG, IL, s, a, b, c, d, R, l, f1. repeat (split; [first [reflexivity|eassumption|now symmetry]|]). split; [|exact C].
    clear - T. unfold final_state. apply trace_last in T. destruct T as [(-> & ->)|(lg' & e & -> & _)]; [reflexivity|].
    rewrite map_app. cbn [map]. now rewrite last_last.
  Qed.

End Runs.

(** C13 for runs.  After any part of a run, all seeds are determined by the number of
    draws delivered so far: each draw consumes exactly one number of every stream. *)
Theorem C13_program_streams : forall inv lp n nu nl i fuel pre e s post o, keeps_areas lp -> input_ok n nu nl i ->
  narp inv lp fuel i = Ok (pre ++ (e, s) :: post, o) ->
  (forall u, (u < nu)%nat -> nth u (IGSEED (w_h (s_w s))) 0 = (123456 * 9649599 ^ (Z.of_nat u + 1) * 65539 ^ Z.of_nat (n_draws (pre ++ [(e, s)]))) mod 2 ^ 31) /\
  (forall v, (v < nl)%nat -> nth v (ILSEED (w_h (s_w s))) 0 = (123456 * 9649599 ^ (Z.of_nat (nu + v) + 1) * 65539 ^ Z.of_nat (n_draws (pre ++ [(e, s)]))) mod 2 ^ 31).
Proof.
  intros inv lp n nu nl i fuel pre e s post o KA IN E.
  change (pre ++ (e, s) :: post) with (pre ++ [(e, s)] ++ post) in E. rewrite app_assoc in E.
  destruct (narp_at inv lp KA n nu nl i IN fuel _ post o E) as (IG & IL & s1 & a & b & c & d & R & l & f1 & _ & _ & _ & P & A & _ & FS & _).
  unfold final_state in FS. rewrite map_app in FS. cbn [map] in FS. rewrite last_last in FS. cbn [snd] in FS. subst s1.
  destruct P as [_ P2 P3 _ _ _ _ _ _ _ _ _ _]. rewrite <- A. split; [exact P2|exact P3].
Qed.
Print Assumptions C13_program_streams.

(** *** C64.  The statistics of a run are the losses of its draws. *)

(** the years' windows partition the draws *)
Lemma total_years i pl wn wt c k R : 1 <= x_JSTEP (i_h i) -> forall Y,
  zsum (map (fun y => total i pl wn wt c k R (draws_of_year i y)) (seq 0 Y)) = total i pl wn wt c k R (seq 1 (draws_upto i Y)).
Proof.
  intros HJ. induction Y as [|Y IH].
  - unfold draws_upto. cbn [seq map]. rewrite Z.mul_0_r, Z.div_0_l by lia. reflexivity.
  - rewrite seq_S, map_app, zsum_app, IH. cbn [map Nat.add]. rewrite zsum_cons. change (zsum []) with 0. unfold draws_of_year.
    rewrite (Nat.add_1_r Y).
    assert (LE : (draws_upto i Y <= draws_upto i (S Y))%nat).
    { unfold draws_upto. apply Z2Nat.inj_le; try apply Z.div_pos; try lia. apply Z.div_le_mono; lia. }
    replace (draws_upto i (S Y)) with (draws_upto i Y + (draws_upto i (S Y) - draws_upto i Y))%nat at 2 by lia.
    rewrite seq_app, total_app. rewrite Nat.add_1_r. cbn [Nat.add]. lia.
Qed.

(** After any part of a run there are records of all draws delivered so far (each the
    outcome of the states drawn, [draw_outcome]) and annual statistics of all years
    ended so far, such that
    - the accumulated statistics and everything the year ends showed are those of
      [run_years] on these annual statistics (the setting of C40-C48), and
    - every entry of year y's statistics that a year end clears is the total over
      the draws of year y; the pool's entries always are. *)
Theorem C64_annual_partial : forall inv lp n nu nl i fuel pre post o, keeps_areas lp -> input_ok n nu nl i ->
  narp inv lp fuel i = Ok (pre ++ post, o) -> pre <> [] ->
  exists e s R years, last pre (e, s) = (e, s) /\ In (e, s) pre /\
    (forall k, (1 <= k <= n_draws pre)%nat -> draw_outcome inv lp n nu nl i pre k (R k)) /\
    run_years (year_cfg i) n 0 (start_year n (i_INTV i) (i_ITAB i)) years = Ok (w_y (s_w s), w_out (s_w s)) /\
    length years = n_years pre /\ Forall (annual_ok n) years /\
    forall y pl wn wt c k, (y < n_years pre)%nat -> valid_place n pl -> (k < x_NFCST (i_h i))%nat -> cleared n (x_NFCST (i_h i)) pl k = true ->
      part pl wn wt c k (nth y years (first_stat n, first_stat n)) = total i pl wn wt c k R (draws_of_year i y).
Proof.
  intros inv lp n nu nl i fuel pre post o KA IN E NE.
  destruct (narp_at inv lp KA n nu nl i IN fuel _ post o E) as (IG & IL & s1 & a & b & c & d & R & l & f1 & _ & _ & _ & P & A & D & FS & _).
  destruct (exists_last NE) as (pre' & (e & s) & ->). exists e, s, R, l.
  unfold final_state in FS. rewrite map_app in FS. cbn [map] in FS. rewrite last_last in FS. cbn [snd] in FS. subst s1.
  destruct P as [_ _ _ _ _ _ _ P8 _ P10 P11 P12 P13]. rewrite <- A, <- D.
  split; [apply last_last|]. split; [apply in_or_app; right; now left|]. split; [exact P8|]. split; [exact P10|]. split; [exact P11|]. split; [exact P12|].
  intros y pl wn wt c0 k Hy VP Hk CL. rewrite P13 by auto. unfold since. rewrite CL. unfold draws_of_year. now rewrite (Nat.add_1_r y).
Qed.
Print Assumptions C64_annual_partial.

(** The entries that are not cleared (C41) hold the total since the start of the run. *)
Theorem C64_annual_refuted : forall inv lp n nu nl i fuel pre post o, keeps_areas lp -> input_ok n nu nl i ->
  narp inv lp fuel i = Ok (pre ++ post, o) -> pre <> [] ->
  exists e s R years, last pre (e, s) = (e, s) /\ In (e, s) pre /\
    (forall k, (1 <= k <= n_draws pre)%nat -> draw_outcome inv lp n nu nl i pre k (R k)) /\
    run_years (year_cfg i) n 0 (start_year n (i_INTV i) (i_ITAB i)) years = Ok (w_y (s_w s), w_out (s_w s)) /\
    length years = n_years pre /\
    forall y j wn wt c k, (y < n_years pre)%nat -> (j < n)%nat -> (k < x_NFCST (i_h i))%nat -> (x_NFCST (i_h i) <= j \/ n <= k)%nat ->
      part (Area j) wn wt c k (nth y years (first_stat n, first_stat n)) =
      zsum (map (fun y' => total i (Area j) wn wt c k R (draws_of_year i y')) (seq 0 (S y))).
Proof.
  intros inv lp n nu nl i fuel pre post o KA IN E NE.
  destruct (narp_at inv lp KA n nu nl i IN fuel _ post o E) as (IG & IL & s1 & a & b & c & d & R & l & f1 & _ & _ & _ & P & A & D & FS & _).
  destruct (exists_last NE) as (pre' & (e & s) & ->). exists e, s, R, l.
  unfold final_state in FS. rewrite map_app in FS. cbn [map] in FS. rewrite last_last in FS. cbn [snd] in FS. subst s1.
  destruct P as [_ _ _ _ _ _ _ P8 _ P10 P11 P12 P13]. rewrite <- A, <- D.
  split; [apply last_last|]. split; [apply in_or_app; right; now left|]. split; [exact P8|]. split; [exact P10|]. split; [exact P11|].
  intros y j wn wt c0 k Hy Hj Hk CL. rewrite total_years by exact (proj1 (in_step _ _ _ _ IN)).
  rewrite (P13 y (Area j) wn wt c0 k Hy Hj Hk). unfold since. assert (cleared n (x_NFCST (i_h i)) (Area j) k = false) as ->.
  { unfold cleared. destruct (Nat.ltb_spec j (x_NFCST (i_h i))); [|reflexivity]. destruct (Nat.ltb_spec k n); [lia|reflexivity]. }
  rewrite Nat.sub_0_r. reflexivity.
Qed.
Print Assumptions C64_annual_refuted.

Lemma mean_parts i pl wn wt c k R years Y d : 1 <= x_JSTEP (i_h i) -> length years = Y ->
  (forall y, (y < Y)%nat -> part pl wn wt c k (nth y years d) = total i pl wn wt c k R (draws_of_year i y)) ->
  qsum (map (fun a => qz (part pl wn wt c k a)) years) = qz (total i pl wn wt c k R (seq 1 (draws_upto i Y))).
Proof.
  intros HJ L H. rewrite <- (total_years i pl wn wt c k R HJ Y). rewrite <- (map_map (part pl wn wt c k) qz), zsum_qz. do 2 f_equal.
  apply (nth_ext _ _ 0 0); [now rewrite !map_length, seq_length|]. intros y Hy. rewrite map_length in Hy.
  rewrite (nth_indep _ 0 (part pl wn wt c k d)) by now rewrite map_length. rewrite map_nth, H by lia.
  rewrite (nth_indep _ 0 (total i pl wn wt c k R (draws_of_year i 0))) by (rewrite map_length, seq_length; lia).
  rewrite (map_nth (fun y => total i pl wn wt c k R (draws_of_year i y))), seq_nth by lia. reflexivity.
Qed.

(** What the report prints about the pool (and about the areas' cleared entries) at
    each level: the number of draws with a loss, and the energy not served in them,
    by cause, per simulated year; and the energy per draw with a loss. *)
Theorem C64_report_levels : forall inv lp n nu nl i SUSTAT fuel pre post o e s r, keeps_areas lp -> input_ok n nu nl i ->
  length SUSTAT = S n -> x_NFCST (i_h i) = 5%nat ->
  narp inv lp fuel i = Ok (pre ++ (e, s) :: post, o) -> snd e = qz 4 ->
  printed_report i SUSTAT (s_w s) = Some (Ok r) ->
  let Y := n_years (pre ++ [(e, s)]) in
  exists R, (forall k, (1 <= k <= n_draws (pre ++ [(e, s)]))%nat -> draw_outcome inv lp n nu nl i (pre ++ [(e, s)]) k (R k)) /\
  forall pl c k, valid_place n pl -> (k < 5)%nat -> cleared n 5 pl k = true ->
    let row := nth (3 * k + code_cause c) (match pl with Pool => r_pool_level r | Area j => nth j (r_area_level r) [] end) no_line in
    let T wn wt := qz (total i pl wn wt c k R (seq 1 (draws_upto i Y))) in
    l_lol row = Qcdiv (T Hourly LOLE) (qz (Z.of_nat Y)) /\ l_eue row = Qcdiv (T Hourly EUE) (qz (Z.of_nat Y)) /\
    l_lolp row = Qcdiv (T Peak LOLE) (qz (Z.of_nat Y)) /\
    l_xmgn row = (if qltb q0 (T Hourly LOLE) then Qcdiv (T Hourly EUE) (T Hourly LOLE) else q0) /\
    l_xmgnp row = (if qltb q0 (T Peak LOLE) then Qcdiv (T Peak EUE) (T Peak LOLE) else q0).
Proof.
  intros inv lp n nu nl i SU fuel pre post o e s r KA IN LS N5 E KIND PR Y.
  change (pre ++ (e, s) :: post) with (pre ++ [(e, s)] ++ post) in E. rewrite app_assoc in E.
  assert (NE : pre ++ [(e, s)] <> []) by (intros X; apply app_eq_nil in X; destruct X; discriminate).
  destruct (C64_annual_partial inv lp n nu nl i fuel _ post o KA IN E NE) as (e1 & s1 & R & l & LA & _ & DO & RY & LL & AO & TOT).
  rewrite last_last in LA. injection LA as <- <-. fold Y in LL, TOT.
  exists R. split; [exact DO|]. intros pl c k VP Hk CL row T.
  assert (NY : l <> []).
  { intros ->. cbn in LL. unfold Y in LL. rewrite of_kind_snoc, app_length in LL. cbn [fst] in LL. rewrite KIND in LL.
    change (qeqb (qz 4) (qz 4)) with true in LL. cbn [length] in LL. lia. }
  destruct (exists_last NY) as (l0 & a & ->).
  pose proof RY as RY0. apply run_snoc in RY. destruct RY as (y1 & os1 & o1 & RY1 & YE & EO).
  assert (NA : i_areas i = n) by exact (n_areas n nu nl i IN).
  assert (REP : reported (year_cfg i) n (i_INTV i) (i_ITAB i) SU (l0 ++ [a]) r).
  { exists l0, a, y1, os1, (w_y (s_w s)), o1. split; [reflexivity|]. split; [exact RY1|]. split.
    - rewrite app_length. cbn [length]. replace (Z.of_nat (length l0 + 1)) with (0 + Z.of_nat (length l0) + 1) by lia. exact YE.
    - unfold printed_report in PR. rewrite EO, rev_app_distr in PR. cbn [rev app] in PR. rewrite NA in PR. unfold year_report.
      pose proof (year_ok _ _ _ _ _ _ YE) as (h1 & d1 & e1 & RF & SSQ & XL & _ & _ & K). cbv zeta in K.
      destruct K as (_ & _ & _ & _ & _ & _ & _ & _ & _ & _ & _ & _ & _ & _ & _ & _ & _ & _ & _ & EIT).
      destruct (o_report o1); [|discriminate]. rewrite <- PR. change (NFCST (year_cfg i)) with (x_NFCST (i_h i)). do 3 f_equal.
      rewrite EIT. lia. }
  pose proof (C48_level_averages (year_cfg i) n _ _ SU _ r (in_levels _ _ _ _ IN) LS (st_areas _ _ _ _ (in_study _ _ _ _ IN)) AO REP N5 c k Hk) as (CA & CP).
  assert (Q : forall wn wt, qsum (map (fun a => qz (part pl wn wt c k a)) (l0 ++ [a])) = T wn wt).
  { intros wn wt. apply (mean_parts i pl wn wt c k R (l0 ++ [a]) Y (first_stat n, first_stat n)); [exact (proj1 (in_step _ _ _ _ IN))|exact LL|].
    intros y Hy. apply TOT; auto; rewrite N5; auto. }
  assert (LINE : line_of (map (fun a => qz (part pl Hourly LOLE c k a)) (l0 ++ [a])) (map (fun a => qz (part pl Hourly EUE c k a)) (l0 ++ [a]))
                   (map (fun a => qz (part pl Peak LOLE c k a)) (l0 ++ [a])) (map (fun a => qz (part pl Peak EUE c k a)) (l0 ++ [a])) row).
  { unfold row. destruct pl as [j|]; [apply CA; exact VP|exact CP]. }
  destruct LINE as [L1 L2 L3 L4 L5]. unfold mean, per_loss in *. rewrite !map_length, !Q, LL in *. auto.
Qed.
Print Assumptions C64_report_levels.

(** *** C65.  The final report *)
Lemma cvchk_stop clk fin y cv SUM XL SSQ : let R := fst (fst (cvchk clk fin y cv SUM XL SSQ)) in R = 1 \/ R <> 1 /\ qleb fin clk = false.
Proof.
  unfold cvchk. cbv zeta. destruct (qleb fin clk).
  - left. destruct (y <? 5); [reflexivity|]. destruct (qeqb _ q0); [reflexivity|]. destruct (sqrt_below _ _); reflexivity.
  - destruct (y <? 5); [right; split; [discriminate|reflexivity]|]. destruct (qeqb _ q0); [right; split; [discriminate|reflexivity]|].
    destruct (sqrt_below _ _); [left; reflexivity|right; split; [discriminate|reflexivity]].
Qed.

Definition reports (os : list yout) : list yout := filter o_report os.
(** stop flag, number of year ends and reports go together *)
Definition stop_inv (i : input) (lg : log world) (s : lst world) (d : nat) : Prop :=
  s_rflag s <> 1 /\ Z.of_nat d < i_years i /\ reports (w_out (s_w s)) = [] \/
  s_rflag s = 1 /\ (1 <= d)%nat /\ Z.of_nat d <= i_years i /\
    (exists lg', lg = lg' ++ [(year_event d, s)]) /\
    exists os o, w_out (s_w s) = os ++ [o] /\ o_report o = true /\ o_year o = Z.of_nat d /\ reports os = [].

Lemma stop_trace inv lp i s0 lg s a b c d : 1 <= i_years i -> s_rflag s0 = 0 -> w_out (s_w s0) = [] ->
  trace (program inv lp i) (loop_cfg i) s0 0 0 0 0 lg s a b c d -> stop_inv i lg s d.
Proof.
  intros HY F0 W0 T. remember 0%nat as z0 eqn:Z0 in T at 1. remember 0%nat as z1 eqn:Z1 in T at 1.
  remember 0%nat as z2 eqn:Z2 in T at 1. remember 0%nat as z3 eqn:Z3 in T at 1.
  induction T as [|s0 a0 b0 c0 d0 lg s1 a1 b1 c1 d1 e s2 a2 b2 c2 d2 T IH I ES RF LF LC EC FA ST].
  { subst. left. rewrite F0, W0. repeat split; try lia. }
  destruct IH as [(A & B & C)|(A & _)]; auto; [|contradiction].
  destruct ST as [s2 S1 S2 S3 S4 S5 S6 | s2 S1 S2 S3 S4 S5 S6 | s2 S1 S2 S3 S4 S5 S6 | s2 S0 S1 S2 S3 S4 S5].
  - left. rewrite S6. cbn [program h_hour] in S1. unfold do_hour in S1. destruct (hour _ _ _ _ _ _ _); cbn [bind] in S1; [|discriminate].
    injection S1 as <-. auto.
  - left. rewrite S5, S6. auto.
  - left. rewrite S5, S6. auto.
  - cbn [program h_year] in S1. unfold do_year in S1.
    change (fst (year_event (S d1))) with (qz (8760 * Z.of_nat (S d1))) in S1.
    destruct (year (year_cfg i) _ _ _) as [[y' o]|] eqn:EY; cbn [bind] in S1; [|discriminate]. injection S1 as EW ER.
    pose proof (year_ok _ _ _ _ _ _ EY) as (h1 & d1' & e1 & R & SSQ & XL & _ & _ & K). cbv zeta in K.
    destruct K as (CV & _ & _ & _ & _ & _ & _ & _ & _ & _ & _ & _ & _ & EYR & _ & _ & ERF & _ & EREP & _).
    pose proof (cvchk_stop (qz (8760 * Z.of_nat (S d1))) (YFINISH (year_cfg i))) as ST.
    match type of CV with cvchk ?xa ?xb ?xc ?xd ?xe ?xf ?xg = _ => specialize (ST xc xd xe xf xg) end. cbv zeta in ST. rewrite CV in ST. cbn [fst] in ST.
    rewrite ERF in ER. replace (8760 * Z.of_nat (S d1)) with (8760 * (Z.of_nat d1 + 1)) in EYR by lia. rewrite year_number in EYR by lia.
    destruct ST as [->|(NR & FB)].
    + right. rewrite <- ER, <- EW. cbn [w_out]. split; [reflexivity|]. split; [lia|]. split; [lia|]. split; [eauto|].
      exists (w_out (s_w s1)), o. split; [reflexivity|]. split; [rewrite EREP; reflexivity|]. split; [lia|exact C].
    + left. rewrite <- ER, <- EW. cbn [w_out]. split; [exact NR|]. change (YFINISH (year_cfg i)) with (qz (8760 * i_years i)) in FB, EREP.
      rewrite qleb_qz in FB. apply Z.leb_gt in FB. split; [lia|]. unfold reports. rewrite filter_app. fold (reports (w_out (s_w s1))). rewrite C. cbn [app filter].
      rewrite EREP. apply Z.eqb_neq in NR. rewrite NR. rewrite qleb_qz. apply Z.leb_gt in FB. rewrite FB. reflexivity.
Qed.

Lemma run_outs cf n : forall l k s s' os, run_years cf n k s l = Ok (s', os) -> length os = length l.
Proof.
  induction l as [|a l IH] using rev_ind; intros k s s' os E.
  - cbn in E. injection E as <- <-. reflexivity.
  - apply run_snoc in E. destruct E as (s1 & os1 & o & R & _ & ->). rewrite !app_length, (IH _ _ _ _ R). reflexivity.
Qed.

(** A run of at least one year that ends, and not by an exception, has ended at a year
    end: its last event is that of year Y, Y at most the number of years asked for;
    that year end printed the final report, and no earlier one did. *)
Theorem C65_one_report : forall inv lp n nu nl i fuel lg x, keeps_areas lp -> input_ok n nu nl i -> 1 <= i_years i ->
  narp inv lp fuel i = Ok (lg, Some x) -> (forall er, x <> Failed er) ->
  x = Converged /\
  exists lg' s os o, lg = lg' ++ [(year_event (n_years lg), s)] /\ (1 <= n_years lg)%nat /\ Z.of_nat (n_years lg) <= i_years i /\
    w_out (s_w s) = os ++ [o] /\ length os = (n_years lg - 1)%nat /\
    o_report o = true /\ o_year o = Z.of_nat (n_years lg) /\ Forall (fun o' => o_report o' = false) os.
Proof.
  intros inv lp n nu nl i fuel lg x KA IN HY E NF. rewrite <- (app_nil_r lg) in E.
  destruct (narp_at inv lp KA n nu nl i IN fuel _ [] _ E) as (IG & IL & s & a & b & c & d & R & l & f1 & SD & T & I & P & _ & D & FS & C).
  pose proof (stop_trace inv lp i (start (loop_cfg i) nu (first_world i IG IL)) lg s a b c d HY eq_refl eq_refl T) as SI.
  pose proof C as C0. apply contrl_last in C. pose proof (step_spec (program inv lp i) (loop_cfg i) s a b c d (in_step _ _ _ _ IN) I) as SP. rewrite C in SP.
  assert (XC : x = Converged).
  { destruct x as [| | |y|e0 s0|er]; try contradiction; [reflexivity| |exfalso; eapply contrl_no_continue; exact C0|exfalso; eapply NF; reflexivity].
    exfalso. destruct SP as (RF & _ & FA). destruct SI as [(_ & B & _)|(A & _)]; [|contradiction].
    unfold agenda in FA. do 6 apply Forall_inv_tail in FA. apply Forall_inv in FA. rewrite inj_year in FA. cbn [fst year_event] in FA.
    change (c_FINISH (loop_cfg i)) with (qz (8760 * i_years i)) in FA. change q1 with (qz 1) in FA. unfold on in FA.
    rewrite <- qz_plus in FA. apply (proj1 (qz_lt _ _)) in FA. lia. }
  split; [exact XC|]. rewrite XC in SP. destruct SI as [(A & _)|(_ & D1 & D2 & (lg' & EL) & os & o & WO & RO & YO & NR)]; [exfalso; exact (A SP)|].
  assert (LO : length (w_out (s_w s)) = d).
  { destruct P as [_ _ _ _ _ _ _ _ _ P10 P11 _ _]. rewrite <- P11. exact (run_outs _ _ _ _ _ _ _ P10). }
  exists lg', s, os, o. rewrite <- D. rewrite WO, app_length in LO. cbn [length] in LO.
  repeat (split; [first [assumption|lia]|]).
  clear - NR. unfold reports in NR. induction os as [|z os IH]; constructor; cbn [filter] in NR; destruct (o_report z); try discriminate; auto.
Qed.
Print Assumptions C65_one_report.

(** *** C50 and C51 for runs *)

(** In every delivered draw of every run some area is short at the first level: a
    draw without shortage anywhere is never survived. *)
Theorem C50_program_refuted : forall inv lp n nu nl i fuel pre post o k, keeps_areas lp -> input_ok n nu nl i ->
  narp inv lp fuel i = Ok (pre ++ post, o) -> (1 <= k <= n_draws pre)%nat ->
  exists s AVAIL j, In (draw_event (x_JSTEP (i_h i)) k, s) pre /\ capacities nu i k s AVAIL /\ (j < n)%nat /\
    short (i_h i) AVAIL (x_JSTEP (i_h i) * Z.of_nat k) 0 j.
Proof.
  intros inv lp n nu nl i fuel pre post o k KA IN E Hk.
  destruct (narp_at inv lp KA n nu nl i IN fuel _ post o E) as (IG & IL & s1 & a & b & c & d & R & l & f1 & _ & _ & _ & P & A & D & FS & _).
  destruct P as [_ _ _ _ _ _ _ P8 _ _ _ _ _]. rewrite <- A in Hk. destruct (P8 k Hk) as (s & AV & LN & IN1 & CA & LS & F & LE & FO & LAST).
  exists s, AV. destruct (R k) as [|[l0 M] recs] eqn:ER.
  - destruct LAST as [LAST|LAST]; [cbn in LAST; pose proof (st_levels _ _ _ _ (in_study _ _ _ _ IN)); lia|].
    cbn [length] in LAST. destruct LAST as ((j & Hj & SH) & _). eauto 6.
  - cbn [map length seq fst] in F. injection F as -> F. pose proof (Forall_inv FO) as (_ & _ & (j & Hj & SH) & _). eauto 6.
Qed.
Print Assumptions C50_program_refuted.

(** With a draw frequency above 1 (and no daily step) the run never gets past the
    first draw k at which no fresh states are due; if that draw lies within the first
    year the run ends in an exception. *)
Theorem C51_program_refuted : forall inv lp n nu nl i fuel k, keeps_areas lp -> input_ok n nu nl i -> 1 <= i_years i ->
  1 < x_JFREQ (i_h i) -> x_JSTEP (i_h i) <> 24 -> (1 <= k)%nat ->
  ((x_JSTEP (i_h i) * Z.of_nat k) mod 8760 - 1) mod x_JFREQ (i_h i) <> 0 ->
  (forall lg o, narp inv lp fuel i = Ok (lg, o) -> (n_draws lg < k)%nat) /\
  (x_JSTEP (i_h i) * Z.of_nat k < 8760 -> (fuel_bound (i_FINISH i) < fuel)%nat ->
   exists lg er, narp inv lp fuel i = Ok (lg, Some (Failed er))).
Proof.
  intros inv lp n nu nl i fuel k KA IN HY FQ JS Hk NE.
  assert (LT : forall lg o, narp inv lp fuel i = Ok (lg, o) -> (n_draws lg < k)%nat).
  { intros lg o E. rewrite <- (app_nil_r lg) in E.
    destruct (narp_at inv lp KA n nu nl i IN fuel _ [] _ E) as (IG & IL & s & a & b & c & d & R & l & f1 & SD & T & I & P & A & D & FS & C).
    rewrite <- A. clear - T NE FQ JS IN KA Hk. remember 0%nat as z0 eqn:Z0 in T at 1. remember 0%nat as z1 eqn:Z1 in T at 1.
    remember 0%nat as z2 eqn:Z2 in T at 1. remember 0%nat as z3 eqn:Z3 in T at 1.
    induction T as [|s0 a0 b0 c0 d0 lg s1 a1 b1 c1 d1 e s2 a2 b2 c2 d2 T IH I ES RF LF LC EC FA ST]; [lia|].
    specialize (IH Z0 Z1 Z2 Z3).
    destruct ST as [s2 S1 S2 S3 S4 S5 S6 | s2 S1 S2 S3 S4 S5 S6 | s2 S1 S2 S3 S4 S5 S6 | s2 S0 S1 S2 S3 S4 S5]; auto.
    destruct (Nat.eq_dec (S a1) k) as [EK|]; [|lia]. exfalso. cbn [program h_hour] in S1. unfold do_hour in S1.
    change (c_JSTEP (loop_cfg i)) with (x_JSTEP (i_h i)) in S1. rewrite EK in S1. unfold draw_event in S1. cbn [fst] in S1.
    pose proof (proj1 (in_step _ _ _ _ IN)).
    rewrite (C51_refuted inv lp n nu nl (i_h i) (x_JSTEP (i_h i) * Z.of_nat k) _ _ _ (in_study _ _ _ _ IN)) in S1; auto; [discriminate|nia]. }
  split; [exact LT|]. intros K1 FB.
  unfold narp in *. destruct (seeder JSEED (i_units i) (i_lines i)) as [[IG IL]|er0] eqn:SD.
  2:{ exfalso. destruct (seeder_spec JSEED (i_units i) (i_lines i)) as (IG & IL & X & _). congruence. }
  cbn [bind fst snd] in *.
  destruct (terminates (program inv lp i) (loop_cfg i) (i_units i) (first_world i IG IL) fuel (in_step _ _ _ _ IN) FB) as (lg & x & E).
  assert (EN : narp inv lp fuel i = Ok (lg, Some x)). { unfold narp. rewrite SD. cbn [bind fst snd]. now rewrite E. }
  rewrite E in *. exists lg. destruct x as [| | |y|e0 s0|er]; try solve [eexists; reflexivity]; exfalso.
  all: destruct (C65_one_report inv lp n nu nl i fuel lg _ KA IN HY EN) as (XC & lg' & s & os & o & EL & Y1 & _); [intros; discriminate|]; try discriminate.
  specialize (LT lg _ eq_refl). rewrite EL in E.
  destruct (run_at (program inv lp i) (loop_cfg i) (i_units i) (first_world i IG IL) fuel lg' _ s [] _ (in_step _ _ _ _ IN) E) as (s1 & a1 & b1 & c1 & d1 & a2 & b2 & c2 & d2 & T & I & _ & _ & _ & _ & FA & _).
  apply Forall_inv in FA. rewrite inj_draw in FA. unfold year_event, draw_event, on in FA. cbn [fst] in FA. apply (proj1 (qz_le _ _)) in FA.
  change (c_JSTEP (loop_cfg i)) with (x_JSTEP (i_h i)) in FA.
  destruct (trace_counts _ _ _ _ _ _ _ _ _ T) as (CA & _).
  assert (a1 <= n_draws lg)%nat by (rewrite EL, of_kind_snoc, app_length, CA; lia).
  pose proof (proj1 (in_step _ _ _ _ IN)). assert (Z.of_nat (S a1) <= Z.of_nat k) by lia. nia.
Qed.
Print Assumptions C51_program_refuted.

(** *** C62 for runs *)
Lemma run_prints cf n : forall l k s s' os, run_years cf n k s l = Ok (s', os) -> Forall (fun a => print_fails cf (fst a) = false) l.
Proof.
  induction l as [|a l IH] using rev_ind; intros k s s' os E; [constructor|].
  apply run_snoc in E. destruct E as (s1 & os1 & o & R & EY & _). apply Forall_app. split; [eapply IH; exact R|].
  constructor; [|constructor]. apply year_ok in EY. destruct EY as (h & d & e & RF & SSQ & XL & _ & PF & _). exact PF.
Qed.

(** With annual printing and a step other than 24 hours, no year end is survived
    whose year's draws had no generation-caused loss of the pool at the first level:
    every year ended so far had one. *)
Theorem C62_program_refuted : forall inv lp n nu nl i fuel pre post o, keeps_areas lp -> input_ok n nu nl i ->
  i_IOJ i <> 0 -> x_JSTEP (i_h i) <> 24 -> narp inv lp fuel i = Ok (pre ++ post, o) ->
  exists R, (forall k, (1 <= k <= n_draws pre)%nat -> draw_outcome inv lp n nu nl i pre k (R k)) /\
    forall y, (y < n_years pre)%nat -> 0 < total i Pool Hourly LOLE Gen 0 R (draws_of_year i y).
Proof.
  intros inv lp n nu nl i fuel pre post o KA IN I0 J24 E.
  destruct (narp_at inv lp KA n nu nl i IN fuel _ post o E) as (IG & IL & s1 & a & b & c & d & R & l & f1 & _ & _ & _ & P & A & D & FS & _).
  destruct P as [_ _ _ _ _ _ _ P8 _ P10 P11 P12 P13]. exists R. rewrite <- A, <- D. split; [exact P8|]. intros y Hy.
  pose proof (st_levels _ _ _ _ (in_study _ _ _ _ IN)) as NF.
  pose proof (P13 y Pool Hourly LOLE Gen 0%nat Hy Logic.I ltac:(lia)) as EQ. unfold since in EQ. cbn [cleared] in EQ.
  unfold draws_of_year. rewrite (Nat.add_1_r y). rewrite <- EQ. unfold part.
  pose proof (run_prints _ _ _ _ _ _ _ P10) as FP. rewrite Forall_forall in FP.
  assert (Hl : (y < length l)%nat) by (rewrite P11; exact Hy).
  specialize (FP (nth y l (first_stat n, first_stat n)) (nth_In l _ Hl)).
  unfold print_fails in FP. change (IOJ (year_cfg i)) with (i_IOJ i) in FP. change (INDX (year_cfg i)) with (if x_JSTEP (i_h i) =? 24 then 1 else 0) in FP.
  destruct (Z.eqb_spec (i_IOJ i) 0); [contradiction|]. destruct (Z.eqb_spec (x_JSTEP (i_h i)) 24); [contradiction|]. cbn [negb andb Z.eqb] in FP.
  apply Z.leb_gt in FP. exact FP.
Qed.
Print Assumptions C62_program_refuted.
(** A daily run (24 hours) or one without annual printing completes every year end. *)
Theorem C62_program_partial : forall i n clk w, levels_ok (x_NFCST (i_h i)) (i_NORR i) -> (qz 20 <= i_MAXEUE i)%Qc ->
  x_JSTEP (i_h i) = 24 \/ i_IOJ i = 0 \/ 0 < zget (plolG (hrs (w_h w))) 0 -> i_areas i = n ->
  stat_shape n 5 (hrs (w_h w)) -> stat_shape n 5 (pks (w_h w)) -> stat_nonneg n (hrs (w_h w)) -> stat_nonneg n (pks (w_h w)) ->
  shape n 22 (y_HL (w_y w)) -> shape n 22 (y_DP (w_y w)) -> shape n 22 (y_EU (w_y w)) ->
  exists w' flag, do_year i clk w = Ok (w', flag) /\ length (w_out w') = S (length (w_out w)).
Proof.
  intros i n clk w HL ME C NA Sh Sp Nh Np S1 S2 S3. unfold do_year. cbv zeta. rewrite NA.
  assert (LS : 0 < LSTEP (year_cfg i)).
  { change (LSTEP (year_cfg i)) with (qfloor (Qcdiv (i_MAXEUE i) (qz 20))). apply Z.lt_le_trans with 1; [lia|].
    destruct (qfloor_spec (Qcdiv (i_MAXEUE i) (qz 20))) as [_ F]. apply (proj1 (qdiv_pos_lt _ _ _ (proj2 (qz_lt 0 20) eq_refl))) in F.
    pose proof (Qcle_lt_trans _ _ _ ME F) as F1. rewrite <- qz_mult in F1. apply (proj1 (qz_lt _ _)) in F1. lia. }
  edestruct (year_succeeds (year_cfg i) n clk) as (s' & o & EY); [exact HL|exact LS| | | | | | | | |rewrite EY]; try eassumption.
  2:{ cbn [bind]. do 2 eexists. split; [reflexivity|]. cbn [w_out]. rewrite app_length. cbn [length]. lia. }
  unfold print_fails. change (IOJ (year_cfg i)) with (i_IOJ i). change (INDX (year_cfg i)) with (if x_JSTEP (i_h i) =? 24 then 1 else 0). cbn [y_h].
  destruct C as [-> | [-> | Z0]]; [apply andb_false_iff; left; apply andb_false_r|reflexivity|].
  apply andb_false_iff. right. apply Z.leb_gt. lia.
Qed.
Print Assumptions C62_program_partial.

(** *** Witness: a run of two years, four draws a year, five forecast levels; areas
    with capacities 100 and 50 and loads 110 and 80, so every draw lacks 10 and 30 MW.
    The run ends with the second year end, which prints the report. *)
Definition demo_input (l0 l1 : Z) : input :=
  mkInput (mkHcfg 2184 1 5 (map (fun d => 24 * Z.of_nat d + 7) (seq 0 365)) [[q1; q1]; [q1; q1]] [q0; q0] [[q1; q0]; [q0; q1]] [0; 1]
             [[q1; q1; q1; q1; q1; q1]] [[-1; -1]; [-1; -1]] [] (flat l0 l1) [repeat q1 5; repeat q1 5]
             [[-1; 0]; [-1; -1]] [two_lines (-1) 100] [(0, 1)%nat] 1 true)
          [repeat (qz 100) 4; repeat (qz 50) 4] (repeat [0; 0] 52) (n_BN (two_net 1000)) 2
          2 (qz 2000) q1 10 0 1 1 1 1 0 0.
Definition demo_run := narp (checked_inv [[qz (-1)]]) no_lp 200 (demo_input 110 80).
Lemma demo_input_ok_any l0 l1 : input_ok 2 2 1 (demo_input l0 l1).
Proof.
  constructor; cbn [demo_input i_h i_NORR i_RATES i_BN x_JSTEP x_NFCST x_LP length].
  - pose proof (tiny_study 1 l0 l1 7 ltac:(lia)) as ST. destruct ST. constructor; auto. cbn [x_NFCST]. lia.
  - split; lia.
  - right; auto.
  - reflexivity.
  - reflexivity.
  - reflexivity.
Qed.
Example demo_input_ok : input_ok 2 2 1 (demo_input 110 80). Proof. exact (demo_input_ok_any 110 80). Qed.
Definition printed (r : res (log world * option (outcome world))) : option rep :=
  match r with
  | Ok (lg, x) => let s := final_state (start (loop_cfg (demo_input 110 80)) 2 (first_world (demo_input 110 80) [] [])) lg in
      match printed_report (demo_input 110 80) (repeat (repeat q0 5) 3) (s_w s) with Some (Ok r) => Some r | _ => None end
  | Err _ => None
  end.
Definition run_shown (r : res (log world * option (outcome world))) :=
  match r with
  | Ok (lg, x) => Some (n_draws lg, n_years lg, match x with Some Converged => Ok true | Some (Failed e) => Err e | _ => Ok false end,
       map (fun o => (o_year o, o_report o)) (w_out (s_w (final_state (start (loop_cfg (demo_input 110 80)) 2 (first_world (demo_input 110 80) [] [])) lg))))
  | Err _ => None
  end.
(** the run: 8 draws, 2 year ends, the second one reports *)
Example C65_witness : run_shown demo_run = Some (8%nat, 2%nat, Ok true, [(1, false); (2, true)]).
Proof. vm_compute. reflexivity. Qed.
(** the report: per year 4 hours with loss and 160 MWh at every level for the pool
    (generation; transmission; both); for area 0 (10 MW short) 4 hours and 40 MWh at
    the levels 0 and 1, but 6 hours and 60 MWh at the levels 2 to 4, which are not
    cleared *)
Example C64_witness : option_map (fun r => (map (fun l => (this (l_lol l), this (l_eue l))) (r_pool_level r),
                                             map (fun l => (this (l_lol l), this (l_eue l))) (nth 0 (r_area_level r) []))) (printed demo_run) =
  Some (concat (repeat [(4%Q, 160%Q); (0%Q, 0%Q); (4%Q, 160%Q)] 5),
        concat (repeat [(4%Q, 40%Q); (0%Q, 0%Q); (4%Q, 40%Q)] 2) ++ concat (repeat [(6%Q, 60%Q); (0%Q, 0%Q); (6%Q, 60%Q)] 3)).
Proof. vm_compute. reflexivity. Qed.
(** all areas supplied: the first draw stops the run *)
Example C50_run_witness : run_shown (narp (checked_inv [[qz (-1)]]) no_lp 200 (demo_input 60 40)) = Some (0%nat, 0%nat, Err IndexError, []).
Proof. vm_compute. reflexivity. Qed.
(** a draw every second step of 2184 hours: hour indices 2183, 4367, ... are odd *)
Definition demo_input_freq2 : input :=
  let i := demo_input 110 80 in let h := i_h i in
  mkInput (mkHcfg 2184 2 5 (x_MXPLHR h) (x_PROBG h) (x_DERATE h) (x_CAPOWN h) (x_CAPCON h) (x_PROBL h) (x_JENT h) (x_INTCH h) (x_HRLOAD h) (x_FCTERR h)
             (x_LINENO h) (x_BLPA h) (x_LP h) (x_NR h) (x_NLS h))
          (i_RATES i) (i_JPLOUT i) (i_BN i) 2 2 (qz 2000) q1 10 0 1 1 1 1 0 0.
Example C51_run_witness : input_ok 2 2 1 demo_input_freq2 /\ (2184 * Z.of_nat 1) mod 8760 - 1 = 2183 /\
  run_shown (narp (checked_inv [[qz (-1)]]) no_lp 200 demo_input_freq2) = Some (0%nat, 0%nat, Err UnboundLocalError, []).
Proof.
  split; [|split; [reflexivity|vm_compute; reflexivity]]. destruct demo_input_ok. constructor; auto.
  destruct in_study. constructor; auto.
Qed.
(** C62: a surplus of 50 MW in the pool, but a line of 10 MW to the area that lacks 30
    MW: only transmission-caused losses; with annual printing the first year end (after
    four draws) stops the run; with losses caused by generation it does not. *)
Definition demo_input_print (l0 l1 cap : Z) : input :=
  let i := demo_input l0 l1 in let h := i_h i in
  mkInput (mkHcfg 2184 1 5 (x_MXPLHR h) (x_PROBG h) (x_DERATE h) (x_CAPOWN h) (x_CAPCON h) (x_PROBL h) (x_JENT h) (x_INTCH h) (x_HRLOAD h) (x_FCTERR h)
             (x_LINENO h) [two_lines (-1) cap] (x_LP h) (x_NR h) (x_NLS h))
          (i_RATES i) (i_JPLOUT i) (i_BN i) 2 2 (qz 2000) q1 10 1 1 1 1 1 0 0.
(** a linear-programming branch that moves no power *)
Definition still_lp : list (list Qc) -> list (list Qc) -> list (list Qc) -> res (list Qc * list (list Qc)) := fun _ _ BN => Ok ([q0], map (fun r => upd r 1 q0) BN).
Example C62_run_witness : input_ok 2 2 1 (demo_input_print 20 80 10) /\ keeps_areas still_lp /\
  run_shown (narp (checked_inv [[qz (-1)]]) still_lp 200 (demo_input_print 20 80 10)) = Some (4%nat, 0%nat, Err UnboundLocalError, []) /\
  run_shown (narp (checked_inv [[qz (-1)]]) still_lp 200 (demo_input_print 110 80 100)) = Some (8%nat, 2%nat, Ok true, [(1, false); (2, true)]).
Proof.
  split; [|split; [|split; vm_compute; reflexivity]].
  - destruct (demo_input_ok_any 20 80). constructor; auto. destruct in_study. constructor; auto.
  - intros B L BN F BN' E. injection E as <- <-. apply map_length.
Qed.
