(** C106: output options do not influence the results. *)
From Verif Require Import Base BaseProofs EventModel EventSpec StatModel YearModel HourModel HourSpec ControlModel ControlSpec SampleModel ProgramModel ProgramSpec OutputSpec.
Open Scope Z_scope.

Section SIM.
  Context {W : Type}.
  Variables (h h' : handlers W) (cf cf' : rcfg) (R : W -> W -> Prop) (stop : pyerr) (P : Prop).
  Hypothesis EC : cf' = cf.
  Hypothesis SH : forall c p r w w', R w w' -> match h_hour h c p r w with Err e => h_hour h' c p r w' = Err e | Ok w1 => exists w1', h_hour h' c p r w' = Ok w1' /\ R w1 w1' end.
  Hypothesis SY : forall c w w', R w w' -> (h_year h' c w' = Err stop /\ P) \/
    match h_year h c w with Err e => h_year h' c w' = Err e | Ok (w1, f) => exists w1', h_year h' c w' = Ok (w1', f) /\ R w1 w1' end.

  Definition put (s : lst W) (w : W) : lst W := mkSt (s_cal s) (s_clock s) (s_rflag s) (s_jhour s) (s_iq s) (s_plndst s) (s_rating s) w.

  Lemma events_sim N s w' ty : R (s_w s) w' -> (events h' cf' N (put s w') ty = Err stop /\ P) \/
    match events h cf N s ty with
    | Err e => events h' cf' N (put s w') ty = Err e
    | Ok s1 => exists w1', events h' cf' N (put s w') ty = Ok (put s1 w1') /\ R (s_w s1) w1'
    end.
  Proof.
    intros RW. subst cf'. unfold events, put. cbn [s_cal s_clock s_rflag s_jhour s_iq s_plndst s_rating s_w].
    destruct (N =? 1).
    { right. destruct (filem _ _) as [c|e]; cbn [bind]; [|reflexivity]. pose proof (SH (s_clock s) (s_plndst s) (s_rating s) _ _ RW) as X.
      destruct (h_hour h _ _ _ _) as [w1|e]; cbn [bind]; [|now rewrite X]. destruct X as (w1' & -> & RW1). exists w1'. auto. }
    destruct (N =? 2).
    { right. destruct (filem _ _) as [c|e]; cbn [bind]; [|reflexivity]. destruct (week_status _ _ _) as [p|e]; cbn [bind]; [|reflexivity]. exists w'. auto. }
    destruct (N =? 3).
    { right. cbv zeta. destruct (rates_of _ _) as [r|e]; cbn [bind]; [|reflexivity]. destruct (filem _ _) as [c|e]; cbn [bind]; [|reflexivity]. exists w'. auto. }
    destruct (N =? 4); [|now right].
    destruct (filem _ _) as [c|e]; cbn [bind]; [|now right]. destruct (SY (s_clock s) _ _ RW) as [(X & HP)|X]; [left; split; [now rewrite X|exact HP]|right].
    destruct (h_year h _ _) as [[w1 f1]|e]; cbn [bind]; [|now rewrite X]. destruct X as (w1' & -> & RW1). cbn [bind fst snd]. exists w1'. auto.
  Qed.

  Lemma step_sim s w' : R (s_w s) w' -> (contrl_step h' cf' (put s w') = Failed stop /\ P) \/
    match contrl_step h cf s with
    | Continue e s1 => exists w1', contrl_step h' cf' (put s w') = Continue e (put s1 w1') /\ R (s_w s1) w1'
    | o => contrl_step h' cf' (put s w') = o
    end.
  Proof.
    intros RW. unfold contrl_step. cbn [put s_cal s_clock s_rflag s_jhour s_iq s_plndst s_rating s_w].
    destruct (IPOINT (s_cal s) =? -1); [now right|]. destruct (pyget _ _) as [t|e]; cbn [of_res]; [|now right].
    destruct (qltb t (s_clock s)); [now right|]. destruct (s_rflag s =? 1); [now right|].
    assert (FC : c_FINISH cf' = c_FINISH cf) by now rewrite EC. rewrite FC. destruct (qltb _ t); [now right|].
    destruct (remove _) as [[[[t' ty] c']|]|e]; cbn [of_res]; [|now right|now right].
    set (sx := mkSt c' t' (s_rflag s) (s_jhour s) (s_iq s) (s_plndst s) (s_rating s) (s_w s)).
    change (mkSt c' t' (s_rflag s) (s_jhour s) (s_iq s) (s_plndst s) (s_rating s) w') with (put sx w').
    destruct (events_sim (qtrunc ty) sx w' ty RW) as [(X & HP)|X]; [left; split; [now rewrite X|exact HP]|right].
    destruct (events h cf _ _ _) as [s1|e]; cbn [of_res]; [|now rewrite X]. destruct X as (w1' & -> & RW1). cbn [of_res]. exists w1'. auto.
  Qed.

  Definition entry (x x' : (Qc * Qc) * lst W) : Prop := fst x' = fst x /\ exists w', R (s_w (snd x)) w' /\ snd x' = put (snd x) w'.

  Lemma contrl_sim fuel : forall s w' lg o, R (s_w s) w' -> contrl fuel h cf s = (lg, o) ->
    exists lg' o', contrl fuel h' cf' (put s w') = (lg', o') /\
      ((Forall2 entry lg lg' /\ o' = o) \/ (P /\ exists lg1 lg2, lg = lg1 ++ lg2 /\ Forall2 entry lg1 lg' /\ o' = Some (Failed stop))).
  Proof.
    induction fuel as [|fuel IH]; intros s w' lg o RW E; cbn [contrl] in E |- *.
    { injection E as <- <-. exists [], None. auto. }
    destruct (step_sim s w' RW) as [(X & HP)|X].
    { rewrite X. exists [], (Some (Failed stop)). split; [reflexivity|]. right. split; [exact HP|]. exists [], lg. auto. }
    destruct (contrl_step h cf s) as [| | |y|e s1|er]; try (rewrite X; injection E as <- <-; eexists [], _; split; [reflexivity|]; left; now auto).
    destruct X as (w1' & -> & RW1). destruct (contrl fuel h cf s1) as [lg1 o1] eqn:ER. injection E as <- <-.
    destruct (IH s1 w1' lg1 o1 RW1 ER) as (lg' & o' & -> & D). exists ((e, put s1 w1') :: lg'), o'. split; [reflexivity|].
    assert (EN : entry (e, s1) (e, put s1 w1')) by (split; [reflexivity|]; exists w1'; auto).
    destruct D as [(F & ->)|(HP & l1 & l2 & -> & F & ->)]; [left; auto|]. right. split; [exact HP|]. exists ((e, s1) :: l1), l2. auto.
  Qed.
End SIM.

Section YEAR.
  Variables (inv : list (list Qc) -> option (list (list Qc)))
            (lp : list (list Qc) -> list (list Qc) -> list (list Qc) -> res (list Qc * list (list Qc))).
  Variables (i : input) (intv ioj itab : Z).
  Hypothesis NP : i_IOJ i = 0 \/ x_JSTEP (i_h i) = 24.
  Notation i' := (with_output i intv ioj itab).

  Lemma hour_out C p r w w' : same_data w w' ->
    match h_hour (program inv lp i) C p r w with Err e => h_hour (program inv lp i') C p r w' = Err e | Ok w1 => exists w1', h_hour (program inv lp i') C p r w' = Ok w1' /\ same_data w1 w1' end.
  Proof.
    intros [S1 S2 S3]. cbn [program h_hour]. unfold do_hour. change (i_h i') with (i_h i). rewrite S1.
    destruct (hour _ _ _ _ _ _ _) as [h1|e]; cbn [bind]; [|reflexivity]. eexists. split; [reflexivity|]. constructor; cbn [w_h w_y w_out]; auto.
  Qed.
  Lemma year_out C w w' : same_data w w' -> h_year (program inv lp i') C w' = Err UnboundLocalError /\ ioj <> 0 /\ x_JSTEP (i_h i) <> 24 \/
    match h_year (program inv lp i) C w with Err e => h_year (program inv lp i') C w' = Err e | Ok (w1, f) => exists w1', h_year (program inv lp i') C w' = Ok (w1', f) /\ same_data w1 w1' end.
  Proof.
    intros [S1 (vt & tb & S2) S3]. cbn [program h_year]. unfold do_year. cbv zeta. rewrite S1, S2. cbn [y_h y_p y_ch y_cp y_HL y_DP y_EU y_XA y_XP y_SSQ y_XLAST y_INTVT y_ITAB].
    change (i_areas i') with (i_areas i). set (n := i_areas i). unfold year.
    cbn [y_h y_p y_ch y_cp y_HL y_DP y_EU y_XA y_XP y_SSQ y_XLAST y_INTVT y_ITAB].
    change (LSTEP (year_cfg i')) with (LSTEP (year_cfg i)). change (NORR (year_cfg i')) with (NORR (year_cfg i)). change (NFCST (year_cfg i')) with (NFCST (year_cfg i)).
    change (select (year_cfg i')) with (select (year_cfg i)). change (YFINISH (year_cfg i')) with (YFINISH (year_cfg i)). change (CVTEST (year_cfg i')) with (CVTEST (year_cfg i)).
    destruct (hist_areas _ _ _ _ _) as [[[HL' DP'] EU']|e]; cbn [bind]; [|now right].
    assert (P0 : print_fails (year_cfg i) (hrs (w_h w)) = false). { unfold print_fails. cbn [year_cfg IOJ INDX]. destruct NP as [->|K]; [reflexivity|]. rewrite K. cbn. now rewrite andb_false_r. }
    rewrite P0. destruct (print_fails (year_cfg i') (hrs (w_h w))) eqn:P1.
    { left. cbn [bind]. split; [reflexivity|]. unfold print_fails in P1. cbn [year_cfg IOJ INDX with_output i_IOJ i_h] in P1.
      apply andb_prop in P1. destruct P1 as (P1 & _). apply andb_prop in P1. destruct P1 as (P1 & P2). apply negb_true_iff in P1, P2. apply Z.eqb_neq in P1, P2.
      split; [exact P1|]. intros K. rewrite K in P2. now contradiction P2. }
    right. set (SUM := select _ _ _). set (IY := qtrunc _). destruct (cvchk _ _ _ _ _ _ _) as [[R Q] X]. cbn [bind o_rflag].
    eexists. split; [reflexivity|]. constructor; cbn [w_h w_y w_out y_h y_p y_ch y_cp y_HL y_DP y_EU y_XA y_XP y_SSQ y_XLAST].
    - reflexivity.
    - eexists _, _. reflexivity.
    - apply Forall2_app; [exact S3|]. constructor; [|constructor]. repeat split; reflexivity.
  Qed.
End YEAR.
