(** Proofs for C101, whole runs. *)
From Verif Require Import Base BaseProofs Sums SampleModel SampleProofs LoadModel LoadSpec NetModel NetSpec StatModel StatSpec StatProofs
  EventModel ControlModel ControlSpec ControlProofs RunProofs HourModel HourSpec HourProofs
  YearModel YearSpec YearProofs YearRun ReportModel ProgramModel ProgramSpec ProgramProofs PropertiesProgram CauseSpec CauseProofs.
Open Scope Z_scope.

Lemma stat_le_nonneg n a b : stat_le n 5 a b -> stat_nonneg n a -> stat_nonneg n b.
Proof.
  intros [A B C D _ _ _ _] N j k Hj Hk. destruct (N j k Hj Hk) as (N1 & N2 & N3 & N4).
  specialize (A j k Hj Hk). specialize (B j k Hj Hk). specialize (C j k Hj Hk). specialize (D j k Hj Hk). lia.
Qed.
Lemma first_nonneg n : stat_nonneg n (first_stat n).
Proof. intros j k _ _. unfold first_stat. cbn [lolG lolT mgnG mgnT]. rewrite !zmget_repeat0. lia. Qed.
Lemma reset_nonneg NF n s : stat_shape n 5 s -> stat_nonneg n s -> stat_nonneg n (reset NF n s).
Proof.
  intros S N j k Hj Hk. specialize (N j k Hj Hk). unfold reset. cbn [lolG lolT mgnG mgnT]. destruct S.
  rewrite !(reset_area_get _ _ n 5) by auto. destruct ((j <? NF)%nat && (k <? n)%nat); lia.
Qed.

Section Runs.
  Variables (inv : list (list Qc) -> option (list (list Qc)))
            (lp : list (list Qc) -> list (list Qc) -> list (list Qc) -> res (list Qc * list (list Qc))).
  Hypothesis KA : keeps_areas lp.
  Variables (n nu nl : nat) (i : input).
  Hypothesis IN : input_ok n nu nl i.
  Variables (IG IL : list Z).
  Hypothesis SD : seeder JSEED nu nl = Ok (IG, IL).
  Let s0 := start (loop_cfg i) nu (first_world i IG IL).

  Lemma nonneg_trace lg s a b c d : trace (program inv lp i) (loop_cfg i) s0 0 0 0 0 lg s a b c d ->
    stat_nonneg n (hrs (w_h (s_w s))) /\ stat_nonneg n (pks (w_h (s_w s))) /\
    exists l, run_years (year_cfg i) n 0 (start_year n (i_INTV i) (i_ITAB i)) l = Ok (w_y (s_w s), w_out (s_w s)) /\
      length l = d /\ Forall (annual_ok n) l /\ Forall (annual_nonneg n) l.
  Proof.
    intros T. remember 0%nat as z0 eqn:Z0 in T at 1. remember 0%nat as z1 eqn:Z1 in T at 1.
    remember 0%nat as z2 eqn:Z2 in T at 1. remember 0%nat as z3 eqn:Z3 in T at 1. remember s0 as st0 eqn:ES0.
    induction T as [|st0 a0 b0 c0 d0 lg s1 a1 b1 c1 d1 e s2 a2 b2 c2 d2 T IH I ES RF LF LC EC FA ST].
    { subst. unfold s0, start, first_world. cbn [s_w w_h w_y w_out hrs pks]. rewrite (n_areas n nu nl i IN).
      split; [apply first_nonneg|]. split; [apply first_nonneg|]. exists []. repeat split; constructor. }
    specialize (IH Z0 Z1 Z2 Z3 ES0). destruct IH as (N1 & N2 & l & R1 & R2 & R3 & R4).
    rewrite ES0, Z0, Z1, Z2, Z3 in T.
    destruct (program_trace inv lp KA n nu nl i IN IG IL lg s1 a1 b1 c1 d1 SD T) as (R & l0 & P).
    pose proof (pi_ok _ _ _ _ _ _ _ _ _ _ _ _ P) as HS. pose proof (pi_rt _ _ _ _ _ _ _ _ _ _ _ _ P) as HR. pose proof (pi_pl _ _ _ _ _ _ _ _ _ _ _ _ P) as HP.
    destruct ST as [s2 S1 S2 S3 S4 S5 S6 | s2 S1 S2 S3 S4 S5 S6 | s2 S1 S2 S3 S4 S5 S6 | s2 S0 S1 S2 S3 S4 S5].
    - cbn [program h_hour] in S1. unfold do_hour in S1.
      destruct (hour inv lp (i_h i) _ _ _ _) as [h'|] eqn:EH; cbn [bind] in S1; [|discriminate]. injection S1 as EW.
      change (fst (draw_event (c_JSTEP (loop_cfg i)) (S a1))) with (on (x_JSTEP (i_h i) * Z.of_nat (S a1))) in EH.
      assert (K1 : 1 <= x_JSTEP (i_h i) * Z.of_nat (S a1)) by (pose proof (proj1 (in_step _ _ _ _ IN)); nia).
      destruct (hour_spec n nu nl (i_h i) (in_study _ _ _ _ IN) _ K1 inv lp (w_h (s_w s1)) (s_plndst s1) (s_rating s1) HS HP HR h' KA EH)
        as (HO & _ & _ & recs & _ & _ & _ & _ & _ & G1 & G2).
      rewrite <- EW. cbn [w_h w_y w_out]. split; [eapply stat_le_nonneg; eauto|]. split; [eapply stat_le_nonneg; eauto|]. exists l. auto.
    - rewrite S6. eauto 10.
    - rewrite S6. eauto 10.
    - cbn [program h_year] in S1. unfold do_year in S1. rewrite (n_areas n nu nl i IN) in S1. cbv zeta in S1.
      set (ann := (hrs (w_h (s_w s1)), pks (w_h (s_w s1)))) in *.
      change (mkYst (hrs (w_h (s_w s1))) _ _ _ _ _ _ _ _ _ _ _ _) with (with_annual (w_y (s_w s1)) ann) in S1.
      change (fst (year_event (S d1))) with (qz (8760 * Z.of_nat (S d1))) in S1.
      destruct (year (year_cfg i) n _ _) as [[y' o]|] eqn:EY; cbn [bind] in S1; [|discriminate]. injection S1 as EW ER.
      assert (EH : y_h y' = reset (x_NFCST (i_h i)) n (hrs (w_h (s_w s1))) /\ y_p y' = reset (x_NFCST (i_h i)) n (pks (w_h (s_w s1)))).
      { pose proof (year_ok _ _ _ _ _ _ EY) as (h1 & d1' & e1 & RF' & SSQ & XL & _ & _ & K). cbv zeta in K. destruct K as (_ & A & B & _). auto. }
      destruct EH as (EH & EP). rewrite <- EW. cbn [w_h w_y w_out hrs pks]. rewrite EH, EP.
      split; [apply reset_nonneg; [apply HS|exact N1]|]. split; [apply reset_nonneg; [apply HS|exact N2]|].
      exists (l ++ [ann]). split; [|split; [|split]].
      + apply run_snoc. exists (w_y (s_w s1)), (w_out (s_w s1)), o. split; [exact R1|]. split; [|reflexivity].
        rewrite R2. replace (0 + Z.of_nat d1 + 1) with (Z.of_nat (S d1)) by lia. exact EY.
      + rewrite app_length, R2. cbn [length]. lia.
      + apply Forall_app. split; [exact R3|]. constructor; [|constructor]. split; apply HS.
      + apply Forall_app. split; [exact R4|]. constructor; [|constructor]. split; assumption.
  Qed.

  Lemma week_never_fails s a b c d lg : outages_ok nu (i_JPLOUT i) -> trace (program inv lp i) (loop_cfg i) s0 0 0 0 0 lg s a b c d ->
    exists p, week_status (s_jhour s) (i_JPLOUT i) (s_plndst s) = Ok p.
  Proof.
    intros (LW & RW) T. destruct (trace_vars _ _ _ _ _ _ _ _ _ _ T) as (EJ & _ & _ & LP).
    assert (B : -1 <= s_jhour s < 8760).
    { rewrite EJ. destruct (Nat.eqb a 0); [lia|]. rewrite hour_index_int by (pose proof (proj1 (in_step _ _ _ _ IN)); change (c_JSTEP (loop_cfg i)) with (x_JSTEP (i_h i)); nia).
      pose proof (Z.mod_pos_bound (c_JSTEP (loop_cfg i) * Z.of_nat a) 8760 ltac:(lia)). lia. }
    unfold week_status. destruct (Z.ltb_spec 51 (s_jhour s / 168)); [eauto|].
    assert (B2 : -1 <= s_jhour s / 168 <= 51) by (split; [apply Z.div_le_lower_bound; lia|lia]).
    destruct (pyget_in_range (i_JPLOUT i) (s_jhour s / 168)) as (row & t & Ht & E & NE & _); [rewrite LW; lia|]. rewrite E. cbn [bind].
    rewrite Forall_forall in RW. destruct (RW row (nth_error_In _ _ NE)) as (MT & rest & -> & HM & HE).
    rewrite (pyget_nonneg _ _ 0) by (cbn [length]; lia). cbn [nth bind Z.to_nat].
    assert (PS : pyslice (MT :: rest) 1 (MT + 1) = firstn (Z.to_nat MT) rest).
    { unfold pyslice. replace (MT + 1 <? 0) with false by (symmetry; apply Z.ltb_ge; lia).
      rewrite Z2Nat.inj_add by lia. rewrite Nat.add_1_r. cbn [firstn skipn]. reflexivity. }
    rewrite PS. destruct (fancy_set_spec (firstn (Z.to_nat MT) rest) (repeat q1 (length (s_plndst s))) q0) as (p & EP & _); [|eauto].
    intros x Hx. rewrite repeat_length, LP. apply In_nth with (d := 0) in Hx. destruct Hx as (j & Hj & <-).
    rewrite firstn_length in Hj. specialize (HE j ltac:(lia)). rewrite <- (firstn_skipn (Z.to_nat MT) rest) in HE.
    rewrite app_nth1 in HE by (rewrite firstn_length; lia). exact HE.
  Qed.
  Lemma season_never_fails s a b c d lg : rates_ok (i_RATES i) -> trace (program inv lp i) (loop_cfg i) s0 0 0 0 0 lg s a b c d ->
    exists r, rates_of (i_RATES i) (next_IQ (s_iq s)) = Ok r.
  Proof.
    intros RO T. destruct (trace_vars _ _ _ _ _ _ _ _ _ _ T) as (_ & EQ & _).
    assert (B : 0 <= next_IQ (s_iq s) < 4) by (unfold next_IQ; apply Z.mod_pos_bound; lia).
    rewrite <- (Z2Nat.id (next_IQ (s_iq s))) by lia. rewrite rates_of_column; [eauto|lia|exact RO].
  Qed.
End Runs.
