(** Proofs for C123: a run traced with an invariant of the network and facts about each
    draw. *)
From Verif Require Import Base BaseProofs Sums LoadModel LoadSpec LoadProofs StatModel StatSpec StatProofs YearModel YearSpec YearProofs YearRun ReportSpec SampleModel SampleProofs NetModel NetSpec MatProofs NetProofs FlowProofs AssignProofs UpdateProofs TransmProofs EventModel ControlModel ControlSpec ControlProofs RunProofs
  HourModel HourSpec HourProofs CauseSpec ProgramModel ProgramSpec ProgramProofs HistorySpec HistoryProofs LevelsProofs PlateSpec PlateProofs.
Open Scope Z_scope.

Section GenericTrace.
  Variables (inv : list (list Qc) -> option (list (list Qc)))
            (lp : list (list Qc) -> list (list Qc) -> list (list Qc) -> res (list Qc * list (list Qc))).
  Hypothesis KA : keeps_areas lp.
  Variables (n nu nl : nat) (i : input).
  Hypothesis IN : input_ok n nu nl i.
  Variable Q : netst -> Prop.
  Variable X : Z -> list Qc -> list Z -> list rec -> Prop.
  Hypothesis Q0 : Q (first_net i).
  Hypothesis STEP : forall k PL RT s s', 1 <= k -> hst_ok n nu nl s -> Q (hnet s) -> length PL = nu -> length RT = nu ->
    hour inv lp (i_h i) (on k) PL RT s = Ok s' ->
    let AV := snd (gstate (IGSEED s) (x_PROBG (i_h i)) RT (x_DERATE (i_h i)) PL) in
    let LN := snd (lstate (ILSEED s) (x_PROBL (i_h i))) in
    hst_ok n nu nl s' /\ Q (hnet s') /\
    (forall u, (u < nu)%nat -> nth u (IGSEED s') 0 = (nth u (IGSEED s) 0 * 65539) mod 2 ^ 31) /\
    (forall u, (u < nl)%nat -> nth u (ILSEED s') 0 = (nth u (ILSEED s) 0 * 65539) mod 2 ^ 31) /\
    exists recs, (LSFLG s', hrs s', pks s') = fold_left record_hour (map (fun r => (fst r, map qz (snd r), peak_hour (i_h i) k)) recs) (LSFLG s, hrs s, pks s) /\
      map fst recs = seq 0 (length recs) /\ (length recs <= x_NFCST (i_h i))%nat /\
      Forall (level_record inv lp n (i_h i) k AV LN) recs /\
      (length recs = x_NFCST (i_h i) \/ level_covered inv lp n (i_h i) k AV LN (length recs)) /\
      X k AV LN recs.
  Definition extra (lg : log world) (k : nat) (recs : list rec) : Prop :=
    exists s AV LN, In (draw_event (x_JSTEP (i_h i)) k, s) lg /\ capacities nu i k s AV /\ line_states nu nl i k LN /\ X (x_JSTEP (i_h i) * Z.of_nat k) AV LN recs.
  Lemma extra_mono lg e s k recs : extra lg k recs -> extra (lg ++ [(e, s)]) k recs.
  Proof. intros (s' & AV & LN & H & rest). exists s', AV, LN. split; [apply in_or_app; now left|exact rest]. Qed.

  Lemma generic_trace IG IL lg s a b c d :
    seeder JSEED nu nl = Ok (IG, IL) ->
    trace (program inv lp i) (loop_cfg i) (start (loop_cfg i) nu (first_world i IG IL)) 0 0 0 0 lg s a b c d ->
    exists R l, pinv inv lp n nu nl i lg s a d R l /\ Q (hnet (w_h (s_w s))) /\ forall k, (1 <= k <= a)%nat -> extra lg k (R k).
  Proof.
    intros SD. remember (start (loop_cfg i) nu (first_world i IG IL)) as s00 eqn:ES0.
    intros T. pose proof (in_study _ _ _ _ IN) as ST0.
    assert (VARS : forall lg s a b c d, trace (program inv lp i) (loop_cfg i) s00 0 0 0 0 lg s a b c d -> length (s_plndst s) = nu)
      by (intros; subst s00; eapply trace_vars; eassumption).
    remember 0%nat as z0 eqn:Z0 in T at 1. remember 0%nat as z1 eqn:Z1 in T at 1.
    remember 0%nat as z2 eqn:Z2 in T at 1. remember 0%nat as z3 eqn:Z3 in T at 1.
    induction T as [|s0 a0 b0 c0 d0 lg s1 a1 b1 c1 d1 e s2 a2 b2 c2 d2 T IH I ES RF LF LC EC FA ST].
    { subst. exists (fun _ => []), []. split; [|split; [exact Q0|intros k Hk; lia]].
      destruct (streams JSEED nl (x_PROBG (i_h i)) (x_DERATE (i_h i)) [] (x_PROBL (i_h i)) 0) as (IG' & IL' & E & A & B).
      { apply ST0. } { destruct (st_units _ _ _ _ ST0). congruence. } { constructor. }
      fold (i_units i) in E. rewrite (n_units n nu nl i IN), SD in E. injection E as <- <-.
      cbn [gseeds_after lseeds_after] in A, B.
      constructor; cbn [start s_w s_rating s_plndst first_world w_h w_y w_out IGSEED ILSEED hrs pks hnet LSFLG].
      - assert (L12 : length IG = S nu /\ length IL = S nl).
        { unfold seeder in SD. destruct (pyget _ _); cbn [bind] in SD; [|discriminate]. injection SD as <- <-. split; apply seed_chain_length. }
        destruct L12 as (L1 & L2). rewrite (n_areas n nu nl i IN).
        constructor; cbn [IGSEED ILSEED hnet n_BN first_net LSFLG hrs pks]; try lia; try apply first_stat_shape.
        + exact (in_bn _ _ _ _ IN). + apply repeat_length.
      - intros u Hu. rewrite A by (rewrite (proj1 (st_units _ _ _ _ ST0)); exact Hu). reflexivity.
      - intros v Hv. rewrite B by exact Hv. rewrite (proj1 (st_units _ _ _ _ ST0)). reflexivity.
      - apply repeat_length.
      - apply repeat_length.
      - pose proof (J_pos n nu nl i IN). lia.
      - now left.
      - intros k Hk. lia.
      - intros pl wn wt c k VP Hk. replace (since n i pl k 0) with 0%nat.
        2:{ unfold since. destruct (cleared n (x_NFCST (i_h i)) pl k); [|reflexivity]. symmetry. apply (draws_upto_full n nu nl i IN); pose proof (J_pos n nu nl i IN); lia. }
        cbn [seq Nat.sub]. rewrite total_nil, (n_areas n nu nl i IN). rewrite part_stat. assert (stat_part pl wt c k (first_stat n) = 0) as Z.
        { unfold stat_part, part, first_stat. cbn [fst snd lolG lolT mgnG mgnT plolG plolT pmgnG pmgnT]. destruct pl, wt, c; rewrite ?zmget_repeat0, ?zget_repeat0; reflexivity. }
        destruct wn; exact Z.
      - rewrite (n_areas n nu nl i IN). reflexivity.
      - reflexivity.
      - constructor.
      - intros; lia. }
    destruct IH as (R & l & P & QS & XS); auto.
    assert (PL2 : length (s_plndst s2) = nu).
    { apply (VARS (lg ++ [(e, s2)]) s2 a2 b2 c2 d2). subst. eapply tr_snoc; eauto. }
    assert (AGY : (fst e <= fst (year_event (S d1)))%Qc).
    { rewrite Forall_forall in FA. specialize (FA (2 * (8760 * Z.of_nat (S d1)), 4)).
      assert (In (2 * (8760 * Z.of_nat (S d1)), 4) (agenda (c_JSTEP (loop_cfg i)) a1 b1 c1 d1)) as X9 by (unfold agenda, zyear; cbn; auto 10).
      specialize (FA X9). eapply Qcle_trans; [exact FA|]. unfold inj, year_event. cbn [fst]. unfold on. rewrite qz_hh. apply Qcle_refl. }
    destruct P as [P1 P2 P3 P4 P5 P6 P7 P8 P9 P10 P11 P12 P13].
    destruct ST as [s2 S1 S2 S3 S4 S5 S6 | s2 S1 S2 S3 S4 S5 S6 | s2 S1 S2 S3 S4 S5 S6 | s2 S0 S1 S2 S3 S4 S5].
    - (* draw *)
      cbn [program h_hour] in S1. unfold do_hour in S1.
      destruct (hour inv lp (i_h i) _ _ _ _) as [h'|] eqn:EH; cbn [bind] in S1; [|discriminate]. injection S1 as EW.
      change (fst (draw_event (c_JSTEP (loop_cfg i)) (S a1))) with (on (x_JSTEP (i_h i) * Z.of_nat (S a1))) in EH.
      assert (K1 : 1 <= x_JSTEP (i_h i) * Z.of_nat (S a1)) by (pose proof (J_pos n nu nl i IN); nia).
      destruct (STEP _ (s_plndst s1) (s_rating s1) (w_h (s_w s1)) h' K1 P1 QS P5 P4 EH)
        as (HO & QS' & IG1 & IL1 & recs & RE & RF1 & RL & RO & RC & XX).
      set (R' := fun k => if Nat.eqb k (S a1) then recs else R k).
      assert (RR : forall k, (k <= a1)%nat -> R' k = R k) by (intros k Hk; unfold R'; destruct (Nat.eqb_spec k (S a1)); [lia|reflexivity]).
      assert (RN : R' (S a1) = recs) by (unfold R'; now rewrite Nat.eqb_refl).
      assert (TE : forall pl wn wt c k st m, (st + m <= a1)%nat -> total i pl wn wt c k R' (seq (st + 1) m) = total i pl wn wt c k R (seq (st + 1) m)).
      { intros. apply total_ext. intros x Hx. apply in_seq in Hx. apply RR. lia. }
      assert (LT1 : x_JSTEP (i_h i) * Z.of_nat (S a1) <= 8760 * Z.of_nat (S d1)).
      { cbn [draw_event year_event fst] in AGY. apply (proj1 (qz_le _ _)) in AGY. exact AGY. }
      assert (CA : capacities nu i (S a1) s2 (snd (gstate (IGSEED (w_h (s_w s1))) (x_PROBG (i_h i)) (s_rating s1) (x_DERATE (i_h i)) (s_plndst s1)))).
      { exists (IGSEED (w_h (s_w s1))). split; [apply P1|]. split; [intros u Hu; rewrite Nat.sub_1_r; cbn [Nat.pred]; now apply P2|]. rewrite S4, S5. reflexivity. }
      assert (LS : line_states nu nl i (S a1) (snd (lstate (ILSEED (w_h (s_w s1))) (x_PROBL (i_h i))))).
      { exists (ILSEED (w_h (s_w s1))). split; [apply P1|]. split; [intros u Hu; rewrite Nat.sub_1_r; cbn [Nat.pred]; now apply P3|]. reflexivity. }
      exists R', l. split; [|split; [rewrite <- EW; exact QS'|]].
      2:{ intros k Hk. destruct (Nat.eq_dec k (S a1)) as [->|NE].
        - rewrite RN. eexists s2, _, _. split; [apply in_or_app; right; now left|]. split; [exact CA|]. split; [exact LS|exact XX].
        - rewrite RR by lia. apply extra_mono, XS. lia. }
      constructor; rewrite <- ?EW; cbn [w_h w_y w_out]; auto.
      + intros u Hu. rewrite IG1, P2 by exact Hu. unfold unit_seed. rewrite Zmult_mod_idemp_l. f_equal.
        rewrite Nat2Z.inj_succ, Z.pow_succ_r by lia. ring.
      + intros u Hu. rewrite IL1, P3 by exact Hu. unfold line_seed, unit_seed. rewrite Zmult_mod_idemp_l. f_equal.
        rewrite Nat2Z.inj_succ, Z.pow_succ_r by lia. ring.
      + now rewrite S5.
      + rewrite Nat.add_1_r. exact LT1.
      + destruct P7 as [P7|P7]; [now left|right]. pose proof (J_pos n nu nl i IN). lia.
      + intros k Hk. destruct (Nat.eq_dec k (S a1)) as [->|NE].
        * rewrite RN. exists s2, (snd (gstate (IGSEED (w_h (s_w s1))) (x_PROBG (i_h i)) (s_rating s1) (x_DERATE (i_h i)) (s_plndst s1))),
            (snd (lstate (ILSEED (w_h (s_w s1))) (x_PROBL (i_h i)))).
          split; [apply in_or_app; right; now left|]. split; [|split].
          { exists (IGSEED (w_h (s_w s1))). split; [apply P1|]. split; [intros u Hu; rewrite Nat.sub_1_r; cbn [Nat.pred]; now apply P2|]. rewrite S4, S5. reflexivity. }
          { exists (ILSEED (w_h (s_w s1))). split; [apply P1|]. split; [intros u Hu; rewrite Nat.sub_1_r; cbn [Nat.pred]; now apply P3|]. reflexivity. }
          auto 10.
        * rewrite RR by lia. apply draw_outcome_mono, P8. lia.
      + intros pl wn wt c k VP Hk. pose proof (since_a n nu nl i IN pl k a1 d1 P7) as SA. rewrite (upto_split i) by exact SA.
        rewrite total_app, total_one, RN, TE by lia. rewrite <- P9 by auto.
        assert (FS : Forall (fun r : rec => (fst r < 5)%nat /\ length (snd r) = n) recs).
        { apply Forall_forall. intros [l0 M] Hr. rewrite Forall_forall in RO. pose proof (RO _ Hr) as (LM & _). cbn. split; [|exact LM].
          assert (In l0 (seq 0 (length recs))) as X9 by (rewrite <- RF1; apply in_map_iff; exists (l0, M); auto). apply in_seq in X9. pose proof (nf5 n nu nl i IN). lia. }
        destruct P1 as [_ _ _ LFG SH SP].
        pose proof (nf5 n nu nl i IN) as N5. destruct (records_part n _ recs _ _ _ _ _ _ RE FS LFG SH SP pl wt c k VP ltac:(lia)) as (A & B).
        rewrite !part_stat. destruct wn; cbn [counts]; [exact A|]. rewrite B. rewrite <- (peak_hour_spec n nu nl i (S a1) ST0). reflexivity.
      + intros y pl wn wt c k Hy VP Hk. rewrite TE; [now apply P13|].
        assert (draws_upto i (S y) <= a1)%nat; [|pose proof (since_le n i pl k y); pose proof (draws_upto_le n nu nl i IN y (S y)); lia].
        apply Nat.nlt_ge. intros C. apply (proj1 (draws_upto_le_iff n nu nl i IN (S y) (S a1))) in C.
        destruct P7 as [->|P7]; [lia|]. lia.
    - (* week *)
      exists R, l. split; [|split; [rewrite S6; exact QS|intros k Hk; apply extra_mono, XS; exact Hk]]. constructor; rewrite ?S6; auto.
      + now rewrite S4.
      + intros k Hk. apply draw_outcome_mono. auto.
    - (* season *)
      exists R, l. split; [|split; [rewrite S6; exact QS|intros k Hk; apply extra_mono, XS; exact Hk]]. constructor; rewrite ?S6; auto.
      + rewrite (rates_of_length _ _ _ S2). exact (in_rates _ _ _ _ IN).
      + intros k Hk. apply draw_outcome_mono. auto.
    - (* year *)
      cbn [program h_year] in S1. unfold do_year in S1. rewrite (n_areas n nu nl i IN) in S1.
      set (ann := (hrs (w_h (s_w s1)), pks (w_h (s_w s1)))).
      change (mkYst (hrs (w_h (s_w s1))) _ _ _ _ _ _ _ _ _ _ _ _) with (with_annual (w_y (s_w s1)) ann) in S1.
      change (fst (year_event (S d1))) with (qz (8760 * Z.of_nat (S d1))) in S1.
      destruct (year (year_cfg i) n _ _) as [[y' o]|] eqn:EY; cbn [bind] in S1; [|discriminate]. injection S1 as EW ER.
      assert (AOK : annual_ok n ann) by (split; apply P1).
      assert (DU : draws_upto i (S d1) = a1) by (apply (draws_upto_full n nu nl i IN); [rewrite <- Nat.add_1_r; exact P6|exact S0]).
      pose proof (nf5 n nu nl i IN) as N5.
      assert (EH : y_h y' = reset (x_NFCST (i_h i)) n (hrs (w_h (s_w s1))) /\ y_p y' = reset (x_NFCST (i_h i)) n (pks (w_h (s_w s1)))).
      { pose proof (year_ok _ _ _ _ _ _ EY) as (h1 & d1' & e1 & RF' & SSQ & XL & _ & _ & K). cbv zeta in K. destruct K as (_ & A & B & _). auto. }
      destruct EH as (EH & EP).
      exists R, (l ++ [ann]). split; [|split; [rewrite <- EW; exact QS|intros k Hk; apply extra_mono, XS; exact Hk]]. constructor; rewrite <- ?EW; cbn [w_h w_y w_out IGSEED ILSEED hrs pks]; auto.
      + destruct P1. constructor; cbn [IGSEED ILSEED hnet LSFLG hrs pks]; auto; rewrite ?EH, ?EP; now apply reset_shape.
      + now rewrite S5.
      + cbn [Nat.add]. lia.
      + intros k Hk. apply draw_outcome_mono. auto.
      + intros pl wn wt c k VP Hk. rewrite part_stat, EH, EP.
        transitivity (stat_part pl wt c k (reset (x_NFCST (i_h i)) n match wn with Hourly => hrs (w_h (s_w s1)) | Peak => pks (w_h (s_w s1)) end)); [destruct wn; reflexivity|].
        rewrite reset_part by (try lia; auto; destruct wn; apply P1). unfold since. destruct (cleared n (x_NFCST (i_h i)) pl k) eqn:CL.
        * rewrite DU, Nat.sub_diag. reflexivity.
        * specialize (P9 pl wn wt c k VP Hk). unfold since in P9. rewrite CL in P9. rewrite <- P9, part_stat. reflexivity.
      + apply run_snoc. exists (w_y (s_w s1)), (w_out (s_w s1)), o. split; [exact P10|]. split; [|reflexivity].
        rewrite P11. replace (0 + Z.of_nat d1 + 1) with (Z.of_nat (S d1)) by lia. exact EY.
      + rewrite app_length, P11. cbn [length]. lia.
      + apply Forall_app. split; [exact P12|]. constructor; [exact AOK|constructor].
      + intros y pl wn wt c k Hy VP Hk. destruct (Nat.eq_dec y d1) as [->|NE].
        * rewrite app_nth2, P11, Nat.sub_diag by lia. cbn [nth]. unfold ann. rewrite P9 by auto. rewrite DU. reflexivity.
        * rewrite app_nth1 by lia. apply P13; auto. lia.
  Qed.

End GenericTrace.
