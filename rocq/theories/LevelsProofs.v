(** Proofs for C120. *)
From Verif Require Import Base BaseProofs Sums LoadModel LoadSpec LoadProofs StatModel StatSpec StatProofs YearModel YearSpec YearProofs YearRun ReportSpec SampleModel SampleProofs NetModel NetSpec NetProofs UpdateProofs TransmProofs EventModel ControlModel ControlSpec ControlProofs RunProofs
  HourModel HourSpec HourProofs CauseSpec ProgramModel ProgramSpec ProgramProofs HistorySpec HistoryProofs CertainSpec CertainProofs LevelsSpec.
Open Scope Z_scope.

(** *** one solution after another on the same base *)
Definition refuse (er : pyerr) : list (list Qc) -> list (list Qc) -> list (list Qc) -> res (list Qc * list (list Qc)) := fun _ _ _ => Err er.
Lemma refuse_limits er : keeps_limits (refuse er). Proof. intros BB BLP BN F BN' E. discriminate E. Qed.
Lemma refuse_areas er : keeps_areas (refuse er). Proof. intros BB BLP BN F BN' E. discriminate E. Qed.

Section Settled.
  Variables (inv : list (list Qc) -> option (list (list Qc))) (er : pyerr) (n : nat) (LP : list (nat * nat)) (BLPA : list (list Qc)) (NR : nat).
  Hypothesis IO : inv_ok inv. Hypothesis LA : lp_areas LP = n. Hypothesis DE : distinct_ends LP. Hypothesis HR : (NR < n)%nat. Hypothesis LB : length BLPA = length LP.
  Definition settled (s : netst) : Prop := tm1 inv (n_BN s) LP (map (firstn 3) BLPA) NR = Ok (n_BLP0 s, n_BB s, n_LT s, n_ZB s).

  Lemma tm1_same BN BN' : agree_off [1; 2; 4]%nat BN BN' -> tm1 inv BN' LP (map (firstn 3) BLPA) NR = tm1 inv BN LP (map (firstn 3) BLPA) NR.
  Proof.
    intros (EL & H). unfold tm1, admitr. rewrite EL. replace (mcol BN' 0) with (mcol BN 0); [reflexivity|].
    unfold mcol. apply (nth_ext0 q0); [now rewrite !map_length|]. intros k. change (vget (mcol BN 0) k = vget (mcol BN' 0) k). rewrite !mcol_nth. symmetry. apply (H k). cbn. lia.
  Qed.
  Lemma transm_settles IFLAG s STMULT LN NLS TR TJ SC CR JF FL SA s' : areas_numbered n (n_BN s) -> wide (n_BN s) -> (IFLAG = true -> settled s) ->
    transm inv (refuse er) IFLAG s BLPA LP NR STMULT LN NLS TR TJ SC CR = Ok (JF, FL, SA, s') -> settled s'.
  Proof.
    intros AN W ST E. pose proof (proj1 (transm_limits _ _ _ _ _ _ _ _ _ _ _ _ _ _ _ _ _ _ (refuse_limits er) W E)) as AG.
    unfold settled. rewrite (tm1_same _ _ AG).
    assert (B : exists b, (if IFLAG then Ok (n_BLP0 s, n_BB s, n_LT s, n_ZB s) else tm1 inv (n_BN s) LP (map (firstn 3) BLPA) NR) = Ok b /\ tm1 inv (n_BN s) LP (map (firstn 3) BLPA) NR = Ok b).
    { destruct IFLAG; [eexists; split; [reflexivity|now apply ST]|]. unfold transm in E. destruct (tm1 _ _ _ _ _) as [b|]; cbn [bind] in E; [|discriminate]. eauto. }
    destruct B as ([[[BLP0 BB] LT] ZB] & B1 & B2). rewrite B2. unfold transm in E. rewrite B1 in E. cbn [bind] in E.
    assert (LN' : length (n_BN s) = n) by apply AN.
    assert (T1 := tm1_spec inv (n_BN s) LP (map (firstn 3) BLPA) NR BLP0 BB LT ZB IO). rewrite LN' in T1.
    specialize (T1 AN LA DE ltac:(rewrite map_length; exact LB) HR B2). cbv zeta in T1.
    destruct T1 as (_ & OK & BO & _). destruct BO as [SB SZ _ _].
    assert (LI : lines_in n LP) by (rewrite <- LA; now apply distinct_lines_in).
    destruct (tm2 (refuse er) (sched_rows (n_BN s) TR TJ SC CR) LP _ BLP0 BB ZB LT NR true) as [o1|] eqn:E1; cbn [bind] in E; [|discriminate].
    assert (L1 : length (sched_rows (n_BN s) TR TJ SC CR) = n) by (unfold sched_rows; rewrite mapi_length; exact LN').
    destruct (tm2_restores n NR LT _ _ _ _ _ _ _ _ _ OK LI L1 SB SZ E1) as (R1 & R2 & _). specialize (R2 (accepted_no_lp _ _ _ _ _ _ _ _ _ _ _ E1)).
    apply tm2_agree in E1; [|apply refuse_limits]. destruct (forallb _ _).
    - injection E as <- <- <- <-. cbn [n_BLP0 n_BB n_LT n_ZB]. congruence.
    - match type of E with context [tm2 (refuse er) ?a ?b ?c ?d ?g ?f ?h ?j ?k] => destruct (tm2 (refuse er) a b c d g f h j k) as [o2|] eqn:E2 end; cbn [bind] in E; [|discriminate].
      rewrite R1, R2 in E2. injection E as <- <- <- <-. cbn [n_BLP0 n_BB n_LT n_ZB].
      match type of E2 with tm2 _ ?a _ _ _ _ _ _ _ _ = _ => assert (L2 : length a = n) end.
      { rewrite <- L1, <- (proj1 E1). destruct NLS; [rewrite (proj1 (resid_agree _ _ _))|]; unfold emergency_rows; now rewrite mapi_length. }
      destruct (tm2_restores n NR LT _ _ _ _ _ _ _ _ _ OK LI L2 SB SZ E2) as (R3 & R4 & _). specialize (R4 (accepted_no_lp _ _ _ _ _ _ _ _ _ _ _ E2)). congruence.
  Qed.
  Lemma transm_next IFLAG s s' STMULT LN NLS TR TJ SC CR : settled s' \/ IFLAG = false -> same_areas (n_BN s) (n_BN s') ->
    transm inv (refuse er) IFLAG s' BLPA LP NR STMULT LN NLS TR TJ SC CR = transm inv (refuse er) false s BLPA LP NR STMULT LN NLS TR TJ SC CR.
  Proof.
    intros ST SA. rewrite <- (transm_same inv (refuse er) s s') by exact SA. destruct IFLAG; [|reflexivity].
    destruct ST as [ST|?]; [|discriminate]. unfold transm. rewrite <- ST. reflexivity.
  Qed.
End Settled.

(** *** the levels of an hour *)
Lemma plain_same B B' : agree_off [1; 2; 4]%nat B B' -> (forall j, (j < length B)%nat -> mget B' j 4 = mget B j 4 \/ mget B' j 4 = mget B j 3) -> equal_limits B -> same_areas B B'.
Proof.
  intros (EL & A) D EQ. split; [exact EL|]. intros j. split; [apply (A j)|]. intros c NC. destruct (Nat.eq_dec c 4) as [->|N4]; [|apply (A j); cbn in *; intuition].
  destruct (Nat.lt_ge_cases j (length B)) as [L|L].
  - destruct (D j L) as [H|H]; rewrite H; [reflexivity|]. symmetry. now apply EQ.
  - unfold mget. rewrite (nth_overflow B'), (nth_overflow B) by lia. reflexivity.
Qed.
Section Uniform.
  Variables (n nu nl : nat) (cf : hcfg). Hypothesis ST : study n nu nl cf.
  Variable k : Z. Hypothesis Hk : 1 <= k.
  Variables (inv : list (list Qc) -> option (list (list Qc))) (er : pyerr).
  Hypothesis IO : inv_ok inv. Hypothesis BN0 : base_net n cf. Hypothesis LB : length (x_BLPA cf) = length (x_LP cf).
  Hypothesis NU : no_uncertainty cf.
  Variables (AV : list Qc) (d : drawn) (J : Z).
  Hypothesis DSC : d_SYSCON d = vtab n (located cf AV).
  Hypothesis HJ : pyidx (365 * 24) J = Some (hour_used cf k).

  Lemma demand_same : exists C, length C = n /\ (forall l, (l < x_NFCST cf)%nat -> findld l J (x_HRLOAD cf) (x_FCTERR cf) = Ok C) /\
    length (margins (d_SYSCON d) C) = n.
  Proof using ST NU DSC HJ LB.
    pose proof (st_levels _ _ _ _ ST) as LV. destruct (demand_ok n nu nl cf ST k J 0 HJ ltac:(lia)) as (C & EC & LC & VC). exists C. split; [exact LC|]. split.
    - intros l Hl. destruct (demand_ok n nu nl cf ST k J l HJ ltac:(lia)) as (C' & EC' & LC' & VC'). rewrite EC'. f_equal.
      apply (nth_ext_eq _ _ q0); [congruence|]. intros j Hj. change (vget C' j = vget C j). rewrite VC, VC' by lia. unfold demand. f_equal.
      apply NU; auto. rewrite (proj1 (st_fct _ _ _ _ ST)). lia.
    - unfold margins. rewrite map2_length; rewrite DSC, vtab_length; congruence.
  Qed.
  Variable C : list Qc.
  Hypothesis LC : length C = n.
  Hypothesis EC : forall l, (l < x_NFCST cf)%nat -> findld l J (x_HRLOAD cf) (x_FCTERR cf) = Ok C.
  Let M := margins (d_SYSCON d) C.
  Hypothesis LM : length M = n.

  Lemma all_short ls : Forall (fun l => (l < x_NFCST cf)%nat) ls -> Nat.eqb (length (short_areas M)) 0 = false -> Nat.eqb (length (short_areas M)) (length (x_CAPOWN cf)) = true ->
    forall first s s', hst_ok n nu nl s -> levels inv (refuse er) cf (on k) J d ls first s = Ok s' ->
      stats_of s' = apply_recs cf k J (map (fun l => (l, M)) ls) s.
  Proof.
    intros F F0 F1. pose proof (st_levels _ _ _ _ ST) as LV. induction ls as [|l ls IH]; intros first s s' HS E; cbn [levels] in E; [injection E as <-; reflexivity|].
    pose proof (Forall_inv F) as Hl. cbv beta in Hl. rewrite (EC l Hl) in E. cbn [bind] in E. fold M in E. destruct (last_short M); cbn [bind] in E; [|discriminate]. rewrite F0, F1 in E.
    destruct (record_level_ok n nu nl cf ST k Hk J l M s HS ltac:(lia) LM) as (s1 & R1 & HS1 & RS & _ & _ & NT). rewrite R1 in E. cbn [bind] in E.
    apply (IH (Forall_inv_tail F)) in E; [|exact HS1]. unfold apply_recs. cbn [map fold_left fst snd]. fold (stats_of s). rewrite <- RS. exact E.
  Qed.

  Variable N0 : netst. Hypothesis AN0 : areas_numbered n (n_BN N0). Hypothesis W0 : wide (n_BN N0). Hypothesis EQ0 : equal_limits (n_BN N0).
  Let set := settled inv (x_LP cf) (x_BLPA cf) (x_NR cf).
  Lemma solved_levels ls FL SA N1 M2 : Forall (fun l => (l < x_NFCST cf)%nat) ls -> Nat.eqb (length (short_areas M)) 0 = false -> Nat.eqb (length (short_areas M)) (length (x_CAPOWN cf)) = false ->
    transm inv (refuse er) false N0 (x_BLPA cf) (x_LP cf) (x_NR cf) (repeat [q1; q1] (length (d_LNSTAT d))) (d_LNSTAT d) (x_NLS cf) (d_TRNSFR d) (d_TRNSFJ d) (d_SYSCON d) C = Ok (true, FL, SA, N1) ->
    M2 = map (fun x => qtrunc (- x)%Qc) SA -> existsb (fun m => m <? 0) M2 = true ->
    forall first s s', hst_ok n nu nl s -> same_areas (n_BN N0) (n_BN (hnet s)) -> (first = true -> set (hnet s)) ->
      levels inv (refuse er) cf (on k) J d ls first s = Ok s' ->
      stats_of s' = apply_recs cf k J (map (fun l => (l, M2)) ls) s.
  Proof.
    intros F F0 F1 T EM EX. pose proof (st_levels _ _ _ _ ST) as LV. destruct BN0 as [BA BE BR _ _].
    assert (LM2 : length M2 = n) by (rewrite EM, map_length, (proj1 (transm_len _ _ _ _ _ _ _ _ _ _ _ _ _ _ _ _ _ _ (refuse_areas er) T)); apply AN0).
    assert (S1 : set N1) by (eapply transm_settles; eauto; discriminate).
    destruct (transm_limits _ _ _ _ _ _ _ _ _ _ _ _ _ _ _ _ _ _ (refuse_limits er) W0 T) as (A1 & D1).
    assert (SA1 : same_areas (n_BN N0) (n_BN N1)) by (apply plain_same; auto).
    induction ls as [|l ls IH]; intros first s s' HS SA0 SE E; cbn [levels] in E; [injection E as <-; reflexivity|].
    pose proof (Forall_inv F) as Hl. cbv beta in Hl. rewrite (EC l Hl) in E. cbn [bind] in E. fold M in E. destruct (last_short M) as [IT|]; cbn [bind] in E; [|discriminate]. rewrite F0, F1 in E.
    destruct (if (1 <? length (short_areas M))%nat then Ok 0 else direct_help cf (d_LNSTAT d) M IT) as [ND|e1]; cbn [bind] in E; [|discriminate].
    rewrite (transm_next inv er (x_LP cf) (x_BLPA cf) (x_NR cf) first N0) in E; [|destruct first; [left; now apply SE|now right]|exact SA0].
    rewrite T in E. cbn [bind negb] in E. rewrite <- EM, EX in E. cbn [negb] in E.
    set (s1 := mkHst (IGSEED s) (ILSEED s) N1 (LSFLG s) (hrs s) (pks s)) in *.
    assert (HS1 : hst_ok n nu nl s1) by (destruct HS; constructor; cbn; auto; rewrite (proj1 SA1); apply AN0).
    destruct (record_level_ok n nu nl cf ST k Hk J l M2 s1 HS1 ltac:(lia) LM2) as (s2 & R2 & HS2 & RS & _ & _ & NT). rewrite R2 in E. cbn [bind] in E.
    apply (IH (Forall_inv_tail F)) in E; [|exact HS2|rewrite NT; exact SA1|intros _; rewrite NT; exact S1].
    unfold apply_recs. cbn [map fold_left fst snd]. change (LSFLG s, hrs s, pks s) with (stats_of s1). rewrite <- RS. exact E.
  Qed.
  Lemma uniform_levels s s' : hst_ok n nu nl s -> hnet s = N0 -> levels inv (refuse er) cf (on k) J d (seq 0 (x_NFCST cf)) false s = Ok s' ->
    exists recs, stats_of s' = apply_recs cf k J recs s /\ (recs = [] \/ exists X, length X = n /\ recs = map (fun l => (l, X)) (seq 0 (x_NFCST cf))).
  Proof.
    intros HS HN E. pose proof (st_levels _ _ _ _ ST) as LV. pose proof E as E'.
    assert (FA : Forall (fun l => (l < x_NFCST cf)%nat) (seq 0 (x_NFCST cf))) by (apply Forall_forall; intros x Hx; apply in_seq in Hx; lia).
    assert (SQ : seq 0 (x_NFCST cf) = 0%nat :: seq 1 (x_NFCST cf - 1)).
    { clear - LV. destruct (x_NFCST cf) as [|f]; [lia|]. cbn [seq]. do 2 f_equal. lia. }
    rewrite SQ in E. cbn [levels] in E. rewrite (EC 0%nat ltac:(lia)) in E. cbn [bind] in E. fold M in E.
    destruct (last_short M) as [IT|]; cbn [bind] in E; [|discriminate].
    destruct (Nat.eqb (length (short_areas M)) 0) eqn:F0. { injection E as <-. exists []. split; [reflexivity|now left]. }
    destruct (Nat.eqb (length (short_areas M)) (length (x_CAPOWN cf))) eqn:F1.
    { eexists. split; [|right; exists M; split; [exact LM|reflexivity]]. apply (all_short (seq 0 (x_NFCST cf))) with (first := false); auto. }
    destruct (if (1 <? length (short_areas M))%nat then Ok 0 else direct_help cf (d_LNSTAT d) M IT) as [ND|e1]; cbn [bind] in E; [|discriminate].
    destruct (transm _ _ _ (hnet s) _ _ _ _ _ _ _ _ _ _) as [[[[em FL] SA] net1]|] eqn:ET; cbn [bind] in E; [|discriminate].
    destruct em; cbn [negb] in E. 2:{ injection E as <-. exists []. split; [reflexivity|now left]. }
    destruct (existsb _ _) eqn:EX in E; cbn [negb] in E. 2:{ injection E as <-. exists []. split; [reflexivity|now left]. }
    rewrite HN in ET. eexists. split; [|right; exists (map (fun x => qtrunc (- x)%Qc) SA); split; [|reflexivity]].
    - eapply (solved_levels (seq 0 (x_NFCST cf))) with (first := false); eauto; [|discriminate]. rewrite HN. apply agree_refl.
    - rewrite map_length, (proj1 (transm_len _ _ _ _ _ _ _ _ _ _ _ _ _ _ _ _ _ _ (refuse_areas er) ET)). apply AN0.
  Qed.
End Uniform.

(** *** what an hour counts *)
Lemma rec_part_level pl wt c X l k : rec_part pl wt c k (l, X) = if Nat.eqb l k then rec_part pl wt c 0 (0%nat, X) else 0.
Proof. unfold rec_part. cbn [Nat.eqb]. reflexivity. Qed.
Lemma tally_uniform pl wt c X NF k : (k < NF)%nat -> tally pl wt c k (map (fun l => (l, X)) (seq 0 NF)) = rec_part pl wt c 0 (0%nat, X).
Proof.
  intros Hk. unfold tally. rewrite map_map.
  assert (G : forall m b, zsum (map (fun x => rec_part pl wt c k (x, X)) (seq b m)) = if (Nat.leb b k && Nat.ltb k (b + m))%bool then rec_part pl wt c 0 (0%nat, X) else 0).
  { induction m as [|m IH]; intros b; cbn [seq map].
    - change (zsum []) with 0. destruct (Nat.leb_spec b k), (Nat.ltb_spec k (b + 0)); cbn [andb]; auto; lia.
    - rewrite zsum_cons, IH, rec_part_level.
      destruct (Nat.eqb_spec b k), (Nat.leb_spec (S b) k), (Nat.ltb_spec k (S b + m)), (Nat.leb_spec b k), (Nat.ltb_spec k (b + S m)); cbn [andb]; lia. }
  rewrite G. destruct (Nat.leb_spec 0 k), (Nat.ltb_spec k (0 + NF)); cbn [andb]; auto; lia.
Qed.
Section HourUniform.
  Variables (n nu nl : nat) (cf : hcfg). Hypothesis ST : study n nu nl cf.
  Variables (inv : list (list Qc) -> option (list (list Qc))) (er : pyerr).
  Hypothesis IO : inv_ok inv. Hypothesis BN0 : base_net n cf. Hypothesis LB : length (x_BLPA cf) = length (x_LP cf).
  Hypothesis NU : no_uncertainty cf.
  Lemma hour_uniform t PL RT s s' : 1 <= t -> hst_ok n nu nl s -> length PL = nu -> length RT = nu ->
    areas_numbered n (n_BN (hnet s)) -> wide (n_BN (hnet s)) -> equal_limits (n_BN (hnet s)) ->
    hour inv (refuse er) cf (on t) PL RT s = Ok s' ->
    forall pl wn wt c, valid_place n pl -> exists g, forall k, (k < x_NFCST cf)%nat -> part pl wn wt c k (hrs s', pks s') = part pl wn wt c k (hrs s, pks s) + g.
  Proof.
    intros Ht HS LPL LRT AN W EQ E pl wn wt c VP. unfold hour in E. pose proof (st_levels _ _ _ _ ST) as LV.
    destruct (load_hour_ok n nu nl cf ST t Ht) as (J & EJ & IJ & _). rewrite EJ in E. cbn [bind] in E. destruct (draws_now _ _) as [[]|]; cbn [bind] in E; try discriminate E.
    destruct (draw_ok n nu nl cf ST t Ht s PL RT HS LPL LRT) as (d & ED & G1 & G2 & G3 & D1 & D2 & D3). rewrite ED in E. cbn [bind] in E.
    assert (H0 := drawn_state_ok n nu nl cf ST t s PL RT HS LPL LRT d ED G1 G2).
    destruct (demand_same n nu nl cf ST t LB NU _ d J D1 IJ) as (C & LC & EC & LM).
    destruct (uniform_levels n nu nl cf ST t Ht inv er IO BN0 LB d J C LC EC LM (hnet s) AN W EQ _ s' H0 eq_refl E) as (recs & RE & U).
    unfold stats_of, apply_recs in RE. cbn [LSFLG hrs pks] in RE. destruct HS as [Z0 Z1 Z2 Z3 Z4 Z5].
    assert (PS : forall k a b, part pl wn wt c k (a, b) = stat_part pl wt c k (match wn with Hourly => a | Peak => b end)) by (intros k a b; now destruct wn).
    destruct U as [->|(X & LX & ->)].
    - cbn [map fold_left] in RE. injection RE as E1 E2 E3. exists 0. intros k _. rewrite E2, E3. lia.
    - assert (F : Forall (fun r : rec => (fst r < 5)%nat /\ length (snd r) = n) (map (fun l => (l, X)) (seq 0 (x_NFCST cf)))).
      { apply Forall_forall. intros r Hr. apply in_map_iff in Hr. destruct Hr as (l & <- & Hl). apply in_seq in Hl. cbn [fst snd]. split; [lia|exact LX]. }
      assert (HP : exists p, p = peak_now cf t J) by eauto. destruct HP as (p & HP). rewrite <- HP in RE.
      exists (match wn with Hourly => rec_part pl wt c 0 (0%nat, X) | Peak => if p then rec_part pl wt c 0 (0%nat, X) else 0 end).
      intros k Hk. destruct (records_part n _ _ _ _ _ _ _ _ RE F Z3 Z4 Z5 pl wt c k VP ltac:(lia)) as (A & B). rewrite tally_uniform in A, B by exact Hk.
      rewrite !PS. destruct wn; assumption.
  Qed.
End HourUniform.

(** *** the whole run *)
Section Run.
  Variables (inv : list (list Qc) -> option (list (list Qc))) (er : pyerr).
  Variables (n nu nl : nat) (i : input).
  Hypothesis IO : inv_ok inv.
  Hypothesis IN : input_ok n nu nl i.
  Hypothesis PA : plain_areas n i.
  Hypothesis NU : no_uncertainty (i_h i).
  Let J := x_JSTEP (i_h i).
  Let NF := x_NFCST (i_h i).

  Record linv (s : lst world) (d : nat) (l : list annual) : Prop := mkLinv {
    li_net : limits_kept (i_BN i) (n_BN (hnet (w_h (s_w s))));
    li_cur : levels_equal n NF (hrs (w_h (s_w s)), pks (w_h (s_w s)));
    li_years : run_years (year_cfg i) n 0 (start_year n (i_INTV i) (i_ITAB i)) l = Ok (w_y (s_w s), w_out (s_w s));
    li_len : length l = d;
    li_annual : Forall (annual_ok n) l;
    li_hist : Forall (levels_equal n NF) l }.

  Lemma kept_plain B : limits_kept (i_BN i) B -> areas_numbered n B /\ wide B /\ equal_limits B.
  Proof.
    intros (A & D). destruct PA as [(LN & NUM) W EQ _ _]. pose proof (wide_agree _ _ _ A W) as W'. destruct A as (EL & A).
    assert (C3 : forall j, mget B j 3 = mget (i_BN i) j 3) by (intros j; apply (A j); cbn; lia).
    split; [split; [congruence|]|split; [exact W'|]].
    - intros j Hj. rewrite <- NUM by exact Hj. apply (A j). cbn. lia.
    - intros j Hj. rewrite C3. rewrite EL in Hj. destruct D as [D|D]; rewrite D by exact Hj; [now apply EQ|reflexivity].
  Qed.

  Lemma levels_trace IG IL lg s a b c d : seeder JSEED nu nl = Ok (IG, IL) ->
    trace (program inv (refuse er) i) (loop_cfg i) (start (loop_cfg i) nu (first_world i IG IL)) 0 0 0 0 lg s a b c d ->
    exists l, linv s d l.
  Proof.
    intros SD. pose proof (in_step _ _ _ _ IN) as SO. unfold step_ok in SO. fold J in SO.
    pose proof (refuse_areas er) as KA.
    assert (PI : forall lg s a b c d, trace (program inv (refuse er) i) (loop_cfg i) (start (loop_cfg i) nu (first_world i IG IL)) 0 0 0 0 lg s a b c d -> exists R l, pinv inv (refuse er) n nu nl i lg s a d R l)
      by (intros; eapply program_trace; eauto).
    pose proof (fun lg s a b c d => trace_vars (program inv (refuse er) i) (loop_cfg i) nu (first_world i IG IL) lg s a b c d) as TV.
    remember (start (loop_cfg i) nu (first_world i IG IL)) as s00 eqn:ES0. intros T.
    remember 0%nat as z0 eqn:Z0 in T at 1. remember 0%nat as z1 eqn:Z1 in T at 1. remember 0%nat as z2 eqn:Z2 in T at 1. remember 0%nat as z3 eqn:Z3 in T at 1.
    induction T as [|s0 a0 b0 c0 d0 lg s1 a1 b1 c1 d1 e s2 a2 b2 c2 d2 T IH I ES RF LF LC EC FA ST].
    { subst. exists []. constructor; cbn [start s_w s_rating s_plndst first_world w_h w_y w_out IGSEED ILSEED hrs pks hnet LSFLG first_net n_BN].
      - apply kept_refl.
      - intros pl wn wt c k _ _ _. rewrite (n_areas n nu nl i IN). now rewrite !part_first.
      - rewrite (n_areas n nu nl i IN). reflexivity.
      - reflexivity.
      - constructor.
      - constructor. }
    subst a0 b0 c0 d0 s0.
    pose proof T as T0.
    destruct IH as (l & C); auto. destruct (PI _ _ _ _ _ _ T0) as (R & l0 & P). destruct (TV _ _ _ _ _ _ T0) as (_ & _ & RTS & LPL). clear PI TV.
    destruct ST as [s2 S1 S2 S3 S4 S5 S6 | s2 S1 S2 S3 S4 S5 S6 | s2 S1 S2 S3 S4 S5 S6 | s2 S0 S1 S2 S3 S4 S5].
    - cbn [program h_hour] in S1. unfold do_hour in S1. destruct (hour inv (refuse er) (i_h i) _ _ _ _) as [h'|] eqn:EH; cbn [bind] in S1; [|discriminate]. injection S1 as EW.
      change (fst (draw_event (c_JSTEP (loop_cfg i)) (S a1))) with (on (J * Z.of_nat (S a1))) in EH.
      assert (K1 : 1 <= J * Z.of_nat (S a1)) by nia.
      assert (LP2 : forall x, x = nu -> length (s_plndst s1) = x) by congruence.
      unfold agenda in FA. rewrite <- inj_draw in FA. inversion FA as [|? ? F0 FA1]; subst. inversion FA1 as [|? ? F1 FA2]; subst. inversion FA2 as [|? ? F2 _]; subst.
      cbn [inj fst zdraw zweek] in F1, F2. apply (proj1 (hh_le _ _)) in F1. apply (proj1 (hh_le _ _)) in F2. change (c_JSTEP (loop_cfg i)) with J in F1, F2.
      assert (C1 : c1 <> 0%nat) by (intros ->; cbn [zseason fst] in F2; change (0 mod 4)%nat with 0%nat in F2; change (0 / 4)%nat with 0%nat in F2; lia).
      specialize (RTS C1). cbn [loop_cfg c_RATES] in RTS. apply rates_of_length in RTS. rewrite (in_rates _ _ _ _ IN) in RTS.
      destruct P as [P1 P2 P3 P4 P5 P6 P7 P8 P9 P10 P11 P12 P13].
      destruct C as [C2 C3 C4 C5 C6 C7]. destruct (kept_plain _ C2) as (AN & W & EQ).
      pose proof (hour_uniform n _ nl (i_h i) (in_study _ _ _ _ IN) inv er IO (pa_net _ _ PA) (pa_lines _ _ PA) NU _ _ _ _ _ K1 P1 (LP2 _ eq_refl) RTS AN W EQ EH) as HU.
      exists l. constructor; rewrite <- ?EW; cbn [w_h w_y w_out]; auto.
      + eapply kept_trans; [exact C2|]. eapply hour_limits; [apply refuse_limits|exact W|exact EH].
      + intros pl wn wt c k VP EP Hk. destruct (HU pl wn wt c VP) as (g & G). rewrite !G by (exact Hk || (unfold NF in Hk; lia)). f_equal. now apply C3.
    - destruct C as [C2 C3 C4 C5 C6 C7]. exists l. constructor; rewrite ?S6; auto.
    - destruct C as [C2 C3 C4 C5 C6 C7]. exists l. constructor; rewrite ?S6; auto.
    - cbn [program h_year] in S1. unfold do_year in S1. rewrite (n_areas n nu nl i IN) in S1.
      set (ann := (hrs (w_h (s_w s1)), pks (w_h (s_w s1)))).
      change (mkYst (hrs (w_h (s_w s1))) _ _ _ _ _ _ _ _ _ _ _ _) with (with_annual (w_y (s_w s1)) ann) in S1.
      change (fst (year_event (S d1))) with (qz (8760 * Z.of_nat (S d1))) in S1.
      destruct (year (year_cfg i) n _ _) as [[y' o]|] eqn:EY; cbn [bind] in S1; [|discriminate]. injection S1 as EW ER.
      destruct P as [P1 P2 P3 P4 P5 P6 P7 P8 P9 P10 P11 P12 P13].
      assert (AOK : annual_ok n ann) by (split; apply P1).
      pose proof (nf5 n nu nl i IN) as N5. fold NF in N5.
      assert (EH : y_h y' = reset NF n (hrs (w_h (s_w s1))) /\ y_p y' = reset NF n (pks (w_h (s_w s1)))).
      { pose proof (year_ok _ _ _ _ _ _ EY) as (h1 & d1' & e1 & RF' & SSQ & XL & _ & _ & K). cbv zeta in K. destruct K as (_ & A & B & _). auto. }
      destruct EH as (EH & EP). destruct C as [C2 C3 C4 C5 C6 C7].
      exists (l ++ [ann]). constructor; rewrite <- ?EW; cbn [w_h w_y w_out IGSEED ILSEED hnet hrs pks]; auto.
      + intros pl wn wt c k VP EV Hk. rewrite !part_stat, EH, EP.
        assert (RP : forall q, (q < NF)%nat -> stat_part pl wt c q match wn with Hourly => reset NF n (hrs (w_h (s_w s1))) | Peak => reset NF n (pks (w_h (s_w s1))) end =
          if cleared n NF pl q then 0 else part pl wn wt c q ann).
        { intros q Hq. transitivity (stat_part pl wt c q (reset NF n match wn with Hourly => hrs (w_h (s_w s1)) | Peak => pks (w_h (s_w s1)) end)); [destruct wn; reflexivity|].
          rewrite reset_part by (try lia; auto; destruct wn; apply P1). unfold ann. now rewrite part_stat. }
        rewrite !RP by lia. replace (cleared n NF pl k) with (cleared n NF pl 0).
        * destruct (cleared n NF pl 0); [reflexivity|]. now apply C3.
        * pose proof (st_areas _ _ _ _ (in_study _ _ _ _ IN)) as NP. destruct pl as [j|]; [|reflexivity]. cbn [valid_place] in VP. cbn [even_place] in EV. unfold cleared.
          destruct (Nat.ltb_spec j NF), (Nat.ltb_spec 0 n), (Nat.ltb_spec k n); cbn [andb]; auto; lia.
      + apply run_snoc. exists (w_y (s_w s1)), (w_out (s_w s1)), o. split; [exact C4|]. split; [|reflexivity].
        rewrite C5. replace (0 + Z.of_nat d1 + 1) with (Z.of_nat (S d1)) by lia. exact EY.
      + rewrite app_length, C5. cbn [length]. lia.
      + apply Forall_app. split; [exact C6|]. constructor; [exact AOK|constructor].
      + apply Forall_app. split; [exact C7|]. constructor; [exact C3|constructor].
  Qed.
End Run.

(** *** a run that never needs the linear program *)
Section AnyBranch.
  Variables (inv : list (list Qc) -> option (list (list Qc)))
            (lp : list (list Qc) -> list (list Qc) -> list (list Qc) -> res (list Qc * list (list Qc))) (er : pyerr).
  Lemma tm2_any BN LP BLP BLP0 BB ZB LT NR NLS o : tm2 (refuse er) BN LP BLP BLP0 BB ZB LT NR NLS = Ok o -> tm2 lp BN LP BLP BLP0 BB ZB LT NR NLS = Ok o.
  Proof.
    unfold tm2. destruct (tm2_update _ _ _ _ _ _ _ _) as [BB1 ZB1]. destruct (tm2_solve _ _ _ _ _ _) as [[[a b] c] d].
    destruct (tm2_accepts _ _ _ _); [auto|]. destruct NLS; cbn [bind refuse]; discriminate.
  Qed.
  Lemma transm_any IFLAG s BLPA LP NR STMULT LN NLS TR TJ SC CR r : transm inv (refuse er) IFLAG s BLPA LP NR STMULT LN NLS TR TJ SC CR = Ok r ->
    transm inv lp IFLAG s BLPA LP NR STMULT LN NLS TR TJ SC CR = Ok r.
  Proof.
    unfold transm. destruct (if IFLAG then _ else _) as [[[[BLP0 BB] LT] ZB]|]; cbn [bind]; [|discriminate].
    destruct (tm2 (refuse er) (sched_rows _ _ _ _ _) _ _ _ _ _ _ _ _) as [o1|] eqn:E1; cbn [bind]; [|discriminate]. rewrite (tm2_any _ _ _ _ _ _ _ _ _ _ E1). cbn [bind].
    destruct (forallb _ _); [auto|].
    match goal with |- context [tm2 (refuse er) ?a ?b ?c ?d ?e ?f ?g ?h ?j] => destruct (tm2 (refuse er) a b c d e f g h j) as [o2|] eqn:E2 end; cbn [bind]; [|discriminate].
    rewrite (tm2_any _ _ _ _ _ _ _ _ _ _ E2). auto.
  Qed.
  Lemma levels_any cf C J d : forall ls b s s', levels inv (refuse er) cf C J d ls b s = Ok s' -> levels inv lp cf C J d ls b s = Ok s'.
  Proof.
    induction ls as [|l ls IH]; intros b s s'; cbn [levels]; [auto|]. destruct (findld _ _ _ _); cbn [bind]; [|discriminate]. destruct (last_short _); cbn [bind]; [|discriminate].
    destruct (Nat.eqb _ 0); [auto|]. destruct (Nat.eqb _ _). { destruct (record_level _ _ _ _ _ _); cbn [bind]; [apply IH|discriminate]. }
    match goal with |- bind ?x _ = _ -> _ => destruct x end; cbn [bind]; [|discriminate].
    destruct (transm inv (refuse er) _ _ _ _ _ _ _ _ _ _ _ _) as [r|] eqn:T; cbn [bind]; [|discriminate]. rewrite (transm_any _ _ _ _ _ _ _ _ _ _ _ _ _ T). cbn [bind]. destruct r as [[[em FL] SA] net1].
    destruct (negb em); [auto|]. destruct (negb _); [auto|]. destruct (record_level _ _ _ _ _ _); cbn [bind]; [apply IH|discriminate].
  Qed.
  Lemma hour_any cf C PL RT s s' : hour inv (refuse er) cf C PL RT s = Ok s' -> hour inv lp cf C PL RT s = Ok s'.
  Proof.
    unfold hour. destruct (load_hour _ _); cbn [bind]; [|discriminate]. destruct (draws_now _ _) as [[]|]; cbn [bind]; try discriminate.
    destruct (draw _ _ _ _ _); cbn [bind]; [|discriminate]. apply levels_any.
  Qed.
  Lemma events_any i N s ty s1 : events (program inv (refuse er) i) (loop_cfg i) N s ty = Ok s1 -> events (program inv lp i) (loop_cfg i) N s ty = Ok s1.
  Proof.
    unfold events. destruct (N =? 1); [|auto]. destruct (filem _ _) as [c|]; cbn [bind]; [|discriminate]. cbn [program h_hour]. unfold do_hour.
    destruct (hour inv (refuse er) _ _ _ _ _) as [h'|] eqn:E; cbn [bind]; [|discriminate]. now rewrite (hour_any _ _ _ _ _ _ E).
  Qed.
  Lemma step_any i s e s1 : contrl_step (program inv (refuse er) i) (loop_cfg i) s = Continue e s1 -> contrl_step (program inv lp i) (loop_cfg i) s = Continue e s1.
  Proof.
    unfold contrl_step. destruct (_ =? -1); [discriminate|]. destruct (pyget _ _) as [t|]; cbn [of_res]; [|discriminate].
    destruct (qltb _ _); [discriminate|]. destruct (_ =? 1); [discriminate|]. destruct (qltb _ _); [discriminate|].
    destruct (remove _) as [[[[t' ty] c']|]|]; cbn [of_res]; [|discriminate|discriminate].
    destruct (events (program inv (refuse er) i) _ _ _ _) as [s2|] eqn:E; cbn [of_res]; [|discriminate]. now rewrite (events_any _ _ _ _ _ E).
  Qed.
  Lemma run_any i fuel : forall s, exists post o, contrl fuel (program inv lp i) (loop_cfg i) s = (fst (contrl fuel (program inv (refuse er) i) (loop_cfg i) s) ++ post, o).
  Proof.
    induction fuel as [|fuel IH]; intros s; [exists [], None; reflexivity|]. cbn [contrl].
    destruct (contrl_step (program inv (refuse er) i) (loop_cfg i) s) as [| | |y|e s1|e1] eqn:E;
      try (match goal with |- exists p o, ?x = _ => exists (fst x), (snd x) end; cbn [fst app]; apply surjective_pairing).
    rewrite (step_any _ _ _ _ E). destruct (IH s1) as (post & o & H). rewrite H. exists post, o.
    destruct (contrl fuel (program inv (refuse er) i) (loop_cfg i) s1) as [lg o']. reflexivity.
  Qed.
End AnyBranch.
