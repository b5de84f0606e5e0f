(** Property theorems C47: what a checkpoint preserves. *)
From Verif Require Import Base BaseProofs Sums LoadModel LoadSpec LoadProofs EventModel SampleModel StatModel StatSpec StatProofs
  YearModel YearSpec YearProofs YearRun CheckpointModel PropertiesYear.
Open Scope Z_scope.

(** What the outside sees of a series of year ends: their outputs, or the error. *)
Definition seen (r : res (yst * list yout)) : res (list yout) :=
  match r with Ok (_, os) => Ok os | Err e => Err e end.

Lemma save_inj c c' : save c = save c' -> scalars_zero c -> scalars_zero c' -> c = c'.
Proof.
  destruct c as [a b [p1 p2 p3 v1 v2 v3] [q1' q2' q3' w1 w2 w3]], c' as [a' b' [r1 r2 r3 x1 x2 x3] [t1 t2 t3 y1 y2 y3]].
  unfold save, save_pool, scalars_zero. cbn. intros E (Z1 & Z2 & Z3 & Z4 & Z5 & Z6) (Y1 & Y2 & Y3 & Y4 & Y5 & Y6). congruence.
Qed.
Lemma save_keep old c : save (keep_scalars old c) = save c. Proof. reflexivity. Qed.

Lemma checkpoint_some cf n p k : checkpoint cf n p = Some k ->
  exists s' o, year cf n (g_clock p) (g_year p) = Ok (s', o) /\ o_ckpt o = true /\
  k = mkSnap (qz 4) (g_clock p) (IPOINT (g_cal p)) (y_XLAST s') (y_SSQ s') (MFA (g_cal p)) (NUMINQ (g_cal p))
        (if IOJ cf =? 0 then y_ITAB (g_year p) else y_ITAB (g_year p) + 1) (y_INTVT (g_year p)) (EVNTS (g_cal p))
        123 123 (save (o_h o)) (save (o_p o)) (y_HL s') (y_DP s') (y_EU s') (y_XA s') (y_XP s') (vzeros n) (g_LSFLG p).
Proof.
  unfold checkpoint. destruct (year cf n (g_clock p) (g_year p)) as [[s' o]|]; [|discriminate].
  destruct (o_ckpt o) eqn:C; [|discriminate]. intros E. injection E as <-. eauto.
Qed.

(** The flag is a function of the clock, the sum and the new sum of squares. *)
Lemma cvchk_flag clk fin y cv SUM XL SSQ R SSQ' XL' : cvchk clk fin y cv SUM XL SSQ = (R, SSQ', XL') ->
  R = fst (fst (cvchk clk fin y cv XL' XL' SSQ')).
Proof.
  unfold cvchk. cbv zeta. set (N := Qcplus SSQ (qsq (Qcminus SUM XL))).
  assert (Z0 : forall x, Qcplus x (qsq (Qcminus SUM SUM)) = x) by (intros; unfold qsq; qring).
  intros E. assert (XL' = SUM /\ SSQ' = N) as [-> ->].
  { destruct (y <? 5); [injection E as _ <- <-; auto|]. destruct (qeqb (Qcdiv SUM (qz y)) q0); [injection E as _ <- <-; auto|].
    destruct (sqrt_below _ _); injection E as _ <- <-; auto. }
  rewrite Z0. rewrite E. reflexivity.
Qed.

(** C47, the part that holds.  Two runs from the start (of any lengths, with any
    annual statistics) that write the same checkpoint at a year end are at the same
    hour with the same calendar, and whatever annual statistics the following years
    bring, their year ends do and show the same from then on: same totals, same
    histograms, same convergence decisions, checkpoints and reports.  Missing: the
    following years' annual statistics themselves, see below. *)
Theorem C47_statistics_resume_partial : forall cf n iv it l1 a1 l2 a2 s1 os1 s2 os2 p1 p2 k s1' o1 s2' o2,
  levels_ok (NFCST cf) (NORR cf) -> Forall (annual_ok n) (l1 ++ [a1]) -> Forall (annual_ok n) (l2 ++ [a2]) ->
  run_years cf n 0 (start_year n iv it) l1 = Ok (s1, os1) -> run_years cf n 0 (start_year n iv it) l2 = Ok (s2, os2) ->
  g_year p1 = with_annual s1 a1 -> g_year p2 = with_annual s2 a2 ->
  g_clock p1 = qz (8760 * (Z.of_nat (length l1) + 1)) -> g_clock p2 = qz (8760 * (Z.of_nat (length l2) + 1)) ->
  checkpoint cf n p1 = Some k -> checkpoint cf n p2 = Some k ->
  year cf n (g_clock p1) (g_year p1) = Ok (s1', o1) -> year cf n (g_clock p2) (g_year p2) = Ok (s2', o2) ->
  length l1 = length l2 /\ g_cal p1 = g_cal p2 /\ g_LSFLG p1 = g_LSFLG p2 /\
  o_report o1 = o_report o2 /\ o_rflag o1 = o_rflag o2 /\
  (forall a, with_annual s1' a = with_annual s2' a) /\
  forall later, seen (run_years cf n (Z.of_nat (length l1) + 1) s1' later) = seen (run_years cf n (Z.of_nat (length l2) + 1) s2' later).
Proof.
  intros cf n iv it l1 a1 l2 a2 s1 os1 s2 os2 p1 p2 k s1' o1 s2' o2 HL F1 F2 R1 R2 G1 G2 T1 T2 K1 K2 Y1 Y2.
  apply Forall_app in F1. destruct F1 as [F1 _]. apply Forall_app in F2. destruct F2 as [F2 _].
  destruct (run_invariant cf n iv it HL l1 s1 os1 F1 R1) as [_ _ _ _ Z1h Z1p _ _]. destruct (run_invariant cf n iv it HL l2 s2 os2 F2 R2) as [_ _ _ _ Z2h Z2p _ _].
  apply checkpoint_some in K1. destruct K1 as (t1 & u1 & W1 & C1 & E1). rewrite Y1 in W1. injection W1 as <- <-.
  apply checkpoint_some in K2. destruct K2 as (t2 & u2 & W2 & C2 & E2). rewrite Y2 in W2. injection W2 as <- <-.
  rewrite E1 in E2. clear E1.
  pose proof (f_equal k_CLOCK E2) as EC. pose proof (f_equal k_IPOINT E2) as EIP. pose proof (f_equal k_XLAST E2) as EXL.
  pose proof (f_equal k_SSQ E2) as ESS. pose proof (f_equal k_MFA E2) as EMF. pose proof (f_equal k_NUMINQ E2) as ENQ.
  pose proof (f_equal k_ITAB E2) as EIT. pose proof (f_equal k_INTVT E2) as EIV. pose proof (f_equal k_EVNTS E2) as EEV.
  pose proof (f_equal k_hourly E2) as EH. pose proof (f_equal k_peak E2) as EP. pose proof (f_equal k_HLOLE E2) as EHL.
  pose proof (f_equal k_DPLOLE E2) as EDP. pose proof (f_equal k_EUES E2) as EEU. pose proof (f_equal k_XNEWA E2) as EXA.
  pose proof (f_equal k_XNEWP E2) as EXP. pose proof (f_equal k_LSFLG E2) as ELS.
  cbn [k_CLOCK k_IPOINT k_XLAST k_SSQ k_MFA k_NUMINQ k_ITAB k_INTVT k_EVNTS k_hourly k_peak k_HLOLE k_DPLOLE k_EUES k_XNEWA k_XNEWP k_LSFLG] in *. clear E2.
  assert (LN : length l1 = length l2) by (rewrite T1, T2 in EC; apply qz_inj in EC; lia).
  apply year_ok in Y1. destruct Y1 as (h1 & d1 & e1 & RF1 & SSQ1 & XL1 & _ & _ & Y1). cbv zeta in Y1.
  destruct Y1 as (CV1 & B1 & B2 & B3 & B4 & B5 & B6 & B7 & B8 & B9 & B10 & B11 & B12 & B13 & B14 & B15 & B16 & B17 & B18 & B19).
  apply year_ok in Y2. destruct Y2 as (h2 & d2 & e2 & RF2 & SSQ2 & XL2 & _ & _ & Y2). cbv zeta in Y2.
  destruct Y2 as (CV2 & A1 & A2 & A3 & A4 & A5 & A6 & A7 & A8 & A9 & A10 & A11 & A12 & A13 & A14 & A15 & A16 & A17 & A18 & A19).
  assert (HEQ : y_ch s1' = y_ch s2').
  { apply save_inj.
    - rewrite B3, A3, !save_keep, <- B14, <- A14. exact EH.
    - rewrite B3. apply keep_zero. rewrite G1. exact Z1h.
    - rewrite A3. apply keep_zero. rewrite G2. exact Z2h. }
  assert (HEP : y_cp s1' = y_cp s2').
  { apply save_inj.
    - rewrite B4, A4, !save_keep, <- B15, <- A15. exact EP.
    - rewrite B4. apply keep_zero. rewrite G1. exact Z1p.
    - rewrite A4. apply keep_zero. rewrite G2. exact Z2p. }
  assert (RFE : RF1 = RF2).
  { apply cvchk_flag in CV1. apply cvchk_flag in CV2. rewrite CV1, CV2. congruence. }
  assert (RPE : o_report o1 = o_report o2) by (rewrite B18, A18, RFE, EC; reflexivity).
  assert (IVE : y_INTVT s1' = y_INTVT s2') by (rewrite B12, A12, EC, EIV; reflexivity).
  assert (ITE : y_ITAB s1' = y_ITAB s2') by (rewrite B19, A19, RPE; cbv zeta; rewrite EIT; reflexivity).
  assert (WA : forall a, with_annual s1' a = with_annual s2' a).
  { intros a. unfold with_annual. congruence. }
  split; [exact LN|]. split; [destruct (g_cal p1), (g_cal p2); cbn in *; congruence|]. split; [exact ELS|]. split; [exact RPE|].
  split; [congruence|]. split; [exact WA|].
  intros [|a later]; [reflexivity|]. cbn [run_years]. rewrite WA, LN. reflexivity.
Qed.
Print Assumptions C47_statistics_resume_partial.

(** The checkpoint does not hold the state of the random numbers: it is the same for
    all seeds (and for all ratings, planned outages and quarters), although the next
    hour's generator states are decided by them.  So no way of resuming from the
    checkpoint can continue every interrupted run as it would have gone on. *)
Definition with_seeds (p : program) (g l : list Z) : program :=
  mkProg (g_clock p) (g_cal p) g l (g_JHOUR p) (g_IQ p) (g_PLNDST p) (g_RATING p) (g_LSFLG p) (g_year p).
Definition next_draw (PROBG : list (list Qc)) (DERATE : list Qc) (p : program) : list Qc :=
  snd (gstate (g_IGSEED p) PROBG (g_RATING p) DERATE (g_PLNDST p)).
Theorem C47_resume_refuted : forall cf n p k g l, checkpoint cf n p = Some k ->
  checkpoint cf n (with_seeds p g l) = Some k /\ k_IGSEED k = 123 /\ k_ILSEED k = 123.
Proof.
  intros cf n p k g l E. split; [exact E|]. apply checkpoint_some in E. destruct E as (s' & o & _ & _ & ->). split; reflexivity.
Qed.
Print Assumptions C47_resume_refuted.
Definition demo_prog (g : list Z) : program :=
  mkProg (qz 8760) (mkCal 4 1 0 (vzeros 8)) g [5; 5] 8759 3 [q1] [qz 100] [0; 0] (with_annual (start_year 2 1 0) (demo_h1, demo_h2)).
Lemma demo_checkpoint : exists k, checkpoint demo_cfg 2 (demo_prog [1; 1]) = Some k.
Proof.
  unfold checkpoint. change (g_clock (demo_prog [1; 1])) with (qz 8760). change (g_year (demo_prog [1; 1])) with (with_annual (start_year 2 1 0) (demo_h1, demo_h2)).
  destruct (year_succeeds demo_cfg 2 (qz 8760) (with_annual (start_year 2 1 0) (demo_h1, demo_h2))) as (s' & o & E);
    try (right; split; reflexivity); try apply demo_stat_ok; auto; try reflexivity; try apply (shape_repeat 0).
  rewrite E.
  pose proof (year_ok _ _ _ _ _ _ E) as (h1 & d1 & e1 & RF1 & SSQ1 & XL1 & _ & _ & Y). cbv zeta in Y.
  destruct Y as (_ & _ & _ & _ & _ & _ & _ & _ & _ & _ & _ & _ & _ & _ & _ & _ & _ & C & _). rewrite C.
  pose proof (year_number 0 ltac:(lia)) as YN. change (qz (8760 * (0 + 1))) with (qz 8760) in YN. rewrite YN.
  cbn [with_annual start_year y_INTVT Z.add Z.eqb Pos.eqb orb]. eauto.
Qed.
(** The partial theorem's hypotheses: two programs with different seeds, one year. *)
Example C47_witness : exists k s' o, checkpoint demo_cfg 2 (demo_prog [1; 1]) = Some k /\ checkpoint demo_cfg 2 (demo_prog [20000; 1]) = Some k /\
  demo_prog [1; 1] <> demo_prog [20000; 1] /\ Forall (annual_ok 2) ([] ++ [(demo_h1, demo_h2)]) /\
  run_years demo_cfg 2 0 (start_year 2 1 0) [] = Ok (start_year 2 1 0, []) /\
  g_clock (demo_prog [1; 1]) = qz (8760 * (Z.of_nat (length (@nil annual)) + 1)) /\
  year demo_cfg 2 (g_clock (demo_prog [1; 1])) (g_year (demo_prog [1; 1])) = Ok (s', o).
Proof.
  destruct demo_checkpoint as (k & CK). pose proof (checkpoint_some _ _ _ _ CK) as (s' & o & Y & _ & _). exists k, s', o.
  split; [exact CK|]. split; [exact (proj1 (C47_resume_refuted demo_cfg 2 (demo_prog [1; 1]) k [20000; 1] [5; 5] CK))|].
  split; [intros K; apply (f_equal g_IGSEED) in K; discriminate|]. split; [repeat constructor; apply demo_stat_ok; auto|].
  split; [reflexivity|]. split; [reflexivity|exact Y].
Qed.
(** Whatever resumption [resume] one writes, it is wrong for one of two runs that
    differ in the seeds reached only. *)
Theorem C47_no_resumption_refuted : forall (resume : snapshot -> list Qc),
  exists cf n p1 p2 k PROBG DERATE,
    checkpoint cf n p1 = Some k /\ checkpoint cf n p2 = Some k /\ p2 = with_seeds p1 (g_IGSEED p2) (g_ILSEED p2) /\
    (resume k <> next_draw PROBG DERATE p1 \/ resume k <> next_draw PROBG DERATE p2).
Proof.
  intros resume. destruct demo_checkpoint as (k & CK).
  exists demo_cfg, 2%nat, (demo_prog [1; 1]), (demo_prog [20000; 1]), k, [[qq 1 2; qq 1 2]], [q1].
  split; [exact CK|]. split; [exact (proj1 (C47_resume_refuted demo_cfg 2 (demo_prog [1; 1]) k [20000; 1] [5; 5] CK))|]. split; [reflexivity|].
  assert (D : next_draw [[qq 1 2; qq 1 2]] [q1] (demo_prog [1; 1]) <> next_draw [[qq 1 2; qq 1 2]] [q1] (demo_prog [20000; 1])).
  { intros K. apply (f_equal (map this)) in K. vm_compute in K. discriminate. }
  destruct (list_eq_dec Qc_eq_dec (resume k) (next_draw [[qq 1 2; qq 1 2]] [q1] (demo_prog [1; 1]))) as [E|E]; [right; congruence|left; exact E].
Qed.
Print Assumptions C47_no_resumption_refuted.
