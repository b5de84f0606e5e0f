(** Proofs for C124: hours and runs of a study with ample limits. *)
From Verif Require Import Base BaseProofs Sums LoadModel LoadSpec LoadProofs StatModel StatSpec StatProofs YearModel YearSpec YearProofs YearRun ReportSpec SampleModel SampleProofs NetModel NetSpec MatProofs NetProofs FlowProofs AssignProofs UpdateProofs TransmProofs EventModel EventProofs ControlModel ControlSpec ControlProofs RunProofs
  HourModel HourSpec HourProofs CauseSpec ProgramModel ProgramSpec ProgramProofs HistorySpec HistoryProofs LevelsProofs PlateSpec PlateProofs PlateTrace DataProofs PropertiesNet ShortProofs CutProofs AmpleSpec.
Open Scope Z_scope.
Open Scope Qc_scope.

(** *** one solution *)
Section Solve.
  Variables (inv : list (list Qc) -> option (list (list Qc))) (er : pyerr) (n : nat) (cf : hcfg).
  Hypothesis IO : inv_ok inv. Hypothesis BN0 : base_net n cf. Hypothesis LB : length (x_BLPA cf) = length (x_LP cf).

  Lemma mget_firstn3 k : mget (map (firstn 3) (x_BLPA cf)) k 0 = mget (x_BLPA cf) k 0.
  Proof.
    unfold mget. change (@nil Qc) with (firstn 3 (@nil Qc)) at 1. rewrite map_nth. destruct (nth k (x_BLPA cf) []); reflexivity.
  Qed.
  Lemma transm_free IFLAG s LN TR TJ SC CR : areas_numbered n (n_BN s) -> shape n 5 (n_BN s) ->
    (IFLAG = true -> settled inv (x_LP cf) (x_BLPA cf) (x_NR cf) s) ->
    length LN = length (x_LP cf) -> still_joined n cf LN -> length CR = n ->
    (x_NLS cf = false -> qsum CR <> q0 /\ forall j, (j < n)%nat -> q0 <= vget CR j) ->
    wide_limits n cf (n_BN s) LN (asked n TR TJ SC CR) ->
    (forall lp, transm inv lp IFLAG s (x_BLPA cf) (x_LP cf) (x_NR cf) (repeat [q1; q1] (length LN)) LN (x_NLS cf) TR TJ SC CR = transm inv (refuse er) IFLAG s (x_BLPA cf) (x_LP cf) (x_NR cf) (repeat [q1; q1] (length LN)) LN (x_NLS cf) TR TJ SC CR) /\
    ((exists b, tm1 inv (n_BN s) (x_LP cf) (map (firstn 3) (x_BLPA cf)) (x_NR cf) = Ok b) ->
     exists r, transm inv (refuse er) IFLAG s (x_BLPA cf) (x_LP cf) (x_NR cf) (repeat [q1; q1] (length LN)) LN (x_NLS cf) TR TJ SC CR = Ok r).
  Proof using All.
    intros AN S5 SE LL [A1 A2 A3] LC SH (WL & WA). destruct BN0 as [BA BE BR BD BC].
    assert (TM : forall lp, transm inv lp IFLAG s (x_BLPA cf) (x_LP cf) (x_NR cf) (repeat [q1; q1] (length LN)) LN (x_NLS cf) TR TJ SC CR =
      bind (tm1 inv (n_BN s) (x_LP cf) (map (firstn 3) (x_BLPA cf)) (x_NR cf)) (fun b => transm inv lp true (mkNet (n_BN s) (fst (fst (fst b))) (snd (fst (fst b))) (snd (fst b)) (snd b)) (x_BLPA cf) (x_LP cf) (x_NR cf) (repeat [q1; q1] (length LN)) LN (x_NLS cf) TR TJ SC CR)).
    { intros lp. destruct IFLAG.
      - rewrite (SE eq_refl). cbn [bind fst snd]. destruct s; reflexivity.
      - unfold transm at 1. destruct (tm1 _ _ _ _ _) as [[[[a b] c] d]|]; reflexivity. }
    destruct (tm1 inv (n_BN s) (x_LP cf) (map (firstn 3) (x_BLPA cf)) (x_NR cf)) as [[[[BLP0 BB] LT] ZB]|e1] eqn:B2.
    2:{ split; [intros lp; rewrite !TM; reflexivity|intros (b & HB); discriminate]. }
    assert (LN' : length (n_BN s) = n) by apply AN.
    assert (T1 := tm1_spec inv (n_BN s) (x_LP cf) (map (firstn 3) (x_BLPA cf)) (x_NR cf) BLP0 BB LT ZB IO). rewrite LN' in T1.
    specialize (T1 AN BA BE ltac:(rewrite map_length; exact LB) BR B2). cbv zeta in T1. destruct T1 as (EB0 & OK & BO & _).
    assert (LI : lines_in n (x_LP cf)) by (rewrite <- BA; now apply distinct_lines_in).
    set (SM := repeat [q1; q1] (length LN)) in *.
    assert (ROW : forall v, (v < length (x_LP cf))%nat -> mget (line_rows (x_BLPA cf) SM LN) v 0 = state_adm (x_BLPA cf) LN v /\
      mget (line_rows (x_BLPA cf) SM LN) v 1 = mget (x_BLPA cf) v (state_base LN v + 1) /\ mget (line_rows (x_BLPA cf) SM LN) v 2 = mget (x_BLPA cf) v (state_base LN v + 2)).
    { intros v Hv. destruct (line_rows_state (x_BLPA cf) SM LN v ltac:(lia)) as (R0 & R1 & R2). rewrite R0, R1, R2. unfold state_fwd, state_bwd.
      assert (SV : mget SM v 0 = q1 /\ mget SM v 1 = q1) by (unfold mget, SM; rewrite nth_repeat_lt by lia; split; reflexivity).
      destruct SV as (-> & ->). rewrite !Qcmult_1_r. auto. }
    assert (LR : length (line_rows (x_BLPA cf) SM LN) = length (x_LP cf)) by now rewrite line_rows_len.
    assert (SO : state_ok n (x_NR cf) LT (x_LP cf) (line_rows (x_BLPA cf) SM LN) BLP0).
    { constructor; auto.
      - rewrite EB0, mcol_length, map_length. exact LB.
      - intros v Hv. split; [rewrite EB0, mcol_nth, mget_firstn3; now apply BD|]. rewrite (proj1 (ROW v Hv)). now apply A1.
      - intros v Hv HR. rewrite (proj1 (ROW v Hv)). now apply A2.
      - unfold wlines. replace (mcol (line_rows (x_BLPA cf) SM LN) 0) with (map (state_adm (x_BLPA cf) LN) (seq 0 (length (x_LP cf)))); [exact A3|].
        apply (nth_ext_eq _ _ q0); [now rewrite map_length, seq_length, mcol_length|]. intros v Hv. rewrite map_length, seq_length in Hv.
        change (nth v (mcol (line_rows (x_BLPA cf) SM LN) 0) q0) with (vget (mcol (line_rows (x_BLPA cf) SM LN) 0) v). rewrite mcol_nth, (proj1 (ROW v Hv)).
        now apply nth_map_seq. }
    assert (LL1 : forall k, (k < length (x_LP cf))%nat -> asked n TR TJ SC CR + asked n TR TJ SC CR <= mget (line_rows (x_BLPA cf) SM LN) k 1 /\ asked n TR TJ SC CR + asked n TR TJ SC CR <= mget (line_rows (x_BLPA cf) SM LN) k 2).
    { intros k Hk. destruct (ROW k Hk) as (_ & -> & ->). now apply WL. }
    destruct (stages_ample er n (x_NR cf) s (x_BLPA cf) (x_LP cf) SM LN (x_NLS cf) TR TJ SC CR BLP0 BB ZB LT SO BO S5 LC SH LL1 WA) as (r & HR).
    assert (R : forall lp, transm inv lp IFLAG s (x_BLPA cf) (x_LP cf) (x_NR cf) SM LN (x_NLS cf) TR TJ SC CR = Ok r).
    { intros lp. rewrite TM. cbn [bind fst snd]. unfold transm. cbn [bind n_BN n_BLP0 n_BB n_LT n_ZB]. rewrite LN'. apply HR. }
    split; [intros lp; now rewrite !R|]. intros _. exists r. apply R.
  Qed.
End Solve.

(** *** the levels of an hour *)
Section Hours.
  Variables (n nu nl : nat) (i : input).
  Let cf := i_h i.
  Hypothesis IN : input_ok n nu nl i. Hypothesis JA : joined_areas n i. Hypothesis AM : ample n nu nl i.
  Variables (inv : list (list Qc) -> option (list (list Qc))) (er : pyerr).
  Hypothesis IO : inv_ok inv.

  (** a network state of the run: numbered areas whose limits are those of the data *)
  Definition kept_net (N : netst) : Prop := areas_numbered n (n_BN N) /\ shape n 5 (n_BN N) /\ limits_kept (i_BN i) (n_BN N).
  Lemma kept_wide LN W N : kept_net N -> wide_limits n cf (i_BN i) LN W -> wide_limits n cf (n_BN N) LN W.
  Proof using All.
    intros (_ & _ & (A & D)) (WL & WA). split; [exact WL|]. intros j Hj. destruct (WA j Hj) as (W3 & W4).
    assert (LB : (j < length (i_BN i))%nat) by (rewrite (proj1 (ja_shape _ _ JA)); exact Hj).
    assert (E3 : mget (n_BN N) j 3 = mget (i_BN i) j 3) by (apply (proj2 A j); cbn; lia). rewrite E3. split; [exact W3|].
    destruct D as [D|D]; rewrite (D j LB); assumption.
  Qed.
  Lemma kept_next N N' FL SA IFLAG SM LN NLS TR TJ SC CR JF : kept_net N ->
    transm inv (refuse er) IFLAG N (x_BLPA cf) (x_LP cf) (x_NR cf) SM LN NLS TR TJ SC CR = Ok (JF, FL, SA, N') -> kept_net N'.
  Proof using All.
    intros (AN & S5 & LK) T. assert (W : wide (n_BN N)) by (intros j Hj; rewrite (proj2 S5 j) by (rewrite <- (proj1 S5); exact Hj); lia).
    destruct (transm_limits _ _ _ _ _ _ _ _ _ _ _ _ _ _ _ _ _ _ (refuse_limits er) W T) as (AG & C4). pose proof AG as (EL & A).
    split; [|split; [|]].
    - split; [rewrite EL; apply AN|]. intros j Hj. rewrite <- (proj2 AN j Hj). apply (A j). cbn. lia.
    - split; [rewrite EL; apply S5|]. intros j Hj. rewrite (proj1 (A j)). now apply S5.
    - eapply kept_trans; [exact LK|]. split; [exact AG|]. destruct JF; [right|left]; exact C4.
  Qed.

  Variable kd : nat. Hypothesis Hk : (1 <= kd)%nat.
  Let k := (x_JSTEP cf * Z.of_nat kd)%Z.
  Variables (AV : list Qc) (d : drawn) (J : Z).
  Hypothesis DSC : d_SYSCON d = vtab n (located cf AV).
  Hypothesis DTJ : d_TRNSFJ d = vtab n (fun j => Qcminus (located cf AV j) (owned_cap cf AV j)).
  Hypothesis DTR : d_TRNSFR d = vtab n (fun j => net_export n (x_JENT cf) (x_INTCH cf) j (day_of_year k)).
  Hypothesis HJ : pyidx (365 * 24) J = Some (hour_used cf k).
  Hypothesis CAV : can_be_available nu i AV. Hypothesis CLN : line_states nu nl i kd (d_LNSTAT d). Hypothesis LLN : length (d_LNSTAT d) = nl.

  Lemma levels_free lp : forall ls s first b, ls = seq b (length ls) -> (b + length ls <= x_NFCST cf)%nat ->
    hst_ok n nu nl s -> kept_net (hnet s) -> (first = true -> settled inv (x_LP cf) (x_BLPA cf) (x_NR cf) (hnet s)) ->
    levels inv lp cf (on k) J d ls first s = levels inv (refuse er) cf (on k) J d ls first s /\
    forall s', levels inv (refuse er) cf (on k) J d ls first s = Ok s' -> kept_net (hnet s').
  Proof using All.
    pose proof (in_study _ _ _ _ IN) as ST. fold cf in ST. pose proof (ja_net _ _ JA) as BN0. fold cf in BN0.
    pose proof (st_levels _ _ _ _ ST) as LV. pose proof (refuse_areas er) as KA. pose proof (st_areas _ _ _ _ ST) as Hn.
    assert (K1 : (1 <= k)%Z) by (pose proof (J_pos n nu nl i IN) as JP; unfold k, cf; nia).
    assert (LSC : length (d_SYSCON d) = n) by (rewrite DSC; apply vtab_length).
    assert (VSC : forall j, (j < n)%nat -> vget (d_SYSCON d) j = located cf AV j) by (intros j H; rewrite DSC; now apply vget_vtab).
    induction ls as [|l rest IH]; intros s first b EL LE HS KN SE; cbn [levels].
    - split; [reflexivity|]. intros s' E. injection E as <-. exact KN.
    - cbn [length seq] in EL. injection EL as -> EL. cbn [length] in LE.
      destruct (demand_ok n nu nl cf ST k J b HJ ltac:(lia)) as (C & EC & LC & VC). rewrite EC. cbn [bind].
      destruct (margins_ok n cf k (d_SYSCON d) C AV b LSC LC VSC VC) as (LM & VM & SM).
      set (M := margins (d_SYSCON d) C) in *.
      destruct (last_short M) as [IT|e]; cbn [bind]; [|split; [reflexivity|discriminate]].
      destruct (Nat.eqb_spec (length (short_areas M)) 0) as [Z|NZ].
      { split; [reflexivity|]. intros s' E. injection E as <-. exact KN. }
      destruct (Nat.eqb_spec (length (short_areas M)) (length (x_CAPOWN cf))) as [ALL|NALL].
      + destruct (record_level_ok n nu nl cf ST k K1 J b M s HS ltac:(lia) LM) as (s1 & E1 & HS1 & RS & G1 & G2 & NT). rewrite E1. cbn [bind].
        apply (IH s1 first (S b)); auto; try lia; rewrite NT; assumption.
      + destruct (if (1 <? length (short_areas M))%nat then Ok 0%Z else direct_help cf (d_LNSTAT d) M IT) as [ND|e]; cbn [bind]; [|split; [reflexivity|discriminate]].
        assert (EC2 : C = vtab n (demand cf k b)).
        { apply (nth_ext _ _ q0 q0); [now rewrite vtab_length|]. intros j Hj. rewrite LC in Hj. fold (vget C j). rewrite VC by auto. symmetry. apply (vget_vtab n (demand cf k b) j Hj). }
        pose proof KN as (AN & S5 & _).
        assert (EA : asked n (d_TRNSFR d) (d_TRNSFJ d) (d_SYSCON d) C = asked_at n cf k b AV).
        { unfold asked, asked_at. apply qs_ext; intros j Hj. rewrite DTR, DTJ, DSC, EC2, !vget_vtab by exact Hj. reflexivity. }
        destruct (transm_free inv er n cf IO BN0 (ja_lines _ _ JA) first (hnet s) (d_LNSTAT d) (d_TRNSFR d) (d_TRNSFJ d) (d_SYSCON d) C AN S5 SE) as (TF & _).
        { rewrite LLN. symmetry. exact (in_lp _ _ _ _ IN). }
        { exact (am_lines _ _ _ _ AM kd _ Hk CLN). }
        { exact LC. }
        { intros EN. destruct (ja_share _ _ JA EN k b ltac:(fold cf; lia)) as (A & B). split; [|intros j Hj; rewrite VC by exact Hj; now apply A].
          unfold pool_demand in B. fold cf in B. assert (QE : qsum C = qs n (demand cf k b)) by (rewrite qsum_qs, LC; apply qs_ext; intros j Hj; now apply VC). rewrite QE. intros Z0. rewrite Z0 in B. qlra. }
        { apply kept_wide; [exact KN|]. rewrite EA. apply (am_limits _ _ _ _ AM kd b AV _ Hk ltac:(fold cf; lia) CAV CLN). }
        rewrite (TF lp). clear TF.
        destruct (transm _ _ _ _ _ _ _ _ _ _ _ _ _ _) as [[[[em FL] SA] net1]|e] eqn:ET; cbn [bind]; [|split; [reflexivity|discriminate]].
        assert (KN1 : kept_net net1) by (eapply kept_next; eassumption).
        assert (SE1 : settled inv (x_LP cf) (x_BLPA cf) (x_NR cf) net1).
        { destruct BN0 as [BA BE BR _ _]. assert (W : wide (n_BN (hnet s))) by (intros j Hj; rewrite (proj2 S5 j) by (rewrite <- (proj1 S5); exact Hj); lia).
          eapply (transm_settles inv er n); [exact IO|exact BA|exact BE|exact BR|exact (ja_lines _ _ JA)|exact AN|exact W|exact SE|exact ET]. }
        destruct (transm_len _ _ _ _ _ _ _ _ _ _ _ _ _ _ _ _ _ _ KA ET) as (LSA & LBN).
        set (s1 := mkHst (IGSEED s) (ILSEED s) net1 (LSFLG s) (hrs s) (pks s)) in *.
        assert (HS1 : hst_ok n nu nl s1) by (destruct HS; constructor; cbn; auto; congruence).
        destruct (negb em). { split; [reflexivity|]. intros s' E. injection E as <-. exact KN1. }
        destruct (negb _). { split; [reflexivity|]. intros s' E. injection E as <-. exact KN1. }
        set (M2 := map (fun x => qtrunc (- x)%Qc) SA) in *.
        assert (LM2 : length M2 = n) by (unfold M2; rewrite map_length, LSA; apply AN).
        destruct (record_level_ok n nu nl cf ST k K1 J b M2 s1 HS1 ltac:(lia) LM2) as (s2 & E2 & HS2 & RS & G1 & G2 & NT). rewrite E2. cbn [bind].
        apply (IH s2 true (S b)); auto; try lia; intros; rewrite NT; assumption.
  Qed.
End Hours.

(** *** a draw *)
Section Draws.
  Variables (n nu nl : nat) (i : input).
  Hypothesis IN : input_ok n nu nl i. Hypothesis JA : joined_areas n i. Hypothesis AM : ample n nu nl i.
  Variables (inv : list (list Qc) -> option (list (list Qc))) (er : pyerr).
  Hypothesis IO : inv_ok inv.

  Lemma hour_free lp kd PL RT s : (1 <= kd)%nat -> hst_ok n nu nl s -> kept_net n i (hnet s) -> length PL = nu -> length RT = nu ->
    binary PL -> (forall u, (u < nu)%nat -> vget RT u = q0 \/ In (vget RT u) (nth u (i_RATES i) [])) ->
    (forall v, (v < nl)%nat -> nth v (ILSEED s) 0%Z = line_seed nu v (kd - 1)) ->
    let k := (x_JSTEP (i_h i) * Z.of_nat kd)%Z in
    hour inv lp (i_h i) (on k) PL RT s = hour inv (refuse er) (i_h i) (on k) PL RT s /\
    forall s', hour inv (refuse er) (i_h i) (on k) PL RT s = Ok s' -> kept_net n i (hnet s').
  Proof using All.
    intros Hk HS KN LPL LRT BP RR SD k. pose proof (in_study _ _ _ _ IN) as ST. set (cf := i_h i) in *.
    assert (K1 : (1 <= k)%Z) by (pose proof (J_pos n nu nl i IN) as JP; unfold k, cf; nia).
    unfold hour. destruct (load_hour_ok n nu nl cf ST k K1) as (J & EJ & IJ & DJ). rewrite EJ. cbn [bind].
    destruct (draws_now (x_JFREQ cf) J) as [[]|]; cbn [bind]; try (split; [reflexivity|discriminate]).
    destruct (draw_ok n nu nl cf ST k K1 s PL RT HS LPL LRT) as (d & ED & G1 & G2 & G3 & D1 & D2 & D3). rewrite ED. cbn [bind].
    pose proof (drawn_state_ok n nu nl cf ST k s PL RT HS LPL LRT d ED G1 G2) as HS1.
    assert (LV : (x_NFCST cf <= 5)%nat) by apply (st_levels _ _ _ _ ST).
    destruct (st_units _ _ _ _ ST) as (U1 & U2). pose proof (ho_ig _ _ _ _ HS) as HG. pose proof (ho_il _ _ _ _ HS) as HL.
    assert (CA : can_be_available nu i (avail cf s PL RT)).
    { unfold avail. split.
      - pose proof (gstate_spec (x_PROBG cf) (IGSEED s) RT (x_DERATE cf) PL ltac:(lia) ltac:(congruence) ltac:(congruence) ltac:(congruence)) as G.
        destruct (gstate _ _ _ _ _) as [[X1 X2] X3]. destruct G as (_ & _ & G & _). cbn [snd]. congruence.
      - intros u Hu. destruct (gstate_bounds (IGSEED s) (x_PROBG cf) RT (x_DERATE cf) PL u ltac:(lia) ltac:(congruence) ltac:(congruence) ltac:(congruence) ltac:(lia)) as (_ & G).
        destruct (am_derate _ _ _ _ AM u Hu) as (D0 & D4). fold cf in D0, D4.
        assert (R0 : q0 <= vget RT u) by (destruct (RR u Hu) as [-> | HI]; [apply Qcle_refl|exact (am_rates _ _ _ _ AM u _ HI)]).
        destruct (G D0 D4 R0 (BP u)) as (P1 & P2). split; [exact P1|]. destruct (RR u Hu) as [Z|HI]; [left; rewrite Z in P2; apply Qcle_antisym; assumption|right; eauto]. }
    assert (CL : line_states nu nl i kd (d_LNSTAT d)) by (exists (ILSEED s); rewrite G3; auto).
    assert (LL : length (d_LNSTAT d) = nl).
    { rewrite G3. pose proof (lstate_spec (x_PROBL cf) (ILSEED s) ltac:(rewrite (st_lines _ _ _ _ ST); exact HL)) as X. destruct (lstate _ _) as [X1 X2]. destruct X as (_ & X & _). cbn [snd]. rewrite X. exact (st_lines _ _ _ _ ST). }
    apply (levels_free n nu nl i IN JA AM inv er IO kd Hk (avail cf s PL RT) d J D1 D2 D3 IJ CA CL LL lp (seq 0 (x_NFCST cf)) _ false 0%nat);
      [now rewrite seq_length|rewrite seq_length; fold cf; lia|exact HS1|exact KN|discriminate].
  Qed.
End Draws.
