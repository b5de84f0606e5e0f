(** Proofs for C114. *)
From Verif Require Import Base BaseProofs Sums LoadModel LoadSpec LoadProofs StatModel StatSpec StatProofs YearModel YearSpec YearProofs YearRun ReportSpec SampleModel SampleProofs NetModel NetProofs EventModel ControlModel ControlSpec ControlProofs RunProofs
  HourModel HourSpec HourProofs ProgramModel ProgramSpec ProgramProofs HistorySpec HistoryProofs CertainSpec.
Open Scope Z_scope.

(** *** the records of an hour do not depend on what is counted already *)
Section Again.
  Variables (n nu nl : nat) (cf : hcfg). Hypothesis ST : study n nu nl cf.
  Variable k : Z. Hypothesis Hk : 1 <= k.
  Variable inv : list (list Qc) -> option (list (list Qc)).
  Variable lp : list (list Qc) -> list (list Qc) -> list (list Qc) -> res (list Qc * list (list Qc)).
  Hypothesis KA : keeps_areas lp.
  Variables (AV : list Qc) (d d2 : drawn) (J : Z).
  Hypothesis DSC : d_SYSCON d = vtab n (located cf AV).
  Hypothesis HJ : pyidx (365 * 24) J = Some (hour_used cf k).
  Hypothesis SD : d_SYSCON d2 = d_SYSCON d /\ d_TRNSFJ d2 = d_TRNSFJ d /\ d_LNSTAT d2 = d_LNSTAT d /\ d_TRNSFR d2 = d_TRNSFR d.

  Lemma levels_again : forall ls s s' first b, ls = seq b (length ls) -> (b + length ls <= 5)%nat ->
    hst_ok n nu nl s -> levels inv lp cf (on k) J d ls first s = Ok s' ->
    exists recs, stats_of s' = apply_recs cf k J recs s /\ Forall (fun r : rec => (fst r < 5)%nat /\ length (snd r) = n) recs /\
      forall s2, hst_ok n nu nl s2 -> hnet s2 = hnet s ->
        exists s2', levels inv lp cf (on k) J d2 ls first s2 = Ok s2' /\ stats_of s2' = apply_recs cf k J recs s2.
  Proof.
    destruct SD as (E1 & E2 & E3 & E4).
    induction ls as [|l rest IH]; intros s s' first b EL LE HS E; cbn [levels] in *.
    - injection E as <-. exists []. split; [reflexivity|]. split; [constructor|]. intros s2 _ _. exists s2. split; reflexivity.
    - cbn [length seq] in EL. injection EL as -> EL. cbn [length] in LE. rewrite E1, E2, E3, E4.
      destruct (demand_ok n nu nl cf ST k J b HJ ltac:(lia)) as (C & EC & LC & VC). rewrite EC in E |- *. cbn [bind] in E |- *.
      assert (LSC : length (d_SYSCON d) = n) by (rewrite DSC; apply vtab_length).
      assert (VSC : forall j, (j < n)%nat -> vget (d_SYSCON d) j = located cf AV j) by (intros j Hj; rewrite DSC; now apply vget_vtab).
      destruct (margins_ok n cf k (d_SYSCON d) C AV b LSC LC VSC VC) as (LM & _ & _).
      set (M := margins (d_SYSCON d) C) in *.
      destruct (last_short M) as [IT|er] eqn:EI; cbn [bind] in E |- *; [|discriminate].
      destruct (Nat.eqb (length (short_areas M)) 0).
      { injection E as <-. exists []. split; [reflexivity|]. split; [constructor|]. intros s2 _ _. exists s2. split; reflexivity. }
      destruct (Nat.eqb (length (short_areas M)) (length (x_CAPOWN cf))).
      + destruct (record_level_ok n nu nl cf ST k Hk J b M s HS ltac:(lia) LM) as (s1 & R1 & HS1 & RS & _ & _ & NT). rewrite R1 in E. cbn [bind] in E.
        destruct (IH s1 s' first (S b) EL ltac:(lia) HS1 E) as (recs & RE & F & AG).
        exists ((b, M) :: recs). split; [|split].
        * unfold apply_recs. cbn [map fold_left fst snd]. fold (stats_of s). rewrite <- RS. exact RE.
        * constructor; auto. cbn [fst snd]. split; [lia|exact LM].
        * intros s2 HS2 N2. destruct (record_level_ok n nu nl cf ST k Hk J b M s2 HS2 ltac:(lia) LM) as (s3 & R3 & HS3 & RS3 & _ & _ & NT3). rewrite R3. cbn [bind].
          destruct (AG s3 HS3 ltac:(congruence)) as (s4 & L4 & RE4). exists s4. split; [exact L4|].
          unfold apply_recs. cbn [map fold_left fst snd]. fold (stats_of s2). rewrite <- RS3. exact RE4.
      + destruct (if (1 <? length (short_areas M))%nat then Ok 0 else direct_help cf (d_LNSTAT d) M IT) as [ND|er]; cbn [bind] in E |- *; [|discriminate].
        destruct (transm _ _ _ (hnet s) _ _ _ _ _ _ _ _ _ _) as [[[[em FL] SA] net1]|er] eqn:ET; cbn [bind] in E; [|discriminate].
        destruct (transm_len _ _ _ _ _ _ _ _ _ _ _ _ _ _ _ _ _ _ KA ET) as (LSA & LBN).
        set (s1 := mkHst (IGSEED s) (ILSEED s) net1 (LSFLG s) (hrs s) (pks s)) in *.
        assert (HS1 : hst_ok n nu nl s1) by (destruct HS; constructor; cbn; auto; congruence).
        assert (S2 : forall s2, hst_ok n nu nl s2 -> hst_ok n nu nl (mkHst (IGSEED s2) (ILSEED s2) net1 (LSFLG s2) (hrs s2) (pks s2))).
        { intros s2 [? ? ? ? ? ?]. destruct HS. constructor; cbn [IGSEED ILSEED hnet LSFLG hrs pks]; auto; congruence. }
        destruct em; cbn [negb] in E.
        2:{ injection E as <-. exists []. split; [reflexivity|]. split; [constructor|]. intros s2 _ N2. rewrite N2, ET. cbn [bind negb]. eexists. split; reflexivity. }
        destruct (existsb _ _) eqn:EX in E; cbn [negb] in E.
        2:{ injection E as <-. exists []. split; [reflexivity|]. split; [constructor|]. intros s2 _ N2. rewrite N2, ET. cbn [bind negb]. rewrite EX. cbn [negb]. eexists. split; reflexivity. }
        set (M2 := map (fun x => qtrunc (- x)%Qc) SA) in *.
        assert (LM2 : length M2 = n) by (unfold M2; rewrite map_length; destruct HS; congruence).
        destruct (record_level_ok n nu nl cf ST k Hk J b M2 s1 HS1 ltac:(lia) LM2) as (s2 & R2 & HS2 & RS & _ & _ & NT). rewrite R2 in E. cbn [bind] in E.
        destruct (IH s2 s' true (S b) EL ltac:(lia) HS2 E) as (recs & RE & F & AG).
        exists ((b, M2) :: recs). split; [|split].
        * unfold apply_recs. cbn [map fold_left fst snd]. change (LSFLG s, hrs s, pks s) with (stats_of s1). rewrite <- RS. exact RE.
        * constructor; auto. cbn [fst snd]. split; [lia|exact LM2].
        * intros t2 HT2 N2. rewrite N2, ET. cbn [bind negb]. fold M2. rewrite EX. cbn [negb].
          destruct (record_level_ok n nu nl cf ST k Hk J b M2 _ (S2 t2 HT2) ltac:(lia) LM2) as (t3 & R3 & HS3 & RS3 & _ & _ & NT3). rewrite R3. cbn [bind].
          assert (N3 : hnet t3 = hnet s2) by (rewrite NT3, NT; reflexivity).
          destruct (AG t3 HS3 N3) as (t4 & L4 & RE4). exists t4. split; [exact L4|].
          unfold apply_recs. cbn [map fold_left fst snd]. rewrite RE4. unfold apply_recs. fold (stats_of t3). rewrite RS3. reflexivity.
  Qed.
End Again.

(** *** no chance: the drawn states do not depend on the random numbers *)
Lemma seed64 s : (64 | s) -> (rand_of ((s * 65539) mod 2147483648) < q1)%Qc.
Proof. intros (y & ->). replace (y * 64 * 65539) with (64 * (y * 65539)) by ring. apply seed64_rand. Qed.
Lemma gstate_sure PROBG IG IG' RT DR PL : (length PROBG <= length IG)%nat -> (length PROBG <= length IG')%nat ->
  length RT = length PROBG -> length DR = length PROBG -> length PL = length PROBG ->
  (forall u, (u < length PROBG)%nat -> mget PROBG u 0 = q1 /\ (64 | nth u IG 0) /\ (64 | nth u IG' 0)) ->
  snd (gstate IG PROBG RT DR PL) = snd (gstate IG' PROBG RT DR PL).
Proof.
  intros L L' LR LD LP H. pose proof (gstate_spec PROBG IG RT DR PL L LR LD LP) as G. pose proof (gstate_spec PROBG IG' RT DR PL L' LR LD LP) as G'.
  destruct (gstate IG PROBG RT DR PL) as [[I1 F1] A1]. destruct (gstate IG' PROBG RT DR PL) as [[I2 F2] A2]. cbn [snd].
  destruct G as (_ & _ & LA & G & _). destruct G' as (_ & _ & LA' & G' & _). apply (nth_ext_eq _ _ q0); [congruence|]. intros u Hu. rewrite LA in Hu.
  destruct (G u Hu) as (S1 & S2 & ->). destruct (G' u Hu) as (T1 & T2 & ->). destruct (H u Hu) as (P1 & D & D'). rewrite S2, T2, S1, T1, P1. unfold gen_fraction.
  apply seed64, (proj2 (qltb_iff _ _)) in D. apply seed64, (proj2 (qltb_iff _ _)) in D'. now rewrite D, D'.
Qed.
Lemma lstate_sure PROBL IL IL' : (length PROBL <= length IL)%nat -> (length PROBL <= length IL')%nat ->
  (forall v, (v < length PROBL)%nat -> mget PROBL v 0 = q1 /\ (64 | nth v IL 0) /\ (64 | nth v IL' 0)) ->
  snd (lstate IL PROBL) = snd (lstate IL' PROBL).
Proof.
  intros L L' H. pose proof (lstate_spec PROBL IL L) as G. pose proof (lstate_spec PROBL IL' L') as G'.
  destruct (lstate IL PROBL) as [I1 A1]. destruct (lstate IL' PROBL) as [I2 A2]. cbn [snd].
  destruct G as (_ & LA & G & _). destruct G' as (_ & LA' & G' & _). apply (nth_ext_eq _ _ 0); [congruence|]. intros v Hv. rewrite LA in Hv.
  destruct (G v Hv) as (S1 & ->). destruct (G' v Hv) as (T1 & ->). destruct (H v Hv) as (P1 & D & D'). rewrite S1, T1. unfold line_state. unfold mget, vget in P1. rewrite P1.
  apply seed64, Qclt_le_weak, (proj2 (qleb_iff _ _)) in D. apply seed64, Qclt_le_weak, (proj2 (qleb_iff _ _)) in D'. now rewrite D, D'.
Qed.

Section Adds.
  Variables (inv : list (list Qc) -> option (list (list Qc)))
            (lp : list (list Qc) -> list (list Qc) -> list (list Qc) -> res (list Qc * list (list Qc))).
  Hypothesis KA : keeps_areas lp.
  Variables (n nu nl : nat) (i : input).
  Hypothesis IN : input_ok n nu nl i.
  Hypothesis CE : certain nu nl i.

  Lemma fresh_ok : hst_ok n nu nl (fresh n nu nl i).
  Proof.
    constructor; cbn [fresh IGSEED ILSEED hnet LSFLG hrs pks cards_net first_net n_BN]; rewrite ?repeat_length; auto; try apply first_stat_shape.
    exact (in_bn _ _ _ _ IN).
  Qed.
  Lemma rating_len : length (first_rating i) = nu.
  Proof. unfold first_rating. rewrite map_length. exact (in_rates _ _ _ _ IN). Qed.
  Lemma part_first pl wn wt c k : part pl wn wt c k (first_stat n, first_stat n) = 0.
  Proof. unfold part, first_stat. cbn [fst snd]. destruct wn; cbn [lolG lolT mgnG mgnT plolG plolT pmgnG pmgnT]; destruct pl, wt, c; rewrite ?zmget_repeat0, ?zget_repeat0; reflexivity. Qed.

  Lemma hour_adds h h' t : 1 <= t -> hst_ok n nu nl h -> (forall u, (u < nu)%nat -> (64 | nth u (IGSEED h) 0)) -> (forall v, (v < nl)%nat -> (64 | nth v (ILSEED h) 0)) ->
    same_areas (n_BN (cards_net i)) (n_BN (hnet h)) ->
    hour inv lp (i_h i) (on t) (repeat q1 nu) (first_rating i) h = Ok h' ->
    forall pl wn wt c k, valid_place n pl -> (k < 5)%nat ->
    part pl wn wt c k (hrs h', pks h') = part pl wn wt c k (hrs h, pks h) + part pl wn wt c k (hour_loss inv lp n nu nl i t).
  Proof.
    intros Ht HO DG DL SA E pl wn wt c k VP Hk. pose proof (in_study _ _ _ _ IN) as ST. set (h0 := with_net h (cards_net i)).
    assert (HO0 : hst_ok n nu nl h0). { destruct HO. constructor; cbn [h0 with_net IGSEED ILSEED hnet LSFLG hrs pks cards_net first_net n_BN]; auto. exact (in_bn _ _ _ _ IN). }
    assert (EH : with_net h0 (hnet h) = h) by now destruct h.
    pose proof (hour_same inv lp (i_h i) (on t) (repeat q1 nu) (first_rating i) h0 (hnet h) SA) as SH. rewrite EH, E in SH.
    unfold hour_loss. pose proof fresh_ok as FO. pose proof rating_len as RL. assert (L1 : length (repeat q1 nu) = nu) by apply repeat_length.
    destruct (load_hour_ok n nu nl (i_h i) ST t Ht) as (J & EJ & IJ & _).
    destruct (draw_ok n nu nl (i_h i) ST t Ht h0 (repeat q1 nu) (first_rating i) HO0 L1 RL) as (d & ED & G1 & G2 & G3 & D1 & D2 & D3).
    destruct (draw_ok n nu nl (i_h i) ST t Ht (fresh n nu nl i) (repeat q1 nu) (first_rating i) FO L1 RL) as (d2 & ED2 & G12 & G22 & G32 & D12 & D22 & D32).
    assert (H0 := drawn_state_ok n nu nl (i_h i) ST t h0 (repeat q1 nu) (first_rating i) HO0 L1 RL d ED G1 G2).
    assert (H2 := drawn_state_ok n nu nl (i_h i) ST t (fresh n nu nl i) (repeat q1 nu) (first_rating i) FO L1 RL d2 ED2 G12 G22).
    assert (AVE : avail (i_h i) (fresh n nu nl i) (repeat q1 nu) (first_rating i) = avail (i_h i) h0 (repeat q1 nu) (first_rating i)).
    { unfold avail. destruct (st_units _ _ _ _ ST) as (LG & LD). apply gstate_sure; rewrite ?LG; auto; try apply FO; try apply HO0.
      intros u Hu. split; [now apply (ce_units _ _ _ CE)|]. cbn [fresh IGSEED h0 with_net]. rewrite nth_repeat. split; [exists 0; reflexivity|now apply DG]. }
    assert (LNE : d_LNSTAT d2 = d_LNSTAT d).
    { rewrite G3, G32. pose proof (st_lines _ _ _ _ ST) as LL. apply lstate_sure; rewrite ?LL; try apply FO; try apply HO0.
      intros v Hv. split; [now apply (ce_lines _ _ _ CE)|]. cbn [fresh ILSEED h0 with_net]. rewrite nth_repeat. split; [exists 0; reflexivity|now apply DL]. }
    rewrite AVE in D12, D22.
    unfold hour in SH |- *. rewrite EJ in SH |- *. cbn [bind] in SH |- *. destruct (draws_now _ _) as [[]|]; cbn [bind] in SH |- *; try discriminate SH.
    rewrite ED in SH. rewrite ED2. cbn [bind] in SH |- *.
    assert (LV : (x_NFCST (i_h i) <= 5)%nat) by apply (st_levels _ _ _ _ ST).
    destruct (levels inv lp (i_h i) (on t) J d _ false _) as [t1|er] eqn:EL; cbn [same_hour] in SH; [|discriminate SH]. destruct SH as (M & EM & _). injection EM as ->.
    destruct (levels_again n nu nl (i_h i) ST t Ht inv lp KA (avail (i_h i) h0 (repeat q1 nu) (first_rating i)) d d2 J D1 IJ
      ltac:(split; [congruence|split; [congruence|split; [exact LNE|congruence]]]) (seq 0 (x_NFCST (i_h i))) _ t1 false 0%nat ltac:(now rewrite seq_length) ltac:(rewrite seq_length; lia) H0 EL)
      as (recs & RE & F & AG).
    destruct (AG _ H2 eq_refl) as (t2 & EL2 & RE2). rewrite EL2. cbn [with_net hrs pks].
    unfold stats_of, apply_recs in RE, RE2. cbn [LSFLG hrs pks] in RE, RE2.
    assert (SZ : length (LSFLG h0) = n /\ stat_shape n 5 (hrs h0) /\ stat_shape n 5 (pks h0)) by (destruct HO0; auto). destruct SZ as (Z1 & Z2 & Z3).
    assert (SZ : length (LSFLG (fresh n nu nl i)) = n /\ stat_shape n 5 (hrs (fresh n nu nl i)) /\ stat_shape n 5 (pks (fresh n nu nl i))) by (destruct FO; auto). destruct SZ as (Y1 & Y2 & Y3).
    destruct (records_part n _ recs _ _ _ _ _ _ RE F Z1 Z2 Z3 pl wt c k VP Hk) as (A1 & B1).
    destruct (records_part n _ recs _ _ _ _ _ _ RE2 F Y1 Y2 Y3 pl wt c k VP Hk) as (A2 & B2).
    assert (Z0 : stat_part pl wt c k (first_stat n) = 0) by (exact (part_first pl Hourly wt c k)).
    cbn [fresh hrs pks h0 with_net] in A1, A2, B1, B2. rewrite Z0 in A2, B2.
    assert (PS : forall a b, part pl wn wt c k (a, b) = stat_part pl wt c k (match wn with Hourly => a | Peak => b end)) by (intros a b; now destruct wn).
    rewrite !PS. destruct wn; lia.
  Qed.
End Adds.

(** *** an hour depends on the clock only through the hour of the year *)
Lemma levels_clock inv lp cf C C' J d : hour_index C = hour_index C' -> forall ls b s, levels inv lp cf C J d ls b s = levels inv lp cf C' J d ls b s.
Proof.
  intros H. assert (RE : forall l M s, record_level cf C J l M s = record_level cf C' J l M s).
  { intros l M s. unfold record_level, day_index. now rewrite H. }
  induction ls as [|l rest IH]; intros b s; cbn [levels]; [reflexivity|].
  destruct (findld _ _ _ _); cbn [bind]; [|reflexivity]. destruct (last_short _); cbn [bind]; [|reflexivity].
  destruct (Nat.eqb _ 0); [reflexivity|]. destruct (Nat.eqb _ _).
  - rewrite RE. destruct (record_level _ _ _ _ _ _); cbn [bind]; [apply IH|reflexivity].
  - match goal with |- bind ?x _ = _ => destruct x end; cbn [bind]; [|reflexivity]. destruct (transm _ _ _ _ _ _ _ _ _ _ _ _ _ _) as [[[[em FL] SA] net1]|]; cbn [bind]; [|reflexivity].
    destruct em; cbn [negb]; [|reflexivity]. destruct (existsb _ _); cbn [negb]; [|reflexivity].
    rewrite RE. destruct (record_level _ _ _ _ _ _); cbn [bind]; [apply IH|reflexivity].
Qed.
Lemma hour_clock inv lp cf C C' PL RT s : hour_index C = hour_index C' -> hour inv lp cf C PL RT s = hour inv lp cf C' PL RT s.
Proof.
  intros H. unfold hour, load_hour, draw, day_index. rewrite H.
  match goal with |- bind ?x _ = _ => destruct x as [J|] end; cbn [bind]; [|reflexivity]. destruct (draws_now _ _) as [[]|]; cbn [bind]; try reflexivity.
  destruct (gstate _ _ _ _ _) as [[IG F] AV]. destruct (sumcap _ _ _) as [[[[a b] c] d]|]; cbn [bind]; [|reflexivity].
  destruct (lstate _ _) as [IL LN]. destruct (findtn _ _ _); cbn [bind]; [|reflexivity]. now apply levels_clock.
Qed.
Lemma loss_period inv lp n nu nl i t y : 0 <= t -> 0 <= y -> hour_loss inv lp n nu nl i (t + 8760 * y) = hour_loss inv lp n nu nl i t.
Proof.
  intros Ht Hy. unfold hour_loss. rewrite (hour_clock inv lp (i_h i) (on (t + 8760 * y)) (on t)); [reflexivity|].
  rewrite !hour_index_int by lia. f_equal. rewrite Z.mul_comm. apply Z.mod_add. lia.
Qed.

(** *** weeks without planned outages *)
Lemma idle_week JH JP P P' : (forall w, (w < length JP)%nat -> zget (nth w JP []) 0 = 0) -> week_status JH JP P = Ok P' -> P' = repeat q1 (length P).
Proof.
  intros H. unfold week_status. destruct (51 <? _); [congruence|]. destruct (pyget JP _) as [row|] eqn:ER; cbn [bind]; [|discriminate].
  assert (IR : In row JP). { unfold pyget in ER. destruct (pyidx _ _) as [w|]; [|discriminate]. destruct (nth_error JP w) eqn:EN; cbn [of_option] in ER; [|discriminate]. injection ER as <-. now apply nth_error_In in EN. }
  apply (In_nth _ _ []) in IR. destruct IR as (w & Hw & EW). specialize (H w Hw). rewrite EW in H.
  destruct row as [|m row]; [discriminate|]. unfold zget in H. cbn [nth] in H. subst m.
  assert (E0 : pyget (0 :: row) 0 = Ok 0) by reflexivity. rewrite E0. cbn [bind].
  change (0 + 1) with 1. unfold pyslice. change (1 <? 0) with false. cbv iota. change (Z.to_nat 1) with 1%nat. cbn [firstn skipn fancy_set]. congruence.
Qed.
Lemma same_rates RATES q l : (q < 4)%nat -> (forall u, (u < length RATES)%nat -> mget RATES u q = mget RATES u 0) ->
  rates_of RATES (Z.of_nat q) = Ok l -> l = map (fun r => nth 0 r q0) RATES.
Proof.
  intros Hq. revert l. induction RATES as [|r RS IH]; intros l H; unfold rates_of; cbn [fold_right map]; [congruence|].
  fold (rates_of RS (Z.of_nat q)). destruct (pyget r (Z.of_nat q)) as [x|] eqn:E; cbn [bind]; [|discriminate]. destruct (rates_of RS _) as [l'|]; cbn [bind]; [|discriminate].
  intros EL. injection EL as <-. f_equal.
  - specialize (H 0%nat ltac:(cbn; lia)). unfold mget, vget in H. cbn [nth] in H. rewrite <- H.
    destruct (Nat.lt_ge_cases q (length r)) as [L|L].
    + rewrite (pyget_nonneg r (Z.of_nat q) q0), Nat2Z.id in E by lia. congruence.
    + unfold pyget, pyidx in E. destruct (Z.ltb_spec (Z.of_nat q) (Z.of_nat (length r))); [lia|]. rewrite andb_false_r in E. destruct (Z.ltb_spec (Z.of_nat q) 0); [lia|]. discriminate E.
  - apply IH; [|reflexivity]. intros u Hu. exact (H (S u) ltac:(cbn; lia)).
Qed.

(** *** the whole run *)
Section Run.
  Variables (inv : list (list Qc) -> option (list (list Qc)))
            (lp : list (list Qc) -> list (list Qc) -> list (list Qc) -> res (list Qc * list (list Qc))).
  Hypothesis KA : keeps_areas lp. Hypothesis KL : keeps_limits lp.
  Variables (n nu nl : nat) (i : input).
  Hypothesis IN : input_ok n nu nl i.
  Hypothesis CE : certain nu nl i.
  Let J := x_JSTEP (i_h i).
  Let NF := x_NFCST (i_h i).
  Let lossd pl wn wt c k (m : nat) : Z := part pl wn wt c k (hour_loss inv lp n nu nl i (J * Z.of_nat m)).
  Let since := since n i.

  Record cinv (s : lst world) (a b d : nat) (l : list annual) : Prop := mkCinv {
    ci_pl : (1 <= b)%nat -> s_plndst s = repeat q1 nu;
    ci_net : limits_kept (i_BN i) (n_BN (hnet (w_h (s_w s))));
    ci_cur : forall pl wn wt c k, valid_place n pl -> (k < NF)%nat ->
      part pl wn wt c k (hrs (w_h (s_w s)), pks (w_h (s_w s))) = zsum (map (lossd pl wn wt c k) (seq (since pl k d + 1) (a - since pl k d)));
    ci_years : run_years (year_cfg i) n 0 (start_year n (i_INTV i) (i_ITAB i)) l = Ok (w_y (s_w s), w_out (s_w s));
    ci_len : length l = d;
    ci_annual : Forall (annual_ok n) l;
    ci_hist : forall y pl wn wt c k, (y < d)%nat -> valid_place n pl -> (k < NF)%nat ->
      part pl wn wt c k (nth y l (first_stat n, first_stat n)) = zsum (map (lossd pl wn wt c k) (seq (since pl k y + 1) (draws_upto i (S y) - since pl k y))) }.

  Lemma kept_cards B : limits_kept (i_BN i) B -> same_areas (n_BN (cards_net i)) B.
  Proof.
    intros ((EL & A) & D). split; [exact EL|]. intros j. split; [apply (A j)|]. intros c NC. destruct (Nat.eq_dec c 4) as [->|N4]; [|apply (A j); cbn in *; intuition].
    cbn [cards_net first_net n_BN].
    destruct (Nat.lt_ge_cases j (length (i_BN i))) as [L|L].
    - destruct D as [D|D]; [now apply D|]. rewrite D by exact L. symmetry. now apply (ce_limits _ _ _ CE).
    - unfold mget. rewrite (nth_overflow B), (nth_overflow (i_BN i)) by lia. reflexivity.
  Qed.
  Lemma unit_seed64 u m : (64 | unit_seed u m).
  Proof.
    unfold unit_seed. set (p := 9649599 ^ (Z.of_nat u + 1)). set (q := 65539 ^ Z.of_nat m). clearbody p q. change (2 ^ 31) with (64 * 33554432).
    replace (123456 * p * q) with (64 * (1929 * p * q)) by ring. rewrite Z.mul_mod_distr_l by lia. apply Z.divide_factor_l.
  Qed.
  Lemma zsum_snoc l x : zsum (l ++ [x]) = zsum l + x.
  Proof. rewrite zsum_app, zsum_cons. change (zsum []) with 0. lia. Qed.

  Lemma certain_trace IG IL lg s a b c d : seeder JSEED nu nl = Ok (IG, IL) ->
    trace (program inv lp i) (loop_cfg i) (start (loop_cfg i) nu (first_world i IG IL)) 0 0 0 0 lg s a b c d ->
    exists l, cinv s a b d l.
  Proof.
    intros SD. pose proof (in_step _ _ _ _ IN) as SO. unfold step_ok in SO. fold J in SO.
    assert (PI : forall lg s a b c d, trace (program inv lp i) (loop_cfg i) (start (loop_cfg i) nu (first_world i IG IL)) 0 0 0 0 lg s a b c d -> exists R l, pinv inv lp n nu nl i lg s a d R l)
      by (intros; eapply program_trace; eauto).
    pose proof (fun lg s a b c d => trace_vars (program inv lp i) (loop_cfg i) nu (first_world i IG IL) lg s a b c d) as TV.
    remember (start (loop_cfg i) nu (first_world i IG IL)) as s00 eqn:ES0. intros T.
    remember 0%nat as z0 eqn:Z0 in T at 1. remember 0%nat as z1 eqn:Z1 in T at 1. remember 0%nat as z2 eqn:Z2 in T at 1. remember 0%nat as z3 eqn:Z3 in T at 1.
    induction T as [|s0 a0 b0 c0 d0 lg s1 a1 b1 c1 d1 e s2 a2 b2 c2 d2 T IH I ES RF LF LC EC FA ST].
    { subst. exists []. constructor; cbn [start s_w s_rating s_plndst first_world w_h w_y w_out IGSEED ILSEED hrs pks hnet LSFLG first_net n_BN].
      - intros; lia.
      - apply kept_refl.
      - intros pl wn wt c k VP Hk. rewrite Nat.sub_0_l || idtac. cbn [seq Nat.sub map]. rewrite (n_areas n nu nl i IN). change (zsum (map (lossd pl wn wt c k) (seq (since pl k 0 + 1) 0))) with 0. apply part_first.
      - rewrite (n_areas n nu nl i IN). reflexivity.
      - reflexivity.
      - constructor.
      - intros; lia. }
    subst a0 b0 c0 d0 s0.
    pose proof T as T0.
    destruct IH as (l & C); auto. destruct (PI _ _ _ _ _ _ T0) as (R & l0 & P). destruct (TV _ _ _ _ _ _ T0) as (_ & _ & RTS & LPL). clear PI TV.
    destruct ST as [s2 S1 S2 S3 S4 S5 S6 | s2 S1 S2 S3 S4 S5 S6 | s2 S1 S2 S3 S4 S5 S6 | s2 S0 S1 S2 S3 S4 S5].
    - cbn [program h_hour] in S1. unfold do_hour in S1. destruct (hour inv lp (i_h i) _ _ _ _) as [h'|] eqn:EH; cbn [bind] in S1; [|discriminate]. injection S1 as EW.
      change (fst (draw_event (c_JSTEP (loop_cfg i)) (S a1))) with (on (J * Z.of_nat (S a1))) in EH.
      assert (K1 : 1 <= J * Z.of_nat (S a1)) by nia.
      unfold agenda in FA. rewrite <- inj_draw in FA. inversion FA as [|? ? F0 FA1]; subst. inversion FA1 as [|? ? F1 FA2]; subst. inversion FA2 as [|? ? F2 _]; subst.
      cbn [inj fst zdraw zweek] in F1, F2. apply (proj1 (hh_le _ _)) in F1. apply (proj1 (hh_le _ _)) in F2. change (c_JSTEP (loop_cfg i)) with J in F1, F2.
      assert (B1 : (1 <= b1)%nat) by (destruct b1; [cbn [Z.of_nat] in F1; lia|lia]).
      assert (C1 : c1 <> 0%nat) by (intros ->; cbn [zseason fst] in F2; change (0 mod 4)%nat with 0%nat in F2; change (0 / 4)%nat with 0%nat in F2; lia).
      rewrite (ci_pl _ _ _ _ _ C B1) in EH. specialize (RTS C1). cbn [loop_cfg c_RATES] in RTS.
      apply same_rates in RTS; [|apply Nat.mod_upper_bound; lia|].
      2:{ intros u Hu. rewrite (in_rates _ _ _ _ IN) in Hu. apply (ce_seasons _ _ _ CE); auto. apply Nat.mod_upper_bound. lia. }
      change (map (fun r => nth 0 r q0) (i_RATES i)) with (first_rating i) in RTS. rewrite RTS in EH.
      pose proof (kept_cards _ (ci_net _ _ _ _ _ C)) as SA.
      destruct P as [P1 P2 P3 P4 P5 P6 P7 P8 P9 P10 P11 P12 P13].
      assert (DG : forall u, (u < nu)%nat -> (64 | nth u (IGSEED (w_h (s_w s1))) 0)) by (intros u Hu; rewrite P2 by exact Hu; apply unit_seed64).
      assert (DL : forall v, (v < nl)%nat -> (64 | nth v (ILSEED (w_h (s_w s1))) 0)) by (intros v Hv; rewrite P3 by exact Hv; apply unit_seed64).
      pose proof (hour_adds inv lp KA n nu nl i IN CE _ _ _ K1 P1 DG DL SA EH) as AD.
      destruct C as [C1' C2 C3 C4 C5 C6 C7]. exists l. constructor; rewrite <- ?EW; cbn [w_h w_y w_out]; auto.
      + rewrite S4. exact C1'.
      + eapply kept_trans; [exact C2|]. eapply hour_limits; [exact KL| |exact EH]. eapply wide_agree; [apply C2|]. exact (ce_wide _ _ _ CE).
      + intros pl wn wt c k VP Hk. pose proof (nf5 n nu nl i IN) as N5. fold NF in N5. rewrite AD by (auto; lia). rewrite C3 by auto.
        unfold since. rewrite (upto_split i) by (apply (since_a n nu nl i IN); exact P7). rewrite map_app, zsum_app. cbn [map]. rewrite zsum_cons. change (zsum []) with 0. unfold lossd. lia.
    - destruct C as [C1 C2 C3 C4 C5 C6 C7]. exists l. constructor; rewrite ?S6; auto.
      intros _. rewrite <- LPL. apply (idle_week (s_jhour s1) (i_JPLOUT i)); [exact (ce_planned _ _ _ CE)|exact S1].
    - destruct C as [C1 C2 C3 C4 C5 C6 C7]. exists l. constructor; rewrite ?S6; auto. now rewrite S4.
    - cbn [program h_year] in S1. unfold do_year in S1. rewrite (n_areas n nu nl i IN) in S1.
      set (ann := (hrs (w_h (s_w s1)), pks (w_h (s_w s1)))).
      change (mkYst (hrs (w_h (s_w s1))) _ _ _ _ _ _ _ _ _ _ _ _) with (with_annual (w_y (s_w s1)) ann) in S1.
      change (fst (year_event (S d1))) with (qz (8760 * Z.of_nat (S d1))) in S1.
      destruct (year (year_cfg i) n _ _) as [[y' o]|] eqn:EY; cbn [bind] in S1; [|discriminate]. injection S1 as EW ER.
      destruct P as [P1 P2 P3 P4 P5 P6 P7 P8 P9 P10 P11 P12 P13].
      assert (AOK : annual_ok n ann) by (split; apply P1).
      assert (DU : draws_upto i (S d1) = a1) by (apply (draws_upto_full n nu nl i IN); [rewrite <- Nat.add_1_r; exact P6|exact S0]).
      pose proof (nf5 n nu nl i IN) as N5. fold NF in N5.
      assert (EH : y_h y' = reset NF n (hrs (w_h (s_w s1))) /\ y_p y' = reset NF n (pks (w_h (s_w s1)))).
      { pose proof (year_ok _ _ _ _ _ _ EY) as (h1 & d1' & e1 & RF' & SSQ & XL & _ & _ & K). cbv zeta in K. destruct K as (_ & A & B & _). auto. }
      destruct EH as (EH & EP). destruct C as [C1 C2 C3 C4 C5 C6 C7].
      exists (l ++ [ann]). constructor; rewrite <- ?EW; cbn [w_h w_y w_out IGSEED ILSEED hnet hrs pks]; auto.
      + rewrite S4. exact C1.
      + intros pl wn wt c k VP Hk. rewrite part_stat, EH, EP.
        transitivity (stat_part pl wt c k (reset NF n match wn with Hourly => hrs (w_h (s_w s1)) | Peak => pks (w_h (s_w s1)) end)); [destruct wn; reflexivity|].
        rewrite reset_part by (try lia; auto; destruct wn; apply P1). specialize (C3 pl wn wt c k VP Hk). unfold since, ProgramProofs.since in *. fold NF in C3 |- *. destruct (cleared n NF pl k) eqn:CL.
        * rewrite DU, Nat.sub_diag. reflexivity.
        * rewrite <- C3, part_stat. reflexivity.
      + apply run_snoc. exists (w_y (s_w s1)), (w_out (s_w s1)), o. split; [exact C4|]. split; [|reflexivity].
        rewrite C5. replace (0 + Z.of_nat d1 + 1) with (Z.of_nat (S d1)) by lia. exact EY.
      + rewrite app_length, C5. cbn [length]. lia.
      + apply Forall_app. split; [exact C6|]. constructor; [exact AOK|constructor].
      + intros y pl wn wt c k Hy VP Hk. destruct (Nat.eq_dec y d1) as [->|NE].
        * rewrite app_nth2, C5, Nat.sub_diag by lia. cbn [nth]. unfold ann. rewrite C3 by auto. now rewrite DU.
        * rewrite app_nth1 by lia. apply C7; auto. lia.
  Qed.

  (** *** the sums over whole years *)
  Lemma step_div : 8760 = J * (8760 / J).
  Proof. pose proof (in_step _ _ _ _ IN) as SO. unfold step_ok in SO. fold J in SO. destruct (ce_step _ _ _ CE) as (q & Q). fold J in Q. rewrite Q at 2. rewrite Z.div_mul by lia. lia. Qed.
  Lemma upto_mul y : draws_upto i y = (y * Z.to_nat (8760 / J))%nat.
  Proof.
    unfold draws_upto. fold J. pose proof (in_step _ _ _ _ IN) as SO. unfold step_ok in SO. fold J in SO. destruct (ce_step _ _ _ CE) as (q & Q). fold J in Q.
    rewrite Q. replace (q * J * Z.of_nat y) with (q * Z.of_nat y * J) by ring. rewrite !Z.div_mul by lia. rewrite Z2Nat.inj_mul by nia. rewrite Nat2Z.id. apply Nat.mul_comm.
  Qed.
  Lemma block_sum f (N : nat) : (forall m y, f (m + y * N)%nat = f m) -> forall y0 Y, zsum (map f (seq (y0 * N + 1) (Y * N))) = Z.of_nat Y * zsum (map f (seq 1 N)).
  Proof.
    intros H y0 Y. induction Y as [|Y IH]; [reflexivity|].
    replace (S Y * N)%nat with (Y * N + N)%nat by lia. rewrite seq_app, map_app, zsum_app, IH.
    assert (E : map f (seq (y0 * N + 1 + Y * N) N) = map f (seq 1 N)).
    { apply (nth_ext_eq _ _ 0); [now rewrite !map_length, !seq_length|]. intros j Hj. rewrite map_length, seq_length in Hj.
      rewrite !(nth_indep _ 0 (f 0%nat)) by (rewrite map_length, seq_length; exact Hj). rewrite !map_nth, !seq_nth by exact Hj.
      replace (y0 * N + 1 + Y * N + j)%nat with (1 + j + (y0 + Y) * N)%nat by lia. apply H. }
    rewrite E. lia.
  Qed.
  Lemma lossd_period pl wn wt c k m y : lossd pl wn wt c k (m + y * Z.to_nat (8760 / J)) = lossd pl wn wt c k m.
  Proof.
    unfold lossd. f_equal. pose proof (in_step _ _ _ _ IN) as SO. unfold step_ok in SO. fold J in SO. pose proof step_div as SD.
    assert (0 <= 8760 / J) by (apply Z.div_pos; lia).
    replace (J * Z.of_nat (m + y * Z.to_nat (8760 / J))) with (J * Z.of_nat m + 8760 * Z.of_nat y).
    - apply loss_period; nia.
    - rewrite Nat2Z.inj_add, Nat2Z.inj_mul, Z2Nat.id by lia. rewrite SD at 1. ring.
  Qed.
  Lemma block_year pl wn wt c k y0 y : (y0 <= y)%nat ->
    zsum (map (lossd pl wn wt c k) (seq (draws_upto i y0 + 1) (draws_upto i y - draws_upto i y0))) = Z.of_nat (y - y0) * year_loss inv lp n nu nl i pl wn wt c k.
  Proof.
    intros H. rewrite !upto_mul. set (N := Z.to_nat (8760 / J)). rewrite <- Nat.mul_sub_distr_r. rewrite (block_sum (lossd pl wn wt c k) N); [reflexivity|]. intros m z. apply lossd_period.
  Qed.

  Lemma certain_years s a b d l : cinv s a b d l -> forall y pl wn wt c k, (y < d)%nat -> valid_place n pl -> (k < NF)%nat ->
    part pl wn wt c k (nth y l (first_stat n, first_stat n)) = (if cleared n NF pl k then 1 else Z.of_nat (S y)) * year_loss inv lp n nu nl i pl wn wt c k.
  Proof.
    intros [] y pl wn wt c k Hy VP Hk. rewrite ci_hist0 by auto. unfold since, ProgramProofs.since. fold NF. destruct (cleared n NF pl k).
    - rewrite block_year by lia. f_equal. lia.
    - replace 0%nat with (draws_upto i 0) by now rewrite upto_mul. rewrite block_year by lia. now rewrite Nat.sub_0_r.
  Qed.
  (** the statistics so far, at the last draw of a year *)
  Lemma certain_current s b d l : cinv s (draws_upto i (S d)) b d l -> forall pl wn wt c k, valid_place n pl -> (k < NF)%nat ->
    part pl wn wt c k (hrs (w_h (s_w s)), pks (w_h (s_w s))) = (if cleared n NF pl k then 1 else Z.of_nat (S d)) * year_loss inv lp n nu nl i pl wn wt c k.
  Proof.
    intros [] pl wn wt c k VP Hk. rewrite ci_cur0 by auto. unfold since, ProgramProofs.since. fold NF. destruct (cleared n NF pl k).
    - rewrite block_year by lia. f_equal. lia.
    - replace 0%nat with (draws_upto i 0) by now rewrite upto_mul. rewrite block_year by lia. now rewrite Nat.sub_0_r.
  Qed.
End Run.
