(** Proofs for C101: which exceptions an hour, a network solution and a run can raise. *)
From Verif Require Import Base BaseProofs Sums SampleModel SampleProofs LoadModel LoadSpec NetModel NetSpec NetProofs MatProofs TransmProofs StatModel StatSpec StatProofs
  EventModel ControlModel ControlSpec ControlProofs RunProofs HourModel HourSpec HourProofs LinpackModel PropertiesLinpack
  YearModel YearSpec YearProofs YearRun ReportModel ProgramModel ProgramSpec ProgramProofs CauseSpec.
Open Scope Z_scope.

Lemma pyget_in_range {A} (l : list A) i : - Z.of_nat (length l) <= i < Z.of_nat (length l) -> exists x t, (t < length l)%nat /\ pyget l i = Ok x /\ nth_error l t = Some x /\ (0 <= i -> t = Z.to_nat i).
Proof.
  intros H. unfold pyget, pyidx. destruct (Z.leb_spec 0 i).
  - destruct (Z.ltb_spec i (Z.of_nat (length l))); [|lia]. cbn [andb]. destruct (nth_error l (Z.to_nat i)) as [x|] eqn:E.
    + exists x, (Z.to_nat i). cbn [of_option]. split; [lia|]. auto.
    + apply nth_error_None in E. lia.
  - cbn [andb]. destruct (Z.ltb_spec i 0); [|lia]. destruct (Z.leb_spec (- Z.of_nat (length l)) i); [|lia]. cbn [andb].
    destruct (nth_error l (Z.to_nat (Z.of_nat (length l) + i))) as [x|] eqn:E.
    + exists x, (Z.to_nat (Z.of_nat (length l) + i)). cbn [of_option]. split; [lia|]. split; auto. split; auto. lia.
    + apply nth_error_None in E. lia.
Qed.

(** *** the table of direct lines *)
Lemma direct_help_ok n nl cf LN M IT : lines_ok n nl cf -> length LN = nl -> (forall v, (v < nl)%nat -> 1 <= zget LN v <= 6) ->
  length M = n -> (IT < n)%nat -> exists v, direct_help cf LN M IT = Ok v.
Proof.
  intros [LC LR LT LD] LL ST LM HI. unfold direct_help.
  assert (G : forall js acc, (forall j, In j js -> (j < n)%nat) -> exists v, fold_left (fun acc j =>
     do NEED <- acc;
     do row <- pyget (x_LINENO cf) (Z.of_nat j);
     do N <- pyget row (Z.of_nat IT);
     if -1 <? N then
       do st <- pyget LN N;
       do ends <- pyget (x_LP cf) N;
       do r <- pyget (x_BLPA cf) N;
       do XX <- pyget r ((st - 1) * 3 + 1 + (if Nat.eqb (fst ends) j then 0 else 1));
       Ok (NEED - Z.min (zget M j) (qtrunc XX))
     else Ok NEED) js (Ok acc) = Ok v).
  { induction js as [|j js IH]; intros acc H; cbn [fold_left]; [eauto|].
    assert (Hj : (j < n)%nat) by (apply H; now left). destruct LT as (L1 & L2).
    rewrite (pyget_nonneg _ _ []) by lia. rewrite Nat2Z.id. cbn [bind].
    rewrite (pyget_nonneg _ _ (-1)) by (rewrite L2 by auto; lia). rewrite Nat2Z.id. cbn [bind].
    specialize (LD j IT Hj HI). unfold zmget in LD.
    rewrite (nth_indep _ (-1) 0) by (rewrite L2; auto). set (N := nth IT (nth j (x_LINENO cf) []) 0) in *.
    destruct (Z.ltb_spec (-1) N) as [HN|HN]; [|apply IH; intros; apply H; now right].
    rewrite (pyget_nonneg _ _ 1) by lia. cbn [bind].
    rewrite (pyget_nonneg _ _ (0%nat, 0%nat)) by lia. cbn [bind].
    rewrite (pyget_nonneg _ _ []) by (rewrite (proj1 LR); lia). cbn [bind].
    assert (S6 : 1 <= nth (Z.to_nat N) LN 1 <= 6).
    { rewrite (nth_indep _ 1 0) by lia. apply ST. lia. }
    rewrite (pyget_nonneg _ _ q0).
    2:{ rewrite (proj2 LR) by lia. destruct (Nat.eqb _ _); lia. }
    cbn [bind]. apply IH. intros; apply H; now right. }
  apply G. intros j Hj. apply filter_In in Hj. destruct Hj as (Hj & _). apply in_seq in Hj. lia.
Qed.

Lemma line_state_range r P : 1 <= line_state r P <= 6.
Proof. unfold line_state. repeat (destruct (qleb _ _); [lia|]). lia. Qed.
Lemma lstate_states PROBL IL : (length PROBL <= length IL)%nat ->
  length (snd (lstate IL PROBL)) = length PROBL /\ forall v, (v < length PROBL)%nat -> 1 <= zget (snd (lstate IL PROBL)) v <= 6.
Proof.
  intros H. pose proof (lstate_spec PROBL IL H) as G. destruct (lstate IL PROBL) as [IL' st]. destruct G as (_ & L & S & _). cbn [snd].
  split; [exact L|]. intros v Hv. unfold zget. rewrite (proj2 (S v Hv)). apply line_state_range.
Qed.

(** *** the base matrix has an inverse *)
Lemma nonsingular_inverse m M : (0 < m)%nat -> shape m m M -> nonsingular m M -> exists Z, is_inverse m (mget Z) (mget M) /\ is_inverse m (mget M) (mget Z).
Proof. intros H S N. destruct (C35_inverse m M H S N) as (_ & I1 & I2). exists (linpack_inv M m). auto. Qed.

Lemma tm1_succeeds inv n cf BN : inverts inv -> base_net n cf -> (0 < length (x_LP cf))%nat -> length (x_BLPA cf) = length (x_LP cf) -> length BN = n ->
  exists b, tm1 inv BN (x_LP cf) (map (firstn 3) (x_BLPA cf)) (x_NR cf) = Ok b.
Proof.
  intros (IO & IN) [BA BE BR BM BC] LP0 LB LN.
  set (BLP := map (firstn 3) (x_BLPA cf)).
  assert (EC : mcol BLP 0 = mcol (x_BLPA cf) 0).
  { unfold BLP, mcol. rewrite map_map. apply map_ext. intros r. destruct r; reflexivity. }
  unfold tm1. destruct (x_LP cf) as [|l0 LP'] eqn:EL; [cbn in LP0; lia|]. rewrite <- EL in *.
  destruct (admitb (x_LP cf) BLP) as [B|e] eqn:EB.
  2:{ exfalso. unfold admitb in EB. rewrite EL in EB. discriminate. }
  cbn [bind]. rewrite LN.
  destruct (admitb_ok _ _ _ BE EB) as (SB & GB). rewrite BA in SB, GB.
  set (BN0 := map (fun i => [qz (Z.of_nat i)]) (seq 0 n)).
  assert (AN : areas_numbered n BN0).
  { unfold BN0. split; [now rewrite map_length, seq_length|]. intros i Hi. unfold mget. rewrite nth_map_seq by auto. reflexivity. }
  pose proof (admitr_spec n B BN0 (x_NR cf) SB AN BR) as R.
  change (admitr B BN (x_NR cf)) with (fst (admitr B BN0 (x_NR cf)), snd (admitr B BN (x_NR cf))).
  destruct (admitr B BN0 (x_NR cf)) as [BR0 LT0]. cbn [fst]. destruct R as (EL0 & OK & SR & GR).
  assert (N2 : (1 < n)%nat).
  { rewrite <- BA, EL. unfold lp_areas. cbn [fold_right]. assert (fst l0 <> snd l0) by (apply BE; rewrite EL; now left). lia. }
  destruct (block_spec n (n - 1) BR0 SR ltac:(lia)) as (SBl & GBl).
  assert (NS : nonsingular (n - 1) (block (n - 1) BR0)).
  { intros x H i Hi.
    assert (INJ : injective (n - 1) (red LT0 (wlines (x_LP cf) BLP))).
    { apply (red_injective n (x_NR cf) LT0 OK).
      - apply wlines_ok. rewrite <- BA. now apply distinct_lines_in.
      - intros l Hl. unfold wlines in Hl. rewrite EC in Hl. apply (In_nth _ _ ((0%nat, 0%nat), q0)) in Hl. destruct Hl as (k & Hk & <-).
        assert (Hk' : (k < length (x_LP cf))%nat) by (rewrite combine_length in Hk; lia).
        rewrite combine_nth by (rewrite mcol_length; congruence). unfold ladm. cbn [snd]. apply Qclt_le_weak.
        pose proof (BM k Hk') as HB. unfold mcol. rewrite (nth_map_in _ _ _ []) by lia. exact HB.
      - unfold wlines. rewrite EC. exact BC. }
    apply (INJ x); [|exact Hi]. intros a Ha. unfold mv. rewrite <- (H a Ha). apply qs_ext. intros b Hb. f_equal. rewrite GBl by auto. rewrite GR by lia.
    destruct (Nat.ltb_spec a (n - 1)), (Nat.ltb_spec b (n - 1)); try lia. cbn [andb]. unfold red, at_.
    destruct OK as (OL & _ & OI & _). rewrite GB; [reflexivity| |]; apply OI, nth_In; lia. }
  destruct (nonsingular_inverse (n - 1) _ ltac:(lia) SBl NS) as (Z & Z1 & Z2).
  pose proof (IN (n - 1)%nat _ Z SBl Z1 Z2) as NN. destruct (inv (block (n - 1) BR0)) as [Z'|]; [eauto|contradiction].
Qed.

(** *** exceptions of the network solution *)
Lemma tm2_err lp BN LP BLP BLP0 BB ZB LT NR NLS er : tm2 lp BN LP BLP BLP0 BB ZB LT NR NLS = Err er ->
  (exists B, NLS = true /\ lp B BLP BN = Err er) \/ NLS = false /\ er = TypeError.
Proof.
  unfold tm2. destruct (tm2_update _ _ _ _ _ _ _ _) as [BB1 ZB1]. destruct (tm2_solve _ _ _ _ _ _) as [[[I1 L1] S1] F1].
  destruct (tm2_accepts _ _ _ _); [discriminate|]. destruct NLS.
  - destruct (lp BB1 BLP BN) as [r|e] eqn:E; cbn [bind]; [discriminate|]. intros H. injection H as <-. left. eauto.
  - intros H. injection H as <-. right. auto.
Qed.

Lemma transm_err inv lp n cf IFLAG s STMULT LN TR TJ SC CR er : inverts inv -> base_net n cf -> (0 < length (x_LP cf))%nat -> length (x_BLPA cf) = length (x_LP cf) ->
  keeps_areas lp -> length (n_BN s) = n ->
  transm inv lp IFLAG s (x_BLPA cf) (x_LP cf) (x_NR cf) STMULT LN (x_NLS cf) TR TJ SC CR = Err er ->
  (exists B L BN, length BN = n /\ lp B L BN = Err er) \/ x_NLS cf = false /\ er = TypeError.
Proof.
  intros IV BN LP0 LB KA LN0 E. unfold transm in E.
  destruct (if IFLAG then _ else _) as [[[[B0 BB] LT] ZB]|e] eqn:EB; cbn [bind] in E.
  2:{ exfalso. destruct IFLAG; [discriminate|]. destruct (tm1_succeeds inv n cf (n_BN s) IV BN LP0 LB LN0) as (b & Eb). rewrite Eb in EB. discriminate. }
  destruct (tm2 _ _ _ _ _ _ _ _ _ true) as [o1|e] eqn:E1; cbn [bind] in E.
  2:{ injection E as ->. apply tm2_err in E1. destruct E1 as [(B & _ & E1)|(C & _)]; [|discriminate C]. left.
      do 3 eexists. split; [|exact E1]. unfold sched_rows. now rewrite mapi_length. }
  apply (tm2_len _ _ _ _ _ _ _ _ _ _ _ KA) in E1. unfold sched_rows in E1. rewrite mapi_length, LN0 in E1.
  destruct (forallb _ _); [discriminate|].
  destruct (tm2 _ _ _ _ _ _ _ _ _ (x_NLS cf)) as [o2|e] eqn:E2; cbn [bind] in E; [discriminate|]. injection E as ->.
  apply tm2_err in E2. destruct E2 as [(B & NL & E2)|C]; [|right; exact C]. rewrite NL in E2. left. do 3 eexists. split; [|exact E2].
  rewrite resid_len. unfold emergency_rows. now rewrite mapi_length.
Qed.

(** *** exceptions of an hour *)
Section HourStops.
  Variables (n nu nl : nat) (cf : hcfg). Hypothesis ST : study n nu nl cf. Hypothesis LO : lines_ok n nl cf.
  Variable k : Z. Hypothesis Hk : 1 <= k.
  Variable inv : list (list Qc) -> option (list (list Qc)).
  Variable lp : list (list Qc) -> list (list Qc) -> list (list Qc) -> res (list Qc * list (list Qc)).
  Hypothesis KA : keeps_areas lp.

  Lemma levels_stop AV d J
    (DSC : d_SYSCON d = vtab n (located cf AV)) (DTJ : d_TRNSFJ d = vtab n (fun j => Qcminus (located cf AV j) (owned_cap cf AV j)))
    (DTR : d_TRNSFR d = vtab n (fun j => net_export n (x_JENT cf) (x_INTCH cf) j (day_of_year k)))
    (DL : length (d_LNSTAT d) = nl) (DS : forall v, (v < nl)%nat -> 1 <= zget (d_LNSTAT d) v <= 6)
    (HJ : pyidx (365 * 24) J = Some (hour_used cf k)) : forall ls s er first b, ls = seq b (length ls) -> (b + length ls <= 5)%nat ->
    hst_ok n nu nl s -> levels inv lp cf (on k) J d ls first s = Err er ->
    exists recs, (length recs < length ls)%nat /\ map fst recs = seq b (length recs) /\ Forall (level_record inv lp n cf k AV (d_LNSTAT d)) recs /\
      let l := (b + length recs)%nat in
      ((forall j, (j < n)%nat -> ~ short cf AV k l j) /\ er = IndexError \/
       (exists j, (j < n)%nat /\ short cf AV k l j) /\ (exists j, (j < n)%nat /\ ~ short cf AV k l j) /\ network_fails inv lp n cf k AV (d_LNSTAT d) l er).
  Proof.
    assert (LSC : length (d_SYSCON d) = n) by (rewrite DSC; apply vtab_length).
    assert (VSC : forall j, (j < n)%nat -> vget (d_SYSCON d) j = located cf AV j) by (intros j Hj; rewrite DSC; now apply vget_vtab).
    induction ls as [|l rest IH]; intros s er first b EL LE HS E; cbn [levels] in E; [discriminate|].
    cbn [length seq] in EL. injection EL as -> EL. cbn [length] in LE.
    destruct (demand_ok n nu nl cf ST k J b HJ ltac:(lia)) as (C & EC & LC & VC). rewrite EC in E. cbn [bind] in E.
    destruct (margins_ok n cf k (d_SYSCON d) C AV b LSC LC VSC VC) as (LM & VM & SM).
    set (M := margins (d_SYSCON d) C) in *.
    destruct (last_short M) as [IT|e] eqn:EI; cbn [bind] in E.
    2:{ injection E as ->. exists []. cbn [length map seq]. split; [lia|]. split; [reflexivity|]. split; [constructor|]. cbv zeta. rewrite Nat.add_0_r. left.
        unfold last_short in EI. destruct (rev (short_areas M)) eqn:ER; [|discriminate]. injection EI as <-. split; [|reflexivity].
        intros j Hj S. apply SM in S; auto. assert (In j (short_areas M)) as X by (apply short_areas_in; rewrite LM; auto). apply in_rev in X. rewrite ER in X. destruct X. }
    apply last_short_ok in EI. destruct EI as (HI & NI). rewrite LM in HI.
    assert (SOME : exists j, (j < n)%nat /\ short cf AV k b j) by (exists IT; split; auto; now apply SM).
    destruct (Nat.eqb_spec (length (short_areas M)) 0) as [Z|NZ]; [discriminate|].
    assert (LO' : length (x_CAPOWN cf) = n) by apply (st_own _ _ _ _ ST). rewrite LO' in E.
    destruct (Nat.eqb_spec (length (short_areas M)) n) as [ALL|NALL].
    - rewrite <- LM in ALL. pose proof (short_areas_all M ALL) as AS. rewrite LM in AS.
      destruct (record_level_ok n nu nl cf ST k Hk J b M s HS ltac:(lia) LM) as (s1 & E1 & HS1 & RS & G1 & G2 & _). rewrite E1 in E. cbn [bind] in E.
      destruct (IH s1 er first (S b) EL ltac:(lia) HS1 E) as (recs & LR & F & FO & LAST).
      exists ((b, M) :: recs). cbn [length map seq fst]. split; [lia|]. split; [now rewrite F|]. split.
      + constructor; auto. unfold level_record. split; auto. split; [exists IT; auto|]. split; auto. left.
        split; intros j Hj; [now apply SM, AS|now apply VM].
      + cbv zeta in *. replace (b + S (length recs))%nat with (S b + length recs)%nat by lia. exact LAST.
    - assert (NOT : exists j, (j < n)%nat /\ ~ short cf AV k b j).
      { assert (D : forall j, {zget M j < 0} + {~ zget M j < 0}) by (intros j; destruct (Z_lt_dec (zget M j) 0); auto).
        destruct (nat_dec_all (fun j => zget M j < 0) D n) as [A|(j & Hj & N)].
        - exfalso. apply NALL. rewrite <- LM. apply short_areas_all_conv. now rewrite LM.
        - exists j. split; auto. intros S. apply N. now apply SM. }
      assert (DH : exists v, (if (1 <? length (short_areas M))%nat then Ok 0 else direct_help cf (d_LNSTAT d) M IT) = Ok v).
      { destruct (1 <? length (short_areas M))%nat; [eauto|]. exact (direct_help_ok n nl cf _ M IT LO DL DS LM HI). }
      destruct DH as (ND & DH). rewrite DH in E. cbn [bind] in E.
      assert (EC2 : C = vtab n (demand cf k b)).
      { apply (nth_ext _ _ q0 q0); [now rewrite vtab_length|]. intros j Hj. rewrite LC in Hj. fold (vget C j). rewrite VC by auto.
        symmetry. apply (vget_vtab n (demand cf k b) j Hj). }
      destruct (transm _ _ _ _ _ _ _ _ _ _ _ _ _ _) as [[[[em FL] SA] net1]|e] eqn:ET; cbn [bind] in E.
      2:{ injection E as ->. exists []. cbn [length map seq]. split; [lia|]. split; [reflexivity|]. split; [constructor|]. cbv zeta. rewrite Nat.add_0_r. right.
          split; [exact SOME|]. split; [exact NOT|]. exists first, (hnet s). split; [apply HS|]. rewrite EC2, DSC, DTJ, DTR in ET. exact ET. }
      destruct (transm_len _ _ _ _ _ _ _ _ _ _ _ _ _ _ _ _ _ _ KA ET) as (LSA & LBN).
      set (s1 := mkHst (IGSEED s) (ILSEED s) net1 (LSFLG s) (hrs s) (pks s)) in *.
      assert (HS1 : hst_ok n nu nl s1) by (destruct HS; constructor; cbn; auto; congruence).
      assert (NA : network_answer inv lp n cf k AV (d_LNSTAT d) b em SA) by (rewrite EC2, DSC, DTJ, DTR in ET; exists first, (hnet s), FL, net1; exact ET).
      destruct em; cbn [negb] in E; [|discriminate].
      destruct (existsb _ _) eqn:EX in E; cbn [negb] in E; [|discriminate].
      set (M2 := map (fun x => qtrunc (- x)%Qc) SA) in *.
      assert (LM2 : length M2 = n) by (unfold M2; rewrite map_length; destruct HS; congruence).
      destruct (record_level_ok n nu nl cf ST k Hk J b M2 s1 HS1 ltac:(lia) LM2) as (s2 & E2 & HS2 & RS & G1 & G2 & _). rewrite E2 in E. cbn [bind] in E.
      destruct (IH s2 er true (S b) EL ltac:(lia) HS2 E) as (recs & LR & F & FO & LAST).
      exists ((b, M2) :: recs). cbn [length map seq fst]. split; [lia|]. split; [now rewrite F|]. split.
      + constructor; auto. unfold level_record. split; auto. split; [|split; [auto|right; split; [auto|exists SA; auto]]].
        apply existsb_exists in EX. destruct EX as (m & Hm & L). apply Z.ltb_lt in L. destruct (In_nth _ _ 0 Hm) as (j & Hj & E3). exists j. split; [lia|].
        unfold zget. rewrite E3. exact L.
      + cbv zeta in *. replace (b + S (length recs))%nat with (S b + length recs)%nat by lia. exact LAST.
  Qed.

  Theorem hour_err s PL RT er : hst_ok n nu nl s -> length PL = nu -> length RT = nu -> 1 <= x_JFREQ cf ->
    hour inv lp cf (on k) PL RT s = Err er ->
    hour_stops inv lp n cf k (snd (gstate (IGSEED s) (x_PROBG cf) RT (x_DERATE cf) PL)) (snd (lstate (ILSEED s) (x_PROBL cf))) er.
  Proof.
    intros HS LPL LRT FQ E. unfold hour in E.
    destruct (load_hour_ok n nu nl cf ST k Hk) as (J & EJ & IJ & DJ). rewrite EJ in E. cbn [bind] in E.
    assert (EQ : J = if x_JSTEP cf =? 24 then zget (x_MXPLHR cf) (day_of_year k) else k mod 8760 - 1)
      by (destruct (x_JSTEP cf =? 24); rewrite DJ; [reflexivity|now rewrite hidx]).
    unfold draws_now in E. destruct (Z.eqb_spec (x_JFREQ cf) 0); [lia|]. cbn [bind] in E.
    destruct ((J mod x_JFREQ cf =? 0) || (x_JFREQ cf =? 1)) eqn:EN.
    2:{ injection E as <-. left. split; [|reflexivity]. apply orb_false_iff in EN. destruct EN as (E1 & E2). apply Z.eqb_neq in E1, E2.
        unfold no_draw_due. rewrite <- EQ. split; [lia|exact E1]. }
    right.
    destruct (draw_ok n nu nl cf ST k Hk s PL RT HS LPL LRT) as (d & ED & G1 & G2 & G3 & D1 & D2 & D3). rewrite ED in E. cbn [bind] in E.
    pose proof (drawn_state_ok n nu nl cf ST k s PL RT HS LPL LRT d ED G1 G2) as HS1.
    pose proof (st_levels _ _ _ _ ST) as LV.
    destruct (lstate_states (x_PROBL cf) (ILSEED s)) as (SL & SS). { rewrite (st_lines _ _ _ _ ST). apply HS. }
    rewrite (st_lines _ _ _ _ ST) in SL, SS. rewrite <- G3 in SL, SS.
    destruct (levels_stop _ d J D1 D2 D3 SL SS IJ (seq 0 (x_NFCST cf)) _ er false 0%nat
       ltac:(now rewrite seq_length) ltac:(rewrite seq_length; lia) HS1 E) as (recs & LR & F & FO & LAST).
    rewrite seq_length in LR. cbv zeta in LAST. rewrite Nat.add_0_l in LAST. rewrite G3 in *.
    exists (length recs). split; [exact LR|]. split; [exists recs; auto|]. exact LAST.
  Qed.
End HourStops.
