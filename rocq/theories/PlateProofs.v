(** Proofs for C123. *)
From Verif Require Import Base BaseProofs Sums LoadModel LoadSpec LoadProofs StatModel StatSpec StatProofs YearModel YearSpec YearProofs YearRun ReportSpec SampleModel SampleProofs NetModel NetSpec MatProofs NetProofs FlowProofs AssignProofs UpdateProofs TransmProofs EventModel ControlModel ControlSpec ControlProofs RunProofs
  HourModel HourSpec HourProofs CauseSpec ProgramModel ProgramSpec ProgramProofs HistorySpec HistoryProofs LevelsProofs PlateSpec.
Open Scope Z_scope.
Open Scope Qc_scope.

Lemma tm2_injections er n NR LT BN LP BLP BLP0 BB ZB NLS o : order_ok n NR LT -> shape n 5 BN ->
  tm2 (refuse er) BN LP BLP BLP0 BB ZB LT NR NLS = Ok o ->
  shape n 5 (t_BN o) /\
  (let '(INJ1, LODC) := assign (map (fun k => mget BN k 2) LT) (mcol BN 1) LT NLS in
   forall a, (a < n)%nat -> mget (t_BN o) (nth a LT 0%nat) 1 = vget INJ1 a).
Proof.
  intros ok S E. unfold tm2 in E. destruct (tm2_update _ _ _ _ _ _ _ _) as [BB1 ZB1]. unfold tm2_solve in E. cbv zeta in E.
  rewrite (map_ext _ (fun k => mget BN k 2) (mcol_nth BN 2)) in E.
  destruct (assign (map (fun k => mget BN k 2) LT) (mcol BN 1) LT NLS) as [INJ1 LODC]. destruct (flo _ _ _) as [SF FL].
  destruct (tm2_accepts FL SF BLP BN).
  - injection E as <-. cbn [t_BN]. destruct (store_spec n 5 NR LT INJ1 LODC BN ok S ltac:(lia)) as (A & B & _). auto.
  - destruct NLS; discriminate E.
Qed.
Lemma balanced_injections n NR LT (f : nat -> Qc) INJ : order_ok n NR LT -> length INJ = n -> (forall a, (a < n)%nat -> f (nth a LT 0%nat) = vget INJ a) -> qs n f = qsum INJ.
Proof.
  intros ok L H. rewrite qsum_qs, L, <- (qs_reindex n NR LT ok f). apply qs_ext. intros a Ha. exact (H a Ha).
Qed.

Section Balance.
  Variables (inv : list (list Qc) -> option (list (list Qc))) (er : pyerr) (n : nat) (LP : list (nat * nat)) (BLPA : list (list Qc)) (NR : nat).
  Hypothesis IO : inv_ok inv. Hypothesis LA : lp_areas LP = n. Hypothesis DE : distinct_ends LP. Hypothesis HR : (NR < n)%nat. Hypothesis LB : length BLPA = length LP.

  (** What a solution of the network without the linear program leaves missing is what the
      pool is missing. *)
  Lemma transm_balance IFLAG s STMULT LN NLS TR TJ SC CR JF FL SA s' : areas_numbered n (n_BN s) -> shape n 5 (n_BN s) -> (IFLAG = true -> settled inv LP BLPA NR s) ->
    length CR = n -> (NLS = false -> (forall j, (j < n)%nat -> q0 <= vget CR j) /\ q0 < qs n (vget CR)) ->
    transm inv (refuse er) IFLAG s BLPA LP NR STMULT LN NLS TR TJ SC CR = Ok (JF, FL, SA, s') ->
    let d := qs n (vget CR) - qs n (vget SC) in
    length SA = n /\
    (JF = false -> d <= q0) /\
    (JF = true -> (d <= q0 -> forall j, (j < n)%nat -> vget SA j <= q0) /\ (q0 < d -> (forall j, (j < n)%nat -> q0 <= vget SA j) /\ qs n (vget SA) = d)).
  Proof.
    intros AN S5 ST LC SH E d.
    assert (B : exists b, (if IFLAG then Ok (n_BLP0 s, n_BB s, n_LT s, n_ZB s) else tm1 inv (n_BN s) LP (map (firstn 3) BLPA) NR) = Ok b /\ tm1 inv (n_BN s) LP (map (firstn 3) BLPA) NR = Ok b).
    { destruct IFLAG; [eexists; split; [reflexivity|now apply ST]|]. unfold transm in E. destruct (tm1 _ _ _ _ _) as [b|]; cbn [bind] in E; [|discriminate]. eauto. }
    destruct B as ([[[BLP0 BB] LT] ZB] & B1 & B2). unfold transm in E. rewrite B1 in E. cbn [bind] in E.
    assert (LN' : length (n_BN s) = n) by apply AN. rewrite LN' in E.
    assert (T1 := tm1_spec inv (n_BN s) LP (map (firstn 3) BLPA) NR BLP0 BB LT ZB IO). rewrite LN' in T1.
    specialize (T1 AN LA DE ltac:(rewrite map_length; exact LB) HR B2). cbv zeta in T1. destruct T1 as (_ & OK & BO & _).
    assert (LI : lines_in n LP) by (rewrite <- LA; now apply distinct_lines_in).
    destruct (sched_rows_spec n (n_BN s) TR TJ SC CR S5) as (S1 & _).
    set (BN1 := sched_rows (n_BN s) TR TJ SC CR) in *.
    destruct (tm2 (refuse er) BN1 LP _ BLP0 BB ZB LT NR true) as [o1|] eqn:E1; cbn [bind] in E; [|discriminate].
    destruct (tm2_injections er n NR LT _ _ _ _ _ _ _ _ OK S1 E1) as (SB & IJ).
    set (sched := fun i => mget (t_BN o1) i 1) in *.
    assert (SZ : qs n sched = q0).
    { pose proof (assign_spec n NR (map (fun k => mget BN1 k 2) LT) (mcol BN1 1) LT true OK (eq_trans (map_length _ _) (proj1 OK)) ltac:(rewrite mcol_length; apply S1) ltac:(discriminate)) as A.
      destruct (assign _ _ LT true) as [INJ1 LODC]. destruct A as (L1 & _ & Q & _). rewrite <- Q. now apply (balanced_injections n NR LT). }
    destruct (forallb _ _) eqn:EF.
    { injection E as <- <- <- <-. split; [apply vtab_length|]. split; [intros _|discriminate].
      assert (H : q0 <= qs n (fun i => vget SC i - vget CR i - sched i)).
      { apply qs_nonneg. intros i Hi. apply qleb_iff. rewrite forallb_forall in EF. apply EF. unfold vtab. apply in_map_iff. exists i. split; [reflexivity|]. apply in_seq. lia. }
      rewrite !qs_minus, SZ in H. unfold d. qlra. }
    match type of E with context [tm2 (refuse er) ?a ?b ?c ?d ?g ?f ?h ?j ?k] => destruct (tm2 (refuse er) a b c d g f h j k) as [o2|] eqn:E2; set (BN4 := a) in * end; cbn [bind] in E; [|discriminate].
    injection E as <- <- <- <-. split; [apply vtab_length|]. split; [discriminate|]. intros _.
    set (CADJ := vtab n (fun i => if NLS then mget (t_BN o1) i 1 else q0)) in *.
    destruct (emergency_rows_spec n (t_BN o1) SC CR CADJ SB) as (SB3 & G3).
    set (BN3 := emergency_rows (t_BN o1) SC CR CADJ) in *.
    destruct (residual_areas_spec n BN3 LP (t_flow o1) SB3 LI) as (SB4' & G4').
    assert (SB4 : shape n 5 BN4) by (unfold BN4; destruct NLS; auto).
    assert (G4 : forall i d, (i < n)%nat -> (d < 3)%nat -> mget BN4 i d = mget BN3 i d) by (unfold BN4; destruct NLS; auto).
    set (x := fun i => vget SC i - vget CR i - (if NLS then sched i else q0)).
    assert (XB : forall i, (i < n)%nat -> mget BN4 i 2 = x i).
    { intros i Hi. rewrite G4 by lia. destruct (G3 i Hi) as (_ & -> & _). unfold x, CADJ. rewrite vget_vtab by auto. unfold sched. reflexivity. }
    assert (EC : mcol BN4 1 = CR).
    { apply (nth_ext_eq _ _ q0); [rewrite mcol_length, (proj1 SB4); auto|]. intros i Hi. rewrite mcol_length, (proj1 SB4) in Hi.
      change (vget (mcol BN4 1) i = vget CR i). rewrite mcol_nth. rewrite G4 by lia. apply (G3 i Hi). }
    assert (XS : qs n x = - d).
    { unfold x, d. destruct NLS; cbv iota; rewrite !qs_minus; [rewrite SZ; qring|]. rewrite (qs_zero n (fun _ => q0)) by auto. qring. }
    assert (QC : qsum CR = qs n (vget CR)) by (rewrite qsum_qs, LC; reflexivity).
    destruct (tm2_injections er n NR LT _ _ _ _ _ _ _ _ OK SB4 E2) as (_ & AS). rewrite EC in AS.
    set (INJ := map (fun k => mget BN4 k 2) LT) in *.
    assert (LINJ : length INJ = n) by (unfold INJ; rewrite map_length; apply OK).
    pose proof (assign_spec n NR INJ CR LT NLS OK LINJ LC) as SP. pose proof (balance_split INJ) as BS.
    assert (QI : qsum INJ = - d).
    { rewrite <- XS. symmetry. apply (balanced_injections n NR LT x INJ OK LINJ). intros a Ha. unfold INJ. unfold vget. rewrite (nth_map_in _ _ _ 0%nat) by (rewrite (proj1 OK); exact Ha).
      symmetry. apply XB. apply (at_lt n NR LT OK a Ha). }
    destruct (assign INJ CR LT NLS) as [INJ1 LODC]. specialize (SP ltac:(intros EN; destruct (SH EN) as (_ & P); rewrite QC; intros Z0; rewrite Z0 in P; qlra)).
    destruct SP as (L1 & L2 & Q & C1 & C2 & C3).
    assert (VX : forall a, (a < n)%nat -> vget INJ a = x (nth a LT 0%nat)).
    { intros a Ha. unfold INJ. unfold vget at 1. rewrite (nth_map_in _ _ _ 0%nat) by (rewrite (proj1 OK); exact Ha). apply XB. apply (at_lt n NR LT OK a Ha). }
    assert (VS : forall i, (i < n)%nat -> vget (vtab n (fun i => mget (t_BN o2) i 1 - vget SC i + vget CR i + vget CADJ i)) i = mget (t_BN o2) i 1 - x i).
    { intros i Hi. rewrite vget_vtab by auto. unfold x, CADJ. rewrite vget_vtab by auto. unfold sched. qring. }
    assert (TOT : qs n (vget (vtab n (fun i => mget (t_BN o2) i 1 - vget SC i + vget CR i + vget CADJ i))) = d).
    { rewrite (qs_ext n _ _ VS), qs_minus, XS. rewrite (balanced_injections n NR LT _ INJ1 OK L1 AS), Q. qring. }
    set (P := surplus INJ) in *. set (D := deficit INJ) in *.
    assert (Pn : q0 <= P) by apply surplus_nonneg. assert (Dn : q0 <= D) by apply deficit_nonneg.
    assert (ALL : forall R : Qc -> Prop, (forall a, (a < n)%nat -> R (vget INJ1 a - vget INJ a)) -> forall j, (j < n)%nat -> R (vget (vtab n (fun i => mget (t_BN o2) i 1 - vget SC i + vget CR i + vget CADJ i)) j)).
    { intros R H j Hj. rewrite VS by auto. destruct (at_surj n NR LT OK j Hj) as (a & Ha & <-). unfold at_. rewrite AS, <- VX by auto. now apply H. }
    split.
    - intros DN. assert (DP : D <= P) by qlra. specialize (C1 DP). apply (ALL (fun v => v <= q0)). intros a Ha. destruct (C1 a Ha) as (_ & P1 & P2).
      set (xa := vget INJ a) in *. set (y := vget INJ1 a) in *.
      destruct (qleb xa q0) eqn:EQ; qc_bool; [rewrite (P1 EQ); qlra|]. specialize (P2 EQ).
      assert (SP : q0 < P) by (apply (surplus_pos INJ a); [lia|exact EQ]).
      destruct (qleb (y - xa) q0) eqn:EY; qc_bool; auto. exfalso.
      assert (P * y <= P * xa) by (rewrite P2; qnra). assert (q0 < P * (y - xa)) by qnra. qnra.
    - intros DN. assert (DP : P < D) by qlra. split; [|exact TOT]. destruct NLS.
      + specialize (C2 DP eq_refl). apply (ALL (fun v => q0 <= v)). intros a Ha. destruct (C2 a Ha) as (_ & P1 & P2).
        set (xa := vget INJ a) in *. set (y := vget INJ1 a) in *.
        destruct (qleb xa q0) eqn:EQ; qc_bool; [|rewrite (P1 EQ); qlra]. specialize (P2 EQ).
        destruct (qleb q0 (y - xa)) eqn:EY; qc_bool; auto. exfalso.
        assert (D * xa <= P * xa) by qnra. assert (D * (y - xa) < q0) by qnra. qnra.
      + specialize (C3 DP eq_refl). apply (ALL (fun v => q0 <= v)). intros a Ha. destruct (C3 a Ha) as (<- & _).
        assert (Hb : (nth a LT 0 < n)%nat) by (apply (at_lt n NR LT OK a Ha)). destruct (C3 _ Hb) as (_ & X). destruct (SH eq_refl) as (N0 & PO). specialize (N0 _ Hb). rewrite QC in X. fold D P in X.
        set (v := vget LODC (nth a LT 0%nat)) in *. set (Q1 := qs n (vget CR)) in *.
        destruct (qleb q0 v) eqn:EY; qc_bool; auto. exfalso. assert (q0 <= (D - P) * vget CR (nth a LT 0%nat)) by qnra. assert (Q1 * v < q0) by qnra. qlra.
  Qed.
End Balance.

(** *** whole megawatts *)
Lemma qs_below n (a V : nat -> Qc) : (0 < n)%nat -> (forall j, (j < n)%nat -> V j - q1 < a j /\ a j <= V j) -> qs n V - qz (Z.of_nat n) < qs n a /\ qs n a <= qs n V.
Proof.
  intros Hn H. destruct n as [|n]; [lia|]. clear Hn. induction n as [|n IH].
  - rewrite !qs_S, !qs_0. destruct (H 0%nat ltac:(lia)) as (A & B). change (qz (Z.of_nat 1)) with q1. split; qlra.
  - destruct (IH ltac:(intros j Hj; apply H; lia)) as (A & B). destruct (H (S n) ltac:(lia)) as (C & D). rewrite (qs_S (S n)), (qs_S (S n)).
    replace (Z.of_nat (S (S n))) with (Z.of_nat (S n) + 1)%Z by lia. rewrite qz_plus. change (qz 1) with q1. split; qlra.
Qed.
Lemma truncated_loss v : q0 <= v -> (qtrunc (- v) <= 0)%Z /\ v - q1 < qz (unserved (qtrunc (- v))) /\ qz (unserved (qtrunc (- v))) <= v.
Proof.
  intros H. rewrite qtrunc_opp, qtrunc_nonneg by exact H. destruct (qfloor_spec v) as (A & B). rewrite qz_plus in B. change (qz 1) with q1 in B.
  assert (F : (0 <= qfloor v)%Z). { assert (C : qz 0 < qz (qfloor v) + q1) by (change (qz 0) with q0; qlra). change q1 with (qz 1) in C. rewrite <- qz_plus in C. apply (proj1 (qz_lt _ _)) in C. lia. }
  split; [lia|]. replace (unserved (- qfloor v)) with (qfloor v) by (unfold unserved; lia). split; [qlra|exact A].
Qed.

(** A record of a level: everybody is short or just served, and what is recorded is what
    the pool is missing, to within a MW per area. *)
Definition plate_rec (n : nat) (m : Qc) (M : list Z) : Prop :=
  (forall x, In x M -> (x <= 0)%Z) /\ m - qz (Z.of_nat n) < qz (zsum (map unserved M)) /\ qz (zsum (map unserved M)) <= m.
Lemma plate_sum n M (V : nat -> Qc) : (0 < n)%nat -> length M = n -> (forall j, (j < n)%nat -> q0 <= V j /\ zget M j = qtrunc (- V j)) -> plate_rec n (qs n V) M.
Proof.
  intros Hn LM H. assert (E : qz (zsum (map unserved M)) = qs n (fun j => qz (unserved (zget M j)))).
  { rewrite <- LM. clear. induction M as [|m M IH]; [reflexivity|]. cbn [map length]. rewrite zsum_cons, qz_plus, qs_S_l, IH. reflexivity. }
  split.
  - intros x Hx. destruct (In_nth _ _ 0%Z Hx) as (j & Hj & <-). rewrite LM in Hj. destruct (H j Hj) as (A & B). unfold zget in B. rewrite B. now apply truncated_loss.
  - rewrite E. apply qs_below; [exact Hn|]. intros j Hj. destruct (H j Hj) as (A & ->). now apply truncated_loss.
Qed.

(** *** the levels of an hour *)
Section PlateLevels.
  Variables (n nu nl : nat) (cf : hcfg). Hypothesis ST : study n nu nl cf.
  Variable k : Z. Hypothesis Hk : (1 <= k)%Z.
  Variables (inv : list (list Qc) -> option (list (list Qc))) (er : pyerr).
  Hypothesis IO : inv_ok inv. Hypothesis BN0 : base_net n cf. Hypothesis LB : length (x_BLPA cf) = length (x_LP cf).
  Hypothesis LS : loads_to_share n cf.
  Variables (AV : list Qc) (d : drawn) (J : Z).
  Hypothesis DSC : d_SYSCON d = vtab n (located cf AV).
  Hypothesis DTJ : d_TRNSFJ d = vtab n (fun j => Qcminus (located cf AV j) (owned_cap cf AV j)).
  Hypothesis DTR : d_TRNSFR d = vtab n (fun j => net_export n (x_JENT cf) (x_INTCH cf) j (day_of_year k)).
  Hypothesis HJ : pyidx (365 * 24) J = Some (hour_used cf k).
  Let set := settled inv (x_LP cf) (x_BLPA cf) (x_NR cf).

  Lemma net_next (N N' : netst) FL SA IFLAG SM LN NLS TR TJ SC CR JF : areas_numbered n (n_BN N) -> shape n 5 (n_BN N) ->
    transm inv (refuse er) IFLAG N (x_BLPA cf) (x_LP cf) (x_NR cf) SM LN NLS TR TJ SC CR = Ok (JF, FL, SA, N') -> areas_numbered n (n_BN N') /\ shape n 5 (n_BN N').
  Proof using All.
    intros AN S5 T. assert (W : wide (n_BN N)) by (intros j Hj; rewrite (proj2 S5 j) by (rewrite <- (proj1 S5); exact Hj); lia).
    destruct (transm_limits _ _ _ _ _ _ _ _ _ _ _ _ _ _ _ _ _ _ (refuse_limits er) W T) as ((EL & A) & _). split; split.
    - rewrite EL. apply AN.
    - intros j Hj. rewrite <- (proj2 AN j Hj). apply (A j). cbn. lia.
    - rewrite EL. apply S5.
    - intros j Hj. rewrite (proj1 (A j)). now apply S5.
  Qed.

  Lemma plate_levels : forall ls s s' first b, ls = seq b (length ls) -> (b + length ls <= x_NFCST cf)%nat ->
    hst_ok n nu nl s -> areas_numbered n (n_BN (hnet s)) -> shape n 5 (n_BN (hnet s)) -> (first = true -> set (hnet s)) ->
    levels inv (refuse er) cf (on k) J d ls first s = Ok s' ->
    hst_ok n nu nl s' /\ IGSEED s' = IGSEED s /\ ILSEED s' = ILSEED s /\ areas_numbered n (n_BN (hnet s')) /\ shape n 5 (n_BN (hnet s')) /\
    exists recs, stats_of s' = apply_recs cf k J recs s /\ map fst recs = seq b (length recs) /\ (length recs <= length ls)%nat /\
      Forall (level_record inv (refuse er) n cf k AV (d_LNSTAT d)) recs /\
      (length recs = length ls \/ level_covered inv (refuse er) n cf k AV (d_LNSTAT d) (b + length recs)) /\
      Forall (fun r => plate_rec n (pool_missing n cf AV k (fst r)) (snd r)) recs /\
      (length recs = length ls \/ pool_missing n cf AV k (b + length recs) < qz (Z.of_nat n)).
  Proof.
    pose proof (st_levels _ _ _ _ ST) as LV. pose proof (refuse_areas er) as KA. pose proof (st_areas _ _ _ _ ST) as Hn.
    assert (LSC : length (d_SYSCON d) = n) by (rewrite DSC; apply vtab_length).
    assert (VSC : forall j, (j < n)%nat -> vget (d_SYSCON d) j = located cf AV j) by (intros j H; rewrite DSC; now apply vget_vtab).
    induction ls as [|l rest IH]; intros s s' first b EL LE HS AN S5 SE E; cbn [levels] in E.
    - injection E as <-. repeat split; auto; try apply HS; try apply AN; try apply S5. exists []. cbn. repeat split; auto.
    - cbn [length seq] in EL. injection EL as -> EL. cbn [length] in LE.
      destruct (demand_ok n nu nl cf ST k J b HJ ltac:(lia)) as (C & EC & LC & VC). rewrite EC in E. cbn [bind] in E.
      destruct (margins_ok n cf k (d_SYSCON d) C AV b LSC LC VSC VC) as (LM & VM & SM).
      set (M := margins (d_SYSCON d) C) in *.
      destruct (last_short M) as [IT|e] eqn:EI; cbn [bind] in E; [|discriminate].
      apply last_short_ok in EI. destruct EI as (HI & NI). rewrite LM in HI.
      assert (SOME : exists j, (j < n)%nat /\ short cf AV k b j) by (exists IT; split; auto; now apply SM).
      destruct (Nat.eqb_spec (length (short_areas M)) 0) as [Z|NZ].
      { exfalso. assert (In IT (short_areas M)) as X by (apply short_areas_in; rewrite LM; auto).
        destruct (short_areas M); [destruct X|discriminate]. }
      assert (LO : length (x_CAPOWN cf) = n) by apply (st_own _ _ _ _ ST). rewrite LO in E.
      assert (PM : pool_missing n cf AV k b = qs n (fun j => demand cf k b j - located cf AV j)) by (unfold pool_missing, pool_demand, pool_capacity; now rewrite qs_minus).
      destruct (Nat.eqb_spec (length (short_areas M)) n) as [ALL|NALL].
      + rewrite <- LM in ALL. pose proof (short_areas_all M ALL) as AS. rewrite LM in AS.
        destruct (record_level_ok n nu nl cf ST k Hk J b M s HS ltac:(lia) LM) as (s1 & E1 & HS1 & RS & G1 & G2 & NT). rewrite E1 in E. cbn [bind] in E.
        destruct (IH s1 s' first (S b) EL ltac:(lia) HS1) as (H' & I1 & I2 & I3 & I4 & recs & RE & F & LR & FO & LAST & FP & LP); auto; try (rewrite NT; assumption).
        split; auto. split; [congruence|]. split; [congruence|]. split; [exact I3|]. split; [exact I4|]. exists ((b, M) :: recs). split; [|split; [|split; [|split; [|split; [|split]]]]].
        * unfold apply_recs. cbn [map fold_left fst snd]. fold (stats_of s). rewrite <- RS. exact RE.
        * cbn [map length seq fst]. now rewrite F.
        * cbn [length]. lia.
        * constructor; auto. unfold level_record. split; auto. split; [exists IT; auto|]. split; auto. left.
          split; intros j Hj; [now apply SM, AS|now apply VM].
        * cbn [length]. destruct LAST as [LAST|LAST]; [left; lia|right]. replace (b + S (length recs))%nat with (S b + length recs)%nat by lia. exact LAST.
        * constructor; [|exact FP]. cbn [fst snd]. rewrite PM. apply plate_sum; auto. intros j Hj. assert (SJ : short cf AV k b j) by now apply SM, AS. unfold short in SJ. split; [qlra|].
          rewrite VM by auto. unfold own_margin. f_equal. qring.
        * cbn [length]. destruct LP as [LP|LP]; [left; lia|right]. replace (b + S (length recs))%nat with (S b + length recs)%nat by lia. exact LP.
      + assert (NOT : exists j, (j < n)%nat /\ ~ short cf AV k b j).
        { assert (D : forall j, {(zget M j < 0)%Z} + {~ (zget M j < 0)%Z}) by (intros j; destruct (Z_lt_dec (zget M j) 0); auto).
          destruct (nat_dec_all (fun j => (zget M j < 0)%Z) D n) as [A|(j & Hj & N)].
          - exfalso. apply NALL. rewrite <- LM. apply short_areas_all_conv. now rewrite LM.
          - exists j. split; auto. intros S. apply N. now apply SM. }
        destruct (if (1 <? length (short_areas M))%nat then Ok 0%Z else direct_help cf (d_LNSTAT d) M IT) as [ND|e]; cbn [bind] in E; [|discriminate].
        assert (EC2 : C = vtab n (demand cf k b)).
        { apply (nth_ext _ _ q0 q0); [now rewrite vtab_length|]. intros j Hj. rewrite LC in Hj. fold (vget C j). rewrite VC by auto.
          symmetry. apply (vget_vtab n (demand cf k b) j Hj). }
        destruct (transm _ _ _ _ _ _ _ _ _ _ _ _ _ _) as [[[[em FL] SA] net1]|e] eqn:ET; cbn [bind] in E; [|discriminate].
        destruct (transm_len _ _ _ _ _ _ _ _ _ _ _ _ _ _ _ _ _ _ KA ET) as (LSA & LBN).
        destruct (net_next _ _ _ _ _ _ _ _ _ _ _ _ _ AN S5 ET) as (AN1 & S51).
        assert (SE1 : set net1).
        { destruct BN0 as [BA BE BR _ _]. assert (W : wide (n_BN (hnet s))) by (intros j Hj; rewrite (proj2 S5 j) by (rewrite <- (proj1 S5); exact Hj); lia).
          unfold set. eapply (transm_settles inv er n); [exact IO|exact BA|exact BE|exact BR|exact LB|exact AN|exact W|exact SE|exact ET]. }
        assert (BAL : em = false /\ pool_missing n cf AV k b <= q0 \/
          em = true /\ (pool_missing n cf AV k b <= q0 -> forall j, (j < n)%nat -> vget SA j <= q0) /\ (q0 < pool_missing n cf AV k b -> (forall j, (j < n)%nat -> q0 <= vget SA j) /\ qs n (vget SA) = pool_missing n cf AV k b)).
        { assert (QE : pool_missing n cf AV k b = qs n (vget C) - qs n (vget (d_SYSCON d))).
          { unfold pool_missing, pool_demand, pool_capacity. f_equal; apply qs_ext; intros j Hj; [now rewrite VC|now rewrite VSC]. }
          destruct BN0 as [BA BE BR _ _].
          assert (SHC : x_NLS cf = false -> (forall j, (j < n)%nat -> q0 <= vget C j) /\ q0 < qs n (vget C)).
          { intros EN. destruct (LS EN k b ltac:(lia)) as (A & B). split; [intros j Hj; rewrite VC by exact Hj; now apply A|].
            unfold pool_demand in B. rewrite <- (qs_ext n (vget C) (demand cf k b)) in B by exact VC. exact B. }
          destruct (transm_balance inv er n (x_LP cf) (x_BLPA cf) (x_NR cf) IO BA BE BR LB _ _ _ _ _ _ _ _ _ _ _ _ _ AN S5 SE LC SHC ET) as (_ & B1 & B2).
          rewrite <- QE in B1, B2. destruct em; [right|left]; auto. }
        set (s1 := mkHst (IGSEED s) (ILSEED s) net1 (LSFLG s) (hrs s) (pks s)) in *.
        assert (HS1 : hst_ok n nu nl s1) by (destruct HS; constructor; cbn; auto; congruence).
        assert (NA : network_answer inv (refuse er) n cf k AV (d_LNSTAT d) b em SA) by (rewrite EC2, DSC, DTJ, DTR in ET; exists first, (hnet s), FL, net1; exact ET).
        assert (LSn : length SA = n) by (rewrite LSA; apply AN).
        assert (Qn : q1 <= qz (Z.of_nat n)) by (change q1 with (qz 1); apply (proj2 (qz_le _ _)); lia).
        destruct em; cbn [negb] in E.
        2:{ injection E as <-. split; auto. split; auto. split; auto. split; [exact AN1|]. split; [exact S51|]. exists []. split; [reflexivity|]. split; [reflexivity|]. cbn [length].
            split; [lia|]. split; [constructor|]. split; [|split; [constructor|]].
            - right. rewrite Nat.add_0_r. split; auto. split; auto. exists false, SA. auto.
            - right. rewrite Nat.add_0_r. destruct BAL as [(_ & B)|(? & _)]; [|discriminate]. qlra. }
        destruct BAL as [(? & _)|(_ & B1 & B2)]; [discriminate|].
        destruct (existsb _ _) eqn:EX in E; cbn [negb] in E.
        2:{ assert (NS : forall x, In x SA -> (0 <= qtrunc (Qcopp x))%Z).
            { intros x Hx. destruct (Z_lt_dec (qtrunc (Qcopp x)) 0) as [L|L]; [exfalso|lia].
              assert (C1 : existsb (fun m : Z => (m <? 0)%Z) (map (fun x => qtrunc (- x)%Qc) SA) = true); [|rewrite C1 in EX; discriminate].
              apply existsb_exists. exists (qtrunc (- x)%Qc). split; [|now apply Z.ltb_lt]. apply in_map_iff. eauto. }
            injection E as <-. split; auto. split; auto. split; auto. split; [exact AN1|]. split; [exact S51|]. exists []. split; [reflexivity|]. split; [reflexivity|]. cbn [length].
            split; [lia|]. split; [constructor|]. split; [|split; [constructor|]]; right; rewrite Nat.add_0_r.
            - split; auto. split; auto. exists true, SA. split; auto.
            - destruct (qltb q0 (pool_missing n cf AV k b)) eqn:EM; qc_bool; [|qlra]. destruct (B2 EM) as (P & Q).
              assert (SM1 : forall j, (j < n)%nat -> vget SA j - q1 < q0 /\ q0 <= vget SA j).
              { intros j Hj. split; [|now apply P]. assert (HX : In (vget SA j) SA) by (apply nth_In; lia). specialize (NS _ HX).
                destruct (qleb q1 (vget SA j)) eqn:E1; qc_bool; [|qlra]. assert (T : (qtrunc (- vget SA j) < 0)%Z) by (apply (proj2 (qtrunc_neg _)); qlra). lia. }
              destruct (qs_below n (fun _ => q0) (vget SA) Hn SM1) as (X & _). rewrite (qs_zero n (fun _ => q0)) in X by auto. rewrite Q in X. qlra. }
        set (M2 := map (fun x => qtrunc (- x)%Qc) SA) in *.
        assert (LM2 : length M2 = n) by (unfold M2; rewrite map_length; exact LSn).
        assert (NEG : exists j, (j < n)%nat /\ (zget M2 j < 0)%Z).
        { apply existsb_exists in EX. destruct EX as (m & Hm & L). apply Z.ltb_lt in L. destruct (In_nth _ _ 0%Z Hm) as (j & Hj & E3). exists j. split; [lia|]. unfold zget. now rewrite E3. }
        assert (V2 : forall j, (j < n)%nat -> zget M2 j = qtrunc (- vget SA j)) by (intros j Hj; unfold M2, zget; rewrite (nth_map_in _ _ _ q0) by lia; reflexivity).
        destruct (record_level_ok n nu nl cf ST k Hk J b M2 s1 HS1 ltac:(lia) LM2) as (s2 & E2 & HS2 & RS & G1 & G2 & NT). rewrite E2 in E. cbn [bind] in E.
        destruct (IH s2 s' true (S b) EL ltac:(lia) HS2) as (H' & I1 & I2 & I3 & I4 & recs & RE & F & LR & FO & LAST & FP & LP); auto; try (rewrite NT; auto).
        split; auto. split; [cbn in *; congruence|]. split; [cbn in *; congruence|]. split; [exact I3|]. split; [exact I4|]. exists ((b, M2) :: recs). split; [|split; [|split; [|split; [|split; [|split]]]]].
        * unfold apply_recs. cbn [map fold_left fst snd]. change (LSFLG s, hrs s, pks s) with (stats_of s1). rewrite <- RS. exact RE.
        * cbn [map length seq fst]. now rewrite F.
        * cbn [length]. lia.
        * constructor; auto. unfold level_record. split; auto. split; [exact NEG|split; [auto|right; split; [auto|exists SA; auto]]].
        * cbn [length]. destruct LAST as [LAST|LAST]; [left; lia|right]. replace (b + S (length recs))%nat with (S b + length recs)%nat by lia. exact LAST.
        * constructor; [|exact FP]. cbn [fst snd].
          destruct (qltb q0 (pool_missing n cf AV k b)) eqn:EM; qc_bool.
          -- destruct (B2 EM) as (P & Q). rewrite <- Q. apply plate_sum; auto.
          -- exfalso. destruct NEG as (j & Hj & L). rewrite V2 in L by exact Hj. apply (proj1 (qtrunc_neg _)) in L. specialize (B1 EM j Hj). qlra.
        * cbn [length]. destruct LP as [LP|LP]; [left; lia|right]. replace (b + S (length recs))%nat with (S b + length recs)%nat by lia. exact LP.
  Qed.
End PlateLevels.
