(** Proofs about one simulated hour. *)
From Verif Require Import Base BaseProofs Sums SampleModel SampleProofs LoadModel LoadSpec LoadProofs ContractProofs PeakProofs
  NetModel NetSpec NetProofs MatProofs StatModel StatSpec StatProofs TransmProofs ControlModel ControlSpec RunProofs HourModel HourSpec.
Open Scope Z_scope.

Lemma year_hours : Z.of_nat (365 * 24) = 8760. Proof. reflexivity. Qed.

Lemma pyidx_wrap n i t : (0 < n)%nat -> -1 <= i < Z.of_nat n -> t = Z.to_nat (i mod Z.of_nat n) -> pyidx n i = Some t.
Proof.
  intros Hn H ->. unfold pyidx. destruct (Z.leb_spec 0 i).
  - destruct (Z.ltb_spec i (Z.of_nat n)); [|lia]. cbn [andb]. now rewrite Z.mod_small by lia.
  - assert (i = -1) as -> by lia. cbn [andb]. destruct (Z.ltb_spec (-1) 0); [|lia].
    destruct (Z.leb_spec (- Z.of_nat n) (-1)); [|lia]. cbn [andb]. f_equal. f_equal.
    replace (-1) with (Z.of_nat n - 1 + (-1) * Z.of_nat n) by lia. rewrite Z.mod_add by lia. rewrite Z.mod_small by lia. lia.
Qed.
Lemma pyget_idx {A} (l : list A) i t d : pyidx (length l) i = Some t -> (t < length l)%nat -> pyget l i = Ok (nth t l d).
Proof. intros E H. unfold pyget. rewrite E. rewrite (nth_error_nth' _ d) by auto. reflexivity. Qed.

(** *** the calendar *)
Section Cal.
  Variable k : Z. Hypothesis Hk : 1 <= k.
  Lemma hidx : hour_index (on k) = k mod 8760 - 1. Proof. apply hour_index_int; lia. Qed.
  Lemma hour_of_year_lt : (hour_of_year k < 365 * 24)%nat.
  Proof. unfold hour_of_year. pose proof (Z.mod_pos_bound (k - 1) 8760 ltac:(lia)). apply Nat2Z.inj_lt. rewrite year_hours. lia. Qed.
  Lemma wrap_hour : (k mod 8760 - 1) mod 8760 = (k - 1) mod 8760.
  Proof. now rewrite Zminus_mod_idemp_l. Qed.
  Lemma idx_hour : pyidx (365 * 24) (hour_index (on k)) = Some (hour_of_year k).
  Proof.
    rewrite hidx. pose proof (Z.mod_pos_bound k 8760 ltac:(lia)). apply pyidx_wrap; [lia| |]; rewrite year_hours; [lia|].
    unfold hour_of_year. now rewrite wrap_hour.
  Qed.
  Lemma day_of_year_lt : (day_of_year k < 365)%nat.
  Proof. unfold day_of_year. apply Nat.div_lt_upper_bound; [lia|]. pose proof hour_of_year_lt. lia. Qed.
  Lemma dayz : Z.of_nat (day_of_year k) = ((k - 1) mod 8760) / 24.
  Proof. unfold day_of_year, hour_of_year. rewrite Nat2Z.inj_div, Z2Nat.id; [reflexivity|]. apply Z.mod_pos_bound; lia. Qed.
  Lemma idx_day : pyidx 365 (day_index (on k)) = Some (day_of_year k).
  Proof.
    unfold day_index. rewrite hidx. pose proof (Z.mod_pos_bound k 8760 ltac:(lia)) as B.
    assert (D : -1 <= (k mod 8760 - 1) / 24 < 365).
    { split. - apply Z.div_le_lower_bound; lia. - apply Z.div_lt_upper_bound; lia. }
    apply pyidx_wrap; [lia| |].
    - change (Z.of_nat 365) with 365. lia.
    - apply Nat2Z.inj. rewrite dayz, Z2Nat.id by (apply Z.mod_pos_bound; lia). change (Z.of_nat 365) with 365.
      rewrite <- wrap_hour. destruct (Z.eq_dec (k mod 8760) 0) as [E|E].
      + rewrite E. reflexivity.
      + rewrite (Z.mod_small (k mod 8760 - 1)) by lia. symmetry. apply Z.mod_small. split; [|lia]. apply Z.div_le_lower_bound; lia.
  Qed.
End Cal.

(** *** margins *)
Lemma qtrunc_neg a : qtrunc a < 0 <-> (a + q1 <= q0)%Qc.
Proof.
  split; intros H.
  - destruct (qleb (a + q1)%Qc q0) eqn:E; [now apply qleb_iff|]. exfalso. apply (proj1 (qleb_false _ _)) in E.
    destruct (Qc_total a q0) as [L|L].
    + assert (T : qtrunc (- a)%Qc = 0).
      { rewrite qtrunc_nonneg by qlra. apply qfloor_unique; [change (qz 0) with q0; qlra|]. change (qz (0 + 1)) with q1. qlra. }
      rewrite qtrunc_opp in T. lia.
    + pose proof (qtrunc_mono _ _ L) as Q. change (qtrunc q0) with 0 in Q. lia.
  - assert (A : (a <= qz (-1))%Qc). { change (qz (-1)) with (Qcopp q1). qlra. }
    apply qtrunc_mono in A. rewrite qtrunc_qz in A. lia.
Qed.

Lemma short_areas_in M j : In j (short_areas M) <-> (j < length M)%nat /\ zget M j < 0.
Proof. unfold short_areas. rewrite filter_In, in_seq, Z.ltb_lt. split; intros []; split; auto; lia. Qed.
Lemma last_short_err M : (forall j, (j < length M)%nat -> 0 <= zget M j) -> last_short M = Err IndexError.
Proof.
  intros H. unfold last_short. replace (short_areas M) with (@nil nat); [reflexivity|].
  symmetry. destruct (short_areas M) as [|j l] eqn:E; auto. exfalso.
  assert (In j (short_areas M)) as X by (rewrite E; now left). apply short_areas_in in X. specialize (H j ltac:(tauto)). lia.
Qed.
Lemma last_short_ok M i : last_short M = Ok i -> (i < length M)%nat /\ zget M i < 0.
Proof.
  unfold last_short. destruct (rev (short_areas M)) as [|j l] eqn:E; [discriminate|]. intros H. injection H as <-.
  apply short_areas_in. apply in_rev. rewrite E. now left.
Qed.
Lemma filter_le {A} (f : A -> bool) l : (length (filter f l) <= length l)%nat.
Proof. induction l as [|a l IH]; cbn; auto. destruct (f a); cbn; lia. Qed.
Lemma filter_full {A} (f : A -> bool) l : length (filter f l) = length l -> filter f l = l.
Proof.
  induction l as [|a l IH]; cbn; auto. destruct (f a); cbn; intros E; [f_equal; apply IH; lia|].
  pose proof (filter_le f l). lia.
Qed.
Lemma short_areas_all M : length (short_areas M) = length M -> forall j, (j < length M)%nat -> zget M j < 0.
Proof.
  intros E j Hj. unfold short_areas in E.
  assert (In j (filter (fun i => zget M i <? 0) (seq 0 (length M)))) as X by (rewrite filter_full by (now rewrite seq_length); apply in_seq; lia).
  apply filter_In in X. destruct X as [_ X]. now apply Z.ltb_lt.
Qed.
Lemma short_areas_all_conv M : (forall j, (j < length M)%nat -> zget M j < 0) -> length (short_areas M) = length M.
Proof.
  intros H. unfold short_areas.
  assert (F : forall l, (forall j, In j l -> zget M j < 0) -> length (filter (fun i => zget M i <? 0) l) = length l).
  { induction l as [|a l IH]; intros Q; cbn; auto. destruct (Z.ltb_spec (zget M a) 0) as [_|C]; [cbn; rewrite IH; auto; intros; apply Q; now right|].
    specialize (Q a (or_introl eq_refl)). lia. }
  rewrite F, seq_length; auto. intros j Hj. apply in_seq in Hj. apply H. lia.
Qed.

(** *** the pieces of one hour *)
Section Study.
  Variables (n nu nl : nat) (cf : hcfg). Hypothesis ST : study n nu nl cf.
  Variable k : Z. Hypothesis Hk : 1 <= k.

  Lemma load_hour_ok : exists J, load_hour cf (on k) = Ok J /\ pyidx (365 * 24) J = Some (hour_used cf k) /\
     (if x_JSTEP cf =? 24 then J = zget (x_MXPLHR cf) (day_of_year k) else J = hour_index (on k)).
  Proof.
    unfold load_hour, hour_used. destruct (x_JSTEP cf =? 24).
    - destruct (st_peak _ _ _ _ ST) as (L & B). eexists. split; [|split; [|reflexivity]].
      + unfold zget. apply pyget_idx; rewrite L; [now apply idx_day|now apply day_of_year_lt].
      + specialize (B _ (day_of_year_lt k)). apply pyidx_nonneg. rewrite year_hours. exact B.
    - eexists. split; [reflexivity|]. split; [now apply idx_hour|reflexivity].
  Qed.

  Definition avail (s : hst) (PL RT : list Qc) : list Qc := snd (gstate (IGSEED s) (x_PROBG cf) RT (x_DERATE cf) PL).
  Lemma draw_ok s PL RT : hst_ok n nu nl s -> length PL = nu -> length RT = nu ->
    exists d, draw cf (on k) PL RT s = Ok d /\
      d_IG d = fst (fst (gstate (IGSEED s) (x_PROBG cf) RT (x_DERATE cf) PL)) /\ d_IL d = fst (lstate (ILSEED s) (x_PROBL cf)) /\
      d_LNSTAT d = snd (lstate (ILSEED s) (x_PROBL cf)) /\
      d_SYSCON d = vtab n (located cf (avail s PL RT)) /\
      d_TRNSFJ d = vtab n (fun j => Qcminus (located cf (avail s PL RT) j) (owned_cap cf (avail s PL RT) j)) /\
      d_TRNSFR d = vtab n (fun j => net_export n (x_JENT cf) (x_INTCH cf) j (day_of_year k)).
  Proof.
    intros HS LP LR. destruct ST as [_ _ _ OWN (LC & INC) (LG & LD) LL (SJ & PO & IN) _ _]. unfold draw, avail.
    pose proof (gstate_spec (x_PROBG cf) (IGSEED s) RT (x_DERATE cf) PL ltac:(rewrite LG; apply HS) ltac:(congruence) ltac:(congruence) ltac:(congruence)) as G.
    destruct (gstate (IGSEED s) (x_PROBG cf) RT (x_DERATE cf) PL) as [[IG F] AV]. destruct G as (_ & _ & LA & _).
    cbn [fst snd]. assert (LAV : length AV = nu) by congruence.
    destruct (sumcap_spec AV (x_CAPOWN cf) (x_CAPCON cf) n) as (CA & SO & SC & TJ & E & _ & L2 & L3 & V & _).
    { now rewrite LAV. } { congruence. }
    { unfold in_areas. apply Forall_forall. intros x Hx. destruct (In_nth _ _ 0 Hx) as (i & Hi & <-). apply INC. congruence. }
    rewrite E. cbn [bind]. destruct (lstate (ILSEED s) (x_PROBL cf)) as [IL st] eqn:EL.
    destruct (findtn_spec n (x_JENT cf) (x_INTCH cf) 365 (day_index (on k)) (day_of_year k)) as (T & ET & LT & VT & _); auto.
    { now apply idx_day. }
    rewrite ET. cbn [bind]. eexists. split; [reflexivity|]. cbn [d_IG d_IL d_LNSTAT d_SYSCON d_TRNSFJ d_TRNSFR]. split; auto. split; auto. split; auto.
    assert (EXT : forall v f, length v = n -> (forall j, (j < n)%nat -> vget v j = f j) -> v = vtab n f).
    { intros v f Lv Hv. apply (nth_ext _ _ q0 q0); [now rewrite vtab_length|]. intros j Hj. rewrite Lv in Hj. fold (vget v j). rewrite Hv by auto.
      symmetry. exact (vget_vtab n f j Hj). }
    split; [|split]; apply EXT; auto; intros j Hj; destruct (V j Hj) as (V1 & V2 & V3); [exact V1|]. rewrite V3, V1, V2. reflexivity.
  Qed.

  Lemma demand_ok J l : pyidx (365 * 24) J = Some (hour_used cf k) -> (l < 5)%nat ->
    exists C, findld l J (x_HRLOAD cf) (x_FCTERR cf) = Ok C /\ length C = n /\ forall j, (j < n)%nat -> vget C j = demand cf k l j.
  Proof.
    intros E Hl. destruct (st_load _ _ _ _ ST) as (LH & RH). destruct (st_fct _ _ _ _ ST) as (LF & RF).
    rewrite (findld_ok _ _ l J (365 * 24) (hour_used cf k)) by (auto; try congruence; intros r Hr; destruct (In_nth _ _ [] Hr) as (i & Hi & <-); apply RH; lia).
    eexists. split; [reflexivity|]. split; [rewrite map2_length; lia|]. intros j Hj. unfold vget.
    rewrite (map2_nth _ _ _ _ [] [] q0) by lia. reflexivity.
  Qed.

  Lemma margins_ok SC C AV l : length SC = n -> length C = n -> (forall j, (j < n)%nat -> vget SC j = located cf AV j) ->
    (forall j, (j < n)%nat -> vget C j = demand cf k l j) ->
    length (margins SC C) = n /\ (forall j, (j < n)%nat -> zget (margins SC C) j = own_margin cf AV k l j) /\
    (forall j, (j < n)%nat -> zget (margins SC C) j < 0 <-> short cf AV k l j).
  Proof.
    intros L1 L2 V1 V2. unfold margins. assert (LM : length (map2 (fun a b => qtrunc (a - b)%Qc) SC C) = n) by (rewrite map2_length; lia).
    assert (V : forall j, (j < n)%nat -> zget (map2 (fun a b => qtrunc (a - b)%Qc) SC C) j = own_margin cf AV k l j).
    { intros j Hj. unfold zget. rewrite (map2_nth _ _ _ _ q0 q0 0) by lia. fold (vget SC j). fold (vget C j). now rewrite V1, V2. }
    split; auto. split; auto. intros j Hj. rewrite V by auto. unfold own_margin. rewrite qtrunc_neg. unfold short.
    split; intros H; qlra.
  Qed.
End Study.

(** *** array sizes through the network solution *)
Lemma mupd_len {A} (M : list (list A)) i j x : length (mupd M i j x) = length M.
Proof. apply upd_length. Qed.
Lemma fold_len {A B} (f : list A -> B -> list A) : (forall M b, length (f M b) = length M) -> forall l M, length (fold_left f l M) = length M.
Proof. intros H l. induction l as [|b l IH]; intros M; cbn [fold_left]; auto. now rewrite IH, H. Qed.
Lemma store_len LT I L BN : length (store_solution LT I L BN) = length BN.
Proof. unfold store_solution. apply fold_len. intros M i. now rewrite !mupd_len. Qed.
Lemma fancy_len BN c ends x : length (fancy_add BN c ends x) = length BN.
Proof. unfold fancy_add. apply fold_len. intros M i. apply mupd_len. Qed.
Lemma resid_len BN LP F : length (residual_areas BN LP F) = length BN.
Proof. unfold residual_areas. now rewrite !fancy_len. Qed.
Lemma tm2_len lp BN LP BLP BLP0 BB ZB LT NR NLS o : keeps_areas lp -> tm2 lp BN LP BLP BLP0 BB ZB LT NR NLS = Ok o -> length (t_BN o) = length BN.
Proof.
  intros K. unfold tm2. destruct (tm2_update _ _ _ _ _ _ _ _) as [BB1 ZB1]. destruct (tm2_solve _ _ _ _ _ _) as [[[I1 LC] SF] F].
  destruct (tm2_accepts _ _ _ _).
  - intros H. injection H as <-. cbn [t_BN]. apply store_len.
  - destruct NLS; [|discriminate]. destruct (lp BB1 BLP BN) as [[F' BN']|] eqn:E; cbn [bind]; [|discriminate].
    intros H. injection H as <-. cbn [t_BN snd]. exact (K _ _ _ _ _ E).
Qed.
Lemma transm_len inv lp IFLAG s BLPA LP NR STMULT LNSTAT NLS TRNSFR TRNSFJ SYSCON CAPREQ JFLAG FLOW SADJ s' : keeps_areas lp ->
  transm inv lp IFLAG s BLPA LP NR STMULT LNSTAT NLS TRNSFR TRNSFJ SYSCON CAPREQ = Ok (JFLAG, FLOW, SADJ, s') ->
  length SADJ = length (n_BN s) /\ length (n_BN s') = length (n_BN s).
Proof.
  intros K E. unfold transm in E.
  destruct (if IFLAG then _ else _) as [[[[BLP0 BB] LT] ZB]|e]; cbn [bind] in E; [|discriminate].
  destruct (tm2 lp (sched_rows (n_BN s) TRNSFR TRNSFJ SYSCON CAPREQ) LP _ BLP0 BB ZB LT NR true) as [o1|e] eqn:E1; cbn [bind] in E; [|discriminate].
  apply tm2_len in E1; auto. unfold sched_rows in E1. rewrite mapi_length in E1.
  destruct (forallb _ _).
  - injection E as <- <- <- <-. split; [apply vtab_length|auto].
  - match type of E with context [tm2 lp ?a ?b ?c ?d ?e ?f ?g ?h ?i] => destruct (tm2 lp a b c d e f g h i) as [o2|er] eqn:E2 end; cbn [bind] in E; [|discriminate].
    apply tm2_len in E2; auto. injection E as <- <- <- <-. split; [apply vtab_length|]. cbn [n_BN]. rewrite mapi_length, E2.
    destruct NLS; rewrite ?resid_len; unfold emergency_rows; now rewrite mapi_length.
Qed.

(** *** the loop over the forecast levels *)
Section Levels.
  Variables (n nu nl : nat) (cf : hcfg). Hypothesis ST : study n nu nl cf.
  Variable k : Z. Hypothesis Hk : 1 <= k.
  Variable inv : list (list Qc) -> option (list (list Qc)).
  Variable lp : list (list Qc) -> list (list Qc) -> list (list Qc) -> res (list Qc * list (list Qc)).
  Hypothesis KA : keeps_areas lp.
  Variables (AV : list Qc) (d : drawn) (J : Z).
  Hypothesis DSC : d_SYSCON d = vtab n (located cf AV).
  Hypothesis DTJ : d_TRNSFJ d = vtab n (fun j => Qcminus (located cf AV j) (owned_cap cf AV j)).
  Hypothesis DTR : d_TRNSFR d = vtab n (fun j => net_export n (x_JENT cf) (x_INTCH cf) j (day_of_year k)).
  Lemma LSC : length (d_SYSCON d) = n. Proof. rewrite DSC. apply vtab_length. Qed.
  Lemma VSC j : (j < n)%nat -> vget (d_SYSCON d) j = located cf AV j. Proof. intros H. rewrite DSC. now apply vget_vtab. Qed.
  Hypothesis HJ : pyidx (365 * 24) J = Some (hour_used cf k).

  Definition peak_now : bool := J =? zget (x_MXPLHR cf) (day_of_year k).
  Definition apply_recs (recs : list (nat * list Z)) (s : hst) :=
    fold_left record_hour (map (fun r => (fst r, map qz (snd r), peak_now)) recs) (LSFLG s, hrs s, pks s).
  Definition stats_of (s : hst) := (LSFLG s, hrs s, pks s).

  Lemma whole_qz M : whole (map qz M).
  Proof. intros X HX. apply in_map_iff in HX. destruct HX as (z & <- & _). eauto. Qed.

  Lemma record_level_ok l M s : hst_ok n nu nl s -> (l < 5)%nat -> length M = n ->
    exists s1, record_level cf (on k) J l M s = Ok s1 /\ hst_ok n nu nl s1 /\
      stats_of s1 = record_hour (stats_of s) (l, map qz M, peak_now) /\ IGSEED s1 = IGSEED s /\ ILSEED s1 = ILSEED s /\ hnet s1 = hnet s.
  Proof.
    intros HS Hl LM. unfold record_level.
    pose proof (record_hour_spec n 5 (l, map qz M, peak_now) (LSFLG s) (hrs s) (pks s)) as R.
    unfold record_hour in R. unfold stats_of, record_hour.
    destruct (hrstat l (map qz M) (LSFLG s) (hrs s)) as [LS h].
    destruct R as (R1 & R2 & R3).
    { split; [auto|]. split; [now rewrite map_length|apply whole_qz]. } { apply HS. } { apply HS. } { apply HS. }
    destruct (st_peak _ _ _ _ ST) as (LP & _).
    rewrite (pyget_idx _ _ (day_of_year k) 0) by (rewrite ?LP; try apply idx_day; try apply day_of_year_lt; auto).
    cbn [bind]. fold (zget (x_MXPLHR cf) (day_of_year k)). fold peak_now. eexists. split; [reflexivity|].
    cbn [LSFLG hrs pks IGSEED ILSEED hnet]. split; [|auto]. destruct HS. constructor; auto.
    - exact (re_shape _ _ _ _ _ _ R2).
    - cbn [pks]. destruct peak_now; [exact (re_shape _ _ _ _ _ _ R3)|auto].
  Qed.

  Lemma nat_dec_all (P : nat -> Prop) (D : forall j, {P j} + {~ P j}) : forall m, (forall j, (j < m)%nat -> P j) \/ exists j, (j < m)%nat /\ ~ P j.
  Proof.
    induction m as [|m [IH|(j & Hj & N)]]; [left; lia| |right; exists j; split; auto; lia].
    destruct (D m); [left|right; exists m; split; auto; lia]. intros j Hj. destruct (Nat.eq_dec j m); [subst; auto|apply IH; lia].
  Qed.

  Theorem levels_spec : forall ls s s' first b, ls = seq b (length ls) -> (b + length ls <= 5)%nat ->
    hst_ok n nu nl s -> levels inv lp cf (on k) J d ls first s = Ok s' ->
    hst_ok n nu nl s' /\ IGSEED s' = IGSEED s /\ ILSEED s' = ILSEED s /\
    exists recs, stats_of s' = apply_recs recs s /\ map fst recs = seq b (length recs) /\ (length recs <= length ls)%nat /\
      Forall (level_record inv lp n cf k AV (d_LNSTAT d)) recs /\ (length recs = length ls \/ level_covered inv lp n cf k AV (d_LNSTAT d) (b + length recs)).
  Proof.
    induction ls as [|l rest IH]; intros s s' first b EL LE HS E; cbn [levels] in E.
    - injection E as <-. repeat split; auto; try apply HS. exists []. cbn. repeat split; auto.
    - cbn [length seq] in EL. injection EL as -> EL. cbn [length] in LE.
      destruct (demand_ok n nu nl cf ST k J b HJ ltac:(lia)) as (C & EC & LC & VC). rewrite EC in E. cbn [bind] in E.
      destruct (margins_ok n cf k (d_SYSCON d) C AV b LSC LC VSC VC) as (LM & VM & SM).
      set (M := margins (d_SYSCON d) C) in *.
      destruct (last_short M) as [IT|e] eqn:EI; cbn [bind] in E; [|discriminate].
      apply last_short_ok in EI. destruct EI as (HI & NI). rewrite LM in HI.
      assert (SOME : exists j, (j < n)%nat /\ short cf AV k b j) by (exists IT; split; auto; now apply SM).
      destruct (Nat.eqb_spec (length (short_areas M)) 0) as [Z|NZ].
      { exfalso. assert (In IT (short_areas M)) as X by (apply short_areas_in; rewrite LM; auto).
        destruct (short_areas M); [destruct X|discriminate]. }
      assert (LO : length (x_CAPOWN cf) = n) by apply (st_own _ _ _ _ ST). rewrite LO in E.
      destruct (Nat.eqb_spec (length (short_areas M)) n) as [ALL|NALL].
      + rewrite <- LM in ALL. pose proof (short_areas_all M ALL) as AS. rewrite LM in AS.
        destruct (record_level_ok b M s HS ltac:(lia) LM) as (s1 & E1 & HS1 & RS & G1 & G2 & _). rewrite E1 in E. cbn [bind] in E.
        destruct (IH s1 s' first (S b) EL ltac:(lia) HS1 E) as (H' & I1 & I2 & recs & RE & F & LR & FO & LAST).
        split; auto. split; [congruence|]. split; [congruence|]. exists ((b, M) :: recs). split; [|split; [|split; [|split]]].
        * unfold apply_recs. cbn [map fold_left fst snd]. fold (stats_of s). rewrite <- RS. exact RE.
        * cbn [map length seq fst]. now rewrite F.
        * cbn [length]. lia.
        * constructor; auto. unfold level_record. split; auto. split; [exists IT; auto|]. split; auto. left.
          split; intros j Hj; [now apply SM, AS|now apply VM].
        * cbn [length]. destruct LAST as [LAST|LAST]; [left; lia|right]. replace (b + S (length recs))%nat with (S b + length recs)%nat by lia. exact LAST.
      + assert (NOT : exists j, (j < n)%nat /\ ~ short cf AV k b j).
        { assert (D : forall j, {zget M j < 0} + {~ zget M j < 0}) by (intros j; destruct (Z_lt_dec (zget M j) 0); auto).
          destruct (nat_dec_all (fun j => zget M j < 0) D n) as [A|(j & Hj & N)].
          - exfalso. apply NALL. rewrite <- LM. apply short_areas_all_conv. now rewrite LM.
          - exists j. split; auto. intros S. apply N. now apply SM. }
        destruct (if (1 <? length (short_areas M))%nat then Ok 0 else direct_help cf (d_LNSTAT d) M IT) as [ND|e]; cbn [bind] in E; [|discriminate].
        assert (EC2 : C = vtab n (demand cf k b)).
        { apply (nth_ext _ _ q0 q0); [now rewrite vtab_length|]. intros j Hj. rewrite LC in Hj. fold (vget C j). rewrite VC by auto.
          symmetry. apply (vget_vtab n (demand cf k b) j Hj). }
        destruct (transm _ _ _ _ _ _ _ _ _ _ _ _ _ _) as [[[[em FL] SA] net1]|e] eqn:ET; cbn [bind] in E; [|discriminate].
        destruct (transm_len _ _ _ _ _ _ _ _ _ _ _ _ _ _ _ _ _ _ KA ET) as (LSA & LBN).
        set (s1 := mkHst (IGSEED s) (ILSEED s) net1 (LSFLG s) (hrs s) (pks s)) in *.
        assert (HS1 : hst_ok n nu nl s1) by (destruct HS; constructor; cbn; auto; congruence).
        assert (NA : network_answer inv lp n cf k AV (d_LNSTAT d) b em SA) by (rewrite EC2, DSC, DTJ, DTR in ET; exists first, (hnet s), FL, net1; exact ET).
        destruct em; cbn [negb] in E.
        2:{ injection E as <-. split; auto. split; auto. split; auto. exists []. split; [reflexivity|]. split; [reflexivity|]. cbn [length].
            split; [lia|]. split; [constructor|]. right. rewrite Nat.add_0_r. split; auto. split; auto. exists false, SA. auto. }
        destruct (existsb _ _) eqn:EX in E; cbn [negb] in E.
        2:{ injection E as <-. split; auto. split; auto. split; auto. exists []. split; [reflexivity|]. split; [reflexivity|]. cbn [length].
            split; [lia|]. split; [constructor|]. right. rewrite Nat.add_0_r. split; auto. split; auto. exists true, SA. split; auto. right.
            intros x Hx. destruct (Z_lt_dec (qtrunc (Qcopp x)) 0) as [L|L]; [exfalso|lia].
            assert (C1 : existsb (fun m : Z => m <? 0) (map (fun x => qtrunc (- x)%Qc) SA) = true); [|rewrite C1 in EX; discriminate].
            apply existsb_exists. exists (qtrunc (- x)%Qc). split; [|now apply Z.ltb_lt]. apply in_map_iff. eauto. }
        set (M2 := map (fun x => qtrunc (- x)%Qc) SA) in *.
        assert (LM2 : length M2 = n) by (unfold M2; rewrite map_length; destruct HS; congruence).
        destruct (record_level_ok b M2 s1 HS1 ltac:(lia) LM2) as (s2 & E2 & HS2 & RS & G1 & G2 & _). rewrite E2 in E. cbn [bind] in E.
        destruct (IH s2 s' true (S b) EL ltac:(lia) HS2 E) as (H' & I1 & I2 & recs & RE & F & LR & FO & LAST).
        split; auto. split; [cbn in *; congruence|]. split; [cbn in *; congruence|]. exists ((b, M2) :: recs). split; [|split; [|split; [|split]]].
        * unfold apply_recs. cbn [map fold_left fst snd]. change (LSFLG s, hrs s, pks s) with (stats_of s1). rewrite <- RS. exact RE.
        * cbn [map length seq fst]. now rewrite F.
        * cbn [length]. lia.
        * constructor; auto. unfold level_record. split; auto. split; [|split; [auto|right; split; [auto|exists SA; auto]]].
          apply existsb_exists in EX. destruct EX as (m & Hm & L). apply Z.ltb_lt in L. destruct (In_nth _ _ 0 Hm) as (j & Hj & E3). exists j. split; [lia|].
          unfold zget. rewrite E3. exact L.
        * cbn [length]. destruct LAST as [LAST|LAST]; [left; lia|right]. replace (b + S (length recs))%nat with (S b + length recs)%nat by lia. exact LAST.
  Qed.
End Levels.

Lemma run_hours_grow n w hs : forall LS a p, Forall (hour_ok n w) hs -> length LS = n -> stat_shape n w a -> stat_shape n w p ->
  let '(_, a', p') := fold_left record_hour hs (LS, a, p) in stat_le n w a a' /\ stat_le n w p p'.
Proof.
  induction hs as [|h hs IH]; intros LS a p F LL SA SP; cbn [fold_left]; [auto using stat_le_refl|].
  pose proof (Forall_inv F) as H; pose proof (Forall_inv_tail F) as F'. pose proof (record_hour_spec n w h LS a p H LL SA SP) as R.
  destruct (record_hour (LS, a, p) h) as [[LS' a'] p']. destruct h as [[NST M] pk]. destruct R as (L1 & RA & RP).
  assert (SP' : stat_shape n w p') by (destruct pk; [exact (re_shape _ _ _ _ _ _ RP)|congruence]).
  assert (LP : stat_le n w p p') by (destruct pk; [eapply stat_le_grow; [apply stat_le_refl|eassumption]|subst p'; apply stat_le_refl]).
  assert (LA : stat_le n w a a') by (eapply stat_le_grow; [apply stat_le_refl|eassumption]).
  specialize (IH LS' a' p' F' L1 (re_shape _ _ _ _ _ _ RA) SP').
  destruct (fold_left record_hour hs (LS', a', p')) as [[? a2] p2]. destruct IH. eauto using stat_le_trans.
Qed.

Section Whole.
  Variables (n nu nl : nat) (cf : hcfg). Hypothesis ST : study n nu nl cf.
  Variable k : Z. Hypothesis Hk : 1 <= k.
  Variable inv : list (list Qc) -> option (list (list Qc)).
  Variable lp : list (list Qc) -> list (list Qc) -> list (list Qc) -> res (list Qc * list (list Qc)).
  Variables (s : hst) (PL RT : list Qc).
  Hypothesis HS : hst_ok n nu nl s.
  Hypothesis LPL : length PL = nu.
  Hypothesis LRT : length RT = nu.
  Let AV := snd (gstate (IGSEED s) (x_PROBG cf) RT (x_DERATE cf) PL).
  Let LN := snd (lstate (ILSEED s) (x_PROBL cf)).

  (** the hour belongs to the day's peak hour as the program tests it *)
  Definition peak_hour : bool :=
    if x_JSTEP cf =? 24 then true else k mod 8760 - 1 =? zget (x_MXPLHR cf) (day_of_year k).

  Lemma drawn_state_ok d : draw cf (on k) PL RT s = Ok d -> d_IG d = fst (fst (gstate (IGSEED s) (x_PROBG cf) RT (x_DERATE cf) PL)) ->
    d_IL d = fst (lstate (ILSEED s) (x_PROBL cf)) -> hst_ok n nu nl (mkHst (d_IG d) (d_IL d) (hnet s) (LSFLG s) (hrs s) (pks s)).
  Proof.
    intros _ G1 G2. destruct ST as [_ _ _ _ _ (LG & LD) LL _ _ _].
    pose proof (gstate_spec (x_PROBG cf) (IGSEED s) RT (x_DERATE cf) PL ltac:(rewrite LG; apply HS) ltac:(congruence) ltac:(congruence) ltac:(congruence)) as G.
    pose proof (lstate_spec (x_PROBL cf) (ILSEED s) ltac:(rewrite LL; apply HS)) as L.
    destruct (gstate _ _ _ _ _) as [[IG F] A]. destruct (lstate _ _) as [IL st]. cbn [fst snd] in *.
    destruct HS. constructor; cbn [IGSEED ILSEED hnet LSFLG hrs pks]; auto.
    - destruct G as (E & _). rewrite G1. lia.
    - destruct L as (E & _). rewrite G2. lia.
  Qed.

  Theorem hour_spec s' : keeps_areas lp -> hour inv lp cf (on k) PL RT s = Ok s' ->
    hst_ok n nu nl s' /\
    (forall i, (i < nu)%nat -> nth i (IGSEED s') 0 = (nth i (IGSEED s) 0 * 65539) mod 2 ^ 31) /\
    (forall i, (i < nl)%nat -> nth i (ILSEED s') 0 = (nth i (ILSEED s) 0 * 65539) mod 2 ^ 31) /\
    exists recs, (LSFLG s', hrs s', pks s') = fold_left record_hour (map (fun r => (fst r, map qz (snd r), peak_hour)) recs) (LSFLG s, hrs s, pks s) /\
      map fst recs = seq 0 (length recs) /\ (length recs <= x_NFCST cf)%nat /\
      Forall (level_record inv lp n cf k AV LN) recs /\
      (length recs = x_NFCST cf \/ level_covered inv lp n cf k AV LN (length recs)) /\
      stat_le n 5 (hrs s) (hrs s') /\ stat_le n 5 (pks s) (pks s').
  Proof.
    intros KA E. unfold hour in E.
    destruct (load_hour_ok n nu nl cf ST k Hk) as (J & EJ & IJ & DJ). rewrite EJ in E. cbn [bind] in E.
    destruct (draws_now (x_JFREQ cf) J) as [[]|]; cbn [bind] in E; try discriminate.
    destruct (draw_ok n nu nl cf ST k Hk s PL RT HS LPL LRT) as (d & ED & G1 & G2 & G3 & D1 & D2 & D3). rewrite ED in E. cbn [bind] in E.
    pose proof (drawn_state_ok d ED G1 G2) as HS1.
    assert (LV : (x_NFCST cf <= 5)%nat) by apply (st_levels _ _ _ _ ST).
    destruct (levels_spec n nu nl cf ST k Hk inv lp KA (avail cf s PL RT) d J D1 D2 D3 IJ (seq 0 (x_NFCST cf)) _ s' false 0%nat
       ltac:(now rewrite seq_length) ltac:(rewrite seq_length; lia) HS1 E) as (H' & I1 & I2 & recs & RE & F & LR & FO & LAST).
    rewrite seq_length in LR, LAST. rewrite G3 in FO, LAST. fold LN in FO, LAST. change (avail cf s PL RT) with AV in FO, LAST.
    split; auto.
    assert (PK : peak_now cf k J = peak_hour).
    { unfold peak_now, peak_hour. destruct (x_JSTEP cf =? 24); rewrite DJ; [apply Z.eqb_refl|now rewrite hidx]. }
    split; [|split].
    - intros i Hi. rewrite I1. cbn [IGSEED]. rewrite G1. destruct ST as [_ _ _ _ _ (LG & LD) _ _ _ _].
      pose proof (gstate_spec (x_PROBG cf) (IGSEED s) RT (x_DERATE cf) PL ltac:(rewrite LG; apply HS) ltac:(congruence) ltac:(congruence) ltac:(congruence)) as G.
      destruct (gstate _ _ _ _ _) as [[IG Fr] A]. destruct G as (_ & _ & _ & G & _). cbn [fst]. apply G. lia.
    - intros i Hi. rewrite I2. cbn [ILSEED]. rewrite G2. destruct ST as [_ _ _ _ _ _ LL _ _ _].
      pose proof (lstate_spec (x_PROBL cf) (ILSEED s) ltac:(rewrite LL; apply HS)) as G.
      destruct (lstate _ _) as [IL st]. destruct G as (_ & _ & G & _). cbn [fst]. apply G. lia.
    - exists recs. unfold apply_recs, stats_of in RE. rewrite PK in RE. cbn [LSFLG hrs pks] in RE. split; auto. split; auto. split; auto. split; auto. split; auto.
      assert (FH : Forall (hour_ok n 5) (map (fun r => (fst r, map qz (snd r), peak_hour)) recs)).
      { apply Forall_forall. intros h Hh. apply in_map_iff in Hh. destruct Hh as ([l M] & <- & Hr). cbn [fst snd].
        rewrite Forall_forall in FO. specialize (FO _ Hr). destruct FO as (LM & _). split; [|split; [now rewrite map_length|apply whole_qz]].
        assert (In l (seq 0 (length recs))) as X by (rewrite <- F; apply in_map_iff; exists (l, M); auto). apply in_seq in X. lia. }
      pose proof (run_hours_grow n 5 _ (LSFLG s) (hrs s) (pks s) FH ltac:(apply HS) ltac:(apply HS) ltac:(apply HS)) as GR.
      rewrite <- RE in GR. exact GR.
  Qed.

  (** an hour in which no area is short at the first level *)
  Theorem hour_no_shortage : draws_now (x_JFREQ cf) (if x_JSTEP cf =? 24 then zget (x_MXPLHR cf) (day_of_year k) else k mod 8760 - 1) = Ok true ->
    (forall j, (j < n)%nat -> ~ short cf AV k 0 j) -> hour inv lp cf (on k) PL RT s = Err IndexError.
  Proof.
    intros DN NS. unfold hour.
    destruct (load_hour_ok n nu nl cf ST k Hk) as (J & EJ & IJ & DJ). rewrite EJ. cbn [bind].
    replace J with (if x_JSTEP cf =? 24 then zget (x_MXPLHR cf) (day_of_year k) else k mod 8760 - 1) at 1
      by (destruct (x_JSTEP cf =? 24); rewrite DJ; [reflexivity|now rewrite hidx]).
    rewrite DN. cbn [bind].
    destruct (draw_ok n nu nl cf ST k Hk s PL RT HS LPL LRT) as (d & ED & _ & _ & _ & D1 & _). rewrite ED. cbn [bind].
    destruct (x_NFCST cf) eqn:EN; [pose proof (st_levels _ _ _ _ ST); lia|]. cbn [seq levels].
    destruct (demand_ok n nu nl cf ST k J 0 IJ ltac:(lia)) as (C & EC & LC & VC). rewrite EC. cbn [bind].
    destruct (margins_ok n cf k (d_SYSCON d) C AV 0) as (LM & _ & SM); auto.
    { rewrite D1. apply vtab_length. } { intros j Hj. rewrite D1. now apply vget_vtab. }
    rewrite last_short_err; [reflexivity|]. rewrite LM. intros j Hj. destruct (Z_lt_dec (zget (margins (d_SYSCON d) C) j) 0) as [L|L]; [|lia].
    exfalso. apply (NS j Hj). now apply SM.
  Qed.

  Theorem hour_no_draw : 1 < x_JFREQ cf ->
    (if x_JSTEP cf =? 24 then zget (x_MXPLHR cf) (day_of_year k) else k mod 8760 - 1) mod x_JFREQ cf <> 0 ->
    hour inv lp cf (on k) PL RT s = Err UnboundLocalError.
  Proof.
    clear LPL LRT. intros H1 H2. unfold hour. destruct (load_hour_ok n nu nl cf ST k Hk) as (J & EJ & IJ & DJ). rewrite EJ. cbn [bind].
    assert (EQ : J = if x_JSTEP cf =? 24 then zget (x_MXPLHR cf) (day_of_year k) else k mod 8760 - 1)
      by (destruct (x_JSTEP cf =? 24); rewrite DJ; [reflexivity|now rewrite hidx]).
    rewrite <- EQ in H2. unfold draws_now. destruct (Z.eqb_spec (x_JFREQ cf) 0); [lia|]. cbn [bind].
    destruct (Z.eqb_spec (J mod x_JFREQ cf) 0); [contradiction|]. destruct (Z.eqb_spec (x_JFREQ cf) 1); [lia|]. reflexivity.
  Qed.
End Whole.
