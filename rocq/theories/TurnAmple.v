(** Proofs for C126: with ample limits (C124), whatever the linear program and with or
    without loss sharing. *)
From Verif Require Import Base BaseProofs Sums LoadModel LoadSpec LoadProofs StatModel StatSpec StatProofs YearModel YearSpec YearProofs YearRun ReportSpec SampleModel SampleProofs NetModel NetSpec MatProofs NetProofs FlowProofs AssignProofs UpdateProofs SolveProofs UniqueProofs TransmProofs EventModel EventProofs ControlModel ControlSpec ControlProofs RunProofs
  HourModel HourSpec HourProofs CauseSpec ProgramModel ProgramSpec ProgramProofs HistorySpec HistoryProofs LevelsProofs PlateSpec PlateProofs PlateTrace DataProofs PropertiesNet ShortProofs CutProofs AmpleSpec AmpleProofs ContractProofs PropertiesAmple RefSpec RefProofs TurnSpec TurnProofs.
Open Scope Z_scope.
Open Scope Qc_scope.

Definition alike (n : nat) (A B : list (list Qc)) : Prop := shape n 5 A /\ shape n 5 B /\ forall i d, (i < n)%nat -> (d < 3)%nat -> mget A i d = mget B i d.
Lemma refuse_accepted er BN LP BLP BLP0 BB ZB LT NR NLS o : tm2 (refuse er) BN LP BLP BLP0 BB ZB LT NR NLS = Ok o -> t_accepted o = true.
Proof.
  unfold tm2. destruct (tm2_update _ _ _ _ _ _ _ _) as [BB1 ZB1]. destruct (tm2_solve _ _ _ _ _ _) as [[[I1 L1] S1] F1]. destruct (tm2_accepts _ _ _ _).
  - intros E. injection E as <-. reflexivity.
  - destruct NLS; cbn; discriminate.
Qed.
Lemma tm2_turned sw n NR LT BN BN' LP BLP BLP' BLP0 BB ZB NLS er o o' :
  state_ok n NR LT LP BLP BLP0 -> state_ok n NR LT (turned_ends sw LP) BLP' BLP0 -> base_ok n LT LP BLP0 BB ZB -> base_ok n LT (turned_ends sw LP) BLP0 BB ZB ->
  (forall k, (k < length LP)%nat -> mget BLP' k 0 = mget BLP k 0) -> alike n BN BN' -> (NLS = false -> qsum (mcol BN 1) <> q0) ->
  tm2 (refuse er) BN LP BLP BLP0 BB ZB LT NR NLS = Ok o -> tm2 (refuse er) BN' (turned_ends sw LP) BLP' BLP0 BB ZB LT NR NLS = Ok o' ->
  (forall k, (k < length LP)%nat -> vget (t_flow o) k = seen sw (vget (t_flow o')) k) /\ alike n (t_BN o) (t_BN o') /\
  (forall i d, (i < n)%nat -> d = 3%nat \/ d = 4%nat -> mget (t_BN o) i d = mget BN i d /\ mget (t_BN o') i d = mget BN' i d) /\
  t_BB o = BB /\ t_ZB o = ZB /\ t_BB o' = BB /\ t_ZB o' = ZB.
Proof.
  intros SO SO' BO BO' EA (S1 & S1' & AL) NZ E E'. pose proof SO as [ok LI LB LB0 NG RF CN].
  assert (AD : forall k, (k < length LP)%nat -> mget BLP k 0 <= q0) by (intros k Hk; apply NG; auto).
  assert (EC : forall d, (d < 3)%nat -> mcol BN' d = mcol BN d).
  { intros d Hd. apply (nth_ext_eq _ _ q0); [rewrite !mcol_length, (proj1 S1), (proj1 S1'); reflexivity|]. intros k Hk. rewrite mcol_length, (proj1 S1') in Hk.
    change (vget (mcol BN' d) k = vget (mcol BN d) k). rewrite !mcol_nth. symmetry. now apply AL. }
  destruct (tm2_solution n 5 NR LT _ BN LP BLP BLP0 BB ZB NLS o SO BO S1 ltac:(lia) NZ E (refuse_accepted _ _ _ _ _ _ _ _ _ _ _ E)) as (LF & DC & AS & RC & SB & RB & RZ & _).
  destruct (tm2_solution n 5 NR LT _ BN' (turned_ends sw LP) BLP' BLP0 BB ZB NLS o' SO' BO' S1' ltac:(lia) ltac:(rewrite EC by lia; exact NZ) E' (refuse_accepted _ _ _ _ _ _ _ _ _ _ _ E')) as (LF' & DC' & AS' & RC' & SB' & RB' & RZ' & _).
  rewrite EC in AS' by lia. assert (EI : map (fun k => mget BN' k 2) LT = map (fun k => mget BN k 2) LT).
  { apply map_ext. intros k. rewrite <- !mcol_nth. now rewrite EC by lia. }
  rewrite EI in AS'. destruct (assign (map (fun k => mget BN k 2) LT) (mcol BN 1) LT NLS) as [J L]. destruct AS as (P1 & P2). destruct AS' as (P1' & P2').
  assert (C1 : forall i, (i < n)%nat -> mget (t_BN o) i 1 = mget (t_BN o') i 1).
  { intros i Hi. destruct (at_surj n NR LT ok i Hi) as (a & Ha & Ea). unfold at_ in Ea. rewrite <- Ea. now rewrite P1, P1'. }
  split; [|split; [|split]].
  - apply dc_turn in DC'.
    assert (DC2 : dc_solution n NR LP (fun k => mget BLP k 0) (fun i => mget (t_BN o) i 1) (seen sw (vget (t_flow o')))).
    { destruct DC' as (T & T0 & FF & NO). exists T. split; [exact T0|]. split; [intros v Hv; rewrite FF, EA by exact Hv; reflexivity|]. intros i Hi. rewrite NO by exact Hi. symmetry. now apply C1. }
    exact (dc_unique n NR LP _ _ _ _ LI AD DC DC2).
  - split; [exact SB|]. split; [exact SB'|]. intros i d Hi Hd. destruct d as [|[|[|d]]]; [| | |lia].
    + rewrite RC, RC' by lia. apply AL; lia.
    + now apply C1.
    + now rewrite P2, P2'.
  - intros i d Hi Hd. split; [apply RC; lia|apply RC'; lia].
  - auto.
Qed.

Lemma state_col n NR LT LP BLP BLP2 BLP0 : state_ok n NR LT LP BLP BLP0 -> length BLP2 = length LP -> (forall k, mget BLP2 k 0 = mget BLP k 0) -> state_ok n NR LT LP BLP2 BLP0.
Proof.
  intros [ok LI LB LB0 NG RF CN] L CB. constructor; auto; [intros k Hk; rewrite CB; now apply NG|intros k Hk; rewrite CB; now apply RF|].
  rewrite (wlines_col LP BLP2 BLP) by (auto; congruence). exact CN.
Qed.

Section Call.
  Variables (inv : list (list Qc) -> option (list (list Qc))) (er : pyerr) (n : nat) (cf : hcfg) (sw : nat -> bool).
  Hypothesis IO : inv_ok inv. Hypothesis BN0 : base_net n cf. Hypothesis LB : length (x_BLPA cf) = length (x_LP cf).
  Hypothesis CD : line_cards cf.
  Notation NLS := (x_NLS cf).
  Let cf' := turn_lines sw cf.

  Lemma transm_turned IFLAG s LN TR TJ SC CR JF FL SA s1 JF' FL' SA' s1' : areas_numbered n (n_BN s) -> shape n 5 (n_BN s) ->
    (IFLAG = true -> settled inv (x_LP cf) (x_BLPA cf) (x_NR cf) s) ->
    length LN = length (x_LP cf) -> still_joined n cf LN -> length CR = n -> (NLS = false -> qsum CR <> q0) ->
    transm inv (refuse er) IFLAG s (x_BLPA cf) (x_LP cf) (x_NR cf) (repeat [q1; q1] (length LN)) LN NLS TR TJ SC CR = Ok (JF, FL, SA, s1) ->
    transm inv (refuse er) IFLAG s (x_BLPA cf') (x_LP cf') (x_NR cf) (repeat [q1; q1] (length LN)) LN NLS TR TJ SC CR = Ok (JF', FL', SA', s1') ->
    JF' = JF /\ SA' = SA /\ s1' = s1 /\ forall k, (k < length (x_LP cf))%nat -> vget FL k = seen sw (vget FL') k.
  Proof using All.
    intros AN S5 SE LL SJ LC SH. pose proof CD as CD0.
    assert (T1 : tm1 inv (n_BN s) (x_LP cf') (map (firstn 3) (x_BLPA cf')) (x_NR cf) = tm1 inv (n_BN s) (x_LP cf) (map (firstn 3) (x_BLPA cf)) (x_NR cf)).
    { apply (tm1_turn sw inv (length (x_LP cf))); [apply (bn_ends _ _ BN0)|exact (proj1 CD)]. }
    destruct (tm1 inv (n_BN s) (x_LP cf) (map (firstn 3) (x_BLPA cf)) (x_NR cf)) as [[[[BLP0 BB] LT] ZB]|e] eqn:B1.
    2:{ destruct IFLAG; [specialize (SE eq_refl); unfold settled in SE; rewrite B1 in SE; discriminate SE|]. unfold transm at 1. rewrite B1. discriminate. }
    assert (TM : forall LP B, tm1 inv (n_BN s) LP (map (firstn 3) B) (x_NR cf) = Ok (BLP0, BB, LT, ZB) -> transm inv (refuse er) IFLAG s B LP (x_NR cf) (repeat [q1; q1] (length LN)) LN NLS TR TJ SC CR =
      transm inv (refuse er) true (mkNet (n_BN s) BLP0 BB LT ZB) B LP (x_NR cf) (repeat [q1; q1] (length LN)) LN NLS TR TJ SC CR).
    { intros LP B E1. destruct IFLAG; [|unfold transm at 1; rewrite E1; reflexivity]. pose proof (SE eq_refl) as E. unfold settled in E. rewrite B1 in E. injection E as -> -> -> ->. destruct s; reflexivity. }
    rewrite (TM _ _ B1), (TM _ _ T1). clear TM SE.
    destruct (state_of inv n cf (x_NR cf) IO LB (bn_ref _ _ BN0) s LN BLP0 BB LT ZB cf eq_refl eq_refl BN0 AN B1 LL SJ) as (Q0 & SO & BO).
    assert (LB' : length (x_BLPA cf') = length (x_LP cf')) by (cbn [cf' turn_lines x_BLPA x_LP]; rewrite rows_len, turn_len; exact LB).
    assert (LL' : length LN = length (x_LP cf')) by (cbn [cf' turn_lines x_LP]; rewrite turn_len; exact LL).
    destruct (state_of inv n cf' (x_NR cf') IO LB' (bn_ref _ _ BN0) s LN BLP0 BB LT ZB cf' eq_refl eq_refl (base_net_turn n cf sw BN0 LB CD) AN T1 LL' (still_turn n cf sw LB CD LN SJ)) as (_ & SO' & BO').
    change (x_NR cf') with (x_NR cf) in SO'. change (x_LP cf') with (turned_ends sw (x_LP cf)) in SO', BO' |- *. clear Q0 B1 T1.
    assert (LN' : length (n_BN s) = n) by apply AN.
    set (SM := repeat [q1; q1] (length LN)) in *. set (BLP := line_rows (x_BLPA cf) SM LN) in *. set (BLP' := line_rows (x_BLPA cf') SM LN) in *.
    assert (EA : forall k, (k < length (x_LP cf))%nat -> mget BLP' k 0 = mget BLP k 0).
    { intros k Hk. destruct (line_rows_state (x_BLPA cf) SM LN k ltac:(lia)) as (R0 & _). destruct (line_rows_state (x_BLPA cf') SM LN k ltac:(lia)) as (R0' & _).
      unfold BLP, BLP'. rewrite R0, R0'. exact (adm_turn cf sw CD LN k Hk). }
    assert (LBP : length BLP = length (x_LP cf)) by (unfold BLP; now rewrite line_rows_len).
    assert (LBP' : length BLP' = length (turned_ends sw (x_LP cf))) by (unfold BLP'; rewrite line_rows_len; exact LL').
    unfold transm. cbn [bind n_BN n_BLP0 n_BB n_LT n_ZB]. rewrite LN'. fold BLP. fold BLP'. cbv zeta.
    destruct (sched_rows_spec n (n_BN s) TR TJ SC CR S5) as (S1 & G1). set (BN1 := sched_rows (n_BN s) TR TJ SC CR) in *.
    destruct (tm2 (refuse er) BN1 (x_LP cf) BLP BLP0 BB ZB LT (x_NR cf) true) as [o1|] eqn:E1; [|discriminate].
    destruct (tm2 (refuse er) BN1 (turned_ends sw (x_LP cf)) BLP' BLP0 BB ZB LT (x_NR cf) true) as [o1'|] eqn:E1'; [|discriminate].
    destruct (tm2_turned sw n (x_NR cf) LT BN1 BN1 (x_LP cf) BLP BLP' BLP0 BB ZB true er o1 o1' SO SO' BO BO' EA ltac:(repeat split; auto; apply S1) ltac:(discriminate) E1 E1') as (F1 & (SB & SB' & A1) & R34 & RB & RZ & RB' & RZ').
    cbn [bind]. assert (EB : t_BN o1' = t_BN o1).
    { apply (ContractProofs.shape_ext n 5 _ _ SB' SB). intros j h Hj Hh. destruct (Nat.lt_ge_cases h 3) as [H3|H3]; [symmetry; now apply A1|].
      destruct (R34 j h Hj ltac:(lia)) as (-> & ->). reflexivity. }
    rewrite EB, RB, RZ, RB', RZ'.
    destruct (forallb (fun x => qleb q0 x) (vtab n (fun i => vget SC i - vget CR i - mget (t_BN o1) i 1))).
    { intros E E'. injection E as <- <- <- <-. injection E' as <- <- <- <-. auto. }
    set (CADJ := vtab n (fun i => if NLS then mget (t_BN o1) i 1 else q0)).
    destruct (emergency_rows_spec n (t_BN o1) SC CR CADJ SB) as (S3 & G3). set (BN3 := emergency_rows (t_BN o1) SC CR CADJ) in *.
    pose proof SO as [_ LI _ _ _ _ _]. pose proof SO' as [_ LI' _ _ _ _ _].
    destruct (residual_areas_spec n BN3 (x_LP cf) (t_flow o1) S3 LI) as (S4 & G4). destruct (residual_areas_spec n BN3 _ (t_flow o1') S3 LI') as (S4' & G4').
    set (BN4 := if NLS then residual_areas BN3 (x_LP cf) (t_flow o1) else BN3) in *. set (BN4' := if NLS then residual_areas BN3 (turned_ends sw (x_LP cf)) (t_flow o1') else BN3) in *.
    set (BLR := if NLS then residual_lines BLP (t_flow o1) else BLP) in *. set (BLR' := if NLS then residual_lines BLP' (t_flow o1') else BLP') in *.
    assert (AL4 : alike n BN4 BN4').
    { unfold BN4, BN4'. destruct NLS; [|repeat split; auto; apply S3]. split; [exact S4|]. split; [exact S4'|]. intros i d Hi Hd. rewrite G4, G4' by assumption. reflexivity. }
    assert (SOR : state_ok n (x_NR cf) LT (x_LP cf) BLR BLP0).
    { apply (state_col n _ LT _ BLP); [exact SO| |]; unfold BLR; destruct NLS; auto using residual_lines_col. unfold residual_lines. now rewrite mapi_length. }
    assert (SOR' : state_ok n (x_NR cf) LT (turned_ends sw (x_LP cf)) BLR' BLP0).
    { apply (state_col n _ LT _ BLP'); [exact SO'| |]; unfold BLR'; destruct NLS; auto using residual_lines_col. unfold residual_lines. now rewrite mapi_length. }
    assert (EAR : forall k, (k < length (x_LP cf))%nat -> mget BLR' k 0 = mget BLR k 0).
    { intros k Hk. unfold BLR, BLR'. destruct NLS; [rewrite !residual_lines_col|]; now apply EA. }
    assert (C1 : NLS = false -> qsum (mcol BN4 1) <> q0).
    { intros EN. replace (mcol BN4 1) with CR; [now apply SH|]. symmetry. apply (nth_ext_eq _ _ q0); [rewrite mcol_length, (proj1 (proj1 AL4)); congruence|]. intros k Hk. rewrite mcol_length, (proj1 (proj1 AL4)) in Hk.
      change (vget (mcol BN4 1) k = vget CR k). rewrite mcol_nth. unfold BN4. rewrite EN. now destruct (G3 k Hk) as (-> & _). }
    destruct (tm2 (refuse er) BN4 (x_LP cf) BLR BLP0 BB ZB LT (x_NR cf) NLS) as [o2|] eqn:E2; [|discriminate].
    destruct (tm2 (refuse er) BN4' (turned_ends sw (x_LP cf)) BLR' BLP0 BB ZB LT (x_NR cf) NLS) as [o2'|] eqn:E2'; [|discriminate].
    destruct (tm2_turned sw n (x_NR cf) LT BN4 BN4' (x_LP cf) BLR BLR' BLP0 BB ZB NLS er o2 o2' SOR SOR' BO BO' EAR AL4 C1 E2 E2') as (F2 & (SB2 & SB2' & A2) & _ & RB2 & RZ2 & RB2' & RZ2').
    cbn [bind]. rewrite RB2, RZ2, RB2', RZ2'. intros E E'. injection E as <- <- <- <-. injection E' as <- <- <- <-.
    split; [reflexivity|]. split; [|split; [|exact F2]].
    - unfold vtab. apply map_ext_in. intros i Hi. apply in_seq in Hi. rewrite A2 by lia. reflexivity.
    - f_equal. set (h := fun (i : nat) (r : list Qc) => upd (upd r 3 (mget BN3 i 3)) 4 (mget BN3 i 3)).
      assert (HS : forall X, shape n 5 X -> shape n 5 (mapi h X)).
      { intros X (L & S). split; [now rewrite mapi_length|]. intros i Hi. rewrite (nth_mapi _ _ _ []) by lia. unfold h. rewrite !upd_length. now apply S. }
      apply (ContractProofs.shape_ext n 5 _ _ (HS _ SB2') (HS _ SB2)). intros j d Hj Hd. unfold mget at 1 2. rewrite !(nth_mapi _ _ _ []) by (rewrite ?(proj1 SB2), ?(proj1 SB2'); exact Hj). unfold h.
      pose proof (proj2 SB2 j Hj) as L5. pose proof (proj2 SB2' j Hj) as L5'. destruct d as [|[|[|[|[|d]]]]]; [| | | | |lia]; do 4 (try first [rewrite nth_upd_same by (rewrite ?upd_length; lia) | rewrite nth_upd_other by lia]); try reflexivity; symmetry; apply A2; lia.
  Qed.

  Lemma limit_turn LN v : (v < length (x_LP cf))%nat ->
    mget (x_BLPA cf') v (state_base LN v + 1) = mget (x_BLPA cf) v (state_base LN v + (if sw v then 2 else 1)) /\
    mget (x_BLPA cf') v (state_base LN v + 2) = mget (x_BLPA cf) v (state_base LN v + (if sw v then 1 else 2)).
  Proof using CD.
    intros H. destruct (base_mod LN v) as (m & ->). destruct (other_3 m) as (_ & O1 & O2). pose proof (fun c => row_turn cf sw CD v c H) as R. fold cf' in R. rewrite !R. destruct (sw v); [rewrite O1, O2|]; split; reflexivity.
  Qed.
  Lemma wide_turn LN BN W : wide_limits n cf BN LN W -> wide_limits n cf' BN LN W.
  Proof using CD.
    intros (WL & WA). split; [|exact WA]. intros v Hv. cbn [cf' turn_lines x_LP] in Hv. rewrite turn_len in Hv. destruct (limit_turn LN v Hv) as (-> & ->). destruct (WL v Hv). destruct (sw v); auto.
  Qed.

  Lemma transm_ample lp IFLAG s LN TR TJ SC CR : areas_numbered n (n_BN s) -> shape n 5 (n_BN s) ->
    (IFLAG = true -> settled inv (x_LP cf) (x_BLPA cf) (x_NR cf) s) ->
    length LN = length (x_LP cf) -> still_joined n cf LN -> length CR = n ->
    (NLS = false -> qsum CR <> q0 /\ forall j, (j < n)%nat -> q0 <= vget CR j) ->
    wide_limits n cf (n_BN s) LN (asked n TR TJ SC CR) ->
    match transm inv (refuse er) IFLAG s (x_BLPA cf) (x_LP cf) (x_NR cf) (repeat [q1; q1] (length LN)) LN NLS TR TJ SC CR with
    | Err e => transm inv lp IFLAG s (x_BLPA cf') (x_LP cf') (x_NR cf) (repeat [q1; q1] (length LN)) LN NLS TR TJ SC CR = Err e
    | Ok (JF, FL, SA, s1) => exists FL', transm inv lp IFLAG s (x_BLPA cf') (x_LP cf') (x_NR cf) (repeat [q1; q1] (length LN)) LN NLS TR TJ SC CR = Ok (JF, FL', SA, s1) /\
        forall k, (k < length (x_LP cf))%nat -> vget FL k = seen sw (vget FL') k
    end.
  Proof using All.
    intros AN S5 SE LL SJ LC SH W.
    assert (T1 : tm1 inv (n_BN s) (x_LP cf') (map (firstn 3) (x_BLPA cf')) (x_NR cf) = tm1 inv (n_BN s) (x_LP cf) (map (firstn 3) (x_BLPA cf)) (x_NR cf)).
    { apply (tm1_turn sw inv (length (x_LP cf))); [apply (bn_ends _ _ BN0)|exact (proj1 CD)]. }
    assert (LB' : length (x_BLPA cf') = length (x_LP cf')) by (cbn [cf' turn_lines x_BLPA x_LP]; rewrite rows_len, turn_len; exact LB).
    assert (LL' : length LN = length (x_LP cf')) by (cbn [cf' turn_lines x_LP]; rewrite turn_len; exact LL).
    assert (SE' : IFLAG = true -> settled inv (x_LP cf') (x_BLPA cf') (x_NR cf') s).
    { intros E. specialize (SE E). unfold settled in *. change (x_NR cf') with (x_NR cf). now rewrite T1. }
    destruct (transm_free inv er n cf IO BN0 LB IFLAG s LN TR TJ SC CR AN S5 SE LL SJ LC SH W) as (_ & R).
    destruct (transm_free inv er n cf' IO (base_net_turn n cf sw BN0 LB CD) LB' IFLAG s LN TR TJ SC CR AN S5 SE' LL' (still_turn n cf sw LB CD LN SJ) LC SH (wide_turn LN _ _ W)) as (F' & R').
    change (x_NR cf') with (x_NR cf) in F', R'. change (x_NLS cf') with NLS in F', R'. rewrite F'.
    destruct (tm1 inv (n_BN s) (x_LP cf) (map (firstn 3) (x_BLPA cf)) (x_NR cf)) as [b|e] eqn:B1.
    - destruct (R (ex_intro _ b eq_refl)) as ([[[JF FL] SA] s1] & E). rewrite T1 in R'. destruct (R' (ex_intro _ b eq_refl)) as ([[[JF' FL'] SA'] s1'] & E').
      rewrite E, E'. destruct (transm_turned IFLAG s LN TR TJ SC CR _ _ _ _ _ _ _ _ AN S5 SE LL SJ LC ltac:(intros EN; apply (SH EN)) E E') as (-> & -> & -> & F). exists FL'. auto.
    - destruct IFLAG; [specialize (SE eq_refl); unfold settled in SE; rewrite B1 in SE; discriminate SE|]. unfold transm. rewrite B1, T1. reflexivity.
  Qed.
End Call.

(** *** the levels of an hour, a draw *)
Section Hours.
  Variables (n nu nl : nat) (i : input) (sw : nat -> bool).
  Let cf := i_h i.
  Hypothesis IN : input_ok n nu nl i. Hypothesis JA : joined_areas n i. Hypothesis AM : ample n nu nl i.
  Hypothesis CD : line_cards cf.
  Variables (inv : list (list Qc) -> option (list (list Qc))) (er : pyerr).
  Hypothesis IO : inv_ok inv.

  Variable kd : nat. Hypothesis Hk : (1 <= kd)%nat.
  Let k := (x_JSTEP cf * Z.of_nat kd)%Z.
  Lemma levels_ample lp (AV : list Qc) (d : drawn) (J : Z) (DSC : d_SYSCON d = vtab n (located cf AV))
      (DTJ : d_TRNSFJ d = vtab n (fun j => Qcminus (located cf AV j) (owned_cap cf AV j)))
      (DTR : d_TRNSFR d = vtab n (fun j => net_export n (x_JENT cf) (x_INTCH cf) j (day_of_year k))) (HJ : pyidx (365 * 24) J = Some (hour_used cf k))
      (CAV : can_be_available nu i AV) (CLN : line_states nu nl i kd (d_LNSTAT d)) (LLN : length (d_LNSTAT d) = nl) : forall ls s first b, ls = seq b (length ls) -> (b + length ls <= x_NFCST cf)%nat ->
    hst_ok n nu nl s -> kept_net n i (hnet s) -> (first = true -> settled inv (x_LP cf) (x_BLPA cf) (x_NR cf) (hnet s)) ->
    levels inv lp (turn_lines sw cf) (on k) J d ls first s = levels inv (refuse er) cf (on k) J d ls first s.
  Proof using All.
    pose proof (in_study _ _ _ _ IN) as ST. fold cf in ST. pose proof (ja_net _ _ JA) as BN0. fold cf in BN0.
    pose proof (st_levels _ _ _ _ ST) as LV. pose proof (refuse_areas er) as KA. pose proof (st_areas _ _ _ _ ST) as Hn.
    assert (K1 : (1 <= k)%Z) by (pose proof (J_pos n nu nl i IN) as JP; unfold k, cf; nia).
    assert (LSC : length (d_SYSCON d) = n) by (rewrite DSC; apply vtab_length).
    assert (VSC : forall j, (j < n)%nat -> vget (d_SYSCON d) j = located cf AV j) by (intros j H; rewrite DSC; now apply vget_vtab).
    induction ls as [|l rest IH]; intros s first b EL LE HS KN SE; cbn [levels]; [reflexivity|].
    cbn [length seq] in EL. injection EL as -> EL. cbn [length] in LE.
    destruct (demand_ok n nu nl cf ST k J b HJ ltac:(lia)) as (C & EC & LC & VC).
    change (x_HRLOAD (turn_lines sw cf)) with (x_HRLOAD cf). change (x_FCTERR (turn_lines sw cf)) with (x_FCTERR cf). rewrite EC. cbn [bind].
    destruct (margins_ok n cf k (d_SYSCON d) C AV b LSC LC VSC VC) as (LM & VM & SM).
    set (M := margins (d_SYSCON d) C) in *.
    destruct (last_short M) as [IT|e]; cbn [bind]; [|reflexivity].
    destruct (Nat.eqb_spec (length (short_areas M)) 0) as [Z|NZ]; [reflexivity|].
    change (x_CAPOWN (turn_lines sw cf)) with (x_CAPOWN cf).
    change (record_level (turn_lines sw cf)) with (record_level cf).
    destruct (Nat.eqb_spec (length (short_areas M)) (length (x_CAPOWN cf))) as [ALL|NALL].
    - destruct (record_level_ok n nu nl cf ST k K1 J b M s HS ltac:(lia) LM) as (s1 & E1 & HS1 & RSx & G1 & G2 & NT). rewrite E1. cbn [bind].
      apply (IH s1 first (S b)); auto; try lia; rewrite NT; assumption.
    - assert (HLP : forall X (f : res X), (do _ <- (if (1 <? length (short_areas M))%nat then Ok 0%Z else direct_help (turn_lines sw cf) (d_LNSTAT d) M IT); f) =
          (do _ <- (if (1 <? length (short_areas M))%nat then Ok 0%Z else direct_help cf (d_LNSTAT d) M IT); f)).
      { intros X f. destruct (1 <? length (short_areas M))%nat; [reflexivity|]. pose proof (help_turn sw cf (d_LNSTAT d) M IT CD) as H.
        destruct (direct_help cf _ _ _), (direct_help (turn_lines sw cf) _ _ _); cbn [same_ok bind] in *; try contradiction; congruence. }
      rewrite HLP. clear HLP. destruct (if (1 <? length (short_areas M))%nat then Ok 0%Z else direct_help cf (d_LNSTAT d) M IT) as [ND|e]; cbn [bind]; [|reflexivity].
      change (x_NR (turn_lines sw cf)) with (x_NR cf). change (x_NLS (turn_lines sw cf)) with (x_NLS cf).
      assert (EC2 : C = vtab n (demand cf k b)).
      { apply (nth_ext _ _ q0 q0); [now rewrite vtab_length|]. intros j Hj. rewrite LC in Hj. fold (vget C j). rewrite VC by auto. symmetry. apply (vget_vtab n (demand cf k b) j Hj). }
      pose proof KN as (AN & S5 & _).
      assert (EA : asked n (d_TRNSFR d) (d_TRNSFJ d) (d_SYSCON d) C = asked_at n cf k b AV).
      { unfold asked, asked_at. apply qs_ext; intros j Hj. rewrite DTR, DTJ, DSC, EC2, !vget_vtab by exact Hj. reflexivity. }
      pose proof (transm_ample inv er n cf sw IO BN0 (ja_lines _ _ JA) CD lp first (hnet s) (d_LNSTAT d) (d_TRNSFR d) (d_TRNSFJ d) (d_SYSCON d) C AN S5 SE) as TR.
      specialize (TR ltac:(rewrite LLN; symmetry; exact (in_lp _ _ _ _ IN)) ltac:(exact (am_lines _ _ _ _ AM kd _ Hk CLN)) LC).
      specialize (TR ltac:(intros EN; destruct (ja_share _ _ JA EN k b ltac:(fold cf; lia)) as (A & B); split; [|intros j Hj; rewrite VC by exact Hj; now apply A];
          unfold pool_demand in B; fold cf in B; assert (QE : qsum C = qs n (demand cf k b)) by (rewrite qsum_qs, LC; apply qs_ext; intros j Hj; now apply VC); rewrite QE; intros Z0; rewrite Z0 in B; qlra)).
      specialize (TR ltac:(apply (kept_wide n nu nl i IN JA AM inv er IO); [exact KN|]; rewrite EA; apply (am_limits _ _ _ _ AM kd b AV _ Hk ltac:(fold cf; lia) CAV CLN))).
      destruct (transm inv (refuse er) first (hnet s) (x_BLPA cf) (x_LP cf) _ _ _ _ _ _ _ _) as [[[[em FL] SA] net1]|e] eqn:ET; cbn [bind]; [|rewrite TR; reflexivity].
      destruct TR as (FL' & ET' & _). rewrite ET'. cbn [bind].
      assert (KN1 : kept_net n i net1) by (eapply (kept_next n nu nl i IN JA AM inv er IO); eassumption).
      assert (W : wide (n_BN (hnet s))) by (intros j Hj; rewrite (proj2 S5 j) by (rewrite <- (proj1 S5); exact Hj); lia).
      assert (SE1 : settled inv (x_LP cf) (x_BLPA cf) (x_NR cf) net1).
      { destruct BN0 as [BA BE BR _ _]. eapply (transm_settles inv er n); [exact IO|exact BA|exact BE|exact BR|exact (ja_lines _ _ JA)|exact AN|exact W|exact SE|exact ET]. }
      destruct (transm_len _ _ _ _ _ _ _ _ _ _ _ _ _ _ _ _ _ _ KA ET) as (LSA & LBN).
      set (s1 := mkHst (IGSEED s) (ILSEED s) net1 (LSFLG s) (hrs s) (pks s)) in *.
      assert (HS1 : hst_ok n nu nl s1) by (destruct HS; constructor; cbn; auto; congruence).
      destruct (negb em); [reflexivity|]. destruct (negb _); [reflexivity|].
      set (M2 := map (fun x => qtrunc (- x)%Qc) SA) in *.
      assert (LM2 : length M2 = n) by (unfold M2; rewrite map_length, LSA; apply AN).
      destruct (record_level_ok n nu nl cf ST k K1 J b M2 s1 HS1 ltac:(lia) LM2) as (s2 & E2 & HS2 & RSx & G1 & G2 & NT). rewrite E2. cbn [bind].
      apply (IH s2 true (S b)); auto; try lia; try (rewrite NT; assumption). intros _. rewrite NT. exact SE1.
  Qed.

  Lemma hour_ample lp PL RT s : hst_ok n nu nl s -> kept_net n i (hnet s) -> length PL = nu -> length RT = nu ->
    binary PL -> (forall u, (u < nu)%nat -> vget RT u = q0 \/ In (vget RT u) (nth u (i_RATES i) [])) ->
    (forall v, (v < nl)%nat -> nth v (ILSEED s) 0%Z = line_seed nu v (kd - 1)) ->
    hour inv lp (turn_lines sw cf) (on k) PL RT s = hour inv (refuse er) cf (on k) PL RT s.
  Proof using All.
    intros HS KN LPL LRT BP RR SD. pose proof (in_study _ _ _ _ IN) as ST. fold cf in ST.
    assert (K1 : (1 <= k)%Z) by (pose proof (J_pos n nu nl i IN) as JP; unfold k, cf; nia).
    unfold hour. change (load_hour (turn_lines sw cf) (on k)) with (load_hour cf (on k)). change (x_JFREQ (turn_lines sw cf)) with (x_JFREQ cf).
    change (draw (turn_lines sw cf) (on k) PL RT s) with (draw cf (on k) PL RT s). change (x_NFCST (turn_lines sw cf)) with (x_NFCST cf).
    destruct (load_hour_ok n nu nl cf ST k K1) as (J & EJ & IJ & DJ). rewrite EJ. cbn [bind].
    destruct (draws_now (x_JFREQ cf) J) as [[]|]; cbn [bind]; try reflexivity.
    destruct (draw_ok n nu nl cf ST k K1 s PL RT HS LPL LRT) as (d & ED & G1 & G2 & G3 & D1 & D2 & D3). rewrite ED. cbn [bind].
    pose proof (drawn_state_ok n nu nl cf ST k s PL RT HS LPL LRT d ED G1 G2) as HS1.
    destruct (st_units _ _ _ _ ST) as (U1 & U2). pose proof (ho_ig _ _ _ _ HS) as HG. pose proof (ho_il _ _ _ _ HS) as HL.
    assert (CA : can_be_available nu i (avail cf s PL RT)).
    { unfold avail. split.
      - pose proof (gstate_spec (x_PROBG cf) (IGSEED s) RT (x_DERATE cf) PL ltac:(lia) ltac:(congruence) ltac:(congruence) ltac:(congruence)) as G.
        destruct (gstate _ _ _ _ _) as [[X1 X2] X3]. destruct G as (_ & _ & G & _). cbn [snd]. congruence.
      - intros u Hu. destruct (gstate_bounds (IGSEED s) (x_PROBG cf) RT (x_DERATE cf) PL u ltac:(lia) ltac:(congruence) ltac:(congruence) ltac:(congruence) ltac:(lia)) as (_ & G).
        destruct (am_derate _ _ _ _ AM u Hu) as (D0 & D4). fold cf in D0, D4.
        assert (R0 : q0 <= vget RT u) by (destruct (RR u Hu) as [-> | HI]; [apply Qcle_refl|exact (am_rates _ _ _ _ AM u _ HI)]).
        destruct (G D0 D4 R0 (BP u)) as (P1 & P2). split; [exact P1|]. destruct (RR u Hu) as [Z|HI]; [left; rewrite Z in P2; apply Qcle_antisym; assumption|right; eauto]. }
    assert (CL : line_states nu nl i kd (d_LNSTAT d)) by (exists (ILSEED s); rewrite G3; auto).
    assert (LL : length (d_LNSTAT d) = nl).
    { rewrite G3. pose proof (lstate_spec (x_PROBL cf) (ILSEED s) ltac:(rewrite (st_lines _ _ _ _ ST); exact HL)) as X. destruct (lstate _ _) as [X1 X2]. destruct X as (_ & X & _). cbn [snd]. rewrite X. exact (st_lines _ _ _ _ ST). }
    apply (levels_ample lp (avail cf s PL RT) d J D1 D2 D3 IJ CA CL LL (seq 0 (x_NFCST cf)) _ false 0%nat);
      [now rewrite seq_length|rewrite seq_length; lia|exact HS1|exact KN|discriminate].
  Qed.
End Hours.

(** *** a run *)
Section Run.
  Variables (inv : list (list Qc) -> option (list (list Qc))) (er : pyerr).
  Hypothesis IO : inv_ok inv.
  Variables (n nu nl : nat) (i : input) (sw : nat -> bool).
  Hypothesis IN : input_ok n nu nl i. Hypothesis JA : joined_areas n i. Hypothesis AM : ample n nu nl i. Hypothesis CD : line_cards (i_h i).
  Notation i' := (with_lines_turned sw i).
  Lemma run_ample lp fuel : narp inv lp fuel i' = narp inv (refuse er) fuel i.
  Proof using All.
    unfold narp. change (i_units i') with (i_units i). assert (EL : i_lines i' = i_lines i) by (unfold i_lines; cbn [with_lines_turned i_h turn_lines x_LP]; apply turn_len). rewrite EL.
    change (loop_cfg i') with (loop_cfg i). 
    destruct (seeder _ _ _) as [[IG IL]|] eqn:SD; cbn [bind fst snd]; [|reflexivity]. f_equal. symmetry. replace (first_world i' IG IL) with (first_world i IG IL) by (unfold first_world, first_net; rewrite EL; reflexivity).
    assert (UN : i_units i = nu) by (apply (n_units n nu nl i IN)). assert (LI : i_lines i = nl).
    { unfold i_lines. exact (in_lp _ _ _ _ IN). }
    rewrite UN, LI in SD. rewrite UN.
    apply (contrl_same (program inv (refuse er) i) (program inv lp i') (loop_cfg i) (in_step _ _ _ _ IN) ltac:(reflexivity) (start (loop_cfg i) nu (first_world i IG IL))) with (lg := []) (a := 0%nat) (b := 0%nat) (c := 0%nat) (d := 0%nat);
      [|constructor|apply start_inv, (in_step _ _ _ _ IN)].
    intros lg s a b c d T I.
    destruct (generic_trace inv (refuse er) n nu nl i IN (kept_net n i) (fun _ _ _ _ => True) (kept_first n i JA) (hour_kept inv er n nu nl i IN) IG IL lg s a b c d SD T) as (R & l & P & KN & _).
    cbn [program h_hour]. unfold do_hour.
    change (fst (draw_event (c_JSTEP (loop_cfg i)) (S a))) with (on (x_JSTEP (i_h i) * Z.of_nat (S a))).
    change (i_h i') with (turn_lines sw (i_h i)).
    rewrite (hour_ample n nu nl i sw IN JA AM CD inv er IO (S a) ltac:(lia) lp (s_plndst s) (s_rating s) (w_h (s_w s))); [reflexivity| | | | | | |].
    - exact (pi_ok _ _ _ _ _ _ _ _ _ _ _ _ P).
    - exact KN.
    - exact (pi_pl _ _ _ _ _ _ _ _ _ _ _ _ P).
    - exact (pi_rt _ _ _ _ _ _ _ _ _ _ _ _ P).
    - exact (trace_binary _ _ _ _ _ _ _ _ _ _ T).
    - intros u Hu. apply (trace_rating _ _ _ _ _ _ _ _ _ _ T u). cbn [loop_cfg c_RATES]. rewrite (in_rates _ _ _ _ IN). exact Hu.
    - intros v Hv. rewrite Nat.sub_1_r. cbn [Nat.pred]. now apply (pi_il _ _ _ _ _ _ _ _ _ _ _ _ P).
  Qed.
End Run.
