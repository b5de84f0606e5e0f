(** Proofs for C125: solutions, hours and runs seen from two reference areas. *)
From Verif Require Import Base BaseProofs Sums LoadModel LoadSpec LoadProofs StatModel StatSpec StatProofs YearModel YearSpec YearProofs YearRun ReportSpec SampleModel SampleProofs NetModel NetSpec MatProofs NetProofs FlowProofs AssignProofs UpdateProofs SolveProofs UniqueProofs TransmProofs EventModel EventProofs ControlModel ControlSpec ControlProofs RunProofs
  HourModel HourSpec HourProofs CauseSpec ProgramModel ProgramSpec ProgramProofs HistorySpec HistoryProofs LevelsProofs PlateSpec PlateProofs PlateTrace DataProofs PropertiesNet ShortProofs CutProofs AmpleSpec AmpleProofs ContractProofs RefSpec.
Open Scope Z_scope.
Open Scope Qc_scope.

(** *** the equations of the network do not mention the reference *)
Lemma dc_shift n NR NR' LP adm inj F : dc_solution n NR LP adm inj F -> dc_solution n NR' LP adm inj F.
Proof.
  intros (T & _ & FF & NO). exists (fun i => T i - T NR'). split; [qring|]. split; [|exact NO]. intros k Hk. rewrite FF by exact Hk. qring.
Qed.
Lemma joins_sym l j k : joins l j k = joins l k j.
Proof. unfold joins. destruct (Nat.eqb _ j), (Nat.eqb _ k), (Nat.eqb _ j), (Nat.eqb _ k); reflexivity. Qed.
Lemma connected_trans ls i j k : connected ls i j -> connected ls j k -> connected ls i k.
Proof. intros A B. revert A. induction B as [j|j m k B IH E]; intros A; [exact A|]. exact (conn_step ls i m k (IH A) E). Qed.
Lemma connected_sym ls i j : connected ls i j -> connected ls j i.
Proof.
  intros A. induction A as [i|i j k A IH (l & H1 & H2 & H3)]; [constructor|]. eapply connected_trans; [|exact IH].
  eapply conn_step; [constructor|]. exists l. rewrite joins_sym. auto.
Qed.
Lemma network_any n NR NR' ls : (NR' < n)%nat -> network_connected n NR ls -> network_connected n NR' ls.
Proof. intros H C i Hi. eapply connected_trans; [now apply C|]. apply connected_sym. now apply C. Qed.

(** *** the balancing of injections does not depend on the order of the areas *)
Lemma qs_ge_term n f p : (p < n)%nat -> (forall k, (k < n)%nat -> q0 <= f k) -> f p <= qs n f.
Proof.
  intros Hp H. rewrite <- (qs_delta n p f Hp). apply qs_le. intros k Hk. destruct (Nat.eqb k p); [apply Qcle_refl|now apply H].
Qed.
Lemma qmul_cancel a x y : a <> q0 -> a * x = a * y -> x = y.
Proof. intros N E. replace x with ((a * x) / a) by (field; exact N). rewrite E. field. exact N. Qed.
Lemma assign_order n NR LT NR' LT' (f : nat -> Qc) LOD NLS : order_ok n NR LT -> order_ok n NR' LT' -> length LOD = n -> (NLS = false -> qsum LOD <> q0) ->
  let '(J, L) := assign (map f LT) LOD LT NLS in let '(J', L') := assign (map f LT') LOD LT' NLS in
  length J = n /\ length J' = n /\ (forall i, (i < n)%nat -> vget L i = vget L' i) /\
  forall a a', (a < n)%nat -> (a' < n)%nat -> nth a LT 0%nat = nth a' LT' 0%nat -> vget J a = vget J' a'.
Proof.
  intros ok ok' LL NZ.
  assert (SS : surplus (map f LT) = surplus (map f LT')).
  { unfold surplus. rewrite (perm_sum n NR LT f f _ ok), (perm_sum n NR' LT' f f _ ok'); auto. }
  assert (DD : deficit (map f LT) = deficit (map f LT')).
  { unfold deficit. rewrite (perm_sum n NR LT f f _ ok), (perm_sum n NR' LT' f f _ ok'); auto. }
  pose proof (assign_spec n NR (map f LT) LOD LT NLS ok ltac:(rewrite map_length; apply ok) LL NZ) as A.
  pose proof (assign_spec n NR' (map f LT') LOD LT' NLS ok' ltac:(rewrite map_length; apply ok') LL NZ) as A'.
  destruct (assign (map f LT) LOD LT NLS) as [J L]. destruct (assign (map f LT') LOD LT' NLS) as [J' L'].
  destruct A as (LJ & _ & _ & A1 & A2 & A3). destruct A' as (LJ' & _ & _ & B1 & B2 & B3). rewrite <- SS, <- DD in B1, B2, B3.
  assert (V : forall a, (a < n)%nat -> vget (map f LT) a = f (nth a LT 0%nat)).
  { intros a Ha. unfold vget. rewrite (nth_indep _ q0 (f 0%nat)) by (rewrite map_length, (proj1 ok); exact Ha). apply map_nth. }
  assert (V' : forall a, (a < n)%nat -> vget (map f LT') a = f (nth a LT' 0%nat)).
  { intros a Ha. unfold vget. rewrite (nth_indep _ q0 (f 0%nat)) by (rewrite map_length, (proj1 ok'); exact Ha). apply map_nth. }
  pose proof (proj2 (sums_nonneg (map f LT))) as D0. pose proof (proj1 (sums_nonneg (map f LT))) as S0.
  split; [exact LJ|]. split; [exact LJ'|].
  assert (G : (forall a a', (a < n)%nat -> (a' < n)%nat -> nth a LT 0%nat = nth a' LT' 0%nat -> vget J a = vget J' a') /\ forall i, (i < n)%nat -> vget L i = vget L' i); [|tauto].
  destruct (Qclt_le_dec (surplus (map f LT)) (deficit (map f LT))) as [C|C].
  - destruct NLS.
    + specialize (A2 C eq_refl). specialize (B2 C eq_refl).
      assert (DP : deficit (map f LT) <> q0) by (intros Z; qlra).
      assert (JJ : forall a a', (a < n)%nat -> (a' < n)%nat -> nth a LT 0%nat = nth a' LT' 0%nat -> vget J a = vget J' a').
      { intros a a' Ha Ha' E. destruct (A2 a Ha) as (_ & P1 & P2). destruct (B2 a' Ha') as (_ & Q1 & Q2). rewrite V in P1, P2 by exact Ha. rewrite V' in Q1, Q2 by exact Ha'. rewrite <- E in Q1, Q2.
        destruct (Qclt_le_dec q0 (f (nth a LT 0%nat))) as [X|X]; [rewrite P1, Q1 by exact X; reflexivity|]. apply (qmul_cancel _ _ _ DP). now rewrite P2, Q2. }
      split; [exact JJ|]. intros i Hi. destruct (at_surj n NR LT ok i Hi) as (a & Ha & Ea). destruct (at_surj n NR' LT' ok' i Hi) as (a' & Ha' & Ea'). unfold at_ in *.
      destruct (A2 a Ha) as (P & _). destruct (B2 a' Ha') as (Q & _). rewrite Ea, V, Ea in P by exact Ha. rewrite Ea', V', Ea' in Q by exact Ha'. rewrite P, Q.
      rewrite (JJ a a' Ha Ha') by congruence. reflexivity.
    + specialize (A3 C eq_refl). specialize (B3 C eq_refl). specialize (NZ eq_refl).
      assert (LE : forall i, (i < n)%nat -> vget L i = vget L' i).
      { intros i Hi. destruct (A3 i Hi) as (_ & P). destruct (B3 i Hi) as (_ & Q). apply (qmul_cancel _ _ _ NZ). now rewrite P, Q. }
      split; [|exact LE]. intros a a' Ha Ha' E. destruct (A3 a Ha) as (P & _). destruct (B3 a' Ha') as (Q & _). rewrite V in P by exact Ha. rewrite V' in Q by exact Ha'.
      rewrite <- E in Q. rewrite <- LE in Q by (apply (at_lt n NR LT ok); exact Ha). rewrite Q in P. qlra.
  - specialize (A1 C). specialize (B1 C). split; [|intros i Hi; now rewrite (proj1 (A1 i Hi)), (proj1 (B1 i Hi))].
    intros a a' Ha Ha' E. destruct (A1 a Ha) as (_ & P1 & P2). destruct (B1 a' Ha') as (_ & Q1 & Q2). rewrite V in P1, P2 by exact Ha. rewrite V' in Q1, Q2 by exact Ha'. rewrite <- E in Q1, Q2.
    destruct (Qclt_le_dec q0 (f (nth a LT 0%nat))) as [X|X]; [|now rewrite P1, Q1 by exact X].
    assert (SP : surplus (map f LT) <> q0).
    { intros Z. unfold surplus in Z. rewrite (perm_sum n NR LT f f (fun e => qmax e q0) ok (fun _ _ => eq_refl)) in Z.
      pose proof (qs_ge_term n (fun i => qmax (f i) q0) (nth a LT 0%nat) ltac:(apply (at_lt n NR LT ok); exact Ha) ltac:(intros k _; unfold qmax; destruct (qleb (f k) q0) eqn:EQ; qc_bool; qlra)) as QZ.
      rewrite Z in QZ. cbv beta in QZ. unfold qmax in QZ. destruct (qleb (f (nth a LT 0%nat)) q0) eqn:EQ; qc_bool; qlra. }
    apply (qmul_cancel _ _ _ SP). rewrite P2, Q2 by exact X. reflexivity.
Qed.

(** *** one solution of the network *)
Lemma solve_view n NR LT BN LP BLP BLP0 BB ZB NLS :
  state_ok n NR LT LP BLP BLP0 -> base_ok n LT LP BLP0 BB ZB -> length BN = n -> (NLS = false -> qsum (mcol BN 1) <> q0) ->
  let '(INJ1, LODC, SFLOW, FLOW) := tm2_solve BN LP BLP (snd (tm2_update LP BLP BLP0 (ieq_of LT (n - 1) NR) (n - 1) NR BB ZB)) LT NLS in
  assign (map (fun k => mget BN k 2) LT) (mcol BN 1) LT NLS = (INJ1, LODC) /\ length FLOW = length LP /\ length SFLOW = n /\
  dc_solution n NR LP (fun k => mget BLP k 0) (fun i => - vget SFLOW i) (vget FLOW) /\
  (forall a, (a < n)%nat -> vget SFLOW (nth a LT 0%nat) = - vget INJ1 a).
Proof.
  intros SO BO LBN NZ. pose proof SO as [ok LI LB LB0 NG RF CN]. pose proof BO as [SB SZ Zb I].
  pose proof (update_exact n NR LT LP BLP BLP0 BB ZB ok LI LB LB0 NG RF CN SZ Zb I) as U. cbv zeta in U.
  destruct (tm2_update LP BLP BLP0 (ieq_of LT (n - 1) NR) (n - 1) NR BB ZB) as [BB1 ZB1]. cbn [snd] in *. destruct U as (S1 & Z1 & I1).
  pose proof (solve_delivers n NR LT ok LP BLP BN ZB1 NLS LI LB LBN S1 Z1 I1 NZ) as D.
  assert (TS : exists T, vget T NR = q0 /\ length T = n /\ forall INJ1 LODC SFLOW FLOW, tm2_solve BN LP BLP ZB1 LT NLS = (INJ1, LODC, SFLOW, FLOW) ->
   flo LP BLP T = (SFLOW, FLOW)).
  { unfold tm2_solve. cbv zeta. destruct (assign (map (fun k => vget (mcol BN 2) k) LT) (mcol BN 1) LT NLS) as [INJ1 LODC] eqn:EA.
    assert (L : length INJ1 = n).
    { pose proof (assign_spec n NR _ (mcol BN 1) LT NLS ok (eq_trans (map_length (fun k => vget (mcol BN 2) k) LT) (proj1 ok)) ltac:(rewrite mcol_length; exact LBN) NZ) as A.
      rewrite EA in A. apply A. }
    destruct (theta_spec n ZB1 INJ1 S1 L) as (LTh & _).
    exists (thetac (theta ZB1 INJ1) LT). split; [apply (thetac_ref n NR LT ok); auto|]. split; [now rewrite thetac_len|].
    intros I1' L1' S1' F1'. destruct (flo LP BLP (thetac (theta ZB1 INJ1) LT)) as [S2 F2]. intros Eq. injection Eq. intros. congruence. }
  destruct TS as (T & TR & LT' & TF).
  destruct (tm2_solve BN LP BLP ZB1 LT NLS) as [[[INJ1 LODC] SFLOW] FLOW]. specialize (TF _ _ _ _ eq_refl).
  destruct D as (EA & LF & LS & K1 & K2). pose proof (flo_spec n LP BLP T LI LB LT') as FS. rewrite TF in FS. destruct FS as (_ & _ & FF & FO & _).
  split; [exact EA|]. split; [exact LF|]. split; [exact LS|]. split; [|exact K2].
  exists (vget T). split; [exact TR|]. split; [exact FF|]. intros i Hi. rewrite (FO i Hi). qring.
Qed.
Lemma tm2_ref n NR LT NR' LT' BN LP BLP BLP0 BB ZB BB' ZB' NLS er :
  state_ok n NR LT LP BLP BLP0 -> state_ok n NR' LT' LP BLP BLP0 -> base_ok n LT LP BLP0 BB ZB -> base_ok n LT' LP BLP0 BB' ZB' ->
  shape n 5 BN -> (NLS = false -> qsum (mcol BN 1) <> q0) ->
  match tm2 (refuse er) BN LP BLP BLP0 BB ZB LT NR NLS with
  | Err e => tm2 (refuse er) BN LP BLP BLP0 BB' ZB' LT' NR' NLS = Err e
  | Ok o => exists o', tm2 (refuse er) BN LP BLP BLP0 BB' ZB' LT' NR' NLS = Ok o' /\ t_flow o' = t_flow o /\ t_BN o' = t_BN o /\
      t_BB o = BB /\ t_ZB o = ZB /\ t_BB o' = BB' /\ t_ZB o' = ZB' /\ shape n 5 (t_BN o)
  end.
Proof.
  intros SO SO' BO BO' SBN NZ. pose proof SO as [ok LI LB LB0 NG RF CN]. pose proof SO' as [ok' _ _ _ _ _ _].
  assert (AD : forall k, (k < length LP)%nat -> mget BLP k 0 <= q0) by (intros k Hk; apply NG; auto).
  pose proof (solve_view n NR LT BN LP BLP BLP0 BB ZB NLS SO BO (proj1 SBN) NZ) as V.
  pose proof (solve_view n NR' LT' BN LP BLP BLP0 BB' ZB' NLS SO' BO' (proj1 SBN) NZ) as V'.
  pose proof (fun o => tm2_solution n 5 NR LT (refuse er) BN LP BLP BLP0 BB ZB NLS o SO BO SBN ltac:(lia) NZ) as P.
  pose proof (fun o => tm2_solution n 5 NR' LT' (refuse er) BN LP BLP BLP0 BB' ZB' NLS o SO' BO' SBN ltac:(lia) NZ) as P'.
  unfold tm2 in *. rewrite (proj1 SBN) in *.
  destruct (tm2_update LP BLP BLP0 (ieq_of LT (n - 1) NR) (n - 1) NR BB ZB) as [BB1 ZB1]. destruct (tm2_update LP BLP BLP0 (ieq_of LT' (n - 1) NR') (n - 1) NR' BB' ZB') as [BB1' ZB1']. cbn [snd] in V, V'.
  destruct (tm2_solve BN LP BLP ZB1 LT NLS) as [[[INJ1 LODC] SFLOW] FLOW]. destruct (tm2_solve BN LP BLP ZB1' LT' NLS) as [[[INJ1' LODC'] SFLOW'] FLOW'].
  destruct V as (EA & LF & LS & DC & K). destruct V' as (EA' & LF' & LS' & DC' & K').
  pose proof (assign_order n NR LT NR' LT' (fun k => mget BN k 2) (mcol BN 1) NLS ok ok' ltac:(rewrite mcol_length; apply SBN) NZ) as AO. rewrite EA, EA' in AO.
  destruct AO as (LJ & LJ' & EL & EJ).
  assert (ES : SFLOW' = SFLOW).
  { apply (nth_ext_eq _ _ q0); [congruence|]. intros i Hi. rewrite LS' in Hi. change (vget SFLOW' i = vget SFLOW i).
    destruct (at_surj n NR LT ok i Hi) as (a & Ha & Ea). destruct (at_surj n NR' LT' ok' i Hi) as (a' & Ha' & Ea'). unfold at_ in *.
    rewrite <- Ea at 2. rewrite <- Ea'. rewrite K, K' by assumption. f_equal. symmetry. apply EJ; congruence. }
  assert (EF : FLOW' = FLOW).
  { apply (nth_ext_eq _ _ q0); [congruence|]. intros k Hk. rewrite LF' in Hk. rewrite ES in DC'.
    symmetry. exact (dc_unique n NR LP _ _ _ _ LI AD DC (dc_shift n NR' NR LP _ _ _ DC') k Hk). }
  rewrite ES, EF. destruct (tm2_accepts FLOW SFLOW BLP BN) eqn:TA.
  - eexists. split; [reflexivity|]. cbn [t_flow t_BN t_BB t_ZB]. split; [reflexivity|].
    specialize (P _ eq_refl eq_refl). cbn [t_flow t_BN t_BB t_ZB] in P. destruct P as (_ & _ & AS & RC & SH & RB & RZ & _).
    rewrite ES, EF, TA in P'. specialize (P' _ eq_refl eq_refl). cbn [t_flow t_BN t_BB t_ZB] in P'. destruct P' as (_ & _ & AS' & RC' & SH' & RB' & RZ' & _).
    rewrite EA in AS. rewrite EA' in AS'. destruct AS as (X1 & X2). destruct AS' as (Y1 & Y2).
    split; [|auto 8]. apply (ContractProofs.shape_ext n 5); [exact SH'|exact SH|]. intros i c Hi Hc.
    destruct (Nat.eq_dec c 1) as [->|N1].
    { destruct (at_surj n NR LT ok i Hi) as (a & Ha & Ea). destruct (at_surj n NR' LT' ok' i Hi) as (a' & Ha' & Ea'). unfold at_ in *.
      rewrite <- Ea at 2. rewrite <- Ea'. rewrite X1, Y1 by assumption. symmetry. apply EJ; congruence. }
    destruct (Nat.eq_dec c 2) as [->|N2]; [rewrite X2, Y2 by exact Hi; symmetry; now apply EL|]. now rewrite RC, RC' by assumption.
  - destruct NLS; reflexivity.
Qed.

(** *** one call of the network *)
Section Call.
  Variables (inv : list (list Qc) -> option (list (list Qc))) (er : pyerr) (n : nat) (cf : hcfg) (R : nat).
  Hypothesis IO : inv_ok inv. Hypothesis BN0 : base_net n cf. Hypothesis LB : length (x_BLPA cf) = length (x_LP cf). Hypothesis HR : (R < n)%nat.
  Let cf' := refer_to cf R.
  Lemma base_net_refer : base_net n cf'.
  Proof using BN0 HR. destruct BN0 as [A B C D E]. constructor; auto. exact (network_any n (x_NR cf) R _ HR E). Qed.

  Lemma state_of s LN BLP0 BB LT ZB (c : hcfg) : x_BLPA c = x_BLPA cf -> x_LP c = x_LP cf -> base_net n c -> areas_numbered n (n_BN s) ->
    tm1 inv (n_BN s) (x_LP cf) (map (firstn 3) (x_BLPA cf)) (x_NR c) = Ok (BLP0, BB, LT, ZB) -> length LN = length (x_LP cf) -> still_joined n c LN ->
    BLP0 = mcol (map (firstn 3) (x_BLPA cf)) 0 /\
    state_ok n (x_NR c) LT (x_LP cf) (line_rows (x_BLPA cf) (repeat [q1; q1] (length LN)) LN) BLP0 /\ base_ok n LT (x_LP cf) BLP0 BB ZB.
  Proof using IO LB HR.
    intros EB EL [BA BE BR BD BC] AN B2 LL [A1 A2 A3]. rewrite EL in BA, BE. rewrite EB, EL in BD. rewrite EB, EL in A1, A2, A3. rewrite EB in BC.
    assert (LN' : length (n_BN s) = n) by apply AN.
    assert (T1 := tm1_spec inv (n_BN s) (x_LP cf) (map (firstn 3) (x_BLPA cf)) (x_NR c) BLP0 BB LT ZB IO). rewrite LN' in T1.
    specialize (T1 AN BA BE ltac:(rewrite map_length; exact LB) BR B2). cbv zeta in T1. destruct T1 as (EB0 & OK & BO & _).
    split; [exact EB0|]. split; [|exact BO].
    set (SM := repeat [q1; q1] (length LN)) in *.
    assert (ROW : forall v, (v < length (x_LP cf))%nat -> mget (line_rows (x_BLPA cf) SM LN) v 0 = state_adm (x_BLPA cf) LN v).
    { intros v Hv. destruct (line_rows_state (x_BLPA cf) SM LN v ltac:(lia)) as (R0 & _ & _). exact R0. }
    constructor; auto.
    - rewrite <- BA. now apply distinct_lines_in.
    - rewrite line_rows_len. exact LL.
    - rewrite EB0, mcol_length, map_length. exact LB.
    - intros v Hv. split; [rewrite EB0, mcol_nth, mget_firstn3; now apply BD|]. rewrite ROW by exact Hv. now apply A1.
    - intros v Hv HRv. rewrite ROW by exact Hv. now apply A2.
    - unfold wlines. replace (mcol (line_rows (x_BLPA cf) SM LN) 0) with (map (state_adm (x_BLPA cf) LN) (seq 0 (length (x_LP cf)))); [exact A3|].
      apply (nth_ext_eq _ _ q0); [now rewrite map_length, seq_length, mcol_length, line_rows_len, LL|]. intros v Hv. rewrite map_length, seq_length in Hv.
      change (nth v (mcol (line_rows (x_BLPA cf) SM LN) 0) q0) with (vget (mcol (line_rows (x_BLPA cf) SM LN) 0) v). rewrite mcol_nth, ROW by exact Hv.
      now apply nth_map_seq.
  Qed.

  Lemma transm_ref IFLAG s N LN TR TJ SC CR : areas_numbered n (n_BN s) -> shape n 5 (n_BN s) -> n_BN N = n_BN s ->
    (IFLAG = true -> settled inv (x_LP cf) (x_BLPA cf) (x_NR cf) s /\ settled inv (x_LP cf) (x_BLPA cf) R N) ->
    length LN = length (x_LP cf) -> still_joined n cf LN -> still_joined n cf' LN -> length CR = n ->
    (x_NLS cf = false -> qsum CR <> q0) ->
    (exists b, tm1 inv (n_BN s) (x_LP cf) (map (firstn 3) (x_BLPA cf)) (x_NR cf) = Ok b) ->
    (exists b, tm1 inv (n_BN s) (x_LP cf) (map (firstn 3) (x_BLPA cf)) R = Ok b) ->
    match transm inv (refuse er) IFLAG s (x_BLPA cf) (x_LP cf) (x_NR cf) (repeat [q1; q1] (length LN)) LN (x_NLS cf) TR TJ SC CR with
    | Err e => transm inv (refuse er) IFLAG N (x_BLPA cf) (x_LP cf) R (repeat [q1; q1] (length LN)) LN (x_NLS cf) TR TJ SC CR = Err e
    | Ok (JF, FL, SA, s1) => exists N1, transm inv (refuse er) IFLAG N (x_BLPA cf) (x_LP cf) R (repeat [q1; q1] (length LN)) LN (x_NLS cf) TR TJ SC CR = Ok (JF, FL, SA, N1) /\ n_BN N1 = n_BN s1
    end.
  Proof using All.
    intros AN S5 EN SE LL SJ SJ' LC SH ([[[BLP0 BB] LT] ZB] & B1) ([[[BLP0' BB'] LT'] ZB'] & B2).
    assert (TM : transm inv (refuse er) IFLAG s (x_BLPA cf) (x_LP cf) (x_NR cf) (repeat [q1; q1] (length LN)) LN (x_NLS cf) TR TJ SC CR =
      transm inv (refuse er) true (mkNet (n_BN s) BLP0 BB LT ZB) (x_BLPA cf) (x_LP cf) (x_NR cf) (repeat [q1; q1] (length LN)) LN (x_NLS cf) TR TJ SC CR).
    { destruct IFLAG; [|unfold transm at 1; rewrite B1; reflexivity]. pose proof (proj1 (SE eq_refl)) as E. unfold settled in E. rewrite B1 in E. injection E as -> -> -> ->. destruct s; reflexivity. }
    assert (TM' : transm inv (refuse er) IFLAG N (x_BLPA cf) (x_LP cf) R (repeat [q1; q1] (length LN)) LN (x_NLS cf) TR TJ SC CR =
      transm inv (refuse er) true (mkNet (n_BN s) BLP0' BB' LT' ZB') (x_BLPA cf) (x_LP cf) R (repeat [q1; q1] (length LN)) LN (x_NLS cf) TR TJ SC CR).
    { destruct IFLAG; [|unfold transm at 1; rewrite EN, B2; unfold transm; rewrite <- EN; reflexivity]. pose proof (proj2 (SE eq_refl)) as E. unfold settled in E. rewrite EN, B2 in E. injection E as -> -> -> ->. rewrite <- EN. destruct N; reflexivity. }
    rewrite TM, TM'. clear TM TM' SE.
    destruct (state_of s LN BLP0 BB LT ZB cf eq_refl eq_refl BN0 AN B1 LL SJ) as (Q0 & SO & BO).
    destruct (state_of s LN BLP0' BB' LT' ZB' cf' eq_refl eq_refl base_net_refer AN B2 LL SJ') as (Q0' & SO' & BO').
    change (x_NR cf') with R in SO'. rewrite <- Q0 in Q0'. subst BLP0'. clear Q0 B1 B2.
    assert (LN' : length (n_BN s) = n) by apply AN.
    set (SM := repeat [q1; q1] (length LN)) in *. set (BLP := line_rows (x_BLPA cf) SM LN) in *. pose proof SO as [ok LI LBP LB0 NG RF CN]. pose proof SO' as [ok' _ _ _ _ RF' CN'].
    unfold transm. cbn [bind n_BN n_BLP0 n_BB n_LT n_ZB]. rewrite LN'. fold BLP. cbv zeta.
    destruct (sched_rows_spec n (n_BN s) TR TJ SC CR S5) as (S1 & G1). set (BN1 := sched_rows (n_BN s) TR TJ SC CR) in *.
    pose proof (tm2_ref n (x_NR cf) LT R LT' BN1 (x_LP cf) BLP BLP0 BB ZB BB' ZB' true er SO SO' BO BO' S1 ltac:(discriminate)) as T1.
    destruct (tm2 (refuse er) BN1 (x_LP cf) BLP BLP0 BB ZB LT (x_NR cf) true) as [o1|e]; cbn [bind]; [|rewrite T1; reflexivity].
    destruct T1 as (o1' & -> & F1 & E1 & RB & RZ & RB' & RZ' & SB2). cbn [bind]. rewrite F1, E1, RB, RZ, RB', RZ'.
    destruct (forallb (fun x => qleb q0 x) (vtab n (fun i => vget SC i - vget CR i - mget (t_BN o1) i 1))).
    { eexists. split; [reflexivity|]. reflexivity. }
    set (CADJ := vtab n (fun i => if x_NLS cf then mget (t_BN o1) i 1 else q0)).
    destruct (emergency_rows_spec n (t_BN o1) SC CR CADJ SB2) as (S3 & G3). set (BN3 := emergency_rows (t_BN o1) SC CR CADJ) in *.
    destruct (residual_areas_spec n BN3 (x_LP cf) (t_flow o1) S3 LI) as (S4' & G4').
    set (BN4 := if x_NLS cf then residual_areas BN3 (x_LP cf) (t_flow o1) else BN3) in *.
    set (BLP' := if x_NLS cf then residual_lines BLP (t_flow o1) else BLP) in *.
    assert (S4 : shape n 5 BN4) by (unfold BN4; destruct (x_NLS cf); auto).
    assert (G4 : forall i d, (i < n)%nat -> (d < 3)%nat -> mget BN4 i d = mget BN3 i d) by (unfold BN4; destruct (x_NLS cf); auto).
    assert (CB : forall k, mget BLP' k 0 = mget BLP k 0) by (unfold BLP'; destruct (x_NLS cf); auto using residual_lines_col).
    assert (LB' : length BLP' = length (x_LP cf)) by (unfold BLP', residual_lines; destruct (x_NLS cf); [now rewrite mapi_length|exact LBP]).
    assert (ST : forall R0 L0, state_ok n R0 L0 (x_LP cf) BLP BLP0 -> state_ok n R0 L0 (x_LP cf) BLP' BLP0).
    { intros R0 L0 [O1 O2 O3 O4 O5 O6 O7]. constructor; auto; [intros k Hk; rewrite CB; now apply O5|intros k Hk; rewrite CB; now apply O6|].
      rewrite (wlines_col (x_LP cf) BLP' BLP) by (auto; congruence). exact O7. }
    assert (C1 : mcol BN4 1 = CR).
    { apply (nth_ext_eq _ _ q0); [rewrite mcol_length, (proj1 S4); congruence|]. intros k Hk. rewrite mcol_length, (proj1 S4) in Hk.
      change (vget (mcol BN4 1) k = vget CR k). rewrite mcol_nth, G4 by lia. now destruct (G3 k Hk) as (-> & _). }
    pose proof (tm2_ref n (x_NR cf) LT R LT' BN4 (x_LP cf) BLP' BLP0 BB ZB BB' ZB' (x_NLS cf) er (ST _ _ SO) (ST _ _ SO') BO BO' S4 ltac:(rewrite C1; exact SH)) as T2.
    destruct (tm2 (refuse er) BN4 (x_LP cf) BLP' BLP0 BB ZB LT (x_NR cf) (x_NLS cf)) as [o2|e]; cbn [bind]; [|rewrite T2; reflexivity].
    destruct T2 as (o2' & -> & F2 & E2 & _). cbn [bind]. rewrite F2, E2. eexists. split; reflexivity.
  Qed.
End Call.

(** *** the levels of an hour *)
Lemma record_net cf R C J NST M s N : match record_level cf C J NST M s with
  | Err e => record_level (refer_to cf R) C J NST M (with_net s N) = Err e
  | Ok s1 => record_level (refer_to cf R) C J NST M (with_net s N) = Ok (with_net s1 N) /\ hnet s1 = hnet s end.
Proof.
  unfold record_level. change (LSFLG (with_net s N)) with (LSFLG s). change (hrs (with_net s N)) with (hrs s). change (pks (with_net s N)) with (pks s).
  change (x_MXPLHR (refer_to cf R)) with (x_MXPLHR cf). destruct (hrstat _ _ _ _) as [LS h]. destruct (pyget _ _) as [p|e]; cbn [bind]; [|reflexivity]. split; reflexivity.
Qed.
Lemma kept_call n i inv er cf N N' FL SA IFLAG SM LN NLS TR TJ SC CR JF : kept_net n i N ->
  transm inv (refuse er) IFLAG N (x_BLPA cf) (x_LP cf) (x_NR cf) SM LN NLS TR TJ SC CR = Ok (JF, FL, SA, N') -> kept_net n i N'.
Proof.
  intros (AN & S5 & LK) T. assert (W : wide (n_BN N)) by (intros j Hj; rewrite (proj2 S5 j) by (rewrite <- (proj1 S5); exact Hj); lia).
  destruct (transm_limits _ _ _ _ _ _ _ _ _ _ _ _ _ _ _ _ _ _ (refuse_limits er) W T) as (AG & C4). pose proof AG as (EL & A).
  split; [|split; [|]].
  - split; [rewrite EL; apply AN|]. intros j Hj. rewrite <- (proj2 AN j Hj). apply (A j). cbn. lia.
  - split; [rewrite EL; apply S5|]. intros j Hj. rewrite (proj1 (A j)). now apply S5.
  - eapply kept_trans; [exact LK|]. split; [exact AG|]. destruct JF; [right|left]; exact C4.
Qed.
Section Hours.
  Variables (n nu nl : nat) (i : input) (R : nat).
  Let cf := i_h i.
  Hypothesis IN : input_ok n nu nl i. Hypothesis JA : joined_areas n i. Hypothesis HR : (R < n)%nat.
  Hypothesis RS1 : reference_served n nu nl i. Hypothesis RS2 : reference_served n nu nl (with_reference i R).
  Variables (inv : list (list Qc) -> option (list (list Qc))) (er : pyerr).
  Hypothesis IO : inv_ok inv.
  Hypothesis BI1 : base_inverted inv i. Hypothesis BI2 : base_inverted inv (with_reference i R).

  Lemma tm1_num N r : areas_numbered n (n_BN N) -> tm1 inv (n_BN N) (x_LP cf) (map (firstn 3) (x_BLPA cf)) r = tm1 inv (i_BN i) (x_LP cf) (map (firstn 3) (x_BLPA cf)) r.
  Proof using JA.
    intros (L1 & H1). pose proof (ja_num _ _ JA) as (L2 & H2). unfold tm1, admitr. rewrite L1, L2. replace (mcol (n_BN N) 0) with (mcol (i_BN i) 0); [reflexivity|].
    apply (nth_ext_eq _ _ q0); [rewrite !mcol_length; congruence|]. intros k Hk. rewrite mcol_length, L2 in Hk.
    change (vget (mcol (i_BN i) 0) k = vget (mcol (n_BN N) 0) k). rewrite !mcol_nth, H1, H2 by exact Hk. reflexivity.
  Qed.

  Variable kd : nat. Hypothesis Hk : (1 <= kd)%nat.
  Let k := (x_JSTEP cf * Z.of_nat kd)%Z.
  Variables (AV : list Qc) (d : drawn) (J : Z).
  Hypothesis DSC : d_SYSCON d = vtab n (located cf AV).
  Hypothesis HJ : pyidx (365 * 24) J = Some (hour_used cf k).
  Hypothesis CLN : line_states nu nl i kd (d_LNSTAT d). Hypothesis LLN : length (d_LNSTAT d) = nl.

  Lemma levels_ref : forall ls s N first b, ls = seq b (length ls) -> (b + length ls <= x_NFCST cf)%nat ->
    hst_ok n nu nl s -> kept_net n i (hnet s) -> n_BN N = n_BN (hnet s) ->
    (first = true -> settled inv (x_LP cf) (x_BLPA cf) (x_NR cf) (hnet s) /\ settled inv (x_LP cf) (x_BLPA cf) R N) ->
    match levels inv (refuse er) cf (on k) J d ls first s with
    | Err e => levels inv (refuse er) (refer_to cf R) (on k) J d ls first (with_net s N) = Err e
    | Ok s1 => exists N1, levels inv (refuse er) (refer_to cf R) (on k) J d ls first (with_net s N) = Ok (with_net s1 N1) /\ n_BN N1 = n_BN (hnet s1)
    end.
  Proof using All.
    pose proof (in_study _ _ _ _ IN) as ST. fold cf in ST. pose proof (ja_net _ _ JA) as BN0. fold cf in BN0.
    pose proof (st_levels _ _ _ _ ST) as LV. pose proof (refuse_areas er) as KA. pose proof (st_areas _ _ _ _ ST) as Hn.
    assert (K1 : (1 <= k)%Z) by (pose proof (J_pos n nu nl i IN) as JP; unfold k, cf; nia).
    assert (LSC : length (d_SYSCON d) = n) by (rewrite DSC; apply vtab_length).
    assert (VSC : forall j, (j < n)%nat -> vget (d_SYSCON d) j = located cf AV j) by (intros j H; rewrite DSC; now apply vget_vtab).
    induction ls as [|l rest IH]; intros s N first b EL LE HS KN EN SE; cbn [levels].
    - exists N. split; [reflexivity|exact EN].
    - cbn [length seq] in EL. injection EL as -> EL. cbn [length] in LE.
      destruct (demand_ok n nu nl cf ST k J b HJ ltac:(lia)) as (C & EC & LC & VC).
      change (x_HRLOAD (refer_to cf R)) with (x_HRLOAD cf). change (x_FCTERR (refer_to cf R)) with (x_FCTERR cf). rewrite EC. cbn [bind].
      destruct (margins_ok n cf k (d_SYSCON d) C AV b LSC LC VSC VC) as (LM & VM & SM).
      set (M := margins (d_SYSCON d) C) in *.
      destruct (last_short M) as [IT|e]; cbn [bind]; [|reflexivity].
      destruct (Nat.eqb_spec (length (short_areas M)) 0) as [Z|NZ]; [exists N; auto|].
      change (x_CAPOWN (refer_to cf R)) with (x_CAPOWN cf).
      destruct (Nat.eqb_spec (length (short_areas M)) (length (x_CAPOWN cf))) as [ALL|NALL].
      + pose proof (record_net cf R (on k) J b M s N) as RN.
        destruct (record_level_ok n nu nl cf ST k K1 J b M s HS ltac:(lia) LM) as (s1 & E1 & HS1 & RSx & G1 & G2 & NT). rewrite E1 in RN |- *. destruct RN as (RN & _). rewrite RN. cbn [bind].
        apply (IH s1 N first (S b)); auto; try lia; rewrite NT; assumption.
      + change (direct_help (refer_to cf R) (d_LNSTAT d) M IT) with (direct_help cf (d_LNSTAT d) M IT).
        destruct (if (1 <? length (short_areas M))%nat then Ok 0%Z else direct_help cf (d_LNSTAT d) M IT) as [ND|e]; cbn [bind]; [|reflexivity].
        pose proof KN as (AN & S5 & _).
        cbn [with_net hnet refer_to x_BLPA x_LP x_NR x_NLS].
        assert (LLP : length (d_LNSTAT d) = length (x_LP cf)) by (rewrite LLN; symmetry; exact (in_lp _ _ _ _ IN)).
        pose proof (transm_ref inv er n cf R IO BN0 (ja_lines _ _ JA) HR first (hnet s) N (d_LNSTAT d) (d_TRNSFR d) (d_TRNSFJ d) (d_SYSCON d) C AN S5 EN SE LLP
          (RS1 kd _ Hk CLN) (RS2 kd _ Hk CLN) LC) as TR.
        match type of TR with ?A -> _ => assert (SHR : A) end.
        { intros ES. destruct (ja_share _ _ JA ES k b ltac:(fold cf; lia)) as (_ & B).
          unfold pool_demand in B. fold cf in B. assert (QE : qsum C = qs n (demand cf k b)) by (rewrite qsum_qs, LC; apply qs_ext; intros j Hj; now apply VC). rewrite QE. intros Z0. rewrite Z0 in B. qlra. }
        specialize (TR SHR). clear SHR. rewrite !tm1_num in TR by exact AN. specialize (TR BI1 BI2).
        destruct (transm inv (refuse er) first (hnet s) _ _ _ _ _ _ _ _ _ _) as [[[[em FL] SA] net1]|e] eqn:ET; cbn [bind]; [|rewrite TR; reflexivity].
        destruct TR as (N1 & ET' & EN1). rewrite ET'. cbn [bind].
        assert (KN1 : kept_net n i net1) by (eapply kept_call; eassumption).
        assert (W : wide (n_BN (hnet s))) by (intros j Hj; rewrite (proj2 S5 j) by (rewrite <- (proj1 S5); exact Hj); lia).
        assert (SE1 : settled inv (x_LP cf) (x_BLPA cf) (x_NR cf) net1).
        { destruct BN0 as [BA BE BR _ _]. eapply (transm_settles inv er n); [exact IO|exact BA|exact BE|exact BR|exact (ja_lines _ _ JA)|exact AN|exact W| |exact ET]. intros F. apply (SE F). }
        assert (SE2 : settled inv (x_LP cf) (x_BLPA cf) R N1).
        { destruct BN0 as [BA BE BR _ _]. eapply (transm_settles inv er n); [exact IO|exact BA|exact BE|exact HR|exact (ja_lines _ _ JA)|rewrite EN; exact AN|rewrite EN; exact W| |exact ET']. intros F. apply (SE F). }
        destruct (transm_len _ _ _ _ _ _ _ _ _ _ _ _ _ _ _ _ _ _ KA ET) as (LSA & LBN).
        set (s1 := mkHst (IGSEED s) (ILSEED s) net1 (LSFLG s) (hrs s) (pks s)) in *.
        assert (HS1 : hst_ok n nu nl s1) by (destruct HS; constructor; cbn; auto; congruence).
        change (mkHst (IGSEED (with_net s N)) (ILSEED (with_net s N)) N1 (LSFLG (with_net s N)) (hrs (with_net s N)) (pks (with_net s N))) with (with_net s1 N1).
        destruct (negb em). { exists N1. auto. }
        destruct (negb _). { exists N1. auto. }
        set (M2 := map (fun x => qtrunc (- x)%Qc) SA) in *.
        assert (LM2 : length M2 = n) by (unfold M2; rewrite map_length, LSA; apply AN).
        pose proof (record_net cf R (on k) J b M2 s1 N1) as RN.
        destruct (record_level_ok n nu nl cf ST k K1 J b M2 s1 HS1 ltac:(lia) LM2) as (s2 & E2 & HS2 & RSx & G1 & G2 & NT). rewrite E2 in RN |- *. destruct RN as (RN & _). 
        rewrite RN. cbn [bind].
        apply (IH s2 N1 true (S b)); auto; try lia; try (rewrite NT; assumption). intros _. rewrite NT. split; assumption.
  Qed.
End Hours.

(** *** a draw *)
Section Draws.
  Variables (n nu nl : nat) (i : input) (R : nat).
  Hypothesis IN : input_ok n nu nl i. Hypothesis JA : joined_areas n i. Hypothesis HR : (R < n)%nat.
  Hypothesis RS1 : reference_served n nu nl i. Hypothesis RS2 : reference_served n nu nl (with_reference i R).
  Variables (inv : list (list Qc) -> option (list (list Qc))) (er : pyerr).
  Hypothesis IO : inv_ok inv.
  Hypothesis BI1 : base_inverted inv i. Hypothesis BI2 : base_inverted inv (with_reference i R).

  Lemma hour_ref kd PL RT s N : (1 <= kd)%nat -> hst_ok n nu nl s -> kept_net n i (hnet s) -> n_BN N = n_BN (hnet s) -> length PL = nu -> length RT = nu ->
    (forall v, (v < nl)%nat -> nth v (ILSEED s) 0%Z = line_seed nu v (kd - 1)) ->
    let k := (x_JSTEP (i_h i) * Z.of_nat kd)%Z in
    match hour inv (refuse er) (i_h i) (on k) PL RT s with
    | Err e => hour inv (refuse er) (i_h (with_reference i R)) (on k) PL RT (with_net s N) = Err e
    | Ok s1 => exists N1, hour inv (refuse er) (i_h (with_reference i R)) (on k) PL RT (with_net s N) = Ok (with_net s1 N1) /\ n_BN N1 = n_BN (hnet s1)
    end.
  Proof using All.
    intros Hk HS KN EN LPL LRT SD k. pose proof (in_study _ _ _ _ IN) as ST. change (i_h (with_reference i R)) with (refer_to (i_h i) R). set (cf := i_h i) in *.
    assert (K1 : (1 <= k)%Z) by (pose proof (J_pos n nu nl i IN) as JP; unfold k, cf; nia).
    unfold hour. change (load_hour (refer_to cf R) (on k)) with (load_hour cf (on k)). change (x_JFREQ (refer_to cf R)) with (x_JFREQ cf).
    change (draw (refer_to cf R) (on k) PL RT (with_net s N)) with (draw cf (on k) PL RT s). change (x_NFCST (refer_to cf R)) with (x_NFCST cf).
    destruct (load_hour_ok n nu nl cf ST k K1) as (J & EJ & IJ & DJ). rewrite EJ. cbn [bind].
    destruct (draws_now (x_JFREQ cf) J) as [[]|]; cbn [bind]; try reflexivity.
    destruct (draw_ok n nu nl cf ST k K1 s PL RT HS LPL LRT) as (d & ED & G1 & G2 & G3 & D1 & D2 & D3). rewrite ED. cbn [bind].
    pose proof (drawn_state_ok n nu nl cf ST k s PL RT HS LPL LRT d ED G1 G2) as HS1.
    pose proof (ho_il _ _ _ _ HS) as HL.
    assert (CL : line_states nu nl i kd (d_LNSTAT d)) by (exists (ILSEED s); rewrite G3; auto).
    assert (LL : length (d_LNSTAT d) = nl).
    { rewrite G3. pose proof (lstate_spec (x_PROBL cf) (ILSEED s) ltac:(rewrite (st_lines _ _ _ _ ST); exact HL)) as X. destruct (lstate _ _) as [X1 X2]. destruct X as (_ & X & _). cbn [snd]. rewrite X. exact (st_lines _ _ _ _ ST). }
    change (mkHst (d_IG d) (d_IL d) (hnet (with_net s N)) (LSFLG (with_net s N)) (hrs (with_net s N)) (pks (with_net s N)))
      with (with_net (mkHst (d_IG d) (d_IL d) (hnet s) (LSFLG s) (hrs s) (pks s)) N).
    apply (levels_ref n nu nl i R IN JA HR RS1 RS2 inv er IO BI1 BI2 kd Hk (avail cf s PL RT) d J D1 IJ CL LL (seq 0 (x_NFCST cf)) _ N false 0%nat);
      [now rewrite seq_length|rewrite seq_length; fold cf; lia|exact HS1|exact KN|exact EN|discriminate].
  Qed.
End Draws.
