(** Uniqueness of the direct-current solution, and acceptance stated without reference
    to the solver's intermediate results. *)
From Verif Require Import Base BaseProofs Sums LoadModel LoadSpec LoadProofs ContractProofs NetModel NetSpec MatProofs NetProofs FlowProofs
  AssignProofs SolveProofs UpdateProofs TransmProofs.
Open Scope Z_scope.
Open Scope Qc_scope.

Lemma net_outflow_power n LP (flow x : nat -> Qc) : lines_in n LP ->
  qs n (fun i => x i * net_outflow LP flow i) =
  qs (length LP) (fun k => flow k * (x (fst (nth k LP (0%nat, 0%nat))) - x (snd (nth k LP (0%nat, 0%nat))))).
Proof.
  intros LI. unfold net_outflow.
  transitivity (qs n (fun i => qs (length LP) (fun k => x i * ((if Nat.eqb (fst (nth k LP (0%nat, 0%nat))) i then flow k else q0) -
    (if Nat.eqb (snd (nth k LP (0%nat, 0%nat))) i then flow k else q0))))).
  { apply qs_ext; intros i Hi. now rewrite qs_scale. }
  rewrite qs_exchange. apply qs_ext; intros k Hk.
  destruct (LI (nth k LP (0%nat, 0%nat)) (nth_In _ _ Hk)) as (H1 & H2 & _).
  set (f := fst (nth k LP (0%nat, 0%nat))) in *. set (t := snd (nth k LP (0%nat, 0%nat))) in *.
  transitivity (qs n (fun i => (if Nat.eqb i f then flow k * x i else q0) - (if Nat.eqb i t then flow k * x i else q0))).
  { apply qs_ext; intros i Hi. rewrite (Nat.eqb_sym f i), (Nat.eqb_sym t i). destruct (Nat.eqb i f), (Nat.eqb i t); qring. }
  rewrite qs_minus, !qs_delta by auto. qring.
Qed.

Lemma net_outflow_minus LP f g i : net_outflow LP (fun k => f k - g k) i = net_outflow LP f i - net_outflow LP g i.
Proof.
  unfold net_outflow. rewrite <- qs_minus. apply qs_ext; intros k Hk.
  destruct (Nat.eqb (fst (nth k LP (0%nat, 0%nat))) i), (Nat.eqb (snd (nth k LP (0%nat, 0%nat))) i); qring.
Qed.

Theorem dc_unique : forall n NR LP adm inj F G, lines_in n LP -> (forall k, (k < length LP)%nat -> adm k <= q0) ->
  dc_solution n NR LP adm inj F -> dc_solution n NR LP adm inj G ->
  forall k, (k < length LP)%nat -> F k = G k.
Proof.
  intros n NR LP adm inj F G LI NG (T & _ & TF & TI) (U & _ & UF & UI) k Hk.
  set (x := fun i => T i - U i). set (H := fun k => F k - G k).
  set (d := fun k => x (fst (nth k LP (0%nat, 0%nat))) - x (snd (nth k LP (0%nat, 0%nat)))).
  assert (HH : forall k, (k < length LP)%nat -> H k = d k * adm k).
  { intros j Hj. unfold H, d, x. rewrite TF, UF by auto. qring. }
  assert (P : qs (length LP) (fun k => H k * d k) = q0).
  { unfold d. rewrite <- (net_outflow_power n LP H x LI). apply qs_zero; intros i Hi. unfold H. rewrite net_outflow_minus, TI, UI by auto. qring. }
  assert (Z : forall m, In m (seq 0 (length LP)) -> H m * d m = q0).
  { apply sum_zero_nonpos; [|exact P]. intros m Hm. apply in_seq in Hm. rewrite HH by lia. specialize (NG m ltac:(lia)).
    pose proof (sq_nonneg (d m)). assert (d m * adm m * d m = adm m * (d m * d m)) as -> by qring. qnra. }
  specialize (Z k ltac:(apply in_seq; lia)). rewrite HH in Z by auto. specialize (HH k Hk).
  assert (H k = q0).
  { rewrite HH. change q0 with 0 in *. destruct (Qcmult_integral _ _ Z) as [A|A]; auto. rewrite A. qring. }
  unfold H in *. qlra.
Qed.

(** C31, both directions: whatever flows solve the network equations for the balanced
    injections, they are accepted exactly when they respect every limit. *)
Theorem accepted_exactly : forall n m NR LT lp BN LP BLP BLP0 BB ZB NLS F,
  state_ok n NR LT LP BLP BLP0 -> base_ok n LT LP BLP0 BB ZB -> shape n m BN -> (4 < m)%nat ->
  (NLS = false -> qsum (mcol BN 1) <> q0) ->
  (forall k, (k < length LP)%nat -> q0 <= mget BLP k 1 /\ q0 <= mget BLP k 2) ->
  (forall i, (i < n)%nat -> q0 <= mget BN i 3 /\ q0 <= mget BN i 4) ->
  (forall inj, (forall a, (a < n)%nat -> inj (nth a LT 0%nat) = vget (fst (assign (map (fun k => mget BN k 2) LT) (mcol BN 1) LT NLS)) a) ->
     dc_solution n NR LP (fun k => mget BLP k 0) inj F) ->
  (((forall k, (k < length LP)%nat -> within (F k) (mget BLP k 1) (mget BLP k 2)) /\
    (forall i, (i < n)%nat -> within (- net_outflow LP F i) (mget BN i 3) (mget BN i 4)))
   <-> exists o, tm2 lp BN LP BLP BLP0 BB ZB LT NR NLS = Ok o /\ t_accepted o = true /\
         forall k, (k < length LP)%nat -> vget (t_flow o) k = F k).
Proof.
  intros n m NR LT lp BN LP BLP BLP0 BB ZB NLS F SO BO SBN Hm NZ C1 C2 DF.
  pose proof SO as [ok LI LB LB0 NG RF CN]. pose proof BO as [SB SZ Zb I].
  destruct (tm2_accepted_iff n NR LT lp BN LP BLP BLP0 BB ZB NLS ok LI LB SB SZ (proj1 SBN) NZ C1 C2) as (A1 & A2).
  assert (NO : forall f g i, (forall k, (k < length LP)%nat -> f k = g k) -> net_outflow LP f i = net_outflow LP g i).
  { intros f g i E. unfold net_outflow. apply qs_ext; intros k Hk. now rewrite E. }
  split.
  - intros (L1 & L2).
    pose proof (update_exact n NR LT LP BLP BLP0 BB ZB ok LI LB LB0 NG RF CN SZ Zb I) as U. cbv zeta in U, A2.
    destruct (tm2_update LP BLP BLP0 (ieq_of LT (n - 1) NR) (n - 1) NR BB ZB) as [BB1 ZB1]. cbn [snd] in U, A2. destruct U as (S1 & Z1 & I1).
    pose proof (solve_delivers n NR LT ok LP BLP BN ZB1 NLS LI LB (proj1 SBN) S1 Z1 I1 NZ) as D.
    assert (TS : exists T, vget T NR = q0 /\ length T = n /\ forall INJ1 LODC SFLOW FLOW, tm2_solve BN LP BLP ZB1 LT NLS = (INJ1, LODC, SFLOW, FLOW) ->
     flo LP BLP T = (SFLOW, FLOW)).
    { unfold tm2_solve. cbv zeta. destruct (assign (map (fun k => vget (mcol BN 2) k) LT) (mcol BN 1) LT NLS) as [INJ1 LODC] eqn:EA.
      assert (L : length INJ1 = n).
      { pose proof (assign_spec n NR _ (mcol BN 1) LT NLS ok (eq_trans (map_length (fun k => vget (mcol BN 2) k) LT) (proj1 ok)) ltac:(rewrite mcol_length; apply SBN) NZ) as A.
        rewrite EA in A. apply A. }
      destruct (theta_spec n ZB1 INJ1 S1 L) as (LTh & _).
      exists (thetac (theta ZB1 INJ1) LT). split; [apply (thetac_ref n NR LT ok); auto|]. split; [now rewrite thetac_len|].
      intros I1' L1' S1' F1'. destruct (flo LP BLP (thetac (theta ZB1 INJ1) LT)) as [S2 F2]. intros Eq. injection Eq. intros. congruence. }
    destruct TS as (T & TR & LT' & TF).
    destruct (tm2_solve BN LP BLP ZB1 LT NLS) as [[[INJ1 LODC] SFLOW] FLOW]. specialize (TF _ _ _ _ eq_refl).
    destruct D as (EA & LF & LS & K1 & _). rewrite EA in DF. cbn [fst] in DF.
    pose proof (flo_spec n LP BLP T LI LB LT') as FS. rewrite TF in FS. destruct FS as (_ & _ & FF & _).
    specialize (DF (net_outflow LP (vget FLOW)) K1).
    assert (EQ : forall k, (k < length LP)%nat -> vget FLOW k = F k).
    { refine (dc_unique n NR LP _ _ _ _ LI _ _ DF); [intros k Hk; apply (NG k Hk)|].
      exists (vget T). split; [exact TR|]. split; [exact FF|]. reflexivity. }
    destruct A2 as (o & E1 & E2 & E3).
    { split; [intros k Hk; rewrite EQ by auto; auto|]. intros i Hi. rewrite (NO _ F) by auto. auto. }
    exists o. rewrite E3. auto.
  - intros (o & E & ACC & EQ). destruct (A1 o E ACC) as (L1 & L2). split.
    + intros k Hk. rewrite <- EQ by auto. auto.
    + intros i Hi. rewrite <- (NO (vget (t_flow o)) F) by auto. auto.
Qed.
