(** Proofs for C124: flows are bounded by the power injected (cuts by the angles). *)
From Verif Require Import Base BaseProofs Sums LoadModel LoadSpec LoadProofs NetModel NetSpec ContractProofs MatProofs NetProofs FlowProofs AssignProofs SolveProofs UpdateProofs UniqueProofs TransmProofs.
Open Scope Z_scope.
Open Scope Qc_scope.

(** The power that leaves a weighted set of areas crosses its border. *)
Lemma cut_sum n LP F (c : nat -> Qc) : lines_in n LP ->
  qs n (fun i => c i * net_outflow LP F i) =
  qs (length LP) (fun k => F k * (c (fst (nth k LP (0%nat, 0%nat))) - c (snd (nth k LP (0%nat, 0%nat))))).
Proof.
  intros LI. unfold net_outflow.
  transitivity (qs n (fun i => qs (length LP) (fun k =>
    c i * ((if Nat.eqb (fst (nth k LP (0%nat, 0%nat))) i then F k else q0) - (if Nat.eqb (snd (nth k LP (0%nat, 0%nat))) i then F k else q0))))).
  { apply qs_ext; intros i Hi. now rewrite qs_scale. }
  rewrite qs_exchange. apply qs_ext; intros k Hk.
  destruct (LI (nth k LP (0%nat, 0%nat)) (nth_In _ _ Hk)) as (A & B & _). destruct (nth k LP (0%nat, 0%nat)) as (a, b). cbn [fst snd] in *.
  transitivity (qs n (fun i => if Nat.eqb i a then c i * F k else q0) - qs n (fun i => if Nat.eqb i b then c i * F k else q0)).
  - rewrite <- qs_minus. apply qs_ext; intros i Hi. rewrite (Nat.eqb_sym a i), (Nat.eqb_sym b i). destruct (Nat.eqb i a), (Nat.eqb i b); qring.
  - rewrite !qs_delta by auto. qring.
Qed.
Section Bound.
  Variables (n NR : nat) (LP : list (nat * nat)) (adm inj F : nat -> Qc).
  Hypothesis LI : lines_in n LP. Hypothesis AD : forall k, (k < length LP)%nat -> adm k <= q0.
  Hypothesis DC : dc_solution n NR LP adm inj F.
  Let B : Qc := qs n (fun i => qmax (inj i) q0).
  Lemma inj_total : qs n inj = q0.
  Proof.
    destruct DC as (T & _ & _ & NO). transitivity (qs n (fun i => 1 * net_outflow LP F i)).
    - apply qs_ext; intros i Hi. rewrite NO by auto. qring.
    - rewrite cut_sum by auto. apply qs_zero; intros k Hk. qring.
  Qed.
  Lemma line_bound k : (k < length LP)%nat -> - B <= F k /\ F k <= B.
  Proof.
    intros Hk. destruct DC as (T & _ & FL & NO).
    assert (G : forall t k0, (k0 < length LP)%nat ->
      F k0 * ((if qleb (T (fst (nth k0 LP (0%nat, 0%nat)))) t then 1 else 0) - (if qleb (T (snd (nth k0 LP (0%nat, 0%nat)))) t then 1 else 0)) <= B).
    { intros t k0 Hk0. set (c := fun i => if qleb (T i) t then 1 else 0).
      change (F k0 * (c (fst (nth k0 LP (0%nat, 0%nat))) - c (snd (nth k0 LP (0%nat, 0%nat)))) <= B).
      assert (NN : forall j, (j < length LP)%nat -> q0 <= F j * (c (fst (nth j LP (0%nat, 0%nat))) - c (snd (nth j LP (0%nat, 0%nat))))).
      { intros j Hj. rewrite (FL j Hj). pose proof (AD j Hj) as A. unfold c.
        set (x := T (fst (nth j LP (0%nat, 0%nat)))) in *. set (y := T (snd (nth j LP (0%nat, 0%nat)))) in *.
        destruct (qleb x t) eqn:E1, (qleb y t) eqn:E2; qc_bool; qnra. }
      apply Qcle_trans with (qs n (fun i => c i * net_outflow LP F i)).
      - rewrite cut_sum by auto.
        apply Qcle_trans with (qs (length LP) (fun j => if Nat.eqb j k0 then F j * (c (fst (nth j LP (0%nat, 0%nat))) - c (snd (nth j LP (0%nat, 0%nat)))) else q0)).
        + rewrite (qs_delta (length LP) k0 (fun j => F j * (c (fst (nth j LP (0%nat, 0%nat))) - c (snd (nth j LP (0%nat, 0%nat)))))) by auto. apply Qcle_refl.
        + apply qs_le; intros j Hj. destruct (Nat.eqb j k0); [apply Qcle_refl|now apply NN].
      - apply qs_le; intros i Hi. rewrite NO by auto. unfold c, qmax. destruct (qleb (T i) t).
        + rewrite Qcmult_1_l. destruct (qleb (inj i) q0) eqn:E; qc_bool; qlra.
        + rewrite Qcmult_0_l. change 0 with q0. destruct (qleb (inj i) q0) eqn:E; qc_bool; qlra. }
    pose proof (FL k Hk) as E. pose proof (AD k Hk) as A.
    pose proof (G (T (fst (nth k LP (0%nat, 0%nat)))) k Hk) as G1. pose proof (G (T (snd (nth k LP (0%nat, 0%nat)))) k Hk) as G2.
    assert (B0 : q0 <= B) by (apply qs_nonneg; intros i Hi; unfold qmax; destruct (qleb (inj i) q0) eqn:EQ; qc_bool; qlra).
    set (x := T (fst (nth k LP (0%nat, 0%nat)))) in *. set (y := T (snd (nth k LP (0%nat, 0%nat)))) in *.
    destruct (qleb x x) eqn:E1 in G1; [|exfalso; qc_bool; qlra]. destruct (qleb y y) eqn:E2 in G2; [|exfalso; qc_bool; qlra].
    destruct (qleb y x) eqn:E3; destruct (qleb x y) eqn:E4; qc_bool; try (exfalso; qlra).
    - assert (F k = q0) by (rewrite E; replace x with y by qlra; qring). split; qlra.
    - assert (F k <= q0) by (rewrite E; qnra). replace (F k * (0 - 1)) with (- F k) in G2 by qring. split; qlra.
    - assert (q0 <= F k) by (rewrite E; qnra). replace (F k * (1 - 0)) with (F k) in G1 by qring. split; qlra.
  Qed.
  Lemma area_bound i : (i < n)%nat -> - B <= inj i /\ inj i <= B.
  Proof.
    intros Hi. assert (P : forall f : nat -> Qc, f i = inj i \/ f i = - inj i -> f i <= qs n (fun j => qmax (f j) q0)).
    { intros f _. apply Qcle_trans with (qs n (fun j => if Nat.eqb j i then f j else q0)); [rewrite qs_delta by auto; apply Qcle_refl|].
      apply qs_le; intros j Hj. unfold qmax. destruct (Nat.eqb j i), (qleb (f j) q0) eqn:E; qc_bool; qlra. }
    split; [|apply (P inj); auto].
    assert (E : qs n (fun j => qmax (- inj j) q0) = B).
    { assert (qs n (fun j => qmax (- inj j) q0 - qmax (inj j) q0) = - qs n inj).
      { rewrite <- qs_opp. apply qs_ext; intros j Hj. unfold qmax. destruct (qleb (- inj j) q0) eqn:E1, (qleb (inj j) q0) eqn:E2; qc_bool; qlra. }
      rewrite qs_minus, inj_total in H. fold B in H. qlra. }
    pose proof (P (fun j => - inj j) (or_intror eq_refl)) as Q. cbv beta in Q. rewrite E in Q. qlra.
  Qed.
End Bound.

(** Balanced injections: never more is moved than was asked for. *)
Definition wanted (INJ : list Qc) : Qc := qsum (map qabs INJ).
Lemma wanted_split INJ : wanted INJ = surplus INJ + deficit INJ.
Proof.
  unfold wanted, surplus, deficit. rewrite <- qsum_map_plus. apply qsum_map_ext. intros x _.
  unfold qabs, qmax. destruct (qltb x q0) eqn:E1, (qleb x q0) eqn:E2, (qleb (- x) q0) eqn:E3; qc_bool; try rewrite qltb_false in E1; qlra.
Qed.
Lemma surplus_qs INJ n : length INJ = n -> surplus INJ = qs n (fun i => qmax (vget INJ i) q0).
Proof. intros <-. unfold surplus. exact (qsum_map_qs _ _ q0). Qed.
Lemma deficit_qs INJ n : length INJ = n -> deficit INJ = qs n (fun i => qmax (- vget INJ i) q0).
Proof. intros <-. unfold deficit. exact (qsum_map_qs _ _ q0). Qed.
Lemma sums_nonneg INJ : q0 <= surplus INJ /\ q0 <= deficit INJ.
Proof.
  rewrite (surplus_qs INJ _ eq_refl), (deficit_qs INJ _ eq_refl). split; apply qs_nonneg; intros i _; unfold qmax; match goal with |- context [qleb ?a ?b] => destruct (qleb a b) eqn:E end; qc_bool; qlra.
Qed.
Lemma balanced_sums INJ : qsum INJ = q0 -> surplus INJ = deficit INJ.
Proof.
  intros H. rewrite (surplus_qs INJ _ eq_refl), (deficit_qs INJ _ eq_refl). rewrite qsum_qs in H.
  assert (E : qs (length INJ) (fun i => qmax (vget INJ i) q0 - qmax (- vget INJ i) q0) = qs (length INJ) (fun i => nth i INJ q0)).
  { apply qs_ext; intros i _. change (nth i INJ q0) with (vget INJ i). unfold qmax. destruct (qleb (vget INJ i) q0) eqn:E1, (qleb (- vget INJ i) q0) eqn:E2; qc_bool; qlra. }
  rewrite qs_minus, H in E. qlra.
Qed.

Lemma balanced_small n NR INJ LOD LT NLS : order_ok n NR LT -> length INJ = n -> length LOD = n ->
  (NLS = false -> qsum LOD <> q0 /\ forall k, (k < n)%nat -> q0 <= vget LOD k) ->
  let J := fst (assign INJ LOD LT NLS) in
  length J = n /\ qsum J = q0 /\ surplus J <= wanted INJ /\ (NLS = true -> surplus J + surplus J <= wanted INJ).
Proof.
  intros OK LI LL NZ. pose proof (assign_spec n NR INJ LOD LT NLS OK LI LL (fun E => proj1 (NZ E))) as A.
  pose proof (assign_curtailment n NR INJ LOD LT NLS OK LI LL NZ) as C.
  destruct (assign INJ LOD LT NLS) as [J L]. cbn [fst]. destruct A as (LJ & _ & TJ & A1 & A2 & A3). destruct C as (_ & C).
  split; [exact LJ|]. split; [exact TJ|]. rewrite wanted_split. destruct (sums_nonneg INJ) as (SP & DP). pose proof (balanced_sums J TJ) as BJ.
  destruct (qltb (surplus INJ) (deficit INJ)) eqn:E; qc_bool.
  - destruct NLS.
    + assert (surplus J = surplus INJ).
      { rewrite (surplus_qs J n LJ), (surplus_qs INJ n LI). apply qs_ext; intros i Hi. destruct (A2 E eq_refl i Hi) as (_ & P & Q).
        destruct (qleb (vget INJ i) q0) eqn:EQ; qc_bool.
        - specialize (Q EQ). assert (vget J i <= q0) by qnra. unfold qmax. destruct (qleb (vget J i) q0) eqn:E1, (qleb (vget INJ i) q0) eqn:E2; qc_bool; qlra.
        - now rewrite P. }
      split; [|intros _]; qlra.
    + assert (deficit J <= deficit INJ).
      { rewrite (deficit_qs J n LJ), (deficit_qs INJ n LI). apply qs_le; intros i Hi. destruct (at_surj n NR LT OK i Hi) as (a & Ha & _).
        destruct (A3 E eq_refl i Hi) as (P & _). pose proof (C _ (at_lt n NR LT OK i Hi)) as Q. unfold at_ in Q. rewrite P in Q.
        unfold qmax. destruct (qleb (- vget J i) q0) eqn:E1, (qleb (- vget INJ i) q0) eqn:E2; qc_bool; qlra. }
      split; [qlra|discriminate].
  - assert (deficit J = deficit INJ).
    { rewrite (deficit_qs J n LJ), (deficit_qs INJ n LI). apply qs_ext; intros i Hi. destruct (A1 E i Hi) as (_ & P & Q).
      destruct (qleb (vget INJ i) q0) eqn:EQ; qc_bool; [now rewrite P|]. specialize (Q EQ).
      assert (SX : vget INJ i <= surplus INJ).
      { rewrite (surplus_qs INJ n LI). apply Qcle_trans with (qs n (fun j => if Nat.eqb j i then vget INJ j else q0)); [rewrite qs_delta by auto; apply Qcle_refl|].
        apply qs_le; intros j Hj. unfold qmax. destruct (Nat.eqb j i), (qleb (vget INJ j) q0) eqn:E1; qc_bool; qlra. }
      assert (q0 <= vget J i) by qnra. unfold qmax. destruct (qleb (- vget J i) q0) eqn:E1, (qleb (- vget INJ i) q0) eqn:E2; qc_bool; qlra. }
    split; [|intros _]; qlra.
Qed.

(** A direct solution within ample limits is accepted, whatever the linear program. *)
Lemma tm2_lp_free er lp BN LP BLP BLP0 BB ZB LT NR NLS o : tm2 (fun _ _ _ => Err er) BN LP BLP BLP0 BB ZB LT NR NLS = Ok o -> tm2 lp BN LP BLP BLP0 BB ZB LT NR NLS = Ok o.
Proof.
  unfold tm2. destruct (tm2_update _ _ _ _ _ _ _ _) as [BB1 ZB1]. destruct (tm2_solve _ _ _ _ _ _) as [[[a b] c] d].
  destruct (tm2_accepts _ _ _ _); [auto|]. destruct NLS; cbn [bind]; discriminate.
Qed.
Theorem tm2_ample : forall n m NR LT BN LP BLP BLP0 BB ZB NLS er,
  state_ok n NR LT LP BLP BLP0 -> base_ok n LT LP BLP0 BB ZB -> shape n m BN -> (4 < m)%nat ->
  (NLS = false -> qsum (mcol BN 1) <> q0 /\ forall k, (k < n)%nat -> q0 <= mget BN k 1) ->
  let B := surplus (fst (assign (map (fun k => mget BN k 2) LT) (mcol BN 1) LT NLS)) in
  (forall k, (k < length LP)%nat -> B <= mget BLP k 1 /\ B <= mget BLP k 2) ->
  (forall i, (i < n)%nat -> B <= mget BN i 3 /\ B <= mget BN i 4) ->
  exists o, tm2 (fun _ _ _ => Err er) BN LP BLP BLP0 BB ZB LT NR NLS = Ok o /\ t_accepted o = true.
Proof.
  intros n m NR LT BN LP BLP BLP0 BB ZB NLS er SO BO SBN Hm NZ B C1 C2.
  pose proof SO as [ok LI LB LB0 NG RF CN]. pose proof BO as [SB SZ Zb I].
  set (INJ := map (fun k => mget BN k 2) LT) in *.
  assert (LINJ : length INJ = n) by (unfold INJ; rewrite map_length; apply ok).
  destruct (balanced_small n NR INJ (mcol BN 1) LT NLS ok LINJ ltac:(rewrite mcol_length; apply SBN)) as (LJ & TJ & _).
  { intros E. destruct (NZ E) as (N1 & N2). split; [exact N1|]. intros k Hk. rewrite mcol_nth. auto. }
  assert (B0 : q0 <= B) by apply sums_nonneg.
  assert (NZ' : NLS = false -> qsum (mcol BN 1) <> q0) by (intros; now apply NZ).
  destruct (tm2_accepted_iff n NR LT (fun _ _ _ => Err er) BN LP BLP BLP0 BB ZB NLS ok LI LB SB SZ (proj1 SBN) NZ') as (_ & A2).
  { intros k Hk. destruct (C1 k Hk). split; qlra. }
  { intros k Hk. destruct (C2 k Hk). split; qlra. }
  pose proof (update_exact n NR LT LP BLP BLP0 BB ZB ok LI LB LB0 NG RF CN SZ Zb I) as U. cbv zeta in U, A2.
  destruct (tm2_update LP BLP BLP0 (ieq_of LT (n - 1) NR) (n - 1) NR BB ZB) as [BB1 ZB1]. cbn [snd] in U, A2. destruct U as (S1 & Z1 & I1).
  pose proof (solve_delivers n NR LT ok LP BLP BN ZB1 NLS LI LB (proj1 SBN) S1 Z1 I1 NZ') as D.
  assert (TS : exists T, vget T NR = q0 /\ length T = n /\ forall INJ1 LODC SFLOW FLOW, tm2_solve BN LP BLP ZB1 LT NLS = (INJ1, LODC, SFLOW, FLOW) ->
   flo LP BLP T = (SFLOW, FLOW)).
  { unfold tm2_solve. cbv zeta. destruct (assign (map (fun k => vget (mcol BN 2) k) LT) (mcol BN 1) LT NLS) as [INJ1 LODC] eqn:EA.
    assert (L : length INJ1 = n).
    { pose proof (assign_spec n NR _ (mcol BN 1) LT NLS ok (eq_trans (map_length (fun k => vget (mcol BN 2) k) LT) (proj1 ok)) ltac:(rewrite mcol_length; apply SBN) NZ') as A.
      rewrite EA in A. apply A. }
    destruct (theta_spec n ZB1 INJ1 S1 L) as (LTh & _).
    exists (thetac (theta ZB1 INJ1) LT). split; [apply (thetac_ref n NR LT ok); auto|]. split; [now rewrite thetac_len|].
    intros I1' L1' S1' F1'. destruct (flo LP BLP (thetac (theta ZB1 INJ1) LT)) as [S2 F2]. intros Eq. injection Eq. intros. congruence. }
  destruct TS as (T & TR & LT' & TF).
  destruct (tm2_solve BN LP BLP ZB1 LT NLS) as [[[INJ1 LODC] SFLOW] FLOW]. specialize (TF _ _ _ _ eq_refl).
  destruct D as (EA & LF & LS & K1 & _). fold INJ in EA. unfold B in *. rewrite EA in *. cbn [fst] in *.
  pose proof (flo_spec n LP BLP T LI LB LT') as FS. rewrite TF in FS. destruct FS as (_ & _ & FF & _).
  set (inj := net_outflow LP (vget FLOW)) in *.
  assert (DC : dc_solution n NR LP (fun k => mget BLP k 0) inj (vget FLOW)) by (exists (vget T); split; [exact TR|split; [exact FF|reflexivity]]).
  assert (EB : qs n (fun i => qmax (inj i) q0) = surplus INJ1).
  { rewrite (surplus_qs INJ1 n LJ). rewrite <- (qs_reindex n NR LT ok (fun i => qmax (inj i) q0)). apply qs_ext; intros a Ha. unfold at_. now rewrite K1. }
  assert (AD : forall k, (k < length LP)%nat -> mget BLP k 0 <= q0) by (intros k Hk; apply NG; auto).
  destruct A2 as (o & E1 & E2 & E3); [|exists o; auto]. split.
  - intros k Hk. destruct (line_bound n NR LP _ inj _ LI AD DC k Hk) as (P & Q). rewrite EB in P, Q. destruct (C1 k Hk). split; qlra.
  - intros i Hi. fold (inj i). destruct (area_bound n NR LP _ inj _ LI DC i Hi) as (P & Q). rewrite EB in P, Q. destruct (C2 i Hi). split; qlra.
Qed.

(** The residual limits of areas lose at most twice the largest flow. *)
Lemma fancy_lower n m BN c ends x b : shape n m BN -> (c < m)%nat -> (forall e, In e ends -> (e < n)%nat) -> q0 <= b -> (forall y, In y x -> - b <= y) ->
  forall i d, (i < n)%nat -> (d < m)%nat -> mget BN i d - (if Nat.eqb d c then b else q0) <= mget (fancy_add BN c ends x) i d.
Proof.
  intros S Hc He B0 Hx i d Hi Hd. unfold fancy_add.
  assert (G : forall B, shape n m B -> mget BN i d - (if Nat.eqb d c then b else q0) <= mget B i d ->
     mget BN i d - (if Nat.eqb d c then b else q0) <= mget (fold_left (fun B p => mupd B (fst p) c (mget BN (fst p) c + snd p)) (combine ends x) B) i d).
  2:{ apply G; [exact S|]. destruct (Nat.eqb d c); qlra. }
  revert x Hx. induction ends as [|e ends IH]; intros x Hx B SB HB; [exact HB|]. destruct x as [|y x]; [exact HB|]. cbn [combine fold_left fst snd].
  assert (Hen : (e < n)%nat) by (apply He; now left).
  apply IH; [intros; apply He; now right|intros; apply Hx; now right|now apply mupd_shape|].
  rewrite (mget_mupd n m) by auto. destruct (Nat.eqb_spec i e) as [->|]; [|exact HB]. destruct (Nat.eqb_spec d c) as [->|]; [|exact HB]. cbn [andb].
  pose proof (Hx y ltac:(now left)). qlra.
Qed.
Lemma residual_areas_lower n BN LP F b : shape n 5 BN -> lines_in n LP -> q0 <= b -> (forall y, In y F -> - b <= y /\ y <= b) ->
  forall i d, (i < n)%nat -> (d < 5)%nat -> mget BN i d - (b + b) <= mget (residual_areas BN LP F) i d.
Proof.
  intros S LI B0 HF i d Hi Hd. unfold residual_areas.
  assert (H1 : forall e, In e (map fst LP) -> (e < n)%nat) by (intros e He; apply in_map_iff in He; destruct He as (l & <- & Hl); apply (LI l Hl)).
  assert (H2 : forall e, In e (map snd LP) -> (e < n)%nat) by (intros e He; apply in_map_iff in He; destruct He as (l & <- & Hl); apply (LI l Hl)).
  destruct (fancy_add_spec n 5 BN 3 (map fst LP) F S ltac:(lia) H1) as (S1 & _).
  destruct (fancy_add_spec n 5 _ 4 (map fst LP) (map Qcopp F) S1 ltac:(lia) H1) as (S2 & _).
  destruct (fancy_add_spec n 5 _ 3 (map snd LP) F S2 ltac:(lia) H2) as (S3 & _).
  assert (FP : forall y, In y F -> - b <= y) by (intros y Hy; apply HF; exact Hy).
  assert (FN : forall y, In y (map Qcopp F) -> - b <= y) by (intros y Hy; apply in_map_iff in Hy; destruct Hy as (z & <- & Hz); destruct (HF z Hz); qlra).
  pose proof (fancy_lower n 5 BN 3 (map fst LP) F b S ltac:(lia) H1 B0 FP i d Hi Hd) as L1.
  pose proof (fancy_lower n 5 _ 4 (map fst LP) (map Qcopp F) b S1 ltac:(lia) H1 B0 FN i d Hi Hd) as L2.
  pose proof (fancy_lower n 5 _ 3 (map snd LP) F b S2 ltac:(lia) H2 B0 FP i d Hi Hd) as L3.
  pose proof (fancy_lower n 5 _ 4 (map snd LP) (map Qcopp F) b S3 ltac:(lia) H2 B0 FN i d Hi Hd) as L4.
  destruct (Nat.eqb_spec d 3), (Nat.eqb_spec d 4); subst; try lia; qlra.
Qed.

(** What an hour asks of the network: scheduled transfers and margins. *)
Definition asked (n : nat) (TR TJ SC CR : list Qc) : Qc := qs n (fun i => qabs (vget TR i + vget TJ i) + qabs (vget SC i - vget CR i)).
Lemma qabs_pos0 x : q0 <= qabs x. Proof. unfold qabs. destruct (qltb x q0) eqn:E; qc_bool; try rewrite qltb_false in E; qlra. Qed.
Lemma qabs_sub x y : qabs (x - y) <= qabs x + qabs y.
Proof. unfold qabs. destruct (qltb x q0) eqn:E1, (qltb y q0) eqn:E2, (qltb (x - y) q0) eqn:E3; qc_bool; qlra. Qed.
Lemma qabs_sched x y : qabs (qmax x (qmin y q0)) <= qabs x + qabs y.
Proof.
  unfold qmax, qmin. pose proof (qabs_pos0 x). pose proof (qabs_pos0 y). destruct (qleb y q0) eqn:E1; [destruct (qleb x y)|destruct (qleb x q0)]; try qlra.
  change (qabs q0) with q0. qlra.
Qed.
Lemma qmax_half (f : nat -> Qc) n : qs n f = q0 -> qs n (fun i => qabs (f i)) = qs n (fun i => qmax (f i) q0) + qs n (fun i => qmax (f i) q0).
Proof.
  intros H. assert (E : qs n (fun i => qabs (f i) - (qmax (f i) q0 + qmax (f i) q0)) = - qs n f).
  { rewrite <- qs_opp. apply qs_ext; intros i _. unfold qabs, qmax. destruct (qltb (f i) q0) eqn:E1, (qleb (f i) q0) eqn:E2; qc_bool; qlra. }
  rewrite qs_minus, qs_plus, H in E. qlra.
Qed.
Section Ample.
  Variables (inv : list (list Qc) -> option (list (list Qc))) (er : pyerr) (n NR : nat) (s : netst) (BLPA : list (list Qc)) (LP : list (nat * nat)) (STMULT : list (list Qc)) (LNSTAT : list Z)
    (NLS : bool) (TR TJ SC CR : list Qc) (BLP0 : list Qc) (BB ZB : list (list Qc)) (LT : list nat).
  Let BLP := line_rows BLPA STMULT LNSTAT.
  Hypothesis SO : state_ok n NR LT LP BLP BLP0. Hypothesis BO : base_ok n LT LP BLP0 BB ZB.
  Hypothesis SH : shape n 5 (n_BN s). Hypothesis LCR : length CR = n.
  Hypothesis SHARE : NLS = false -> qsum CR <> q0 /\ forall k, (k < n)%nat -> q0 <= vget CR k.
  Let W := asked n TR TJ SC CR.
  Hypothesis LL : forall k, (k < length LP)%nat -> W + W <= mget BLP k 1 /\ W + W <= mget BLP k 2.
  Hypothesis LA : forall i, (i < n)%nat -> W + W <= mget (n_BN s) i 3 /\ W + W <= mget (n_BN s) i 4.
  Lemma W_pos : q0 <= W.
  Proof. apply qs_nonneg; intros i _. pose proof (qabs_pos0 (vget TR i + vget TJ i)). pose proof (qabs_pos0 (vget SC i - vget CR i)). qlra. Qed.
  Lemma margins_W : qs n (fun i => qabs (vget SC i - vget CR i)) <= W.
  Proof. apply qs_le; intros i _. pose proof (qabs_pos0 (vget TR i + vget TJ i)). qlra. Qed.
  Lemma stages_ample : exists r, forall lp,
    (let BN1 := sched_rows (n_BN s) TR TJ SC CR in
     do o1 <- tm2 lp BN1 LP BLP BLP0 BB ZB LT NR true;
     let BN2 := t_BN o1 in
     let SADJ := vtab n (fun i => vget SC i - vget CR i - mget BN2 i 1) in
     if forallb (fun x => qleb q0 x) SADJ then Ok (false, t_flow o1, SADJ, mkNet BN2 BLP0 (t_BB o1) LT (t_ZB o1))
     else
       let CADJ := vtab n (fun i => if NLS then mget BN2 i 1 else q0) in
       let BN3 := emergency_rows BN2 SC CR CADJ in
       let BLP' := if NLS then residual_lines BLP (t_flow o1) else BLP in
       let BN4 := if NLS then residual_areas BN3 LP (t_flow o1) else BN3 in
       do o2 <- tm2 lp BN4 LP BLP' BLP0 (t_BB o1) (t_ZB o1) LT NR NLS;
       let BN5 := mapi (fun i r => upd (upd r 3 (mget BN3 i 3)) 4 (mget BN3 i 3)) (t_BN o2) in
       let SADJ' := vtab n (fun i => mget (t_BN o2) i 1 - vget SC i + vget CR i + vget CADJ i) in
       Ok (true, t_flow o2, SADJ', mkNet BN5 BLP0 (t_BB o2) LT (t_ZB o2))) = Ok r.
  Proof.
    pose proof W_pos as W0. pose proof margins_W as MW. pose proof SO as [ok LI LB LB0 NG RF CN].
    cbv zeta. destruct (sched_rows_spec n (n_BN s) TR TJ SC CR SH) as (S1 & G1). set (BN1 := sched_rows (n_BN s) TR TJ SC CR) in *.
    set (INJ := map (fun k => mget BN1 k 2) LT). assert (LINJ : length INJ = n) by (unfold INJ; rewrite map_length; apply ok).
    assert (WI : wanted INJ <= W).
    { unfold wanted, INJ. rewrite (perm_sum n NR LT (fun k => mget BN1 k 2) (fun k => mget BN1 k 2) qabs ok (fun _ _ => eq_refl)).
      apply qs_le; intros i Hi. destruct (G1 i Hi) as (_ & -> & _). apply qabs_sched. }
    destruct (balanced_small n NR INJ (mcol BN1 1) LT true ok LINJ ltac:(rewrite mcol_length; apply S1) ltac:(discriminate)) as (LJ & TJ0 & _ & HB).
    specialize (HB eq_refl). set (B := surplus (fst (assign INJ (mcol BN1 1) LT true))) in *.
    assert (B0 : q0 <= B) by apply sums_nonneg.
    destruct (tm2_ample n 5 NR LT BN1 LP BLP BLP0 BB ZB true er SO BO S1 ltac:(lia) ltac:(discriminate)) as (o1 & E1 & A1).
    { fold INJ. fold B. intros k Hk. destruct (LL k Hk). split; qlra. }
    { fold INJ. fold B. intros i Hi. destruct (G1 i Hi) as (_ & _ & -> & ->). destruct (LA i Hi). split; qlra. }
    destruct (tm2_solution n 5 NR LT _ BN1 LP BLP BLP0 BB ZB true o1 SO BO S1 ltac:(lia) ltac:(discriminate) E1 A1) as (LF & DC & AS & RC & SB2 & RB & RZ & _).
    set (sched := fun i => mget (t_BN o1) i 1) in *.
    fold INJ in AS. assert (EB : qs n (fun i => qmax (sched i) q0) = B).
    { unfold B. rewrite (surplus_qs _ n LJ). rewrite <- (qs_reindex n NR LT ok (fun i => qmax (sched i) q0)). apply qs_ext; intros a Ha.
      destruct (assign INJ (mcol BN1 1) LT true) as [J L]. unfold at_, sched. now rewrite (proj1 AS a Ha). }
    assert (AD : forall k, (k < length LP)%nat -> mget BLP k 0 <= q0) by (intros k Hk; apply NG; auto).
    assert (FB : forall k, (k < length LP)%nat -> - B <= vget (t_flow o1) k /\ vget (t_flow o1) k <= B).
    { intros k Hk. pose proof (line_bound n NR LP _ sched _ LI AD DC k Hk) as P. rewrite EB in P. exact P. }
    assert (SS : qs n (fun i => qabs (sched i)) <= W).
    { rewrite (qmax_half sched n); [rewrite EB; qlra|]. exact (inj_total n NR LP _ sched _ LI DC). }
    destruct (forallb (fun x => qleb q0 x) (vtab n (fun i => vget SC i - vget CR i - mget (t_BN o1) i 1))) eqn:EF.
    { eexists. intros lp. rewrite (tm2_lp_free er lp _ _ _ _ _ _ _ _ _ _ E1). cbn [bind]. rewrite EF. reflexivity. }
    set (CADJ := vtab n (fun i => if NLS then mget (t_BN o1) i 1 else q0)).
    destruct (emergency_rows_spec n (t_BN o1) SC CR CADJ SB2) as (S3 & G3). set (BN3 := emergency_rows (t_BN o1) SC CR CADJ) in *.
    destruct (residual_areas_spec n BN3 LP (t_flow o1) S3 LI) as (S4' & G4').
    set (BN4 := if NLS then residual_areas BN3 LP (t_flow o1) else BN3) in *.
    set (BLP' := if NLS then residual_lines BLP (t_flow o1) else BLP) in *.
    assert (S4 : shape n 5 BN4) by (unfold BN4; destruct NLS; auto).
    assert (G4 : forall i d, (i < n)%nat -> (d < 3)%nat -> mget BN4 i d = mget BN3 i d) by (unfold BN4; destruct NLS; auto).
    assert (LA4 : forall i d, (i < n)%nat -> d = 3%nat \/ d = 4%nat -> W <= mget BN4 i d).
    { intros i d Hi Hd. assert (D5 : (d < 5)%nat) by lia.
      assert (H3 : W + W <= mget BN3 i d).
      { destruct (G3 i Hi) as (_ & _ & P3 & P4). destruct (G1 i Hi) as (_ & _ & Q3 & Q4). destruct (LA i Hi) as (U1 & U2).
        destruct Hd as [-> | ->]; [rewrite P3, RC, Q3 by lia|rewrite P4, RC, Q4 by lia]; assumption. }
      unfold BN4. destruct NLS; [|qlra].
      pose proof (residual_areas_lower n BN3 LP (t_flow o1) B S3 LI B0) as RL. assert (HF : forall y, In y (t_flow o1) -> - B <= y /\ y <= B).
      { intros y Hy. destruct (In_nth _ _ q0 Hy) as (k & Hk & <-). apply FB. lia. }
      specialize (RL HF i d Hi D5). qlra. }
    assert (LL4 : forall k d, (k < length LP)%nat -> d = 1%nat \/ d = 2%nat -> W <= mget BLP' k d).
    { intros k d Hk Hd. destruct (LL k Hk) as (U1 & U2). unfold BLP'. destruct NLS; [|destruct Hd as [-> | ->]; qlra].
      destruct (FB k Hk) as (V1 & V2). unfold residual_lines, mget. rewrite (nth_mapi _ _ _ []) by lia.
      unfold mget in U1, U2. unfold qmax.
      destruct Hd as [-> | ->]; cbn [nth]; match goal with |- context [qleb ?a ?b] => destruct (qleb a b) eqn:E end; qc_bool; qlra. }
    assert (SO' : state_ok n NR LT LP BLP' BLP0).
    { assert (CB : forall k, mget BLP' k 0 = mget BLP k 0) by (unfold BLP'; destruct NLS; auto using residual_lines_col).
      assert (LB' : length BLP' = length LP) by (unfold BLP', residual_lines; destruct NLS; [now rewrite mapi_length|exact LB]).
      constructor; auto; [intros k Hk; rewrite CB; now apply NG|intros k Hk; rewrite CB; now apply RF|].
      rewrite (wlines_col LP BLP' BLP) by (auto; congruence). exact CN. }
    assert (WX : wanted (map (fun k => mget BN4 k 2) LT) <= (if NLS then W + W else W)).
    { unfold wanted. rewrite (perm_sum n NR LT (fun k => mget BN4 k 2) (fun k => mget BN4 k 2) qabs ok (fun _ _ => eq_refl)).
      destruct NLS.
      - apply Qcle_trans with (qs n (fun i => qabs (vget SC i - vget CR i) + qabs (sched i))).
        + apply qs_le; intros i Hi. rewrite G4 by lia. destruct (G3 i Hi) as (_ & -> & _). unfold CADJ. rewrite vget_vtab by auto. apply qabs_sub.
        + rewrite qs_plus. qlra.
      - apply Qcle_trans with (qs n (fun i => qabs (vget SC i - vget CR i))); [|exact MW].
        apply qs_le; intros i Hi. rewrite G4 by lia. destruct (G3 i Hi) as (_ & -> & _). unfold CADJ. rewrite vget_vtab by auto.
        replace (vget SC i - vget CR i - q0) with (vget SC i - vget CR i) by qring. apply Qcle_refl. }
    assert (C1 : mcol BN4 1 = CR).
    { apply (nth_ext_eq _ _ q0); [rewrite mcol_length, (proj1 S4); congruence|]. intros k Hk. rewrite mcol_length, (proj1 S4) in Hk.
      change (vget (mcol BN4 1) k = vget CR k). rewrite mcol_nth, G4 by lia. now destruct (G3 k Hk) as (-> & _). }
    assert (SHARE4 : NLS = false -> qsum (mcol BN4 1) <> q0 /\ forall k, (k < n)%nat -> q0 <= mget BN4 k 1).
    { intros E. rewrite C1. destruct (SHARE E) as (U1 & U2). split; [exact U1|]. intros k Hk. rewrite G4 by lia. destruct (G3 k Hk) as (-> & _). auto. }
    set (INJ2 := map (fun k => mget BN4 k 2) LT) in *. assert (LINJ2 : length INJ2 = n) by (unfold INJ2; rewrite map_length; apply ok).
    destruct (balanced_small n NR INJ2 (mcol BN4 1) LT NLS ok LINJ2 ltac:(rewrite mcol_length; apply S4)) as (_ & _ & HB2 & HB2').
    { intros E. destruct (SHARE4 E) as (U1 & U2). split; [exact U1|]. intros k Hk. rewrite mcol_nth. auto. }
    assert (HB3 : surplus (fst (assign INJ2 (mcol BN4 1) LT NLS)) <= W).
    { destruct NLS; [specialize (HB2' eq_refl); qlra|qlra]. }
    rewrite <- RB, <- RZ in BO.
    destruct (tm2_ample n 5 NR LT BN4 LP BLP' BLP0 (t_BB o1) (t_ZB o1) NLS er SO' BO S4 ltac:(lia) SHARE4) as (o2 & E2 & A2).
    { fold INJ2. intros k Hk. pose proof (LL4 k 1%nat Hk ltac:(auto)). pose proof (LL4 k 2%nat Hk ltac:(auto)). split; qlra. }
    { fold INJ2. intros i Hi. pose proof (LA4 i 3%nat Hi ltac:(auto)). pose proof (LA4 i 4%nat Hi ltac:(auto)). split; qlra. }
    eexists. intros lp. rewrite (tm2_lp_free er lp _ _ _ _ _ _ _ _ _ _ E1). cbn [bind]. rewrite EF. fold CADJ BN3 BN4 BLP'.
    rewrite (tm2_lp_free er lp _ _ _ _ _ _ _ _ _ _ E2). cbn [bind]. reflexivity.
  Qed.
End Ample.
