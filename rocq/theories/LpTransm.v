(** [transm] on a network as [hour] meets it, when the emergency transfers need the
    linear program. *)
From Verif Require Import Base BaseProofs Sums LoadModel LoadSpec NetModel NetSpec MatProofs NetProofs FlowProofs AssignProofs SolveProofs UpdateProofs TransmProofs
  LinpackModel LpModel LpSpec LpProofs LpRun LpNet LpResult LpUpdate.
Open Scope Qc_scope.

Lemma tm2_lp_none lp e BN LP BLP BLP0 BB ZB LT NR NLS o :
  tm2 (fun _ _ _ => Err e) BN LP BLP BLP0 BB ZB LT NR NLS = Ok o -> tm2 lp BN LP BLP BLP0 BB ZB LT NR NLS = Ok o.
Proof.
  unfold tm2. destruct (tm2_update _ _ _ _ _ _ _ _) as [BB1 ZB1].
  destruct (tm2_solve _ _ _ _ _ _) as [[[INJ1 LODC] SFLOW] FLOW]. destruct (tm2_accepts FLOW SFLOW BLP BN); auto.
  destruct NLS; cbn [bind]; discriminate.
Qed.
Lemma tm2_lp_some lp e BN LP BLP BLP0 BB ZB LT NR o :
  tm2 (fun _ _ _ => Err e) BN LP BLP BLP0 BB ZB LT NR true = Err e -> tm2 lp BN LP BLP BLP0 BB ZB LT NR true = Ok o -> t_accepted o = false.
Proof.
  unfold tm2. destruct (tm2_update _ _ _ _ _ _ _ _) as [BB1 ZB1].
  destruct (tm2_solve _ _ _ _ _ _) as [[[INJ1 LODC] SFLOW] FLOW]. destruct (tm2_accepts FLOW SFLOW BLP BN); [discriminate|].
  intros _. destruct (lp BB1 BLP BN); cbn [bind]; [|discriminate]. intros E. apply ok_inj in E. now subst o.
Qed.

Theorem transm_lp : forall inv fuel e s BLPA LP NR STMULT LNSTAT TRNSFR TRNSFJ SYSCON CAPREQ BLP0 BB LT ZB o1 FLOW SADJ s',
  let n := length (n_BN s) in
  let BLP := line_rows BLPA STMULT LNSTAT in
  let adm k := mget BLP k 0 in let fwd k := mget BLP k 1 in let bwd k := mget BLP k 2 in
  inv_ok inv -> hour_net_ok s BLPA LP NR STMULT LNSTAT -> (1 < n)%nat ->
  tm1 inv (n_BN s) LP (map (firstn 3) BLPA) NR = Ok (BLP0, BB, LT, ZB) ->
  (forall k, (k < length LP)%nat -> fst (nth k LP (0%nat, 0%nat)) = NR \/ snd (nth k LP (0%nat, 0%nat)) = NR -> adm k = mget BLPA k 0) ->
  tm2 (fun _ _ _ => Err e) (sched_rows (n_BN s) TRNSFR TRNSFJ SYSCON CAPREQ) LP BLP BLP0 BB ZB LT NR true = Ok o1 ->
  transm inv (fun _ _ _ => Err e) false s BLPA LP NR STMULT LNSTAT true TRNSFR TRNSFJ SYSCON CAPREQ = Err e ->
  transm inv (lp_nls fuel LP LT NR) false s BLPA LP NR STMULT LNSTAT true TRNSFR TRNSFJ SYSCON CAPREQ = Ok (true, FLOW, SADJ, s') ->
  let BLP' := residual_lines BLP (t_flow o1) in
  let BN4 := residual_areas (emergency_rows (t_BN o1) SYSCON CAPREQ (vtab n (fun i => mget (t_BN o1) i 1))) LP (t_flow o1) in
  (forall i, (i < n)%nat -> q0 <= mget BN4 i 3 /\ q0 <= mget BN4 i 4) ->
  (forall d, connls (lp_matrix n NR LT LP BLP' BLP0 BB ZB) (mcol BN4 2) (n - 1) NR LT BLP' LP BN4 = Ok d -> well_scaled d) ->
  exists sched F1 T g e,
    dc_solution n NR LP adm sched F1 /\ (forall k, (k < length LP)%nat -> within (F1 k) (fwd k) (bwd k)) /\
    let x i := vget SYSCON i - vget CAPREQ i - sched i in
    (exists i, (i < n)%nat /\ x i < q0) /\
    T NR = q0 /\ length FLOW = length LP /\
    (forall k, (k < length LP)%nat -> vget FLOW k = (T (fst (nth k LP (0%nat, 0%nat))) - T (snd (nth k LP (0%nat, 0%nat)))) * adm k) /\
    (forall i, (i < n)%nat -> net_outflow LP (vget FLOW) i = g i + (if qltb (x i) q0 then e i else - e i) /\ q0 <= e i) /\
    (forall k, (k < length LP)%nat -> within (F1 k + vget FLOW k) (fwd k) (bwd k)) /\
    (forall i, (i < n)%nat -> qmin (x i) q0 <= g i <= qmax (x i) q0) /\
    (forall i, (i < n)%nat -> i <> nth 0 LT 0%nat -> vget SADJ i = g i - x i) /\
    vget SADJ (nth 0 LT 0%nat) <= q0 /\
    forall T' g' flow', dispatch n NR LP BLP' BN4 T' g' flow' ->
      total_unserved n BN4 g + qs n e <= total_unserved n BN4 g' + qq 1 10000000 * lp_size n LP BLP' BN4 T'.
Proof.
  intros inv fuel e s BLPA LP NR STMULT LNSTAT TRNSFR TRNSFJ SYSCON CAPREQ BLP0 BB LT ZB o1 FLOW SADJ s' n BLP adm fwd bwd IO H Hn ET RFB E1 EN E BLP' BN4 LIMS WS.
  destruct H as [HS HNm HA HE (HL1 & HL2) HR HB HST HRL HCP HC]. fold n in HS, HNm, HA, HR, HC. fold BLP in HST, HRL, HCP, HC.
  assert (LI : lines_in n LP) by (rewrite <- HA; now apply distinct_lines_in).
  destruct (tm1_spec inv (n_BN s) LP (map (firstn 3) BLPA) NR BLP0 BB LT ZB IO HNm HA HE ltac:(now rewrite map_length) HR ET) as (EB0 & OK & BO & HBB).
  fold n in OK, BO, HBB.
  assert (LBLP : length BLP = length LP) by (unfold BLP; now rewrite line_rows_len).
  assert (LB0 : length BLP0 = length LP) by (rewrite EB0, mcol_length, map_length; exact HL1).
  assert (VB0 : forall k, (k < length LP)%nat -> vget BLP0 k = mget BLPA k 0).
  { intros k Hk. rewrite EB0, mcol_nth. unfold mget. rewrite (nth_map_in _ _ _ []) by lia. now destruct (nth k BLPA []) as [|x r]. }
  assert (GB0 : forall k, (k < length LP)%nat -> vget BLP0 k < q0) by (intros k Hk; rewrite VB0 by exact Hk; now apply HB).
  assert (SO : state_ok n NR LT LP BLP BLP0) by (constructor; auto).
  destruct (sched_rows_spec n (n_BN s) TRNSFR TRNSFJ SYSCON CAPREQ HS) as (SBN1 & _).
  set (BN1 := sched_rows (n_BN s) TRNSFR TRNSFJ SYSCON CAPREQ) in *.
  pose proof (accepted_no_lp _ _ _ _ _ _ _ _ _ _ _ E1) as A1.
  destruct (tm2_solution n 5 NR LT _ BN1 LP BLP BLP0 BB ZB true o1 SO BO SBN1 ltac:(lia) ltac:(discriminate) E1 A1)
    as (LF1 & DC1 & _ & _ & SB2 & RB & RZ & LM1).
  set (sched := fun i => mget (t_BN o1) i 1) in *.
  assert (LIM1 : forall k, (k < length LP)%nat -> within (vget (t_flow o1) k) (fwd k) (bwd k)).
  { intros k Hk. destruct (HCP k Hk). now apply LM1. }
  set (lp := lp_nls fuel LP LT NR) in *.
  pose proof (tm2_lp_none lp e _ _ _ _ _ _ _ _ _ _ E1) as E1'.
  set (BN3 := emergency_rows (t_BN o1) SYSCON CAPREQ (vtab n sched)) in *.
  assert (EF : forallb (fun x => qleb q0 x) (vtab n (fun i => vget SYSCON i - vget CAPREQ i - mget (t_BN o1) i 1)) = false).
  { clear - E E1' ET. unfold transm in E. cbv iota in E. fold n in E. rewrite ET in E. cbn [bind] in E. fold BLP BN1 lp in E. rewrite E1' in E. cbn [bind] in E.
    destruct (forallb _ _); [injection E; discriminate|reflexivity]. }
  assert (EX : exists i, (i < n)%nat /\ vget SYSCON i - vget CAPREQ i < sched i).
  { clear - EF. destruct (existsb (fun i => qltb (vget SYSCON i - vget CAPREQ i) (sched i)) (seq 0 n)) eqn:EX.
    - apply existsb_exists in EX. destruct EX as (i & Hi & P). apply in_seq in Hi. exists i. split; [lia|]. now apply (proj1 (qltb_iff _ _)) in P.
    - exfalso. rewrite <- not_true_iff_false in EF. apply EF. apply forallb_forall. intros y Hy. unfold vtab in Hy. apply in_map_iff in Hy.
      destruct Hy as (i & <- & Hi). apply qleb_iff. rewrite <- not_true_iff_false in EX.
      destruct (qltb (vget SYSCON i - vget CAPREQ i) (sched i)) eqn:EQ; [exfalso; apply EX; apply existsb_exists; exists i; auto|].
      apply (proj1 (qltb_false _ _)) in EQ. unfold sched in EQ. qlra. }
  destruct (tm2 lp BN4 LP BLP' BLP0 BB ZB LT NR true) as [o2|er] eqn:E2.
  2:{ exfalso. unfold transm in E. cbv iota in E. fold n in E. rewrite ET in E. cbn [bind] in E. fold BLP BN1 lp in E. rewrite E1' in E. cbn [bind] in E.
      rewrite EF in E. cbv iota in E. fold sched in E. rewrite RB, RZ in E. fold BN3 BLP' in E. change (residual_areas BN3 LP (t_flow o1)) with BN4 in E. rewrite E2 in E. discriminate E. }
  assert (A2 : t_accepted o2 = false).
  { apply (tm2_lp_some lp e BN4 LP BLP' BLP0 BB ZB LT NR o2); [|exact E2].
    unfold transm in EN. cbv iota in EN. fold n in EN. rewrite ET in EN. cbn [bind] in EN. fold BLP BN1 in EN. rewrite E1 in EN. cbn [bind] in EN.
    rewrite EF in EN. cbv iota in EN. fold sched in EN. rewrite RB, RZ in EN. fold BN3 BLP' in EN. change (residual_areas BN3 LP (t_flow o1)) with BN4 in EN.
    destruct (tm2 (fun _ _ _ => Err e) BN4 LP BLP' BLP0 BB ZB LT NR true); cbn [bind] in EN; [discriminate|injection EN as ->; reflexivity]. }
  assert (RF : forall k, (k < length LP)%nat -> fst (nth k LP (0%nat, 0%nat)) = NR \/ snd (nth k LP (0%nat, 0%nat)) = NR -> mget BLP k 0 = vget BLP0 k).
  { intros k Hk P. rewrite VB0 by exact Hk. now apply RFB. }
  assert (HB0 : forall a c, (a < n - 1)%nat -> (c < n - 1)%nat -> mget BB a c = reduced LT (combine LP BLP0) a c).
  { intros a c Ha Hc. rewrite HBB by assumption. unfold reduced, wlines. now rewrite EB0. }
  destruct BO as [SB SZ Zb IV].
  destruct (emergency_rows_spec n (t_BN o1) SYSCON CAPREQ (vtab n sched) SB2) as (SB3 & G3). fold BN3 in SB3, G3.
  destruct (residual_areas_spec n BN3 LP (t_flow o1) SB3 LI) as (SB4 & G4). change (residual_areas BN3 LP (t_flow o1)) with BN4 in SB4, G4.
  assert (X4 : forall i, (i < n)%nat -> mget BN4 i 2 = vget SYSCON i - vget CAPREQ i - sched i).
  { intros i Hi. rewrite G4 by lia. destruct (G3 i Hi) as (_ & -> & _). now rewrite vget_vtab. }
  assert (LB' : length BLP' = length LP) by (unfold BLP', residual_lines; rewrite mapi_length; exact LBLP).
  assert (R : forall k, (k < length LP)%nat -> mget BLP' k 1 = fwd k - vget (t_flow o1) k /\ mget BLP' k 2 = bwd k + vget (t_flow o1) k).
  { intros k Hk. destruct (LIM1 k Hk) as (W1 & W2). unfold BLP', residual_lines, mget. rewrite !(nth_mapi _ _ _ []) by lia. cbn [nth].
    change (nth 1 (nth k BLP []) q0) with (fwd k). change (nth 2 (nth k BLP []) q0) with (bwd k).
    unfold qmax. destruct (qleb (fwd k - vget (t_flow o1) k) q0) eqn:Q1, (qleb (bwd k + vget (t_flow o1) k) q0) eqn:Q2; qc_bool; split; qlra. }
  assert (CAPS : forall k, (k < length LP)%nat -> q0 <= mget BLP' k 1 /\ q0 <= mget BLP' k 2).
  { intros k Hk. destruct (R k Hk) as (-> & ->). destruct (LIM1 k Hk) as (W1 & W2). split; qlra. }
  assert (RF' : forall k, (k < length LP)%nat -> fst (nth k LP (0%nat, 0%nat)) = NR \/ snd (nth k LP (0%nat, 0%nat)) = NR -> mget BLP' k 0 = vget BLP0 k).
  { intros k Hk P. unfold BLP'. rewrite residual_lines_col. now apply RF. }
  destruct (transm_congested inv fuel false s BLPA LP NR STMULT LNSTAT TRNSFR TRNSFJ SYSCON CAPREQ BLP0 BB LT ZB o1 o2 ET OK Hn LI HL2 LB0 HS SB SZ HB0 RF E1' A1 EX E2 A2 LIMS WS)
    as (SADJ1 & s1 & ER & _). cbv zeta in ER. fold lp in ER. rewrite E in ER. apply ok_inj in ER. injection ER as EFL ESA _. subst FLOW SADJ1.
  destruct (tm2_congested fuel n 5 NR LT BN4 LP BLP' BLP0 BB ZB o2 OK Hn LI LB' LB0 SB4 ltac:(lia) SB HB0 RF' CAPS LIMS WS E2 A2) as (T & g & ee & CG & _ & OPT).
  exists sched, (vget (t_flow o1)), T, g, ee. split; [exact DC1|]. split; [exact LIM1|]. cbv zeta.
  pose proof (cg_inj _ _ _ _ _ _ _ _ _ _ _ _ CG) as CI. pose proof (cg_range _ _ _ _ _ _ _ _ _ _ _ _ CG) as CR. pose proof (cg_slack _ _ _ _ _ _ _ _ _ _ _ _ CG) as CS.
  assert (SV : forall i, (i < n)%nat -> vget SADJ i = mget (t_BN o2) i 1 - mget BN4 i 2).
  { unfold transm in E. cbv iota in E. fold n in E. rewrite ET in E. cbn [bind] in E. fold BLP BN1 lp in E. rewrite E1' in E. cbn [bind] in E.
    rewrite EF in E. cbv iota in E. fold sched in E. rewrite RB, RZ in E. fold BN3 BLP' in E. change (residual_areas BN3 LP (t_flow o1)) with BN4 in E. rewrite E2 in E. cbn [bind] in E.
    apply ok_inj in E. intros i Hi. rewrite X4 by exact Hi. injection E as <- _. rewrite !vget_vtab by exact Hi. ring. }
  assert (H0 : (nth 0 LT 0 < n)%nat) by (apply (at_lt n NR LT OK); lia).
  split; [destruct EX as (i & Hi & L); exists i; split; [exact Hi|qlra]|].
  split; [exact (cg_ref _ _ _ _ _ _ _ _ _ _ _ _ CG)|]. split; [exact (cg_len _ _ _ _ _ _ _ _ _ _ _ _ CG)|].
  split. { intros k Hk. rewrite (cg_flow _ _ _ _ _ _ _ _ _ _ _ _ CG k Hk). unfold BLP'. now rewrite residual_lines_col. }
  split. { intros i Hi. rewrite <- (X4 i Hi). auto. }
  split. { intros k Hk. destruct (cg_lines _ _ _ _ _ _ _ _ _ _ _ _ CG k Hk) as (W1 & W2). destruct (R k Hk) as (R1 & R2). rewrite R1 in W2. rewrite R2 in W1. split; qlra. }
  split. { intros i Hi. rewrite <- (X4 i Hi). auto. }
  split. { intros i Hi N. destruct (cg_stored _ _ _ _ _ _ _ _ _ _ _ _ CG i Hi N) as (C1 & _). rewrite SV, C1, X4 by exact Hi. reflexivity. }
  split; [|exact OPT].
  destruct (cg_first _ _ _ _ _ _ _ _ _ _ _ _ CG) as (F1 & _). rewrite SV, F1 by exact H0. specialize (CR _ H0).
  destruct (Qclt_le_dec (mget BN4 (nth 0 LT 0%nat) 2) q0) as [Q|Q].
  * rewrite (qmin_neg _ Q), (qmax_neg _ (Qclt_le_weak _ _ Q)) in *. qlra.
  * rewrite (qmin_pos _ Q), (qmax_pos _ Q) in *. qlra.
Qed.
