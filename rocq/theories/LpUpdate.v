(** The network matrix BB as [tm2] hands it to the linear program, and the results of the
    linear program inside [tm2]. *)
From Verif Require Import Base BaseProofs Sums LoadModel LoadSpec LoadProofs NetModel NetSpec MatProofs NetProofs FlowProofs UpdateProofs TransmProofs LpModel LpSpec LpNet LpResult.
Open Scope Qc_scope.

(** The admittance with which a line enters the matrix: line 112 of tm2.py adds the new
    value twice for a line at the reference. *)
Definition bb_adm (NR : nat) (t : chg) : Qc :=
  let '((ni, nj), (b, b0)) := t in
  if (Nat.eqb ni NR || Nat.eqb nj NR) && negb (qeqb b b0) then (if qeqb b q0 then b0 else b0 + b + b) else b.
Definition bb_line (NR : nat) (t : chg) : wline := (fst t, bb_adm NR t).

Section BB.
Variables (n NR : nat) (LT : list nat).
Hypothesis ok : order_ok n NR LT.
Let NX := (n - 1)%nat.
Let IEQ := ieq_of LT NX NR.

Lemma lap1_at p q b a c : p <> q -> (p < NX)%nat -> (q < NX)%nat -> (a < NX)%nat -> (c < NX)%nat ->
  lap1 ((p, q), b) a c = lap1 ((at_ LT p, at_ LT q), b) (at_ LT a) (at_ LT c).
Proof.
  intros N Hp Hq Ha Hc. rewrite (red_line2 n NR LT ok (at_ LT p) (at_ LT q) b p q) by (auto; intros C; apply N, (at_inj n NR LT ok); auto; unfold NX in *; lia).
  apply lap1_unit2. exact N.
Qed.
Lemma bb_fold : forall todo pre BB ZB, wlines_in n (map st_line todo) -> shape n n BB ->
  (forall a c, (a < NX)%nat -> (c < NX)%nat -> mget BB a c = red LT (pre ++ map base_line todo) a c) ->
  forall a c, (a < NX)%nat -> (c < NX)%nat -> mget (fst (fold_left (tm2_line IEQ NX NR) todo (BB, ZB))) a c = red LT (pre ++ map (bb_line NR) todo) a c.
Proof.
  induction todo as [|t todo IH]; intros pre BB ZB W S H; [exact H|].
  destruct t as [[ni nj] [b b0]]. cbn [fold_left map].
  destruct (W ((ni, nj), b) (or_introl eq_refl)) as (Hni & Hnj & Nij). unfold lfrom, lto in Hni, Hnj, Nij. cbn [fst snd] in Hni, Hnj, Nij.
  assert (NN : (NX < n)%nat) by (destruct ok as (_ & _ & _ & P & _); unfold NX; lia).
  enough (EX : exists BB1 ZB1, tm2_line IEQ NX NR (BB, ZB) ((ni, nj), (b, b0)) = (BB1, ZB1) /\ shape n n BB1 /\
     forall a c, (a < NX)%nat -> (c < NX)%nat -> mget BB1 a c = red LT ((pre ++ [bb_line NR ((ni, nj), (b, b0))]) ++ map base_line todo) a c).
  { destruct EX as (BB1 & ZB1 & -> & S1 & H1). change (pre ++ bb_line NR ((ni, nj), (b, b0)) :: map (bb_line NR) todo) with (pre ++ [bb_line NR ((ni, nj), (b, b0))] ++ map (bb_line NR) todo).
    rewrite app_assoc. apply IH; auto. intros l Hl. apply W. now right. }
  assert (L : forall x a c, red LT ((pre ++ [((ni, nj), x)]) ++ map base_line todo) a c = red LT (pre ++ map base_line (((ni, nj), (b, b0)) :: todo)) a c + lap1 ((ni, nj), x - b0) (at_ LT a) (at_ LT c)).
  { intros x a c. unfold red. rewrite !lap_app. cbn [map]. rewrite !lap_cons, lap_nil. unfold base_line at 2. cbn [fst snd].
    rewrite !(lap1_unit2 ni nj) by exact Nij. qring. }
  unfold bb_line, bb_adm. cbn [fst]. unfold tm2_line. destruct (qeqb b b0) eqn:E0; qc_bool.
  { subst b0. do 2 eexists. split; [reflexivity|]. split; [exact S|]. intros a c Ha Hc. rewrite andb_false_r. rewrite L, <- H by auto. rewrite (lap1_unit2 ni nj) by exact Nij. qring. }
  cbn [negb]. rewrite andb_true_r. destruct (Nat.eqb ni NR || Nat.eqb nj NR) eqn:ER; cbn [negb].
  - set (ne := if Nat.eqb ni NR then nj else ni).
    assert (NE : (ne < n)%nat /\ ne <> NR /\ (ni = NR /\ ne = nj \/ nj = NR /\ ne = ni)).
    { unfold ne. destruct (Nat.eqb_spec ni NR) as [->|R1]; [auto|]. cbn [orb] in ER. apply Nat.eqb_eq in ER. auto. }
    destruct NE as (Hne & Rne & Dne). destruct (ieq_pos n NR LT ok ne Hne Rne) as (p & Hp & Ep & Eq). fold NX in Hp, Eq. fold IEQ in Eq. rewrite Eq.
    assert (D : ni = NR /\ at_ LT p = nj \/ nj = NR /\ at_ LT p = ni) by (rewrite Ep; exact Dne).
    destruct (qeqb b q0) eqn:Eb; qc_bool.
    + do 2 eexists. split; [reflexivity|]. split; [exact S|]. intros a c Ha Hc. rewrite L, <- H by auto. rewrite (lap1_unit2 ni nj) by exact Nij. qring.
    + cbn [fold_left fst snd]. do 2 eexists. split; [reflexivity|]. split; [apply madd_shape; [apply madd_shape; [exact S|lia]|lia]|].
      intros a c Ha Hc. unfold admref. rewrite (mget_madd n n) by (auto; try lia; apply madd_shape; auto; lia). rewrite (mget_madd n n) by (auto; lia).
      rewrite L, <- H by auto. rewrite (red_line1 n NR LT ok ni nj _ p a c Nij Hp D Ha Hc). unfold unit1.
      destruct (Nat.eqb a p), (Nat.eqb c p); cbn [andb]; qring.
  - apply orb_false_iff in ER. destruct ER as (R1 & R2). apply Nat.eqb_neq in R1, R2.
    destruct (ieq_pos n NR LT ok ni Hni R1) as (p & Hp & Ep & Eq). destruct (ieq_pos n NR LT ok nj Hnj R2) as (q & Hq & Ep' & Eq').
    fold NX in Hp, Eq, Hq, Eq'. fold IEQ in Eq, Eq'. rewrite Eq, Eq'. assert (Npq : p <> q) by (intros ->; congruence).
    destruct (qeqb b q0) eqn:Eb; qc_bool.
    + subst b. destruct (admitm_spec n BB p q (- b0) S ltac:(lia) ltac:(lia) Npq) as (S1 & G1). do 2 eexists. split; [reflexivity|]. split; [exact S1|].
      intros a c Ha Hc. rewrite G1 by lia. rewrite L, <- H by auto. rewrite lap1_at by auto. rewrite Ep, Ep'.
      rewrite !(lap1_unit2 ni nj) by exact Nij. qring.
    + destruct (admitm_spec n BB p q b S ltac:(lia) ltac:(lia) Npq) as (S1 & G1). destruct (admitm_spec n (admitm BB p q b) p q (- b0) S1 ltac:(lia) ltac:(lia) Npq) as (S2 & G2).
      do 2 eexists. split; [reflexivity|]. split; [exact S2|]. intros a c Ha Hc. rewrite G2, G1 by lia. rewrite L, <- H by auto. rewrite !(lap1_at p q) by auto. rewrite Ep, Ep'.
      rewrite !(lap1_unit2 ni nj) by exact Nij. qring.
Qed.
End BB.

(** With unchanged reference lines the matrix is the one of the sampled states. *)
Theorem bb_exact : forall n NR LT LP BLP BLP0 BB ZB, order_ok n NR LT -> lines_in n LP -> length BLP = length LP -> length BLP0 = length LP -> shape n n BB ->
  (forall a c, (a < n - 1)%nat -> (c < n - 1)%nat -> mget BB a c = reduced LT (combine LP BLP0) a c) ->
  (forall k, (k < length LP)%nat -> fst (nth k LP (0%nat, 0%nat)) = NR \/ snd (nth k LP (0%nat, 0%nat)) = NR -> mget BLP k 0 = vget BLP0 k) ->
  forall a c, (a < n - 1)%nat -> (c < n - 1)%nat ->
    mget (fst (tm2_update LP BLP BLP0 (ieq_of LT (n - 1) NR) (n - 1) NR BB ZB)) a c = reduced LT (wlines LP BLP) a c.
Proof.
  intros n NR LT LP BLP BLP0 BB ZB ok LI LB LB0 SB H RF a c Ha Hc. unfold tm2_update. set (todo := combine LP (combine (mcol BLP 0) BLP0)).
  assert (E1 : map st_line todo = wlines LP BLP) by (unfold todo; rewrite combine3_st; auto; now rewrite mcol_length).
  assert (E2 : map base_line todo = combine LP BLP0) by (unfold todo; rewrite combine3_base; auto; now rewrite mcol_length).
  assert (E3 : map (bb_line NR) todo = wlines LP BLP).
  { rewrite <- E1. apply map_ext_in. intros t Ht. unfold todo in Ht. apply in_combine3 in Ht; [|now rewrite mcol_length|exact LB0]. destruct Ht as (k & Hk & F1 & F2 & F3).
    unfold bb_line, st_line, bb_adm. destruct t as [[ni nj] [b b0]]. cbn [fst snd] in *. f_equal. specialize (RF k Hk). rewrite <- F1 in RF. cbn [fst snd] in RF. rewrite mcol_nth in F2.
    destruct (Nat.eqb ni NR || Nat.eqb nj NR) eqn:ER; [|reflexivity]. rewrite F2, F3, RF; [|apply orb_true_iff in ER; rewrite !Nat.eqb_eq in ER; exact ER].
    assert (QE : qeqb (vget BLP0 k) (vget BLP0 k) = true) by now apply qeqb_iff. rewrite QE. reflexivity. }
  rewrite (bb_fold n NR LT ok todo [] BB ZB); auto.
  - cbn [app]. now rewrite E3.
  - rewrite E1. intros l Hl. unfold wlines in Hl. destruct l as [l v]. apply in_combine_l in Hl. apply LI in Hl. exact Hl.
  - intros x y Hx Hy. cbn [app]. rewrite E2. now apply H.
Qed.

(** *** [tm2] with this branch *)
Definition lp_matrix (n NR : nat) (LT : list nat) (LP : list (nat * nat)) (BLP : list (list Qc)) (BLP0 : list Qc) (BB ZB : list (list Qc)) : list (list Qc) :=
  fst (tm2_update LP BLP BLP0 (ieq_of LT (n - 1) NR) (n - 1) NR BB ZB).
Theorem tm2_congested : forall fuel n m NR LT BN LP BLP BLP0 BB ZB o,
  order_ok n NR LT -> (1 < n)%nat -> lines_in n LP -> length BLP = length LP -> length BLP0 = length LP -> shape n m BN -> (4 < m)%nat -> shape n n BB ->
  (forall a c, (a < n - 1)%nat -> (c < n - 1)%nat -> mget BB a c = reduced LT (combine LP BLP0) a c) ->
  (forall k, (k < length LP)%nat -> fst (nth k LP (0%nat, 0%nat)) = NR \/ snd (nth k LP (0%nat, 0%nat)) = NR -> mget BLP k 0 = vget BLP0 k) ->
  (forall k, (k < length LP)%nat -> q0 <= mget BLP k 1 /\ q0 <= mget BLP k 2) ->
  (forall i, (i < n)%nat -> q0 <= mget BN i 3 /\ q0 <= mget BN i 4) ->
  (forall d, connls (lp_matrix n NR LT LP BLP BLP0 BB ZB) (mcol BN 2) (n - 1) NR LT BLP LP BN = Ok d -> well_scaled d) ->
  tm2 (lp_nls fuel LP LT NR) BN LP BLP BLP0 BB ZB LT NR true = Ok o -> t_accepted o = false ->
  exists T g e, congested n NR m LT LP BLP BN (t_flow o) (t_BN o) T g e /\
    ((forall d s, connls (lp_matrix n NR LT LP BLP BLP0 BB ZB) (mcol BN 2) (n - 1) NR LT BLP LP BN = Ok d -> linp fuel d = Ok s ->
        forall k, In k (s_IBAS s) -> (k < d_N1 d)%nat) -> forall i, e i = q0) /\
    forall T' g' flow', dispatch n NR LP BLP BN T' g' flow' ->
      total_unserved n BN g + qs n e <= total_unserved n BN g' + qq 1 10000000 * lp_size n LP BLP BN T'.
Proof.
  intros fuel n m NR LT BN LP BLP BLP0 BB ZB o ok Hn LI LB LB0 SBN Hm SB HB RF CAPS LIMS WS E ACC.
  pose proof (bb_exact n NR LT LP BLP BLP0 BB ZB ok LI LB LB0 SB HB RF) as BE. unfold lp_matrix in *.
  revert E. unfold tm2. rewrite (proj1 SBN). destruct (tm2_update LP BLP BLP0 (ieq_of LT (n - 1) NR) (n - 1) NR BB ZB) as [BB1 ZB1]. cbn [fst] in BE, WS |- *.
  destruct (tm2_solve BN LP BLP ZB1 LT true) as [[[INJ1 LODC] SFLOW] FLOW]. destruct (tm2_accepts FLOW SFLOW BLP BN).
  { intros E. apply ok_inj in E. subst o. discriminate ACC. }
  destruct (lp_nls fuel LP LT NR BB1 BLP BN) as [[F B]|er] eqn:EL; cbn [bind]; [|discriminate]. intros E. apply ok_inj in E. subst o. cbn [t_flow t_BN fst snd].
  destruct n as [|NX]; [lia|]. replace (S NX - 1)%nat with NX in * by lia.
  assert (CD : exists d, connls BB1 (mcol BN 2) NX NR LT BLP LP BN = Ok d).
  { revert EL. unfold lp_nls. rewrite (proj1 SBN). replace (S NX - 1)%nat with NX by lia. destruct (connls BB1 (mcol BN 2) NX NR LT BLP LP BN); [eauto|discriminate]. }
  destruct CD as (d & CD).
  destruct (lp_result NX NR m LT LP BB1 BLP BN ok LI LB SBN Hm ltac:(lia) BE CAPS LIMS d CD fuel F B EL (WS d CD)) as (T & g & e & R1 & R2 & R3).
  exists T, g, e. split; [exact R1|]. split; [|exact R3]. intros H. apply R2. intros s Hs. exact (H d s CD Hs).
Qed.

(** *** [transm]: the scheduled transfers are feasible, the emergency ones are not *)
Theorem transm_congested : forall inv fuel (IFLAG : bool) s BLPA LP NR STMULT LNSTAT TRNSFR TRNSFJ SYSCON CAPREQ BLP0 BB LT ZB o1 o2,
  let n := length (n_BN s) in
  let lp := lp_nls fuel LP LT NR in
  (if IFLAG then Ok (n_BLP0 s, n_BB s, n_LT s, n_ZB s) else tm1 inv (n_BN s) LP (map (firstn 3) BLPA) NR) = Ok (BLP0, BB, LT, ZB) ->
  order_ok n NR LT -> (1 < n)%nat -> lines_in n LP -> length LNSTAT = length LP -> length BLP0 = length LP -> shape n 5 (n_BN s) -> shape n n BB -> shape n n ZB ->
  (forall a c, (a < n - 1)%nat -> (c < n - 1)%nat -> mget BB a c = reduced LT (combine LP BLP0) a c) ->
  let BLP := line_rows BLPA STMULT LNSTAT in
  (forall k, (k < length LP)%nat -> fst (nth k LP (0%nat, 0%nat)) = NR \/ snd (nth k LP (0%nat, 0%nat)) = NR -> mget BLP k 0 = vget BLP0 k) ->
  tm2 lp (sched_rows (n_BN s) TRNSFR TRNSFJ SYSCON CAPREQ) LP BLP BLP0 BB ZB LT NR true = Ok o1 -> t_accepted o1 = true ->
  let sched (i : nat) := mget (t_BN o1) i 1 in
  (exists i, (i < n)%nat /\ vget SYSCON i - vget CAPREQ i < sched i) ->
  let BLP' := residual_lines BLP (t_flow o1) in
  let BN4 := residual_areas (emergency_rows (t_BN o1) SYSCON CAPREQ (vtab n sched)) LP (t_flow o1) in
  tm2 lp BN4 LP BLP' BLP0 BB ZB LT NR true = Ok o2 -> t_accepted o2 = false ->
  (forall i, (i < n)%nat -> q0 <= mget BN4 i 3 /\ q0 <= mget BN4 i 4) ->
  (forall d, connls (lp_matrix n NR LT LP BLP' BLP0 BB ZB) (mcol BN4 2) (n - 1) NR LT BLP' LP BN4 = Ok d -> well_scaled d) ->
  exists SADJ s', transm inv lp IFLAG s BLPA LP NR STMULT LNSTAT true TRNSFR TRNSFJ SYSCON CAPREQ = Ok (true, t_flow o2, SADJ, s') /\
  let x (i : nat) := vget SYSCON i - vget CAPREQ i - sched i in
  (forall i, (i < n)%nat -> mget BN4 i 2 = x i) /\
  exists T g e, congested n NR 5 LT LP BLP' BN4 (t_flow o2) (t_BN o2) T g e /\
    (forall i, (i < n)%nat -> i <> nth 0 LT 0%nat -> vget SADJ i = g i - x i) /\
    (x (nth 0 LT 0%nat) <= q0 -> vget SADJ (nth 0 LT 0%nat) = x (nth 0 LT 0%nat) - g (nth 0 LT 0%nat)) /\
    vget SADJ (nth 0 LT 0%nat) <= q0.
Proof.
  intros inv fuel IFLAG s BLPA LP NR STMULT LNSTAT TRNSFR TRNSFJ SYSCON CAPREQ BLP0 BB LT ZB o1 o2 n lp EB ok Hn LI LN LB0 SBN SB SZ HB BLP RF E1 A1 sched EX BLP' BN4 E2 A2 LIMS WS.
  assert (LBLP : length BLP = length LP) by (unfold BLP; now rewrite line_rows_len).
  destruct (sched_rows_spec n (n_BN s) TRNSFR TRNSFJ SYSCON CAPREQ SBN) as (SBN1 & _).
  destruct (tm2_restores n NR LT lp _ LP BLP BLP0 BB ZB true o1 ok LI (proj1 SBN1) SB SZ E1) as (RB & RZ & _). specialize (RZ A1).
  assert (SB2 : shape n 5 (t_BN o1)).
  { revert E1. unfold tm2. destruct (tm2_update _ _ _ _ _ _ _ _) as [BB1 ZB1]. destruct (tm2_solve _ _ _ _ _ _) as [[[I1 LC] SF] F]. destruct (tm2_accepts _ _ _ _).
    - intros E. apply ok_inj in E. subst o1. cbn [t_BN]. apply (store_spec n 5 NR LT I1 LC _ ok SBN1 ltac:(lia)).
    - destruct (lp BB1 BLP _); cbn [bind]; [|discriminate]. intros E. apply ok_inj in E. subst o1. discriminate A1. }
  destruct (emergency_rows_spec n (t_BN o1) SYSCON CAPREQ (vtab n sched) SB2) as (SB3 & G3).
  destruct (residual_areas_spec n _ LP (t_flow o1) SB3 LI) as (SB4 & G4). fold BN4 in SB4, G4.
  assert (X4 : forall i, (i < n)%nat -> mget BN4 i 2 = vget SYSCON i - vget CAPREQ i - sched i).
  { intros i Hi. rewrite G4 by lia. destruct (G3 i Hi) as (_ & -> & _). now rewrite vget_vtab. }
  assert (LB' : length BLP' = length LP) by (unfold BLP', residual_lines; rewrite mapi_length; exact LBLP).
  assert (CAPS : forall k, (k < length LP)%nat -> q0 <= mget BLP' k 1 /\ q0 <= mget BLP' k 2).
  { intros k Hk. assert (MX : forall x, q0 <= qmax x q0) by (intros x; unfold qmax; destruct (qleb x q0) eqn:Q; [apply Qcle_refl|]; apply Qclt_le_weak, Qcnot_le_lt; intros H; apply qleb_iff in H; congruence).
    unfold BLP', residual_lines, mget. rewrite (nth_mapi _ _ _ []) by lia. split; apply MX. }
  assert (RF' : forall k, (k < length LP)%nat -> fst (nth k LP (0%nat, 0%nat)) = NR \/ snd (nth k LP (0%nat, 0%nat)) = NR -> mget BLP' k 0 = vget BLP0 k).
  { intros k Hk H. unfold BLP'. rewrite residual_lines_col. now apply RF. }
  destruct (tm2_congested fuel n 5 NR LT BN4 LP BLP' BLP0 BB ZB o2 ok Hn LI LB' LB0 SB4 ltac:(lia) SB HB RF' CAPS LIMS WS E2 A2) as (T & g & e & CG & _ & _).
  set (BN3 := emergency_rows (t_BN o1) SYSCON CAPREQ (vtab n sched)).
  set (SADJ := vtab n (fun i => mget (t_BN o2) i 1 - vget SYSCON i + vget CAPREQ i + vget (vtab n sched) i)).
  exists SADJ, (mkNet (mapi (fun i r => upd (upd r 3 (mget BN3 i 3)) 4 (mget BN3 i 3)) (t_BN o2)) BLP0 (t_BB o2) LT (t_ZB o2)).
  split; [|split; [exact X4|]].
  - unfold transm. rewrite EB. cbn [bind]. fold n BLP lp. rewrite E1. cbn [bind].
    destruct (forallb _ _) eqn:FA.
    { exfalso. destruct EX as (i & Hi & LT1). rewrite forallb_forall in FA. specialize (FA (vget SYSCON i - vget CAPREQ i - sched i)).
      assert (Q : qleb q0 (vget SYSCON i - vget CAPREQ i - sched i) = true). { apply FA. unfold vtab. apply in_map_iff. exists i. split; [reflexivity|]. apply in_seq. lia. }
      apply qleb_iff in Q. qlra. }
    cbv iota. fold sched. rewrite RB, RZ. fold BLP'. fold BN3. change (residual_areas BN3 LP (t_flow o1)) with BN4. rewrite E2. cbn [bind]. reflexivity.
  - exists T, g, e. split; [exact CG|].
    assert (H0 : (nth 0 LT 0 < n)%nat) by (apply (at_lt n NR LT ok); lia).
    assert (SV : forall i, (i < n)%nat -> vget SADJ i = mget (t_BN o2) i 1 - mget BN4 i 2) by (intros i Hi; unfold SADJ; rewrite !vget_vtab, X4 by exact Hi; ring).
    destruct (cg_first _ _ _ _ _ _ _ _ _ _ _ _ CG) as (F1 & _).
    assert (GR := cg_range _ _ _ _ _ _ _ _ _ _ _ _ CG _ H0).
    split; [|split].
    + intros i Hi N. destruct (cg_stored _ _ _ _ _ _ _ _ _ _ _ _ CG i Hi N) as (C1 & _). rewrite SV, C1 by exact Hi. now rewrite X4.
    + intros Q. rewrite SV, F1 by exact H0. rewrite <- (X4 _ H0) in *. unfold qmin. rewrite (proj2 (qleb_iff _ _) Q). ring.
    + rewrite SV, F1 by exact H0. destruct (Qclt_le_dec (mget BN4 (nth 0 LT 0%nat) 2) q0) as [Q|Q].
      * rewrite (qmin_neg _ Q), (qmax_neg _ (Qclt_le_weak _ _ Q)) in *. qlra.
      * rewrite (qmin_pos _ Q), (qmax_pos _ Q) in *. qlra.
Qed.
