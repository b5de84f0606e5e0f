(** [tm1], [tm2] and [transm] put together. *)
From Coq Require Import Permutation.
From Verif Require Import Base BaseProofs Sums LoadModel LoadSpec LoadProofs ContractProofs NetModel NetSpec MatProofs NetProofs FlowProofs AssignProofs SolveProofs UpdateProofs.
Open Scope Z_scope.
Open Scope Qc_scope.

Lemma store_spec n m NR LT INJ1 LODC BN : order_ok n NR LT -> shape n m BN -> (2 < m)%nat ->
  let B := store_solution LT INJ1 LODC BN in
  shape n m B /\
  (forall a, (a < n)%nat -> mget B (nth a LT 0%nat) 1 = vget INJ1 a) /\
  (forall i, (i < n)%nat -> mget B i 2 = vget LODC i) /\
  (forall i c, (i < n)%nat -> (c < m)%nat -> c <> 1%nat -> c <> 2%nat -> mget B i c = mget BN i c).
Proof.
  intros ok S Hm. unfold store_solution. rewrite (proj1 S).
  assert (G : forall k, (k <= n)%nat ->
    let B := fold_left (fun B i => mupd (mupd B (nth i LT 0%nat) 1 (vget INJ1 i)) i 2 (vget LODC i)) (seq 0 k) BN in
    shape n m B /\ (forall a, (a < k)%nat -> mget B (nth a LT 0%nat) 1 = vget INJ1 a) /\ (forall i, (i < k)%nat -> mget B i 2 = vget LODC i) /\
    (forall i c, (i < n)%nat -> (c < m)%nat -> c <> 1%nat -> c <> 2%nat -> mget B i c = mget BN i c)).
  { induction k as [|k IH]; intros Hk; [cbn; split; auto; split; [intros; lia|split; [intros; lia|auto]]|].
    specialize (IH ltac:(lia)). cbv zeta in *. rewrite seq_S, fold_left_app. cbn [fold_left Nat.add].
    set (B := fold_left _ _ _) in *. destruct IH as (SB & A1 & A2 & A3).
    pose proof (at_lt n NR LT ok) as AL. unfold at_ in AL.
    assert (S1 : shape n m (mupd B (nth k LT 0%nat) 1 (vget INJ1 k))) by (apply mupd_shape; auto; apply AL; lia).
    split; [apply mupd_shape; auto; lia|]. split; [|split].
    - intros a Ha. rewrite (mget_mupd n m) by (auto; try lia; apply AL; lia). rewrite andb_comm. cbn [Nat.eqb andb].
      rewrite (mget_mupd n m) by (auto; try lia; apply AL; lia). rewrite Nat.eqb_refl, andb_true_r.
      destruct (Nat.eqb_spec (nth a LT 0%nat) (nth k LT 0%nat)) as [E|N].
      + apply (at_inj n NR LT ok) in E; [now subst|lia|lia].
      + apply A1. assert (a <> k) by (intros ->; contradiction). lia.
    - intros i Hi. rewrite (mget_mupd n m) by (auto; lia). rewrite Nat.eqb_refl, andb_true_r.
      destruct (Nat.eqb_spec i k) as [->|N]; auto. rewrite (mget_mupd n m) by (auto; try lia; apply AL; lia).
      rewrite andb_comm. cbn [Nat.eqb andb]. apply A2. lia.
    - intros i c Hi Hc N1 N2. rewrite (mget_mupd n m) by (auto; lia). destruct (Nat.eqb_spec c 2); [contradiction|]. rewrite andb_false_r.
      rewrite (mget_mupd n m) by (auto; try lia; apply AL; lia). destruct (Nat.eqb_spec c 1); [contradiction|]. rewrite andb_false_r. now apply A3. }
  specialize (G n (Nat.le_refl n)). exact G.
Qed.

Theorem tm2_solution : forall n m NR LT lp BN LP BLP BLP0 BB ZB NLS o,
  state_ok n NR LT LP BLP BLP0 -> base_ok n LT LP BLP0 BB ZB -> shape n m BN -> (4 < m)%nat ->
  (NLS = false -> qsum (mcol BN 1) <> q0) ->
  tm2 lp BN LP BLP BLP0 BB ZB LT NR NLS = Ok o -> t_accepted o = true ->
  length (t_flow o) = length LP /\
  dc_solution n NR LP (fun k => mget BLP k 0) (fun i => mget (t_BN o) i 1) (vget (t_flow o)) /\
  (let '(INJ1, LODC) := assign (map (fun k => mget BN k 2) LT) (mcol BN 1) LT NLS in
   (forall a, (a < n)%nat -> mget (t_BN o) (nth a LT 0%nat) 1 = vget INJ1 a) /\
   (forall i, (i < n)%nat -> mget (t_BN o) i 2 = vget LODC i)) /\
  (forall i c, (i < n)%nat -> (c < m)%nat -> c <> 1%nat -> c <> 2%nat -> mget (t_BN o) i c = mget BN i c) /\
  shape n m (t_BN o) /\ t_BB o = BB /\ t_ZB o = ZB /\
  (forall k, (k < length LP)%nat -> q0 <= mget BLP k 1 -> q0 <= mget BLP k 2 -> within (vget (t_flow o) k) (mget BLP k 1) (mget BLP k 2)).
Proof.
  intros n m NR LT lp BN LP BLP BLP0 BB ZB NLS o SO BO SBN Hm NZ E ACC.
  destruct SO as [ok LI LB LB0 NG RF CN]. destruct BO as [SB SZ Zb I].
  destruct (tm2_restores n NR LT lp BN LP BLP BLP0 BB ZB NLS o ok LI (proj1 SBN) SB SZ E) as (R1 & R2 & _). specialize (R2 ACC).
  revert E. unfold tm2. rewrite (proj1 SBN).
  pose proof (update_exact n NR LT LP BLP BLP0 BB ZB ok LI LB LB0 NG RF CN SZ Zb I) as U. cbv zeta in U.
  destruct (tm2_update LP BLP BLP0 (ieq_of LT (n - 1) NR) (n - 1) NR BB ZB) as [BB1 ZB1]. cbn [snd] in U. destruct U as (S1 & Z1 & I1).
  pose proof (solve_delivers n NR LT ok LP BLP BN ZB1 NLS LI LB (proj1 SBN) S1 Z1 I1 NZ) as D.
  assert (TS : exists T, length T = n /\ vget T NR = q0 /\ forall INJ1 LODC SFLOW FLOW, tm2_solve BN LP BLP ZB1 LT NLS = (INJ1, LODC, SFLOW, FLOW) ->
     flo LP BLP T = (SFLOW, FLOW)).
  { unfold tm2_solve. cbv zeta. destruct (assign (map (fun k => vget (mcol BN 2) k) LT) (mcol BN 1) LT NLS) as [INJ1 LODC] eqn:EA.
    assert (L1 : length INJ1 = n).
    { pose proof (assign_spec n NR _ (mcol BN 1) LT NLS ok (eq_trans (map_length (fun k => vget (mcol BN 2) k) LT) (proj1 ok)) ltac:(rewrite mcol_length; apply SBN) NZ) as A.
      rewrite EA in A. apply A. }
    destruct (theta_spec n ZB1 INJ1 S1 L1) as (LTh & _).
    exists (thetac (theta ZB1 INJ1) LT). split; [now rewrite thetac_len|]. split; [apply (thetac_ref n NR LT ok); auto|].
    intros I1' L1' S1' F1'. destruct (flo LP BLP (thetac (theta ZB1 INJ1) LT)) as [S2 F2]. intros Eq. injection Eq. intros. congruence. }
  destruct TS as (T & LT' & TR & TF).
  destruct (tm2_solve BN LP BLP ZB1 LT NLS) as [[[INJ1 LODC] SFLOW] FLOW]. specialize (TF _ _ _ _ eq_refl).
  destruct D as (EA & LF & LS & K1 & K2).
  pose proof (flo_spec n LP BLP T LI LB LT') as F. rewrite TF in F. destruct F as (_ & _ & FF & _).
  destruct (store_spec n m NR LT INJ1 LODC BN ok SBN ltac:(lia)) as (T0 & T1 & T2 & T3).
  destruct (tm2_accepts FLOW SFLOW BLP BN) eqn:TA.
  2:{ destruct NLS; [|discriminate]. destruct (lp BB1 BLP BN); cbn [bind]; [|discriminate]. intros E. injection E as <-. discriminate ACC. }
  assert (LIM : forall k, (k < length LP)%nat -> q0 <= mget BLP k 1 -> q0 <= mget BLP k 2 -> within (vget FLOW k) (mget BLP k 1) (mget BLP k 2)).
  { intros k Hk H1 H2. unfold tm2_accepts in TA. apply andb_true_iff in TA. destruct TA as (TA & _). rewrite forallb_seq in TA.
    specialize (TA k ltac:(lia)). apply negb_true_iff in TA. now apply (proj1 (over_within _ _ _ H1 H2)). }
  intros E. injection E as <-. cbn [t_flow t_BN] in *. rewrite EA. cbn [t_BB t_ZB] in *.
  split; [exact LF|]. split.
  { exists (vget T). split; [exact TR|]. split; [exact FF|]. intros i Hi. destruct (at_surj n NR LT ok i Hi) as (a & Ha & <-).
    unfold at_. rewrite K1, T1 by auto. reflexivity. }
  auto 8.
Qed.

(** C31 *)
Theorem tm2_accepted_iff : forall n NR LT lp BN LP BLP BLP0 BB ZB NLS, order_ok n NR LT -> lines_in n LP -> length BLP = length LP ->
  shape n n BB -> shape n n ZB -> length BN = n -> (NLS = false -> qsum (mcol BN 1) <> q0) ->
  (forall k, (k < length LP)%nat -> q0 <= mget BLP k 1 /\ q0 <= mget BLP k 2) ->
  (forall i, (i < n)%nat -> q0 <= mget BN i 3 /\ q0 <= mget BN i 4) ->
  let limits (FLOW : list Qc) :=
    (forall k, (k < length LP)%nat -> within (vget FLOW k) (mget BLP k 1) (mget BLP k 2)) /\
    (forall i, (i < n)%nat -> within (- net_outflow LP (vget FLOW) i) (mget BN i 3) (mget BN i 4)) in
  (forall o, tm2 lp BN LP BLP BLP0 BB ZB LT NR NLS = Ok o -> t_accepted o = true -> limits (t_flow o)) /\
  (let ZB1 := snd (tm2_update LP BLP BLP0 (ieq_of LT (n - 1) NR) (n - 1) NR BB ZB) in
   let '(_, _, _, FLOW) := tm2_solve BN LP BLP ZB1 LT NLS in
   limits FLOW -> exists o, tm2 lp BN LP BLP BLP0 BB ZB LT NR NLS = Ok o /\ t_accepted o = true /\ t_flow o = FLOW).
Proof.
  intros n NR LT lp BN LP BLP BLP0 BB ZB NLS ok LI LB SB SZ LBN NZ C1 C2. cbv zeta. unfold tm2. rewrite LBN. unfold tm2_update.
  pose proof (update_border n NR LT LP (mcol BLP 0) BLP0 BB ZB ok LI SB SZ) as U. cbv zeta in U.
  destruct (fold_left _ _ _) as [BB1 ZB1]. cbn [fst snd] in *. destruct U as (_ & (S1 & _)).
  assert (TS : let '(INJ1, LODC, SFLOW, FLOW) := tm2_solve BN LP BLP ZB1 LT NLS in
    length FLOW = length LP /\ forall i, (i < n)%nat -> vget SFLOW i = - net_outflow LP (vget FLOW) i).
  { unfold tm2_solve. cbv zeta. destruct (assign (map (fun k => vget (mcol BN 2) k) LT) (mcol BN 1) LT NLS) as [INJ1 LODC] eqn:EA.
    assert (L1 : length INJ1 = n).
    { pose proof (assign_spec n NR _ (mcol BN 1) LT NLS ok (eq_trans (map_length (fun k => vget (mcol BN 2) k) LT) (proj1 ok)) ltac:(rewrite mcol_length; exact LBN) NZ) as A.
      rewrite EA in A. apply A. }
    destruct (theta_spec n ZB1 INJ1 S1 L1) as (LTh & _).
    pose proof (flo_spec n LP BLP (thetac (theta ZB1 INJ1) LT) LI LB ltac:(rewrite thetac_len; exact LTh)) as F.
    destruct (flo LP BLP _) as [SF FL]. destruct F as (_ & F2 & _ & F4 & _). auto. }
  destruct (tm2_solve BN LP BLP ZB1 LT NLS) as [[[INJ1 LODC] SFLOW] FLOW]. destruct TS as (LF & SF).
  assert (A := accepts_iff FLOW SFLOW BLP BN ltac:(rewrite LF; exact C1) ltac:(rewrite LBN; exact C2)). rewrite LF, LBN in A.
  split.
  - intros o E ACC. destruct (tm2_accepts FLOW SFLOW BLP BN) eqn:TA.
    + injection E as <-. cbn [t_flow]. apply (proj1 A) in TA || apply (proj1 A eq_refl) in TA || idtac. destruct (proj1 A eq_refl) as (A1 & A2).
      split; [exact A1|]. intros i Hi. rewrite <- SF by auto. now apply A2.
    + destruct NLS; [|discriminate]. destruct (lp BB1 BLP BN); cbn [bind] in E; [|discriminate]. injection E as <-. discriminate ACC.
  - intros (L1 & L2). assert (TA : tm2_accepts FLOW SFLOW BLP BN = true).
    { apply A. split; auto. intros i Hi. rewrite SF by auto. now apply L2. }
    rewrite TA. eexists. split; [reflexivity|]. auto.
Qed.

(* ------------------------------------------------------------------ *)
(** ** tm1 *)

Lemma block_spec n NX M : shape n n M -> (NX <= n)%nat -> shape NX NX (block NX M) /\
  forall a b, (a < NX)%nat -> (b < NX)%nat -> mget (block NX M) a b = mget M a b.
Proof.
  intros (L & R) H. unfold block.
  assert (LF : length (firstn NX M) = NX) by (rewrite firstn_length; lia).
  assert (NF : forall a, (a < NX)%nat -> nth a (firstn NX M) [] = nth a M []).
  { intros a Ha. rewrite <- (firstn_skipn NX M) at 2. rewrite app_nth1; auto. lia. }
  split.
  - split; [now rewrite map_length|]. intros a Ha. rewrite (nth_map_in _ _ _ []) by lia. rewrite NF by auto. rewrite firstn_length, R by lia. lia.
  - intros a b Ha Hb. unfold mget. rewrite (nth_map_in _ _ _ []) by lia. rewrite NF by auto.
    assert (Hr : (NX <= length (nth a M []))%nat) by (rewrite R; lia).
    rewrite <- (firstn_skipn NX (nth a M [])) at 2. rewrite app_nth1; auto. rewrite firstn_length. lia.
Qed.

Theorem tm1_spec : forall inv BN LP BLP NR BLP0 BB LT ZB, inv_ok inv ->
  areas_numbered (length BN) BN -> lp_areas LP = length BN -> distinct_ends LP -> length BLP = length LP -> (NR < length BN)%nat ->
  tm1 inv BN LP BLP NR = Ok (BLP0, BB, LT, ZB) ->
  let n := length BN in
  BLP0 = mcol BLP 0 /\ order_ok n NR LT /\ base_ok n LT LP BLP0 BB ZB /\
  (forall a b, (a < n - 1)%nat -> (b < n - 1)%nat -> mget BB a b = lap (wlines LP BLP) (nth a LT 0%nat) (nth b LT 0%nat)).
Proof.
  intros inv BN LP BLP NR BLP0 BB LT ZB IO AN LA DE LB HR E. cbv zeta. set (n := length BN) in *.
  unfold tm1 in E. destruct (admitb LP BLP) as [B|e] eqn:EB; cbn [bind] in E; [|discriminate].
  destruct (admitb_ok LP BLP B DE EB) as (SB & GB). rewrite LA in SB, GB.
  pose proof (admitr_spec n B BN NR SB AN HR) as R. destruct (admitr B BN NR) as [BR LT']. destruct R as (EL & OK & SR & GR).
  fold n in E. destruct (inv (block (n - 1) BR)) as [Z|] eqn:EI; [|discriminate]. injection E as <- <- <- <-.
  destruct (block_spec n (n - 1) BR SR ltac:(lia)) as (SBl & GBl).
  destruct (IO _ _ _ SBl EI) as (SZ & IZ). destruct (pad1_spec (n - 1) Z SZ) as (SP & GP).
  assert (EN : S (n - 1) = n) by lia. rewrite EN in SP, GP.
  assert (GRL : forall a b, (a < n - 1)%nat -> (b < n - 1)%nat -> mget BR a b = lap (wlines LP BLP) (nth a LT' 0%nat) (nth b LT' 0%nat)).
  { intros a b Ha Hb. rewrite GR by lia. destruct (Nat.ltb_spec a (n - 1)), (Nat.ltb_spec b (n - 1)); try lia. cbn [andb].
    destruct OK as (OL & _ & OI & _). rewrite GB; [reflexivity| |]; apply OI, nth_In; lia. }
  split; [reflexivity|]. split; [exact OK|]. split; [|exact GRL]. constructor; auto.
  - intros a Ha. rewrite !GP by lia. rewrite Nat.ltb_irrefl, andb_false_r. auto.
  - eapply is_inverse_ext; [| |exact IZ].
    + intros i j Hi Hj. rewrite GBl, GRL by auto. reflexivity.
    + intros i j Hi Hj. rewrite GP by lia. destruct (Nat.ltb_spec i (n - 1)), (Nat.ltb_spec j (n - 1)); try lia. reflexivity.
Qed.

(* ------------------------------------------------------------------ *)
(** ** transm *)

(** C34 *)
Theorem transm_no_loss : forall inv lp IFLAG s BLPA LP NR STMULT LNSTAT NLS TRNSFR TRNSFJ SYSCON CAPREQ FLOW SADJ s',
  transm inv lp IFLAG s BLPA LP NR STMULT LNSTAT NLS TRNSFR TRNSFJ SYSCON CAPREQ = Ok (false, FLOW, SADJ, s') ->
  length SADJ = length (n_BN s) /\
  forall i, (i < length (n_BN s))%nat ->
    vget SADJ i = vget SYSCON i - vget CAPREQ i - mget (n_BN s') i 1 /\ q0 <= vget SADJ i.
Proof.
  intros inv lp IFLAG s BLPA LP NR STMULT LNSTAT NLS TRNSFR TRNSFJ SYSCON CAPREQ FLOW SADJ s' E.
  unfold transm in E.
  destruct (if IFLAG then _ else _) as [[[[BLP0 BB] LT] ZB]|e]; cbn [bind] in E; [|discriminate].
  destruct (tm2 lp (sched_rows (n_BN s) TRNSFR TRNSFJ SYSCON CAPREQ) LP _ BLP0 BB ZB LT NR true) as [o1|e]; cbn [bind] in E; [|discriminate].
  destruct (forallb _ _) eqn:EF.
  - injection E as <- <- <-. split; [apply vtab_length|]. intros i Hi. rewrite vget_vtab by auto. cbn [n_BN]. split; [reflexivity|].
    rewrite forallb_forall in EF. unfold vtab in EF.
    specialize (EF (vget SYSCON i - vget CAPREQ i - mget (t_BN o1) i 1)). apply qleb_iff. apply EF.
    apply in_map_iff. exists i. split; auto. apply in_seq. lia.
  - destruct (tm2 _ _ _ _ _ _ _ _ _ NLS); cbn [bind] in E; discriminate.
Qed.

(** The inputs of an hour whose sampled line states leave the network connected. *)
Record hour_net_ok (s : netst) (BLPA : list (list Qc)) (LP : list (nat * nat)) (NR : nat) (STMULT : list (list Qc)) (LNSTAT : list Z) : Prop := mkHourNet {
  hn_shape : shape (length (n_BN s)) 5 (n_BN s);
  hn_num : areas_numbered (length (n_BN s)) (n_BN s);
  hn_areas : lp_areas LP = length (n_BN s);
  hn_ends : distinct_ends LP;
  hn_len : length BLPA = length LP /\ length LNSTAT = length LP;
  hn_ref : (NR < length (n_BN s))%nat;
  hn_base : forall k, (k < length LP)%nat -> mget BLPA k 0 < q0;
  hn_state : forall k, (k < length LP)%nat -> mget (line_rows BLPA STMULT LNSTAT) k 0 <= q0;
  hn_refline : forall k, (k < length LP)%nat -> fst (nth k LP (0%nat, 0%nat)) = NR \/ snd (nth k LP (0%nat, 0%nat)) = NR ->
     mget (line_rows BLPA STMULT LNSTAT) k 0 <> q0;
  hn_caps : forall k, (k < length LP)%nat -> q0 <= mget (line_rows BLPA STMULT LNSTAT) k 1 /\ q0 <= mget (line_rows BLPA STMULT LNSTAT) k 2;
  hn_conn : network_connected (length (n_BN s)) NR (wlines LP (line_rows BLPA STMULT LNSTAT)) }.

Lemma sched_rows_spec n BN TR TJ SC CR : shape n 5 BN ->
  shape n 5 (sched_rows BN TR TJ SC CR) /\
  forall i, (i < n)%nat -> mget (sched_rows BN TR TJ SC CR) i 1 = q0 /\
    mget (sched_rows BN TR TJ SC CR) i 2 = qmax (vget TR i + vget TJ i) (qmin (vget SC i - vget CR i) q0) /\
    mget (sched_rows BN TR TJ SC CR) i 3 = mget BN i 3 /\ mget (sched_rows BN TR TJ SC CR) i 4 = mget BN i 4.
Proof.
  intros (L & R). unfold sched_rows. split.
  - split; [now rewrite mapi_length|]. intros i Hi. rewrite (nth_mapi _ _ _ []) by lia. rewrite !upd_length. now apply R.
  - intros i Hi. unfold mget. rewrite !(nth_mapi _ _ _ []) by lia.
    assert (Lr : length (nth i BN []) = 5%nat) by (now apply R).
    split; [apply nth_upd_same; rewrite upd_length; lia|].
    split; [rewrite nth_upd_other by lia; apply nth_upd_same; lia|].
    split; (rewrite !nth_upd_other by lia; reflexivity).
Qed.
Lemma emergency_rows_spec n BN SC CR CA : shape n 5 BN ->
  shape n 5 (emergency_rows BN SC CR CA) /\
  forall i, (i < n)%nat -> mget (emergency_rows BN SC CR CA) i 1 = vget CR i /\
    mget (emergency_rows BN SC CR CA) i 2 = vget SC i - vget CR i - vget CA i /\
    mget (emergency_rows BN SC CR CA) i 3 = mget BN i 3 /\ mget (emergency_rows BN SC CR CA) i 4 = mget BN i 4.
Proof.
  intros (L & R). unfold emergency_rows. split.
  - split; [now rewrite mapi_length|]. intros i Hi. rewrite (nth_mapi _ _ _ []) by lia. rewrite !upd_length. now apply R.
  - intros i Hi. unfold mget. rewrite !(nth_mapi _ _ _ []) by lia.
    assert (Lr : length (nth i BN []) = 5%nat) by (now apply R).
    split; [apply nth_upd_same; rewrite upd_length; lia|].
    split; [rewrite nth_upd_other by lia; apply nth_upd_same; lia|].
    split; (rewrite !nth_upd_other by lia; reflexivity).
Qed.
Lemma fancy_add_spec n m BN c ends x : shape n m BN -> (c < m)%nat -> (forall e, In e ends -> (e < n)%nat) ->
  shape n m (fancy_add BN c ends x) /\ forall i d, (i < n)%nat -> (d < m)%nat -> d <> c -> mget (fancy_add BN c ends x) i d = mget BN i d.
Proof.
  intros S Hc He. unfold fancy_add.
  assert (G : forall B, shape n m B -> shape n m (fold_left (fun B p => mupd B (fst p) c (mget BN (fst p) c + snd p)) (combine ends x) B) /\
     forall i d, (i < n)%nat -> (d < m)%nat -> d <> c ->
       mget (fold_left (fun B p => mupd B (fst p) c (mget BN (fst p) c + snd p)) (combine ends x) B) i d = mget B i d); [|now apply G].
  revert x. induction ends as [|e ends IH]; intros x B SB; [cbn; auto|]. destruct x as [|y x]; [cbn; auto|]. cbn [combine fold_left fst snd].
  assert (Hen : (e < n)%nat) by (apply He; now left).
  destruct (IH ltac:(intros; apply He; now right) x (mupd B e c (mget BN e c + y)) ltac:(now apply mupd_shape)) as (A1 & A2).
  split; auto. intros i d Hi Hd N. rewrite A2 by auto. rewrite (mget_mupd n m) by auto.
  destruct (Nat.eqb_spec d c); [contradiction|]. now rewrite andb_false_r.
Qed.
Lemma residual_areas_spec n BN LP F : shape n 5 BN -> lines_in n LP ->
  shape n 5 (residual_areas BN LP F) /\ forall i d, (i < n)%nat -> (d < 3)%nat -> mget (residual_areas BN LP F) i d = mget BN i d.
Proof.
  intros S LI. unfold residual_areas.
  assert (H1 : forall e, In e (map fst LP) -> (e < n)%nat) by (intros e He; apply in_map_iff in He; destruct He as (l & <- & Hl); apply (LI l Hl)).
  assert (H2 : forall e, In e (map snd LP) -> (e < n)%nat) by (intros e He; apply in_map_iff in He; destruct He as (l & <- & Hl); apply (LI l Hl)).
  destruct (fancy_add_spec n 5 BN 3 (map fst LP) F S ltac:(lia) H1) as (S1 & G1).
  destruct (fancy_add_spec n 5 _ 4 (map fst LP) (map Qcopp F) S1 ltac:(lia) H1) as (S2 & G2).
  destruct (fancy_add_spec n 5 _ 3 (map snd LP) F S2 ltac:(lia) H2) as (S3 & G3).
  destruct (fancy_add_spec n 5 _ 4 (map snd LP) (map Qcopp F) S3 ltac:(lia) H2) as (S4 & G4).
  split; auto. intros i d Hi Hd. rewrite G4, G3, G2, G1 by lia. reflexivity.
Qed.
Lemma residual_lines_col BLP F k : mget (residual_lines BLP F) k 0 = mget BLP k 0.
Proof.
  unfold residual_lines, mget. destruct (Nat.lt_ge_cases k (length BLP)).
  - rewrite (nth_mapi _ _ _ []) by auto. reflexivity.
  - rewrite (nth_overflow (mapi _ BLP)) by (rewrite mapi_length; lia). rewrite (nth_overflow BLP) by lia. reflexivity.
Qed.
Lemma line_rows_len A S L : length (line_rows A S L) = length L.
Proof. unfold line_rows. now rewrite map_length, seq_length. Qed.
Lemma wlines_col LP B1 B2 : length B1 = length B2 -> (forall k, mget B1 k 0 = mget B2 k 0) -> wlines LP B1 = wlines LP B2.
Proof.
  intros L H. unfold wlines. f_equal. apply (nth_ext_eq _ _ q0); [now rewrite !mcol_length|]. intros i _.
  change (vget (mcol B1 0) i = vget (mcol B2 0) i). now rewrite !mcol_nth.
Qed.
Lemma accepted_no_lp e BN LP BLP BLP0 BB ZB LT NR NLS o :
  tm2 (fun _ _ _ => Err e) BN LP BLP BLP0 BB ZB LT NR NLS = Ok o -> t_accepted o = true.
Proof.
  unfold tm2. destruct (tm2_update _ _ _ _ _ _ _ _) as [BB1 ZB1]. destruct (tm2_solve _ _ _ _ _ _) as [[[a b] c] d].
  destruct (tm2_accepts _ _ _ _). { intros E. injection E as <-. reflexivity. } destruct NLS; cbn [bind]; discriminate.
Qed.
Lemma perm_sum n NR LT (f g : nat -> Qc) (h : Qc -> Qc) : order_ok n NR LT -> (forall i, (i < n)%nat -> f i = g i) ->
  qsum (map h (map f LT)) = qs n (fun i => h (g i)).
Proof.
  intros ok E. rewrite map_map. rewrite (qsum_map_qs _ LT 0%nat), (proj1 ok).
  rewrite <- (qs_reindex n NR LT ok (fun i => h (g i))). apply qs_ext; intros a Ha. change (nth a LT 0%nat) with (at_ LT a).
  rewrite E; auto. now apply (at_lt n NR LT ok).
Qed.

(** What a call without linear programming returns ([lp] failing means the call
    returned without using it). *)
Theorem transm_direct : forall inv e s BLPA LP NR STMULT LNSTAT NLS TRNSFR TRNSFJ SYSCON CAPREQ JFLAG FLOW SADJ s',
  inv_ok inv -> hour_net_ok s BLPA LP NR STMULT LNSTAT -> length CAPREQ = length (n_BN s) -> (NLS = false -> qsum CAPREQ <> q0) ->
  transm inv (fun _ _ _ => Err e) false s BLPA LP NR STMULT LNSTAT NLS TRNSFR TRNSFJ SYSCON CAPREQ = Ok (JFLAG, FLOW, SADJ, s') ->
  let n := length (n_BN s) in
  let adm k := mget (line_rows BLPA STMULT LNSTAT) k 0 in
  let fwd k := mget (line_rows BLPA STMULT LNSTAT) k 1 in
  let bwd k := mget (line_rows BLPA STMULT LNSTAT) k 2 in
  exists F1 sched, dc_solution n NR LP adm sched F1 /\
  (forall k, (k < length LP)%nat -> within (F1 k) (fwd k) (bwd k)) /\
  (JFLAG = false -> FLOW = map F1 (seq 0 (length LP)) /\
     forall i, (i < n)%nat -> net_outflow LP F1 i <= vget SYSCON i - vget CAPREQ i) /\
  (JFLAG = true ->
     (exists i, (i < n)%nat /\ vget SYSCON i - vget CAPREQ i < net_outflow LP F1 i) /\
     let x i := vget SYSCON i - vget CAPREQ i - (if NLS then sched i else q0) in
     let S := qs n (fun i => qmax (x i) q0) in
     let D := qs n (fun i => qmax (- x i) q0) in
     dc_solution n NR LP adm (fun i => x i + vget SADJ i) (vget FLOW) /\
     (forall k, (k < length LP)%nat -> within (if NLS then F1 k + vget FLOW k else vget FLOW k) (fwd k) (bwd k)) /\
     (D <= S -> forall i, (i < n)%nat -> vget SADJ i <= q0) /\
     (S < D -> NLS = true -> forall i, (i < n)%nat -> D * vget SADJ i = (D - S) * qmax (- x i) q0) /\
     (S < D -> NLS = false -> forall i, (i < n)%nat -> qsum CAPREQ * vget SADJ i = (D - S) * vget CAPREQ i)).
Proof.
  intros inv e s BLPA LP NR STMULT LNSTAT NLS TRNSFR TRNSFJ SYSCON CAPREQ JFLAG FLOW SADJ s' IO H LCR NZ E n adm fwd bwd.
  destruct H as [HS HNm HA HE (HL1 & HL2) HR HB HST HRL HCP HC]. fold n in HS, HNm, HA, HR, HC, LCR. fold adm in HST, HRL. fold fwd bwd in HCP.
  assert (LI : lines_in n LP) by (rewrite <- HA; now apply distinct_lines_in).
  unfold transm in E. cbv iota in E. fold n in E.
  destruct (tm1 inv (n_BN s) LP (map (firstn 3) BLPA) NR) as [[[[BLP0 BB] LT] ZB]|er] eqn:ET; cbn [bind] in E; [|discriminate].
  destruct (tm1_spec inv (n_BN s) LP (map (firstn 3) BLPA) NR BLP0 BB LT ZB IO HNm HA HE ltac:(now rewrite map_length) HR ET) as (EB0 & OK & BO & _).
  fold n in OK, BO.
  set (BLP := line_rows BLPA STMULT LNSTAT) in *.
  assert (LBLP : length BLP = length LP) by (unfold BLP; now rewrite line_rows_len).
  assert (LB0 : length BLP0 = length LP) by (rewrite EB0, mcol_length, map_length; exact HL1).
  assert (GB0 : forall k, (k < length LP)%nat -> vget BLP0 k < q0).
  { intros k Hk. rewrite EB0, mcol_nth. unfold mget. rewrite (nth_map_in _ _ _ []) by lia.
    specialize (HB k Hk). unfold mget in HB. destruct (nth k BLPA []) as [|x r]; cbn in *; exact HB. }
  assert (SO : state_ok n NR LT LP BLP BLP0).
  { constructor; auto. }
  destruct (sched_rows_spec n (n_BN s) TRNSFR TRNSFJ SYSCON CAPREQ HS) as (SBN1 & _).
  set (BN1 := sched_rows (n_BN s) TRNSFR TRNSFJ SYSCON CAPREQ) in *.
  destruct (tm2 (fun _ _ _ => Err e) BN1 LP BLP BLP0 BB ZB LT NR true) as [o1|er] eqn:E1; cbn [bind] in E; [|discriminate].
  pose proof (accepted_no_lp _ _ _ _ _ _ _ _ _ _ _ E1) as A1.
  destruct (tm2_solution n 5 NR LT _ BN1 LP BLP BLP0 BB ZB true o1 SO BO SBN1 ltac:(lia) ltac:(discriminate) E1 A1)
    as (LF1 & DC1 & _ & _ & SB2 & RB & RZ & LM1).
  set (sched := fun i => mget (t_BN o1) i 1) in *.
  exists (vget (t_flow o1)), sched. split; [exact DC1|].
  assert (LIM1 : forall k, (k < length LP)%nat -> within (vget (t_flow o1) k) (fwd k) (bwd k)).
  { intros k Hk. destruct (HCP k Hk). now apply LM1. }
  split; [exact LIM1|].
  assert (NO1 : forall i, (i < n)%nat -> net_outflow LP (vget (t_flow o1)) i = sched i) by (destruct DC1 as (T & _ & _ & K); exact K).
  destruct (forallb (fun x => qleb q0 x) (vtab n (fun i => vget SYSCON i - vget CAPREQ i - mget (t_BN o1) i 1))) eqn:EF.
  - injection E as <- <- <- <-. split; [|discriminate]. intros _. split.
    + apply (nth_ext_eq _ _ q0); [now rewrite map_length, seq_length|]. intros k Hk. rewrite nth_map_seq by lia. reflexivity.
    + intros i Hi. rewrite NO1 by auto. rewrite forallb_forall in EF.
      assert (q0 <= vget SYSCON i - vget CAPREQ i - sched i); [|qlra].
      apply qleb_iff. apply EF. unfold vtab. apply in_map_iff. exists i. split; auto. apply in_seq. lia.
  - destruct (tm2 _ _ _ _ _ _ _ LT NR NLS) as [o2|er] eqn:E2; cbn [bind] in E; [|discriminate].
    injection E as <- <- <- <-. split; [discriminate|]. intros _. split.
    { destruct (existsb (fun i => qltb (vget SYSCON i - vget CAPREQ i) (sched i)) (seq 0 n)) eqn:EX.
      - apply existsb_exists in EX. destruct EX as (i & Hi & P). apply in_seq in Hi. exists i. split; [lia|]. rewrite NO1 by lia. qc_bool. exact P.
      - exfalso. rewrite <- not_true_iff_false in EF. apply EF. apply forallb_forall. intros y Hy. unfold vtab in Hy. apply in_map_iff in Hy.
        destruct Hy as (i & <- & Hi). apply qleb_iff. rewrite <- not_true_iff_false in EX.
        destruct (qltb (vget SYSCON i - vget CAPREQ i) (sched i)) eqn:EQ; [exfalso; apply EX; apply existsb_exists; exists i; auto|].
        qc_bool. unfold sched in EQ. qlra. }
    cbv zeta. set (x := fun i => vget SYSCON i - vget CAPREQ i - (if NLS then sched i else q0)).
    set (CADJ := vtab n (fun i => if NLS then mget (t_BN o1) i 1 else q0)) in *.
    destruct (emergency_rows_spec n (t_BN o1) SYSCON CAPREQ CADJ SB2) as (SB3 & G3).
    set (BN3 := emergency_rows (t_BN o1) SYSCON CAPREQ CADJ) in *.
    destruct (residual_areas_spec n BN3 LP (t_flow o1) SB3 LI) as (SB4' & G4').
    set (BN4 := if NLS then residual_areas BN3 LP (t_flow o1) else BN3) in *.
    set (BLP' := if NLS then residual_lines BLP (t_flow o1) else BLP) in *.
    assert (SB4 : shape n 5 BN4) by (unfold BN4; destruct NLS; auto).
    assert (G4 : forall i d, (i < n)%nat -> (d < 3)%nat -> mget BN4 i d = mget BN3 i d) by (unfold BN4; destruct NLS; auto).
    assert (CB : forall k, mget BLP' k 0 = mget BLP k 0) by (unfold BLP'; destruct NLS; auto using residual_lines_col).
    assert (LB' : length BLP' = length BLP) by (unfold BLP', residual_lines; destruct NLS; auto using mapi_length).
    assert (SO' : state_ok n NR LT LP BLP' BLP0).
    { constructor; auto; [congruence| | |].
      - intros k Hk. rewrite CB. split; [now apply GB0|now apply HST].
      - intros k Hk. rewrite CB. now apply HRL.
      - rewrite (wlines_col LP BLP' BLP) by auto. exact HC. }
    assert (XB : forall i, (i < n)%nat -> mget BN4 i 2 = x i).
    { intros i Hi. rewrite G4 by lia. destruct (G3 i Hi) as (_ & -> & _). unfold x, CADJ. rewrite vget_vtab by auto. unfold sched. reflexivity. }
    assert (XL : forall i, (i < n)%nat -> mget BN4 i 1 = vget CAPREQ i) by (intros i Hi; rewrite G4 by lia; apply (G3 i Hi)).
    assert (EC : mcol BN4 1 = CAPREQ).
    { apply (nth_ext_eq _ _ q0); [rewrite mcol_length, (proj1 SB4); auto|]. intros i Hi. rewrite mcol_length, (proj1 SB4) in Hi.
      change (vget (mcol BN4 1) i = vget CAPREQ i). rewrite mcol_nth. now apply XL. }
    rewrite RB, RZ in E2. pose proof (accepted_no_lp _ _ _ _ _ _ _ _ _ _ _ E2) as A2.
    destruct (tm2_solution n 5 NR LT _ BN4 LP BLP' BLP0 BB ZB NLS o2 SO' BO SB4 ltac:(lia) ltac:(rewrite EC; exact NZ) E2 A2)
      as (LF2 & DC2 & AS & _ & _ & _ & _ & LM2). rewrite EC in AS.
    set (INJ := map (fun k => mget BN4 k 2) LT) in *.
    assert (LINJ : length INJ = n) by (unfold INJ; rewrite map_length; apply OK).
    pose proof (assign_spec n NR INJ CAPREQ LT NLS OK LINJ LCR NZ) as SP.
    destruct (assign INJ CAPREQ LT NLS) as [INJ1 LODC]. destruct AS as (AS1 & _). destruct SP as (_ & _ & _ & C1 & C2 & C3).
    set (S := qs n (fun i => qmax (x i) q0)). set (D := qs n (fun i => qmax (- x i) q0)).
    assert (ES : surplus INJ = S) by (apply (perm_sum n NR LT (fun k => mget BN4 k 2) x (fun e => qmax e q0) OK XB)).
    assert (ED : deficit INJ = D) by (apply (perm_sum n NR LT (fun k => mget BN4 k 2) x (fun e => qmax (- e) q0) OK XB)).
    rewrite ES, ED in *.
    assert (VX : forall a, (a < n)%nat -> vget INJ a = x (nth a LT 0%nat)).
    { intros a Ha. unfold INJ. unfold vget at 1. rewrite (nth_map_in _ _ _ 0%nat) by (rewrite (proj1 OK); exact Ha).
      apply XB. apply (at_lt n NR LT OK a Ha). }
    assert (VS : forall i, (i < n)%nat -> vget (vtab n (fun i => mget (t_BN o2) i 1 - vget SYSCON i + vget CAPREQ i + vget CADJ i)) i = mget (t_BN o2) i 1 - x i).
    { intros i Hi. rewrite vget_vtab by auto. unfold x, CADJ. rewrite vget_vtab by auto. unfold sched. qring. }
    split; [|split; [|split; [|split]]].
    2:{ intros k Hk. specialize (LIM1 k Hk). destruct (HCP k Hk) as (P1 & P2). unfold BLP' in LM2. destruct NLS.
      - assert (R : mget (residual_lines BLP (t_flow o1)) k 1 = fwd k - vget (t_flow o1) k /\ mget (residual_lines BLP (t_flow o1)) k 2 = bwd k + vget (t_flow o1) k).
        { unfold residual_lines, mget. rewrite !(nth_mapi _ _ _ []) by lia. destruct LIM1 as (W1 & W2). cbn [nth].
          change (nth 1 (nth k BLP []) q0) with (fwd k). change (nth 2 (nth k BLP []) q0) with (bwd k).
          unfold qmax. destruct (qleb (fwd k - vget (t_flow o1) k) q0) eqn:Q1, (qleb (bwd k + vget (t_flow o1) k) q0) eqn:Q2; qc_bool; split; qlra. }
        destruct R as (R1 & R2). specialize (LM2 k Hk). rewrite R1, R2 in LM2. destruct LIM1 as (W1 & W2).
        destruct (LM2 ltac:(qlra) ltac:(qlra)) as (V1 & V2). split; qlra.
      - now apply LM2. }
    + destruct DC2 as (T & T1 & T2 & T3). exists T. split; auto. split.
      * intros k Hk. rewrite T2 by auto. unfold adm. now rewrite CB.
      * intros i Hi. rewrite T3 by auto. rewrite VS by auto. qring.
    + intros DS i Hi. rewrite VS by auto. destruct (at_surj n NR LT OK i Hi) as (a & Ha & <-). unfold at_. rewrite AS1 by auto.
      destruct (C1 DS a Ha) as (_ & P1 & P2). rewrite VX in P1, P2 by auto. set (xa := x (nth a LT 0%nat)) in *. set (y := vget INJ1 a) in *.
      destruct (qleb xa q0) eqn:EQ; qc_bool; [rewrite (P1 EQ); qlra|]. specialize (P2 EQ).
      assert (SP : q0 < S). { assert (Dn : q0 <= D) by (rewrite <- ED; apply deficit_nonneg). rewrite <- ES. apply (surplus_pos INJ a); [lia|]. rewrite VX by auto. exact EQ. }
      destruct (qleb (y - xa) q0) eqn:EY; qc_bool; auto. exfalso.
      assert (S * y <= S * xa) by (rewrite P2; qnra). assert (q0 < S * (y - xa)) by qnra.
      assert (S * (y - xa) = S * y - S * xa) by qring. set (u := S * (y - xa)) in *. set (v := S * y) in *. set (w := S * xa) in *. qlra.
    + intros DS NL i Hi. rewrite VS by auto. destruct (at_surj n NR LT OK i Hi) as (a & Ha & <-). unfold at_. rewrite AS1 by auto.
      destruct (C2 DS NL a Ha) as (_ & P1 & P2). rewrite VX in P1, P2 by auto. set (xa := x (nth a LT 0%nat)) in *. set (y := vget INJ1 a) in *.
      unfold qmax. destruct (qleb (- xa) q0) eqn:EQ; qc_bool.
      * destruct (qleb xa q0) eqn:EQ2; qc_bool.
        -- assert (xa = q0) as X0 by qlra. specialize (P2 EQ2). rewrite X0 in *. transitivity (D * y); [qring|]. rewrite P2. qring.
        -- rewrite (P1 EQ2). qring.
      * assert (xa <= q0) as X0 by qlra. specialize (P2 X0). transitivity (D * y - D * xa); [qring|]. rewrite P2. qring.
    + intros DS NL i Hi. rewrite VS by auto. destruct (at_surj n NR LT OK i Hi) as (a & Ha & <-). unfold at_. rewrite AS1 by auto.
      destruct (C3 DS NL a Ha) as (P1 & _). rewrite VX in P1 by auto. rewrite <- P1.
      apply (C3 DS NL (nth a LT 0%nat) (at_lt n NR LT OK a Ha)).
Qed.

(** C27: updating a reduced matrix is reducing the rebuilt one. *)
Theorem reduced_update : forall LP BLP B BN NR i j b B',
  let n := lp_areas LP in
  distinct_ends LP -> length BLP = length LP -> areas_numbered n BN -> (NR < n)%nat ->
  (i < n)%nat -> (j < n)%nat -> i <> j ->
  admitb LP BLP = Ok B -> admitb (LP ++ [(i, j)]) (BLP ++ [[b]]) = Ok B' ->
  let '(BR, LT) := admitr B BN NR in
  let '(BR', _) := admitr B' BN NR in
  forall p q, (p < n - 1)%nat -> (q < n - 1)%nat ->
    (nth p LT 0%nat = i -> nth q LT 0%nat = j -> admitm BR p q b = BR') /\
    (nth p LT 0%nat = i -> j = NR -> admref BR p b = BR') /\
    (nth p LT 0%nat = j -> i = NR -> admref BR p b = BR').
Proof.
  intros LP BLP B BN NR i j b B' n DE LB AN HR Hi Hj Nij EB EB'.
  pose proof (admitm_is_rebuild LP BLP B i j b DE LB EB Hi Hj Nij) as EM. rewrite EB' in EM. injection EM as ->.
  destruct (admitb_ok LP BLP B DE EB) as (SB & _). fold n in SB.
  destruct (admitm_spec n B i j b SB Hi Hj Nij) as (SM & GM).
  pose proof (admitr_spec n B BN NR SB AN HR) as R1. destruct (admitr B BN NR) as [BR LT]. destruct R1 as (EL & OK & SR & GR).
  pose proof (admitr_spec n (admitm B i j b) BN NR SM AN HR) as R2. destruct (admitr (admitm B i j b) BN NR) as [BR' LT'].
  destruct R2 as (EL' & _ & SR' & GR'). rewrite <- EL in EL'. subst LT'.
  pose proof (at_lt n NR LT OK) as AL. unfold at_ in AL.
  intros p q Hp Hq. split; [|split].
  - intros Ep Eq. destruct (admitm_spec n BR p q b SR ltac:(lia) ltac:(lia)) as (S1 & G1). { intros ->. congruence. }
    apply (shape_ext n n); auto. intros a c Ha Hc. rewrite G1, GR, GR' by auto.
    destruct (Nat.ltb_spec a (n - 1)), (Nat.ltb_spec c (n - 1)); cbn [andb].
    + rewrite GM by (apply AL; auto). f_equal. change (nth a LT 0%nat) with (at_ LT a); change (nth c LT 0%nat) with (at_ LT c). rewrite (red_line2 n NR LT OK i j b p q) by auto. rewrite lap1_unit2; auto. intros ->; congruence.
    + rewrite lap1_unit2 by (intros ->; congruence). unfold unit2. destruct (Nat.eqb_spec c p), (Nat.eqb_spec c q); try lia. qring.
    + rewrite lap1_unit2 by (intros ->; congruence). unfold unit2. destruct (Nat.eqb_spec a p), (Nat.eqb_spec a q); try lia. qring.
    + rewrite lap1_unit2 by (intros ->; congruence). unfold unit2. destruct (Nat.eqb_spec a p), (Nat.eqb_spec a q); try lia. qring.
  - intros Ep Ej. destruct (admref_spec n BR p b SR ltac:(lia)) as (S1 & G1).
    apply (shape_ext n n); auto. intros a c Ha Hc. rewrite G1, GR, GR' by auto.
    destruct (Nat.ltb_spec a (n - 1)), (Nat.ltb_spec c (n - 1)); cbn [andb].
    + rewrite GM by (apply AL; auto). f_equal. change (nth a LT 0%nat) with (at_ LT a); change (nth c LT 0%nat) with (at_ LT c). rewrite (red_line1 n NR LT OK i j b p) by auto. unfold unit1.
      destruct (Nat.eqb a p), (Nat.eqb c p); cbn [andb]; qring.
    + destruct (Nat.eqb_spec c p); try lia. rewrite andb_false_r. qring.
    + destruct (Nat.eqb_spec a p); try lia. cbn [andb]. qring.
    + destruct (Nat.eqb_spec a p); try lia. cbn [andb]. qring.
  - intros Ep Ei. destruct (admref_spec n BR p b SR ltac:(lia)) as (S1 & G1).
    apply (shape_ext n n); auto. intros a c Ha Hc. rewrite G1, GR, GR' by auto.
    destruct (Nat.ltb_spec a (n - 1)), (Nat.ltb_spec c (n - 1)); cbn [andb].
    + rewrite GM by (apply AL; auto). f_equal. change (nth a LT 0%nat) with (at_ LT a); change (nth c LT 0%nat) with (at_ LT c). rewrite (red_line1 n NR LT OK i j b p) by auto. unfold unit1.
      destruct (Nat.eqb a p), (Nat.eqb c p); cbn [andb]; qring.
    + destruct (Nat.eqb_spec c p); try lia. rewrite andb_false_r. qring.
    + destruct (Nat.eqb_spec a p); try lia. cbn [andb]. qring.
    + destruct (Nat.eqb_spec a p); try lia. cbn [andb]. qring.
Qed.
