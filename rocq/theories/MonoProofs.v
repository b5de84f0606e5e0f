(** C104: an hour with stronger lines or more surplus. *)
From Verif Require Import Base BaseProofs Sums LoadModel LoadSpec LoadProofs ContractProofs NetModel NetSpec MatProofs NetProofs FlowProofs AssignProofs TransmProofs LpModel LpSpec LpUpdate MonoSpec PropertiesNet PropertiesLp.
Open Scope Qc_scope.

Lemma abs_nonneg x : q0 <= qabs x.
Proof. unfold qabs. destruct (qltb x q0) eqn:Q; qc_bool; qlra. Qed.
Lemma outflow_total n LP flow : lines_in n LP -> qs n (fun i => net_outflow LP flow i) = q0.
Proof.
  intros LI. unfold net_outflow. rewrite qs_exchange. apply qs_zero. intros k Hk. rewrite qs_minus.
  assert (IN : In (nth k LP (0%nat, 0%nat)) LP) by now apply nth_In. destruct (LI _ IN) as (A & B).
  rewrite (qs_ext n (fun i => if Nat.eqb (fst (nth k LP (0%nat, 0%nat))) i then flow k else q0) (fun i => if Nat.eqb i (fst (nth k LP (0%nat, 0%nat))) then flow k else q0))
    by (intros i _; now rewrite Nat.eqb_sym).
  rewrite (qs_ext n (fun i => if Nat.eqb (snd (nth k LP (0%nat, 0%nat))) i then flow k else q0) (fun i => if Nat.eqb i (snd (nth k LP (0%nat, 0%nat))) then flow k else q0))
    by (intros i _; now rewrite Nat.eqb_sym).
  rewrite (qs_delta n _ (fun _ => flow k)), (qs_delta n _ (fun _ => flow k)) by (try exact A; try exact (proj1 B); try exact B). qring.
Qed.

Lemma eased_dispatch n NR LP BLP BN BLP' BN' T g flow : eased n LP BLP BN BLP' BN' ->
  dispatch n NR LP BLP BN T g flow -> dispatch n NR LP BLP' BN' T g flow.
Proof.
  intros [EA EL EB ES EP] [D1 D2 D3 D4 D5 D6]. constructor.
  - exact D1.
  - intros k Hk. rewrite EA by exact Hk. auto.
  - exact D3.
  - intros k Hk. destruct (EL k Hk), (D4 k Hk). split; qlra.
  - intros i Hi. destruct (EB i Hi), (D5 i Hi). split; qlra.
  - intros i Hi. specialize (D6 i Hi). destruct (Qclt_le_dec (mget BN i 2) q0) as [L|L].
    + rewrite (ES i Hi L). exact D6.
    + specialize (EP i Hi L). unfold qmin, qmax in *.
      destruct (qleb (mget BN i 2) q0) eqn:Q1; destruct (qleb (mget BN' i 2) q0) eqn:Q2; qc_bool; split; qlra.
Qed.
Lemma eased_unserved n NR LP BLP BN BLP' BN' T g flow : eased n LP BLP BN BLP' BN' ->
  dispatch n NR LP BLP BN T g flow -> total_unserved n BN' g <= total_unserved n BN g.
Proof.
  intros [EA EL EB ES EP] [D1 D2 D3 D4 D5 D6]. unfold total_unserved. apply qs_le. intros i Hi. specialize (D6 i Hi). unfold unserved.
  destruct (Qclt_le_dec (mget BN i 2) q0) as [L|L].
  - rewrite (ES i Hi L). apply Qcle_refl.
  - specialize (EP i Hi L). unfold qmin, qmax in *.
    destruct (qleb (mget BN i 2) q0) eqn:Q1; destruct (qleb (mget BN' i 2) q0) eqn:Q2; qc_bool; qlra.
Qed.
(** No dispatch curtails less than total deficit minus total surplus. *)
Lemma dispatch_least n NR LP BLP BN T g flow : lines_in n LP -> dispatch n NR LP BLP BN T g flow ->
  - qs n (fun i => mget BN i 2) <= total_unserved n BN g /\ q0 <= total_unserved n BN g.
Proof.
  intros LI [D1 D2 D3 D4 D5 D6].
  assert (Z : qs n g = q0). { rewrite <- (outflow_total n LP flow LI). apply qs_ext. intros i Hi. symmetry. auto. }
  split.
  - assert (A : qs n (fun i => g i - mget BN i 2) <= total_unserved n BN g).
    { unfold total_unserved. apply qs_le. intros i Hi. specialize (D6 i Hi). unfold unserved, qmin, qmax in *.
      destruct (qleb (mget BN i 2) q0) eqn:Q; qc_bool; qlra. }
    rewrite qs_minus in A. rewrite Z in A. qlra.
  - unfold total_unserved. apply qs_nonneg. intros i Hi. specialize (D6 i Hi). unfold unserved. destruct (qleb _ _); qlra.
Qed.
Lemma surplus_deficit l : deficit l - surplus l = - qsum l.
Proof.
  unfold deficit, surplus. induction l as [|x l IH]; [apply Qc_is_canon; reflexivity|]. cbn [map]. rewrite !qsum_cons.
  assert (X : qmax (- x) q0 - qmax x q0 = - x). { unfold qmax. destruct (qleb (- x) q0) eqn:A; destruct (qleb x q0) eqn:B; qc_bool; qlra. }
  transitivity ((qmax (- x) q0 - qmax x q0) + (qsum (map (fun e => qmax (- e) q0) l) - qsum (map (fun e => qmax e q0) l))); [qring|].
  rewrite X, IH. qring.
Qed.

Lemma accepted_total n m NR LT lp BN LP BLP BLP0 BB ZB o :
  state_ok n NR LT LP BLP BLP0 -> base_ok n LT LP BLP0 BB ZB -> shape n m BN -> (4 < m)%nat ->
  tm2 lp BN LP BLP BLP0 BB ZB LT NR true = Ok o -> t_accepted o = true ->
  qs n (fun i => mget (t_BN o) i 2) = qmax (- qs n (fun i => mget BN i 2)) q0.
Proof.
  intros SO BO SH M E A. pose proof (C31_accepted_solution n m NR LT lp BN LP BLP BLP0 BB ZB true o SO BO SH M ltac:(discriminate) E A) as (_ & _ & C & _).
  pose proof (so_order _ _ _ _ _ _ SO) as OK. destruct OK as (L & ND & RG & Hn & LAST). assert (OK : order_ok n NR LT) by (repeat split; auto).
  pose proof (C30_curtailment_total n NR (map (fun k => mget BN k 2) LT) (mcol BN 1) LT true OK) as T.
  rewrite map_length, L in T. unfold mcol in T at 1. rewrite map_length in T. specialize (T eq_refl (proj1 SH) ltac:(discriminate)).
  destruct (assign _ _ _ _) as [INJ1 LODC] eqn:EA. destruct C as (_ & C2). destruct T as (T & _).
  assert (LL : length LODC = n).
  { pose proof (C30_balanced n NR (map (fun k => mget BN k 2) LT) (mcol BN 1) LT true OK) as B. rewrite map_length, L in B. unfold mcol in B at 1. rewrite map_length in B.
    specialize (B eq_refl (proj1 SH) ltac:(discriminate)). rewrite EA in B. apply B. }
  rewrite (qs_ext n _ (vget LODC)) by exact C2. transitivity (qsum LODC). { rewrite qsum_qs, LL. reflexivity. }
  rewrite T, surplus_deficit. f_equal. f_equal.
  rewrite qsum_qs, map_length, L. rewrite <- (qs_reindex n NR LT OK (fun k => mget BN k 2)). apply qs_ext. intros i Hi. unfold vget.
  rewrite (nth_indep _ q0 (mget BN 0 2)) by (rewrite map_length; lia). apply (map_nth (fun k => mget BN k 2)).
Qed.

Lemma eased_result fuel n m NR LT BN LP BLP BLP0 BB ZB BLP' BN' o T g flow :
  state_ok n NR LT LP BLP' BLP0 -> base_ok n LT LP BLP0 BB ZB -> (1 < n)%nat -> shape n m BN' -> (4 < m)%nat ->
  (forall a c, (a < n - 1)%nat -> (c < n - 1)%nat -> mget BB a c = reduced LT (combine LP BLP0) a c) ->
  (forall k, (k < length LP)%nat -> fst (nth k LP (0%nat, 0%nat)) = NR \/ snd (nth k LP (0%nat, 0%nat)) = NR -> mget BLP' k 0 = vget BLP0 k) ->
  (forall k, (k < length LP)%nat -> q0 <= mget BLP' k 1 /\ q0 <= mget BLP' k 2) ->
  (forall i, (i < n)%nat -> q0 <= mget BN' i 3 /\ q0 <= mget BN' i 4) ->
  (forall d, connls (lp_matrix n NR LT LP BLP' BLP0 BB ZB) (mcol BN' 2) (n - 1) NR LT BLP' LP BN' = Ok d -> well_scaled d) ->
  tm2 (lp_nls fuel LP LT NR) BN' LP BLP' BLP0 BB ZB LT NR true = Ok o ->
  eased n LP BLP BN BLP' BN' -> dispatch n NR LP BLP BN T g flow ->
  qs n (fun i => mget (t_BN o) i 2) <= total_unserved n BN g + qq 1 10000000 * lp_size n LP BLP' BN' T.
Proof.
  intros SO BO Hn SH M HB RF CP LM WS E EA D.
  pose proof (eased_dispatch _ _ _ _ _ _ _ _ _ _ EA D) as D'. pose proof (eased_unserved _ _ _ _ _ _ _ _ _ _ EA D) as U.
  assert (SZ : q0 <= qq 1 10000000 * lp_size n LP BLP' BN' T).
  { assert (NN : forall x, q0 <= x -> q0 <= qq 1 10000000 * x).
    { intros x X. assert (P : q0 <= qq 1 10000000) by (apply qleb_iff; vm_compute; reflexivity). revert P. generalize (qq 1 10000000). intros a P. qnra. }
    apply NN. unfold lp_size.
    assert (q0 <= qs n (fun i => qabs (T i))) by (apply qs_nonneg; intros; apply abs_nonneg).
    assert (q0 <= qs n (fun i => qabs (mget BN' i 2))) by (apply qs_nonneg; intros; apply abs_nonneg).
    assert (q0 <= qs (length LP) (fun k => mget BLP' k 1 + mget BLP' k 2)) by (apply qs_nonneg; intros k Hk; destruct (CP k Hk); qlra).
    assert (q0 <= qs n (fun i => mget BN' i 3 + mget BN' i 4)) by (apply qs_nonneg; intros i Hi; destruct (LM i Hi); qlra). qlra. }
  destruct (t_accepted o) eqn:AC.
  - rewrite (accepted_total n m NR LT _ BN' LP BLP' BLP0 BB ZB o SO BO SH M E AC).
    destruct (dispatch_least n NR LP BLP' BN' T g flow (so_lines _ _ _ _ _ _ SO) D') as (A & B).
    unfold qmax. destruct (qleb _ _) eqn:Q; qlra.
  - destruct (C78_least_curtailment fuel n m NR LT BN' LP BLP' BLP0 BB ZB o (so_order _ _ _ _ _ _ SO) Hn (so_lines _ _ _ _ _ _ SO) (so_len _ _ _ _ _ _ SO) (so_len0 _ _ _ _ _ _ SO)
      SH M (bo_BB _ _ _ _ _ _ BO) HB RF CP LM WS E AC) as (T2 & g2 & e2 & CG & OPT).
    specialize (OPT T g flow D').
    assert (ES : q0 <= qs n e2) by (apply qs_nonneg; exact (cg_slack _ _ _ _ _ _ _ _ _ _ _ _ CG)).
    assert (LE : qs n (fun i => mget (t_BN o) i 2) <= total_unserved n BN' g2).
    { unfold total_unserved. apply qs_le. intros i Hi. pose proof (cg_range _ _ _ _ _ _ _ _ _ _ _ _ CG i Hi) as R.
      assert (NN : q0 <= if qleb (mget BN' i 2) q0 then unserved BN' g2 i else q0) by (unfold unserved; destruct (qleb _ _); qlra).
      destruct (Nat.eq_dec i (nth 0 LT 0%nat)) as [->|NE].
      - pose proof (cg_first _ _ _ _ _ _ _ _ _ _ _ _ CG) as (_ & F). rewrite F. exact NN.
      - destruct (cg_stored _ _ _ _ _ _ _ _ _ _ _ _ CG i Hi NE) as (_ & F). rewrite F. destruct (qltb _ _) eqn:Q; [|exact NN].
        apply (proj1 (qltb_iff _ _)) in Q. rewrite (proj2 (qleb_iff _ _) (Qclt_le_weak _ _ Q)). apply Qcle_refl. }
    qlra.
Qed.

(** A directly solved hour is a dispatch. *)
Lemma accepted_dispatch n m NR LT lp BN LP BLP BLP0 BB ZB o :
  state_ok n NR LT LP BLP BLP0 -> base_ok n LT LP BLP0 BB ZB -> shape n m BN -> (4 < m)%nat ->
  (forall k, (k < length LP)%nat -> q0 <= mget BLP k 1 /\ q0 <= mget BLP k 2) ->
  (forall i, (i < n)%nat -> q0 <= mget BN i 3 /\ q0 <= mget BN i 4) ->
  tm2 lp BN LP BLP BLP0 BB ZB LT NR true = Ok o -> t_accepted o = true ->
  exists T, dispatch n NR LP BLP BN T (fun i => mget (t_BN o) i 1) (vget (t_flow o)) /\
    total_unserved n BN (fun i => mget (t_BN o) i 1) = qs n (fun i => mget (t_BN o) i 2).
Proof.
  intros SO BO SH M CP LM E A.
  pose proof (C31_accepted_solution n m NR LT lp BN LP BLP BLP0 BB ZB true o SO BO SH M ltac:(discriminate) E A) as (LF & DC & C & _).
  pose proof (so_order _ _ _ _ _ _ SO) as OK. pose proof (proj1 OK) as L.
  assert (IFF := C31_accepted_iff_within_limits n m NR LT lp BN LP BLP BLP0 BB ZB true (vget (t_flow o)) SO BO SH M ltac:(discriminate) CP LM).
  pose proof (C30_balanced n NR (map (fun k => mget BN k 2) LT) (mcol BN 1) LT true OK) as B. rewrite map_length, L in B. unfold mcol in B at 1. rewrite map_length in B.
  specialize (B eq_refl (proj1 SH) ltac:(discriminate)).
  destruct (assign (map (fun k => mget BN k 2) LT) (mcol BN 1) LT true) as [INJ1 LODC] eqn:EA. cbn [fst] in IFF.
  destruct C as (C1 & C2). destruct B as (B1 & B2 & _ & B4 & B5 & _).
  destruct IFF as (_ & W).
  { intros inj HI. destruct DC as (T & T0 & TF & TI). exists T. split; [exact T0|]. split; [exact TF|]. intros i Hi. rewrite TI by exact Hi.
    destruct (at_surj n NR LT OK i Hi) as (a & Ha & <-). unfold at_. cbv beta; rewrite C1, HI by exact Ha. reflexivity. }
  specialize (W (ex_intro _ o (conj E (conj A (fun k _ => eq_refl))))). destruct W as (W1 & W2).
  destruct DC as (T & T0 & TF & TI). exists T.
  assert (V : forall a, (a < n)%nat -> vget (map (fun k => mget BN k 2) LT) a = mget BN (nth a LT 0%nat) 2).
  { intros a Ha. unfold vget. rewrite (nth_indep _ q0 (mget BN 0 2)) by (rewrite map_length; lia). apply (map_nth (fun k => mget BN k 2)). }
  set (INJ := map (fun k => mget BN k 2) LT) in *.
  assert (SP : q0 <= surplus INJ /\ q0 <= deficit INJ).
  { unfold surplus, deficit. split; generalize INJ; intros l; induction l as [|x l IH]; cbn [map]; try apply Qcle_refl; rewrite qsum_cons; unfold qmax at 1; destruct (qleb _ _) eqn:Q; qc_bool; qlra. }
  assert (PT : forall i, (i < n)%nat -> qmin (mget BN i 2) q0 <= mget (t_BN o) i 1 <= qmax (mget BN i 2) q0 /\
     (if qleb (mget BN i 2) q0 then unserved BN (fun i => mget (t_BN o) i 1) i else q0) = mget (t_BN o) i 2).
  { intros i Hi. destruct (at_surj n NR LT OK i Hi) as (a & Ha & <-). unfold at_. rewrite C1 by exact Ha. rewrite C2 by (apply (at_lt n NR LT OK); exact Ha). unfold unserved. cbv beta. rewrite ?C1 by exact Ha.
    rewrite <- !V by exact Ha. destruct SP as (SP & SD).
    destruct (Qclt_le_dec (surplus INJ) (deficit INJ)) as [Q|Q].
    - destruct (B5 Q eq_refl a Ha) as (X1 & X2 & X3). rewrite X1. unfold qmin, qmax. destruct (qleb (vget INJ a) q0) eqn:Q1; qc_bool.
      + specialize (X3 Q1). split; [|qring]. revert X3 SP Q Q1. generalize (surplus INJ) (deficit INJ) (vget INJ a) (vget INJ1 a). clear. intros s d x y X3 SP Q Q1. split.
        * destruct (Qclt_le_dec y x) as [K|K]; [|exact K]. exfalso. qnra.
        * destruct (Qclt_le_dec q0 y) as [K|K]; [|exact K]. exfalso. qnra.
      + rewrite (X2 Q1). split; [split; qlra|qring].
    - destruct (B4 Q (nth a LT 0%nat) ltac:(apply (at_lt n NR LT OK); exact Ha)) as (X0 & _). destruct (B4 Q a Ha) as (_ & X2 & X3).
      rewrite X0. unfold qmin, qmax. destruct (qleb (vget INJ a) q0) eqn:Q1; qc_bool.
      + rewrite (X2 Q1). split; [split; qlra|qring].
      + specialize (X3 Q1). split; [|reflexivity].
        assert (POS : vget INJ a <= surplus INJ).
        { unfold surplus. clear - Q1 Ha L. assert (LA : (a < length INJ)%nat) by (unfold INJ; rewrite map_length; lia). clearbody INJ. clear -Q1 LA. revert a Q1 LA. induction INJ as [|x l IH]; intros a Q1 LA; [cbn in LA; lia|].
          cbn [map]. rewrite qsum_cons.
          assert (S0 : q0 <= qsum (map (fun e => qmax e q0) l)) by (clear; induction l as [|y l IH]; cbn [map]; [apply Qcle_refl|]; rewrite qsum_cons; unfold qmax at 1; destruct (qleb _ _) eqn:Q; qc_bool; qlra).
          destruct a as [|a].
          - change (vget (x :: l) 0) with x in *. unfold qmax at 1. destruct (qleb x q0) eqn:K; qc_bool; qlra.
          - change (vget (x :: l) (S a)) with (vget l a) in *. specialize (IH a Q1 ltac:(cbn in LA; lia)). unfold qmax at 1. destruct (qleb x q0) eqn:K; qc_bool; qlra. }
        revert X3 SD Q Q1 POS. generalize (surplus INJ) (deficit INJ) (vget INJ a) (vget INJ1 a). clear. intros s d x y X3 SD Q Q1 POS. split.
        * destruct (Qclt_le_dec y q0) as [K|K]; [|exact K]. exfalso. qnra.
        * destruct (Qclt_le_dec x y) as [K|K]; [|exact K]. exfalso. qnra. }
  split.
  - constructor; try assumption.
    + intros i Hi. rewrite <- TI by exact Hi. apply W2, Hi.
    + intros i Hi. apply (PT i Hi).
  - unfold total_unserved. apply qs_ext. intros i Hi. apply (PT i Hi).
Qed.

Lemma eased_state n NR LT LP BLP BLP0 BN BLP' BN' : state_ok n NR LT LP BLP BLP0 -> length BLP' = length LP -> eased n LP BLP BN BLP' BN' -> state_ok n NR LT LP BLP' BLP0.
Proof.
  intros [S1 S2 S3 S4 S5 S6 S7] L [EA _ _ _ _]. constructor; auto.
  - intros k Hk. rewrite EA by exact Hk. auto.
  - intros k Hk. rewrite EA by exact Hk. auto.
  - replace (wlines LP BLP') with (wlines LP BLP); [exact S7|]. unfold wlines. f_equal.
    apply (nth_ext _ _ q0 q0); unfold mcol; rewrite !map_length; [lia|]. intros k Hk. rewrite S3 in Hk. specialize (EA k Hk). unfold mget in EA.
    rewrite (nth_indep _ q0 (nth 0 (@nil Qc) q0)) by (rewrite map_length; lia). rewrite (map_nth (fun r => nth 0 r q0)).
    rewrite (nth_indep (map _ BLP') q0 (nth 0 (@nil Qc) q0)) by (rewrite map_length; lia). rewrite (map_nth (fun r => nth 0 r q0)). now symmetry.
Qed.

Lemma eased_accepted lp lp' n m m' NR LT BN LP BLP BLP0 BB ZB BLP' BN' o :
  state_ok n NR LT LP BLP BLP0 -> base_ok n LT LP BLP0 BB ZB -> shape n m BN -> (4 < m)%nat -> shape n m' BN' -> (4 < m')%nat ->
  (forall k, (k < length LP)%nat -> q0 <= mget BLP k 1 /\ q0 <= mget BLP k 2) ->
  (forall i, (i < n)%nat -> q0 <= mget BN i 3 /\ q0 <= mget BN i 4) ->
  length BLP' = length LP -> eased n LP BLP BN BLP' BN' -> (forall i, (i < n)%nat -> mget BN' i 1 = mget BN i 1 /\ mget BN' i 2 = mget BN i 2) ->
  tm2 lp BN LP BLP BLP0 BB ZB LT NR true = Ok o -> t_accepted o = true ->
  exists o', tm2 lp' BN' LP BLP' BLP0 BB ZB LT NR true = Ok o' /\ t_accepted o' = true /\
    (forall k, (k < length LP)%nat -> vget (t_flow o') k = vget (t_flow o) k) /\
    (forall i, (i < n)%nat -> mget (t_BN o') i 1 = mget (t_BN o) i 1 /\ mget (t_BN o') i 2 = mget (t_BN o) i 2).
Proof.
  intros SO BO SH M SH' M' CP LM LB EA SAME E A.
  pose proof (eased_state _ _ _ _ _ _ _ _ _ SO LB EA) as SO'.
  assert (CP' : forall k, (k < length LP)%nat -> q0 <= mget BLP' k 1 /\ q0 <= mget BLP' k 2) by (intros k Hk; destruct (ea_lines _ _ _ _ _ _ EA k Hk), (CP k Hk); split; qlra).
  assert (LM' : forall i, (i < n)%nat -> q0 <= mget BN' i 3 /\ q0 <= mget BN' i 4) by (intros i Hi; destruct (ea_areas _ _ _ _ _ _ EA i Hi), (LM i Hi); split; qlra).
  pose proof (so_order _ _ _ _ _ _ SO) as OK.
  pose proof (C31_accepted_solution n m NR LT lp BN LP BLP BLP0 BB ZB true o SO BO SH M ltac:(discriminate) E A) as (LF & DC & C & _).
  assert (IFF := C31_accepted_iff_within_limits n m NR LT lp BN LP BLP BLP0 BB ZB true (vget (t_flow o)) SO BO SH M ltac:(discriminate) CP LM).
  assert (IFF' := C31_accepted_iff_within_limits n m' NR LT lp' BN' LP BLP' BLP0 BB ZB true (vget (t_flow o)) SO' BO SH' M' ltac:(discriminate) CP' LM').
  assert (EI : map (fun k => mget BN' k 2) LT = map (fun k => mget BN k 2) LT).
  { apply map_ext_in. intros k IN. apply SAME. destruct OK as (_ & _ & RG & _). auto. }
  assert (EL : mcol BN' 1 = mcol BN 1).
  { apply (nth_ext _ _ q0 q0); unfold mcol; rewrite !map_length; [rewrite (proj1 SH), (proj1 SH'); reflexivity|]. intros k Hk. rewrite (proj1 SH') in Hk. destruct (SAME k Hk) as (X & _). unfold mget in X.
    rewrite (nth_indep _ q0 (nth 1 (@nil Qc) q0)) by (rewrite map_length, (proj1 SH'); lia). rewrite (map_nth (fun r => nth 1 r q0)).
    rewrite (nth_indep (map _ BN) q0 (nth 1 (@nil Qc) q0)) by (rewrite map_length, (proj1 SH); lia). rewrite (map_nth (fun r => nth 1 r q0)). exact X. }
  rewrite EI, EL in IFF'.
  destruct (assign (map (fun k => mget BN k 2) LT) (mcol BN 1) LT true) as [INJ1 LODC] eqn:EAs. cbn [fst] in IFF, IFF'. destruct C as (C1 & C2).
  assert (SOL : forall inj, (forall a, (a < n)%nat -> inj (nth a LT 0%nat) = vget INJ1 a) -> dc_solution n NR LP (fun k => mget BLP k 0) inj (vget (t_flow o))).
  { intros inj HI. destruct DC as (T & T0 & TF & TI). exists T. split; [exact T0|]. split; [exact TF|]. intros i Hi. rewrite TI by exact Hi.
    destruct (at_surj n NR LT OK i Hi) as (a & Ha & <-). unfold at_. rewrite C1, HI by exact Ha. reflexivity. }
  destruct (IFF SOL) as (_ & W). specialize (W (ex_intro _ o (conj E (conj A (fun k _ => eq_refl))))). destruct W as (W1 & W2).
  destruct IFF' as (W & _).
  { intros inj HI. destruct (SOL inj HI) as (T & T0 & TF & TI). exists T. split; [exact T0|]. split; [|exact TI].
    intros k Hk. rewrite (ea_adm _ _ _ _ _ _ EA k Hk). auto. }
  destruct W as (o' & E' & A' & F').
  { split.
    - intros k Hk. destruct (ea_lines _ _ _ _ _ _ EA k Hk), (W1 k Hk). split; qlra.
    - intros i Hi. destruct (ea_areas _ _ _ _ _ _ EA i Hi), (W2 i Hi). split; qlra. }
  exists o'. split; [exact E'|]. split; [exact A'|]. split; [exact F'|].
  pose proof (C31_accepted_solution n m' NR LT lp' BN' LP BLP' BLP0 BB ZB true o' SO' BO SH' M' ltac:(discriminate) E' A') as (_ & _ & C' & _).
  rewrite EI, EL, EAs in C'. destruct C' as (C1' & C2'). intros i Hi. split.
  - destruct (at_surj n NR LT OK i Hi) as (a & Ha & <-). unfold at_. rewrite C1, C1' by exact Ha. reflexivity.
  - rewrite C2, C2' by exact Hi. reflexivity.
Qed.
