(** Proofs about the runs of [linp]: the invariant of a pass and the optimality of the
    last basis. *)
From Coq Require Import Field.
From Verif Require Import Base BaseProofs Sums LoadModel LoadSpec NetModel NetSpec MatProofs LinpackModel LinpackProofs LpModel LpSpec LpProofs.
Open Scope Qc_scope.

Section RUN.
Variable d : lpdata.
Hypothesis OK : lp_ok d.
Let M := d_M d. Let N1 := d_N1 d. Let A := d_A d. Let b := d_BS d.
Let X1 := d_XOBI1 d.
Let MP : (0 < M)%nat := lo_M d OK.
Notation start := (linp_start M (d_XOBI0 d) (d_IBAS d) b).

Definition costs (ph2 : bool) (k : nat) : Qc := if ph2 then cost2 d k else d_XOBI0 d k.
Record good (s : sx) : Prop := mkGood {
  g_inv : inv M A b s;
  g_xob : forall k, s_XOB s k = costs (s_PH2 s) k;
  g_pos : forall i, (i < M)%nat -> q0 <= vget (s_BS s) i;
  g_rng : forall k, In k (s_IBAS s) -> (k < d_N d)%nat }.
Definition scaled (s : sx) : Prop :=
  (forall k i, (k < N1)%nat -> (i < M)%nat -> let p := qs M (fun j => mget (s_TAB s) i j * A j k) in p <= q0 \/ TOL < p) /\
  (forall i, (i < M)%nat -> vget (s_BS s) i = q0 \/ TINY <= qabs (vget (s_BS s) i)).

Lemma costs_pos ph k : q0 <= costs ph k.
Proof. unfold costs, cost2. destruct ph; [destruct (k <? d_N1 d)%nat; [apply (lo_cost1 d OK)|apply (lo_cost0 d OK)]|apply (lo_cost0 d OK)]. Qed.

Definition fresh (s : sx) : sx := mkSx (s_IBAS s) (s_IBASF s) (s_TAB s) (s_BS s) (s_CB s) (s_XOB s) true (s_PH2 s) (s_IPIV s).
Lemma fresh_good s : good s -> good (fresh s).
Proof. intros [[] G2 G3 G4]. constructor; [constructor|..]; assumption. Qed.

Lemma pass_form s : inv M A b s -> linp_pass M N1 A X1 b s =
  match entering M N1 A s with
  | Some k => do s' <- pivot M A k s; Ok (inl s')
  | None => Ok (match next_phase M N1 X1 (fresh s) with Some s' => inl s' | None => inr (fresh s) end)
  end.
Proof.
  intros I. unfold linp_pass. fold (entering M N1 A s). destruct (entering M N1 A s) as [k|] eqn:E; [reflexivity|].
  destruct (s_IR s) eqn:R.
  - replace (fresh s) with s; [reflexivity|]. unfold fresh. rewrite <- R. destruct s; reflexivity.
  - rewrite (reinvert_form M A b MP s I). fold (fresh s). cbn [s_CB s_TAB s_XOB s_IBASF fresh]. fold (entering M N1 A s). now rewrite E.
Qed.

(** *** The start *)
Lemma start_good : good start.
Proof.
  assert (LI : length (d_IBAS d) = M) by apply (lo_len d OK).
  assert (U : forall i j, (i < M)%nat -> (j < M)%nat -> AB A (d_IBAS d) i j = if Nat.eqb i j then q1 else q0) by exact (lo_unit d OK).
  constructor; [constructor|..]; unfold linp_start; cbn [s_IBAS s_IBASF s_TAB s_BS s_CB s_XOB s_PH2].
  - exact LI.
  - apply (lo_nodup d OK).
  - intros k. rewrite existsb_exists. split; [intros (x & H & E); apply Nat.eqb_eq in E; now subst|intros H; exists k; split; [exact H|apply Nat.eqb_refl]].
  - apply shape_mtab.
  - intros i j Hi Hj. rewrite (qs_ext M _ (fun k => if Nat.eqb k i then AB A (d_IBAS d) k j else q0)).
    + rewrite (qs_delta M i (fun k => AB A (d_IBAS d) k j)) by exact Hi. now apply U.
    + intros k Hk. rewrite mget_mtab by assumption. rewrite Nat.eqb_sym. destruct (Nat.eqb k i); qring.
  - intros i j Hi Hj. rewrite (qs_ext M _ (fun k => if Nat.eqb k j then AB A (d_IBAS d) i k else q0)).
    + rewrite (qs_delta M j (fun k => AB A (d_IBAS d) i k)) by exact Hj. now apply U.
    + intros k Hk. rewrite mget_mtab by assumption. destruct (Nat.eqb k j); qring.
  - apply (lo_BS d OK).
  - intros i Hi. rewrite (qs_ext M _ (fun j => if Nat.eqb j i then vget b j else q0)).
    + now rewrite (qs_delta M i (vget b)).
    + intros k Hk. rewrite mget_mtab by assumption. rewrite Nat.eqb_sym. destruct (Nat.eqb k i); qring.
  - intros i Hi. exact (vget_vtab M (fun i => d_XOBI0 d (nth i (d_IBAS d) 0%nat)) i Hi).
  - now rewrite map_length, seq_length.
  - reflexivity.
  - apply (lo_rhs d OK).
  - apply (lo_range d OK).
Qed.

(** *** A pivot *)
Lemma qs_neg_term n f : qs n f < q0 -> exists i, (i < n)%nat /\ f i < q0.
Proof.
  induction n as [|n IH]; intros H.
  - exfalso. unfold qs in H. cbn in H. discriminate H.
  - rewrite qs_S in H. destruct (Qclt_le_dec (f n) q0) as [L|L]; [exists n; auto|]. destruct IH as (i & Hi & F); [|exists i; auto]. qlra.
Qed.
Lemma inv_pos x : q0 < x -> q0 < / x.
Proof.
  intros H. assert (NZ : x <> 0) by (intros E; rewrite E in H; discriminate H).
  apply Qcnot_le_lt. intros G. pose proof (Qcmult_le_compat_r _ _ x G (Qclt_le_weak _ _ H)) as G2. rewrite Qcmult_comm, Qcmult_inv_r in G2 by exact NZ.
  replace (q0 * x) with q0 in G2 by qring. apply qleb_iff in G2. discriminate G2.
Qed.
Lemma mul_pos x y : q0 <= x -> q0 <= y -> q0 <= x * y.
Proof. intros Hx Hy. pose proof (Qcmult_le_compat_r _ _ _ Hx Hy) as H. replace (q0 * y) with q0 in H by qring. exact H. Qed.

Lemma leaving s k : good s -> scaled s -> (k < N1)%nat -> redcost M A s k < q0 ->
  exists r p, ratio M (mc M k (s_TAB s) A) (s_BS s) (s_XOB s) (s_IBAS s) (s_PH2 s) = Some (r, p) /\ (p < M)%nat /\
    TOL < vget (mc M k (s_TAB s) A) p /\ forall i, (i < M)%nat -> TOL < vget (mc M k (s_TAB s) A) i ->
      vget (s_BS s) p / vget (mc M k (s_TAB s) A) p <= vget (s_BS s) i / vget (mc M k (s_TAB s) A) i.
Proof.
  intros G (S1 & S2) Hk RC. pose proof (ratio_spec M (mc M k (s_TAB s) A) (s_BS s) (s_XOB s) (s_IBAS s) (s_PH2 s) (g_pos s G) S2 M (le_n M)) as R.
  unfold ratio. set (o := fold_left _ (seq 0 M) None) in *. clearbody o. destruct o as [[r p]|].
  - destruct R as (A1 & A2 & A3 & A4). exists r, p. repeat split; auto. intros i Hi T. rewrite <- A3. auto.
  - exfalso. unfold redcost in RC. rewrite (rc_nth M A b s k (g_inv s G)) in RC.
    assert (NP : forall i, (i < M)%nat -> vget (mc M k (s_TAB s) A) i <= q0).
    { intros i Hi. rewrite mc_nth by exact Hi. destruct (S1 k i Hk Hi) as [L|L]; [exact L|]. exfalso. apply (Qclt_not_le _ _ L). specialize (R i Hi). rewrite mc_nth in R by exact Hi. exact R. }
    assert (SP : q0 <= qs M (fun i => - (vget (s_CB s) i * vget (mc M k (s_TAB s) A) i))).
    { apply qs_nonneg. intros i Hi. replace (- (vget (s_CB s) i * vget (mc M k (s_TAB s) A) i)) with (vget (s_CB s) i * - vget (mc M k (s_TAB s) A) i) by ring.
      apply mul_pos; [rewrite (i_cb _ _ _ s (g_inv s G) i Hi), (g_xob s G); apply costs_pos|]. specialize (NP i Hi). qlra. }
    rewrite (qs_ext M _ (fun i => - q1 * (vget (s_CB s) i * vget (mc M k (s_TAB s) A) i))) in SP by (intros; qring). rewrite qs_scale in SP.
    pose proof (costs_pos (s_PH2 s) k) as XP. rewrite <- (g_xob s G) in XP.
    set (U := qs M (fun i => vget (s_CB s) i * vget (mc M k (s_TAB s) A) i)) in *. replace (- q1 * U) with (- U) in SP by qring. clearbody U. qlra.
Qed.

Lemma pivot_ok s k : good s -> scaled s -> (k < N1)%nat -> s_IBASF s k = false -> redcost M A s k < q0 ->
  exists p, pivot M A k s = Ok (pivoted M A k p s) /\ (p < M)%nat /\ TOL < vget (mc M k (s_TAB s) A) p /\ good (pivoted M A k p s).
Proof.
  intros G S Hk HF RC. destruct (leaving s k G S Hk RC) as (r & p & E & Hp & T & MIN). exists p.
  rewrite pivot_form, E. cbn [bind snd]. split; [reflexivity|]. split; [exact Hp|]. split; [exact T|].
  set (P := vget (mc M k (s_TAB s) A)) in *. assert (T0 : q0 < P p) by (eapply Qclt_trans; [apply tol_pos|exact T]).
  assert (PP : P p <> q0) by (intros X; rewrite X in T0; apply qltb_iff in T0; discriminate T0).
  constructor.
  - exact (pivot_inv M A b s k p (g_inv s G) Hp PP HF).
  - intros j. cbn [pivoted s_XOB s_PH2]. apply (g_xob s G).
  - intros i Hi. rewrite (piv_BS M A s k p PP i Hi). fold P. pose proof (Qclt_le_weak _ _ (inv_pos _ T0)) as IP. destruct (Nat.eqb i p).
    + unfold Qcdiv. apply mul_pos; [apply (g_pos s G p Hp)|exact IP].
    + pose proof (g_pos s G i Hi) as Bi. pose proof (g_pos s G p Hp) as Bp.
      destruct S as (S1 & _). specialize (S1 k i Hk Hi). cbv zeta in S1. rewrite <- (mc_nth M A k (s_TAB s) i Hi) in S1. fold P in S1. destruct S1 as [L|L].
      * assert (H : q0 <= vget (s_BS s) p * (- P i * / P p)) by (apply mul_pos; [exact Bp|apply mul_pos; [qlra|exact IP]]).
        replace (vget (s_BS s) i - vget (s_BS s) p * P i / P p) with (vget (s_BS s) i + vget (s_BS s) p * (- P i * / P p)) by (unfold Qcdiv; ring). qlra.
      * specialize (MIN i Hi L). fold P in MIN. assert (L0 : q0 < P i) by (eapply Qclt_trans; [apply tol_pos|exact L]).
        pose proof (Qcmult_le_compat_r _ _ (P i) MIN (Qclt_le_weak _ _ L0)) as H.
        replace (vget (s_BS s) i / P i * P i) with (vget (s_BS s) i) in H.
        2:{ change q0 with 0 in *. field. intros X; rewrite X in L0; discriminate L0. }
        replace (vget (s_BS s) p / P p * P i) with (vget (s_BS s) p * P i / P p) in H by (unfold Qcdiv; ring). qlra.
  - intros j Hj. cbn [pivoted s_IBAS] in Hj. apply In_nth with (d := 0%nat) in Hj. destruct Hj as (c & Hc & <-). rewrite upd_length in Hc.
    pose proof (i_len _ _ _ s (g_inv s G)) as LI. rewrite nth_upd_list by (rewrite LI; exact Hp). destruct (Nat.eqb c p).
    + pose proof (lo_N1 d OK). unfold N1 in Hk. lia.
    + apply (g_rng s G). now apply nth_In.
Qed.

Lemma phase_good s s' : good s -> next_phase M N1 X1 s = Some s' -> good s'.
Proof.
  intros G E. unfold next_phase in E. destruct (s_PH2 s) eqn:PH; [discriminate|]. injection E as <-. destruct G as [[] G2 G3 G4].
  assert (XE : forall k, (if (k <? N1)%nat then X1 k else s_XOB s k) = costs true k).
  { intros k. unfold costs, cost2. fold N1 X1. destruct (k <? N1)%nat; [reflexivity|]. rewrite G2, PH. reflexivity. }
  constructor; [constructor|..]; cbn [s_IBAS s_IBASF s_TAB s_BS s_CB s_XOB s_PH2]; auto.
  - intros i Hi. exact (vget_vtab M (fun i => if (nth i (s_IBAS s) 0 <? N1)%nat then X1 (nth i (s_IBAS s) 0%nat) else s_XOB s (nth i (s_IBAS s) 0%nat)) i Hi).
  - now rewrite map_length, seq_length.
Qed.

(** *** A pass *)
Lemma pass_good s : good s -> scaled s -> exists r, linp_pass M N1 A X1 b s = Ok r /\
  match r with
  | inl s' => good s'
  | inr s' => good s' /\ s_PH2 s' = true /\ forall k, (k < N1)%nat -> s_IBASF s' k = false -> - TOL < redcost M A s' k
  end.
Proof.
  intros G S. rewrite (pass_form s (g_inv s G)). pose proof (entering_spec M N1 A s) as E. destruct (entering M N1 A s) as [k|].
  - destruct E as (E1 & E2 & E3). destruct (pivot_ok s k G S E1 E2 E3) as (p & EP & _ & _ & G'). rewrite EP. cbn [bind]. eexists. split; [reflexivity|exact G'].
  - eexists. split; [reflexivity|]. destruct (next_phase M N1 X1 (fresh s)) as [s'|] eqn:NP.
    + exact (phase_good _ _ (fresh_good s G) NP).
    + split; [exact (fresh_good s G)|]. unfold next_phase in NP. destruct (s_PH2 (fresh s)) eqn:PH; [|discriminate]. split; [reflexivity|exact E].
Qed.

Hypothesis WS : well_scaled d.
Lemma visits_good s : visits d s -> good s.
Proof.
  unfold visits. fold M N1 A X1 b. remember start as s0 eqn:E0. intros H. induction H as [|s s1 s2 H IH E]; [subst; apply start_good|].
  specialize (IH E0). destruct (pass_good s1 IH) as (r & ER & R); [subst s; apply (WS s1 H)|]. rewrite E in ER. injection ER as <-. exact R.
Qed.
Lemma loop_good fuel s s' : visits d s -> linp_loop fuel M N1 A X1 b s = Ok s' ->
  good s' /\ s_PH2 s' = true /\ forall k, (k < N1)%nat -> s_IBASF s' k = false -> - TOL < redcost M A s' k.
Proof.
  revert s. induction fuel as [|f IH]; intros s V E; [discriminate|]. cbn [linp_loop] in E.
  destruct (pass_good s (visits_good s V) (WS s V)) as (r & ER & R). rewrite ER in E. cbn [bind] in E. destruct r as [s1|s1].
  - apply (IH s1); [|exact E]. exact (passes_more _ _ _ _ _ _ s s1 V ER).
  - injection E as <-. exact R.
Qed.
Lemma loop_total fuel s : visits d s -> linp_loop fuel M N1 A X1 b s = Err OutOfFuel \/ exists s', linp_loop fuel M N1 A X1 b s = Ok s'.
Proof.
  revert s. induction fuel as [|f IH]; intros s V; [now left|]. cbn [linp_loop].
  destruct (pass_good s (visits_good s V) (WS s V)) as (r & ER & R). rewrite ER. cbn [bind]. destruct r as [s1|s1]; [|right; eauto].
  apply IH. exact (passes_more _ _ _ _ _ _ s s1 V ER).
Qed.
End RUN.

(** *** Basic solutions *)
Lemma linp_final d fuel s : lp_ok d -> well_scaled d -> linp fuel d = Ok s ->
  good d s /\ s_PH2 s = true /\ forall k, (k < d_N1 d)%nat -> s_IBASF s k = false -> - TOL < redcost (d_M d) (d_A d) s k.
Proof. intros OK WS E. apply (loop_good d OK WS fuel _ s (passes_here _ _ _ _ _ _) E). Qed.

Section BASIC.
Variables (M N : nat) (A : arr2) (b : list Qc) (s : sx).
Hypothesis I : inv M A b s.
Hypothesis R : forall k, In k (s_IBAS s) -> (k < N)%nat.
Lemma ibas_lt i : (i < M)%nat -> (nth i (s_IBAS s) 0 < N)%nat.
Proof. intros H. apply R, nth_In. rewrite (i_len _ _ _ s I). exact H. Qed.
(** A sum over all variables is one over the basis. *)
Lemma basic_sum (c : nat -> Qc) : qs N (fun k => c k * basic_value M s k) = qs M (fun i => c (nth i (s_IBAS s) 0%nat) * vget (s_BS s) i).
Proof.
  unfold basic_value. rewrite (qs_ext N _ (fun k => qs M (fun i => if Nat.eqb k (nth i (s_IBAS s) 0%nat) then c k * vget (s_BS s) i else q0))).
  - rewrite qs_exchange. apply qs_ext. intros i Hi. exact (qs_delta N (nth i (s_IBAS s) 0%nat) (fun k => c k * vget (s_BS s) i) (ibas_lt i Hi)).
  - intros k Hk. rewrite qs_mul_l. apply qs_ext. intros i Hi. rewrite (Nat.eqb_sym k). destruct (Nat.eqb _ k); qring.
Qed.
Lemma basic_solves i : (i < M)%nat -> qs N (fun k => A i k * basic_value M s k) = vget b i.
Proof. intros H. rewrite basic_sum. exact (inv_solves M A b s I i H). Qed.
Lemma basic_nth i : (i < M)%nat -> basic_value M s (nth i (s_IBAS s) 0%nat) = vget (s_BS s) i.
Proof.
  intros H. unfold basic_value. rewrite (qs_ext M _ (fun j => if Nat.eqb j i then vget (s_BS s) j else q0)).
  - now rewrite (qs_delta M i (vget (s_BS s))).
  - intros j Hj. pose proof (i_nd _ _ _ s I) as ND. rewrite (NoDup_nth _ 0%nat) in ND. pose proof (i_len _ _ _ s I) as LI.
    destruct (Nat.eqb_spec (nth j (s_IBAS s) 0%nat) (nth i (s_IBAS s) 0%nat)) as [E|E], (Nat.eqb_spec j i) as [E2|E2]; auto; [|subst; congruence].
    exfalso. apply E2, ND; [rewrite LI; exact Hj|rewrite LI; exact H|exact E].
Qed.
Lemma basic_out k : ~ In k (s_IBAS s) -> basic_value M s k = q0.
Proof.
  intros H. unfold basic_value. apply qs_zero. intros i Hi. destruct (Nat.eqb_spec (nth i (s_IBAS s) 0%nat) k) as [E|E]; [|reflexivity].
  exfalso. apply H. rewrite <- E. apply nth_In. rewrite (i_len _ _ _ s I). exact Hi.
Qed.
Lemma basic_pos k : (forall i, (i < M)%nat -> q0 <= vget (s_BS s) i) -> q0 <= basic_value M s k.
Proof. intros H. unfold basic_value. apply qs_nonneg. intros i Hi. destruct (Nat.eqb _ k); [apply H, Hi|apply Qcle_refl]. Qed.
(** The dual argument. *)
Lemma basic_optimal N1 y : (forall k, (k < N1)%nat -> q0 <= y k) -> (forall i, (i < M)%nat -> qs N1 (fun k => A i k * y k) = vget b i) ->
  (forall k, (k < N1)%nat -> s_IBASF s k = false -> - TOL < redcost M A s k) ->
  qs N (fun k => s_XOB s k * basic_value M s k) <= qs N1 (fun k => s_XOB s k * y k) + TOL * qs N1 y.
Proof.
  intros YP YF EX. rewrite basic_sum. set (PY := vget (rm M (s_CB s) (s_TAB s))).
  assert (E : qs M (fun i => s_XOB s (nth i (s_IBAS s) 0%nat) * vget (s_BS s) i) = qs N1 (fun k => rc M (rm M (s_CB s) (s_TAB s)) A k * y k)).
  { transitivity (qs M (fun j => PY j * vget b j)).
    - rewrite (qs_ext M _ (fun i => qs M (fun j => vget (s_CB s) i * mget (s_TAB s) i j * vget b j))).
      + rewrite qs_exchange. apply qs_ext. intros j Hj. unfold PY. rewrite rm_nth by exact Hj. rewrite qs_mul_r. reflexivity.
      + intros i Hi. rewrite (i_val _ _ _ s I i Hi), <- (i_cb _ _ _ s I i Hi), qs_mul_l. apply qs_ext. intros; ring.
    - rewrite (qs_ext M _ (fun j => qs N1 (fun k => PY j * (A j k * y k)))) by (intros j Hj; rewrite <- (YF j Hj); apply qs_mul_l).
      rewrite qs_exchange. apply qs_ext. intros k Hk. unfold rc. change (qs M (fun i => PY i * (A i k * y k)) = qs M (fun i => PY i * A i k) * y k). rewrite qs_mul_r. apply qs_ext. intros; ring. }
  rewrite E, qs_mul_l, <- qs_plus. apply qs_le. intros k Hk.
  assert (L : rc M (rm M (s_CB s) (s_TAB s)) A k <= s_XOB s k + TOL).
  { destruct (s_IBASF s k) eqn:F.
    - apply (i_flag _ _ _ s I) in F. apply In_nth with (d := 0%nat) in F. destruct F as (i & Hi & <-). rewrite (i_len _ _ _ s I) in Hi.
      rewrite (rc_basic M A b s i I Hi). pose proof tol_pos. qlra.
    - specialize (EX k Hk F). unfold redcost in EX. qlra. }
  pose proof (Qcmult_le_compat_r _ _ _ L (YP k Hk)) as H. replace ((s_XOB s k + TOL) * y k) with (s_XOB s k * y k + TOL * y k) in H by ring. exact H.
Qed.
End BASIC.
