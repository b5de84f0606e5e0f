(** Runs of [linp]: the objective never increases within a phase; a run that does not end
    visits the same basis twice. *)
From Coq Require Import Field.
From Verif Require Import Base BaseProofs Sums LoadModel LoadSpec NetModel NetSpec MatProofs LpModel LpSpec LpProofs LpRun LpNet.
Open Scope Qc_scope.

(** *** after *)
Lemma after_visits d n s : after d n = Some s -> visits d s.
Proof.
  revert s. induction n as [|n IH]; intros s E; cbn [after] in E; [injection E as <-; apply passes_here|].
  destruct (after d n) as [s1|]; [|discriminate]. destruct (linp_pass _ _ _ _ _ s1) as [[s2|s2]|] eqn:EP; try discriminate. injection E as <-.
  exact (passes_more _ _ _ _ _ _ s1 s2 (IH s1 eq_refl) EP).
Qed.
Lemma loop_after d : forall n fuel, linp (n + fuel) d = match after d n with
  | Some s => linp_loop fuel (d_M d) (d_N1 d) (d_A d) (d_XOBI1 d) (d_BS d) s
  | None => linp (n + fuel) d end.
Proof.
  induction n as [|n IH]; intros fuel; [reflexivity|]. cbn [after]. specialize (IH (S fuel)). rewrite Nat.add_succ_r in IH. change (S n + fuel)%nat with (S (n + fuel)).
  destruct (after d n) as [s|]; [|reflexivity]. rewrite IH. cbn [linp_loop]. destruct (linp_pass _ _ _ _ _ s) as [[s2|s2]|]; reflexivity.
Qed.
Lemma endless_after d K : linp K d = Err OutOfFuel -> (forall s, visits d s -> exists r, linp_pass (d_M d) (d_N1 d) (d_A d) (d_XOBI1 d) (d_BS d) s = Ok r) ->
  forall n, (n <= K)%nat -> exists s, after d n = Some s.
Proof.
  intros E T. induction n as [|n IH]; intros Hn; [cbn; eauto|]. destruct (IH ltac:(lia)) as (s & A). cbn [after]. rewrite A.
  destruct (T s (after_visits d n s A)) as ([s2|s2] & EP); rewrite EP; [eauto|].
  exfalso. pose proof (loop_after d n (S (K - S n))) as L. replace (n + S (K - S n))%nat with K in L by lia. rewrite A in L. cbn [linp_loop] in L. rewrite EP in L. cbn [bind] in L. rewrite E in L. discriminate.
Qed.

(** *** Pigeonhole *)
Fixpoint tuples (m n : nat) : list (list nat) :=
  match m with O => [[]] | S m' => flat_map (fun a => map (cons a) (tuples m' n)) (seq 0 n) end.
Lemma tuples_in m n l : length l = m -> (forall k, In k l -> (k < n)%nat) -> In l (tuples m n).
Proof.
  revert l. induction m as [|m IH]; intros [|a l] L H; try discriminate; [now left|]. cbn [tuples]. apply in_flat_map. exists a. split; [apply in_seq; specialize (H a (or_introl eq_refl)); lia|].
  apply in_map, IH; [now injection L|]. intros k Hk. apply H. now right.
Qed.
Lemma flat_map_len {X Y} (f : X -> list Y) l c : (forall x, length (f x) = c) -> length (flat_map f l) = (length l * c)%nat.
Proof. intros H. induction l as [|x l IH]; [reflexivity|]. cbn [flat_map length]. rewrite app_length, H, IH. lia. Qed.
Lemma tuples_len m n : length (tuples m n) = (n ^ m)%nat.
Proof. induction m as [|m IH]; [reflexivity|]. cbn [tuples Nat.pow]. rewrite (flat_map_len _ _ (n ^ m)%nat); [now rewrite seq_length|]. intros a. now rewrite map_length. Qed.
Lemma not_nodup {X} (dec : forall x y : X, {x = y} + {x <> y}) (f : nat -> X) : forall m,
  (forall i j, (i < j)%nat -> (j < m)%nat -> f i <> f j) \/ exists i j, (i < j)%nat /\ (j < m)%nat /\ f i = f j.
Proof.
  induction m as [|m IH]; [left; intros; lia|]. destruct IH as [IH|(i & j & H1 & H2 & E)]; [|right; exists i, j; repeat split; auto; lia].
  assert (D : (forall i, (i < m)%nat -> f i <> f m) \/ exists i, (i < m)%nat /\ f i = f m).
  { clear IH. assert (G : forall q, (forall i, (i < q)%nat -> f i <> f m) \/ exists i, (i < q)%nat /\ f i = f m).
    { induction q as [|q IQ]; [left; intros; lia|]. destruct IQ as [IQ|(i & H & E)]; [|right; exists i; split; auto; lia].
      destruct (dec (f q) (f m)) as [E|N]; [right; exists q; split; auto|]. left. intros i Hi. destruct (Nat.eq_dec i q); [now subst|]. apply IQ. lia. }
    apply G. }
  destruct D as [D|(i & Hi & E)]; [|right; exists i, m; repeat split; auto]. left. intros i j H1 H2. destruct (Nat.eq_dec j m); [subst; now apply D|]. apply IH; lia.
Qed.
Lemma pigeonhole {X} (dec : forall x y : X, {x = y} + {x <> y}) (f : nat -> X) (l : list X) : (forall i, (i <= length l)%nat -> In (f i) l) ->
  exists i j, (i < j)%nat /\ (j <= length l)%nat /\ f i = f j.
Proof.
  intros H. destruct (not_nodup dec f (S (length l))) as [D|(i & j & H1 & H2 & E)]; [|exists i, j; repeat split; auto; lia].
  exfalso. assert (ND : NoDup (map f (seq 0 (S (length l))))).
  { apply (proj2 (NoDup_nth _ (f 0%nat))). intros i j Hi Hj E. rewrite map_length, seq_length in Hi, Hj. rewrite !map_nth in E. rewrite !seq_nth in E by assumption. cbn [Nat.add] in E.
    destruct (Nat.lt_trichotomy i j) as [L|[L|L]]; [|exact L|]; exfalso; [apply (D i j)|apply (D j i)]; auto. }
  assert (IN : incl (map f (seq 0 (S (length l)))) l). { intros x Hx. apply in_map_iff in Hx. destruct Hx as (i & <- & Hi). apply in_seq in Hi. apply H. lia. }
  pose proof (NoDup_incl_length ND IN) as L. rewrite map_length, seq_length in L. lia.
Qed.

Theorem endless_repeats : forall d, lp_ok d -> well_scaled d -> linp (2 * d_N d ^ d_M d) d = Err OutOfFuel ->
  exists i j s s', (i < j)%nat /\ (j <= 2 * d_N d ^ d_M d)%nat /\ after d i = Some s /\ after d j = Some s' /\ s_IBAS s = s_IBAS s' /\ s_PH2 s = s_PH2 s'.
Proof.
  intros d OK WS E.
  assert (T : forall s, visits d s -> exists r, linp_pass (d_M d) (d_N1 d) (d_A d) (d_XOBI1 d) (d_BS d) s = Ok r).
  { intros s V. destruct (pass_good d OK s (visits_good d OK WS s V) (WS s V)) as (r & ER & _). eauto. }
  pose proof (endless_after d _ E T) as AF. remember (2 * d_N d ^ d_M d)%nat as K eqn:EK.
  set (conf := fun n => match after d n with Some s => (s_IBAS s, s_PH2 s) | None => ([], false) end).
  set (all := list_prod (tuples (d_M d) (d_N d)) [true; false]).
  destruct (pigeonhole (fun x y : list nat * bool => ltac:(decide equality; [apply Bool.bool_dec|apply list_eq_dec, Nat.eq_dec])) conf all) as (i & j & H1 & H2 & EQ).
  - intros i Hi. unfold conf. assert (Li : (i <= K)%nat) by (unfold all in Hi; rewrite prod_length, tuples_len in Hi; cbn [length] in Hi; lia). destruct (AF i Li) as (s & ES). rewrite ES. pose proof (visits_good d OK WS s (after_visits d i s ES)) as G. unfold all. apply in_prod.
    + apply tuples_in; [apply (i_len _ _ _ s (g_inv _ _ G))|apply (g_rng _ _ G)].
    + destruct (s_PH2 s); [now left|right; now left].
  - unfold all in H2. rewrite prod_length, tuples_len in H2. cbn [length] in H2. destruct (AF i ltac:(lia)) as (s & ES), (AF j ltac:(lia)) as (s' & ES'). unfold conf in EQ. rewrite ES, ES' in EQ. injection EQ as E1 E2.
    exists i, j, s, s'. repeat split; auto. lia.
Qed.

(** *** The objective *)
Lemma objective_basis d s : good d s -> objective d s = qs (d_M d) (fun i => vget (s_CB s) i * vget (s_BS s) i).
Proof.
  intros G. unfold objective. rewrite (qs_ext _ _ (fun k => s_XOB s k * basic_value (d_M d) s k)) by (intros k _; rewrite (g_xob d s G); unfold costs; reflexivity).
  rewrite (basic_sum (d_M d) (d_N d) (d_A d) (d_BS d) s (g_inv d s G) (g_rng d s G)). apply qs_ext. intros i Hi. now rewrite (i_cb _ _ _ s (g_inv d s G) i Hi).
Qed.
Lemma qs_upd_at M p x f : (p < M)%nat -> qs M (fun i => if Nat.eqb i p then x else f i) = qs M f + (x - f p).
Proof.
  intros Hp. rewrite (qs_ext M _ (fun i => f i + (if Nat.eqb i p then x - f i else q0))) by (intros i _; destruct (Nat.eqb i p); qring).
  rewrite qs_plus, (qs_delta M p (fun i => x - f i) Hp). reflexivity.
Qed.
Theorem pass_descends : forall d s s', lp_ok d -> well_scaled d -> visits d s -> linp_pass (d_M d) (d_N1 d) (d_A d) (d_XOBI1 d) (d_BS d) s = Ok (inl s') ->
  s_PH2 s' = s_PH2 s -> objective d s' <= objective d s /\ s_IBAS s' <> s_IBAS s.
Proof.
  intros d s s' OK WS V E PH. pose proof (visits_good d OK WS s V) as G. pose proof (visits_good d OK WS s' (passes_more _ _ _ _ _ _ s s' V E)) as G'.
  rewrite !objective_basis by assumption. set (M := d_M d) in *.
  pose proof (pass_form d OK s (g_inv d s G)) as PF. fold M in PF. rewrite E in PF. clear E. fold M in V, WS |- *. pose proof (entering_spec M (d_N1 d) (d_A d) s) as EN. destruct (entering M (d_N1 d) (d_A d) s) as [k|].
  2:{ exfalso. unfold next_phase in PF. cbn [fresh s_PH2] in PF. destruct (s_PH2 s) eqn:P2; [discriminate|]. apply ok_inj in PF. injection PF as ->. discriminate PH. }
  destruct EN as (E1 & E2 & E3). destruct (pivot_ok d OK s k G (WS s V) E1 E2 E3) as (p & EP & Hp & TP & _). fold M in EP. rewrite EP in PF. cbn [bind] in PF. apply ok_inj in PF. injection PF as ->.
  fold M in Hp, TP, E3 |- *. set (P := vget (mc M k (s_TAB s) (d_A d))) in *.
  assert (T0 : q0 < P p) by (eapply Qclt_trans; [apply tol_pos|exact TP]).
  assert (PP : P p <> q0) by (intros X; rewrite X in T0; apply qltb_iff in T0; discriminate T0).
  pose proof (g_inv d s G) as I. split.
  - rewrite (qs_ext M _ (fun i => if Nat.eqb i p then s_XOB s k * (vget (s_BS s) p / P p) else vget (s_CB s) i * (vget (s_BS s) i - vget (s_BS s) p * P i / P p))).
    2:{ intros i Hi. rewrite (piv_BS M (d_A d) s k p PP i Hi). fold P. cbn [pivoted s_CB]. unfold vget at 1. rewrite nth_upd_list by (rewrite (i_cbl _ _ _ s I); exact Hp).
        destruct (Nat.eqb i p); [reflexivity|]. reflexivity. }
    rewrite (qs_upd_at M p _ (fun i => vget (s_CB s) i * (vget (s_BS s) i - vget (s_BS s) p * P i / P p)) Hp).
    replace (vget (s_BS s) p - vget (s_BS s) p * P p / P p) with q0 by (unfold Qcdiv; change q0 with 0 in *; field; exact PP).
    rewrite (qs_ext M (fun i => vget (s_CB s) i * (vget (s_BS s) i - vget (s_BS s) p * P i / P p)) (fun i => vget (s_CB s) i * vget (s_BS s) i - (vget (s_BS s) p / P p) * (vget (s_CB s) i * P i))) by (intros i _; unfold Qcdiv; ring).
    rewrite qs_minus, qs_scale. unfold redcost in E3. rewrite (rc_nth M (d_A d) (d_BS d) s k I) in E3. fold P in E3. set (U := qs M (fun i => vget (s_CB s) i * P i)) in *. set (t := vget (s_BS s) p / P p).
    assert (TP0 : q0 <= t) by (unfold t, Qcdiv; apply mul_pos; [apply (g_pos d s G p Hp)|apply Qclt_le_weak, inv_pos, T0]).
    assert (H : q0 <= t * (U - s_XOB s k)) by (apply mul_pos; [exact TP0|qlra]).
    replace (vget (s_CB s) p * q0) with q0 by qring. replace (t * (U - s_XOB s k)) with (t * U - s_XOB s k * t) in H by ring. set (W := qs M (fun i => vget (s_CB s) i * vget (s_BS s) i)). qlra.
  - cbn [pivoted s_IBAS]. intros EQ. assert (HN : nth p (upd (s_IBAS s) p k) 0%nat = k) by (apply nth_upd_same; rewrite (i_len _ _ _ s I); exact Hp).
    rewrite EQ in HN. assert (HI : In k (s_IBAS s)) by (rewrite <- HN; apply nth_In; rewrite (i_len _ _ _ s I); exact Hp). apply (i_flag _ _ _ s I) in HI. congruence.
Qed.
