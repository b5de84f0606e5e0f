(** Property theorems about the capacity outage table (C57, C58). *)
From Verif Require Import Base BaseProofs Sums OutageModel OutageSpec OutageProofs.
Open Scope Z_scope.

(** *** C58.  Rounding *)
Lemma round10_spec x : (q0 <= x)%Qc -> rounds10 x (round10 x).
Proof.
  intros H. unfold rounds10, round10. set (j := qtrunc (Qcplus x (qq 11 2))).
  assert (J : j = qfloor (Qcplus x (qq 11 2))) by (apply qtrunc_nonneg; unfold qq; qlra).
  destruct (qfloor_spec (Qcplus x (qq 11 2))) as [A B]. rewrite <- J in A, B. clearbody j.
  pose proof (Z.div_mod j 10 ltac:(lia)) as DM. pose proof (Z.mod_pos_bound j 10 ltac:(lia)) as MB.
  split; [exists (j / 10); lia|]. assert (L : j - j mod 10 <= j) by lia. assert (G : j + 1 <= j - j mod 10 + 10) by lia.
  apply qz_le in L. apply qz_le in G. rewrite (qz_plus _ 10) in G. set (k := j - j mod 10) in *. unfold qq in *. split; qlra.
Qed.
Lemma rounds10_unique x k k' : rounds10 x k -> rounds10 x k' -> k = k'.
Proof.
  intros ((m & ->) & A & B) ((m' & ->) & A' & B'). unfold qq in *.
  assert (L1 : (qz (10 * m) < qz (10 * m' + 10))%Qc) by (rewrite qz_plus; qlra).
  assert (L2 : (qz (10 * m') < qz (10 * m + 10))%Qc) by (rewrite qz_plus; qlra).
  apply (proj1 (qz_lt _ _)) in L1, L2. lia.
Qed.

(** Capacities in whole MW are rounded to the nearest multiple of 10, halves up. *)
Theorem C58_whole_partial : forall c, 0 <= c -> exists m, round10 (qz c) = 10 * m /\ 10 * m - 5 <= c <= 10 * m + 4.
Proof.
  intros c H. destruct (round10_spec (qz c)) as ((m & E) & A & B); [apply qz_le; exact H|]. exists m. split; [exact E|]. rewrite E in A, B.
  assert (L1 : (qz (10 * m + 10 * m - 11) <= qz (c + c))%Qc) by (rewrite qz_minus, !qz_plus; unfold qq in A; qlra).
  assert (L2 : (qz (c + c) < qz (10 * m + 10 * m + 9))%Qc) by (rewrite !qz_plus; unfold qq in B; qlra).
  apply (proj1 (qz_le _ _)) in L1. apply (proj1 (qz_lt _ _)) in L2. lia.
Qed.
Print Assumptions C58_whole_partial.
(** For fractions the border is 4.5, not 5: every capacity between 4.5 and 5 MW above a
    multiple of 10 is rounded up although the lower one is nearer. *)
Theorem C58_refuted : forall m x, 0 <= m -> (Qcplus (qz (10 * m)) (qq 9 2) <= x)%Qc -> (x < Qcplus (qz (10 * m)) (qz 5))%Qc -> round10 x = 10 * m + 10.
Proof.
  intros m x M A B. assert (Z0 : (q0 <= qz (10 * m))%Qc) by (apply qz_le; lia). unfold qq in A.
  assert (X0 : (q0 <= x)%Qc) by qlra.
  apply (rounds10_unique x); [apply round10_spec; exact X0|]. split; [exists (m + 1); lia|]. rewrite qz_plus. unfold qq. split; qlra.
Qed.
Print Assumptions C58_refuted.
Example C58_witness : round10 (qz 104) = 100 /\ round10 (qz 105) = 110 /\ round10 (qq 947 10) = 100.
Proof. repeat split; vm_compute; reflexivity. Qed.

(** Units that are at full output with probability at most 1e-6 are not added at all. *)
Theorem C58_skipped : forall pre u post, (Qcminus (Qcminus q1 (o_pder u)) (o_pout u) <= qq 1 1000000)%Qc ->
  pmlolp (pre ++ u :: post) = pmlolp (pre ++ post).
Proof.
  intros pre u post H. unfold pmlolp. rewrite !fold_left_app. cbn [fold_left]. f_equal. unfold add_unit, is_added.
  apply qleb_iff in H. unfold qltb, unit_P1. unfold qleb in H. rewrite H. reflexivity.
Qed.
Print Assumptions C58_skipped.
Example C58_skip_witness : (Qcminus (Qcminus q1 q0) q1 <= qq 1 1000000)%Qc.
Proof. apply qleb_iff. reflexivity. Qed.

(** *** C57.  One unit *)

(** For every K the new table says exactly what the definition of probability says of
    the old table and the unit; except beyond the last level, where the table has been
    cut off: there it says 0, and (unless the table overflowed) the exact probability
    is at most 1e-9. *)
Theorem C57_add_unit : forall C t u, table_ok C t -> unit3_ok u -> C + mw_out u < 1000000 ->
  let t' := gsm (mw_out u) (mw_der u) (pr_full u) (pr_der u) (pr_out u) t in
  table_ok (C + mw_out u) t' /\
  forall K, listed t' K = added_prob (listed t) u K \/
    (listed t' K = q0 /\ Forall (fun r => fst r < K) (rows t') /\
     ((ct_N t' <= 4950)%nat -> (added_prob (listed t) u K <= qq 1 1000000000)%Qc)).
Proof.
  intros C t u TK UK CB t'. split; [exact (new_ok C t TK u UK CB)|]. intros K.
  destruct (new_spec C t TK u UK CB) as (_ & _ & S3). destruct (stored_rows C t TK u) as (E & EN & _ & _).
  unfold listed, t'. fold (new_table t u). rewrite E. destruct (S3 K) as [L|(L1 & L2 & L3)]; [now left|right].
  split; [exact L1|]. split; [apply Forall_forall; exact L2|]. rewrite EN. intros H. apply L3.
  unfold overflows. apply Nat.leb_gt. rewrite ings1_val. destruct (new_length t u) as ((P & _) & _). lia.
Qed.
Print Assumptions C57_add_unit.

(** Without repeated levels, and a unit with a positive (rounded) capacity: the levels
    of the new table are strictly increasing, and every row is exact. *)
Theorem C57_rows_exact : forall C t u, table_ok C t -> unit3_ok u -> C + mw_out u < 1000000 -> strict_rows (rows t) -> 0 < mw_out u ->
  let t' := gsm (mw_out u) (mw_der u) (pr_full u) (pr_der u) (pr_out u) t in
  strict_rows (rows t') /\ forall K p, In (K, p) (rows t') -> p = added_prob (listed t) u K.
Proof.
  intros C t u TK UK CB ST OP t'. destruct (stored_rows C t TK u) as (E & _). fold (new_table t u) in E.
  assert (SR : strict_rows (rows t')) by (unfold t'; fold (new_table t u); rewrite E; exact (new_strict C t TK u UK CB ST OP)).
  split; [exact SR|]. intros K p I. apply In_nth with (d := (0, q0)) in I. destruct I as (j & Hj & EJ).
  assert (LK : listed t' K = p).
  { unfold listed. rewrite (lookup_first _ K j).
    - destruct (Nat.ltb_spec j (length (rows t'))); [rewrite EJ; reflexivity|lia].
    - lia.
    - intros i Hi. pose proof (SR i j ltac:(lia)) as L. rewrite EJ in L. exact L.
    - right. rewrite EJ. cbn [fst]. lia. }
  destruct (C57_add_unit C t u TK UK CB) as (_ & S3). cbv zeta in S3. fold t' in S3. destruct (S3 K) as [L|(_ & L2 & _)]; [congruence|].
  exfalso. rewrite Forall_forall in L2. assert (In (K, p) (rows t')) as I by (rewrite <- EJ; apply nth_In; exact Hj). specialize (L2 _ I). cbn [fst] in L2. lia.
Qed.
Print Assumptions C57_rows_exact.

(** Both implementations change both arrays in the same way. *)
Theorem C57_versions_agree : forall C t u, table_ok C t -> unit3_ok u -> C + mw_out u < 1000000 ->
  gsm_ (mw_out u) (mw_der u) (pr_full u) (pr_der u) (pr_out u) t = gsm (mw_out u) (mw_der u) (pr_full u) (pr_der u) (pr_out u) t.
Proof. intros C t u TK UK CB. exact (same_tables C t TK u UK CB). Qed.
Print Assumptions C57_versions_agree.

(** A unit whose capacity is rounded to 0 makes level 0 appear twice, and once it
    appears twice it always will. *)
Theorem C57_repeated_level_refuted : forall C t u, table_ok C t -> unit3_ok u -> C + mw_out u < 1000000 ->
  mw_out u = 0 \/ ((2 <= ct_N t)%nat /\ fst (nth 1 (rows t) (0, q0)) = 0) ->
  let t' := gsm (mw_out u) (mw_der u) (pr_full u) (pr_der u) (pr_out u) t in
  (2 <= ct_N t')%nat /\ fst (nth 0 (rows t') (0, q0)) = 0 /\ fst (nth 1 (rows t') (0, q0)) = 0.
Proof.
  intros C t u TK UK CB H t'. destruct (new_double C t TK u UK H) as (L & E1). destruct (stored_rows C t TK u) as (E & EN & _).
  unfold t'. fold (new_table t u). pose proof (tk_first _ _ (new_ok C t TK u UK CB)) as F. rewrite F. rewrite EN, E. auto.
Qed.
Print Assumptions C57_repeated_level_refuted.

(** *** C57.  All units *)
Lemma P_outage_nil K : P_outage [] K = if K <=? 0 then q1 else q0.
Proof. unfold P_outage. cbn [outcomes filter snd]. destruct (K <=? 0); cbn; [apply Qcplus_0_r|reflexivity]. Qed.
Lemma filter_scale K p x : forall l, qsum (map fst (filter (fun o => K <=? snd o) (map (fun o : Qc * Z => (Qcmult p (fst o), x + snd o)) l))) =
  Qcmult p (qsum (map fst (filter (fun o => K - x <=? snd o) l))).
Proof.
  induction l as [|o l IH]; [cbn [map filter qsum fold_right]; qring|]. cbn [map filter snd]. replace (K <=? x + snd o) with (K - x <=? snd o).
  - destruct (K - x <=? snd o); [|exact IH]. cbn [map fst]. rewrite !qsum_cons, IH. ring.
  - destruct (Z.leb_spec (K - x) (snd o)), (Z.leb_spec K (x + snd o)); lia.
Qed.
Lemma P_outage_cons u us K : P_outage (u :: us) K = added_prob (P_outage us) u K.
Proof.
  unfold P_outage, added_prob. cbn [outcomes flat_map fst snd]. rewrite app_nil_r, !filter_app, !map_app, !qsum_app.
  rewrite !filter_scale. rewrite Z.sub_0_r. apply Qcplus_assoc.
Qed.
Lemma added_prob_ext f g u K : (forall K, f K = g K) -> added_prob f u K = added_prob g u K.
Proof. intros H. unfold added_prob. now rewrite !H. Qed.
Lemma P_outage_snoc u : forall us K, P_outage (us ++ [u]) K = added_prob (P_outage us) u K.
Proof.
  induction us as [|v us IH]; intros K; [apply P_outage_cons|]. cbn [app]. rewrite P_outage_cons, (added_prob_ext _ _ _ _ IH).
  unfold added_prob. rewrite !P_outage_cons. unfold added_prob.
  replace (K - mw_der u - mw_der v) with (K - mw_der v - mw_der u) by lia.
  replace (K - mw_out u - mw_der v) with (K - mw_der v - mw_out u) by lia.
  replace (K - mw_der u - mw_out v) with (K - mw_out v - mw_der u) by lia.
  replace (K - mw_out u - mw_out v) with (K - mw_out v - mw_out u) by lia. ring.
Qed.

Definition as3 (u : ounit) : unit3 := rounded u (unit_KT u) (unit_KP u).
Lemma unit_ok u : ounit_ok u -> is_added u = true -> rounds_unit u (as3 u) /\ unit3_ok (as3 u).
Proof.
  intros (A & B & D & E & F & G) AD. pose proof (round10_spec _ A) as R1. fold (unit_KT u) in R1.
  assert (KT0 : 0 <= unit_KT u).
  { destruct R1 as ((m & EM) & _ & R). rewrite EM in *. assert (L : (qz 0 < qz (10 * m + 5))%Qc) by (rewrite qz_plus; unfold qq in R; change q0 with (qz 0) in A; qlra).
    apply (proj1 (qz_lt _ _)) in L. lia. }
  assert (KQ : (q0 <= qz (unit_KT u))%Qc) by (apply qz_le; exact KT0).
  assert (S0 : (q0 <= Qcmult (qz (unit_KT u)) (o_share u))%Qc).
  { pose proof (Qcmult_le_compat_r _ _ _ KQ F) as M. replace (Qcmult q0 (o_share u)) with q0 in M by qring. exact M. }
  assert (S1 : (Qcmult (qz (unit_KT u)) (o_share u) <= qz (unit_KT u))%Qc).
  { pose proof (Qcmult_le_compat_r _ _ _ G KQ) as M. rewrite Qcmult_comm. replace (Qcmult q1 (qz (unit_KT u))) with (qz (unit_KT u)) in M by (change q1 with 1%Qc; ring). exact M. }
  pose proof (round10_spec _ S0) as R2. fold (unit_KP u) in R2.
  split; [exists (unit_KT u), (unit_KP u); auto|].
  unfold unit3_ok, as3, rounded. cbn [pr_full pr_der pr_out mw_der mw_out]. unfold is_added in AD. apply qltb_iff in AD. unfold unit_P1, qq in AD.
  split; [qlra|]. split; [exact B|]. split; [exact D|]. split; [change q1 with 1%Qc; ring|].
  destruct R1 as ((m & EM) & _ & _), R2 as ((m' & EM') & R3 & R4). rewrite EM, EM' in *. unfold qq in *. split.
  - assert (L : (qz 0 < qz (10 * m' + 5))%Qc) by (rewrite qz_plus; change q0 with (qz 0) in S0; qlra). apply (proj1 (qz_lt _ _)) in L. lia.
  - assert (L : (qz (10 * m') < qz (10 * m + 6))%Qc) by (rewrite qz_plus; qlra). apply (proj1 (qz_lt _ _)) in L. lia.
Qed.

Lemma empty_ok : table_ok 0 empty_table /\ strict_rows (rows empty_table) /\ rows empty_table = [(0, q1)].
Proof.
  assert (R : rows empty_table = [(0, q1)]) by (unfold rows, empty_table; cbn [ct_N ct_KA ct_PA]; reflexivity).
  split; [|split; [|exact R]].
  - constructor; rewrite ?R.
    + apply repeat_length.
    + unfold empty_table. cbn [ct_PA length]. rewrite repeat_length. reflexivity.
    + cbn [empty_table ct_N]. lia.
    + reflexivity.
    + intros i j H. cbn [length] in H. assert (i = 0%nat) as -> by lia. assert (j = 0%nat) as -> by lia. split; [lia|apply Qcle_refl].
    + constructor; [apply qleb_iff; reflexivity|constructor].
    + constructor; [cbn; lia|constructor].
  - rewrite R. intros i j H. cbn [length] in H. lia.
Qed.

Definition added (us : list ounit) : list ounit := filter is_added us.
Definition total_MW (us : list ounit) : Z := zsum (map unit_KT us).

Lemma pmlolp_snoc us u : pmlolp (us ++ [u]) = add_unit (pmlolp us) u.
Proof. unfold pmlolp. rewrite fold_left_app. reflexivity. Qed.
Lemma added_snoc us u : added (us ++ [u]) = added us ++ (if is_added u then [u] else []).
Proof. unfold added. rewrite filter_app. cbn [filter]. destruct (is_added u); reflexivity. Qed.
Lemma total_snoc us u : total_MW (us ++ [u]) = total_MW us + unit_KT u.
Proof. unfold total_MW. rewrite map_app, zsum_app. cbn [map]. rewrite zsum_cons. change (zsum []) with 0. lia. Qed.
Lemma qle_of_eq (a b : Qc) : a = b -> (a <= b)%Qc. Proof. intros ->. apply Qcle_refl. Qed.
Lemma added_prob_le f g u e K : unit3_ok u -> (forall K, (f K <= Qcplus (g K) e)%Qc) -> (added_prob f u K <= Qcplus (added_prob g u K) e)%Qc.
Proof.
  intros (A & B & D & S & _) H. unfold added_prob.
  pose proof (Qcmult_le_compat_r _ _ _ (H K) A) as H1. pose proof (Qcmult_le_compat_r _ _ _ (H (K - mw_der u)) B) as H2. pose proof (Qcmult_le_compat_r _ _ _ (H (K - mw_out u)) D) as H3.
  assert (E : Qcplus (Qcplus (Qcmult (pr_full u) e) (Qcmult (pr_der u) e)) (Qcmult (pr_out u) e) = e).
  { rewrite <- !Qcmult_plus_distr_l, S. change q1 with 1%Qc. ring. }
  pose proof (Qcplus_le_compat _ _ _ _ (Qcplus_le_compat _ _ _ _ H1 H2) H3) as G.
  eapply Qcle_trans; [|eapply Qcle_trans; [exact G|]]; fold (added_prob g u K); [apply qle_of_eq; ring|apply qle_of_eq]. transitivity (Qcplus (added_prob g u K) (Qcplus (Qcplus (Qcmult (pr_full u) e) (Qcmult (pr_der u) e)) (Qcmult (pr_out u) e))); [unfold added_prob; ring|]. now rewrite E.
Qed.

