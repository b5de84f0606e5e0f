From Verif Require Import Base BaseProofs Sums OutageModel OutageSpec OutageProofs.
From Verif Require Import PropertiesOutage.
Open Scope Z_scope.

Lemma gsm_as3 u t : gsm (unit_KT u) (unit_KP u) (unit_P1 u) (o_pder u) (o_pout u) t = new_table t (as3 u).
Proof. unfold new_table, as3, rounded, unit_P1. cbn [mw_out mw_der pr_full pr_der pr_out]. reflexivity. Qed.
Lemma out_as3 u : mw_out (as3 u) = unit_KT u.
Proof. reflexivity. Qed.
Local Opaque gsm gsm_loop pmlolp as3.

Lemma unit_KT_nonneg u : ounit_ok u -> 0 <= unit_KT u.
Proof.
  intros (A & _). pose proof (round10_spec _ A) as ((m & EM) & _ & R). fold (unit_KT u) in EM, R. rewrite EM in *.
  assert (L : (qz 0 < qz (10 * m + 5))%Qc) by (rewrite qz_plus; unfold qq in R; change q0 with (qz 0) in A; qlra).
  apply (proj1 (qz_lt _ _)) in L. lia.
Qed.
Lemma total_nonneg us : Forall ounit_ok us -> 0 <= total_MW us.
Proof.
  induction 1 as [|u us H _ IH]; [change (total_MW []) with 0; lia|]. unfold total_MW in *. cbn [map]. rewrite zsum_cons. pose proof (unit_KT_nonneg u H). lia.
Qed.
Lemma pmlolp_inv : forall us, Forall ounit_ok us -> total_MW (added us) < 1000000 ->
  table_ok (total_MW (added us)) (pmlolp us).
Proof.
  induction us as [|u us IH] using rev_ind; intros F T; [exact (proj1 empty_ok)|].
  apply Forall_app in F. destruct F as (F & Fu). apply Forall_inv in Fu. rewrite added_snoc in *. rewrite pmlolp_snoc. unfold add_unit.
  destruct (is_added u) eqn:AD; [|rewrite app_nil_r in *; auto]. rewrite total_snoc in *. pose proof (unit_KT_nonneg u Fu).
  destruct (unit_ok u Fu AD) as (_ & UK). rewrite gsm_as3, <- out_as3.
  assert (T2 : total_MW (added us) < 1000000) by lia. rewrite <- out_as3 in T. apply (new_ok _ _ (IH F T2) (as3 u) UK). exact T.
Qed.

(** The number of rows never exceeded 4950, i.e. no overflow message was printed. *)
Definition no_overflow (us : list ounit) : Prop := forall pre post, us = pre ++ post -> (ct_N (pmlolp pre) <= 4950)%nat.

Lemma qzS n : qz (Z.of_nat (S n)) = Qcplus (qz (Z.of_nat n)) q1.
Proof. rewrite <- (qz_plus _ 1). f_equal. lia. Qed.

(** For every K the table of all units says the probability that the units added lose
    at least K MW together, at most 1e-9 per unit below it.  The units are independent,
    with their capacities rounded ([rounds_unit]). *)
Theorem C57_probabilities : forall us, Forall ounit_ok us -> total_MW (added us) < 1000000 -> no_overflow us ->
  exists vs, Forall2 rounds_unit (added us) vs /\
    forall K, (listed (pmlolp us) K <= P_outage vs K)%Qc /\
              (P_outage vs K <= Qcplus (listed (pmlolp us) K) (Qcmult (qz (Z.of_nat (length vs))) (qq 1 1000000000)))%Qc.
Proof.
  intros us F T NO. exists (map as3 (added us)). split.
  { clear - F. induction us as [|u us IH]; [constructor|]. inversion F as [|? ? Fu Fs]; subst. cbn [added filter].
    destruct (is_added u) eqn:AD; [|auto]. constructor; [apply (unit_ok u Fu AD)|exact (IH Fs)]. }
  rewrite map_length. revert F T NO. induction us as [|u us IH] using rev_ind; intros F T NO K.
  - cbn [added filter map length]. change (pmlolp []) with empty_table. unfold listed. rewrite (proj2 (proj2 empty_ok)), P_outage_nil. cbn [lookup fst snd].
    change (qz (Z.of_nat 0)) with q0. replace (Qcmult q0 (qq 1 1000000000)) with q0 by qring. rewrite Qcplus_0_r. destruct (K <=? 0); split; apply Qcle_refl.
  - assert (NO' : no_overflow us). { intros pre post E. apply (NO pre (post ++ [u])). rewrite E. now rewrite app_assoc. }
    pose proof F as F0. apply Forall_app in F. destruct F as (F & Fu). apply Forall_inv in Fu. pose proof (unit_KT_nonneg u Fu) as KN.
    assert (T' : total_MW (added us) < 1000000). { rewrite added_snoc in T. destruct (is_added u); [rewrite total_snoc in T; lia|rewrite app_nil_r in T; exact T]. }
    specialize (IH F T' NO'). pose proof (NO (us ++ [u]) [] (eq_sym (app_nil_r _))) as NL. rewrite pmlolp_snoc in *. rewrite added_snoc in *. unfold add_unit in *.
    destruct (is_added u) eqn:AD; [|rewrite app_nil_r in *; apply IH]. rewrite total_snoc in T.
    destruct (unit_ok u Fu AD) as (_ & UK). pose proof (pmlolp_inv us F T') as TK.
    rewrite <- out_as3 in T. destruct (C57_add_unit _ _ (as3 u) TK UK T) as (TK2 & S3). cbv zeta in TK2, S3. fold (new_table (pmlolp us) (as3 u)) in TK2, S3. rewrite gsm_as3 in *.
    set (t' := new_table _ _) in *. clearbody t'. set (t0 := pmlolp us) in *. clearbody t0. rewrite map_app. cbn [map]. rewrite P_outage_snoc, app_length. cbn [length]. rewrite Nat.add_1_r, qzS.
    set (vs := map as3 (added us)) in *. set (e := Qcmult (qz (Z.of_nat (length (added us)))) (qq 1 1000000000)) in *.
    assert (UP : (added_prob (listed t0) (as3 u) K <= added_prob (P_outage vs) (as3 u) K)%Qc).
    { pose proof (added_prob_le (listed t0) (P_outage vs) (as3 u) q0 K UK) as G.
      replace (Qcplus (added_prob (P_outage vs) (as3 u) K) q0) with (added_prob (P_outage vs) (as3 u) K) in G by qring. apply G. intros K'. destruct (IH K') as [G1 _].
      replace (Qcplus (P_outage vs K') q0) with (P_outage vs K') by qring. exact G1. }
    assert (LO : (added_prob (P_outage vs) (as3 u) K <= Qcplus (added_prob (listed t0) (as3 u) K) e)%Qc).
    { apply added_prob_le; [exact UK|]. intros K'. apply IH. }
    assert (EE : Qcmult (Qcplus (qz (Z.of_nat (length (added us)))) q1) (qq 1 1000000000) = Qcplus e (qq 1 1000000000)) by (unfold e; change q1 with 1%Qc; ring).
    rewrite EE. assert (E1 : (q0 <= qq 1 1000000000)%Qc) by (apply qleb_iff; reflexivity).
    assert (NN : (q0 <= added_prob (listed t0) (as3 u) K)%Qc).
    { assert (LN : forall K', (q0 <= listed t0 K')%Qc).
      { intros K'. unfold listed. pose proof (tk_nonneg _ _ TK) as G. clear - G. induction G as [|r l H _ IH]; cbn [lookup]; [apply Qcle_refl|]. destruct (K' <=? fst r); assumption. }
      destruct UK as (W1 & W2 & W3 & _). unfold added_prob.
      assert (MN : forall a b, (q0 <= a)%Qc -> (q0 <= b)%Qc -> (q0 <= Qcmult a b)%Qc).
      { intros a b HA HB. pose proof (Qcmult_le_compat_r _ _ _ HA HB) as M. replace (Qcmult q0 b) with q0 in M by qring. exact M. }
      pose proof (MN _ _ W1 (LN K)) as M1. pose proof (MN _ _ W2 (LN (K - mw_der (as3 u)))) as M2. pose proof (MN _ _ W3 (LN (K - mw_out (as3 u)))) as M3.
      pose proof (Qcplus_le_compat _ _ _ _ (Qcplus_le_compat _ _ _ _ M1 M2) M3) as M. replace (Qcplus (Qcplus q0 q0) q0) with q0 in M by qring. exact M. }
    destruct (S3 K) as [E|(E & _ & L3)].
    + change (added_prob (listed t0) _ K) with (added_prob (listed t0) (as3 u) K) in E. rewrite E. split; [exact UP|]. clear - LO E1.
      set (a := added_prob (P_outage vs) _ K) in *. set (b := added_prob (listed t0) _ K) in *. clearbody a b e. unfold qq in *. qlra.
    + specialize (L3 NL). change (added_prob (listed t0) _ K) with (added_prob (listed t0) (as3 u) K) in L3. rewrite E. clear - UP LO NN E1 L3.
      set (a := added_prob (P_outage vs) _ K) in *. set (b := added_prob (listed t0) _ K) in *. clearbody a b e. unfold qq in *. split; qlra.
Qed.
Print Assumptions C57_probabilities.

(** Rows strictly increasing, if every unit added has a positive rounded capacity;
    then up to 49490 MW cannot overflow the table. *)
Lemma strict_count : forall l B, strict_rows l -> Forall (fun r : Z * Qc => exists m, fst r = 10 * m /\ B <= m) l ->
  forall C, Forall (fun r => fst r <= 10 * C) l -> B <= C + 1 -> Z.of_nat (length l) <= C - B + 1.
Proof.
  induction l as [|r l IH]; intros B ST FM C FC BC; [cbn; lia|]. cbn [length].
  inversion FM as [|? ? (m & E & Hm) FM']; subst. inversion FC as [|? ? Hr FC']; subst.
  assert (G : Z.of_nat (length l) <= C - (m + 1) + 1); [|lia]. apply IH; auto.
  - intros i j H. apply (ST (S i) (S j)). cbn [length]. lia.
  - apply Forall_forall. intros r' I. rewrite Forall_forall in FM'. destruct (FM' r' I) as (m' & E' & _). exists m'. split; [exact E'|].
    apply In_nth with (d := (0, q0)) in I. destruct I as (j & Hj & EJ). pose proof (ST 0%nat (S j) ltac:(cbn [length]; lia)) as L. cbn [nth] in L. rewrite EJ in L. lia.
  - lia.
Qed.
Lemma pmlolp_strict : forall us, Forall ounit_ok us -> total_MW (added us) < 1000000 -> Forall (fun u => 0 < unit_KT u) (added us) ->
  strict_rows (rows (pmlolp us)) /\ Forall (fun r => exists m, fst r = 10 * m /\ 0 <= m) (rows (pmlolp us)).
Proof.
  induction us as [|u us IH] using rev_ind; intros F T P.
  { change (pmlolp []) with empty_table. split; [exact (proj1 (proj2 empty_ok))|]. rewrite (proj2 (proj2 empty_ok)). constructor; [exists 0; cbn; lia|constructor]. }
  apply Forall_app in F. destruct F as (F & Fu). apply Forall_inv in Fu. rewrite added_snoc in *. rewrite pmlolp_snoc. unfold add_unit.
  destruct (is_added u) eqn:AD; [|rewrite app_nil_r in *; auto]. rewrite total_snoc in *. pose proof (unit_KT_nonneg u Fu).
  apply Forall_app in P. destruct P as (P & Pu). apply Forall_inv in Pu. cbv beta in Pu. destruct (IH F ltac:(lia) P) as (ST & MU).
  destruct (unit_ok u Fu AD) as ((KT & KP & R1 & R2 & EV) & UK). pose proof (pmlolp_inv us F ltac:(lia)) as TK.
  rewrite gsm_as3. destruct (stored_rows _ _ TK (as3 u)) as (E & _). rewrite E.
  split; [exact (new_strict _ _ TK (as3 u) UK T ST Pu)|]. apply Forall_forall.
  apply (new_levels _ _ TK (as3 u) UK T (fun k => exists m, k = 10 * m /\ 0 <= m)); [exists 0; lia|].
  assert (MK : (exists m, KT = 10 * m) /\ (exists m, KP = 10 * m)) by (split; [apply R1|apply R2]).
  rewrite EV in *. cbn [rounded mw_der mw_out] in *. destruct UK as (_ & _ & _ & _ & D1 & D2). cbn [rounded mw_der mw_out] in *.
  intros r x I Ix. rewrite Forall_forall in MU. destruct (MU r I) as (m & Em & Hm). destruct MK as ((a & Ea) & (b & Eb)).
  destruct Ix as [<-|[<-|[<-|[]]]]; [exists m|exists (m + b)|exists (m + a)]; lia.
Qed.
Theorem C57_levels : forall us, Forall ounit_ok us -> total_MW (added us) <= 49490 -> Forall (fun u => 0 < unit_KT u) (added us) ->
  no_overflow us /\ strict_rows (rows (pmlolp us)) /\ Forall (fun r => exists m, fst r = 10 * m) (rows (pmlolp us)).
Proof.
  intros us F T P. split.
  - intros pre post E. rewrite E in *. apply Forall_app in F. destruct F as (F & F2). unfold added in *. rewrite filter_app in *. apply Forall_app in P. destruct P as (P & _).
    assert (T' : total_MW (filter is_added pre) <= 49490).
    { unfold total_MW in *. rewrite map_app, zsum_app in T. assert (0 <= total_MW (filter is_added post)); [|unfold total_MW in *; lia].
      apply total_nonneg. apply Forall_forall. intros x I. apply filter_In in I. rewrite Forall_forall in F2. apply F2, I. }
    fold (added pre) in *. destruct (pmlolp_strict pre F ltac:(lia) P) as (ST & MU). pose proof (pmlolp_inv pre F ltac:(lia)) as TK.
    pose proof (strict_count _ 0 ST MU 4949) as SC. rewrite (rows_length _ _ TK) in SC.
    assert (FC : Forall (fun r => fst r <= 10 * 4949) (rows (pmlolp pre))).
    { eapply Forall_impl; [|exact (tk_below _ _ TK)]. cbv beta. intros. lia. }
    specialize (SC FC ltac:(lia)). lia.
  - destruct (pmlolp_strict us F ltac:(lia) P) as (ST & MU). split; [exact ST|]. eapply Forall_impl; [|exact MU]. cbv beta. intros r (m & E & _). eauto.
Qed.
Print Assumptions C57_levels.

(** The scheduler calls [pmlolp] with a first unit without capacity, derating or outage
    (its sorted arrays start at position 1): its table always lists level 0 twice. *)
Theorem C57_scheduler_refuted : forall us, Forall ounit_ok us -> total_MW (added us) < 1000000 ->
  let t := pmlolp (mkOunit q0 q0 q0 q0 :: us) in
  (2 <= ct_N t)%nat /\ fst (nth 0 (rows t) (0, q0)) = 0 /\ fst (nth 1 (rows t) (0, q0)) = 0.
Proof.
  assert (Z0 : ounit_ok (mkOunit q0 q0 q0 q0)) by (unfold ounit_ok; cbn [o_cap o_pder o_pout o_share]; repeat split; apply qleb_iff; reflexivity).
  assert (A0 : is_added (mkOunit q0 q0 q0 q0) = true) by reflexivity.
  assert (K0 : unit_KT (mkOunit q0 q0 q0 q0) = 0) by reflexivity.
  induction us as [|u us IH] using rev_ind; intros F T; cbv zeta.
  - change (pmlolp [mkOunit q0 q0 q0 q0]) with (add_unit empty_table (mkOunit q0 q0 q0 q0)). unfold add_unit. rewrite A0.
    destruct (unit_ok _ Z0 A0) as (_ & UK). apply (C57_repeated_level_refuted 0 empty_table (as3 (mkOunit q0 q0 q0 q0)) (proj1 empty_ok) UK); [rewrite <- K0; cbn [as3 rounded mw_out]; rewrite K0; lia|].
    left. exact K0.
  - apply Forall_app in F. destruct F as (F & Fu). apply Forall_inv in Fu. rewrite app_comm_cons, pmlolp_snoc. rewrite added_snoc in T. unfold add_unit.
    pose proof (unit_KT_nonneg u Fu). destruct (is_added u) eqn:AD; [|rewrite app_nil_r in T; apply IH; auto]. rewrite total_snoc in T.
    specialize (IH F ltac:(lia)). cbv zeta in IH. destruct IH as (I1 & _ & I3). destruct (unit_ok u Fu AD) as (_ & UK).
    assert (TA : total_MW (added (mkOunit q0 q0 q0 q0 :: us)) = total_MW (added us)).
    { unfold added. cbn [filter]. rewrite A0. unfold total_MW. cbn [map]. rewrite zsum_cons, K0. lia. }
    pose proof (pmlolp_inv (mkOunit q0 q0 q0 q0 :: us) (Forall_cons _ Z0 F) ltac:(lia)) as TK. rewrite TA in TK.
    rewrite gsm_as3. rewrite <- out_as3 in T. set (t0 := pmlolp _) in *. clearbody t0. unfold new_table. apply (C57_repeated_level_refuted _ t0 (as3 u) TK UK T (or_intror (conj I1 I3))).
Qed.
Print Assumptions C57_scheduler_refuted.

(** *** The readings at CAP/20 and CAP/5 for the slope: the least level at or above the
    capacity and what the table says about it; the last row if there is none. *)
Lemma first_at_spec C : forall l i, match first_at C l i with
  | Some j => (i <= j < i + length l)%nat /\ (C <= qz (nth (j - i) l 0%Z))%Qc /\ forall k, (k < j - i)%nat -> (qz (nth k l 0%Z) < C)%Qc
  | None => forall k, (k < length l)%nat -> (qz (nth k l 0%Z) < C)%Qc end.
Proof.
  induction l as [|x l IH]; intros i; cbn [first_at]; [intros; cbn in *; lia|].
  destruct (qleb C (qz x)) eqn:Q.
  - apply qleb_iff in Q. cbn [length]. split; [lia|]. rewrite Nat.sub_diag. split; [exact Q|intros; lia].
  - assert (LT : (qz x < C)%Qc) by (apply Qcnot_le_lt; intros G; apply qleb_iff in G; congruence).
    specialize (IH (S i)). destruct (first_at C l (S i)) as [j|].
    + destruct IH as (A & B & D). cbn [length]. split; [lia|]. replace (j - i)%nat with (S (j - S i)) by lia. split; [exact B|].
      intros [|k] Hk; [exact LT|]. apply D. lia.
    + intros [|k] Hk; [exact LT|]. apply IH. cbn [length] in Hk. lia.
Qed.
Theorem C57_reading : forall B t C, table_ok B t ->
  let '(K, p) := reading t C in
  ((C <= qz K)%Qc /\ p = listed t K /\ (exists q, In (K, q) (rows t)) /\ (forall r, In r (rows t) -> (C <= qz (fst r))%Qc -> K <= fst r)) \/
  ((forall r, In r (rows t) -> (qz (fst r) < C)%Qc) /\ (K, p) = last (rows t) (0, q0)).
Proof.
  intros B t C TK. unfold reading. cbv zeta. pose proof (first_at_spec C (firstn (ct_N t) (ct_KA t)) 0) as FS. pose proof (rows_length _ _ TK) as RL. pose proof (tk_N _ _ TK) as NP.
  assert (LL : length (firstn (ct_N t) (ct_KA t)) = ct_N t). { rewrite firstn_length, (tk_KA _ _ TK), ings_val. lia. }
  assert (LV : forall k, (k < ct_N t)%nat -> nth k (firstn (ct_N t) (ct_KA t)) 0 = fst (nth k (rows t) (0, q0))).
  { intros k Hk. rewrite (rows_nth _ _ TK) by exact Hk. cbn [fst]. unfold zget. now rewrite nth_firstn_lt. }
  destruct (first_at C _ 0) as [j|].
  - destruct FS as (J & QC & MN). rewrite LL, Nat.sub_0_r in *. cbn [Nat.add] in J. left. rewrite (LV j ltac:(lia)) in QC.
    pose proof (rows_nth _ _ TK j ltac:(lia)) as RJ. rewrite RJ in QC. cbn [fst] in QC. split; [exact QC|]. split; [|split].
    + symmetry. unfold listed. rewrite (lookup_first _ _ j).
      * destruct (Nat.ltb_spec j (length (rows t))); [rewrite RJ; reflexivity|lia].
      * lia.
      * intros k Hk. specialize (MN k Hk). rewrite (LV k ltac:(lia)) in MN. apply qz_lt. eapply Qclt_le_trans; [exact MN|exact QC].
      * right. rewrite RJ. cbn [fst]. lia.
    + exists (vget (ct_PA t) j). rewrite <- RJ. apply nth_In. lia.
    + intros r I QR. apply In_nth with (d := (0, q0)) in I. destruct I as (k & Hk & EK). destruct (Nat.lt_ge_cases k j) as [L|G].
      * specialize (MN k L). rewrite (LV k ltac:(lia)), EK in MN. exfalso. exact (Qclt_not_le _ _ MN QR).
      * pose proof (proj1 (tk_sorted _ _ TK j k ltac:(lia))) as S. rewrite RJ, EK in S. exact S.
  - right. split.
    + intros r I. apply In_nth with (d := (0, q0)) in I. destruct I as (k & Hk & EK). specialize (FS k ltac:(lia)). rewrite (LV k ltac:(lia)), EK in FS. exact FS.
    + rewrite <- (rows_nth _ _ TK) by lia. destruct (rows t) as [|r l] eqn:ER; [cbn in RL; lia|]. replace (ct_N t - 1)%nat with (length l) by (cbn [length] in RL; lia). clear.
      revert r. induction l as [|s l IH]; intros r; [reflexivity|]. exact (IH s).
Qed.
Print Assumptions C57_reading.

(** *** A small case: units of 100 and 50 MW, the second derated by 40%. *)
Definition ex_u : list ounit := [mkOunit (qz 100) q0 (qq 1 10) q0; mkOunit (qz 50) (qq 1 5) (qq 1 20) (qq 2 5)].
Lemma C57_witness : Forall ounit_ok ex_u /\ total_MW (added ex_u) <= 49490 /\ Forall (fun u => 0 < unit_KT u) (added ex_u) /\ (length (added ex_u) = 2)%nat.
Proof.
  split; [|split; [vm_compute; discriminate|split; [|vm_compute; reflexivity]]].
  - repeat constructor; apply qleb_iff; vm_compute; reflexivity.
  - assert (E : added ex_u = ex_u) by reflexivity. rewrite E. repeat constructor.
Qed.
Lemma C57_witness_table : no_overflow ex_u /\
  map (fun r => (fst r, this (snd r))) (rows (pmlolp ex_u)) =
    [(0, 1%Q); (20, (13 # 40)%Q); (50, (29 # 200)%Q); (100, (1 # 10)%Q); (120, (1 # 40)%Q); (150, (1 # 200)%Q)].
Proof.
  split.
  - destruct C57_witness as (A & B & D & _). exact (proj1 (C57_levels ex_u A B D)).
  - vm_compute. reflexivity.
Qed.
