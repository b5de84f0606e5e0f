(** Proofs about the balancing of injections. *)
From Coq Require Import Permutation.
From Verif Require Import Base BaseProofs Sums LoadModel LoadSpec LoadProofs ContractProofs NetModel NetSpec MatProofs NetProofs FlowProofs.
Open Scope Z_scope.
Open Scope Qc_scope.

Lemma sum_pos_surplus l : sum_pos l = surplus l.
Proof.
  unfold sum_pos, surplus. induction l as [|x l IH]; [reflexivity|]. cbn [filter map]. rewrite qsum_cons, <- IH.
  unfold qmax. destruct (qltb q0 x) eqn:E1, (qleb x q0) eqn:E2; qc_bool; rewrite ?qsum_cons; try qlra; try qring.
Qed.
Lemma sum_neg_deficit l : sum_neg l = - deficit l.
Proof.
  unfold sum_neg, deficit. induction l as [|x l IH]; [reflexivity|]. cbn [filter map]. rewrite qsum_cons.
  set (D := qsum (map _ l)) in *. set (N := filter _ l) in *.
  unfold qmax. destruct (qleb x q0) eqn:E1, (qleb (-x) q0) eqn:E2; qc_bool; rewrite ?qsum_cons, ?IH; try qlra; try qring.
Qed.
Lemma deficit_nonneg l : q0 <= deficit l.
Proof.
  unfold deficit. apply qsum_nonneg. intros x Hx. apply in_map_iff in Hx. destruct Hx as (y & <- & _).
  unfold qmax. destruct (qleb (-y) q0) eqn:E; qc_bool; qlra.
Qed.
Lemma surplus_nonneg l : q0 <= surplus l.
Proof.
  unfold surplus. apply qsum_nonneg. intros x Hx. apply in_map_iff in Hx. destruct Hx as (y & <- & _).
  unfold qmax. destruct (qleb y q0) eqn:E; qc_bool; qlra.
Qed.
Lemma sumn_deficit l : qabs (sum_neg l) = deficit l.
Proof.
  rewrite sum_neg_deficit. pose proof (deficit_nonneg l). unfold qabs. destruct (qltb (- deficit l) q0) eqn:E; qc_bool; qlra.
Qed.
Lemma surplus_pos l i : (i < length l)%nat -> q0 < vget l i -> q0 < surplus l.
Proof.
  revert i. induction l as [|x l IH]; intros i Hi P; [cbn in Hi; lia|]. unfold surplus. cbn [map]. rewrite qsum_cons. fold (surplus l).
  destruct i as [|i].
  - change (vget (x :: l) 0) with x in P. pose proof (surplus_nonneg l). unfold qmax. destruct (qleb x q0) eqn:E; qc_bool; qlra.
  - assert (q0 < surplus l) by (apply (IH i); [cbn in Hi; lia|exact P]). unfold qmax. destruct (qleb x q0) eqn:E; qc_bool; qlra.
Qed.
Lemma balance_split l : qsum l = surplus l - deficit l.
Proof.
  unfold surplus, deficit. induction l as [|x l IH]; [reflexivity|]. cbn [map]. rewrite !qsum_cons, IH.
  assert (x = qmax x q0 - qmax (- x) q0); [|qlra].
  unfold qmax. destruct (qleb x q0) eqn:E1, (qleb (-x) q0) eqn:E2; qc_bool; qlra.
Qed.

(** scaling the positive (negative) part *)
Lemma qsum_scale_pos l c : qsum (map (fun e => if qltb q0 e then e * c else e) l) = c * surplus l - deficit l.
Proof.
  unfold surplus, deficit. induction l as [|x l IH]; [cbn; qring|]. cbn [map]. rewrite !qsum_cons, IH.
  assert ((if qltb q0 x then x * c else x) = c * qmax x q0 - qmax (- x) q0) as ->; [|qring].
  unfold qmax. destruct (qltb q0 x) eqn:E0, (qleb x q0) eqn:E1, (qleb (-x) q0) eqn:E2; qc_bool; try qlra; try qring.
  assert (x = q0) as -> by qlra. qring.
Qed.
Lemma qsum_scale_neg l c : qsum (map (fun e => if qleb e q0 then e * c else e) l) = surplus l - c * deficit l.
Proof.
  unfold surplus, deficit. induction l as [|x l IH]; [cbn; qring|]. cbn [map]. rewrite !qsum_cons, IH.
  assert ((if qleb x q0 then x * c else x) = qmax x q0 - c * qmax (- x) q0) as ->; [|qring].
  unfold qmax. destruct (qleb x q0) eqn:E1, (qleb (-x) q0) eqn:E2; qc_bool; try qlra; try qring.
  assert (x = q0) as -> by qlra. qring.
Qed.

Lemma set_lodc_updp LT vals L : set_lodc LT vals L = fold_left (updp (A := Qc)) (map (fun p => (at_ LT (fst p), snd p)) vals) L.
Proof. unfold set_lodc. revert L; induction vals as [|p v IH]; intros L; [reflexivity|]. cbn [fold_left map]. apply IH. Qed.
Lemma set_lodc_length LT vals L : length (set_lodc LT vals L) = length L.
Proof. rewrite set_lodc_updp. apply fold_updp_length. Qed.

Section Lodc.
  Variables (n NR : nat) (LT : list nat) (f : nat -> Qc) (p : nat -> bool).
  Hypothesis ok : order_ok n NR LT.
  Let vals := map (fun i => (i, f i)) (filter p (seq 0 n)).
  Lemma lodc_at i : (i < n)%nat -> vget (set_lodc LT vals (vzeros n)) (at_ LT i) = if p i then f i else q0.
  Proof.
    intros Hi. rewrite set_lodc_updp. unfold vals. rewrite map_map. cbn [fst snd]. unfold vget.
    assert (ND : NoDup (map (at_ LT) (filter p (seq 0 n)))).
    { assert (G : forall l, NoDup l -> (forall x, In x l -> (x < n)%nat) -> NoDup (map (at_ LT) l)).
      { clear -ok. induction l as [|a l IH]; intros ND B; [constructor|]. inversion ND as [|y z Hy Hz]; subst. cbn [map]. constructor.
        - intros C. apply in_map_iff in C. destruct C as (b & E & Hb). apply (at_inj n NR LT ok) in E; [subst; auto| |]; apply B; [now right|now left].
        - apply IH; auto. intros x Hx. apply B. now right. }
      apply G; [apply NoDup_filter, seq_NoDup|]. intros x Hx. apply filter_In in Hx. destruct Hx as (Hx & _). apply in_seq in Hx. lia. }
    destruct (p i) eqn:E.
    - apply fold_updp_in.
      + rewrite map_map. exact ND.
      + apply in_map_iff. exists i. split; auto. apply filter_In. split; auto. apply in_seq. lia.
      + unfold vzeros. rewrite repeat_length. now apply (at_lt n NR LT ok).
    - rewrite fold_updp_out; [apply vzeros_nth|]. rewrite map_map. cbn [fst]. intros C. apply in_map_iff in C.
      destruct C as (j & Ej & Hj). apply filter_In in Hj. destruct Hj as (Hj & Pj). apply in_seq in Hj.
      apply (at_inj n NR LT ok) in Ej; [congruence|lia|lia].
  Qed.
End Lodc.

Lemma filter_true {A} (l : list A) : filter (fun _ => true) l = l.
Proof. induction l as [|a l IH]; [reflexivity|]. cbn. now rewrite IH. Qed.

Theorem assign_spec : forall n NR INJ LOD LT NLS, order_ok n NR LT -> length INJ = n -> length LOD = n ->
  (NLS = false -> qsum LOD <> q0) ->
  let '(INJ1, LODC) := assign INJ LOD LT NLS in
  length INJ1 = n /\ length LODC = n /\ qsum INJ1 = q0 /\
  (deficit INJ <= surplus INJ -> forall i, (i < n)%nat ->
     vget LODC i = q0 /\
     (vget INJ i <= q0 -> vget INJ1 i = vget INJ i) /\
     (q0 < vget INJ i -> surplus INJ * vget INJ1 i = deficit INJ * vget INJ i)) /\
  (surplus INJ < deficit INJ -> NLS = true -> forall i, (i < n)%nat ->
     vget LODC (nth i LT 0%nat) = vget INJ1 i - vget INJ i /\
     (q0 < vget INJ i -> vget INJ1 i = vget INJ i) /\
     (vget INJ i <= q0 -> deficit INJ * vget INJ1 i = surplus INJ * vget INJ i)) /\
  (surplus INJ < deficit INJ -> NLS = false -> forall i, (i < n)%nat ->
     vget LODC (nth i LT 0%nat) = vget INJ1 i - vget INJ i /\
     qsum LOD * vget LODC i = (deficit INJ - surplus INJ) * vget LOD i).
Proof.
  intros n NR INJ LOD LT NLS ok LI LL NZ. unfold assign. rewrite sumn_deficit, sum_pos_surplus, LI.
  pose proof (deficit_nonneg INJ) as Dn. pose proof (surplus_nonneg INJ) as Sn.
  set (D := deficit INJ) in *. set (P := surplus INJ) in *.
  destruct (qleb D P) eqn:E; qc_bool.
  - (* enough surplus *)
    set (f := if qltb q0 P then D / P else q1).
    assert (FD : f * P = D).
    { unfold f. destruct (qltb q0 P) eqn:E1; qc_bool.
      - qfield. intros C. rewrite C in E1. qlra.
      - transitivity P; [qring|qlra]. }
    split; [now rewrite map_length|]. split; [unfold vzeros; now rewrite repeat_length|].
    split. { rewrite qsum_scale_pos. fold P D. rewrite FD. qring. }
    split; [|split; intros; exfalso; qlra].
    intros _ i Hi. split; [apply vzeros_nth|].
    assert (GM : vget (map (fun e => if qltb q0 e then e * f else e) INJ) i = if qltb q0 (vget INJ i) then vget INJ i * f else vget INJ i).
    { unfold vget at 1. rewrite (nth_map_in _ _ _ q0) by lia. reflexivity. }
    rewrite GM. split; intros H.
    + destruct (qltb q0 (vget INJ i)) eqn:E1; qc_bool; [exfalso; qlra|reflexivity].
    + destruct (qltb q0 (vget INJ i)) eqn:E1; qc_bool; [|exfalso; qlra]. rewrite <- FD. qring.
  - destruct NLS.
    + (* no loss sharing *)
      assert (DP : q0 < D) by qlra.
      assert (D0 : D <> q0) by (intros C; qlra).
      set (c := P / D). assert (CD : c * D = P) by (unfold c; qfield; exact D0).
      assert (C0 : q0 <= c).
      { destruct (Qc_total q0 c) as [|C]; auto. assert (c * D <= q0) by qnra. assert (P = q0) as P0 by qlra.
        unfold c. rewrite P0. assert (q0 / D = q0) as -> by (qfield; exact D0). qlra. }
      set (INJ1 := map (fun e => if qleb e q0 then e * c else e) INJ).
      assert (L1 : length INJ1 = n) by (unfold INJ1; now rewrite map_length).
      assert (G1 : forall i, (i < n)%nat -> vget INJ1 i = if qleb (vget INJ i) q0 then vget INJ i * c else vget INJ i).
      { intros i Hi. unfold INJ1. unfold vget at 1. rewrite (nth_map_in _ _ _ q0) by lia. reflexivity. }
      split; [exact L1|]. split; [rewrite set_lodc_length; unfold vzeros; now rewrite repeat_length|].
      split. { unfold INJ1. rewrite qsum_scale_neg. fold P D. rewrite CD. qring. }
      split; [intros; exfalso; qlra|]. split; [|intros; discriminate].
      intros _ _ i Hi.
      pose proof (lodc_at n NR LT (fun i => vget INJ1 i - vget INJ i) (fun i => qleb (vget INJ1 i) q0) ok i Hi) as EL.
      cbv beta in EL. change (at_ LT i) with (nth i LT 0%nat) in EL. rewrite EL. rewrite (G1 i Hi).
      destruct (qleb (vget INJ i) q0) eqn:E1; qc_bool.
      * split; [|split; [intros; exfalso; qlra|intros _; rewrite <- CD; qring]].
        assert (vget INJ i * c <= q0) by qnra. destruct (qleb (vget INJ i * c) q0) eqn:E2; qc_bool; [reflexivity|exfalso; qlra].
      * split; [|split; [reflexivity|intros; exfalso; qlra]].
        destruct (qleb (vget INJ i) q0) eqn:E2; qc_bool; [exfalso; qlra|qring].
    + (* loss sharing *)
      set (SL := qsum LOD). assert (S0 : SL <> q0) by (apply NZ; reflexivity).
      set (vals := map (fun i => (i, vget LOD (nth i LT 0%nat) * (D - P) / SL)) (seq 0 n)).
      set (L := set_lodc LT vals (vzeros n)).
      assert (LLn : length L = n) by (unfold L; rewrite set_lodc_length; unfold vzeros; now rewrite repeat_length).
      assert (GL : forall k, (k < n)%nat -> vget L k = vget LOD k * (D - P) / SL).
      { intros k Hk. destruct (at_surj n NR LT ok k Hk) as (i & Hi & <-).
        pose proof (lodc_at n NR LT (fun i => vget LOD (nth i LT 0%nat) * (D - P) / SL) (fun _ => true) ok i Hi) as EL.
        cbv beta in EL. rewrite filter_true in EL. exact EL. }
      assert (GI : forall i, (i < n)%nat -> vget (mapi (fun i e => e + vget L (nth i LT 0%nat)) INJ) i = vget INJ i + vget L (nth i LT 0%nat)).
      { intros i Hi. unfold vget at 1. rewrite (nth_mapi _ _ _ q0) by lia. reflexivity. }
      split; [now rewrite mapi_length|]. split; [exact LLn|].
      split.
      { rewrite qsum_qs, mapi_length, LI. transitivity (qs n (fun i => vget INJ i + vget L (nth i LT 0%nat))).
        { apply qs_ext; intros i Hi. now apply GI. }
        rewrite qs_plus. transitivity (qsum INJ + qs n (vget L)).
        { f_equal. - rewrite qsum_qs, LI. reflexivity. - apply (qs_reindex n NR LT ok (vget L)). }
        assert (qs n (vget L) = D - P) as ->; [|rewrite balance_split; fold D P; qring].
        transitivity (qs n (fun k => vget LOD k * ((D - P) / SL))).
        { apply qs_ext; intros k Hk. rewrite GL by auto. unfold Qcdiv. qring. }
        rewrite qs_scale_r. transitivity (SL * ((D - P) / SL)); [f_equal; unfold SL; rewrite qsum_qs, LL; reflexivity|].
        qfield. exact S0. }
      split; [intros; exfalso; qlra|]. split; [intros; discriminate|].
      intros _ _ i Hi. rewrite GI by auto. split; [qring|]. rewrite GL by auto. qfield. exact S0.
Qed.

(** Curtailments are non-negative and total the shortfall. *)
Theorem assign_curtailment : forall n NR INJ LOD LT NLS, order_ok n NR LT -> length INJ = n -> length LOD = n ->
  (NLS = false -> qsum LOD <> q0 /\ forall k, (k < n)%nat -> q0 <= vget LOD k) ->
  let '(INJ1, LODC) := assign INJ LOD LT NLS in
  qsum LODC = qmax (deficit INJ - surplus INJ) q0 /\ forall k, (k < n)%nat -> q0 <= vget LODC k.
Proof.
  intros n NR INJ LOD LT NLS ok LI LL NZ.
  pose proof (assign_spec n NR INJ LOD LT NLS ok LI LL (fun E => proj1 (NZ E))) as H.
  destruct (assign INJ LOD LT NLS) as [INJ1 LODC]. destruct H as (L1 & L2 & S1 & C1 & C2 & C3).
  pose proof (deficit_nonneg INJ) as Dn. pose proof (surplus_nonneg INJ) as Sn. pose proof (balance_split INJ) as Bal.
  assert (T : (forall i, (i < n)%nat -> vget LODC (nth i LT 0%nat) = vget INJ1 i - vget INJ i) ->
    qsum LODC = deficit INJ - surplus INJ).
  { intros G. rewrite qsum_qs, L2. change (qs n (vget LODC) = deficit INJ - surplus INJ).
    rewrite <- (qs_reindex n NR LT ok (vget LODC)).
    transitivity (qs n (fun i => vget INJ1 i - vget INJ i)). { apply qs_ext; intros i Hi. now apply G. }
    rewrite qs_minus. transitivity (qsum INJ1 - qsum INJ). { rewrite !qsum_qs, L1, LI. reflexivity. } rewrite S1, Bal. qring. }
  destruct (qleb (deficit INJ) (surplus INJ)) eqn:E; qc_bool.
  - specialize (C1 E). assert (Z : forall k, (k < n)%nat -> vget LODC k = q0) by (intros k Hk; apply (C1 k Hk)).
    split; [|intros k Hk; rewrite Z by auto; qlra].
    rewrite qsum_qs, L2. rewrite (qs_zero n) by exact Z. unfold qmax. destruct (qleb (deficit INJ - surplus INJ) q0) eqn:E2; qc_bool; qlra.
  - assert (M : qmax (deficit INJ - surplus INJ) q0 = deficit INJ - surplus INJ).
    { unfold qmax. destruct (qleb (deficit INJ - surplus INJ) q0) eqn:E2; qc_bool; qlra. }
    rewrite M. destruct NLS.
    + specialize (C2 E eq_refl). split; [apply T; intros i Hi; apply (C2 i Hi)|].
      intros k Hk. destruct (at_surj n NR LT ok k Hk) as (i & Hi & <-). unfold at_. destruct (C2 i Hi) as (-> & A & B).
      destruct (qleb (vget INJ i) q0) eqn:E1; qc_bool; [|rewrite A by auto; qlra].
      specialize (B E1). set (D := deficit INJ) in *. set (P := surplus INJ) in *. set (x := vget INJ i) in *. set (y := vget INJ1 i) in *.
      destruct (Qc_total q0 (y - x)) as [|C]; auto.
      assert (D * (y - x) = (P - D) * x) by (transitivity (D * y - D * x); [qring|rewrite B; qring]).
      destruct (Qc_total x y) as [|C']; [qlra|]. assert (q0 <= (P - D) * x) by qnra.
      assert (D * (y - x) <= q0) by qnra. assert (D * (y - x) = q0) as Z by qlra.
      assert (y - x = q0); [|qlra]. change q0 with 0 in *. destruct (Qcmult_integral _ _ Z) as [Z'|]; auto. exfalso. qlra.
    + specialize (C3 E eq_refl). split; [apply T; intros i Hi; apply (C3 i Hi)|].
      intros k Hk. destruct (C3 k Hk) as (_ & B). destruct (NZ eq_refl) as (N0 & NN). specialize (NN k Hk).
      assert (SP : q0 < qsum LOD).
      { assert (q0 <= qsum LOD) by (rewrite qsum_qs, LL; apply qs_nonneg; intros j Hj; apply (proj2 (NZ eq_refl) j Hj)).
        destruct (qltb q0 (qsum LOD)) eqn:E1; qc_bool; auto. exfalso. apply N0. qlra. }
      set (S := qsum LOD) in *. set (x := vget LODC k) in *.
      destruct (qleb q0 x) eqn:E1; qc_bool; auto. exfalso.
      assert (S * x < q0) by qnra. assert (q0 <= (deficit INJ - surplus INJ) * vget LOD k) by qnra. qlra.
Qed.

(** Both implementations compute the same. *)
Theorem assign_agree : forall INJ LOD LT NLS, assign_loop INJ LOD LT NLS = assign INJ LOD LT NLS.
Proof.
  intros INJ LOD LT NLS. unfold assign_loop, assign. rewrite sumn_deficit, sum_pos_surplus.
  pose proof (deficit_nonneg INJ) as Dn. pose proof (surplus_nonneg INJ) as Sn.
  set (n := length INJ).
  destruct (qleb (deficit INJ) (surplus INJ)) eqn:E; qc_bool.
  - f_equal. apply (nth_ext_eq _ _ q0); [now rewrite !map_length|]. intros i Hi. rewrite map_length in Hi.
    rewrite !(nth_map_in _ _ _ q0) by auto. destruct (qltb q0 (nth i INJ q0)) eqn:E1; qc_bool; auto.
    pose proof (surplus_pos INJ i Hi E1) as SP. destruct (qltb q0 (surplus INJ)) eqn:E2; qc_bool; [|exfalso; qlra].
    unfold Qcdiv. qring.
  - destruct NLS; [|reflexivity].
    set (D := deficit INJ) in *. set (P := surplus INJ) in *.
    assert (DP : q0 < D) by qlra. assert (D0 : D <> q0) by (intros C; qlra).
    set (c := P / D). assert (CD : c * D = P) by (unfold c; qfield; exact D0).
    assert (C0 : q0 <= c).
    { destruct (Qc_total q0 c) as [|C]; auto. assert (c * D <= q0) by qnra. assert (P = q0) as P0 by qlra.
      unfold c. rewrite P0. assert (q0 / D = q0) as -> by (qfield; exact D0). qlra. }
    set (INJ1 := map (fun e => if qleb e q0 then e * c else e) INJ).
    assert (G1 : forall i, (i < n)%nat -> vget INJ1 i = if qleb (vget INJ i) q0 then vget INJ i * c else vget INJ i).
    { intros i Hi. unfold INJ1. unfold vget at 1. rewrite (nth_map_in _ _ _ q0) by (unfold n in Hi; lia). reflexivity. }
    set (step := fun (st : list Qc * list Qc) i => let '(J, L) := st in
      if qltb q0 (vget J i) then st
      else (upd J i (vget J i * P / D), upd L (nth i LT 0%nat) (vget J i * P / D - vget J i))).
    change (fold_left step (seq 0 n) (INJ, vzeros n) =
      (INJ1, set_lodc LT (map (fun i => (i, vget INJ1 i - vget INJ i)) (filter (fun i => qleb (vget INJ1 i) q0) (seq 0 n))) (vzeros n))).
    assert (I : forall k, (k <= n)%nat -> fold_left step (seq 0 k) (INJ, vzeros n) =
      (mapi (fun i e => if (i <? k)%nat then vget INJ1 i else e) INJ,
       set_lodc LT (map (fun i => (i, vget INJ1 i - vget INJ i)) (filter (fun i => qleb (vget INJ1 i) q0) (seq 0 k))) (vzeros n))).
    { induction k as [|k IH]; intros Hk.
      - cbn [seq fold_left filter map]. f_equal. apply (nth_ext_eq _ _ q0); [now rewrite mapi_length|].
        intros i Hi. rewrite (nth_mapi _ _ _ q0) by lia. reflexivity.
      - rewrite seq_S, fold_left_app, IH by lia. cbn [fold_left Nat.add]. unfold step at 1.
        assert (VK : vget (mapi (fun i e => if (i <? k)%nat then vget INJ1 i else e) INJ) k = vget INJ k).
        { unfold vget at 1. rewrite (nth_mapi _ _ _ q0) by (unfold n in Hk; lia). now rewrite Nat.ltb_irrefl. }
        rewrite VK, filter_app. cbn [filter]. rewrite (G1 k) by lia.
        assert (MI : forall v, v = vget INJ1 k -> upd (mapi (fun i e => if (i <? k)%nat then vget INJ1 i else e) INJ) k v =
           mapi (fun i e => if (i <? S k)%nat then vget INJ1 i else e) INJ).
        { intros v Ev. apply (nth_ext_eq _ _ q0); [now rewrite upd_length, !mapi_length|]. intros i Hi.
          rewrite upd_length, mapi_length in Hi. rewrite nth_upd, mapi_length, !(nth_mapi _ _ _ q0) by lia.
          destruct (Nat.eqb_spec k i) as [->|N].
          - destruct (Nat.ltb_spec i (length INJ)); [|lia]. destruct (Nat.ltb_spec i (S i)); [|lia]. cbn [andb]. congruence.
          - cbn [andb]. destruct (Nat.ltb_spec i k), (Nat.ltb_spec i (S k)); auto; lia. }
        assert (VE : vget INJ k * P / D = vget INJ k * c) by (unfold c, Qcdiv; qring).
        destruct (qltb q0 (vget INJ k)) eqn:E1; qc_bool.
        + destruct (qleb (vget INJ k) q0) eqn:E2; qc_bool; [exfalso; qlra|].
          destruct (qleb (vget INJ k) q0) eqn:E3; qc_bool; [exfalso; qlra|]. rewrite app_nil_r. f_equal.
          rewrite <- (MI (vget INJ k)) by (rewrite G1 by lia; destruct (qleb (vget INJ k) q0) eqn:E4; qc_bool; [exfalso; qlra|reflexivity]).
          apply (nth_ext_eq _ _ q0); [now rewrite upd_length|]. intros i Hi. rewrite nth_upd.
          destruct (Nat.eqb_spec k i) as [<-|]; cbn [andb]; [|reflexivity].
          match goal with |- ?a = _ => change a with (vget (mapi (fun i e => if (i <? k)%nat then vget INJ1 i else e) INJ) k) end. rewrite VK.
          match goal with |- _ = (if ?c then _ else _) => destruct c end; solve [reflexivity|symmetry; exact VK].
        + destruct (qleb (vget INJ k) q0) eqn:E2; qc_bool; [|exfalso; qlra].
          assert (vget INJ k * c <= q0) by qnra. destruct (qleb (vget INJ k * c) q0) eqn:E3; qc_bool; [|exfalso; qlra].
          assert (V1 : vget INJ1 k = vget INJ k * c).
          { rewrite G1 by lia. destruct (qleb (vget INJ k) q0) eqn:E4; qc_bool; [reflexivity|exfalso; qlra]. }
          rewrite VE. f_equal; [apply MI; congruence|].
          rewrite map_app. unfold set_lodc. rewrite fold_left_app. cbn [map fold_left fst snd]. rewrite V1. reflexivity. }
    rewrite I by lia. f_equal. apply (nth_ext_eq _ _ q0); [unfold INJ1; now rewrite mapi_length, map_length|].
    intros i Hi. rewrite mapi_length in Hi. rewrite (nth_mapi _ _ _ q0) by lia.
    destruct (Nat.ltb_spec i n); [reflexivity|unfold n in *; lia].
Qed.
