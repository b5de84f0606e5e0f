(** C35: the factor-and-invert routines return the inverse of every non-singular
    matrix. *)
From Verif Require Import Base BaseProofs Sums LoadModel LoadSpec LoadProofs PeakProofs NetModel NetSpec MatProofs NetProofs LinpackModel.
Open Scope Z_scope.
Open Scope Qc_scope.

(* ------------------------------------------------------------------ *)
(** ** Elementary operations on vectors *)

Definition swp (K L : nat) (v : nat -> Qc) (i : nat) : Qc := if Nat.eqb i L then v K else if Nat.eqb i K then v L else v i.
Definition elem (K L : nat) (m v : nat -> Qc) (i : nat) : Qc :=
  swp K L v i + (if (K <? i)%nat then m i * swp K L v K else q0).
(** the transposed operation on rows *)
Definition elemT (n K L : nat) (m b : nat -> Qc) (j : nat) : Qc :=
  swp K L (fun l => if Nat.eqb l K then b K + qs n (fun p => if (K <? p)%nat then b p * m p else q0) else b l) j.

Lemma swp_same K v i : swp K K v i = v i.
Proof. unfold swp. destruct (Nat.eqb_spec i K); subst; reflexivity. Qed.
Lemma swp_K K L v : swp K L v K = v L.
Proof. unfold swp. rewrite Nat.eqb_refl. destruct (Nat.eqb_spec K L); subst; reflexivity. Qed.
Lemma swp_invol K L v i : swp K L (swp K L v) i = v i.
Proof.
  unfold swp. rewrite !Nat.eqb_refl. destruct (Nat.eqb_spec i L); subst.
  - destruct (Nat.eqb_spec K L); subst; reflexivity.
  - destruct (Nat.eqb_spec i K); subst; reflexivity.
Qed.
Lemma swp_ext K L u v n : (K < n)%nat -> (L < n)%nat -> (forall i, (i < n)%nat -> u i = v i) -> forall i, (i < n)%nat -> swp K L u i = swp K L v i.
Proof. intros HK HL E i Hi. unfold swp. rewrite !E by auto. reflexivity. Qed.
Lemma elem_ext K L m u v n : (K < n)%nat -> (L < n)%nat -> (forall i, (i < n)%nat -> u i = v i) -> forall i, (i < n)%nat -> elem K L m u i = elem K L m v i.
Proof. intros HK HL E i Hi. unfold elem. rewrite !(swp_ext K L u v n) by auto. reflexivity. Qed.
Lemma elem_mext K L m m' v i : m i = m' i -> elem K L m v i = elem K L m' v i.
Proof. intros E. unfold elem. now rewrite E. Qed.

Lemma qs_swap n K L c v : (K < n)%nat -> (L < n)%nat ->
  qs n (fun p => c p * swp K L v p) = qs n (fun p => swp K L c p * v p).
Proof.
  intros HK HL. destruct (Nat.eq_dec K L) as [->|N].
  { apply qs_ext; intros; now rewrite !swp_same. }
  assert (D : qs n (fun p => c p * swp K L v p - swp K L c p * v p) = q0).
  { transitivity (qs n (fun p => (if Nat.eqb p K then c K * v L - c L * v K else q0) + (if Nat.eqb p L then c L * v K - c K * v L else q0))).
    - apply qs_ext; intros p Hp. unfold swp. destruct (Nat.eqb_spec p L), (Nat.eqb_spec p K); subst; try lia; qring.
    - rewrite qs_plus. rewrite (qs_delta n K (fun _ => c K * v L - c L * v K)) by auto.
      rewrite (qs_delta n L (fun _ => c L * v K - c K * v L)) by auto. qring. }
  rewrite qs_minus in D. qlra.
Qed.

Lemma elem_adjoint n K L m b v : (K < n)%nat -> (L < n)%nat ->
  qs n (fun l => elemT n K L m b l * v l) = qs n (fun p => b p * elem K L m v p).
Proof.
  intros HK HL. unfold elemT. rewrite <- qs_swap by auto. set (y := swp K L v). set (s := qs n (fun p => if (K <? p)%nat then b p * m p else q0)).
  transitivity (qs n (fun p => b p * y p) + s * y K).
  - transitivity (qs n (fun p => b p * y p + (if Nat.eqb p K then s * y p else q0))).
    + apply qs_ext; intros p Hp. destruct (Nat.eqb_spec p K) as [->|]; qring.
    + rewrite qs_plus. f_equal. exact (qs_delta n K (fun p => s * y p) HK).
  - unfold s. rewrite <- qs_scale_r, <- qs_plus. apply qs_ext; intros p Hp. unfold elem. fold y.
    destruct (K <? p)%nat; qring.
Qed.

Lemma elem_injective n K L m v : (K < n)%nat -> (L < n)%nat -> (forall i, (i < n)%nat -> elem K L m v i = q0) ->
  forall i, (i < n)%nat -> v i = q0.
Proof.
  intros HK HL Z.
  assert (YK : swp K L v K = q0). { specialize (Z K HK). unfold elem in Z. rewrite Nat.ltb_irrefl in Z. revert Z. generalize (swp K L v K). intros y Hy. qlra. }
  assert (Y : forall i, (i < n)%nat -> swp K L v i = q0).
  { intros i Hi. specialize (Z i Hi). unfold elem in Z. rewrite YK in Z. revert Z. generalize (swp K L v i). intros y Hy.
    destruct (K <? i)%nat; [|qlra]. assert (m i * q0 = q0) as Q by qring. rewrite Q in Hy. qlra. }
  intros i Hi. rewrite <- (swp_invol K L v i). rewrite (swp_ext K L (swp K L v) (fun _ => q0) n) by auto.
  unfold swp. destruct (Nat.eqb i L), (Nat.eqb i K); reflexivity.
Qed.
Lemma elem_mv n K L m (W : nat -> nat -> Qc) x i : mv n (fun i j => elem K L m (fun r => W r j) i) x i = elem K L m (mv n W x) i.
Proof.
  unfold mv, elem, swp. rewrite !Nat.eqb_refl.
  destruct (Nat.eqb_spec i L); destruct (Nat.eqb_spec K L); destruct (Nat.eqb_spec i K); destruct (K <? i)%nat;
    rewrite <- ?qs_scale, <- ?qs_plus; try (apply qs_ext; intros; qring);
    rewrite ?Qcplus_0_r; try (transitivity (qs n (fun k => W L k * x k) + q0); [|qring]); try (apply qs_ext; intros; qring).
  all: try (match goal with |- _ = ?s + q0 => transitivity s; [apply qs_ext; intros; qring|qring] end).
Qed.
Lemma elem_minus K L m u v i : elem K L m (fun r => u r - v r) i = elem K L m u i - elem K L m v i.
Proof. unfold elem, swp. rewrite !Nat.eqb_refl. destruct (Nat.eqb i L), (Nat.eqb K L), (Nat.eqb i K), (K <? i)%nat; qring. Qed.

(* ------------------------------------------------------------------ *)
(** ** Upper triangular matrices *)

Definition upper_tri (n : nat) (U : nat -> nat -> Qc) : Prop := forall i j, (i < n)%nat -> (j < i)%nat -> U i j = q0.

(** back substitution *)
Lemma ut_solve : forall n U, upper_tri n U -> (forall k, (k < n)%nat -> U k k <> q0) ->
  forall b, exists v, forall i, (i < n)%nat -> mv n U v i = b i.
Proof.
  induction n as [|n IH]; intros U T D b. { exists (fun _ => q0). intros; lia. }
  set (vn := b n / U n n).
  destruct (IH U) with (b := fun i => b i - U i n * vn) as (v & V).
  { intros i j Hi Hj. apply T; lia. } { intros k Hk. apply D. lia. }
  exists (fun i => if Nat.eqb i n then vn else v i). intros i Hi. unfold mv. rewrite qs_S, Nat.eqb_refl.
  assert (E : qs n (fun k => U i k * (if Nat.eqb k n then vn else v k)) = qs n (fun k => U i k * v k)).
  { apply qs_ext; intros k Hk. destruct (Nat.eqb_spec k n); [lia|reflexivity]. }
  rewrite E. destruct (Nat.eq_dec i n) as [->|N].
  - assert (qs n (fun k => U n k * v k) = q0) as ->. { apply qs_zero; intros k Hk. rewrite T by lia. qring. }
    unfold vn. specialize (D n ltac:(lia)). rewrite Qcmult_div_r by auto. qring.
  - specialize (V i ltac:(lia)). unfold mv in V. rewrite V. qring.
Qed.
Lemma ut_injective : forall n U, upper_tri n U -> (forall k, (k < n)%nat -> U k k <> q0) -> injective n U.
Proof.
  induction n as [|n IH]; intros U T D v Z i Hi; [lia|].
  assert (VN : v n = q0).
  { specialize (Z n ltac:(lia)). unfold mv in Z. rewrite qs_S in Z.
    assert (qs n (fun k => U n k * v k) = q0) as E. { apply qs_zero; intros k Hk. rewrite T by lia. qring. }
    rewrite E in Z. assert (U n n * v n = q0) as Z' by (revert Z; generalize (U n n * v n); intros; qlra).
    change q0 with 0 in *. destruct (Qcmult_integral _ _ Z'); auto. now destruct (D n ltac:(lia)). }
  destruct (Nat.eq_dec i n) as [->|N]; auto.
  apply (IH U); try lia.
  - intros a b Ha Hb. apply T; lia.
  - intros k Hk. apply D. lia.
  - intros k Hk. specialize (Z k ltac:(lia)). unfold mv in *. rewrite qs_S, VN in Z. rewrite <- Z. qring.
Qed.
Lemma ut_diag : forall n U, upper_tri n U -> injective n U -> forall k, (k < n)%nat -> U k k <> q0.
Proof.
  intros n U T J. induction k as [k IH] using lt_wf_ind. intros Hk Z.
  destruct (ut_solve k U) with (b := fun i => - U i k) as (v & V).
  { intros i j Hi Hj. apply T; lia. } { intros j Hj. apply IH; lia. }
  set (w := fun i => if (i <? k)%nat then v i else if Nat.eqb i k then q1 else q0).
  assert (W : w k = q0).
  { apply (J w); auto. intros i Hi. unfold mv.
    transitivity (qs n (fun j => (if (j <? k)%nat then U i j * v j else q0) + (if Nat.eqb j k then U i j else q0))).
    { apply qs_ext; intros j Hj. unfold w. destruct (Nat.ltb_spec j k), (Nat.eqb_spec j k); try lia; qring. }
    rewrite qs_plus, (qs_delta n k (fun j => U i j)) by auto.
    assert (EQ : qs n (fun j => if (j <? k)%nat then U i j * v j else q0) = mv k U v i).
    { clear - Hk. unfold mv. induction n as [|n IHn]; [lia|]. rewrite qs_S. destruct (Nat.eq_dec k n) as [->|].
      - rewrite Nat.ltb_irrefl. transitivity (qs n (fun j => U i j * v j) + q0); [|qring]. f_equal. apply qs_ext; intros j Hj.
        destruct (Nat.ltb_spec j n); [reflexivity|lia].
      - rewrite IHn by lia. destruct (Nat.ltb_spec n k); [lia|]. qring. }
    rewrite EQ. destruct (Nat.lt_ge_cases i k).
    - rewrite V by auto. qring.
    - unfold mv. assert (qs k (fun j => U i j * v j) = q0) as ->. { apply qs_zero; intros j Hj. rewrite T by lia. qring. }
      destruct (Nat.eq_dec i k) as [->|]; [rewrite Z; qring|rewrite T by lia; qring]. }
  unfold w in W. rewrite Nat.ltb_irrefl, Nat.eqb_refl in W. discriminate W.
Qed.

(* ------------------------------------------------------------------ *)
(** ** Factorisation *)

Definition upper (k : nat) (A : list (list Qc)) (i j : nat) : Qc := if (j <? k)%nat && (j <? i)%nat then q0 else mget A i j.

Lemma qabs_0 x : qabs x = q0 -> x = q0.
Proof. unfold qabs. destruct (qltb x q0) eqn:E; intros H; auto. qc_bool. qlra. Qed.
Lemma qabs_nonneg x : q0 <= qabs x.
Proof. unfold qabs. destruct (qltb x q0) eqn:E; qc_bool; qlra. Qed.

Lemma pivot_row_spec N A K : (K < N)%nat -> let L := pivot_row N A K in
  (K <= L < N)%nat /\ forall i, (K <= i < N)%nat -> qabs (mget A i K) <= qabs (mget A L K).
Proof.
  intros HK L. unfold L, pivot_row. set (l := map (fun i => qabs (mget A i K)) (seq K (N - K))).
  assert (LL : length l = (N - K)%nat) by (unfold l; now rewrite map_length, seq_length).
  assert (NE : l <> []) by (intros E; apply (f_equal (@length Qc)) in E; cbn in E; lia).
  destruct (argmaxv_spec l NE) as (FM & _). set (p := npargmax l) in *. destruct FM as (Hp & Hm & _). rewrite LL in *.
  assert (NT : forall i, (i < N - K)%nat -> nth i l q0 = qabs (mget A (K + i) K)).
  { intros i Hi. unfold l. rewrite (nth_map_in _ _ _ 0%nat) by (now rewrite seq_length). now rewrite seq_nth by auto. }
  split; [lia|]. intros i Hi. specialize (Hm (i - K)%nat ltac:(lia)). rewrite !NT in Hm by lia.
  replace (K + (i - K))%nat with i in Hm by lia. replace (p + K)%nat with (K + p)%nat by lia. exact Hm.
Qed.

Lemma div_mul_cancel (a b : Qc) : b <> q0 -> a * (qz (-1) / b) * b = - a.
Proof.
  intros H. unfold Qcdiv. replace (qz (-1)) with (- q1) by (apply Qc_is_canon; reflexivity). transitivity (- a * (/ b * b)); [qring|]. rewrite Qcmult_inv_l by exact H. qring.
Qed.

Lemma abs_ratio (x p a : Qc) : p <> q0 -> x * p = - a -> qabs a <= qabs p -> qabs x <= q1.
Proof.
  intros NP E B. unfold qabs in *. change q1 with 1 in *. change q0 with 0 in *.
  assert (PP : p < 0 \/ 0 < p) by (destruct (Qc_dec p 0) as [[?|?]|?]; auto; contradiction).
  destruct (qltb a 0) eqn:Qa; destruct (qltb p 0) eqn:Qp; destruct (qltb x 0) eqn:Qx;
    apply (proj1 (qltb_iff _ _)) in Qa || apply (proj1 (qltb_false _ _)) in Qa;
    apply (proj1 (qltb_iff _ _)) in Qp || apply (proj1 (qltb_false _ _)) in Qp;
    apply (proj1 (qltb_iff _ _)) in Qx || apply (proj1 (qltb_false _ _)) in Qx;
    apply Qcnot_lt_le; intros H; destruct PP; try qlra.
  all: try (assert (0 < (x - 1) * p) by qnra; qnra).
  all: try (assert (0 < (- x - 1) * p) by qnra; qnra).
  all: try (assert (0 < (x - 1) * - p) by qnra; qnra).
  all: try (assert (0 < (- x - 1) * - p) by qnra; qnra).
Qed.

Lemma dgefa_step_spec N A P I K : shape N N A -> (K < N)%nat ->
  let '(A', P', _) := dgefa_step N (A, P, I) K in
  exists L, P' = P ++ [L] /\ (K <= L < N)%nat /\ shape N N A' /\
    (forall i j, (i < N)%nat -> (j < N)%nat -> upper (S K) A' i j = elem K L (fun r => mget A' r K) (fun r => upper K A r j) i) /\
    (forall i j, (i < N)%nat -> (j < K)%nat -> mget A' i j = mget A i j) /\
    (forall i, (K < i < N)%nat -> qabs (mget A' i K) <= q1).
Proof.
  intros SA HK. unfold dgefa_step. destruct (pivot_row_spec N A K HK) as (HL & MX). set (L := pivot_row N A K) in *.
  destruct (qeqb (mget A L K) q0) eqn:EP.
  - apply qeqb_iff in EP. assert (Z : forall i, (K <= i < N)%nat -> mget A i K = q0).
    { intros i Hi. apply qabs_0. specialize (MX i Hi). rewrite EP in MX. pose proof (qabs_nonneg (mget A i K)).
      assert (qabs q0 = q0) as Q by reflexivity. rewrite Q in MX. qlra. }
    assert (EL : L = K).
    { unfold L, pivot_row. assert (N - K = S (N - K - 1))%nat as E by lia. rewrite E. cbn [seq map]. unfold npargmax, argmaxv.
      assert (G : forall l i b bv, (forall x, In x l -> x <= bv) -> fst (argmax_from l i b bv) = b).
      { induction l as [|x l IH]; intros i b bv Hx; cbn [argmax_from]; [reflexivity|].
        assert (x <= bv) by (apply Hx; now left). destruct (qltb bv x) eqn:Q; qc_bool; [qlra|]. apply IH. intros y Hy. apply Hx. now right. }
      rewrite G; [lia|]. intros x Hx. apply in_map_iff in Hx. destruct Hx as (i & <- & Hi). apply in_seq in Hi.
      rewrite !Z by lia. qlra. }
    exists L. split; [reflexivity|]. split; [exact HL|]. split; [exact SA|]. rewrite EL. split; [|split].
    + intros i j Hi Hj. unfold elem. rewrite !swp_same. unfold upper.
      destruct (Nat.ltb_spec j (S K)), (Nat.ltb_spec j K), (Nat.ltb_spec j i), (Nat.ltb_spec K i); cbn [andb]; try lia; try (rewrite (Z i) by lia); try qring.
      * assert (j = K) as -> by lia. rewrite (Z i) by lia. qring.
    + auto.
    + intros i Hi. rewrite Z by lia. change (qabs q0) with q0. qlra.
  - apply qeqb_false in EP.
    set (A1 := if Nat.eqb L K then A else swap_rows N A K L).
    assert (G1 : shape N N A1 /\ forall i j, (i < N)%nat -> (j < N)%nat -> mget A1 i j = if (j <? K)%nat then mget A i j else swp K L (fun r => mget A r j) i).
    { unfold A1. destruct (Nat.eqb_spec L K) as [E|NE].
      - split; auto. intros. rewrite E, swp_same. destruct (j <? K)%nat; reflexivity.
      - split; [apply mtab_shape|]. intros i j Hi Hj. unfold swap_rows. rewrite mget_mtab by auto. reflexivity. }
    destruct G1 as (S1 & G1).
    assert (GKK : mget A1 K K = mget A L K). { rewrite G1 by lia. rewrite Nat.ltb_irrefl. exact (swp_K K L (fun r => mget A r K)). }
    set (t := qz (-1) / mget A L K).
    assert (G2 : forall i j, (i < N)%nat -> (j < N)%nat -> mget (scale_col N A1 K) i j = if (K <? i)%nat && Nat.eqb j K then mget A1 i j * t else mget A1 i j).
    { intros i j Hi Hj. unfold scale_col. rewrite mget_mtab by auto. rewrite GKK. reflexivity. }
    set (A3 := eliminate N (scale_col N A1 K) K).
    assert (G3 : forall i j, (i < N)%nat -> (j < N)%nat -> mget A3 i j =
      if (K <? i)%nat then if (K <? j)%nat then mget A1 i j + mget A1 i K * t * mget A1 K j else if Nat.eqb j K then mget A1 i K * t else mget A1 i j else mget A1 i j).
    { intros i j Hi Hj. unfold A3, eliminate. rewrite mget_mtab by auto. rewrite !G2 by lia.
      rewrite Nat.eqb_refl, Nat.ltb_irrefl. cbn [andb].
      destruct (Nat.ltb_spec K i), (Nat.ltb_spec K j), (Nat.eqb_spec j K); cbn [andb]; try lia; subst; reflexivity. }
    exists L. split; [reflexivity|]. split; [exact HL|]. split; [apply mtab_shape|]. split; [|split].
    + intros i j Hi Hj. unfold upper at 1. fold A3. rewrite G3 by auto.
      assert (E1 : forall j, (j < N)%nat -> (K <= j)%nat -> forall r, (r < N)%nat -> swp K L (fun r => upper K A r j) r = mget A1 r j).
      { intros j' Hj' Kj r Hr. rewrite G1 by lia. destruct (Nat.ltb_spec j' K); [lia|]. unfold swp, upper. destruct (Nat.ltb_spec j' K); [lia|]. reflexivity. }
      unfold elem. rewrite G3 by lia. rewrite Nat.ltb_irrefl, Nat.eqb_refl.
      destruct (Nat.ltb_spec j K) as [JK|JK].
      * assert (Z : forall r, (K <= r)%nat -> upper K A r j = q0).
        { intros r Hr. unfold upper. destruct (Nat.ltb_spec j K), (Nat.ltb_spec j r); try lia. reflexivity. }
        assert (ZK : swp K L (fun r => upper K A r j) K = q0) by (rewrite swp_K; apply Z; lia). rewrite ZK.
        destruct (Nat.lt_ge_cases i K) as [IK|IK].
        -- destruct (Nat.ltb_spec K i); [lia|]. unfold swp, upper. destruct (Nat.eqb_spec i L); [lia|]. destruct (Nat.eqb_spec i K); [lia|].
           rewrite G1 by auto. destruct (Nat.ltb_spec j K); [|lia]. destruct (Nat.ltb_spec j (S K)); [|lia]. destruct (j <? i)%nat; cbn [andb]; qring.
        -- destruct (Nat.ltb_spec j (S K)), (Nat.ltb_spec j i); try lia. cbn [andb].
           assert (swp K L (fun r => upper K A r j) i = q0) as ->. { unfold swp. destruct (Nat.eqb i L), (Nat.eqb i K); apply Z; lia. }
           destruct (K <? i)%nat; qring.
      * rewrite !E1 by lia. destruct (Nat.ltb_spec K i) as [KI|KI].
        -- destruct (Nat.ltb_spec K j) as [KJ|KJ].
           ++ destruct (Nat.ltb_spec j (S K)); [lia|]. reflexivity.
           ++ assert (j = K) as -> by lia. rewrite Nat.eqb_refl. destruct (Nat.ltb_spec K (S K)), (Nat.ltb_spec K i); try lia. cbn [andb].
              rewrite GKK. unfold t. rewrite div_mul_cancel by auto. qring.
        -- destruct (Nat.ltb_spec j i); [lia|]. rewrite andb_false_r. qring.
    + intros i j Hi Hj. fold A3. rewrite G3 by lia. destruct (Nat.ltb_spec K j); [lia|]. destruct (Nat.eqb_spec j K); [lia|].
      rewrite G1 by lia. destruct (Nat.ltb_spec j K); [|lia]. destruct (K <? i)%nat; reflexivity.
    + intros i Hi. fold A3. rewrite G3 by lia. destruct (Nat.ltb_spec K i); [|lia]. rewrite Nat.ltb_irrefl, Nat.eqb_refl.
      rewrite G1 by lia. rewrite Nat.ltb_irrefl.
      assert (B : qabs (swp K L (fun r => mget A r K) i) <= qabs (mget A L K)). { unfold swp. destruct (Nat.eqb i L), (Nat.eqb i K); apply MX; lia. }
      revert B. generalize (swp K L (fun r => mget A r K) i). intros a B. unfold t.
      assert (a * (qz (-1) / mget A L K) * mget A L K = - a) as E by (now apply div_mul_cancel).
      exact (abs_ratio _ _ a EP E B).
Qed.

(** The whole factorisation. *)
Definition fact (N : nat) (A : list (list Qc)) (n : nat) := fold_left (dgefa_step N) (seq 0 n) (A, [], 0%nat).
Lemma fact_S N A n : fact N A (S n) = dgefa_step N (fact N A n) n.
Proof. unfold fact. rewrite seq_S, fold_left_app. reflexivity. Qed.

Lemma fact_spec N A : shape N N A -> forall n, (n < N)%nat ->
  let '(S_, P, _) := fact N A n in
  shape N N S_ /\ length P = n /\
  (forall k i, (k < n)%nat -> (k < i < N)%nat -> qabs (mget S_ i k) <= q1) /\
  exists W : nat -> nat -> nat -> Qc,
    (forall i j, (i < N)%nat -> (j < N)%nat -> W 0%nat i j = mget A i j) /\
    (forall i j, (i < N)%nat -> (j < N)%nat -> W n i j = upper n S_ i j) /\
    (forall k, (k < n)%nat -> (k <= nth k P 0%nat < N)%nat /\
      forall i j, (i < N)%nat -> (j < N)%nat -> W (S k) i j = elem k (nth k P 0%nat) (fun r => mget S_ r k) (fun r => W k r j) i).
Proof.
  intros SA n. induction n as [|n IH]; intros Hn.
  - unfold fact. cbn [seq fold_left]. split; [exact SA|]. split; [reflexivity|]. split; [lia|].
    exists (fun _ i j => mget A i j). split; [auto|]. split; [|lia]. intros i j Hi Hj. unfold upper. cbn [Nat.ltb Nat.leb andb]. reflexivity.
  - specialize (IH ltac:(lia)). rewrite fact_S. destruct (fact N A n) as [[S0 P0] I0]. destruct IH as (SS & LP & BD & W & W0 & Wn & Wk).
    pose proof (dgefa_step_spec N S0 P0 I0 n SS ltac:(lia)) as D. destruct (dgefa_step N (S0, P0, I0) n) as [[S1 P1] I1].
    destruct D as (L & EP & HL & SS1 & ST & KEEP & BD1). split; [exact SS1|]. split; [rewrite EP, app_length, LP; cbn; lia|]. split.
    { intros k i Hk Hi. destruct (Nat.eq_dec k n) as [->|]; [auto|]. rewrite KEEP by lia. apply BD; lia. }
    exists (fun k => if (k <? S n)%nat then W k else upper (S n) S1). split; [|split].
    + intros i j Hi Hj. cbn [Nat.ltb Nat.leb]. auto.
    + intros i j Hi Hj. rewrite Nat.ltb_irrefl. reflexivity.
    + intros k Hk. rewrite EP. destruct (Nat.eq_dec k n) as [->|NE].
      * rewrite app_nth2, LP, Nat.sub_diag by lia. cbn [nth]. split; [exact HL|]. intros i j Hi Hj.
        rewrite Nat.ltb_irrefl. destruct (Nat.ltb_spec n (S n)); [|lia]. rewrite ST by auto. symmetry.
        apply (elem_ext n L _ _ _ N); try lia; auto.
      * rewrite app_nth1 by lia. destruct (Wk k ltac:(lia)) as (H1 & H2). split; [exact H1|]. intros i j Hi Hj.
        destruct (Nat.ltb_spec (S k) (S n)), (Nat.ltb_spec k (S n)); try lia. rewrite H2 by auto.
        apply elem_mext. rewrite KEEP by lia. reflexivity.
Qed.

(** ** Inverse of the upper triangle *)

Definition Xup (R : list (list Qc)) (i l : nat) : Qc := if (l <? i)%nat then q0 else mget R i l.

Lemma dgedi_up_cell N A K i j : (i < N)%nat -> (j < N)%nat -> (K < N)%nat ->
  mget (dgedi_up N A K) i j =
    let akk := q1 / mget A K K in
    if (K <? j)%nat then
      if (i <? K)%nat then mget A i j + mget A i K * - akk * mget A K j
      else if Nat.eqb i K then akk * mget A K j else mget A i j
    else if Nat.eqb j K then if Nat.eqb i K then akk else if (i <? K)%nat then mget A i K * - akk else mget A i j
    else mget A i j.
Proof.
  intros Hi Hj HK. unfold dgedi_up. cbv zeta. rewrite !mget_mtab by auto. rewrite Nat.ltb_irrefl, !Nat.eqb_refl, !andb_false_r.
  destruct (Nat.ltb_spec K j), (Nat.ltb_spec i (S K)), (Nat.ltb_spec i K), (Nat.eqb_spec i K), (Nat.eqb_spec j K); subst; cbn [andb]; try lia; try reflexivity; try qring.
Qed.

Lemma up_spec N S_ : shape N N S_ -> (forall k, (k < N)%nat -> mget S_ k k <> q0) -> forall n, (n <= N)%nat ->
  let R := fold_left (dgedi_up N) (seq 0 n) S_ in
  shape N N R /\
  (forall i j, (i < N)%nat -> (j < i)%nat -> mget R i j = mget S_ i j) /\
  (forall i j, (n <= i < N)%nat -> (i <= j < N)%nat -> mget R i j = mget S_ i j) /\
  (forall i j, (i < n)%nat -> (j < N)%nat ->
     qs n (fun l => Xup R i l * Xup S_ l j) = if (j <? n)%nat then if Nat.eqb i j then q1 else q0 else mget R i j).
Proof.
  intros SS ND n. induction n as [|n IH]; intros Hn.
  - cbn [seq fold_left]. cbv zeta. split; [auto|]. split; [auto|]. split; [auto|]. lia.
  - specialize (IH ltac:(lia)). cbv zeta in IH |- *. rewrite seq_S, fold_left_app. cbn [Nat.add fold_left].
    set (R := fold_left (dgedi_up N) (seq 0 n) S_) in *. destruct IH as (SR & LO & UP & X). set (R' := dgedi_up N R n).
    assert (C : forall i j, (i < N)%nat -> (j < N)%nat -> mget R' i j = _) by (intros i j Hi Hj; apply (dgedi_up_cell N R n i j Hi Hj); lia).
    cbv zeta in C.
    assert (Rnn : mget R n n = mget S_ n n) by (apply UP; lia). set (akk := q1 / mget R n n) in *.
    assert (AK : akk * mget S_ n n = q1). { unfold akk. rewrite Rnn. unfold Qcdiv. transitivity (/ mget S_ n n * mget S_ n n); [qring|]. apply Qcmult_inv_l. apply ND; lia. }
    split; [apply mtab_shape|]. split; [|split].
    + intros i j Hi Hj. rewrite C by lia. destruct (Nat.ltb_spec n j).
      * destruct (Nat.ltb_spec i n); [lia|]. destruct (Nat.eqb_spec i n); [lia|]. apply LO; lia.
      * destruct (Nat.eqb_spec j n); [|apply LO; lia]. destruct (Nat.eqb_spec i n); [lia|]. destruct (Nat.ltb_spec i n); [lia|]. apply LO; lia.
    + intros i j Hi Hj. rewrite C by lia. destruct (Nat.ltb_spec n j); [|lia].
      destruct (Nat.ltb_spec i n); [lia|]. destruct (Nat.eqb_spec i n); [lia|]. apply UP; lia.
    + intros i j Hi Hj.
      assert (EX : forall l, (l < n)%nat -> Xup R' i l = Xup R i l).
      { intros l Hl. unfold Xup. destruct (Nat.ltb_spec l i); auto. rewrite C by lia.
        destruct (Nat.ltb_spec n l); [lia|]. destruct (Nat.eqb_spec l n); [lia|]. reflexivity. }
      rewrite qs_S. rewrite (qs_ext n (fun l => Xup R' i l * Xup S_ l j) (fun l => Xup R i l * Xup S_ l j)) by (intros l Hl; now rewrite EX).
      destruct (Nat.eq_dec i n) as [->|NE].
      * assert (qs n (fun l => Xup R n l * Xup S_ l j) = q0) as ->.
        { apply qs_zero; intros l Hl. unfold Xup at 1. destruct (Nat.ltb_spec l n); [|lia]. qring. }
        assert (Xup R' n n = akk) as ->.
        { unfold Xup. rewrite Nat.ltb_irrefl, C by lia. rewrite Nat.ltb_irrefl, Nat.eqb_refl. reflexivity. }
        unfold Xup. destruct (Nat.ltb_spec j n), (Nat.ltb_spec j (S n)), (Nat.eqb_spec n j); try lia.
        -- qring.
        -- subst j. rewrite AK. qring.
        -- rewrite C by lia. destruct (Nat.ltb_spec n j); [|lia]. rewrite Nat.ltb_irrefl, Nat.eqb_refl. rewrite UP by lia. qring.
      * rewrite X by lia.
        assert (Xup R' i n = mget R i n * - akk) as ->.
        { unfold Xup. destruct (Nat.ltb_spec n i); [lia|]. rewrite C by lia. rewrite Nat.ltb_irrefl, Nat.eqb_refl.
          destruct (Nat.eqb_spec i n); [lia|]. destruct (Nat.ltb_spec i n); [reflexivity|lia]. }
        unfold Xup. destruct (Nat.ltb_spec j n), (Nat.ltb_spec j (S n)); try lia.
        -- qring.
        -- assert (j = n) as -> by lia. destruct (Nat.eqb_spec i n); [lia|].
           transitivity (mget R i n - mget R i n * (akk * mget S_ n n)); [qring|]. rewrite AK. qring.
        -- rewrite C by lia. destruct (Nat.ltb_spec n j); [|lia]. destruct (Nat.ltb_spec i n); [|lia]. rewrite (UP n j) by lia. reflexivity.
Qed.

(* ------------------------------------------------------------------ *)
(** ** Multiplication by the inverse of the lower factor *)

Lemma qs_tail N K f : (K < N)%nat -> qsum (map f (seq (S K) (N - S K))) = qs N (fun p => if (K <? p)%nat then f p else q0).
Proof.
  intros HK. unfold qs. replace (seq 0 N) with (seq 0 (S K) ++ seq (S K) (N - S K)) by (rewrite <- seq_app; f_equal; lia).
  rewrite map_app, qsum_app. rewrite (qsum_zero (fun p => if (K <? p)%nat then f p else q0) (seq 0 (S K))).
  - rewrite (qsum_map_ext (fun p => if (K <? p)%nat then f p else q0) f); [qring|].
    intros x Hx. apply in_seq in Hx. destruct (Nat.ltb_spec K x); [reflexivity|lia].
  - intros x Hx. apply in_seq in Hx. destruct (Nat.ltb_spec K x); [lia|reflexivity].
Qed.

Lemma down_step N P R K : shape N N R -> (K < N)%nat -> (K <= nth K P 0 < N)%nat ->
  let R' := dgedi_down N P R K in
  shape N N R' /\
  (forall i j, (i < N)%nat -> (j < K)%nat -> mget R' i j = mget R i j) /\
  (forall i j, (i < N)%nat -> (j < N)%nat -> upper K R' i j = elemT N K (nth K P 0%nat) (fun r => mget R r K) (upper (S K) R i) j).
Proof.
  intros SR HK HL. unfold dgedi_down. cbv zeta. set (L := nth K P 0%nat) in *. clearbody L.
  set (A1 := mtab N N (fun i j => if (K <? i)%nat && Nat.eqb j K then q0 else mget R i j)).
  set (A2 := mtab N N _).
  assert (G1 : forall i j, (i < N)%nat -> (j < N)%nat -> mget A1 i j = if (K <? i)%nat && Nat.eqb j K then q0 else mget R i j)
    by (intros; unfold A1; now rewrite mget_mtab).
  set (b := fun i => upper (S K) R i).
  assert (G2 : forall i j, (i < N)%nat -> (j < N)%nat -> mget A2 i j =
    if Nat.eqb j K then b i K + qs N (fun p => if (K <? p)%nat then b i p * mget R p K else q0) else mget R i j).
  { intros i j Hi Hj. unfold A2. rewrite mget_mtab by auto. destruct (Nat.eqb_spec j K) as [->|NE].
    - f_equal.
      + rewrite G1 by auto. rewrite Nat.eqb_refl, andb_true_r. unfold b, upper. destruct (Nat.ltb_spec K (S K)); [|lia]. reflexivity.
      + rewrite (qs_tail N K (fun l => mget A1 i l * mget R l K)) by auto. apply qs_ext; intros p Hp. destruct (Nat.ltb_spec K p); [|reflexivity].
        rewrite G1 by auto. destruct (Nat.eqb_spec p K); [lia|]. rewrite andb_false_r. unfold b, upper. destruct (Nat.ltb_spec p (S K)); [lia|]. reflexivity.
    - rewrite G1 by auto. destruct (Nat.eqb_spec j K); [lia|]. now rewrite andb_false_r. }
  set (R' := if Nat.eqb L K then A2 else _).
  assert (G3 : forall i j, (i < N)%nat -> (j < N)%nat -> mget R' i j = swp K L (fun l => mget A2 i l) j).
  { intros i j Hi Hj. unfold R'. destruct (Nat.eqb_spec L K) as [EQ|NE]; [rewrite EQ; now rewrite swp_same|]. rewrite mget_mtab by auto. unfold swp.
    destruct (Nat.eqb_spec j K), (Nat.eqb_spec j L); subst; try lia; reflexivity. }
  assert (LO : forall i j, (i < N)%nat -> (j < K)%nat -> mget R' i j = mget R i j).
  { intros i j Hi Hj. rewrite G3 by lia. unfold swp. destruct (Nat.eqb_spec j L); [lia|]. destruct (Nat.eqb_spec j K); [lia|].
    rewrite G2 by lia. destruct (Nat.eqb_spec j K); [lia|]. reflexivity. }
  split; [unfold R'; destruct (Nat.eqb L K); apply mtab_shape|]. split; [exact LO|].
  intros i j Hi Hj. unfold elemT. fold (b i).
  set (c := fun l => if Nat.eqb l K then b i K + qs N (fun p => if (K <? p)%nat then b i p * mget R p K else q0) else b i l).
  destruct (Nat.lt_ge_cases j K) as [JK|JK].
  - unfold upper. destruct (Nat.ltb_spec j K); [|lia]. cbn [andb]. rewrite LO by auto.
    unfold swp. destruct (Nat.eqb_spec j L); [lia|]. destruct (Nat.eqb_spec j K); [lia|]. unfold c. destruct (Nat.eqb_spec j K); [lia|].
    unfold b, upper. destruct (Nat.ltb_spec j (S K)); [|lia]. reflexivity.
  - unfold upper. destruct (Nat.ltb_spec j K); [lia|]. cbn [andb]. rewrite G3 by auto.
    assert (E : forall l, (K <= l < N)%nat -> mget A2 i l = c l).
    { intros l Hl. rewrite G2 by lia. unfold c. destruct (Nat.eqb_spec l K); [reflexivity|]. unfold b, upper. destruct (Nat.ltb_spec l (S K)); [lia|]. reflexivity. }
    unfold swp. destruct (Nat.eqb j L); [apply E; lia|]. destruct (Nat.eqb j K); apply E; lia.
Qed.

(** the state after the columns n-1, ..., N-1-n have been treated *)
Definition down (N : nat) (P : list nat) (R : list (list Qc)) (k : nat) := fold_left (dgedi_down N P) (rev (seq k (N - 1 - k))) R.
Lemma down_S N P R k : (k < N - 1)%nat -> down N P R k = dgedi_down N P (down N P R (S k)) k.
Proof.
  intros H. unfold down. replace (N - 1 - k)%nat with (S (N - 1 - S k)) by lia. cbn [seq rev]. rewrite fold_left_app. reflexivity.
Qed.
Lemma down_spec N P R : shape N N R -> (forall k, (k < N - 1)%nat -> (k <= nth k P 0 < N)%nat) -> (0 < N)%nat ->
  forall d, (d <= N - 1)%nat -> let k := (N - 1 - d)%nat in
  shape N N (down N P R k) /\
  (forall i j, (i < N)%nat -> (j < k)%nat -> mget (down N P R k) i j = mget R i j).
Proof.
  intros SR HP HN d. induction d as [|d IH]; intros Hd; cbv zeta.
  - unfold down. replace (N - 1 - (N - 1 - 0))%nat with 0%nat by lia. cbn [seq rev fold_left]. auto.
  - specialize (IH ltac:(lia)). cbv zeta in IH. replace (N - 1 - d)%nat with (S (N - 1 - S d)) in IH by lia. set (k := (N - 1 - S d)%nat) in *.
    destruct IH as (S1 & K1). rewrite down_S by lia.
    destruct (down_step N P _ k S1 ltac:(lia) (HP k ltac:(lia))) as (S2 & K2 & _). split; [exact S2|].
    intros i j Hi Hj. rewrite K2 by auto. apply K1; lia.
Qed.

Lemma mv_ext n A A' x x' i : (forall k, (k < n)%nat -> A i k = A' i k) -> (forall k, (k < n)%nat -> x k = x' k) -> mv n A x i = mv n A' x' i.
Proof. intros E F. unfold mv. apply qs_ext; intros k Hk. now rewrite E, F. Qed.

(** C35 *)
Theorem linpack_inverse : forall N A, (0 < N)%nat -> shape N N A -> injective N (mget A) ->
  let Z := linpack_inv A N in
  shape N N Z /\ is_inverse N (mget A) (mget Z) /\ is_inverse N (mget Z) (mget A).
Proof.
  intros N A HN SA J. unfold linpack_inv, dgeco, dgefa.
  pose proof (fact_spec N A SA (N - 1) ltac:(lia)) as F. unfold fact in F.
  destruct (fold_left (dgefa_step N) (seq 0 (N - 1)) (A, [], 0%nat)) as [[S_ P] I]. destruct F as (SS & LP & _ & W & W0 & Wn & Wk).
  set (P' := P ++ [(N - 1)%nat]).
  assert (HP : forall k, (k < N - 1)%nat -> nth k P' 0%nat = nth k P 0%nat) by (intros; unfold P'; rewrite app_nth1 by lia; reflexivity).
  set (m := fun k r => mget S_ r k). set (L := fun k => nth k P 0%nat).
  assert (WS : forall k x i, (k < N - 1)%nat -> (i < N)%nat -> mv N (W (S k)) x i = elem k (L k) (m k) (mv N (W k) x) i).
  { intros k x i Hk Hi. rewrite <- elem_mv. apply mv_ext; auto. intros j Hj. apply (Wk k Hk); auto. }
  assert (HL : forall k, (k < N - 1)%nat -> (k <= L k < N)%nat) by (intros k Hk; apply (Wk k Hk)).
  (* the triangular factor is non-singular *)
  assert (JW : forall k, (k <= N - 1)%nat -> injective N (W k)).
  { induction k as [|k IH]; intros Hk.
    - intros x Z. apply J. intros i Hi. rewrite <- (Z i Hi). apply mv_ext; auto. intros j Hj. now rewrite W0.
    - intros x Z. apply (IH ltac:(lia)). apply (elem_injective N k (L k) (m k)); [lia|apply HL; lia|].
      intros i Hi. rewrite <- WS by lia. auto. }
  assert (TU : upper_tri N (W (N - 1)%nat)).
  { intros i j Hi Hj. rewrite Wn by lia. unfold upper. destruct (Nat.ltb_spec j (N - 1)), (Nat.ltb_spec j i); try lia. reflexivity. }
  assert (EU : forall i j, (i < N)%nat -> (j < N)%nat -> W (N - 1)%nat i j = Xup S_ i j).
  { intros i j Hi Hj. rewrite Wn by lia. unfold upper, Xup. destruct (Nat.ltb_spec j (N - 1)), (Nat.ltb_spec j i); try lia; reflexivity. }
  assert (ND : forall k, (k < N)%nat -> mget S_ k k <> q0).
  { intros k Hk E. apply (ut_diag N (W (N - 1)%nat) TU (JW _ (Nat.le_refl _)) k Hk). rewrite EU by auto. unfold Xup. now rewrite Nat.ltb_irrefl. }
  (* the inverse of the triangular factor *)
  destruct (up_spec N S_ SS ND N (Nat.le_refl N)) as (SR & LO & _ & X). cbv zeta in *. unfold dgedi.
  set (R := fold_left (dgedi_up N) (seq 0 N) S_) in *.
  set (B := fun k => upper k (down N P' R k)).
  assert (HB : forall k, (k <= N - 1)%nat -> shape N N (down N P' R k) /\ (forall i j, (i < N)%nat -> (j < k)%nat -> mget (down N P' R k) i j = mget R i j)).
  { intros k Hk. destruct (down_spec N P' R SR) with (d := (N - 1 - k)%nat) as (D1 & D2); [|lia|lia|].
    - intros k' Hk'. rewrite HP by auto. apply HL; auto.
    - cbv zeta in *. replace (N - 1 - (N - 1 - k))%nat with k in * by lia. auto. }
  assert (EB : forall i j, (i < N)%nat -> (j < N)%nat -> B (N - 1)%nat i j = Xup R i j).
  { intros i j Hi Hj. unfold B, down. rewrite Nat.sub_diag. cbn [seq rev fold_left]. unfold upper, Xup.
    destruct (Nat.ltb_spec j (N - 1)), (Nat.ltb_spec j i); try lia; reflexivity. }
  assert (BS : forall k x i, (k < N - 1)%nat -> (i < N)%nat -> mv N (B k) x i = mv N (B (S k)) (elem k (L k) (m k) x) i).
  { intros k x i Hk Hi. destruct (HB (S k) ltac:(lia)) as (D1 & D2).
    destruct (down_step N P' (down N P' R (S k)) k D1 ltac:(lia)) as (_ & _ & D3). { rewrite HP by auto. apply HL; auto. }
    unfold mv, B. rewrite (down_S N P' R k) by lia. rewrite <- elem_adjoint by (try lia; apply HL; auto).
    apply qs_ext; intros j Hj. rewrite D3 by auto. rewrite HP by auto. f_equal.
    unfold elemT. apply (swp_ext k (L k) _ _ N); try lia; [apply HL; auto|].
    intros l Hl. destruct (Nat.eqb l k); [|reflexivity]. f_equal. apply qs_ext; intros p Hp. destruct (Nat.ltb_spec k p); [|reflexivity].
    f_equal. unfold m. rewrite D2 by lia. apply LO; auto. }
  (* X U = 1 and U X = 1 *)
  assert (XU : forall x i, (i < N)%nat -> mv N (B (N - 1)%nat) (mv N (W (N - 1)%nat) x) i = x i).
  { intros x i Hi. apply inverse_mv; auto. intros a c Ha Hc.
    rewrite <- (X a c Ha Hc) || idtac.
    transitivity (qs N (fun l => Xup R a l * Xup S_ l c)); [apply qs_ext; intros l Hl; now rewrite EB, EU|].
    rewrite X by auto. destruct (Nat.ltb_spec c N); [reflexivity|lia]. }
  assert (JX : injective N (B (N - 1)%nat)).
  { apply ut_injective.
    - intros i j Hi Hj. rewrite EB by lia. unfold Xup. destruct (Nat.ltb_spec j i); [reflexivity|lia].
    - intros k Hk Z. specialize (X k k Hk Hk). rewrite Nat.eqb_refl in X. destruct (Nat.ltb_spec k N); [|lia].
      assert (Q : qs N (fun l => Xup R k l * Xup S_ l k) = q0).
      { apply qs_zero; intros l Hl. unfold Xup. destruct (Nat.ltb_spec l k), (Nat.ltb_spec k l); try qring.
        assert (l = k) as -> by lia. rewrite EB in Z by auto. unfold Xup in Z. rewrite Nat.ltb_irrefl in Z. rewrite Z. qring. }
      rewrite X in Q. discriminate Q. }
  assert (mv_minus : forall M x y i, mv N M (fun r => x r - y r) i = mv N M x i - mv N M y i).
  { intros M x y i. unfold mv. rewrite <- qs_minus. apply qs_ext; intros; qring. }
  assert (UX : forall x i, (i < N)%nat -> mv N (W (N - 1)%nat) (mv N (B (N - 1)%nat) x) i = x i).
  { intros x i Hi. enough (mv N (W (N - 1)%nat) (mv N (B (N - 1)%nat) x) i - x i = q0) as H by (revert H; generalize (mv N (W (N - 1)%nat) (mv N (B (N - 1)%nat) x) i) (x i); intros; qlra).
    apply (JX (fun r => mv N (W (N - 1)%nat) (mv N (B (N - 1)%nat) x) r - x r)); auto.
    intros r Hr. rewrite mv_minus, XU by auto. qring. }
  (* back through the elimination steps *)
  assert (BACK : forall d, (d <= N - 1)%nat -> forall x i, (i < N)%nat ->
    mv N (B (N - 1 - d)%nat) (mv N (W (N - 1 - d)%nat) x) i = x i /\ mv N (W (N - 1 - d)%nat) (mv N (B (N - 1 - d)%nat) x) i = x i).
  { induction d as [|d IH]; intros Hd x i Hi.
    - rewrite Nat.sub_0_r. auto.
    - specialize (IH ltac:(lia)). replace (N - 1 - d)%nat with (S (N - 1 - S d)) in IH by lia. set (k := (N - 1 - S d)%nat) in *.
      assert (Hk : (k < N - 1)%nat) by lia. specialize (HL k Hk). split.
      + rewrite BS by auto. destruct (IH x i Hi) as (A1 & _). transitivity (mv N (B (S k)) (mv N (W (S k)) x) i); [|exact A1]. apply mv_ext; auto. intros j Hj. symmetry. now apply WS.
      + set (y := mv N (W k) (mv N (B k) x)). enough (y i - x i = q0) as H by (revert H; generalize (y i) (x i); intros; qlra).
        apply (elem_injective N k (L k) (m k) (fun r => y r - x r)); try lia. intros r Hr. rewrite elem_minus.
        assert (elem k (L k) (m k) y r = elem k (L k) (m k) x r) as ->; [|qring].
        unfold y. rewrite <- WS by auto. destruct (IH (elem k (L k) (m k) x) r Hr) as (_ & A2). rewrite <- A2. apply mv_ext; auto. }
  assert (EZ : fold_left (dgedi_down N P') (rev (seq 0 (N - 1))) R = down N P' R 0) by (unfold down; now rewrite Nat.sub_0_r).
  rewrite EZ. destruct (HB 0%nat ltac:(lia)) as (SZ & _).
  assert (E0 : forall i j, B 0%nat i j = mget (down N P' R 0) i j) by (intros; unfold B, upper; reflexivity).
  specialize (BACK (N - 1)%nat (Nat.le_refl _)). replace (N - 1 - (N - 1))%nat with 0%nat in BACK by lia.
  split; [exact SZ|]. split.
  - intros i j Hi Hj. destruct (BACK (fun r => if Nat.eqb r j then q1 else q0) i Hi) as (_ & Q). rewrite <- Q. unfold mv.
    apply qs_ext; intros k Hk. rewrite W0 by auto. f_equal. rewrite <- E0.
    rewrite <- (qs_delta N j (fun c => B 0%nat k c) Hj). apply qs_ext; intros c Hc. destruct (Nat.eqb_spec c j); subst; qring.
  - intros i j Hi Hj. destruct (BACK (fun r => if Nat.eqb r j then q1 else q0) i Hi) as (Q & _). rewrite <- Q. unfold mv.
    apply qs_ext; intros k Hk. rewrite <- E0. f_equal.
    rewrite <- (qs_delta N j (fun c => mget A k c) Hj). apply qs_ext; intros c Hc. rewrite W0 by auto. destruct (Nat.eqb_spec c j); subst; qring.
Qed.

(* ------------------------------------------------------------------ *)
(** ** What INFO says *)

Lemma dgefa_step_diag N A P I K : shape N N A -> (K < N)%nat ->
  let '(A', _, I') := dgefa_step N (A, P, I) K in
  (forall i j, (i < K)%nat -> (j < N)%nat -> mget A' i j = mget A i j) /\
  mget A' K K = mget A (pivot_row N A K) K /\ I' = (if qeqb (mget A (pivot_row N A K) K) q0 then K else I).
Proof.
  intros SA HK. unfold dgefa_step. destruct (pivot_row_spec N A K HK) as (HL & MX). set (L := pivot_row N A K) in *. clearbody L.
  destruct (qeqb (mget A L K) q0) eqn:EP.
  - apply qeqb_iff in EP. split; [auto|]. split; [|reflexivity]. rewrite EP. apply qabs_0. specialize (MX K ltac:(lia)). rewrite EP in MX.
    pose proof (qabs_nonneg (mget A K K)). assert (qabs q0 = q0) as Q by reflexivity. rewrite Q in MX. qlra.
  - set (A1 := if Nat.eqb L K then A else swap_rows N A K L).
    assert (G1 : forall i j, (i <= K)%nat -> (j < N)%nat -> mget A1 i j = if (j <? K)%nat then mget A i j else if Nat.eqb i K then mget A L j else mget A i j).
    { intros i j Hi Hj. unfold A1, swap_rows. destruct (Nat.eqb_spec L K) as [EQ|NE].
      - rewrite EQ. destruct (j <? K)%nat; [reflexivity|]. destruct (Nat.eqb_spec i K); subst; reflexivity.
      - rewrite mget_mtab by lia. destruct (j <? K)%nat; [reflexivity|]. destruct (Nat.eqb_spec i L); [lia|]. reflexivity. }
    assert (G2 : forall i j, (i <= K)%nat -> (j < N)%nat -> mget (eliminate N (scale_col N A1 K) K) i j = mget A1 i j).
    { intros i j Hi Hj. unfold eliminate, scale_col. rewrite !mget_mtab by lia. destruct (Nat.ltb_spec K i); [lia|]. reflexivity. }
    split; [|split; [|reflexivity]].
    + intros i j Hi Hj. rewrite G2, G1 by lia. destruct (j <? K)%nat; [reflexivity|]. destruct (Nat.eqb_spec i K); [lia|reflexivity].
    + rewrite G2, G1 by lia. rewrite Nat.ltb_irrefl, Nat.eqb_refl. reflexivity.
Qed.
Lemma fact_info N A : shape N N A -> forall n, (n < N)%nat ->
  let '(S_, _, IN) := fact N A n in
  (IN <> 0%nat -> (IN < n)%nat /\ mget S_ IN IN = q0) /\
  (IN = 0%nat -> forall k, (0 < k < n)%nat -> mget S_ k k <> q0) /\
  ((0 < n)%nat -> mget S_ 0 0 = q0 -> forall i, (i < N)%nat -> mget A i 0 = q0) /\
  (n = 0%nat -> S_ = A).
Proof.
  intros SA n. induction n as [|n IH]; intros Hn.
  - unfold fact. cbn [seq fold_left]. repeat split; try lia; auto.
  - specialize (IH ltac:(lia)). rewrite fact_S. pose proof (fact_spec N A SA n ltac:(lia)) as F.
    destruct (fact N A n) as [[S0 P0] I0]. destruct F as (SS & _). destruct IH as (H1 & H2 & H3 & H4).
    pose proof (dgefa_step_diag N S0 P0 I0 n SS ltac:(lia)) as D. destruct (dgefa_step N (S0, P0, I0) n) as [[S1 P1] I1].
    destruct D as (R & DK & EI). split; [|split; [|split]].
    + intros NZ. destruct (qeqb (mget S0 (pivot_row N S0 n) n) q0) eqn:EP.
      * apply qeqb_iff in EP. subst I1. split; [lia|]. now rewrite DK.
      * subst I1. destruct (H1 NZ) as (L1 & Z1). split; [lia|]. rewrite R by lia. exact Z1.
    + intros Z k Hk. destruct (qeqb (mget S0 (pivot_row N S0 n) n) q0) eqn:EP.
      * lia.
      * subst I1. destruct (Nat.eq_dec k n) as [->|NE].
        -- rewrite DK. intros Q. rewrite Q in EP. discriminate EP.
        -- rewrite R by lia. apply H2; [exact Z|lia].
    + intros _ Z. destruct n as [|n].
      * rewrite (H4 eq_refl) in *. rewrite DK in Z. intros i Hi. destruct (pivot_row_spec N A 0 ltac:(lia)) as (_ & MX). apply qabs_0.
        specialize (MX i ltac:(lia)). rewrite Z in MX. assert (qabs q0 = q0) as Q by reflexivity. rewrite Q in MX.
        pose proof (qabs_nonneg (mget A i 0)). qlra.
      * rewrite R in Z by lia. apply H3; [lia|exact Z].
    + lia.
Qed.

Lemma zero_column n A j : (j < n)%nat -> (forall i, (i < n)%nat -> A i j = q0) -> ~ injective n A.
Proof.
  intros Hj Z J. assert (E : (fun r => if Nat.eqb r j then q1 else q0) j = q0).
  { apply (J (fun r => if Nat.eqb r j then q1 else q0)); auto. intros i Hi. unfold mv. apply qs_zero; intros k Hk. cbv beta. destruct (Nat.eqb_spec k j); subst; [rewrite Z by auto|]; qring. }
  cbv beta in E. rewrite Nat.eqb_refl in E. discriminate E.
Qed.

Theorem dgefa_info : forall N A, (0 < N)%nat -> shape N N A ->
  let '(_, INFO, _) := dgefa A N in
  (INFO <> 0%nat -> ~ injective N (mget A)) /\
  (INFO = 0%nat -> (exists i, (i < N)%nat /\ mget A i 0 <> q0) -> injective N (mget A)).
Proof.
  intros N A HN SA. unfold dgefa.
  pose proof (fact_spec N A SA (N - 1) ltac:(lia)) as F. pose proof (fact_info N A SA (N - 1) ltac:(lia)) as G. unfold fact in F, G.
  destruct (fold_left (dgefa_step N) (seq 0 (N - 1)) (A, [], 0%nat)) as [[S_ P] I]. destruct F as (SS & LP & _ & W & W0 & Wn & Wk).
  destruct G as (H1 & H2 & H3 & H4).
  set (m := fun k r => mget S_ r k). set (L := fun k => nth k P 0%nat).
  assert (WS : forall k x i, (k < N - 1)%nat -> (i < N)%nat -> mv N (W (S k)) x i = elem k (L k) (m k) (mv N (W k) x) i).
  { intros k x i Hk Hi. rewrite <- elem_mv. apply mv_ext; auto. intros j Hj. apply (Wk k Hk); auto. }
  assert (HL : forall k, (k < N - 1)%nat -> (k <= L k < N)%nat) by (intros k Hk; apply (Wk k Hk)).
  assert (TU : upper_tri N (W (N - 1)%nat)).
  { intros i j Hi Hj. rewrite Wn by lia. unfold upper. destruct (Nat.ltb_spec j (N - 1)), (Nat.ltb_spec j i); try lia. reflexivity. }
  assert (DU : forall k, (k < N)%nat -> W (N - 1)%nat k k = mget S_ k k).
  { intros k Hk. rewrite Wn by lia. unfold upper. now rewrite Nat.ltb_irrefl, andb_false_r. }
  assert (JD : injective N (mget A) -> forall k, (k < N)%nat -> mget S_ k k <> q0).
  { intros J k Hk. rewrite <- DU by auto. apply (ut_diag N _ TU); auto.
    assert (JW : forall k, (k <= N - 1)%nat -> injective N (W k)); [|apply JW; lia].
    induction k0 as [|k0 IH]; intros Hk0.
    - intros x Z. apply J. intros i Hi. rewrite <- (Z i Hi). apply mv_ext; auto. intros j Hj. now rewrite W0.
    - intros x Z. apply (IH ltac:(lia)). apply (elem_injective N k0 (L k0) (m k0)); [lia|apply HL; lia|].
      intros i Hi. rewrite <- WS by lia. auto. }
  split.
  - intros NZ J. destruct (qeqb (mget S_ (N - 1) (N - 1)) q0) eqn:EQ.
    + apply qeqb_iff in EQ. apply (JD J (N - 1)%nat ltac:(lia) EQ).
    + destruct (H1 NZ) as (Q1 & Q2). apply (JD J I ltac:(lia) Q2).
  - intros Z0 (i0 & Hi0 & NZ0).
    assert (ND : forall k, (k < N)%nat -> mget S_ k k <> q0).
    { intros k Hk. destruct (qeqb (mget S_ (N - 1) (N - 1)) q0) eqn:EQ.
      - apply qeqb_iff in EQ. assert (N = 1)%nat as -> by lia. cbn [Nat.sub] in *. rewrite (H4 eq_refl) in EQ. assert (i0 = 0)%nat as -> by lia. contradiction.
      - destruct (Nat.eq_dec k (N - 1)) as [->|NE]. { intros Q. rewrite Q in EQ. discriminate EQ. }
        destruct k as [|k]; [|apply H2; [exact Z0|lia]]. intros Q. apply NZ0. apply H3; auto. lia. }
    assert (JU : injective N (W (N - 1)%nat)). { apply ut_injective; [exact TU|]. intros k Hk. rewrite DU by auto. auto. }
    intros x Zx i Hi. apply JU; auto.
    assert (ST : forall k, (k <= N - 1)%nat -> forall r, (r < N)%nat -> mv N (W k) x r = q0).
    { induction k as [|k IH]; intros Hk r Hr.
      - rewrite <- (Zx r Hr). apply mv_ext; auto.
      - rewrite WS by lia. rewrite (elem_ext k (L k) (m k) _ (fun _ => q0) N) by (try (specialize (HL k); lia); intros; apply IH; lia).
        unfold elem, swp. destruct (Nat.eqb r (L k)), (Nat.eqb r k), (k <? r)%nat, (Nat.eqb k (L k)), (Nat.eqb k k); qring. }
    intros r Hr. apply ST; auto.
Qed.

Lemma injective_of_inverse n A Z : is_inverse n Z A -> injective n A.
Proof.
  intros H x E i Hi. rewrite <- (inverse_mv n Z A x i H Hi). unfold mv at 1. apply qs_zero; intros k Hk. rewrite E by auto. qring.
Qed.
