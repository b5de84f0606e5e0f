(** Linear algebra over [Qc] with matrices as functions: rank-one updates of an
    inverse, quadratic form of a network, non-singularity. *)
From Coq Require Import Permutation.
From Verif Require Import Base BaseProofs Sums LoadSpec NetSpec.
Open Scope Z_scope.
Open Scope Qc_scope.

Definition mv (n : nat) (A : nat -> nat -> Qc) (x : nat -> Qc) (i : nat) : Qc := qs n (fun k => A i k * x k).
Definition dot (n : nat) (x y : nat -> Qc) : Qc := qs n (fun k => x k * y k).
Definition injective (n : nat) (A : nat -> nat -> Qc) : Prop :=
  forall x, (forall i, (i < n)%nat -> mv n A x i = q0) -> forall i, (i < n)%nat -> x i = q0.

Lemma qs_mul_l n c f : c * qs n f = qs n (fun i => c * f i).
Proof. symmetry. apply qs_scale. Qed.
Lemma qs_mul_r n c f : qs n f * c = qs n (fun i => f i * c).
Proof. symmetry. apply qs_scale_r. Qed.

Lemma inverse_mv n A Z u i : is_inverse n A Z -> (i < n)%nat -> mv n A (mv n Z u) i = u i.
Proof.
  intros I Hi. unfold mv.
  transitivity (qs n (fun k => qs n (fun j => A i k * Z k j * u j))).
  { apply qs_ext; intros k Hk. rewrite qs_mul_l. apply qs_ext; intros. qring. }
  rewrite qs_exchange.
  transitivity (qs n (fun j => if Nat.eqb j i then u j else q0)).
  { apply qs_ext; intros j Hj. transitivity (qs n (fun k => A i k * Z k j) * u j).
    - rewrite qs_mul_r. reflexivity.
    - rewrite (I i j Hi Hj), (Nat.eqb_sym j i). destruct (Nat.eqb i j); qring. }
  now apply qs_delta.
Qed.

(** The inverse of a symmetric matrix is symmetric. *)
Lemma inverse_sym n A Z : symmetric n A -> is_inverse n A Z -> symmetric n Z.
Proof.
  intros S I.
  assert (L : forall i j, (i < n)%nat -> (j < n)%nat -> qs n (fun k => Z k i * A k j) = if Nat.eqb i j then q1 else q0).
  { intros i j Hi Hj. rewrite (Nat.eqb_sym i j). rewrite <- (I j i Hj Hi). apply qs_ext; intros k Hk.
    rewrite (S k j) by auto. qring. }
  assert (E : forall i j, (i < n)%nat -> (j < n)%nat -> qs n (fun k => qs n (fun m => Z k i * A k m * Z m j)) = Z j i).
  { intros i j Hi Hj. transitivity (qs n (fun k => if Nat.eqb k j then Z k i else q0)); [|now apply (qs_delta n j (fun k => Z k i))].
    apply qs_ext; intros k Hk. transitivity (Z k i * qs n (fun m => A k m * Z m j)).
    - rewrite qs_mul_l. apply qs_ext; intros; qring.
    - rewrite (I k j Hk Hj). destruct (Nat.eqb k j); qring. }
  assert (F : forall i j, (i < n)%nat -> (j < n)%nat -> qs n (fun k => qs n (fun m => Z k i * A k m * Z m j)) = Z i j).
  { intros i j Hi Hj. rewrite qs_exchange.
    transitivity (qs n (fun m => if Nat.eqb m i then Z m j else q0)); [|now apply (qs_delta n i (fun m => Z m j))].
    apply qs_ext; intros m Hm. transitivity (qs n (fun k => Z k i * A k m) * Z m j).
    - rewrite qs_mul_r. reflexivity.
    - rewrite (L i m Hi Hm), (Nat.eqb_sym m i). destruct (Nat.eqb i m); qring. }
  intros i j Hi Hj. rewrite <- (F i j), <- (E i j) by auto. reflexivity.
Qed.

(** Sherman-Morrison. [w] = Z u, [s] = u.w + 1/b. *)
Section Rank1.
  Variables (n : nat) (A Z A' Z' : nat -> nat -> Qc) (u w : nat -> Qc) (b s : Qc).
  Hypothesis symZ : symmetric n Z.
  Hypothesis inv : is_inverse n A Z.
  Hypothesis Hw : forall i, (i < n)%nat -> w i = mv n Z u i.
  Hypothesis Hb : b <> q0.
  Hypothesis Hs : s = dot n u w + / b.
  Hypothesis HA' : forall i j, (i < n)%nat -> (j < n)%nat -> A' i j = A i j + b * (u i * u j).
  Hypothesis HZ' : forall i j, (i < n)%nat -> (j < n)%nat -> Z' i j = Z i j - w i * w j / s.

  Lemma Aw i : (i < n)%nat -> mv n A w i = u i.
  Proof.
    intros Hi. transitivity (mv n A (mv n Z u) i); [|now apply inverse_mv].
    apply qs_ext; intros k Hk. now rewrite Hw.
  Qed.
  Lemma uZ j : (j < n)%nat -> qs n (fun k => u k * Z k j) = w j.
  Proof. intros Hj. rewrite Hw by auto. apply qs_ext; intros k Hk. rewrite (symZ k j) by auto. qring. Qed.

  Lemma rank1_inverse : s <> q0 -> is_inverse n A' Z'.
  Proof.
    intros Hs0 i j Hi Hj.
    transitivity (qs n (fun k => A i k * Z k j) - (mv n A w i) * (w j / s)
                  + b * u i * qs n (fun k => u k * Z k j) - b * u i * dot n u w * (w j / s)).
    { unfold mv, dot.
      transitivity (qs n (fun k => A i k * Z k j - A i k * w k * (w j / s) + b * u i * (u k * Z k j) - b * u i * (w j / s) * (u k * w k))).
      - apply qs_ext; intros k Hk. rewrite HA', HZ' by auto. unfold Qcdiv. qring.
      - rewrite qs_minus, qs_plus, qs_minus, !qs_scale, qs_scale_r. qring. }
    rewrite (inv i j Hi Hj), Aw, uZ by auto.
    transitivity ((if Nat.eqb i j then q1 else q0) + u i * w j * (b - (b * dot n u w + 1) / s)).
    { unfold Qcdiv. qring. }
    assert ((b * dot n u w + 1) / s = b) as ->; [|qring].
    assert (b * s = b * dot n u w + 1) as <-; [|qfield; exact Hs0].
    rewrite Hs. qfield. exact Hb.
  Qed.

  Lemma rank1_sym : symmetric n Z'.
  Proof. intros i j Hi Hj. rewrite !HZ', (symZ i j) by auto. unfold Qcdiv. qring. Qed.

  Lemma rank1_pivot : injective n A' -> (exists k, (k < n)%nat /\ u k <> q0) -> s <> q0.
  Proof.
    intros IA (k & Hk & Uk) S0. apply Uk.
    assert (K : forall i, (i < n)%nat -> w i = q0).
    { apply IA. intros i Hi. unfold mv.
      transitivity (qs n (fun k => A i k * w k) + b * u i * dot n u w).
      - unfold dot. rewrite <- qs_scale, <- qs_plus. apply qs_ext; intros m Hm. rewrite HA' by auto. qring.
      - change (qs n (fun k => A i k * w k)) with (mv n A w i). rewrite Aw by auto.
        assert (D : dot n u w = - / b) by (rewrite Hs in S0; qlra).
        rewrite D. qfield. exact Hb. }
    rewrite <- (Aw k Hk). apply qs_zero; intros m Hm. rewrite K by auto. qring.
  Qed.
End Rank1.

(* ------------------------------------------------------------------ *)
(** ** Laplacians *)

(** contribution of one line to entry (i,j) *)
Definition lap1 (l : wline) (i j : nat) : Qc :=
  if Nat.eqb i j then (if ends_at l i then ladm l else q0) else (if joins l i j then - ladm l else q0).

Lemma lap_sum ls i j : lap ls i j = qsum (map (fun l => lap1 l i j) ls).
Proof.
  unfold lap, lap1, adm_of. destruct (Nat.eqb i j); rewrite qsum_filter; [reflexivity|].
  transitivity (qsum (map (fun l => (- q1) * (if joins l i j then ladm l else q0)) ls)).
  - rewrite qsum_map_scale. qring.
  - apply qsum_map_ext. intros l _. destruct (joins l i j); qring.
Qed.
Lemma lap_nil i j : lap [] i j = q0.
Proof. rewrite lap_sum. reflexivity. Qed.
Lemma lap_cons l ls i j : lap (l :: ls) i j = lap1 l i j + lap ls i j.
Proof. rewrite !lap_sum. reflexivity. Qed.
Lemma lap_app l1 l2 i j : lap (l1 ++ l2) i j = lap l1 i j + lap l2 i j.
Proof. rewrite !lap_sum, map_app, qsum_app. reflexivity. Qed.
Lemma joins_sym l i j : joins l i j = joins l j i.
Proof. unfold joins. rewrite orb_comm. reflexivity. Qed.
Lemma lap_sym ls i j : lap ls i j = lap ls j i.
Proof.
  rewrite !lap_sum. apply qsum_map_ext. intros l _. unfold lap1. rewrite (Nat.eqb_sym j i).
  destruct (Nat.eqb_spec i j); subst; auto. now rewrite joins_sym.
Qed.

(** the incidence vector of a line *)
Definition inc (l : wline) (i : nat) : Qc :=
  (if Nat.eqb i (lfrom l) then q1 else q0) - (if Nat.eqb i (lto l) then q1 else q0).
Lemma lap1_inc l i j : lfrom l <> lto l -> lap1 l i j = ladm l * (inc l i * inc l j).
Proof.
  intros N. unfold lap1, inc, ends_at, joins.
  rewrite (Nat.eqb_sym (lfrom l) i), (Nat.eqb_sym (lto l) i), (Nat.eqb_sym (lto l) j), (Nat.eqb_sym (lfrom l) j).
  destruct (Nat.eqb_spec i j), (Nat.eqb_spec i (lfrom l)), (Nat.eqb_spec i (lto l)), (Nat.eqb_spec j (lfrom l)),
    (Nat.eqb_spec j (lto l)); subst; cbn [andb orb]; try congruence; try lia; qring.
Qed.

Lemma qs_inc n l x : (lfrom l < n)%nat -> (lto l < n)%nat ->
  qs n (fun j => inc l j * x j) = x (lfrom l) - x (lto l).
Proof.
  intros H1 H2. unfold inc.
  transitivity (qs n (fun j => (if Nat.eqb j (lfrom l) then x j else q0) - (if Nat.eqb j (lto l) then x j else q0))).
  - apply qs_ext; intros j _. destruct (Nat.eqb j (lfrom l)), (Nat.eqb j (lto l)); qring.
  - rewrite qs_minus, !qs_delta by auto. reflexivity.
Qed.

(** lines with ends in range *)
Definition wlines_in (n : nat) (ls : list wline) : Prop :=
  forall l, In l ls -> (lfrom l < n)%nat /\ (lto l < n)%nat /\ lfrom l <> lto l.
Lemma wlines_cons n l ls : wlines_in n (l :: ls) -> wlines_in n ls.
Proof. intros H x Hx. apply H. now right. Qed.

(** action and quadratic form *)
Lemma lap_mv n ls x i : wlines_in n ls ->
  qs n (fun j => lap ls i j * x j) = qsum (map (fun l => ladm l * inc l i * (x (lfrom l) - x (lto l))) ls).
Proof.
  induction ls as [|l ls IH]; intros W.
  - apply qs_zero; intros. rewrite lap_nil. qring.
  - cbn [map]. rewrite qsum_cons, <- IH by (eapply wlines_cons; eauto).
    destruct (W l (or_introl eq_refl)) as (H1 & H2 & H3).
    rewrite <- (qs_inc n l x) by auto. rewrite <- qs_scale, <- qs_plus. apply qs_ext; intros j _.
    rewrite lap_cons, lap1_inc by auto. qring.
Qed.
Lemma lap_quad n ls x : wlines_in n ls ->
  qs n (fun i => x i * qs n (fun j => lap ls i j * x j)) =
  qsum (map (fun l => ladm l * ((x (lfrom l) - x (lto l)) * (x (lfrom l) - x (lto l)))) ls).
Proof.
  intros W. transitivity (qs n (fun i => qsum (map (fun l => ladm l * (x (lfrom l) - x (lto l)) * (inc l i * x i)) ls))).
  { apply qs_ext; intros i _. rewrite lap_mv, <- qsum_map_scale by auto. apply qsum_map_ext; intros; qring. }
  unfold qs. rewrite qsum_exchange. apply qsum_map_ext. intros l Hl. destruct (W l Hl) as (H1 & H2 & H3).
  change (qs n (fun i => ladm l * (x (lfrom l) - x (lto l)) * (inc l i * x i)) = ladm l * ((x (lfrom l) - x (lto l)) * (x (lfrom l) - x (lto l)))).
  rewrite qs_scale, qs_inc by auto. qring.
Qed.
Lemma lap_rowsum n ls i : wlines_in n ls -> qs n (fun j => lap ls i j) = q0.
Proof.
  intros W. transitivity (qs n (fun j => lap ls i j * (fun _ => q1) j)).
  { apply qs_ext; intros; qring. }
  rewrite lap_mv by auto. apply qsum_zero. intros l _. qring.
Qed.

Lemma sq_nonneg (x : Qc) : q0 <= x * x.
Proof. qnra. Qed.
Lemma sq_zero (x : Qc) : x * x = q0 -> x = q0.
Proof. intros H. change q0 with 0 in *. destruct (Qcmult_integral _ _ H); auto. Qed.

Lemma sum_zero_nonpos {A} (f : A -> Qc) r : (forall m, In m r -> f m <= q0) -> qsum (map f r) = q0 ->
  forall m, In m r -> f m = q0.
Proof.
  induction r as [|a r IH]; intros G Q m Hm; [destruct Hm|].
  cbn [map] in Q. rewrite qsum_cons in Q.
  assert (Ha : f a <= q0) by (apply G; now left).
  assert (Hr : qsum (map f r) <= q0).
  { assert (q0 <= qsum (map (fun m => - f m) r)).
    { apply qsum_nonneg. intros y Hy. apply in_map_iff in Hy. destruct Hy as (k & <- & Hk).
      assert (f k <= q0) by (apply G; now right). qlra. }
    assert (qsum (map (fun m => - f m) r) = - qsum (map f r)).
    { transitivity (qsum (map (fun m => (- q1) * f m) r)); [apply qsum_map_ext; intros; qring|]. rewrite qsum_map_scale. qring. }
    qlra. }
  destruct Hm as [->|Hm]; [qlra|]. apply IH; auto; [intros k Hk; apply G; now right|qlra].
Qed.

(** all admittances non-positive and quadratic form zero: equal angles along every
    line with an admittance *)
Lemma quad_zero ls (x : nat -> Qc) : (forall l, In l ls -> ladm l <= q0) ->
  qsum (map (fun l => ladm l * ((x (lfrom l) - x (lto l)) * (x (lfrom l) - x (lto l)))) ls) = q0 ->
  forall l, In l ls -> ladm l <> q0 -> x (lfrom l) = x (lto l).
Proof.
  intros N Q l Hl Nz.
  assert (G : forall l, In l ls -> ladm l * ((x (lfrom l) - x (lto l)) * (x (lfrom l) - x (lto l))) <= q0).
  { intros m Hm. specialize (N m Hm). pose proof (sq_nonneg (x (lfrom m) - x (lto m))). qnra. }
  assert (E : ladm l * ((x (lfrom l) - x (lto l)) * (x (lfrom l) - x (lto l))) = q0)
    by exact (sum_zero_nonpos (fun l => ladm l * ((x (lfrom l) - x (lto l)) * (x (lfrom l) - x (lto l)))) ls G Q l Hl).
  assert (D : (x (lfrom l) - x (lto l)) * (x (lfrom l) - x (lto l)) = q0).
  { change q0 with 0 in *. destruct (Qcmult_integral _ _ E); [contradiction|auto]. }
  apply sq_zero in D. qlra.
Qed.

Lemma connected_equal ls (x : nat -> Qc) : (forall l, In l ls -> ladm l <> q0 -> x (lfrom l) = x (lto l)) ->
  forall i j, connected ls i j -> x i = x j.
Proof.
  intros H i j C. induction C as [i|i j k C IH (l & Hl & Nz & J)]; [reflexivity|]. rewrite IH.
  specialize (H l Hl Nz). unfold joins in J. apply orb_true_iff in J. destruct J as [J|J]; apply andb_true_iff in J;
    destruct J as (J1 & J2); apply Nat.eqb_eq in J1; apply Nat.eqb_eq in J2; subst; congruence.
Qed.

(* ------------------------------------------------------------------ *)
(** ** Reduced network *)

Section Reduced.
  Variables (n NR : nat) (LT : list nat).
  Hypothesis ok : order_ok n NR LT.
  Let NX := (n - 1)%nat.
  Definition at_ (a : nat) : nat := nth a LT 0%nat.

  Lemma at_lt a : (a < n)%nat -> (at_ a < n)%nat.
  Proof. intros H. destruct ok as (L & _ & I & _). apply I. apply nth_In. lia. Qed.
  Lemma at_inj a b : (a < n)%nat -> (b < n)%nat -> at_ a = at_ b -> a = b.
  Proof. intros Ha Hb E. destruct ok as (L & D & _). apply (proj1 (NoDup_nth LT 0%nat) D); try lia. exact E. Qed.
  Lemma at_ref : at_ NX = NR.
  Proof. apply ok. Qed.
  Lemma at_not_ref a : (a < NX)%nat -> at_ a <> NR.
  Proof.
    intros Ha E. assert (Hn : (0 < n)%nat) by apply ok. rewrite <- at_ref in E.
    apply at_inj in E; unfold NX in *; lia.
  Qed.
  Lemma at_surj i : (i < n)%nat -> exists a, (a < n)%nat /\ at_ a = i.
  Proof.
    intros Hi. destruct ok as (L & D & I & _).
    assert (P : In i LT).
    { assert (incl LT (seq 0 n)) by (intros x Hx; apply in_seq; specialize (I x Hx); lia).
      assert (incl (seq 0 n) LT) as P; [|apply P, in_seq; lia].
      apply NoDup_length_incl; auto. rewrite seq_length. lia. }
    destruct (In_nth LT i 0%nat P) as (a & Ha & E). exists a. split; [lia|exact E].
  Qed.
  Lemma at_perm : Permutation (map at_ (seq 0 n)) (seq 0 n).
  Proof.
    destruct ok as (L & D & I & _).
    assert (map at_ (seq 0 n) = LT) as ->.
    { apply nth_ext with (d := 0%nat) (d' := 0%nat); [rewrite map_length, seq_length; lia|].
      intros k Hk. rewrite map_length, seq_length in Hk. rewrite nth_map_seq by auto. reflexivity. }
    apply NoDup_Permutation_bis; auto.
    - rewrite seq_length. lia.
    - intros x Hx. apply in_seq. specialize (I x Hx). lia.
  Qed.
  Lemma qs_reindex f : qs n (fun a => f (at_ a)) = qs n f.
  Proof.
    unfold qs. rewrite <- (map_map at_ f). apply qsum_perm. apply Permutation_map. apply at_perm.
  Qed.
  Lemma n_NX : n = S NX.
  Proof. assert ((0 < n)%nat) by apply ok. unfold NX. lia. Qed.

  (** a vector over the areas from one over the reduced indices, zero at the reference *)
  Definition pos (i : nat) : nat :=
    match find (fun a => Nat.eqb (at_ a) i) (seq 0 n) with Some a => a | None => NX end.
  Lemma pos_at a : (a < n)%nat -> pos (at_ a) = a.
  Proof.
    intros Ha. unfold pos. destruct (find (fun b => Nat.eqb (at_ b) (at_ a)) (seq 0 n)) as [b|] eqn:F.
    - apply find_some in F. destruct F as (I & E). apply in_seq in I. apply Nat.eqb_eq in E. apply at_inj in E; lia.
    - pose proof (find_none _ _ F a ltac:(apply in_seq; lia)) as E. cbn in E. rewrite Nat.eqb_refl in E. discriminate.
  Qed.
  Definition extend (y : nat -> Qc) (i : nat) : Qc := if (pos i <? NX)%nat then y (pos i) else q0.
  Lemma extend_at y a : (a < NX)%nat -> extend y (at_ a) = y a.
  Proof.
    intros Ha. unfold extend. rewrite pos_at by (rewrite n_NX; lia).
    destruct (Nat.ltb_spec a NX); [reflexivity|lia].
  Qed.
  Lemma extend_ref y : extend y NR = q0.
  Proof.
    unfold extend. assert (NX < n)%nat by (pose proof n_NX; lia). rewrite <- at_ref, pos_at by auto.
    rewrite Nat.ltb_irrefl. reflexivity.
  Qed.

  (** the reduced network matrix *)
  Definition red (ls : list wline) (a b : nat) : Qc := lap ls (at_ a) (at_ b).

  Lemma red_mv ls y i : qs NX (fun b => lap ls i (at_ b) * y b) = qs n (fun j => lap ls i j * extend y j).
  Proof.
    rewrite <- (qs_reindex (fun j => lap ls i j * extend y j)). rewrite n_NX at 1. rewrite qs_S, at_ref, extend_ref.
    transitivity (qs NX (fun a => lap ls i (at_ a) * extend y (at_ a))); [|qring].
    apply qs_ext; intros a Ha. now rewrite extend_at.
  Qed.

  Lemma red_injective ls : wlines_in n ls -> (forall l, In l ls -> ladm l <= q0) -> network_connected n NR ls ->
    injective NX (red ls).
  Proof.
    intros W N C y Hy i Hi.
    assert (Q : qs n (fun i => extend y i * qs n (fun j => lap ls i j * extend y j)) = q0).
    { rewrite <- (qs_reindex (fun i => extend y i * qs n (fun j => lap ls i j * extend y j))). rewrite n_NX at 1.
      rewrite qs_S, at_ref, extend_ref.
      transitivity (qs NX (fun a => extend y (at_ a) * qs n (fun j => lap ls (at_ a) j * extend y j))); [qring|].
      apply qs_zero; intros a Ha. rewrite <- red_mv.
      change (qs NX (fun b => lap ls (at_ a) (at_ b) * y b)) with (mv NX (red ls) y a). rewrite Hy by auto. qring. }
    rewrite lap_quad in Q by auto.
    rewrite <- (extend_at y i Hi), <- (extend_ref y).
    apply (connected_equal ls). { now apply quad_zero. }
    apply C. apply at_lt. unfold NX in *. lia.
  Qed.
End Reduced.
