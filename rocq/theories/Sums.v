(** Finite sums indexed by 0..n-1 over [Qc]: vocabulary and lemmas. *)
From Verif Require Import Base BaseProofs.
Open Scope Z_scope.

(** [qs n f] is f 0 + f 1 + ... + f (n-1). *)
Definition qs (n : nat) (f : nat -> Qc) : Qc := qsum (map f (seq 0 n)).

Lemma qs_0 f : qs 0 f = q0. Proof. reflexivity. Qed.
Lemma qs_S n f : qs (S n) f = Qcplus (qs n f) (f n).
Proof. unfold qs. rewrite seq_S, map_app, qsum_app. cbn [map plus]. rewrite qsum_cons, qsum_nil. qring. Qed.
Lemma qs_S_l n f : qs (S n) f = Qcplus (f 0%nat) (qs n (fun i => f (S i))).
Proof. unfold qs. cbn [seq map]. rewrite qsum_cons. f_equal. rewrite <- seq_shift, map_map. reflexivity. Qed.
Lemma qs_ext n f g : (forall i, (i < n)%nat -> f i = g i) -> qs n f = qs n g.
Proof. intros H. apply qsum_map_ext. intros x Hx. apply in_seq in Hx. apply H. lia. Qed.
Lemma qs_zero n f : (forall i, (i < n)%nat -> f i = q0) -> qs n f = q0.
Proof. intros H. apply qsum_zero. intros x Hx. apply in_seq in Hx. apply H. lia. Qed.
Lemma qs_plus n f g : qs n (fun i => Qcplus (f i) (g i)) = Qcplus (qs n f) (qs n g).
Proof. apply qsum_map_plus. Qed.
Lemma qs_scale n c f : qs n (fun i => Qcmult c (f i)) = Qcmult c (qs n f).
Proof. apply qsum_map_scale. Qed.
Lemma qs_scale_r n c f : qs n (fun i => Qcmult (f i) c) = Qcmult (qs n f) c.
Proof. rewrite Qcmult_comm, <- qs_scale. apply qs_ext. intros. qring. Qed.
Lemma qs_opp n f : qs n (fun i => Qcopp (f i)) = Qcopp (qs n f).
Proof.
  transitivity (Qcmult (qz (-1)) (qs n f)).
  - rewrite <- qs_scale. apply qs_ext. intros. change (qz (-1)) with (Qcopp 1). qring.
  - change (qz (-1)) with (Qcopp 1). qring.
Qed.
Lemma qs_minus n f g : qs n (fun i => Qcminus (f i) (g i)) = Qcminus (qs n f) (qs n g).
Proof. unfold Qcminus. rewrite <- qs_opp, <- qs_plus. reflexivity. Qed.
Lemma qs_exchange n m (f : nat -> nat -> Qc) :
  qs n (fun i => qs m (f i)) = qs m (fun j => qs n (fun i => f i j)).
Proof. apply qsum_exchange. Qed.
Lemma qs_delta n k (f : nat -> Qc) : (k < n)%nat -> qs n (fun i => if Nat.eqb i k then f i else q0) = f k.
Proof.
  intros H. rewrite <- (qsum_delta n k (f k) H). apply qs_ext. intros i _.
  destruct (Nat.eqb_spec i k); subst; reflexivity.
Qed.
Lemma qs_delta_out n k (f : nat -> Qc) : (n <= k)%nat -> qs n (fun i => if Nat.eqb i k then f i else q0) = q0.
Proof. intros H. apply qs_zero. intros i Hi. destruct (Nat.eqb_spec i k); [lia|reflexivity]. Qed.
Lemma qs_le n f g : (forall i, (i < n)%nat -> (f i <= g i)%Qc) -> (qs n f <= qs n g)%Qc.
Proof.
  induction n as [|n IH]; intros H; [apply Qcle_refl|]. rewrite !qs_S.
  assert (qs n f <= qs n g)%Qc by (apply IH; intros; apply H; lia).
  assert (f n <= g n)%Qc by (apply H; lia). qlra.
Qed.
Lemma qs_nonneg n f : (forall i, (i < n)%nat -> (q0 <= f i)%Qc) -> (q0 <= qs n f)%Qc.
Proof. intros H. rewrite <- (qs_zero n (fun _ => q0)) by reflexivity. now apply qs_le. Qed.

(** sums of list elements *)
Lemma qsum_qs l : qsum l = qs (length l) (fun i => nth i l q0).
Proof.
  induction l as [|a l IH]; [reflexivity|]. cbn [length]. rewrite qs_S_l, qsum_cons, IH. reflexivity.
Qed.
Lemma qsum_map_qs {A} (f : A -> Qc) l d : qsum (map f l) = qs (length l) (fun i => f (nth i l d)).
Proof.
  rewrite qsum_qs, map_length. apply qs_ext. intros i Hi.
  rewrite (nth_indep _ q0 (f d)) by now rewrite map_length. apply map_nth.
Qed.
Lemma combine_seq {A} (l : list A) d : combine (seq 0 (length l)) l = map (fun i => (i, nth i l d)) (seq 0 (length l)).
Proof.
  assert (forall s, combine (seq s (length l)) l = map (fun i => (i, nth (i - s) l d)) (seq s (length l))) as G.
  { induction l as [|a l IH]; intros s; [reflexivity|]. cbn [length seq combine map]. rewrite IH.
    f_equal; [now rewrite Nat.sub_diag|]. apply map_ext_in. intros i Hi. apply in_seq in Hi.
    f_equal. replace (i - s)%nat with (S (i - S s)) by lia. reflexivity. }
  rewrite G. apply map_ext. intros i. now rewrite Nat.sub_0_r.
Qed.
Lemma qsum_flat_map {A B} (g : B -> Qc) (h : A -> list B) l :
  qsum (map g (flat_map h l)) = qsum (map (fun x => qsum (map g (h x))) l).
Proof.
  induction l as [|a l IH]; [reflexivity|]. cbn [flat_map map]. rewrite map_app, qsum_app, qsum_cons, IH. reflexivity.
Qed.
Lemma qsum_filter {A} (g : A -> Qc) (p : A -> bool) l :
  qsum (map g (filter p l)) = qsum (map (fun x => if p x then g x else q0) l).
Proof.
  induction l as [|a l IH]; [reflexivity|]. cbn [filter map]. destruct (p a); cbn [map]; rewrite !qsum_cons, ?IH; [reflexivity|].
  qring.
Qed.
Lemma qs_map_nth {A} (f : A -> Qc) n g : qsum (map f (map g (seq 0 n))) = qs n (fun i => f (g i)).
Proof. now rewrite map_map. Qed.
Lemma nth_map_in {A B} (f : A -> B) l i d d' : (i < length l)%nat -> nth i (map f l) d' = f (nth i l d).
Proof. intros H. rewrite (nth_indep _ d' (f d)) by now rewrite map_length. apply map_nth. Qed.
(** closed equalities over [Qc] inside lists, pairs and results *)
Ltac qcheck := vm_compute; repeat match goal with
  | |- @eq Qc _ _ => apply Qc_is_canon; vm_compute; reflexivity
  | |- _ :: _ = _ :: _ => apply f_equal2
  | |- Ok _ = Ok _ => apply f_equal
  | |- Some _ = Some _ => apply f_equal
  | |- (_, _) = (_, _) => apply f_equal2
  | |- _ => reflexivity end.
