(** Lemmas about the basic vocabulary and automation for [Qc]. *)
From Coq Require Export Lqa.
From Coq Require Import Permutation.
From Verif Require Export Base.
Open Scope Z_scope.

(* ------------------------------------------------------------------ *)
(** ** Automation: linear arithmetic over [Qc] through [Q] *)

Lemma Qc_eq_iff (a b : Qc) : a = b <-> (this a == this b)%Q.
Proof. split; [intros ->; reflexivity | apply Qc_is_canon]. Qed.
Lemma Qc_neq_iff (a b : Qc) : a <> b <-> ~ (this a == this b)%Q.
Proof. now rewrite Qc_eq_iff. Qed.
Lemma this_plus a b : (this (Qcplus a b) == this a + this b)%Q.
Proof. apply Qred_correct. Qed.
Lemma this_mult a b : (this (Qcmult a b) == this a * this b)%Q.
Proof. apply Qred_correct. Qed.
Lemma this_opp a : (this (Qcopp a) == - this a)%Q.
Proof. apply Qred_correct. Qed.
Lemma this_minus a b : (this (Qcminus a b) == this a - this b)%Q.
Proof. unfold Qcminus. rewrite this_plus, this_opp. reflexivity. Qed.
Lemma this_inv a : (this (Qcinv a) == / this a)%Q.
Proof. apply Qred_correct. Qed.
Lemma this_div a b : (this (Qcdiv a b) == this a / this b)%Q.
Proof. unfold Qcdiv. rewrite this_mult, this_inv. reflexivity. Qed.
Lemma this_Q2Qc q : (this (Q2Qc q) == q)%Q.
Proof. apply Qred_correct. Qed.
Lemma this_qz z : (this (qz z) == inject_Z z)%Q.
Proof. apply Qred_correct. Qed.
Lemma this_qq n d : (this (qq n d) == n # d)%Q.
Proof. apply Qred_correct. Qed.

Lemma qleb_iff a b : qleb a b = true <-> (a <= b)%Qc.
Proof. unfold qleb, Qcle. apply Qle_bool_iff. Qed.
Lemma qleb_false a b : qleb a b = false <-> (b < a)%Qc.
Proof.
  unfold qleb, Qclt. split; intros H.
  - apply Qnot_le_lt. intros C. apply Qle_bool_iff in C. congruence.
  - destruct (Qle_bool a b) eqn:E; auto. apply Qle_bool_iff in E.
    exfalso. eapply Qlt_not_le; eauto.
Qed.
Lemma qltb_iff a b : qltb a b = true <-> (a < b)%Qc.
Proof. change (qltb a b) with (negb (qleb b a)).
  rewrite negb_true_iff. apply qleb_false. Qed.
Lemma qltb_false a b : qltb a b = false <-> (b <= a)%Qc.
Proof. change (qltb a b) with (negb (qleb b a)).
  rewrite negb_false_iff. apply qleb_iff. Qed.
Lemma qeqb_iff a b : qeqb a b = true <-> a = b.
Proof. unfold qeqb. rewrite Qeq_bool_iff. symmetry. apply Qc_eq_iff. Qed.
Lemma qeqb_false a b : qeqb a b = false <-> a <> b.
Proof. rewrite <- qeqb_iff. destruct (qeqb a b); intuition congruence. Qed.

Ltac qc_atom t :=
  let x := fresh "q" in set (x := t) in *; clearbody x.

Ltac qc_push1 :=
  match goal with
  | |- context [this (Qcplus ?a ?b)] =>
      let h := fresh in pose proof (this_plus a b) as h; qc_atom (this (Qcplus a b))
  | |- context [this (Qcmult ?a ?b)] =>
      let h := fresh in pose proof (this_mult a b) as h; qc_atom (this (Qcmult a b))
  | |- context [this (Qcminus ?a ?b)] =>
      let h := fresh in pose proof (this_minus a b) as h; qc_atom (this (Qcminus a b))
  | |- context [this (Qcopp ?a)] =>
      let h := fresh in pose proof (this_opp a) as h; qc_atom (this (Qcopp a))
  | |- context [this (qz ?a)] =>
      let h := fresh in pose proof (this_qz a) as h; qc_atom (this (qz a))
  | |- context [this (qq ?n ?d)] =>
      let h := fresh in pose proof (this_qq n d) as h; qc_atom (this (qq n d))
  | |- context [this (Q2Qc ?a)] =>
      let h := fresh in pose proof (this_Q2Qc a) as h; qc_atom (this (Q2Qc a))
  | H : context [this (Qcplus ?a ?b)] |- _ =>
      let h := fresh in pose proof (this_plus a b) as h; qc_atom (this (Qcplus a b))
  | H : context [this (Qcmult ?a ?b)] |- _ =>
      let h := fresh in pose proof (this_mult a b) as h; qc_atom (this (Qcmult a b))
  | H : context [this (Qcminus ?a ?b)] |- _ =>
      let h := fresh in pose proof (this_minus a b) as h; qc_atom (this (Qcminus a b))
  | H : context [this (Qcopp ?a)] |- _ =>
      let h := fresh in pose proof (this_opp a) as h; qc_atom (this (Qcopp a))
  | H : context [this (qz ?a)] |- _ =>
      let h := fresh in pose proof (this_qz a) as h; qc_atom (this (qz a))
  | H : context [this (qq ?n ?d)] |- _ =>
      let h := fresh in pose proof (this_qq n d) as h; qc_atom (this (qq n d))
  | H : context [this (Q2Qc ?a)] |- _ =>
      let h := fresh in pose proof (this_Q2Qc a) as h; qc_atom (this (Q2Qc a))
  end.

Ltac qc_bool :=
  repeat match goal with
  | H : qleb _ _ = true |- _ => apply qleb_iff in H
  | H : qleb _ _ = false |- _ => apply qleb_false in H
  | H : qltb _ _ = true |- _ => apply qltb_iff in H
  | H : qltb _ _ = false |- _ => apply qltb_false in H
  | H : qeqb _ _ = true |- _ => apply qeqb_iff in H
  | H : qeqb _ _ = false |- _ => apply qeqb_false in H
  | |- qleb _ _ = true => apply qleb_iff
  | |- qleb _ _ = false => apply qleb_false
  | |- qltb _ _ = true => apply qltb_iff
  | |- qltb _ _ = false => apply qltb_false
  | |- qeqb _ _ = true => apply qeqb_iff
  | |- qeqb _ _ = false => apply qeqb_false
  end.

Ltac qc_start :=
  qc_bool;
  unfold q0, q1, Qcle, Qclt in *;
  repeat match goal with
  | H : ?a <> ?b :> Qc |- _ => apply Qc_neq_iff in H
  | H : @eq Qc _ _ |- _ => apply Qc_eq_iff in H
  | |- @eq Qc _ _ => apply Qc_is_canon
  | |- ?a <> ?b :> Qc => apply Qc_neq_iff
  end.

(** [qlra]: linear arithmetic over [Qc]; [qnra]: its non-linear variant. *)
Ltac qlra := qc_start; repeat qc_push1; unfold inject_Z in *; lra.
Ltac qnra := qc_start; repeat qc_push1; unfold inject_Z in *; nra.

(** [qring]/[qfield]: ring and field identities over [Qc]. *)
Ltac qring := change q0 with 0%Qc in *; change q1 with 1%Qc in *; ring.
Ltac qfield := change q0 with 0%Qc in *; change q1 with 1%Qc in *; field.

Lemma Qc_total (a b : Qc) : (a <= b)%Qc \/ (b <= a)%Qc.
Proof. destruct (qleb a b) eqn:E; qc_bool; [left; auto | right; qlra]. Qed.
Lemma Qclt_nle (a b : Qc) : (a < b)%Qc <-> ~ (b <= a)%Qc.
Proof. split; [apply Qclt_not_le | apply Qcnot_le_lt]. Qed.

Lemma qz_inj a b : qz a = qz b -> a = b.
Proof. intros H. apply Qc_eq_iff in H. rewrite !this_qz in H. now apply (proj1 (inject_Z_injective a b)) in H. Qed.
Lemma qz_plus a b : qz (a + b) = Qcplus (qz a) (qz b).
Proof. apply Qc_is_canon. rewrite this_plus, !this_qz, inject_Z_plus. reflexivity. Qed.
Lemma qz_mult a b : qz (a * b) = Qcmult (qz a) (qz b).
Proof. apply Qc_is_canon. rewrite this_mult, !this_qz, inject_Z_mult. reflexivity. Qed.
Lemma qz_opp a : qz (- a) = Qcopp (qz a).
Proof. apply Qc_is_canon. rewrite this_opp, !this_qz, inject_Z_opp. reflexivity. Qed.
Lemma qz_minus a b : qz (a - b) = Qcminus (qz a) (qz b).
Proof. unfold Z.sub, Qcminus. now rewrite qz_plus, qz_opp. Qed.
Lemma qz_le a b : (qz a <= qz b)%Qc <-> a <= b.
Proof. unfold Qcle. rewrite !this_qz. rewrite <- Zle_Qle. reflexivity. Qed.
Lemma qz_lt a b : (qz a < qz b)%Qc <-> a < b.
Proof. unfold Qclt. rewrite !this_qz. rewrite <- Zlt_Qlt. reflexivity. Qed.

Lemma this_qz_exact z : this (qz z) = (z # 1)%Q.
Proof.
  unfold qz, Q2Qc; cbn [this]. unfold Qred, inject_Z.
  destruct (Z.ggcd z (Zpos 1)) as [g [aa bb]] eqn:E.
  pose proof (Z.ggcd_correct_divisors z 1) as C. rewrite E in C. destruct C as [C1 C2].
  pose proof (Z.ggcd_gcd z 1) as G. rewrite E in G. cbn in G. rewrite Z.gcd_1_r in G.
  cbn [fst] in G. subst g. rewrite Z.mul_1_l in C1. rewrite Z.mul_1_l in C2. subst. reflexivity.
Qed.
Lemma qtrunc_qz z : qtrunc (qz z) = z.
Proof. unfold qtrunc. rewrite this_qz_exact. cbn [Qnum Qden]. apply Z.quot_1_r. Qed.
Lemma qfloor_qz z : qfloor (qz z) = z.
Proof. unfold qfloor. rewrite this_qz_exact. cbn [Qnum Qden]. apply Z.div_1_r. Qed.

Lemma qfloor_spec a : (qz (qfloor a) <= a)%Qc /\ (a < qz (qfloor a + 1))%Qc.
Proof.
  unfold qfloor, Qcle, Qclt. rewrite !this_qz. destruct (this a) as [n d]. cbn [Qnum Qden].
  unfold Qle, Qlt, inject_Z. cbn [Qnum Qden]. rewrite !Z.mul_1_r.
  pose proof (Z.div_mod n (Zpos d) ltac:(lia)). pose proof (Z.mod_pos_bound n (Zpos d) ltac:(lia)). nia.
Qed.
Lemma qfloor_unique a z : (qz z <= a)%Qc -> (a < qz (z + 1))%Qc -> qfloor a = z.
Proof.
  intros H1 H2. destruct (qfloor_spec a) as [H3 H4].
  assert (qz z < qz (qfloor a + 1))%Qc as A by (eapply Qcle_lt_trans; eauto).
  assert (qz (qfloor a) < qz (z + 1))%Qc as B by (eapply Qcle_lt_trans; eauto).
  apply (proj1 (qz_lt _ _)) in A. apply (proj1 (qz_lt _ _)) in B. lia.
Qed.
(** truncation = floor for non-negative numbers, and is odd *)
Lemma qtrunc_nonneg a : (q0 <= a)%Qc -> qtrunc a = qfloor a.
Proof.
  unfold qtrunc, qfloor, Qcle, q0. rewrite this_qz. destruct (this a) as [n d]. cbn.
  unfold Qle. cbn. intros H. apply Z.quot_div_nonneg; lia.
Qed.

(* ------------------------------------------------------------------ *)
(** ** Sums *)

Lemma qsum_nil : qsum [] = q0. Proof. reflexivity. Qed.
Lemma qsum_cons a l : qsum (a :: l) = Qcplus a (qsum l). Proof. reflexivity. Qed.
Lemma qsum_app l1 l2 : qsum (l1 ++ l2) = Qcplus (qsum l1) (qsum l2).
Proof.
  induction l1 as [|a l1 IH]; cbn [app].
  - rewrite qsum_nil. unfold q0. change (qz 0) with 0%Qc. ring.
  - rewrite !qsum_cons, IH. ring.
Qed.
Lemma qsum_map_plus {A} (f g : A -> Qc) l :
  qsum (map (fun x => Qcplus (f x) (g x)) l) = Qcplus (qsum (map f l)) (qsum (map g l)).
Proof.
  induction l as [|a l IH]; cbn [map].
  - rewrite !qsum_nil. change q0 with 0%Qc. ring.
  - rewrite !qsum_cons, IH. ring.
Qed.
Lemma qsum_map_scale {A} (c : Qc) (f : A -> Qc) l :
  qsum (map (fun x => Qcmult c (f x)) l) = Qcmult c (qsum (map f l)).
Proof.
  induction l as [|a l IH]; cbn [map].
  - rewrite !qsum_nil. change q0 with 0%Qc. ring.
  - rewrite !qsum_cons, IH. ring.
Qed.
Lemma qsum_map_ext {A} (f g : A -> Qc) l :
  (forall x, In x l -> f x = g x) -> qsum (map f l) = qsum (map g l).
Proof. intros H. f_equal. apply map_ext_in. exact H. Qed.
Lemma qsum_zero {A} (f : A -> Qc) l :
  (forall x, In x l -> f x = q0) -> qsum (map f l) = q0.
Proof.
  induction l as [|a l IH]; cbn [map]; intros H; [reflexivity|].
  rewrite qsum_cons, IH, H; [reflexivity | now left | intros x Hx; apply H; now right].
Qed.
Lemma qsum_perm l1 l2 : Permutation l1 l2 -> qsum l1 = qsum l2.
Proof.
  induction 1 as [|x l1 l2 _ IH|x y l|l1 l2 l3 _ IH1 _ IH2]; auto.
  - rewrite !qsum_cons, IH. reflexivity.
  - rewrite !qsum_cons. ring.
  - congruence.
Qed.
Lemma qsum_nonneg l : (forall x, In x l -> (q0 <= x)%Qc) -> (q0 <= qsum l)%Qc.
Proof.
  induction l as [|a l IH]; intros H; [cbn; apply Qcle_refl|].
  rewrite qsum_cons. assert (q0 <= a)%Qc by (apply H; now left).
  assert (q0 <= qsum l)%Qc by (apply IH; intros; apply H; now right). qlra.
Qed.
(** exchange of double sums *)
Lemma qsum_exchange {A B} (f : A -> B -> Qc) la lb :
  qsum (map (fun a => qsum (map (f a) lb)) la) = qsum (map (fun b => qsum (map (fun a => f a b) la)) lb).
Proof.
  induction la as [|a la IH]; cbn [map].
  - rewrite qsum_nil. symmetry. apply qsum_zero. reflexivity.
  - rewrite qsum_cons, IH, <- qsum_map_plus. reflexivity.
Qed.
Lemma qsum_delta n k (c : Qc) :
  (k < n)%nat -> qsum (map (fun i => if Nat.eqb i k then c else q0) (seq 0 n)) = c.
Proof.
  intros H. assert (forall s m, (s <= k < s + m)%nat ->
    qsum (map (fun i => if Nat.eqb i k then c else q0) (seq s m)) = c) as G.
  { intros s m; revert s; induction m as [|m IH]; intros s Hs; [lia|].
    cbn [seq map]. rewrite qsum_cons. destruct (Nat.eqb_spec s k).
    - rewrite qsum_zero; [change q0 with 0%Qc; ring|].
      intros x Hx. apply in_seq in Hx. destruct (Nat.eqb_spec x k); [lia|reflexivity].
    - rewrite IH by lia. change q0 with 0%Qc. ring. }
  apply G. lia.
Qed.

Lemma zsum_app l1 l2 : zsum (l1 ++ l2) = zsum l1 + zsum l2.
Proof. induction l1 as [|a l1 IH]; cbn [app]; [cbn; lia|].
  change (zsum (a :: l1 ++ l2)) with (a + zsum (l1 ++ l2)). change (zsum (a :: l1)) with (a + zsum l1). lia. Qed.
Lemma zsum_cons a l : zsum (a :: l) = a + zsum l. Proof. reflexivity. Qed.

(* ------------------------------------------------------------------ *)
(** ** Arrays *)

Lemma upd_length {A} (l : list A) n x : length (upd l n x) = length l.
Proof. revert n; induction l as [|a l IH]; intros [|n]; cbn; auto. Qed.
Lemma nth_upd_same {A} (l : list A) n x d : (n < length l)%nat -> nth n (upd l n x) d = x.
Proof. revert n; induction l as [|a l IH]; intros [|n] H; cbn in *; try lia; auto. apply IH; lia. Qed.
Lemma nth_upd_other {A} (l : list A) n m x d : n <> m -> nth m (upd l n x) d = nth m l d.
Proof.
  revert n m; induction l as [|a l IH]; intros [|n] [|m] H; cbn in *; auto; try congruence.
Qed.
Lemma nth_upd {A} (l : list A) n m x d :
  nth m (upd l n x) d = if (Nat.eqb n m && Nat.ltb n (length l))%bool then x else nth m l d.
Proof.
  destruct (Nat.eqb_spec n m) as [->|E]; cbn [andb].
  - destruct (Nat.ltb_spec m (length l)).
    + now apply nth_upd_same.
    + rewrite !nth_overflow; auto. now rewrite upd_length.
  - now apply nth_upd_other.
Qed.
Lemma nth_error_upd_same {A} (l : list A) n x : (n < length l)%nat -> nth_error (upd l n x) n = Some x.
Proof. revert n; induction l as [|a l IH]; intros [|n] H; cbn in *; try lia; auto. apply IH; lia. Qed.
Lemma nth_error_upd_other {A} (l : list A) n m x : n <> m -> nth_error (upd l n x) m = nth_error l m.
Proof. revert n m; induction l as [|a l IH]; intros [|n] [|m] H; cbn in *; auto; try congruence. Qed.

Lemma nth_ext_eq {A} (l l' : list A) d :
  length l = length l' -> (forall i, (i < length l)%nat -> nth i l d = nth i l' d) -> l = l'.
Proof. intros HL H. apply nth_ext with (d := d) (d' := d); auto. Qed.

Lemma nth_map_seq {A} (f : nat -> A) n i d : (i < n)%nat -> nth i (map f (seq 0 n)) d = f i.
Proof.
  intros H. rewrite nth_indep with (d' := f 0%nat) by (rewrite map_length, seq_length; lia).
  rewrite map_nth, seq_nth by lia. reflexivity.
Qed.

Lemma pyidx_nonneg n i : (0 <= i < Z.of_nat n) -> pyidx n i = Some (Z.to_nat i).
Proof. intros H. unfold pyidx. replace ((0 <=? i) && (i <? Z.of_nat n))%bool with true; auto.
  symmetry. apply andb_true_iff; split; [apply Z.leb_le|apply Z.ltb_lt]; lia. Qed.
Lemma pyget_nonneg {A} (l : list A) i d :
  (0 <= i < Z.of_nat (length l)) -> pyget l i = Ok (nth (Z.to_nat i) l d).
Proof.
  intros H. unfold pyget. rewrite pyidx_nonneg by lia. 
  rewrite (nth_error_nth' l d) by lia. reflexivity.
Qed.
Lemma pyset_nonneg {A} (l : list A) i x :
  (0 <= i < Z.of_nat (length l)) -> pyset l i x = Ok (upd l (Z.to_nat i) x).
Proof. intros H. unfold pyset. rewrite pyidx_nonneg by lia. reflexivity. Qed.

Lemma mapi_length {A B} (f : nat -> A -> B) l : length (mapi f l) = length l.
Proof. unfold mapi. rewrite map_length, combine_length, seq_length. lia. Qed.
Lemma nth_mapi {A B} (f : nat -> A -> B) l i da db :
  (i < length l)%nat -> nth i (mapi f l) db = f i (nth i l da).
Proof.
  intros H. unfold mapi.
  rewrite nth_indep with (d' := (fun p => f (fst p) (snd p)) (0%nat, da)).
  2:{ rewrite map_length, combine_length, seq_length. lia. }
  rewrite (map_nth (fun p => f (fst p) (snd p))). rewrite combine_nth by now rewrite seq_length.
  cbn [fst snd]. rewrite seq_nth by lia. reflexivity.
Qed.

Lemma bind_ok {A B} (a : A) (f : A -> res B) : bind (Ok a) f = f a.
Proof. reflexivity. Qed.
