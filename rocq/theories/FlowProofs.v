(** Proofs about impedance updates, angles, flows and injections. *)
From Coq Require Import Permutation.
From Verif Require Import Base BaseProofs Sums LoadModel LoadSpec LoadProofs ContractProofs NetModel NetSpec MatProofs NetProofs.
Open Scope Z_scope.
Open Scope Qc_scope.

(* ------------------------------------------------------------------ *)
(** ** Rank-one updates on list matrices *)

Definition unit2 (p q a : nat) : Qc := (if Nat.eqb a p then q1 else q0) - (if Nat.eqb a q then q1 else q0).
Definition unit1 (p a : nat) : Qc := if Nat.eqb a p then q1 else q0.

Lemma qs_unit1 n p f : (p < n)%nat -> qs n (fun k => f k * unit1 p k) = f p.
Proof.
  intros H. rewrite <- (qs_delta n p f H). apply qs_ext; intros k _. unfold unit1. destruct (Nat.eqb k p); qring.
Qed.
Lemma qs_unit2 n p q f : (p < n)%nat -> (q < n)%nat -> qs n (fun k => f k * unit2 p q k) = f p - f q.
Proof.
  intros Hp Hq. rewrite <- (qs_unit1 n p f Hp), <- (qs_unit1 n q f Hq), <- qs_minus. apply qs_ext; intros k _. unfold unit2, unit1. qring.
Qed.
Lemma neg_inv b : b <> q0 -> qz (-1) / b = - / b.
Proof. intros H. change (qz (-1)) with (- (1))%Qc. qfield. exact H. Qed.

Section Update2.
  Variables (n m : nat) (A A' : nat -> nat -> Qc) (Z : list (list Qc)) (p q : nat) (b : Qc).
  Hypothesis (Hm : (m <= n)%nat) (SZ : shape n n Z).
  Hypothesis symA : symmetric m A.
  Hypothesis inv : is_inverse m A (mget Z).
  Hypothesis (Hp : (p < m)%nat) (Hq : (q < m)%nat) (Hpq : p <> q) (Hb : b <> q0).
  Hypothesis HA' : forall a c, (a < m)%nat -> (c < m)%nat -> A' a c = A a c + b * (unit2 p q a * unit2 p q c).

  Let symZ := inverse_sym m A (mget Z) symA inv.
  Let w a := mget Z a p - mget Z a q.
  Let s := mget Z p p + mget Z q q - qz 2 * mget Z p q - qz (-1) / b.

  Lemma u2_w a : (a < m)%nat -> w a = mv m (mget Z) (unit2 p q) a.
  Proof. intros Ha. unfold mv. now rewrite qs_unit2. Qed.
  Lemma u2_s : s = dot m (unit2 p q) w + / b.
  Proof.
    assert (dot m (unit2 p q) w = w p - w q) as ->.
    { rewrite <- (qs_unit2 m p q w) by auto. apply qs_ext; intros; qring. }
    unfold s, w. rewrite (symZ q p) by auto. rewrite neg_inv by auto. change (qz 2) with (1 + 1)%Qc. qring.
  Qed.
  Lemma u2_entry a c : (a < n)%nat -> (c < n)%nat -> mget (ximpa Z (qz (-1) / b) p q) a c = mget Z a c - w a * w c / s.
  Proof. intros Ha Hc. unfold ximpa. rewrite (proj1 SZ), mget_mtab by auto. reflexivity. Qed.
  Lemma u2_inverse : s <> q0 -> is_inverse m A' (mget (ximpa Z (qz (-1) / b) p q)).
  Proof.
    intros Hs. apply (rank1_inverse m A (mget Z) A' _ (unit2 p q) w b s); auto.
    - apply u2_w. 
    - apply u2_s.
    - intros i j Hi Hj. apply u2_entry; lia.
  Qed.
  Lemma u2_pivot : injective m A' -> s <> q0.
  Proof.
    intros I. apply (rank1_pivot m A (mget Z) A' (unit2 p q) w b s); auto.
    - apply u2_w.
    - apply u2_s.
    - exists p. split; auto. unfold unit2. rewrite Nat.eqb_refl. destruct (Nat.eqb_spec p q); [contradiction|]. now vm_compute.
  Qed.
End Update2.

Section Update1.
  Variables (n m : nat) (A A' : nat -> nat -> Qc) (Z : list (list Qc)) (p : nat) (b : Qc).
  Hypothesis (Hm : (m <= n)%nat) (SZ : shape n n Z).
  Hypothesis symA : symmetric m A.
  Hypothesis inv : is_inverse m A (mget Z).
  Hypothesis (Hp : (p < m)%nat) (Hb : b <> q0).
  Hypothesis HA' : forall a c, (a < m)%nat -> (c < m)%nat -> A' a c = A a c + b * (unit1 p a * unit1 p c).

  Let symZ := inverse_sym m A (mget Z) symA inv.
  Let w a := mget Z a p.
  Let s := mget Z p p - qz (-1) / b.

  Lemma u1_w a : (a < m)%nat -> w a = mv m (mget Z) (unit1 p) a.
  Proof. intros Ha. unfold mv. now rewrite qs_unit1. Qed.
  Lemma u1_s : s = dot m (unit1 p) w + / b.
  Proof.
    assert (dot m (unit1 p) w = w p) as ->.
    { rewrite <- (qs_unit1 m p w) by auto. apply qs_ext; intros; qring. }
    unfold s, w. rewrite neg_inv by auto. qring.
  Qed.
  Lemma u1_entry a c : (a < n)%nat -> (c < n)%nat -> mget (ximpar Z (qz (-1) / b) p) a c = mget Z a c - w a * w c / s.
  Proof. intros Ha Hc. unfold ximpar. rewrite (proj1 SZ), mget_mtab by auto. reflexivity. Qed.
  Lemma u1_inverse : s <> q0 -> is_inverse m A' (mget (ximpar Z (qz (-1) / b) p)).
  Proof.
    intros Hs. apply (rank1_inverse m A (mget Z) A' _ (unit1 p) w b s); auto.
    - apply u1_w. 
    - apply u1_s.
    - intros i j Hi Hj. apply u1_entry; lia.
  Qed.
  Lemma u1_pivot : injective m A' -> s <> q0.
  Proof.
    intros I. apply (rank1_pivot m A (mget Z) A' (unit1 p) w b s); auto.
    - apply u1_w.
    - apply u1_s.
    - exists p. split; auto. unfold unit1. rewrite Nat.eqb_refl. now vm_compute.
  Qed.
End Update1.

Lemma lap1_unit2 i j b x y : i <> j -> lap1 ((i, j), b) x y = b * (unit2 i j x * unit2 i j y).
Proof. intros N. rewrite lap1_inc by exact N. reflexivity. Qed.

(** C28 *)
Theorem ximpa_exact : forall m A Z i j b, shape m m A -> shape m m Z -> symmetric m (mget A) ->
  is_inverse m (mget A) (mget Z) -> (i < m)%nat -> (j < m)%nat -> i <> j -> b <> q0 ->
  mget Z i i + mget Z j j - qz 2 * mget Z i j - qz (-1) / b <> q0 ->
  is_inverse m (mget (admitm A i j b)) (mget (ximpa Z (qz (-1) / b) i j)) /\
  symmetric m (mget (admitm A i j b)).
Proof.
  intros m A Z i j b SA SZ Sy I Hi Hj N Hb Pv. destruct (admitm_spec m A i j b SA Hi Hj N) as (S' & G').
  split.
  - apply (u2_inverse m m (mget A)); auto. intros a c Ha Hc. rewrite G' by auto. now rewrite lap1_unit2.
  - intros a c Ha Hc. rewrite !G', !lap1_unit2, (Sy a c) by auto. qring.
Qed.
Theorem ximpar_exact : forall m A Z i b, shape m m A -> shape m m Z -> symmetric m (mget A) ->
  is_inverse m (mget A) (mget Z) -> (i < m)%nat -> b <> q0 ->
  mget Z i i - qz (-1) / b <> q0 ->
  is_inverse m (mget (admref A i b)) (mget (ximpar Z (qz (-1) / b) i)) /\
  symmetric m (mget (admref A i b)).
Proof.
  intros m A Z i b SA SZ Sy I Hi Hb Pv. destruct (admref_spec m A i b SA Hi) as (S' & G').
  split.
  - apply (u1_inverse m m (mget A)); auto. intros a c Ha Hc. rewrite G' by auto. unfold unit1.
    destruct (Nat.eqb a i), (Nat.eqb c i); cbn [andb]; qring.
  - intros a c Ha Hc. rewrite !G', (Sy a c) by auto. rewrite andb_comm. reflexivity.
Qed.

(* ------------------------------------------------------------------ *)
(** ** Indexed assignments *)

Section FoldUpd.
  Context {A : Type}.
  Definition updp (v : list A) (p : nat * A) := upd v (fst p) (snd p).
  Lemma fold_updp_length l : forall v, length (fold_left updp l v) = length v.
  Proof. induction l as [|p l IH]; intros v; [reflexivity|]. cbn [fold_left]. rewrite IH. apply upd_length. Qed.
  Lemma fold_updp_out l : forall v k d, ~ In k (map fst l) -> nth k (fold_left updp l v) d = nth k v d.
  Proof.
    induction l as [|p l IH]; intros v k d H; [reflexivity|]. cbn [fold_left]. rewrite IH by (intros C; apply H; now right).
    unfold updp. apply nth_upd_other. intros E. apply H. left. exact E.
  Qed.
  Lemma fold_updp_in l : forall v k x d, NoDup (map fst l) -> In (k, x) l -> (k < length v)%nat -> nth k (fold_left updp l v) d = x.
  Proof.
    induction l as [|p l IH]; intros v k x d ND I Hk; [destruct I|]. cbn [fold_left map] in *. inversion ND as [|a r Na NDr]; subst.
    destruct I as [->|I].
    - rewrite fold_updp_out by exact Na. unfold updp. cbn [fst snd]. now apply nth_upd_same.
    - apply IH; auto. unfold updp. now rewrite upd_length.
  Qed.
End FoldUpd.

Lemma removelast_length' {A} (l : list A) : length (removelast l) = (length l - 1)%nat.
Proof. destruct l as [|x l]; [reflexivity|]. pose proof (app_removelast_last x (l := x :: l) ltac:(discriminate)) as E.
  apply (f_equal (@length A)) in E. rewrite app_length in E. cbn [length] in *. lia. Qed.
Lemma removelast_nth {A} (l : list A) a d : (a < length l - 1)%nat -> nth a (removelast l) d = nth a l d.
Proof.
  intros H. destruct l as [|x l]; [cbn in H; lia|]. rewrite (app_removelast_last d (l := x :: l)) at 2 by discriminate.
  rewrite app_nth1; auto. rewrite removelast_length'. exact H.
Qed.
Lemma combine_fst {A B} (l : list A) (m : list B) : length l = length m -> map fst (combine l m) = l.
Proof. revert m; induction l as [|a l IH]; intros [|b m] H; cbn in *; try discriminate; auto. f_equal. apply IH. lia. Qed.
Lemma combine_nth_in {A B} (l : list A) (m : list B) i da db : (i < length l)%nat -> (i < length m)%nat -> In (nth i l da, nth i m db) (combine l m).
Proof.
  revert m i; induction l as [|a l IH]; intros [|b m] i H1 H2; cbn in *; try lia.
  destruct i; [now left|]. right. apply IH; lia.
Qed.
Lemma NoDup_removelast {A} (l : list A) : NoDup l -> NoDup (removelast l).
Proof.
  intros H. destruct l as [|x l]; auto. rewrite (app_removelast_last x (l := x :: l)) in H by discriminate.
  apply NoDup_remove_1 in H. now rewrite app_nil_r in H.
Qed.

Section Ordered.
  Variables (n NR : nat) (LT : list nat).
  Hypothesis ok : order_ok n NR LT.
  Let NX := (n - 1)%nat.
  Notation at_ := (at_ LT).

  Lemma LT_len : length LT = n. Proof. apply ok. Qed.
  Lemma n_pos : (0 < n)%nat. Proof. apply ok. Qed.

  Lemma thetac_len T : length (thetac T LT) = length T.
  Proof. unfold thetac. rewrite (fold_updp_length (A := Qc)). unfold vzeros. now rewrite repeat_length. Qed.
  Lemma thetac_at T a : length T = n -> (a < NX)%nat -> vget (thetac T LT) (at_ a) = vget T a.
  Proof.
    intros LTT Ha. unfold thetac, vget.
    assert (R1 : length (removelast LT) = NX) by (rewrite removelast_length', LT_len; reflexivity).
    assert (R2 : length (removelast T) = NX) by (rewrite removelast_length', LTT; reflexivity).
    apply (fold_updp_in (A := Qc)).
    - rewrite combine_fst by congruence. apply NoDup_removelast. apply ok.
    - pose proof (combine_nth_in (removelast LT) (removelast T) a 0%nat q0 ltac:(lia) ltac:(lia)) as I.
      rewrite (removelast_nth LT), (removelast_nth T) in I by (rewrite ?LTT, ?LT_len; exact Ha). exact I.
    - unfold vzeros. rewrite repeat_length, LTT. apply (at_lt n NR LT ok). unfold NX in Ha. lia.
  Qed.
  Lemma thetac_ref T : length T = n -> vget (thetac T LT) NR = q0.
  Proof.
    intros LTT. unfold thetac, vget. rewrite (fold_updp_out (A := Qc)); [apply vzeros_nth|].
    assert (R1 : length (removelast LT) = NX) by (rewrite removelast_length', LT_len; reflexivity).
    assert (R2 : length (removelast T) = NX) by (rewrite removelast_length', LTT; reflexivity).
    rewrite combine_fst by congruence. intros C. destruct (In_nth _ _ 0%nat C) as (a & Ha & E). rewrite R1 in Ha.
    rewrite removelast_nth in E by (rewrite LT_len; exact Ha). exact (at_not_ref n NR LT ok a Ha E).
  Qed.

  Lemma ieq_at a : (a < NX)%nat -> nth (at_ a) (ieq_of LT NX NR) 0%nat = a.
  Proof.
    intros Ha. unfold ieq_of. rewrite nth_upd_other by (intros E; symmetry in E; exact (at_not_ref n NR LT ok a Ha E)).
    assert (F : forall v, fold_left (fun v p => upd v (snd p) (fst p)) (combine (seq 0 NX) LT) v =
       fold_left (updp (A := nat)) (map (fun p => (snd p, fst p)) (combine (seq 0 NX) LT)) v).
    { generalize (combine (seq 0 NX) LT). intros l. induction l as [|p l IH]; intros v; [reflexivity|]. cbn [fold_left map]. apply IH. }
    rewrite F.
    assert (E : map (fun p => (snd p, fst p)) (combine (seq 0 NX) LT) = map (fun a => (at_ a, a)) (seq 0 NX)).
    { assert (combine (seq 0 NX) LT = map (fun a => (a, at_ a)) (seq 0 NX)) as ->; [|now rewrite map_map].
      assert (G : forall k s, (s + k <= length LT)%nat -> combine (seq s k) (skipn s LT) = map (fun a => (a, at_ a)) (seq s k)).
      { induction k as [|k IH]; intros s Hs; [reflexivity|]. cbn [seq map].
        destruct (skipn s LT) as [|x r] eqn:ES. { apply (f_equal (@length nat)) in ES. rewrite skipn_length in ES. cbn in ES. lia. }
        cbn [combine]. assert (x = at_ s).
        { unfold at_. rewrite <- (firstn_skipn s LT), ES, app_nth2; rewrite firstn_length, Nat.min_l by lia; [|lia]. now rewrite Nat.sub_diag. }
        assert (r = skipn (S s) LT).
        { clear -ES. revert x r ES. induction LT as [|y t IH] in s |- *; intros x r ES; [destruct s; discriminate|].
          destruct s; cbn in *; [injection ES; auto|]. now apply (IH s x). }
        subst. f_equal. apply IH. lia. }
      apply (G NX 0%nat). pose proof n_pos. rewrite LT_len. unfold NX. lia. }
    rewrite E. apply (fold_updp_in (A := nat)).
    - rewrite map_map. cbn [fst]. apply NoDup_nth with (d := 0%nat).
      intros i j Hi Hj Eij. rewrite map_length, seq_length in Hi, Hj. rewrite !nth_map_seq in Eij by auto.
      apply (at_inj n NR LT ok) in Eij; unfold NX in *; lia.
    - apply in_map_iff. exists a. split; auto. apply in_seq. lia.
    - rewrite repeat_length, LT_len. apply (at_lt n NR LT ok). unfold NX in *; lia.
  Qed.
  Lemma ieq_pos i : (i < n)%nat -> i <> NR -> exists p, (p < NX)%nat /\ at_ p = i /\ nth i (ieq_of LT NX NR) 0%nat = p.
  Proof.
    intros Hi Ni. destruct (at_surj n NR LT ok i Hi) as (p & Hp & E). exists p.
    assert ((p < NX)%nat).
    { destruct (Nat.eq_dec p NX) as [->|]; [|unfold NX in *; lia]. exfalso. apply Ni. rewrite <- E. apply ok. }
    split; auto. split; auto. rewrite <- E. now apply ieq_at.
  Qed.
End Ordered.

(* ------------------------------------------------------------------ *)
(** ** Flows *)

Lemma flo_fold ls T : forall S i, (forall l, In l ls -> (lfrom l < length S)%nat /\ (lto l < length S)%nat) -> (i < length S)%nat ->
  let R := fold_left (fun S l => let f := line_flow T l in addv (addv S (snd (fst l)) f) (fst (fst l)) (Qcopp f)) ls S in
  length R = length S /\
  vget R i = vget S i - qsum (map (fun l => (if Nat.eqb (lfrom l) i then line_flow T l else q0) - (if Nat.eqb (lto l) i then line_flow T l else q0)) ls).
Proof.
  induction ls as [|l ls IH]; intros S i W Hi.
  - cbn [fold_left map]. split; auto. rewrite qsum_nil. qring.
  - cbv zeta. cbn [fold_left map]. rewrite qsum_cons.
    destruct (W l (or_introl eq_refl)) as (H1 & H2).
    set (S' := addv (addv S (snd (fst l)) (line_flow T l)) (fst (fst l)) (- line_flow T l)).
    assert (L' : length S' = length S) by (unfold S'; now rewrite !addv_length).
    destruct (IH S' i) as (E1 & E2). { intros m Hm. rewrite L'. apply W. now right. } { now rewrite L'. }
    cbv zeta in *. split; [congruence|]. rewrite E2. unfold S'. unfold vget at 1. rewrite addv_nth by (rewrite addv_length; auto).
    rewrite addv_nth by auto. fold (vget S i). unfold lfrom, lto.
    rewrite (Nat.eqb_sym (fst (fst l)) i), (Nat.eqb_sym (snd (fst l)) i).
    destruct (Nat.eqb i (fst (fst l))), (Nat.eqb i (snd (fst l))); qring.
Qed.

Lemma wlines_length LP BLP : length BLP = length LP -> length (wlines LP BLP) = length LP.
Proof. intros L. unfold wlines, wline. rewrite combine_length, mcol_length. lia. Qed.
Lemma net_outflow_sum LP BLP T FLOW : length BLP = length LP -> FLOW = map (line_flow T) (wlines LP BLP) -> forall i,
  net_outflow LP (vget FLOW) i =
  qsum (map (fun l => (if Nat.eqb (lfrom l) i then line_flow T l else q0) - (if Nat.eqb (lto l) i then line_flow T l else q0)) (wlines LP BLP)).
Proof.
  intros L -> i. unfold net_outflow. rewrite (qsum_map_qs _ (wlines LP BLP) ((0%nat, 0%nat), q0)).
  assert (LW : length (wlines LP BLP) = length LP) by (now apply wlines_length).
  rewrite LW. apply qs_ext; intros k Hk. unfold vget. rewrite (nth_map_in _ _ _ ((0%nat, 0%nat), q0)) by (refine (eq_ind_r (fun m => (k < m)%nat) Hk LW)).
  assert (fst (nth k (wlines LP BLP) ((0%nat, 0%nat), q0)) = nth k LP (0%nat, 0%nat)) as E.
  { unfold wlines, wline. rewrite combine_nth by (now rewrite mcol_length). reflexivity. }
  unfold lfrom, lto. rewrite E. reflexivity.
Qed.

Lemma outflow_mv n ls T i : wlines_in n ls ->
  qsum (map (fun l => (if Nat.eqb (lfrom l) i then line_flow T l else q0) - (if Nat.eqb (lto l) i then line_flow T l else q0)) ls) =
  qs n (fun j => lap ls i j * vget T j).
Proof.
  intros W. rewrite lap_mv by auto. apply qsum_map_ext. intros l _. unfold inc, line_flow.
  rewrite (Nat.eqb_sym i (lfrom l)), (Nat.eqb_sym i (lto l)). fold (lfrom l) (lto l) (ladm l).
  destruct (Nat.eqb (lfrom l) i), (Nat.eqb (lto l) i); qring.
Qed.

Theorem flo_spec : forall n LP BLP T, lines_in n LP -> length BLP = length LP -> length T = n ->
  let '(SFLOW, FLOW) := flo LP BLP T in
  length SFLOW = n /\ length FLOW = length LP /\
  (forall k, (k < length LP)%nat -> vget FLOW k =
     (vget T (fst (nth k LP (0%nat, 0%nat))) - vget T (snd (nth k LP (0%nat, 0%nat)))) * mget BLP k 0) /\
  (forall i, (i < n)%nat -> vget SFLOW i = - net_outflow LP (vget FLOW) i) /\
  qsum SFLOW = q0.
Proof.
  intros n LP BLP T LI L LTn. unfold flo. fold (wlines LP BLP).
  assert (LW : length (wlines LP BLP) = length LP) by (now apply wlines_length).
  pose proof (wlines_ok n LP BLP LI) as W.
  assert (B : forall l, In l (wlines LP BLP) -> (lfrom l < length (vzeros (length T)))%nat /\ (lto l < length (vzeros (length T)))%nat).
  { intros l Hl. unfold vzeros. rewrite repeat_length, LTn. split; apply (W l Hl). }
  set (SF := fold_left _ _ _).
  assert (LS : length SF = n).
  { unfold SF. destruct n as [|n'].
    - destruct (wlines LP BLP) as [|l r] eqn:E. { cbn. unfold vzeros. rewrite repeat_length. exact LTn. }
      exfalso. destruct (W l (or_introl eq_refl)). lia.
    - destruct (flo_fold (wlines LP BLP) T (vzeros (length T)) 0%nat B) as (E & _); [unfold vzeros; rewrite repeat_length; lia|].
      cbv zeta in E. rewrite E. unfold vzeros. now rewrite repeat_length. }
  assert (OF : forall i, (i < n)%nat -> vget SF i = - net_outflow LP (vget (map (line_flow T) (wlines LP BLP))) i).
  { intros i Hi. rewrite (net_outflow_sum LP BLP T) by auto.
    destruct (flo_fold (wlines LP BLP) T (vzeros (length T)) i B) as (_ & E); [unfold vzeros; rewrite repeat_length; lia|].
    cbv zeta in E. unfold SF. rewrite E. unfold vget at 1. rewrite vzeros_nth. qring. }
  split; [exact LS|]. split; [now rewrite map_length|]. split; [|split; [exact OF|]].
  - intros k Hk. unfold vget at 1. rewrite (nth_map_in _ _ _ ((0%nat, 0%nat), q0)) by (refine (eq_ind_r (fun m => (k < m)%nat) Hk LW)).
    unfold line_flow. unfold wlines, wline. rewrite combine_nth by (now rewrite mcol_length). cbn [fst snd].
    change (nth k (mcol BLP 0) q0) with (vget (mcol BLP 0) k). rewrite mcol_nth. reflexivity.
  - rewrite qsum_qs, LS. change (qs n (vget SF) = q0).
    transitivity (qs n (fun i => - qs n (fun j => lap (wlines LP BLP) i j * vget T j))).
    { apply qs_ext; intros i Hi. rewrite OF by auto. f_equal. rewrite (net_outflow_sum LP BLP T) by auto. now apply outflow_mv. }
    rewrite qs_opp, qs_exchange.
    transitivity (- q0); [|qring]. f_equal. apply qs_zero; intros j Hj.
    transitivity (qs n (fun i => lap (wlines LP BLP) j i) * vget T j).
    { rewrite qs_mul_r. apply qs_ext; intros i Hi. now rewrite (lap_sym _ i j). }
    rewrite lap_rowsum by auto. qring.
Qed.

(** Angles solving the reduced equations for balanced injections give flows that
    deliver every injection, that of the reference included. *)
Theorem kirchhoff : forall n NR LP BLP T INJ, lines_in n LP -> length BLP = length LP -> length T = n -> (NR < n)%nat ->
  (forall i, (i < n)%nat -> i <> NR -> qs n (fun j => lap (wlines LP BLP) i j * vget T j) = INJ i) ->
  qs n INJ = q0 ->
  let '(SFLOW, FLOW) := flo LP BLP T in
  forall i, (i < n)%nat -> net_outflow LP (vget FLOW) i = INJ i.
Proof.
  intros n NR LP BLP T INJ LI L LTn Hr Eq Bal. pose proof (flo_spec n LP BLP T LI L LTn) as F.
  destruct (flo LP BLP T) as [SFLOW FLOW] eqn:EF. destruct F as (LS & LF & FF & FS & FZ).
  assert (EFL : FLOW = map (line_flow T) (wlines LP BLP)) by (unfold flo in EF; injection EF; auto).
  assert (O : forall i, net_outflow LP (vget FLOW) i = qs n (fun j => lap (wlines LP BLP) i j * vget T j)).
  { intros i. rewrite (net_outflow_sum LP BLP T) by auto. apply outflow_mv. now apply wlines_ok. }
  assert (OT : qs n (fun i => net_outflow LP (vget FLOW) i) = q0).
  { rewrite qsum_qs, LS in FZ. transitivity (- qs n (fun i => nth i SFLOW q0)); [|rewrite FZ; qring].
    rewrite <- qs_opp. apply qs_ext; intros i Hi. change (nth i SFLOW q0) with (vget SFLOW i). rewrite FS by auto. qring. }
  assert (NE : forall i, (i < n)%nat -> i <> NR -> net_outflow LP (vget FLOW) i = INJ i) by (intros; rewrite O; auto).
  intros i Hi. destruct (Nat.eq_dec i NR) as [->|N]; auto.
  assert (D : qs n (fun i => if Nat.eqb i NR then net_outflow LP (vget FLOW) i - INJ i else q0) = q0).
  { transitivity (qs n (fun i => net_outflow LP (vget FLOW) i - INJ i)); [|rewrite qs_minus; rewrite Bal; change (qs n (fun i => net_outflow LP (vget FLOW) i) - q0 = q0); rewrite OT; qring].
    apply qs_ext; intros j Hj. destruct (Nat.eqb_spec j NR); auto. rewrite NE by auto. qring. }
  rewrite (qs_delta n NR (fun i => net_outflow LP (vget FLOW) i - INJ i)) in D by auto. qlra.
Qed.
