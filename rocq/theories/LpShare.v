(** Proofs about [conls]: what its linear program says. *)
From Coq Require Import Field.
From Verif Require Import Base BaseProofs Sums LoadModel LoadSpec NetModel NetSpec MatProofs NetProofs FlowProofs LpModel LpSpec LpProofs LpRun LpNet LpResult LpShareModel LpShareSpec.
Open Scope Qc_scope.

Lemma qs_row3 N m e1 w1 e2 w2 (g c y : nat -> Qc) : (m <= N)%nat -> (e1 < N)%nat -> (e2 < N)%nat ->
  (forall k, (k < N)%nat -> c k = (if (k <? m)%nat then g k else q0) + (if Nat.eqb k e1 then w1 else q0) + (if Nat.eqb k e2 then w2 else q0)) ->
  qs N (fun k => c k * y k) = qs m (fun k => g k * y k) + w1 * y e1 + w2 * y e2.
Proof.
  intros Hm H1 H2 H. rewrite (qs_ext N _ (fun k => (if (k <? m)%nat then g k * y k else q0) + (if Nat.eqb k e1 then w1 * y k else q0) + (if Nat.eqb k e2 then w2 * y k else q0))).
  - rewrite !qs_plus, qs_head by exact Hm. now rewrite (qs_delta N e1 (fun k => w1 * y k)), (qs_delta N e2 (fun k => w2 * y k)).
  - intros k Hk. rewrite (H k Hk). destruct (k <? m)%nat, (Nat.eqb k e1), (Nat.eqb k e2); qring.
Qed.

Section SHARE.
Variables (BC : list (list Qc)) (INJ : list Qc) (NX NR : nat) (LT : list nat) (BLP : list (list Qc)) (LP : list (nat * nat)) (BN : list (list Qc)) (LOD : list Qc).
Let n : nat := S NX.
Let NL : nat := length BLP.
Let IEQ : list nat := ieq_of LT NX NR.
Let M0 : nat := (3 * n + 2 * NL)%nat.
Let M : nat := (M0 + 2 * n)%nat.
Let N0 : nat := (6 * NX + 4 + 2 * NL)%nat.
Let N1 : nat := (N0 + 2 * n)%nat.
Let S0 : nat := (3 * NX + 1)%nat.
Notation conA := (shr_A BC NX NR LT BLP LP).
Notation conB := (shr_B INJ NX NR LT BLP BN LOD).
Notation clipB := (shr_clip INJ NX NR LT BLP BN LOD).
Notation artA := (shr_art BC INJ NX NR LT BLP LP BN LOD).
Notation finB := (shr_fin INJ NX NR LT BLP BN LOD).
Notation flow := (lflow NX LT BLP LP).
Let area (i : nat) := nth i LT 0%nat.
Let load (j : nat) := vget LOD j.
Variable surplus : nat -> Qc.

Hypothesis ok : order_ok n NR LT.
Hypothesis LI : lines_in n LP.
Hypothesis LB : length BLP = length LP.
Hypothesis NXP : (0 < NX)%nat.
Hypothesis BBL : forall a c, (a < NX)%nat -> (c < NX)%nat -> mget BC a c = reduced LT (wlines LP BLP) a c.
Hypothesis CAPS : forall k, (k < NL)%nat -> q0 <= mget BLP k 1 /\ q0 <= mget BLP k 2.
Hypothesis LIMS : forall i, (i < n)%nat -> q0 <= mget BN i 3 /\ q0 <= mget BN i 4.
Hypothesis IJ : forall p, (p < n)%nat -> vget INJ p = surplus (area p).
Hypothesis LDS : forall i, (i < n)%nat -> q0 <= load i /\ q0 <= load i + surplus i.

Lemma s_area_lt i : (i < n)%nat -> (area i < n)%nat.
Proof. apply (at_lt n NR LT ok). Qed.
Notation outr := (outrow BC NX NR LT BLP LP).
Lemma out_sum y i : (i < n)%nat -> qs (2 * NX) (fun b => outr i b * y b) = net_outflow LP (flow y) (area i).
Proof. apply (outrow_sum BC NX NR LT BLP LP ok LI LB BBL). Qed.

Lemma share_row_eq i b : (i < n)%nat -> share_row BC LP BLP IEQ NX NR i b =
  (if (b <? 2 * NX)%nat then outr i b else q0) + (if Nat.eqb b (2 * NX + i) then - q1 else q0) + (if Nat.eqb b (S0 + i) then - q1 else q0).
Proof.
  intros Hi. unfold share_row, outrow, S0. fold IEQ. destruct (Nat.ltb_spec i NX) as [H|H].
  - destruct (Nat.eqb_spec b (2 * NX + i)), (Nat.eqb_spec b (3 * NX + 1 + i)), (Nat.ltb_spec b (2 * NX)); cbn [orb]; try lia; qring.
  - assert (i = NX) as -> by (unfold n in Hi; lia). replace (3 * NX + 1 + NX)%nat with (4 * NX + 1)%nat by lia. replace (2 * NX + NX)%nat with (3 * NX)%nat by lia.
    destruct (Nat.eqb_spec b (3 * NX)), (Nat.eqb_spec b (4 * NX + 1)), (Nat.ltb_spec b (2 * NX)), (Nat.ltb_spec b (4 * NX + 2)); cbn [orb]; try lia; try qring.
    rewrite pair_zero; [qring|]. apply (ref_sum_zero NX NR LT BLP LP ok LI LB). rewrite <- (Nat.div2_double NX). rewrite !Nat.div2_div. apply Nat.div_le_mono; lia.
Qed.
(** the columns of the variables that are not slack *)
Definition body (a b : nat) : Qc :=
  if (a <? n)%nat then (if (b <? 2 * NX)%nat then outr a b else q0) + (if Nat.eqb b (2 * NX + a) then - q1 else q0) + (if Nat.eqb b (S0 + a) then - q1 else q0)
  else if (a <? 2 * n)%nat then (if Nat.eqb b (2 * NX + (a - n)) then q1 else q0)
  else if (a <? 3 * n)%nat then (if Nat.eqb b (S0 + (a - 2 * n)) then q1 else q0)
  else if (b <? 2 * NX)%nat then
    (if (a <? 3 * n + NL)%nat then line_coef LP BLP IEQ NX (a - 3 * n) b
     else if (a <? M0)%nat then - line_coef LP BLP IEQ NX (a - 3 * n - NL) b
     else if (a <? M0 + n)%nat then outr (a - M0) b else - outr (a - M0 - n) b)
  else q0.
Lemma con_eq a b : (a < M)%nat -> conA a b = body a b + (if (n <=? a)%nat && Nat.eqb b (S0 + a) then q1 else q0).
Proof.
  intros Ha. unfold shr_A, body. fold n NL M0 M N0 IEQ.
  assert (SL : forall c, c = (S0 + a)%nat -> (n <= a)%nat -> Nat.eqb b c = (n <=? a)%nat && Nat.eqb b (S0 + a)).
  { intros c -> H. rewrite (proj2 (Nat.leb_le _ _) H). reflexivity. }
  destruct (Nat.ltb_spec a n) as [H|H]; [rewrite share_row_eq by exact H; destruct (Nat.leb_spec n a); [lia|]; cbn [andb]; qring|].
  destruct (Nat.ltb_spec a (2 * n)).
  { cbv zeta. rewrite (SL (4 * NX + 2 + (a - n))%nat) by (unfold S0, n in *; lia). rewrite (proj2 (Nat.leb_le _ _) H). cbn [andb].
    destruct (Nat.eqb_spec b (S0 + a)), (Nat.eqb_spec b (2 * NX + (a - n))); cbn [orb]; try qring. unfold S0, n in *; lia. }
  destruct (Nat.ltb_spec a (3 * n)).
  { cbv zeta. rewrite (SL (4 * NX + 2 + n + (a - 2 * n))%nat) by (unfold S0, n in *; lia). rewrite (proj2 (Nat.leb_le _ _) H). cbn [andb]. fold S0.
    destruct (Nat.eqb_spec b (S0 + a)), (Nat.eqb_spec b (S0 + (a - 2 * n))); cbn [orb]; try qring. unfold S0, n in *; lia. }
  assert (TL : forall c (X : Qc), c = (S0 + a)%nat -> (if Nat.eqb b c then q1 else if (b <? 2 * NX)%nat then X else q0) = (if (b <? 2 * NX)%nat then X else q0) + (if (n <=? a)%nat && Nat.eqb b (S0 + a) then q1 else q0)).
  { intros c X ->. rewrite (proj2 (Nat.leb_le _ _) H). cbn [andb]. destruct (Nat.eqb_spec b (S0 + a)), (Nat.ltb_spec b (2 * NX)); try qring. unfold S0 in *; lia. }
  assert (SR : forall i, (i < n)%nat -> (b <? 2 * NX)%nat = true -> share_row BC LP BLP IEQ NX NR i b = outr i b).
  { intros i Hi Hb. rewrite share_row_eq by exact Hi. rewrite Hb. apply Nat.ltb_lt in Hb. destruct (Nat.eqb_spec b (2 * NX + i)), (Nat.eqb_spec b (S0 + i)); try (unfold S0 in *; lia). qring. }
  destruct (Nat.ltb_spec a (3 * n + NL)); [apply TL; unfold S0, n in *; lia|].
  destruct (Nat.ltb_spec a M0); [apply TL; unfold S0, M0, n in *; lia|].
  destruct (Nat.ltb_spec a (M0 + n)).
  { cbv zeta. rewrite <- TL with (c := (N0 + (a - M0))%nat) by (unfold S0, N0, M0, n in *; lia). destruct (Nat.eqb b (N0 + (a - M0))); [reflexivity|]. destruct (b <? 2 * NX)%nat eqn:Q; [|reflexivity]. apply SR; [lia|reflexivity]. }
  destruct (Nat.ltb_spec a M); [|lia]. cbv zeta. rewrite <- TL with (c := (N0 + n + (a - M0 - n))%nat) by (unfold S0, N0, M0, n in *; lia).
  destruct (Nat.eqb b (N0 + n + (a - M0 - n))); [reflexivity|]. destruct (b <? 2 * NX)%nat eqn:Q; [|reflexivity]. f_equal. apply SR; [unfold M in *; lia|reflexivity].
Qed.
Lemma body_out a b : (a < M)%nat -> (4 * NX + 2 <= b)%nat -> body a b = q0.
Proof.
  intros Ha Hb. unfold body. destruct (Nat.ltb_spec b (2 * NX)); [lia|].
  destruct (Nat.ltb_spec a n); [destruct (Nat.eqb_spec b (2 * NX + a)), (Nat.eqb_spec b (S0 + a)); try (unfold S0, n in *; lia); qring|].
  destruct (Nat.ltb_spec a (2 * n)); [destruct (Nat.eqb_spec b (2 * NX + (a - n))); [unfold n in *; lia|reflexivity]|].
  destruct (Nat.ltb_spec a (3 * n)); [destruct (Nat.eqb_spec b (S0 + (a - 2 * n))); [unfold S0, n in *; lia|reflexivity]|]. reflexivity.
Qed.

(** *** Right sides *)
Lemma conB_bus i : (i < n)%nat -> conB i = - load (area i).
Proof.
  intros H. unfold shr_B. fold n. destruct (Nat.ltb_spec i NX); [reflexivity|]. destruct (Nat.ltb_spec i n); [|lia].
  replace i with NX by (unfold n in *; lia). unfold area. now rewrite (ref_at NX NR LT ok).
Qed.
Ltac pick := unfold shr_B; fold n NL M0 M; repeat (match goal with |- context [(?a <? ?c)%nat] => destruct (Nat.ltb_spec a c); [try (exfalso; unfold M, M0, n in *; lia)|try (exfalso; unfold M, M0, n in *; lia)] end; try reflexivity).
Lemma conB_curt i : (i < n)%nat -> conB (n + i) = load (area i).
Proof. intros H. pick. now replace (n + i - n)%nat with i by lia. Qed.
Lemma conB_gen i : (i < n)%nat -> conB (2 * n + i) = load (area i) + surplus (area i).
Proof. intros H. pick. replace (2 * n + i - 2 * n)%nat with i by lia. now rewrite IJ. Qed.
Lemma conB_fwd l : (l < NL)%nat -> conB (3 * n + l) = mget BLP l 1.
Proof. intros H. pick. now replace (3 * n + l - 3 * n)%nat with l by lia. Qed.
Lemma conB_bwd l : (l < NL)%nat -> conB (3 * n + NL + l) = mget BLP l 2.
Proof. intros H. pick. now replace (3 * n + NL + l - 3 * n - NL)%nat with l by lia. Qed.
Lemma conB_out i : (i < n)%nat -> conB (M0 + i) = mget BN (area i) 3.
Proof. intros H. pick. destruct (Nat.eqb_spec NX 0); [lia|]. now replace (M0 + i - M0)%nat with i by lia. Qed.
Lemma conB_in i : (i < n)%nat -> conB (M0 + n + i) = mget BN (area i) 4.
Proof. intros H. pick. destruct (Nat.eqb_spec NX 0); [lia|]. now replace (M0 + n + i - M0 - n)%nat with i by lia. Qed.
Lemma row_cases (P : nat -> Prop) : (forall i, (i < n)%nat -> P i) -> (forall i, (i < n)%nat -> P (n + i)%nat) -> (forall i, (i < n)%nat -> P (2 * n + i)%nat) ->
  (forall l, (l < NL)%nat -> P (3 * n + l)%nat) -> (forall l, (l < NL)%nat -> P (3 * n + NL + l)%nat) -> (forall i, (i < n)%nat -> P (M0 + i)%nat) -> (forall i, (i < n)%nat -> P (M0 + n + i)%nat) ->
  forall a, (a < M)%nat -> P a.
Proof.
  intros P1 P2 P3 P4 P5 P6 P7 a Ha. destruct (Nat.ltb_spec a n); [now apply P1|].
  destruct (Nat.ltb_spec a (2 * n)); [replace a with (n + (a - n))%nat by lia; apply P2; lia|].
  destruct (Nat.ltb_spec a (3 * n)); [replace a with (2 * n + (a - 2 * n))%nat by lia; apply P3; lia|].
  destruct (Nat.ltb_spec a (3 * n + NL)); [replace a with (3 * n + (a - 3 * n))%nat by lia; apply P4; lia|].
  destruct (Nat.ltb_spec a M0); [replace a with (3 * n + NL + (a - 3 * n - NL))%nat by lia; apply P5; unfold M0 in *; lia|].
  destruct (Nat.ltb_spec a (M0 + n)); [replace a with (M0 + (a - M0))%nat by lia; apply P6; lia|].
  replace a with (M0 + n + (a - M0 - n))%nat by lia; apply P7; unfold M in *; lia.
Qed.
Lemma s_conB_pos a : (n <= a)%nat -> (a < M)%nat -> q0 <= conB a.
Proof.
  intros H1 H2. revert H1. revert a H2. apply (row_cases (fun a => (n <= a)%nat -> q0 <= conB a)); intros i Hi H.
  - lia.
  - rewrite conB_curt by exact Hi. apply LDS, s_area_lt, Hi.
  - rewrite conB_gen by exact Hi. apply LDS, s_area_lt, Hi.
  - rewrite conB_fwd by exact Hi. now apply CAPS.
  - rewrite conB_bwd by exact Hi. now apply CAPS.
  - rewrite conB_out by exact Hi. apply LIMS, s_area_lt, Hi.
  - rewrite conB_in by exact Hi. apply LIMS, s_area_lt, Hi.
Qed.
Lemma s_fin_rest a : (n <= a)%nat -> (a < M)%nat -> finB a = conB a.
Proof.
  intros H1 H2. unfold shr_fin, shr_clip. fold n NL M0 M. rewrite (proj2 (Nat.ltb_lt _ _) H2). destruct (Nat.ltb_spec a n); [lia|]. apply qabs_nonneg, s_conB_pos; assumption.
Qed.
Lemma s_clip i : (i < n)%nat -> clipB i = - load (area i).
Proof.
  intros H. unfold shr_clip. fold n. rewrite (proj2 (Nat.ltb_lt _ _) H), conB_bus by exact H. destruct (LDS (area i) (s_area_lt i H)) as (L & _).
  unfold qmin. rewrite (proj2 (qleb_iff _ _)); [reflexivity|qlra].
Qed.
Lemma s_fin_bus i : (i < n)%nat -> finB i = load (area i).
Proof.
  intros H. unfold shr_fin. fold n NL M0 M. destruct (Nat.ltb_spec i M); [|unfold M, M0 in *; lia]. rewrite s_clip by exact H. destruct (LDS (area i) (s_area_lt i H)) as (L & _).
  rewrite qabs_neg by qlra. ring.
Qed.

(** *** Rows with the signs and the artificial variables *)
Lemma s_no_flip a b : (n <= a)%nat -> (a < M)%nat -> artA a b = conA a b.
Proof.
  intros H1 H2. unfold shr_art, shr_flip, shr_clip. fold n NL M0 M N0 N1. destruct (Nat.ltb_spec a n); [lia|]. cbn [andb].
  destruct (qltb (conB a) q0) eqn:Q; [|reflexivity]. apply qltb_iff in Q. exfalso. exact (Qclt_not_le _ _ Q (s_conB_pos a H1 H2)).
Qed.
Definition ssg (a : nat) : Qc := if qltb q0 (load (area a)) then - q1 else q1.
Lemma s_art_row a b : (a < n)%nat -> artA a b = (if (b <? N1)%nat then ssg a * body a b else q0) + (if Nat.eqb b (N1 + a) then q1 else q0).
Proof.
  intros Ha. assert (HM : (a < M)%nat) by (unfold M, M0; lia). unfold shr_art, shr_flip, ssg. rewrite s_clip by exact Ha. fold n NL M0 M N0 N1. rewrite (proj2 (Nat.ltb_lt _ _) Ha), (proj2 (Nat.ltb_lt _ _) HM). cbn [andb].
  assert (Q : qltb (- load (area a)) q0 = qltb q0 (load (area a))).
  { apply Bool.eq_iff_eq_true. rewrite !qltb_iff. split; intros; qlra. }
  rewrite Q. rewrite con_eq by exact HM. destruct (Nat.leb_spec n a); [lia|]. cbn [andb].
  destruct (Nat.eqb_spec b (N1 + a)) as [->|NE].
  - destruct (Nat.ltb_spec (N1 + a) N1); [lia|]. qring.
  - destruct (Nat.ltb_spec b N1).
    + destruct (qltb q0 _); cbn [andb]; qring.
    + rewrite !andb_false_r. rewrite body_out by (unfold N1, N0 in *; lia). qring.
Qed.
Lemma row_rest a y : (n <= a)%nat -> (a < M)%nat -> qs (N1 + n) (fun k => artA a k * y k) = qs (4 * NX + 2) (fun k => body a k * y k) + y (S0 + a)%nat.
Proof.
  intros H1 H2. rewrite (qs_row (N1 + n) (4 * NX + 2) (S0 + a) q1 (body a) (artA a)).
  - qring.
  - unfold N1, N0; lia.
  - unfold S0, N1, N0, M, M0, n in *; lia.
  - intros k Hk. rewrite s_no_flip, con_eq by assumption. rewrite (proj2 (Nat.leb_le _ _) H1). cbn [andb]. destruct (Nat.ltb_spec k (4 * NX + 2)); [reflexivity|]. now rewrite body_out.
Qed.
Lemma row_bus a y : (a < n)%nat -> qs (N1 + n) (fun k => artA a k * y k) = ssg a * qs (4 * NX + 2) (fun k => body a k * y k) + y (N1 + a)%nat.
Proof.
  intros Ha. assert (HM : (a < M)%nat) by (unfold M, M0; lia). rewrite (qs_row (N1 + n) N1 (N1 + a) q1 (fun k => ssg a * body a k) (artA a)); [|lia|lia|intros k Hk; now apply s_art_row].
  rewrite (qs_ext N1 _ (fun k => ssg a * (body a k * y k))) by (intros; ring). rewrite qs_scale.
  replace (qs N1 (fun k => body a k * y k)) with (qs (4 * NX + 2) (fun k => body a k * y k)); [qring|].
  rewrite <- (qs_head N1 (4 * NX + 2)) by (unfold N1, N0; lia). apply qs_ext. intros k Hk. destruct (Nat.ltb_spec k (4 * NX + 2)); [reflexivity|]. rewrite body_out by assumption. qring.
Qed.
Lemma b_bus y a : (a < n)%nat -> qs (4 * NX + 2) (fun k => body a k * y k) = net_outflow LP (flow y) (area a) - y (2 * NX + a)%nat - y (S0 + a)%nat.
Proof.
  intros Ha. rewrite (qs_row3 (4 * NX + 2) (2 * NX) (2 * NX + a) (- q1) (S0 + a) (- q1) (outr a) (body a)).
  - rewrite out_sum by exact Ha. qring.
  - lia.
  - unfold n in *; lia.
  - unfold S0, n in *; lia.
  - intros k Hk. unfold body. now rewrite (proj2 (Nat.ltb_lt _ _) Ha).
Qed.
Lemma b_curt y i : (i < n)%nat -> qs (4 * NX + 2) (fun k => body (n + i) k * y k) = y (2 * NX + i)%nat.
Proof.
  intros Hi. rewrite (qs_ext _ _ (fun k => if Nat.eqb k (2 * NX + i) then y k else q0)); [apply (qs_delta (4 * NX + 2) (2 * NX + i) y); unfold n in *; lia|].
  intros k Hk. unfold body. destruct (Nat.ltb_spec (n + i) n); [lia|]. destruct (Nat.ltb_spec (n + i) (2 * n)); [|lia]. replace (n + i - n)%nat with i by lia. destruct (Nat.eqb k _); qring.
Qed.
Lemma b_gen y i : (i < n)%nat -> qs (4 * NX + 2) (fun k => body (2 * n + i) k * y k) = y (S0 + i)%nat.
Proof.
  intros Hi. rewrite (qs_ext _ _ (fun k => if Nat.eqb k (S0 + i) then y k else q0)); [apply (qs_delta (4 * NX + 2) (S0 + i) y); unfold S0, n in *; lia|].
  intros k Hk. unfold body. destruct (Nat.ltb_spec (2 * n + i) n); [lia|]. destruct (Nat.ltb_spec (2 * n + i) (2 * n)); [lia|]. destruct (Nat.ltb_spec (2 * n + i) (3 * n)); [|lia].
  replace (2 * n + i - 2 * n)%nat with i by lia. destruct (Nat.eqb k _); qring.
Qed.
Lemma b_ang y a g : (3 * n <= a)%nat -> (a < M)%nat -> (forall b, (b < 2 * NX)%nat -> body a b = g b) -> qs (4 * NX + 2) (fun k => body a k * y k) = qs (2 * NX) (fun k => g k * y k).
Proof.
  intros H1 H2 E. rewrite <- (qs_head (4 * NX + 2) (2 * NX)) by lia. apply qs_ext. intros k Hk. destruct (Nat.ltb_spec k (2 * NX)) as [L|L]; [now rewrite E|].
  unfold body. destruct (Nat.ltb_spec a n); [lia|]. destruct (Nat.ltb_spec a (2 * n)); [lia|]. destruct (Nat.ltb_spec a (3 * n)); [lia|]. destruct (Nat.ltb_spec k (2 * NX)); [lia|]. qring.
Qed.
Ltac bpick := unfold body; repeat (match goal with |- context [(?a <? ?c)%nat] => destruct (Nat.ltb_spec a c); [try (exfalso; unfold M, M0, n in *; lia)|try (exfalso; unfold M, M0, n in *; lia)] end; try reflexivity).
Lemma b_fwd y l : (l < NL)%nat -> qs (4 * NX + 2) (fun k => body (3 * n + l) k * y k) = flow y l.
Proof.
  intros H. rewrite (b_ang y _ (line_coef LP BLP IEQ NX l)); [apply (line_row_sum NX NR LT BLP LP ok LI LB y l H)|lia|unfold M, M0; lia|].
  intros b Hb. bpick. now replace (3 * n + l - 3 * n)%nat with l by lia.
Qed.
Lemma b_bwd y l : (l < NL)%nat -> qs (4 * NX + 2) (fun k => body (3 * n + NL + l) k * y k) = - flow y l.
Proof.
  intros H. rewrite (b_ang y _ (fun b => - line_coef LP BLP IEQ NX l b)); [|lia|unfold M, M0; lia|].
  - rewrite (qs_ext _ _ (fun k => - (line_coef LP BLP IEQ NX l k * y k))) by (intros; ring). rewrite qs_opp. f_equal. apply (line_row_sum NX NR LT BLP LP ok LI LB y l H).
  - intros b Hb. bpick. now replace (3 * n + NL + l - 3 * n - NL)%nat with l by lia.
Qed.
Lemma b_out y i : (i < n)%nat -> qs (4 * NX + 2) (fun k => body (M0 + i) k * y k) = net_outflow LP (flow y) (area i).
Proof.
  intros H. rewrite (b_ang y _ (outr i)); [now apply out_sum|unfold M0; lia|unfold M; lia|]. intros b Hb. bpick. now replace (M0 + i - M0)%nat with i by lia.
Qed.
Lemma b_in y i : (i < n)%nat -> qs (4 * NX + 2) (fun k => body (M0 + n + i) k * y k) = - net_outflow LP (flow y) (area i).
Proof.
  intros H. rewrite (b_ang y _ (fun b => - outr i b)); [|unfold M0; lia|unfold M; lia|].
  - rewrite (qs_ext _ _ (fun k => - (outr i k * y k))) by (intros; ring). rewrite qs_opp. f_equal. now apply out_sum.
  - intros b Hb. bpick. now replace (M0 + n + i - M0 - n)%nat with i by lia.
Qed.

(** *** The form [linp] expects *)
Lemma s_row_back a : (a < M)%nat -> exists j, (j < M)%nat /\ shr_row_of NX BLP j = a.
Proof.
  intros H. unfold shr_row_of. fold n NL M0 M. destruct (le_lt_dec n a).
  - exists (a - n)%nat. split; [lia|]. destruct (Nat.ltb_spec (a - n) (M - n)); lia.
  - exists (M - n + a)%nat. split; [unfold M, M0 in *; lia|]. destruct (Nat.ltb_spec (M - n + a) (M - n)); lia.
Qed.
Lemma s_row_lt j : (j < M)%nat -> (shr_row_of NX BLP j < M)%nat.
Proof. intros H. unfold shr_row_of. fold n NL M0 M. destruct (Nat.ltb_spec j (M - n)); lia. Qed.
Lemma conls_ok d : conls BC INJ NX NR LT BLP LP BN LOD = Ok d -> lp_ok d /\ d_M d = M /\ d_N1 d = N1 /\ d_N d = (N1 + n)%nat /\
  d_A d = (fun j k => artA (shr_row_of NX BLP j) k) /\ d_BS d = map (fun j => finB (shr_row_of NX BLP j)) (seq 0 M) /\
  (forall k, d_XOBI0 d k = if (N1 <=? k)%nat && (k <? N1 + n)%nat then q1 else q0) /\ (forall k, d_XOBI1 d k = if (k <? N1)%nat then shr_cost NX k else q0).
Proof.
  intros E. unfold conls in E. fold n NL M0 M N0 N1 in E. destruct (Nat.ltb_spec 200 M); [discriminate|]. destruct (Nat.ltb_spec 250 (N1 + n)); [discriminate|].
  cbn [orb] in E. apply ok_inj in E. subst d. cbn [d_M d_N1 d_N d_A d_BS d_B d_XOBI0 d_XOBI1]. split; [|repeat split; auto].
  assert (F : forall a, q0 <= qabs a). { intros a. unfold qabs. destruct (qltb a q0) eqn:Q; [apply qltb_iff in Q; qlra|apply qltb_false in Q; exact Q]. }
  constructor; cbn [d_M d_N1 d_N d_A d_BS d_B d_IBAS d_XOBI0 d_XOBI1].
  - unfold M, M0, n. lia.
  - apply seq_length.
  - apply seq_NoDup.
  - intros k Hk. apply in_seq in Hk. unfold N1, N0, M, M0, n in *. lia.
  - now rewrite map_length, seq_length.
  - lia.
  - intros i j Hi Hj. rewrite seq_nth by exact Hj. pose proof (s_row_lt i Hi) as RL. unfold shr_row_of in *. fold n NL M0 M in RL |- *.
    destruct (Nat.ltb_spec i (M - n)).
    + rewrite s_no_flip by lia. rewrite con_eq by exact RL. rewrite body_out by lia. rewrite (proj2 (Nat.leb_le n (i + n))) by lia. cbn [andb].
      destruct (Nat.eqb_spec i j), (Nat.eqb_spec (4 * NX + 2 + j) (S0 + (i + n))); try qring; unfold S0, n in *; lia.
    + rewrite s_art_row by (unfold M, M0 in *; lia). rewrite body_out by (unfold M, M0 in *; lia).
      destruct (Nat.ltb_spec (4 * NX + 2 + j) N1), (Nat.eqb_spec (4 * NX + 2 + j) (N1 + (i - (M - n)))), (Nat.eqb_spec i j); try qring; unfold N1, N0, M, M0, n in *; lia.
  - intros i Hi. unfold vget. rewrite (nth_map_in _ _ _ 0%nat) by (rewrite seq_length; exact Hi). rewrite seq_nth by exact Hi. cbn [Nat.add]. unfold shr_fin. fold n NL M0 M.
    destruct (Nat.ltb_spec (shr_row_of NX BLP i) M); [apply F|]. pose proof (s_row_lt i Hi). lia.
  - intros k. destruct (_ && _); apply qleb_iff; reflexivity.
  - intros k. destruct (k <? N1)%nat; [|apply Qcle_refl]. unfold shr_cost. destruct (_ && _); apply qleb_iff; reflexivity.
Qed.

(** *** What a solution means *)
Definition s_solves (y : nat -> Qc) : Prop := forall a, (a < M)%nat -> qs (N1 + n) (fun k => artA a k * y k) = finB a.
Let ps := pos n LT.
Lemma ps_at i : (i < n)%nat -> ps (area i) = i. Proof. apply (pos_at n NR LT ok). Qed.
Lemma area_ps j : (j < n)%nat -> exists i, (i < n)%nat /\ area i = j /\ ps j = i.
Proof. intros Hj. destruct (at_surj n NR LT ok j Hj) as (i & Hi & <-). exists i. split; [exact Hi|]. split; [reflexivity|]. now apply ps_at. Qed.
Notation share := (sharing n NR LP BLP (fun i => mget BN i 3) (fun i => mget BN i 4) load surplus).
Notation near := (nearly_sharing n NR LP BLP (fun i => mget BN i 3) (fun i => mget BN i 4) load surplus).
Lemma sol_near y : s_solves y -> (forall k, (k < N1 + n)%nat -> q0 <= y k) ->
  near (ang NX LT y) (fun j => y (2 * NX + ps j)%nat) (fun j => y (S0 + ps j)%nat) (flow y) (fun j => y (N1 + ps j)%nat).
Proof.
  intros YS YP.
  assert (AR : forall P : nat -> Prop, (forall i, (i < n)%nat -> P (area i)) -> forall j, (j < n)%nat -> P j) by (intros P H j Hj; destruct (area_ps j Hj) as (i & Hi & <- & _); now apply H).
  assert (R : forall a, (n <= a)%nat -> (a < M)%nat -> qs (4 * NX + 2) (fun k => body a k * y k) + y (S0 + a)%nat = conB a /\ q0 <= y (S0 + a)%nat).
  { intros a H1 H2. rewrite <- row_rest, (YS a H2), s_fin_rest by assumption. split; [reflexivity|]. apply YP. unfold S0, N1, N0, M, M0, n in *. lia. }
  assert (LN : forall k, (k < length LP)%nat -> within (flow y k) (mget BLP k 1) (mget BLP k 2)).
  { intros k Hk. rewrite <- LB in Hk. fold NL in Hk. destruct (R (3 * n + k)%nat) as (R1 & R2); [lia|unfold M, M0; lia|]. destruct (R (3 * n + NL + k)%nat) as (R3 & R4); [lia|unfold M, M0; lia|].
    rewrite b_fwd, conB_fwd in R1 by exact Hk. rewrite b_bwd, conB_bwd in R3 by exact Hk. split; qlra. }
  constructor.
  - apply (ang_ref NX NR LT ok).
  - reflexivity.
  - apply AR. intros i Hi. rewrite !ps_at by exact Hi. assert (HM : (i < M)%nat) by (unfold M, M0; lia). pose proof (row_bus i y Hi) as E. rewrite (YS i HM), s_fin_bus, b_bus in E by exact Hi.
    unfold ssg in E. destruct (qltb q0 (load (area i))) eqn:Q.
    + replace (- q1 * (net_outflow LP (flow y) (area i) - y (2 * NX + i)%nat - y (S0 + i)%nat)) with (y (2 * NX + i)%nat + y (S0 + i)%nat - net_outflow LP (flow y) (area i)) in E by qring. qlra.
    + apply qltb_false in Q. destruct (LDS (area i) (s_area_lt i Hi)) as (L & _). replace (q1 * (net_outflow LP (flow y) (area i) - y (2 * NX + i)%nat - y (S0 + i)%nat)) with (net_outflow LP (flow y) (area i) - y (2 * NX + i)%nat - y (S0 + i)%nat) in E by qring. qlra.
  - exact LN.
  - apply AR. intros i Hi. destruct (R (M0 + i)%nat) as (R1 & R2); [unfold M0; lia|unfold M; lia|]. destruct (R (M0 + n + i)%nat) as (R3 & R4); [lia|unfold M; lia|].
    rewrite b_out, conB_out in R1 by exact Hi. rewrite b_in, conB_in in R3 by exact Hi. split; qlra.
  - apply AR. intros i Hi. rewrite ps_at by exact Hi. destruct (R (n + i)%nat) as (R1 & R2); [lia|unfold M, M0; lia|]. rewrite b_curt, conB_curt in R1 by exact Hi.
    split; [apply YP; unfold N1, N0, n in *; lia|qlra].
  - apply AR. intros i Hi. rewrite ps_at by exact Hi. destruct (R (2 * n + i)%nat) as (R1 & R2); [lia|unfold M, M0; lia|]. rewrite b_gen, conB_gen in R1 by exact Hi.
    split; [apply YP; unfold S0, N1, N0, n in *; lia|qlra].
  - apply AR. intros i Hi. rewrite ps_at by exact Hi. apply YP. lia.
Qed.

(** *** Every dispatch is a solution *)
Section DISPATCH.
Variables T c g F : nat -> Qc.
Hypothesis DP : share T c g F.
Definition svars (k : nat) : Qc :=
  if (k <? 2 * NX)%nat then (if Nat.even k then qmax (T (area (Nat.div2 k))) q0 else qmax (- T (area (Nat.div2 k))) q0)
  else if (k <? 2 * NX + n)%nat then c (area (k - 2 * NX))
  else if (k <? S0 + n)%nat then g (area (k - S0))
  else let a := (k - S0)%nat in
    if (a <? 2 * n)%nat then load (area (a - n)) - c (area (a - n))
    else if (a <? 3 * n)%nat then load (area (a - 2 * n)) + surplus (area (a - 2 * n)) - g (area (a - 2 * n))
    else if (a <? 3 * n + NL)%nat then mget BLP (a - 3 * n) 1 - F (a - 3 * n)%nat
    else if (a <? M0)%nat then mget BLP (a - 3 * n - NL) 2 + F (a - 3 * n - NL)%nat
    else if (a <? M0 + n)%nat then mget BN (area (a - M0)) 3 - net_outflow LP F (area (a - M0))
    else if (a <? M)%nat then mget BN (area (a - M0 - n)) 4 + net_outflow LP F (area (a - M0 - n))
    else q0.
Ltac vpick := unfold svars; repeat (match goal with |- context [(?a <? ?c)%nat] => destruct (Nat.ltb_spec a c); [try (exfalso; unfold S0, M, M0, n in *; lia)|try (exfalso; unfold S0, M, M0, n in *; lia)] end; try reflexivity).
Lemma w_c i : (i < n)%nat -> svars (2 * NX + i) = c (area i).
Proof. intros H. vpick. now replace (2 * NX + i - 2 * NX)%nat with i by lia. Qed.
Lemma w_g i : (i < n)%nat -> svars (S0 + i) = g (area i).
Proof. intros H. vpick. now replace (S0 + i - S0)%nat with i by lia. Qed.
Lemma w_slack a : (n <= a)%nat -> svars (S0 + a) =
    if (a <? 2 * n)%nat then load (area (a - n)) - c (area (a - n))
    else if (a <? 3 * n)%nat then load (area (a - 2 * n)) + surplus (area (a - 2 * n)) - g (area (a - 2 * n))
    else if (a <? 3 * n + NL)%nat then mget BLP (a - 3 * n) 1 - F (a - 3 * n)%nat
    else if (a <? M0)%nat then mget BLP (a - 3 * n - NL) 2 + F (a - 3 * n - NL)%nat
    else if (a <? M0 + n)%nat then mget BN (area (a - M0)) 3 - net_outflow LP F (area (a - M0))
    else if (a <? M)%nat then mget BN (area (a - M0 - n)) 4 + net_outflow LP F (area (a - M0 - n))
    else q0.
Proof. intros H. unfold svars. replace (S0 + a - S0)%nat with a by lia. destruct (Nat.ltb_spec (S0 + a) (2 * NX)); [unfold S0 in *; lia|]. destruct (Nat.ltb_spec (S0 + a) (2 * NX + n)); [unfold S0, n in *; lia|]. destruct (Nat.ltb_spec (S0 + a) (S0 + n)); [lia|]. reflexivity. Qed.
Ltac wpick := rewrite w_slack by (unfold M0, n in *; lia); repeat (match goal with |- context [(?a <? ?c)%nat] => destruct (Nat.ltb_spec a c); [try (exfalso; unfold M, M0, n in *; lia)|try (exfalso; unfold M, M0, n in *; lia)] end).
Lemma w_sc i : (i < n)%nat -> svars (S0 + (n + i)) = load (area i) - c (area i).
Proof. intros H. wpick. now replace (n + i - n)%nat with i by lia. Qed.
Lemma w_sg i : (i < n)%nat -> svars (S0 + (2 * n + i)) = load (area i) + surplus (area i) - g (area i).
Proof. intros H. wpick. now replace (2 * n + i - 2 * n)%nat with i by lia. Qed.
Lemma w_f l : (l < NL)%nat -> svars (S0 + (3 * n + l)) = mget BLP l 1 - F l.
Proof. intros H. wpick. now replace (3 * n + l - 3 * n)%nat with l by lia. Qed.
Lemma w_b l : (l < NL)%nat -> svars (S0 + (3 * n + NL + l)) = mget BLP l 2 + F l.
Proof. intros H. wpick. now replace (3 * n + NL + l - 3 * n - NL)%nat with l by lia. Qed.
Lemma w_o i : (i < n)%nat -> svars (S0 + (M0 + i)) = mget BN (area i) 3 - net_outflow LP F (area i).
Proof. intros H. wpick. now replace (M0 + i - M0)%nat with i by lia. Qed.
Lemma w_i i : (i < n)%nat -> svars (S0 + (M0 + n + i)) = mget BN (area i) 4 + net_outflow LP F (area i).
Proof. intros H. wpick. now replace (M0 + n + i - M0 - n)%nat with i by lia. Qed.
Lemma w_a i : svars (N1 + i) = q0.
Proof. replace (N1 + i)%nat with (S0 + (M + i))%nat by (unfold N1, N0, S0, M, M0, n; lia). wpick. reflexivity. Qed.
Lemma w_t k : (k < NX)%nat -> svars (2 * k) = qmax (T (area k)) q0 /\ svars (2 * k + 1) = qmax (- T (area k)) q0.
Proof.
  intros H. unfold svars. destruct (Nat.ltb_spec (2 * k) (2 * NX)); [|lia]. destruct (Nat.ltb_spec (2 * k + 1) (2 * NX)); [|lia].
  replace (2 * k + 1)%nat with (S (2 * k)) by lia. rewrite even2, even21, Nat.div2_double, Nat.div2_succ_double. split; reflexivity.
Qed.
Lemma svars_pos k : (k < N1 + n)%nat -> q0 <= svars k.
Proof.
  intros Hk. assert (MX : forall x, q0 <= qmax x q0) by (intros x; unfold qmax; destruct (qleb x q0) eqn:Q; [apply Qcle_refl|]; apply Qclt_le_weak, Qcnot_le_lt; intros H; apply qleb_iff in H; congruence).
  destruct (Nat.ltb_spec k (2 * NX)) as [H1|H1]. { unfold svars. rewrite (proj2 (Nat.ltb_lt _ _) H1). destruct (Nat.even k); apply MX. }
  destruct (Nat.ltb_spec k (2 * NX + n)) as [H2|H2]. { replace k with (2 * NX + (k - 2 * NX))%nat by lia. rewrite w_c by lia. apply (sh_curt _ _ _ _ _ _ _ _ _ _ _ _ DP), s_area_lt. lia. }
  destruct (Nat.ltb_spec k N1) as [H3|H3]; [|replace k with (N1 + (k - N1))%nat by lia; rewrite w_a; apply Qcle_refl].
  assert (EK : exists a, (a < M)%nat /\ k = (S0 + a)%nat) by (exists (k - S0)%nat; unfold N1, N0, S0, M, M0, n in *; lia). destruct EK as (a & Ha & ->). clear Hk H1 H2 H3. revert a Ha.
  apply (row_cases (fun a => q0 <= svars (S0 + a))); intros i Hi.
  - rewrite w_g by exact Hi. apply (sh_gen _ _ _ _ _ _ _ _ _ _ _ _ DP), s_area_lt, Hi.
  - rewrite w_sc by exact Hi. destruct (sh_curt _ _ _ _ _ _ _ _ _ _ _ _ DP (area i) (s_area_lt i Hi)). qlra.
  - rewrite w_sg by exact Hi. destruct (sh_gen _ _ _ _ _ _ _ _ _ _ _ _ DP (area i) (s_area_lt i Hi)). qlra.
  - rewrite w_f by exact Hi. unfold NL in Hi. rewrite LB in Hi. destruct (sh_lines _ _ _ _ _ _ _ _ _ _ _ _ DP i Hi). qlra.
  - rewrite w_b by exact Hi. unfold NL in Hi. rewrite LB in Hi. destruct (sh_lines _ _ _ _ _ _ _ _ _ _ _ _ DP i Hi). qlra.
  - rewrite w_o by exact Hi. destruct (sh_areas _ _ _ _ _ _ _ _ _ _ _ _ DP (area i) (s_area_lt i Hi)). qlra.
  - rewrite w_i by exact Hi. destruct (sh_areas _ _ _ _ _ _ _ _ _ _ _ _ DP (area i) (s_area_lt i Hi)). qlra.
Qed.
Lemma svars_ang j : (j < n)%nat -> ang NX LT svars j = T j.
Proof.
  intros H. destruct (Nat.eq_dec j NR) as [->|NE]; [rewrite (ang_ref NX NR LT ok); symmetry; apply (sh_ref _ _ _ _ _ _ _ _ _ _ _ _ DP)|].
  destruct (ieq_pos' NX NR LT ok j H NE) as (p & Hp & <- & _). rewrite (ang_at NX NR LT ok) by exact Hp. unfold th. destruct (w_t p Hp) as (-> & ->). apply qmax_split.
Qed.
Lemma svars_flow l : (l < length LP)%nat -> flow svars l = F l.
Proof. intros H. unfold lflow. rewrite (sh_flow _ _ _ _ _ _ _ _ _ _ _ _ DP l H). destruct (LI (nth l LP (0%nat, 0%nat))) as (H1 & H2 & _); [now apply nth_In|]. now rewrite !svars_ang. Qed.
Lemma svars_out j : net_outflow LP (flow svars) j = net_outflow LP F j.
Proof. unfold net_outflow. apply qs_ext. intros k Hk. now rewrite svars_flow. Qed.
Lemma svars_solves : s_solves svars.
Proof.
  intros a Ha. destruct (Nat.ltb_spec a n) as [H|H].
  - rewrite row_bus, b_bus, s_fin_bus, w_a, w_c, w_g, svars_out by exact H. rewrite (sh_balance _ _ _ _ _ _ _ _ _ _ _ _ DP (area a) (s_area_lt a H)). unfold ssg.
    destruct (qltb q0 (load (area a))) eqn:Q; [qring|]. apply qltb_false in Q. destruct (LDS (area a) (s_area_lt a H)) as (L & _). assert (load (area a) = q0) as -> by (apply Qcle_antisym; assumption). qring.
  - rewrite row_rest, s_fin_rest by assumption. revert H. revert a Ha. apply (row_cases (fun a => (n <= a)%nat -> _ = conB a)); intros i Hi HN.
    + lia.
    + rewrite b_curt, conB_curt, w_sc, w_c by exact Hi. ring.
    + rewrite b_gen, conB_gen, w_sg, w_g by exact Hi. ring.
    + rewrite b_fwd, conB_fwd, w_f by exact Hi. unfold NL in Hi. rewrite LB in Hi. rewrite svars_flow by exact Hi. ring.
    + rewrite b_bwd, conB_bwd, w_b by exact Hi. unfold NL in Hi. rewrite LB in Hi. rewrite svars_flow by exact Hi. ring.
    + rewrite b_out, conB_out, w_o, svars_out by exact Hi. ring.
    + rewrite b_in, conB_in, w_i, svars_out by exact Hi. ring.
Qed.
Lemma s_area_sum (f : nat -> Qc) : qs n (fun i => f (area i)) = qs n f.
Proof. apply (qs_reindex n NR LT ok). Qed.
(** The sum of the variables. *)
Lemma svars_size : qs N1 svars = share_size n LP BLP (fun i => mget BN i 3) (fun i => mget BN i 4) load surplus T.
Proof.
  unfold share_size. replace N1 with (2 * NX + (n + (n + (n + (n + (NL + (NL + (n + n))))))))%nat by (unfold N1, N0, n; lia). rewrite !qs_app, qs_pairs2.
  rewrite (qs_ext NX _ (fun k => qabs (T (area k)))).
  2:{ intros k Hk. destruct (w_t k Hk) as (-> & ->). apply qmax_split. }
  rewrite (qs_ext n (fun i => svars (2 * NX + i)) (fun i => c (area i))) by (intros; now apply w_c).
  rewrite (qs_ext n (fun i => svars (2 * NX + (n + i))) (fun i => g (area i))) by (intros; rewrite <- w_g by assumption; f_equal; unfold S0, n; lia).
  rewrite (qs_ext n (fun i => svars (2 * NX + (n + (n + i)))) (fun i => load (area i) - c (area i))) by (intros; rewrite <- w_sc by assumption; f_equal; unfold S0, n; lia).
  rewrite (qs_ext n (fun i => svars (2 * NX + (n + (n + (n + i))))) (fun i => load (area i) + surplus (area i) - g (area i))) by (intros; rewrite <- w_sg by assumption; f_equal; unfold S0, n; lia).
  rewrite (qs_ext NL (fun i => svars (2 * NX + (n + (n + (n + (n + i)))))) (fun i => mget BLP i 1 - F i)) by (intros; rewrite <- w_f by assumption; f_equal; unfold S0, n; lia).
  rewrite (qs_ext NL (fun i => svars (2 * NX + (n + (n + (n + (n + (NL + i))))))) (fun i => mget BLP i 2 + F i)) by (intros; rewrite <- w_b by assumption; f_equal; unfold S0, n; lia).
  rewrite (qs_ext n (fun i => svars (2 * NX + (n + (n + (n + (n + (NL + (NL + i)))))))) (fun i => mget BN (area i) 3 - net_outflow LP F (area i))) by (intros; rewrite <- w_o by assumption; f_equal; unfold S0, M0, n; lia).
  rewrite (qs_ext n (fun i => svars (2 * NX + (n + (n + (n + (n + (NL + (NL + (n + i))))))))) (fun i => mget BN (area i) 4 + net_outflow LP F (area i))) by (intros; rewrite <- w_i by assumption; f_equal; unfold S0, M0, n; lia).
  rewrite !qs_minus, !qs_plus. rewrite (s_area_sum c), (s_area_sum g), (s_area_sum load), (s_area_sum surplus), (s_area_sum (fun j => mget BN j 4)), (s_area_sum (fun j => mget BN j 3)), (s_area_sum (net_outflow LP F)).
  replace (qs NX (fun k => qabs (T (area k)))) with (qs n (fun i => qabs (T i))).
  2:{ rewrite <- (s_area_sum (fun i => qabs (T i))). unfold n at 1. rewrite qs_S. unfold area at 2. rewrite (ref_at NX NR LT ok), (sh_ref _ _ _ _ _ _ _ _ _ _ _ _ DP). change (qabs q0) with q0. qring. }
  unfold NL. rewrite LB. ring.
Qed.
End DISPATCH.

(** The objective: what is curtailed. *)
Lemma s_cost y : qs N1 (fun k => shr_cost NX k * y k) = qs n (fun j => y (2 * NX + ps j)%nat).
Proof.
  replace N1 with (2 * NX + (n + (N1 - 2 * NX - n)))%nat by (unfold N1, N0, n; lia). rewrite !qs_app.
  rewrite (qs_zero (2 * NX)), (qs_zero (N1 - 2 * NX - n)).
  - rewrite <- (s_area_sum (fun j => y (2 * NX + ps j)%nat)). rewrite (qs_ext n _ (fun i => y (2 * NX + i)%nat)), (qs_ext n (fun i => y (2 * NX + ps (area i))%nat) (fun i => y (2 * NX + i)%nat)).
    + qring.
    + intros i Hi. now rewrite ps_at.
    + intros i Hi. unfold shr_cost. fold n. rewrite (proj2 (Nat.leb_le _ _)), (proj2 (Nat.ltb_lt _ _)) by lia. cbn [andb]. qring.
  - intros i Hi. unfold shr_cost. fold n. rewrite (proj2 (Nat.ltb_ge _ _)) by lia. rewrite andb_false_r. qring.
  - intros i Hi. unfold shr_cost. rewrite (proj2 (Nat.leb_gt _ _)) by lia. cbn [andb]. qring.
Qed.

Variable d : lpdata.
Hypothesis CD : conls BC INJ NX NR LT BLP LP BN LOD = Ok d.
Lemma s_rows y : (forall i, (i < d_M d)%nat -> qs (d_N d) (fun k => d_A d i k * y k) = vget (d_BS d) i) <-> s_solves y.
Proof.
  destruct (conls_ok d CD) as (LO & EM & EN1 & EN & EA & EBS & _). rewrite EM, EN, EA, EBS. split.
  - intros H a Ha. destruct (s_row_back a Ha) as (j & Hj & Ej). specialize (H j Hj). rewrite Ej in H. refine (eq_trans H _).
    unfold vget. rewrite (nth_map_in _ _ _ 0%nat) by (rewrite seq_length; exact Hj). rewrite seq_nth by exact Hj. cbn [Nat.add]. now rewrite Ej.
  - intros H j Hj. rewrite (H _ (s_row_lt j Hj)). unfold vget. rewrite (nth_map_in _ _ _ 0%nat) by (rewrite seq_length; exact Hj). rewrite seq_nth by exact Hj. reflexivity.
Qed.
Lemma s_real_cost y : qs (d_N1 d) (fun k => cost2 d k * y k) = qs n (fun j => y (2 * NX + ps j)%nat).
Proof.
  destruct (conls_ok d CD) as (LO & EM & EN1 & EN & EA & EBS & EX0 & EX1). rewrite <- s_cost, EN1. apply qs_ext. intros k Hk. unfold cost2. rewrite EN1, (proj2 (Nat.ltb_lt _ _) Hk), EX1. fold n NL. fold N0. fold N1.
  now rewrite (proj2 (Nat.ltb_lt _ _) Hk).
Qed.
Lemma share_feasible y : feasible d y -> exists T c g F, share T c g F /\ qs (d_N1 d) (fun k => cost2 d k * y k) = qs n c.
Proof.
  intros (YP & YF). destruct (conls_ok d CD) as (LO & EM & EN1 & EN & EA & EBS & EX0 & EX1). rewrite EN1 in YP.
  set (z := fun k => if (k <? N1)%nat then y k else q0).
  assert (ZA : forall i, z (N1 + i)%nat = q0) by (intros i; unfold z; destruct (Nat.ltb_spec (N1 + i) N1); [lia|reflexivity]).
  assert (ZS : s_solves z).
  { apply s_rows. intros i Hi. rewrite <- (YF i Hi), EN, EN1, qs_app, (qs_zero n) by (intros j Hj; rewrite ZA; qring). rewrite (qs_ext N1 (fun k => d_A d i k * z k) (fun k => d_A d i k * y k)); [qring|].
    intros k Hk. unfold z. now rewrite (proj2 (Nat.ltb_lt _ _) Hk). }
  assert (ZP : forall k, (k < N1 + n)%nat -> q0 <= z k) by (intros k _; unfold z; destruct (Nat.ltb_spec k N1); [now apply YP|apply Qcle_refl]).
  pose proof (sol_near z ZS ZP) as [S1 S2 S3 S4 S5 S6 S7 _].
  exists (ang NX LT z), (fun j => z (2 * NX + ps j)%nat), (fun j => z (S0 + ps j)%nat), (flow z). split.
  - constructor; try assumption. intros i Hi. rewrite (S3 i Hi), ZA. destruct (qltb q0 (load i)); qring.
  - rewrite s_real_cost. apply qs_ext. intros j Hj. unfold z. destruct (area_ps j Hj) as (i & Hi & _ & ->). destruct (Nat.ltb_spec (2 * NX + i) N1); [reflexivity|unfold N1, N0, n in *; lia].
Qed.
Lemma share_point T c g F : share T c g F -> exists y, feasible d y /\ qs (d_N1 d) (fun k => cost2 d k * y k) = qs n c /\
  qs (d_N1 d) y = share_size n LP BLP (fun i => mget BN i 3) (fun i => mget BN i 4) load surplus T.
Proof.
  intros DP. destruct (conls_ok d CD) as (LO & EM & EN1 & EN & EA & EBS & EX0 & EX1). exists (svars T c g F). split; [split|split].
  - intros k Hk. rewrite EN1 in Hk. apply svars_pos; [exact DP|lia].
  - intros i Hi. rewrite <- (proj2 (s_rows _) (svars_solves T c g F DP) i Hi). rewrite EN, EN1, qs_app, (qs_zero n); [qring|]. intros j Hj. rewrite w_a. qring.
  - rewrite s_real_cost. apply qs_ext. intros j Hj. destruct (area_ps j Hj) as (i & Hi & <- & ->). now apply w_c.
  - rewrite EN1. now apply svars_size.
Qed.
Lemma share_least fuel s : well_scaled d -> linp fuel d = Ok s -> exists T c g F e, near T c g F e /\
  forall T' c' g' F', share T' c' g' F' -> qs n c + qs n e <= qs n c' + qq 1 10000000 * share_size n LP BLP (fun i => mget BN i 3) (fun i => mget BN i 4) load surplus T'.
Proof.
  intros WS ES. destruct (conls_ok d CD) as (LO & EM & EN1 & EN & EA & EBS & EX0 & EX1). destruct (linp_final d fuel s LO WS ES) as ([IV XOBS POS RNG] & PH & EXIT).
  set (y := basic_value (d_M d) s) in *. assert (YP : forall k, q0 <= y k) by (intros k; now apply basic_pos).
  assert (YS : s_solves y) by (apply s_rows; intros i Hi; exact (basic_solves (d_M d) (d_N d) (d_A d) (d_BS d) s IV RNG i Hi)).
  exists (ang NX LT y), (fun j => y (2 * NX + ps j)%nat), (fun j => y (S0 + ps j)%nat), (flow y), (fun j => y (N1 + ps j)%nat). split; [apply sol_near; auto|].
  intros T' c' g' F' DP. destruct (share_point T' c' g' F' DP) as (v & (VP & VF) & VC & VS).
  pose proof (basic_optimal (d_M d) (d_N d) (d_A d) (d_BS d) s IV RNG (d_N1 d) v VP VF EXIT) as OPT. fold y in OPT. unfold TOL in OPT. rewrite VS in OPT.
  rewrite (qs_ext (d_N1 d) (fun k => s_XOB s k * v k) (fun k => cost2 d k * v k)), VC in OPT by (intros k _; rewrite XOBS; unfold costs; now rewrite PH).
  rewrite (qs_ext (d_N d) (fun k => s_XOB s k * y k) (fun k => cost2 d k * y k)) in OPT by (intros k _; rewrite XOBS; unfold costs; now rewrite PH).
  rewrite EN in OPT. rewrite qs_app in OPT. rewrite <- EN1 in OPT at 1. rewrite s_real_cost in OPT.
  rewrite (qs_ext n (fun i => cost2 d (N1 + i) * y (N1 + i)%nat) (fun i => y (N1 + i)%nat)) in OPT.
  2:{ intros i Hi. unfold cost2. rewrite EN1, (proj2 (Nat.ltb_ge _ _)), EX0 by lia. rewrite (proj2 (Nat.leb_le _ _)), (proj2 (Nat.ltb_lt _ _)) by lia. cbn [andb]. qring. }
  rewrite <- (s_area_sum (fun j => y (N1 + ps j)%nat)). rewrite (qs_ext n (fun i => y (N1 + ps (area i))%nat) (fun i => y (N1 + i)%nat)) by (intros i Hi; now rewrite ps_at). exact OPT.
Qed.
End SHARE.
