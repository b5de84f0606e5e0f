(** Runs of [linp] are determined by the basis and the phase: a run that comes back to a
    basis never ends. *)
From Coq Require Import Field.
From Verif Require Import Base BaseProofs Sums LoadModel LoadSpec NetModel NetSpec MatProofs LpModel LpSpec LpProofs LpRun LpNet LpCycle LpBranch.
Open Scope Qc_scope.

Lemma list_vget_ext (l l' : list Qc) : length l = length l' -> (forall i, (i < length l)%nat -> vget l i = vget l' i) -> l = l'.
Proof. intros L H. apply (nth_ext l l' q0 q0 L). exact H. Qed.
Lemma inverse_unique M (X Y B : nat -> nat -> Qc) : is_inverse M X B -> is_inverse M B Y -> forall i j, (i < M)%nat -> (j < M)%nat -> X i j = Y i j.
Proof.
  intros HX HY i j Hi Hj.
  transitivity (qs M (fun k => X i k * qs M (fun l => B k l * Y l j))).
  - rewrite (qs_ext M _ (fun k => if Nat.eqb k j then X i k else q0)); [now rewrite (qs_delta M j (X i))|].
    intros k Hk. rewrite (HY k j Hk Hj). destruct (Nat.eqb k j); qring.
  - rewrite (qs_ext M _ (fun k => qs M (fun l => X i k * B k l * Y l j))) by (intros k Hk; rewrite qs_mul_l; apply qs_ext; intros; ring).
    rewrite qs_exchange. rewrite (qs_ext M _ (fun l => if Nat.eqb l i then Y l j else q0)); [now rewrite (qs_delta M i (fun l => Y l j))|].
    intros l Hl. rewrite <- qs_mul_r. rewrite (HX i l Hi Hl). rewrite Nat.eqb_sym. destruct (Nat.eqb l i); qring.
Qed.

Section SAME.
Variable d : lpdata.
Hypothesis OK : lp_ok d.
Hypothesis WS : well_scaled d.
Let M := d_M d. Let N1 := d_N1 d. Let A := d_A d. Let b := d_BS d. Let X1 := d_XOBI1 d.

Definition alike (s s' : sx) : Prop := s_IBAS s = s_IBAS s' /\ s_PH2 s = s_PH2 s'.
Lemma alike_parts s s' : good d s -> good d s' -> alike s s' ->
  s_TAB s = s_TAB s' /\ s_BS s = s_BS s' /\ s_CB s = s_CB s' /\ (forall k, s_XOB s k = s_XOB s' k) /\ (forall k, s_IBASF s k = s_IBASF s' k).
Proof.
  intros G G' (EB & EP). pose proof (g_inv d s G) as I. pose proof (g_inv d s' G') as I'. fold M A b in I, I'.
  assert (X : forall k, s_XOB s k = s_XOB s' k) by (intros k; rewrite (g_xob d s G), (g_xob d s' G'), EP; reflexivity).
  assert (TG : forall i j, (i < M)%nat -> (j < M)%nat -> mget (s_TAB s) i j = mget (s_TAB s') i j).
  { apply (inverse_unique M _ _ (AB A (s_IBAS s))); [apply (i_left _ _ _ s I)|rewrite EB; apply (i_right _ _ _ s' I')]. }
  assert (T : s_TAB s = s_TAB s').
  { destruct (i_shape _ _ _ s I) as (L1 & R1), (i_shape _ _ _ s' I') as (L2 & R2). apply (nth_ext _ _ [] []); [congruence|].
    intros i Hi. rewrite L1 in Hi. apply list_vget_ext; [rewrite R1, R2; auto|]. intros j Hj. rewrite R1 in Hj by exact Hi. exact (TG i j Hi Hj). }
  split; [exact T|]. split.
  { apply list_vget_ext; [rewrite (i_bs _ _ _ s I), (i_bs _ _ _ s' I'); reflexivity|]. intros i Hi. rewrite (i_bs _ _ _ s I) in Hi.
    rewrite (i_val _ _ _ s I i Hi), (i_val _ _ _ s' I' i Hi), T. reflexivity. }
  split.
  { apply list_vget_ext; [rewrite (i_cbl _ _ _ s I), (i_cbl _ _ _ s' I'); reflexivity|]. intros i Hi. rewrite (i_cbl _ _ _ s I) in Hi.
    rewrite (i_cb _ _ _ s I i Hi), (i_cb _ _ _ s' I' i Hi), EB. apply X. }
  split; [exact X|]. intros k. pose proof (i_flag _ _ _ s I k) as F. pose proof (i_flag _ _ _ s' I' k) as F'. rewrite EB in F.
  destruct (s_IBASF s k), (s_IBASF s' k); auto; [symmetry; apply F', F; reflexivity|apply F, F'; reflexivity].
Qed.
Lemma scan_ext PY XOB XOB' F F' : (forall k, XOB k = XOB' k) -> (forall k, F k = F' k) -> scan M N1 A PY XOB F = scan M N1 A PY XOB' F'.
Proof.
  intros X Y. unfold scan. generalize (seq 0 N1), (q0, @None nat). intros l. induction l as [|i l IH]; intros st; [reflexivity|]. cbn [fold_left]. rewrite IH. f_equal.
  unfold scan_col. now rewrite X, Y.
Qed.
Lemma ratio_ext P BS XOB XOB' IB PH : (forall k, XOB k = XOB' k) -> ratio M P BS XOB IB PH = ratio M P BS XOB' IB PH.
Proof.
  intros X. unfold ratio. generalize (seq 0 M), (@None (Qc * nat)). intros l. induction l as [|i l IH]; intros st; [reflexivity|]. cbn [fold_left]. rewrite IH. f_equal.
  unfold ratio_row. now rewrite X.
Qed.
Lemma alike_pass s s' : visits d s -> visits d s' -> alike s s' ->
  match linp_pass M N1 A X1 b s with
  | Ok (inl t) => exists t', linp_pass M N1 A X1 b s' = Ok (inl t') /\ alike t t'
  | Ok (inr t) => exists t', linp_pass M N1 A X1 b s' = Ok (inr t')
  | Err _ => True
  end.
Proof.
  intros V V' AL. pose proof (visits_good d OK WS s V) as G. pose proof (visits_good d OK WS s' V') as G'.
  destruct (alike_parts s s' G G' AL) as (T & B & C & X & F). destruct AL as (EB & EP).
  pose proof (pass_form d OK s (g_inv d s G)) as PF. pose proof (pass_form d OK s' (g_inv d s' G')) as PF'. fold M N1 A X1 b in PF, PF'. rewrite PF, PF'. clear PF PF'.
  assert (EE : entering M N1 A s' = entering M N1 A s).
  { unfold entering. rewrite <- T, <- C. now rewrite (scan_ext _ (s_XOB s') (s_XOB s) (s_IBASF s') (s_IBASF s)) by auto. }
  rewrite EE. pose proof (entering_spec M N1 A s) as E1. destruct (entering M N1 A s) as [k|].
  - destruct E1 as (E1 & E2 & E3). destruct (pivot_ok d OK s k G (WS s V) E1 E2 E3) as (p & EPV & Hp & _). fold M A in EPV, Hp.
    rewrite EPV. cbn [bind]. exists (pivoted M A k p s'). split; [|split; cbn [pivoted s_IBAS s_PH2]; congruence].
    destruct (leaving d OK s k G (WS s V) E1 E3) as (r & p1 & R1 & _). fold M A in R1.
    assert (p1 = p). { rewrite pivot_form, R1 in EPV. cbn [bind snd] in EPV. apply ok_inj in EPV. assert (Q : s_IPIV (pivoted M A k p1 s) = s_IPIV (pivoted M A k p s)) by (now rewrite EPV). cbn [pivoted s_IPIV] in Q. now injection Q. }
    subst p1. rewrite pivot_form. rewrite <- T, <- B, <- EB, <- EP, (ratio_ext _ _ (s_XOB s') (s_XOB s)) by auto. rewrite R1. reflexivity.
  - unfold next_phase. cbn [fresh s_PH2]. rewrite <- EP. destruct (s_PH2 s); [eexists; reflexivity|]. eexists. split; [reflexivity|]. split; cbn [s_IBAS s_PH2 fresh]; auto.
Qed.
Lemma alike_after i j s s' m : after d i = Some s -> after d j = Some s' -> alike s s' ->
  forall t, after d (m + i) = Some t -> exists t', after d (m + j) = Some t' /\ alike t t'.
Proof.
  intros Ei Ej AL. induction m as [|m IH]; intros t Et.
  - cbn [Nat.add] in *. rewrite Ei in Et. injection Et as <-. eauto.
  - cbn [Nat.add after] in Et. destruct (after d (m + i)) as [u|] eqn:Eu; [|discriminate]. destruct (IH u eq_refl) as (u' & Eu' & AU).
    pose proof (alike_pass u u' (after_visits d _ u Eu) (after_visits d _ u' Eu') AU) as P. unfold M, N1, A, X1, b in P.
    destruct (linp_pass _ _ _ _ _ u) as [[t1|t1]|]; try discriminate. injection Et as <-. destruct P as (t' & P & AT).
    exists t'. split; [|exact AT]. cbn [Nat.add after]. now rewrite Eu', P.
Qed.
Lemma after_mono i j s : (i <= j)%nat -> after d j = Some s -> exists t, after d i = Some t.
Proof.
  intros H. revert s. induction H as [|j H IH]; intros s E; [eauto|]. cbn [after] in E. destruct (after d j) as [u|]; [|discriminate]. exact (IH u eq_refl).
Qed.
(** A repetition goes on for ever. *)
Lemma repeats_ever i j s s' : (i < j)%nat -> after d i = Some s -> after d j = Some s' -> alike s s' -> forall n, exists t, after d n = Some t.
Proof.
  intros H Ei Ej AL. assert (G : forall n, exists t, after d (n + i) = Some t).
  { intros n. induction n as [n IH] using lt_wf_ind. destruct (Nat.le_gt_cases (n + i) j) as [L|L]; [exact (after_mono _ _ _ L Ej)|].
    destruct (IH (n + i - j)%nat ltac:(lia)) as (t & Et). destruct (alike_after i j s s' (n + i - j) Ei Ej AL t Et) as (t' & Et' & _).
    exists t'. replace (n + i)%nat with (n + i - j + j)%nat by lia. exact Et'. }
  intros n. destruct (G n) as (t & Et). exact (after_mono n (n + i) t ltac:(lia) Et).
Qed.
Lemma ever_endless : (forall n, exists t, after d n = Some t) -> forall fuel, linp fuel d = Err OutOfFuel.
Proof.
  intros H fuel. destruct (H fuel) as (t & Et). pose proof (loop_after d fuel 0) as L. rewrite Et in L. rewrite Nat.add_0_r in L. exact L.
Qed.
Theorem repetition_endless i j s s' : (i < j)%nat -> after d i = Some s -> after d j = Some s' -> s_IBAS s = s_IBAS s' -> s_PH2 s = s_PH2 s' -> forall fuel, linp fuel d = Err OutOfFuel.
Proof. intros H Ei Ej E1 E2. apply ever_endless. exact (repeats_ever i j s s' H Ei Ej (conj E1 E2)). Qed.
End SAME.
Theorem stops_or_never : forall d, lp_ok d -> well_scaled d -> (exists s, linp (2 * d_N d ^ d_M d) d = Ok s) \/ forall fuel, linp fuel d = Err OutOfFuel.
Proof.
  intros d OK WS. destruct (loop_total d OK WS (2 * d_N d ^ d_M d) _ (passes_here _ _ _ _ _ _)) as [E|E]; [right|left; exact E].
  destruct (endless_repeats d OK WS E) as (i & j & s & s' & H & _ & Ei & Ej & E1 & E2). exact (repetition_endless d OK WS i j s s' H Ei Ej E1 E2).
Qed.

(** *** A program on which the run does not end (Chvatal, Linear Programming, 1983, p. 31)
    The inverses of the bases of the run have multiples of 1/4 as entries. *)
Definition c_rows : list (list Qc) :=
  [[qq 1 2; qq (-11) 2; qq (-5) 2; qz 9; q1; q0; q0; q0];
   [qq 1 2; qq (-3) 2; qq (-1) 2; q1; q0; q1; q0; q0];
   [q1; q0; q0; q0; q0; q0; q1; q0];
   [qz 10; qz (-57); qz (-9); qz (-24); q0; q0; q0; q1]].
Definition c_d : lpdata :=
  mkLp 4 8 7 (mget c_rows) (fun k => if Nat.eqb k 7 then q1 else q0) (fun _ => q0) [4; 5; 6; 7]%nat [q0; q0; q1; q1] (fun _ => q0) (fun _ => q0).
Definition c_y (k : nat) : Qc := vget [q1; q0; q1; q0; qz 2; q0; q0] k.
Lemma c_ok : lp_ok c_d.
Proof.
  constructor; cbn [c_d d_M d_N d_N1 d_A d_XOBI0 d_XOBI1 d_IBAS d_BS]; try reflexivity; try lia.
  - repeat constructor; cbn; intuition congruence.
  - intros k [<-|[<-|[<-|[<-|[]]]]]; lia.
  - intros i j Hi Hj. destruct i as [|[|[|[|]]]]; try lia; destruct j as [|[|[|[|]]]]; try lia; reflexivity.
  - intros i Hi. destruct i as [|[|[|[|]]]]; try lia; apply qleb_iff; vm_compute; reflexivity.
  - intros k. destruct (Nat.eqb k 7); apply qleb_iff; vm_compute; reflexivity.
  - intros k. apply qleb_iff; vm_compute; reflexivity.
Qed.
Lemma c_feasible : feasible c_d c_y.
Proof.
  split; cbn [c_d d_M d_N1 d_A d_BS].
  - intros k Hk. do 7 (destruct k as [|k]; [apply qleb_iff; vm_compute; reflexivity|]). lia.
  - intros i Hi. do 4 (destruct i as [|i]; [apply Qc_is_canon; vm_compute; reflexivity|]). lia.
Qed.
Definition eqv (s t : sx) : Prop :=
  s_IBAS s = s_IBAS t /\ (forall k, s_IBASF s k = s_IBASF t k) /\ s_TAB s = s_TAB t /\ s_BS s = s_BS t /\ s_CB s = s_CB t /\ (forall k, s_XOB s k = s_XOB t k) /\
  s_IR s = s_IR t /\ s_PH2 s = s_PH2 t /\ s_IPIV s = s_IPIV t.
Lemma eqv_go M N1 A s t : eqv s t ->
  scan M N1 A (rm M (s_CB s) (s_TAB s)) (s_XOB s) (s_IBASF s) = scan M N1 A (rm M (s_CB t) (s_TAB t)) (s_XOB t) (s_IBASF t).
Proof.
  intros (E1 & E2 & E3 & E4 & E5 & E6 & _). rewrite E3, E5. unfold scan. generalize (seq 0 N1), (q0, @None nat). intros l.
  induction l as [|i l IH]; intros st; [reflexivity|]. cbn [fold_left]. rewrite IH. f_equal. unfold scan_col. now rewrite E2, E6.
Qed.
Lemma eqv_pivot M A k s t t' : eqv s t -> pivot M A k t = Ok t' -> exists s', pivot M A k s = Ok s' /\ eqv s' t'.
Proof.
  intros (E1 & E2 & E3 & E4 & E5 & E6 & E7 & E8 & E9) E. unfold pivot in *. cbv zeta in *.
  assert (R : ratio M (mc M k (s_TAB s) A) (s_BS s) (s_XOB s) (s_IBAS s) (s_PH2 s) = ratio M (mc M k (s_TAB t) A) (s_BS t) (s_XOB t) (s_IBAS t) (s_PH2 t)).
  { rewrite E3, E4, E1, E8. unfold ratio. generalize (seq 0 M), (@None (Qc * nat)). intros l. induction l as [|i l IH]; intros st; [reflexivity|]. cbn [fold_left]. rewrite IH. f_equal.
    unfold ratio_row. now rewrite E6. }
  rewrite R, E9. destruct (match ratio _ _ _ _ _ _ with Some r => Ok (snd r) | None => of_option UnboundLocalError (s_IPIV t) end) as [p|]; cbn [bind] in *; [|discriminate].
  apply ok_inj in E. subst t'. eexists. split; [reflexivity|]. unfold eqv. cbn [s_IBAS s_IBASF s_TAB s_BS s_CB s_XOB s_IR s_PH2 s_IPIV].
  rewrite E1, E3, E4, E5, E6, E8. repeat split; auto. intros i. destruct (Nat.eqb i k); [reflexivity|]. destruct (Nat.eqb i _); [reflexivity|apply E2].
Qed.
(** With a column entering at once. *)
Lemma eqv_pass M N1 A X b s t k t' : eqv s t ->
  match scan M N1 A (rm M (s_CB t) (s_TAB t)) (s_XOB t) (s_IBASF t) with (CM, Some k) => if qltb CM q0 then Some k else None | _ => None end = Some k ->
  pivot M A k t = Ok t' -> exists s', linp_pass M N1 A X b s = Ok (inl s') /\ eqv s' t'.
Proof.
  intros V E EP. unfold linp_pass. rewrite (eqv_go M N1 A s t V), E. destruct (eqv_pivot M A k s t t' V EP) as (s' & ES & VS). rewrite ES. cbn [bind]. eauto.
Qed.
Definition c_state (n : nat) : sx := match after c_d n with Some s => s | None => linp_start 0 (fun _ => q0) [] [] end.
Definition c_in (n : nat) : nat := nth n [0; 1; 2; 3; 4; 5; 0]%nat 0%nat.
Lemma qlist_eq (l l' : list Qc) : forallb (fun p => qeqb (fst p) (snd p)) (combine l l') = true -> length l = length l' -> l = l'.
Proof.
  revert l'. induction l as [|x l IH]; intros [|y l'] H L; try discriminate; [reflexivity|]. cbn [combine forallb fst snd] in H. apply andb_prop in H. destruct H as (H1 & H2).
  apply qeqb_iff in H1. f_equal; [exact H1|]. apply IH; [exact H2|]. now injection L.
Qed.
Lemma qlists_eq (m m' : list (list Qc)) : forallb (fun p => forallb (fun p => qeqb (fst p) (snd p)) (combine (fst p) (snd p)) && Nat.eqb (length (fst p)) (length (snd p))) (combine m m') = true ->
  length m = length m' -> m = m'.
Proof.
  revert m'. induction m as [|x m IH]; intros [|y m'] H L; try discriminate; [reflexivity|]. cbn [combine forallb fst snd] in H. apply andb_prop in H. destruct H as (H1 & H2).
  apply andb_prop in H1. destruct H1 as (H1 & H3). apply Nat.eqb_eq in H3. f_equal; [now apply qlist_eq|]. apply IH; [exact H2|]. now injection L.
Qed.
Lemma c_cycle : eqv (c_state 7) (c_state 1).
Proof.
  unfold eqv. split; [vm_compute; reflexivity|]. split.
  { intros k. do 8 (destruct k as [|k]; [vm_compute; reflexivity|]). vm_compute. reflexivity. }
  split; [apply qlists_eq; vm_compute; reflexivity|]. split; [apply qlist_eq; vm_compute; reflexivity|]. split; [apply qlist_eq; vm_compute; reflexivity|].
  split; [intros k; vm_compute; reflexivity|]. repeat split; vm_compute; reflexivity.
Qed.
Lemma c_step n : (n < 7)%nat -> forall s, eqv s (c_state n) -> exists s', linp_pass 4 7 (mget c_rows) (fun _ => q0) [q0; q0; q1; q1] s = Ok (inl s') /\ eqv s' (c_state (S n)).
Proof.
  intros Hn s V.
  assert (C : match scan 4 7 (mget c_rows) (rm 4 (s_CB (c_state n)) (s_TAB (c_state n))) (s_XOB (c_state n)) (s_IBASF (c_state n)) with (CM, Some k) => if qltb CM q0 then Some k else None | _ => None end = Some (c_in n)).
  { clear V. do 7 (destruct n as [|n]; [vm_compute; reflexivity|]). lia. }
  apply (eqv_pass 4 7 _ _ _ s (c_state n) (c_in n) _ V C).
  assert (P : exists t, pivot 4 (mget c_rows) (c_in n) (c_state n) = Ok t).
  { assert (B : match pivot 4 (mget c_rows) (c_in n) (c_state n) with Ok _ => true | Err _ => false end = true).
    { clear V C. do 7 (destruct n as [|n]; [vm_compute; reflexivity|]). lia. }
    destruct (pivot _ _ _ _); [eauto|discriminate]. }
  assert (EA : after c_d n = Some (c_state n)).
  { assert (B : match after c_d n with Some _ => true | None => false end = true) by (clear V C P; do 7 (destruct n as [|n]; [vm_compute; reflexivity|]); lia).
    unfold c_state. destruct (after c_d n); [reflexivity|discriminate]. }
  destruct P as (t & P). rewrite P. f_equal. unfold c_state at 1. change (after c_d (S n)) with
    (match after c_d n with Some s => match linp_pass 4 7 (mget c_rows) (fun _ => q0) [q0; q0; q1; q1] s with Ok (inl s') => Some s' | _ => None end | None => None end).
  rewrite EA. unfold linp_pass. rewrite C, P. reflexivity.
Qed.
Lemma eqv_trans s t u : eqv s t -> eqv t u -> eqv s u.
Proof. unfold eqv. intros (A1 & A2 & A3 & A4 & A5 & A6 & A7 & A8 & A9) (B1 & B2 & B3 & B4 & B5 & B6 & B7 & B8 & B9). repeat split; congruence. Qed.
Lemma c_visits s : visits c_d s -> exists n, (n < 7)%nat /\ eqv s (c_state n).
Proof.
  unfold visits. remember (linp_start _ _ _ _) as s0 eqn:E0. intros V. induction V as [|s s1 s2 V IH E].
  - exists 0%nat. split; [lia|]. subst. change (c_state 0) with (linp_start (d_M c_d) (d_XOBI0 c_d) (d_IBAS c_d) (d_BS c_d)). repeat split.
  - destruct (IH E0) as (n & Hn & EV). destruct (c_step n Hn s1 EV) as (s' & ES & EV').
    change (linp_pass 4 7 (mget c_rows) (fun _ => q0) [q0; q0; q1; q1] s1 = Ok (inl s2)) in E. rewrite ES in E. apply ok_inj in E. injection E as <-.
    destruct (Nat.eq_dec n 6) as [->|NE]; [exists 1%nat; split; [lia|]; exact (eqv_trans _ _ _ EV' c_cycle)|]. exists (S n). split; [lia|exact EV'].
Qed.
Lemma scaledb_sound d s : scaledb d s = true ->
  (forall k i, (k < d_N1 d)%nat -> (i < d_M d)%nat ->
     let p := qs (d_M d) (fun j => mget (s_TAB s) i j * d_A d j k) in p <= q0 \/ qq 1 10000000 < p) /\
  (forall i, (i < d_M d)%nat -> vget (s_BS s) i = q0 \/ qq 1 10000000000000 <= qabs (vget (s_BS s) i)).
Proof.
  intros H. unfold scaledb in H. apply andb_prop in H. destruct H as (H1 & H2). rewrite forallb_forall in H1, H2. split.
  - intros k i Hk Hi p. specialize (H1 k (proj2 (in_seq _ _ _) (conj (Nat.le_0_l _) Hk))). rewrite forallb_forall in H1.
    specialize (H1 i (proj2 (in_seq _ _ _) (conj (Nat.le_0_l _) Hi))). cbv zeta in H1. apply orb_prop in H1. destruct H1 as [H1|H1]; [left; now apply qleb_iff|right; now apply qltb_iff].
  - intros i Hi. specialize (H2 i (proj2 (in_seq _ _ _) (conj (Nat.le_0_l _) Hi))). apply orb_prop in H2. destruct H2 as [H2|H2]; [left; now apply qeqb_iff|right; now apply qleb_iff].
Qed.
Lemma c_scaled : well_scaled c_d.
Proof.
  intros s V. apply scaledb_sound. destruct (c_visits s V) as (n & Hn & (_ & _ & ET & EB & _)). unfold scaledb. rewrite ET, EB. change (scaledb c_d (c_state n) = true).
  clear - Hn. do 7 (destruct n as [|n]; [vm_compute; reflexivity|]). lia.
Qed.
Theorem c_endless : forall fuel, linp fuel c_d = Err OutOfFuel.
Proof.
  intros fuel. assert (A0 : exists s, after c_d 0 = Some s) by (cbn [after]; eauto). destruct A0 as (s & E0).
  assert (B : match after c_d 6 with Some _ => true | None => false end = true) by (vm_compute; reflexivity). destruct (after c_d 6) as [t|] eqn:E6; [|discriminate].
  assert (D : match after c_d 6 with Some t => (s_IBAS t, s_PH2 t) | None => ([], true) end = ([4; 5; 6; 7]%nat, false)) by (vm_compute; reflexivity). rewrite E6 in D. injection D as D1 D2.
  cbn [after] in E0. injection E0 as E0. apply (repetition_endless c_d c_ok c_scaled 0 6 s t); [lia|cbn [after]; now rewrite <- E0|exact E6|rewrite D1, <- E0; reflexivity|rewrite D2, <- E0; reflexivity].
Qed.
