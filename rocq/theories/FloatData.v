(** Contracts, load scaling, forecast factors, random numbers under rounding. *)
From Coq Require Import Permutation.
From Verif Require Import Base BaseProofs Sums SampleModel SampleProofs LoadModel LoadSpec LoadProofs ContractProofs FloatSpec FloatModel FloatProofs FloatSums.
Open Scope Z_scope.

(* ---------------- contracts ---------------- *)
Lemma filt_len {A} (f : A -> bool) l : (length (filter f l) <= length l)%nat.
Proof. induction l as [|a l IH]; cbn [filter]; [lia|]. destruct (f a); cbn [length]; lia. Qed.
Section CONTRACTS.
Variable k : Z.
Hypothesis K : 0 <= k <= 1074.
Definition cell (B v : Qc) : Prop := on_grid k v /\ (qabs v <= B)%Qc.

Lemma cell_0 B : (q0 <= B)%Qc -> cell B q0.
Proof. intros H. split; [apply grid_0|]. now rewrite (qabs_of_nonneg q0) by apply Qcle_refl. Qed.
Lemma cell_add B X v x : (B + X <= p2 (53 - k))%Qc -> cell B v -> cell X x -> fadd v x = Qcplus v x /\ cell (B + X) (Qcplus v x).
Proof.
  intros H [G1 A1] [G2 A2]. pose proof (qabs_triangle v x) as T.
  assert (A : (qabs (v + x) <= B + X)%Qc) by qlra. assert (G : on_grid k (v + x)) by now apply grid_plus.
  split; [|split; assumption]. unfold fadd. apply (grid_exact k); auto. qlra.
Qed.
Lemma cell_opp X x : cell X x -> cell X (Qcopp x).
Proof. intros [G A]. split; [now apply grid_opp|]. now rewrite qabs_opp. Qed.
Lemma cell_mono B B' v : (B <= B')%Qc -> cell B v -> cell B' v.
Proof. intros H [G A]. split; auto. qlra. Qed.

Lemma faddv_exact B X v j x : (q0 <= B)%Qc -> (q0 <= X)%Qc -> (B + X <= p2 (53 - k))%Qc -> Forall (cell B) v -> cell X x ->
  faddv v j x = addv v j x /\ Forall (cell (B + X)) (addv v j x).
Proof.
  intros B0 X0 H F C. unfold faddv, addv.
  destruct (cell_add B X (nth j v q0) x H (Forall_nth_d _ _ _ _ F (cell_0 B B0)) C) as [E G]. rewrite E. split; auto.
  apply Forall_upd; auto. eapply Forall_impl; [|exact F]. intros a. apply cell_mono. qlra.
Qed.

Lemma ffindtn_fold X INTCH JDAY : (q0 <= X)%Qc -> Forall (Forall (cell X)) INTCH ->
  forall cs B t, (q0 <= B)%Qc -> Forall (cell B) t -> (B + qz (2 * Z.of_nat (length cs)) * X <= p2 (53 - k))%Qc ->
  fold_left (fun acc (c : nat * nat * Z) => let '(j1, j2, p) := c in
     do t <- acc; do x <- intch INTCH p JDAY; Ok (faddv (faddv t j1 x) j2 (Qcopp x))) cs (Ok t) =
  fold_left (fun acc (c : nat * nat * Z) => let '(j1, j2, p) := c in
     do t <- acc; do x <- intch INTCH p JDAY; Ok (addv (addv t j1 x) j2 (Qcopp x))) cs (Ok t).
Proof.
  intros X0 FI. induction cs as [|[[j1 j2] p] cs IH]; intros B t B0 F H; cbn [fold_left]; [reflexivity|].
  cbn [bind]. destruct (intch INTCH p JDAY) as [x|e] eqn:E; cbn [bind].
  - assert (CX : cell X x).
    { unfold intch in E. destruct (pyget INTCH p) as [r|] eqn:R; cbn [bind] in E; [|discriminate].
      apply pyget_in in R. apply pyget_in in E. rewrite Forall_forall in FI. specialize (FI _ R).
      rewrite Forall_forall in FI. now apply FI. }
    cbn [length] in H. rewrite Nat2Z.inj_succ in H.
    replace (2 * Z.succ (Z.of_nat (length cs))) with (2 * Z.of_nat (length cs) + 1 + 1) in H by lia.
    rewrite !qz_plus in H. set (m := qz (2 * Z.of_nat (length cs))) in *.
    assert (M0 : (q0 <= m)%Qc) by (apply (proj2 (qz_le 0 _)); lia).
    assert (MX : (q0 <= m * X)%Qc) by (clearbody m; qnra). change (qz 1) with 1%Qc in H.
    assert (H' : (B + X + X + m * X <= p2 (53 - k))%Qc).
    { replace (B + X + X + m * X)%Qc with (B + (m + 1 + 1) * X)%Qc by ring. exact H. }
    destruct (faddv_exact B X t j1 x) as [E1 F1]; auto; [qlra|].
    destruct (faddv_exact (B + X) X (addv t j1 x) j2 (Qcopp x)) as [E2 F2]; auto; [qlra|qlra|now apply cell_opp|].
    rewrite E1, E2. apply (IH (B + X + X)%Qc); auto. qlra.
  - clear. induction cs as [|[[? ?] ?] cs IH]; cbn [fold_left]; auto.
Qed.
Theorem ffindtn_exact X JENT INTCH JDAY : (q0 <= X)%Qc -> Forall (Forall (cell X)) INTCH ->
  (qz (2 * Z.of_nat (length (contracts JENT))) * X <= p2 (53 - k))%Qc ->
  ffindtn JENT INTCH JDAY = findtn JENT INTCH JDAY.
Proof.
  intros X0 F H. unfold ffindtn, findtn. apply (ffindtn_fold X INTCH JDAY X0 F _ q0); [apply Qcle_refl| |].
  - unfold vzeros. apply Forall_forall. intros a I. apply repeat_spec in I. subst. apply cell_0. apply Qcle_refl.
  - replace (q0 + qz (2 * Z.of_nat (length (contracts JENT))) * X)%Qc with (qz (2 * Z.of_nat (length (contracts JENT))) * X)%Qc by qring. exact H.
Qed.

Lemma fadd_slice_exact B X H j a b x : (q0 <= B)%Qc -> (q0 <= X)%Qc -> (B + X <= p2 (53 - k))%Qc -> Forall (Forall (cell B)) H -> cell X x ->
  fadd_slice H j a b x = add_slice H j a b x /\ Forall (Forall (cell (B + X))) (add_slice H j a b x).
Proof.
  intros B0 X0 HB F C. unfold fadd_slice, add_slice.
  assert (R : Forall (cell B) (nth j H [])) by (apply Forall_nth_d; auto).
  assert (MM : forall l, Forall (cell B) l -> Forall (cell (B + X)) l).
  { intros l. apply Forall_impl. intros v. apply cell_mono. qlra. }
  assert (E : mapi (fun k v => if (a <=? k)%nat && (k <? b)%nat then fadd v x else v) (nth j H []) =
              mapi (fun k v => if (a <=? k)%nat && (k <? b)%nat then Qcplus v x else v) (nth j H []) /\
              Forall (cell (B + X)) (mapi (fun k v => if (a <=? k)%nat && (k <? b)%nat then Qcplus v x else v) (nth j H []))).
  { unfold mapi. rewrite Forall_forall in R.
    assert (S : forall p, In p (combine (seq 0 (length (nth j H []))) (nth j H [])) -> cell B (snd p)).
    { intros [u v] I. apply in_combine_r in I. now apply R. }
    split.
    - apply map_ext_in. intros p I. destruct (_ && _); auto. now apply (cell_add B X); auto.
    - apply Forall_forall. intros y I. apply in_map_iff in I. destruct I as (p & <- & I). specialize (S p I).
      destruct (_ && _); [now apply (cell_add B X)|]. eapply cell_mono; [|exact S]. qlra. }
  destruct E as [E G]. rewrite E. split; auto. apply Forall_upd; auto.
  eapply Forall_impl; [|exact F]. exact MM.
Qed.

Lemma fxporta_days X j1 j2 : (q0 <= X)%Qc -> forall ds B H, Forall (fun dx : nat * Qc => cell X (snd dx)) ds ->
  (q0 <= B)%Qc -> Forall (Forall (cell B)) H -> (B + qz (2 * Z.of_nat (length ds)) * X <= p2 (53 - k))%Qc ->
  fold_left (fxporta_day j1 j2) ds H = fold_left (xporta_day j1 j2) ds H /\
  Forall (Forall (cell (B + qz (2 * Z.of_nat (length ds)) * X))) (fold_left (xporta_day j1 j2) ds H).
Proof.
  intros X0. induction ds as [|[d x] ds IH]; intros B H D B0 F HB; cbn [fold_left].
  - split; auto. cbn [length]. change (qz (2 * Z.of_nat 0)) with 0%Qc. replace (B + 0 * X)%Qc with B by ring. exact F.
  - inversion D as [|? ? D1 D2]; subst. cbn [snd] in D1. cbn [length] in HB |- *.
    rewrite Nat2Z.inj_succ in HB |- *.
    replace (2 * Z.succ (Z.of_nat (length ds))) with (2 * Z.of_nat (length ds) + 1 + 1) in HB |- * by lia.
    rewrite !qz_plus in HB |- *. 
    assert (M0 : (q0 <= qz (2 * Z.of_nat (length ds)))%Qc) by (apply (proj2 (qz_le 0 _)); lia).
    change (qz 1) with 1%Qc in *.
    replace (B + (qz (2 * Z.of_nat (length ds)) + 1 + 1) * X)%Qc with (B + X + X + qz (2 * Z.of_nat (length ds)) * X)%Qc in * by ring.
    assert (MX : (q0 <= qz (2 * Z.of_nat (length ds)) * X)%Qc) by (set (m := qz (2 * Z.of_nat (length ds))) in *; clearbody m; qnra).
    destruct (fadd_slice_exact B X H j1 (d * 24) ((d + 1) * 24) x) as [E1 F1]; auto.
    { set (y := (qz (2 * Z.of_nat (length ds)) * X)%Qc) in *. clearbody y. qlra. }
    destruct (fadd_slice_exact (B + X) X (add_slice H j1 (d * 24) ((d + 1) * 24) x) j2 (d * 24) ((d + 1) * 24) (Qcopp x)) as [E2 F2]; auto.
    { qlra. } { set (y := (qz (2 * Z.of_nat (length ds)) * X)%Qc) in *. clearbody y. qlra. } { now apply cell_opp. }
    unfold fxporta_day at 2, xporta_day at 2 4. rewrite E1, E2. apply IH; auto. qlra.
Qed.

Lemma fxporta_fold X ND INTCH : (q0 <= X)%Qc -> Forall (fun r => Forall (cell X) r /\ (length r <= ND)%nat) INTCH ->
  forall cs B H, (q0 <= B)%Qc -> Forall (Forall (cell B)) H -> (B + qz (2 * Z.of_nat (length cs * ND)) * X <= p2 (53 - k))%Qc ->
  let go (day : nat -> nat -> list (list Qc) -> nat * Qc -> list (list Qc)) := fold_left (fun acc (c : nat * nat * Z) => let '(j1, j2, p) := c in
     do H <- acc; do row <- pyget INTCH p;
     Ok (fold_left (day j1 j2) (filter (fun dx => negb (qeqb (snd dx) q0)) (combine (seq 0 (length row)) row)) H)) cs (Ok H) in
  go fxporta_day = go xporta_day /\
  forall H', go xporta_day = Ok H' -> Forall (Forall (cell (B + qz (2 * Z.of_nat (length cs * ND)) * X))) H'.
Proof.
  intros X0 FI. induction cs as [|[[j1 j2] p] cs IH]; intros B H B0 F HB; cbv zeta; cbn [fold_left].
  - split; auto. intros H' E. injection E as <-. cbn [length Nat.mul]. change (qz (2 * Z.of_nat 0)) with 0%Qc.
    replace (B + 0 * X)%Qc with B by ring. exact F.
  - cbn [bind]. destruct (pyget INTCH p) as [row|e] eqn:E; cbn [bind].
    + apply pyget_in in E. rewrite Forall_forall in FI. specialize (FI _ E) as [FR LR].
      set (ds := filter (fun dx => negb (qeqb (snd dx) q0)) (combine (seq 0 (length row)) row)).
      assert (LD : (length ds <= ND)%nat).
      { unfold ds. etransitivity; [apply filt_len|]. rewrite combine_length, seq_length. lia. }
      assert (FD : Forall (fun dx : nat * Qc => cell X (snd dx)) ds).
      { apply Forall_forall. intros [d x] I. apply filter_In in I. destruct I as [I _]. apply in_combine_r in I.
        rewrite Forall_forall in FR. now apply FR. }
      assert (BD : (B + qz (2 * Z.of_nat (length ds)) * X + qz (2 * Z.of_nat (length cs * ND)) * X <= B + qz (2 * Z.of_nat (length ((j1, j2, p) :: cs) * ND)) * X)%Qc).
      { replace (B + qz (2 * Z.of_nat (length ds)) * X + qz (2 * Z.of_nat (length cs * ND)) * X)%Qc
          with (B + qz (2 * Z.of_nat (length ds) + 2 * Z.of_nat (length cs * ND)) * X)%Qc by (rewrite qz_plus; ring).
        assert (Q : (qz (2 * Z.of_nat (length ds) + 2 * Z.of_nat (length cs * ND)) <= qz (2 * Z.of_nat (length ((j1, j2, p) :: cs) * ND)))%Qc).
        { apply qz_le. cbn [length]. nia. }
        apply (qmul_le _ _ X X0) in Q. set (u := (qz _ * X)%Qc) in Q at 1 |- * at 1. set (v := (qz _ * X)%Qc) in Q |- *. clearbody u v. qlra. }
      assert (N1 : (q0 <= qz (2 * Z.of_nat (length ds)) * X)%Qc).
      { assert ((q0 <= qz (2 * Z.of_nat (length ds)))%Qc) by (apply (proj2 (qz_le 0 _)); lia). set (m := qz (2 * Z.of_nat (length ds))) in *. clearbody m. qnra. }
      assert (N2 : (q0 <= qz (2 * Z.of_nat (length cs * ND)) * X)%Qc).
      { assert ((q0 <= qz (2 * Z.of_nat (length cs * ND)))%Qc) by (apply (proj2 (qz_le 0 _)); lia). set (m := qz (2 * Z.of_nat (length cs * ND))) in *. clearbody m. qnra. }
      set (x1 := (qz (2 * Z.of_nat (length ds)) * X)%Qc) in *. set (x2 := (qz (2 * Z.of_nat (length cs * ND)) * X)%Qc) in *.
      set (x3 := (qz (2 * Z.of_nat (length ((j1, j2, p) :: cs) * ND)) * X)%Qc) in *.
      destruct (fxporta_days X j1 j2 X0 ds B H FD B0 F) as [E1 F1]. { fold x1. clearbody x1 x2 x3. qlra. }
      rewrite E1. fold x1 in F1.
      destruct (IH (B + x1)%Qc (fold_left (xporta_day j1 j2) ds H)) as [E2 F2]; auto. { clearbody x1 x2 x3. qlra. } { fold x2. clearbody x1 x2 x3. qlra. }
      split; [exact E2|]. intros H' EH. specialize (F2 H' EH). eapply Forall_impl; [|exact F2].
      intros r. apply Forall_impl. intros v. apply cell_mono. fold x2. clearbody x1 x2 x3. qlra.
    + split.
      * clear. induction cs as [|[[? ?] ?] cs IH]; cbn [fold_left]; auto.
      * intros H' C. exfalso. revert C. clear. induction cs as [|[[? ?] ?] cs IH]; cbn [fold_left]; [discriminate|auto].
Qed.

Theorem fxporta_exact X ND B JENT INTCH H : (q0 <= X)%Qc -> (q0 <= B)%Qc ->
  Forall (fun r => Forall (cell X) r /\ (length r <= ND)%nat) INTCH -> Forall (Forall (cell B)) H ->
  (B + qz (2 * Z.of_nat (length (contracts JENT) * ND)) * X <= p2 (53 - k))%Qc ->
  fxporta JENT INTCH H = xporta JENT INTCH H /\
  forall H', xporta JENT INTCH H = Ok H' -> Forall (Forall (cell (B + qz (2 * Z.of_nat (length (contracts JENT) * ND)) * X))) H'.
Proof. intros X0 B0 FI F HB. exact (fxporta_fold X ND INTCH X0 FI (contracts JENT) B H B0 F HB). Qed.
Theorem fxports_exact X ND B JENT INTCH H : (q0 <= X)%Qc -> (q0 <= B)%Qc ->
  Forall (fun r => Forall (cell X) r /\ (length r <= ND)%nat) INTCH -> Forall (Forall (cell B)) H ->
  (B + qz (2 * Z.of_nat (length (contracts JENT) * ND)) * X <= p2 (53 - k))%Qc ->
  fxports JENT INTCH H = xports JENT INTCH H.
Proof.
  intros X0 B0 FI F HB. unfold fxports, xports. apply (fxporta_exact X ND B); auto.
  apply Forall_forall. intros r I. apply in_map_iff in I. destruct I as (r0 & <- & I). rewrite Forall_forall in FI.
  specialize (FI r0 I) as [FR L]. rewrite map_length. split; auto.
  apply Forall_forall. intros x IX. apply in_map_iff in IX. destruct IX as (x0 & <- & IX). apply cell_opp.
  rewrite Forall_forall in FR. now apply FR.
Qed.
End CONTRACTS.

(* ---------------- load scaling ---------------- *)
Lemma fold_qmax_spec l : forall m, (m <= fold_left qmax l m)%Qc /\ (forall v, In v l -> (v <= fold_left qmax l m)%Qc) /\
  (fold_left qmax l m = m \/ In (fold_left qmax l m) l).
Proof.
  induction l as [|a l IH]; intros m; cbn [fold_left].
  - split; [apply Qcle_refl|]. split; [intros v []|auto].
  - destruct (IH (qmax m a)) as (I1 & I2 & I3).
    assert (M : (m <= qmax m a)%Qc /\ (a <= qmax m a)%Qc /\ (qmax m a = m \/ qmax m a = a)).
    { unfold qmax. destruct (qleb m a) eqn:E; qc_bool; split; auto; try apply Qcle_refl; split; auto; try apply Qcle_refl. qlra. }
    destruct M as (M1 & M2 & M3). split; [eapply Qcle_trans; eauto|]. split.
    + intros v [->|I]; [eapply Qcle_trans; eauto|auto].
    + destruct I3 as [I3|I3]; [rewrite I3|right; right; exact I3]. destruct M3 as [M3|M3]; [left; exact M3|right; left; congruence].
Qed.
Lemma fl_thousandth : (q0 < fl (qq 1 1000))%Qc.
Proof. apply qltb_iff. vm_compute. reflexivity. Qed.
Lemma fdiv_mono a b c : (q0 < c)%Qc -> (a <= b)%Qc -> (fdiv a c <= fdiv b c)%Qc.
Proof.
  intros C H. unfold fdiv. apply fl_mono. apply (qmul_le_inv _ _ c C).
  assert (N : c <> 0%Qc) by (intros ->; apply (proj1 (Qclt_nle _ _)) in C; apply C, Qcle_refl).
  replace (a / c * c)%Qc with a by (field; exact N). replace (b / c * c)%Qc with b by (field; exact N). exact H.
Qed.
Lemma fmul_mono a b c : (q0 <= c)%Qc -> (a <= b)%Qc -> (fmul a c <= fmul b c)%Qc.
Proof. intros C H. unfold fmul. apply fl_mono. now apply qmul_le. Qed.
Lemma fl_1 : fl q1 = q1. Proof. apply fl_exact. apply (flt_Z 1). cbn. lia. Qed.
Lemma fdiv_self c : (q0 < c)%Qc -> fdiv c c = q1.
Proof.
  intros C. assert (N : c <> 0%Qc) by (intros ->; apply (proj1 (Qclt_nle _ _)) in C; apply C, Qcle_refl).
  unfold fdiv. replace (c / c)%Qc with q1 by (change q1 with 1%Qc; field; exact N). apply fl_1.
Qed.
Lemma fmul_1_l x : flt x -> fmul q1 x = x.
Proof. intros H. unfold fmul. replace (q1 * x)%Qc with x by qring. now apply fl_exact. Qed.
Lemma fmul_1_r x : flt x -> fmul x q1 = x.
Proof. intros H. unfold fmul. replace (x * q1)%Qc with x by qring. now apply fl_exact. Qed.

Theorem frescale_peak row pk : flt pk -> (q0 <= pk)%Qc ->
  (exists v, In v row /\ (fl (qq 1 1000) <= v)%Qc) ->
  In pk (frescale row pk) /\ forall y, In y (frescale row pk) -> (y <= pk)%Qc.
Proof.
  intros F P (v & I & L). unfold frescale. set (mx := famax_init row).
  destruct (fold_qmax_spec row (fl (qq 1 1000))) as (M1 & M2 & M3). fold (famax_init row) in M1, M2, M3. fold mx in M1, M2, M3.
  pose proof fl_thousandth as T. assert (MP : (q0 < mx)%Qc) by (eapply Qclt_le_trans; eauto).
  assert (IM : In mx row).
  { destruct M3 as [M3|M3]; auto. specialize (M2 v I). assert (v = mx) as <- by qlra. exact I. }
  split.
  - apply in_map_iff. exists mx. split; [|exact IM]. rewrite fdiv_self by auto. now apply fmul_1_l.
  - intros y IY. apply in_map_iff in IY. destruct IY as (w & <- & IW). specialize (M2 w IW).
    pose proof (fdiv_mono w mx mx MP M2) as D. rewrite fdiv_self in D by auto.
    pose proof (fmul_mono _ _ pk P D) as E. rewrite fmul_1_l in E by auto. exact E.
Qed.
Theorem frescale_order row pk i j : (q0 <= pk)%Qc -> (i < length row)%nat -> (j < length row)%nat ->
  (vget row i <= vget row j)%Qc -> (vget (frescale row pk) i <= vget (frescale row pk) j)%Qc.
Proof.
  intros P Hi Hj H. unfold vget, frescale in *.
  set (f := fun v => fmul (fdiv v (famax_init row)) pk).
  assert (N : forall i, (i < length row)%nat -> nth i (map f row) q0 = f (nth i row q0)).
  { intros n Hn. rewrite (nth_indep _ q0 (f q0)) by (rewrite map_length; exact Hn). apply map_nth. }
  rewrite (N i Hi), (N j Hj). unfold f. apply fmul_mono; auto. apply fdiv_mono; auto.
  eapply Qclt_le_trans; [apply fl_thousandth|]. exact (proj1 (fold_qmax_spec row _)).
Qed.

(* ---------------- forecast factors ---------------- *)
Theorem fcterr_ordered fu : flt fu -> (q0 <= fu)%Qc ->
  nth 2 (ffcterr_row fu) q0 = q1 /\
  forall i, (i < 4)%nat -> (nth (S i) (ffcterr_row fu) q0 <= nth i (ffcterr_row fu) q0)%Qc.
Proof.
  intros F P. split; [reflexivity|].
  set (a := fdiv fu (qz 100)). set (b := fdiv (fmul fu (qq 5 2)) (qz 100)).
  assert (C : (q0 < qz 100)%Qc) by (apply qltb_iff; reflexivity).
  assert (A0 : (q0 <= a)%Qc).
  { assert (Z0 : fdiv q0 (qz 100) = q0) by reflexivity. rewrite <- Z0. now apply fdiv_mono. }
  assert (AB : (a <= b)%Qc).
  { unfold a, b. apply fdiv_mono; auto. unfold fmul. rewrite <- (fl_exact fu F) at 1. apply fl_mono.
    assert (H : (q1 * fu <= qq 5 2 * fu)%Qc) by (apply qmul_le; [exact P|apply qleb_iff; reflexivity]).
    rewrite (Qcmult_comm (qq 5 2)) in H. replace (q1 * fu)%Qc with fu in H by qring. exact H. }
  assert (E : ffcterr_row fu = [fadd q1 b; fadd q1 a; q1; fsub q1 a; fsub q1 b]) by reflexivity. rewrite E.
  unfold fadd, fsub. intros [|[|[|[|i]]]] H; cbn [nth]; try lia.
  - apply fl_mono. qlra.
  - rewrite <- fl_1 at 1. apply fl_mono. qlra.
  - rewrite <- fl_1 at 2. apply fl_mono. qlra.
  - apply fl_mono. qlra.
Qed.

(* ---------------- random numbers ---------------- *)
Lemma seed_scale_pos : (q0 < seed_scale)%Qc.
Proof. apply qltb_iff. vm_compute. reflexivity. Qed.
Lemma frand_mono s t : s <= t -> (frand_of s <= frand_of t)%Qc.
Proof. intros H. unfold frand_of. apply fmul_mono; [pose proof seed_scale_pos; qlra|now apply qz_le]. Qed.

Definition drift : Qc := qq 28 1000000000.
Lemma frand_close s : 0 <= s < 2 ^ 31 -> (qabs (frand_of s - qz s * p2 (-31)) <= drift)%Qc.
Proof.
  intros H. destruct (Z.eq_dec s 0) as [->|NZ]; [apply qleb_iff; vm_compute; reflexivity|].
  assert (P1 : (q1 <= qz s)%Qc) by (apply (proj2 (qz_le 1 s)); lia).
  assert (P2 : (qz s <= p2 31)%Qc) by (rewrite p2_nonneg by lia; apply qz_le; lia).
  assert (L : (p2 (-1022) <= seed_scale)%Qc) by (apply qleb_iff; vm_compute; reflexivity).
  pose proof seed_scale_pos as SP.
  assert (PR : (seed_scale <= qz s * seed_scale)%Qc).
  { apply (qmul_le _ _ seed_scale ltac:(qlra)) in P1. replace (q1 * seed_scale)%Qc with seed_scale in P1 by qring. exact P1. }
  assert (PX : (q0 <= qz s * seed_scale)%Qc) by qlra.
  pose proof (fl_error (qz s * seed_scale)) as E. rewrite (qabs_of_nonneg _ PX) in E. specialize (E ltac:(qlra)).
  assert (UP : (qz s * seed_scale <= p2 31 * seed_scale)%Qc) by (apply qmul_le; [qlra|exact P2]).
  assert (E2 : (p2 (-53) * (qz s * seed_scale) <= p2 (-53) * (p2 31 * seed_scale))%Qc).
  { rewrite !(Qcmult_comm (p2 (-53))). apply qmul_le; [pose proof (p2_pos (-53)); qlra|exact UP]. }
  assert (D1 : (qz s * seed_scale - qz s * p2 (-31) <= p2 31 * (seed_scale - p2 (-31)))%Qc).
  { replace (qz s * seed_scale - qz s * p2 (-31))%Qc with (qz s * (seed_scale - p2 (-31)))%Qc by ring.
    apply qmul_le; [apply qleb_iff; vm_compute; reflexivity|exact P2]. }
  assert (D0 : (q0 <= qz s * seed_scale - qz s * p2 (-31))%Qc).
  { replace (qz s * seed_scale - qz s * p2 (-31))%Qc with (qz s * (seed_scale - p2 (-31)))%Qc by ring.
    assert (X : (q0 * (seed_scale - p2 (-31)) <= qz s * (seed_scale - p2 (-31)))%Qc).
    { apply qmul_le; [apply qleb_iff; vm_compute; reflexivity|apply (proj2 (qz_le 0 s)); lia]. }
    replace (q0 * (seed_scale - p2 (-31)))%Qc with q0 in X by qring. exact X. }
  assert (TOT : (p2 (-53) * (p2 31 * seed_scale) + p2 31 * (seed_scale - p2 (-31)) <= drift)%Qc) by (apply qleb_iff; vm_compute; reflexivity).
  unfold frand_of, fmul. set (f := fl (qz s * seed_scale)) in *.
  set (y := (qz s * seed_scale)%Qc) in *. set (z := (qz s * p2 (-31))%Qc) in *.
  set (t1 := (p2 (-53) * (p2 31 * seed_scale))%Qc) in *. set (t2 := (p2 31 * (seed_scale - p2 (-31)))%Qc) in *.
  set (t3 := (p2 (-53) * y)%Qc) in *. set (dd := drift) in *. clearbody f y z t1 t2 t3 dd.
  clear - E E2 D1 D0 TOT. qabs_all; qlra.
Qed.

(** a monotone decision has a threshold *)
Lemma threshold (P : Z -> bool) (N : nat) :
  (forall s t, 0 <= s <= t -> P t = true -> P s = true) ->
  exists T, 0 <= T <= Z.of_nat N /\ forall s, 0 <= s < Z.of_nat N -> (P s = true <-> s < T).
Proof.
  intros M. induction N as [|N IH].
  - exists 0. split; [lia|]. intros s H. lia.
  - destruct IH as (T & B & H). destruct (P (Z.of_nat N)) eqn:E.
    + exists (Z.of_nat (S N)). split; [lia|]. intros s Hs. split; [lia|]. intros _. apply (M s (Z.of_nat N)); [lia|exact E].
    + exists T. split; [lia|]. intros s Hs. destruct (Z.eq_dec s (Z.of_nat N)) as [->|NE].
      * rewrite E. split; [discriminate|lia].
      * apply H. lia.
Qed.
Theorem frand_threshold p : (q0 <= p)%Qc -> (p <= q1)%Qc ->
  exists T, 0 <= T <= 2 ^ 31 /\ (forall s, 0 <= s < 2 ^ 31 -> ((frand_of s < p)%Qc <-> s < T)) /\
    (qabs (qz T * p2 (-31) - p) <= p2 (-25))%Qc.
Proof.
  intros P0 P1.
  destruct (threshold (fun s => qltb (frand_of s) p) (Z.to_nat (2 ^ 31))) as (T & B & H).
  { intros s t ST E. qc_bool. eapply Qcle_lt_trans; [apply frand_mono; apply ST|exact E]. }
  rewrite Z2Nat.id in B, H by (vm_compute; discriminate).
  exists T. split; [exact B|]. split. { intros s Hs. rewrite <- (H s Hs). symmetry. apply qltb_iff. }
  assert (TOT : (p2 (-31) + drift <= p2 (-25))%Qc) by (apply qleb_iff; vm_compute; reflexivity).
  pose proof (p2_pos (-31)) as P31.
  assert (UP : (qz T * p2 (-31) - p <= p2 (-31) + drift)%Qc).
  { destruct (Z.eq_dec T 0) as [->|NZ].
    { change (qz 0) with 0%Qc. replace (0 * p2 (-31) - p)%Qc with (- p)%Qc by ring.
      assert (DP : (q0 <= drift)%Qc) by (apply qleb_iff; reflexivity). set (u := p2 (-31)) in *. set (dd := drift) in *. clearbody u dd. clear - DP P31 P0 P1. qlra. }
    assert (L : qltb (frand_of (T - 1)) p = true) by (apply (H (T - 1)); lia). qc_bool.
    pose proof (frand_close (T - 1) ltac:(lia)) as C. rewrite qz_minus in C.
    replace ((qz T - qz 1) * p2 (-31))%Qc with (qz T * p2 (-31) - p2 (-31))%Qc in C by (change (qz 1) with 1%Qc; ring).
    set (f := frand_of (T - 1)) in *. set (z := (qz T * p2 (-31))%Qc) in *. set (u := p2 (-31)) in *.
    clearbody f z u. clear - L C. qabs_all; qlra. }
  assert (LO : (p - qz T * p2 (-31) <= drift)%Qc).
  { destruct (Z.eq_dec T (2 ^ 31)) as [->|NZ].
    { rewrite <- p2_nonneg by lia. rewrite p2_inv. assert (DP : (q0 <= drift)%Qc) by (apply qleb_iff; reflexivity). set (u' := p2 (-31)) in *. set (dd := drift) in *. clear - DP P0 P1. qlra. }
    assert (L : qltb (frand_of T) p = false).
    { destruct (qltb (frand_of T) p) eqn:E; auto. apply (H T) in E; lia. }
    qc_bool. pose proof (frand_close T ltac:(lia)) as C. set (f := frand_of T) in *. set (z := (qz T * p2 (-31))%Qc) in *.
    clearbody f z. clear - L C. qabs_all; qlra. }
  apply qabs_le_iff. set (z := (qz T * p2 (-31))%Qc) in *. set (u := p2 (-31)) in *. set (w := p2 (-25)) in *. clearbody z u w. split; qlra.
Qed.

Theorem frand_below_one s : 0 <= s <= 2147483589 -> (frand_of s < q1)%Qc.
Proof.
  intros H. eapply Qcle_lt_trans; [apply (frand_mono s 2147483589); lia|]. apply qltb_iff. vm_compute. reflexivity.
Qed.

(** seeds do not depend on the arithmetic *)
Theorem fgstate_seeds : forall PROBG IG RT DR PL,
  fst (fst (fgstate IG PROBG RT DR PL)) = fst (fst (gstate IG PROBG RT DR PL)).
Proof.
  induction PROBG as [|p ps IH]; intros IG RT DR PL; cbn [fgstate gstate]; [reflexivity|].
  destruct IG as [|s ss]; [reflexivity|]. destruct RT as [|r rs]; [reflexivity|]. destruct DR as [|d ds]; [reflexivity|].
  destruct PL as [|o os]; [reflexivity|]. specialize (IH ss rs ds os).
  destruct (fgstate ss ps rs ds os) as [[a b] c]. destruct (gstate ss ps rs ds os) as [[a' b'] c']. cbn [fst] in *. congruence.
Qed.
Theorem flstate_seeds : forall PROBL IL, fst (flstate IL PROBL) = fst (lstate IL PROBL).
Proof.
  induction PROBL as [|p ps IH]; intros [|s ss]; cbn [flstate lstate]; try reflexivity. specialize (IH ss).
  destruct (flstate ss ps). destruct (lstate ss ps). cbn [fst] in *. congruence.
Qed.
