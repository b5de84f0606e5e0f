(** Proofs about the convergence test under rounding. *)
From Verif Require Import Base BaseProofs Sums YearModel YearSpec YearProofs YearRun FloatSpec FloatModel FloatProofs FloatSums FloatConvModel FloatConvSpec.
Open Scope Z_scope.

Definition u53 : Qc := qq 1 9007199254740992.
Lemma p2_53 : p2 (-53) = u53. Proof. apply Qc_is_canon. vm_compute. reflexivity. Qed.
Lemma p2_52 : p2 (-52) = (qz 2 * u53)%Qc. Proof. apply Qc_is_canon. vm_compute. reflexivity. Qed.
Lemma p2_30 : p2 (-30) = qq 1 1073741824. Proof. apply Qc_is_canon. vm_compute. reflexivity. Qed.
Lemma p2_11 : p2 (-11) = qq 1 2048. Proof. apply Qc_is_canon. vm_compute. reflexivity. Qed.

(** linear arithmetic with numerical coefficients *)
Ltac qpush :=
  repeat match goal with
  | H : context [this (Qcplus _ _)] |- _ => rewrite this_plus in H
  | H : context [this (Qcmult _ _)] |- _ => rewrite this_mult in H
  | H : context [this (Qcminus _ _)] |- _ => rewrite this_minus in H
  | H : context [this (Qcopp _)] |- _ => rewrite this_opp in H
  | H : context [this (qz _)] |- _ => rewrite this_qz in H
  | H : context [this (qq _ _)] |- _ => rewrite this_qq in H
  | |- context [this (Qcplus _ _)] => rewrite this_plus
  | |- context [this (Qcmult _ _)] => rewrite this_mult
  | |- context [this (Qcminus _ _)] => rewrite this_minus
  | |- context [this (Qcopp _)] => rewrite this_opp
  | |- context [this (qz _)] => rewrite this_qz
  | |- context [this (qq _ _)] => rewrite this_qq
  end.
Ltac qlin := unfold u53 in *; qc_start; qpush; unfold inject_Z in *; lra.

(** relative error of a positive number that is not tiny *)
Lemma fl_rel x : (p2 (-300) <= x)%Qc -> ((q1 - u53) * x <= fl x)%Qc /\ (fl x <= (q1 + u53) * x)%Qc.
Proof.
  intros H. assert (B : (p2 (-1022) <= p2 (-300))%Qc) by (apply p2_le; lia). pose proof (p2_pos (-1022)) as P.
  assert (A : qabs x = x) by (apply qabs_of_nonneg; qlra). pose proof (fl_error x) as E. rewrite A in E. specialize (E ltac:(qlra)).
  rewrite p2_53 in E. apply (proj1 (qabs_le_iff _ _)) in E. set (y := (u53 * x)%Qc) in *. destruct E as (E1 & E2).
  assert (R1 : ((q1 - u53) * x = x - y)%Qc) by (unfold y; qring). assert (R2 : ((q1 + u53) * x = x + y)%Qc) by (unfold y; qring). rewrite R1, R2. clearbody y. split; qlra.
Qed.

Lemma sq_mono a b : (q0 <= a)%Qc -> (a <= b)%Qc -> (qsq a <= qsq b)%Qc.
Proof. unfold qsq. intros A B. qnra. Qed.
Lemma sq_lt_inv a b : (q0 <= b)%Qc -> (qsq a < qsq b)%Qc -> (a < b)%Qc.
Proof. unfold qsq. intros B H. apply Qcnot_le_lt. intros N. assert (b * b <= a * a)%Qc by qnra. qlra. Qed.
Lemma sq_le_inv a b : (q0 <= b)%Qc -> (qsq a <= qsq b)%Qc -> (a <= b)%Qc.
Proof. unfold qsq. intros B H. apply Qcnot_lt_le. intros N. assert (b * b < a * a)%Qc by qnra. qlra. Qed.
Lemma sq_scale a b : qsq (a * b)%Qc = (qsq a * qsq b)%Qc.
Proof. unfold qsq. qring. Qed.

(** The bounds: m the mean, A0 the mean square, n the years, c the tolerance, exact; the
    others as computed. *)
Section Bounds.
  Variables m A0 n c M P A D W s C X : Qc.
  Hypothesis Hm : (q0 < m)%Qc.
  Hypothesis Hn : (qz 5 <= n)%Qc.
  Hypothesis Hc : (qq 1 2048 <= c)%Qc.
  Let v := (A0 - qsq m)%Qc.
  Hypothesis Hv : (A0 <= qz 1125899906842624 * v)%Qc.
  Hypothesis Hv0 : (q0 < v)%Qc.
  Hypothesis HM : ((q1 - u53) * m <= M)%Qc /\ (M <= (q1 + u53) * m)%Qc.
  Hypothesis HP : ((q1 - qz 2 * u53) * qsq M <= P)%Qc /\ (P <= (q1 + qz 2 * u53) * qsq M)%Qc.
  Hypothesis HA : ((q1 - u53) * A0 <= A)%Qc /\ (A <= (q1 + u53) * A0)%Qc.

  Lemma mean_sq : (qsq (q1 - u53) * qsq m <= qsq M)%Qc /\ (qsq M <= qsq (q1 + u53) * qsq m)%Qc.
  Proof using All.
    assert (U : (q0 <= (q1 - u53) * m)%Qc) by (clear HM; qlin). rewrite <- !sq_scale. destruct HM. split; apply sq_mono; auto. clear HM. qlin.
  Qed.
  Lemma diff_bounds : (v - qz 6 * u53 * A0 <= A - P)%Qc /\ (A - P <= v + qz 6 * u53 * A0)%Qc /\ (qq 1 4 * v <= A - P)%Qc.
  Proof using All.
    destruct mean_sq as (B1 & B2). destruct HP as (P1 & P2). destruct HA as (A1 & A2). unfold v in *.
    assert (MS : (q0 <= qsq m)%Qc) by (unfold qsq; qnra). set (mm := qsq m) in *. set (MM := qsq M) in *. clearbody mm MM.
    clear HM HP HA Hm. unfold qsq in B1, B2. repeat split; qlin.
  Qed.

  Let i := (/ n)%Qc.
  Let K := qsq (c * m)%Qc.
  Let w := (v * i)%Qc.
  Hypothesis HD : ((q1 - u53) * (A - P) <= D)%Qc /\ (D <= (q1 + u53) * (A - P))%Qc.
  Hypothesis HW : ((q1 - u53) * (D * i) <= W)%Qc /\ (W <= (q1 + u53) * (D * i))%Qc.
  Hypothesis Hs : (q0 <= s)%Qc.
  Hypothesis HS : (qsq (q1 - qz 2 * u53) * W <= qsq s)%Qc /\ (qsq s <= qsq (q1 + qz 2 * u53) * W)%Qc.
  Hypothesis HC : ((q1 - u53) * c <= C)%Qc /\ (C <= (q1 + u53) * c)%Qc.
  Hypothesis HX : ((q1 - u53) * (C * M) <= X)%Qc /\ (X <= (q1 + u53) * (C * M))%Qc.

  Lemma i_bounds : (q0 < i)%Qc /\ (i <= qq 1 5)%Qc.
  Proof using All.
    assert (NZ : n <> q0) by (intros Z; rewrite Z in Hn; qlin). assert (E : (n * i = q1)%Qc) by (unfold i; qfield; exact NZ).
    clearbody i. split; apply Qcnot_le_lt || apply Qcnot_lt_le; intros N; qnra.
  Qed.
  Lemma limit_bounds : (q0 < K)%Qc /\ (qsq m <= qz 4194304 * K)%Qc.
  Proof using All.
    unfold K. rewrite sq_scale. assert (B : (qsq (qq 1 2048) <= qsq c)%Qc) by (apply sq_mono; auto; apply qleb_iff; reflexivity).
    assert (MS : (q0 < qsq m)%Qc) by (unfold qsq; qnra).
    assert (B2 : (qsq (qq 1 2048) * qsq m <= qsq c * qsq m)%Qc) by (apply qmul_le; auto; apply Qclt_le_weak; exact MS).
    set (cc := qsq c) in *. set (mm := qsq m) in *. set (k := (cc * mm)%Qc) in *. clearbody cc mm k. clear HM HP HA Hv Hv0 HD HW Hs HS HC HX. unfold qsq in B2. split; qlin.
  Qed.
  Lemma test_bounds : (q0 <= X)%Qc /\ (qsq (qsq (qsq (q1 - u53))) * K <= qsq X)%Qc /\ (qsq X <= qsq (qsq (qsq (q1 + u53))) * K)%Qc.
  Proof using All.
    destruct HM as (M1 & M2). destruct HC as (C1 & C2). destruct HX as (X1 & X2). 
    assert (M0 : (q0 <= (q1 - u53) * m)%Qc) by (clear - Hm; qlin). assert (C0 : (q0 <= (q1 - u53) * c)%Qc) by (clear - Hc; qlin).
    assert (U1 : (q0 <= q1 - u53)%Qc) by (apply qleb_iff; vm_compute; reflexivity). assert (U2 : (q0 <= q1 + u53)%Qc) by (apply qleb_iff; vm_compute; reflexivity).
    assert (L1 : ((q1 - u53) * c * ((q1 - u53) * m) <= C * M)%Qc) by (clear - M0 C0 M1 C1; set (x := ((q1 - u53) * c)%Qc) in *; set (y := ((q1 - u53) * m)%Qc) in *; clearbody x y; qnra).
    assert (L2 : (C * M <= (q1 + u53) * c * ((q1 + u53) * m))%Qc).
    { assert (MP : (q0 <= M)%Qc) by exact (Qcle_trans _ _ _ M0 M1). assert (CP : (q0 <= C)%Qc) by exact (Qcle_trans _ _ _ C0 C1). clear - MP CP M2 C2.
      set (x := ((q1 + u53) * c)%Qc) in *; set (y := ((q1 + u53) * m)%Qc) in *; clearbody x y; qnra. }
    assert (CM : (q0 <= c * m)%Qc) by (clear - Hm Hc; assert (q0 <= c)%Qc by qlin; qnra).
    set (g := (q1 - u53)%Qc) in *. set (h := (q1 + u53)%Qc) in *.
    assert (G1 : (g * (g * c * (g * m)) <= g * (C * M))%Qc) by (rewrite !(Qcmult_comm g _); apply qmul_le; [exact U1|]; rewrite !(Qcmult_comm _ g); exact L1).
    assert (G2 : (h * (C * M) <= h * (h * c * (h * m)))%Qc) by (rewrite !(Qcmult_comm h _); apply qmul_le; [exact U2|]; rewrite !(Qcmult_comm _ h); exact L2).
    assert (XL : (g * (qsq g) * (c * m) <= X)%Qc) by (eapply Qcle_trans; [|eapply Qcle_trans; [exact G1|exact X1]]; replace (g * qsq g * (c * m))%Qc with (g * (g * c * (g * m)))%Qc by (unfold qsq; qring); apply Qcle_refl).
    assert (XU : (X <= h * (qsq h) * (c * m))%Qc) by (eapply Qcle_trans; [exact X2|]; eapply Qcle_trans; [exact G2|]; replace (h * qsq h * (c * m))%Qc with (h * (h * c * (h * m)))%Qc by (unfold qsq; qring); apply Qcle_refl).
    assert (GS : (q0 <= g * qsq g)%Qc) by (unfold g; apply qleb_iff; vm_compute; reflexivity).
    assert (XL0 : (q0 <= g * qsq g * (c * m))%Qc) by (clear - GS CM; set (x := (g * qsq g)%Qc) in *; set (y := (c * m)%Qc) in *; clearbody x y; qnra).
    assert (X0 : (q0 <= X)%Qc) by exact (Qcle_trans _ _ _ XL0 XL). split; [exact X0|].
    assert (K0 : (q0 <= K)%Qc) by (unfold K; clear - CM; set (y := (c * m)%Qc) in *; clearbody y; unfold qsq; qnra).
    apply sq_mono in XL; [|exact XL0]. apply sq_mono in XU; [|exact X0]. rewrite sq_scale in XL, XU. fold K in XL, XU.
    split.
    - eapply Qcle_trans; [|exact XL]. apply qmul_le; [exact K0|]. unfold g. apply qleb_iff. vm_compute. reflexivity.
    - eapply Qcle_trans; [exact XU|]. apply qmul_le; [exact K0|]. unfold h. apply qleb_iff. vm_compute. reflexivity.
  Qed.
  Lemma err_bounds : let a := (A0 * i)%Qc in (a <= w + qz 838861 * K)%Qc /\ (q0 < w)%Qc /\
    (qsq (q1 - u53) * (w - qz 6 * u53 * a) <= W)%Qc /\ (W <= qsq (q1 + u53) * (w + qz 6 * u53 * a))%Qc.
  Proof using All.
    intros a. destruct i_bounds as (I1 & I2). destruct diff_bounds as (D1 & D2 & D3). destruct limit_bounds as (K0 & K1). destruct HD as (E1 & E2). destruct HW as (W1 & W2).
    assert (W0 : (q0 < w)%Qc) by (unfold w; clear - Hv0 I1; clearbody v i; qnra).
    apply (qmul_le _ _ i (Qclt_le_weak _ _ I1)) in D1. apply (qmul_le _ _ i (Qclt_le_weak _ _ I1)) in D2.
    apply (qmul_le _ _ i (Qclt_le_weak _ _ I1)) in E1. apply (qmul_le _ _ i (Qclt_le_weak _ _ I1)) in E2.
    assert (MI : (qsq m * i <= qsq m * qq 1 5)%Qc) by (clear - I2 Hm; assert (q0 <= qsq m)%Qc by (unfold qsq; qnra); set (mm := qsq m) in *; clearbody mm i; qnra).
    assert (AW : a = (w + qsq m * i)%Qc) by (unfold a, w, v; qring).
    replace ((v - qz 6 * u53 * A0) * i)%Qc with (w - qz 6 * u53 * a)%Qc in D1 by (unfold a, w; qring).
    replace ((v + qz 6 * u53 * A0) * i)%Qc with (w + qz 6 * u53 * a)%Qc in D2 by (unfold a, w; qring).
    replace ((q1 - u53) * (A - P) * i)%Qc with ((q1 - u53) * ((A - P) * i))%Qc in E1 by qring. replace ((q1 + u53) * (A - P) * i)%Qc with ((q1 + u53) * ((A - P) * i))%Qc in E2 by qring.
    set (e := ((A - P) * i)%Qc) in *. set (d := (D * i)%Qc) in *. set (mi := (qsq m * i)%Qc) in *. set (mm := qsq m) in *.
    clear HM HP HA HD HW Hs HS HC HX Hv Hv0 D3 Hm Hc Hn. clearbody a e d mi mm K w. clear v. clear i I1 I2.
    split; [|split]; [| exact W0 |]; [qlin|]. unfold qsq. split; qlin.
  Qed.
  Lemma w_pos : (q0 < W)%Qc.
  Proof using All.
    destruct i_bounds as (I1 & _). destruct diff_bounds as (_ & _ & D3). destruct HD as (E1 & _). destruct HW as (W1 & _).
    assert (D0 : (q0 < D)%Qc) by (clear - Hv0 D3 E1; clearbody v; qlin). assert (DI : (q0 < D * i)%Qc) by (clear - D0 I1; clearbody i; qnra).
    clear - W1 DI. set (d := (D * i)%Qc) in *. clearbody d. qlin.
  Qed.
  (** The decisions. *)
  Lemma decide_yes : (w <= (q1 - qq 1 1073741824) * K)%Qc -> (s < X)%Qc.
  Proof using All.
    intros L. destruct test_bounds as (X0 & X1 & _). destruct err_bounds as (A1 & W0 & _ & W2). destruct limit_bounds as (K0 & _). destruct HS as (_ & S2).
    apply sq_lt_inv; [exact X0|]. set (a := (A0 * i)%Qc) in *. set (ss := qsq s) in *. set (xx := qsq X) in *.
    clear HM HP HA HD HW Hs HS HC HX Hv Hv0 Hm Hc Hn X0. clearbody a ss xx K w. clear v i. unfold qsq in *. qlin.
  Qed.
  Lemma decide_no : ((q1 + qq 1 1073741824) * K <= w)%Qc -> (X <= s)%Qc.
  Proof using All.
    intros L. destruct test_bounds as (X0 & _ & X2). destruct err_bounds as (A1 & W0 & W1 & _). destruct limit_bounds as (K0 & _). destruct HS as (S1 & _).
    apply sq_le_inv; [exact Hs|]. set (a := (A0 * i)%Qc) in *. set (ss := qsq s) in *. set (xx := qsq X) in *.
    clear HM HP HA HD HW Hs HS HC HX Hv Hv0 Hm Hc Hn X0. clearbody a ss xx K w. clear v i. unfold qsq in *. qlin.
  Qed.
End Bounds.

(** ** Whole yearly values *)
Lemma qsum_whole zs : qsum (map qz zs) = qz (zsum zs).
Proof. induction zs as [|z r IH]; [reflexivity|]. cbn [map]. now rewrite qsum_cons, zsum_cons, qz_plus, IH. Qed.
Lemma qsq_whole z : qsq (qz z) = qz (z * z). Proof. unfold qsq. now rewrite qz_mult. Qed.
Lemma qsum_sq_whole zs : qsum (map qsq (map qz zs)) = qz (ssq zs).
Proof. unfold ssq. rewrite <- qsum_whole, !map_map. f_equal. apply map_ext. intros z. apply qsq_whole. Qed.
Lemma ssq_app a b : ssq (a ++ b) = ssq a + ssq b. Proof. unfold ssq. now rewrite map_app, zsum_app. Qed.
Lemma ssq_nonneg zs : 0 <= ssq zs.
Proof. induction zs as [|z r IH]; unfold ssq in *; cbn [map]; [cbn; lia|]. rewrite zsum_cons. nia. Qed.
Lemma sum_below_ssq zs : Forall (fun z => 0 <= z) zs -> 0 <= zsum zs <= ssq zs.
Proof. unfold ssq. induction 1 as [|z r Hz _ IH]; cbn [map]; [cbn; lia|]. rewrite !zsum_cons. nia. Qed.
Lemma b64_whole z : Z.abs z <= 2 ^ 53 -> b64 (qz z).
Proof.
  intros H. apply flt_b64; [now apply flt_Z|]. unfold in_range, max64. rewrite qabs_qz. apply (proj2 (qz_le _ _)). eapply Z.le_trans; [exact H|]. vm_compute. discriminate.
Qed.
Lemma fl_whole z : Z.abs z <= 2 ^ 53 -> fl (qz z) = qz z. Proof. intros H. apply fl_exact. now apply flt_Z. Qed.
Lemma div_whole a n : 0 < n -> Qcdiv (qz (n * a)) (qz n) = qz a.
Proof. intros H. assert (NZ : qz n <> q0) by (intros E; apply qz_inj in E; lia). rewrite qz_mult. qfield. exact NZ. Qed.

(** no deviation: all values are the mean *)
Lemma no_deviation xs : xs <> [] -> sq_err xs = q0 -> Forall (fun x => x = mean xs) xs.
Proof.
  intros NE E. unfold sq_err in E. set (m := mean xs) in *.
  assert (N0 : qz (Z.of_nat (length xs) * Z.of_nat (length xs)) <> q0) by (intros Z; apply qz_inj in Z; destruct xs; [auto|cbn [length] in Z; lia]).
  assert (S0 : qsum (map (fun x => qsq (Qcminus x m)) xs) = q0).
  { set (t := qsum _) in *. replace t with (Qcdiv t (qz (Z.of_nat (length xs) * Z.of_nat (length xs))) * qz (Z.of_nat (length xs) * Z.of_nat (length xs)))%Qc by (qfield; exact N0). rewrite E. qring. }
  clear -S0. clearbody m. induction xs as [|x r IH]; [constructor|]. cbn [map] in S0. rewrite qsum_cons in S0.
  assert (R0 : (q0 <= qsum (map (fun x => qsq (Qcminus x m)) r))%Qc) by (apply qsum_nonneg; intros y Hy; apply in_map_iff in Hy; destruct Hy as (z & <- & _); apply sq_nonneg).
  assert (X0 : (q0 <= qsq (Qcminus x m))%Qc) by apply sq_nonneg. set (t := qsum _) in *. 
  assert (T0 : t = q0) by (clearbody t; apply Qcle_antisym; qlra). assert (XZ : qsq (Qcminus x m) = q0) by (clearbody t; apply Qcle_antisym; qlra).
  constructor; [|apply IH; exact T0]. unfold qsq in XZ. apply Qcmult_integral in XZ. assert (D : Qcminus x m = q0) by (destruct XZ; assumption).
  replace x with (Qcplus (Qcminus x m) m) by qring. rewrite D. qring.
Qed.

Lemma p2_small e : -300 <= e -> (p2 (-300) <= p2 e)%Qc. Proof. apply p2_le. Qed.
Lemma tolerance_near cv : usual_tolerance cv -> let c := tolerance cv in let C := if qeqb cv q0 then fl (qq 25 1000) else cv in
  (qq 1 2048 <= c)%Qc /\ ((q1 - u53) * c <= C)%Qc /\ (C <= (q1 + u53) * c)%Qc.
Proof.
  unfold usual_tolerance, tolerance. rewrite p2_11. intros H. destruct (qeqb cv q0) eqn:Z.
  - repeat split; apply qleb_iff; vm_compute; reflexivity.
  - apply (proj1 (qeqb_false _ _)) in Z. destruct H as [H|H]; [contradiction|]. split; [exact H|]. clear Z. split; qlin.
Qed.
Lemma xx_float cv x : (if qeqb cv q0 then fmul (fl (qq 25 1000)) x else fmul cv x) = fmul (if qeqb cv q0 then fl (qq 25 1000) else cv) x.
Proof. now destruct (qeqb cv q0). Qed.

Section Test.
  Variables (sq : Qc -> Qc) (root : Qc -> option Qc).
  Hypothesis SQ : square_ok sq.
  Hypothesis RT : root_ok root.

  Lemma sq_whole z : Z.abs z <= 2 ^ 26 -> sq (qz z) = qz (z * z).
  Proof using SQ. intros H. destruct (SQ (qz z)) as (_ & E). rewrite qsq_whole in E. apply E. apply b64_whole. change (2 ^ 53) with (2 * (2 ^ 26 * 2 ^ 26)). nia. Qed.
  Lemma root_zero : root q0 = Some q0.
  Proof using RT.
    pose proof (RT q0) as R. destruct (root q0) as [s|]; [|exfalso; apply (Qclt_not_eq _ _ R); reflexivity]. destruct R as (_ & S0 & _ & S2). f_equal.
    assert (E : (qsq (q1 + p2 (-52)) * q0 = q0)%Qc) by qring. rewrite E in S2. unfold qsq in S2. apply Qcle_antisym; [|exact S0]. apply Qcnot_lt_le. intros N. qnra.
  Qed.

  (** One call with whole values: the years [xs = zs], five or more. *)
  Lemma decision cv zs : usual_tolerance cv -> Forall (fun z => 0 <= z) zs -> 5 <= Z.of_nat (length zs) -> Z.of_nat (length zs) * ssq zs <= 2 ^ 50 -> 0 < zsum zs ->
    let xs := map qz zs in let n := qz (Z.of_nat (length zs)) in let M := fdiv (qz (zsum zs)) n in
    let X := fmul (if qeqb cv q0 then fl (qq 25 1000) else cv) M in
    M <> q0 /\ exists s, root (fdiv (fsub (fdiv (qz (ssq zs)) n) (sq M)) n) = Some s /\
      ((sq_err xs <= (q1 - p2 (-30)) * qsq (tolerance cv * mean xs))%Qc -> qltb s X = true) /\
      (((q1 + p2 (-30)) * qsq (tolerance cv * mean xs) <= sq_err xs)%Qc -> qltb s X = false).
  Proof using SQ RT.
    intros UT NN N5 BD SP xs n M X. destruct (tolerance_near cv UT) as (TC & CL & CU). set (c := tolerance cv) in *. set (C := if qeqb cv q0 then fl (qq 25 1000) else cv) in *.
    assert (NE : xs <> []) by (unfold xs; destruct zs; [cbn in SP; lia|discriminate]). set (N := Z.of_nat (length zs)) in *. set (S := zsum zs) in *. set (Q := ssq zs) in *.
    assert (SQL : S <= Q) by apply (sum_below_ssq zs NN). assert (NB : N <= 2 ^ 50) by nia. assert (QB : Q <= 2 ^ 50) by nia.
    assert (MM : mean xs = Qcdiv (qz S) n) by (unfold mean, xs; rewrite qsum_whole, map_length; reflexivity).
    assert (SE : sq_err xs = Qcdiv (Qcminus (Qcdiv (qz Q) n) (qsq (mean xs))) n) by (rewrite (sq_err_alt xs NE); unfold xs; rewrite qsum_sq_whole, qsum_whole, map_length; fold N n; fold xs; rewrite MM; reflexivity).
    assert (NZ : n <> q0) by (intros E; apply qz_inj in E; lia). assert (NP : (q0 < n)%Qc) by (apply (proj2 (qz_lt 0 N)); lia).
    set (m := mean xs) in *. set (A0 := Qcdiv (qz Q) n) in *. set (v := Qcminus A0 (qsq m)) in *.
    assert (I50 : (p2 (-50) <= / n)%Qc).
    { apply Qcnot_lt_le. intros L. assert (B : (n <= qz (2 ^ 50))%Qc) by (apply (proj2 (qz_le _ _)); exact NB).
      assert (E1 : (n * / n = q1)%Qc) by (qfield; exact NZ). assert (E2 : (qz (2 ^ 50) * p2 (-50) = q1)%Qc) by (apply Qc_is_canon; vm_compute; reflexivity).
      pose proof (p2_pos (-50)) as PP. set (j := (/ n)%Qc) in *. set (g := p2 (-50)) in *. set (G := qz (2 ^ 50)) in *. clearbody n j g G. clear - L B E1 E2 PP NP.
      assert (n * j < n * g)%Qc by qnra. assert (n * g <= G * g)%Qc by qnra. qlra. }
    assert (ms : (p2 (-50) <= m)%Qc).
    { rewrite MM. unfold Qcdiv. eapply Qcle_trans; [exact I50|]. assert (S1 : (q1 <= qz S)%Qc) by (apply (proj2 (qz_le 1 S)); lia). pose proof (p2_pos (-50)) as PP. set (j := (/ n)%Qc) in *. clear - S1 I50 PP. clearbody j. qnra. }
    assert (as_ : (p2 (-50) <= A0)%Qc).
    { unfold A0, Qcdiv. eapply Qcle_trans; [exact I50|]. assert (S1 : (q1 <= qz Q)%Qc) by (apply (proj2 (qz_le 1 Q)); lia). pose proof (p2_pos (-50)) as PP. set (j := (/ n)%Qc) in *. clear - S1 I50 PP. clearbody j. qnra. }
    assert (mp : (q0 < m)%Qc) by (eapply Qclt_le_trans; [apply (p2_pos (-50))|exact ms]).
    assert (HM : ((q1 - u53) * m <= M)%Qc /\ (M <= (q1 + u53) * m)%Qc).
    { unfold M, fdiv. rewrite <- MM. apply fl_rel. eapply Qcle_trans; [|exact ms]. apply p2_small. lia. }
    assert (MP : (qq 1 2 * m <= M)%Qc) by (destruct HM; clear - mp H; qlin).
    assert (M0 : M <> q0) by (intros E; rewrite E in MP; clear - MP mp; qlin). split; [exact M0|].
    assert (CM : (p2 (-70) <= C * M)%Qc).
    { assert (C1 : (qq 1 4096 <= C)%Qc) by (clear - TC CL; qlin). assert (E : (p2 (-70) <= qq 1 4096 * (qq 1 2 * p2 (-50)))%Qc) by (apply qleb_iff; vm_compute; reflexivity).
      assert (M1 : (qq 1 2 * p2 (-50) <= M)%Qc) by (eapply Qcle_trans; [|exact MP]; clear - ms; set (g := p2 (-50)) in *; clearbody g; qlin).
      eapply Qcle_trans; [exact E|]. assert (H0 : (q0 <= qq 1 2 * p2 (-50))%Qc) by (apply qleb_iff; vm_compute; reflexivity). set (h := (qq 1 2 * p2 (-50))%Qc) in *. clear - C1 M1 H0.
      clearbody h. assert (q0 <= qq 1 4096)%Qc by (apply qleb_iff; reflexivity). set (k := qq 1 4096) in *. clearbody k. qnra. }
    assert (HX : ((q1 - u53) * (C * M) <= X)%Qc /\ (X <= (q1 + u53) * (C * M))%Qc) by (unfold X, fmul; apply fl_rel; eapply Qcle_trans; [|exact CM]; apply p2_small; lia).
    assert (HA : ((q1 - u53) * A0 <= fdiv (qz Q) n)%Qc /\ (fdiv (qz Q) n <= (q1 + u53) * A0)%Qc) by (unfold fdiv; apply fl_rel; eapply Qcle_trans; [|exact as_]; apply p2_small; lia).
    assert (HP : ((q1 - qz 2 * u53) * qsq M <= sq M)%Qc /\ (sq M <= (q1 + qz 2 * u53) * qsq M)%Qc).
    { destruct (SQ M) as (E & _). assert (M2 : (p2 (-1022) <= qsq M)%Qc).
      { eapply Qcle_trans; [apply (p2_le (-1022) (-102)); lia|]. assert (E1 : (p2 (-102) = qsq (qq 1 2 * p2 (-50)))%Qc) by (apply Qc_is_canon; vm_compute; reflexivity). rewrite E1. apply sq_mono; [apply qleb_iff; vm_compute; reflexivity|].
        eapply Qcle_trans; [|exact MP]. clear - ms. set (g := p2 (-50)) in *. clearbody g. qlin. }
      specialize (E M2). rewrite p2_52 in E. apply (proj1 (qabs_le_iff _ _)) in E. destruct E as (E1 & E2). set (t := qsq M) in *. clearbody t. clear - E1 E2. split; qlin. }
    destruct (qeqb (sq_err xs) q0) eqn:EZ.
    - (* all years equal *)
      apply (proj1 (qeqb_iff _ _)) in EZ. pose proof (no_deviation xs NE EZ) as AL. fold m in AL.
      assert (AZ : exists z0, 0 <= z0 /\ m = qz z0 /\ S = N * z0 /\ Q = N * (z0 * z0)).
      { unfold S, Q, N. destruct zs as [|z0 r]; [contradiction NE; reflexivity|]. unfold xs in AL. cbn [map] in AL. pose proof (Forall_inv AL) as A1. cbv beta in A1. exists z0.
        split; [exact (Forall_inv NN)|]. split; [auto|]. clear -AL A1. rewrite <- A1 in AL. assert (G : forall l, Forall (fun x => x = qz z0) (map qz l) -> zsum l = Z.of_nat (length l) * z0 /\ ssq l = Z.of_nat (length l) * (z0 * z0)).
        { induction l as [|y l IH]; intros F; [split; reflexivity|]. cbn [map] in F. inversion F as [|? ? E F']; subst. apply qz_inj in E. subst y. destruct (IH F') as (I1 & I2). unfold ssq in *. cbn [map length]. rewrite !zsum_cons, I1, I2. lia. }
        apply (G (z0 :: r)). exact AL. }
      destruct AZ as (z0 & Z0 & mz & SZ & QZ). assert (z1 : 1 <= z0) by nia. assert (zb : z0 <= 2 ^ 25) by (change (2 ^ 50) with (2 ^ 25 * 2 ^ 25) in *; nia).
      assert (ME : M = qz z0) by (unfold M, fdiv; rewrite SZ; unfold n; rewrite div_whole by lia; apply fl_whole; change (2 ^ 53) with (2 ^ 25 * 2 ^ 28); nia).
      assert (AE : fdiv (qz Q) n = qz (z0 * z0)) by (unfold fdiv; rewrite QZ; unfold n; rewrite div_whole by lia; apply fl_whole; change (2 ^ 53) with (2 ^ 25 * 2 ^ 25 * 8); nia).
      assert (PE : sq M = qz (z0 * z0)) by (rewrite ME; apply sq_whole; change (2 ^ 26) with (2 * 2 ^ 25); lia).
      exists q0. rewrite AE, PE. assert (D0 : fsub (qz (z0 * z0)) (qz (z0 * z0)) = q0) by (unfold fsub; replace (qz (z0 * z0) - qz (z0 * z0))%Qc with q0 by qring; reflexivity).
      rewrite D0. assert (W0 : fdiv q0 n = q0) by (unfold fdiv, Qcdiv; replace (q0 * / n)%Qc with q0 by qring; reflexivity). rewrite W0.
      split; [apply root_zero|]. assert (XP : (q0 < X)%Qc) by (destruct HX as (X1 & _); pose proof (p2_pos (-70)) as PP; set (t := (C * M)%Qc) in *; set (g := p2 (-70)) in *; clearbody t g; clear - X1 CM PP; qlin).
      split; [intros _; now apply (proj2 (qltb_iff _ _))|]. intros H. exfalso. rewrite EZ in H. assert (cp : (q0 < c)%Qc) by (clear - TC; qlin).
      assert (K0 : (q0 < qsq (c * m))%Qc) by (assert (q0 < c * m)%Qc by (clear - cp mp; qnra); unfold qsq; set (t := (c * m)%Qc) in *; clearbody t; clear - H0; qnra). rewrite p2_30 in H. set (t := qsq (c * m)%Qc) in *. clearbody t. clear - H K0. qlin.
    - apply (proj1 (qeqb_false _ _)) in EZ. pose proof (sq_err_nonneg xs) as EN.
      assert (VI : (v * (n * n) = qz (N * Q - S * S))%Qc).
      { unfold v, A0. rewrite MM. unfold qsq. unfold Z.sub. rewrite qz_plus, qz_opp, !qz_mult. fold n. qfield. exact NZ. }
      assert (VE : v = (sq_err xs * n)%Qc) by (rewrite SE; fold v; qfield; exact NZ).
      assert (vp : (q0 < v)%Qc) by (rewrite VE; assert (q0 < sq_err xs)%Qc by (apply Qcnot_le_lt; intros L; apply EZ; now apply Qcle_antisym); set (t := sq_err xs) in *; clearbody t; clear - H NP; clearbody n; qnra).
      assert (I1 : 1 <= N * Q - S * S).
      { assert (L : (q0 < qz (N * Q - S * S))%Qc) by (rewrite <- VI; assert (q0 < n * n)%Qc by (clear - NP; clearbody n; qnra); clear - H vp; set (nn := (n * n)%Qc) in *; clearbody v nn; qnra). apply (proj1 (qz_lt 0 _)) in L. lia. }
      assert (Hv : (A0 <= qz 1125899906842624 * v)%Qc).
      { assert (nn : (q0 < n * n)%Qc) by (clear - NP; clearbody n; qnra). apply (qmul_le_inv _ _ (n * n)%Qc nn). replace (qz 1125899906842624 * v * (n * n))%Qc with (qz 1125899906842624 * qz (N * Q - S * S))%Qc by (rewrite <- VI; qring).
        replace (A0 * (n * n))%Qc with (qz (N * Q)) by (unfold A0; rewrite qz_mult; fold n; qfield; exact NZ). rewrite <- qz_mult. apply (proj2 (qz_le _ _)). change (2 ^ 50) with 1125899906842624 in BD. nia. }
      assert (v100 : (p2 (-100) <= v)%Qc).
      { assert (E : (qz 1125899906842624 * p2 (-100) = p2 (-50))%Qc) by (apply Qc_is_canon; vm_compute; reflexivity). apply Qcnot_lt_le. intros L. clear - L E Hv as_. set (g := p2 (-100)) in *. set (h := p2 (-50)) in *. clearbody g h v. qlin. }
      assert (N5q : (qz 5 <= n)%Qc) by (apply (proj2 (qz_le 5 N)); exact N5).
      destruct (diff_bounds m A0 n c M (sq M) (fdiv (qz Q) n) q0 q0 q0 q0 q0 mp N5q TC Hv vp HM HP HA) as (_ & _ & D3). fold v in D3.
      assert (D102 : (p2 (-102) <= fdiv (qz Q) n - sq M)%Qc).
      { eapply Qcle_trans; [|exact D3]. assert (E : (qq 1 4 * p2 (-100) = p2 (-102))%Qc) by (apply Qc_is_canon; vm_compute; reflexivity). rewrite <- E. clear - v100. set (g := p2 (-100)) in *. clearbody g v. qlin. }
      set (D := fsub (fdiv (qz Q) n) (sq M)).
      assert (HD : ((q1 - u53) * (fdiv (qz Q) n - sq M) <= D)%Qc /\ (D <= (q1 + u53) * (fdiv (qz Q) n - sq M))%Qc) by (unfold D, fsub; apply fl_rel; eapply Qcle_trans; [|exact D102]; apply p2_small; lia).
      assert (DI : (p2 (-153) <= D * / n)%Qc).
      { assert (D1 : (p2 (-103) <= D)%Qc). { assert (E : (qq 1 2 * p2 (-102) = p2 (-103))%Qc) by (apply Qc_is_canon; vm_compute; reflexivity). rewrite <- E. pose proof (p2_pos (-102)) as PP. destruct HD as (HD1 & _).
          set (d := (fdiv (qz Q) n - sq M)%Qc) in *. set (g := p2 (-102)) in *. clearbody D d g. clear - HD1 D102 PP. qlin. }
        assert (E : (p2 (-103) * p2 (-50) = p2 (-153))%Qc) by (apply Qc_is_canon; vm_compute; reflexivity). rewrite <- E. pose proof (p2_pos (-103)) as P1. pose proof (p2_pos (-50)) as P2.
        clear - D1 I50 P1 P2. set (g := p2 (-103)) in *. set (h := p2 (-50)) in *. set (j := (/ n)%Qc) in *. clearbody D g h j. qnra. }
      assert (HW : ((q1 - u53) * (D * / n) <= fdiv D n)%Qc /\ (fdiv D n <= (q1 + u53) * (D * / n))%Qc) by (unfold fdiv, Qcdiv; apply fl_rel; eapply Qcle_trans; [|exact DI]; apply p2_small; lia).
      pose proof (RT (fdiv D n)) as R.
      assert (HC : ((q1 - u53) * c <= C)%Qc /\ (C <= (q1 + u53) * c)%Qc) by (split; assumption).
      destruct (root (fdiv D n)) as [s|] eqn:ER.
      + destruct R as (_ & S0 & R1 & R2). rewrite p2_52 in R1, R2. exists s. split; [reflexivity|].
        assert (WE : (v * / n = sq_err xs)%Qc) by (rewrite SE; reflexivity). rewrite p2_30, <- WE.
        pose proof (conj R1 R2) as HS. split; intros H.
        * apply (proj2 (qltb_iff _ _)). apply (decide_yes m A0 n c M (sq M) (fdiv (qz Q) n) D (fdiv D n) s C X); assumption.
        * apply (proj2 (qltb_false _ _)). apply (decide_no m A0 n c M (sq M) (fdiv (qz Q) n) D (fdiv D n) s C X); assumption.
      + exfalso. assert (DP : (q0 < D * / n)%Qc) by (eapply Qclt_le_trans; [apply (p2_pos (-153))|exact DI]). destruct HW as (W1 & _). set (d := (D * / n)%Qc) in *. set (W := fdiv D n) in *. clearbody d W. clear - DP W1 R. qlin.
  Qed.
End Test.
