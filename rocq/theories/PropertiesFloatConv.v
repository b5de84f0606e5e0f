(** Property theorems of C122: rounding and the convergence test. *)
From Verif Require Import Base BaseProofs Sums StatModel StatSpec YearModel YearSpec YearProofs YearRun PropertiesYear
  FloatSpec FloatModel FloatProofs FloatSums FloatConvModel FloatConvSpec FloatConvProofs.
Open Scope Z_scope.

Section Run.
  Variables (sq : Qc -> Qc) (root : Qc -> option Qc).
  Hypothesis SQ : square_ok sq.
  Hypothesis RT : root_ok root.

  Lemma fcvchk_spec clk fin cv zs z : usual_tolerance cv -> Forall (fun z => 0 <= z) (zs ++ [z]) -> Z.of_nat (length (zs ++ [z])) * ssq (zs ++ [z]) <= 2 ^ 50 ->
    let xs := map qz (zs ++ [z]) in
    exists R, fcvchk sq root clk fin (Z.of_nat (length (zs ++ [z]))) cv (qz (zsum (zs ++ [z]))) (qz (zsum zs)) (qz (ssq zs)) = (R, qz (ssq (zs ++ [z])), qz (zsum (zs ++ [z]))) /\
      (R = 0 \/ R = 1) /\ (clear_of_limit cv xs -> (R = 1 <-> (fin <= clk)%Qc \/ converged cv xs)).
  Proof using SQ RT.
    intros UT NN BD xs. set (ws := zs ++ [z]) in *.
    assert (L1 : 1 <= Z.of_nat (length ws)) by (unfold ws; rewrite app_length; cbn [length]; lia).
    assert (Z0 : 0 <= z) by (apply Forall_app in NN; destruct NN as (_ & NN); exact (Forall_inv NN)).
    assert (SZ : zsum ws = zsum zs + z) by (unfold ws; rewrite zsum_app, zsum_cons; cbn; lia).
    assert (QZ : ssq ws = ssq zs + z * z) by (unfold ws; rewrite ssq_app; unfold ssq; cbn [map]; rewrite zsum_cons; cbn; lia).
    pose proof (ssq_nonneg zs) as QN. assert (QB : ssq ws <= 2 ^ 50) by nia. assert (ZB : z <= 2 ^ 25) by (change (2 ^ 50) with (2 ^ 25 * 2 ^ 25) in QB; nia).
    assert (DF : fsub (qz (zsum ws)) (qz (zsum zs)) = qz z).
    { unfold fsub. replace (qz (zsum ws) - qz (zsum zs))%Qc with (qz z) by (rewrite SZ, qz_plus; qring). apply fl_whole. change (2 ^ 53) with (2 ^ 25 * 2 ^ 28). lia. }
    assert (SE : fadd (qz (ssq zs)) (sq (qz z)) = qz (ssq ws)).
    { rewrite (sq_whole sq SQ) by (change (2 ^ 26) with (2 * 2 ^ 25); lia). unfold fadd. rewrite <- qz_plus, <- QZ. apply fl_whole. change (2 ^ 53) with (8 * 2 ^ 50). lia. }
    assert (FR : (if qleb fin clk then 1 else 0) = 0 \/ (if qleb fin clk then 1 else 0) = 1) by (destruct (qleb fin clk); auto).
    assert (FC : (if qleb fin clk then 1 else 0) = 1 <-> (fin <= clk)%Qc) by (rewrite <- qleb_iff; destruct (qleb fin clk); split; auto; discriminate).
    assert (LX : length xs = length ws) by apply map_length.
    unfold fcvchk. rewrite DF, SE. cbv zeta. destruct (Z.ltb_spec (Z.of_nat (length ws)) 5) as [L5|L5].
    - exists (if qleb fin clk then 1 else 0). split; [reflexivity|]. split; [exact FR|]. intros _. rewrite FC. split; [auto|]. intros [?|(H5 & _)]; [auto|]. rewrite LX in H5. lia.
    - rewrite xx_float. destruct (Z.eq_dec (zsum ws) 0) as [S0|S0].
      + rewrite S0. assert (M0 : fdiv (qz 0) (qz (Z.of_nat (length ws))) = q0) by (unfold fdiv, Qcdiv; change (qz 0) with q0; replace (q0 * / qz (Z.of_nat (length ws)))%Qc with q0 by qring; reflexivity). rewrite M0.
        change (qeqb q0 q0) with true. cbv iota. exists (if qleb fin clk then 1 else 0). split; [reflexivity|]. split; [exact FR|]. intros _. rewrite FC. split; [auto|]. intros [?|(_ & HZ & _)]; [auto|].
        exfalso. apply HZ. unfold mean, xs. rewrite qsum_whole, S0. unfold Qcdiv. change (qz 0) with q0. qring.
      + assert (SP : 0 < zsum ws) by (pose proof (sum_below_ssq ws NN); lia).
        pose proof (decision sq root SQ RT cv ws UT NN L5 BD SP) as DC. cbv zeta in DC. destruct DC as (M0 & s & RS & YES & NO). rewrite RS. fold xs in YES, NO.
        set (M := fdiv (qz (zsum ws)) (qz (Z.of_nat (length ws)))) in *. destruct (qeqb M q0) eqn:EM; [apply (proj1 (qeqb_iff _ _)) in EM; contradiction|].
        assert (mp : (q0 < mean xs)%Qc).
        { unfold mean, xs. rewrite qsum_whole, map_length. assert (A : (q0 < qz (zsum ws))%Qc) by (apply (proj2 (qz_lt 0 _)); lia). assert (B : (q0 < qz (Z.of_nat (length ws)))%Qc) by (apply (proj2 (qz_lt 0 _)); lia).
          set (a := qz (zsum ws)) in *. set (b := qz (Z.of_nat (length ws))) in *. assert (NZ : b <> q0) by (intros E; rewrite E in B; apply (Qclt_not_eq _ _ B); reflexivity). assert (E : (a / b * b = a)%Qc) by (qfield; exact NZ).
          apply Qcnot_le_lt. intros N. set (t := (a / b)%Qc) in *. clearbody a b t. clear - A B E N. qnra. }
        assert (tp : (q0 < tolerance cv)%Qc) by (destruct (tolerance_near cv UT) as (T & _); eapply Qclt_le_trans; [|exact T]; apply qltb_iff; reflexivity).
        assert (lp : (q0 < tolerance cv * mean xs)%Qc) by (set (t := tolerance cv) in *; set (m := mean xs) in *; clearbody t m; clear - mp tp; qnra).
        assert (Lp : (q0 < qsq (tolerance cv * mean xs))%Qc) by (set (t := (tolerance cv * mean xs)%Qc) in *; clearbody t; clear - lp; unfold qsq; qnra).
        assert (dp : (q0 < p2 (-30))%Qc) by apply p2_pos.
        exists (if qltb s (fmul (if qeqb cv q0 then fl (qq 25 1000) else cv) M) then 1 else if qleb fin clk then 1 else 0).
        split; [destruct (qltb s _); reflexivity|]. split; [destruct (qltb s _); auto|]. unfold clear_of_limit. intros [C|C].
        * rewrite (YES C). split; [|auto]. intros _. right. repeat split; [lia| |exact lp|].
          -- intros E. rewrite E in mp. apply (Qclt_not_eq _ _ mp). reflexivity.
          -- set (L := qsq (tolerance cv * mean xs)%Qc) in *. eapply Qcle_lt_trans; [exact C|]. set (d := p2 (-30)) in *. clearbody L d. clear - Lp dp. qnra.
        * rewrite (NO C). rewrite FC. split; [auto|]. intros [?|(_ & _ & _ & LT)]; [auto|]. exfalso.
          set (L := qsq (tolerance cv * mean xs)%Qc) in *. assert (L < (q1 + p2 (-30)) * L)%Qc by (set (d := p2 (-30)) in *; clearbody L d; clear - Lp dp; qnra). apply (Qclt_not_le _ _ (Qclt_le_trans _ _ _ H C)). apply Qclt_le_weak. exact LT.
  Qed.

  Lemma fcv_run_spec fin cv : usual_tolerance cv -> forall zs pre Rs s l, Forall (fun z => 0 <= z) (pre ++ zs) -> Z.of_nat (length (pre ++ zs)) * ssq (pre ++ zs) <= 2 ^ 50 ->
    fcv_run sq root fin cv (Z.of_nat (length pre)) (qz (zsum pre)) (qz (zsum pre)) (qz (ssq pre)) (map qz zs) = (Rs, s, l) ->
    length Rs = length zs /\ s = qz (ssq (pre ++ zs)) /\ l = qz (zsum (pre ++ zs)) /\
    forall i, (i < length zs)%nat -> (zget Rs i = 0 \/ zget Rs i = 1) /\
      (clear_of_limit cv (map qz (pre ++ firstn (S i) zs)) ->
        (zget Rs i = 1 <-> (fin <= qz (8760 * (Z.of_nat (length pre) + Z.of_nat i + 1)))%Qc \/ converged cv (map qz (pre ++ firstn (S i) zs)))).
  Proof using SQ RT.
    intros UT. induction zs as [|x r IH]; intros pre Rs s l NN BD E; cbn [map fcv_run] in E.
    - injection E as <- <- <-. rewrite app_nil_r. repeat split; try reflexivity; cbn in H; lia.
    - assert (SPL : pre ++ x :: r = (pre ++ [x]) ++ r) by now rewrite <- app_assoc.
      assert (NN1 : Forall (fun z => 0 <= z) (pre ++ [x])) by (rewrite SPL in NN; now apply Forall_app in NN).
      assert (B1 : Z.of_nat (length (pre ++ [x])) * ssq (pre ++ [x]) <= 2 ^ 50).
      { rewrite SPL, ssq_app, app_length in BD. pose proof (ssq_nonneg (pre ++ [x])). pose proof (ssq_nonneg r). nia. }
      assert (S2 : zsum pre + x = zsum (pre ++ [x])) by (rewrite zsum_app, zsum_cons; cbn; lia).
      assert (SX : fadd (qz (zsum pre)) (qz x) = qz (zsum (pre ++ [x]))).
      { unfold fadd. rewrite <- qz_plus, S2. apply fl_whole. pose proof (sum_below_ssq _ NN1). assert (1 <= Z.of_nat (length (pre ++ [x]))) by (rewrite app_length; cbn [length]; lia). change (2 ^ 53) with (8 * 2 ^ 50). nia. }
      assert (LX : Z.of_nat (length pre) + 1 = Z.of_nat (length (pre ++ [x]))) by (rewrite app_length; cbn [length]; lia).
      rewrite SX, LX in E. destruct (fcvchk_spec (qz (8760 * Z.of_nat (length (pre ++ [x])))) fin cv pre x UT NN1 B1) as (R & CV & R01 & RI). rewrite CV in E.
      destruct (fcv_run sq root fin cv (Z.of_nat (length (pre ++ [x]))) (qz (zsum (pre ++ [x]))) (qz (zsum (pre ++ [x]))) (qz (ssq (pre ++ [x]))) (map qz r)) as [[Rs' s'] l'] eqn:ER.
      injection E as <- <- <-. rewrite SPL in NN, BD. destruct (IH (pre ++ [x]) Rs' s' l' NN BD ER) as (L1 & E1 & E2 & K). rewrite <- SPL in E1, E2.
      split; [cbn [length]; now rewrite L1|]. split; [exact E1|]. split; [exact E2|].
      intros [|i] Hi; cbn [length] in Hi.
      + unfold zget. cbn [nth firstn]. split; [exact R01|]. rewrite <- LX in RI. replace (Z.of_nat (length pre) + Z.of_nat 0 + 1) with (Z.of_nat (length pre) + 1) by lia. exact RI.
      + destruct (K i ltac:(lia)) as (K1 & K2). unfold zget in *. cbn [nth]. split; [exact K1|]. cbn [firstn]. rewrite <- app_assoc in K2. cbn [app] in K2. rewrite <- LX in K2.
        replace (Z.of_nat (length pre) + Z.of_nat (S i) + 1) with (Z.of_nat (length pre) + 1 + Z.of_nat i + 1) by lia. exact K2.
  Qed.
End Run.

(** Whole yearly values: the accumulated sum and squares are exact, and the answer of every
    year whose standard error is clear of the limit is that of the exact test. *)
Theorem C122_every_history : forall sq root, square_ok sq -> root_ok root -> forall fin cv zs Rs s l,
  usual_tolerance cv -> Forall (fun z => 0 <= z) zs -> Z.of_nat (length zs) * ssq zs <= 2 ^ 50 ->
  let xs := map qz zs in
  fcv_run sq root fin cv 0 q0 q0 q0 xs = (Rs, s, l) ->
  length Rs = length zs /\ s = qsum (map qsq xs) /\ l = qsum xs /\
  forall i, (i < length zs)%nat -> (zget Rs i = 0 \/ zget Rs i = 1) /\
    (clear_of_limit cv (firstn (S i) xs) -> (zget Rs i = 1 <-> (fin <= qz (8760 * (Z.of_nat i + 1)))%Qc \/ converged cv (firstn (S i) xs))).
Proof.
  intros sq root SQ RT fin cv zs Rs s l UT NN BD xs E. destruct (fcv_run_spec sq root SQ RT fin cv UT zs [] Rs s l NN BD E) as (A & B & C & D). cbn [app length] in *.
  split; [exact A|]. split; [rewrite B; symmetry; apply qsum_sq_whole|]. split; [rewrite C; symmetry; apply qsum_whole|]. intros i Hi. unfold xs. rewrite firstn_map. exact (D i Hi).
Qed.
Print Assumptions C122_every_history.

(** If all years are clear of the limit, the answers are those of the exact test. *)
Theorem C122_same_answers : forall sq root, square_ok sq -> root_ok root -> forall fin cv zs,
  usual_tolerance cv -> Forall (fun z => 0 <= z) zs -> Z.of_nat (length zs) * ssq zs <= 2 ^ 50 ->
  let xs := map qz zs in (forall i, (i < length zs)%nat -> clear_of_limit cv (firstn (S i) xs)) ->
  fcv_run sq root fin cv 0 q0 q0 q0 xs = cv_run fin cv 0 q0 q0 q0 xs.
Proof.
  intros sq root SQ RT fin cv zs UT NN BD xs CL. destruct (fcv_run sq root fin cv 0 q0 q0 q0 xs) as [[Rs s] l] eqn:E. destruct (cv_run fin cv 0 q0 q0 q0 xs) as [[Rs' s'] l'] eqn:E'.
  destruct (C122_every_history sq root SQ RT fin cv zs Rs s l UT NN BD E) as (A & -> & -> & K). destruct (C44_every_history fin cv xs Rs' s' l' E') as (A' & -> & -> & K').
  do 2 f_equal. assert (LX : length xs = length zs) by apply map_length. rewrite LX in *. apply (nth_ext_eq _ _ 0); [congruence|]. intros i Hi. rewrite A in Hi.
  destruct (K i Hi) as (B & D). specialize (D (CL i Hi)). destruct (K' i Hi) as (B' & D'). unfold zget in *. fold xs in D. rewrite <- D' in D. destruct B as [B|B], B' as [B'|B']; rewrite B, B' in *; intuition congruence.
Qed.
Print Assumptions C122_same_answers.

(** In a run: if the test is on a value without forecast error, the stop flags of the year
    ends are those of the test in binary64. *)
Theorem C122_in_a_run : forall sq root, square_ok sq -> root_ok root -> forall cf n iv it pl wn wt l s os,
  levels_ok (NFCST cf) (NORR cf) -> selected cf n pl wn wt Central -> Forall (annual_ok n) l -> run_years cf n 0 (start_year n iv it) l = Ok (s, os) ->
  let zs := map (whole_value (NORR cf) pl wn wt) l in
  usual_tolerance (CVTEST cf) -> Forall (fun z => 0 <= z) zs -> Z.of_nat (length zs) * ssq zs <= 2 ^ 50 ->
  (forall i, (i < length zs)%nat -> clear_of_limit (CVTEST cf) (firstn (S i) (map qz zs))) ->
  fcv_run sq root (YFINISH cf) (CVTEST cf) 0 q0 q0 q0 (map qz zs) = (map o_rflag os, y_SSQ s, y_XLAST s).
Proof.
  intros sq root SQ RT cf n iv it pl wn wt l s os HL SEL AO E zs UT NN BD CL. rewrite (C122_same_answers sq root SQ RT _ _ zs UT NN BD CL).
  set (x := annual_value (NFCST cf) (NORR cf) pl wn wt Central). assert (XE : map qz zs = map x l) by (unfold zs; rewrite map_map; apply map_ext; intros a; unfold x, annual_value, whole_value; destruct pl, wt; reflexivity).
  clearbody zs. rewrite XE. clear XE CL BD NN UT. fold x.
  destruct (cv_run (YFINISH cf) (CVTEST cf) 0 q0 q0 q0 (map x l)) as [[Rs ss] ll] eqn:EC. destruct (C44_every_history _ _ _ _ _ _ EC) as (LR & -> & -> & K). rewrite map_length in LR, K.
  assert (NP : ~ (pl = Pool /\ Central = Weighted)) by (intros (_ & H); discriminate). destruct (run_convergence cf n iv it pl wn wt Central HL SEL NP l s os AO E) as (-> & -> & _). fold x. do 2 f_equal.
  assert (FL : forall l0 s0 os0, Forall (annual_ok n) l0 -> run_years cf n 0 (start_year n iv it) l0 = Ok (s0, os0) ->
    length os0 = length l0 /\ forall i, (i < length l0)%nat -> (zget (map o_rflag os0) i = 0 \/ zget (map o_rflag os0) i = 1) /\
      (zget (map o_rflag os0) i = 1 <-> (YFINISH cf <= qz (8760 * (Z.of_nat i + 1)))%Qc \/ converged (CVTEST cf) (firstn (S i) (map x l0)))).
  { induction l0 as [|a l0 IH] using rev_ind; intros s0 os0 AO0 E0.
    - cbn [run_years] in E0. injection E0 as _ <-. split; [reflexivity|]. intros i Hi. cbn in Hi. lia.
    - pose proof E0 as E1. apply (proj1 (run_snoc _ _ _ _ _ _ _ _)) in E1. destruct E1 as (s1 & os1 & o & R1 & _ & ->). pose proof AO0 as AO2. apply Forall_app in AO2. destruct AO2 as (AO1 & _). destruct (IH s1 os1 AO1 R1) as (LO & KO).
      split; [rewrite !app_length, LO; reflexivity|]. intros i Hi. rewrite app_length in Hi. cbn [length] in Hi. unfold zget in *. rewrite !map_app. destruct (Nat.eq_dec i (length l0)) as [->|NI].
      + rewrite app_nth2 by (rewrite map_length, LO; lia). rewrite map_length, LO, Nat.sub_diag. cbn [map nth]. rewrite firstn_all2 by (rewrite app_length, map_length; cbn [length]; lia).
        destruct (run_convergence cf n iv it pl wn wt Central HL SEL NP (l0 ++ [a]) s0 (os1 ++ [o]) AO0 E0) as (_ & _ & RC). destruct (RC l0 a os1 o eq_refl eq_refl) as (R01 & RI & _). fold x in RI. rewrite map_app in RI. cbn [map] in RI.
        split; [exact R01|]. rewrite app_length in RI. cbn [length] in RI. replace (Z.of_nat (length l0) + 1) with (Z.of_nat (length l0 + 1)) by lia. exact RI.
      + rewrite app_nth1 by (rewrite map_length, LO; lia). rewrite firstn_app. replace (S i - length (map x l0))%nat with 0%nat by (rewrite map_length; lia). rewrite firstn_O, app_nil_r. apply KO. lia. }
  destruct (FL l s os AO E) as (LO & KO). apply (nth_ext_eq _ _ 0); [rewrite map_length; congruence|]. intros i Hi. rewrite LR in Hi. destruct (K i Hi) as (B & D). destruct (KO i Hi) as (B' & D'). unfold zget in *. rewrite <- D' in D.
  destruct B as [B|B], B' as [B'|B']; rewrite B, B' in *; intuition congruence.
Qed.
Print Assumptions C122_in_a_run.

(** *** Functions that meet the requirements *)
Definition square64 (x : Qc) : Qc := fl (qsq x).
Lemma square64_ok : square_ok square64.
Proof.
  intros x. unfold square64. split; [|intros B; apply fl_exact; now apply b64_flt]. intros H. assert (P : (q0 <= qsq x)%Qc) by apply sq_nonneg.
  pose proof (fl_error (qsq x)) as E. rewrite (qabs_of_nonneg (qsq x) P) in E. specialize (E H). rewrite qabs_minus_sym. eapply Qcle_trans; [exact E|]. rewrite p2_52, p2_53. clear E H. set (t := qsq x) in *. clearbody t. qlin.
Qed.
(** a root to 60 binary places *)
Definition root60 (x : Qc) : option Qc :=
  if qltb x q0 then None else Some (Qcdiv (qz (Z.sqrt (Qnum x * Zpos (Qden x) * 4 ^ 60))) (qz (Zpos (Qden x) * 2 ^ 60))).
Lemma root60_ok : root_ok root60.
Proof.
  intros x. unfold root60. destruct (qltb x q0) eqn:E; [now apply (proj1 (qltb_iff _ _))|]. apply (proj1 (qltb_false _ _)) in E. split; [exact E|].
  set (a := Qnum x). set (b := Zpos (Qden x)). set (r := Z.sqrt (a * b * 4 ^ 60)).
  assert (A0 : 0 <= a) by (unfold Qcle, Qle in E; cbn in E; unfold a; lia). assert (B0 : 0 < b) by (unfold b; lia).
  assert (XE : (x * qz b = qz a)%Qc) by (rewrite (this_Z_frac x) at 1; fold a b; assert (NZ : qz b <> q0) by (intros Z; apply qz_inj in Z; lia); qfield; exact NZ).
  assert (SP : r * r <= a * b * 4 ^ 60 < (r + 1) * (r + 1)) by (replace (r + 1) with (Z.succ r) by lia; apply Z.sqrt_spec; apply Z.mul_nonneg_nonneg; [nia|lia]). assert (R0 : 0 <= r) by apply Z.sqrt_nonneg.
  set (d := qz (b * 2 ^ 60)). assert (DP : (q0 < d)%Qc) by (apply (proj2 (qz_lt 0 _)); lia). assert (NZ : d <> q0) by (intros Z; rewrite Z in DP; apply (Qclt_not_eq _ _ DP); reflexivity).
  set (s := Qcdiv (qz r) d). assert (SE : (s * d = qz r)%Qc) by (unfold s; qfield; exact NZ).
  assert (S0 : (q0 <= s)%Qc) by (apply Qcnot_lt_le; intros N; assert (q0 <= qz r)%Qc by (apply (proj2 (qz_le 0 r)); exact R0); set (rr := qz r) in *; clearbody s d rr; clear - N SE DP H; qnra). split; [exact S0|].
  assert (SS : (qsq s * (d * d) = qz (r * r))%Qc) by (rewrite qz_mult, <- SE; unfold qsq; qring). assert (XX : (x * (d * d) = qz (a * b * 4 ^ 60))%Qc).
  { unfold d. replace (x * (qz (b * 2 ^ 60) * qz (b * 2 ^ 60)))%Qc with (x * qz b * qz (b * 4 ^ 60))%Qc by (rewrite !qz_mult; replace (qz (4 ^ 60)) with (qz (2 ^ 60) * qz (2 ^ 60))%Qc by (rewrite <- qz_mult; reflexivity); qring). rewrite XE, <- qz_mult. f_equal. ring. }
  assert (dd : (q0 < d * d)%Qc) by (clearbody d; clear - DP; qnra).
  split; apply (qmul_le_inv _ _ (d * d)%Qc dd).
  - replace (qsq (q1 - p2 (-52)) * x * (d * d))%Qc with (qsq (q1 - p2 (-52)) * (x * (d * d)))%Qc by qring. rewrite SS, XX.
    destruct (Z.eq_dec a 0) as [Z|Z].
    + rewrite Z. replace (0 * b * 4 ^ 60) with 0 by ring. replace (qsq (q1 - p2 (-52)) * qz 0)%Qc with q0 by (change (qz 0) with q0; qring). apply (proj2 (qz_le 0 _)). nia.
    + assert (R1 : 2 ^ 60 <= r) by (unfold r; rewrite <- (Z.sqrt_square (2 ^ 60)) by lia; apply Z.sqrt_le_mono; change (2 ^ 60 * 2 ^ 60) with (4 ^ 60); nia).
      assert (LT : (qz (a * b * 4 ^ 60) <= qz (r * r + 2 * r))%Qc) by (apply (proj2 (qz_le _ _)); nia).
      assert (R2 : (qz (2 * r) * qz (2 ^ 59) <= qz (r * r))%Qc) by (rewrite <- qz_mult; apply (proj2 (qz_le _ _)); change (2 ^ 60) with (2 * 2 ^ 59) in R1; nia).
      rewrite qz_plus in LT. assert (RP : (q0 <= qz (r * r))%Qc) by (apply (proj2 (qz_le 0 _)); nia). set (t := qz (a * b * 4 ^ 60)) in *. set (rr := qz (r * r)) in *. set (r2 := qz (2 * r)) in *. rewrite p2_52.
      change (qz (2 ^ 59)) with (qz 576460752303423488) in R2. clearbody t rr r2. clear - LT R2 RP. unfold qsq. qlin.
  - replace (qsq (q1 + p2 (-52)) * x * (d * d))%Qc with (qsq (q1 + p2 (-52)) * (x * (d * d)))%Qc by qring. rewrite SS, XX.
    assert (LE : (qz (r * r) <= qz (a * b * 4 ^ 60))%Qc) by (apply (proj2 (qz_le _ _)); lia). assert (T0 : (q0 <= qz (a * b * 4 ^ 60))%Qc) by (apply (proj2 (qz_le 0 _)); nia).
    set (t := qz (a * b * 4 ^ 60)) in *. set (rr := qz (r * r)) in *. rewrite p2_52. clearbody t rr. clear - LE T0. unfold qsq. qlin.
Qed.

(** Seven years, tolerance 2.5 %: the answers in binary64. *)
Definition demo_whole : list Z := [100; 104; 97; 103; 96; 100; 100].
Example C122_witness : square_ok square64 /\ root_ok root60 /\ usual_tolerance q0 /\ Forall (fun z => 0 <= z) demo_whole /\ Z.of_nat (length demo_whole) * ssq demo_whole <= 2 ^ 50 /\
  (forall i, (i < length demo_whole)%nat -> clear_of_limit q0 (firstn (S i) (map qz demo_whole))) /\
  fst (fst (fcv_run square64 root60 (qz 87600) q0 0 q0 q0 q0 (map qz demo_whole))) = [0; 0; 0; 0; 1; 1; 1] /\
  fst (fst (fcv_run square64 root60 (qz 87600) (qq 1 128) 0 q0 q0 q0 (map qz (60 :: demo_whole)))) = [0; 0; 0; 0; 0; 0; 0; 0].
Proof.
  split; [apply square64_ok|]. split; [apply root60_ok|]. split; [left; reflexivity|]. split; [repeat constructor; discriminate|]. split; [vm_compute; discriminate|].
  split; [|split; vm_compute; reflexivity].
  intros i Hi. cbn [length demo_whole] in Hi. unfold clear_of_limit. left. apply qleb_iff. do 7 (destruct i as [|i]; [vm_compute; reflexivity|]). exfalso. lia.
Qed.

Lemma early sq root clk fin y cv SUM XL Q : (y <? 5) = true -> fcvchk sq root clk fin y cv SUM XL Q = (if qleb fin clk then 1 else 0, fadd Q (sq (fsub SUM XL)), SUM).
Proof. intros H. unfold fcvchk. now rewrite H. Qed.
(** Refuted for values with fractions: an area that is short in one hour a year at the highest
    forecast level has the weighted value 0.0668 in every year.  After five years the
    exact test is passed (the years do not differ); in binary64 the variance comes out
    negative, its root is nan and the simulation goes on. *)
Theorem C122_fractions_refuted : forall root, root_ok root ->
  let x := fl (qq 668 10000) in
  b64 x /\ converged q0 (repeat x 5) /\ clear_of_limit q0 (repeat x 5) /\
  fst (fst (cv_run (qz 87600) q0 0 q0 q0 q0 (repeat x 5))) = [0; 0; 0; 0; 1] /\
  fst (fst (fcv_run square64 root (qz 87600) q0 0 q0 q0 q0 (repeat x 5))) = [0; 0; 0; 0; 0].
Proof.
  intros root RT x. assert (XE : x = (qz 2406723640866793 * p2 (-55))%Qc) by (apply Qc_is_canon; vm_compute; reflexivity).
  split; [rewrite XE; exists 2406723640866793, (-55); split; [reflexivity|]; split; [lia|reflexivity]|].
  split; [repeat split; try (apply qltb_iff; vm_compute; reflexivity); [cbn; lia|intros E; apply (proj2 (qeqb_iff _ _)) in E; vm_compute in E; discriminate]|].
  split; [left; apply qleb_iff; vm_compute; reflexivity|]. split; [vm_compute; reflexivity|].
  set (V := fdiv (fsub (fdiv (fadd (fadd (fadd (fadd (fadd q0 (square64 (fsub (fadd q0 x) q0))) (square64 (fsub (fadd (fadd q0 x) x) (fadd q0 x)))) (square64 (fsub (fadd (fadd (fadd q0 x) x) x) (fadd (fadd q0 x) x)))) (square64 (fsub (fadd (fadd (fadd (fadd q0 x) x) x) x) (fadd (fadd (fadd q0 x) x) x)))) (square64 (fsub (fadd (fadd (fadd (fadd (fadd q0 x) x) x) x) x) (fadd (fadd (fadd (fadd q0 x) x) x) x)))) (qz 5)) (square64 (fdiv (fadd (fadd (fadd (fadd (fadd q0 x) x) x) x) x) (qz 5)))) (qz 5)).
  assert (RN : root V = None).
  { pose proof (RT V) as R. destruct (root V) as [s|]; [|reflexivity]. exfalso. destruct R as (V0 & _). assert (VN : (V < q0)%Qc) by (apply qltb_iff; vm_compute; reflexivity). exact (Qclt_not_le _ _ VN V0). }
  cbn [repeat fcv_run]. rewrite early by reflexivity. cbv beta iota. rewrite early by reflexivity. cbv beta iota. rewrite early by reflexivity. cbv beta iota. rewrite early by reflexivity. cbv beta iota.
  unfold fcvchk. change (0 + 1 + 1 + 1 + 1 + 1) with 5. change (5 <? 5) with false. cbv beta iota zeta. fold V. rewrite RN. destruct (qeqb _ q0); vm_compute; reflexivity.
Qed.
Print Assumptions C122_fractions_refuted.
