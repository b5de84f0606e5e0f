(** Property theorems C48 and C49: the final report. *)
From Verif Require Import Base BaseProofs Sums LoadModel LoadSpec LoadProofs StatModel StatSpec StatProofs
  YearModel YearSpec YearProofs YearRun ReportModel ReportSpec ReportProofs PropertiesYear.
Open Scope Z_scope.

Definition no_line : line := mkLine q0 q0 q0 q0 q0.

(** What the report is computed from. *)
Lemma reported_inv cf n iv it SU l r : levels_ok (NFCST cf) (NORR cf) -> length SU = S n -> (0 < n)%nat -> Forall (annual_ok n) l ->
  reported cf n iv it SU l r ->
  exists l0 a s' os o i, l = l0 ++ [a] /\ run_years cf n 0 (start_year n iv it) l = Ok (s', os ++ [o]) /\
    cumul_total n (NFCST cf) fst l (o_h o) /\ cumul_total n (NFCST cf) snd l (o_p o) /\
    pool_weights (NFCST cf) fst [a] (o_h o) /\ pool_weights (NFCST cf) snd [a] (o_p o) /\
    report (NFCST cf) (Z.of_nat (length l)) i SU (o_h o) (o_p o) (y_HL s') (y_DP s') (y_EU s') (y_XA s') (y_XP s') = Ok r.
Proof.
  intros HL LS Hn F (l0 & a & s & os & s' & o & -> & R & Y & YR).
  pose proof F as F0. apply Forall_app in F0. destruct F0 as [Fl Fa]. apply Forall_inv in Fa.
  assert (LZ : 8760 * Z.of_nat (length (l0 ++ [a])) = 8760 * (0 + Z.of_nat (length l0) + 1)) by (rewrite app_length; cbn [length]; lia).
  rewrite LZ in Y.
  pose proof (run_step cf n l0 a s s' o (0 + Z.of_nat (length l0)) HL (run_invariant cf n iv it HL l0 s os Fl R) Fa Y) as (_ & TH & TP & WH & WP).
  assert (E : run_years cf n 0 (start_year n iv it) (l0 ++ [a]) = Ok (s', os ++ [o])) by (apply run_snoc; exists s, os, o; auto).
  pose proof (year_ok _ _ _ _ _ _ Y) as (h1 & d1 & e1 & RF & SSQ & XL & _ & _ & K). cbv zeta in K.
  destruct K as (_ & _ & _ & _ & _ & _ & _ & _ & _ & _ & _ & _ & _ & EY & _). rewrite (year_number (0 + Z.of_nat (length l0))) in EY by lia.
  unfold year_report in YR. destruct (o_report o); [|discriminate]. injection YR as YR.
  replace (o_year o) with (Z.of_nat (length (l0 ++ [a]))) in YR by (rewrite EY, app_length; cbn [length]; lia).
  exists l0, a, s', os, o. eexists. repeat (split; [first [reflexivity | eassumption]|]). exact YR.
Qed.

Lemma report_ok NF y it SU h p HLo DP EU XA XP r n : length SU = S n -> (0 < n)%nat ->
  report NF y it SU h p HLo DP EU XA XP = Ok r ->
  r_area_level r = map (area_level_lines NF (qz y) h p) (seq 0 n) /\ r_area_avg r = map (area_avg_lines (qz y) h p) (seq 0 n) /\
  r_pool_level r = pool_level_lines NF (qz y) h p /\ r_pool_avg r = pool_avg_lines (qz y) h p /\
  let avg J := nth 2 (area_avg_lines (qz y) h p J) (mk_line (qz y) q0 q0 q0 q0) in
  let pavg := nth 2 (pool_avg_lines (qz y) h p) (mk_line (qz y) q0 q0 q0 q0) in
  r_devA2 r = map (fun J => dev2 (qz y) (nth J XA []) (avg J)) (seq 0 n) /\ r_devP2 r = dev2 (qz y) XP pavg /\
  (exists prow, pool_row n SU pavg = Ok prow /\ r_sustat r = area_rows n SU avg ++ [prow]) /\
  r_PHL r = distribution HLo HLo /\ r_PDP r = distribution DP HLo /\ r_PEUE r = distribution EU EU /\
  let sd d a := [pct_sd2 (vget d 0) (l_lol a); pct_sd2 (vget d 1) (l_eue a); pct_sd2 (vget d 2) (l_lolp a)] in
  r_pctA2 r = map (fun J => sd (nth J (r_devA2 r) []) (avg J)) (seq 0 n) /\ r_pctP2 r = sd (r_devP2 r) pavg /\ r_ITAB r = it + 2 + Z.of_nat n.
Proof.
  intros LS Hn. unfold report. cbv zeta. rewrite LS. replace (S n - 1)%nat with n by lia.
  set (pr := pool_row n SU _). destruct pr as [prow|] eqn:P; cbn [bind]; [|discriminate]. subst pr.
  intros E. injection E as <-. cbn [r_area_level r_area_avg r_pool_level r_pool_avg r_devA2 r_devP2 r_sustat r_PHL r_PDP r_PEUE r_pctA2 r_pctP2 r_ITAB].
  repeat split; auto. exists prow. split; [first [exact P | reflexivity]|reflexivity].
Qed.

Lemma nth_map_seq {A} (f : nat -> A) n j d : (j < n)%nat -> nth j (map f (seq 0 n)) d = f j.
Proof. intros H. rewrite (nth_indep _ d (f 0%nat)) by (rewrite map_length, seq_length; exact H). rewrite map_nth, seq_nth by exact H. reflexivity. Qed.

(** C48.  Averages by level, for the areas and for the pool. *)
Theorem C48_level_averages : forall cf n iv it SU l r, levels_ok (NFCST cf) (NORR cf) -> length SU = S n -> (0 < n)%nat -> Forall (annual_ok n) l ->
  reported cf n iv it SU l r -> NFCST cf = 5%nat ->
  forall c k, (k < 5)%nat ->
  let v pl wn wt := map (fun a => qz (part pl wn wt c k a)) l in
  (forall j, (j < n)%nat ->
     line_of (v (Area j) Hourly LOLE) (v (Area j) Hourly EUE) (v (Area j) Peak LOLE) (v (Area j) Peak EUE)
             (nth (3 * k + code_cause c) (nth j (r_area_level r) []) no_line)) /\
  line_of (v Pool Hourly LOLE) (v Pool Hourly EUE) (v Pool Peak LOLE) (v Pool Peak EUE)
          (nth (3 * k + code_cause c) (r_pool_level r) no_line).
Proof.
  intros cf n iv it SU l r HL LS Hn F REP NF5 c k Hk v.
  destruct (reported_inv cf n iv it SU l r HL LS Hn F REP) as (l0 & a & s' & os & o & i & El & R & TH & TP & _ & _ & E).
  destruct (report_ok _ _ _ _ _ _ _ _ _ _ _ _ n LS Hn E) as (E1 & _ & E3 & _).
  split; [intros j Hj; rewrite E1, nth_map_seq by exact Hj; apply (area_level_line cf n l)|rewrite E3; apply (pool_level_line cf n l)]; auto; try lia.
Qed.
Print Assumptions C48_level_averages.

(** Forecast-weighted averages of the areas, and their deviations: the squared
    deviation printed is the squared standard error of the mean of the yearly values. *)
Theorem C48_area_averages : forall cf n iv it SU l r, levels_ok (NFCST cf) (NORR cf) -> length SU = S n -> (0 < n)%nat -> Forall (annual_ok n) l ->
  reported cf n iv it SU l r ->
  forall j, (j < n)%nat ->
  let v wn wt c := map (wpart (NFCST cf) (Area j) wn wt c) l in
  (forall c, line_of (v Hourly LOLE c) (v Hourly EUE c) (v Peak LOLE c) (v Peak EUE c) (nth (code_cause c) (nth j (r_area_avg r) []) no_line)) /\
  nth j (r_devA2 r) [] = [sq_err (v Hourly LOLE Both); sq_err (v Hourly EUE Both); sq_err (v Peak LOLE Both)] /\
  (* the summary row repeats load and capacity and prints the averages *)
  mget (r_sustat r) j 0 = mget SU j 0 /\ mget (r_sustat r) j 1 = mget SU j 1 /\
  mget (r_sustat r) j 3 = mean (v Hourly LOLE Both) /\ mget (r_sustat r) j 4 = mean (v Peak LOLE Both) /\ mget (r_sustat r) j 5 = mean (v Hourly EUE Both).
Proof.
  intros cf n iv it SU l r HL LS Hn F REP j Hj v.
  destruct (reported_inv cf n iv it SU l r HL LS Hn F REP) as (l0 & a & s' & os & o & i & El & R & TH & TP & _ & _ & E).
  destruct (report_ok _ _ _ _ _ _ _ _ _ _ _ _ n LS Hn E) as (_ & E2 & _ & _ & E5 & _ & (prow & _ & E7) & _).
  assert (LI : forall c d, line_of (v Hourly LOLE c) (v Hourly EUE c) (v Peak LOLE c) (v Peak EUE c)
                 (nth (code_cause c) (area_avg_lines (qz (Z.of_nat (length l))) (o_h o) (o_p o) j) d)).
  { intros c d. apply (area_avg_line cf n l); auto. }
  split; [intros c; rewrite E2, nth_map_seq by exact Hj; apply LI|].
  pose proof (LI Both (mk_line (qz (Z.of_nat (length l))) q0 q0 q0 q0)) as LB. cbn [code_cause] in LB.
  split.
  - rewrite E5, nth_map_seq by exact Hj. destruct (run_squares cf n iv it HL l s' (os ++ [o]) F R) as (SQ & _). destruct (SQ j Hj) as (Q0 & Q1 & Q2).
    destruct LB as [B1 B2 B3 _ _].
    replace (length l) with (length (v Hourly LOLE Both)) by (unfold v; apply map_length).
    apply dev2_spec; auto; unfold v; rewrite ?map_length; auto.
    subst l. destruct l0; discriminate.
  - rewrite E7. unfold mget. rewrite app_nth1 by (unfold area_rows; rewrite map_length, seq_length; exact Hj).
    unfold area_rows. rewrite nth_map_seq by exact Hj. unfold srow. cbn [nth]. unfold vget. destruct LB as [B1 B2 B3 _ _]. auto.
Qed.
Print Assumptions C48_area_averages.

(** The percentage deviations of the areas: 100 times the standard error over the mean
    (squared), zero without losses. *)
Theorem C48_percent_deviation : forall cf n iv it SU l r, levels_ok (NFCST cf) (NORR cf) -> length SU = S n -> (0 < n)%nat -> Forall (annual_ok n) l ->
  reported cf n iv it SU l r ->
  forall j, (j < n)%nat ->
  let v wn wt := map (wpart (NFCST cf) (Area j) wn wt Both) l in
  let sd2 xs := if qltb q0 (mean xs) then Qcdiv (Qcmult (qz 10000) (sq_err xs)) (qsq (mean xs)) else q0 in
  nth j (r_pctA2 r) [] = [sd2 (v Hourly LOLE); sd2 (v Hourly EUE); sd2 (v Peak LOLE)].
Proof.
  intros cf n iv it SU l r HL LS Hn F REP j Hj v sd2.
  destruct (C48_area_averages cf n iv it SU l r HL LS Hn F REP j Hj) as (_ & DV & _).
  destruct (reported_inv cf n iv it SU l r HL LS Hn F REP) as (l0 & a & s' & os & o & i & El & R & TH & TP & _ & _ & E).
  destruct (report_ok _ _ _ _ _ _ _ _ _ _ _ _ n LS Hn E) as (_ & _ & _ & _ & _ & _ & _ & _ & _ & _ & E11 & _).
  rewrite E11, nth_map_seq by exact Hj. rewrite DV.
  pose proof (area_avg_line cf n l (o_h o) (o_p o) TH TP (mk_line (qz (Z.of_nat (length l))) q0 q0 q0 q0) j Both Hj) as LB. cbn [code_cause] in LB. destruct LB as [B1 B2 B3 _ _].
  rewrite B1, B2, B3. unfold vget. cbn [nth].
  assert (EQ : forall xs, pct_sd2 (sq_err xs) (mean xs) = sd2 xs).
  { intros xs. unfold pct_sd2, sd2. destruct (qltb q0 (mean xs)) eqn:B; [|reflexivity]. apply (proj1 (qltb_iff _ _)) in B.
    assert (NZ : mean xs <> q0) by (intros K; rewrite K in B; apply (Qclt_not_eq _ _ B); reflexivity).
    unfold qsq. change (qz 10000) with (qz (100 * 100)). rewrite qz_mult. change q1 with 1%Qc. field. exact NZ. }
  rewrite !EQ. reflexivity.
Qed.
Print Assumptions C48_percent_deviation.
(** A year end that reports produces the report (for at least one area). *)
Theorem C48_report_produced : forall cf n SU s s' o, length SU = S n -> (0 < n)%nat -> o_report o = true ->
  exists r, year_report cf n SU s s' o = Some (Ok r).
Proof.
  intros cf n SU s s' o LS Hn OR. unfold year_report. rewrite OR. unfold report. cbv zeta. rewrite LS. replace (S n - 1)%nat with n by lia.
  destruct n as [|m]; [lia|]. unfold pool_row at 1. cbn [bind]. eauto.
Qed.
Print Assumptions C48_report_produced.

(** The distributions of every area. *)
Theorem C48_distributions : forall cf n iv it SU l r, levels_ok (NFCST cf) (NORR cf) -> 0 < LSTEP cf -> length SU = S n -> (0 < n)%nat ->
  Forall (annual_ok n) l -> Forall (annual_nonneg n) l -> reported cf n iv it SU l r ->
  exists HL DP EU, (exists s os, run_years cf n 0 (start_year n iv it) l = Ok (s, os) /\ HL = y_HL s /\ DP = y_DP s /\ EU = y_EU s) /\
  let y := Z.of_nat (length l) in
  forall j, (j < n)%nat ->
    distribution_ok (nth j (r_PHL r) []) /\ fraction_of (nth j (r_PHL r) []) (nth j HL []) y /\
    distribution_ok (nth j (r_PDP r) []) /\ fraction_of (nth j (r_PDP r) []) (nth j DP []) y /\
    distribution_ok (nth j (r_PEUE r) []) /\ fraction_of (nth j (r_PEUE r) []) (nth j EU []) y.
Proof.
  intros cf n iv it SU l r HL PL LS Hn F G REP.
  destruct (reported_inv cf n iv it SU l r HL LS Hn F REP) as (l0 & a & s' & os & o & i & El & R & TH & TP & _ & _ & E).
  destruct (report_ok _ _ _ _ _ _ _ _ _ _ _ _ n LS Hn E) as (_ & _ & _ & _ & _ & _ & _ & E8 & E9 & E10 & _).
  destruct (hist_invariant cf n iv it HL PL l s' (os ++ [o]) F G R) as [S1 S2 S3 M P].
  exists (y_HL s'), (y_DP s'), (y_EU s'). split; [exists s', (os ++ [o]); auto|]. intros y j Hj.
  destruct (M j Hj) as (M1 & M2 & M3). fold y in M1, M2, M3.
  assert (PY : 0 < y) by (unfold y; rewrite El, app_length; cbn [length]; lia).
  rewrite E8, E9, E10.
  destruct (distribution_fine n (y_HL s') (y_HL s') j S1 (proj1 S1) Hj) as (A1 & A2); [lia|reflexivity|intros k Hk; apply (P j k Hj Hk)|].
  destruct (distribution_fine n (y_DP s') (y_HL s') j S2 (proj1 S1) Hj) as (A3 & A4); [lia|lia|intros k Hk; apply (P j k Hj Hk)|].
  destruct (distribution_fine n (y_EU s') (y_EU s') j S3 (proj1 S3) Hj) as (A5 & A6); [lia|reflexivity|intros k Hk; apply (P j k Hj Hk)|].
  rewrite M1 in A2, A4. rewrite M3 in A6. repeat split; assumption || apply A1 || apply A3 || apply A5.
Qed.
Print Assumptions C48_distributions.

(** The pool's forecast-weighted averages are not averages: they are the last year's
    value divided by the number of years. *)
Theorem C48_pool_average_partial : forall cf n iv it SU l a r, levels_ok (NFCST cf) (NORR cf) -> length SU = S n -> (0 < n)%nat -> Forall (annual_ok n) (l ++ [a]) ->
  reported cf n iv it SU (l ++ [a]) r ->
  let y := qz (Z.of_nat (length (l ++ [a]))) in
  let r2 := nth 2 (r_pool_avg r) no_line in
  l_lol r2 = Qcdiv (wpart (NFCST cf) Pool Hourly LOLE Both a) y /\ l_eue r2 = Qcdiv (wpart (NFCST cf) Pool Hourly EUE Both a) y /\
  l_lolp r2 = Qcdiv (wpart (NFCST cf) Pool Peak LOLE Both a) y.
Proof.
  intros cf n iv it SU l a r HL LS Hn F REP y r2.
  destruct (reported_inv cf n iv it SU _ r HL LS Hn F REP) as (l0 & a0 & s' & os & o & i & El & R & TH & TP & (W1 & W2) & (W3 & _) & E).
  apply app_inj_tail in El. destruct El as [<- <-].
  destruct (report_ok _ _ _ _ _ _ _ _ _ _ _ _ n LS Hn E) as (_ & _ & _ & E4 & _).
  assert (ONE : forall f : annual -> Qc, ywsum f [a] = f a) by (intros; unfold ywsum; cbn [map]; rewrite qsum_cons, qsum_nil; qring).
  rewrite ONE in W1, W2, W3. unfold r2. rewrite E4. unfold pool_avg_lines. cbn [nth mk_line l_lol l_eue l_lolp]. rewrite W1, W2, W3. auto.
Qed.
Print Assumptions C48_pool_average_partial.
Theorem C48_pool_average_refuted : forall cf n iv it SU l a r, levels_ok (NFCST cf) (NORR cf) -> length SU = S n -> (0 < n)%nat -> Forall (annual_ok n) (l ++ [a]) ->
  reported cf n iv it SU (l ++ [a]) r ->
  qsum (map (wpart (NFCST cf) Pool Hourly LOLE Both) l) <> q0 ->
  l_lol (nth 2 (r_pool_avg r) no_line) <> mean (map (wpart (NFCST cf) Pool Hourly LOLE Both) (l ++ [a])).
Proof.
  intros cf n iv it SU l a r HL LS Hn F REP NZ K.
  destruct (C48_pool_average_partial cf n iv it SU l a r HL LS Hn F REP) as (E & _). rewrite E in K. unfold mean in K. rewrite map_length in K.
  set (y := qz (Z.of_nat (length (l ++ [a])))) in *.
  assert (NY : y <> q0) by (unfold y; intros Q; apply qz_inj in Q; rewrite app_length in Q; cbn [length] in Q; lia).
  rewrite map_app, qsum_app in K. cbn [map] in K. rewrite qsum_cons, qsum_nil in K.
  apply (f_equal (fun x => Qcmult x y)) in K.
  assert (D : forall x, Qcmult (Qcdiv x y) y = x) by (intros; field; exact NY). rewrite !D in K. apply NZ. qlra.
Qed.
Print Assumptions C48_pool_average_refuted.

(** Demonstration: the two demo years, the run reports at the end of year 2. *)
Definition demo_SU : list (list Qc) := [[qz 100; qz 120; q0; q0; q0; q0]; [qz 100; qz 180; q0; q0; q0; q0]; [q0; q0; q0; q0; q0; q0]].
Example C48_witness : exists r, reported demo_cfg 2 1 0 demo_SU demo_years r /\
  qsum (map (wpart 5 Pool Hourly LOLE Both) [(demo_h1, demo_h2)]) <> q0.
Proof.
  destruct demo_runs as (s2 & os2 & E). pose proof E as E0.
  change demo_years with ([(demo_h1, demo_h2)] ++ [(demo_h2, demo_h1)]) in E. apply run_snoc in E. destruct E as (s & os & o & R & Y & EO).
  pose proof (year_ok _ _ _ _ _ _ Y) as (h1 & d1 & e1 & RF & SSQ & XL & _ & _ & K). cbv zeta in K.
  destruct K as (_ & _ & _ & _ & _ & _ & _ & _ & _ & _ & _ & _ & _ & _ & _ & _ & _ & _ & OR & _).
  assert (O1 : o_report o = true). { rewrite OR. apply orb_true_iff. right. reflexivity. }
  assert (YR : exists r, year_report demo_cfg 2 demo_SU (with_annual s (demo_h2, demo_h1)) s2 o = Some (Ok r)).
  { unfold year_report. rewrite O1. unfold report. cbv zeta. cbn [length demo_SU Nat.sub]. unfold pool_row. cbn [bind]. eauto. }
  destruct YR as (r & YR). exists r. split.
  - exists [(demo_h1, demo_h2)], (demo_h2, demo_h1), s, os, s2, o. split; [reflexivity|]. split; [exact R|]. split; [exact Y|exact YR].
  - intros Q. apply (f_equal this) in Q. vm_compute in Q. discriminate.
Qed.

(** C49.  The pool row of the summary: load and capacity are the areas' sums, but the
    percentage is the last area's. *)
Theorem C49_pool_row_partial : forall cf n iv it SU l r, levels_ok (NFCST cf) (NORR cf) -> length SU = S n -> (0 < n)%nat -> Forall (annual_ok n) l ->
  (forall c, mget SU n c = q0) -> reported cf n iv it SU l r ->
  let load := qsum (map (fun j => mget SU j 0) (seq 0 n)) in
  let cap := qsum (map (fun j => mget SU j 1) (seq 0 n)) in
  mget (r_sustat r) n 0 = load /\ mget (r_sustat r) n 1 = cap /\
  ((q0 < mget SU (n - 1) 0)%Qc -> mget (r_sustat r) n 2 = reserve (mget SU (n - 1) 0) (mget SU (n - 1) 1)) /\
  (n = 1%nat -> (q0 < load)%Qc -> mget (r_sustat r) n 2 = reserve load cap) /\
  (forall j, (j < n)%nat -> (q0 < mget SU j 0)%Qc -> mget (r_sustat r) j 2 = reserve (mget SU j 0) (mget SU j 1)).
Proof.
  intros cf n iv it SU l r HL LS Hn F ZR REP load cap.
  destruct (reported_inv cf n iv it SU l r HL LS Hn F REP) as (l0 & a & s' & os & o & i & El & R & TH & TP & _ & _ & E).
  destruct (report_ok _ _ _ _ _ _ _ _ _ _ _ _ n LS Hn E) as (_ & _ & _ & _ & _ & _ & (prow & P & E7) & _).
  assert (LR : length (area_rows n SU (fun J => nth 2 (area_avg_lines (qz (Z.of_nat (length l))) (o_h o) (o_p o) J) (mk_line (qz (Z.of_nat (length l))) q0 q0 q0 q0))) = n)
    by (unfold area_rows; rewrite map_length, seq_length; reflexivity).
  assert (RN : nth n (r_sustat r) [] = prow). { rewrite E7. rewrite app_nth2 by lia. rewrite LR, Nat.sub_diag. reflexivity. }
  assert (PP : forall ld cp old, (q0 < ld)%Qc -> pct ld cp old = reserve ld cp).
  { intros ld cp old H. unfold pct. destruct (qltb q0 ld) eqn:B; [reflexivity|]. apply (proj2 (qltb_iff _ _)) in H. congruence. }
  assert (Z0 : forall c x, Qcplus (vget (nth n SU []) c) x = x) by (intros c x; specialize (ZR c); unfold mget in ZR; unfold vget; rewrite ZR; qring).
  assert (M : forall c, mget (r_sustat r) n c = vget prow c) by (intros c; unfold mget; rewrite RN; reflexivity).
  assert (EP : exists x3 x4 x5, prow = [load; cap; pct (mget SU (n - 1) 0) (mget SU (n - 1) 1) (vget (nth n SU []) 2); x3; x4; x5]).
  { unfold pool_row in P. destruct n as [|m]; [lia|]. cbv zeta in P. rewrite !Z0 in P. replace (S m - 1)%nat with m by lia.
    match type of P with Ok ?x = Ok ?y => assert (Q : x = y) by congruence end. rewrite <- Q. do 3 eexists. reflexivity. }
  destruct EP as (x3 & x4 & x5 & EP). rewrite !M, EP. unfold vget at 1 2 3 5. cbn [nth].
  split; [reflexivity|]. split; [reflexivity|]. split; [intros H; now apply PP|]. split.
  - intros H1 H2. subst n. unfold load, cap in *. cbn [seq map Nat.sub] in *. rewrite !qsum_cons, !qsum_nil in *.
    assert (A0 : forall x, Qcplus x q0 = x) by (intros; qring). rewrite !A0 in *. now apply PP.
  - intros j Hj H. rewrite E7. unfold mget at 1. rewrite app_nth1 by lia. unfold area_rows. rewrite nth_map_seq by exact Hj. unfold srow. cbn [nth]. unfold mget in H. unfold mget. now apply PP.
Qed.
Print Assumptions C49_pool_row_partial.
(** So it is not the pool's whenever the two differ, as in the two-area demonstration
    (pool 50 %, printed 80 %). *)
Theorem C49_pool_reserve_refuted : forall cf n iv it SU l r, levels_ok (NFCST cf) (NORR cf) -> length SU = S n -> (0 < n)%nat -> Forall (annual_ok n) l ->
  (forall c, mget SU n c = q0) -> reported cf n iv it SU l r -> (q0 < mget SU (n - 1) 0)%Qc ->
  let load := qsum (map (fun j => mget SU j 0) (seq 0 n)) in
  let cap := qsum (map (fun j => mget SU j 1) (seq 0 n)) in
  reserve load cap <> reserve (mget SU (n - 1) 0) (mget SU (n - 1) 1) -> mget (r_sustat r) n 2 <> reserve load cap.
Proof.
  intros cf n iv it SU l r HL LS Hn F ZR REP P load cap D K.
  destruct (C49_pool_row_partial cf n iv it SU l r HL LS Hn F ZR REP) as (_ & _ & E & _). apply D. rewrite <- K. exact (E P).
Qed.
Print Assumptions C49_pool_reserve_refuted.
Example C49_witness : (forall c, mget demo_SU 2 c = q0) /\ length demo_SU = 3%nat /\ (q0 < mget demo_SU 1 0)%Qc /\
  reserve (qsum (map (fun j => mget demo_SU j 0) (seq 0 2))) (qsum (map (fun j => mget demo_SU j 1) (seq 0 2))) = qz 50 /\
  reserve (mget demo_SU 1 0) (mget demo_SU 1 1) = qz 80 /\ exists r, reported demo_cfg 2 1 0 demo_SU demo_years r.
Proof.
  split; [intros c; unfold mget; cbn [demo_SU nth]; do 7 (destruct c as [|c]; [reflexivity|]); reflexivity|].
  split; [reflexivity|]. split; [apply qltb_iff; reflexivity|]. split; [apply Qc_is_canon; reflexivity|]. split; [apply Qc_is_canon; reflexivity|].
  destruct C48_witness as (r & H & _). exists r. exact H.
Qed.
