(** Property theorems C40-C46 and C62: year ends. *)
From Verif Require Import Base BaseProofs Sums LoadModel LoadSpec LoadProofs StatModel StatSpec StatProofs YearModel YearSpec YearProofs YearRun.
Open Scope Z_scope.

(** C40.  One year end: every cumulative statistic grows by the year's value; and
    over a run from the start they are the sums over the years. *)
Theorem C40_one_year : forall cf n clk s s' o, levels_ok (NFCST cf) (NORR cf) -> yst_shape n s ->
  year cf n clk s = Ok (s', o) ->
  cumul_grown n (NFCST cf) (y_h s) (y_ch s) (o_h o) /\ cumul_weighted (NFCST cf) (y_h s) (y_ch s) (o_h o) /\
  cumul_grown n (NFCST cf) (y_p s) (y_cp s) (o_p o) /\ cumul_weighted (NFCST cf) (y_p s) (y_cp s) (o_p o) /\
  cumul_grown n (NFCST cf) (y_h s) (y_ch s) (y_ch s') /\ cumul_grown n (NFCST cf) (y_p s) (y_cp s) (y_cp s') /\
  qs (NFCST cf) (level_weight (NFCST cf)) = q1.
Proof.
  intros cf n clk s s' o HL [] E. apply year_ok in E. destruct E as (H1 & D1 & E1 & R & SSQ & XL & _ & _ & E). cbv zeta in E.
  destruct E as (_ & _ & _ & Ech & Ecp & _ & _ & _ & _ & _ & _ & _ & _ & _ & Eoh & Eop & _).
  destruct (accumulate_spec _ _ n (y_h s) (y_ch s) HL ys_h ys_ch) as (S1 & G1 & W1).
  destruct (accumulate_spec _ _ n (y_p s) (y_cp s) HL ys_p ys_cp) as (S2 & G2 & W2).
  assert (KG : forall x c c', cumul_grown n (NFCST cf) x c c' -> cumul_grown n (NFCST cf) x c (keep_scalars c c')).
  { intros x c c' [A B [] []]. constructor; auto; constructor; auto. }
  rewrite Eoh, Eop, Ech, Ecp. split; [exact G1|]. split; [exact W1|]. split; [exact G2|]. split; [exact W2|].
  split; [apply KG; exact G1|]. split; [apply KG; exact G2|]. exact (weights_sum _ _ HL).
Qed.
Print Assumptions C40_one_year.

Theorem C40_sums_over_years : forall cf n iv it l s os, levels_ok (NFCST cf) (NORR cf) -> Forall (annual_ok n) l ->
  run_years cf n 0 (start_year n iv it) l = Ok (s, os) ->
  cumul_total n (NFCST cf) fst l (y_ch s) /\ cumul_total n (NFCST cf) snd l (y_cp s).
Proof. intros cf n iv it l s os HL F E. destruct (run_invariant cf n iv it HL l s os F E). auto. Qed.
Print Assumptions C40_sums_over_years.

(** Demonstration data: two areas, five levels, two years. *)
Definition demo_cfg : ycfg := mkYcfg 5 2 50 (qq 1 10) (qz (8760 * 2)) 1 0 1 2 1 1 1 0.
Definition demo_h1 : stat :=
  mkStat [[0; 0; 1; 2; 3]; [0; 0; 0; 0; 1]] [[0; 0; 0; 0; 1]; [0; 0; 0; 0; 0]] [[0; 0; 120; 300; 500]; [0; 0; 0; 0; 40]] [[0; 0; 0; 0; 9]; [0; 0; 0; 0; 0]]
         [0; 0; 1; 2; 3] [0; 0; 0; 0; 1] [0; 0; 120; 300; 540] [0; 0; 0; 0; 9].
Definition demo_h2 : stat :=
  mkStat [[0; 0; 0; 0; 1]; [0; 0; 0; 0; 0]] [[0; 0; 30; 30; 30]; [0; 0; 0; 0; 0]] [[0; 0; 0; 0; 7]; [0; 0; 0; 0; 0]] [[0; 0; 3000; 4000; 5000]; [0; 0; 0; 0; 0]]
         [0; 0; 0; 0; 1] [0; 0; 30; 30; 30] [0; 0; 0; 0; 7] [0; 0; 3000; 4000; 5000].
Definition demo_years : list annual := [(demo_h1, demo_h2); (demo_h2, demo_h1)].
Lemma demo_stat_ok s : s = demo_h1 \/ s = demo_h2 -> stat_shape 2 5 s /\ stat_nonneg 2 s.
Proof.
  intros [-> | ->]; (split; [constructor; try reflexivity; (split; [reflexivity|]); intros [|[|j]] Hj; (reflexivity || lia)|]);
    intros [|[|j]] [|[|[|[|[|k]]]]] Hj Hk; try lia; unfold zmget; cbn; lia.
Qed.
Lemma demo_years_ok : Forall (annual_ok 2) demo_years /\ Forall (annual_nonneg 2) demo_years.
Proof. split; repeat constructor; apply demo_stat_ok; auto. Qed.
Lemma demo_runs : exists s os, run_years demo_cfg 2 0 (start_year 2 1 0) demo_years = Ok (s, os).
Proof.
  apply run_succeeds; try apply demo_years_ok; [right; split; reflexivity|reflexivity|]. repeat constructor.
Qed.
Example C40_witness : levels_ok (NFCST demo_cfg) (NORR demo_cfg) /\ Forall (annual_ok 2) demo_years /\
  (exists s os, run_years demo_cfg 2 0 (start_year 2 1 0) demo_years = Ok (s, os)) /\
  ysum (fun y => zmget (lolT (fst y)) 0 2 + zmget (lolG (fst y)) 0 2) demo_years = 31.
Proof. split; [right; split; reflexivity|]. split; [apply demo_years_ok|]. split; [apply demo_runs|reflexivity]. Qed.

(** C41.  What a year end zeroes.  The pool's arrays are always zero at the used
    levels; the areas' arrays only at rows below the number of LEVELS and columns
    below the number of AREAS. *)
Theorem C41_reset_partial : forall cf n clk s s' o, levels_ok (NFCST cf) (NORR cf) -> yst_shape n s ->
  year cf n clk s = Ok (s', o) ->
  (forall k, (k < NFCST cf)%nat -> zget (plolG (y_h s')) k = 0 /\ zget (plolT (y_h s')) k = 0 /\ zget (pmgnG (y_h s')) k = 0 /\ zget (pmgnT (y_h s')) k = 0) /\
  (forall k, (k < NFCST cf)%nat -> zget (plolG (y_p s')) k = 0 /\ zget (plolT (y_p s')) k = 0 /\ zget (pmgnG (y_p s')) k = 0 /\ zget (pmgnT (y_p s')) k = 0) /\
  (n = NFCST cf -> unused_zero n (NFCST cf) (y_h s) -> unused_zero n (NFCST cf) (y_p s) -> y_h s' = first_stat n /\ y_p s' = first_stat n).
Proof.
  intros cf n clk s s' o HL [] E. destruct (levels_le _ _ HL) as (L5 & _ & _).
  apply year_ok in E. destruct E as (H1 & D1 & E1 & R & SSQ & XL & _ & _ & E). cbv zeta in E.
  destruct E as (_ & Eh & Ep & _).
  assert (PZ : forall x k, (k < NFCST cf)%nat -> zget (plolG (reset (NFCST cf) n x)) k = 0 /\ zget (plolT (reset (NFCST cf) n x)) k = 0 /\
                 zget (pmgnG (reset (NFCST cf) n x)) k = 0 /\ zget (pmgnT (reset (NFCST cf) n x)) k = 0).
  { intros x k Hk. cbn [reset plolG plolT pmgnG pmgnT]. rewrite !zfirst_get. destruct (Nat.ltb_spec k (NFCST cf)); [auto|lia]. }
  rewrite Eh, Ep. split; [intros; now apply PZ|]. split; [intros; now apply PZ|].
  intros EN Uh Up.
  assert (AZ : forall x, stat_shape n 5 x -> unused_zero n (NFCST cf) x -> reset (NFCST cf) n x = first_stat n).
  { intros x Sx (UA & UP). pose proof (reset_shape (NFCST cf) n n 5 x Sx) as SR. pose proof (first_stat_shape n) as SF.
    assert (AE : forall M, shape n 5 M -> (forall j k, (j < n)%nat -> (NFCST cf <= k < 5)%nat -> zmget M j k = 0) -> reset_area (NFCST cf) n M = repeat (repeat 0 5) n).
    { intros M SM U. apply (shape_ext n 5); [now apply reset_area_shape|apply (shape_repeat 0)|].
      intros j k Hj Hk. rewrite (reset_area_get _ _ n 5) by auto. rewrite zmget_repeat0.
      destruct (Nat.ltb_spec j (NFCST cf)); cbn [andb]; [|lia]. destruct (Nat.ltb_spec k n); [reflexivity|]. apply U; lia. }
    assert (VE : forall v, length v = 5%nat -> (forall k, (NFCST cf <= k < 5)%nat -> zget v k = 0) -> zfirst (NFCST cf) v = repeat 0 5).
    { intros v Lv U. apply (nth_ext _ _ 0 0); [rewrite zfirst_length, repeat_length; auto|]. intros k Hk. rewrite zfirst_length, Lv in Hk.
      change (zget (zfirst (NFCST cf) v) k = zget (repeat 0 5) k). rewrite zfirst_get, zget_repeat0. destruct (Nat.ltb_spec k (NFCST cf)); [reflexivity|]. apply U; lia. }
    destruct Sx. unfold reset, first_stat. f_equal; try (apply AE; auto; intros j k Hj Hk; destruct (UA j k Hj Hk) as (? & ? & ? & ?); auto);
      apply VE; auto; intros k Hk; destruct (UP k Hk) as (? & ? & ? & ?); auto. }
  split; apply AZ; auto.
Qed.
Print Assumptions C41_reset_partial.

(** Unless the numbers of areas and of levels are equal, some entry in use is never
    cleared: every year end carries it over into the next year. *)
Theorem C41_reset_refuted : forall NF NO n, levels_ok NF NO -> (0 < n)%nat -> n <> NF ->
  exists j k, (j < n)%nat /\ (k < NF)%nat /\
  forall cf clk s s' o, NFCST cf = NF -> NORR cf = NO -> yst_shape n s -> year cf n clk s = Ok (s', o) ->
    zmget (lolG (y_h s')) j k = zmget (lolG (y_h s)) j k /\ zmget (lolT (y_h s')) j k = zmget (lolT (y_h s)) j k /\
    zmget (mgnG (y_h s')) j k = zmget (mgnG (y_h s)) j k /\ zmget (mgnT (y_h s')) j k = zmget (mgnT (y_h s)) j k /\
    zmget (lolG (y_p s')) j k = zmget (lolG (y_p s)) j k /\ zmget (lolT (y_p s')) j k = zmget (lolT (y_p s)) j k.
Proof.
  intros NF NO n HL Hn NE.
  assert (EX : exists j k, (j < n)%nat /\ (k < NF)%nat /\ ((Nat.ltb j NF) && (Nat.ltb k n))%bool = false).
  { destruct (lt_eq_lt_dec n NF) as [[L|E]|G]; [exists 0%nat, n|contradiction|exists NF, 0%nat].
    - split; [exact Hn|]. split; [exact L|]. rewrite (Nat.ltb_irrefl n). apply andb_false_r.
    - split; [exact G|]. split; [destruct HL; lia|]. rewrite (Nat.ltb_irrefl NF). reflexivity. }
  destruct EX as (j & k & Hj & Hk & B). exists j, k. split; [exact Hj|]. split; [exact Hk|].
  intros cf clk s s' o EF EN [] E. apply year_ok in E. destruct E as (H1 & D1 & E1 & R & SSQ & XL & _ & _ & E). cbv zeta in E.
  destruct E as (_ & Eh & Ep & _). rewrite Eh, Ep, EF. destruct ys_h, ys_p. cbn [reset lolG lolT mgnG mgnT].
  rewrite !(reset_area_get NF n n 5) by auto. rewrite B. repeat split; reflexivity.
Qed.
Print Assumptions C41_reset_refuted.
(** The two-area five-level case: the losses of area 0 at level 2 (the central level)
    reappear in the next year. *)
Example C41_refuted_witness : exists s s' o, yst_shape 2 s /\ year demo_cfg 2 (qz 8760) s = Ok (s', o) /\
  zmget (lolG (y_h s)) 0 2 = 1 /\ zmget (lolG (y_h s')) 0 2 = 1.
Proof.
  destruct (year_succeeds demo_cfg 2 (qz 8760) (with_annual (start_year 2 1 0) (demo_h1, demo_h2))) as (s' & o & E);
    try (right; split; reflexivity); try apply demo_stat_ok; auto; try reflexivity; try apply (shape_repeat 0).
  exists (with_annual (start_year 2 1 0) (demo_h1, demo_h2)), s', o.
  split; [|split; [exact E|split; [reflexivity|]]].
  - constructor; cbn [with_annual start_year y_h y_p y_ch y_cp y_HL y_DP y_EU y_XA y_XP fst snd]; try (apply demo_stat_ok; auto); try apply zero_cumul_shape; try apply (shape_repeat 0); try apply (shape_repeat q0); reflexivity.
  - apply year_ok in E. destruct E as (H1 & D1 & E1 & R & SSQ & XL & _ & _ & E). cbv zeta in E. destruct E as (_ & -> & _). reflexivity.
Qed.
Example C41_partial_witness : unused_zero 5 5 (first_stat 5) /\ yst_shape 5 (start_year 5 1 0).
Proof.
  split; [split; intros; lia|].
  constructor; cbn [start_year y_h y_p y_ch y_cp y_HL y_DP y_EU y_XA y_XP]; try apply first_stat_shape; try apply zero_cumul_shape; try apply (shape_repeat 0); try apply (shape_repeat q0); reflexivity.
Qed.

(** C42.  The pool's weighted totals seen by the convergence test and by the report
    of year end number |l|+1 are those of that year alone. *)
Theorem C42_last_year_only_partial : forall cf n iv it l a s os o, levels_ok (NFCST cf) (NORR cf) -> Forall (annual_ok n) (l ++ [a]) ->
  run_years cf n 0 (start_year n iv it) (l ++ [a]) = Ok (s, os ++ [o]) ->
  pool_weights (NFCST cf) fst [a] (o_h o) /\ pool_weights (NFCST cf) snd [a] (o_p o).
Proof.
  intros cf n iv it l a s os o HL F E. apply Forall_app in F. destruct F as [Fl Fa]. apply Forall_inv in Fa.
  apply run_snoc in E. destruct E as (s1 & os1 & o1 & R & Y & EO). apply app_inj_tail in EO. destruct EO as [_ <-].
  pose proof (run_invariant cf n iv it HL l s1 os1 Fl R) as INV.
  destruct (run_step cf n l a s1 s o (0 + Z.of_nat (length l)) HL INV Fa Y) as (_ & _ & _ & W1 & W2). auto.
Qed.
Print Assumptions C42_last_year_only_partial.

(** So they are not the sums over the years as soon as an earlier year had a pool loss. *)
Theorem C42_pool_sum_refuted : forall cf n iv it l a s os o, levels_ok (NFCST cf) (NORR cf) -> Forall (annual_ok n) (l ++ [a]) ->
  run_years cf n 0 (start_year n iv it) (l ++ [a]) = Ok (s, os ++ [o]) ->
  ywsum (annual_value (NFCST cf) (NORR cf) Pool Hourly LOLE Weighted) l <> q0 ->
  ~ pool_weights (NFCST cf) fst (l ++ [a]) (o_h o).
Proof.
  intros cf n iv it l a s os o HL F E NZ [P _].
  destruct (C42_last_year_only_partial cf n iv it l a s os o HL F E) as ((P1 & _) & _).
  rewrite P in P1. rewrite ywsum_snoc in P1. apply NZ.
  change (Qcplus (ywsum (annual_value (NFCST cf) (NORR cf) Pool Hourly LOLE Weighted) l)
            (expected (NFCST cf) (fun k => zget (plolT (fst a)) k + zget (plolG (fst a)) k)) =
          Qcplus (expected (NFCST cf) (fun k => zget (plolT (fst a)) k + zget (plolG (fst a)) k)) q0) in P1.
  qlra.
Qed.
Print Assumptions C42_pool_sum_refuted.
Example C42_refuted_witness : exists s os o, run_years demo_cfg 2 0 (start_year 2 1 0) ([(demo_h1, demo_h2)] ++ [(demo_h2, demo_h1)]) = Ok (s, os ++ [o]) /\
  ywsum (annual_value (NFCST demo_cfg) (NORR demo_cfg) Pool Hourly LOLE Weighted) [(demo_h1, demo_h2)] <> q0.
Proof.
  destruct demo_runs as (s & os & E). pose proof E as E0.
  change demo_years with ([(demo_h1, demo_h2)] ++ [(demo_h2, demo_h1)]) in E. apply run_snoc in E. destruct E as (s1 & os1 & o & _ & _ & ->).
  exists s, os1, o. split; [exact E0|]. intros K. apply (f_equal this) in K. vm_compute in K. discriminate.
Qed.

(** C43.  One year: each of the three histograms of every area gets one observation,
    at the bin of its statistic at the central level (bin 21, the last, for 21 or
    more hours / days / steps). *)
Definition bin_of (x : Z) : nat := Z.to_nat (Z.min 21 x).
Theorem C43_one_observation : forall cf n clk s s' o, levels_ok (NFCST cf) (NORR cf) -> 0 < LSTEP cf ->
  yst_shape n s -> stat_nonneg n (y_h s) -> stat_nonneg n (y_p s) -> year cf n clk s = Ok (s', o) ->
  let k := NORR cf in
  observed n (y_HL s) (y_HL s') (fun j => bin_of (zmget (lolT (y_h s)) j k + zmget (lolG (y_h s)) j k)) /\
  observed n (y_DP s) (y_DP s') (fun j => bin_of (zmget (lolT (y_p s)) j k + zmget (lolG (y_p s)) j k)) /\
  observed n (y_EU s) (y_EU s') (fun j => bin_of ((zmget (mgnT (y_h s)) j k + zmget (mgnG (y_h s)) j k) / LSTEP cf)).
Proof. intros cf n clk s s' o HL PL [] Nh Np E k. apply (year_hist cf n clk s s' o HL PL); auto. Qed.
Print Assumptions C43_one_observation.
Theorem C43_mass_is_years : forall cf n iv it l, levels_ok (NFCST cf) (NORR cf) -> 0 < LSTEP cf ->
  Forall (annual_ok n) l -> Forall (annual_nonneg n) l -> Forall (fun a => print_fails cf (fst a) = false) l ->
  exists s os, run_years cf n 0 (start_year n iv it) l = Ok (s, os) /\
  forall j, (j < n)%nat ->
    mass (y_HL s) j = Z.of_nat (length l) /\ mass (y_DP s) j = Z.of_nat (length l) /\ mass (y_EU s) j = Z.of_nat (length l) /\
    forall i, (i < 22)%nat -> 0 <= zmget (y_HL s) j i /\ 0 <= zmget (y_DP s) j i /\ 0 <= zmget (y_EU s) j i.
Proof.
  intros cf n iv it l HL PL F G P. destruct (run_succeeds cf n iv it HL PL l F G P) as (s & os & E). exists s, os. split; [exact E|].
  destruct (hist_invariant cf n iv it HL PL l s os F G E) as [_ _ _ M PO]. intros j Hj. destruct (M j Hj) as (A & B & C). repeat split; auto; apply (PO j i Hj H).
Qed.
Print Assumptions C43_mass_is_years.
(** A step of zero (an input MAXEUE below 20) stops the run at the first year end. *)
Theorem C43_zero_step_fails : forall cf n clk s, LSTEP cf = 0 -> (0 < n)%nat -> yst_shape n s ->
  exists e, year cf n clk s = Err e /\ (e = ValueError \/ e = OverflowError).
Proof.
  intros cf n clk s HL Hn []. unfold year. cbv zeta.
  pose proof (hist_vals_length (NORR cf) n _ _ ys_h ys_p) as LV.
  destruct (hist_vals (NORR cf) (y_h s) (y_p s)) as [|[[lh lp] mh] vs]; [cbn in LV; lia|].
  destruct ys_HL as [L1 _], ys_DP as [L2 _], ys_EU as [L3 _].
  destruct (y_HL s) as [|a ?]; [cbn in L1; lia|]. destruct (y_DP s) as [|b ?]; [cbn in L2; lia|]. destruct (y_EU s) as [|c ?]; [cbn in L3; lia|].
  cbn [hist_areas]. unfold hist_area, eue_bin. rewrite HL. cbn [Z.eqb bind]. eexists. split; [reflexivity|]. destruct (mh =? 0); auto.
Qed.
Print Assumptions C43_zero_step_fails.
Example C43_witness : 0 < LSTEP demo_cfg /\ Forall (annual_ok 2) demo_years /\ Forall (annual_nonneg 2) demo_years /\
  Forall (fun a => print_fails demo_cfg (fst a) = false) demo_years /\
  bin_of (zmget (lolT demo_h2) 0 2 + zmget (lolG demo_h2) 0 2) = 21%nat /\
  bin_of ((zmget (mgnT demo_h1) 0 2 + zmget (mgnG demo_h1) 0 2) / LSTEP demo_cfg) = 2%nat /\
  yst_shape 2 (start_year 2 1 0).
Proof.
  split; [reflexivity|]. split; [apply demo_years_ok|]. split; [apply demo_years_ok|]. split; [repeat constructor|]. split; [reflexivity|]. split; [reflexivity|].
  constructor; cbn [start_year y_h y_p y_ch y_cp y_HL y_DP y_EU y_XA y_XP]; try apply first_stat_shape; try apply zero_cumul_shape; try apply (shape_repeat 0); try apply (shape_repeat q0); reflexivity.
Qed.

(** C44.  The test, for every history of yearly values, one answer per year. *)
Lemma cv_run_spec fin cv : forall xs pre Rs s l,
  cv_run fin cv (Z.of_nat (length pre)) (qsum pre) (qsum pre) (qsum (map qsq pre)) xs = (Rs, s, l) ->
  length Rs = length xs /\ s = qsum (map qsq (pre ++ xs)) /\ l = qsum (pre ++ xs) /\
  forall i, (i < length xs)%nat ->
    (zget Rs i = 0 \/ zget Rs i = 1) /\
    (zget Rs i = 1 <-> (fin <= qz (8760 * (Z.of_nat (length pre) + Z.of_nat i + 1)))%Qc \/ converged cv (pre ++ firstn (S i) xs)).
Proof.
  induction xs as [|x r IH]; intros pre Rs s l E; cbn [cv_run] in E.
  - injection E as <- <- <-. rewrite app_nil_r. repeat split; try reflexivity; cbn in H; lia.
  - assert (SX : Qcplus (qsum pre) x = qsum (pre ++ [x])) by (rewrite qsum_app, qsum_cons, qsum_nil; qring).
    assert (LX : Z.of_nat (length pre) + 1 = Z.of_nat (length (pre ++ [x]))) by (rewrite app_length; cbn [length]; lia).
    rewrite SX, LX in E.
    destruct (cvchk_spec (qz (8760 * Z.of_nat (length (pre ++ [x])))) fin cv (pre ++ [x])) with (XL := qsum pre) (SSQ := qsum (map qsq pre)) as (R & CV & R01 & RI).
    { destruct pre; discriminate. }
    { rewrite map_app, !qsum_app. cbn [map]. rewrite !qsum_cons, !qsum_nil. unfold qsq. qring. }
    rewrite CV in E. destruct (cv_run fin cv (Z.of_nat (length (pre ++ [x]))) (qsum (pre ++ [x])) (qsum (pre ++ [x])) (qsum (map qsq (pre ++ [x]))) r) as [[Rs' s'] l'] eqn:ER.
    injection E as <- <- <-. destruct (IH (pre ++ [x]) Rs' s' l' ER) as (L1 & E1 & E2 & K). rewrite <- app_assoc in E1, E2.
    split; [cbn [length]; now rewrite L1|]. split; [exact E1|]. split; [exact E2|].
    intros [|i] Hi; cbn [length] in Hi.
    + unfold zget. cbn [nth firstn]. rewrite <- LX in RI. replace (Z.of_nat (length pre) + Z.of_nat 0 + 1) with (Z.of_nat (length pre) + 1) by lia. auto.
    + destruct (K i ltac:(lia)) as (K1 & K2). split; [exact K1|]. cbn [firstn]. unfold zget in *. cbn [nth].
      rewrite <- app_assoc in K2. rewrite <- LX in K2. replace (Z.of_nat (length pre) + Z.of_nat (S i) + 1) with (Z.of_nat (length pre) + 1 + Z.of_nat i + 1) by lia. exact K2.
Qed.
Theorem C44_every_history : forall fin cv xs Rs s l, cv_run fin cv 0 q0 q0 q0 xs = (Rs, s, l) ->
  length Rs = length xs /\ s = qsum (map qsq xs) /\ l = qsum xs /\
  forall i, (i < length xs)%nat ->
    (zget Rs i = 0 \/ zget Rs i = 1) /\
    (zget Rs i = 1 <-> (fin <= qz (8760 * (Z.of_nat i + 1)))%Qc \/ converged cv (firstn (S i) xs)).
Proof.
  intros fin cv xs Rs s l E. destruct (cv_run_spec fin cv xs [] Rs s l E) as (A & B & C & D). cbn [app length] in *.
  split; [exact A|]. split; [exact B|]. split; [exact C|]. intros i Hi. destruct (D i Hi) as (D1 & D2). split; [exact D1|]. exact D2.
Qed.
Print Assumptions C44_every_history.
Theorem C44_versions_agree : forall clk fin y cv SUM XL SSQ, cvchk clk fin y cv SUM XL SSQ = cvchk_loop clk fin y cv SUM XL SSQ.
Proof. exact cvchk_versions. Qed.
Print Assumptions C44_versions_agree.
(** In a run: the flag returned by a year end is the test on the selected yearly values. *)
Theorem C44_in_a_run : forall cf n iv it pl wn wt b l a s os o, levels_ok (NFCST cf) (NORR cf) ->
  selected cf n pl wn wt b -> ~ (pl = Pool /\ b = Weighted) -> Forall (annual_ok n) (l ++ [a]) ->
  run_years cf n 0 (start_year n iv it) (l ++ [a]) = Ok (s, os ++ [o]) ->
  let y := Z.of_nat (length (l ++ [a])) in
  o_year o = y /\
  (o_rflag o = 1 <-> (YFINISH cf <= qz (8760 * y))%Qc \/ converged (CVTEST cf) (map (annual_value (NFCST cf) (NORR cf) pl wn wt b) (l ++ [a]))).
Proof.
  intros cf n iv it pl wn wt b l a s os o HL SEL NP F E y.
  destruct (run_convergence cf n iv it pl wn wt b HL SEL NP (l ++ [a]) s (os ++ [o]) F E) as (_ & _ & K).
  destruct (K l a os o eq_refl eq_refl) as (_ & K2 & K3). auto.
Qed.
Print Assumptions C44_in_a_run.
(** Six years, 10% tolerance: converged from year 6 on, not at year 5. *)
Definition demo_values : list Qc := [qz 10; qz 12; qz 4; qz 10; qz 9; qz 10; qz 10; qz 10; qz 10].
Example C44_witness : fst (fst (cv_run (qz 87600) (qq 1 10) 0 q0 q0 q0 demo_values)) = [0; 0; 0; 0; 0; 0; 1; 1; 1].
Proof. vm_compute. reflexivity. Qed.

(** C45.  The quantity tested: the sum of the selected yearly values, except for the
    pool's weighted value, which is last year's only. *)
Theorem C45_selection_partial : forall cf n iv it pl wn wt b l a s os o, levels_ok (NFCST cf) (NORR cf) ->
  selected cf n pl wn wt b -> Forall (annual_ok n) (l ++ [a]) ->
  run_years cf n 0 (start_year n iv it) (l ++ [a]) = Ok (s, os ++ [o]) ->
  let x := annual_value (NFCST cf) (NORR cf) pl wn wt b in
  select cf (o_h o) (o_p o) = match pl, b with Pool, Weighted => x a | _, _ => qsum (map x (l ++ [a])) end.
Proof.
  intros cf n iv it pl wn wt b l a s os o HL SEL F E x.
  pose proof (C42_last_year_only_partial cf n iv it l a s os o HL F E) as ((WH1 & WH2) & WP1 & WP2).
  pose proof F as F0. apply Forall_app in F0. destruct F0 as [Fl Fa]. apply Forall_inv in Fa.
  apply run_snoc in E. destruct E as (s1 & os1 & o1 & R & Y & EO). apply app_inj_tail in EO. destruct EO as [_ <-].
  pose proof (run_invariant cf n iv it HL l s1 os1 Fl R) as INV.
  destruct (run_step cf n l a s1 s o (0 + Z.of_nat (length l)) HL INV Fa Y) as (_ & TH & TP & _).
  assert (ONE : forall f : annual -> Qc, ywsum f [a] = f a) by (intros; unfold ywsum; cbn [map]; rewrite qsum_cons, qsum_nil; qring).
  rewrite ONE in WH1, WH2, WP1, WP2.
  destruct pl as [j|]; [|destruct b].
  - destruct b; rewrite (select_total cf n (l ++ [a]) _ _ (Area j) wn wt _ HL SEL TH TP) by (intros [K _]; discriminate); reflexivity.
  - destruct SEL as (EW & EN & ES & ET & _). unfold select, x. rewrite EW, EN, ES, ET.
    destruct wn, wt; cbn [code_where code_when code_what code_basis Z.eqb Pos.eqb annual_value]; assumption.
  - rewrite (select_total cf n (l ++ [a]) _ _ Pool wn wt _ HL SEL TH TP) by (intros [_ K]; discriminate). reflexivity.
Qed.
Print Assumptions C45_selection_partial.
(** Hence for the default selection, the pool's weighted hourly LOLE, the quantity
    tested is wrong from the second year on, whenever an earlier year had a loss. *)
Theorem C45_pool_weighted_refuted : forall cf n iv it wn wt l a s os o, levels_ok (NFCST cf) (NORR cf) ->
  selected cf n Pool wn wt Weighted -> Forall (annual_ok n) (l ++ [a]) ->
  run_years cf n 0 (start_year n iv it) (l ++ [a]) = Ok (s, os ++ [o]) ->
  let x := annual_value (NFCST cf) (NORR cf) Pool wn wt Weighted in
  qsum (map x l) <> q0 -> select cf (o_h o) (o_p o) <> qsum (map x (l ++ [a])).
Proof.
  intros cf n iv it wn wt l a s os o HL SEL F E x NZ K.
  rewrite (C45_selection_partial cf n iv it Pool wn wt Weighted l a s os o HL SEL F E) in K. fold x in K.
  rewrite map_app, qsum_app in K. cbn [map] in K. rewrite qsum_cons, qsum_nil in K. apply NZ. qlra.
Qed.
Print Assumptions C45_pool_weighted_refuted.
Example C45_witness : selected demo_cfg 2 Pool Hourly LOLE Weighted /\
  selected (mkYcfg 5 2 50 (qq 1 10) (qz (8760 * 2)) 1 0 1 1 2 2 2 1) 2 (Area 1) Peak EUE Central /\
  qsum (map (annual_value 5 2 Pool Hourly LOLE Weighted) [(demo_h1, demo_h2)]) <> q0.
Proof.
  split; [repeat split|]. split; [repeat split; auto|].
  intros K. apply (f_equal this) in K. vm_compute in K. discriminate.
Qed.

(** C46.  First checkpoint year iv, interval INTV. *)
Theorem C46_checkpoint_years : forall cf n iv it l a s os o, 0 < INTV cf -> 0 < iv ->
  run_years cf n 0 (start_year n iv it) (l ++ [a]) = Ok (s, os ++ [o]) ->
  let y := Z.of_nat (length (l ++ [a])) in
  (o_ckpt o = true <-> (exists m, 0 <= m /\ y = iv + m * INTV cf) \/ y = qtrunc (Qcdiv (YFINISH cf) (qz 8760))).
Proof.
  intros cf n iv it l a s os o PI PV E y. destruct (run_checkpoints cf n iv it PI PV (l ++ [a]) s (os ++ [o]) E) as (_ & K).
  specialize (K l a os o eq_refl eq_refl). cbv zeta in K. fold y in K. rewrite K.
  assert ((iv <= y /\ (y - iv) mod INTV cf = 0) <-> (exists m, 0 <= m /\ y = iv + m * INTV cf)) as ->; [|reflexivity].
  split.
  - intros (A & B). exists ((y - iv) / INTV cf). split; [apply Z.div_pos; lia|].
    pose proof (Z.div_mod (y - iv) (INTV cf) ltac:(lia)). lia.
  - intros (m & Hm & Ey). split; [nia|]. replace (y - iv) with (m * INTV cf) by lia. apply Z_mod_mult.
Qed.
Print Assumptions C46_checkpoint_years.
Example C46_witness : 0 < INTV demo_cfg /\ exists s os o, run_years demo_cfg 2 0 (start_year 2 2 0) ([(demo_h1, demo_h2)] ++ [(demo_h2, demo_h1)]) = Ok (s, os ++ [o]) /\
  map o_ckpt (os ++ [o]) = [false; true].
Proof.
  split; [reflexivity|].
  destruct (run_succeeds demo_cfg 2 2 0 (or_intror (conj eq_refl eq_refl)) eq_refl demo_years (proj1 demo_years_ok) (proj2 demo_years_ok)) as (s & os & E); [repeat constructor|].
  pose proof E as E0. change demo_years with ([(demo_h1, demo_h2)] ++ [(demo_h2, demo_h1)]) in E. apply run_snoc in E. destruct E as (s1 & os1 & o & R1 & _ & ->).
  exists s, os1, o. split; [exact E0|].
  assert (KEY : match run_years demo_cfg 2 0 (start_year 2 2 0) demo_years with Ok (_, os) => map o_ckpt os | Err _ => [] end = [false; true]) by (vm_compute; reflexivity).
  rewrite E0 in KEY. exact KEY.
Qed.

(** C62.  Annual printing: with a header style other than 1, a year without a
    generation-caused pool loss at the first level stops the run. *)
Theorem C62_annual_print_refuted : forall cf n clk s, levels_ok (NFCST cf) (NORR cf) -> 0 < LSTEP cf -> IOJ cf <> 0 -> INDX cf <> 1 ->
  yst_shape n s -> stat_nonneg n (y_h s) -> stat_nonneg n (y_p s) -> zget (plolG (y_h s)) 0 <= 0 ->
  year cf n clk s = Err UnboundLocalError.
Proof.
  intros cf n clk s HL PL I0 I1 [] Nh Np Z0. destruct (levels_le _ _ HL) as (L5 & LN & _). unfold year. cbv zeta.
  pose proof (hist_vals_length (NORR cf) n _ _ ys_h ys_p) as LV.
  rewrite (hist_areas_spec (LSTEP cf) PL _ _ _ _ n LV ys_HL ys_DP ys_EU) by (apply (hist_vals_ok _ n); auto; lia).
  cbn [bind]. unfold print_fails. destruct (Z.eqb_spec (IOJ cf) 0); [contradiction|]. destruct (Z.eqb_spec (INDX cf) 1); [contradiction|].
  destruct (Z.leb_spec (zget (plolG (y_h s)) 0) 0); [reflexivity|lia].
Qed.
Print Assumptions C62_annual_print_refuted.
Theorem C62_annual_print_partial : forall cf n clk s, levels_ok (NFCST cf) (NORR cf) -> 0 < LSTEP cf ->
  IOJ cf = 0 \/ INDX cf = 1 \/ 0 < zget (plolG (y_h s)) 0 ->
  yst_shape n s -> stat_nonneg n (y_h s) -> stat_nonneg n (y_p s) ->
  exists s' o, year cf n clk s = Ok (s', o).
Proof.
  intros cf n clk s HL PL C [] Nh Np. apply year_succeeds; auto. unfold print_fails.
  destruct C as [-> | [-> | Z0]]; [reflexivity|apply andb_false_iff; left; apply andb_false_r|].
  apply andb_false_iff. right. apply Z.leb_gt. lia.
Qed.
Print Assumptions C62_annual_print_partial.
Example C62_witness : yst_shape 2 (start_year 2 1 0) /\ stat_nonneg 2 (first_stat 2) /\ zget (plolG (first_stat 2)) 0 <= 0 /\
  year (mkYcfg 5 2 50 (qq 1 10) (qz (8760 * 2)) 1 1 2 2 1 1 1 0) 2 (qz 8760) (start_year 2 1 0) = Err UnboundLocalError.
Proof.
  split.
  - constructor; cbn [start_year y_h y_p y_ch y_cp y_HL y_DP y_EU y_XA y_XP]; try apply first_stat_shape; try apply zero_cumul_shape; try apply (shape_repeat 0); try apply (shape_repeat q0); reflexivity.
  - split; [|split; [reflexivity|vm_compute; reflexivity]].
    intros j k Hj Hk. unfold first_stat. cbn [lolG lolT mgnG mgnT]. rewrite !zmget_repeat0. lia.
Qed.
