(** Specification vocabulary for the year-end accumulation and convergence test. *)
From Verif Require Import Base Sums LoadSpec StatModel StatSpec YearModel.
Open Scope Z_scope.

(** One forecast level, or five. *)
Definition levels_ok (NF NO : nat) : Prop := (NF = 1 /\ NO = 0)%nat \/ (NF = 5 /\ NO = 2)%nat.

(** Probability of forecast level k when NF levels are used. *)
Definition level_weight (NF k : nat) : Qc :=
  match NF with
  | 1%nat => q1
  | _ => match k with 0%nat | 4%nat => qq 668 10000 | 1%nat | 3%nat => qq 2417 10000 | _ => qq 383 1000 end
  end.
(** Forecast-weighted value of an annual statistic, [f k] its value at level k. *)
Definition expected (NF : nat) (f : nat -> Z) : Qc := qs NF (fun k => Qcmult (level_weight NF k) (qz (f k))).

(** An accumulated area statistic of n areas has grown by the annual generation part
    g and transmission part t (area, level); nothing changes at the unused levels. *)
Record acc_grown (n NF : nat) (g t : nat -> nat -> Z) (a a' : acc) : Prop := mkAccGrown {
  ag_G : forall j k, (j < n)%nat -> (k < 5)%nat -> zmget (aG a') j k = zmget (aG a) j k + (if Nat.ltb k NF then g j k else 0);
  ag_T : forall j k, (j < n)%nat -> (k < 5)%nat -> zmget (aT a') j k = zmget (aT a) j k + (if Nat.ltb k NF then t j k else 0);
  ag_S : forall j k, (j < n)%nat -> (k < 5)%nat -> zmget (aS a') j k = zmget (aS a) j k + (if Nat.ltb k NF then t j k + g j k else 0);
  ag_wG : forall j, (j < n)%nat -> vget (wG a') j = Qcplus (vget (wG a) j) (expected NF (g j));
  ag_wT : forall j, (j < n)%nat -> vget (wT a') j = Qcplus (vget (wT a) j) (expected NF (t j));
  ag_wS : forall j, (j < n)%nat -> vget (wS a') j = Qcplus (vget (wS a) j) (expected NF (fun k => t j k + g j k)) }.
(** The same for the pool: without and with the weighted totals. *)
Record pool_grown (NF : nat) (g t : nat -> Z) (a a' : pacc) : Prop := mkPoolGrown {
  pg_G : forall k, (k < 5)%nat -> zget (pG a') k = zget (pG a) k + (if Nat.ltb k NF then g k else 0);
  pg_T : forall k, (k < 5)%nat -> zget (pT a') k = zget (pT a) k + (if Nat.ltb k NF then t k else 0);
  pg_S : forall k, (k < 5)%nat -> zget (pS a') k = zget (pS a) k + (if Nat.ltb k NF then t k + g k else 0) }.
Record pool_weighted (NF : nat) (g t : nat -> Z) (a a' : pacc) : Prop := mkPoolWeighted {
  pw_G : vG a' = Qcplus (vG a) (expected NF g);
  pw_T : vT a' = Qcplus (vT a) (expected NF t);
  pw_S : vS a' = Qcplus (vS a) (expected NF (fun k => t k + g k)) }.

(** All statistics of one kind have grown by the annual statistics s. *)
Record cumul_grown (n NF : nat) (s : stat) (c c' : cumul) : Prop := mkGrown {
  cg_lol : acc_grown n NF (zmget (lolG s)) (zmget (lolT s)) (c_lol c) (c_lol c');
  cg_mgn : acc_grown n NF (zmget (mgnG s)) (zmget (mgnT s)) (c_mgn c) (c_mgn c');
  cg_plol : pool_grown NF (zget (plolG s)) (zget (plolT s)) (c_plol c) (c_plol c');
  cg_pmgn : pool_grown NF (zget (pmgnG s)) (zget (pmgnT s)) (c_pmgn c) (c_pmgn c') }.
Record cumul_weighted (NF : nat) (s : stat) (c c' : cumul) : Prop := mkCWeighted {
  cw_lol : pool_weighted NF (zget (plolG s)) (zget (plolT s)) (c_plol c) (c_plol c');
  cw_mgn : pool_weighted NF (zget (pmgnG s)) (zget (pmgnT s)) (c_pmgn c) (c_pmgn c') }.

(** Shapes: area arrays n x 5, pool arrays 5, weighted totals one per area. *)
Record acc_shape (n : nat) (a : acc) : Prop := mkAccShape {
  as_G : shape n 5 (aG a); as_T : shape n 5 (aT a); as_S : shape n 5 (aS a);
  as_wG : length (wG a) = n; as_wT : length (wT a) = n; as_wS : length (wS a) = n }.
Record pacc_shape (a : pacc) : Prop := mkPaccShape { ps_G : length (pG a) = 5%nat; ps_T : length (pT a) = 5%nat; ps_S : length (pS a) = 5%nat }.
Record cumul_shape (n : nat) (c : cumul) : Prop := mkCumulShape {
  cs_lol : acc_shape n (c_lol c); cs_mgn : acc_shape n (c_mgn c); cs_plol : pacc_shape (c_plol c); cs_pmgn : pacc_shape (c_pmgn c) }.
Record yst_shape (n : nat) (s : yst) : Prop := mkYstShape {
  ys_h : stat_shape n 5 (y_h s); ys_p : stat_shape n 5 (y_p s); ys_ch : cumul_shape n (y_ch s); ys_cp : cumul_shape n (y_cp s);
  ys_HL : shape n 22 (y_HL s); ys_DP : shape n 22 (y_DP s); ys_EU : shape n 22 (y_EU s);
  ys_XA : shape n 3 (y_XA s); ys_XP : length (y_XP s) = 3%nat }.

(** Every entry zero. *)
Definition all_zero (n : nat) (s : stat) : Prop := s = first_stat n.
(** The pool's arrays are zero. *)
Definition pool_zero (s : stat) : Prop :=
  forall k, (k < 5)%nat -> zget (plolG s) k = 0 /\ zget (plolT s) k = 0 /\ zget (pmgnG s) k = 0 /\ zget (pmgnT s) k = 0.
(** Levels that are not used have never been written. *)
Definition unused_zero (n NF : nat) (s : stat) : Prop :=
  (forall j k, (j < n)%nat -> (NF <= k < 5)%nat -> zmget (lolG s) j k = 0 /\ zmget (lolT s) j k = 0 /\ zmget (mgnG s) j k = 0 /\ zmget (mgnT s) j k = 0) /\
  (forall k, (NF <= k < 5)%nat -> zget (plolG s) k = 0 /\ zget (plolT s) k = 0 /\ zget (pmgnG s) k = 0 /\ zget (pmgnT s) k = 0).
(** No entry is negative. *)
Definition stat_nonneg (n : nat) (s : stat) : Prop :=
  forall j k, (j < n)%nat -> (k < 5)%nat -> 0 <= zmget (lolG s) j k /\ 0 <= zmget (lolT s) j k /\ 0 <= zmget (mgnG s) j k /\ 0 <= zmget (mgnT s) j k.

(** A simulated year: the annual hourly and peak statistics recorded in it. *)
Definition annual := (stat * stat)%type.
Definition annual_ok (n : nat) (a : annual) : Prop := stat_shape n 5 (fst a) /\ stat_shape n 5 (snd a).
Definition annual_nonneg (n : nat) (a : annual) : Prop := stat_nonneg n (fst a) /\ stat_nonneg n (snd a).
Definition with_annual (s : yst) (a : annual) : yst :=
  mkYst (fst a) (snd a) (y_ch s) (y_cp s) (y_HL s) (y_DP s) (y_EU s) (y_XA s) (y_XP s) (y_SSQ s) (y_XLAST s) (y_INTVT s) (y_ITAB s).
(** The year ends k+1, k+2, ... (at hours 8760(k+1), ...) of a run, whatever the
    hours of each year recorded. *)
Fixpoint run_years (cf : ycfg) (n : nat) (k : Z) (s : yst) (l : list annual) : res (yst * list yout) :=
  match l with
  | [] => Ok (s, [])
  | a :: r =>
      do q <- year cf n (qz (8760 * (k + 1))) (with_annual s a);
      do t <- run_years cf n (k + 1) (fst q) r;
      Ok (fst t, snd q :: snd t)
  end.

(** Sum over the years. *)
Definition ysum (f : annual -> Z) (l : list annual) : Z := zsum (map f l).
Definition ywsum (f : annual -> Qc) (l : list annual) : Qc := qsum (map f l).

(** Mass of a histogram row. *)
Definition mass (H : list (list Z)) (j : nat) : Z := zsum (nth j H []).
(** [observed n H H' b]: every row j of H' is row j of H with one observation more, in
    bin b j. *)
Definition observed (n : nat) (H H' : list (list Z)) (b : nat -> nat) : Prop :=
  forall j, (j < n)%nat -> (b j < 22)%nat /\
    forall i, (i < 22)%nat -> zmget H' j i = zmget H j i + (if Nat.eqb i (b j) then 1 else 0).

(** Mean of yearly values and the squared standard error of the mean. *)
Definition mean (xs : list Qc) : Qc := Qcdiv (qsum xs) (qz (Z.of_nat (length xs))).
Definition sq_err (xs : list Qc) : Qc :=
  Qcdiv (qsum (map (fun x => qsq (Qcminus x (mean xs))) xs)) (qz (Z.of_nat (length xs) * Z.of_nat (length xs))).
(** The convergence criterion: five years or more, non-zero mean, and the standard
    error of the mean (a non-negative number whose square is [sq_err]) below the
    tolerance times the mean. *)
Definition tolerance (cv : Qc) : Qc := if qeqb cv q0 then qq 25 1000 else cv.
Definition converged (cv : Qc) (xs : list Qc) : Prop :=
  5 <= Z.of_nat (length xs) /\ mean xs <> q0 /\
  (q0 < Qcmult (tolerance cv) (mean xs))%Qc /\ (sq_err xs < qsq (Qcmult (tolerance cv) (mean xs)))%Qc.

(** The annual value the user selected for the convergence test. *)
Inductive place := Area (j : nat) | Pool.
Inductive when := Hourly | Peak.
Inductive what := LOLE | EUE.
Inductive basis := Weighted | Central.
Definition annual_value (NF NO : nat) (pl : place) (wn : when) (wt : what) (b : basis) (a : annual) : Qc :=
  let s := match wn with Hourly => fst a | Peak => snd a end in
  let f k := match pl, wt with
             | Area j, LOLE => zmget (lolT s) j k + zmget (lolG s) j k
             | Area j, EUE => zmget (mgnT s) j k + zmget (mgnG s) j k
             | Pool, LOLE => zget (plolT s) k + zget (plolG s) k
             | Pool, EUE => zget (pmgnT s) k + zget (pmgnG s) k end in
  match b with Weighted => expected NF f | Central => qz (f NO) end.
(** input codes (readInputB.py 64-93) *)
Definition code_when (w : when) : Z := match w with Hourly => 1 | Peak => 2 end.
Definition code_what (w : what) : Z := match w with LOLE => 1 | EUE => 2 end.
Definition code_basis (b : basis) : Z := match b with Weighted => 1 | Central => 2 end.
Definition code_where (p : place) : Z := match p with Area _ => 1 | Pool => 2 end.
Definition selected (cf : ycfg) (n : nat) (pl : place) (wn : when) (wt : what) (b : basis) : Prop :=
  KWHERE cf = code_where pl /\ KVWHEN cf = code_when wn /\ KVSTAT cf = code_what wt /\ KVTYPE cf = code_basis b /\
  match pl with Area j => KVLOC cf = j /\ (j < n)%nat | Pool => True end.

(** Accumulated statistics are the sums over the years: [g], [t] the generation and
    transmission part of a year's statistic (area, level). *)
Record acc_total (n NF : nat) (g t : annual -> nat -> nat -> Z) (l : list annual) (a : acc) : Prop := mkAccTotal {
  at_G : forall j k, (j < n)%nat -> (k < NF)%nat -> zmget (aG a) j k = ysum (fun y => g y j k) l;
  at_T : forall j k, (j < n)%nat -> (k < NF)%nat -> zmget (aT a) j k = ysum (fun y => t y j k) l;
  at_S : forall j k, (j < n)%nat -> (k < NF)%nat -> zmget (aS a) j k = ysum (fun y => t y j k + g y j k) l;
  at_wG : forall j, (j < n)%nat -> vget (wG a) j = ywsum (fun y => expected NF (g y j)) l;
  at_wT : forall j, (j < n)%nat -> vget (wT a) j = ywsum (fun y => expected NF (t y j)) l;
  at_wS : forall j, (j < n)%nat -> vget (wS a) j = ywsum (fun y => expected NF (fun k => t y j k + g y j k)) l }.
Record pool_total (NF : nat) (g t : annual -> nat -> Z) (l : list annual) (a : pacc) : Prop := mkPoolTotal {
  pt_G : forall k, (k < NF)%nat -> zget (pG a) k = ysum (fun y => g y k) l;
  pt_T : forall k, (k < NF)%nat -> zget (pT a) k = ysum (fun y => t y k) l;
  pt_S : forall k, (k < NF)%nat -> zget (pS a) k = ysum (fun y => t y k + g y k) l }.
Record cumul_total (n NF : nat) (s : annual -> stat) (l : list annual) (c : cumul) : Prop := mkTotal {
  ct_lol : acc_total n NF (fun y => zmget (lolG (s y))) (fun y => zmget (lolT (s y))) l (c_lol c);
  ct_mgn : acc_total n NF (fun y => zmget (mgnG (s y))) (fun y => zmget (mgnT (s y))) l (c_mgn c);
  ct_plol : pool_total NF (fun y => zget (plolG (s y))) (fun y => zget (plolT (s y))) l (c_plol c);
  ct_pmgn : pool_total NF (fun y => zget (pmgnG (s y))) (fun y => zget (pmgnT (s y))) l (c_pmgn c) }.
(** The pool's weighted values are those of the years [l]. *)
Definition pool_weights (NF : nat) (s : annual -> stat) (l : list annual) (c : cumul) : Prop :=
  let e T G := ywsum (fun y => expected NF (fun k => zget (T y) k + zget (G y) k)) l in
  vS (c_plol c) = e (fun y => plolT (s y)) (fun y => plolG (s y)) /\
  vS (c_pmgn c) = e (fun y => pmgnT (s y)) (fun y => pmgnG (s y)).

(** The convergence test as its caller uses it: after every year the cumulative sum
    of the yearly values so far, at hours 8760, 2*8760, ...; the list of answers. *)
Fixpoint cv_run (fin cv : Qc) (y : Z) (sum XL SSQ : Qc) (xs : list Qc) : list Z * Qc * Qc :=
  match xs with
  | [] => ([], SSQ, XL)
  | x :: r =>
      let '(R, SSQ', XL') := cvchk (qz (8760 * (y + 1))) fin (y + 1) cv (Qcplus sum x) XL SSQ in
      let '(Rs, s, l) := cv_run fin cv (y + 1) (Qcplus sum x) XL' SSQ' r in
      (R :: Rs, s, l)
  end.
