(** Specification vocabulary for the final report. *)
From Verif Require Import Base Sums StatModel StatSpec YearModel YearSpec ReportModel.
Open Scope Z_scope.

(** The printed causes: generation (GC), transmission (TC), both (GT), in this order. *)
Inductive cause := Gen | Trans | Both.
Definition code_cause (c : cause) : nat := match c with Gen => 0%nat | Trans => 1%nat | Both => 2%nat end.
(** The part of a year's statistic due to a cause, at a level. *)
Definition part (pl : place) (wn : when) (wt : what) (c : cause) (k : nat) (a : annual) : Z :=
  let s := match wn with Hourly => fst a | Peak => snd a end in
  let g := match pl, wt with
           | Area j, LOLE => zmget (lolG s) j k | Area j, EUE => zmget (mgnG s) j k
           | Pool, LOLE => zget (plolG s) k | Pool, EUE => zget (pmgnG s) k end in
  let t := match pl, wt with
           | Area j, LOLE => zmget (lolT s) j k | Area j, EUE => zmget (mgnT s) j k
           | Pool, LOLE => zget (plolT s) k | Pool, EUE => zget (pmgnT s) k end in
  match c with Gen => g | Trans => t | Both => t + g end.
(** The forecast-weighted value. *)
Definition wpart (NF : nat) (pl : place) (wn : when) (wt : what) (c : cause) (a : annual) : Qc :=
  expected NF (fun k => part pl wn wt c k a).

(** A line printed for yearly values: averages per year, and energy per hour (day) of
    loss, zero when there was no loss. *)
Definition per_loss (es xs : list Qc) : Qc := if qltb q0 (qsum xs) then Qcdiv (qsum es) (qsum xs) else q0.
Record line_of (xs es ps qs : list Qc) (r : line) : Prop := mkLineOf {
  lo_lol : l_lol r = mean xs; lo_eue : l_eue r = mean es; lo_lolp : l_lolp r = mean ps;
  lo_xmgn : l_xmgn r = per_loss es xs; lo_xmgnp : l_xmgnp r = per_loss qs ps }.

(** A probability distribution over 22 classes. *)
Definition distribution_ok (row : list Qc) : Prop :=
  length row = 22%nat /\ (forall x, In x row -> (q0 <= x)%Qc) /\ qsum row = q1.
Definition fraction_of (row : list Qc) (hist : list Z) (y : Z) : Prop :=
  forall i, (i < 22)%nat -> vget row i = Qcdiv (qz (zget hist i)) (qz y).

(** [r] is the final report of a run from the start whose years had the annual
    statistics [l] and which reported at the end of the last of them. *)
Definition reported (cf : ycfg) (n : nat) (iv it : Z) (SU : list (list Qc)) (l : list annual) (r : rep) : Prop :=
  exists l0 a s os s' o, l = l0 ++ [a] /\
    run_years cf n 0 (start_year n iv it) l0 = Ok (s, os) /\
    year cf n (qz (8760 * Z.of_nat (length l))) (with_annual s a) = Ok (s', o) /\
    year_report cf n SU (with_annual s a) s' o = Some (Ok r).

(** Reserve percentage of a load and a capacity. *)
Definition reserve (load cap : Qc) : Qc := Qcmult (Qcdiv (Qcminus cap load) load) (qz 100).
