(** Specification vocabulary for whole runs of the program. *)
From Verif Require Import Base Sums LoadSpec SampleModel StatModel StatSpec NetModel ControlModel ControlSpec HourModel HourSpec
  YearModel YearSpec ReportModel ReportSpec ProgramModel.
Open Scope Z_scope.

(** A well-formed input with n areas, nu units, nl lines. *)
Record input_ok (n nu nl : nat) (i : input) : Prop := mkInputOk {
  in_study : study n nu nl (i_h i);
  in_step : step_ok (x_JSTEP (i_h i));
  in_levels : levels_ok (x_NFCST (i_h i)) (i_NORR i);
  in_rates : length (i_RATES i) = nu;
  in_bn : length (i_BN i) = n;
  in_lp : length (x_LP (i_h i)) = nl }.

(** The seeds after m draws: those of unit u, and of line v of a system with nu units. *)
Definition unit_seed (u : nat) (m : nat) : Z := (123456 * 9649599 ^ (Z.of_nat u + 1) * 65539 ^ Z.of_nat m) mod 2 ^ 31.
Definition line_seed (nu v : nat) (m : nat) : Z := unit_seed (nu + v) m.

(** A draw is numbered from 1 and belongs to clock JSTEP * k.  Its records are pairs
    (level, margins), the margins one whole number per area. *)
Definition rec := (nat * list Z)%type.

(** What a draw k of a run contributes, [recs]: the records of the first levels, each
    a shortage (HourSpec.level_record); if not all levels are recorded, the network
    covers the shortage at the next one.  Capacities and line states are those drawn
    with the k-th random numbers and the ratings and outages in force. *)
Section Outcome.
  Variables (inv : list (list Qc) -> option (list (list Qc)))
            (lp : list (list Qc) -> list (list Qc) -> list (list Qc) -> res (list Qc * list (list Qc))).
  Definition capacities (nu : nat) (i : input) (k : nat) (s : lst world) (AVAIL : list Qc) : Prop :=
    exists IG, (nu <= length IG)%nat /\ (forall u, (u < nu)%nat -> nth u IG 0 = unit_seed u (k - 1)) /\
      AVAIL = snd (gstate IG (x_PROBG (i_h i)) (s_rating s) (x_DERATE (i_h i)) (s_plndst s)).
  Definition line_states (nu nl : nat) (i : input) (k : nat) (LNSTAT : list Z) : Prop :=
    exists IL, (nl <= length IL)%nat /\ (forall v, (v < nl)%nat -> nth v IL 0 = line_seed nu v (k - 1)) /\
      LNSTAT = snd (lstate IL (x_PROBL (i_h i))).
  Definition draw_outcome (n nu nl : nat) (i : input) (lg : log world) (k : nat) (recs : list rec) : Prop :=
    exists s AVAIL LNSTAT, In (draw_event (x_JSTEP (i_h i)) k, s) lg /\
      capacities nu i k s AVAIL /\ line_states nu nl i k LNSTAT /\
      map fst recs = seq 0 (length recs) /\ (length recs <= x_NFCST (i_h i))%nat /\
      Forall (level_record inv lp n (i_h i) (x_JSTEP (i_h i) * Z.of_nat k) AVAIL LNSTAT) recs /\
      (length recs = x_NFCST (i_h i) \/ level_covered inv lp n (i_h i) (x_JSTEP (i_h i) * Z.of_nat k) AVAIL LNSTAT (length recs)).
End Outcome.

(** The part of one record in a statistic: an hour of loss, or the energy not served;
    by cause and level.  With a surplus in the pool as a whole the loss is due to
    transmission; a balance of exactly zero counts as transmission for the pool's
    hours (C37). *)
Definition unserved (m : Z) : Z := Z.max 0 (- m).
Definition rec_amount (pl : place) (wt : what) (M : list Z) : Z :=
  match pl, wt with
  | Area j, LOLE => if nth j M 0 <? 0 then 1 else 0
  | Area j, EUE => unserved (nth j M 0)
  | Pool, LOLE => 1
  | Pool, EUE => zsum (map unserved M)
  end.
Definition transmission (pl : place) (wt : what) (M : list Z) : bool :=
  match pl, wt with Pool, LOLE => 0 <=? zsum M | _, _ => 0 <? zsum M end.
Definition rec_part (pl : place) (wt : what) (c : cause) (k : nat) (r : rec) : Z :=
  let (l, M) := r in
  if Nat.eqb l k then
    match c with
    | Gen => if transmission pl wt M then 0 else rec_amount pl wt M
    | Trans => if transmission pl wt M then rec_amount pl wt M else 0
    | Both => rec_amount pl wt M
    end
  else 0.
(** Totals over draws [ks]; [R k] the records of draw k; for peak statistics only the
    draws at a peak hour count. *)
Definition tally (pl : place) (wt : what) (c : cause) (k : nat) (recs : list rec) : Z := zsum (map (rec_part pl wt c k) recs).
Definition at_peak (i : input) (k : nat) : bool :=
  let t := x_JSTEP (i_h i) * Z.of_nat k in
  (x_JSTEP (i_h i) =? 24) || negb (t mod 8760 =? 0) && Nat.eqb (hour_used (i_h i) t) (Z.to_nat (zget (x_MXPLHR (i_h i)) (day_of_year t))).
Definition counts (i : input) (wn : when) (k : nat) : bool := match wn with Hourly => true | Peak => at_peak i k end.
Definition total (i : input) (pl : place) (wn : when) (wt : what) (c : cause) (lev : nat) (R : nat -> list rec) (ks : list nat) : Z :=
  tally pl wt c lev (flat_map R (filter (counts i wn) ks)).

(** The draws of year y (from 0): 8760 y < JSTEP k <= 8760 (y+1). *)
Definition draws_upto (i : input) (y : nat) : nat := Z.to_nat (8760 * Z.of_nat y / x_JSTEP (i_h i)).
Definition draws_of_year (i : input) (y : nat) : list nat :=
  seq (draws_upto i y + 1) (draws_upto i (y + 1) - draws_upto i y).
(** Which entries of the annual statistics are cleared at a year end (C41). *)
Definition cleared (n NF : nat) (pl : place) (lev : nat) : bool :=
  match pl with Pool => true | Area j => Nat.ltb j NF && Nat.ltb lev n end.
Definition valid_place (n : nat) (pl : place) : Prop := match pl with Pool => True | Area j => (j < n)%nat end.

(** state a log ends in *)
Definition final_state {W} (s0 : lst W) (lg : log W) : lst W := last (map snd lg) s0.
