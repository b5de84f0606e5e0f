(** Specification vocabulary for the simulation loop: the timetable of events
    and the log of a run.  Independent of how the calendar stores events. *)
From Coq Require Import Sorted Permutation.
From Verif Require Import Base EventModel EventSpec ControlModel.
Open Scope Z_scope.

(** [on t]: t o'clock;  [half_past t]: half an hour later. *)
Definition on (t : Z) : Qc := qz t.
Definition half_past (t : Z) : Qc := Qcplus (qz t) (qq 1 2).

(** The timetable.  Draws are numbered from 1, weeks and seasons from 0, year
    ends from 1. *)
Definition draw_event (JSTEP : Z) (n : nat) : event := (on (JSTEP * Z.of_nat n), qz 1).
Definition week_event (n : nat) : event := (half_past (168 * Z.of_nat n), qz 2).
Definition season_event (k : nat) : event :=
  (half_past (2184 * Z.of_nat (k mod 4) + 8760 * Z.of_nat (k / 4)), qz 3).
Definition year_event (n : nat) : event := (on (8760 * Z.of_nat n), qz 4).

(** the log of a run: delivered events with the state after their handler *)
Definition log (W : Type) : Type := list (event * lst W).

(** the delivered events of one kind (1 draw, 2 week, 3 season, 4 year), in order *)
Definition of_kind {W} (k : Z) (lg : log W) : list event :=
  filter (fun e => qeqb (snd e) (qz k)) (map fst lg).

(** pending events of one kind *)
Definition pending_of (k : Z) (l : list event) : list event :=
  filter (fun e => qeqb (snd e) (qz k)) l.

(** Sampling steps covered by the theorems: at least an hour, at most a quarter. *)
Definition step_ok (JSTEP : Z) : Prop := 1 <= JSTEP <= 2184.

(** Outage table rows: [row[0]] is the number of listed units, the units follow. *)
Definition row_ok (nunits : nat) (row : list Z) : Prop :=
  exists MT rest, row = MT :: rest /\ 0 <= MT <= Z.of_nat (length rest) /\
    forall j, (j < Z.to_nat MT)%nat -> 0 <= nth j rest 0 < Z.of_nat nunits.

(** unit [u] is listed in [row] *)
Definition listed (row : list Z) (u : nat) : Prop :=
  exists j, (1 <= j)%nat /\ Z.of_nat j <= nth 0 row 0 /\ nth j row (-1) = Z.of_nat u.

(** [status_of row p]: in the status vector [p] exactly the units listed in
    [row] are out of service (0), all others in service (1). *)
Definition status_of (row : list Z) (nunits : nat) (p : list Qc) : Prop :=
  length p = nunits /\
  forall u, (u < nunits)%nat -> (listed row u -> nth u p q0 = q0) /\ (~ listed row u -> nth u p q0 = q1).

(** column [q] of the rates table: the ratings the user gave for season [q] *)
Definition season_ratings (RATES : list (list Qc)) (q : nat) : list Qc :=
  map (fun row => nth q row q0) RATES.

(** every unit has a rating for each of the four seasons *)
Definition rates_ok (RATES : list (list Qc)) : Prop :=
  Forall (fun row => length row = 4%nat) RATES.

(** time [t] lies in season number [q] (counted from the start of the run, so
    season [q mod 4] of year [q / 4]) *)
Definition in_season (t : Qc) (q : nat) : Prop :=
  (fst (season_event q) <= t)%Qc /\ (t < fst (season_event (S q)))%Qc.
