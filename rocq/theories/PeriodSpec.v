(** Specification vocabulary of C109 and C110: long-run frequencies. *)
From Verif Require Import Base SampleModel HourModel ProgramModel ProgramSpec.
Open Scope Z_scope.

(** 8388608 draws (957 years of hourly draws) *)
Definition period : nat := Z.to_nat (2 ^ 23).
(** How many elements of a list have a property. *)
Definition count {A} (P : A -> bool) (l : list A) : Z := Z.of_nat (length (filter P l)).
(** The relative frequency of a property over the [period] draws from draw [k] on, and
    being within a millionth. *)
Definition frequency (P : nat -> bool) (k : nat) : Qc := Qcdiv (qz (count P (seq k period))) (qz (2 ^ 23)).
Definition about (f p : Qc) : Prop := (qabs (Qcminus f p) <= qq 1 1000000)%Qc.
(** The random number of stream [u] at draw [k], between 0 and 1. *)
Definition number_at (u k : nat) : Qc := rand_of (unit_seed u k).

(** The fraction of its capacity that unit [u] gets, and the state that line [v] gets, in
    draw [k] of a study [i] with [nu] units. *)
Definition unit_fraction (i : input) (u k : nat) : Qc :=
  gen_fraction (number_at u k) (mget (x_PROBG (i_h i)) u 0) (mget (x_PROBG (i_h i)) u 1) (vget (x_DERATE (i_h i)) u).
Definition line_number (i : input) (nu v k : nat) : Z := line_state (number_at (nu + v) k) (nth v (x_PROBL (i_h i)) []).
(** Cumulative probabilities of the five first states of a line, and its states' own. *)
Definition cumulative (P : list Qc) : Prop :=
  (q0 <= nth 0 P q0)%Qc /\ (forall j, (j < 4)%nat -> (nth j P q0 <= nth (S j) P q0)%Qc) /\ (nth 4 P q0 <= q1)%Qc.
Definition probability (P : list Qc) (state : nat) : Qc :=
  Qcminus (if Nat.eqb state 6 then q1 else nth (state - 1) P q0) (if Nat.eqb state 1 then q0 else nth (state - 2) P q0).
