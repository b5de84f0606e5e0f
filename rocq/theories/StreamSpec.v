(** Specification vocabulary of C111 and C112: the streams of two studies, and of two
    units of a study. *)
From Verif Require Import Base SampleModel HourModel ProgramModel ProgramSpec PeriodSpec.
Open Scope Z_scope.

(** Unit [u] has the same outage probabilities and derated fraction in both studies. *)
Definition same_unit (i i' : input) (u : nat) : Prop :=
  mget (x_PROBG (i_h i')) u 0 = mget (x_PROBG (i_h i)) u 0 /\ mget (x_PROBG (i_h i')) u 1 = mget (x_PROBG (i_h i)) u 1 /\
  vget (x_DERATE (i_h i')) u = vget (x_DERATE (i_h i)) u.
(** Unit [u] of the second study is at least as reliable: the cumulative probabilities of
    full and of partial availability and the derated fraction are at least as high. *)
Definition better_unit (i i' : input) (u : nat) : Prop :=
  (mget (x_PROBG (i_h i)) u 0 <= mget (x_PROBG (i_h i')) u 0)%Qc /\ (mget (x_PROBG (i_h i)) u 1 <= mget (x_PROBG (i_h i')) u 1)%Qc /\
  (vget (x_DERATE (i_h i)) u <= vget (x_DERATE (i_h i')) u)%Qc.
(** Fractions and probabilities of unit [u] are between 0 and 1. *)
Definition proper_unit (i : input) (u : nat) : Prop :=
  (q0 <= vget (x_DERATE (i_h i)) u <= q1)%Qc /\ (mget (x_PROBG (i_h i)) u 0 <= mget (x_PROBG (i_h i)) u 1)%Qc.
(** Same probabilities for line [v]; at least as good ones. *)
Definition same_line (i i' : input) (v : nat) : Prop := nth v (x_PROBL (i_h i')) [] = nth v (x_PROBL (i_h i)) [].
Definition better_line (i i' : input) (v : nat) : Prop :=
  forall j, (j < 5)%nat -> (nth j (nth v (x_PROBL (i_h i)) []) q0 <= nth j (nth v (x_PROBL (i_h i')) []) q0)%Qc.

(** Two units behind one another in the same stream: number [k] of unit [u'] is number
    [k + lag] of unit [u], for every [k]. *)
Definition follows (u' u lag : nat) : Prop := forall k, number_at u' k = number_at u (k + lag).
(** 14848 draws: with hourly draws a year and eight months *)
Definition twin_lag : nat := Z.to_nat 14848.
