(** Specification vocabulary of C120: studies without load forecast uncertainty. *)
From Verif Require Import Base NetModel NetSpec StatModel StatSpec YearModel YearSpec ReportSpec HourModel HourSpec CauseSpec ControlModel ProgramModel ProgramSpec HistorySpec.
Open Scope Z_scope.

(** The load multipliers of every area are the same at all forecast levels. *)
Definition no_uncertainty (cf : hcfg) : Prop :=
  forall j l, (j < length (x_FCTERR cf))%nat -> (l < x_NFCST cf)%nat -> mget (x_FCTERR cf) j l = mget (x_FCTERR cf) j 0.

(** Areas with one limit for both directions, numbered in order, joined by a connected network. *)
Record plain_areas (n : nat) (i : input) : Prop := mkPlain {
  pa_num : areas_numbered n (i_BN i);
  pa_wide : wide (i_BN i);
  pa_limits : equal_limits (i_BN i);
  pa_net : base_net n (i_h i);
  pa_lines : length (x_BLPA (i_h i)) = length (x_LP (i_h i)) }.

(** A place all of whose levels are treated alike at a year end (C41): the pool; an area
    when there are as many areas as levels; an area whose number is not below the number of
    levels. *)
Definition even_place (n NF : nat) (pl : place) : Prop := match pl with Pool => True | Area j => (NF <= n \/ NF <= j)%nat end.

(** Everything counted is the same at all levels. *)
Definition levels_equal (n NF : nat) (a : annual) : Prop :=
  forall pl wn wt c k, valid_place n pl -> even_place n NF pl -> (k < NF)%nat -> part pl wn wt c k a = part pl wn wt c 0 a.
