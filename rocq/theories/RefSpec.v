(** Specification vocabulary of C125: the choice of the reference area. *)
From Verif Require Import Base SampleModel NetModel NetSpec StatModel YearModel YearSpec HourModel HourSpec CauseSpec ControlModel ProgramModel ProgramSpec HistorySpec AmpleSpec.
Open Scope Z_scope.

(** The same study with area [R] as reference. *)
Definition refer_to (cf : hcfg) (R : nat) : hcfg :=
  mkHcfg (x_JSTEP cf) (x_JFREQ cf) (x_NFCST cf) (x_MXPLHR cf) (x_PROBG cf) (x_DERATE cf) (x_CAPOWN cf) (x_CAPCON cf)
    (x_PROBL cf) (x_JENT cf) (x_INTCH cf) (x_HRLOAD cf) (x_FCTERR cf) (x_LINENO cf) (x_BLPA cf) (x_LP cf) R (x_NLS cf).
Definition with_reference (i : input) (R : nat) : input :=
  mkInput (refer_to (i_h i) R) (i_RATES i) (i_JPLOUT i) (i_BN i) (i_years i) (i_NORR i) (i_MAXEUE i) (i_CVTEST i) (i_INTV i) (i_IOJ i)
    (i_KWHERE i) (i_KVWHEN i) (i_KVSTAT i) (i_KVTYPE i) (i_KVLOC i) (i_ITAB i).

(** [inv] inverts the matrix of the network of the cards (all lines in service) seen from
    the reference area of the study. *)
Definition base_inverted (inv : list (list Qc) -> option (list (list Qc))) (i : input) : Prop :=
  exists b, tm1 inv (i_BN i) (x_LP (i_h i)) (map (firstn 3) (x_BLPA (i_h i))) (x_NR (i_h i)) = Ok b.
(** In every draw the lines at the reference area are in service, and the network holds
    together. *)
Definition reference_served (n nu nl : nat) (i : input) : Prop :=
  forall k LN, (1 <= k)%nat -> line_states nu nl i k LN -> still_joined n (i_h i) LN.

(** The data of two runs at one moment: the same seeds, loss flags, statistics, year end
    data and shown years, and the same table of areas; the matrices kept between solutions
    (which are written from the reference area) may differ. *)
Definition same_but_matrices (w w' : world) : Prop :=
  exists N, w' = mkWorld (with_net (w_h w) N) (w_y w) (w_out w) /\ n_BN N = n_BN (hnet (w_h w)).
(** Two entries of the logs: the same event, the same calendar, unit states and ratings. *)
Definition same_moment (x x' : (Qc * Qc) * lst world) : Prop :=
  fst x' = fst x /\ exists w', same_but_matrices (s_w (snd x)) w' /\
    snd x' = mkSt (s_cal (snd x)) (s_clock (snd x)) (s_rflag (snd x)) (s_jhour (snd x)) (s_iq (snd x)) (s_plndst (snd x)) (s_rating (snd x)) w'.
