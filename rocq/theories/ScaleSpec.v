(** Specification vocabulary of C127: the unit in which power is written. *)
From Verif Require Import Base Sums NetModel HourModel.
Open Scope Z_scope.

(** Every power written in another unit: multiplied by c. *)
Definition in_unit (c : Qc) (v : list Qc) : list Qc := map (Qcmult c) v.
(** Tables: the columns [keep] are not powers (the number of an area; the admittances of
    a line). *)
Definition row_in_unit (keep : nat -> bool) (c : Qc) (r : list Qc) : list Qc := mapi (fun j x => if keep j then x else Qcmult c x) r.
Definition table_in_unit (keep : nat -> bool) (c : Qc) (M : list (list Qc)) : list (list Qc) := map (row_in_unit keep c) M.
Definition area_number (j : nat) : bool := Nat.eqb j 0.
Definition admittance (j : nat) : bool := Nat.eqb (j mod 3) 0.
Definition areas_in_unit := table_in_unit area_number.
Definition lines_in_unit := table_in_unit admittance.
Definition net_in_unit (c : Qc) (s : netst) : netst := mkNet (areas_in_unit c (n_BN s)) (n_BLP0 s) (n_BB s) (n_LT s) (n_ZB s).

(** Two linear programs that give the same answers in the two units. *)
Definition same_program (c : Qc) (lp lp' : list (list Qc) -> list (list Qc) -> list (list Qc) -> res (list Qc * list (list Qc))) : Prop :=
  forall BB BLP BN, lp' BB (lines_in_unit c BLP) (areas_in_unit c BN) =
    match lp BB BLP BN with Ok (F, B) => Ok (in_unit c F, areas_in_unit c B) | Err e => Err e end.

(** The same study with loads, contracts and line capacities in another unit. *)
Definition study_in_unit (c : Qc) (cf : hcfg) : hcfg :=
  mkHcfg (x_JSTEP cf) (x_JFREQ cf) (x_NFCST cf) (x_MXPLHR cf) (x_PROBG cf) (x_DERATE cf) (x_CAPOWN cf) (x_CAPCON cf)
    (x_PROBL cf) (x_JENT cf) (map (in_unit c) (x_INTCH cf)) (map (in_unit c) (x_HRLOAD cf)) (x_FCTERR cf) (x_LINENO cf) (lines_in_unit c (x_BLPA cf)) (x_LP cf) (x_NR cf) (x_NLS cf).
Definition state_in_unit (c : Qc) (s : hst) : hst := mkHst (IGSEED s) (ILSEED s) (net_in_unit c (hnet s)) (LSFLG s) (hrs s) (pks s).
