(** Specification vocabulary of C128: the unit in which admittances are written. *)
From Verif Require Import Base Sums NetModel ScaleSpec.
Open Scope Z_scope.

(** Every entry of a matrix multiplied by k. *)
Definition every (k : Qc) (M : list (list Qc)) : list (list Qc) := table_in_unit (fun _ => false) k M.
(** The admittances of the lines multiplied by k, the capacities as they are. *)
Definition adm_times (k : Qc) (BLPA : list (list Qc)) : list (list Qc) := table_in_unit (fun j => negb (admittance j)) k BLPA.
(** The data kept between calls: admittances times k, impedances divided by k. *)
Definition net_adm (k : Qc) (s : netst) : netst := mkNet (n_BN s) (in_unit k (n_BLP0 s)) (every k (n_BB s)) (n_LT s) (every (Qcinv k) (n_ZB s)).
(** A routine that inverts the matrix in one unit answers in the other as well, with the inverse
    divided by k. *)
Definition same_routine (k : Qc) (inv inv' : list (list Qc) -> option (list (list Qc))) : Prop :=
  forall B, inv' (every k B) = option_map (every (Qcinv k)) (inv B).
