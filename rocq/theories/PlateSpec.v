(** Specification vocabulary of C123: the pool as a single area. *)
From Verif Require Import Base Sums LoadSpec NetModel NetSpec StatModel StatSpec YearSpec ReportSpec HourModel HourSpec CauseSpec ControlModel ProgramModel ProgramSpec.
Open Scope Z_scope.

(** All areas together: available capacity, demand at a forecast level, what is missing
    (negative: to spare). *)
Definition pool_capacity (n : nat) (cf : hcfg) (AVAIL : list Qc) : Qc := qs n (located cf AVAIL).
Definition pool_demand (n : nat) (cf : hcfg) (k : Z) (l : nat) : Qc := qs n (demand cf k l).
Definition pool_missing (n : nat) (cf : hcfg) (AVAIL : list Qc) (k : Z) (l : nat) : Qc := Qcminus (pool_demand n cf k l) (pool_capacity n cf AVAIL).

(** With loss sharing, losses are shared in proportion to load: the loads are not negative
    and not all zero. *)
Definition loads_to_share (n : nat) (cf : hcfg) : Prop := x_NLS cf = false -> forall k l, (l < x_NFCST cf)%nat ->
  (forall j, (j < n)%nat -> (q0 <= demand cf k l j)%Qc) /\ (q0 < pool_demand n cf k l)%Qc.
(** Demand does not rise from one forecast level to the next (C25: the levels are ordered). *)
Definition falling_levels (n : nat) (cf : hcfg) : Prop := forall k l l', (l <= l' < x_NFCST cf)%nat -> (pool_demand n cf k l' <= pool_demand n cf k l)%Qc.

(** Numbered areas of five columns joined by a connected network of lines. *)
Record joined_areas (n : nat) (i : input) : Prop := mkJoined {
  ja_num : areas_numbered n (i_BN i);
  ja_shape : shape n 5 (i_BN i);
  ja_net : base_net n (i_h i);
  ja_lines : length (x_BLPA (i_h i)) = length (x_LP (i_h i));
  ja_share : loads_to_share n (i_h i) }.

(** What a single area with all capacity and all load would lack at draw k and level l; is
    it more than nothing, at least a whole number m of MW? *)
Definition plate_missing (n : nat) (i : input) (cap : nat -> list Qc) (k l : nat) : Qc :=
  pool_missing n (i_h i) (cap k) (x_JSTEP (i_h i) * Z.of_nat k) l.
Definition plate_short (n : nat) (i : input) (cap : nat -> list Qc) (l : nat) (k : nat) : bool := qltb q0 (plate_missing n i cap k l).
Definition plate_short_by (m : Z) (n : nat) (i : input) (cap : nat -> list Qc) (l : nat) (k : nat) : bool := qleb (qz m) (plate_missing n i cap k l).
(** The hours of loss and the energy of that area over the draws [ks] (at daily peaks
    only). *)
Definition plate_hours (n : nat) (i : input) (wn : when) (cap : nat -> list Qc) (l : nat) (ks : list nat) : Z :=
  Z.of_nat (length (filter (plate_short n i cap l) (filter (counts i wn) ks))).
Definition plate_hours_by (m : Z) (n : nat) (i : input) (wn : when) (cap : nat -> list Qc) (l : nat) (ks : list nat) : Z :=
  Z.of_nat (length (filter (plate_short_by m n i cap l) (filter (counts i wn) ks))).
Definition plate_energy (n : nat) (i : input) (wn : when) (cap : nat -> list Qc) (l : nat) (ks : list nat) : Qc :=
  qsum (map (fun k => qmax (plate_missing n i cap k l) q0) (filter (counts i wn) ks)).
