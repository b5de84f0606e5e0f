(** Specification vocabulary of C115: the table of critical units. *)
From Verif Require Import Base.
Open Scope Z_scope.

(** One record of the table: a line, the units whose common outage reduces its capacity,
    and what is left of the capacity then, in percent, forwards and backwards.  It is
    stored as the line, the number of units, the units, one entry that is not read, and the
    percentages. *)
Record crit_rec := mkCrit { cr_line : Z; cr_units : list Z; cr_spare : Z; cr_fwd : Z; cr_bwd : Z }.
Definition stored (r : crit_rec) : list Z := [cr_line r; Z.of_nat (length (cr_units r))] ++ cr_units r ++ [cr_spare r; cr_fwd r; cr_bwd r].
Definition table (rs : list crit_rec) : list Z := flat_map stored rs.

Definition unit_out (AVAIL : list Qc) (u : Z) : Prop := nth (Z.to_nat u) AVAIL q0 = q0.
(** What the user means: all the units are out. *)
Definition all_out (AVAIL : list Qc) (r : crit_rec) : Prop := forall u, In u (cr_units r) -> unit_out AVAIL u.

(** What the program looks at: as many units, but beginning one place too early, with the
    number of units; and only at numbers from 1 to 499. *)
Definition looked_at (r : crit_rec) : list Z := firstn (length (cr_units r)) (Z.of_nat (length (cr_units r)) :: cr_units r).
Definition reduces (AVAIL : list Qc) (r : crit_rec) : Prop := forall u, In u (looked_at r) -> 1 <= u <= 499 -> unit_out AVAIL u.
(** A record the program can process: any line but line 0, and existing units. *)
Definition rec_ok (nu nl : nat) (r : crit_rec) : Prop :=
  1 <= cr_line r < Z.of_nat nl /\ forall u, In u (looked_at r) -> 1 <= u <= 499 -> u < Z.of_nat nu.
Definition percent (p : Z) : Qc := Qcdiv (qz p) (qz 100).
Definition full : list Qc := [q1; q1].
Definition reduced (r : crit_rec) : list Qc := [percent (cr_fwd r); percent (cr_bwd r)].
