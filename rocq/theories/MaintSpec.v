(** Specification vocabulary for planned maintenance. *)
From Verif Require Import Base.
Open Scope Z_scope.

(** A planned outage: the unit, its first week (from 0; -1 for none) and its number of
    weeks.  The two planned outages of a unit, from its row of ID. *)
Definition outage := (Z * Z * Z)%type.
Definition outages_of (r : list Z) : list outage :=
  [(zget r 0, zget r 3, zget r 4); (zget r 0, zget r 5, zget r 6)].
(** the outage takes the unit out in week w *)
Definition covers (w : Z) (o : outage) : bool := let '(u, b, d) := o in (0 <=? b) && (b <=? w) && (w <? b + d).
(** the units out in week w, once per covering outage, in the order of the input *)
Definition out_in (ID : list (list Z)) (w : Z) : list Z :=
  map (fun o => fst (fst o)) (filter (covers w) (flat_map outages_of ID)).
(** the row of the table for a list of units: their number, the units, -1 *)
Definition table_row (nu : nat) (L : list Z) : list Z :=
  Z.of_nat (length L) :: L ++ repeat (-1) (nu - length L).

(** Rows of ID as [datax] makes them: unit and plant number are the position, the
    rating and the durations are not negative. *)
Definition rows_ok (ID : list (list Z)) : Prop :=
  forall i, (i < length ID)%nat -> let r := nth i ID [] in
    length r = 8%nat /\ zget r 0 = Z.of_nat i /\ zget r 1 = Z.of_nat i /\ 0 <= zget r 4 /\ 0 <= zget r 6.
Definition ratings_ok (nu : nat) (RATES : list (list Qc)) : Prop :=
  length RATES = nu /\ forall r, In r RATES -> length r = 4%nat /\ Forall (fun x => (q0 <= x)%Qc) r.
(** unit i is the only unit of its area *)
Definition area_of (ID : list (list Z)) (i : nat) : Z := zget (nth i ID []) 2.
Definition alone (ID : list (list Z)) (i : nat) : Prop :=
  forall k, (k < length ID)%nat -> area_of ID k = area_of ID i -> k = i.
Definition alone_b (ID : list (list Z)) (i : nat) : bool :=
  forallb (fun k => Nat.eqb k i || negb (area_of ID k =? area_of ID i)) (seq 0 (length ID)).
(** both planned outages of the unit begin in week 1 *)
Definition restarted (r : list Z) : list Z := upd (upd r 3 1) 5 1.
(** the rows after scheduling: units alone in their area are moved, nothing else *)
Definition after_scheduling (ID : list (list Z)) : list (list Z) :=
  mapi (fun i r => if alone_b ID i then restarted r else r) ID.
