(** Specification vocabulary for maintenance tables in general. *)
From Verif Require Import Base MaintSpec.
Open Scope Z_scope.
(** The rows of ID carry their own number. *)
Definition numbered (ID : list (list Z)) : Prop := forall i, (i < length ID)%nat -> zget (nth i ID []) 0 = Z.of_nat i.
(** Another unit of the same area comes before unit [i]. *)
Definition follows (ID : list (list Z)) (i : nat) : Prop := exists j, (j < i)%nat /\ area_of ID j = area_of ID i.
(** Row [r] plans the unit out in week [w]: first or second outage. *)
Definition planned_row (r : list Z) (w : Z) : Prop :=
  (0 <= zget r 3 <= w /\ w < zget r 3 + zget r 4) \/ (0 <= zget r 5 <= w /\ w < zget r 5 + zget r 6).
