(** Specification vocabulary for capacity, contracts and loads.  Nothing here is
    used by the model. *)
From Verif Require Import Base Sums.
Open Scope Z_scope.

(** A matrix with [n] rows of [w] entries. *)
Definition shape {A} (n w : nat) (M : list (list A)) : Prop :=
  length M = n /\ forall j, (j < n)%nat -> length (nth j M []) = w.

(** The pointer matrix refers only to existing contracts (-1: no contract). *)
Definition pointers_ok (n : nat) (JENT : list (list Z)) (INTCH : list (list Qc)) : Prop :=
  forall i j, (i < n)%nat -> (j < n)%nat ->
    zmget JENT i j = -1 \/ 0 <= zmget JENT i j < Z.of_nat (length INTCH).

(** The power contracted from area [j1] to area [j2] on day [d]. *)
Definition amount (JENT : list (list Z)) (INTCH : list (list Qc)) (j1 j2 d : nat) : Qc :=
  if zmget JENT j1 j2 =? -1 then q0 else mget INTCH (Z.to_nat (zmget JENT j1 j2)) d.

(** Exports minus imports of area [j] on day [d], [n] areas. *)
Definition net_export (n : nat) (JENT : list (list Z)) (INTCH : list (list Qc)) (j d : nat) : Qc :=
  Qcminus (qs n (fun k => amount JENT INTCH j k d)) (qs n (fun k => amount JENT INTCH k j d)).

(** [k] is the earliest position of the largest element of [l]. *)
Definition first_max (l : list Qc) (k : nat) : Prop :=
  (k < length l)%nat /\
  (forall i, (i < length l)%nat -> (nth i l q0 <= nth k l q0)%Qc) /\
  (forall i, (i < k)%nat -> (nth i l q0 < nth k l q0)%Qc).

(** The season (0..3) of an hour, for season changes at the hours [QTR]. *)
Definition season_of (QTR : list Qc) (h : Qc) (s : nat) : Prop :=
  (s <= 3)%nat /\
  (forall k, (k < s)%nat -> (k < 3)%nat -> (nth k QTR q0 < h)%Qc) /\
  (forall k, (s <= k)%nat -> (k < 3)%nat -> (h <= nth k QTR q0)%Qc).
