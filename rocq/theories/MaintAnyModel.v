(** The scheduling code of [pmsc] that MaintModel leaves open. *)
From Verif Require Import Base MaintModel.

(** pmsc.py 446-685 ("for JA in range(N1, N2)" and the loops in it), entered with N1 < N2.
    MWEEK[N1] is not 0 (437-443), so the pass for JA = N1 is not skipped (456-457).  DURL is
    an entry of DURLOS, an array of floats (88, 134, 470), hence IM, IT and IX (486-491)
    are floats and "range(I1, IX + 1)" (495) raises a TypeError: a numpy.float64 is not an
    integer.  MINRAN, MAXRAN, INHBT1 and INHBT2 are assumed to have an entry for the area. *)
Definition block_py {rest : Type} : nat -> nat -> nat -> mst rest -> res (mst rest) := fun _ _ _ _ => Err TypeError.
