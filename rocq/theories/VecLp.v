(** The tests of rm, rc, mc, connls, linp, net, tm2 and transm: monte_carlo/tests/test_*.py.  linp gets fuel for 200 passes.
    Generated by tools/mkvectors.py; do not edit. *)
From Verif Require Import Base Vec NetModel LinpackModel LpModel VecNet.
Open Scope Z_scope.

Definition arr (m : list (list Qc)) : arr2 := fun i j => mget m i j.
Definition arrv (v : list Qc) : arr1 := fun i => vget v i.
Definition mat (r c : nat) (A : arr2) : list (list Qc) := mtab r c A.
Definition row (c : nat) (A : arr1) : list Qc := vtab c A.
Example rm_1 : vnear 6 (rm 30 (qs 1 [0; 0; 0; 0; 0; 0; 0; 0; 0; 0; 0; 0; 0; 0; 0; 0; 0; 0; 0; 0; 0; 0; 0; 0; 0; 1; 1; 1; 1; 1]) (qm 1 [[1; 0; 0; 0; 0; 0; 0; 0; 0; 0; 0; 0; 0; 0; 0; 0; 0; 0; 0; 0; 0; 0; 0; 0; 0; 0; 0; 0; 0; 0];
    [0; 1; 0; 0; 0; 0; 0; 0; 0; 0; 0; 0; 0; 0; 0; 0; 0; 0; 0; 0; 0; 0; 0; 0; 0; 0; 0; 0; 0; 0];
    [0; 0; 1; 0; 0; 0; 0; 0; 0; 0; 0; 0; 0; 0; 0; 0; 0; 0; 0; 0; 0; 0; 0; 0; 0; 0; 0; 0; 0; 0];
    [0; 0; 0; 1; 0; 0; 0; 0; 0; 0; 0; 0; 0; 0; 0; 0; 0; 0; 0; 0; 0; 0; 0; 0; 0; 0; 0; 0; 0; 0];
    [0; 0; 0; 0; 1; 0; 0; 0; 0; 0; 0; 0; 0; 0; 0; 0; 0; 0; 0; 0; 0; 0; 0; 0; 0; 0; 0; 0; 0; 0];
    [0; 0; 0; 0; 0; 1; 0; 0; 0; 0; 0; 0; 0; 0; 0; 0; 0; 0; 0; 0; 0; 0; 0; 0; 0; 0; 0; 0; 0; 0];
    [0; 0; 0; 0; 0; 0; 1; 0; 0; 0; 0; 0; 0; 0; 0; 0; 0; 0; 0; 0; 0; 0; 0; 0; 0; 0; 0; 0; 0; 0];
    [0; 0; 0; 0; 0; 0; 0; 1; 0; 0; 0; 0; 0; 0; 0; 0; 0; 0; 0; 0; 0; 0; 0; 0; 0; 0; 0; 0; 0; 0];
    [0; 0; 0; 0; 0; 0; 0; 0; 1; 0; 0; 0; 0; 0; 0; 0; 0; 0; 0; 0; 0; 0; 0; 0; 0; 0; 0; 0; 0; 0];
    [0; 0; 0; 0; 0; 0; 0; 0; 0; 1; 0; 0; 0; 0; 0; 0; 0; 0; 0; 0; 0; 0; 0; 0; 0; 0; 0; 0; 0; 0];
    [0; 0; 0; 0; 0; 0; 0; 0; 0; 0; 1; 0; 0; 0; 0; 0; 0; 0; 0; 0; 0; 0; 0; 0; 0; 0; 0; 0; 0; 0];
    [0; 0; 0; 0; 0; 0; 0; 0; 0; 0; 0; 1; 0; 0; 0; 0; 0; 0; 0; 0; 0; 0; 0; 0; 0; 0; 0; 0; 0; 0];
    [0; 0; 0; 0; 0; 0; 0; 0; 0; 0; 0; 0; 1; 0; 0; 0; 0; 0; 0; 0; 0; 0; 0; 0; 0; 0; 0; 0; 0; 0];
    [0; 0; 0; 0; 0; 0; 0; 0; 0; 0; 0; 0; 0; 1; 0; 0; 0; 0; 0; 0; 0; 0; 0; 0; 0; 0; 0; 0; 0; 0];
    [0; 0; 0; 0; 0; 0; 0; 0; 0; 0; 0; 0; 0; 0; 1; 0; 0; 0; 0; 0; 0; 0; 0; 0; 0; 0; 0; 0; 0; 0];
    [0; 0; 0; 0; 0; 0; 0; 0; 0; 0; 0; 0; 0; 0; 0; 1; 0; 0; 0; 0; 0; 0; 0; 0; 0; 0; 0; 0; 0; 0];
    [0; 0; 0; 0; 0; 0; 0; 0; 0; 0; 0; 0; 0; 0; 0; 0; 1; 0; 0; 0; 0; 0; 0; 0; 0; 0; 0; 0; 0; 0];
    [0; 0; 0; 0; 0; 0; 0; 0; 0; 0; 0; 0; 0; 0; 0; 0; 0; 1; 0; 0; 0; 0; 0; 0; 0; 0; 0; 0; 0; 0];
    [0; 0; 0; 0; 0; 0; 0; 0; 0; 0; 0; 0; 0; 0; 0; 0; 0; 0; 1; 0; 0; 0; 0; 0; 0; 0; 0; 0; 0; 0];
    [0; 0; 0; 0; 0; 0; 0; 0; 0; 0; 0; 0; 0; 0; 0; 0; 0; 0; 0; 1; 0; 0; 0; 0; 0; 0; 0; 0; 0; 0];
    [0; 0; 0; 0; 0; 0; 0; 0; 0; 0; 0; 0; 0; 0; 0; 0; 0; 0; 0; 0; 1; 0; 0; 0; 0; 0; 0; 0; 0; 0];
    [0; 0; 0; 0; 0; 0; 0; 0; 0; 0; 0; 0; 0; 0; 0; 0; 0; 0; 0; 0; 0; 1; 0; 0; 0; 0; 0; 0; 0; 0];
    [0; 0; 0; 0; 0; 0; 0; 0; 0; 0; 0; 0; 0; 0; 0; 0; 0; 0; 0; 0; 0; 0; 1; 0; 0; 0; 0; 0; 0; 0];
    [0; 0; 0; 0; 0; 0; 0; 0; 0; 0; 0; 0; 0; 0; 0; 0; 0; 0; 0; 0; 0; 0; 0; 1; 0; 0; 0; 0; 0; 0];
    [0; 0; 0; 0; 0; 0; 0; 0; 0; 0; 0; 0; 0; 0; 0; 0; 0; 0; 0; 0; 0; 0; 0; 0; 1; 0; 0; 0; 0; 0];
    [0; 0; 0; 0; 0; 0; 0; 0; 0; 0; 0; 0; 0; 0; 0; 0; 0; 0; 0; 0; 0; 0; 0; 0; 0; 1; 0; 0; 0; 0];
    [0; 0; 0; 0; 0; 0; 0; 0; 0; 0; 0; 0; 0; 0; 0; 0; 0; 0; 0; 0; 0; 0; 0; 0; 0; 0; 1; 0; 0; 0];
    [0; 0; 0; 0; 0; 0; 0; 0; 0; 0; 0; 0; 0; 0; 0; 0; 0; 0; 0; 0; 0; 0; 0; 0; 0; 0; 0; 1; 0; 0];
    [0; 0; 0; 0; 0; 0; 0; 0; 0; 0; 0; 0; 0; 0; 0; 0; 0; 0; 0; 0; 0; 0; 0; 0; 0; 0; 0; 0; 1; 0];
    [0; 0; 0; 0; 0; 0; 0; 0; 0; 0; 0; 0; 0; 0; 0; 0; 0; 0; 0; 0; 0; 0; 0; 0; 0; 0; 0; 0; 0; 1]])) (qs 1 [0; 0; 0; 0; 0; 0; 0; 0; 0; 0; 0; 0; 0; 0; 0; 0; 0; 0; 0; 0; 0; 0; 0; 0; 0; 1; 1; 1; 1; 1]) = true.
Proof. vm_compute; reflexivity. Qed.
Example rc_1 : qeqb (rc 30 (qs 1 [0; 0; 0; 0; 0; 0; 0; 0; 0; 0; 0; 0; 0; 0; 0; 0; 0; 0; 0; 0; 0; 0; 0; 0; 0; 1; 1; 1; 1; 1]) (arr (qm 10 [[0; 0; 0; 0; 0; 0; 0; 0; 10; 0; 0; 0; 0; 10; 0; 0; 0; 0; 0; 0; 0; 0; 0; 0; 0; 0; 0; 0; 0; 0; 0; 0; 0; 0; 0; 0; 0; 0; 0; 0; 0; 0; 0];
    [0; 0; 0; 0; 0; 0; 0; 0; 0; 10; 0; 0; 0; 0; 10; 0; 0; 0; 0; 0; 0; 0; 0; 0; 0; 0; 0; 0; 0; 0; 0; 0; 0; 0; 0; 0; 0; 0; 0; 0; 0; 0; 0];
    [0; 0; 0; 0; 0; 0; 0; 0; 0; 0; 10; 0; 0; 0; 0; 10; 0; 0; 0; 0; 0; 0; 0; 0; 0; 0; 0; 0; 0; 0; 0; 0; 0; 0; 0; 0; 0; 0; 0; 0; 0; 0; 0];
    [0; 0; 0; 0; 0; 0; 0; 0; 0; 0; 0; 10; 0; 0; 0; 0; 10; 0; 0; 0; 0; 0; 0; 0; 0; 0; 0; 0; 0; 0; 0; 0; 0; 0; 0; 0; 0; 0; 0; 0; 0; 0; 0];
    [0; 0; 0; 0; 0; 0; 0; 0; 0; 0; 0; 0; 10; 0; 0; 0; 0; 10; 0; 0; 0; 0; 0; 0; 0; 0; 0; 0; 0; 0; 0; 0; 0; 0; 0; 0; 0; 0; 0; 0; 0; 0; 0];
    [1200; (-1200); 0; 0; 0; 0; 0; 0; 0; 0; 0; 0; 0; 0; 0; 0; 0; 0; 10; 0; 0; 0; 0; 0; 0; 0; 0; 0; 0; 0; 0; 0; 0; 0; 0; 0; 0; 0; 0; 0; 0; 0; 0];
    [(-5); 5; 5; (-5); 0; 0; 0; 0; 0; 0; 0; 0; 0; 0; 0; 0; 0; 0; 0; 10; 0; 0; 0; 0; 0; 0; 0; 0; 0; 0; 0; 0; 0; 0; 0; 0; 0; 0; 0; 0; 0; 0; 0];
    [0; 0; (-1200); 1200; 1200; (-1200); 0; 0; 0; 0; 0; 0; 0; 0; 0; 0; 0; 0; 0; 0; 10; 0; 0; 0; 0; 0; 0; 0; 0; 0; 0; 0; 0; 0; 0; 0; 0; 0; 0; 0; 0; 0; 0];
    [0; 0; 0; 0; (-1200); 1200; 1200; (-1200); 0; 0; 0; 0; 0; 0; 0; 0; 0; 0; 0; 0; 0; 10; 0; 0; 0; 0; 0; 0; 0; 0; 0; 0; 0; 0; 0; 0; 0; 0; 0; 0; 0; 0; 0];
    [0; 0; 0; 0; 0; 0; (-1200); 1200; 0; 0; 0; 0; 0; 0; 0; 0; 0; 0; 0; 0; 0; 0; 10; 0; 0; 0; 0; 0; 0; 0; 0; 0; 0; 0; 0; 0; 0; 0; 0; 0; 0; 0; 0];
    [(-1200); 1200; 0; 0; 0; 0; 0; 0; 0; 0; 0; 0; 0; 0; 0; 0; 0; 0; 0; 0; 0; 0; 0; 10; 0; 0; 0; 0; 0; 0; 0; 0; 0; 0; 0; 0; 0; 0; 0; 0; 0; 0; 0];
    [5; (-5); (-5); 5; 0; 0; 0; 0; 0; 0; 0; 0; 0; 0; 0; 0; 0; 0; 0; 0; 0; 0; 0; 0; 10; 0; 0; 0; 0; 0; 0; 0; 0; 0; 0; 0; 0; 0; 0; 0; 0; 0; 0];
    [0; 0; 1200; (-1200); (-1200); 1200; 0; 0; 0; 0; 0; 0; 0; 0; 0; 0; 0; 0; 0; 0; 0; 0; 0; 0; 0; 10; 0; 0; 0; 0; 0; 0; 0; 0; 0; 0; 0; 0; 0; 0; 0; 0; 0];
    [0; 0; 0; 0; 1200; (-1200); (-1200); 1200; 0; 0; 0; 0; 0; 0; 0; 0; 0; 0; 0; 0; 0; 0; 0; 0; 0; 0; 10; 0; 0; 0; 0; 0; 0; 0; 0; 0; 0; 0; 0; 0; 0; 0; 0];
    [0; 0; 0; 0; 0; 0; 1200; (-1200); 0; 0; 0; 0; 0; 0; 0; 0; 0; 0; 0; 0; 0; 0; 0; 0; 0; 0; 0; 10; 0; 0; 0; 0; 0; 0; 0; 0; 0; 0; 0; 0; 0; 0; 0];
    [(-1205); 1205; 5; (-5); 0; 0; 0; 0; 0; 0; 0; 0; 0; 0; 0; 0; 0; 0; 0; 0; 0; 0; 0; 0; 0; 0; 0; 0; 10; 0; 0; 0; 0; 0; 0; 0; 0; 0; 0; 0; 0; 0; 0];
    [5; (-5); (-1205); 1205; 1200; (-1200); 0; 0; 0; 0; 0; 0; 0; 0; 0; 0; 0; 0; 0; 0; 0; 0; 0; 0; 0; 0; 0; 0; 0; 10; 0; 0; 0; 0; 0; 0; 0; 0; 0; 0; 0; 0; 0];
    [0; 0; 1200; (-1200); (-2400); 2400; 1200; (-1200); 0; 0; 0; 0; 0; 0; 0; 0; 0; 0; 0; 0; 0; 0; 0; 0; 0; 0; 0; 0; 0; 0; 10; 0; 0; 0; 0; 0; 0; 0; 0; 0; 0; 0; 0];
    [0; 0; 0; 0; 1200; (-1200); (-2400); 2400; 0; 0; 0; 0; 0; 0; 0; 0; 0; 0; 0; 0; 0; 0; 0; 0; 0; 0; 0; 0; 0; 0; 0; 10; 0; 0; 0; 0; 0; 0; 0; 0; 0; 0; 0];
    [1200; (-1200); 0; 0; 0; 0; 1200; (-1200); 0; 0; 0; 0; 0; 0; 0; 0; 0; 0; 0; 0; 0; 0; 0; 0; 0; 0; 0; 0; 0; 0; 0; 0; 10; 0; 0; 0; 0; 0; 0; 0; 0; 0; 0];
    [1205; (-1205); (-5); 5; 0; 0; 0; 0; 0; 0; 0; 0; 0; 0; 0; 0; 0; 0; 0; 0; 0; 0; 0; 0; 0; 0; 0; 0; 0; 0; 0; 0; 0; 10; 0; 0; 0; 0; 0; 0; 0; 0; 0];
    [(-5); 5; 1205; (-1205); (-1200); 1200; 0; 0; 0; 0; 0; 0; 0; 0; 0; 0; 0; 0; 0; 0; 0; 0; 0; 0; 0; 0; 0; 0; 0; 0; 0; 0; 0; 0; 10; 0; 0; 0; 0; 0; 0; 0; 0];
    [0; 0; (-1200); 1200; 2400; (-2400); (-1200); 1200; 0; 0; 0; 0; 0; 0; 0; 0; 0; 0; 0; 0; 0; 0; 0; 0; 0; 0; 0; 0; 0; 0; 0; 0; 0; 0; 0; 10; 0; 0; 0; 0; 0; 0; 0];
    [0; 0; 0; 0; (-1200); 1200; 2400; (-2400); 0; 0; 0; 0; 0; 0; 0; 0; 0; 0; 0; 0; 0; 0; 0; 0; 0; 0; 0; 0; 0; 0; 0; 0; 0; 0; 0; 0; 10; 0; 0; 0; 0; 0; 0];
    [(-1200); 1200; 0; 0; 0; 0; (-1200); 1200; 0; 0; 0; 0; 0; 0; 0; 0; 0; 0; 0; 0; 0; 0; 0; 0; 0; 0; 0; 0; 0; 0; 0; 0; 0; 0; 0; 0; 0; 10; 0; 0; 0; 0; 0];
    [(-1205); 1205; 5; (-5); 0; 0; 0; 0; (-10); 0; 0; 0; 0; 0; 0; 0; 0; 0; 0; 0; 0; 0; 0; 0; 0; 0; 0; 0; 0; 0; 0; 0; 0; 0; 0; 0; 0; 0; 10; 0; 0; 0; 0];
    [(-5); 5; 1205; (-1205); (-1200); 1200; 0; 0; 0; 10; 0; 0; 0; 0; 0; 0; 0; 0; 0; 0; 0; 0; 0; 0; 0; 0; 0; 0; 0; 0; 0; 0; 0; 0; 0; 0; 0; 0; 0; 10; 0; 0; 0];
    [0; 0; 1200; (-1200); (-2400); 2400; 1200; (-1200); 0; 0; (-10); 0; 0; 0; 0; 0; 0; 0; 0; 0; 0; 0; 0; 0; 0; 0; 0; 0; 0; 0; 0; 0; 0; 0; 0; 0; 0; 0; 0; 0; 10; 0; 0];
    [0; 0; 0; 0; 1200; (-1200); (-2400); 2400; 0; 0; 0; (-10); 0; 0; 0; 0; 0; 0; 0; 0; 0; 0; 0; 0; 0; 0; 0; 0; 0; 0; 0; 0; 0; 0; 0; 0; 0; 0; 0; 0; 0; 10; 0];
    [1200; (-1200); 0; 0; 0; 0; 1200; (-1200); 0; 0; 0; 0; (-10); 0; 0; 0; 0; 0; 0; 0; 0; 0; 0; 0; 0; 0; 0; 0; 0; 0; 0; 0; 0; 0; 0; 0; 0; 0; 0; 0; 0; 0; 10]])) 0) (qq (-1) 1) = true.
Proof. vm_compute; reflexivity. Qed.
Example mc_1 : vnear 6 (mc 30 2 (qm 1 [[1; 0; 0; 0; 0; 0; 0; 0; 0; 0; 0; 0; 0; 0; 0; 0; 0; 0; 0; 0; 0; 0; 0; 0; 0; 0; 0; 0; 0; 0];
    [0; 1; 0; 0; 0; 0; 0; 0; 0; 0; 0; 0; 0; 0; 0; 0; 0; 0; 0; 0; 0; 0; 0; 0; 0; 0; 0; 0; 0; 0];
    [0; 0; 1; 0; 0; 0; 0; 0; 0; 0; 0; 0; 0; 0; 0; 0; 0; 0; 0; 0; 0; 0; 0; 0; 0; 0; 0; 0; 0; 0];
    [0; 0; 0; 1; 0; 0; 0; 0; 0; 0; 0; 0; 0; 0; 0; 0; 0; 0; 0; 0; 0; 0; 0; 0; 0; 0; 0; 0; 0; 0];
    [0; 0; 0; 0; 1; 0; 0; 0; 0; 0; 0; 0; 0; 0; 0; 0; 0; 0; 0; 0; 0; 0; 0; 0; 0; 0; 0; 0; 0; 0];
    [0; 0; 0; 0; 0; 1; 0; 0; 0; 0; 0; 0; 0; 0; 0; 0; 0; 0; 0; 0; 0; 0; 0; 0; 0; 0; 0; 0; 0; 0];
    [0; 0; 0; 0; 0; 0; 1; 0; 0; 0; 0; 0; 0; 0; 0; 0; 0; 0; 0; 0; 0; 0; 0; 0; 0; 0; 0; 0; 0; 0];
    [0; 0; 0; 0; 0; 0; 0; 1; 0; 0; 0; 0; 0; 0; 0; 0; 0; 0; 0; 0; 0; 0; 0; 0; 0; 0; 0; 0; 0; 0];
    [0; 0; 0; 0; 0; 0; 0; 0; 1; 0; 0; 0; 0; 0; 0; 0; 0; 0; 0; 0; 0; 0; 0; 0; 0; 0; 0; 0; 0; 0];
    [0; 0; 0; 0; 0; 0; 0; 0; 0; 1; 0; 0; 0; 0; 0; 0; 0; 0; 0; 0; 0; 0; 0; 0; 0; 0; 0; 0; 0; 0];
    [0; 0; 0; 0; 0; 0; 0; 0; 0; 0; 1; 0; 0; 0; 0; 0; 0; 0; 0; 0; 0; 0; 0; 0; 0; 0; 0; 0; 0; 0];
    [0; 0; 0; 0; 0; 0; 0; 0; 0; 0; 0; 1; 0; 0; 0; 0; 0; 0; 0; 0; 0; 0; 0; 0; 0; 0; 0; 0; 0; 0];
    [0; 0; 0; 0; 0; 0; 0; 0; 0; 0; 0; 0; 1; 0; 0; 0; 0; 0; 0; 0; 0; 0; 0; 0; 0; 0; 0; 0; 0; 0];
    [0; 0; 0; 0; 0; 0; 0; 0; 0; 0; 0; 0; 0; 1; 0; 0; 0; 0; 0; 0; 0; 0; 0; 0; 0; 0; 0; 0; 0; 0];
    [0; 0; 0; 0; 0; 0; 0; 0; 0; 0; 0; 0; 0; 0; 1; 0; 0; 0; 0; 0; 0; 0; 0; 0; 0; 0; 0; 0; 0; 0];
    [0; 0; 0; 0; 0; 0; 0; 0; 0; 0; 0; 0; 0; 0; 0; 1; 0; 0; 0; 0; 0; 0; 0; 0; 0; 0; 0; 0; 0; 0];
    [0; 0; 0; 0; 0; 0; 0; 0; 0; 0; 0; 0; 0; 0; 0; 0; 1; 0; 0; 0; 0; 0; 0; 0; 0; 0; 0; 0; 0; 0];
    [0; 0; 0; 0; 0; 0; 0; 0; 0; 0; 0; 0; 0; 0; 0; 0; 0; 1; 0; 0; 0; 0; 0; 0; 0; 0; 0; 0; 0; 0];
    [0; 0; 0; 0; 0; 0; 0; 0; 0; 0; 0; 0; 0; 0; 0; 0; 0; 0; 1; 0; 0; 0; 0; 0; 0; 0; 0; 0; 0; 0];
    [0; 0; 0; 0; 0; 0; 0; 0; 0; 0; 0; 0; 0; 0; 0; 0; 0; 0; 0; 1; 0; 0; 0; 0; 0; 0; 0; 0; 0; 0];
    [0; 0; 0; 0; 0; 0; 0; 0; 0; 0; 0; 0; 0; 0; 0; 0; 0; 0; 0; 0; 1; 0; 0; 0; 0; 0; 0; 0; 0; 0];
    [0; 0; 0; 0; 0; 0; 0; 0; 0; 0; 0; 0; 0; 0; 0; 0; 0; 0; 0; 0; 0; 1; 0; 0; 0; 0; 0; 0; 0; 0];
    [0; 0; 0; 0; 0; 0; 0; 0; 0; 0; 0; 0; 0; 0; 0; 0; 0; 0; 0; 0; 0; 0; 1; 0; 0; 0; 0; 0; 0; 0];
    [0; 0; 0; 0; 0; 0; 0; 0; 0; 0; 0; 0; 0; 0; 0; 0; 0; 0; 0; 0; 0; 0; 0; 1; 0; 0; 0; 0; 0; 0];
    [0; 0; 0; 0; 0; 0; 0; 0; 0; 0; 0; 0; 0; 0; 0; 0; 0; 0; 0; 0; 0; 0; 0; 0; 1; 0; 0; 0; 0; 0];
    [0; 0; 0; 0; 0; 0; 0; 0; 0; 0; 0; 0; 0; 0; 0; 0; 0; 0; 0; 0; 0; 0; 0; 0; 0; 1; 0; 0; 0; 0];
    [0; 0; 0; 0; 0; 0; 0; 0; 0; 0; 0; 0; 0; 0; 0; 0; 0; 0; 0; 0; 0; 0; 0; 0; 0; 0; 1; 0; 0; 0];
    [0; 0; 0; 0; 0; 0; 0; 0; 0; 0; 0; 0; 0; 0; 0; 0; 0; 0; 0; 0; 0; 0; 0; 0; 0; 0; 0; 1; 0; 0];
    [0; 0; 0; 0; 0; 0; 0; 0; 0; 0; 0; 0; 0; 0; 0; 0; 0; 0; 0; 0; 0; 0; 0; 0; 0; 0; 0; 0; 1; 0];
    [0; 0; 0; 0; 0; 0; 0; 0; 0; 0; 0; 0; 0; 0; 0; 0; 0; 0; 0; 0; 0; 0; 0; 0; 0; 0; 0; 0; 0; 1]]) (arr (qm 10 [[0; 0; 0; 0; 0; 0; 0; 0; 10; 0; 0; 0; 0; 10; 0; 0; 0; 0; 0; 0; 0; 0; 0; 0; 0; 0; 0; 0; 0; 0; 0; 0; 0; 0; 0; 0; 0; 0; 0; 0; 0; 0; 0];
    [0; 0; 0; 0; 0; 0; 0; 0; 0; 10; 0; 0; 0; 0; 10; 0; 0; 0; 0; 0; 0; 0; 0; 0; 0; 0; 0; 0; 0; 0; 0; 0; 0; 0; 0; 0; 0; 0; 0; 0; 0; 0; 0];
    [0; 0; 0; 0; 0; 0; 0; 0; 0; 0; 10; 0; 0; 0; 0; 10; 0; 0; 0; 0; 0; 0; 0; 0; 0; 0; 0; 0; 0; 0; 0; 0; 0; 0; 0; 0; 0; 0; 0; 0; 0; 0; 0];
    [0; 0; 0; 0; 0; 0; 0; 0; 0; 0; 0; 10; 0; 0; 0; 0; 10; 0; 0; 0; 0; 0; 0; 0; 0; 0; 0; 0; 0; 0; 0; 0; 0; 0; 0; 0; 0; 0; 0; 0; 0; 0; 0];
    [0; 0; 0; 0; 0; 0; 0; 0; 0; 0; 0; 0; 10; 0; 0; 0; 0; 10; 0; 0; 0; 0; 0; 0; 0; 0; 0; 0; 0; 0; 0; 0; 0; 0; 0; 0; 0; 0; 0; 0; 0; 0; 0];
    [1200; (-1200); 0; 0; 0; 0; 0; 0; 0; 0; 0; 0; 0; 0; 0; 0; 0; 0; 10; 0; 0; 0; 0; 0; 0; 0; 0; 0; 0; 0; 0; 0; 0; 0; 0; 0; 0; 0; 0; 0; 0; 0; 0];
    [(-5); 5; 5; (-5); 0; 0; 0; 0; 0; 0; 0; 0; 0; 0; 0; 0; 0; 0; 0; 10; 0; 0; 0; 0; 0; 0; 0; 0; 0; 0; 0; 0; 0; 0; 0; 0; 0; 0; 0; 0; 0; 0; 0];
    [0; 0; (-1200); 1200; 1200; (-1200); 0; 0; 0; 0; 0; 0; 0; 0; 0; 0; 0; 0; 0; 0; 10; 0; 0; 0; 0; 0; 0; 0; 0; 0; 0; 0; 0; 0; 0; 0; 0; 0; 0; 0; 0; 0; 0];
    [0; 0; 0; 0; (-1200); 1200; 1200; (-1200); 0; 0; 0; 0; 0; 0; 0; 0; 0; 0; 0; 0; 0; 10; 0; 0; 0; 0; 0; 0; 0; 0; 0; 0; 0; 0; 0; 0; 0; 0; 0; 0; 0; 0; 0];
    [0; 0; 0; 0; 0; 0; (-1200); 1200; 0; 0; 0; 0; 0; 0; 0; 0; 0; 0; 0; 0; 0; 0; 10; 0; 0; 0; 0; 0; 0; 0; 0; 0; 0; 0; 0; 0; 0; 0; 0; 0; 0; 0; 0];
    [(-1200); 1200; 0; 0; 0; 0; 0; 0; 0; 0; 0; 0; 0; 0; 0; 0; 0; 0; 0; 0; 0; 0; 0; 10; 0; 0; 0; 0; 0; 0; 0; 0; 0; 0; 0; 0; 0; 0; 0; 0; 0; 0; 0];
    [5; (-5); (-5); 5; 0; 0; 0; 0; 0; 0; 0; 0; 0; 0; 0; 0; 0; 0; 0; 0; 0; 0; 0; 0; 10; 0; 0; 0; 0; 0; 0; 0; 0; 0; 0; 0; 0; 0; 0; 0; 0; 0; 0];
    [0; 0; 1200; (-1200); (-1200); 1200; 0; 0; 0; 0; 0; 0; 0; 0; 0; 0; 0; 0; 0; 0; 0; 0; 0; 0; 0; 10; 0; 0; 0; 0; 0; 0; 0; 0; 0; 0; 0; 0; 0; 0; 0; 0; 0];
    [0; 0; 0; 0; 1200; (-1200); (-1200); 1200; 0; 0; 0; 0; 0; 0; 0; 0; 0; 0; 0; 0; 0; 0; 0; 0; 0; 0; 10; 0; 0; 0; 0; 0; 0; 0; 0; 0; 0; 0; 0; 0; 0; 0; 0];
    [0; 0; 0; 0; 0; 0; 1200; (-1200); 0; 0; 0; 0; 0; 0; 0; 0; 0; 0; 0; 0; 0; 0; 0; 0; 0; 0; 0; 10; 0; 0; 0; 0; 0; 0; 0; 0; 0; 0; 0; 0; 0; 0; 0];
    [(-1205); 1205; 5; (-5); 0; 0; 0; 0; 0; 0; 0; 0; 0; 0; 0; 0; 0; 0; 0; 0; 0; 0; 0; 0; 0; 0; 0; 0; 10; 0; 0; 0; 0; 0; 0; 0; 0; 0; 0; 0; 0; 0; 0];
    [5; (-5); (-1205); 1205; 1200; (-1200); 0; 0; 0; 0; 0; 0; 0; 0; 0; 0; 0; 0; 0; 0; 0; 0; 0; 0; 0; 0; 0; 0; 0; 10; 0; 0; 0; 0; 0; 0; 0; 0; 0; 0; 0; 0; 0];
    [0; 0; 1200; (-1200); (-2400); 2400; 1200; (-1200); 0; 0; 0; 0; 0; 0; 0; 0; 0; 0; 0; 0; 0; 0; 0; 0; 0; 0; 0; 0; 0; 0; 10; 0; 0; 0; 0; 0; 0; 0; 0; 0; 0; 0; 0];
    [0; 0; 0; 0; 1200; (-1200); (-2400); 2400; 0; 0; 0; 0; 0; 0; 0; 0; 0; 0; 0; 0; 0; 0; 0; 0; 0; 0; 0; 0; 0; 0; 0; 10; 0; 0; 0; 0; 0; 0; 0; 0; 0; 0; 0];
    [1200; (-1200); 0; 0; 0; 0; 1200; (-1200); 0; 0; 0; 0; 0; 0; 0; 0; 0; 0; 0; 0; 0; 0; 0; 0; 0; 0; 0; 0; 0; 0; 0; 0; 10; 0; 0; 0; 0; 0; 0; 0; 0; 0; 0];
    [1205; (-1205); (-5); 5; 0; 0; 0; 0; 0; 0; 0; 0; 0; 0; 0; 0; 0; 0; 0; 0; 0; 0; 0; 0; 0; 0; 0; 0; 0; 0; 0; 0; 0; 10; 0; 0; 0; 0; 0; 0; 0; 0; 0];
    [(-5); 5; 1205; (-1205); (-1200); 1200; 0; 0; 0; 0; 0; 0; 0; 0; 0; 0; 0; 0; 0; 0; 0; 0; 0; 0; 0; 0; 0; 0; 0; 0; 0; 0; 0; 0; 10; 0; 0; 0; 0; 0; 0; 0; 0];
    [0; 0; (-1200); 1200; 2400; (-2400); (-1200); 1200; 0; 0; 0; 0; 0; 0; 0; 0; 0; 0; 0; 0; 0; 0; 0; 0; 0; 0; 0; 0; 0; 0; 0; 0; 0; 0; 0; 10; 0; 0; 0; 0; 0; 0; 0];
    [0; 0; 0; 0; (-1200); 1200; 2400; (-2400); 0; 0; 0; 0; 0; 0; 0; 0; 0; 0; 0; 0; 0; 0; 0; 0; 0; 0; 0; 0; 0; 0; 0; 0; 0; 0; 0; 0; 10; 0; 0; 0; 0; 0; 0];
    [(-1200); 1200; 0; 0; 0; 0; (-1200); 1200; 0; 0; 0; 0; 0; 0; 0; 0; 0; 0; 0; 0; 0; 0; 0; 0; 0; 0; 0; 0; 0; 0; 0; 0; 0; 0; 0; 0; 0; 10; 0; 0; 0; 0; 0];
    [(-1205); 1205; 5; (-5); 0; 0; 0; 0; (-10); 0; 0; 0; 0; 0; 0; 0; 0; 0; 0; 0; 0; 0; 0; 0; 0; 0; 0; 0; 0; 0; 0; 0; 0; 0; 0; 0; 0; 0; 10; 0; 0; 0; 0];
    [(-5); 5; 1205; (-1205); (-1200); 1200; 0; 0; 0; 10; 0; 0; 0; 0; 0; 0; 0; 0; 0; 0; 0; 0; 0; 0; 0; 0; 0; 0; 0; 0; 0; 0; 0; 0; 0; 0; 0; 0; 0; 10; 0; 0; 0];
    [0; 0; 1200; (-1200); (-2400); 2400; 1200; (-1200); 0; 0; (-10); 0; 0; 0; 0; 0; 0; 0; 0; 0; 0; 0; 0; 0; 0; 0; 0; 0; 0; 0; 0; 0; 0; 0; 0; 0; 0; 0; 0; 0; 10; 0; 0];
    [0; 0; 0; 0; 1200; (-1200); (-2400); 2400; 0; 0; 0; (-10); 0; 0; 0; 0; 0; 0; 0; 0; 0; 0; 0; 0; 0; 0; 0; 0; 0; 0; 0; 0; 0; 0; 0; 0; 0; 0; 0; 0; 0; 10; 0];
    [1200; (-1200); 0; 0; 0; 0; 1200; (-1200); 0; 0; 0; 0; (-10); 0; 0; 0; 0; 0; 0; 0; 0; 0; 0; 0; 0; 0; 0; 0; 0; 0; 0; 0; 0; 0; 0; 0; 0; 0; 0; 0; 0; 0; 10]]))) (qs 10 [0; 0; 0; 0; 0; 0; 5; (-1200); 0; 0; 0; (-5); 1200; 0; 0; 5; (-1205); 1200; 0; 0; (-5); 1205; (-1200); 0; 0; 5; 1205; 1200; 0; 0]) = true.
Proof. vm_compute; reflexivity. Qed.
(** test_connls.py case 1; the test's XOB is the second row of XOBI and its TAB the block of A *)
Example connls_1 : okd (connls (qm 10 [[(-1205); 5; 0; 0; 0];
    [5; (-1205); 1200; 0; 0];
    [0; 1200; (-2400); 1200; 0];
    [0; 0; 1200; (-2400); 0];
    [0; 0; 0; 0; 0]]) (qs 1 [126; 486; (-525); 506; 506]) 4 0 (map Z.to_nat [1; 2; 3; 4; 0]) (qm 10 [[(-1200); 3000; 3000];
    [(-5); 10; 10];
    [(-1200); 3000; 3000];
    [(-1200); 3000; 3000];
    [(-1200); 3000; 3000]]) [(0, 1); (1, 2); (2, 3); (3, 4); (4, 0)]%nat (qm 1 [[0; 2879; 126; 30000; 30000];
    [1; 2879; 486; 30000; 30000];
    [2; 2879; (-525); 30000; 30000];
    [3; 2879; 506; 30000; 30000];
    [4; 2879; 506; 30000; 30000]])) (fun d =>
  Nat.eqb (d_M d) 30 && Nat.eqb (d_N d) 43 && Nat.eqb (d_N1 d) 38 && mnear 5 (mat 30 43 (d_A d)) (qm 10 [[0; 0; 0; 0; 0; 0; 0; 0; 10; 0; 0; 0; 0; 10; 0; 0; 0; 0; 0; 0; 0; 0; 0; 0; 0; 0; 0; 0; 0; 0; 0; 0; 0; 0; 0; 0; 0; 0; 0; 0; 0; 0; 0];
    [0; 0; 0; 0; 0; 0; 0; 0; 0; 10; 0; 0; 0; 0; 10; 0; 0; 0; 0; 0; 0; 0; 0; 0; 0; 0; 0; 0; 0; 0; 0; 0; 0; 0; 0; 0; 0; 0; 0; 0; 0; 0; 0];
    [0; 0; 0; 0; 0; 0; 0; 0; 0; 0; 10; 0; 0; 0; 0; 10; 0; 0; 0; 0; 0; 0; 0; 0; 0; 0; 0; 0; 0; 0; 0; 0; 0; 0; 0; 0; 0; 0; 0; 0; 0; 0; 0];
    [0; 0; 0; 0; 0; 0; 0; 0; 0; 0; 0; 10; 0; 0; 0; 0; 10; 0; 0; 0; 0; 0; 0; 0; 0; 0; 0; 0; 0; 0; 0; 0; 0; 0; 0; 0; 0; 0; 0; 0; 0; 0; 0];
    [0; 0; 0; 0; 0; 0; 0; 0; 0; 0; 0; 0; 10; 0; 0; 0; 0; 10; 0; 0; 0; 0; 0; 0; 0; 0; 0; 0; 0; 0; 0; 0; 0; 0; 0; 0; 0; 0; 0; 0; 0; 0; 0];
    [1200; (-1200); 0; 0; 0; 0; 0; 0; 0; 0; 0; 0; 0; 0; 0; 0; 0; 0; 10; 0; 0; 0; 0; 0; 0; 0; 0; 0; 0; 0; 0; 0; 0; 0; 0; 0; 0; 0; 0; 0; 0; 0; 0];
    [(-5); 5; 5; (-5); 0; 0; 0; 0; 0; 0; 0; 0; 0; 0; 0; 0; 0; 0; 0; 10; 0; 0; 0; 0; 0; 0; 0; 0; 0; 0; 0; 0; 0; 0; 0; 0; 0; 0; 0; 0; 0; 0; 0];
    [0; 0; (-1200); 1200; 1200; (-1200); 0; 0; 0; 0; 0; 0; 0; 0; 0; 0; 0; 0; 0; 0; 10; 0; 0; 0; 0; 0; 0; 0; 0; 0; 0; 0; 0; 0; 0; 0; 0; 0; 0; 0; 0; 0; 0];
    [0; 0; 0; 0; (-1200); 1200; 1200; (-1200); 0; 0; 0; 0; 0; 0; 0; 0; 0; 0; 0; 0; 0; 10; 0; 0; 0; 0; 0; 0; 0; 0; 0; 0; 0; 0; 0; 0; 0; 0; 0; 0; 0; 0; 0];
    [0; 0; 0; 0; 0; 0; (-1200); 1200; 0; 0; 0; 0; 0; 0; 0; 0; 0; 0; 0; 0; 0; 0; 10; 0; 0; 0; 0; 0; 0; 0; 0; 0; 0; 0; 0; 0; 0; 0; 0; 0; 0; 0; 0];
    [(-1200); 1200; 0; 0; 0; 0; 0; 0; 0; 0; 0; 0; 0; 0; 0; 0; 0; 0; 0; 0; 0; 0; 0; 10; 0; 0; 0; 0; 0; 0; 0; 0; 0; 0; 0; 0; 0; 0; 0; 0; 0; 0; 0];
    [5; (-5); (-5); 5; 0; 0; 0; 0; 0; 0; 0; 0; 0; 0; 0; 0; 0; 0; 0; 0; 0; 0; 0; 0; 10; 0; 0; 0; 0; 0; 0; 0; 0; 0; 0; 0; 0; 0; 0; 0; 0; 0; 0];
    [0; 0; 1200; (-1200); (-1200); 1200; 0; 0; 0; 0; 0; 0; 0; 0; 0; 0; 0; 0; 0; 0; 0; 0; 0; 0; 0; 10; 0; 0; 0; 0; 0; 0; 0; 0; 0; 0; 0; 0; 0; 0; 0; 0; 0];
    [0; 0; 0; 0; 1200; (-1200); (-1200); 1200; 0; 0; 0; 0; 0; 0; 0; 0; 0; 0; 0; 0; 0; 0; 0; 0; 0; 0; 10; 0; 0; 0; 0; 0; 0; 0; 0; 0; 0; 0; 0; 0; 0; 0; 0];
    [0; 0; 0; 0; 0; 0; 1200; (-1200); 0; 0; 0; 0; 0; 0; 0; 0; 0; 0; 0; 0; 0; 0; 0; 0; 0; 0; 0; 10; 0; 0; 0; 0; 0; 0; 0; 0; 0; 0; 0; 0; 0; 0; 0];
    [(-1205); 1205; 5; (-5); 0; 0; 0; 0; 0; 0; 0; 0; 0; 0; 0; 0; 0; 0; 0; 0; 0; 0; 0; 0; 0; 0; 0; 0; 10; 0; 0; 0; 0; 0; 0; 0; 0; 0; 0; 0; 0; 0; 0];
    [5; (-5); (-1205); 1205; 1200; (-1200); 0; 0; 0; 0; 0; 0; 0; 0; 0; 0; 0; 0; 0; 0; 0; 0; 0; 0; 0; 0; 0; 0; 0; 10; 0; 0; 0; 0; 0; 0; 0; 0; 0; 0; 0; 0; 0];
    [0; 0; 1200; (-1200); (-2400); 2400; 1200; (-1200); 0; 0; 0; 0; 0; 0; 0; 0; 0; 0; 0; 0; 0; 0; 0; 0; 0; 0; 0; 0; 0; 0; 10; 0; 0; 0; 0; 0; 0; 0; 0; 0; 0; 0; 0];
    [0; 0; 0; 0; 1200; (-1200); (-2400); 2400; 0; 0; 0; 0; 0; 0; 0; 0; 0; 0; 0; 0; 0; 0; 0; 0; 0; 0; 0; 0; 0; 0; 0; 10; 0; 0; 0; 0; 0; 0; 0; 0; 0; 0; 0];
    [1200; (-1200); 0; 0; 0; 0; 1200; (-1200); 0; 0; 0; 0; 0; 0; 0; 0; 0; 0; 0; 0; 0; 0; 0; 0; 0; 0; 0; 0; 0; 0; 0; 0; 10; 0; 0; 0; 0; 0; 0; 0; 0; 0; 0];
    [1205; (-1205); (-5); 5; 0; 0; 0; 0; 0; 0; 0; 0; 0; 0; 0; 0; 0; 0; 0; 0; 0; 0; 0; 0; 0; 0; 0; 0; 0; 0; 0; 0; 0; 10; 0; 0; 0; 0; 0; 0; 0; 0; 0];
    [(-5); 5; 1205; (-1205); (-1200); 1200; 0; 0; 0; 0; 0; 0; 0; 0; 0; 0; 0; 0; 0; 0; 0; 0; 0; 0; 0; 0; 0; 0; 0; 0; 0; 0; 0; 0; 10; 0; 0; 0; 0; 0; 0; 0; 0];
    [0; 0; (-1200); 1200; 2400; (-2400); (-1200); 1200; 0; 0; 0; 0; 0; 0; 0; 0; 0; 0; 0; 0; 0; 0; 0; 0; 0; 0; 0; 0; 0; 0; 0; 0; 0; 0; 0; 10; 0; 0; 0; 0; 0; 0; 0];
    [0; 0; 0; 0; (-1200); 1200; 2400; (-2400); 0; 0; 0; 0; 0; 0; 0; 0; 0; 0; 0; 0; 0; 0; 0; 0; 0; 0; 0; 0; 0; 0; 0; 0; 0; 0; 0; 0; 10; 0; 0; 0; 0; 0; 0];
    [(-1200); 1200; 0; 0; 0; 0; (-1200); 1200; 0; 0; 0; 0; 0; 0; 0; 0; 0; 0; 0; 0; 0; 0; 0; 0; 0; 0; 0; 0; 0; 0; 0; 0; 0; 0; 0; 0; 0; 10; 0; 0; 0; 0; 0];
    [(-1205); 1205; 5; (-5); 0; 0; 0; 0; (-10); 0; 0; 0; 0; 0; 0; 0; 0; 0; 0; 0; 0; 0; 0; 0; 0; 0; 0; 0; 0; 0; 0; 0; 0; 0; 0; 0; 0; 0; 10; 0; 0; 0; 0];
    [(-5); 5; 1205; (-1205); (-1200); 1200; 0; 0; 0; 10; 0; 0; 0; 0; 0; 0; 0; 0; 0; 0; 0; 0; 0; 0; 0; 0; 0; 0; 0; 0; 0; 0; 0; 0; 0; 0; 0; 0; 0; 10; 0; 0; 0];
    [0; 0; 1200; (-1200); (-2400); 2400; 1200; (-1200); 0; 0; (-10); 0; 0; 0; 0; 0; 0; 0; 0; 0; 0; 0; 0; 0; 0; 0; 0; 0; 0; 0; 0; 0; 0; 0; 0; 0; 0; 0; 0; 0; 10; 0; 0];
    [0; 0; 0; 0; 1200; (-1200); (-2400); 2400; 0; 0; 0; (-10); 0; 0; 0; 0; 0; 0; 0; 0; 0; 0; 0; 0; 0; 0; 0; 0; 0; 0; 0; 0; 0; 0; 0; 0; 0; 0; 0; 0; 0; 10; 0];
    [1200; (-1200); 0; 0; 0; 0; 1200; (-1200); 0; 0; 0; 0; (-10); 0; 0; 0; 0; 0; 0; 0; 0; 0; 0; 0; 0; 0; 0; 0; 0; 0; 0; 0; 0; 0; 0; 0; 0; 0; 0; 0; 0; 0; 10]]) &&
  vnear 5 (row 43 (d_XOBI0 d)) (qs 1 [0; 0; 0; 0; 0; 0; 0; 0; 0; 0; 0; 0; 0; 0; 0; 0; 0; 0; 0; 0; 0; 0; 0; 0; 0; 0; 0; 0; 0; 0; 0; 0; 0; 0; 0; 0; 0; 0; 1; 1; 1; 1; 1]) && vnear 5 (row 43 (d_XOBI1 d)) (qs 1 [0; 0; 0; 0; 0; 0; 0; 0; 0; 1; 0; 0; 0; 0; 0; 0; 0; 0; 0; 0; 0; 0; 0; 0; 0; 0; 0; 0; 0; 0; 0; 0; 0; 0; 0; 0; 0; 0; 0; 0; 0; 0; 0]) && neq (d_IBAS d) (map Z.to_nat [13; 14; 15; 16; 17; 18; 19; 20; 21; 22; 23; 24; 25; 26; 27; 28; 29; 30; 31; 32; 33; 34; 35; 36; 37; 38; 39; 40; 41; 42]) &&
  vnear 5 (d_BS d) (qs 1 [486; 525; 506; 506; 126; 300; 1; 300; 300; 300; 300; 1; 300; 300; 300; 30000; 30000; 30000; 30000; 30000; 30000; 30000; 30000; 30000; 30000; 0; 525; 0; 0; 0]) && vnear 5 (row 30 (d_B d)) (qs 1 [0; 525; 0; 0; 0; 486; 525; 506; 506; 126; 300; 1; 300; 300; 300; 300; 1; 300; 300; 300; 30000; 30000; 30000; 30000; 30000; 30000; 30000; 30000; 30000; 30000]) && vnear 5 (row 30 (d_B1 d)) (qs 1 [486; (-525); 506; 506; 126; 486; 525; 506; 506; 126; 300; 1; 300; 300; 300; 300; 1; 300; 300; 300; 30000; 30000; 30000; 30000; 30000; 30000; 30000; 30000; 30000; 30000])) = true.
Proof. vm_compute; reflexivity. Qed.
(** test_connls.py case 2; the test's XOB is the second row of XOBI and its TAB the block of A *)
Example connls_2 : okd (connls (qm 1 [[(-180); 120; 0; 0; 0];
    [120; (-240); 120; 0; 0];
    [0; 120; (-240); 120; 0];
    [0; 0; 120; (-180); 0];
    [0; 0; 0; 0; 0]]) (qs 1 [409; 664; 314; 576; (-403)]) 4 0 (map Z.to_nat [1; 2; 3; 4; 0]) (qm 1 [[(-60); 150; 150];
    [(-120); 300; 300];
    [(-120); 300; 300];
    [(-120); 300; 300];
    [(-60); 150; 150]]) [(0, 1); (1, 2); (2, 3); (3, 4); (4, 0)]%nat (qm 1 [[0; 2741; 409; 30000; 30000];
    [1; 2741; 664; 30000; 30000];
    [2; 2741; 314; 30000; 30000];
    [3; 2741; 576; 30000; 30000];
    [4; 2741; (-403); 30000; 30000]])) (fun d =>
  Nat.eqb (d_M d) 30 && Nat.eqb (d_N d) 43 && Nat.eqb (d_N1 d) 38 && mnear 5 (mat 30 43 (d_A d)) (qm 1 [[0; 0; 0; 0; 0; 0; 0; 0; 1; 0; 0; 0; 0; 1; 0; 0; 0; 0; 0; 0; 0; 0; 0; 0; 0; 0; 0; 0; 0; 0; 0; 0; 0; 0; 0; 0; 0; 0; 0; 0; 0; 0; 0];
    [0; 0; 0; 0; 0; 0; 0; 0; 0; 1; 0; 0; 0; 0; 1; 0; 0; 0; 0; 0; 0; 0; 0; 0; 0; 0; 0; 0; 0; 0; 0; 0; 0; 0; 0; 0; 0; 0; 0; 0; 0; 0; 0];
    [0; 0; 0; 0; 0; 0; 0; 0; 0; 0; 1; 0; 0; 0; 0; 1; 0; 0; 0; 0; 0; 0; 0; 0; 0; 0; 0; 0; 0; 0; 0; 0; 0; 0; 0; 0; 0; 0; 0; 0; 0; 0; 0];
    [0; 0; 0; 0; 0; 0; 0; 0; 0; 0; 0; 1; 0; 0; 0; 0; 1; 0; 0; 0; 0; 0; 0; 0; 0; 0; 0; 0; 0; 0; 0; 0; 0; 0; 0; 0; 0; 0; 0; 0; 0; 0; 0];
    [0; 0; 0; 0; 0; 0; 0; 0; 0; 0; 0; 0; 1; 0; 0; 0; 0; 1; 0; 0; 0; 0; 0; 0; 0; 0; 0; 0; 0; 0; 0; 0; 0; 0; 0; 0; 0; 0; 0; 0; 0; 0; 0];
    [60; (-60); 0; 0; 0; 0; 0; 0; 0; 0; 0; 0; 0; 0; 0; 0; 0; 0; 1; 0; 0; 0; 0; 0; 0; 0; 0; 0; 0; 0; 0; 0; 0; 0; 0; 0; 0; 0; 0; 0; 0; 0; 0];
    [(-120); 120; 120; (-120); 0; 0; 0; 0; 0; 0; 0; 0; 0; 0; 0; 0; 0; 0; 0; 1; 0; 0; 0; 0; 0; 0; 0; 0; 0; 0; 0; 0; 0; 0; 0; 0; 0; 0; 0; 0; 0; 0; 0];
    [0; 0; (-120); 120; 120; (-120); 0; 0; 0; 0; 0; 0; 0; 0; 0; 0; 0; 0; 0; 0; 1; 0; 0; 0; 0; 0; 0; 0; 0; 0; 0; 0; 0; 0; 0; 0; 0; 0; 0; 0; 0; 0; 0];
    [0; 0; 0; 0; (-120); 120; 120; (-120); 0; 0; 0; 0; 0; 0; 0; 0; 0; 0; 0; 0; 0; 1; 0; 0; 0; 0; 0; 0; 0; 0; 0; 0; 0; 0; 0; 0; 0; 0; 0; 0; 0; 0; 0];
    [0; 0; 0; 0; 0; 0; (-60); 60; 0; 0; 0; 0; 0; 0; 0; 0; 0; 0; 0; 0; 0; 0; 1; 0; 0; 0; 0; 0; 0; 0; 0; 0; 0; 0; 0; 0; 0; 0; 0; 0; 0; 0; 0];
    [(-60); 60; 0; 0; 0; 0; 0; 0; 0; 0; 0; 0; 0; 0; 0; 0; 0; 0; 0; 0; 0; 0; 0; 1; 0; 0; 0; 0; 0; 0; 0; 0; 0; 0; 0; 0; 0; 0; 0; 0; 0; 0; 0];
    [120; (-120); (-120); 120; 0; 0; 0; 0; 0; 0; 0; 0; 0; 0; 0; 0; 0; 0; 0; 0; 0; 0; 0; 0; 1; 0; 0; 0; 0; 0; 0; 0; 0; 0; 0; 0; 0; 0; 0; 0; 0; 0; 0];
    [0; 0; 120; (-120); (-120); 120; 0; 0; 0; 0; 0; 0; 0; 0; 0; 0; 0; 0; 0; 0; 0; 0; 0; 0; 0; 1; 0; 0; 0; 0; 0; 0; 0; 0; 0; 0; 0; 0; 0; 0; 0; 0; 0];
    [0; 0; 0; 0; 120; (-120); (-120); 120; 0; 0; 0; 0; 0; 0; 0; 0; 0; 0; 0; 0; 0; 0; 0; 0; 0; 0; 1; 0; 0; 0; 0; 0; 0; 0; 0; 0; 0; 0; 0; 0; 0; 0; 0];
    [0; 0; 0; 0; 0; 0; 60; (-60); 0; 0; 0; 0; 0; 0; 0; 0; 0; 0; 0; 0; 0; 0; 0; 0; 0; 0; 0; 1; 0; 0; 0; 0; 0; 0; 0; 0; 0; 0; 0; 0; 0; 0; 0];
    [(-180); 180; 120; (-120); 0; 0; 0; 0; 0; 0; 0; 0; 0; 0; 0; 0; 0; 0; 0; 0; 0; 0; 0; 0; 0; 0; 0; 0; 1; 0; 0; 0; 0; 0; 0; 0; 0; 0; 0; 0; 0; 0; 0];
    [120; (-120); (-240); 240; 120; (-120); 0; 0; 0; 0; 0; 0; 0; 0; 0; 0; 0; 0; 0; 0; 0; 0; 0; 0; 0; 0; 0; 0; 0; 1; 0; 0; 0; 0; 0; 0; 0; 0; 0; 0; 0; 0; 0];
    [0; 0; 120; (-120); (-240); 240; 120; (-120); 0; 0; 0; 0; 0; 0; 0; 0; 0; 0; 0; 0; 0; 0; 0; 0; 0; 0; 0; 0; 0; 0; 1; 0; 0; 0; 0; 0; 0; 0; 0; 0; 0; 0; 0];
    [0; 0; 0; 0; 120; (-120); (-180); 180; 0; 0; 0; 0; 0; 0; 0; 0; 0; 0; 0; 0; 0; 0; 0; 0; 0; 0; 0; 0; 0; 0; 0; 1; 0; 0; 0; 0; 0; 0; 0; 0; 0; 0; 0];
    [60; (-60); 0; 0; 0; 0; 60; (-60); 0; 0; 0; 0; 0; 0; 0; 0; 0; 0; 0; 0; 0; 0; 0; 0; 0; 0; 0; 0; 0; 0; 0; 0; 1; 0; 0; 0; 0; 0; 0; 0; 0; 0; 0];
    [180; (-180); (-120); 120; 0; 0; 0; 0; 0; 0; 0; 0; 0; 0; 0; 0; 0; 0; 0; 0; 0; 0; 0; 0; 0; 0; 0; 0; 0; 0; 0; 0; 0; 1; 0; 0; 0; 0; 0; 0; 0; 0; 0];
    [(-120); 120; 240; (-240); (-120); 120; 0; 0; 0; 0; 0; 0; 0; 0; 0; 0; 0; 0; 0; 0; 0; 0; 0; 0; 0; 0; 0; 0; 0; 0; 0; 0; 0; 0; 1; 0; 0; 0; 0; 0; 0; 0; 0];
    [0; 0; (-120); 120; 240; (-240); (-120); 120; 0; 0; 0; 0; 0; 0; 0; 0; 0; 0; 0; 0; 0; 0; 0; 0; 0; 0; 0; 0; 0; 0; 0; 0; 0; 0; 0; 1; 0; 0; 0; 0; 0; 0; 0];
    [0; 0; 0; 0; (-120); 120; 180; (-180); 0; 0; 0; 0; 0; 0; 0; 0; 0; 0; 0; 0; 0; 0; 0; 0; 0; 0; 0; 0; 0; 0; 0; 0; 0; 0; 0; 0; 1; 0; 0; 0; 0; 0; 0];
    [(-60); 60; 0; 0; 0; 0; (-60); 60; 0; 0; 0; 0; 0; 0; 0; 0; 0; 0; 0; 0; 0; 0; 0; 0; 0; 0; 0; 0; 0; 0; 0; 0; 0; 0; 0; 0; 0; 1; 0; 0; 0; 0; 0];
    [(-180); 180; 120; (-120); 0; 0; 0; 0; (-1); 0; 0; 0; 0; 0; 0; 0; 0; 0; 0; 0; 0; 0; 0; 0; 0; 0; 0; 0; 0; 0; 0; 0; 0; 0; 0; 0; 0; 0; 1; 0; 0; 0; 0];
    [120; (-120); (-240); 240; 120; (-120); 0; 0; 0; (-1); 0; 0; 0; 0; 0; 0; 0; 0; 0; 0; 0; 0; 0; 0; 0; 0; 0; 0; 0; 0; 0; 0; 0; 0; 0; 0; 0; 0; 0; 1; 0; 0; 0];
    [0; 0; 120; (-120); (-240); 240; 120; (-120); 0; 0; (-1); 0; 0; 0; 0; 0; 0; 0; 0; 0; 0; 0; 0; 0; 0; 0; 0; 0; 0; 0; 0; 0; 0; 0; 0; 0; 0; 0; 0; 0; 1; 0; 0];
    [0; 0; 0; 0; (-120); 120; 180; (-180); 0; 0; 0; 1; 0; 0; 0; 0; 0; 0; 0; 0; 0; 0; 0; 0; 0; 0; 0; 0; 0; 0; 0; 0; 0; 0; 0; 0; 0; 0; 0; 0; 0; 1; 0];
    [60; (-60); 0; 0; 0; 0; 60; (-60); 0; 0; 0; 0; (-1); 0; 0; 0; 0; 0; 0; 0; 0; 0; 0; 0; 0; 0; 0; 0; 0; 0; 0; 0; 0; 0; 0; 0; 0; 0; 0; 0; 0; 0; 1]]) &&
  vnear 5 (row 43 (d_XOBI0 d)) (qs 1 [0; 0; 0; 0; 0; 0; 0; 0; 0; 0; 0; 0; 0; 0; 0; 0; 0; 0; 0; 0; 0; 0; 0; 0; 0; 0; 0; 0; 0; 0; 0; 0; 0; 0; 0; 0; 0; 0; 1; 1; 1; 1; 1]) && vnear 5 (row 43 (d_XOBI1 d)) (qs 1 [0; 0; 0; 0; 0; 0; 0; 0; 0; 0; 0; 1; 0; 0; 0; 0; 0; 0; 0; 0; 0; 0; 0; 0; 0; 0; 0; 0; 0; 0; 0; 0; 0; 0; 0; 0; 0; 0; 0; 0; 0; 0; 0]) && neq (d_IBAS d) (map Z.to_nat [13; 14; 15; 16; 17; 18; 19; 20; 21; 22; 23; 24; 25; 26; 27; 28; 29; 30; 31; 32; 33; 34; 35; 36; 37; 38; 39; 40; 41; 42]) &&
  vnear 5 (d_BS d) (qs 1 [664; 314; 576; 403; 409; 150; 300; 300; 300; 150; 150; 300; 300; 300; 150; 30000; 30000; 30000; 30000; 30000; 30000; 30000; 30000; 30000; 30000; 0; 0; 0; 403; 0]) && vnear 5 (row 30 (d_B d)) (qs 1 [0; 0; 0; 403; 0; 664; 314; 576; 403; 409; 150; 300; 300; 300; 150; 150; 300; 300; 300; 150; 30000; 30000; 30000; 30000; 30000; 30000; 30000; 30000; 30000; 30000]) && vnear 5 (row 30 (d_B1 d)) (qs 1 [664; 314; 576; (-403); 409; 664; 314; 576; 403; 409; 150; 300; 300; 300; 150; 150; 300; 300; 300; 150; 30000; 30000; 30000; 30000; 30000; 30000; 30000; 30000; 30000; 30000])) = true.
Proof. vm_compute; reflexivity. Qed.
(** test_connls.py case 3; the test's XOB is the second row of XOBI and its TAB the block of A *)
Example connls_3 : okd (connls (qm 1 [[(-240); 120; 0; 0; 0];
    [120; (-240); 120; 0; 0];
    [0; 120; (-240); 120; 0];
    [0; 0; 120; (-180); 0];
    [0; 0; 0; 0; 0]]) (qs 1 [(-512); 252; 350; 525; 328]) 4 0 (map Z.to_nat [1; 2; 3; 4; 0]) (qm 1 [[(-120); 300; 300];
    [(-120); 300; 300];
    [(-120); 300; 300];
    [(-120); 300; 300];
    [(-60); 150; 150]]) [(0, 1); (1, 2); (2, 3); (3, 4); (4, 0)]%nat (qm 1 [[0; 2880; (-512); 30000; 30000];
    [1; 2880; 252; 30000; 30000];
    [2; 2880; 350; 30000; 30000];
    [3; 2880; 525; 30000; 30000];
    [4; 2880; 328; 30000; 30000]])) (fun d =>
  Nat.eqb (d_M d) 30 && Nat.eqb (d_N d) 43 && Nat.eqb (d_N1 d) 38 && mnear 5 (mat 30 43 (d_A d)) (qm 1 [[0; 0; 0; 0; 0; 0; 0; 0; 1; 0; 0; 0; 0; 1; 0; 0; 0; 0; 0; 0; 0; 0; 0; 0; 0; 0; 0; 0; 0; 0; 0; 0; 0; 0; 0; 0; 0; 0; 0; 0; 0; 0; 0];
    [0; 0; 0; 0; 0; 0; 0; 0; 0; 1; 0; 0; 0; 0; 1; 0; 0; 0; 0; 0; 0; 0; 0; 0; 0; 0; 0; 0; 0; 0; 0; 0; 0; 0; 0; 0; 0; 0; 0; 0; 0; 0; 0];
    [0; 0; 0; 0; 0; 0; 0; 0; 0; 0; 1; 0; 0; 0; 0; 1; 0; 0; 0; 0; 0; 0; 0; 0; 0; 0; 0; 0; 0; 0; 0; 0; 0; 0; 0; 0; 0; 0; 0; 0; 0; 0; 0];
    [0; 0; 0; 0; 0; 0; 0; 0; 0; 0; 0; 1; 0; 0; 0; 0; 1; 0; 0; 0; 0; 0; 0; 0; 0; 0; 0; 0; 0; 0; 0; 0; 0; 0; 0; 0; 0; 0; 0; 0; 0; 0; 0];
    [0; 0; 0; 0; 0; 0; 0; 0; 0; 0; 0; 0; 1; 0; 0; 0; 0; 1; 0; 0; 0; 0; 0; 0; 0; 0; 0; 0; 0; 0; 0; 0; 0; 0; 0; 0; 0; 0; 0; 0; 0; 0; 0];
    [120; (-120); 0; 0; 0; 0; 0; 0; 0; 0; 0; 0; 0; 0; 0; 0; 0; 0; 1; 0; 0; 0; 0; 0; 0; 0; 0; 0; 0; 0; 0; 0; 0; 0; 0; 0; 0; 0; 0; 0; 0; 0; 0];
    [(-120); 120; 120; (-120); 0; 0; 0; 0; 0; 0; 0; 0; 0; 0; 0; 0; 0; 0; 0; 1; 0; 0; 0; 0; 0; 0; 0; 0; 0; 0; 0; 0; 0; 0; 0; 0; 0; 0; 0; 0; 0; 0; 0];
    [0; 0; (-120); 120; 120; (-120); 0; 0; 0; 0; 0; 0; 0; 0; 0; 0; 0; 0; 0; 0; 1; 0; 0; 0; 0; 0; 0; 0; 0; 0; 0; 0; 0; 0; 0; 0; 0; 0; 0; 0; 0; 0; 0];
    [0; 0; 0; 0; (-120); 120; 120; (-120); 0; 0; 0; 0; 0; 0; 0; 0; 0; 0; 0; 0; 0; 1; 0; 0; 0; 0; 0; 0; 0; 0; 0; 0; 0; 0; 0; 0; 0; 0; 0; 0; 0; 0; 0];
    [0; 0; 0; 0; 0; 0; (-60); 60; 0; 0; 0; 0; 0; 0; 0; 0; 0; 0; 0; 0; 0; 0; 1; 0; 0; 0; 0; 0; 0; 0; 0; 0; 0; 0; 0; 0; 0; 0; 0; 0; 0; 0; 0];
    [(-120); 120; 0; 0; 0; 0; 0; 0; 0; 0; 0; 0; 0; 0; 0; 0; 0; 0; 0; 0; 0; 0; 0; 1; 0; 0; 0; 0; 0; 0; 0; 0; 0; 0; 0; 0; 0; 0; 0; 0; 0; 0; 0];
    [120; (-120); (-120); 120; 0; 0; 0; 0; 0; 0; 0; 0; 0; 0; 0; 0; 0; 0; 0; 0; 0; 0; 0; 0; 1; 0; 0; 0; 0; 0; 0; 0; 0; 0; 0; 0; 0; 0; 0; 0; 0; 0; 0];
    [0; 0; 120; (-120); (-120); 120; 0; 0; 0; 0; 0; 0; 0; 0; 0; 0; 0; 0; 0; 0; 0; 0; 0; 0; 0; 1; 0; 0; 0; 0; 0; 0; 0; 0; 0; 0; 0; 0; 0; 0; 0; 0; 0];
    [0; 0; 0; 0; 120; (-120); (-120); 120; 0; 0; 0; 0; 0; 0; 0; 0; 0; 0; 0; 0; 0; 0; 0; 0; 0; 0; 1; 0; 0; 0; 0; 0; 0; 0; 0; 0; 0; 0; 0; 0; 0; 0; 0];
    [0; 0; 0; 0; 0; 0; 60; (-60); 0; 0; 0; 0; 0; 0; 0; 0; 0; 0; 0; 0; 0; 0; 0; 0; 0; 0; 0; 1; 0; 0; 0; 0; 0; 0; 0; 0; 0; 0; 0; 0; 0; 0; 0];
    [(-240); 240; 120; (-120); 0; 0; 0; 0; 0; 0; 0; 0; 0; 0; 0; 0; 0; 0; 0; 0; 0; 0; 0; 0; 0; 0; 0; 0; 1; 0; 0; 0; 0; 0; 0; 0; 0; 0; 0; 0; 0; 0; 0];
    [120; (-120); (-240); 240; 120; (-120); 0; 0; 0; 0; 0; 0; 0; 0; 0; 0; 0; 0; 0; 0; 0; 0; 0; 0; 0; 0; 0; 0; 0; 1; 0; 0; 0; 0; 0; 0; 0; 0; 0; 0; 0; 0; 0];
    [0; 0; 120; (-120); (-240); 240; 120; (-120); 0; 0; 0; 0; 0; 0; 0; 0; 0; 0; 0; 0; 0; 0; 0; 0; 0; 0; 0; 0; 0; 0; 1; 0; 0; 0; 0; 0; 0; 0; 0; 0; 0; 0; 0];
    [0; 0; 0; 0; 120; (-120); (-180); 180; 0; 0; 0; 0; 0; 0; 0; 0; 0; 0; 0; 0; 0; 0; 0; 0; 0; 0; 0; 0; 0; 0; 0; 1; 0; 0; 0; 0; 0; 0; 0; 0; 0; 0; 0];
    [120; (-120); 0; 0; 0; 0; 60; (-60); 0; 0; 0; 0; 0; 0; 0; 0; 0; 0; 0; 0; 0; 0; 0; 0; 0; 0; 0; 0; 0; 0; 0; 0; 1; 0; 0; 0; 0; 0; 0; 0; 0; 0; 0];
    [240; (-240); (-120); 120; 0; 0; 0; 0; 0; 0; 0; 0; 0; 0; 0; 0; 0; 0; 0; 0; 0; 0; 0; 0; 0; 0; 0; 0; 0; 0; 0; 0; 0; 1; 0; 0; 0; 0; 0; 0; 0; 0; 0];
    [(-120); 120; 240; (-240); (-120); 120; 0; 0; 0; 0; 0; 0; 0; 0; 0; 0; 0; 0; 0; 0; 0; 0; 0; 0; 0; 0; 0; 0; 0; 0; 0; 0; 0; 0; 1; 0; 0; 0; 0; 0; 0; 0; 0];
    [0; 0; (-120); 120; 240; (-240); (-120); 120; 0; 0; 0; 0; 0; 0; 0; 0; 0; 0; 0; 0; 0; 0; 0; 0; 0; 0; 0; 0; 0; 0; 0; 0; 0; 0; 0; 1; 0; 0; 0; 0; 0; 0; 0];
    [0; 0; 0; 0; (-120); 120; 180; (-180); 0; 0; 0; 0; 0; 0; 0; 0; 0; 0; 0; 0; 0; 0; 0; 0; 0; 0; 0; 0; 0; 0; 0; 0; 0; 0; 0; 0; 1; 0; 0; 0; 0; 0; 0];
    [(-120); 120; 0; 0; 0; 0; (-60); 60; 0; 0; 0; 0; 0; 0; 0; 0; 0; 0; 0; 0; 0; 0; 0; 0; 0; 0; 0; 0; 0; 0; 0; 0; 0; 0; 0; 0; 0; 1; 0; 0; 0; 0; 0];
    [(-240); 240; 120; (-120); 0; 0; 0; 0; (-1); 0; 0; 0; 0; 0; 0; 0; 0; 0; 0; 0; 0; 0; 0; 0; 0; 0; 0; 0; 0; 0; 0; 0; 0; 0; 0; 0; 0; 0; 1; 0; 0; 0; 0];
    [120; (-120); (-240); 240; 120; (-120); 0; 0; 0; (-1); 0; 0; 0; 0; 0; 0; 0; 0; 0; 0; 0; 0; 0; 0; 0; 0; 0; 0; 0; 0; 0; 0; 0; 0; 0; 0; 0; 0; 0; 1; 0; 0; 0];
    [0; 0; 120; (-120); (-240); 240; 120; (-120); 0; 0; (-1); 0; 0; 0; 0; 0; 0; 0; 0; 0; 0; 0; 0; 0; 0; 0; 0; 0; 0; 0; 0; 0; 0; 0; 0; 0; 0; 0; 0; 0; 1; 0; 0];
    [0; 0; 0; 0; 120; (-120); (-180); 180; 0; 0; 0; (-1); 0; 0; 0; 0; 0; 0; 0; 0; 0; 0; 0; 0; 0; 0; 0; 0; 0; 0; 0; 0; 0; 0; 0; 0; 0; 0; 0; 0; 0; 1; 0];
    [(-120); 120; 0; 0; 0; 0; (-60); 60; 0; 0; 0; 0; 1; 0; 0; 0; 0; 0; 0; 0; 0; 0; 0; 0; 0; 0; 0; 0; 0; 0; 0; 0; 0; 0; 0; 0; 0; 0; 0; 0; 0; 0; 1]]) &&
  vnear 5 (row 43 (d_XOBI0 d)) (qs 1 [0; 0; 0; 0; 0; 0; 0; 0; 0; 0; 0; 0; 0; 0; 0; 0; 0; 0; 0; 0; 0; 0; 0; 0; 0; 0; 0; 0; 0; 0; 0; 0; 0; 0; 0; 0; 0; 0; 1; 1; 1; 1; 1]) && vnear 5 (row 43 (d_XOBI1 d)) (qs 1 [0; 0; 0; 0; 0; 0; 0; 0; 0; 0; 0; 0; 1; 0; 0; 0; 0; 0; 0; 0; 0; 0; 0; 0; 0; 0; 0; 0; 0; 0; 0; 0; 0; 0; 0; 0; 0; 0; 0; 0; 0; 0; 0]) && neq (d_IBAS d) (map Z.to_nat [13; 14; 15; 16; 17; 18; 19; 20; 21; 22; 23; 24; 25; 26; 27; 28; 29; 30; 31; 32; 33; 34; 35; 36; 37; 38; 39; 40; 41; 42]) &&
  vnear 5 (d_BS d) (qs 1 [252; 350; 525; 328; 512; 300; 300; 300; 300; 150; 300; 300; 300; 300; 150; 30000; 30000; 30000; 30000; 30000; 30000; 30000; 30000; 30000; 30000; 0; 0; 0; 0; 512]) && vnear 5 (row 30 (d_B d)) (qs 1 [0; 0; 0; 0; 512; 252; 350; 525; 328; 512; 300; 300; 300; 300; 150; 300; 300; 300; 300; 150; 30000; 30000; 30000; 30000; 30000; 30000; 30000; 30000; 30000; 30000]) && vnear 5 (row 30 (d_B1 d)) (qs 1 [252; 350; 525; 328; (-512); 252; 350; 525; 328; 512; 300; 300; 300; 300; 150; 300; 300; 300; 300; 150; 30000; 30000; 30000; 30000; 30000; 30000; 30000; 30000; 30000; 30000])) = true.
Proof. vm_compute; reflexivity. Qed.
Example linp_1 : okd (linp 200 (mkLp 30 43 38 (arr (qm 10 [[0; 0; 0; 0; 0; 0; 0; 0; 10; 0; 0; 0; 0; 10; 0; 0; 0; 0; 0; 0; 0; 0; 0; 0; 0; 0; 0; 0; 0; 0; 0; 0; 0; 0; 0; 0; 0; 0; 0; 0; 0; 0; 0];
    [0; 0; 0; 0; 0; 0; 0; 0; 0; 10; 0; 0; 0; 0; 10; 0; 0; 0; 0; 0; 0; 0; 0; 0; 0; 0; 0; 0; 0; 0; 0; 0; 0; 0; 0; 0; 0; 0; 0; 0; 0; 0; 0];
    [0; 0; 0; 0; 0; 0; 0; 0; 0; 0; 10; 0; 0; 0; 0; 10; 0; 0; 0; 0; 0; 0; 0; 0; 0; 0; 0; 0; 0; 0; 0; 0; 0; 0; 0; 0; 0; 0; 0; 0; 0; 0; 0];
    [0; 0; 0; 0; 0; 0; 0; 0; 0; 0; 0; 10; 0; 0; 0; 0; 10; 0; 0; 0; 0; 0; 0; 0; 0; 0; 0; 0; 0; 0; 0; 0; 0; 0; 0; 0; 0; 0; 0; 0; 0; 0; 0];
    [0; 0; 0; 0; 0; 0; 0; 0; 0; 0; 0; 0; 10; 0; 0; 0; 0; 10; 0; 0; 0; 0; 0; 0; 0; 0; 0; 0; 0; 0; 0; 0; 0; 0; 0; 0; 0; 0; 0; 0; 0; 0; 0];
    [1200; (-1200); 0; 0; 0; 0; 0; 0; 0; 0; 0; 0; 0; 0; 0; 0; 0; 0; 10; 0; 0; 0; 0; 0; 0; 0; 0; 0; 0; 0; 0; 0; 0; 0; 0; 0; 0; 0; 0; 0; 0; 0; 0];
    [(-5); 5; 5; (-5); 0; 0; 0; 0; 0; 0; 0; 0; 0; 0; 0; 0; 0; 0; 0; 10; 0; 0; 0; 0; 0; 0; 0; 0; 0; 0; 0; 0; 0; 0; 0; 0; 0; 0; 0; 0; 0; 0; 0];
    [0; 0; (-1200); 1200; 1200; (-1200); 0; 0; 0; 0; 0; 0; 0; 0; 0; 0; 0; 0; 0; 0; 10; 0; 0; 0; 0; 0; 0; 0; 0; 0; 0; 0; 0; 0; 0; 0; 0; 0; 0; 0; 0; 0; 0];
    [0; 0; 0; 0; (-1200); 1200; 1200; (-1200); 0; 0; 0; 0; 0; 0; 0; 0; 0; 0; 0; 0; 0; 10; 0; 0; 0; 0; 0; 0; 0; 0; 0; 0; 0; 0; 0; 0; 0; 0; 0; 0; 0; 0; 0];
    [0; 0; 0; 0; 0; 0; (-1200); 1200; 0; 0; 0; 0; 0; 0; 0; 0; 0; 0; 0; 0; 0; 0; 10; 0; 0; 0; 0; 0; 0; 0; 0; 0; 0; 0; 0; 0; 0; 0; 0; 0; 0; 0; 0];
    [(-1200); 1200; 0; 0; 0; 0; 0; 0; 0; 0; 0; 0; 0; 0; 0; 0; 0; 0; 0; 0; 0; 0; 0; 10; 0; 0; 0; 0; 0; 0; 0; 0; 0; 0; 0; 0; 0; 0; 0; 0; 0; 0; 0];
    [5; (-5); (-5); 5; 0; 0; 0; 0; 0; 0; 0; 0; 0; 0; 0; 0; 0; 0; 0; 0; 0; 0; 0; 0; 10; 0; 0; 0; 0; 0; 0; 0; 0; 0; 0; 0; 0; 0; 0; 0; 0; 0; 0];
    [0; 0; 1200; (-1200); (-1200); 1200; 0; 0; 0; 0; 0; 0; 0; 0; 0; 0; 0; 0; 0; 0; 0; 0; 0; 0; 0; 10; 0; 0; 0; 0; 0; 0; 0; 0; 0; 0; 0; 0; 0; 0; 0; 0; 0];
    [0; 0; 0; 0; 1200; (-1200); (-1200); 1200; 0; 0; 0; 0; 0; 0; 0; 0; 0; 0; 0; 0; 0; 0; 0; 0; 0; 0; 10; 0; 0; 0; 0; 0; 0; 0; 0; 0; 0; 0; 0; 0; 0; 0; 0];
    [0; 0; 0; 0; 0; 0; 1200; (-1200); 0; 0; 0; 0; 0; 0; 0; 0; 0; 0; 0; 0; 0; 0; 0; 0; 0; 0; 0; 10; 0; 0; 0; 0; 0; 0; 0; 0; 0; 0; 0; 0; 0; 0; 0];
    [(-1205); 1205; 5; (-5); 0; 0; 0; 0; 0; 0; 0; 0; 0; 0; 0; 0; 0; 0; 0; 0; 0; 0; 0; 0; 0; 0; 0; 0; 10; 0; 0; 0; 0; 0; 0; 0; 0; 0; 0; 0; 0; 0; 0];
    [5; (-5); (-1205); 1205; 1200; (-1200); 0; 0; 0; 0; 0; 0; 0; 0; 0; 0; 0; 0; 0; 0; 0; 0; 0; 0; 0; 0; 0; 0; 0; 10; 0; 0; 0; 0; 0; 0; 0; 0; 0; 0; 0; 0; 0];
    [0; 0; 1200; (-1200); (-2400); 2400; 1200; (-1200); 0; 0; 0; 0; 0; 0; 0; 0; 0; 0; 0; 0; 0; 0; 0; 0; 0; 0; 0; 0; 0; 0; 10; 0; 0; 0; 0; 0; 0; 0; 0; 0; 0; 0; 0];
    [0; 0; 0; 0; 1200; (-1200); (-2400); 2400; 0; 0; 0; 0; 0; 0; 0; 0; 0; 0; 0; 0; 0; 0; 0; 0; 0; 0; 0; 0; 0; 0; 0; 10; 0; 0; 0; 0; 0; 0; 0; 0; 0; 0; 0];
    [1200; (-1200); 0; 0; 0; 0; 1200; (-1200); 0; 0; 0; 0; 0; 0; 0; 0; 0; 0; 0; 0; 0; 0; 0; 0; 0; 0; 0; 0; 0; 0; 0; 0; 10; 0; 0; 0; 0; 0; 0; 0; 0; 0; 0];
    [1205; (-1205); (-5); 5; 0; 0; 0; 0; 0; 0; 0; 0; 0; 0; 0; 0; 0; 0; 0; 0; 0; 0; 0; 0; 0; 0; 0; 0; 0; 0; 0; 0; 0; 10; 0; 0; 0; 0; 0; 0; 0; 0; 0];
    [(-5); 5; 1205; (-1205); (-1200); 1200; 0; 0; 0; 0; 0; 0; 0; 0; 0; 0; 0; 0; 0; 0; 0; 0; 0; 0; 0; 0; 0; 0; 0; 0; 0; 0; 0; 0; 10; 0; 0; 0; 0; 0; 0; 0; 0];
    [0; 0; (-1200); 1200; 2400; (-2400); (-1200); 1200; 0; 0; 0; 0; 0; 0; 0; 0; 0; 0; 0; 0; 0; 0; 0; 0; 0; 0; 0; 0; 0; 0; 0; 0; 0; 0; 0; 10; 0; 0; 0; 0; 0; 0; 0];
    [0; 0; 0; 0; (-1200); 1200; 2400; (-2400); 0; 0; 0; 0; 0; 0; 0; 0; 0; 0; 0; 0; 0; 0; 0; 0; 0; 0; 0; 0; 0; 0; 0; 0; 0; 0; 0; 0; 10; 0; 0; 0; 0; 0; 0];
    [(-1200); 1200; 0; 0; 0; 0; (-1200); 1200; 0; 0; 0; 0; 0; 0; 0; 0; 0; 0; 0; 0; 0; 0; 0; 0; 0; 0; 0; 0; 0; 0; 0; 0; 0; 0; 0; 0; 0; 10; 0; 0; 0; 0; 0];
    [(-1205); 1205; 5; (-5); 0; 0; 0; 0; (-10); 0; 0; 0; 0; 0; 0; 0; 0; 0; 0; 0; 0; 0; 0; 0; 0; 0; 0; 0; 0; 0; 0; 0; 0; 0; 0; 0; 0; 0; 10; 0; 0; 0; 0];
    [(-5); 5; 1205; (-1205); (-1200); 1200; 0; 0; 0; 10; 0; 0; 0; 0; 0; 0; 0; 0; 0; 0; 0; 0; 0; 0; 0; 0; 0; 0; 0; 0; 0; 0; 0; 0; 0; 0; 0; 0; 0; 10; 0; 0; 0];
    [0; 0; 1200; (-1200); (-2400); 2400; 1200; (-1200); 0; 0; (-10); 0; 0; 0; 0; 0; 0; 0; 0; 0; 0; 0; 0; 0; 0; 0; 0; 0; 0; 0; 0; 0; 0; 0; 0; 0; 0; 0; 0; 0; 10; 0; 0];
    [0; 0; 0; 0; 1200; (-1200); (-2400); 2400; 0; 0; 0; (-10); 0; 0; 0; 0; 0; 0; 0; 0; 0; 0; 0; 0; 0; 0; 0; 0; 0; 0; 0; 0; 0; 0; 0; 0; 0; 0; 0; 0; 0; 10; 0];
    [1200; (-1200); 0; 0; 0; 0; 1200; (-1200); 0; 0; 0; 0; (-10); 0; 0; 0; 0; 0; 0; 0; 0; 0; 0; 0; 0; 0; 0; 0; 0; 0; 0; 0; 0; 0; 0; 0; 0; 0; 0; 0; 0; 0; 10]])) (arrv (qs 1 [0; 0; 0; 0; 0; 0; 0; 0; 0; 0; 0; 0; 0; 0; 0; 0; 0; 0; 0; 0; 0; 0; 0; 0; 0; 0; 0; 0; 0; 0; 0; 0; 0; 0; 0; 0; 0; 0; 1; 1; 1; 1; 1])) (arrv (qs 1 [0; 0; 0; 0; 0; 0; 0; 0; 0; 1; 0; 0; 0; 0; 0; 0; 0; 0; 0; 0; 0; 0; 0; 0; 0; 0; 0; 0; 0; 0; 0; 0; 0; 0; 0; 0; 0; 0; 0; 0; 0; 0; 0])) (map Z.to_nat [13; 14; 15; 16; 17; 18; 19; 20; 21; 22; 23; 24; 25; 26; 27; 28; 29; 30; 31; 32; 33; 34; 35; 36; 37; 38; 39; 40; 41; 42]) (qs 1 [486; 525; 506; 506; 126; 300; 1; 300; 300; 300; 300; 1; 300; 300; 300; 30000; 30000; 30000; 30000; 30000; 30000; 30000; 30000; 30000; 30000; 0; 525; 0; 0; 0]) (fun _ => q0) (fun _ => q0))) (fun s =>
  neq (s_IBAS s) (map Z.to_nat [13; 14; 15; 16; 17; 18; 7; 20; 21; 22; 23; 24; 25; 26; 27; 28; 29; 30; 31; 32; 33; 34; 35; 36; 37; 10; 9; 2; 0; 5]) && vnear 6 (row 43 (s_XOB s)) (qs 1 [0; 0; 0; 0; 0; 0; 0; 0; 0; 1; 0; 0; 0; 0; 0; 0; 0; 0; 0; 0; 0; 0; 0; 0; 0; 0; 0; 0; 0; 0; 0; 0; 0; 0; 0; 0; 0; 0; 1; 1; 1; 1; 1]) && vnear 6 (s_BS s) (qs 1000000 [486000000; 244000000; 262000000; 506000000; 126000000; 299000000; 8333; 543000000; 299000000; 299000000; 301000000; 2000000; 57000000; 301000000; 301000000; 30000000000; 30244000000; 29756000000; 30000000000; 30000000000; 30000000000; 29756000000; 30244000000; 30000000000; 30000000000; 244000000; 281000000; 2008333; 8333; 16667]) && mnear 6 (s_TAB s) (qm 1000000 [[1000000; 0; 0; 0; 0; 0; 0; 0; 0; 0; 0; 0; 0; 0; 0; 0; 0; 0; 0; 0; 0; 0; 0; 0; 0; 0; 0; 0; 0; 0];
    [0; 1000000; 0; 0; 0; 0; 244000000; 0; 0; 0; 0; 0; 0; 0; 0; 0; 0; 0; 0; 0; 0; 0; 0; 0; 0; (-3000000); (-1000000); 0; (-1000000); (-2000000)];
    [0; 0; 1000000; 0; 0; 0; (-244000000); 0; 0; 0; 0; 0; 0; 0; 0; 0; 0; 0; 0; 0; 0; 0; 0; 0; 0; 4000000; 0; 1000000; 2000000; 3000000];
    [0; 0; 0; 1000000; 0; 0; 0; 0; 0; 0; 0; 0; 0; 0; 0; 0; 0; 0; 0; 0; 0; 0; 0; 0; 0; 0; 0; 0; 0; 0];
    [0; 0; 0; 0; 1000000; 0; 0; 0; 0; 0; 0; 0; 0; 0; 0; 0; 0; 0; 0; 0; 0; 0; 0; 0; 0; 0; 0; 0; 0; 0];
    [0; 0; 0; 0; 0; 1000000; (-1000000); 0; 0; 0; 0; 0; 0; 0; 0; 0; 0; 0; 0; 0; 0; 0; 0; 0; 0; 1000000; 0; 0; 0; 0];
    [0; 0; 0; 0; 0; 0; 8333; 0; 0; 0; 0; 0; 0; 0; 0; 0; 0; 0; 0; 0; 0; 0; 0; 0; 0; (-8333); 0; 0; 0; (-8333)];
    [0; 0; 0; 0; 0; 0; 243000000; 1000000; 0; 0; 0; 0; 0; 0; 0; 0; 0; 0; 0; 0; 0; 0; 0; 0; 0; (-3000000); 0; 0; (-1000000); (-2000000)];
    [0; 0; 0; 0; 0; 0; (-1000000); 0; 1000000; 0; 0; 0; 0; 0; 0; 0; 0; 0; 0; 0; 0; 0; 0; 0; 0; 1000000; 0; 0; 1000000; 1000000];
    [0; 0; 0; 0; 0; 0; (-1000000); 0; 0; 1000000; 0; 0; 0; 0; 0; 0; 0; 0; 0; 0; 0; 0; 0; 0; 0; 1000000; 0; 0; 0; 1000000];
    [0; 0; 0; 0; 0; 0; 1000000; 0; 0; 0; 1000000; 0; 0; 0; 0; 0; 0; 0; 0; 0; 0; 0; 0; 0; 0; (-1000000); 0; 0; 0; 0];
    [0; 0; 0; 0; 0; 0; 1000000; 0; 0; 0; 0; 1000000; 0; 0; 0; 0; 0; 0; 0; 0; 0; 0; 0; 0; 0; 0; 0; 0; 0; 0];
    [0; 0; 0; 0; 0; 0; (-243000000); 0; 0; 0; 0; 0; 1000000; 0; 0; 0; 0; 0; 0; 0; 0; 0; 0; 0; 0; 3000000; 0; 0; 1000000; 2000000];
    [0; 0; 0; 0; 0; 0; 1000000; 0; 0; 0; 0; 0; 0; 1000000; 0; 0; 0; 0; 0; 0; 0; 0; 0; 0; 0; (-1000000); 0; 0; (-1000000); (-1000000)];
    [0; 0; 0; 0; 0; 0; 1000000; 0; 0; 0; 0; 0; 0; 0; 1000000; 0; 0; 0; 0; 0; 0; 0; 0; 0; 0; (-1000000); 0; 0; 0; (-1000000)];
    [0; 0; 0; 0; 0; 0; 0; 0; 0; 0; 0; 0; 0; 0; 0; 1000000; 0; 0; 0; 0; 0; 0; 0; 0; 0; (-1000000); 0; 0; 0; 0];
    [0; 0; 0; 0; 0; 0; 244000000; 0; 0; 0; 0; 0; 0; 0; 0; 0; 1000000; 0; 0; 0; 0; 0; 0; 0; 0; (-3000000); 0; 0; (-1000000); (-2000000)];
    [0; 0; 0; 0; 0; 0; (-244000000); 0; 0; 0; 0; 0; 0; 0; 0; 0; 0; 1000000; 0; 0; 0; 0; 0; 0; 0; 4000000; 0; 0; 2000000; 3000000];
    [0; 0; 0; 0; 0; 0; 0; 0; 0; 0; 0; 0; 0; 0; 0; 0; 0; 0; 1000000; 0; 0; 0; 0; 0; 0; 0; 0; 0; (-1000000); 0];
    [0; 0; 0; 0; 0; 0; 0; 0; 0; 0; 0; 0; 0; 0; 0; 0; 0; 0; 0; 1000000; 0; 0; 0; 0; 0; 0; 0; 0; 0; (-1000000)];
    [0; 0; 0; 0; 0; 0; 0; 0; 0; 0; 0; 0; 0; 0; 0; 0; 0; 0; 0; 0; 1000000; 0; 0; 0; 0; 1000000; 0; 0; 0; 0];
    [0; 0; 0; 0; 0; 0; (-244000000); 0; 0; 0; 0; 0; 0; 0; 0; 0; 0; 0; 0; 0; 0; 1000000; 0; 0; 0; 3000000; 0; 0; 1000000; 2000000];
    [0; 0; 0; 0; 0; 0; 244000000; 0; 0; 0; 0; 0; 0; 0; 0; 0; 0; 0; 0; 0; 0; 0; 1000000; 0; 0; (-4000000); 0; 0; (-2000000); (-3000000)];
    [0; 0; 0; 0; 0; 0; 0; 0; 0; 0; 0; 0; 0; 0; 0; 0; 0; 0; 0; 0; 0; 0; 0; 1000000; 0; 0; 0; 0; 1000000; 0];
    [0; 0; 0; 0; 0; 0; 0; 0; 0; 0; 0; 0; 0; 0; 0; 0; 0; 0; 0; 0; 0; 0; 0; 0; 1000000; 0; 0; 0; 0; 1000000];
    [0; 0; 0; 0; 0; 0; 244000000; 0; 0; 0; 0; 0; 0; 0; 0; 0; 0; 0; 0; 0; 0; 0; 0; 0; 0; (-4000000); 0; (-1000000); (-2000000); (-3000000)];
    [0; 0; 0; 0; 0; 0; (-244000000); 0; 0; 0; 0; 0; 0; 0; 0; 0; 0; 0; 0; 0; 0; 0; 0; 0; 0; 3000000; 1000000; 0; 1000000; 2000000];
    [0; 0; 0; 0; 0; 0; 2008333; 0; 0; 0; 0; 0; 0; 0; 0; 0; 0; 0; 0; 0; 0; 0; 0; 0; 0; (-8333); 0; 0; 0; 0];
    [0; 0; 0; 0; 0; 0; 8333; 0; 0; 0; 0; 0; 0; 0; 0; 0; 0; 0; 0; 0; 0; 0; 0; 0; 0; (-8333); 0; 0; 0; 0];
    [0; 0; 0; 0; 0; 0; 16667; 0; 0; 0; 0; 0; 0; 0; 0; 0; 0; 0; 0; 0; 0; 0; 0; 0; 0; (-16667); 0; 0; (-8333); (-16667)]])) = true.
Proof. vm_compute; reflexivity. Qed.
Example linp_2 : okd (linp 200 (mkLp 30 43 38 (arr (qm 1 [[0; 0; 0; 0; 0; 0; 0; 0; 1; 0; 0; 0; 0; 1; 0; 0; 0; 0; 0; 0; 0; 0; 0; 0; 0; 0; 0; 0; 0; 0; 0; 0; 0; 0; 0; 0; 0; 0; 0; 0; 0; 0; 0];
    [0; 0; 0; 0; 0; 0; 0; 0; 0; 1; 0; 0; 0; 0; 1; 0; 0; 0; 0; 0; 0; 0; 0; 0; 0; 0; 0; 0; 0; 0; 0; 0; 0; 0; 0; 0; 0; 0; 0; 0; 0; 0; 0];
    [0; 0; 0; 0; 0; 0; 0; 0; 0; 0; 1; 0; 0; 0; 0; 1; 0; 0; 0; 0; 0; 0; 0; 0; 0; 0; 0; 0; 0; 0; 0; 0; 0; 0; 0; 0; 0; 0; 0; 0; 0; 0; 0];
    [0; 0; 0; 0; 0; 0; 0; 0; 0; 0; 0; 1; 0; 0; 0; 0; 1; 0; 0; 0; 0; 0; 0; 0; 0; 0; 0; 0; 0; 0; 0; 0; 0; 0; 0; 0; 0; 0; 0; 0; 0; 0; 0];
    [0; 0; 0; 0; 0; 0; 0; 0; 0; 0; 0; 0; 1; 0; 0; 0; 0; 1; 0; 0; 0; 0; 0; 0; 0; 0; 0; 0; 0; 0; 0; 0; 0; 0; 0; 0; 0; 0; 0; 0; 0; 0; 0];
    [120; (-120); 0; 0; 0; 0; 0; 0; 0; 0; 0; 0; 0; 0; 0; 0; 0; 0; 1; 0; 0; 0; 0; 0; 0; 0; 0; 0; 0; 0; 0; 0; 0; 0; 0; 0; 0; 0; 0; 0; 0; 0; 0];
    [(-60); 60; 60; (-60); 0; 0; 0; 0; 0; 0; 0; 0; 0; 0; 0; 0; 0; 0; 0; 1; 0; 0; 0; 0; 0; 0; 0; 0; 0; 0; 0; 0; 0; 0; 0; 0; 0; 0; 0; 0; 0; 0; 0];
    [0; 0; (-60); 60; 60; (-60); 0; 0; 0; 0; 0; 0; 0; 0; 0; 0; 0; 0; 0; 0; 1; 0; 0; 0; 0; 0; 0; 0; 0; 0; 0; 0; 0; 0; 0; 0; 0; 0; 0; 0; 0; 0; 0];
    [0; 0; 0; 0; (-120); 120; 120; (-120); 0; 0; 0; 0; 0; 0; 0; 0; 0; 0; 0; 0; 0; 1; 0; 0; 0; 0; 0; 0; 0; 0; 0; 0; 0; 0; 0; 0; 0; 0; 0; 0; 0; 0; 0];
    [0; 0; 0; 0; 0; 0; (-60); 60; 0; 0; 0; 0; 0; 0; 0; 0; 0; 0; 0; 0; 0; 0; 1; 0; 0; 0; 0; 0; 0; 0; 0; 0; 0; 0; 0; 0; 0; 0; 0; 0; 0; 0; 0];
    [(-120); 120; 0; 0; 0; 0; 0; 0; 0; 0; 0; 0; 0; 0; 0; 0; 0; 0; 0; 0; 0; 0; 0; 1; 0; 0; 0; 0; 0; 0; 0; 0; 0; 0; 0; 0; 0; 0; 0; 0; 0; 0; 0];
    [60; (-60); (-60); 60; 0; 0; 0; 0; 0; 0; 0; 0; 0; 0; 0; 0; 0; 0; 0; 0; 0; 0; 0; 0; 1; 0; 0; 0; 0; 0; 0; 0; 0; 0; 0; 0; 0; 0; 0; 0; 0; 0; 0];
    [0; 0; 60; (-60); (-60); 60; 0; 0; 0; 0; 0; 0; 0; 0; 0; 0; 0; 0; 0; 0; 0; 0; 0; 0; 0; 1; 0; 0; 0; 0; 0; 0; 0; 0; 0; 0; 0; 0; 0; 0; 0; 0; 0];
    [0; 0; 0; 0; 120; (-120); (-120); 120; 0; 0; 0; 0; 0; 0; 0; 0; 0; 0; 0; 0; 0; 0; 0; 0; 0; 0; 1; 0; 0; 0; 0; 0; 0; 0; 0; 0; 0; 0; 0; 0; 0; 0; 0];
    [0; 0; 0; 0; 0; 0; 60; (-60); 0; 0; 0; 0; 0; 0; 0; 0; 0; 0; 0; 0; 0; 0; 0; 0; 0; 0; 0; 1; 0; 0; 0; 0; 0; 0; 0; 0; 0; 0; 0; 0; 0; 0; 0];
    [(-180); 180; 60; (-60); 0; 0; 0; 0; 0; 0; 0; 0; 0; 0; 0; 0; 0; 0; 0; 0; 0; 0; 0; 0; 0; 0; 0; 0; 1; 0; 0; 0; 0; 0; 0; 0; 0; 0; 0; 0; 0; 0; 0];
    [60; (-60); (-120); 120; 60; (-60); 0; 0; 0; 0; 0; 0; 0; 0; 0; 0; 0; 0; 0; 0; 0; 0; 0; 0; 0; 0; 0; 0; 0; 1; 0; 0; 0; 0; 0; 0; 0; 0; 0; 0; 0; 0; 0];
    [0; 0; 60; (-60); (-180); 180; 120; (-120); 0; 0; 0; 0; 0; 0; 0; 0; 0; 0; 0; 0; 0; 0; 0; 0; 0; 0; 0; 0; 0; 0; 1; 0; 0; 0; 0; 0; 0; 0; 0; 0; 0; 0; 0];
    [0; 0; 0; 0; 120; (-120); (-180); 180; 0; 0; 0; 0; 0; 0; 0; 0; 0; 0; 0; 0; 0; 0; 0; 0; 0; 0; 0; 0; 0; 0; 0; 1; 0; 0; 0; 0; 0; 0; 0; 0; 0; 0; 0];
    [120; (-120); 0; 0; 0; 0; 60; (-60); 0; 0; 0; 0; 0; 0; 0; 0; 0; 0; 0; 0; 0; 0; 0; 0; 0; 0; 0; 0; 0; 0; 0; 0; 1; 0; 0; 0; 0; 0; 0; 0; 0; 0; 0];
    [180; (-180); (-60); 60; 0; 0; 0; 0; 0; 0; 0; 0; 0; 0; 0; 0; 0; 0; 0; 0; 0; 0; 0; 0; 0; 0; 0; 0; 0; 0; 0; 0; 0; 1; 0; 0; 0; 0; 0; 0; 0; 0; 0];
    [(-60); 60; 120; (-120); (-60); 60; 0; 0; 0; 0; 0; 0; 0; 0; 0; 0; 0; 0; 0; 0; 0; 0; 0; 0; 0; 0; 0; 0; 0; 0; 0; 0; 0; 0; 1; 0; 0; 0; 0; 0; 0; 0; 0];
    [0; 0; (-60); 60; 180; (-180); (-120); 120; 0; 0; 0; 0; 0; 0; 0; 0; 0; 0; 0; 0; 0; 0; 0; 0; 0; 0; 0; 0; 0; 0; 0; 0; 0; 0; 0; 1; 0; 0; 0; 0; 0; 0; 0];
    [0; 0; 0; 0; (-120); 120; 180; (-180); 0; 0; 0; 0; 0; 0; 0; 0; 0; 0; 0; 0; 0; 0; 0; 0; 0; 0; 0; 0; 0; 0; 0; 0; 0; 0; 0; 0; 1; 0; 0; 0; 0; 0; 0];
    [(-120); 120; 0; 0; 0; 0; (-60); 60; 0; 0; 0; 0; 0; 0; 0; 0; 0; 0; 0; 0; 0; 0; 0; 0; 0; 0; 0; 0; 0; 0; 0; 0; 0; 0; 0; 0; 0; 1; 0; 0; 0; 0; 0];
    [(-180); 180; 60; (-60); 0; 0; 0; 0; (-1); 0; 0; 0; 0; 0; 0; 0; 0; 0; 0; 0; 0; 0; 0; 0; 0; 0; 0; 0; 0; 0; 0; 0; 0; 0; 0; 0; 0; 0; 1; 0; 0; 0; 0];
    [60; (-60); (-120); 120; 60; (-60); 0; 0; 0; (-1); 0; 0; 0; 0; 0; 0; 0; 0; 0; 0; 0; 0; 0; 0; 0; 0; 0; 0; 0; 0; 0; 0; 0; 0; 0; 0; 0; 0; 0; 1; 0; 0; 0];
    [0; 0; 60; (-60); (-180); 180; 120; (-120); 0; 0; (-1); 0; 0; 0; 0; 0; 0; 0; 0; 0; 0; 0; 0; 0; 0; 0; 0; 0; 0; 0; 0; 0; 0; 0; 0; 0; 0; 0; 0; 0; 1; 0; 0];
    [0; 0; 0; 0; (-120); 120; 180; (-180); 0; 0; 0; 1; 0; 0; 0; 0; 0; 0; 0; 0; 0; 0; 0; 0; 0; 0; 0; 0; 0; 0; 0; 0; 0; 0; 0; 0; 0; 0; 0; 0; 0; 1; 0];
    [120; (-120); 0; 0; 0; 0; 60; (-60); 0; 0; 0; 0; (-1); 0; 0; 0; 0; 0; 0; 0; 0; 0; 0; 0; 0; 0; 0; 0; 0; 0; 0; 0; 0; 0; 0; 0; 0; 0; 0; 0; 0; 0; 1]])) (arrv (qs 1 [0; 0; 0; 0; 0; 0; 0; 0; 0; 0; 0; 0; 0; 0; 0; 0; 0; 0; 0; 0; 0; 0; 0; 0; 0; 0; 0; 0; 0; 0; 0; 0; 0; 0; 0; 0; 0; 0; 1; 1; 1; 1; 1])) (arrv (qs 1 [0; 0; 0; 0; 0; 0; 0; 0; 0; 0; 0; 1; 0; 0; 0; 0; 0; 0; 0; 0; 0; 0; 0; 0; 0; 0; 0; 0; 0; 0; 0; 0; 0; 0; 0; 0; 0; 0; 0; 0; 0; 0; 0])) (map Z.to_nat [13; 14; 15; 16; 17; 18; 19; 20; 21; 22; 23; 24; 25; 26; 27; 28; 29; 30; 31; 32; 33; 34; 35; 36; 37; 38; 39; 40; 41; 42]) (qs 1 [865; 865; 765; 332; 845; 300; 150; 150; 300; 150; 300; 150; 150; 300; 150; 30000; 30000; 30000; 30000; 30000; 30000; 30000; 30000; 30000; 30000; 0; 0; 0; 332; 0]) (fun _ => q0) (fun _ => q0))) (fun s =>
  neq (s_IBAS s) (map Z.to_nat [13; 14; 15; 16; 17; 18; 19; 20; 21; 22; 23; 24; 25; 26; 8; 28; 29; 30; 31; 32; 33; 34; 35; 36; 37; 10; 4; 1; 3; 6]) && vnear 6 (row 43 (s_XOB s)) (qs 1 [0; 0; 0; 0; 0; 0; 0; 0; 0; 0; 0; 1; 0; 0; 0; 0; 0; 0; 0; 0; 0; 0; 0; 0; 0; 0; 0; 0; 0; 0; 0; 0; 0; 0; 0; 0; 0; 0; 1; 1; 1; 1; 1]) && vnear 6 (s_BS s) (qs 1000000 [648000000; 865000000; 650000000; 332000000; 845000000; 450000000; 83000000; 83000000; 118000000; 300000000; 150000000; 217000000; 217000000; 482000000; 217000000; 29783000000; 30000000000; 29885000000; 30332000000; 30000000000; 30217000000; 30000000000; 30115000000; 29668000000; 30000000000; 115000000; 983333; 1250000; 133333; 2500000]) && mnear 6 (s_TAB s) (qm 1000000 [[1000000; 0; 0; 0; 0; 0; 0; 0; 0; 0; 0; 0; 0; 0; (-2000000); 0; 0; 0; 0; 0; 0; 0; 0; 0; 0; 1000000; 500000; 0; 250000; 1250000];
    [0; 1000000; 0; 0; 0; 0; 0; 0; 0; 0; 0; 0; 0; 0; 0; 0; 0; 0; 0; 0; 0; 0; 0; 0; 0; 0; 0; 0; 0; 0];
    [0; 0; 1000000; 0; 0; 0; 0; 0; 0; 0; 0; 0; 0; 0; 2000000; 0; 0; 0; 0; 0; 0; 0; 0; 0; 0; 0; 500000; 1000000; (-1250000); (-250000)];
    [0; 0; 0; 1000000; 0; 0; 0; 0; 0; 0; 0; 0; 0; 0; 0; 0; 0; 0; 0; 0; 0; 0; 0; 0; 0; 0; 0; 0; 0; 0];
    [0; 0; 0; 0; 1000000; 0; 0; 0; 0; 0; 0; 0; 0; 0; 0; 0; 0; 0; 0; 0; 0; 0; 0; 0; 0; 0; 0; 0; 0; 0];
    [0; 0; 0; 0; 0; 1000000; 0; 0; 0; 0; 0; 0; 0; 0; 1000000; 0; 0; 0; 0; 0; 0; 0; 0; 0; 0; 0; 0; 0; 0; (-1000000)];
    [0; 0; 0; 0; 0; 0; 1000000; 0; 0; 0; 0; 0; 0; 0; (-1000000); 0; 0; 0; 0; 0; 0; 0; 0; 0; 0; 0; 500000; 0; 250000; 250000];
    [0; 0; 0; 0; 0; 0; 0; 1000000; 0; 0; 0; 0; 0; 0; (-1000000); 0; 0; 0; 0; 0; 0; 0; 0; 0; 0; 0; (-500000); 0; 250000; 250000];
    [0; 0; 0; 0; 0; 0; 0; 0; 1000000; 0; 0; 0; 0; 0; 1000000; 0; 0; 0; 0; 0; 0; 0; 0; 0; 0; 0; 0; 0; (-1000000); 0];
    [0; 0; 0; 0; 0; 0; 0; 0; 0; 1000000; 0; 0; 0; 0; 1000000; 0; 0; 0; 0; 0; 0; 0; 0; 0; 0; 0; 0; 0; 0; 0];
    [0; 0; 0; 0; 0; 0; 0; 0; 0; 0; 1000000; 0; 0; 0; (-1000000); 0; 0; 0; 0; 0; 0; 0; 0; 0; 0; 0; 0; 0; 0; 1000000];
    [0; 0; 0; 0; 0; 0; 0; 0; 0; 0; 0; 1000000; 0; 0; 1000000; 0; 0; 0; 0; 0; 0; 0; 0; 0; 0; 0; (-500000); 0; (-250000); (-250000)];
    [0; 0; 0; 0; 0; 0; 0; 0; 0; 0; 0; 0; 1000000; 0; 1000000; 0; 0; 0; 0; 0; 0; 0; 0; 0; 0; 0; 500000; 0; (-250000); (-250000)];
    [0; 0; 0; 0; 0; 0; 0; 0; 0; 0; 0; 0; 0; 1000000; (-1000000); 0; 0; 0; 0; 0; 0; 0; 0; 0; 0; 0; 0; 0; 1000000; 0];
    [0; 0; 0; 0; 0; 0; 0; 0; 0; 0; 0; 0; 0; 0; 2000000; 0; 0; 0; 0; 0; 0; 0; 0; 0; 0; (-1000000); (-500000); 0; (-250000); (-1250000)];
    [0; 0; 0; 0; 0; 0; 0; 0; 0; 0; 0; 0; 0; 0; (-2000000); 1000000; 0; 0; 0; 0; 0; 0; 0; 0; 0; 0; 500000; 0; 250000; 1250000];
    [0; 0; 0; 0; 0; 0; 0; 0; 0; 0; 0; 0; 0; 0; 0; 0; 1000000; 0; 0; 0; 0; 0; 0; 0; 0; 0; (-1000000); 0; 0; 0];
    [0; 0; 0; 0; 0; 0; 0; 0; 0; 0; 0; 0; 0; 0; 2000000; 0; 0; 1000000; 0; 0; 0; 0; 0; 0; 0; 0; 500000; 0; (-1250000); (-250000)];
    [0; 0; 0; 0; 0; 0; 0; 0; 0; 0; 0; 0; 0; 0; 0; 0; 0; 0; 1000000; 0; 0; 0; 0; 0; 0; 0; 0; 0; 1000000; 0];
    [0; 0; 0; 0; 0; 0; 0; 0; 0; 0; 0; 0; 0; 0; 0; 0; 0; 0; 0; 1000000; 0; 0; 0; 0; 0; 0; 0; 0; 0; (-1000000)];
    [0; 0; 0; 0; 0; 0; 0; 0; 0; 0; 0; 0; 0; 0; 2000000; 0; 0; 0; 0; 0; 1000000; 0; 0; 0; 0; 0; (-500000); 0; (-250000); (-1250000)];
    [0; 0; 0; 0; 0; 0; 0; 0; 0; 0; 0; 0; 0; 0; 0; 0; 0; 0; 0; 0; 0; 1000000; 0; 0; 0; 0; 1000000; 0; 0; 0];
    [0; 0; 0; 0; 0; 0; 0; 0; 0; 0; 0; 0; 0; 0; (-2000000); 0; 0; 0; 0; 0; 0; 0; 1000000; 0; 0; 0; (-500000); 0; 1250000; 250000];
    [0; 0; 0; 0; 0; 0; 0; 0; 0; 0; 0; 0; 0; 0; 0; 0; 0; 0; 0; 0; 0; 0; 0; 1000000; 0; 0; 0; 0; (-1000000); 0];
    [0; 0; 0; 0; 0; 0; 0; 0; 0; 0; 0; 0; 0; 0; 0; 0; 0; 0; 0; 0; 0; 0; 0; 0; 1000000; 0; 0; 0; 0; 1000000];
    [0; 0; 0; 0; 0; 0; 0; 0; 0; 0; 0; 0; 0; 0; (-2000000); 0; 0; 0; 0; 0; 0; 0; 0; 0; 0; 0; (-500000); (-1000000); 1250000; 250000];
    [0; 0; 0; 0; 0; 0; 0; 0; 0; 0; 0; 0; 0; 0; 25000; 0; 0; 0; 0; 0; 0; 0; 0; 0; 0; 0; 0; 0; (-8333); 0];
    [0; 0; 0; 0; 0; 0; 0; 0; 0; 0; 0; 0; 0; 0; 8333; 0; 0; 0; 0; 0; 0; 0; 0; 0; 0; 0; 0; 0; 0; (-8333)];
    [0; 0; 0; 0; 0; 0; 0; 0; 0; 0; 0; 0; 0; 0; (-8333); 0; 0; 0; 0; 0; 0; 0; 0; 0; 0; 0; 8333; 0; 4167; (-4167)];
    [0; 0; 0; 0; 0; 0; 0; 0; 0; 0; 0; 0; 0; 0; 16667; 0; 0; 0; 0; 0; 0; 0; 0; 0; 0; 0; 0; 0; 0; 0]])) = true.
Proof. vm_compute; reflexivity. Qed.
Example linp_3 : okd (linp 200 (mkLp 30 43 38 (arr (qm 1 [[0; 0; 0; 0; 0; 0; 0; 0; 1; 0; 0; 0; 0; 1; 0; 0; 0; 0; 0; 0; 0; 0; 0; 0; 0; 0; 0; 0; 0; 0; 0; 0; 0; 0; 0; 0; 0; 0; 0; 0; 0; 0; 0];
    [0; 0; 0; 0; 0; 0; 0; 0; 0; 1; 0; 0; 0; 0; 1; 0; 0; 0; 0; 0; 0; 0; 0; 0; 0; 0; 0; 0; 0; 0; 0; 0; 0; 0; 0; 0; 0; 0; 0; 0; 0; 0; 0];
    [0; 0; 0; 0; 0; 0; 0; 0; 0; 0; 1; 0; 0; 0; 0; 1; 0; 0; 0; 0; 0; 0; 0; 0; 0; 0; 0; 0; 0; 0; 0; 0; 0; 0; 0; 0; 0; 0; 0; 0; 0; 0; 0];
    [0; 0; 0; 0; 0; 0; 0; 0; 0; 0; 0; 1; 0; 0; 0; 0; 1; 0; 0; 0; 0; 0; 0; 0; 0; 0; 0; 0; 0; 0; 0; 0; 0; 0; 0; 0; 0; 0; 0; 0; 0; 0; 0];
    [0; 0; 0; 0; 0; 0; 0; 0; 0; 0; 0; 0; 1; 0; 0; 0; 0; 1; 0; 0; 0; 0; 0; 0; 0; 0; 0; 0; 0; 0; 0; 0; 0; 0; 0; 0; 0; 0; 0; 0; 0; 0; 0];
    [60; (-60); 0; 0; 0; 0; 0; 0; 0; 0; 0; 0; 0; 0; 0; 0; 0; 0; 1; 0; 0; 0; 0; 0; 0; 0; 0; 0; 0; 0; 0; 0; 0; 0; 0; 0; 0; 0; 0; 0; 0; 0; 0];
    [(-120); 120; 120; (-120); 0; 0; 0; 0; 0; 0; 0; 0; 0; 0; 0; 0; 0; 0; 0; 1; 0; 0; 0; 0; 0; 0; 0; 0; 0; 0; 0; 0; 0; 0; 0; 0; 0; 0; 0; 0; 0; 0; 0];
    [0; 0; (-120); 120; 120; (-120); 0; 0; 0; 0; 0; 0; 0; 0; 0; 0; 0; 0; 0; 0; 1; 0; 0; 0; 0; 0; 0; 0; 0; 0; 0; 0; 0; 0; 0; 0; 0; 0; 0; 0; 0; 0; 0];
    [0; 0; 0; 0; (-120); 120; 120; (-120); 0; 0; 0; 0; 0; 0; 0; 0; 0; 0; 0; 0; 0; 1; 0; 0; 0; 0; 0; 0; 0; 0; 0; 0; 0; 0; 0; 0; 0; 0; 0; 0; 0; 0; 0];
    [0; 0; 0; 0; 0; 0; (-60); 60; 0; 0; 0; 0; 0; 0; 0; 0; 0; 0; 0; 0; 0; 0; 1; 0; 0; 0; 0; 0; 0; 0; 0; 0; 0; 0; 0; 0; 0; 0; 0; 0; 0; 0; 0];
    [(-60); 60; 0; 0; 0; 0; 0; 0; 0; 0; 0; 0; 0; 0; 0; 0; 0; 0; 0; 0; 0; 0; 0; 1; 0; 0; 0; 0; 0; 0; 0; 0; 0; 0; 0; 0; 0; 0; 0; 0; 0; 0; 0];
    [120; (-120); (-120); 120; 0; 0; 0; 0; 0; 0; 0; 0; 0; 0; 0; 0; 0; 0; 0; 0; 0; 0; 0; 0; 1; 0; 0; 0; 0; 0; 0; 0; 0; 0; 0; 0; 0; 0; 0; 0; 0; 0; 0];
    [0; 0; 120; (-120); (-120); 120; 0; 0; 0; 0; 0; 0; 0; 0; 0; 0; 0; 0; 0; 0; 0; 0; 0; 0; 0; 1; 0; 0; 0; 0; 0; 0; 0; 0; 0; 0; 0; 0; 0; 0; 0; 0; 0];
    [0; 0; 0; 0; 120; (-120); (-120); 120; 0; 0; 0; 0; 0; 0; 0; 0; 0; 0; 0; 0; 0; 0; 0; 0; 0; 0; 1; 0; 0; 0; 0; 0; 0; 0; 0; 0; 0; 0; 0; 0; 0; 0; 0];
    [0; 0; 0; 0; 0; 0; 60; (-60); 0; 0; 0; 0; 0; 0; 0; 0; 0; 0; 0; 0; 0; 0; 0; 0; 0; 0; 0; 1; 0; 0; 0; 0; 0; 0; 0; 0; 0; 0; 0; 0; 0; 0; 0];
    [(-180); 180; 120; (-120); 0; 0; 0; 0; 0; 0; 0; 0; 0; 0; 0; 0; 0; 0; 0; 0; 0; 0; 0; 0; 0; 0; 0; 0; 1; 0; 0; 0; 0; 0; 0; 0; 0; 0; 0; 0; 0; 0; 0];
    [120; (-120); (-240); 240; 120; (-120); 0; 0; 0; 0; 0; 0; 0; 0; 0; 0; 0; 0; 0; 0; 0; 0; 0; 0; 0; 0; 0; 0; 0; 1; 0; 0; 0; 0; 0; 0; 0; 0; 0; 0; 0; 0; 0];
    [0; 0; 120; (-120); (-240); 240; 120; (-120); 0; 0; 0; 0; 0; 0; 0; 0; 0; 0; 0; 0; 0; 0; 0; 0; 0; 0; 0; 0; 0; 0; 1; 0; 0; 0; 0; 0; 0; 0; 0; 0; 0; 0; 0];
    [0; 0; 0; 0; 120; (-120); (-180); 180; 0; 0; 0; 0; 0; 0; 0; 0; 0; 0; 0; 0; 0; 0; 0; 0; 0; 0; 0; 0; 0; 0; 0; 1; 0; 0; 0; 0; 0; 0; 0; 0; 0; 0; 0];
    [60; (-60); 0; 0; 0; 0; 60; (-60); 0; 0; 0; 0; 0; 0; 0; 0; 0; 0; 0; 0; 0; 0; 0; 0; 0; 0; 0; 0; 0; 0; 0; 0; 1; 0; 0; 0; 0; 0; 0; 0; 0; 0; 0];
    [180; (-180); (-120); 120; 0; 0; 0; 0; 0; 0; 0; 0; 0; 0; 0; 0; 0; 0; 0; 0; 0; 0; 0; 0; 0; 0; 0; 0; 0; 0; 0; 0; 0; 1; 0; 0; 0; 0; 0; 0; 0; 0; 0];
    [(-120); 120; 240; (-240); (-120); 120; 0; 0; 0; 0; 0; 0; 0; 0; 0; 0; 0; 0; 0; 0; 0; 0; 0; 0; 0; 0; 0; 0; 0; 0; 0; 0; 0; 0; 1; 0; 0; 0; 0; 0; 0; 0; 0];
    [0; 0; (-120); 120; 240; (-240); (-120); 120; 0; 0; 0; 0; 0; 0; 0; 0; 0; 0; 0; 0; 0; 0; 0; 0; 0; 0; 0; 0; 0; 0; 0; 0; 0; 0; 0; 1; 0; 0; 0; 0; 0; 0; 0];
    [0; 0; 0; 0; (-120); 120; 180; (-180); 0; 0; 0; 0; 0; 0; 0; 0; 0; 0; 0; 0; 0; 0; 0; 0; 0; 0; 0; 0; 0; 0; 0; 0; 0; 0; 0; 0; 1; 0; 0; 0; 0; 0; 0];
    [(-60); 60; 0; 0; 0; 0; (-60); 60; 0; 0; 0; 0; 0; 0; 0; 0; 0; 0; 0; 0; 0; 0; 0; 0; 0; 0; 0; 0; 0; 0; 0; 0; 0; 0; 0; 0; 0; 1; 0; 0; 0; 0; 0];
    [(-180); 180; 120; (-120); 0; 0; 0; 0; (-1); 0; 0; 0; 0; 0; 0; 0; 0; 0; 0; 0; 0; 0; 0; 0; 0; 0; 0; 0; 0; 0; 0; 0; 0; 0; 0; 0; 0; 0; 1; 0; 0; 0; 0];
    [120; (-120); (-240); 240; 120; (-120); 0; 0; 0; (-1); 0; 0; 0; 0; 0; 0; 0; 0; 0; 0; 0; 0; 0; 0; 0; 0; 0; 0; 0; 0; 0; 0; 0; 0; 0; 0; 0; 0; 0; 1; 0; 0; 0];
    [0; 0; 120; (-120); (-240); 240; 120; (-120); 0; 0; (-1); 0; 0; 0; 0; 0; 0; 0; 0; 0; 0; 0; 0; 0; 0; 0; 0; 0; 0; 0; 0; 0; 0; 0; 0; 0; 0; 0; 0; 0; 1; 0; 0];
    [0; 0; 0; 0; (-120); 120; 180; (-180); 0; 0; 0; 1; 0; 0; 0; 0; 0; 0; 0; 0; 0; 0; 0; 0; 0; 0; 0; 0; 0; 0; 0; 0; 0; 0; 0; 0; 0; 0; 0; 0; 0; 1; 0];
    [60; (-60); 0; 0; 0; 0; 60; (-60); 0; 0; 0; 0; (-1); 0; 0; 0; 0; 0; 0; 0; 0; 0; 0; 0; 0; 0; 0; 0; 0; 0; 0; 0; 0; 0; 0; 0; 0; 0; 0; 0; 0; 0; 1]])) (arrv (qs 1 [0; 0; 0; 0; 0; 0; 0; 0; 0; 0; 0; 0; 0; 0; 0; 0; 0; 0; 0; 0; 0; 0; 0; 0; 0; 0; 0; 0; 0; 0; 0; 0; 0; 0; 0; 0; 0; 0; 1; 1; 1; 1; 1])) (arrv (qs 1 [0; 0; 0; 0; 0; 0; 0; 0; 0; 0; 0; 1; 0; 0; 0; 0; 0; 0; 0; 0; 0; 0; 0; 0; 0; 0; 0; 0; 0; 0; 0; 0; 0; 0; 0; 0; 0; 0; 0; 0; 0; 0; 0])) (map Z.to_nat [13; 14; 15; 16; 17; 18; 19; 20; 21; 22; 23; 24; 25; 26; 27; 28; 29; 30; 31; 32; 33; 34; 35; 36; 37; 38; 39; 40; 41; 42]) (qs 1 [664; 314; 576; 403; 409; 150; 300; 300; 300; 150; 150; 300; 300; 300; 150; 30000; 30000; 30000; 30000; 30000; 30000; 30000; 30000; 30000; 30000; 0; 0; 0; 403; 0]) (fun _ => q0) (fun _ => q0))) (fun s =>
  neq (s_IBAS s) (map Z.to_nat [13; 14; 15; 16; 17; 18; 19; 20; 21; 22; 8; 24; 25; 26; 12; 28; 29; 30; 31; 32; 33; 34; 35; 36; 37; 4; 3; 1; 10; 6]) && vnear 6 (row 43 (s_XOB s)) (qs 1 [0; 0; 0; 0; 0; 0; 0; 0; 0; 0; 0; 1; 0; 0; 0; 0; 0; 0; 0; 0; 0; 0; 0; 0; 0; 0; 0; 0; 0; 0; 0; 0; 0; 0; 0; 0; 0; 0; 1; 1; 1; 1; 1]) && vnear 6 (s_BS s) (qs 1000000 [340500000; 314000000; 496500000; 403000000; 409000000; 300000000; 126500000; 126500000; 47000000; 300000000; 323500000; 473500000; 473500000; 553000000; 0; 29676500000; 30000000000; 29920500000; 30403000000; 30000000000; 30323500000; 30000000000; 30079500000; 29597000000; 30000000000; 391667; 1054167; 2500000; 79500000; 2500000]) && mnear 6 (s_TAB s) (qm 1000000 [[1000000; 0; 0; 0; 0; 0; 0; 0; 0; 0; (-2000000); 0; 0; 0; (-1500000); 0; 0; 0; 0; 0; 0; 0; 0; 0; 0; 1000000; 500000; 0; 500000; 0];
    [0; 1000000; 0; 0; 0; 0; 0; 0; 0; 0; 0; 0; 0; 0; 0; 0; 0; 0; 0; 0; 0; 0; 0; 0; 0; 0; 0; 0; 0; 0];
    [0; 0; 1000000; 0; 0; 0; 0; 0; 0; 0; 1000000; 0; 0; 0; 2500000; 0; 0; 0; 0; 0; 0; 0; 0; 0; 0; 0; 500000; 1000000; (-1500000); 0];
    [0; 0; 0; 1000000; 0; 0; 0; 0; 0; 0; 0; 0; 0; 0; 0; 0; 0; 0; 0; 0; 0; 0; 0; 0; 0; 0; 0; 0; 0; 0];
    [0; 0; 0; 0; 1000000; 0; 0; 0; 0; 0; 1000000; 0; 0; 0; (-1000000); 0; 0; 0; 0; 0; 0; 0; 0; 0; 0; 0; 0; 0; 0; 1000000];
    [0; 0; 0; 0; 0; 1000000; 0; 0; 0; 0; 1000000; 0; 0; 0; 0; 0; 0; 0; 0; 0; 0; 0; 0; 0; 0; 0; 0; 0; 0; 0];
    [0; 0; 0; 0; 0; 0; 1000000; 0; 0; 0; (-1000000); 0; 0; 0; (-1500000); 0; 0; 0; 0; 0; 0; 0; 0; 0; 0; 0; 500000; 0; 500000; 0];
    [0; 0; 0; 0; 0; 0; 0; 1000000; 0; 0; (-1000000); 0; 0; 0; (-1500000); 0; 0; 0; 0; 0; 0; 0; 0; 0; 0; 0; (-500000); 0; 500000; 0];
    [0; 0; 0; 0; 0; 0; 0; 0; 1000000; 0; 0; 0; 0; 0; 1000000; 0; 0; 0; 0; 0; 0; 0; 0; 0; 0; 0; 0; 0; (-1000000); 0];
    [0; 0; 0; 0; 0; 0; 0; 0; 0; 1000000; 0; 0; 0; 0; 1000000; 0; 0; 0; 0; 0; 0; 0; 0; 0; 0; 0; 0; 0; 0; 0];
    [0; 0; 0; 0; 0; 0; 0; 0; 0; 0; 2000000; 0; 0; 0; 1500000; 0; 0; 0; 0; 0; 0; 0; 0; 0; 0; (-1000000); (-500000); 0; (-500000); 0];
    [0; 0; 0; 0; 0; 0; 0; 0; 0; 0; 1000000; 1000000; 0; 0; 1500000; 0; 0; 0; 0; 0; 0; 0; 0; 0; 0; 0; (-500000); 0; (-500000); 0];
    [0; 0; 0; 0; 0; 0; 0; 0; 0; 0; 1000000; 0; 1000000; 0; 1500000; 0; 0; 0; 0; 0; 0; 0; 0; 0; 0; 0; 500000; 0; (-500000); 0];
    [0; 0; 0; 0; 0; 0; 0; 0; 0; 0; 0; 0; 0; 1000000; (-1000000); 0; 0; 0; 0; 0; 0; 0; 0; 0; 0; 0; 0; 0; 1000000; 0];
    [0; 0; 0; 0; 0; 0; 0; 0; 0; 0; (-1000000); 0; 0; 0; 1000000; 0; 0; 0; 0; 0; 0; 0; 0; 0; 0; 0; 0; 0; 0; (-1000000)];
    [0; 0; 0; 0; 0; 0; 0; 0; 0; 0; (-2000000); 0; 0; 0; (-1500000); 1000000; 0; 0; 0; 0; 0; 0; 0; 0; 0; 0; 500000; 0; 500000; 0];
    [0; 0; 0; 0; 0; 0; 0; 0; 0; 0; 0; 0; 0; 0; 0; 0; 1000000; 0; 0; 0; 0; 0; 0; 0; 0; 0; (-1000000); 0; 0; 0];
    [0; 0; 0; 0; 0; 0; 0; 0; 0; 0; 1000000; 0; 0; 0; 2500000; 0; 0; 1000000; 0; 0; 0; 0; 0; 0; 0; 0; 500000; 0; (-1500000); 0];
    [0; 0; 0; 0; 0; 0; 0; 0; 0; 0; 0; 0; 0; 0; 0; 0; 0; 0; 1000000; 0; 0; 0; 0; 0; 0; 0; 0; 0; 1000000; 0];
    [0; 0; 0; 0; 0; 0; 0; 0; 0; 0; 1000000; 0; 0; 0; (-1000000); 0; 0; 0; 0; 1000000; 0; 0; 0; 0; 0; 0; 0; 0; 0; 0];
    [0; 0; 0; 0; 0; 0; 0; 0; 0; 0; 2000000; 0; 0; 0; 1500000; 0; 0; 0; 0; 0; 1000000; 0; 0; 0; 0; 0; (-500000); 0; (-500000); 0];
    [0; 0; 0; 0; 0; 0; 0; 0; 0; 0; 0; 0; 0; 0; 0; 0; 0; 0; 0; 0; 0; 1000000; 0; 0; 0; 0; 1000000; 0; 0; 0];
    [0; 0; 0; 0; 0; 0; 0; 0; 0; 0; (-1000000); 0; 0; 0; (-2500000); 0; 0; 0; 0; 0; 0; 0; 1000000; 0; 0; 0; (-500000); 0; 1500000; 0];
    [0; 0; 0; 0; 0; 0; 0; 0; 0; 0; 0; 0; 0; 0; 0; 0; 0; 0; 0; 0; 0; 0; 0; 1000000; 0; 0; 0; 0; (-1000000); 0];
    [0; 0; 0; 0; 0; 0; 0; 0; 0; 0; (-1000000); 0; 0; 0; 1000000; 0; 0; 0; 0; 0; 0; 0; 0; 0; 1000000; 0; 0; 0; 0; 0];
    [0; 0; 0; 0; 0; 0; 0; 0; 0; 0; 0; 0; 0; 0; 25000; 0; 0; 0; 0; 0; 0; 0; 0; 0; 0; 0; 0; 0; (-8333); 0];
    [0; 0; 0; 0; 0; 0; 0; 0; 0; 0; 8333; 0; 0; 0; (-12500); 0; 0; 0; 0; 0; 0; 0; 0; 0; 0; 0; 4167; 0; 4167; 0];
    [0; 0; 0; 0; 0; 0; 0; 0; 0; 0; 16667; 0; 0; 0; 0; 0; 0; 0; 0; 0; 0; 0; 0; 0; 0; 0; 0; 0; 0; 0];
    [0; 0; 0; 0; 0; 0; 0; 0; 0; 0; (-1000000); 0; 0; 0; (-2500000); 0; 0; 0; 0; 0; 0; 0; 0; 0; 0; 0; (-500000); (-1000000); 1500000; 0];
    [0; 0; 0; 0; 0; 0; 0; 0; 0; 0; 0; 0; 0; 0; 16667; 0; 0; 0; 0; 0; 0; 0; 0; 0; 0; 0; 0; 0; 0; 0]])) = true.
Proof. vm_compute; reflexivity. Qed.
Example net_1 : mnear 6 (mat 38 3 (net (arrv (qs 1 [0; 525; 0; 0; 0; 486; 525; 506; 506; 126; 300; 1; 300; 300; 300; 300; 1; 300; 300; 300; 30000; 30000; 30000; 30000; 30000; 30000; 30000; 30000; 30000; 30000])) (arrv (qs 1 [486; (-525); 506; 506; 126; 486; 525; 506; 506; 126; 300; 1; 300; 300; 300; 300; 1; 300; 300; 300; 30000; 30000; 30000; 30000; 30000; 30000; 30000; 30000; 30000; 30000])) (fun _ _ => q0) (map Z.to_nat [13; 14; 15; 16; 17; 18; 7; 20; 21; 22; 23; 24; 25; 26; 27; 28; 29; 30; 31; 32; 33; 34; 35; 36; 37; 10; 9; 2; 0; 5]) (qs 100 [48600; 24400; 26200; 50600; 12600; 29900; 1; 54300; 29900; 29900; 30100; 200; 5700; 30100; 30100; 3000000; 3024400; 2975600; 3000000; 3000000; 3000000; 2975600; 3024400; 3000000; 3000000; 24400; 28100; 201; 1; 2]) 30 38)) (qm 100 [[1; 0; 0];
    [0; 0; 0];
    [201; 0; 0];
    [0; 0; 0];
    [0; 0; 0];
    [2; 0; 0];
    [0; 0; 0];
    [1; 0; 0];
    [0; 0; 0];
    [24400; 100; 0];
    [(-24400); 0; 0];
    [0; 0; 0];
    [0; 0; 0];
    [0; 0; 0];
    [28100; 0; 0];
    [24400; 0; 0];
    [0; 0; 0];
    [0; 0; 0];
    [100; 0; 0];
    [100; 0; 0];
    [(-24300); 0; 0];
    [100; 0; 0];
    [100; 0; 0];
    [(-100); 0; 0];
    [(-100); 0; 0];
    [24300; 0; 0];
    [(-100); 0; 0];
    [(-100); 0; 0];
    [0; 0; 0];
    [(-24400); 0; 0];
    [24400; 0; 0];
    [0; 0; 0];
    [0; 0; 0];
    [0; 0; 0];
    [24400; 0; 0];
    [(-24400); 0; 0];
    [0; 0; 0];
    [0; 0; 0]]) = true.
Proof. vm_compute; reflexivity. Qed.
Example net_loop_1 : mnear 6 (mat 38 3 (net_loop (arrv (qs 1 [0; 525; 0; 0; 0; 486; 525; 506; 506; 126; 300; 1; 300; 300; 300; 300; 1; 300; 300; 300; 30000; 30000; 30000; 30000; 30000; 30000; 30000; 30000; 30000; 30000])) (arrv (qs 1 [486; (-525); 506; 506; 126; 486; 525; 506; 506; 126; 300; 1; 300; 300; 300; 300; 1; 300; 300; 300; 30000; 30000; 30000; 30000; 30000; 30000; 30000; 30000; 30000; 30000])) (fun _ _ => q0) (map Z.to_nat [13; 14; 15; 16; 17; 18; 7; 20; 21; 22; 23; 24; 25; 26; 27; 28; 29; 30; 31; 32; 33; 34; 35; 36; 37; 10; 9; 2; 0; 5]) (qs 100 [48600; 24400; 26200; 50600; 12600; 29900; 1; 54300; 29900; 29900; 30100; 200; 5700; 30100; 30100; 3000000; 3024400; 2975600; 3000000; 3000000; 3000000; 2975600; 3024400; 3000000; 3000000; 24400; 28100; 201; 1; 2]) 30 38)) (qm 100 [[1; 0; 0];
    [0; 0; 0];
    [201; 0; 0];
    [0; 0; 0];
    [0; 0; 0];
    [2; 0; 0];
    [0; 0; 0];
    [1; 0; 0];
    [0; 0; 0];
    [24400; 100; 0];
    [(-24400); 0; 0];
    [0; 0; 0];
    [0; 0; 0];
    [0; 0; 0];
    [28100; 0; 0];
    [24400; 0; 0];
    [0; 0; 0];
    [0; 0; 0];
    [100; 0; 0];
    [100; 0; 0];
    [(-24300); 0; 0];
    [100; 0; 0];
    [100; 0; 0];
    [(-100); 0; 0];
    [(-100); 0; 0];
    [24300; 0; 0];
    [(-100); 0; 0];
    [(-100); 0; 0];
    [0; 0; 0];
    [(-24400); 0; 0];
    [24400; 0; 0];
    [0; 0; 0];
    [0; 0; 0];
    [0; 0; 0];
    [24400; 0; 0];
    [(-24400); 0; 0];
    [0; 0; 0];
    [0; 0; 0]]) = true.
Proof. vm_compute; reflexivity. Qed.
Example tm2_1 : okd (tm2 (lp_nls 200 [(0, 1); (1, 2); (2, 3); (3, 4); (4, 0)]%nat (map Z.to_nat [1; 2; 3; 4; 0]) 0) (qm 1 [[0; 0; 0; 30000; 30000];
    [1; 0; 0; 30000; 30000];
    [2; 0; 0; 30000; 30000];
    [3; 0; 0; 30000; 30000];
    [4; 0; 0; 30000; 30000]]) [(0, 1); (1, 2); (2, 3); (3, 4); (4, 0)]%nat (qm 1 [[(-120); 300; 300];
    [(-120); 300; 300];
    [(-120); 300; 300];
    [(-120); 300; 300];
    [(-120); 300; 300]]) (qs 1 [(-120); (-120); (-120); (-120); (-120)]) (qm 1 [[(-240); 120; 0; 0; 0];
    [120; (-240); 120; 0; 0];
    [0; 120; (-240); 120; 0];
    [0; 0; 120; (-240); 0];
    [0; 0; 0; 0; 0]]) (qm 100000000 [[(-666667); (-500000); (-333333); (-166667); 0];
    [(-500000); (-1000000); (-666667); (-333333); 0];
    [(-333333); (-666667); (-1000000); (-500000); 0];
    [(-166667); (-333333); (-500000); (-666667); 0];
    [0; 0; 0; 0; 0]]) (map Z.to_nat [1; 2; 3; 4; 0]) 0 true) (fun o =>
  t_accepted o && vnear 6 (t_flow o) (qs 1 [0; 0; 0; 0; 0]) && mnear 6 (t_ZB o) (qm 100000000 [[(-666667); (-500000); (-333333); (-166667); 0];
    [(-500000); (-1000000); (-666667); (-333333); 0];
    [(-333333); (-666667); (-1000000); (-500000); 0];
    [(-166667); (-333333); (-500000); (-666667); 0];
    [0; 0; 0; 0; 0]]) && mnear 6 (t_BB o) (qm 1 [[(-240); 120; 0; 0; 0];
    [120; (-240); 120; 0; 0];
    [0; 120; (-240); 120; 0];
    [0; 0; 120; (-240); 0];
    [0; 0; 0; 0; 0]]) && mnear 6 (t_BN o) (qm 1 [[0; 0; 0; 30000; 30000];
    [1; 0; 0; 30000; 30000];
    [2; 0; 0; 30000; 30000];
    [3; 0; 0; 30000; 30000];
    [4; 0; 0; 30000; 30000]])) = true.
Proof. vm_compute; reflexivity. Qed.
Example tm2_2 : okd (tm2 (lp_nls 200 [(0, 1); (1, 2); (2, 3); (3, 4); (4, 0)]%nat (map Z.to_nat [1; 2; 3; 4; 0]) 0) (qm 1 [[0; 2591; 432; 30000; 30000];
    [1; 2591; (-162); 30000; 30000];
    [2; 2591; 814; 30000; 30000];
    [3; 2591; 414; 30000; 30000];
    [4; 2591; 314; 30000; 30000]]) [(0, 1); (1, 2); (2, 3); (3, 4); (4, 0)]%nat (qm 1 [[(-120); 300; 300];
    [(-120); 300; 300];
    [(-120); 300; 300];
    [(-120); 300; 300];
    [(-120); 300; 300]]) (qs 1 [(-120); (-120); (-120); (-120); (-120)]) (qm 1 [[(-240); 120; 0; 0; 0];
    [120; (-240); 120; 0; 0];
    [0; 120; (-240); 120; 0];
    [0; 0; 120; (-240); 0];
    [0; 0; 0; 0; 0]]) (qm 100000000 [[(-666667); (-500000); (-333333); (-166667); 0];
    [(-500000); (-1000000); (-666667); (-333333); 0];
    [(-333333); (-666667); (-1000000); (-500000); 0];
    [(-166667); (-333333); (-500000); (-666667); 0];
    [0; 0; 0; 0; 0]]) (map Z.to_nat [1; 2; 3; 4; 0]) 0 true) (fun o =>
  t_accepted o && vnear 3 (t_flow o) (qs 1000000 [70774475; (-91225540); (-24423101); 9552584; 35321579]) && mnear 6 (t_ZB o) (qm 100000000 [[(-666667); (-500000); (-333333); (-166667); 0];
    [(-500000); (-1000000); (-666667); (-333333); 0];
    [(-333333); (-666667); (-1000000); (-500000); 0];
    [(-166667); (-333333); (-500000); (-666667); 0];
    [0; 0; 0; 0; 0]]) && mnear 6 (t_BB o) (qm 1 [[(-240); 120; 0; 0; 0];
    [120; (-240); 120; 0; 0];
    [0; 120; (-240); 120; 0];
    [0; 0; 120; (-240); 0];
    [0; 0; 0; 0; 0]]) && mnear 5 (t_BN o) (qm 1000000 [[0; 35452888; 0; 30000000000; 30000000000];
    [1000000; (-162000000); 0; 30000000000; 30000000000];
    [2000000; 66802429; 0; 30000000000; 30000000000];
    [3000000; 33975685; 0; 30000000000; 30000000000];
    [4000000; 25768997; 0; 30000000000; 30000000000]])) = true.
Proof. vm_compute; reflexivity. Qed.
Example tm2_3 : okd (tm2 (lp_nls 200 [(0, 1); (1, 2); (2, 3); (3, 4); (4, 0)]%nat (map Z.to_nat [1; 2; 3; 4; 0]) 0) (qm 1 [[0; 0; 0; 30000; 30000];
    [1; 0; 0; 30000; 30000];
    [2; 0; 0; 30000; 30000];
    [3; 0; 0; 30000; 30000];
    [4; 0; 0; 30000; 30000]]) [(0, 1); (1, 2); (2, 3); (3, 4); (4, 0)]%nat (qm 1 [[(-120); 300; 300];
    [(-120); 300; 300];
    [(-120); 300; 300];
    [(-120); 300; 300];
    [(-120); 300; 300]]) (qs 1 [(-120); (-120); (-120); (-120); (-120)]) (qm 1 [[(-240); 120; 0; 0; 0];
    [120; (-240); 120; 0; 0];
    [0; 120; (-240); 120; 0];
    [0; 0; 120; (-240); 0];
    [0; 0; 0; 0; 0]]) (qm 100000000 [[(-666667); (-500000); (-333333); (-166667); 0];
    [(-500000); (-1000000); (-666667); (-333333); 0];
    [(-333333); (-666667); (-1000000); (-500000); 0];
    [(-166667); (-333333); (-500000); (-666667); 0];
    [0; 0; 0; 0; 0]]) (map Z.to_nat [1; 2; 3; 4; 0]) 0 true) (fun o =>
  t_accepted o && vnear 6 (t_flow o) (qs 1 [0; 0; 0; 0; 0]) && mnear 6 (t_ZB o) (qm 100000000 [[(-666667); (-500000); (-333333); (-166667); 0];
    [(-500000); (-1000000); (-666667); (-333333); 0];
    [(-333333); (-666667); (-1000000); (-500000); 0];
    [(-166667); (-333333); (-500000); (-666667); 0];
    [0; 0; 0; 0; 0]]) && mnear 6 (t_BB o) (qm 1 [[(-240); 120; 0; 0; 0];
    [120; (-240); 120; 0; 0];
    [0; 120; (-240); 120; 0];
    [0; 0; 120; (-240); 0];
    [0; 0; 0; 0; 0]]) && mnear 6 (t_BN o) (qm 1 [[0; 0; 0; 30000; 30000];
    [1; 0; 0; 30000; 30000];
    [2; 0; 0; 30000; 30000];
    [3; 0; 0; 30000; 30000];
    [4; 0; 0; 30000; 30000]])) = true.
Proof. vm_compute; reflexivity. Qed.
Example tm2_4 : okd (tm2 (lp_nls 200 [(0, 1); (1, 2); (2, 3); (3, 4); (4, 0)]%nat (map Z.to_nat [1; 2; 3; 4; 0]) 0) (qm 1 [[0; 2540; 845; 30000; 30000];
    [1; 2540; 620; 30000; 30000];
    [2; 2540; (-40); 30000; 30000];
    [3; 2540; 668; 30000; 30000];
    [4; 2540; 495; 30000; 30000]]) [(0, 1); (1, 2); (2, 3); (3, 4); (4, 0)]%nat (qm 1 [[(-120); 300; 300];
    [(-120); 300; 300];
    [(-120); 300; 300];
    [(-120); 300; 300];
    [(-120); 300; 300]]) (qs 1 [(-120); (-120); (-120); (-120); (-120)]) (qm 1 [[(-240); 120; 0; 0; 0];
    [120; (-240); 120; 0; 0];
    [0; 120; (-240); 120; 0];
    [0; 0; 120; (-240); 0];
    [0; 0; 0; 0; 0]]) (qm 100000000 [[(-666667); (-500000); (-333333); (-166667); 0];
    [(-500000); (-1000000); (-666667); (-333333); 0];
    [(-333333); (-666667); (-1000000); (-500000); 0];
    [(-166667); (-333333); (-500000); (-666667); 0];
    [0; 0; 0; 0; 0]]) (map Z.to_nat [1; 2; 3; 4; 0]) 0 true) (fun o =>
  t_accepted o && vnear 4 (t_flow o) (qs 1000000 [10876714; 20313547; (-19686455); (-9519026); (-1984780)]) && mnear 6 (t_ZB o) (qm 100000000 [[(-666667); (-500000); (-333333); (-166667); 0];
    [(-500000); (-1000000); (-666667); (-333333); 0];
    [(-333333); (-666667); (-1000000); (-500000); 0];
    [(-166667); (-333333); (-500000); (-666667); 0];
    [0; 0; 0; 0; 0]]) && mnear 6 (t_BB o) (qm 1 [[(-240); 120; 0; 0; 0];
    [120; (-240); 120; 0; 0];
    [0; 120; (-240); 120; 0];
    [0; 0; 120; (-240); 0];
    [0; 0; 0; 0; 0]]) && mnear 6 (t_BN o) (qm 1000000 [[0; 12861491; 0; 30000000000; 30000000000];
    [1000000; 9436834; 0; 30000000000; 30000000000];
    [2000000; (-40000000); 0; 30000000000; 30000000000];
    [3000000; 10167428; 0; 30000000000; 30000000000];
    [4000000; 7534246; 0; 30000000000; 30000000000]])) = true.
Proof. vm_compute; reflexivity. Qed.
Example tm2_5 : okd (tm2 (lp_nls 200 [(0, 1); (1, 2); (2, 3); (3, 4); (4, 0)]%nat (map Z.to_nat [1; 2; 3; 4; 0]) 0) (qm 1 [[0; 2645; 760; 30000; 30000];
    [1; 2645; 748; 30000; 30000];
    [2; 2645; 264; 30000; 30000];
    [3; 2645; (-4); 30000; 30000];
    [4; 2645; 760; 30000; 30000]]) [(0, 1); (1, 2); (2, 3); (3, 4); (4, 0)]%nat (qm 1 [[(-60); 150; 150];
    [(-120); 300; 300];
    [(-60); 150; 150];
    [(-120); 300; 300];
    [(-120); 300; 300]]) (qs 1 [(-120); (-120); (-120); (-120); (-120)]) (qm 1 [[(-240); 120; 0; 0; 0];
    [120; (-240); 120; 0; 0];
    [0; 120; (-240); 120; 0];
    [0; 0; 120; (-240); 0];
    [0; 0; 0; 0; 0]]) (qm 100000000 [[(-666667); (-500000); (-333333); (-166667); 0];
    [(-500000); (-1000000); (-666667); (-333333); 0];
    [(-333333); (-666667); (-1000000); (-500000); 0];
    [(-166667); (-333333); (-500000); (-666667); 0];
    [0; 0; 0; 0; 0]]) (map Z.to_nat [1; 2; 3; 4; 0]) 0 true) (fun o =>
  t_accepted o && vnear 5 (t_flow o) (qs 1000000 [(-111036); 1070639; 1487700; (-2512300); (-1311668)]) && mnear 6 (t_ZB o) (qm 100000000 [[(-666667); (-500000); (-333333); (-166667); 0];
    [(-500000); (-1000000); (-666667); (-333333); 0];
    [(-333333); (-666667); (-1000000); (-500000); 0];
    [(-166667); (-333333); (-500000); (-666667); 0];
    [0; 0; 0; 0; 0]]) && mnear 6 (t_BB o) (qm 1 [[(-240); 120; 0; 0; 0];
    [120; (-240); 120; 0; 0];
    [0; 120; (-240); 120; 0];
    [0; 0; 120; (-240); 0];
    [0; 0; 0; 0; 0]]) && mnear 6 (t_BN o) (qm 1000000 [[0; 1200632; 0; 30000000000; 30000000000];
    [1000000; 1181675; 0; 30000000000; 30000000000];
    [2000000; 417062; 0; 30000000000; 30000000000];
    [3000000; (-4000000); 0; 30000000000; 30000000000];
    [4000000; 1200632; 0; 30000000000; 30000000000]])) = true.
Proof. vm_compute; reflexivity. Qed.
