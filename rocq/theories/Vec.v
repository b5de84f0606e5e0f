(** Comparison with the expected values of the repository's unit tests (used by the generated
    files Vec*.v).  Each [Example] there evaluates the model on the input of one of the
    repository's tests and compares with the values that test expects: evidence that the model
    is a model of this code.  None of the property theorems depends on these files. *)
From Verif Require Import Base.
Open Scope Z_scope.

(** numpy.testing.assert_array_almost_equal with [decimal = d]: |a - b| < 1.5 * 10^-d *)
Definition near (d : positive) (a b : Qc) : bool := qltb (qabs (Qcminus a b)) (qq 3 (2 * 10 ^ d)).
Fixpoint all2 {A B} (f : A -> B -> bool) (l : list A) (m : list B) : bool :=
  match l, m with
  | [], [] => true
  | a :: l', b :: m' => f a b && all2 f l' m'
  | _, _ => false
  end.
Definition vnear (d : positive) : list Qc -> list Qc -> bool := all2 (near d).
Definition mnear (d : positive) : list (list Qc) -> list (list Qc) -> bool := all2 (vnear d).
Definition veq : list Qc -> list Qc -> bool := all2 qeqb.
Definition meq : list (list Qc) -> list (list Qc) -> bool := all2 veq.
Definition zeq : list Z -> list Z -> bool := all2 Z.eqb.
Definition zmeq : list (list Z) -> list (list Z) -> bool := all2 zeq.
Definition neq : list nat -> list nat -> bool := all2 Nat.eqb.
(** decimal literals with a common denominator *)
Definition qs (d : positive) (l : list Z) : list Qc := map (fun x => qq x d) l.
Definition qm (d : positive) (m : list (list Z)) : list (list Qc) := map (qs d) m.
Definition okd {A} (r : res A) (f : A -> bool) : bool := match r with Ok a => f a | Err _ => false end.

(** In VecData.v and VecSmall.v the comparison is made by this tactic: the file does not compile
    unless the term evaluates to [true], but nothing is left in the compiled file for [coqchk], which
    evaluates without the virtual machine and would need hours for these two. *)
Ltac agrees t := let r := eval vm_compute in t in constr_eq r true.
