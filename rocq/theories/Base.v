(** Basic vocabulary of the model: numbers, Python exceptions, Python arrays.

    Python/numpy floats are modelled by canonical rationals [Qc] (exact
    arithmetic, Leibniz equality); see DESIGN.md section 1. *)
From Coq Require Export List ZArith QArith Qcanon Lia Bool Arith.
Export ListNotations.
Open Scope Z_scope.

(* ------------------------------------------------------------------ *)
(** ** Exceptions as values *)

(** The ways a modelled Python call can fail to return. [OutOfFuel] is not a
    Python exception: it marks a loop that did not finish within the model's
    fuel. *)
Inductive pyerr :=
| IndexError | TypeError | ValueError | KeyError | UnboundLocalError
| ZeroDivisionError | OverflowError | AssertionError | SystemExit | OutOfFuel.

Inductive res (A : Type) := Ok (a : A) | Err (e : pyerr).
Arguments Ok {A} a.
Arguments Err {A} e.

Definition bind {A B} (m : res A) (f : A -> res B) : res B :=
  match m with Ok a => f a | Err e => Err e end.
Notation "'do' x <- m ; f" := (bind m (fun x => f))
  (at level 200, x pattern, m at level 100, f at level 200, right associativity).

Definition of_option {A} (e : pyerr) (o : option A) : res A :=
  match o with Some a => Ok a | None => Err e end.

(* ------------------------------------------------------------------ *)
(** ** Rational numbers *)

Definition qz (z : Z) : Qc := Q2Qc (inject_Z z).
Definition qq (n : Z) (d : positive) : Qc := Q2Qc (n # d).

Definition qleb (a b : Qc) : bool := Qle_bool (this a) (this b).
Definition qltb (a b : Qc) : bool := negb (Qle_bool (this b) (this a)).
Definition qeqb (a b : Qc) : bool := Qeq_bool (this a) (this b).

Definition q0 : Qc := qz 0.
Definition q1 : Qc := qz 1.

(** Python's [abs], [min], [max] on numbers. *)
Definition qabs (a : Qc) : Qc := if qltb a q0 then Qcopp a else a.
Definition qmin (a b : Qc) : Qc := if qleb a b then a else b.
Definition qmax (a b : Qc) : Qc := if qleb a b then b else a.

(** Python's [int(x)] / numpy's [astype(int)]: truncation towards zero. *)
Definition qtrunc (a : Qc) : Z := Z.quot (Qnum (this a)) (Zpos (Qden (this a))).
(** floor *)
Definition qfloor (a : Qc) : Z := Z.div (Qnum (this a)) (Zpos (Qden (this a))).

(** Python's [sum] of a sequence of numbers / integers. *)
Definition qsum (l : list Qc) : Qc := fold_right Qcplus q0 l.
Definition zsum (l : list Z) : Z := fold_right Z.add 0 l.

(** dot product (numpy [@] on two vectors) *)
Definition qdot (u v : list Qc) : Qc :=
  qsum (map (fun p => Qcmult (fst p) (snd p)) (combine u v)).

(* ------------------------------------------------------------------ *)
(** ** Python lists / one-dimensional arrays *)

(** Python index normalisation: index [i] of a sequence of length [n]. *)
Definition pyidx (n : nat) (i : Z) : option nat :=
  if (0 <=? i) && (i <? Z.of_nat n) then Some (Z.to_nat i)
  else if (i <? 0) && (- Z.of_nat n <=? i) then Some (Z.to_nat (Z.of_nat n + i))
  else None.

(** [l[i]] *)
Definition pyget {A} (l : list A) (i : Z) : res A :=
  match pyidx (length l) i with
  | Some k => of_option IndexError (nth_error l k)
  | None => Err IndexError
  end.

(** update at a natural index; no effect when out of range *)
Fixpoint upd {A} (l : list A) (n : nat) (x : A) : list A :=
  match l, n with
  | [], _ => []
  | _ :: t, O => x :: t
  | h :: t, S n' => h :: upd t n' x
  end.

(** [l[i] = x] *)
Definition pyset {A} (l : list A) (i : Z) (x : A) : res (list A) :=
  match pyidx (length l) i with
  | Some k => Ok (upd l k x)
  | None => Err IndexError
  end.

(** total accessors used where the shapes guarantee the index is valid *)
Definition vget (l : list Qc) (i : nat) : Qc := nth i l q0.
Definition mget (m : list (list Qc)) (i j : nat) : Qc := nth j (nth i m []) q0.
Definition zget (l : list Z) (i : nat) : Z := nth i l 0.
Definition zmget (m : list (list Z)) (i j : nat) : Z := nth j (nth i m []) 0.

(** in-place update [m[i,j] = x] of a two-dimensional array *)
Definition mupd {A} (m : list (list A)) (i j : nat) (x : A) : list (list A) :=
  upd m i (upd (nth i m []) j x).

(** [np.zeros(n)], [np.zeros((n,m))] *)
Definition vzeros (n : nat) : list Qc := repeat q0 n.
Definition mzeros (n m : nat) : list (list Qc) := repeat (vzeros m) n.

(** column [m[:,j]] *)
Definition mcol (m : list (list Qc)) (j : nat) : list Qc := map (fun r => nth j r q0) m.

(** [map] with the index *)
Definition mapi {A B} (f : nat -> A -> B) (l : list A) : list B :=
  map (fun p => f (fst p) (snd p)) (combine (seq 0 (length l)) l).
