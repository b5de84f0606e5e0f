(** Specification vocabulary for IEEE 754 binary64 numbers: which rationals are
    representable, what "correctly rounded" means, sums in any order. *)
From Verif Require Import Base.
Open Scope Z_scope.

(** 2^e for any integer e *)
Definition p2 (e : Z) : Qc := if e <? 0 then Qcinv (qz (2 ^ (- e))) else qz (2 ^ e).

(** The finite binary64 numbers (IEEE 754-2008, 3.3): m * 2^e with a significand of 53
    bits and -1074 <= e <= 971.  (The sign of zero is not represented.) *)
Definition b64 (x : Qc) : Prop :=
  exists m e, Z.abs m < 2 ^ 53 /\ -1074 <= e <= 971 /\ x = Qcmult (qz m) (p2 e).

(** The largest finite binary64 number. *)
Definition max64 : Qc := qz ((2 ^ 53 - 1) * 2 ^ 971).
(** no overflow *)
Definition in_range (x : Qc) : Prop := (qabs x <= max64)%Qc.

(** [f] is a binary64 number nearest to [x] *)
Definition nearest (x f : Qc) : Prop :=
  b64 f /\ forall g, b64 g -> (qabs (Qcminus x f) <= qabs (Qcminus x g))%Qc.

(** ties to even: if another binary64 number [g] is just as near to [x], the spacing between the two
    is a power of two of which [f] is an even multiple *)
Definition ties_even (x f : Qc) : Prop :=
  forall g, b64 g -> g <> f -> qabs (Qcminus x g) = qabs (Qcminus x f) ->
    exists n e, f = Qcmult (qz (2 * n)) (p2 e) /\ (g = Qcplus f (p2 e) \/ g = Qcminus f (p2 e)).
(** correctly rounded (IEEE 754 roundTiesToEven) *)
Definition rounded (x f : Qc) : Prop := nearest x f /\ ties_even x f.

(** [x] is a whole multiple of 2^-k: data given with a limited number of binary places *)
Definition on_grid (k : Z) (x : Qc) : Prop := exists n, x = Qcmult (qz n) (p2 (- k)).

(** A way of bracketing a sum. *)
Inductive sumtree := Leaf (x : Qc) | Node (l r : sumtree).
Fixpoint leaves (t : sumtree) : list Qc :=
  match t with Leaf x => [x] | Node l r => leaves l ++ leaves r end.
Fixpoint depth (t : sumtree) : nat :=
  match t with Leaf _ => O | Node l r => S (Nat.max (depth l) (depth r)) end.
