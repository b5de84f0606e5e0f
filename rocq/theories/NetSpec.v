(** Specification vocabulary for the network.  Nothing here is used by the model. *)
From Verif Require Import Base Sums LoadSpec.
Open Scope Z_scope.

(** A line: its two ends and its admittance. *)
Definition wline := ((nat * nat) * Qc)%type.
Definition lfrom (l : wline) : nat := fst (fst l).
Definition lto (l : wline) : nat := snd (fst l).
Definition ladm (l : wline) : Qc := snd l.

(** The line joins areas [i] and [j] (in either direction); the line ends at [i]. *)
Definition joins (l : wline) (i j : nat) : bool :=
  (Nat.eqb (lfrom l) i && Nat.eqb (lto l) j) || (Nat.eqb (lfrom l) j && Nat.eqb (lto l) i).
Definition ends_at (l : wline) (i : nat) : bool := Nat.eqb (lfrom l) i || Nat.eqb (lto l) i.

(** Total admittance of the lines satisfying [p]. *)
Definition adm_of (p : wline -> bool) (ls : list wline) : Qc := qsum (map ladm (filter p ls)).

(** The network matrix of a list of lines (its weighted Laplacian). *)
Definition lap (ls : list wline) (i j : nat) : Qc :=
  if Nat.eqb i j then adm_of (fun l => ends_at l i) ls else Qcopp (adm_of (fun l => joins l i j) ls).

(** Lines between distinct areas among [n]. *)
Definition lines_in (n : nat) (LP : list (nat * nat)) : Prop :=
  forall l, In l LP -> (fst l < n)%nat /\ (snd l < n)%nat /\ fst l <> snd l.

(** [order_ok n NR LT]: LT lists the areas 0..n-1 without repetition, the
    reference NR last. *)
Definition order_ok (n NR : nat) (LT : list nat) : Prop :=
  length LT = n /\ NoDup LT /\ (forall a, In a LT -> (a < n)%nat) /\ (0 < n)%nat /\ nth (n - 1) LT 0%nat = NR.

(** Square-matrix notions on the leading n x n block. *)
Definition is_inverse (n : nat) (A Z : nat -> nat -> Qc) : Prop :=
  forall i j, (i < n)%nat -> (j < n)%nat ->
    qs n (fun k => Qcmult (A i k) (Z k j)) = if Nat.eqb i j then q1 else q0.
Definition symmetric (n : nat) (A : nat -> nat -> Qc) : Prop :=
  forall i j, (i < n)%nat -> (j < n)%nat -> A i j = A j i.

(** Areas connected by lines with a non-zero admittance. *)
Inductive connected (ls : list wline) : nat -> nat -> Prop :=
| conn_refl i : connected ls i i
| conn_step i j k : connected ls i j ->
    (exists l, In l ls /\ ladm l <> q0 /\ joins l j k = true) -> connected ls i k.
Definition network_connected (n NR : nat) (ls : list wline) : Prop :=
  forall i, (i < n)%nat -> connected ls i NR.

(** Net power leaving area [i] over the lines when line [k] carries [flow k] from its
    first to its second end. *)
Definition net_outflow (LP : list (nat * nat)) (flow : nat -> Qc) (i : nat) : Qc :=
  qs (length LP) (fun k => Qcminus
    (if Nat.eqb (fst (nth k LP (0%nat, 0%nat))) i then flow k else q0)
    (if Nat.eqb (snd (nth k LP (0%nat, 0%nat))) i then flow k else q0)).

(** Total surplus and total deficit of a vector of injections. *)
Definition surplus (INJ : list Qc) : Qc := qsum (map (fun e => qmax e q0) INJ).
Definition deficit (INJ : list Qc) : Qc := qsum (map (fun e => qmax (Qcopp e) q0) INJ).

(** The flow lies between minus the backward and the forward limit. *)
Definition within (f fwd bwd : Qc) : Prop := Qcle (Qcopp bwd) f /\ Qcle f fwd.

Open Scope Qc_scope.
(** The lines with the admittances of the first column of BLP. *)
Definition wlines (LP : list (nat * nat)) (BLP : list (list Qc)) : list wline := combine LP (mcol BLP 0).

Definition distinct_ends (LP : list (nat * nat)) : Prop := forall l, In l LP -> fst l <> snd l.

Definition areas_numbered (n : nat) (BN : list (list Qc)) : Prop :=
  length BN = n /\ forall i, (i < n)%nat -> mget BN i 0 = qz (Z.of_nat i).

(** [zero_border n Z]: the last row and column of the n x n matrix are zero (the
    reference area's, as [tm1] leaves them). *)
Definition zero_border (n : nat) (Z : list (list Qc)) : Prop :=
  forall a, (a < n)%nat -> mget Z a (n - 1) = q0 /\ mget Z (n - 1) a = q0.

(** The network state of an hour, as data: [n] areas, reference [NR], order [LT],
    lines [LP] with base admittances [BLP0] and state rows [BLP]. *)
Record state_ok (n NR : nat) (LT : list nat) (LP : list (nat * nat)) (BLP : list (list Qc)) (BLP0 : list Qc) : Prop := mkStateOk {
  so_order : order_ok n NR LT;
  so_lines : lines_in n LP;
  so_len : length BLP = length LP;
  so_len0 : length BLP0 = length LP;
  so_adm : forall k, (k < length LP)%nat -> vget BLP0 k < q0 /\ mget BLP k 0 <= q0;
  so_ref : forall k, (k < length LP)%nat -> fst (nth k LP (0%nat, 0%nat)) = NR \/ snd (nth k LP (0%nat, 0%nat)) = NR -> mget BLP k 0 <> q0;
  so_conn : network_connected n NR (wlines LP BLP) }.

(** The network matrix without the reference area, rows and columns in the order LT. *)
Definition reduced (LT : list nat) (ls : list wline) (a b : nat) : Qc := lap ls (nth a LT 0%nat) (nth b LT 0%nat).

(** The base matrices, as [tm1] leaves them. *)
Record base_ok (n : nat) (LT : list nat) (LP : list (nat * nat)) (BLP0 : list Qc) (BB ZB : list (list Qc)) : Prop := mkBaseOk {
  bo_BB : shape n n BB;
  bo_ZB : shape n n ZB;
  bo_border : zero_border n ZB;
  bo_inv : is_inverse (n - 1) (reduced LT (combine LP BLP0)) (mget ZB) }.

(** A direct-current solution: angles (zero at the reference) whose flows deliver
    the injection [inj i] of every area. *)
Definition dc_solution (n NR : nat) (LP : list (nat * nat)) (adm : nat -> Qc) (inj : nat -> Qc) (flow : nat -> Qc) : Prop :=
  exists T : nat -> Qc, T NR = q0 /\
    (forall k, (k < length LP)%nat -> flow k = (T (fst (nth k LP (0%nat, 0%nat))) - T (snd (nth k LP (0%nat, 0%nat)))) * adm k) /\
    (forall i, (i < n)%nat -> net_outflow LP flow i = inj i).

(** [inv] returns inverses of square matrices (the contract of [np.linalg.inv]). *)
Definition inv_ok (inv : list (list Qc) -> option (list (list Qc))) : Prop :=
  forall m M Z, shape m m M -> inv M = Some Z -> shape m m Z /\ is_inverse m (mget M) (mget Z).

(** Line k in the state sampled for it (states are numbered from 1; the table holds
    admittance, forward and backward capacity of state 1, then of state 2, ...), with
    the capacity multipliers of the hour. *)
Definition state_base (LNSTAT : list Z) (k : nat) : nat := 3 * (Z.to_nat (zget LNSTAT k) - 1).
Definition state_adm (BLPA : list (list Qc)) (LNSTAT : list Z) (k : nat) : Qc := mget BLPA k (state_base LNSTAT k).
Definition state_fwd (BLPA STMULT : list (list Qc)) (LNSTAT : list Z) (k : nat) : Qc :=
  mget BLPA k (state_base LNSTAT k + 1) * mget STMULT k 0.
Definition state_bwd (BLPA STMULT : list (list Qc)) (LNSTAT : list Z) (k : nat) : Qc :=
  mget BLPA k (state_base LNSTAT k + 2) * mget STMULT k 1.
