(** Specification vocabulary for the linear program. *)
From Verif Require Import Base Sums LoadModel LoadSpec NetSpec LpModel.
Open Scope Z_scope.

(** The solution a basis stands for: the basic variables have the values BS, all
    others are 0. *)
Definition basic_value (M : nat) (s : sx) (k : nat) : Qc :=
  qs M (fun i => if Nat.eqb (nth i (s_IBAS s) 0%nat) k then vget (s_BS s) i else q0).

(** The states an execution of [linp] passes through. *)
Inductive passes (M N1 : nat) (A : arr2) (XOBI1 : arr1) (b : list Qc) : sx -> sx -> Prop :=
| passes_here s : passes M N1 A XOBI1 b s s
| passes_more s s1 s2 : passes M N1 A XOBI1 b s s1 -> linp_pass M N1 A XOBI1 b s1 = Ok (inl s2) -> passes M N1 A XOBI1 b s s2.
Definition visits (d : lpdata) (s : sx) : Prop :=
  passes (d_M d) (d_N1 d) (d_A d) (d_XOBI1 d) (d_BS d) (linp_start (d_M d) (d_XOBI0 d) (d_IBAS d) (d_BS d)) s.

(** No number the tests with tolerances look at is between 0 and the tolerance: the
    entries of the columns in terms of the current basis, and the basic values. *)
Definition well_scaled (d : lpdata) : Prop := forall s, visits d s ->
  (forall k i, (k < d_N1 d)%nat -> (i < d_M d)%nat ->
     let p := qs (d_M d) (fun j => Qcmult (mget (s_TAB s) i j) (d_A d j k)) in (p <= q0)%Qc \/ (qq 1 10000000 < p)%Qc) /\
  (forall i, (i < d_M d)%nat -> vget (s_BS s) i = q0 \/ (qq 1 10000000000000 <= qabs (vget (s_BS s) i))%Qc).

(** A program in the form [linp] expects: the first basis is the identity, the right
    sides and the costs are not negative. *)
Record lp_ok (d : lpdata) : Prop := mkLpOk {
  lo_M : (0 < d_M d)%nat;
  lo_len : length (d_IBAS d) = d_M d; lo_nodup : NoDup (d_IBAS d);
  lo_range : forall k, In k (d_IBAS d) -> (k < d_N d)%nat;
  lo_BS : length (d_BS d) = d_M d; lo_N1 : (d_N1 d <= d_N d)%nat;
  lo_unit : forall i j, (i < d_M d)%nat -> (j < d_M d)%nat -> d_A d i (nth j (d_IBAS d) 0%nat) = if Nat.eqb i j then q1 else q0;
  lo_rhs : forall i, (i < d_M d)%nat -> (q0 <= vget (d_BS d) i)%Qc;
  lo_cost0 : forall k, (q0 <= d_XOBI0 d k)%Qc;
  lo_cost1 : forall k, (q0 <= d_XOBI1 d k)%Qc }.

(** The objective of the second phase: artificial variables (from N1 on) keep their cost
    of the first. *)
Definition cost2 (d : lpdata) (k : nat) : Qc := if (k <? d_N1 d)%nat then d_XOBI1 d k else d_XOBI0 d k.
(** y satisfies the constraints, without artificial variables. *)
Definition feasible (d : lpdata) (y : nat -> Qc) : Prop :=
  (forall k, (k < d_N1 d)%nat -> (q0 <= y k)%Qc) /\
  (forall i, (i < d_M d)%nat -> qs (d_N1 d) (fun k => Qcmult (d_A d i k) (y k)) = vget (d_BS d) i).

(** ** The dispatch problem the program stands for *)
Open Scope Qc_scope.
(** Angles T (zero at the reference), injections g of the areas and line flows: the
    network equations hold; lines are within their capacities, areas within their import
    and export limits; an area with a surplus (column 2 of BN) gives between nothing and
    all of it, an area with a deficit takes between all of it and nothing. *)
Record dispatch (n NR : nat) (LP : list (nat * nat)) (BLP BN : list (list Qc)) (T g flow : nat -> Qc) : Prop := mkDispatch {
  dp_ref : T NR = q0;
  dp_flow : forall k, (k < length LP)%nat -> flow k = (T (fst (nth k LP (0%nat, 0%nat))) - T (snd (nth k LP (0%nat, 0%nat)))) * mget BLP k 0;
  dp_inj : forall i, (i < n)%nat -> net_outflow LP flow i = g i;
  dp_lines : forall k, (k < length LP)%nat -> within (flow k) (mget BLP k 1) (mget BLP k 2);
  dp_areas : forall i, (i < n)%nat -> within (- g i) (mget BN i 3) (mget BN i 4);
  dp_range : forall i, (i < n)%nat -> qmin (mget BN i 2) q0 <= g i <= qmax (mget BN i 2) q0 }.
(** What is not delivered to an area. *)
Definition unserved (BN : list (list Qc)) (g : nat -> Qc) (i : nat) : Qc := g i - qmin (mget BN i 2) q0.
Definition total_unserved (n : nat) (BN : list (list Qc)) (g : nat -> Qc) : Qc :=
  qs n (fun i => if qleb (mget BN i 2) q0 then unserved BN g i else q0).
(** The sum of all variables of the program for a dispatch: what the tolerance is
    multiplied with. *)
Definition lp_size (n : nat) (LP : list (nat * nat)) (BLP BN : list (list Qc)) (T : nat -> Qc) : Qc :=
  qs n (fun i => qabs (T i)) + qs n (fun i => qabs (mget BN i 2)) + qs (length LP) (fun k => mget BLP k 1 + mget BLP k 2) +
  qs n (fun i => mget BN i 3 + mget BN i 4).

(** What the branch returns: FLOW and the new rows BN', for angles T, injections g and an
    amount e of every area that is not accounted for (the artificial variables: e adds to
    what a deficit area does not get, and is absorbed in the others).  The area first in
    the order LT is stored with the wrong sign (net.py: [k > N - M] instead of >=). *)
Record congested (n NR m : nat) (LT : list nat) (LP : list (nat * nat)) (BLP BN : list (list Qc)) (FLOW : list Qc) (BN' : list (list Qc)) (T g e : nat -> Qc) : Prop := mkCongested {
  cg_len : length FLOW = length LP;
  cg_ref : T NR = q0;
  cg_flow : forall k, (k < length LP)%nat -> vget FLOW k = (T (fst (nth k LP (0%nat, 0%nat))) - T (snd (nth k LP (0%nat, 0%nat)))) * mget BLP k 0;
  cg_inj : forall i, (i < n)%nat -> net_outflow LP (vget FLOW) i = g i + (if qltb (mget BN i 2) q0 then e i else - e i);
  cg_lines : forall k, (k < length LP)%nat -> within (vget FLOW k) (mget BLP k 1) (mget BLP k 2);
  cg_areas : forall i, (i < n)%nat -> within (- net_outflow LP (vget FLOW) i) (mget BN i 3) (mget BN i 4);
  cg_range : forall i, (i < n)%nat -> qmin (mget BN i 2) q0 <= g i <= qmax (mget BN i 2) q0;
  cg_slack : forall i, (i < n)%nat -> q0 <= e i;
  cg_shape : shape n m BN';
  cg_stored : forall i, (i < n)%nat -> i <> nth 0 LT 0%nat -> mget BN' i 1 = g i /\ mget BN' i 2 = if qltb (mget BN i 2) q0 then unserved BN g i else q0;
  cg_first : let i := nth 0 LT 0%nat in mget BN' i 1 = qmin (mget BN i 2) q0 + qmin (mget BN i 2) q0 - g i /\ mget BN' i 2 = q0;
  cg_keep : forall i c, (i < n)%nat -> (c < m)%nat -> c <> 1%nat -> c <> 2%nat -> mget BN' i c = mget BN i c }.

(** ** Runs of the solver *)
(** The state after [n] passes, if the solver has not stopped before. *)
Fixpoint after (d : lpdata) (n : nat) : option sx :=
  match n with
  | O => Some (linp_start (d_M d) (d_XOBI0 d) (d_IBAS d) (d_BS d))
  | S n' => match after d n' with
            | Some s => match linp_pass (d_M d) (d_N1 d) (d_A d) (d_XOBI1 d) (d_BS d) s with Ok (inl s') => Some s' | _ => None end
            | None => None
            end
  end.
(** The objective of the phase a state is in, for its basic solution. *)
Definition objective (d : lpdata) (s : sx) : Qc :=
  qs (d_N d) (fun k => (if s_PH2 s then cost2 d k else d_XOBI0 d k) * basic_value (d_M d) s k).
