(** Specification vocabulary for the program of the loss-sharing mode. *)
From Verif Require Import Base Sums LoadModel LoadSpec NetSpec LpModel LpSpec.
Open Scope Qc_scope.

(** Angles T (zero at the reference), load c curtailed and generation g used in every
    area, line flows: the network equations hold; what leaves an area is its generation
    and curtailment less its load; lines are within their capacities; no more is curtailed
    than the load, no more generated than the load and the surplus.
    [exp] and [imp] bound what an area gives and takes. *)
Record sharing (n NR : nat) (LP : list (nat * nat)) (BLP : list (list Qc)) (exp imp load surplus : nat -> Qc) (T c g flow : nat -> Qc) : Prop := mkSharing {
  sh_ref : T NR = q0;
  sh_flow : forall k, (k < length LP)%nat -> flow k = (T (fst (nth k LP (0%nat, 0%nat))) - T (snd (nth k LP (0%nat, 0%nat)))) * mget BLP k 0;
  sh_balance : forall i, (i < n)%nat -> net_outflow LP flow i = g i + c i - load i;
  sh_lines : forall k, (k < length LP)%nat -> within (flow k) (mget BLP k 1) (mget BLP k 2);
  sh_areas : forall i, (i < n)%nat -> within (net_outflow LP flow i) (exp i) (imp i);
  sh_curt : forall i, (i < n)%nat -> q0 <= c i <= load i;
  sh_gen : forall i, (i < n)%nat -> q0 <= g i <= load i + surplus i }.

(** The same, but the balance of an area may be off by e (the artificial variables): in the
    areas with a load e is missing in addition to what is curtailed. *)
Record nearly_sharing (n NR : nat) (LP : list (nat * nat)) (BLP : list (list Qc)) (exp imp load surplus : nat -> Qc) (T c g flow e : nat -> Qc) : Prop := mkNearly {
  ns_ref : T NR = q0;
  ns_flow : forall k, (k < length LP)%nat -> flow k = (T (fst (nth k LP (0%nat, 0%nat))) - T (snd (nth k LP (0%nat, 0%nat)))) * mget BLP k 0;
  ns_balance : forall i, (i < n)%nat -> net_outflow LP flow i = g i + c i - load i + (if qltb q0 (load i) then e i else - e i);
  ns_lines : forall k, (k < length LP)%nat -> within (flow k) (mget BLP k 1) (mget BLP k 2);
  ns_areas : forall i, (i < n)%nat -> within (net_outflow LP flow i) (exp i) (imp i);
  ns_curt : forall i, (i < n)%nat -> q0 <= c i <= load i;
  ns_gen : forall i, (i < n)%nat -> q0 <= g i <= load i + surplus i;
  ns_off : forall i, (i < n)%nat -> q0 <= e i }.

(** The sum of all variables of the program for a dispatch with angles T: what the
    tolerance is multiplied with. *)
Definition share_size (n : nat) (LP : list (nat * nat)) (BLP : list (list Qc)) (exp imp load surplus : nat -> Qc) (T : nat -> Qc) : Qc :=
  qs n (fun i => qabs (T i)) + qs n (fun i => load i + (load i + surplus i)) + qs (length LP) (fun k => mget BLP k 1 + mget BLP k 2) + qs n (fun i => exp i + imp i).
