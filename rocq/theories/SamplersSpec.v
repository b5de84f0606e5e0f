(** What the samplers promise. *)
From Verif Require Import Base LoadModel.
Open Scope Z_scope.

(** Cumulative probabilities of the six states. *)
Record cumulative (P : list Qc) : Prop := mkCumulative {
  cu_len : length P = 6%nat;
  cu_start : (q0 <= vget P 0)%Qc;
  cu_up : forall i, (i < 5)%nat -> (vget P i <= vget P (S i))%Qc;
  cu_end : vget P 5 = q1 }.
(** The state that a random number in [0, 1) stands for: state k owns the numbers from
    the cumulative probability of the states before it up to its own, so that its share
    of the numbers is its probability. *)
Definition share (P : list Qc) (r : Qc) (k : Z) : Prop :=
  1 <= k <= 6 /\ (r < vget P (Z.to_nat (k - 1)))%Qc /\ (k = 1 \/ (vget P (Z.to_nat (k - 2)) <= r)%Qc).
