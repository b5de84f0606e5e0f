(** Specification vocabulary of C104: an hour with stronger lines or more surplus. *)
From Verif Require Import Base Sums LoadSpec NetSpec.
Open Scope Qc_scope.

(** The second hour has the same lines in the same states, with limits
    at least as high; import and export limits of the areas at least as high; the same
    deficits, and surpluses at least as large (a balanced area may have a surplus). *)
Record eased (n : nat) (LP : list (nat * nat)) (BLP BN BLP' BN' : list (list Qc)) : Prop := mkEased {
  ea_adm : forall k, (k < length LP)%nat -> mget BLP' k 0 = mget BLP k 0;
  ea_lines : forall k, (k < length LP)%nat -> mget BLP k 1 <= mget BLP' k 1 /\ mget BLP k 2 <= mget BLP' k 2;
  ea_areas : forall i, (i < n)%nat -> mget BN i 3 <= mget BN' i 3 /\ mget BN i 4 <= mget BN' i 4;
  ea_short : forall i, (i < n)%nat -> mget BN i 2 < q0 -> mget BN' i 2 = mget BN i 2;
  ea_surplus : forall i, (i < n)%nat -> q0 <= mget BN i 2 -> mget BN i 2 <= mget BN' i 2 }.

