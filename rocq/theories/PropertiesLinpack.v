(** Property theorems C35 and C61: dense factorisation and inversion. *)
From Verif Require Import Base BaseProofs Sums LoadModel LoadSpec NetModel NetSpec MatProofs LinpackModel LinpackProofs.
Open Scope Z_scope.
Open Scope Qc_scope.

(** C35.  [nonsingular]: the only vector sent to zero is zero. *)
Definition nonsingular (N : nat) (A : list (list Qc)) : Prop :=
  forall x : nat -> Qc, (forall i, (i < N)%nat -> qs N (fun k => mget A i k * x k) = q0) -> forall i, (i < N)%nat -> x i = q0.
Theorem C35_inverse : forall N A, (0 < N)%nat -> shape N N A -> nonsingular N A ->
  let Z := linpack_inv A N in
  shape N N Z /\
  (forall i j, (i < N)%nat -> (j < N)%nat -> qs N (fun k => mget A i k * mget Z k j) = if Nat.eqb i j then q1 else q0) /\
  (forall i j, (i < N)%nat -> (j < N)%nat -> qs N (fun k => mget Z i k * mget A k j) = if Nat.eqb i j then q1 else q0).
Proof. exact linpack_inverse. Qed.
Print Assumptions C35_inverse.

(** a matrix that needs a row exchange at every step *)
Definition demo_mat : list (list Qc) := [[q0; qz 2; q1]; [qz 4; q0; q0]; [qz 2; q0; qz 3]].
Example C35_witness : shape 3 3 demo_mat /\ nonsingular 3 demo_mat /\
  linpack_inv demo_mat 3 = [[q0; qq 1 4; q0]; [qq 1 2; qq 1 12; qq (-1) 6]; [q0; qq (-1) 6; qq 1 3]].
Proof.
  split. { split; [reflexivity|]. intros [|[|[|i]]] Hi; try reflexivity; lia. }
  split; [|qcheck].
  apply (injective_of_inverse 3 _ (mget [[q0; qq 1 4; q0]; [qq 1 2; qq 1 12; qq (-1) 6]; [q0; qq (-1) 6; qq 1 3]])).
  intros [|[|[|i]]] [|[|[|j]]] Hi Hj; try lia; qcheck.
Qed.

(** C61.  INFO, the singularity indicator of the factorisation. *)
Theorem C61_info_partial : forall N A, (0 < N)%nat -> shape N N A ->
  let '(_, INFO, _) := dgefa A N in
  (INFO <> 0%nat -> ~ nonsingular N A) /\
  (INFO = 0%nat -> (exists i, (i < N)%nat /\ mget A i 0 <> q0) -> nonsingular N A).
Proof. exact dgefa_info. Qed.
Print Assumptions C61_info_partial.
(** "INFO = 0 means non-singular" is false: a zero first column also gives 0. *)
Theorem C61_zero_column_refuted : exists N A, (0 < N)%nat /\ shape N N A /\ snd (fst (dgefa A N)) = 0%nat /\ ~ nonsingular N A.
Proof.
  exists 2%nat, [[q0; q1]; [q0; qz 5]]. split; [lia|]. split. { split; [reflexivity|]. intros [|[|i]] Hi; try reflexivity; lia. }
  split; [vm_compute; reflexivity|]. apply (zero_column 2 _ 0); [lia|]. intros [|[|i]] Hi; try reflexivity; lia.
Qed.
Print Assumptions C61_zero_column_refuted.
Example C61_witness : snd (fst (dgefa demo_mat 3)) = 0%nat /\
  snd (fst (dgefa [[q1; qz 2; qz 3]; [qz 2; qz 4; qz 1]; [qz 3; qz 6; q0]] 3)) = 1%nat.
Proof. split; vm_compute; reflexivity. Qed.
