(** Model of the original versions of the dense factorisation and inversion, [_dgefa] and
    [_dgedi], which work column by column.  As in LinpackModel a division by zero gives
    0 here and inf or nan in the program. *)
From Verif Require Import Base LoadModel NetModel LinpackModel.
Open Scope Z_scope.

(** dgefa.py 54-55: [A[L, K], A[K, K] = A[K, K], A[L, K]] *)
Definition swap_pivot (N : nat) (A : list (list Qc)) (K L : nat) : list (list Qc) :=
  mtab N N (fun i j => if Nat.eqb j K && Nat.eqb i L then mget A K K else if Nat.eqb j K && Nat.eqb i K then mget A L K else mget A i j).
(** dgefa.py 57-60: [T = -1.0 / A[K, K]; A[K + 1 : N, K] *= T] *)
Definition multipliers (N : nat) (A : list (list Qc)) (K : nat) : list (list Qc) :=
  let T := Qcdiv (qz (-1)) (mget A K K) in
  mtab N N (fun i j => if Nat.eqb j K && (K <? i)%nat then Qcmult (mget A i j) T else mget A i j).
(** dgefa.py 63-71: one column J *)
Definition elim_col (N : nat) (K L : nat) (A : list (list Qc)) (J : nat) : list (list Qc) :=
  let T := mget A L J in
  let A1 := if Nat.eqb L K then A
            else mtab N N (fun i j => if Nat.eqb j J && Nat.eqb i K then T else if Nat.eqb j J && Nat.eqb i L then mget A K J else mget A i j) in
  mtab N N (fun i j => if Nat.eqb j J && (K <? i)%nat then Qcplus (mget A1 i j) (Qcmult T (mget A1 i K)) else mget A1 i j).
(** dgefa.py 37-74: one pass; state (A, IPVT without its last entry, INFO) *)
Definition dgefa0_step (N : nat) (st : list (list Qc) * list nat * nat) (K : nat) : list (list Qc) * list nat * nat :=
  let '(A, IPVT, INFO) := st in
  let L := pivot_row N A K in
  if qeqb (mget A L K) q0 then (A, IPVT ++ [L], K)
  else let A1 := if Nat.eqb L K then A else swap_pivot N A K L in
       (fold_left (elim_col N K L) (seq (S K) (N - S K)) (multipliers N A1 K), IPVT ++ [L], INFO).
(** dgefa.py 5-80 [_dgefa]: (A, INFO, IPVT) *)
Definition dgefa0 (A : list (list Qc)) (N : nat) : list (list Qc) * nat * list nat :=
  let '(A1, IPVT, INFO) := fold_left (dgefa0_step N) (seq 0 (N - 1)) (A, [], 0%nat) in
  (A1, if qeqb (mget A1 (N - 1) (N - 1)) q0 then (N - 1)%nat else INFO, IPVT ++ [(N - 1)%nat]).

(** dgedi.py 118-120: [A[K, K] = 1.0 / A[K, K]; T = -A[K, K]; A[:K, K] *= T] *)
Definition inv_diag (N : nat) (A : list (list Qc)) (K : nat) : list (list Qc) :=
  let A1 := mtab N N (fun i j => if Nat.eqb j K && Nat.eqb i K then Qcdiv q1 (mget A K K) else mget A i j) in
  let T := Qcopp (mget A1 K K) in
  mtab N N (fun i j => if Nat.eqb j K && (i <? K)%nat then Qcmult (mget A1 i j) T else mget A1 i j).
(** dgedi.py 123-128: one column J *)
Definition up_col (N K : nat) (A : list (list Qc)) (J : nat) : list (list Qc) :=
  let T := mget A K J in
  let A1 := mtab N N (fun i j => if Nat.eqb j J && Nat.eqb i K then q0 else mget A i j) in
  mtab N N (fun i j => if Nat.eqb j J && (i <? S K)%nat then Qcplus (mget A1 i j) (Qcmult T (mget A1 i K)) else mget A1 i j).
(** dgedi.py 117-128 *)
Definition dgedi0_up (N : nat) (A : list (list Qc)) (K : nat) : list (list Qc) :=
  fold_left (up_col N K) (seq (S K) (N - S K)) (inv_diag N A K).
(** dgedi.py 137-139: [WORK[i] = A[i, K]; A[i, K] = 0.0] for one i *)
Definition take_work (N K : nat) (st : list (list Qc) * list Qc) (i : nat) : list (list Qc) * list Qc :=
  let '(A, WORK) := st in
  (mtab N N (fun r j => if Nat.eqb r i && Nat.eqb j K then q0 else mget A r j), upd WORK i (mget A i K)).
(** dgedi.py 140-142: one column J *)
Definition add_col (N K : nat) (WORK : list Qc) (A : list (list Qc)) (J : nat) : list (list Qc) :=
  let T := vget WORK J in
  mtab N N (fun i j => if Nat.eqb j K then Qcplus (mget A i j) (Qcmult T (mget A i J)) else mget A i j).
(** dgedi.py 134-148: state (A, WORK) *)
Definition dgedi0_down (N : nat) (IPVT : list nat) (st : list (list Qc) * list Qc) (K : nat) : list (list Qc) * list Qc :=
  let '(A1, WORK) := fold_left (take_work N K) (seq (S K) (N - S K)) st in
  let A2 := fold_left (add_col N K WORK) (seq (S K) (N - S K)) A1 in
  let L := nth K IPVT 0%nat in
  (if Nat.eqb L K then A2
   else mtab N N (fun i j => if Nat.eqb j K then mget A2 i L else if Nat.eqb j L then mget A2 i K else mget A2 i j), WORK).
(** dgedi.py 115-150 *)
Definition inverse0 (A : list (list Qc)) (N : nat) (IPVT : list nat) : list (list Qc) :=
  let A1 := fold_left (dgedi0_up N) (seq 0 N) A in
  if (N <=? 1)%nat then A1
  else fst (fold_left (dgedi0_down N IPVT) (rev (seq 0 (N - 1))) (A1, vzeros N)).
(** dgedi.py 90-108: the determinant.  The loop runs over 1..N; [IPVT[1]] does not exist
    for N = 1; [DET(1)] calls an array.  Only a zero ends the loop otherwise. *)
Definition determinant0 (A : list (list Qc)) (N : nat) : res unit :=
  match N with
  | O => Ok tt
  | 1%nat => Err IndexError
  | _ => if qeqb (mget A 1 1) q0 then Ok tt else Err TypeError
  end.
(** dgedi.py 56-150 [_dgedi] *)
Definition dgedi0 (A : list (list Qc)) (N : nat) (IPVT : list nat) (JOB : Z) : res (list (list Qc)) :=
  do _ <- (if (JOB =? 1) || (JOB =? 3) then determinant0 A N else Ok tt);
  if JOB =? 3 then Ok A else Ok (inverse0 A N IPVT).
