(** Model of the dense inversion used by the linear program: [dgefa], [dgeco],
    [dgedi].  A is an N x N matrix (linp.py 74-77: a fresh array). *)
From Verif Require Import Base LoadModel NetModel.
Open Scope Z_scope.

(** dgefa.py 116: [np.argmax(abs(A[K:N, K])) + K] *)
Definition pivot_row (N : nat) (A : list (list Qc)) (K : nat) : nat :=
  (npargmax (map (fun i => qabs (mget A i K)) (seq K (N - K))) + K)%nat.

(** dgefa.py 124: [A[[L, K], K:] = A[[K, L], K:]] *)
Definition swap_rows (N : nat) (A : list (list Qc)) (K L : nat) : list (list Qc) :=
  mtab N N (fun i j => if (j <? K)%nat then mget A i j
                       else if Nat.eqb i L then mget A K j else if Nat.eqb i K then mget A L j else mget A i j).
(** dgefa.py 125: [A[K+1:N, K] *= -1.0 / A[K, K]] *)
Definition scale_col (N : nat) (A : list (list Qc)) (K : nat) : list (list Qc) :=
  let t := Qcdiv (qz (-1)) (mget A K K) in
  mtab N N (fun i j => if (K <? i)%nat && Nat.eqb j K then Qcmult (mget A i j) t else mget A i j).
(** dgefa.py 126: [A[K+1:N, K+1:N] += np.outer(A[K+1:N, K], A[K, K+1:N])] *)
Definition eliminate (N : nat) (A : list (list Qc)) (K : nat) : list (list Qc) :=
  mtab N N (fun i j => if (K <? i)%nat && (K <? j)%nat then Qcplus (mget A i j) (Qcmult (mget A i K) (mget A K j)) else mget A i j).

(** dgefa.py 114-129: one pass; state (A, IPVT without its last entry, INFO) *)
Definition dgefa_step (N : nat) (st : list (list Qc) * list nat * nat) (K : nat) : list (list Qc) * list nat * nat :=
  let '(A, IPVT, INFO) := st in
  let L := pivot_row N A K in
  if qeqb (mget A L K) q0 then (A, IPVT ++ [L], K)
  else let A1 := if Nat.eqb L K then A else swap_rows N A K L in
       (eliminate N (scale_col N A1 K) K, IPVT ++ [L], INFO).

(** dgefa.py 82-135: (A, INFO, IPVT) *)
Definition dgefa (A : list (list Qc)) (N : nat) : list (list Qc) * nat * list nat :=
  let '(A1, IPVT, INFO) := fold_left (dgefa_step N) (seq 0 (N - 1)) (A, [], 0%nat) in
  (A1, if qeqb (mget A1 (N - 1) (N - 1)) q0 then (N - 1)%nat else INFO, IPVT ++ [(N - 1)%nat]).

(** dgeco.py 43, 128 *)
Definition dgeco (A : list (list Qc)) (N : nat) : list (list Qc) * list nat :=
  let '(A1, _, IPVT) := dgefa A N in (A1, IPVT).

(** dgedi.py 26-34: one column of inverse(U) *)
Definition dgedi_up (N : nat) (A : list (list Qc)) (K : nat) : list (list Qc) :=
  let akk := Qcdiv q1 (mget A K K) in
  let A1 := mtab N N (fun i j => if Nat.eqb j K then if Nat.eqb i K then akk else if (i <? K)%nat then Qcmult (mget A i K) (Qcopp akk) else mget A i j
                                 else mget A i j) in
  let T := fun j => mget A1 K j in
  let A2 := mtab N N (fun i j => if Nat.eqb i K && (K <? j)%nat then q0 else mget A1 i j) in
  mtab N N (fun i j => if (i <? S K)%nat && (K <? j)%nat then Qcplus (mget A2 i j) (Qcmult (mget A2 i K) (T j)) else mget A2 i j).

(** dgedi.py 39-51: one column of inverse(U)*inverse(L) *)
Definition dgedi_down (N : nat) (IPVT : list nat) (A : list (list Qc)) (K : nat) : list (list Qc) :=
  let WORK := fun i => mget A i K in
  let A1 := mtab N N (fun i j => if (K <? i)%nat && Nat.eqb j K then q0 else mget A i j) in
  let A2 := mtab N N (fun i j => if Nat.eqb j K
                                 then Qcplus (mget A1 i K) (qsum (map (fun l => Qcmult (mget A1 i l) (WORK l)) (seq (S K) (N - S K))))
                                 else mget A1 i j) in
  let L := nth K IPVT 0%nat in
  if Nat.eqb L K then A2
  else mtab N N (fun i j => if Nat.eqb j K then mget A2 i L else if Nat.eqb j L then mget A2 i K else mget A2 i j).

(** dgedi.py 5-51 *)
Definition dgedi (A : list (list Qc)) (N : nat) (IPVT : list nat) : list (list Qc) :=
  let A1 := fold_left (dgedi_up N) (seq 0 N) A in
  fold_left (dgedi_down N IPVT) (rev (seq 0 (N - 1))) A1.

(** linp.py 74-77: factor and invert *)
Definition linpack_inv (A : list (list Qc)) (N : nat) : list (list Qc) :=
  let '(LU, IPVT) := dgeco A N in dgedi LU N IPVT.
