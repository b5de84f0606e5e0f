(** Model of [conls]: the linear program of the loss-sharing mode
    (reliabilityassessment/monte_carlo/conls.py).

    Arrays are functions of row and column as in LpModel; the result has the form
    [lpdata] that [linp] takes (XOB is the second row of XOBI, TAB the block of A). *)
From Verif Require Import Base LoadModel NetModel LinpackModel LpModel.
Open Scope Z_scope.

(** conls.py 104-113, 117-127: rows 0 .. NX.  Row NX is negated up to column 4 NX + 1 (127). *)
Definition share_row (BC : list (list Qc)) (LP : list (nat * nat)) (BLP : list (list Qc)) (IEQ : list nat) (NX NR i b : nat) : Qc :=
  if (i <? NX)%nat then
    if Nat.eqb b (2 * NX + i) || Nat.eqb b (3 * NX + 1 + i) then Qcopp q1
    else if (b <? 2 * NX)%nat then pair_col (fun c => mget BC i c) b else q0
  else
    if Nat.eqb b (3 * NX) || Nat.eqb b (4 * NX + 1) then Qcopp q1
    else if (b <? 4 * NX + 2)%nat then Qcopp (pair_col (ref_sum LP BLP IEQ NR) b) else q0.

Section CONLS.
Variables (BC : list (list Qc)) (INJ : list Qc) (NX NR : nat) (LT : list nat) (BLP : list (list Qc)) (LP : list (nat * nat)) (BN : list (list Qc)) (LOD : list Qc).
Let n : nat := S NX.                               (* NX1 *)
Let NL : nat := length BLP.
Let IEQ : list nat := ieq_of LT NX NR.             (* 90, 99-101 *)
Let M0 : nat := (3 * n + 2 * NL)%nat.
Let M : nat := (M0 + 2 * n)%nat.
Let N0 : nat := (6 * NX + 4 + 2 * NL)%nat.         (* NXL *)
Let N1 : nat := (N0 + 2 * n)%nat.

(** conls.py 104-189: A before the sign changes.  Rows: areas, curtailment (132-136),
    generation (140-144), lines forward and backward (150-174), area limits (181-189) *)
Definition shr_A (a b : nat) : Qc :=
  if (a <? n)%nat then share_row BC LP BLP IEQ NX NR a b
  else if (a <? 2 * n)%nat then
    let i := (a - n)%nat in
    if Nat.eqb b (4 * NX + 2 + i) || Nat.eqb b (2 * NX + i) then q1 else q0
  else if (a <? 3 * n)%nat then
    let i := (a - 2 * n)%nat in
    if Nat.eqb b (3 * NX + 1 + i) || Nat.eqb b (4 * NX + 2 + n + i) then q1 else q0
  else if (a <? 3 * n + NL)%nat then
    let i := (a - 3 * n)%nat in
    if Nat.eqb b (4 * NX + 2 + 2 * n + i) then q1 else if (b <? 2 * NX)%nat then line_coef LP BLP IEQ NX i b else q0
  else if (a <? M0)%nat then
    let i := (a - 3 * n - NL)%nat in
    if Nat.eqb b (4 * NX + 2 + 2 * n + NL + i) then q1 else if (b <? 2 * NX)%nat then Qcopp (line_coef LP BLP IEQ NX i b) else q0
  else if (a <? M0 + n)%nat then
    let i := (a - M0)%nat in
    if Nat.eqb b (N0 + i) then q1 else if (b <? 2 * NX)%nat then share_row BC LP BLP IEQ NX NR i b else q0
  else if (a <? M)%nat then
    let i := (a - M0 - n)%nat in
    if Nat.eqb b (N0 + n + i) then q1 else if (b <? 2 * NX)%nat then Qcopp (share_row BC LP BLP IEQ NX NR i b) else q0
  else q0.
(** conls.py 112, 125, 136, 144, 173-174, 185, 187: B; the last two kinds of rows are only
    filled when there is a column to copy (NX > 0).  The area limits are columns 3 and 4 of
    BN in this order (connls has them in the other order). *)
Definition shr_B (a : nat) : Qc :=
  if (a <? NX)%nat then Qcopp (vget LOD (nth a LT 0%nat))
  else if (a <? n)%nat then Qcopp (vget LOD NR)
  else if (a <? 2 * n)%nat then vget LOD (nth (a - n) LT 0%nat)
  else if (a <? 3 * n)%nat then Qcplus (vget LOD (nth (a - 2 * n) LT 0%nat)) (vget INJ (a - 2 * n))
  else if (a <? 3 * n + NL)%nat then mget BLP (a - 3 * n) 1
  else if (a <? M0)%nat then mget BLP (a - 3 * n - NL) 2
  else if (a <? M0 + n)%nat then if (NX =? 0)%nat then q0 else mget BN (nth (a - M0) LT 0%nat) 3
  else if (a <? M)%nat then if (NX =? 0)%nat then q0 else mget BN (nth (a - M0 - n) LT 0%nat) 4
  else q0.
(** conls.py 199-202 *)
Definition shr_clip (a : nat) : Qc := if (a <? n)%nat then qmin (shr_B a) q0 else shr_B a.
Definition shr_flip (a b : nat) : Qc := if qltb (shr_clip a) q0 && (a <? M)%nat && (b <? N1)%nat then Qcopp (shr_A a b) else shr_A a b.
Definition shr_fin (a : nat) : Qc := if (a <? M)%nat then qabs (shr_clip a) else shr_clip a.
(** conls.py 207: the artificial variables *)
Definition shr_art (a b : nat) : Qc := if (a <? n)%nat && Nat.eqb b (N1 + a) then q1 else shr_flip a b.
(** conls.py 224-236: rows NX1 .. M-1 first, then 0 .. NX1-1 *)
Definition shr_row_of (j : nat) : nat := if (j <? M - n)%nat then (j + n)%nat else (j - (M - n))%nat.
(** conls.py 129-130, 209: the objective, all curtailments *)
Definition shr_cost (b : nat) : Qc := if (2 * NX <=? b)%nat && (b <? 2 * NX + n)%nat then q1 else q0.

(** conls.py 4-240.  Writing beyond 200 rows or 250 columns raises IndexError (184-189, 207). *)
Definition conls : res lpdata :=
  if (200 <? M)%nat || (250 <? N1 + n)%nat then Err IndexError
  else Ok (mkLp M (N1 + n) N1 (fun j b => shr_art (shr_row_of j) b)
             (fun b => if (N1 <=? b)%nat && (b <? N1 + n)%nat then q1 else q0)
             (fun b => if (b <? N1)%nat then shr_cost b else q0)
             (seq (4 * NX + 2) M) (map (fun j => shr_fin (shr_row_of j)) (seq 0 M)) shr_fin shr_B).
End CONLS.
