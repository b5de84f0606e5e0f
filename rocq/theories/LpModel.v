(** Model of the linear-programming branch with no loss sharing: [connls], [rm], [rc],
    [mc], [linp], [net], [_net] and tm2.py 157-180 with IOI = 0.

    Two-dimensional arrays of [connls] are functions of row and column (np.zeros: zero
    everywhere); a loop whose writes do not overlap is one definition by cases.  Numbers
    are exact rationals.  The files extra.txt and traout.txt are not modelled. *)
From Verif Require Import Base LoadModel NetModel LinpackModel.
Open Scope Z_scope.

Definition arr1 := nat -> Qc.
Definition arr2 := nat -> nat -> Qc.

(* ------------------------------------------------------------------ *)
(** ** connls *)

(** What [connls] returns: M, N, N1, A, XOBI, IBAS, BS, B, B1 (XOB is overwritten by
    [linp] at once, TAB is not used). *)
Record lpdata := mkLp { d_M : nat; d_N : nat; d_N1 : nat; d_A : arr2; d_XOBI0 : arr1; d_XOBI1 : arr1;
                        d_IBAS : list nat; d_BS : list Qc; d_B : arr1; d_B1 : arr1 }.

(** connls.py 115-118, 128-129: coefficient [x] for the first, [-x] for the second
    column of a pair *)
Definition pair_col (x : nat -> Qc) (b : nat) : Qc := if Nat.even b then x (Nat.div2 b) else Qcopp (x (Nat.div2 b)).

(** connls.py 124-129: what the lines at the reference add to column pair [c] of row NX *)
Definition ref_sum (LP : list (nat * nat)) (BLP : list (list Qc)) (IEQ : list nat) (NR c : nat) : Qc :=
  qsum (map (fun i => let '(f, t) := nth i LP (0%nat, 0%nat) in
    Qcplus (if Nat.eqb f NR && Nat.eqb (nth t IEQ 0%nat) c then mget BLP i 0 else q0)
           (if Nat.eqb t NR && Nat.eqb (nth f IEQ 0%nat) c then mget BLP i 0 else q0)) (seq 0 (length BLP))).

(** connls.py 113-120, 131-136: rows 0 .. NX.  Row NX is negated up to column 3 NX (136). *)
Definition bus_row (BC : list (list Qc)) (LP : list (nat * nat)) (BLP : list (list Qc)) (IEQ : list nat) (NX NR i b : nat) : Qc :=
  if (i <? NX)%nat then
    if Nat.eqb b (2 * NX + i) then Qcopp q1
    else if (b <? 2 * NX)%nat then pair_col (fun c => mget BC i c) b else q0
  else
    if Nat.eqb b (3 * NX) then Qcopp q1
    else if (b <? 3 * NX)%nat then Qcopp (pair_col (ref_sum LP BLP IEQ NR) b) else q0.

(** connls.py 161-181: rows of a line, [s] = 1 forward, -1 backward; ends at the reference have
    no columns *)
Definition line_coef (LP : list (nat * nat)) (BLP : list (list Qc)) (IEQ : list nat) (NX i b : nat) : Qc :=
  let '(f, t) := nth i LP (0%nat, 0%nat) in
  let J4 := nth f IEQ 0%nat in let J5 := nth t IEQ 0%nat in
  if (J5 <? NX)%nat && Nat.eqb (Nat.div2 b) J5 then (if Nat.even b then Qcopp (mget BLP i 0) else mget BLP i 0)
  else if (J4 <? NX)%nat && Nat.eqb (Nat.div2 b) J4 then (if Nat.even b then mget BLP i 0 else Qcopp (mget BLP i 0))
  else q0.

Section CONNLS.
Variables (BC : list (list Qc)) (INJB : list Qc) (NX NR : nat) (LT : list nat) (BLP : list (list Qc)) (LP : list (nat * nat)) (BN : list (list Qc)).
Let n : nat := S NX.                               (* NX1 *)
Let NL : nat := length BLP.
Let IEQ : list nat := ieq_of LT NX NR.             (* 108-110 *)
Let M0 : nat := (2 * n + 2 * NL)%nat.
Let M : nat := (M0 + 2 * n)%nat.
Let N0 : nat := (2 * NX + 2 * n + 2 * NL)%nat.     (* NXL *)
Let N1 : nat := (N0 + 2 * n)%nat.

(** INJ[i] (tm2.py 59-62) for i < NX, INJB[NR] for i = NX *)
Definition inj (i : nat) : Qc := if (i <? NX)%nat then vget INJB (nth i LT 0%nat) else vget INJB NR.

(** connls.py 113-200: A before the sign changes *)
Definition con_A (a b : nat) : Qc :=
  if (a <? n)%nat then bus_row BC LP BLP IEQ NX NR a b
  else if (a <? 2 * n)%nat then                                         (* 148-150 *)
    if Nat.eqb b (3 * NX + 1 + (a - n)) || Nat.eqb b (2 * NX + (a - n)) then q1 else q0
  else if (a <? 2 * n + NL)%nat then                                    (* 182 *)
    let i := (a - 2 * n)%nat in
    if Nat.eqb b (2 * NX + 2 * n + i) then q1 else if (b <? 2 * NX)%nat then line_coef LP BLP IEQ NX i b else q0
  else if (a <? M0)%nat then                                            (* 183 *)
    let i := (a - 2 * n - NL)%nat in
    if Nat.eqb b (2 * NX + 2 * n + NL + i) then q1 else if (b <? 2 * NX)%nat then Qcopp (line_coef LP BLP IEQ NX i b) else q0
  else if (a <? M0 + n)%nat then                                        (* 192-200 *)
    let i := (a - M0)%nat in
    if Nat.eqb b (N0 + i) then q1 else if (b <? 2 * NX)%nat then bus_row BC LP BLP IEQ NX NR i b else q0
  else if (a <? M)%nat then
    let i := (a - M0 - n)%nat in
    if Nat.eqb b (N0 + n + i) then q1 else if (b <? 2 * NX)%nat then Qcopp (bus_row BC LP BLP IEQ NX NR i b) else q0
  else q0.
(** connls.py 120, 133, 153 (NLS <> 0), 184-185, 196, 198: B; the last two kinds of rows are
    only filled when there is a column to copy (NX > 0) *)
Definition con_B (a : nat) : Qc :=
  if (a <? n)%nat then inj a
  else if (a <? 2 * n)%nat then qabs (inj (a - n))
  else if (a <? 2 * n + NL)%nat then mget BLP (a - 2 * n) 1
  else if (a <? M0)%nat then mget BLP (a - 2 * n - NL) 2
  else if (a <? M0 + n)%nat then if (NX =? 0)%nat then q0 else mget BN (nth (a - M0) LT 0%nat) 4
  else if (a <? M)%nat then if (NX =? 0)%nat then q0 else mget BN (nth (a - M0 - n) LT 0%nat) 3
  else q0.
(** connls.py 210-213 *)
Definition clip_B (a : nat) : Qc := if (a <? n)%nat then qmin (con_B a) q0 else con_B a.
Definition flip_A (a b : nat) : Qc := if qltb (clip_B a) q0 && (a <? M)%nat && (b <? N1)%nat then Qcopp (con_A a b) else con_A a b.
Definition fin_B (a : nat) : Qc := if (a <? M)%nat then qabs (clip_B a) else clip_B a.
(** connls.py 215-216: the artificial variables *)
Definition art_A (a b : nat) : Qc := if (a <? n)%nat && Nat.eqb b (N1 + a) then q1 else flip_A a b.
(** connls.py 235-245: rows NX1 .. M-1 first, then 0 .. NX1-1 *)
Definition row_of (j : nat) : nat := if (j <? M - n)%nat then (j + n)%nat else (j - (M - n))%nat.
(** connls.py 138-144, 219: the objective: areas whose injection is not positive *)
Definition cost (b : nat) : Qc :=
  if (2 * NX <=? b)%nat && (b <? 2 * NX + n)%nat && qleb (inj (b - 2 * NX)) q0 then q1 else q0.

(** connls.py 4-249.  Writing beyond 200 rows or 250 columns raises IndexError (195-200, 216). *)
Definition connls : res lpdata :=
  if (200 <? M)%nat || (250 <? N1 + n)%nat then Err IndexError
  else Ok (mkLp M (N1 + n) N1 (fun j b => art_A (row_of j) b)
             (fun b => if (N1 <=? b)%nat && (b <? N1 + n)%nat then q1 else q0)
             (fun b => if (b <? N1)%nat then cost b else q0)
             (seq (2 * NX + n) M) (map (fun j => fin_B (row_of j)) (seq 0 M)) fin_B con_B).
End CONNLS.

(* ------------------------------------------------------------------ *)
(** ** linp *)

(** rm.py 12, rc.py 15, mc.py 14 *)
Definition rm (M : nat) (CB : list Qc) (TAB : list (list Qc)) : list Qc := vtab M (fun j => qsum (map (fun i => Qcmult (vget CB i) (mget TAB i j)) (seq 0 M))).
Definition rc (M : nat) (PY : list Qc) (A : arr2) (k : nat) : Qc := qsum (map (fun i => Qcmult (vget PY i) (A i k)) (seq 0 M)).
Definition mc (M k : nat) (TAB : list (list Qc)) (A : arr2) : list Qc := vtab M (fun i => qsum (map (fun j => Qcmult (mget TAB i j) (A j k)) (seq 0 M))).

Definition TOL : Qc := qq 1 10000000.
Definition TINY : Qc := qq 1 10000000000000.

Record sx := mkSx { s_IBAS : list nat; s_IBASF : nat -> bool; s_TAB : list (list Qc); s_BS : list Qc; s_CB : list Qc; s_XOB : arr1;
                    s_IR : bool; s_PH2 : bool; s_IPIV : option nat }.

(** linp.py 56-64: the most negative reduced cost of the columns outside the basis *)
Definition scan_col (M : nat) (A : arr2) (PY : list Qc) (XOB : arr1) (IBASF : nat -> bool) (st : Qc * option nat) (i : nat) : Qc * option nat :=
  if IBASF i then st
  else let d := Qcminus (XOB i) (rc M PY A i) in
       let CC := if qltb (qabs d) TOL then q0 else d in
       if qltb (qabs (Qcminus CC (fst st))) TOL then st
       else if qltb CC (fst st) then (CC, Some i) else st.
Definition scan (M N1 : nat) (A : arr2) (PY : list Qc) (XOB : arr1) (IBASF : nat -> bool) : Qc * option nat :=
  fold_left (scan_col M A PY XOB IBASF) (seq 0 N1) (q0, None).

(** linp.py 106-117: the row that leaves; (RAT1, IPIV) *)
Definition ratio_row (P BS : list Qc) (XOB : arr1) (IBAS : list nat) (PH2 : bool) (st : option (Qc * nat)) (i : nat) : option (Qc * nat) :=
  if qltb TOL (vget P i) then
    let BNUM := if qleb TINY (qabs (vget BS i)) then vget BS i else q0 in
    let RAT := Qcdiv BNUM (vget P i) in
    match st with
    | None => Some (RAT, i)
    | Some (RAT1, IPIV) =>
        if qltb RAT RAT1 then Some (RAT, i)
        else if negb PH2 && qeqb (vget BS i) q0 && qeqb (XOB (nth i IBAS 0%nat)) q1 then Some (RAT1, i) else st
    end
  else st.
Definition ratio (M : nat) (P BS : list Qc) (XOB : arr1) (IBAS : list nat) (PH2 : bool) : option (Qc * nat) :=
  fold_left (ratio_row P BS XOB IBAS PH2) (seq 0 M) None.

(** linp.py 101-132: pivot on column [k].  IPIV keeps its old value when no row qualifies. *)
Definition pivot (M : nat) (A : arr2) (k : nat) (s : sx) : res sx :=
  let P := mc M k (s_TAB s) A in
  do p <- match ratio M P (s_BS s) (s_XOB s) (s_IBAS s) (s_PH2 s) with
          | Some r => Ok (snd r)
          | None => of_option UnboundLocalError (s_IPIV s)
          end;
  let TAB := s_TAB s in let BS := s_BS s in
  Ok (mkSx (upd (s_IBAS s) p k)
           (fun i => if Nat.eqb i k then true else if Nat.eqb i (nth p (s_IBAS s) 0%nat) then false else s_IBASF s i)
           (mtab M M (fun i j => if Nat.eqb i p then Qcdiv (mget TAB p j) (vget P p)
                                 else if qeqb (vget P i) q0 then mget TAB i j
                                 else Qcminus (mget TAB i j) (Qcdiv (Qcmult (mget TAB p j) (vget P i)) (vget P p))))
           (vtab M (fun i => if Nat.eqb i p then Qcdiv (vget BS p) (vget P p)
                             else if qeqb (vget P i) q0 then vget BS i
                             else Qcminus (vget BS i) (Qcdiv (Qcmult (vget BS p) (vget P i)) (vget P p))))
           (upd (s_CB s) p (s_XOB s k)) (s_XOB s) false (s_PH2 s) (Some p)).

(** linp.py 134-140: label 1000; [None]: leave *)
Definition next_phase (M N1 : nat) (XOBI1 : arr1) (s : sx) : option sx :=
  if s_PH2 s then None
  else let XOB := fun i => if (i <? N1)%nat then XOBI1 i else s_XOB s i in
       Some (mkSx (s_IBAS s) (s_IBASF s) (s_TAB s) (s_BS s) (map (fun i => XOB (nth i (s_IBAS s) 0%nat)) (seq 0 M)) XOB (s_IR s) true (s_IPIV s)).

(** linp.py 73-97: the basis is inverted afresh *)
Definition reinvert (M : nat) (A : arr2) (BS1 : list Qc) (s : sx) : sx :=
  let TABT := linpack_inv (mtab M M (fun i j => A i (nth j (s_IBAS s) 0%nat))) M in
  mkSx (s_IBAS s) (s_IBASF s) TABT (vtab M (fun i => qsum (map (fun j => Qcmult (mget TABT i j) (vget BS1 j)) (seq 0 M))))
       (s_CB s) (s_XOB s) true (s_PH2 s) (s_IPIV s).

(** linp.py 50-141: one pass of the outer loop; [inl]: again, [inr]: finished.  CM < 0 only
    when the scan has set IND. *)
Definition linp_pass (M N1 : nat) (A : arr2) (XOBI1 : arr1) (BS1 : list Qc) (s : sx) : res (sx + sx) :=
  let go s := match scan M N1 A (rm M (s_CB s) (s_TAB s)) (s_XOB s) (s_IBASF s) with (CM, Some k) => if qltb CM q0 then Some k else None | _ => None end in
  match go s with
  | Some k => do s' <- pivot M A k s; Ok (inl s')
  | None =>
      let s1 := if s_IR s then s else reinvert M A BS1 s in
      match (if s_IR s then None else go s1) with
      | Some k => do s' <- pivot M A k s1; Ok (inl s')
      | None => Ok (match next_phase M N1 XOBI1 s1 with Some s' => inl s' | None => inr s1 end)
      end
  end.
Fixpoint linp_loop (fuel M N1 : nat) (A : arr2) (XOBI1 : arr1) (BS1 : list Qc) (s : sx) : res sx :=
  match fuel with
  | O => Err OutOfFuel
  | S f => do r <- linp_pass M N1 A XOBI1 BS1 s;
           match r with inl s' => linp_loop f M N1 A XOBI1 BS1 s' | inr s' => Ok s' end
  end.
(** linp.py 36-48 *)
Definition linp_start (M : nat) (XOBI0 : arr1) (IBAS : list nat) (BS : list Qc) : sx :=
  mkSx IBAS (fun i => existsb (Nat.eqb i) IBAS) (mtab M M (fun i j => if Nat.eqb i j then q1 else q0)) BS
       (map (fun i => XOBI0 (nth i IBAS 0%nat)) (seq 0 M)) XOBI0 false false None.
(** linp.py 10-144: IBAS and BS afterwards *)
Definition linp (fuel : nat) (d : lpdata) : res sx :=
  linp_loop fuel (d_M d) (d_N1 d) (d_A d) (d_XOBI1 d) (d_BS d) (linp_start (d_M d) (d_XOBI0 d) (d_IBAS d) (d_BS d)).

(* ------------------------------------------------------------------ *)
(** ** net *)

(** net.py 80-86; RES is an array with three columns; [k > N - M] as in the code *)
Definition res_fill (N M : nat) (IBAS : list nat) (BS : list Qc) (RES : nat -> Qc) : nat -> Qc :=
  fold_left (fun R i k => if Nat.eqb k (nth i IBAS 0%nat) then vget BS i else R k) (seq 0 M) (fun k => if (k <? N)%nat then q0 else RES k).
Definition net (B B1 : arr1) (RES : arr2) (IBAS : list nat) (BS : list Qc) (M N : nat) : arr2 :=
  let R0 := res_fill N M IBAS BS (fun k => RES k 0%nat) in
  let R1 k := if existsb (Nat.eqb k) (firstn M IBAS) && (N - M <? k)%nat then Qcopp (R0 k) else R0 k in
  fun k c =>
    match c with
    | O => if (N - M <=? k)%nat && (k <? N)%nat then Qcplus (R1 k) (B (k - (N - M))%nat) else R1 k
    | S O => if (N - M <=? k)%nat && (k <? N)%nat && qltb (B1 (k - (N - M))%nat) q0 then q1 else if (k <? N)%nat then q0 else RES k c
    | _ => if (k <? N)%nat && (c <? 3)%nat then q0 else RES k c
    end.
(** net.py 31-48 [_net]: the loops *)
Definition set2 (A : arr2) (i j : nat) (x : Qc) : arr2 := fun a b => if Nat.eqb a i && Nat.eqb b j then x else A a b.
Definition net_loop (B B1 : arr1) (RES : arr2) (IBAS : list nat) (BS : list Qc) (M N : nat) : arr2 :=
  let NX1 := (N - M)%nat in
  let R0 := fold_left (fun R i => fold_left (fun R j => set2 R i j q0) (seq 0 3) R) (seq 0 N) RES in
  let R1 := fold_left (fun R i => let k := nth i IBAS 0%nat in
                         if (NX1 <? k)%nat then set2 R k 0 (Qcopp (vget BS i)) else set2 R k 0 (vget BS i)) (seq 0 M) R0 in
  fold_left (fun R i => let i1 := (i + NX1)%nat in
                let R' := if qltb (B1 i) q0 then set2 R i1 1 q1 else R in set2 R' i1 0 (Qcplus (R' i1 0%nat) (B i))) (seq 0 M) R1.

(* ------------------------------------------------------------------ *)
(** ** tm2.py 157-180 *)

(** tm2.py 166-175 *)
Definition store_lp (LT : list nat) (R : nat -> Qc) (NX : nat) (BN : list (list Qc)) : list (list Qc) :=
  fold_left (fun B i => let j := nth i LT 0%nat in
     let x := Qcopp (R (2 * NX + i)%nat) in
     let y := Qcplus (Qcopp (mget B j 2)) x in
     mupd (mupd B j 1 x) j 2 (if qltb y q0 then q0 else y)) (seq 0 (S NX)) BN.
(** tm2.py 157-180: the branch as [tm2] takes it; [fuel] bounds the passes of [linp]. *)
Definition lp_nls (fuel : nat) (LP : list (nat * nat)) (LT : list nat) (NR : nat) (BB BLP BN : list (list Qc)) : res (list Qc * list (list Qc)) :=
  let NX := (length BN - 1)%nat in
  do d <- connls BB (mcol BN 2) NX NR LT BLP LP BN;
  do s <- linp fuel d;
  let RES := net (d_B d) (d_B1 d) (fun _ _ => q0) (s_IBAS s) (s_BS s) (d_M d) (d_N1 d) in
  let R k := RES k 0%nat in
  Ok (map (fun l => R (4 * NX + 2 + l)%nat) (seq 0 (length BLP)), store_lp LT R NX BN).

(** tm2.py 182-206 (IOI <> 0): the print-out fails.  NNTAB has one entry per unit and is
    filled from index 1; otherwise [range[JXX]] fails. *)
Definition print_error (PLNDST PCTAVL : list Qc) : pyerr :=
  let out i := negb (qeqb (vget PLNDST i) q1) || negb (qeqb (vget PCTAVL i) q1) in
  if (0 <? length PLNDST)%nat && forallb out (seq 0 (length PLNDST)) then IndexError else TypeError.
(** tm2.py 157-232: the branch with no loss sharing, with IOI.  (With loss sharing [conls]
    is called with eleven arguments and takes ten: see [tm2].) *)
Definition lp_branch (fuel : nat) (IOI : bool) (PLNDST PCTAVL : list Qc) (LP : list (nat * nat)) (LT : list nat) (NR : nat)
    (BB BLP BN : list (list Qc)) : res (list Qc * list (list Qc)) :=
  do r <- lp_nls fuel LP LT NR BB BLP BN; if IOI then Err (print_error PLNDST PCTAVL) else Ok r.
