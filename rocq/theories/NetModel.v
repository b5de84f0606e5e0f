(** Model of the transmission network: [admitb], [admitm], [admref], [admitr],
    [_admitr], [ximpa], [ximpar], [theta], [thetac], [flo], [assign], [_assign],
    [tm1], [tm2], [transm].

    Lines are a list of (from, to) areas (columns 1 and 2 of LP); BLP and BN are
    lists of rows.  All area indices in LP, LT are naturals. *)
From Verif Require Import Base LoadModel.
Open Scope Z_scope.

Definition vtab (n : nat) (f : nat -> Qc) : list Qc := map f (seq 0 n).
Definition mtab (n m : nat) (f : nat -> nat -> Qc) : list (list Qc) := map (fun i => vtab m (f i)) (seq 0 n).

(** [M[i,j] += x] *)
Definition madd (M : list (list Qc)) (i j : nat) (x : Qc) : list (list Qc) := mupd M i j (Qcplus (mget M i j) x).

(* ------------------------------------------------------------------ *)
(** ** Building and updating the admittance matrix *)

(** admitb.py 25-29: the body of the loop over lines *)
Definition admitb_line (BB : list (list Qc)) (l : (nat * nat) * Qc) : list (list Qc) :=
  let '((j, k), b) := l in
  let B1 := madd BB j k (Qcmult b (qz (-1))) in
  let B2 := mupd B1 k j (mget B1 j k) in
  let B3 := madd B2 j j b in
  madd B3 k k b.

(** admitb.py 21: [1 + LP[:, 1:].max()] *)
Definition lp_areas (LP : list (nat * nat)) : nat :=
  S (fold_right (fun l a => Nat.max (Nat.max (fst l) (snd l)) a) 0%nat LP).

(** admitb.py 20-31.  [max] of an empty array raises ValueError. *)
Definition admitb (LP : list (nat * nat)) (BLP : list (list Qc)) : res (list (list Qc)) :=
  match LP with
  | [] => Err ValueError
  | _ => Ok (fold_left admitb_line (combine LP (mcol BLP 0)) (mzeros (lp_areas LP) (lp_areas LP)))
  end.

(** admitm.py 14-17 *)
Definition admitm (BB : list (list Qc)) (i j : nat) (b : Qc) : list (list Qc) :=
  madd (madd (madd (madd BB i j (Qcopp b)) j i (Qcopp b)) i i b) j j b.

(** admref.py 12 *)
Definition admref (BB : list (list Qc)) (i : nat) (b : Qc) : list (list Qc) := madd BB i i b.

(** [np.delete(v, k)] *)
Definition del_nth {A} (k : nat) (l : list A) : list A := firstn k l ++ skipn (S k) l.
(** [np.pad(M, ((0,1),(0,1)))] *)
Definition pad1 (M : list (list Qc)) : list (list Qc) :=
  map (fun r => r ++ [q0]) M ++ [vzeros (S (length (nth 0 M [])))].

(** admitr.py 82-85 [admitr].  [np.delete] raises IndexError when NR is out of
    range; the theorems have NR in range. *)
Definition admitr (BB BN : list (list Qc)) (NR : nat) : list (list Qc) * list nat :=
  let c := mcol BN 0 in
  (pad1 (map (del_nth NR) (del_nth NR BB)),
   map (fun x => Z.to_nat (qtrunc x)) (del_nth NR c ++ [vget c NR])).

(** admitr.py 30-53 [_admitr]: the two nested loops skip index NR; the counters ii
    and iii number the kept indices. *)
Definition kept (NN NR : nat) : list nat := filter (fun i => negb (Nat.eqb i NR)) (seq 0 NN).
Definition admitr_loop (BB BN : list (list Qc)) (NR : nat) : list (list Qc) * list nat :=
  let NN := length BB in let NX := (NN - 1)%nat in
  let BT := map (fun i => map (fun j => mget BB i j) (kept NN NR)) (kept NN NR) in
  (mtab NN NN (fun a b => if (a <? NX)%nat && (b <? NX)%nat then mget BT a b else q0),
   map (fun i => Z.to_nat (qtrunc (mget BN i 0))) (kept NN NR) ++ [NR]).

(* ------------------------------------------------------------------ *)
(** ** Impedance matrix updates *)

(** ximpa.py 15-17.  Division by a zero pivot gives infinities in numpy; here
    [x/0 = 0], and the theorems exclude it. *)
Definition ximpa (ZB : list (list Qc)) (ZIJ : Qc) (NI NJ : nat) : list (list Qc) :=
  let zc k := Qcminus (mget ZB k NI) (mget ZB k NJ) in
  let zn1 := Qcminus (Qcminus (Qcplus (mget ZB NI NI) (mget ZB NJ NJ)) (Qcmult (qz 2) (mget ZB NI NJ))) ZIJ in
  mtab (length ZB) (length ZB) (fun a b => Qcminus (mget ZB a b) (Qcdiv (Qcmult (zc a) (zc b)) zn1)).

(** ximpar.py 14-16 *)
Definition ximpar (ZB : list (list Qc)) (ZIJ : Qc) (NI : nat) : list (list Qc) :=
  let zc k := mget ZB k NI in
  let zn1 := Qcminus (mget ZB NI NI) ZIJ in
  mtab (length ZB) (length ZB) (fun a b => Qcminus (mget ZB a b) (Qcdiv (Qcmult (zc a) (zc b)) zn1)).

(* ------------------------------------------------------------------ *)
(** ** Angles and flows *)

(** theta.py 12 *)
Definition theta (Z : list (list Qc)) (INJ : list Qc) : list Qc := map (fun r => qdot r INJ) Z.

(** thetac.py 13-17: [THETC[LT[:-1]] = THET[:-1]] *)
Definition thetac (THET : list Qc) (LT : list nat) : list Qc :=
  fold_left (fun v p => upd v (fst p) (snd p)) (combine (removelast LT) (removelast THET)) (vzeros (length THET)).

(** flo.py 21-33: (SFLOW, FLOW) *)
Definition line_flow (THET : list Qc) (l : (nat * nat) * Qc) : Qc :=
  Qcmult (Qcminus (vget THET (fst (fst l))) (vget THET (snd (fst l)))) (snd l).
Definition flo (LP : list (nat * nat)) (BLP : list (list Qc)) (THET : list Qc) : list Qc * list Qc :=
  let ls := combine LP (mcol BLP 0) in
  (fold_left (fun S l => let f := line_flow THET l in
                         addv (addv S (snd (fst l)) f) (fst (fst l)) (Qcopp f)) ls (vzeros (length THET)),
   map (line_flow THET) ls).

(* ------------------------------------------------------------------ *)
(** ** Balancing of injections *)

Definition sum_neg (INJ : list Qc) : Qc := qsum (filter (fun e => qleb e q0) INJ).
Definition sum_pos (INJ : list Qc) : Qc := qsum (filter (fun e => qltb q0 e) INJ).

(** assign.py 67-87 [assign]; [NN] is the length of INJ.  [NLS] is true for "no loss
    sharing" (non-zero).  The masks [INJ1 <= 0] before and after the scaling select
    the same entries (the factor is non-negative), so the assignment through the
    mask is written per index. *)
Definition set_lodc (LT : list nat) (vals : list (nat * Qc)) (LODC : list Qc) : list Qc :=
  fold_left (fun v p => upd v (nth (fst p) LT 0%nat) (snd p)) vals LODC.
Definition assign (INJ LOD : list Qc) (LT : list nat) (NLS : bool) : list Qc * list Qc :=
  let NN := length INJ in
  let LODC := vzeros NN in
  let SUMN := qabs (sum_neg INJ) in
  let SUMP := sum_pos INJ in
  if qleb SUMN SUMP then
    let f := if qltb q0 SUMP then Qcdiv SUMN SUMP else q1 in
    (map (fun e => if qltb q0 e then Qcmult e f else e) INJ, LODC)
  else if NLS then
    let INJ1 := map (fun e => if qleb e q0 then Qcmult e (Qcdiv SUMP SUMN) else e) INJ in
    (INJ1, set_lodc LT (map (fun i => (i, Qcminus (vget INJ1 i) (vget INJ i)))
                          (filter (fun i => qleb (vget INJ1 i) q0) (seq 0 NN))) LODC)
  else
    let SUML := qsum LOD in
    let DIFF := Qcminus SUMN SUMP in
    let L := set_lodc LT (map (fun i => (i, Qcdiv (Qcmult (vget LOD (nth i LT 0%nat)) DIFF) SUML)) (seq 0 NN)) LODC in
    (mapi (fun i e => Qcplus e (vget L (nth i LT 0%nat))) INJ, L).

(** assign.py 20-47 [_assign]: the loop version *)
Definition assign_loop (INJ LOD : list Qc) (LT : list nat) (NLS : bool) : list Qc * list Qc :=
  let NN := length INJ in
  let LODC := vzeros NN in
  let SUMN := qabs (sum_neg INJ) in
  let SUMP := sum_pos INJ in
  if qleb SUMN SUMP then
    (map (fun e => if qltb q0 e then Qcdiv (Qcmult e SUMN) SUMP else e) INJ, LODC)
  else if NLS then
    fold_left (fun st i => let '(J, L) := st in
      if qltb q0 (vget J i) then st
      else let PINT := vget J i in
           let v := Qcdiv (Qcmult PINT SUMP) SUMN in
           (upd J i v, upd L (nth i LT 0%nat) (Qcminus v PINT))) (seq 0 NN) (INJ, LODC)
  else
    let SUML := qsum LOD in
    let DIFF := Qcminus SUMN SUMP in
    let L := set_lodc LT (map (fun i => (i, Qcdiv (Qcmult (vget LOD (nth i LT 0%nat)) DIFF) SUML)) (seq 0 NN)) LODC in
    (mapi (fun i e => Qcplus e (vget L (nth i LT 0%nat))) INJ, L).

(* ------------------------------------------------------------------ *)
(** ** tm1 *)

(** tm1.py 40-49: (BLP0, BB, LT, ZB).  [inv] stands for [np.linalg.inv] on the
    reduced matrix; [None] is its LinAlgError (modelled as ValueError). *)
Definition block (NX : nat) (M : list (list Qc)) : list (list Qc) := map (firstn NX) (firstn NX M).
Definition tm1 (inv : list (list Qc) -> option (list (list Qc)))
    (BN : list (list Qc)) (LP : list (nat * nat)) (BLP : list (list Qc)) (NR : nat)
  : res (list Qc * list (list Qc) * list nat * list (list Qc)) :=
  let NX := (length BN - 1)%nat in
  do B <- admitb LP BLP;
  let '(BB, LT) := admitr B BN NR in
  match inv (block NX BB) with
  | None => Err ValueError
  | Some Z => Ok (mcol BLP 0, BB, LT, pad1 Z)
  end.

(* ------------------------------------------------------------------ *)
(** ** tm2 *)

(** tm2.py 54-57: [IEQ[LT[:NX]] = range(NX); IEQ[NR] = NX] *)
Definition ieq_of (LT : list nat) (NX NR : nat) : list nat :=
  upd (fold_left (fun v p => upd v (snd p) (fst p)) (combine (seq 0 NX) LT) (repeat 0%nat (length LT))) NR NX.

(** [ZB[:NX, :NX] = Z[:NX, :NX]] *)
Definition set_block (NX : nat) (ZB Z : list (list Qc)) : list (list Qc) :=
  mtab (length ZB) (length ZB) (fun a b => if (a <? NX)%nat && (b <? NX)%nat then mget Z a b else mget ZB a b).

(** tm2.py 66-107: one line of the update loop; state (BB, ZB).  [b] is BLP[i,0],
    [b0] is BLP0[i]. *)
Definition tm2_line (IEQ : list nat) (NX NR : nat) (st : list (list Qc) * list (list Qc))
    (l : (nat * nat) * (Qc * Qc)) : list (list Qc) * list (list Qc) :=
  let '(BB, ZB) := st in
  let '((ni, nj), (b, b0)) := l in
  if qeqb b b0 then st
  else if negb (Nat.eqb ni NR || Nat.eqb nj NR) then
    let NII := nth ni IEQ 0%nat in
    let NJJ := nth nj IEQ 0%nat in
    let '(BB1, ZB1) :=
      if qeqb b q0 then (BB, ZB)
      else (admitm BB NII NJJ b, set_block NX ZB (ximpa ZB (Qcdiv (qz (-1)) b) NII NJJ)) in
    let bij := Qcopp b0 in
    (admitm BB1 NII NJJ bij, set_block NX ZB1 (ximpa ZB1 (Qcdiv (qz (-1)) bij) NII NJJ))
  else
    let NII := nth (if Nat.eqb ni NR then nj else ni) IEQ 0%nat in
    if qeqb b q0 then st
    else
      fold_left (fun s bij => (admref (fst s) NII b,          (* line 106 adds BIJ, not bij *)
                               set_block NX (snd s) (ximpar (snd s) (Qcdiv (qz (-1)) bij) NII)))
        [b; Qcopp b0] (BB, ZB).
Definition tm2_update (LP : list (nat * nat)) (BLP : list (list Qc)) (BLP0 : list Qc) (IEQ : list nat) (NX NR : nat)
    (BB ZB : list (list Qc)) : list (list Qc) * list (list Qc) :=
  fold_left (tm2_line IEQ NX NR) (combine LP (combine (mcol BLP 0) BLP0)) (BB, ZB).

(** tm2.py 117-139: INDIC <> 1.  A flow [f] against its two limits: *)
Definition over (f fwd bwd : Qc) : bool := if qleb q0 f then qltb fwd f else qltb bwd (qabs f).
Definition tm2_accepts (FLOW SFLOW : list Qc) (BLP BN : list (list Qc)) : bool :=
  forallb (fun i => negb (over (vget FLOW i) (mget BLP i 1) (mget BLP i 2))) (seq 0 (length FLOW)) &&
  forallb (fun i => negb (over (vget SFLOW i) (mget BN i 3) (mget BN i 4))) (seq 0 (length BN)).

(** tm2.py 142-145: BN[LT[i],1] = INJ1[i]; BN[i,2] = LODC[i], for i in order *)
Definition store_solution (LT : list nat) (INJ1 LODC : list Qc) (BN : list (list Qc)) : list (list Qc) :=
  fold_left (fun B i => mupd (mupd B (nth i LT 0%nat) 1 (vget INJ1 i)) i 2 (vget LODC i)) (seq 0 (length BN)) BN.

Record tm2_out := mkTm2 { t_flow : list Qc; t_accepted : bool; t_BN : list (list Qc); t_BB : list (list Qc); t_ZB : list (list Qc) }.

(** The injections, angles, flows of tm2.py 59-62, 111-115 given the updated impedance
    matrix: (INJ1, LODC, SFLOW, FLOW). *)
Definition tm2_solve (BN : list (list Qc)) (LP : list (nat * nat)) (BLP : list (list Qc)) (ZB : list (list Qc)) (LT : list nat) (NLS : bool)
  : list Qc * list Qc * list Qc * list Qc :=
  let INJB := mcol BN 2 in                          (* MULT = 0 *)
  let LOD := mcol BN 1 in
  let INJ := map (fun k => vget INJB k) LT in
  let '(INJ1, LODC) := assign INJ LOD LT NLS in
  let '(SFLOW, FLOW) := flo LP BLP (thetac (theta ZB INJ1) LT) in
  (INJ1, LODC, SFLOW, FLOW).

(** tm2.py 17-307.  [lp] stands for the linear-programming branch with no loss
    sharing (connls, linp, net, lines 157-180; modelled in LpModel): given the updated matrix and the
    data it returns FLOW and BN, or fails.  With loss sharing (NLS = 0) the branch
    calls [conls], which takes 10 parameters, with 11 arguments (lines 236-238):
    TypeError. *)
Definition tm2 (lp : list (list Qc) -> list (list Qc) -> list (list Qc) -> res (list Qc * list (list Qc)))
    (BN : list (list Qc)) (LP : list (nat * nat)) (BLP : list (list Qc)) (BLP0 : list Qc) (BB ZB : list (list Qc))
    (LT : list nat) (NR : nat) (NLS : bool) : res tm2_out :=
  let NX := (length BN - 1)%nat in
  let IEQ := ieq_of LT NX NR in
  let BT := BB in let ZT := ZB in                   (* copies of the leading blocks *)
  let '(BB1, ZB1) := tm2_update LP BLP BLP0 IEQ NX NR BB ZB in
  let '(INJ1, LODC, SFLOW, FLOW) := tm2_solve BN LP BLP ZB1 LT NLS in
  if tm2_accepts FLOW SFLOW BLP BN then
    Ok (mkTm2 FLOW true (store_solution LT INJ1 LODC BN) (set_block NX BB1 BT) (set_block NX ZB1 ZT))
  else if NLS then
    do r <- lp BB1 BLP BN;
    Ok (mkTm2 (fst r) false (snd r) (set_block NX BB1 BT) (set_block NX ZB1 BT))   (* line 305: BT, not ZT *)
  else Err TypeError.

(* ------------------------------------------------------------------ *)
(** ** transm *)

(** transm.py 53-56: the admittance and the capacities of the lines in their
    sampled states.  BLPA rows have 18 entries; [st] is LNSTAT[i] (1-based). *)
Definition line_row (BLPA STMULT : list (list Qc)) (LNSTAT : list Z) (i : nat) : list Qc :=
  let L := Z.to_nat ((zget LNSTAT i - 1) * 3) in
  [mget BLPA i L;
   Qcmult (mget BLPA i (L + 1)) (mget STMULT i 0);
   Qcmult (mget BLPA i (L + 2)) (mget STMULT i 1)].
Definition line_rows (BLPA STMULT : list (list Qc)) (LNSTAT : list Z) : list (list Qc) :=
  map (line_row BLPA STMULT LNSTAT) (seq 0 (length LNSTAT)).

(** The mutable part of the network data between calls. *)
Record netst := mkNet { n_BN : list (list Qc); n_BLP0 : list Qc; n_BB : list (list Qc); n_LT : list nat; n_ZB : list (list Qc) }.

(** transm.py 61-73 *)
Definition sched_rows (BN : list (list Qc)) (TRNSFR TRNSFJ SYSCON CAPREQ : list Qc) : list (list Qc) :=
  mapi (fun i r =>
    let inj := Qcplus (vget TRNSFR i) (vget TRNSFJ i) in
    let x := qmin (Qcminus (vget SYSCON i) (vget CAPREQ i)) q0 in
    upd (upd r 2 (qmax inj x)) 1 q0) BN.

(** transm.py 105-108 *)
Definition emergency_rows (BN : list (list Qc)) (SYSCON CAPREQ CADJ : list Qc) : list (list Qc) :=
  mapi (fun i r => upd (upd r 2 (Qcminus (Qcminus (vget SYSCON i) (vget CAPREQ i)) (vget CADJ i))) 1 (vget CAPREQ i)) BN.

(** transm.py 111-118.  The four fancy-index updates [BN[LP[:,k], c] += FLOW] write
    each target from its value before the statement, so with several lines at an
    area only the last one counts (numpy buffered fancy assignment). *)
Definition fancy_add (BN : list (list Qc)) (c : nat) (ends : list nat) (x : list Qc) : list (list Qc) :=
  fold_left (fun B p => mupd B (fst p) c (Qcplus (mget BN (fst p) c) (snd p))) (combine ends x) BN.
Definition residual_lines (BLP : list (list Qc)) (FLOW : list Qc) : list (list Qc) :=
  mapi (fun i r => [nth 0 r q0; qmax (Qcminus (nth 1 r q0) (vget FLOW i)) q0; qmax (Qcplus (nth 2 r q0) (vget FLOW i)) q0]) BLP.
Definition residual_areas (BN : list (list Qc)) (LP : list (nat * nat)) (FLOW : list Qc) : list (list Qc) :=
  let neg := map Qcopp FLOW in
  let B1 := fancy_add BN 3 (map fst LP) FLOW in
  let B2 := fancy_add B1 4 (map fst LP) neg in
  let B3 := fancy_add B2 3 (map snd LP) FLOW in
  fancy_add B3 4 (map snd LP) neg.

(** transm.py 7-144, called with JFLAG = 0 (hour.py 171-195).  [NLS] non-zero is
    [true].  Result: JFLAG, FLOW, SADJ and the network data. *)
Definition transm (inv : list (list Qc) -> option (list (list Qc)))
    (lp : list (list Qc) -> list (list Qc) -> list (list Qc) -> res (list Qc * list (list Qc)))
    (IFLAG : bool) (s : netst) (BLPA : list (list Qc)) (LP : list (nat * nat)) (NR : nat) (STMULT : list (list Qc))
    (LNSTAT : list Z) (NLS : bool) (TRNSFR TRNSFJ SYSCON CAPREQ : list Qc)
  : res (bool * list Qc * list Qc * netst) :=
  let NN := length (n_BN s) in
  do base <- (if IFLAG then Ok (n_BLP0 s, n_BB s, n_LT s, n_ZB s)
              else tm1 inv (n_BN s) LP (map (firstn 3) BLPA) NR);
  let '(BLP0, BB, LT, ZB) := base in
  let BLP := line_rows BLPA STMULT LNSTAT in
  let BN1 := sched_rows (n_BN s) TRNSFR TRNSFJ SYSCON CAPREQ in
  do o1 <- tm2 lp BN1 LP BLP BLP0 BB ZB LT NR true;
  let BN2 := t_BN o1 in
  let SADJ := vtab NN (fun i => Qcminus (Qcminus (vget SYSCON i) (vget CAPREQ i)) (mget BN2 i 1)) in
  if forallb (fun x => qleb q0 x) SADJ then
    Ok (false, t_flow o1, SADJ, mkNet BN2 BLP0 (t_BB o1) LT (t_ZB o1))
  else
    let CADJ := vtab NN (fun i => if NLS then mget BN2 i 1 else q0) in
    let BN3 := emergency_rows BN2 SYSCON CAPREQ CADJ in
    let BLP' := if NLS then residual_lines BLP (t_flow o1) else BLP in
    let BN4 := if NLS then residual_areas BN3 LP (t_flow o1) else BN3 in
    do o2 <- tm2 lp BN4 LP BLP' BLP0 (t_BB o1) (t_ZB o1) LT NR NLS;
    let BN5 := mapi (fun i r => upd (upd r 3 (mget BN3 i 3)) 4 (mget BN3 i 3)) (t_BN o2) in
    let SADJ' := vtab NN (fun i =>
      Qcplus (Qcplus (Qcminus (mget (t_BN o2) i 1) (vget SYSCON i)) (vget CAPREQ i)) (vget CADJ i)) in
    Ok (true, t_flow o2, SADJ', mkNet BN5 BLP0 (t_BB o2) LT (t_ZB o2)).
