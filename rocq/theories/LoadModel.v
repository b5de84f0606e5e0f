(** Model of capacity accounting, contracts and load processing: [sumcap],
    [findtn], [findld], [xporta], [_xporta], [xports], [dpeak], [_dpeak],
    [wpeakf], [_wpeakf], [plhr], the numeric part of [xldnew], [resca], [_resca]
    and the load-forecast factors of [datax]. *)
From Verif Require Import Base.
Open Scope Z_scope.

Definition map2 {A B C} (f : A -> B -> C) (l : list A) (m : list B) : list C :=
  map (fun p => f (fst p) (snd p)) (combine l m).

(** [v[j] += x] at a natural index *)
Definition addv (v : list Qc) (j : nat) (x : Qc) : list Qc := upd v j (Qcplus (nth j v q0) x).

(* ------------------------------------------------------------------ *)
(** ** sumcap.py *)

(** sumcap.py 32-34: [SYSCON[j] = SYSCON[j] + AVAIL[i]] with [j = CAPCON[i]]. *)
Fixpoint syscon_loop (AVAIL : list Qc) (CAPCON : list Z) (SYSCON : list Qc) : res (list Qc) :=
  match AVAIL, CAPCON with
  | a :: A, j :: C =>
      do v <- pyget SYSCON j;
      do s <- pyset SYSCON j (Qcplus v a);
      syscon_loop A C s
  | _, _ => Ok SYSCON
  end.

(** sumcap.py 23-38: (CAPAVL, SYSOWN, SYSCON, TRNSFJ). *)
Definition sumcap (AVAIL : list Qc) (CAPOWN : list (list Qc)) (CAPCON : list Z)
  : res (list (list Qc) * list Qc * list Qc * list Qc) :=
  let CAPAVL := map (fun row => map2 Qcmult row AVAIL) CAPOWN in
  let SYSOWN := map qsum CAPAVL in
  do SYSCON <- syscon_loop AVAIL CAPCON (vzeros (length CAPOWN));
  Ok (CAPAVL, SYSOWN, SYSCON, map2 Qcminus SYSCON SYSOWN).

(* ------------------------------------------------------------------ *)
(** ** Contracts *)

(** [zip( *np.nonzero(JENT != -1))] with the contract number: row-major list of
    (from, to, number) (findtn.py 24-25, xporta.py 20-21). *)
Definition contracts (JENT : list (list Z)) : list (nat * nat * Z) :=
  flat_map (fun r => flat_map (fun c => if snd c =? -1 then [] else [(fst r, fst c, snd c)])
                       (combine (seq 0 (length (snd r))) (snd r)))
    (combine (seq 0 (length JENT)) JENT).

(** [INTCH[p, d]] with Python indices *)
Definition intch (INTCH : list (list Qc)) (p d : Z) : res Qc := do r <- pyget INTCH p; pyget r d.

(** findtn.py 22-28 *)
Definition findtn (JENT : list (list Z)) (INTCH : list (list Qc)) (JDAY : Z) : res (list Qc) :=
  fold_left (fun acc c => let '(j1, j2, p) := c in
     do t <- acc; do x <- intch INTCH p JDAY; Ok (addv (addv t j1 x) j2 (Qcopp x)))
    (contracts JENT) (Ok (vzeros (length JENT))).

(** [HRLOAD[j, a:b] += x]; Python slices clip to the row. *)
Definition add_slice (H : list (list Qc)) (j a b : nat) (x : Qc) : list (list Qc) :=
  upd H j (mapi (fun k v => if (a <=? k)%nat && (k <? b)%nat then Qcplus v x else v) (nth j H [])).

(** xporta.py 22-24, the body for one day of one contract *)
Definition xporta_day (j1 j2 : nat) (H : list (list Qc)) (dx : nat * Qc) : list (list Qc) :=
  let '(d, x) := dx in
  add_slice (add_slice H j1 (d * 24) ((d + 1) * 24) x) j2 (d * 24) ((d + 1) * 24) (Qcopp x).

(** xporta.py 20-24 [xporta]: the days with a non-zero amount, in order. *)
Definition xporta (JENT : list (list Z)) (INTCH : list (list Qc)) (HRLOAD : list (list Qc))
  : res (list (list Qc)) :=
  fold_left (fun acc c => let '(j1, j2, p) := c in
     do H <- acc; do row <- pyget INTCH p;
     Ok (fold_left (xporta_day j1 j2)
           (filter (fun dx => negb (qeqb (snd dx) q0)) (combine (seq 0 (length row)) row)) H))
    (contracts JENT) (Ok HRLOAD).

(** xports.py 19-20 *)
Definition xports (JENT : list (list Z)) (INTCH : list (list Qc)) (HRLOAD : list (list Qc)) :=
  xporta JENT (map (map Qcopp) INTCH) HRLOAD.

(** [HRLOAD[j, k] = HRLOAD[j, k] + x] for one element *)
Definition add_elem (H : list (list Qc)) (j k : nat) (x : Qc) : list (list Qc) :=
  upd H j (addv (nth j H []) k x).

(** xporta.py 28-42 [_xporta]; 365 is the parameter [ND].  The element accesses
    are total: HRLOAD has 24*ND columns and INTCH ND columns in the theorems. *)
Definition xporta_loop (ND : nat) (JENT : list (list Z)) (INTCH : list (list Qc)) (HRLOAD : list (list Qc))
  : list (list Qc) :=
  let n := length HRLOAD in
  fold_left (fun H j1 =>
    fold_left (fun H j2 =>
      let p := zmget JENT j1 j2 in
      if p =? -1 then H else
      fold_left (fun H k =>
        let x := mget INTCH (Z.to_nat p) k in
        if qeqb x q0 then H else
        fold_left (fun H k3 => add_elem (add_elem H j1 k3 x) j2 k3 (Qcopp x)) (seq (k * 24) 24) H)
        (seq 0 ND) H)
      (seq 0 n) H)
    (seq 0 n) HRLOAD.

(* ------------------------------------------------------------------ *)
(** ** Peaks *)

(** numpy [argmax]/[max] of a non-empty sequence: position of the first maximum. *)
Fixpoint argmax_from (l : list Qc) (i best : nat) (bv : Qc) : nat * Qc :=
  match l with
  | [] => (best, bv)
  | x :: t => if qltb bv x then argmax_from t (S i) i x else argmax_from t (S i) best bv
  end.
Definition argmaxv (l : list Qc) : nat * Qc :=
  match l with [] => (0%nat, q0) | x :: t => argmax_from t 1 0 x end.
Definition npargmax (l : list Qc) : nat := fst (argmaxv l).
Definition npmax (l : list Qc) : Qc := snd (argmaxv l).

(** the slice [l[a : a+n]] *)
Definition slice {A} (l : list A) (a n : nat) : list A := firstn n (skipn a l).

(** Column [d] of the F-ordered reshape (dpeak.py 61) of one area's row: the
    [hwd] hours of day [d]. *)
Definition day_of (hwd : nat) (row : list Qc) (d : nat) : list Qc := slice row (d * hwd) hwd.

(** dpeak.py 57-68 [dpeak].  The reshape requires the number of hours to be a
    multiple of [hwd] (ValueError otherwise). *)
Definition dpeak (hwd : nat) (HRLOAD : list (list Qc))
  : list (list nat) * list (list Qc) * list nat :=
  let nd row := (length row / hwd)%nat in
  let DYLOAD := map (fun row => map (fun d => npmax (day_of hwd row d)) (seq 0 (nd row))) HRLOAD in
  let MAXHR := map (fun row => map (fun d => (npargmax (day_of hwd row d) + hwd * d)%nat) (seq 0 (nd row))) HRLOAD in
  (MAXHR, DYLOAD, map npargmax DYLOAD).

(** dpeak.py 25-31: the scan of one day; [None] is float("-inf"). *)
Definition scan_day (row : list Qc) (hwd d : nat) : option Qc * nat :=
  fold_left (fun st j =>
    let '(xm, hr) := st in
    let j1 := (d * hwd + j)%nat in
    let v := nth j1 row q0 in
    match xm with
    | Some m => if qleb v m then st else (Some v, j1)
    | None => (Some v, j1)
    end) (seq 0 hwd) (None, 0%nat).
Definition or0 (o : option Qc) : Qc := match o with Some v => v | None => q0 end.

(** dpeak.py 34-39: the scan of the days *)
Definition scan_year (row : list Qc) : nat :=
  snd (fold_left (fun st d =>
    let '(xm, md) := st in
    let v := nth d row q0 in
    match xm with
    | Some m => if qltb m v then (Some v, d) else st
    | None => (Some v, d)
    end) (seq 0 (length row)) (None, 0%nat)).

(** dpeak.py 4-41 [_dpeak] *)
Definition dpeak_loop (hwd : nat) (HRLOAD : list (list Qc))
  : list (list nat) * list (list Qc) * list nat :=
  let nd row := (length row / hwd)%nat in
  let DYLOAD := map (fun row => map (fun d => or0 (fst (scan_day row hwd d))) (seq 0 (nd row))) HRLOAD in
  let MAXHR := map (fun row => map (fun d => snd (scan_day row hwd d)) (seq 0 (nd row))) HRLOAD in
  (MAXHR, DYLOAD, map scan_year DYLOAD).

(** wpeakf.py 46-48 [wpeakf]: rows have 365 entries (the reshape fails otherwise). *)
Definition wpeakf (DYLOAD : list (list Qc)) : list (list Qc) :=
  map (fun row =>
    let WP := map (fun w => npmax (slice row (w * 7) 7)) (seq 0 52) in
    upd WP 51 (qmax (nth 51 WP q0) (last row q0))) DYLOAD.

(** wpeakf.py 19-31 [_wpeakf] *)
Definition wpeakf_loop (DYLOAD : list (list Qc)) : list (list Qc) :=
  map (fun row => map (fun w =>
    or0 (fold_left (fun xm j =>
       let v := nth (w * 7 + j) row q0 in
       match xm with Some m => if qltb m v then Some v else xm | None => Some v end)
      (seq 0 (if (w =? 51)%nat then 8 else 7)) None)) (seq 0 52)) DYLOAD.

(** plhr.py 19-28 *)
Definition plhr (HRLOAD : list (list Qc)) : list nat :=
  let nh := length (nth 0 HRLOAD []) in
  let summed := map (fun t => qsum (mcol HRLOAD t)) (seq 0 nh) in
  map (fun d => (npargmax (day_of 24 summed d) + 24 * d)%nat) (seq 0 (nh / 24)).

(* ------------------------------------------------------------------ *)
(** ** Load scaling, capacity at peak, forecast levels *)

(** xldnew.py 38-43, one area: [np.amax(row, initial=0.001)] *)
Definition amax_init (row : list Qc) : Qc := fold_left qmax row (qq 1 1000).
Definition rescale (row : list Qc) (pk : Qc) : list Qc :=
  map (fun v => Qcmult (Qcdiv v (amax_init row)) pk) row.
Definition rescale_all (H : list (list Qc)) (PK : list Qc) : list (list Qc) := map2 rescale H PK.

(** resca.py 40: [np.argmax(QTR > IDAY*24)]: first True, 0 if none *)
Definition peak_season (QTR : list Qc) (IDAY : Z) : nat :=
  let h := qz (IDAY * 24) in
  match find (fun i => qltb h (nth i QTR q0)) (seq 0 (length QTR)) with Some i => i | None => 0%nat end.
(** resca.py 84-94 in [_resca] *)
Definition peak_season_loop (QTR : list Qc) (IDAY : Z) : nat :=
  let h := qz (IDAY * 24) in
  let p0 := 0%nat in
  let p1 := if qltb (nth 0 QTR q0) h then 1%nat else p0 in
  let p2 := if qltb (nth 1 QTR q0) h then 2%nat else p1 in
  if qltb (nth 2 QTR q0) h then 3%nat else p2.

(** the owned capacity at the ratings of season [s] (resca.py 41-42 / 97-98) *)
Definition owned (CAPOWN RATES : list (list Qc)) (i s : nat) : Qc :=
  fold_left (fun acc j => Qcplus acc (Qcmult (mget CAPOWN i j) (mget RATES j s)))
    (seq 0 (length (nth i CAPOWN []))) q0.

(** the entries of a list of pointers that are not -1, looked up on day [d]
    (fancy indexing of resca.py 44-45) *)
Definition intch_sum (INTCH : list (list Qc)) (ps : list Z) (d : nat) : Qc :=
  qsum (map (fun p => mget INTCH (Z.to_nat p) d) (filter (fun p => negb (p =? -1)) ps)).

(** resca.py 36-45 [resca], the value of SUSTAT[i,1] (which starts at 0, datax.py 75) *)
Definition resca_area (MAXDAY : list nat) (QTR : list Qc) (CAPOWN RATES : list (list Qc))
    (JENT : list (list Z)) (INTCH : list (list Qc)) (i : nat) : Qc :=
  let d := nth i MAXDAY 0%nat in
  let s := peak_season QTR (Z.of_nat d) in
  Qcplus (Qcminus (owned CAPOWN RATES i s) (intch_sum INTCH (nth i JENT []) d))
         (intch_sum INTCH (map (fun r => nth i r 0) JENT) d).

(** resca.py 81-107 [_resca] *)
Definition resca_area_loop (MAXDAY : list nat) (QTR : list Qc) (CAPOWN RATES : list (list Qc))
    (JENT : list (list Z)) (INTCH : list (list Qc)) (i : nat) : Qc :=
  let d := nth i MAXDAY 0%nat in
  let s := peak_season_loop QTR (Z.of_nat d) in
  fold_left (fun acc j1 =>
      let acc := if zmget JENT i j1 =? -1 then acc
                 else Qcminus acc (mget INTCH (Z.to_nat (zmget JENT i j1)) d) in
      if zmget JENT j1 i =? -1 then acc
      else Qcplus acc (mget INTCH (Z.to_nat (zmget JENT j1 i)) d))
    (seq 0 (length JENT)) (owned CAPOWN RATES i s).

(** datax.py 79-84: the five forecast factors of an area with uncertainty [fu] *)
Definition fcterr_row (fu : Qc) : list Qc :=
  [Qcplus q1 (Qcdiv (Qcmult fu (qq 5 2)) (qz 100));
   Qcplus q1 (Qcdiv fu (qz 100));
   q1;
   Qcminus q1 (Qcdiv fu (qz 100));
   Qcminus q1 (Qcdiv (Qcmult fu (qq 5 2)) (qz 100))].

(** findld.py 17: HRLOAD[:, JHOUR] * FCTERR[:, NFACT] (JHOUR may be negative: Python
    counts from the end) *)
Definition findld (NFACT : nat) (JHOUR : Z) (HRLOAD FCTERR : list (list Qc)) : res (list Qc) :=
  fold_right (fun p acc => do rest <- acc; do v <- pyget (fst p) JHOUR;
                           Ok (Qcmult v (nth NFACT (snd p) q0) :: rest)) (Ok []) (combine HRLOAD FCTERR).

(** hour.py 139: the integer margins of all areas *)
Definition margins (SYSCON CAPREQ : list Qc) : list Z :=
  map2 (fun a b => qtrunc (Qcminus a b)) SYSCON CAPREQ.
