(** Model of the maintenance scheduler [pmsc] and of the outage table built by
    [smaint]. *)
From Verif Require Import Base LoadModel.
Open Scope Z_scope.

(** One generating unit in [pmsc]'s own arrays: the row of ID1 (unit number in the area,
    plant, the two starts in hours, the two durations in weeks, predetermined flag) and
    CAPLOS.  LOCREW (137) always equals the plant number; ID1[:,4] and ID1[:,6] are
    the durations times 168 (135).  RD is missing: it is only used for the slope XM of
    the outage table, which enters through [loss] below. *)
Record punit := mkPunit { p_no : Z; p_plant : Z; p_b1 : Z; p_d1 : Z; p_b2 : Z; p_d2 : Z; p_flag : Z; p_cap : Qc }.
Definition zero_unit : punit := mkPunit 0 0 0 0 0 0 0 q0.

(** pmsc.py 120-124, 134-137: unit number [k] of the area from row [r] of ID *)
Definition local_unit (k : nat) (r : list Z) (rates : list Qc) : punit :=
  mkPunit (Z.of_nat k) (zget r 1) (zget r 3 * 168 - 168) (zget r 4) (zget r 5 * 168 - 168) (zget r 6) (zget r 7)
          (npmax (firstn 4 rates)).

(** 113-117: the positions of the area's units in ID *)
Definition area_units (IA : nat) (ID : list (list Z)) : list nat :=
  filter (fun i => zget (nth i ID []) 2 =? Z.of_nat IA) (seq 0 (length ID)).
(** 120: NR0 *)
Definition numbers (IA : nat) (ID : list (list Z)) : list Z := map (fun i => zget (nth i ID []) 0) (area_units IA ID).
Definition local_units (IA : nat) (ID : list (list Z)) (RATES : list (list Qc)) : list punit :=
  mapi (fun k i => local_unit k (nth i ID []) (nth i RATES [])) (area_units IA ID).
(** 76, 118: N *)
Definition top_plant (us : list punit) : Z := fold_left (fun N u => Z.max N (p_plant u)) us 0.

(** 156-163: the position of the unit of plant [i] with the largest capacity times
    duration, the first of several; [k] is the position of the head of [us]. *)
Fixpoint largest (i : Z) (us : list punit) (k : nat) (CMAX : Qc) (JT : option nat) : option nat :=
  match us with
  | [] => JT
  | u :: r =>
      if p_plant u =? i then
        let CDUR := Qcmult (p_cap u) (qz (Z.max (p_d1 u) (p_d2 u))) in
        if qltb CMAX CDUR then largest i r (S k) CDUR (Some k) else largest i r (S k) CMAX JT
      else largest i r (S k) CMAX JT
  end.
Definition remove_at {A} (k : nat) (l : list A) : list A := firstn k l ++ skipn (S k) l.
(** 155-177: the loop over the units of plant [i]; a unit already taken has plant -1,
    here it is removed.  If there are units but none has a value above -5, JT is
    unbound (or stale). *)
Fixpoint take_plant (fuel : nat) (i : Z) (us : list punit) : res (list punit * list punit) :=
  if existsb (fun u => p_plant u =? i) us then
    match fuel with
    | O => Err OutOfFuel
    | S f => match largest i us 0 (qz (-5)) None with
             | None => Err UnboundLocalError
             | Some k => do r <- take_plant f i (remove_at k us); Ok (nth k us zero_unit :: fst r, snd r)
             end
    end
  else Ok ([], us).
(** 154-177: plants 0 .. N-1 *)
Fixpoint take_plants (n : nat) (i : Z) (us : list punit) : res (list punit) :=
  match n with
  | O => Ok []
  | S n' => do r <- take_plant (length us) i us; do r' <- take_plants n' (i + 1) (snd r); Ok (fst r ++ r')
  end.
(** 168-183: the sorted units are stored from position 1 of arrays of zeros, and the
    first M entries are copied back. *)
Definition sorted_units (us : list punit) : res (list punit) :=
  do t <- take_plants (Z.to_nat (top_plant us)) 0 us;
  Ok (firstn (length us) (zero_unit :: t ++ repeat zero_unit (length us))).

Section PMSC.
(** What the scheduling code may read and change besides ID1: CHECK, LOAD, EFLOAD,
    MAXRAN, MINRAN, INDEX1 and printed text.  Nothing is assumed about it. *)
Variable rest : Type.
(** 244-245: CAPLOS - XM * log(1 - P + P * exp(CAPLOS / XM)) for a slope XM *)
Variable loss : Qc -> Qc.
(** INDEX (81): start weeks of the scheduled outages; and everything else *)
Record mst := mkMst { t_us : list punit; t_INDEX : list (Qc * Qc); t_rest : rest }.
(** 254-299: the branch for NPS > 0, i.e. when the first sorted unit is predetermined *)
Variable presched : list punit -> mst -> res (list Qc * list Z * mst).
(** 446-685: the body of "for JA in range(N1, N2)" with the loop around it *)
Variable block : nat -> nat -> nat -> mst -> res mst.

(** 246-247 *)
Definition schlos (u : punit) : Qc := if qleb (loss (p_cap u)) q0 then p_cap u else loss (p_cap u).
Definition mw_weeks (u : punit) : Qc := Qcmult (schlos u) (qz (p_d1 u + p_d2 u)).
(** 233-239: NPS *)
Fixpoint leading (us : list punit) : nat :=
  match us with [] => O | u :: r => if p_flag u =? 0 then O else S (leading r) end.
(** 241-252, 301-302, NPS = 0: j, i, LTEM; MWTOT, MWI.  Index -1 is the last entry. *)
Fixpoint plant_totals (us : list punit) (j : nat) (i LTEM : Z) (MWTOT : list Qc) (MWI : list Z) : res (list Qc * list Z) :=
  match us with
  | [] => Ok (MWTOT, MWI)
  | u :: r =>
      let new := negb (LTEM =? p_plant u) in
      let i' := if new then i + 1 else i in
      let MWTOT' := if new then upd MWTOT j q0 else MWTOT in
      let MWI' := if new then upd MWI j (p_plant u) else MWI in
      do v <- pyget MWTOT' i';
      do M <- pyset MWTOT' i' (Qcplus v (mw_weeks u));
      plant_totals r (S j) i' (if new then p_plant u else LTEM) M MWI'
  end.
(** 415-421: the plant with the largest total *)
Definition largest_total (N i : nat) (MWTOT : list Qc) : nat :=
  snd (fold_left (fun st K => if qltb (fst st) (vget MWTOT K) then (vget MWTOT K, K) else st) (seq 0 N) (q0, i)).
(** 424-428: MWEEK *)
Definition plant_weeks (K1 : Z) (us : list punit) : list Qc :=
  map (fun u => if p_plant u =? K1 then mw_weeks u else q0) us.
(** 437-443: N1, N2 *)
Definition bounds (MWEEK : list Qc) : Z * Z :=
  fold_left (fun nn jx =>
    let '(N1, N2) := nn in let '(j, x) := jx in
    let N2' := if qeqb x q0 then N2 else Z.of_nat j in
    (if qeqb x q0 && (N2' =? -1) then N1 + 1 else N1, N2'))
    (combine (seq 0 (length MWEEK)) MWEEK) (0, -1).
(** 413-685: the loop over the plants; [i] keeps its value between passes *)
Fixpoint schedule (passes N i : nat) (MWTOT : list Qc) (MWI : list Z) (s : mst) : res mst :=
  match passes with
  | O => Ok s
  | S p =>
      let i := largest_total N i MWTOT in
      do K1 <- pyget MWI (Z.of_nat i);
      let MWEEK := plant_weeks K1 (t_us s) in
      if qeqb (vget MWTOT i) q0 then schedule p N i MWTOT MWI s
      else
        let '(N1, N2) := bounds MWEEK in
        do s' <- (if N1 <? N2 then block i (Z.to_nat N1) (Z.to_nat N2) s else Ok s);
        schedule p N i (upd MWTOT i q0) MWI s'
  end.
(** 861-869: the start weeks go back to ID *)
Definition write_back (NR0 : list Z) (us : list punit) (ID : list (list Z)) : res (list (list Z)) :=
  fold_left (fun acc u =>
    do D <- acc; do IND <- pyget NR0 (p_no u); do row <- pyget D IND;
    pyset D IND (upd (upd row 3 (p_b1 u / 168 + 1)) 5 (p_b2 u / 168 + 1)))
    us (Ok ID).

(** pmsc.py 72-871.  [P] and [INDEX] have 500 entries (73, 81-83, 244), so larger areas
    raise.  A unit with a start week in INDEX raises a TypeError at 702: it is a float used
    as a slice bound.  [r0] stands for the initial contents of the other arrays. *)
Definition pmsc (IA : nat) (ID : list (list Z)) (ITAB : Z) (RATES : list (list Qc)) (r0 : rest) : res (list (list Z) * Z) :=
  let us := local_units IA ID RATES in
  if Nat.eqb (length us) 0 then Ok (ID, ITAB)
  else
    do sorted <- sorted_units us;
    if (500 <? length us)%nat then Err IndexError
    else
      let N := top_plant us in
      let s0 := mkMst sorted (repeat (q0, q0) 500) r0 in
      do m <- (if Nat.eqb (leading sorted) 0 then
                 do tw <- plant_totals sorted 0 (-1) 0 (vzeros (length ID)) (repeat 0 (length ID)); Ok (tw, s0)
               else presched sorted s0);
      let '((MWTOT, MWI), s1) := m in
      do s2 <- schedule (Z.to_nat N) (Z.to_nat N) (Z.to_nat N) MWTOT MWI s1;
      if existsb (fun p => negb (qeqb (fst p) q0) || negb (qeqb (snd p) q0)) (firstn (length us) (t_INDEX s2)) then Err TypeError
      else do ID' <- write_back (numbers IA ID) (t_us s2) ID; Ok (ID', ITAB + 1).

(** smaint.py 64-83 *)
Fixpoint pmsc_all (areas : list nat) (ID : list (list Z)) (ITAB : Z) (RATES : list (list Qc)) (r0 : rest) : res (list (list Z) * Z) :=
  match areas with
  | [] => Ok (ID, ITAB)
  | a :: l => do r <- pmsc a ID ITAB RATES r0; pmsc_all l (fst r) (snd r) RATES r0
  end.
End PMSC.

(* ------------------------------------------------------------------ *)
(** ** The table *)

(** smaint.py 95-96 for one week: one more unit, stored at the new count *)
Definition put_unit (u : Z) (row : list Z) : res (list Z) :=
  let c := zget row 0 + 1 in
  if c <? Z.of_nat (length row) then Ok (upd (upd row 0 c) (Z.to_nat c) u) else Err IndexError.
(** 90-96 for one outage; a start before week 0 other than -1 (which would count from
    the end) is treated as none. *)
Fixpoint put_rows (u j1 j2 w : Z) (T : list (list Z)) : res (list (list Z)) :=
  match T with
  | [] => Ok []
  | row :: r =>
      do row' <- (if (j1 <=? w) && (w <? j2) then put_unit u row else Ok row);
      do r' <- put_rows u j1 j2 (w + 1) r; Ok (row' :: r')
  end.
Definition put_outage (u j1 dur : Z) (T : list (list Z)) : res (list (list Z)) :=
  if j1 <? 0 then Ok T else put_rows u j1 (Z.min 51 (j1 + dur)) 0 T.
(** 85-96 *)
Definition outage_table (ID : list (list Z)) : res (list (list Z)) :=
  fold_left (fun acc r => do T <- acc; do T' <- put_outage (zget r 0) (zget r 3) (zget r 4) T; put_outage (zget r 0) (zget r 5) (zget r 6) T')
    ID (Ok (repeat (0 :: repeat (-1) (length ID)) 52)).

(** smaint.py 63-98 *)
Definition smaint {rest} (loss : Qc -> Qc) (presched : list punit -> mst rest -> res (list Qc * list Z * mst rest))
    (block : nat -> nat -> nat -> mst rest -> res (mst rest)) (r0 : rest) (NOAREA : nat) (ID : list (list Z)) (ITAB : Z) (RATES : list (list Qc))
    : res (list (list Z) * Z) :=
  do r <- pmsc_all rest loss presched block (seq 0 NOAREA) ID ITAB RATES r0;
  do T <- outage_table (fst r); Ok (T, snd r).
