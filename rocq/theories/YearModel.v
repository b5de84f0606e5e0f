(** Model of the year-end handler [year] and of the convergence test [cvchk].

    Names in the program: SOL/SGN (accumulated counts/energies), SWL/SWN (their
    forecast-weighted values), then G/T/S (generation, transmission, sum), H/P
    (hourly/peak), A/P (area/pool).  The accumulated counts and energies are sums of
    integers, so they are integers here; weighted values are rationals. *)
From Verif Require Import Base LoadModel StatModel.
Open Scope Z_scope.

(** One accumulated area statistic: SOL??A with SWL??A, or SGN??A with SWN??A. *)
Record acc := mkAcc { aG : list (list Z); aT : list (list Z); aS : list (list Z); wG : list Qc; wT : list Qc; wS : list Qc }.
(** The same for the pool: SOL??P with SWL??P, or SGN??P with SWN??P. *)
Record pacc := mkPacc { pG : list Z; pT : list Z; pS : list Z; vG : Qc; vT : Qc; vS : Qc }.
(** All accumulated statistics of one kind, hourly or peak. *)
Record cumul := mkCumul { c_lol : acc; c_mgn : acc; c_plol : pacc; c_pmgn : pacc }.

(** year.py 146-149 *)
Definition XPROB (NFCST : nat) : list Qc :=
  let x := [qq 668 10000; qq 2417 10000; qq 383 1000; qq 2417 10000; qq 668 10000] in
  if Nat.eqb NFCST 1 then upd x 0 q1 else x.

(** [v[:k] += d[:k]], [M[:, :k] += D[:, :k]] *)
Definition addfirst (k : nat) (v d : list Z) : list Z := map2 Z.add (firstn k v) (firstn k d) ++ skipn k v.
Definition maddfirst (k : nat) (M D : list (list Z)) : list (list Z) := map2 (addfirst k) M D.
(** [r[:k] @ XPROB[:k]] *)
Definition weighted (k : nat) (r : list Z) : Qc := qdot (map qz (firstn k r)) (firstn k (XPROB k)).
(** LOLS/MGNS of the year (186, 197, 213, 223, 248, 257, 273, 282): the first k
    columns of T + G *)
Definition sumfirst (k : nat) (t g : list Z) : list Z := map2 Z.add (firstn k t) (firstn k g).

(** year.py 186-194 with 205-210 (and 197-203, 213-221, 223-236): area statistics *)
Definition acc_step (NF : nat) (G T : list (list Z)) (a : acc) : acc :=
  let S := map2 (sumfirst NF) T G in
  mkAcc (maddfirst NF (aG a) G) (maddfirst NF (aT a) T) (maddfirst NF (aS a) S)
        (map2 Qcplus (wG a) (map (weighted NF) G)) (map2 Qcplus (wT a) (map (weighted NF) T)) (map2 Qcplus (wS a) (map (weighted NF) S)).

(** year.py 248-254 with 265-270 (and 257-263, 273-279, 282-295): pool statistics *)
Definition pacc_step (NF : nat) (G T : list Z) (a : pacc) : pacc :=
  let S := sumfirst NF T G in
  mkPacc (addfirst NF (pG a) G) (addfirst NF (pT a) T) (addfirst NF (pS a) S)
         (Qcplus (vG a) (weighted NF G)) (Qcplus (vT a) (weighted NF T)) (Qcplus (vS a) (weighted NF S)).

(** year.py 186-236 and 248-295, for the hourly or the peak statistics *)
Definition accumulate (NF : nat) (s : stat) (c : cumul) : cumul :=
  mkCumul (acc_step NF (lolG s) (lolT s) (c_lol c)) (acc_step NF (mgnG s) (mgnT s) (c_mgn c))
          (pacc_step NF (plolG s) (plolT s) (c_plol c)) (pacc_step NF (pmgnG s) (pmgnT s) (c_pmgn c)).

(** year.py 238-245: one area's three histogram rows.  [HLOLE[IAR, IPHOUR-1] += 1].
    Division of an integer by LSTEP = 0 gives inf or nan, which [int] rejects. *)
Definition bump (row : list Z) (i : Z) : res (list Z) := do x <- pyget row i; pyset row i (x + 1).
Definition eue_bin (m LSTEP : Z) : res Z :=
  if LSTEP =? 0 then Err (if m =? 0 then ValueError else OverflowError)
  else Ok (Z.min 22 (qtrunc (Qcplus (Qcdiv (qz m) (qz LSTEP)) q1))).
Definition hist_area (LSTEP lolh lolp mgnh : Z) (hl dp eu : list Z) : res (list Z * list Z * list Z) :=
  let IPHOUR := Z.min 22 (lolh + 1) in
  let IPDP := Z.min 22 (lolp + 1) in
  do IPEUE <- eue_bin mgnh LSTEP;
  do hl' <- bump hl (IPHOUR - 1);
  do dp' <- bump dp (IPDP - 1);
  do eu' <- bump eu (IPEUE - 1);
  Ok (hl', dp', eu').
(** 239: the loop over the areas, here over the three lists of annual values *)
Fixpoint hist_areas (LSTEP : Z) (vals : list (Z * Z * Z)) (HL DP EU : list (list Z))
  : res (list (list Z) * list (list Z) * list (list Z)) :=
  match vals, HL, DP, EU with
  | (lh, lp, mh) :: vs, hl :: HL', dp :: DP', eu :: EU' =>
      do r <- hist_area LSTEP lh lp mh hl dp eu;
      let '(hl1, dp1, eu1) := r in
      do q <- hist_areas LSTEP vs HL' DP' EU';
      let '(HL1, DP1, EU1) := q in
      Ok (hl1 :: HL1, dp1 :: DP1, eu1 :: EU1)
  | _, _, _, _ => Ok (HL, DP, EU)
  end.
(** the annual values binned: LOLSHA, LOLSPA, MGNSHA at column NORR *)
Definition hist_vals (NORR : nat) (h p : stat) : list (Z * Z * Z) :=
  let tot T G := map2 (fun t g => zget t NORR + zget g NORR) T G in
  combine (combine (tot (lolT h) (lolG h)) (tot (lolT p) (lolG p))) (tot (mgnT h) (mgnG h)).

Definition qsq (x : Qc) : Qc := Qcmult x x.
(** year.py 297-299: XNEWA += squares of the year's weighted values *)
Definition xnewa_step (NF : nat) (h p : stat) (X : list (list Qc)) : list (list Qc) :=
  let w T G := map (weighted NF) (map2 (sumfirst NF) T G) in
  map2 (map2 Qcplus) X
    (map2 (fun a bc => a :: bc) (map qsq (w (lolT h) (lolG h)))
       (map2 (fun b c => [b; c]) (map qsq (w (mgnT h) (mgnG h))) (map qsq (w (lolT p) (lolG p))))).
(** year.py 301-303 *)
Definition xnewp_step (NF : nat) (h p : stat) (X : list Qc) : list Qc :=
  let w T G := qsq (weighted NF (sumfirst NF T G)) in
  map2 Qcplus X [w (plolT h) (plolG h); w (pmgnT h) (pmgnG h); w (plolT p) (plolG p)].

(** year.py 637-644: [M[:NFCST, :NOAREA] = 0] (the indices are the wrong way round:
    the arrays have NOAREA rows); 646-653: [v[:NFCST] = 0] *)
Definition zfirst (k : nat) (r : list Z) : list Z := repeat 0 (Nat.min k (length r)) ++ skipn k r.
Definition reset_area (NF n : nat) (M : list (list Z)) : list (list Z) :=
  map (zfirst n) (firstn NF M) ++ skipn NF M.
Definition reset (NF n : nat) (s : stat) : stat :=
  mkStat (reset_area NF n (lolG s)) (reset_area NF n (lolT s)) (reset_area NF n (mgnG s)) (reset_area NF n (mgnT s))
         (zfirst NF (plolG s)) (zfirst NF (plolT s)) (zfirst NF (pmgnG s)) (zfirst NF (pmgnT s)).

(** The run's constants read by [year] *)
Record ycfg := mkYcfg { NFCST : nat; NORR : nat; LSTEP : Z; CVTEST : Qc; YFINISH : Qc; INTV : Z; IOJ : Z; INDX : Z;
                        KWHERE : Z; KVWHEN : Z; KVSTAT : Z; KVTYPE : Z; KVLOC : nat }.

(** year.py 664-717 *)
Definition select (cf : ycfg) (h p : cumul) : Qc :=
  let c := KVLOC cf in let k := NORR cf in
  if KWHERE cf =? 1 then
    if KVWHEN cf =? 1 then
      if KVSTAT cf =? 1 then
        if KVTYPE cf =? 1 then vget (wS (c_lol h)) c else qz (zmget (aS (c_lol h)) c k)
      else
        if KVTYPE cf =? 1 then vget (wS (c_mgn h)) c else qz (zmget (aS (c_mgn h)) c k)
    else
      if KVSTAT cf =? 1 then
        if KVTYPE cf =? 1 then vget (wS (c_lol p)) c else qz (zmget (aS (c_lol p)) c k)
      else
        if KVTYPE cf =? 1 then vget (wS (c_mgn p)) c else qz (zmget (aS (c_mgn p)) c k)
  else
    if KVWHEN cf =? 1 then
      if KVSTAT cf =? 1 then
        if KVTYPE cf =? 1 then vS (c_plol h) else qz (zget (pS (c_plol h)) k)
      else
        if KVTYPE cf =? 1 then vS (c_pmgn h) else qz (zget (pS (c_pmgn h)) k)
    else
      if KVSTAT cf =? 1 then
        if KVTYPE cf =? 1 then vS (c_plol p) else qz (zget (pS (c_plol p)) k)
      else
        if KVTYPE cf =? 1 then vS (c_pmgn p) else qz (zget (pS (c_pmgn p)) k).

(** [pow(V, 0.5) < XX] without square roots: a negative V gives nan (numpy) or a
    complex number, and the comparison is then not true. *)
Definition sqrt_below (V XX : Qc) : bool := qleb q0 V && qltb q0 XX && qltb V (qsq XX).

(** cvchk.py 22-61: (RFLAG, SSQ, XLAST) *)
Definition cvchk (CLOCK FINISH : Qc) (IYEAR : Z) (CVTEST SUM XLAST SSQ : Qc) : Z * Qc * Qc :=
  let RFLAG := if qleb FINISH CLOCK then 1 else 0 in
  let DIFF := Qcminus SUM XLAST in
  let SSQ := Qcplus SSQ (qsq DIFF) in
  if IYEAR <? 5 then (RFLAG, SSQ, SUM)
  else
    let y := qz IYEAR in
    let XMEAN := Qcdiv SUM y in
    let XX := if qeqb CVTEST q0 then Qcmult (qq 25 1000) XMEAN else Qcmult CVTEST XMEAN in
    let V := Qcdiv (Qcminus (Qcdiv SSQ y) (qsq XMEAN)) y in
    if qeqb XMEAN q0 then (RFLAG, SSQ, SUM)
    else if sqrt_below V XX then (1, SSQ, SUM) else (RFLAG, SSQ, SUM).

(** cvchk.py 85-138 [_cvchk]: STD / sqrt(IYEAR) < XX, i.e. for IYEAR > 0 the
    comparison of squares STD^2 < XX^2 * IYEAR *)
Definition cvchk_loop (CLOCK FINISH : Qc) (IYEAR : Z) (CVTEST SUM XLAST SSQ : Qc) : Z * Qc * Qc :=
  let RFLAG := 0 in
  let RFLAG := if qleb FINISH CLOCK then 1 else RFLAG in
  let DIFF := Qcminus SUM XLAST in
  let SSQ := Qcplus SSQ (qsq DIFF) in
  if IYEAR <? 5 then (RFLAG, SSQ, SUM)
  else
    let y := qz IYEAR in
    let XMEAN := Qcdiv SUM y in
    let XX := if qeqb CVTEST q0 then Qcmult (qq 25 1000) XMEAN else Qcmult CVTEST XMEAN in
    let VAR := Qcminus (Qcdiv SSQ y) (qsq XMEAN) in
    if qeqb XMEAN q0 then (RFLAG, SSQ, SUM)
    else if qleb q0 VAR && qltb q0 XX && qltb VAR (Qcmult (qsq XX) y) then (1, SSQ, SUM) else (RFLAG, SSQ, SUM).

(** Everything [year] reads and writes apart from the calendar. *)
Record yst := mkYst { y_h : stat; y_p : stat; y_ch : cumul; y_cp : cumul;
                      y_HL : list (list Z); y_DP : list (list Z); y_EU : list (list Z);
                      y_XA : list (list Qc); y_XP : list Qc; y_SSQ : Qc; y_XLAST : Qc; y_INTVT : Z; y_ITAB : Z }.
(** What a year end shows: the year number, the accumulated statistics used by the
    convergence test and the report, the stop flag, whether a checkpoint is written
    and whether the report is produced. *)
Record yout := mkYout { o_year : Z; o_h : cumul; o_p : cumul; o_rflag : Z; o_ckpt : bool; o_report : bool }.

(** year.py 915 returns none of the twelve pool scalars SW???P: the caller keeps its
    old values (they are numbers, [+=] inside [year] rebinds local names). *)
Definition keep_p (old new : pacc) : pacc := mkPacc (pG new) (pT new) (pS new) (vG old) (vT old) (vS old).
Definition keep_scalars (old new : cumul) : cumul :=
  mkCumul (c_lol new) (c_mgn new) (keep_p (c_plol old) (c_plol new)) (keep_p (c_pmgn old) (c_pmgn new)).

(** year.py 500-521: with annual printing (IOJ <> 0) XMGNH is read at N = 0 without
    having been assigned when the pool had no generation-caused loss at level 0;
    INDX = 1 does not print it. *)
Definition print_fails (cf : ycfg) (h : stat) : bool :=
  negb (IOJ cf =? 0) && negb (INDX cf =? 1) && (zget (plolG h) 0 <=? 0).

(** year.py 156-915, [n] areas.  The text written is not modelled; the tables' running
    number is (report.py 100, 463, 602: 2 + NOAREA more tables). *)
Definition year (cf : ycfg) (n : nat) (CLOCK : Qc) (s : yst) : res (yst * yout) :=
  let NF := NFCST cf in
  let IYEAR := qtrunc (Qcdiv (Qcplus CLOCK q1) (qz 8760)) in
  let ch := accumulate NF (y_h s) (y_ch s) in
  let cp := accumulate NF (y_p s) (y_cp s) in
  do hist <- hist_areas (LSTEP cf) (hist_vals (NORR cf) (y_h s) (y_p s)) (y_HL s) (y_DP s) (y_EU s);
  let '(HL, DP, EU) := hist in
  let XA := xnewa_step NF (y_h s) (y_p s) (y_XA s) in
  let XP := xnewp_step NF (y_h s) (y_p s) (y_XP s) in
  if print_fails cf (y_h s) then Err UnboundLocalError
  else
    let ITAB := if IOJ cf =? 0 then y_ITAB s else y_ITAB s + 1 in
    let SUM := select cf ch cp in
    let '(RFLAG, SSQ, XLAST) := cvchk CLOCK (YFINISH cf) IYEAR (CVTEST cf) SUM (y_XLAST s) (y_SSQ s) in
    let regular := IYEAR =? y_INTVT s in
    let IFIN := qtrunc (Qcdiv (YFINISH cf) (qz 8760)) in
    let ckpt := regular || (IYEAR =? IFIN) in
    let INTVT := if regular then y_INTVT s + INTV cf else y_INTVT s in
    let rep := (RFLAG =? 1) || qleb (YFINISH cf) CLOCK in
    let ITAB := if rep then ITAB + 2 + Z.of_nat n else ITAB in
    Ok (mkYst (reset NF n (y_h s)) (reset NF n (y_p s)) (keep_scalars (y_ch s) ch) (keep_scalars (y_cp s) cp)
              HL DP EU XA XP SSQ XLAST INTVT ITAB,
        mkYout IYEAR ch cp RFLAG ckpt rep).

(** narpMain.py 110-186: the statistics before the first year; [intvt] the first
    checkpoint year, [itab] the number of tables printed so far. *)
Definition zero_acc (n : nat) : acc := let M := repeat (repeat 0 5) n in mkAcc M M M (vzeros n) (vzeros n) (vzeros n).
Definition zero_pacc : pacc := let v := repeat 0 5 in mkPacc v v v q0 q0 q0.
Definition zero_cumul (n : nat) : cumul := mkCumul (zero_acc n) (zero_acc n) zero_pacc zero_pacc.
Definition first_stat (n : nat) : stat := let M := repeat (repeat 0 5) n in let v := repeat 0 5 in mkStat M M M M v v v v.
Definition start_year (n : nat) (intvt itab : Z) : yst :=
  let H := repeat (repeat 0 22) n in
  mkYst (first_stat n) (first_stat n) (zero_cumul n) (zero_cumul n) H H H (mzeros n 3) (vzeros 3) q0 q0 intvt itab.
