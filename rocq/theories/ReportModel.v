(** Model of the numbers of the final report ([report]). *)
From Verif Require Import Base LoadModel StatModel YearModel.
Open Scope Z_scope.

(** One printed line: XLOL, XMGN, EUE, XLOLP, XMGNP (report.py 121-145 and each of the
    sixteen blocks like it).  [lol mgn] the hourly totals, [lolp mgnp] the peak ones. *)
Record line := mkLine { l_lol : Qc; l_xmgn : Qc; l_eue : Qc; l_lolp : Qc; l_xmgnp : Qc }.
Definition mk_line (y lol mgn lolp mgnp : Qc) : line :=
  mkLine (Qcdiv lol y) (if qltb q0 lol then Qcdiv mgn lol else q0) (Qcdiv mgn y)
         (Qcdiv lolp y) (if qltb q0 lolp then Qcdiv mgnp lolp else q0).

(** report.py 119-204: the lines of area J by level, GC, TC, GT for each level; none
    when there is a single level *)
Definition area_level_lines (NF : nat) (y : Qc) (h p : cumul) (J : nat) : list line :=
  if Nat.eqb NF 1 then []
  else flat_map (fun N =>
    let g M := qz (zmget M J N) in
    [ mk_line y (g (aG (c_lol h))) (g (aG (c_mgn h))) (g (aG (c_lol p))) (g (aG (c_mgn p)));
      mk_line y (g (aT (c_lol h))) (g (aT (c_mgn h))) (g (aT (c_lol p))) (g (aT (c_mgn p)));
      mk_line y (g (aS (c_lol h))) (g (aS (c_mgn h))) (g (aS (c_lol p))) (g (aS (c_mgn p))) ]) (seq 0 NF).
(** 206-281: the three averages of area J *)
Definition area_avg_lines (y : Qc) (h p : cumul) (J : nat) : list line :=
  let g v := vget v J in
  [ mk_line y (g (wG (c_lol h))) (g (wG (c_mgn h))) (g (wG (c_lol p))) (g (wG (c_mgn p)));
    mk_line y (g (wT (c_lol h))) (g (wT (c_mgn h))) (g (wT (c_lol p))) (g (wT (c_mgn p)));
    mk_line y (g (wS (c_lol h))) (g (wS (c_mgn h))) (g (wS (c_lol p))) (g (wS (c_mgn p))) ].
(** 288-371, 373-448: the same for the pool *)
Definition pool_level_lines (NF : nat) (y : Qc) (h p : cumul) : list line :=
  if Nat.eqb NF 1 then []
  else flat_map (fun N =>
    let g v := qz (zget v N) in
    [ mk_line y (g (pG (c_plol h))) (g (pG (c_pmgn h))) (g (pG (c_plol p))) (g (pG (c_pmgn p)));
      mk_line y (g (pT (c_plol h))) (g (pT (c_pmgn h))) (g (pT (c_plol p))) (g (pT (c_pmgn p)));
      mk_line y (g (pS (c_plol h))) (g (pS (c_pmgn h))) (g (pS (c_plol p))) (g (pS (c_pmgn p))) ]) (seq 0 NF).
Definition pool_avg_lines (y : Qc) (h p : cumul) : list line :=
  [ mk_line y (vG (c_plol h)) (vG (c_pmgn h)) (vG (c_plol p)) (vG (c_pmgn p));
    mk_line y (vT (c_plol h)) (vT (c_pmgn h)) (vT (c_plol p)) (vT (c_pmgn p));
    mk_line y (vS (c_plol h)) (vS (c_pmgn h)) (vS (c_plol p)) (vS (c_pmgn p)) ].

(** 256-267 with 450-452 (areas), 429-443 with 454-455 (pool): the three deviations.
    The program takes the square root of these values; here they are kept squared. *)
Definition dev2 (y : Qc) (X : list Qc) (avg : line) : list Qc :=
  let d x m := Qcdiv (Qcminus (Qcdiv x y) (qsq m)) y in
  [d (vget X 0) (l_lol avg); d (vget X 1) (l_eue avg); d (vget X 2) (l_lolp avg)].

(** 457-461, 283-285, 487-490, 533-538: the summary table, one row of six numbers per
    area (PEAK, CAPACITY, PCT RES, HLOLE, LOLE, EUE) and one for the pool. *)
Definition pct (load cap old : Qc) : Qc := if qltb q0 load then Qcmult (Qcdiv (Qcminus cap load) load) (qz 100) else old.
Definition srow (r : list Qc) (avg : line) : list Qc :=
  [vget r 0; vget r 1; pct (vget r 0) (vget r 1) (vget r 2); l_lol avg; l_lolp avg; l_eue avg].
(** 487-535: rows 0..NOAREA-1 *)
Definition area_rows (n : nat) (SU : list (list Qc)) (avg : nat -> line) : list (list Qc) :=
  map (fun J => srow (nth J SU []) (avg J)) (seq 0 n).
(** 533-538: the pool's row; [i] is left at the last area, NO1 = NOAREA.  Without any
    area the names i and NO1 are unbound. *)
Definition pool_row (n : nat) (SU : list (list Qc)) (avg : line) : res (list Qc) :=
  match n with
  | O => Err UnboundLocalError
  | S i =>
      let r := nth n SU [] in
      let col c := Qcplus (vget r c) (qsum (map (fun J => mget SU J c) (seq 0 n))) in
      Ok [col 0%nat; col 1%nat; pct (mget SU i 0) (mget SU i 1) (vget r 2); l_lol avg; l_lolp avg; l_eue avg]
  end.

(** 494-500, 540-553: percentage deviations; kept squared like the deviations *)
Definition pct_sd2 (d2 m : Qc) : Qc := if qltb q0 m then qsq (Qcmult (Qcdiv q1 m) (qz 100)) * d2 else q0.

(** 576-599: the distributions.  PDP divides by SUMHL. *)
Definition distribution (H : list (list Z)) (S : list (list Z)) : list (list Qc) :=
  map2 (fun r s => map (fun x => Qcdiv (qz x) (qz (zsum s))) r) H S.

Record rep := mkRep {
  r_area_level : list (list line); r_area_avg : list (list line); r_pool_level : list line; r_pool_avg : list line;
  r_devA2 : list (list Qc); r_devP2 : list Qc; r_sustat : list (list Qc); r_pctA2 : list (list Qc); r_pctP2 : list Qc;
  r_PHL : list (list Qc); r_PDP : list (list Qc); r_PEUE : list (list Qc); r_ITAB : Z }.

(** report.py 98-625.  [IYEAR > 0]; the number of areas is SUSTAT.shape[0] - 1. *)
Definition report (NF : nat) (IYEAR ITAB : Z) (SU : list (list Qc)) (h p : cumul) (HL DP EU : list (list Z))
                  (XA : list (list Qc)) (XP : list Qc) : res rep :=
  let y := qz IYEAR in
  let n := (length SU - 1)%nat in
  let avg J := nth 2 (area_avg_lines y h p J) (mk_line y q0 q0 q0 q0) in
  let pavg := nth 2 (pool_avg_lines y h p) (mk_line y q0 q0 q0 q0) in
  do prow <- pool_row n SU pavg;
  let dA := map (fun J => dev2 y (nth J XA []) (avg J)) (seq 0 n) in
  let dP := dev2 y XP pavg in
  let sd d a := [pct_sd2 (vget d 0) (l_lol a); pct_sd2 (vget d 1) (l_eue a); pct_sd2 (vget d 2) (l_lolp a)] in
  Ok (mkRep (map (area_level_lines NF y h p) (seq 0 n)) (map (area_avg_lines y h p) (seq 0 n))
            (pool_level_lines NF y h p) (pool_avg_lines y h p)
            dA dP (area_rows n SU avg ++ [prow])
            (map (fun J => sd (nth J dA []) (avg J)) (seq 0 n)) (sd dP pavg)
            (distribution HL HL) (distribution DP HL) (distribution EU EU) (ITAB + 2 + Z.of_nat n)).

(** year.py 857-913: the report of a year end: its own accumulated statistics, and the
    table number after the annual table. *)
Definition year_report (cf : ycfg) (n : nat) (SU : list (list Qc)) (s s' : yst) (o : yout) : option (res rep) :=
  if o_report o then
    Some (report (NFCST cf) (o_year o) (if IOJ cf =? 0 then y_ITAB s else y_ITAB s + 1) SU (o_h o) (o_p o)
                 (y_HL s') (y_DP s') (y_EU s') (y_XA s') (y_XP s'))
  else None.
