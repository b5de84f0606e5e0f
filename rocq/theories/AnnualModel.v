(** Model of the annual table printed by [year] when IOJ <> 0: the numbers of each line,
    not the column layout. *)
From Verif Require Import Base LoadModel StatModel YearModel.
Open Scope Z_scope.

(** year.py 142: the remarks XG = "GC", XT = "TC", XS = "GT" *)
Inductive remark := GC | TC | GT.
(** One printed line.  [t_area], [t_level]: the numbers printed in the first two columns
    (None: the pool's lines have no area column, the averages print "AV" for the level);
    [t_hourly]: hours, XLOL, EUE, absent with the daily layout (INDX = 1); [t_days],
    [t_mw]: the peak columns LOLE and XLOL; [t_remark]: the last column. *)
Record tline := mkTline { t_area : option Z; t_level : option Z; t_hourly : option (Qc * Qc * Qc); t_days : Qc; t_mw : Qc; t_remark : remark }.

(** year.py 340-357 and every block like it: one [f.write] *)
Definition put (INDX : Z) (a k : option Z) (lolh xh mgnh lolp xp : Qc) (r : remark) : tline :=
  mkTline a k (if INDX =? 1 then None else Some (lolh, xh, mgnh)) lolp xp r.
(** year.py 330-338 and every block like it: XMGN? = MGN / LOL, or 0.0 *)
Definition xmgn (mgn lol : Qc) : Qc := if qltb q0 lol then Qcdiv mgn lol else q0.

(** year.py 329-417: the lines of area J at level N.  With INDX = 1 the third one ends
    in XT like the second (417).  LOLSHA, MGNSHA, LOLSPA, MGNSPA are computed at
    186, 197, 213, 223. *)
Definition area_level (INDX : Z) (NF : nat) (h p : stat) (J N : nat) : list tline :=
  let g M := qz (zmget M J N) in
  let s T G := qz (zmget (map2 (sumfirst NF) T G) J N) in
  let w := put INDX (Some (Z.of_nat J)) (Some (Z.of_nat N)) in
  [ w (g (lolG h)) (xmgn (g (mgnG h)) (g (lolG h))) (g (mgnG h)) (g (lolG p)) (xmgn (g (mgnG p)) (g (lolG p))) GC;
    w (g (lolT h)) (xmgn (g (mgnT h)) (g (lolT h))) (g (mgnT h)) (g (lolT p)) (xmgn (g (mgnT p)) (g (lolT p))) TC;
    w (s (lolT h) (lolG h)) (xmgn (s (mgnT h) (mgnG h)) (s (lolT h) (lolG h))) (s (mgnT h) (mgnG h))
      (s (lolT p) (lolG p)) (xmgn (s (mgnT p) (mgnG p)) (s (lolT p) (lolG p))) (if INDX =? 1 then TC else GT) ].

(** year.py 419-481: the three averages of area J; WOL?A, WGN?A are zero before the
    year's weighted values are added (191-194, 201-203, 217-219, 227-229, 612-625) *)
Definition area_average (INDX : Z) (NF : nat) (h p : stat) (J : nat) : list tline :=
  let g M := weighted NF (nth J M []) in
  let s T G := weighted NF (nth J (map2 (sumfirst NF) T G) []) in
  let w := put INDX (Some (Z.of_nat J)) None in
  [ w (g (lolG h)) (xmgn (g (mgnG h)) (g (lolG h))) (g (mgnG h)) (g (lolG p)) (xmgn (g (mgnG p)) (g (lolG p))) GC;
    w (g (lolT h)) (xmgn (g (mgnT h)) (g (lolT h))) (g (mgnT h)) (g (lolT p)) (xmgn (g (mgnT p)) (g (lolT p))) TC;
    w (s (lolT h) (lolG h)) (xmgn (s (mgnT h) (mgnG h)) (s (lolT h) (lolG h))) (s (mgnT h) (mgnG h))
      (s (lolT p) (lolG p)) (xmgn (s (mgnT p) (mgnG p)) (s (lolT p) (lolG p))) GT ].

(** year.py 328-481 *)
Definition area_lines (INDX : Z) (NF : nat) (h p : stat) (J : nat) : list tline :=
  flat_map (area_level INDX NF h p J) (seq 0 NF) ++ area_average INDX NF h p J.

(** the value XMGNP has after the areas' lines (the last one assigned at 466-468), if any area was printed *)
Definition xmgnp_left (NF n : nat) (p : stat) : option Qc :=
  match n with
  | O => None
  | S J => let s T G := weighted NF (nth J (map2 (sumfirst NF) T G) []) in Some (xmgn (s (mgnT p) (mgnG p)) (s (lolT p) (lolG p)))
  end.

(** reading a local name that may not have been assigned *)
Definition bound (x : option Qc) : res Qc := match x with Some v => Ok v | None => Err UnboundLocalError end.

(** year.py 485-547: the pool's lines at level N; [xh xp] the values of XMGNH and XMGNP
    before.  The first line has no else branch (486-494); the daily layout does not read
    XMGNH (502-505). *)
Definition pool_level (INDX : Z) (NF : nat) (h p : stat) (N : nat) (xh xp : option Qc) : res (list tline * option Qc * option Qc) :=
  let g v := qz (zget v N) in
  let s T G := qz (zget (sumfirst NF T G) N) in
  let w := put INDX None (Some (Z.of_nat N)) in
  let xh := if qltb q0 (g (plolG h)) then Some (Qcdiv (g (pmgnG h)) (g (plolG h))) else xh in
  let xp := if qltb q0 (g (plolG p)) then Some (Qcdiv (g (pmgnG p)) (g (plolG p))) else xp in
  do vh <- (if INDX =? 1 then Ok q0 else bound xh);
  do vp <- bound xp;
  let th := xmgn (g (pmgnT h)) (g (plolT h)) in
  let tp := xmgn (g (pmgnT p)) (g (plolT p)) in
  let sh := xmgn (s (pmgnT h) (pmgnG h)) (s (plolT h) (plolG h)) in
  let sp := xmgn (s (pmgnT p) (pmgnG p)) (s (plolT p) (plolG p)) in
  Ok ([ w (g (plolG h)) vh (g (pmgnG h)) (g (plolG p)) vp GC;
        w (g (plolT h)) th (g (pmgnT h)) (g (plolT p)) tp TC;
        w (s (plolT h) (plolG h)) sh (s (pmgnT h) (pmgnG h)) (s (plolT p) (plolG p)) sp GT ], Some sh, Some sp).
Fixpoint pool_levels (INDX : Z) (NF : nat) (h p : stat) (Ns : list nat) (xh xp : option Qc) : res (list tline) :=
  match Ns with
  | [] => Ok []
  | N :: r =>
      do q <- pool_level INDX NF h p N xh xp;
      let '(ls, xh', xp') := q in
      do rest <- pool_levels INDX NF h p r xh' xp';
      Ok (ls ++ rest)
  end.
(** year.py 549-609: the pool's averages *)
Definition pool_average (INDX : Z) (NF : nat) (h p : stat) : list tline :=
  let g v := weighted NF v in
  let s T G := weighted NF (sumfirst NF T G) in
  let w := put INDX None None in
  [ w (g (plolG h)) (xmgn (g (pmgnG h)) (g (plolG h))) (g (pmgnG h)) (g (plolG p)) (xmgn (g (pmgnG p)) (g (plolG p))) GC;
    w (g (plolT h)) (xmgn (g (pmgnT h)) (g (plolT h))) (g (pmgnT h)) (g (plolT p)) (xmgn (g (pmgnT p)) (g (plolT p))) TC;
    w (s (plolT h) (plolG h)) (xmgn (s (pmgnT h) (pmgnG h)) (s (plolT h) (plolG h))) (s (pmgnT h) (pmgnG h))
      (s (plolT p) (plolG p)) (xmgn (s (pmgnT p) (pmgnG p)) (s (plolT p) (plolG p))) GT ].

(** year.py 309-609, entered when IOJ <> 0 *)
Definition annual_table (INDX : Z) (NF n : nat) (h p : stat) : res (list tline) :=
  do pl <- pool_levels INDX NF h p (seq 0 NF) None (xmgnp_left NF n p);
  Ok (flat_map (area_lines INDX NF h p) (seq 0 n) ++ pl ++ pool_average INDX NF h p).
