(** Model of the loss statistics: [hrstat], [_hrstat], [pkstat], [_pkstat].

    The arrays LOL*/MGN* are created as floats (narpMain.py 118-133) but every value
    added to them is an integer, so their entries are integers here.  One record
    holds the eight arrays of one kind, hourly (names with H) or peak (P). *)
From Verif Require Import Base LoadModel.
Open Scope Z_scope.

Record stat := mkStat {
  lolG : list (list Z);  (* LOLG?A, one row per area, one column per forecast level *)
  lolT : list (list Z);  (* LOLT?A *)
  mgnG : list (list Z);  (* MGNG?A *)
  mgnT : list (list Z);  (* MGNT?A *)
  plolG : list Z;        (* LOLG?P *)
  plolT : list Z;        (* LOLT?P *)
  pmgnG : list Z;        (* MGNG?P *)
  pmgnT : list Z }.      (* MGNT?P *)

(** [v[i] += x], [M[i,j] += x] *)
Definition addz (v : list Z) (i : nat) (x : Z) : list Z := upd v i (zget v i + x).
Definition maddz (M : list (list Z)) (i j : nat) (x : Z) : list (list Z) := mupd M i j (zmget M i j + x).

Definition enumerate {A} (l : list A) : list (nat * A) := combine (seq 0 (length l)) l.

(** hrstat.py 51-54, pkstat.py 49-52 and 112-115: the pool counter *)
Definition pool_count (NST : nat) (SUM : Qc) (s : stat) : stat :=
  if qleb q0 SUM
  then mkStat (lolG s) (lolT s) (mgnG s) (mgnT s) (plolG s) (addz (plolT s) NST 1) (pmgnG s) (pmgnT s)
  else mkStat (lolG s) (lolT s) (mgnG s) (mgnT s) (addz (plolG s) NST 1) (plolT s) (pmgnG s) (pmgnT s).

(** hrstat.py 56-66, pkstat.py 54-63: one area with X < 0.  [int(-X)] and [-int(X)]
    are the same number. *)
Definition area_loss (NST : nat) (SUM : Qc) (j : nat) (X : Qc) (s : stat) : stat :=
  let d := qtrunc (Qcopp X) in
  if qltb q0 SUM
  then mkStat (lolG s) (maddz (lolT s) j NST 1) (mgnG s) (maddz (mgnT s) j NST d) (plolG s) (plolT s) (pmgnG s) (addz (pmgnT s) NST d)
  else mkStat (maddz (lolG s) j NST 1) (lolT s) (maddz (mgnG s) j NST d) (mgnT s) (plolG s) (plolT s) (addz (pmgnG s) NST d) (pmgnT s).

(** hrstat.py 1-66: (LSFLG, statistics) *)
Definition hrstat (NST : nat) (MARGIN : list Qc) (LSFLG : list Z) (s : stat) : list Z * stat :=
  let SUM := qsum MARGIN in
  fold_left (fun st p => let '(j, X) := p in
               if qltb X q0 then (addz (fst st) j 1, area_loss NST SUM j X (snd st)) else st)
            (enumerate MARGIN) (LSFLG, pool_count NST SUM s).

(** pkstat.py 1-63 [_pkstat] *)
Definition pkstat_loop (NST : nat) (MARGIN : list Qc) (s : stat) : stat :=
  let SUM := qsum MARGIN in
  fold_left (fun st p => let '(j, X) := p in if qltb X q0 then area_loss NST SUM j X st else st)
            (enumerate MARGIN) (pool_count NST SUM s).

(** [v[MARGIN < 0] += 1] *)
Definition mask_inc (MARGIN : list Qc) (v : list Z) : list Z :=
  map2 (fun X e => if qltb X q0 then e + 1 else e) MARGIN v.
(** [M[:, NST][MARGIN < 0] += f(MARGIN[MARGIN < 0])] *)
Definition mask_add (NST : nat) (MARGIN : list Qc) (f : Qc -> Z) (M : list (list Z)) : list (list Z) :=
  map2 (fun X r => if qltb X q0 then addz r NST (f X) else r) MARGIN M.
(** [MARGIN[MARGIN < 0].sum()] *)
Definition neg_sum (MARGIN : list Qc) : Qc := qsum (filter (fun X => qltb X q0) MARGIN).

(** hrstat.py 124-132, pkstat.py 117-124: the part for the areas, vectorised *)
Definition areas_vec (NST : nat) (MARGIN : list Qc) (s : stat) : stat :=
  let SUM := qsum MARGIN in
  let one := mask_add NST MARGIN (fun _ => 1) in
  let mag := mask_add NST MARGIN (fun X => - qtrunc X) in
  let tot v := addz v NST (- qtrunc (neg_sum MARGIN)) in
  if qltb q0 SUM
  then mkStat (lolG s) (one (lolT s)) (mgnG s) (mag (mgnT s)) (plolG s) (plolT s) (pmgnG s) (tot (pmgnT s))
  else mkStat (one (lolG s)) (lolT s) (mag (mgnG s)) (mgnT s) (plolG s) (plolT s) (tot (pmgnG s)) (pmgnT s).

(** hrstat.py 69-132 [_hrstat] *)
Definition hrstat_vec (NST : nat) (MARGIN : list Qc) (LSFLG : list Z) (s : stat) : list Z * stat :=
  (mask_inc MARGIN LSFLG, areas_vec NST MARGIN (pool_count NST (qsum MARGIN) s)).

(** pkstat.py 66-124 [pkstat], the one in use *)
Definition pkstat (NST : nat) (MARGIN : list Qc) (s : stat) : stat :=
  areas_vec NST MARGIN (pool_count NST (qsum MARGIN) s).
