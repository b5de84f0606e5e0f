(** Rounding to binary64 and the float version of the functions whose exact version is in
    the other model files.  Each Python operation on floats is the exact operation followed
    by [fl].  Overflow to infinity is not modelled: [fl] has no largest exponent; the
    theorems state the ranges in which that is the same. *)
From Coq Require Import Permutation.
From Verif Require Import Base FloatSpec EventModel ControlModel SampleModel LoadModel.
Open Scope Z_scope.

(** floor of log2 of a positive rational *)
Definition ilog (x : Qc) : Z :=
  let k := Z.log2 (Qnum (this x)) - Z.log2 (Zpos (Qden (this x))) in
  if qleb (p2 k) x then k else k - 1.

(** nearest integer, ties to even *)
Definition rhe (y : Qc) : Z :=
  let f := qfloor y in
  let r := Qcminus y (qz f) in
  if qltb r (qq 1 2) then f
  else if qltb (qq 1 2) r then f + 1
  else if Z.even f then f else f + 1.

(** exponent of the last place of the binary64 numbers near x *)
Definition ulp_exp (x : Qc) : Z := Z.max (-1074) (ilog (qabs x) - 52).

(** round to nearest even *)
Definition fl (x : Qc) : Qc :=
  if qeqb x q0 then q0
  else let e := ulp_exp x in Qcmult (qz (rhe (Qcmult x (p2 (- e))))) (p2 e).

(** [a + b], [a - b], [a * b], [a / b] on Python floats *)
Definition fadd (a b : Qc) : Qc := fl (Qcplus a b).
Definition fsub (a b : Qc) : Qc := fl (Qcminus a b).
Definition fmul (a b : Qc) : Qc := fl (Qcmult a b).
Definition fdiv (a b : Qc) : Qc := fl (Qcdiv a b).

(* ------------------------------------------------------------------ *)
(** ** Sums *)

(** A sum of floats carried out in the bracketing [t].  numpy's [sum] adds pairwise in blocks,
    Python loops add from the left; the order is a parameter of the theorems. *)
Fixpoint feval (t : sumtree) : Qc :=
  match t with Leaf x => x | Node l r => fadd (feval l) (feval r) end.
(** [x] is a possible value of the float sum of [l] ([np.sum], in some order) *)
Inductive fsum_to : list Qc -> Qc -> Prop :=
| fsum_nil : fsum_to [] q0
| fsum_tree t l : Permutation (leaves t) l -> fsum_to l (feval t).

(* ------------------------------------------------------------------ *)
(** ** The simulation loop (ControlModel.v with rounding) *)

(** events.py 151-372: [ATRIB[0] = CLOCK + step] in hour.py 83, week.py 33, quartr.py 33,
    year.py 152 is rounded.  [CLOCK % 8760] (hour.py 90) is the C library's fmod, which is exact. *)
Definition fevents {W} (h : handlers W) (cf : rcfg) (NUMBER : Z) (s : lst W) (ty : Qc)
  : res (lst W) :=
  let clk := s_clock s in
  if NUMBER =? 1 then
    do c <- filem (s_cal s) (fadd clk (qz (c_JSTEP cf)), ty);
    do w <- h_hour h clk (s_plndst s) (s_rating s) (s_w s);
    Ok (mkSt c clk (s_rflag s) (hour_index clk) (s_iq s) (s_plndst s) (s_rating s) w)
  else if NUMBER =? 2 then
    do c <- filem (s_cal s) (fadd clk (qz 168), ty);
    do p <- week_status (s_jhour s) (c_JPLOUT cf) (s_plndst s);
    Ok (mkSt c clk (s_rflag s) (s_jhour s) (s_iq s) p (s_rating s) (s_w s))
  else if NUMBER =? 3 then
    let iq := next_IQ (s_iq s) in
    do r <- rates_of (c_RATES cf) iq;
    do c <- filem (s_cal s) (fadd clk (qz 8760), ty);
    Ok (mkSt c clk (s_rflag s) (s_jhour s) iq (s_plndst s) r (s_w s))
  else if NUMBER =? 4 then
    do c <- filem (s_cal s) (fadd clk (qz 8760), qz 4);
    do wr <- h_year h clk (s_w s);
    Ok (mkSt c clk (snd wr) (s_jhour s) (s_iq s) (s_plndst s) (s_rating s) (fst wr))
  else Err AssertionError.

(** contrl.py 157-388: one iteration; [FINISH + 1.0] (175) is rounded.  [CLOCK // 8760] (176) is
    the floor of the quotient of the clock, a whole number of half hours, by 8760; CPython computes
    it from the exact remainder. *)
Definition fcontrl_step {W} (h : handlers W) (cf : rcfg) (s : lst W) : outcome W :=
  let c := s_cal s in
  if IPOINT c =? -1 then PtrError
  else
    of_res (pyget (EVNTS c) (IPOINT c + 1)) (fun t =>
    if qltb t (s_clock s) then PastError
    else if s_rflag s =? 1 then Converged
    else if qltb (fadd (c_FINISH cf) q1) t then EndTime (qfloor (Qcdiv (s_clock s) (qz 8760)))
    else
      of_res (remove c) (fun r =>
      match r with
      | None => Failed TypeError
      | Some ((t', ty), c') =>
          let s1 := mkSt c' t' (s_rflag s) (s_jhour s) (s_iq s) (s_plndst s) (s_rating s) (s_w s) in
          of_res (fevents h cf (qtrunc ty) s1 ty) (fun s2 => Continue (t', ty) s2)
      end)).

Fixpoint fcontrl {W} (fuel : nat) (h : handlers W) (cf : rcfg) (s : lst W)
  : list ((Qc * Qc) * lst W) * option (outcome W) :=
  match fuel with
  | O => ([], None)
  | S f =>
      match fcontrl_step h cf s with
      | Continue e s' => let (log, o) := fcontrl f h cf s' in ((e, s') :: log, o)
      | o => ([], Some o)
      end
  end.

(** year.py 156: [IYEAR = int((CLOCK + 1) / 8760)] *)
Definition fyear_number (CLOCK : Qc) : Z := qtrunc (fdiv (fadd CLOCK q1) (qz 8760)).
(** hour.py 94-96: [np.floor(JHOUR / 24).astype(int)] *)
Definition fday_number (JHOUR : Z) : Z := qfloor (fdiv (qz JHOUR) (qz 24)).

(* ------------------------------------------------------------------ *)
(** ** Sampling *)

(** the Python literal 0.4656613e-9 *)
Definition seed_scale : Qc := fl (qq 4656613 10000000000000000).
(** gstate.py 37-39, lstate.py 30-32: [float(seed) * 0.4656613e-9] (an int32 is a float exactly) *)
Definition frand_of (s : Z) : Qc := fmul (qz s) seed_scale.

(** gstate.py 31-51 *)
Fixpoint fgstate (IGSEED : list Z) (PROBG : list (list Qc)) (RATING DERATE PLNDST : list Qc)
  {struct PROBG} : list Z * list Qc * list Qc :=
  match PROBG, IGSEED, RATING, DERATE, PLNDST with
  | p :: ps, s :: ss, r :: rs, d :: ds, o :: os =>
      let s' := next_seed s 65539 in
      let f := gen_fraction (frand_of s') (nth 0 p q0) (nth 1 p q0) d in
      let '(ss', fs, av) := fgstate ss ps rs ds os in
      (s' :: ss', f :: fs, fmul (fmul f r) o :: av)
  | _, ss, _, _, _ => (ss, [], [])
  end.

(** lstate.py 21-48 *)
Fixpoint flstate (ILSEED : list Z) (PROBL : list (list Qc)) {struct PROBL} : list Z * list Z :=
  match PROBL, ILSEED with
  | p :: ps, s :: ss =>
      let s' := next_seed s 65539 in
      let '(ss', st) := flstate ss ps in (s' :: ss', line_state (frand_of s') p :: st)
  | _, ss => (ss, [])
  end.

(** seeds after a history of calls of [gstate] (hour.py 104-107), as [gseeds_after] of SampleModel.v *)
Fixpoint fgseeds_after (hist : list (list Qc * list Qc)) (IG : list Z) (PROBG : list (list Qc)) (DERATE : list Qc) : list Z :=
  match hist with
  | [] => IG
  | (rt, pl) :: h => fgseeds_after h (fst (fst (fgstate IG PROBG rt DERATE pl))) PROBG DERATE
  end.

(* ------------------------------------------------------------------ *)
(** ** Capacity, contracts, loads (LoadModel.v with rounding) *)

(** sumcap.py 32-34 *)
Fixpoint fsyscon_loop (AVAIL : list Qc) (CAPCON : list Z) (SYSCON : list Qc) : res (list Qc) :=
  match AVAIL, CAPCON with
  | a :: A, j :: C =>
      do v <- pyget SYSCON j;
      do s <- pyset SYSCON j (fadd v a);
      fsyscon_loop A C s
  | _, _ => Ok SYSCON
  end.

(** [v[j] += x] *)
Definition faddv (v : list Qc) (j : nat) (x : Qc) : list Qc := upd v j (fadd (nth j v q0) x).
(** findtn.py 22-28 *)
Definition ffindtn (JENT : list (list Z)) (INTCH : list (list Qc)) (JDAY : Z) : res (list Qc) :=
  fold_left (fun acc c => let '(j1, j2, p) := c in
     do t <- acc; do x <- intch INTCH p JDAY; Ok (faddv (faddv t j1 x) j2 (Qcopp x)))
    (contracts JENT) (Ok (vzeros (length JENT))).

(** [HRLOAD[j, a:b] += x] *)
Definition fadd_slice (H : list (list Qc)) (j a b : nat) (x : Qc) : list (list Qc) :=
  upd H j (mapi (fun k v => if (a <=? k)%nat && (k <? b)%nat then fadd v x else v) (nth j H [])).
(** xporta.py 22-24 *)
Definition fxporta_day (j1 j2 : nat) (H : list (list Qc)) (dx : nat * Qc) : list (list Qc) :=
  let '(d, x) := dx in
  fadd_slice (fadd_slice H j1 (d * 24) ((d + 1) * 24) x) j2 (d * 24) ((d + 1) * 24) (Qcopp x).
(** xporta.py 20-24 *)
Definition fxporta (JENT : list (list Z)) (INTCH : list (list Qc)) (HRLOAD : list (list Qc))
  : res (list (list Qc)) :=
  fold_left (fun acc c => let '(j1, j2, p) := c in
     do H <- acc; do row <- pyget INTCH p;
     Ok (fold_left (fxporta_day j1 j2)
           (filter (fun dx => negb (qeqb (snd dx) q0)) (combine (seq 0 (length row)) row)) H))
    (contracts JENT) (Ok HRLOAD).
(** xports.py 19-20 *)
Definition fxports (JENT : list (list Z)) (INTCH : list (list Qc)) (HRLOAD : list (list Qc)) :=
  fxporta JENT (map (map Qcopp) INTCH) HRLOAD.

(** xldnew.py 38-43; the default 0.001 of [np.amax] is the rounded literal *)
Definition famax_init (row : list Qc) : Qc := fold_left qmax row (fl (qq 1 1000)).
Definition frescale (row : list Qc) (pk : Qc) : list Qc :=
  map (fun v => fmul (fdiv v (famax_init row)) pk) row.

(** datax.py 79-84 *)
Definition ffcterr_row (fu : Qc) : list Qc :=
  [fadd q1 (fdiv (fmul fu (qq 5 2)) (qz 100));
   fadd q1 (fdiv fu (qz 100));
   q1;
   fsub q1 (fdiv fu (qz 100));
   fsub q1 (fdiv (fmul fu (qq 5 2)) (qz 100))].

(** findld.py 17 *)
Definition ffindld (NFACT : nat) (JHOUR : Z) (HRLOAD FCTERR : list (list Qc)) : res (list Qc) :=
  fold_right (fun p acc => do rest <- acc; do v <- pyget (fst p) JHOUR;
                           Ok (fmul v (nth NFACT (snd p) q0) :: rest)) (Ok []) (combine HRLOAD FCTERR).

(** hour.py 139 *)
Definition fmargins (SYSCON CAPREQ : list Qc) : list Z :=
  map2 (fun a b => qtrunc (fsub a b)) SYSCON CAPREQ.
