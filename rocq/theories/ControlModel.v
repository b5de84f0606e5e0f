(** Model of the simulation loop: [contrl], [events], [week], [quartr] and the
    calendar part of [hour] and [year].

    The numerical work of [hour] (sampling, network solution, statistics) and
    of [year] (accumulation, convergence test) is a parameter here, so every
    theorem about the loop holds for every behaviour of it, including failure. *)
From Verif Require Import Base EventModel.
Open Scope Z_scope.

(** What the two big handlers do apart from rescheduling themselves.
    [h_hour clock PLNDST RATING w]: hour.py 97-251 after the [filem] call;
    [h_year clock w]: year.py 159-915 after its [filem] call, with the new
    value of RFLAG.  [W] stands for all other data of the program (seeds,
    statistics, network work arrays ...). *)
Record handlers (W : Type) := mkHandlers {
  h_hour : Qc -> list Qc -> list Qc -> W -> res W;
  h_year : Qc -> W -> res (W * Z) }.
Arguments h_hour {W}. Arguments h_year {W}.

(** The run's constants used by the loop (contrl.py 6-155 arguments). *)
Record rcfg := mkCfg {
  c_JSTEP : Z; c_FINISH : Qc; c_RATES : list (list Qc); c_JPLOUT : list (list Z) }.

(** The loop's variables (contrl.py locals). *)
Record lst (W : Type) := mkSt {
  s_cal : cal; s_clock : Qc; s_rflag : Z; s_jhour : Z; s_iq : Z;
  s_plndst : list Qc; s_rating : list Qc; s_w : W }.
Arguments mkSt {W}. Arguments s_cal {W}. Arguments s_clock {W}. Arguments s_rflag {W}.
Arguments s_jhour {W}. Arguments s_iq {W}. Arguments s_plndst {W}. Arguments s_rating {W}.
Arguments s_w {W}.

(** Python's [x % m] for a number [x] and an integer [m] > 0. *)
Definition qmod (x : Qc) (m : Z) : Qc :=
  Qcminus x (Qcmult (qz m) (qz (qfloor (Qcdiv x (qz m))))).

(** Python's [row[a:b]] for [a >= 0]. *)
Definition pyslice {A} (l : list A) (a : nat) (b : Z) : list A :=
  let stop := if b <? 0 then Z.max 0 (Z.of_nat (length l) + b) else b in
  skipn a (firstn (Z.to_nat stop) l).

(** numpy [v[idx] = x] with an array of indices: every index is checked. *)
Fixpoint fancy_set (v : list Qc) (idx : list Z) (x : Qc) : res (list Qc) :=
  match idx with
  | [] => Ok v
  | i :: r => do v' <- pyset v i x; fancy_set v' r x
  end.

(** week.py 38-47: the new planned-status vector. *)
Definition week_status (JHOUR : Z) (JPLOUT : list (list Z)) (PLNDST : list Qc) : res (list Qc) :=
  let ones := repeat q1 (length PLNDST) in
  let JWEEK := JHOUR / 168 in
  if 51 <? JWEEK then Ok ones
  else
    do row <- pyget JPLOUT JWEEK;
    do MT <- pyget row 0;
    fancy_set ones (pyslice row 1 (MT + 1)) q0.

(** quartr.py 31-32. *)
Definition next_IQ (IQ : Z) : Z := (IQ + 1) mod 4.
Definition rates_of (RATES : list (list Qc)) (IQ : Z) : res (list Qc) :=
  fold_right (fun row acc => do x <- pyget row IQ; do l <- acc; Ok (x :: l)) (Ok []) RATES.

(** hour.py 90-91: [JHOUR = -1 + int(CLOCK % 8760)]. *)
Definition hour_index (CLOCK : Qc) : Z := -1 + qtrunc (qmod CLOCK 8760).

(** events.py 151-372 with the handler bodies of hour.py 81-104, week.py 31-49,
    quartr.py 31-36, year.py 150-156.  [(t, ty)] is ATRIB after [remove]; the
    handlers overwrite ATRIB[0] and leave ATRIB[1] (year writes 4 again). *)
Definition events {W} (h : handlers W) (cf : rcfg) (NUMBER : Z) (s : lst W) (ty : Qc)
  : res (lst W) :=
  let clk := s_clock s in
  if NUMBER =? 1 then
    do c <- filem (s_cal s) (Qcplus clk (qz (c_JSTEP cf)), ty);
    do w <- h_hour h clk (s_plndst s) (s_rating s) (s_w s);
    Ok (mkSt c clk (s_rflag s) (hour_index clk) (s_iq s) (s_plndst s) (s_rating s) w)
  else if NUMBER =? 2 then
    do c <- filem (s_cal s) (Qcplus clk (qz 168), ty);
    do p <- week_status (s_jhour s) (c_JPLOUT cf) (s_plndst s);
    Ok (mkSt c clk (s_rflag s) (s_jhour s) (s_iq s) p (s_rating s) (s_w s))
  else if NUMBER =? 3 then
    let iq := next_IQ (s_iq s) in
    do r <- rates_of (c_RATES cf) iq;
    do c <- filem (s_cal s) (Qcplus clk (qz 8760), ty);
    Ok (mkSt c clk (s_rflag s) (s_jhour s) iq (s_plndst s) r (s_w s))
  else if NUMBER =? 4 then
    do c <- filem (s_cal s) (Qcplus clk (qz 8760), qz 4);
    do wr <- h_year h clk (s_w s);
    Ok (mkSt c clk (snd wr) (s_jhour s) (s_iq s) (s_plndst s) (s_rating s) (fst wr))
  else Err AssertionError.                              (* events.py 151 *)

(** How one iteration of the loop of contrl.py 157-388 ends. *)
Inductive outcome (W : Type) :=
| PtrError                       (* 158-160 *)
| PastError                      (* 162-169 *)
| Converged                      (* 171-172 *)
| EndTime (iyear : Z)            (* 174-247: report and return *)
| Continue (e : Qc * Qc) (s : lst W)   (* the event delivered and the new state *)
| Failed (e : pyerr).            (* an exception *)
Arguments PtrError {W}. Arguments PastError {W}. Arguments Converged {W}.
Arguments EndTime {W}. Arguments Continue {W}. Arguments Failed {W}.

Definition of_res {W A} (m : res A) (k : A -> outcome W) : outcome W :=
  match m with Ok a => k a | Err e => Failed e end.

(** contrl.py 157-388: one iteration. *)
Definition contrl_step {W} (h : handlers W) (cf : rcfg) (s : lst W) : outcome W :=
  let c := s_cal s in
  if IPOINT c =? -1 then PtrError
  else
    of_res (pyget (EVNTS c) (IPOINT c + 1)) (fun t =>
    if qltb t (s_clock s) then PastError
    else if s_rflag s =? 1 then Converged
    else if qltb (Qcplus (c_FINISH cf) q1) t then EndTime (qfloor (Qcdiv (s_clock s) (qz 8760)))
    else
      of_res (remove c) (fun r =>
      match r with
      | None => Failed TypeError
      | Some ((t', ty), c') =>
          let s1 := mkSt c' t' (s_rflag s) (s_jhour s) (s_iq s) (s_plndst s) (s_rating s) (s_w s) in
          of_res (events h cf (qtrunc ty) s1 ty) (fun s2 => Continue (t', ty) s2)
      end)).

(** [contrl] with fuel: the log of delivered events, each with the state after
    its handler, and how the run ended ([None]: fuel used up, still running). *)
Fixpoint contrl {W} (fuel : nat) (h : handlers W) (cf : rcfg) (s : lst W)
  : list ((Qc * Qc) * lst W) * option (outcome W) :=
  match fuel with
  | O => ([], None)
  | S f =>
      match contrl_step h cf s with
      | Continue e s' => let (log, o) := contrl f h cf s' in ((e, s') :: log, o)
      | o => ([], Some o)
      end
  end.

(** narpMain.py 81-125: the state the loop is started in. [nu] units. *)
Definition start {W} (cf : rcfg) (nu : nat) (w : W) : lst W :=
  mkSt (initl (c_JSTEP cf) initfl_cells) q0 0 0 0 (vzeros nu) (vzeros nu) w.
