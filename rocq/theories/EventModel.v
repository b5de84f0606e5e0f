(** Model of the event calendar: [filem], [remove], [initfl], [initl], [_initl]
    (monte_carlo/filem.py, remove.py, initfl.py, initl.py).

    The array EVNTS is a list of numbers; cell [p] of a slot holds the pointer
    to the next slot (as a number), [p+1] the time, [p+2] the type, [p+3] is
    unused.  Array accesses follow Python's rules (negative indices count from
    the end, anything else out of range raises IndexError). *)
From Verif Require Import Base.
Open Scope Z_scope.

(** The scalars and the array that make up a calendar in the callers
    (contrl.py 4-155: MFA, NUMINQ, IPOINT, EVNTS). *)
Record cal := mkCal { MFA : Z; NUMINQ : Z; IPOINT : Z; EVNTS : list Qc }.

(** filem.py 39-45: the [while ATRIB[0] > EVNTS[j + 1]] loop.  Result [(K, j)];
    [j = -1] stands for the early return at line 42.  [fuel] bounds the number
    of iterations; the caller passes the number of cells, more than any acyclic
    chain of slots has. *)
Fixpoint filem_walk (fuel : nat) (t : Qc) (ev : list Qc) (K j : Z) : res (Z * Z) :=
  match fuel with
  | O => Err OutOfFuel
  | S f =>
      do tj <- pyget ev (j + 1);
      if qltb tj t then                              (* ATRIB[0] > EVNTS[j+1] *)
        do nx <- pyget ev j;
        let j' := qtrunc nx in                       (* j = int(EVNTS[j]) *)
        if j' =? -1 then Ok (j, -1) else filem_walk f t ev j j'
      else Ok (K, j)
  end.

(** filem.py 1-60 [filem(MFA, ATRIB, NUMINQ, IPOINT, EVNTS)]. *)
Definition filem (c : cal) (atrib : Qc * Qc) : res cal :=
  let NEW := MFA c in
  do ev1 <- pyset (EVNTS c) (NEW + 1) (fst atrib);
  do ev2 <- pyset ev1 (NEW + 2) (snd atrib);
  let n := NUMINQ c + 1 in
  do m <- pyget ev2 (MFA c);
  let mfa := qtrunc m in
  if -1 <? IPOINT c then
    let j := IPOINT c in
    do tj <- pyget ev2 (j + 1);
    if qltb tj (fst atrib) then
      do kj <- filem_walk (length ev2) (fst atrib) ev2 0 j;
      let '(K, j1) := kj in
      if j1 =? -1 then                                (* lines 42-45 *)
        do ev3 <- pyset ev2 K (qz NEW);
        do ev4 <- pyset ev3 NEW (qz (-1));
        Ok (mkCal mfa n (IPOINT c) ev4)
      else                                            (* lines 47-50 *)
        do ev3 <- pyset ev2 NEW (qz j1);
        do ev4 <- pyset ev3 K (qz NEW);
        Ok (mkCal mfa n (IPOINT c) ev4)
    else                                              (* lines 52-56 *)
      do ev3 <- pyset ev2 NEW (qz j);
      Ok (mkCal mfa n NEW ev3)
  else                                                (* lines 57-60 *)
    do ev3 <- pyset ev2 NEW (qz (-1));
    Ok (mkCal mfa n NEW ev3).

(** remove.py 4-49 [remove(NUMINQ, ATRIB, EVNTS, IPOINT)]: the event taken and
    the new calendar.  [Ok None] is Python's bare [return] at line 32 (the
    caller then fails to unpack None); [Err SystemExit] is [sys.exit()] at 29. *)
Definition remove (c : cal) : res (option ((Qc * Qc) * cal)) :=
  if NUMINQ c <=? 0 then Err SystemExit
  else if IPOINT c <? 0 then Ok None
  else
    do t <- pyget (EVNTS c) (IPOINT c + 1);
    do ty <- pyget (EVNTS c) (IPOINT c + 2);
    let n := NUMINQ c - 1 in
    let mfa := IPOINT c in
    do ev1 <- pyset (EVNTS c) (IPOINT c + 1) q0;
    do ev2 <- pyset ev1 (IPOINT c + 2) q0;
    do nx <- pyget ev2 (IPOINT c);
    Ok (Some ((t, ty), mkCal mfa n (qtrunc nx) ev2)).

(** initfl.py 4-25: [MXCELL] cells of zeros, cells 0,4,..,MXCELL-8 point to the
    following slot; NUMINQ starts at 0 (narpMain.py passes the fresh calendar
    to [initl], which sets it). *)
Definition MXCELL : nat := 100.
Definition initfl_cells : list Qc :=
  map (fun i => if (Nat.eqb (i mod 4) 0 && Nat.ltb i (MXCELL - 4))%bool
                then qz (Z.of_nat i + 4) else q0) (seq 0 MXCELL).
Definition initfl : cal := mkCal 0 0 (-1) initfl_cells.

(** initl.py 102-112: the hard-wired first 28 cells. *)
Definition initl_cells (JSTEP : Z) : list Qc :=
  [ qz 24; qq 1 2;      qz 3; q0;
    qz 8;  qq 4369 2;   qz 3; q0;
    qz 12; qq 8737 2;   qz 3; q0;
    qz 16; qq 13105 2;  qz 3; q0;
    qz (-1); qz 8760;   qz 4; q0;
    qz 0;  qq 1 2;      qz 2; q0;
    qz 4;  qz JSTEP;    qz 1; q0 ].

(** initl.py 77-120 [initl(JSTEP, EVNTS)] (ATRIB and CLOCK = 0 are handled in
    the loop model). *)
Definition initl (JSTEP : Z) (ev : list Qc) : cal :=
  mkCal 28 7 20 (initl_cells JSTEP ++ skipn 28 ev).

(** initl.py 6-74 [_initl(JSTEP, EVNTS, IPOINT, MFA, NUMINQ, QTR)]. *)
Definition initl_alt (JSTEP : Z) (c : cal) (QTR : Qc * Qc * Qc) : res cal :=
  let '(Q1, Q2, Q3) := QTR in
  do c1 <- filem c (qq 1 2, qz 3);
  do c2 <- filem c1 (Q1, qz 3);
  do c3 <- filem c2 (Q2, qz 3);
  do c4 <- filem c3 (Q3, qz 3);
  do c5 <- filem c4 (qz 8760, qz 4);
  do c6 <- filem c5 (qq 1 2, qz 2);
  filem c6 (qz JSTEP, qz 1).
