(** Model of [hour]: one simulated hour (or day): draw, comparison with the load at
    each forecast level, network solution, statistics.

    The matrix inverse used by [tm1] ([inv]) and the linear-programming branch of
    [tm2] ([lp]) are parameters, as in NetModel. *)
From Verif Require Import Base SampleModel LoadModel NetModel StatModel ControlModel.
Open Scope Z_scope.

(** The run's constants read by [hour] (hour.py 14-68).  MXCRIT and JCRIT are
    missing: datax.py 175 sets MXCRIT = 0, so the loop of lines 117-133 has no
    iteration and STMULT stays all ones.  CLOCK, PLNDST, RATING come from the loop;
    IOI only selects printed output. PROBL is given by columns. *)
Record hcfg := mkHcfg {
  x_JSTEP : Z; x_JFREQ : Z; x_NFCST : nat; x_MXPLHR : list Z;
  x_PROBG : list (list Qc); x_DERATE : list Qc; x_CAPOWN : list (list Qc); x_CAPCON : list Z;
  x_PROBL : list (list Qc); x_JENT : list (list Z); x_INTCH : list (list Qc);
  x_HRLOAD : list (list Qc); x_FCTERR : list (list Qc);
  x_LINENO : list (list Z); x_BLPA : list (list Qc); x_LP : list (nat * nat); x_NR : nat; x_NLS : bool }.

(** The arrays [hour] changes in place. *)
Record hst := mkHst {
  IGSEED : list Z; ILSEED : list Z; hnet : netst; LSFLG : list Z; hrs : stat; pks : stat }.

(** hour.py 89-100: the index of the day, and the hour whose load is used *)
Definition day_index (CLOCK : Qc) : Z := hour_index CLOCK / 24.
Definition load_hour (cf : hcfg) (CLOCK : Qc) : res Z :=
  if x_JSTEP cf =? 24 then pyget (x_MXPLHR cf) (day_index CLOCK) else Ok (hour_index CLOCK).

(** hour.py 105-108: the freshly drawn state of the system: SYSCON, TRNSFJ, LNSTAT,
    TRNSFR; and the new seeds. *)
Record drawn := mkDrawn { d_IG : list Z; d_IL : list Z; d_SYSCON : list Qc; d_TRNSFJ : list Qc; d_LNSTAT : list Z; d_TRNSFR : list Qc }.
Definition draw (cf : hcfg) (CLOCK : Qc) (PLNDST RATING : list Qc) (s : hst) : res drawn :=
  let '(IG, PCTAVL, AVAIL) := gstate (IGSEED s) (x_PROBG cf) RATING (x_DERATE cf) PLNDST in
  do sc <- sumcap AVAIL (x_CAPOWN cf) (x_CAPCON cf);
  let '(CAPAVL, SYSOWN, SYSCON, TRNSFJ) := sc in
  let '(IL, LNSTAT) := lstate (ILSEED s) (x_PROBL cf) in
  do TRNSFR <- findtn (x_JENT cf) (x_INTCH cf) (day_index CLOCK);
  Ok (mkDrawn IG IL SYSCON TRNSFJ LNSTAT TRNSFR).

(** hour.py 104: [JHOUR % JFREQ == 0 or JFREQ == 1] ([%] by zero raises; with
    JSTEP = 24 the hour is a numpy integer and numpy would only warn) *)
Definition draws_now (JFREQ JHOUR : Z) : res bool :=
  if JFREQ =? 0 then Err ZeroDivisionError else Ok ((JHOUR mod JFREQ =? 0) || (JFREQ =? 1)).

(** hour.py 141: [np.where(MARGIN < 0)[0][-1]] *)
Definition short_areas (MARGIN : list Z) : list nat :=
  filter (fun i => zget MARGIN i <? 0) (seq 0 (length MARGIN)).
Definition last_short (MARGIN : list Z) : res nat := 
  match rev (short_areas MARGIN) with [] => Err IndexError | i :: _ => Ok i end.

(** hour.py 155-168: how much direct neighbours could help the only short area; the
    result NEED is not used, but the array accesses can fail. *)
Definition direct_help (cf : hcfg) (LNSTAT : list Z) (MARGIN : list Z) (IT : nat) : res Z :=
  fold_left (fun acc j =>
     do NEED <- acc;
     do row <- pyget (x_LINENO cf) (Z.of_nat j);
     do N <- pyget row (Z.of_nat IT);
     if -1 <? N then
       do st <- pyget LNSTAT N;
       do ends <- pyget (x_LP cf) N;
       do r <- pyget (x_BLPA cf) N;
       do XX <- pyget r ((st - 1) * 3 + 1 + (if Nat.eqb (fst ends) j then 0 else 1));
       Ok (NEED - Z.min (zget MARGIN j) (qtrunc XX))
     else Ok NEED)
   (filter (fun j => 0 <? zget MARGIN j) (seq 0 (length MARGIN))) (Ok (Z.abs (zget MARGIN IT))).

(** hour.py 219-244 *)
Definition record_level (cf : hcfg) (CLOCK : Qc) (JHOUR : Z) (NST : nat) (MARGIN : list Z) (s : hst) : res hst :=
  let M := map qz MARGIN in
  let '(LS, h) := hrstat NST M (LSFLG s) (hrs s) in
  do p <- pyget (x_MXPLHR cf) (day_index CLOCK);
  Ok (mkHst (IGSEED s) (ILSEED s) (hnet s) LS h (if JHOUR =? p then pkstat NST M (pks s) else pks s)).

Section HOUR.
Variable inv : list (list Qc) -> option (list (list Qc)).
Variable lp : list (list Qc) -> list (list Qc) -> list (list Qc) -> res (list Qc * list (list Qc)).

(** hour.py 135-244: the loop over the forecast levels [nsts].  [return] inside the
    loop ends it. *)
Fixpoint levels (cf : hcfg) (CLOCK : Qc) (JHOUR : Z) (d : drawn) (nsts : list nat) (IFLAG : bool) (s : hst) : res hst :=
  match nsts with
  | [] => Ok s
  | NST :: rest =>
      do CAPREQ <- findld NST JHOUR (x_HRLOAD cf) (x_FCTERR cf);
      let MARGIN := margins (d_SYSCON d) CAPREQ in
      do IT <- last_short MARGIN;
      let FLAG := length (short_areas MARGIN) in
      if Nat.eqb FLAG 0 then Ok s
      else if Nat.eqb FLAG (length (x_CAPOWN cf)) then
        do s1 <- record_level cf CLOCK JHOUR NST MARGIN s;
        levels cf CLOCK JHOUR d rest IFLAG s1
      else
        do NEED <- (if Nat.ltb 1 FLAG then Ok 0 else direct_help cf (d_LNSTAT d) MARGIN IT);
        let STMULT := repeat [q1; q1] (length (d_LNSTAT d)) in
        do r <- transm inv lp IFLAG (hnet s) (x_BLPA cf) (x_LP cf) (x_NR cf) STMULT (d_LNSTAT d) (x_NLS cf)
                  (d_TRNSFR d) (d_TRNSFJ d) (d_SYSCON d) CAPREQ;
        let '(JFLAG, FLOW, SADJ, net) := r in
        let s1 := mkHst (IGSEED s) (ILSEED s) net (LSFLG s) (hrs s) (pks s) in
        if negb JFLAG then Ok s1
        else
          let MARGIN := map (fun x => qtrunc (Qcopp x)) SADJ in
          if negb (existsb (fun m => m <? 0) MARGIN) then Ok s1
          else
            do s2 <- record_level cf CLOCK JHOUR NST MARGIN s1;
            levels cf CLOCK JHOUR d rest true s2
  end.

(** hour.py 81-251 after the [filem] call.  When no states are drawn the local names
    LNSTAT, SYSCON, ... are unbound: line 112 raises. *)
Definition hour (cf : hcfg) (CLOCK : Qc) (PLNDST RATING : list Qc) (s : hst) : res hst :=
  do JHOUR <- load_hour cf CLOCK;
  do now <- draws_now (x_JFREQ cf) JHOUR;
  if now : bool then
    do d <- draw cf CLOCK PLNDST RATING s;
    levels cf CLOCK JHOUR d (seq 0 (x_NFCST cf)) false
      (mkHst (d_IG d) (d_IL d) (hnet s) (LSFLG s) (hrs s) (pks s))
  else Err UnboundLocalError.
End HOUR.
