(** Model of the critical units of lines: hour.py 110-133, which HourModel leaves out
    because the data preparation always delivers MXCRIT = 0 (datax.py 175). *)
From Verif Require Import Base SampleModel LoadModel NetModel StatModel ControlModel HourModel.
Open Scope Z_scope.

(** hour.py 121-127: CRTVAL, the sum over [ii in range(NOCRIT)]; an entry outside 1..499 is only
    reported on the terminal *)
Definition crit_value (AVAIL : list Qc) (JCRIT : list Z) (JPNT : Z) (NOCRIT : Z) : res Qc :=
  fold_left (fun acc ii =>
      do v <- acc;
      do u <- pyget JCRIT (JPNT + 1 + Z.of_nat ii);
      if (0 <? u) && (u <=? 500 - 1) then do a <- pyget AVAIL u; Ok (Qcplus v a) else Ok v)
    (seq 0 (Z.to_nat NOCRIT)) (Ok q0).

(** hour.py 130-131: [STMULT[line, c] = float(p) / 100.0] *)
Definition crit_set (STMULT : list (list Qc)) (line : Z) (c : nat) (p : Z) : res (list (list Qc)) :=
  do row <- pyget STMULT line; pyset STMULT line (upd row c (Qcdiv (qz p) (qz 100))).

(** hour.py 117-133: the loop over [i in range(MXCRIT)]; JCRIT holds integers *)
Fixpoint crit_loop (AVAIL : list Qc) (JCRIT : list Z) (MXCRIT : nat) (JPNT : Z) (STMULT : list (list Qc)) : res (list (list Qc)) :=
  match MXCRIT with
  | O => Ok STMULT
  | S m =>
      do line <- pyget JCRIT JPNT;
      if line =? 0 then crit_loop AVAIL JCRIT m (JPNT + 1) STMULT
      else
        do NOCRIT <- pyget JCRIT (JPNT + 1);
        do CRTVAL <- crit_value AVAIL JCRIT JPNT NOCRIT;
        do S' <- (if qeqb CRTVAL q0 then
                    do f <- pyget JCRIT (JPNT + NOCRIT + 3); do S1 <- crit_set STMULT line 0 f;
                    do b <- pyget JCRIT (JPNT + NOCRIT + 4); crit_set S1 line 1 b
                  else Ok STMULT);
        crit_loop AVAIL JCRIT m (JPNT + (NOCRIT + 5)) S'
  end.
(** hour.py 112-115: NLINES, STMULT, JPNT *)
Definition stmult (AVAIL : list Qc) (JCRIT : list Z) (MXCRIT : nat) (NLINES : nat) : res (list (list Qc)) :=
  crit_loop AVAIL JCRIT MXCRIT 0 (repeat [q1; q1] NLINES).

Section HOUR.
Variable inv : list (list Qc) -> option (list (list Qc)).
Variable lp : list (list Qc) -> list (list Qc) -> list (list Qc) -> res (list Qc * list (list Qc)).

(** hour.py 135-244 as HourModel.levels, for any STMULT *)
Fixpoint crit_levels (STMULT : list (list Qc)) (cf : hcfg) (CLOCK : Qc) (JHOUR : Z) (d : drawn) (nsts : list nat) (IFLAG : bool) (s : hst) : res hst :=
  match nsts with
  | [] => Ok s
  | NST :: rest =>
      do CAPREQ <- findld NST JHOUR (x_HRLOAD cf) (x_FCTERR cf);
      let MARGIN := margins (d_SYSCON d) CAPREQ in
      do IT <- last_short MARGIN;
      let FLAG := length (short_areas MARGIN) in
      if Nat.eqb FLAG 0 then Ok s
      else if Nat.eqb FLAG (length (x_CAPOWN cf)) then
        do s1 <- record_level cf CLOCK JHOUR NST MARGIN s;
        crit_levels STMULT cf CLOCK JHOUR d rest IFLAG s1
      else
        do NEED <- (if Nat.ltb 1 FLAG then Ok 0 else direct_help cf (d_LNSTAT d) MARGIN IT);
        do r <- transm inv lp IFLAG (hnet s) (x_BLPA cf) (x_LP cf) (x_NR cf) STMULT (d_LNSTAT d) (x_NLS cf)
                  (d_TRNSFR d) (d_TRNSFJ d) (d_SYSCON d) CAPREQ;
        let '(JFLAG, FLOW, SADJ, net) := r in
        let s1 := mkHst (IGSEED s) (ILSEED s) net (LSFLG s) (hrs s) (pks s) in
        if negb JFLAG then Ok s1
        else
          let MARGIN := map (fun x => qtrunc (Qcopp x)) SADJ in
          if negb (existsb (fun m => m <? 0) MARGIN) then Ok s1
          else
            do s2 <- record_level cf CLOCK JHOUR NST MARGIN s1;
            crit_levels STMULT cf CLOCK JHOUR d rest true s2
  end.

(** hour.py 81-251 with the critical units *)
Definition crit_hour (JCRIT : list Z) (MXCRIT : nat) (cf : hcfg) (CLOCK : Qc) (PLNDST RATING : list Qc) (s : hst) : res hst :=
  do JHOUR <- load_hour cf CLOCK;
  do now <- draws_now (x_JFREQ cf) JHOUR;
  if now : bool then
    do d <- draw cf CLOCK PLNDST RATING s;
    let '(_, _, AVAIL) := gstate (IGSEED s) (x_PROBG cf) RATING (x_DERATE cf) PLNDST in
    do STMULT <- stmult AVAIL JCRIT MXCRIT (length (d_LNSTAT d));
    crit_levels STMULT cf CLOCK JHOUR d (seq 0 (x_NFCST cf)) false
      (mkHst (d_IG d) (d_IL d) (hnet s) (LSFLG s) (hrs s) (pks s))
  else Err UnboundLocalError.
End HOUR.
