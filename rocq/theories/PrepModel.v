(** Model of [dataf1] and [input_processing]: from the cards and the load file to the
    input of the simulation. *)
From Coq Require Import String.
From Verif Require Import Base LoadModel HourModel ProgramModel DataModel MaintModel.
Open Scope Z_scope.

(** datax.py 74-75 and resca.py 36-45: SUSTAT; the last row is the pool's *)
Definition sustat (PK : list Qc) (MAXDAY : list nat) (d : datax_out) (RATES : list (list Qc)) : list (list Qc) :=
  mapi (fun i pk => [pk; resca_area MAXDAY (dx_QTR d) (dx_CAPOWN d) RATES (dx_JENT d) (dx_INTCH d) i; q0; q0; q0; q0]) PK ++ [vzeros 6].

Section PREPARE.
Variable rest : Type.
Variables (loss : Qc -> Qc) (presched : list punit -> mst rest -> res (list Qc * list Z * mst rest))
          (block : nat -> nat -> nat -> mst rest -> res (mst rest)) (r0 : rest).

(** input_processing.py 28-120 for the numbered cards [c].  The hours and days of the
    peaks other than MAXDAY and MXPLHR, and WPEAK, only go to [pmsc] or nowhere.
    KVLOC is assumed to be at least 1.  JSTEP, JFREQ are whole numbers. *)
Definition process (c : cards nat) (leei : list eei_line) : res (input * list (list Qc)) :=
  let m := c_misc c in
  let PK := map a_peak (c_areas c) in
  do d <- datax c;
  let RATES := map u_cap (c_units c) in
  do H <- xldnew leei PK;
  do H1 <- xporta (dx_JENT d) (dx_INTCH d) H;
  let '(MAXHR, DYLOAD, MAXDAY) := dpeak 24 H1 in
  let MXPLHR := map Z.of_nat (plhr H1) in
  do H2 <- xports (dx_JENT d) (dx_INTCH d) H1;
  do jt <- smaint loss presched block r0 (length (c_areas c)) (dx_ID d) 6 RATES;
  Ok (mkInput (mkHcfg (m_JSTEP m) (m_JFREQ m) (dx_NFCST d) MXPLHR (dx_PROBG d) (dx_DERATE d) (dx_CAPOWN d) (dx_CAPCON d) (dx_PROBL d)
                      (dx_JENT d) (dx_INTCH d) H2 (dx_FCTERR d) (dx_LINENO d) (dx_BLPA d) (dx_LP d) 0 (negb (m_NLS m =? 0)))
              RATES (fst jt) (dx_BN d) (m_FINISH m) (dx_NORR d) (m_MAXEUE m) (m_CVTEST m) (m_INTV m) (m_IOJ m)
              (m_KWHERE m) (m_KVWHEN m) (m_KVSTAT m) (m_KVTYPE m) (Z.to_nat (m_KVL m - 1)) (snd jt),
      sustat PK MAXDAY d RATES).

(** dataf1.py 16-26: without units the names cannot be unpacked (18); NR = 0 *)
Definition dataf1 (c : cards string) (leei : list eei_line) : res (input * list (list Qc)) :=
  match c_units c with
  | [] => Err ValueError
  | _ => do c' <- pind c; process c' leei
  end.
End PREPARE.
