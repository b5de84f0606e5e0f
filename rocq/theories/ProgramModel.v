(** Model of the whole simulation: [narpMain] after the data have been read.  It puts
    together the loop (ControlModel), one hour (HourModel) and the year end
    (YearModel) over one set of data. *)
From Verif Require Import Base EventModel ControlModel SampleModel NetModel StatModel HourModel YearModel ReportModel.
Open Scope Z_scope.

(** What [dataf1] delivers (narpMain.py 28-83), apart from text and from data the
    simulation does not read: the arrays of [hour], the seasons' ratings, the outage
    table, the limits BN, the number of years (datax.py 202: FINISH = 8760 * years),
    MAXEUE and the options of the year end. *)
Record input := mkInput {
  i_h : hcfg; i_RATES : list (list Qc); i_JPLOUT : list (list Z); i_BN : list (list Qc); i_years : Z;
  i_NORR : nat; i_MAXEUE : Qc; i_CVTEST : Qc; i_INTV : Z; i_IOJ : Z;
  i_KWHERE : Z; i_KVWHEN : Z; i_KVSTAT : Z; i_KVTYPE : Z; i_KVLOC : nat; i_ITAB : Z }.

(** narpMain.py 85-88: LSTEP = int(MAXEUE // 20), NUNITS, NLINES, NOAREA *)
Definition i_units (i : input) : nat := length (x_PROBG (i_h i)).
Definition i_lines (i : input) : nat := length (x_LP (i_h i)).
Definition i_areas (i : input) : nat := length (x_HRLOAD (i_h i)).
Definition i_FINISH (i : input) : Qc := qz (8760 * i_years i).
(** 90: the seed is a constant of the program *)
Definition JSEED : Z := 123456.
(** 103-105: INDX *)
Definition loop_cfg (i : input) : rcfg := mkCfg (x_JSTEP (i_h i)) (i_FINISH i) (i_RATES i) (i_JPLOUT i).
Definition year_cfg (i : input) : ycfg :=
  mkYcfg (x_NFCST (i_h i)) (i_NORR i) (qfloor (Qcdiv (i_MAXEUE i) (qz 20))) (i_CVTEST i) (i_FINISH i) (i_INTV i) (i_IOJ i)
         (if x_JSTEP (i_h i) =? 24 then 1 else 0) (i_KWHERE i) (i_KVWHEN i) (i_KVSTAT i) (i_KVTYPE i) (i_KVLOC i).

(** All data the handlers change: the arrays of [hour] (which include the annual
    statistics), the year end's own data, and what the year ends have shown. *)
Record world := mkWorld { w_h : hst; w_y : yst; w_out : list yout }.

(** The report printed by the last year end, if it printed one (year.py 857-913).  The
    year end has already counted its 2 + NOAREA tables in ITAB. *)
Definition printed_report (i : input) (SUSTAT : list (list Qc)) (w : world) : option (res rep) :=
  match rev (w_out w) with
  | [] => None
  | o :: _ => let y := w_y w in
      if o_report o then
        Some (report (x_NFCST (i_h i)) (o_year o) (y_ITAB y - (2 + Z.of_nat (i_areas i))) SUSTAT (o_h o) (o_p o) (y_HL y) (y_DP y) (y_EU y) (y_XA y) (y_XP y))
      else None
  end.

Section PROGRAM.
Variable inv : list (list Qc) -> option (list (list Qc)).
Variable lp : list (list Qc) -> list (list Qc) -> list (list Qc) -> res (list Qc * list (list Qc)).

(** events.py 153-246 calls [hour]; 260-372 calls [year], which reads and clears the
    annual arrays that [hour] fills. *)
Definition do_hour (i : input) (CLOCK : Qc) (PLNDST RATING : list Qc) (w : world) : res world :=
  do h <- hour inv lp (i_h i) CLOCK PLNDST RATING (w_h w);
  Ok (mkWorld h (w_y w) (w_out w)).
Definition do_year (i : input) (CLOCK : Qc) (w : world) : res (world * Z) :=
  let h := w_h w in let y := w_y w in
  do r <- year (year_cfg i) (i_areas i) CLOCK
            (mkYst (hrs h) (pks h) (y_ch y) (y_cp y) (y_HL y) (y_DP y) (y_EU y) (y_XA y) (y_XP y) (y_SSQ y) (y_XLAST y) (y_INTVT y) (y_ITAB y));
  let '(y', o) := r in
  Ok (mkWorld (mkHst (IGSEED h) (ILSEED h) (hnet h) (LSFLG h) (y_h y') (y_p y')) y' (w_out w ++ [o]), o_rflag o).
Definition program (i : input) : handlers world := mkHandlers world (do_hour i) (do_year i).

(** narpMain.py 91-186: seeds, zeroed arrays (LT, BB, ZB, BLP0: 112-116). *)
Definition first_net (i : input) : netst :=
  mkNet (i_BN i) (vzeros (i_lines i)) (mzeros (i_areas i) (i_areas i)) (repeat 0%nat (i_areas i)) (mzeros (i_areas i) (i_areas i)).
Definition first_world (i : input) (IG IL : list Z) : world :=
  mkWorld (mkHst IG IL (first_net i) (repeat 0 (i_areas i)) (first_stat (i_areas i)) (first_stat (i_areas i)))
          (start_year (i_areas i) (i_INTV i) (i_ITAB i)) [].

(** narpMain.py 85-330 with [fuel] iterations of the loop: the log of delivered
    events and how the run ended. *)
Definition narp (fuel : nat) (i : input) : res (list ((Qc * Qc) * lst world) * option (outcome world)) :=
  do sd <- seeder JSEED (i_units i) (i_lines i);
  Ok (contrl fuel (program i) (loop_cfg i) (start (loop_cfg i) (i_units i) (first_world i (fst sd) (snd sd)))).
End PROGRAM.
