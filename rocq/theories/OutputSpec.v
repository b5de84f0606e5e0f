(** Specification vocabulary of C106: the same study with other output options. *)
From Verif Require Import Base StatModel YearModel HourModel EventModel EventSpec ControlModel ControlSpec ReportModel ProgramModel.
Open Scope Z_scope.

(** The study [i] with other options for checkpoints (INTV), annual printing (IOJ) and the
    number of the first table. *)
Definition with_output (i : input) (intv ioj itab : Z) : input :=
  mkInput (i_h i) (i_RATES i) (i_JPLOUT i) (i_BN i) (i_years i) (i_NORR i) (i_MAXEUE i) (i_CVTEST i) intv ioj
    (i_KWHERE i) (i_KVWHEN i) (i_KVSTAT i) (i_KVTYPE i) (i_KVLOC i) itab.

(** Year ends that show the same, apart from whether a checkpoint is written. *)
Definition same_shown (o o' : yout) : Prop :=
  o_year o' = o_year o /\ o_h o' = o_h o /\ o_p o' = o_p o /\ o_rflag o' = o_rflag o /\ o_report o' = o_report o.
(** The same data, apart from the year of the next checkpoint and the table number. *)
Record same_data (w w' : world) : Prop := mkSameData {
  sd_hour : w_h w' = w_h w;
  sd_year : exists intvt itab, w_y w' = mkYst (y_h (w_y w)) (y_p (w_y w)) (y_ch (w_y w)) (y_cp (w_y w)) (y_HL (w_y w)) (y_DP (w_y w)) (y_EU (w_y w))
              (y_XA (w_y w)) (y_XP (w_y w)) (y_SSQ (w_y w)) (y_XLAST (w_y w)) intvt itab;
  sd_shown : Forall2 same_shown (w_out w) (w_out w') }.
(** The same entry of the log. *)
Definition same_entry (x x' : event * lst world) : Prop :=
  fst x' = fst x /\ exists w', same_data (s_w (snd x)) w' /\
    snd x' = mkSt (s_cal (snd x)) (s_clock (snd x)) (s_rflag (snd x)) (s_jhour (snd x)) (s_iq (snd x)) (s_plndst (snd x)) (s_rating (snd x)) w'.
(** The same report, apart from the number of its tables. *)
Definition same_report (r r' : option (res rep)) : Prop :=
  match r, r' with
  | None, None => True
  | Some (Err e), Some (Err e') => e' = e
  | Some (Ok x), Some (Ok x') => exists itab, x' = mkRep (r_area_level x) (r_area_avg x) (r_pool_level x) (r_pool_avg x) (r_devA2 x) (r_devP2 x)
      (r_sustat x) (r_pctA2 x) (r_pctP2 x) (r_PHL x) (r_PDP x) (r_PEUE x) itab
  | _, _ => False
  end.
