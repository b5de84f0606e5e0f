(** Specification vocabulary of C105: the same study with later stopping rules. *)
From Verif Require Import Base StatModel YearModel HourModel ControlModel ProgramModel.
Open Scope Z_scope.

(** The study [i] with another number of years and another convergence tolerance. *)
Definition with_stop (i : input) (years : Z) (test : Qc) : input :=
  mkInput (i_h i) (i_RATES i) (i_JPLOUT i) (i_BN i) years (i_NORR i) (i_MAXEUE i) test (i_INTV i) (i_IOJ i)
    (i_KWHERE i) (i_KVWHEN i) (i_KVSTAT i) (i_KVTYPE i) (i_KVLOC i) (i_ITAB i).
(** The tolerance meant by the card: 0 stands for 2.5 percent. *)
Definition tolerance (test : Qc) : Qc := if qeqb test q0 then qq 25 1000 else test.

(** Two year ends with the same results: they may differ in the decisions to stop, to
    print the report, to write a checkpoint, and in the number of tables printed. *)
Record same_results (s s' : lst world) : Prop := mkSame {
  sr_loop : s_cal s' = s_cal s /\ s_clock s' = s_clock s /\ s_jhour s' = s_jhour s /\ s_iq s' = s_iq s /\ s_plndst s' = s_plndst s /\ s_rating s' = s_rating s;
  sr_hour : w_h (s_w s') = w_h (s_w s);
  sr_totals : y_ch (w_y (s_w s')) = y_ch (w_y (s_w s)) /\ y_cp (w_y (s_w s')) = y_cp (w_y (s_w s));
  sr_distributions : y_HL (w_y (s_w s')) = y_HL (w_y (s_w s)) /\ y_DP (w_y (s_w s')) = y_DP (w_y (s_w s)) /\ y_EU (w_y (s_w s')) = y_EU (w_y (s_w s));
  sr_squares : y_XA (w_y (s_w s')) = y_XA (w_y (s_w s)) /\ y_XP (w_y (s_w s')) = y_XP (w_y (s_w s));
  sr_test : y_SSQ (w_y (s_w s')) = y_SSQ (w_y (s_w s)) /\ y_XLAST (w_y (s_w s')) = y_XLAST (w_y (s_w s));
  sr_shown : exists os o o', w_out (s_w s) = os ++ [o] /\ w_out (s_w s') = os ++ [o'] /\ o_year o' = o_year o /\ o_h o' = o_h o /\ o_p o' = o_p o }.
