(** Specification vocabulary of C113: a table of whole numbers as a table of floats, and how
    large the numbers of a run can get. *)
From Verif Require Import Base StatModel YearModel FloatStatModel.
Open Scope Z_scope.

(** The same numbers, as floats. *)
Definition qv (v : list Z) : list Qc := map qz v.
Definition qm (M : list (list Z)) : list (list Qc) := map qv M.
Definition q_stat (s : stat) : fstat :=
  mkFstat (qm (lolG s)) (qm (lolT s)) (qm (mgnG s)) (qm (mgnT s)) (qv (plolG s)) (qv (plolT s)) (qv (pmgnG s)) (qv (pmgnT s)).
Definition q_acc (a : acc) : facc := mkFacc (qm (aG a)) (qm (aT a)) (qm (aS a)).
Definition q_pacc (a : pacc) : fpacc := mkFpacc (qv (pG a)) (qv (pT a)) (qv (pS a)).
Definition q_cumul (c : cumul) : fcumul := mkFcumul (q_acc (c_lol c)) (q_acc (c_mgn c)) (q_pacc (c_plol c)) (q_pacc (c_pmgn c)).
Definition q_tables (t : tables) : ftables := mkFtables (qv (t_LS t)) (q_stat (t_h t)) (q_stat (t_p t)) (q_cumul (t_ch t)) (q_cumul (t_cp t)).

(** Hours of loss and megawatt-hours in the calls of a run, and its years. *)
Definition volume (c : call) : Z :=
  match c with
  | Hourly_loss _ M | Peak_loss _ M => 1 + zsum (map (fun m => if m <? 0 then 1 - m else 0) M)
  | Year_end => 0
  end.
Definition total_volume (cs : list call) : Z := zsum (map volume cs).
Definition year_ends (cs : list call) : Z := Z.of_nat (length (filter (fun c => match c with Year_end => true | _ => false end) cs)).
