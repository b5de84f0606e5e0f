(** Specification vocabulary of C126: the direction in which a line is written down. *)
From Verif Require Import Base Sums LoadSpec NetSpec SampleModel NetModel NetSpec StatModel YearModel YearSpec HourModel HourSpec CauseSpec ControlModel ProgramModel ProgramSpec HistorySpec AmpleSpec.
Open Scope Z_scope.

(** The lines marked by [sw] are written from their second end to their first; their
    forward and backward capacities change places (a row holds admittance, forward and
    backward capacity for each state). *)
Definition turned_ends (sw : nat -> bool) (LP : list (nat * nat)) : list (nat * nat) :=
  mapi (fun v l => if sw v then (snd l, fst l) else l) LP.
Definition other_way (c : nat) : nat := match (c mod 3)%nat with 1%nat => S c | 2%nat => (c - 1)%nat | _ => c end.
Definition turned_row (r : list Qc) : list Qc := vtab (length r) (fun c => vget r (other_way c)).
Definition turned_rows (sw : nat -> bool) (BLPA : list (list Qc)) : list (list Qc) := mapi (fun v r => if sw v then turned_row r else r) BLPA.
Definition turn_lines (sw : nat -> bool) (cf : hcfg) : hcfg :=
  mkHcfg (x_JSTEP cf) (x_JFREQ cf) (x_NFCST cf) (x_MXPLHR cf) (x_PROBG cf) (x_DERATE cf) (x_CAPOWN cf) (x_CAPCON cf)
    (x_PROBL cf) (x_JENT cf) (x_INTCH cf) (x_HRLOAD cf) (x_FCTERR cf) (x_LINENO cf) (turned_rows sw (x_BLPA cf)) (turned_ends sw (x_LP cf)) (x_NR cf) (x_NLS cf).
Definition with_lines_turned (sw : nat -> bool) (i : input) : input :=
  mkInput (turn_lines sw (i_h i)) (i_RATES i) (i_JPLOUT i) (i_BN i) (i_years i) (i_NORR i) (i_MAXEUE i) (i_CVTEST i) (i_INTV i) (i_IOJ i)
    (i_KWHERE i) (i_KVWHEN i) (i_KVSTAT i) (i_KVTYPE i) (i_KVLOC i) (i_ITAB i).

(** Six states of three values; no capacity is negative. *)
Definition line_cards (cf : hcfg) : Prop := shape (length (x_LP cf)) 18 (x_BLPA cf) /\
  forall v c, (v < length (x_LP cf))%nat -> (c mod 3 <> 0)%nat -> (q0 <= mget (x_BLPA cf) v c)%Qc.
(** A flow on a turned line has the other sign. *)
Definition seen (sw : nat -> bool) (F : nat -> Qc) (k : nat) : Qc := if sw k then Qcopp (F k) else F k.
