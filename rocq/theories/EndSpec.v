(** Specification vocabulary for C102: line cards that connect the areas. *)
From Coq Require Import String List.
From Verif Require Import Base HourModel ProgramModel DataModel DataSpec.
Import ListNotations.
Notation length := List.length (only parsing).
Open Scope Z_scope.

(** One gets from area a to area b over lines. *)
Inductive linked (c : cards string) (a : string) : string -> Prop :=
| linked_refl : linked c a a
| linked_to l : linked c a (ln_from l) -> In l (c_lines c) -> linked c a (ln_to l)
| linked_from l : linked c a (ln_to l) -> In l (c_lines c) -> linked c a (ln_from l).

(** There are lines; their numbers are between 1 and their count (or 0); each joins two
    different areas; no first admittance is positive; all areas are linked with the first. *)
Record sound_lines (c : cards string) : Prop := mkSound {
  sl_some : c_lines c <> [];
  sl_ids : forall l, In l (c_lines c) -> 0 <= ln_id l <= Z.of_nat (length (c_lines c));
  sl_ends : forall l, In l (c_lines c) -> ln_from l <> ln_to l;
  sl_adm : forall l, In l (c_lines c) -> (nth 0 (ln_adm l) q0 <= q0)%Qc;
  sl_all : forall a0 r a, c_areas c = a0 :: r -> In a (c_areas c) -> linked c (a_name a) (a_name a0) }.

(** The study has the settings and the ratings of the cards; it has five load levels if
    some area's load forecast is uncertain, otherwise one. *)
Definition as_set (c : cards string) (i : input) : Prop :=
  x_JSTEP (i_h i) = m_JSTEP (c_misc c) /\ x_JFREQ (i_h i) = m_JFREQ (c_misc c) /\ i_years i = m_FINISH (c_misc c) /\ i_MAXEUE i = m_MAXEUE (c_misc c) /\
  i_IOJ i = m_IOJ (c_misc c) /\ x_NLS (i_h i) = negb (m_NLS (c_misc c) =? 0) /\ i_RATES i = map u_cap (c_units c) /\
  x_NFCST (i_h i) = (if existsb (fun a => negb (qeqb (a_lfu a) q0)) (c_areas c) then 5 else 1)%nat.

(** The load levels: two above the forecast, the forecast, two below; [lfu] is in percent. *)
Definition level_factor (lfu : Qc) (l : nat) : Qc := Qcplus q1 (Qcmult (Qcdiv lfu (qz 100)) (nth l [qq 5 2; q1; q0; qq (-1) 1; qq (-5) 2] q0)).
(** [top u] is at least each seasonal rating of the unit; the sum over the units of area [s]. *)
Definition area_top (c : cards string) (top : unit_card string -> Qc) (s : string) : Qc :=
  fold_right Qcplus q0 (map top (filter (fun u => String.eqb (u_loc u) s) (c_units c))).
(** The j-th area lacks a whole MW or more in every hour and at every load level, whatever is
    drawn: its load is the number in its block times its peak over the block's largest number. *)
Definition always_short (c : cards string) (bs : list load_block) (j : nat) : Prop :=
  exists a b m tp, nth_error (c_areas c) j = Some a /\ last_block bs (S j) b /\ DataSpec.top (hours_of b) m /\
    (forall u x, In u (c_units c) -> In x (u_cap u) -> (x <= tp u)%Qc) /\
    forall t l, (t < 365 * 24)%nat -> (l < 5)%nat ->
      (area_top c tp (a_name a) + q1 <= nth t (hours_of b) q0 / m * a_peak a * level_factor (a_lfu a) l)%Qc.
