(** What the texts and tables of an input say, independent of how they are read. *)
From Coq Require Import String Ascii List Decimal DecimalString DecimalNat.
From Verif Require Import Base DataModel DataSpec ReadModel.
Import ListNotations.
Open Scope Z_scope.

(* ------------------------------------------------------------------ *)
(** ** Decimal numerals: the standard library's digits, and their values *)
Definition dtext (u : uint) : list ascii := list_ascii_of_string (NilEmpty.string_of_uint u).
Definition stext (s : option bool) : list ascii := match s with None => [] | Some true => ["+"%char] | Some false => ["-"%char] end.
Definition svalue (s : option bool) : Z := match s with Some false => -1 | _ => 1 end.
(** 12, -12, +12. and 0.05, -.5, 12.50 *)
Inductive plain : list ascii -> Qc -> Prop :=
| plain_whole s u : u <> Nil -> plain (stext s ++ dtext u) (Qcmult (qz (svalue s)) (qz (Z.of_uint u)))
| plain_point s u v : u <> Nil \/ v <> Nil ->
    plain (stext s ++ dtext u ++ "."%char :: dtext v)
          (Qcmult (qz (svalue s)) (Qcplus (qz (Z.of_uint u)) (Qcdiv (qz (Z.of_uint v)) (qz (10 ^ Z.of_nat (nb_digits v)))))).
(** 1.5e3, 2E-4 *)
Inductive numeral : list ascii -> Qc -> Prop :=
| numeral_plain t x : plain t x -> numeral t x
| numeral_exp t x c s u : plain t x -> c = "e"%char \/ c = "E"%char -> u <> Nil ->
    numeral (t ++ c :: stext s ++ dtext u)
            (if svalue s =? 1 then Qcmult x (qz (10 ^ Z.of_uint u)) else Qcdiv x (qz (10 ^ Z.of_uint u))).

(** white space *)
Definition blank (c : ascii) : Prop := In (nat_of_ascii c) [9; 10; 11; 12; 13; 28; 29; 30; 31; 32; 133; 160]%nat.
Definition blanks (l : list ascii) : Prop := Forall blank l.
Definition padded (w t : list ascii) : Prop := exists a b, t = a ++ w ++ b /\ blanks a /\ blanks b.

(** a line made of the words [ws], with white space between, before and after them *)
Inductive spaced : list (list ascii) -> list ascii -> Prop :=
| spaced_nil s : blanks s -> spaced [] s
| spaced_last s w e : blanks s -> w <> [] -> Forall (fun c => ~ blank c) w -> blanks e -> spaced [w] (s ++ w ++ e)
| spaced_cons s w b ws r : blanks s -> w <> [] -> Forall (fun c => ~ blank c) w -> blank b -> spaced ws (b :: r) -> spaced (w :: ws) (s ++ w ++ b :: r).

(* ------------------------------------------------------------------ *)
(** ** Tables *)
(** row [i] (from 0) has [c] in the column called [name] *)
Definition field (t : table) (i : nat) (name : string) (c : cell) : Prop :=
  exists j r, nth_error (t_head t) j = Some name /\ nth_error (t_rows t) i = Some r /\ nth_error r j = Some c.
Definition tidy (t : table) : Prop := NoDup (t_head t) /\ forall r, In r (t_rows t) -> length r = length (t_head t).
(** [t] has the columns [names], and row [i] says [P i] of the i-th of [l] *)
Definition lists {A} (t : table) (names : list string) (l : list A) (P : nat -> A -> Prop) : Prop :=
  tidy t /\ incl names (t_head t) /\ length (t_rows t) = length l /\ forall i a, nth_error l i = Some a -> P i a.
Definition number_in (t : table) (i : nat) (name : string) : Prop := exists x, field t i name (Num x).
(** in an integer column a number stands for its whole part *)
Definition int_field (t : table) (i : nat) (name : string) (z : Z) : Prop := exists x, field t i name (Num x) /\ qtrunc x = z.

Definition misc_columns : list string :=
  ["SEED"; "LS"; "END WK1"; "END WK2"; "END WK3"; "WHERE"; "WHEN"; "KVS"; "KVT"; "KVL"; "CVT"; "FIN"; "STEP"; "FREQ"; "MAXE"; "II"; "IJ"; "IR"; "IN"; "D"; "M"]%string.
Definition says_misc (t : table) (m : misc) : Prop :=
  lists t misc_columns [m] (fun i m =>
    field t i "SEED" (Num (qz (m_SEED m))) /\ field t i "LS" (Num (qz (m_NLS m))) /\
    field t i "END WK1" (Num (qz (fst (fst (m_IW m))))) /\ field t i "END WK2" (Num (qz (snd (fst (m_IW m))))) /\ field t i "END WK3" (Num (qz (snd (m_IW m)))) /\
    field t i "WHERE" (Num (qz (m_KWHERE m))) /\ field t i "WHEN" (Num (qz (m_KVWHEN m))) /\ field t i "KVS" (Num (qz (m_KVSTAT m))) /\
    field t i "KVT" (Num (qz (m_KVTYPE m))) /\ field t i "KVL" (Num (qz (m_KVL m))) /\ field t i "CVT" (Num (m_CVTEST m)) /\
    field t i "FIN" (Num (qz (m_FINISH m))) /\ field t i "STEP" (Num (qz (m_JSTEP m))) /\ field t i "FREQ" (Num (qz (m_JFREQ m))) /\
    field t i "MAXE" (Num (m_MAXEUE m)) /\ field t i "IJ" (Num (qz (m_IOJ m))) /\ field t i "IN" (Num (qz (m_INTV m))) /\
    number_in t i "II" /\ number_in t i "IR" /\ number_in t i "D" /\ number_in t i "M")%string.
Definition area_columns : list string :=
  ["SN"; "AREA NAME"; "PEAK (MW)"; "LFU"; "OUTAGE BEG WK"; "OUTAGE END WK"; "FORBIDDEN BEG WK"; "FORBIDDEN END WK"; "SUM OF FLOWS CONSTRAINT"]%string.
Definition says_areas (t : table) (l : list (area_card string)) : Prop :=
  lists t area_columns l (fun i a =>
    field t i "AREA NAME" (Txt (a_name a)) /\ field t i "PEAK (MW)" (Num (a_peak a)) /\ field t i "LFU" (Num (a_lfu a)) /\
    field t i "SUM OF FLOWS CONSTRAINT" (Num (a_flows a)) /\
    number_in t i "SN" /\ number_in t i "OUTAGE BEG WK" /\ number_in t i "OUTAGE END WK" /\ number_in t i "FORBIDDEN BEG WK" /\ number_in t i "FORBIDDEN END WK")%string.
Definition unit_columns : list string :=
  ["SN"; "NAME"; "LOC"; "CAP1"; "CAP2"; "CAP3"; "CAP4"; "DFOR"; "FOR"; "DER"; "P/A"; "B1"; "D1"; "B2"; "D2"]%string.
Definition says_units (t : table) (l : list (unit_card string)) : Prop :=
  lists t unit_columns l (fun i u =>
    field t i "NAME" (Txt (u_name u)) /\ field t i "LOC" (Txt (u_loc u)) /\
    (exists c1 c2 c3 c4, u_cap u = [c1; c2; c3; c4] /\ field t i "CAP1" (Num c1) /\ field t i "CAP2" (Num c2) /\ field t i "CAP3" (Num c3) /\ field t i "CAP4" (Num c4)) /\
    field t i "DFOR" (Num (u_dfor u)) /\ field t i "FOR" (Num (u_for u)) /\ field t i "DER" (Num (u_der u)) /\ int_field t i "P/A" (u_pa u) /\
    int_field t i "B1" (u_b1 u) /\ int_field t i "D1" (u_d1 u) /\ int_field t i "B2" (u_b2 u) /\ int_field t i "D2" (u_d2 u) /\ number_in t i "SN")%string.
(** the data of the six states of a line: admittance, forward and backward capacity,
    probability; state after state, separated by commas *)
Fixpoint commas (l : list (list ascii)) : list ascii :=
  match l with [] => [] | [w] => w | w :: r => w ++ ","%char :: commas r end.
Definition meta_text (s : string) (states : list (Qc * Qc * Qc * Qc)) : Prop :=
  length states = 6%nat /\
  exists ps, list_ascii_of_string s = commas ps /\
    Forall2 (fun p x => exists w, padded w p /\ numeral w x) ps (flat_map (fun '(a, f, b, q) => [a; f; b; q]) states).
Definition line_columns : list string := ["SN"; "LINE NUMBER"; "FROM AREA"; "TO AREA"; "META DATA"]%string.
Definition says_lines (t : table) (l : list (line_card string)) : Prop :=
  lists t line_columns l (fun i x =>
    int_field t i "LINE NUMBER" (ln_id x) /\ field t i "FROM AREA" (Txt (ln_from x)) /\ field t i "TO AREA" (Txt (ln_to x)) /\
    exists s states, field t i "META DATA" (Txt s) /\ meta_text s states /\
      ln_adm x = map (fun '(a, f, b, q) => a) states /\ ln_cap x = map (fun '(a, f, b, q) => f) states /\
      ln_capr x = map (fun '(a, f, b, q) => b) states /\ ln_prob x = map (fun '(a, f, b, q) => q) states)%string.
Definition contract_columns : list string := ["SN"; "FROM AREA"; "TO AREA"; "BEG DAY"; "END DAY"; "MW"]%string.
Definition says_contracts (t : table) (l : list (fc_card string)) : Prop :=
  lists t contract_columns l (fun i x =>
    field t i "FROM AREA" (Txt (fc_from x)) /\ field t i "TO AREA" (Txt (fc_to x)) /\ int_field t i "BEG DAY" (fc_beg x) /\ int_field t i "END DAY" (fc_end x) /\
    field t i "MW" (Num (fc_mw x)))%string.
Definition owner_columns : list string := ["SN"; "UNIT NAME"; "PERCENT OWNED BY AREA"]%string.
Definition says_owners (t : table) (l : list string) : Prop := lists t owner_columns l (fun i x => field t i "UNIT NAME" (Txt x)).
Definition derating_columns : list string := ["SN"; "LINE NUMBER"; "UNIT1"; "UNIT2"; "UNIT3"; "UNIT4"; "FORWARD"; "BACKWARD"]%string.

(** the csv files say what the cards [c] say; the table of line deratings only has to
    have its columns *)
Record says (f : files) (c : cards string) : Prop := mkSays {
  s_misc : says_misc (f_misc f) (c_misc c); s_areas : says_areas (f_areas f) (c_areas c); s_units : says_units (f_units f) (c_units c);
  s_lines : says_lines (f_lines f) (c_lines c); s_fc : says_contracts (f_fc f) (c_fc c); s_od : says_owners (f_od f) (c_od c);
  s_pct : c_pct c = Column; s_dd : incl derating_columns (t_head (f_dd f)) }.

Definition tidy_files (f : files) : Prop :=
  tidy (f_misc f) /\ tidy (f_areas f) /\ tidy (f_units f) /\ tidy (f_lines f) /\ tidy (f_fc f) /\ tidy (f_od f).

(** [t'] has at least the columns of [t] (in any order), the same rows, and the same
    fields outside the columns [skip], where it only has numbers wherever [t] has *)
Definition agrees (skip : list string) (t t' : table) : Prop :=
  tidy t' /\ incl (t_head t) (t_head t') /\ length (t_rows t') = length (t_rows t) /\
  (forall i name c, ~ In name skip -> field t i name c -> field t' i name c) /\
  (forall i name x, In name skip -> field t i name (Num x) -> number_in t' i name).
Definition weeks : list string := ["OUTAGE BEG WK"; "OUTAGE END WK"; "FORBIDDEN BEG WK"; "FORBIDDEN END WK"]%string.
(** the files agree outside the columns [skip]; of the line deratings only the columns
    have to be there *)
Definition agreeing (skip : list string) (f f' : files) : Prop :=
  agrees skip (f_misc f) (f_misc f') /\ agrees skip (f_areas f) (f_areas f') /\ agrees skip (f_units f) (f_units f') /\
  agrees skip (f_lines f) (f_lines f') /\ agrees skip (f_fc f) (f_fc f') /\ agrees skip (f_od f) (f_od f') /\
  incl (t_head (f_dd f)) (t_head (f_dd f')).

(* ------------------------------------------------------------------ *)
(** ** The load file *)
(** the character that ends a line (LF) *)
Definition line_feed : ascii := ascii_of_nat 10.
Definition no_newline (l : list ascii) : Prop := ~ In line_feed l.
Definition data_text (v : list Qc) (l : list ascii) : Prop := no_newline l /\ exists ws, spaced ws l /\ Forall2 numeral ws v.
Definition block_text (b : load_block) (t : list ascii) : Prop :=
  exists h ls, t = concat (map (fun l => l ++ [line_feed]) (h :: ls)) /\
    no_newline h /\ firstn 4 h = ["A"; "R"; "E"; "A"]%char /\ list_ascii_of_string (b_header b) = h ++ [line_feed] /\ Forall2 data_text (b_lines b) ls.
Definition loads_text (bs : list load_block) (s : string) : Prop := exists ts, list_ascii_of_string s = concat ts /\ Forall2 block_text bs ts.
