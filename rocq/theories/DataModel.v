(** Model of the data preparation: [pind], [datax], the load file of [xldnew], and
    [input_processing] up to what the simulation reads.  Reading of csv text is not
    modelled: a card file is a list of records. *)
From Coq Require Import String Ascii List.
From Verif Require Import Base LoadModel.
Import ListNotations.
Notation length := List.length (only parsing).
Open Scope Z_scope.

Fixpoint rmap {A B} (f : A -> res B) (l : list A) : res (list B) :=
  match l with
  | [] => Ok []
  | a :: r => do b <- f a; do bs <- rmap f r; Ok (b :: bs)
  end.

(* ------------------------------------------------------------------ *)
(** ** The cards (readInputB.py).  [N]: names are strings in the files, numbers after
    [pind].  The areas' maintenance windows, the title and the line deratings are
    missing; see MaintModel for the windows, and nothing reads the other two
    (datax.py 175: no critical units). *)
Record area_card (N : Type) := mkArea { a_name : N; a_peak : Qc; a_lfu : Qc; a_flows : Qc }.
Record unit_card (N : Type) := mkUnit { u_name : N; u_loc : N; u_cap : list Qc; u_dfor : Qc; u_for : Qc; u_der : Qc;
  u_pa : Z; u_b1 : Z; u_d1 : Z; u_b2 : Z; u_d2 : Z }.
Record line_card (N : Type) := mkLineC { ln_id : Z; ln_from : N; ln_to : N; ln_adm : list Qc; ln_cap : list Qc; ln_capr : list Qc; ln_prob : list Qc }.
Record fc_card (N : Type) := mkFc { fc_from : N; fc_to : N; fc_beg : Z; fc_end : Z; fc_mw : Qc }.
Arguments mkArea {N}. Arguments a_name {N}. Arguments a_peak {N}. Arguments a_lfu {N}. Arguments a_flows {N}.
Arguments mkUnit {N}. Arguments u_name {N}. Arguments u_loc {N}. Arguments u_cap {N}. Arguments u_dfor {N}. Arguments u_for {N}. Arguments u_der {N}.
Arguments u_pa {N}. Arguments u_b1 {N}. Arguments u_d1 {N}. Arguments u_b2 {N}. Arguments u_d2 {N}.
Arguments mkLineC {N}. Arguments ln_id {N}. Arguments ln_from {N}. Arguments ln_to {N}. Arguments ln_adm {N}. Arguments ln_cap {N}. Arguments ln_capr {N}. Arguments ln_prob {N}.
Arguments mkFc {N}. Arguments fc_from {N}. Arguments fc_to {N}. Arguments fc_beg {N}. Arguments fc_end {N}. Arguments fc_mw {N}.

(** ZZMC (readInputB.py 22-168) *)
Record misc := mkMisc { m_SEED : Z; m_NLS : Z; m_IW : Z * Z * Z; m_KWHERE : Z; m_KVWHEN : Z; m_KVSTAT : Z; m_KVTYPE : Z; m_KVL : Z;
  m_CVTEST : Qc; m_FINISH : Z; m_JSTEP : Z; m_JFREQ : Z; m_MAXEUE : Qc; m_IOJ : Z; m_INTV : Z }.
(** ZZOD: the unit names, and the percentages: the csv reader delivers one text per
    row ([Column]); a two-dimensional array of numbers ([Table]) only exists when the
    dictionary is built by hand. *)
Inductive percents := Column | Table (p : list (list Qc)).
Record cards (N : Type) := mkCards { c_misc : misc; c_areas : list (area_card N); c_units : list (unit_card N); c_lines : list (line_card N);
  c_fc : list (fc_card N); c_od : list N; c_pct : percents }.
Arguments mkCards {N}. Arguments c_misc {N}. Arguments c_areas {N}. Arguments c_units {N}. Arguments c_lines {N}. Arguments c_fc {N}. Arguments c_od {N}. Arguments c_pct {N}.

(* ------------------------------------------------------------------ *)
(** ** pind *)

(** [list(dict.fromkeys(l))]: the distinct names in order of first appearance *)
Definition mem (s : string) (l : list string) : bool := existsb (String.eqb s) l.
Fixpoint distinct_from (seen l : list string) : list string :=
  match l with
  | [] => []
  | s :: r => if mem s seen then distinct_from seen r else s :: distinct_from (s :: seen) r
  end.
Definition distinct (l : list string) : list string := distinct_from [] l.
(** [dict(zip(keys, range(len(keys))))[s]] for distinct keys *)
Fixpoint index_from (k : nat) (keys : list string) (s : string) : res nat :=
  match keys with
  | [] => Err KeyError
  | x :: r => if String.eqb x s then Ok k else index_from (S k) r s
  end.
Definition index_of (keys : list string) (s : string) : res nat := index_from 0 keys s.

(** pind.py 19-68 *)
Definition pind (c : cards string) : res (cards nat) :=
  let areas := distinct (map a_name (c_areas c)) in
  let units := distinct (map u_name (c_units c)) in
  do A <- rmap (fun a => do i <- index_of areas (a_name a); Ok (mkArea i (a_peak a) (a_lfu a) (a_flows a))) (c_areas c);
  do U <- rmap (fun u => do i <- index_of units (u_name u); do j <- index_of areas (u_loc u);
                 Ok (mkUnit i j (u_cap u) (u_dfor u) (u_for u) (u_der u) (u_pa u) (u_b1 u) (u_d1 u) (u_b2 u) (u_d2 u))) (c_units c);
  do L <- rmap (fun l => do i <- index_of areas (ln_from l); do j <- index_of areas (ln_to l);
                 Ok (mkLineC (ln_id l - 1) i j (ln_adm l) (ln_cap l) (ln_capr l) (ln_prob l))) (c_lines c);
  do F <- rmap (fun f => do i <- index_of areas (fc_from f); do j <- index_of areas (fc_to f);
                 Ok (mkFc i j (fc_beg f) (fc_end f) (fc_mw f))) (c_fc c);
  do OD <- rmap (index_of units) (c_od c);
  Ok (mkCards (c_misc c) A U L F OD (c_pct c)).

(* ------------------------------------------------------------------ *)
(** ** datax *)

(** datax.py 101-103, one unit: [PROBG[i,:]] and [DERATE[i]] *)
Definition probg_row {N} (u : unit_card N) : list Qc :=
  [Qcminus q1 (Qcplus (u_dfor u) (u_for u)); Qcminus q1 (u_for u)].
Definition derate_of {N} (u : unit_card N) : Qc := Qcminus q1 (Qcdiv (u_der u) (qz 100)).

(** 98-99: [CAPCON[NAT] = NAR], [CAPOWN[NAR, NAT] = 1] (a later entry wins) *)
Definition capcon (U : list (unit_card nat)) : list Z :=
  fold_left (fun v u => upd v (u_name u) (Z.of_nat (u_loc u))) U (repeat 0 (length U)).
Definition capown (n : nat) (U : list (unit_card nat)) : list (list Qc) :=
  fold_left (fun M u => mupd M (u_loc u) (u_name u) q1) U (mzeros n (length U)).

(** 113-130: [dict.fromkeys(zip(NAR), NAE)] is a dictionary with one-element tuples
    as keys, which cannot be unpacked into [(src, dst)]. *)
Definition interchange {N} (n : nat) (F : list (fc_card N)) : res (list (list Z) * list (list Qc)) :=
  match F with
  | [] => Ok (repeat (repeat (-1) n) n, mzeros 60 365)
  | _ => Err ValueError
  end.

(** 137-142: [PERCENT[i, j]]: two indices of a one-dimensional array raise (if there
    is an area at all); for a table the shapes are assumed. *)
Definition ownership (n : nat) (od : list nat) (pct : percents) (M : list (list Qc)) : res (list (list Qc)) :=
  match od with
  | [] => Ok M
  | _ => match pct with
         | Column => if Nat.eqb n 0 then Ok M else Err IndexError
         | Table P => Ok (fold_left (fun M ir => fold_left (fun M j => mupd M j (snd ir) (Qcdiv (mget P (fst ir) j) (qz 100))) (seq 0 n) M)
                                    (combine (seq 0 (length od)) od) M)
         end
  end.

(** 151-157 *)
Definition lineno (n : nat) (L : list (line_card nat)) : list (list Z) :=
  fold_left (fun M l => mupd M (ln_from l) (ln_to l) (ln_id l)) L (repeat (repeat (-1) n) n).
(** 161, one line: the running sums *)
Fixpoint cumulate (acc : Qc) (l : list Qc) : list Qc :=
  match l with [] => [] | x :: r => let s := Qcplus acc x in s :: cumulate s r end.
(** 163-169: admittance, forward and backward capacity of the six states, with 0
    replaced by -0.5, 1 and 1 *)
Definition nonzero (x d : Qc) : Qc := if qeqb x q0 then d else x.
Definition blpa_row {N} (l : line_card N) : list Qc :=
  flat_map (fun k => [nonzero (nth k (ln_adm l) q0) (qq (-1) 2); nonzero (nth k (ln_cap l) q0) q1; nonzero (nth k (ln_capr l) q0) q1]) (seq 0 6).
(** 180-188 *)
Definition id_row (u : unit_card nat) : list Z :=
  [Z.of_nat (u_name u); Z.of_nat (u_name u); Z.of_nat (u_loc u); u_b1 u - 1; u_d1 u; u_b2 u - 1; u_d2 u; u_pa u].

(** 25-28, 60-71, 79-84, 190-204 and the pieces above: what [datax] delivers. *)
Record datax_out := mkDatax { dx_QTR : list Qc; dx_NORR : nat; dx_NFCST : nat; dx_BN : list (list Qc); dx_FCTERR : list (list Qc);
  dx_CAPCON : list Z; dx_CAPOWN : list (list Qc); dx_PROBG : list (list Qc); dx_DERATE : list Qc; dx_JENT : list (list Z); dx_INTCH : list (list Qc);
  dx_LP : list (nat * nat); dx_LINENO : list (list Z); dx_PROBL : list (list Qc); dx_BLPA : list (list Qc); dx_ID : list (list Z) }.
Definition datax (c : cards nat) : res datax_out :=
  let n := length (c_areas c) in
  let FU := map a_lfu (c_areas c) in
  let any := existsb (fun x => negb (qeqb x q0)) FU in
  let '(w1, w2, w3) := m_IW (c_misc c) in
  let q w := Qcplus (qz (w * 168)) (qq 1 2) in
  do ji <- interchange n (c_fc c);
  do own <- ownership n (c_od c) (c_pct c) (capown n (c_units c));
  Ok (mkDatax [q w1; q w2; q w3] (if any then 2 else 0)%nat (if any then 5 else 1)%nat
        (mapi (fun i a => [qz (Z.of_nat i); q0; q0; a_flows a; a_flows a]) (c_areas c)) (map fcterr_row FU)
        (capcon (c_units c)) own (map probg_row (c_units c)) (map derate_of (c_units c)) (fst ji) (snd ji)
        (map (fun l => (ln_from l, ln_to l)) (c_lines c)) (lineno n (c_lines c)) (map (fun l => cumulate q0 (ln_prob l)) (c_lines c))
        (map blpa_row (c_lines c)) (map id_row (c_units c))).

(* ------------------------------------------------------------------ *)
(** ** The load file *)

(** A line of LEEI: a header (the whole line with its newline), the numbers of a
    data line, or a line with something else than numbers (ReadModel). *)
Inductive eei_line := AreaLine (line : string) | Hours (v : list Qc) | BadLine.
(** xldnew.py 29: [int(line[6]) - 1] for a digit; other characters raise *)
Definition area_digit (line : string) : res Z :=
  match String.get 6 line with
  | None => Err IndexError
  | Some ch => let k := Z.of_nat (nat_of_ascii ch) in
      if (48 <=? k) && (k <=? 57) then Ok (k - 48 - 1) else Err ValueError
  end.
(** numpy [row[a:a+12] = vals]: lengths must agree, or one value is repeated *)
Definition set_hours (row : list Qc) (a : nat) (vals : list Qc) : res (list Qc) :=
  let w := Nat.min 12 (length row - a) in
  if Nat.eqb (length vals) w then Ok (firstn a row ++ vals ++ skipn (a + w) row)
  else if Nat.eqb (length vals) 1 then Ok (firstn a row ++ repeat (nth 0 vals q0) w ++ skipn (a + w) row)
  else Err ValueError.
(** xldnew.py 27-35: the loop over the lines; [at_] is (areaIdx, hourIdx), unbound at
    first.  [list(...)[-12:]]: the last twelve numbers. *)
Definition last12 (v : list Qc) : list Qc := skipn (length v - 12) v.
Fixpoint read_loads (lines : list eei_line) (at_ : option (Z * nat)) (H : list (list Qc)) : res (list (list Qc)) :=
  match lines with
  | [] => Ok H
  | AreaLine s :: r => do k <- area_digit s; read_loads r (Some (k, 0%nat)) H
  | BadLine :: _ => Err ValueError
  | Hours v :: r =>
      match at_ with
      | None => Err UnboundLocalError
      | Some (k, t) =>
          do row <- pyget H k;
          do row' <- set_hours row t (last12 v);
          do H' <- pyset H k row';
          read_loads r (Some (k, (t + 12)%nat)) H'
      end
  end.
(** xldnew.py 22-43 *)
Definition xldnew (lines : list eei_line) (PK : list Qc) : res (list (list Qc)) :=
  do H <- read_loads lines None (mzeros (length PK) (365 * 24));
  Ok (rescale_all H PK).
