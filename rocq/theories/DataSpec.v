(** Specification vocabulary for data preparation: names, load files, valid inputs. *)
From Coq Require Import String Ascii List.
From Verif Require Import Base LoadSpec ControlSpec MaintSpec DataModel.
Import ListNotations.
Open Scope Z_scope.

(* ------------------------------------------------------------------ *)
(** ** Names *)

(** [f] numbers the distinct names of a list 0, 1, ... in the order of their first
    appearance. *)
Definition numbering (names : list string) (f : string -> nat) : Prop :=
  (forall s t, In s names -> In t names -> f s = f t -> s = t) /\
  (forall k, (exists s, In s names /\ f s = k) <-> (k < length (nodup string_dec names))%nat) /\
  (forall p s q t, names = p ++ s :: q -> ~ In s p -> In t p -> (f t < f s)%nat).

(** every name used on a card is declared *)
Definition known (c : cards string) : Prop :=
  (forall u, In u (c_units c) -> In (u_loc u) (map a_name (c_areas c))) /\
  (forall l, In l (c_lines c) -> In (ln_from l) (map a_name (c_areas c)) /\ In (ln_to l) (map a_name (c_areas c))) /\
  (forall x, In x (c_fc c) -> In (fc_from x) (map a_name (c_areas c)) /\ In (fc_to x) (map a_name (c_areas c))) /\
  (forall s, In s (c_od c) -> In s (map u_name (c_units c))).

(** the cards with numbers for names: [fa] for areas, [fu] for units; line numbers count
    from 0; everything else is unchanged *)
Definition renamed (fa fu : string -> nat) (c : cards string) : cards nat :=
  mkCards (c_misc c)
    (map (fun a => mkArea (fa (a_name a)) (a_peak a) (a_lfu a) (a_flows a)) (c_areas c))
    (map (fun u => mkUnit (fu (u_name u)) (fa (u_loc u)) (u_cap u) (u_dfor u) (u_for u) (u_der u) (u_pa u) (u_b1 u) (u_d1 u) (u_b2 u) (u_d2 u)) (c_units c))
    (map (fun l => mkLineC (ln_id l - 1) (fa (ln_from l)) (fa (ln_to l)) (ln_adm l) (ln_cap l) (ln_capr l) (ln_prob l)) (c_lines c))
    (map (fun x => mkFc (fa (fc_from x)) (fa (fc_to x)) (fc_beg x) (fc_end x) (fc_mw x)) (c_fc c))
    (map fu (c_od c)) (c_pct c).

(* ------------------------------------------------------------------ *)
(** ** The load file: per area a header and 730 lines of twelve hours *)
Record load_block := mkBlock { b_header : string; b_lines : list (list Qc) }.
Definition load_file (bs : list load_block) : list eei_line :=
  flat_map (fun b => AreaLine (b_header b) :: map Hours (b_lines b)) bs.
(** the seventh character of the header is the digit [d] *)
Definition header_digit (b : load_block) (d : nat) : Prop :=
  (d <= 9)%nat /\ String.get 6 (b_header b) = Some (ascii_of_nat (48 + d)).
(** a complete block for one of [n] areas *)
Definition full_block (n : nat) (b : load_block) : Prop :=
  (exists d, (1 <= d <= n)%nat /\ header_digit b d) /\
  length (b_lines b) = 730%nat /\ Forall (fun v => (12 <= length v)%nat) (b_lines b).
(** its hours: the last twelve numbers of each line (dates may precede them) *)
Definition hours_of (b : load_block) : list Qc := flat_map (fun v => skipn (length v - 12) v) (b_lines b).
(** the last block with digit [d] *)
Definition last_block (bs : list load_block) (d : nat) (b : load_block) : Prop :=
  exists p q, bs = p ++ b :: q /\ header_digit b d /\ forall b', In b' q -> ~ header_digit b' d.
(** [m] is the largest of 0.001 and the numbers of [l] *)
Definition top (l : list Qc) (m : Qc) : Prop :=
  (forall x, In x (qq 1 1000 :: l) -> (x <= m)%Qc) /\ In m (qq 1 1000 :: l).

(* ------------------------------------------------------------------ *)
(** ** Valid inputs *)

(** the two planned outages of a unit do not overlap (week 0: none) *)
Definition outages_apart {N} (u : unit_card N) : Prop :=
  u_b1 u <= 0 \/ u_b2 u <= 0 \/ u_b1 u + u_d1 u <= u_b2 u \/ u_b2 u + u_d2 u <= u_b1 u.
(** the unit is the only one of its area *)
Definition only_unit (c : cards string) (u : unit_card string) : Prop :=
  forall v, In v (c_units c) -> u_loc v = u_loc u -> v = u.

Record valid_cards (n nu nl : nat) (c : cards string) : Prop := mkValid {
  v_areas : length (c_areas c) = n /\ (0 < n)%nat /\ NoDup (map a_name (c_areas c));
  v_units : length (c_units c) = nu /\ (0 < nu)%nat /\ NoDup (map u_name (c_units c));
  v_lines : length (c_lines c) = nl;
  v_known : known c;
  v_fc : c_fc c = [];
  v_od : c_od c = [];
  v_caps : forall u, In u (c_units c) -> length (u_cap u) = 4%nat /\ Forall (fun x => (q0 <= x)%Qc) (u_cap u);
  v_outages : forall u, In u (c_units c) -> 0 <= u_b1 u /\ 0 <= u_d1 u /\ 0 <= u_b2 u /\ 0 <= u_d2 u;
  v_apart : forall u, In u (c_units c) -> outages_apart u;
  v_only : forall u, In u (c_units c) -> only_unit c u -> u_d1 u = 0 \/ u_d2 u = 0;
  v_500 : forall s, (length (filter (fun u => String.eqb (u_loc u) s) (c_units c)) <= 500)%nat;
  v_step : step_ok (m_JSTEP (c_misc c)) }.

(** Planned outages as the user gave them: unit [u] is out in week [w] (from 0) by its
    first or its second outage. *)
Definition planned_first (u : unit_card string) (w : Z) : Prop := 1 <= u_b1 u /\ u_b1 u - 1 <= w < u_b1 u - 1 + u_d1 u.
Definition planned_second (u : unit_card string) (w : Z) : Prop := 1 <= u_b2 u /\ u_b2 u - 1 <= w < u_b2 u - 1 + u_d2 u.
Definition planned (u : unit_card string) (w : Z) : Prop := planned_first u w \/ planned_second u w.
