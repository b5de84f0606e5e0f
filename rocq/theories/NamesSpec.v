(** Specification vocabulary of C108: the same cards with other names. *)
From Coq Require Import String.
From Verif Require Import Base DataModel.

(** [fa] gives the areas new names, [fu] the units; everything else is kept. *)
Definition rename (fa fu : string -> string) (c : cards string) : cards string :=
  mkCards (c_misc c)
    (map (fun a => mkArea (fa (a_name a)) (a_peak a) (a_lfu a) (a_flows a)) (c_areas c))
    (map (fun u => mkUnit (fu (u_name u)) (fa (u_loc u)) (u_cap u) (u_dfor u) (u_for u) (u_der u) (u_pa u) (u_b1 u) (u_d1 u) (u_b2 u) (u_d2 u)) (c_units c))
    (map (fun l => mkLineC (ln_id l) (fa (ln_from l)) (fa (ln_to l)) (ln_adm l) (ln_cap l) (ln_capr l) (ln_prob l)) (c_lines c))
    (map (fun x => mkFc (fa (fc_from x)) (fa (fc_to x)) (fc_beg x) (fc_end x) (fc_mw x)) (c_fc c))
    (map fu (c_od c)) (c_pct c).

(** The names of areas and of units that occur anywhere on the cards. *)
Definition area_names (c : cards string) : list string :=
  map a_name (c_areas c) ++ map u_loc (c_units c) ++ flat_map (fun l => [ln_from l; ln_to l]) (c_lines c) ++ flat_map (fun x => [fc_from x; fc_to x]) (c_fc c).
Definition unit_names (c : cards string) : list string := map u_name (c_units c) ++ c_od c.
(** Different names stay different. *)
Definition injective_on (l : list string) (f : string -> string) : Prop := forall a b, In a l -> In b l -> f a = f b -> a = b.
