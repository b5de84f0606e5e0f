(** C108: names carry no meaning. *)
From Coq Require Import String.
From Verif Require Import Base BaseProofs DataModel DataSpec PrepModel ReadModel ReadSpec ReadTables NamesSpec NamesProofs PropertiesData PropertiesRead.
Notation length := List.length (only parsing).

(** ** C108.  The same cards with other names for the areas and units (different names
    staying different) give the same simulation and the same summary, or the same
    failure; for any maintenance heuristics. *)
Theorem C108_names : forall rest loss presched block r0 fa fu c leei,
  injective_on (area_names c) fa -> injective_on (unit_names c) fu ->
  dataf1 rest loss presched block r0 (rename fa fu c) leei = dataf1 rest loss presched block r0 c leei.
Proof.
  intros rest loss presched block r0 fa fu c leei IA IU. unfold dataf1. rewrite (pind_rename fa fu c IA IU). cbn [rename c_units].
  now destruct (c_units c) as [|u us].
Qed.
Print Assumptions C108_names.

(** From the csv files: two sets of files that say the same but for the names. *)
Theorem C108_files : forall rest loss presched block r0 fa fu f f' c,
  injective_on (area_names c) fa -> injective_on (unit_names c) fu -> says f c -> says f' (rename fa fu c) -> f_leei f' = f_leei f ->
  dataf1_files rest loss presched block r0 f' = dataf1_files rest loss presched block r0 f.
Proof.
  intros rest loss presched block r0 fa fu f f' c IA IU S0 S1 EL. unfold dataf1_files.
  rewrite (proj2 (read_cards_iff f c (says_tidy _ _ S0)) S0), (proj2 (read_cards_iff f' _ (says_tidy _ _ S1)) S1). cbn [bind]. rewrite EL. now apply C108_names.
Qed.
Print Assumptions C108_files.

(** Different names must stay different: with one name for two areas the study changes. *)
Definition swap (s : string) : string := if String.eqb s "A1" then "East" else if String.eqb s "A2" then "A1" else s.
Example C108_witness : injective_on (area_names tiny) swap /\ injective_on (unit_names tiny) (append "Unit ") /\
  map a_name (c_areas (rename swap (append "Unit ") tiny)) = ["East"; "A1"]%string /\
  map u_loc (c_units (rename swap (append "Unit ") tiny)) = ["East"; "A1"; "East"]%string /\ pind (rename (fun _ => "A"%string) id tiny) <> pind tiny.
Proof.
  split. { intros a b A B. vm_compute in A, B. intuition subst; try reflexivity; discriminate. }
  split. { intros a b _ _ E. injection E. auto. }
  split; [reflexivity|]. split; [reflexivity|]. vm_compute. discriminate.
Qed.
