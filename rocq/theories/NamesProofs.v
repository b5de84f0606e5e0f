(** C108: proofs. *)
From Coq Require Import String.
From Verif Require Import Base BaseProofs DataModel NamesSpec.
Notation length := List.length (only parsing).

Lemma inj_sub l l' f : incl l' l -> injective_on l f -> injective_on l' f.
Proof. intros I H a b A B. apply H; auto. Qed.
Lemma eqb_inj l f a b : injective_on l f -> In a l -> In b l -> String.eqb (f a) (f b) = String.eqb a b.
Proof.
  intros H A B. destruct (String.eqb_spec a b) as [->|N]; [apply String.eqb_refl|]. destruct (String.eqb_spec (f a) (f b)) as [E|]; auto. now apply H in E.
Qed.
Lemma mem_inj l f s seen : injective_on l f -> In s l -> incl seen l -> mem (f s) (map f seen) = mem s seen.
Proof.
  intros H S0. unfold mem. induction seen as [|x seen IH]; intros I; cbn [existsb map]; [reflexivity|].
  rewrite (eqb_inj l f s x H S0), IH; auto; [|apply I; now left]. intros y Y. apply I. now right.
Qed.
Lemma distinct_inj l0 f : injective_on l0 f -> forall l seen, incl l l0 -> incl seen l0 -> distinct_from (map f seen) (map f l) = map f (distinct_from seen l).
Proof.
  intros H. induction l as [|s l IH]; intros seen IL IS; cbn [map distinct_from]; [reflexivity|].
  assert (IL' : incl l l0) by (intros y Y; apply IL; now right). assert (S0 : In s l0) by (apply IL; now left).
  rewrite (mem_inj l0 f s seen H S0 IS). destruct (mem s seen); [now apply IH|]. cbn [map]. f_equal. apply (IH (s :: seen)); auto.
  intros y [<-|Y]; auto.
Qed.
Lemma distinct_in l : forall seen s, In s (distinct_from seen l) -> In s l.
Proof.
  induction l as [|x l IH]; intros seen s; cbn [distinct_from]; [auto|]. destruct (mem x seen); [intros I; right; exact (IH _ _ I)|].
  intros [<-|I]; [now left|right; exact (IH _ _ I)].
Qed.
Lemma index_inj l0 f s : injective_on l0 f -> In s l0 -> forall keys k, incl keys l0 -> index_from k (map f keys) (f s) = index_from k keys s.
Proof.
  intros H S0. induction keys as [|x keys IH]; intros k I; cbn [map index_from]; [reflexivity|].
  rewrite (eqb_inj l0 f x s H) by (auto; apply I; now left). destruct (String.eqb x s); [reflexivity|]. apply IH. intros y Y. apply I. now right.
Qed.
Lemma rmap_map {A B C} (F : B -> res C) (g : A -> B) l : rmap F (map g l) = rmap (fun a => F (g a)) l.
Proof. induction l as [|a l IH]; cbn [map rmap]; [reflexivity|]. rewrite IH. reflexivity. Qed.
Lemma rmap_ext {A B} (F G : A -> res B) l : (forall a, In a l -> F a = G a) -> rmap F l = rmap G l.
Proof. induction l as [|a l IH]; intros H; cbn [rmap]; [reflexivity|]. rewrite (H a) by now left. rewrite IH; [reflexivity|]. intros x X. apply H. now right. Qed.

Theorem pind_rename fa fu c : injective_on (area_names c) fa -> injective_on (unit_names c) fu -> pind (rename fa fu c) = pind c.
Proof.
  intros IA IU. unfold pind. cbn [rename c_areas c_units c_lines c_fc c_od c_misc c_pct]. rewrite !map_map. cbn [a_name u_name].
  assert (EA : distinct (map (fun a => fa (a_name a)) (c_areas c)) = map fa (distinct (map a_name (c_areas c)))).
  { unfold distinct. rewrite <- (map_map a_name fa). apply (distinct_inj (area_names c) fa IA _ []); [|intros x []]. intros x X. unfold area_names. apply in_or_app. now left. }
  assert (EU : distinct (map (fun u => fu (u_name u)) (c_units c)) = map fu (distinct (map u_name (c_units c)))).
  { unfold distinct. rewrite <- (map_map u_name fu). apply (distinct_inj (unit_names c) fu IU _ []); [|intros x []]. intros x X. unfold unit_names. apply in_or_app. now left. }
  rewrite EA, EU. set (ka := distinct (map a_name (c_areas c))). set (ku := distinct (map u_name (c_units c))).
  assert (XA : forall s, In s (area_names c) -> index_of (map fa ka) (fa s) = index_of ka s).
  { intros s S0. apply (index_inj (area_names c)); auto. intros x X. apply distinct_in in X. unfold area_names. apply in_or_app. now left. }
  assert (XU : forall s, In s (unit_names c) -> index_of (map fu ku) (fu s) = index_of ku s).
  { intros s S0. apply (index_inj (unit_names c)); auto. intros x X. apply distinct_in in X. unfold unit_names. apply in_or_app. now left. }
  rewrite !rmap_map. unfold area_names, unit_names in *.
  match goal with |- bind ?x _ = bind ?y _ => replace x with y end.
  2:{ apply rmap_ext. intros a A. cbn [a_name a_peak a_lfu a_flows]. rewrite XA; [reflexivity|]. apply in_or_app. left. now apply in_map. }
  destruct (rmap _ (c_areas c)) as [A|]; cbn [bind]; [|reflexivity].
  match goal with |- bind ?x _ = bind ?y _ => replace x with y end.
  2:{ apply rmap_ext. intros a I. cbn [u_name u_loc u_cap u_dfor u_for u_der u_pa u_b1 u_d1 u_b2 u_d2]. rewrite XU, XA; [reflexivity| |].
      - apply in_or_app. right. apply in_or_app. left. now apply in_map.
      - apply in_or_app. left. now apply in_map. }
  destruct (rmap _ (c_units c)) as [U|]; cbn [bind]; [|reflexivity].
  match goal with |- bind ?x _ = bind ?y _ => replace x with y end.
  2:{ apply rmap_ext. intros a I. cbn [ln_id ln_from ln_to ln_adm ln_cap ln_capr ln_prob]. rewrite !XA; [reflexivity| |];
      apply in_or_app; right; apply in_or_app; right; apply in_or_app; left; apply in_flat_map; exists a; (split; [exact I|cbn; auto]). }
  destruct (rmap _ (c_lines c)) as [L|]; cbn [bind]; [|reflexivity].
  match goal with |- bind ?x _ = bind ?y _ => replace x with y end.
  2:{ apply rmap_ext. intros a I. cbn [fc_from fc_to fc_beg fc_end fc_mw]. rewrite !XA; [reflexivity| |];
      apply in_or_app; right; apply in_or_app; right; apply in_or_app; right; apply in_flat_map; exists a; (split; [exact I|cbn; auto]). }
  destruct (rmap _ (c_fc c)) as [F|]; cbn [bind]; [|reflexivity].
  match goal with |- bind ?x _ = bind ?y _ => replace x with y end; [reflexivity|].
  apply rmap_ext. intros s I. symmetry. apply XU. apply in_or_app. now right.
Qed.
