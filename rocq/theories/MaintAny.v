(** C66, C67 for any table of units. *)
From Verif Require Import Base BaseProofs MaintModel MaintSpec MaintProofs MaintAnyModel MaintAnySpec.
Open Scope Z_scope.

Lemma take_plant_in : forall f i us a b, take_plant f i us = Ok (a, b) -> incl a us /\ incl b us.
Proof.
  induction f as [|f IH]; intros i us a b; cbn [take_plant].
  - destruct (existsb _ us); [discriminate|]. intros E. injection E as <- <-. split; [intros x []|apply incl_refl].
  - destruct (existsb _ us); [|intros E; injection E as <- <-; split; [intros x []|apply incl_refl]].
    destruct (largest i us 0 (qz (-5)) None) as [k|] eqn:EK; [|discriminate].
    destruct (take_plant f i (remove_at k us)) as [(a', b')|] eqn:ET; [|discriminate]. cbn [bind fst snd]. intros E. injection E as <- <-.
    destruct (IH _ _ _ _ ET) as (A & B). assert (R : incl (remove_at k us) us).
    { intros x X. unfold remove_at in X. apply in_app_or in X. destruct X as [X|X]; [rewrite <- (firstn_skipn k us); apply in_or_app; now left|].
      rewrite <- (firstn_skipn (S k) us). apply in_or_app. now right. }
    split; [|eapply incl_tran; eauto]. intros x [<-|X]; [|apply R, A, X].
    assert (K : (k < length us)%nat); [|now apply nth_In]. assert (G : forall l n C J k, largest i l n C J = Some k -> (match J with Some j => j < n | None => True end)%nat -> (k < n + length l)%nat).
    { clear. induction l as [|u l IH]; intros n C J k E H; cbn [largest] in E; [subst J; cbn [length]; lia|]. cbn [length].
      destruct (p_plant u =? i); [destruct (qltb _ _)|]; [specialize (IH _ _ _ _ E ltac:(cbn; lia))|specialize (IH _ _ _ _ E ltac:(destruct J; cbn in *; lia))|specialize (IH _ _ _ _ E ltac:(destruct J; cbn in *; lia))]; lia. }
    specialize (G _ _ _ _ _ EK Logic.I). lia.
Qed.
Lemma take_plants_in : forall n i us t, take_plants n i us = Ok t -> incl t us.
Proof.
  induction n as [|n IH]; intros i us t; cbn [take_plants]; [intros E; injection E as <-; intros x []|].
  destruct (take_plant (length us) i us) as [(a, b)|] eqn:E1; [|discriminate]. cbn [bind fst snd]. destruct (take_plants n (i + 1) b) as [c|] eqn:E2; [|discriminate]. cbn [bind].
  intros E. injection E as <-. destruct (take_plant_in _ _ _ _ _ E1) as (A & B). apply incl_app; [exact A|]. eapply incl_tran; [exact (IH _ _ _ E2)|exact B].
Qed.
Lemma sorted_in us l : us <> [] -> sorted_units us = Ok l -> (exists r, l = zero_unit :: r) /\ forall u, In u l -> u = zero_unit \/ In u us.
Proof.
  intros NE. unfold sorted_units. destruct (take_plants _ 0 us) as [t|] eqn:ET; [|discriminate]. cbn [bind]. intros E. injection E as <-.
  destruct us as [|v us]; [now destruct NE|]. split; [eexists; reflexivity|]. intros u U.
  assert (I1 : In u (zero_unit :: t ++ repeat zero_unit (length (v :: us)))) by (rewrite <- (firstn_skipn (length (v :: us))); apply in_or_app; now left).
  destruct I1 as [I1|I1]; [now left|]. apply in_app_or in I1. destruct I1 as [I1|I1]; [right; exact (take_plants_in _ _ _ _ ET u I1)|]. left. exact (repeat_spec _ _ _ I1).
Qed.
Lemma schedule_py {rest} loss : forall p N i M W (s s' : mst rest), schedule rest loss block_py p N i M W s = Ok s' -> s' = s.
Proof.
  induction p as [|p IH]; intros N i M W s s'; cbn [schedule]; [intros E; now injection E as <-|].
  destruct (pyget W _) as [K1|]; [|discriminate]. cbn [bind]. destruct (qeqb _ q0); [apply IH|]. destruct (bounds _) as (N1, N2).
  destruct (N1 <? N2); [discriminate|]. cbn [bind]. apply IH.
Qed.

(** the row is kept, or it is the row of the first unit of area [a], restarted *)
Definition row_after (a : nat) (ID : list (list Z)) (i : nat) (r : list Z) : Prop :=
  r = nth i ID [] \/ (i = hd 0%nat (area_units a ID) /\ area_units a ID <> [] /\ r = restarted (nth i ID [])).

Section WB.
Variables (a : nat) (ID : list (list Z)) (RATES : list (list Qc)).
Hypothesis NB : numbered ID.
Lemma numbers_nth k : (k < length (area_units a ID))%nat -> nth k (numbers a ID) 0 = Z.of_nat (nth k (area_units a ID) 0%nat) /\ (nth k (area_units a ID) 0 < length ID)%nat.
Proof.
  intros H. assert (HP : (nth k (area_units a ID) 0 < length ID)%nat) by (apply (area_units_in a); now apply nth_In). split; [|exact HP].
  unfold numbers. rewrite (nth_indep _ 0 (zget (nth 0%nat ID []) 0)) by (rewrite map_length; exact H). rewrite (map_nth (fun i => zget (nth i ID []) 0)). now apply NB.
Qed.
Lemma write_back_any : forall us, (forall u, In u us -> u = zero_unit \/ In u (local_units a ID RATES)) -> area_units a ID <> [] ->
  forall D D', length D = length ID -> (forall i, (i < length ID)%nat -> row_after a ID i (nth i D [])) ->
  fold_left (fun acc u => do D <- acc; do IND <- pyget (numbers a ID) (p_no u); do row <- pyget D IND; pyset D IND (upd (upd row 3 (p_b1 u / 168 + 1)) 5 (p_b2 u / 168 + 1))) us (Ok D) = Ok D' ->
  length D' = length ID /\ forall i, (i < length ID)%nat -> row_after a ID i (nth i D' []).
Proof.
  assert (ER : forall us e, fold_left (fun acc u => do D <- acc; do IND <- pyget (numbers a ID) (p_no u); do row <- pyget D IND; pyset D IND (upd (upd row 3 (p_b1 u / 168 + 1)) 5 (p_b2 u / 168 + 1))) us (Err e) = Err e) by (induction us; intros; cbn; auto).
  induction us as [|u us IH]; intros U NE D D' LD RD E; cbn [fold_left] in E; [injection E as <-; auto|].
  assert (K : exists k, (k < length (area_units a ID))%nat /\ p_no u = Z.of_nat k /\
     ((k = 0%nat /\ p_b1 u / 168 + 1 = 1 /\ p_b2 u / 168 + 1 = 1) \/
      (let r := nth (nth k (area_units a ID) 0%nat) ID [] in p_b1 u / 168 + 1 = zget r 3 /\ p_b2 u / 168 + 1 = zget r 5))).
  { destruct (U u (or_introl eq_refl)) as [-> |H].
    - exists 0%nat. split; [destruct (area_units a ID); [now destruct NE|cbn [length]; lia]|]. split; [reflexivity|]. left. repeat split; reflexivity.
    - apply (In_nth _ _ zero_unit) in H. destruct H as (k & Hk & <-). unfold local_units in *. rewrite mapi_length in Hk. exists k. split; [exact Hk|]. rewrite (nth_mapi _ _ _ 0%nat) by exact Hk.
      cbn [local_unit p_no p_b1 p_b2]. split; [reflexivity|]. right. cbv zeta. now rewrite !back. }
  destruct K as (k & Hk & EN & V). destruct (numbers_nth k Hk) as (NN & HP). set (p := nth k (area_units a ID) 0%nat) in *.
  cbn [bind] in E. rewrite EN in E. rewrite (pyget_nonneg _ _ 0) in E by (unfold numbers; rewrite map_length; lia). cbn [bind] in E. rewrite Nat2Z.id, NN in E.
  rewrite (pyget_nonneg _ _ []) in E by lia. cbn [bind] in E. rewrite pyset_nonneg in E by lia. rewrite !Nat2Z.id in E.
  refine (IH _ NE _ _ _ _ E); [intros w W; apply U; now right|rewrite upd_length; exact LD|].
  intros i Hi. destruct (Nat.eq_dec i p) as [->|NEQ]; [|rewrite nth_upd_other by auto; now apply RD]. rewrite nth_upd_same by lia.
  assert (SELF : forall r, upd (upd (restarted r) 3 (zget r 3)) 5 (zget r 5) = r).
  { intros r. unfold restarted. rewrite (upd_comm (upd r 3 1) 5 3) by lia. rewrite !upd_twice. unfold zget. now rewrite !upd_self. }
  assert (SELF2 : forall r, upd (upd r 3 (zget r 3)) 5 (zget r 5) = r) by (intros r; unfold zget; now rewrite !upd_self).
  assert (TW : forall r, upd (upd (restarted r) 3 1) 5 1 = restarted r) by (intros r; unfold restarted; rewrite (upd_comm (upd r 3 1) 5 3) by lia; now rewrite !upd_twice).
  destruct V as [(-> & -> & ->)|(V1 & V2)].
  - right. split; [subst p; destruct (area_units a ID); reflexivity|]. split; [exact NE|]. destruct (RD p HP) as [-> |(_ & _ & ->)]; [reflexivity|apply TW].
  - fold p in V1, V2. rewrite V1, V2. left. destruct (RD p HP) as [-> |(_ & _ & ->)]; auto.
Qed.
End WB.

Section ANY.
Context {rest : Type}.
Variables (loss : Qc -> Qc) (presched : list punit -> mst rest -> res (list Qc * list Z * mst rest)) (r0 : rest) (RATES : list (list Qc)).

Lemma pmsc_any a ID ITAB ID' ITAB' : numbered ID -> pmsc rest loss presched block_py a ID ITAB RATES r0 = Ok (ID', ITAB') ->
  length ID' = length ID /\ forall i, (i < length ID)%nat -> row_after a ID i (nth i ID' []).
Proof.
  intros NB. unfold pmsc. cbv zeta. destruct (Nat.eqb_spec (length (local_units a ID RATES)) 0) as [Z0|NZ].
  { intros E. injection E as <- <-. split; [reflexivity|]. intros i _. now left. }
  destruct (sorted_units (local_units a ID RATES)) as [l|] eqn:ES; [|discriminate]. cbn [bind].
  destruct (sorted_in _ l ltac:(intros K; rewrite K in NZ; now apply NZ) ES) as ((r & EL) & IN).
  destruct (500 <? _)%nat; [discriminate|]. assert (LZ : leading l = 0%nat) by (rewrite EL; reflexivity). rewrite LZ. cbn [Nat.eqb].
  destruct (plant_totals _ l _ _ _ _ _) as [(MT, W)|]; [|discriminate]. cbn [bind].
  destruct (schedule _ _ _ _ _ _ _ _ _) as [s2|] eqn:E2; [|discriminate]. apply schedule_py in E2. subst s2. cbn [bind t_INDEX t_us].
  destruct (existsb _ _); [discriminate|]. destruct (write_back _ l ID) as [D'|] eqn:EW; [|discriminate]. cbn [bind]. intros E. injection E as <- _.
  unfold write_back in EW. apply (write_back_any a ID RATES NB l IN) with (D := ID); auto.
  - intros K. apply NZ. unfold local_units. rewrite mapi_length, K. reflexivity.
  - intros i _. now left.
Qed.

Definition same_but_starts (r r' : list Z) : Prop := forall k, (k <> 3)%nat -> (k <> 5)%nat -> zget r k = zget r' k.
Lemma row_after_same a ID i r : row_after a ID i r -> same_but_starts r (nth i ID []).
Proof. intros [-> |(_ & _ & ->)] k A B; [reflexivity|now apply zget_restarted]. Qed.
Lemma first_not_follows a ID i : (i < length ID)%nat -> i = hd 0%nat (area_units a ID) -> area_units a ID <> [] -> follows ID i -> False.
Proof.
  intros Hi EH NE (j & Hj & EA). destruct (area_units a ID) as [|h l] eqn:EL; [now apply NE|]. cbn [hd] in EH. subst h.
  assert (II : In i (area_units a ID)) by (rewrite EL; now left). apply area_units_in in II. destruct II as (_ & AI).
  assert (IJ : In j (area_units a ID)) by (apply area_units_in; split; [lia|]; unfold area_of in EA; congruence).
  assert (AS : asc 0 (area_units a ID)) by apply asc_filter. rewrite EL in IJ, AS. destruct IJ as [IJ|IJ]; [lia|].
  destruct (In_nth _ _ 0%nat IJ) as (k & Hk & EK). pose proof (asc_lt _ _ 0%nat (S k) AS ltac:(cbn [length]; lia)) as L. cbn [nth] in L. lia.
Qed.

Lemma pmsc_all_any : forall areas ID ITAB ID' ITAB', numbered ID -> pmsc_all rest loss presched block_py areas ID ITAB RATES r0 = Ok (ID', ITAB') ->
  length ID' = length ID /\ (forall i, (i < length ID)%nat -> same_but_starts (nth i ID' []) (nth i ID [])) /\
  (forall i, (i < length ID)%nat -> follows ID i -> nth i ID' [] = nth i ID []).
Proof.
  induction areas as [|a areas IH]; intros ID ITAB ID' ITAB' NB; cbn [pmsc_all].
  - intros E. injection E as <- <-. split; [reflexivity|]. split; [intros i _ k _ _; reflexivity|reflexivity].
  - destruct (pmsc _ _ _ _ a ID ITAB RATES r0) as [(D, t)|] eqn:EP; [|discriminate]. cbn [bind fst snd]. intros E. destruct (pmsc_any a ID ITAB D t NB EP) as (LD & RD).
    assert (SA : forall i, (i < length ID)%nat -> same_but_starts (nth i D []) (nth i ID [])) by (intros i Hi; apply (row_after_same a); auto).
    destruct (IH D t ID' ITAB') as (L1 & S1 & F1); auto.
    { intros i Hi. rewrite LD in Hi. rewrite (SA i Hi 0%nat) by lia. now apply NB. }
    split; [lia|]. split.
    + intros i Hi k A B. rewrite S1 by (lia || auto). now apply SA.
    + intros i Hi F. rewrite F1; [|lia|].
      * destruct (RD i Hi) as [E1|(E1 & E2 & _)]; [exact E1|]. destruct (first_not_follows a ID i Hi E1 E2 F).
      * destruct F as (j & Hj & EA). exists j. split; [exact Hj|]. unfold area_of in *. rewrite (SA j ltac:(lia) 2%nat), (SA i ltac:(lia) 2%nat) by lia. exact EA.
Qed.
End ANY.
