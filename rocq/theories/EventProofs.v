(** Proofs about the event calendar. *)
From Coq Require Import Sorted Permutation.
From Verif Require Import BaseProofs EventModel EventSpec.
Open Scope Z_scope.

Lemma cell_get ev p : 0 <= p < Z.of_nat (length ev) -> pyget ev p = Ok (cell ev p).
Proof. intros H. unfold cell. now apply pyget_nonneg. Qed.

Lemma cell_upd ev p q x :
  0 <= p < Z.of_nat (length ev) -> 0 <= q ->
  cell (upd ev (Z.to_nat p) x) q = if p =? q then x else cell ev q.
Proof.
  intros Hp Hq. unfold cell. rewrite nth_upd.
  replace (Nat.ltb (Z.to_nat p) (length ev)) with true by (symmetry; apply Nat.ltb_lt; lia).
  rewrite andb_true_r.
  destruct (Z.eqb_spec p q) as [->|E]; [now rewrite Nat.eqb_refl|].
  destruct (Nat.eqb_spec (Z.to_nat p) (Z.to_nat q)); [lia|reflexivity].
Qed.

Lemma slot_apart ev ev' p q : slot ev p -> slot ev' q -> p <> q -> p + 4 <= q \/ q + 4 <= p.
Proof.
  intros (H1 & H2 & _) (H3 & H4 & _) N.
  pose proof (Z.div_mod p 4 ltac:(lia)). pose proof (Z.div_mod q 4 ltac:(lia)). lia.
Qed.

Lemma linked_ext ev ev' p ss q :
  (forall s, In s ss -> cell ev s = cell ev' s) -> linked ev p ss q -> linked ev' p ss q.
Proof.
  revert p; induction ss as [|s ss IH]; intros p H L; cbn in *; auto.
  destruct L as [-> (nx & C & L)]. split; auto. exists nx. split.
  - rewrite <- H; auto.
  - apply IH; auto.
Qed.

Lemma linked_app ev p ss1 ss2 q :
  linked ev p (ss1 ++ ss2) q <-> exists r, linked ev p ss1 r /\ linked ev r ss2 q.
Proof.
  revert p; induction ss1 as [|s ss1 IH]; intros p; cbn.
  - split; [intros H; exists p; auto | intros (r & -> & H); auto].
  - split.
    + intros (-> & nx & C & L). apply IH in L. destruct L as (r & L1 & L2).
      exists r. split; auto. split; auto. exists nx; auto.
    + intros (r & (-> & nx & C & L1) & L2). split; auto. exists nx. split; auto.
      apply IH. exists r; auto.
Qed.

(** redirecting the end of a non-empty linked segment *)
Lemma linked_redirect ev ev' p pre s q r :
  linked ev p (pre ++ [s]) q -> NoDup (pre ++ [s]) ->
  (forall x, In x pre -> cell ev' x = cell ev x) -> cell ev' s = qz r ->
  linked ev' p (pre ++ [s]) r.
Proof.
  intros L N E C. apply linked_app in L. destruct L as (m & L1 & L2). apply linked_app.
  exists m. split.
  - eapply linked_ext; [|exact L1]. intros x Hx. symmetry. auto.
  - cbn in L2 |- *. destruct L2 as (-> & _). split; auto. exists r; auto.
Qed.

Lemma map_event_ext ev ev' ss :
  (forall s, In s ss -> event_at ev s = event_at ev' s) ->
  map (event_at ev) ss = map (event_at ev') ss.
Proof. intros H. apply map_ext_in. exact H. Qed.

Lemma NoDup_app_remove_r {A} (l l' : list A) : NoDup (l ++ l') -> NoDup l.
Proof.
  induction l as [|a l IH]; cbn; intros H; [constructor|]. inversion H; subst.
  constructor; auto. intros C. apply H2. apply in_or_app. now left.
Qed.
Lemma NoDup_snoc {A} (l : list A) a : NoDup (a :: l) -> NoDup (l ++ [a]).
Proof. intros H. eapply Permutation_NoDup; [|exact H]. apply Permutation_cons_append. Qed.

Lemma slots_bound ev ss : NoDup ss -> (forall s, In s ss -> slot ev s) -> (length ss <= length ev)%nat.
Proof.
  intros N S. rewrite <- (map_length Z.to_nat ss), <- (seq_length (length ev) 0).
  apply NoDup_incl_length.
  - clear - N S. induction ss as [|s ss IH]; cbn; constructor.
    + intros H. apply in_map_iff in H. destruct H as (x & E & Hx).
      inversion N; subst. assert (x = s); [|congruence].
      destruct (S x); [now right|]. destruct (S s); [now left|]. lia.
    + apply IH; [inversion N; auto | intros; apply S; now right].
  - intros x H. apply in_map_iff in H. destruct H as (s & <- & Hs). destruct (S s Hs). apply in_seq. lia.
Qed.

Lemma walk_spec t ev : forall ss fuel K j,
  ss <> [] -> linked ev j ss (-1) -> (forall s, In s ss -> slot ev s) ->
  StronglySorted (fun a b => (fst a <= fst b)%Qc) (map (event_at ev) ss) ->
  (length ss <= fuel)%nat ->
  exists pre post, ss = pre ++ post /\
    (forall s, In s pre -> (cell ev (s + 1) < t)%Qc) /\
    (forall s, In s post -> (t <= cell ev (s + 1))%Qc) /\
    filem_walk fuel t ev K j = Ok (last pre K, match post with [] => -1 | s :: _ => s end).
Proof.
  induction ss as [|s ss IH]; intros fuel K j NE L SL SRT F; [congruence|].
  destruct fuel as [|fuel]; [cbn in F; lia|].
  cbn in L. destruct L as (-> & nx & C & L).
  pose proof (SL s (or_introl eq_refl)) as (S1 & S2 & S3).
  cbn [filem_walk]. rewrite cell_get by lia. cbn [bind].
  cbn [map] in SRT. inversion SRT as [|a b Sb Fb]; subst.
  destruct (qltb (cell ev (s + 1)) t) eqn:E; qc_bool.
  - rewrite cell_get by lia. cbn [bind]. rewrite C, qtrunc_qz.
    destruct ss as [|s' ss].
    + cbn in L. subst nx. cbn [Z.eqb].
      exists [s], []. repeat split; auto.
      * intros x [<-|[]]; auto.
      * intros x [].
    + assert (nx = s') by (cbn in L; tauto). subst nx.
      assert (s' =? -1 = false) as ->.
      { destruct (SL s') as (? & _); [right; now left|]. apply Z.eqb_neq. lia. }
      destruct (IH fuel s s') as (pre & post & E1 & E2 & E3 & E4); auto.
      { congruence. } { intros; apply SL; now right. } { cbn in F |- *; lia. }
      exists (s :: pre), post. rewrite E1. repeat split; auto.
      * intros x [<-|Hx]; auto.
      * rewrite E4. f_equal. f_equal. destruct pre as [|x pre]; auto.
        cbn [last]. destruct pre; auto. clear. revert z. induction pre as [|y pre IH]; intros z; cbn in *; auto.
  - exists [], (s :: ss). repeat split; auto.
    + intros x [].
    + intros x [<-|Hx]; auto. rewrite Forall_forall in Fb.
      specialize (Fb (event_at ev x) (in_map _ _ _ Hx)). cbn [fst event_at] in Fb. qlra.
Qed.

Lemma sorted_insert (e : event) before after :
  chronological (before ++ after) ->
  (forall x, In x before -> (fst x < fst e)%Qc) ->
  (forall x, In x after -> (fst e <= fst x)%Qc) ->
  chronological (before ++ e :: after).
Proof.
  unfold chronological. induction before as [|b bs IH]; cbn; intros S B A.
  - constructor; auto. apply Forall_forall. auto.
  - inversion S as [|? ? S' F]; subst. constructor.
    + apply IH; auto.
    + rewrite Forall_forall in *. intros x Hx. apply in_app_or in Hx. destruct Hx as [Hx|[<-|Hx]].
      * apply F. apply in_or_app. now left.
      * specialize (B b (or_introl eq_refl)). qlra.
      * apply F. apply in_or_app. now right.
Qed.

Lemma last_in {A} (l : list A) d : l <> [] -> In (last l d) l.
Proof. intros H. destruct (exists_last H) as (l' & x & ->). rewrite last_last. apply in_or_app. right. now left. Qed.

Theorem filem_refines c l n e :
  holds c l (S n) ->
  exists c' l', filem c e = Ok c' /\ scheduled e l l' /\ holds c' l' n.
Proof.
  intros (ss & fs & L & (q & FL) & ND & SL & -> & SRT & NQ & NF).
  destruct c as [mfa nq ip ev]. cbn [MFA NUMINQ IPOINT EVNTS] in *.
  destruct fs as [|new fs]; [discriminate|]. cbn [length] in NF. injection NF as NF.
  cbn in FL. destruct FL as (-> & fnx & FC & FL).
  assert (slot ev new) as SN by (apply SL; apply in_or_app; right; now left).
  assert (NoDup ss) as NDs by (eapply NoDup_remove_1 in ND; apply NoDup_app_remove_r in ND; auto).
  assert (forall s, In s ss -> slot ev s) as SLs by (intros; apply SL; apply in_or_app; now left).
  assert (forall s, In s fs -> slot ev s) as SLf by (intros; apply SL; apply in_or_app; right; now right).
  assert (~ In new (ss ++ fs)) as NIN by (now apply NoDup_remove_2 in ND).
  assert (NoDup (ss ++ fs)) as NDr by (now apply NoDup_remove_1 in ND).
  assert (forall s, In s ss -> s <> new) as NEs by (intros s Hs ->; apply NIN; apply in_or_app; now left).
  assert (forall s, In s fs -> s <> new) as NEf by (intros s Hs ->; apply NIN; apply in_or_app; now right).
  destruct e as [t ty]. unfold filem. cbn [MFA NUMINQ IPOINT EVNTS fst snd].
  destruct SN as (N0 & N4 & N3).
  rewrite pyset_nonneg by lia. cbn [bind]. set (ev1 := upd ev (Z.to_nat (new + 1)) t).
  assert (length ev1 = length ev) as L1 by apply upd_length.
  rewrite pyset_nonneg by lia. cbn [bind]. set (ev2 := upd ev1 (Z.to_nat (new + 2)) ty).
  assert (length ev2 = length ev) as L2 by (unfold ev2; rewrite upd_length; auto).
  assert (C2 : forall p, 0 <= p -> cell ev2 p = if new + 2 =? p then ty else if new + 1 =? p then t else cell ev p).
  { intros p Hp. unfold ev2, ev1. rewrite cell_upd by (rewrite ?upd_length; lia).
    destruct (new + 2 =? p); auto. rewrite cell_upd by lia. reflexivity. }
  assert (CE : forall s k, slot ev s -> s <> new -> 0 <= k <= 2 -> cell ev2 (s + k) = cell ev (s + k)).
  { intros s k Hs Hn Hk. destruct (slot_apart ev ev s new Hs (conj N0 (conj N4 N3)) Hn);
    destruct Hs as (? & ? & ?); rewrite C2 by lia;
    destruct (Z.eqb_spec (new + 2) (s + k)); try lia; destruct (Z.eqb_spec (new + 1) (s + k)); lia || auto. }
  assert (CE0 : forall s, slot ev s -> s <> new -> cell ev2 s = cell ev s).
  { intros s Hs Hn. specialize (CE s 0 Hs Hn). rewrite Z.add_0_r in CE. apply CE. lia. }
  rewrite (cell_get ev2 new) by lia. cbn [bind].
  assert (cell ev2 new = qz fnx) as ->.
  { rewrite C2 by lia. destruct (Z.eqb_spec (new + 2) new); [lia|]. destruct (Z.eqb_spec (new + 1) new); [lia|]. exact FC. }
  rewrite qtrunc_qz.
  assert (T2 : cell ev2 (new + 1) = t).
  { rewrite C2 by lia. destruct (Z.eqb_spec (new + 2) (new + 1)); [lia|]. now rewrite Z.eqb_refl. }
  assert (Y2 : cell ev2 (new + 2) = ty).
  { rewrite C2 by lia. now rewrite Z.eqb_refl. }
  assert (M2 : map (event_at ev2) ss = map (event_at ev) ss).
  { apply map_event_ext. intros s Hs. unfold event_at. rewrite !CE; auto; lia. }
  assert (LK2 : linked ev2 ip ss (-1)).
  { eapply linked_ext; [|exact L]. intros s Hs. symmetry. apply CE0; auto. }
  assert (LF2 : linked ev2 fnx fs q).
  { eapply linked_ext; [|exact FL]. intros s Hs. symmetry. apply CE0; auto. }
  (* generic construction of the final [holds] *)
  assert (FIN : forall pre post ev' ip',
    ss = pre ++ post -> length ev' = length ev ->
    (forall s, In s pre -> (cell ev2 (s + 1) < t)%Qc) ->
    (forall s, In s post -> (t <= cell ev2 (s + 1))%Qc) ->
    linked ev' ip' (pre ++ new :: post) (-1) ->
    (forall s, In s fs -> cell ev' s = cell ev2 s) ->
    (forall s, slot ev s -> cell ev' (s + 1) = cell ev2 (s + 1) /\ cell ev' (s + 2) = cell ev2 (s + 2)) ->
    exists l', scheduled (t, ty) (map (event_at ev) ss) l' /\
      holds (mkCal fnx (nq + 1) ip' ev') l' n).
  { intros pre post ev' ip' -> LE HP HQ LK HF HC.
    assert (EV : forall s, slot ev s -> event_at ev' s = event_at ev2 s).
    { intros s Hs. unfold event_at. destruct (HC s Hs) as [-> ->]. reflexivity. }
    exists (map (event_at ev2) pre ++ (t, ty) :: map (event_at ev2) post).
    rewrite <- M2, map_app in *.
    assert (forall x, In x (map (event_at ev2) pre) -> (fst x < t)%Qc) as HB.
    { intros x Hx. apply in_map_iff in Hx. destruct Hx as (s & <- & Hs). apply HP; auto. }
    assert (forall x, In x (map (event_at ev2) post) -> (t <= fst x)%Qc) as HA.
    { intros x Hx. apply in_map_iff in Hx. destruct Hx as (s & <- & Hs). apply HQ; auto. }
    assert (ND' : NoDup ((pre ++ new :: post) ++ fs)).
    { rewrite <- app_assoc. cbn [app]. apply NoDup_Add with (a := new) (l := pre ++ post ++ fs).
      - apply Add_app.
      - split; [now rewrite app_assoc|]. now rewrite app_assoc. }
    split.
    - exists (map (event_at ev2) pre), (map (event_at ev2) post). repeat split; auto.
    - exists (pre ++ new :: post), fs. cbn [MFA NUMINQ IPOINT EVNTS].
      split; [exact LK|]. split; [exists q; eapply linked_ext; [|exact LF2]; intros s Hs; symmetry; apply HF; auto|].
      split; [exact ND'|]. split.
      { intros s Hs. unfold slot. rewrite LE. apply in_app_or in Hs. destruct Hs as [Hs|Hs].
        - apply in_app_or in Hs. destruct Hs as [Hs|[<-|Hs]].
          + apply SLs. apply in_or_app. now left.
          + repeat split; auto.
          + apply SLs. apply in_or_app. now right.
        - apply SLf; auto. }
      split.
      { rewrite map_app. cbn [map]. apply f_equal2; [|apply f_equal2].
        - symmetry. apply map_event_ext. intros s Hs. apply EV. apply SLs. apply in_or_app. now left.
        - rewrite EV by (repeat split; auto). unfold event_at. now rewrite T2, Y2.
        - symmetry. apply map_event_ext. intros s Hs. apply EV. apply SLs. apply in_or_app. now right. }
      split. { apply sorted_insert; auto. }
      split; [|exact NF].
      rewrite NQ. repeat (rewrite ?app_length, ?map_length; cbn [length]). lia. }
  assert (IPP : ss = [] /\ ip = -1 \/ exists s ss', ss = s :: ss' /\ ip = s).
  { destruct ss as [|s ss']; [left; cbn in L; auto | right; exists s, ss'; cbn in L; tauto]. }
  destruct IPP as [[-> ->] | (s0 & ss' & Ess & ->)].
  - (* empty calendar *)
    cbn [Z.ltb Z.compare]. rewrite pyset_nonneg by lia. cbn [bind].
    destruct (FIN [] [] (upd ev2 (Z.to_nat new) (qz (-1))) new) as (l' & H1 & H2); auto.
    + now rewrite upd_length.
    + intros s [].
    + intros s [].
    + cbn. split; auto. exists (-1). split; auto.
      rewrite cell_upd by lia. now rewrite Z.eqb_refl.
    + intros s Hs. destruct (SLf s Hs). rewrite cell_upd by lia.
      destruct (Z.eqb_spec new s); auto. exfalso. eapply NEf; eauto.
    + intros s (? & ? & ?). pose proof (Z.div_mod new 4 ltac:(lia)). pose proof (Z.div_mod s 4 ltac:(lia)).
      rewrite !cell_upd by lia.
      destruct (Z.eqb_spec new (s + 1)); [lia|]. destruct (Z.eqb_spec new (s + 2)); [lia|]. auto.
    + eexists; exists l'; split; [reflexivity|split; assumption].
  - assert (slot ev s0) as S0 by (apply SLs; rewrite Ess; now left).
    assert (-1 <? s0 = true) as -> by (apply Z.ltb_lt; destruct S0; lia).
    destruct S0 as (S00 & S04 & S03).
    rewrite cell_get by lia. cbn [bind].
    assert (SRT2 : StronglySorted (fun a b => (fst a <= fst b)%Qc) (map (event_at ev2) ss)) by (rewrite M2; exact SRT).
    destruct (walk_spec t ev2 ss (length ev2) 0 s0) as (pre & post & E1 & E2 & E3 & E4); auto.
    { rewrite Ess. congruence. }
    { intros s Hs. unfold slot. rewrite L2. apply SLs; auto. }
    { rewrite L2. apply slots_bound; auto. }
    destruct (qltb (cell ev2 (s0 + 1)) t) eqn:Elt; qc_bool.
    + (* walk *)
      assert (pre <> []) as NP.
      { intros ->. cbn in E1. subst post. rewrite Ess in E3. specialize (E3 s0 (or_introl eq_refl)). qlra. }
      rewrite E4. cbn [bind]. set (K := last pre 0).
      assert (In K pre) as KP by (apply last_in; auto).
      assert (In K ss) as KS by (rewrite E1; apply in_or_app; now left).
      pose proof (SLs K KS) as (K0 & K4 & K3).
      assert (K <> new) as KN by (apply NEs; auto).
      destruct (exists_last NP) as (pre' & k' & Epre).
      assert (k' = K) by (unfold K; rewrite Epre, last_last; reflexivity). subst k'.
      assert (NoDup pre) as NDp by (rewrite E1 in NDs; apply NoDup_app_remove_r in NDs; auto).
      assert (forall x, In x pre' -> x <> K) as NEK.
      { intros x Hx ->. rewrite Epre in NDp. apply NoDup_remove_2 in NDp. rewrite app_nil_r in NDp. auto. }
      assert (LKs : linked ev2 s0 (pre ++ post) (-1)) by (rewrite <- E1; exact LK2).
      apply linked_app in LKs. destruct LKs as (r & LKp & LKq).
      assert (r = match post with [] => -1 | s :: _ => s end) as Er.
      { destruct post; cbn in LKq; tauto. }
      rewrite <- Er.
      assert (forall s, In s (ss ++ fs) -> s <> K -> s <> new -> s <> K /\ s <> new) as _ by auto.
      assert (GEN : forall ev', length ev' = length ev ->
        (forall p, 0 <= p -> cell ev' p = if p =? K then qz new else if p =? new then qz r else cell ev2 p) ->
        exists l', scheduled (t, ty) (map (event_at ev) ss) l' /\ holds (mkCal fnx (nq + 1) s0 ev') l' n).
      { intros ev' LE CC. apply (FIN pre post ev' s0); auto.
        - apply linked_app. exists new. split.
          + rewrite Epre in *. eapply linked_redirect; eauto.
            * intros x Hx. assert (In x ss) as Hxs by (rewrite E1; apply in_or_app; left; apply in_or_app; now left).
              destruct (SLs x Hxs). rewrite CC by lia.
              destruct (Z.eqb_spec x K); [exfalso; eapply NEK; eauto|].
              destruct (Z.eqb_spec x new); [exfalso; eapply NEs; eauto|reflexivity].
            * rewrite CC by lia. now rewrite Z.eqb_refl.
          + cbn. split; auto. exists r. split.
            * rewrite CC by lia. destruct (Z.eqb_spec new K); [congruence|]. now rewrite Z.eqb_refl.
            * eapply linked_ext; [|exact LKq]. intros x Hx.
              assert (In x ss) as Hxs by (rewrite E1; apply in_or_app; now right).
              destruct (SLs x Hxs). rewrite CC by lia.
              destruct (Z.eqb_spec x K) as [->|].
              { exfalso. rewrite E1, Epre, <- app_assoc in NDs. apply NoDup_remove_2 in NDs. apply NDs.
                apply in_or_app. now right. }
              destruct (Z.eqb_spec x new); [exfalso; eapply NEs; eauto|reflexivity].
        - intros s Hs. destruct (SLf s Hs). rewrite CC by lia.
          destruct (Z.eqb_spec s K) as [->|].
          { exfalso. clear - NDr KS Hs. induction ss as [|a ss IH]; [contradiction|].
            cbn in NDr. inversion NDr; subst. destruct KS as [->|KS]; [apply H1; apply in_or_app; now right|auto]. }
          destruct (Z.eqb_spec s new); [exfalso; eapply NEf; eauto|reflexivity].
        - intros s (? & ? & ?). pose proof (Z.div_mod new 4 ltac:(lia)). pose proof (Z.div_mod s 4 ltac:(lia)).
          pose proof (Z.div_mod K 4 ltac:(lia)).
          rewrite !CC by lia.
          destruct (Z.eqb_spec (s + 1) K); [lia|]. destruct (Z.eqb_spec (s + 2) K); [lia|].
          destruct (Z.eqb_spec (s + 1) new); [lia|]. destruct (Z.eqb_spec (s + 2) new); [lia|]. auto. }
      destruct (Z.eqb_spec r (-1)) as [R1|R1].
      * rewrite pyset_nonneg by lia. cbn [bind]. rewrite pyset_nonneg by (rewrite upd_length; lia). cbn [bind].
        destruct (GEN (upd (upd ev2 (Z.to_nat K) (qz new)) (Z.to_nat new) (qz (-1)))) as (l' & H1 & H2).
        { now rewrite !upd_length. }
        { intros p Hp. rewrite cell_upd by (rewrite ?upd_length; lia).
          destruct (Z.eqb_spec new p) as [<-|].
          - destruct (Z.eqb_spec new K); [congruence|]. rewrite Z.eqb_refl. congruence.
          - rewrite cell_upd by lia. rewrite (Z.eqb_sym K p). destruct (Z.eqb_spec p K); auto.
            destruct (Z.eqb_spec p new); congruence. }
        eexists; exists l'; split; [reflexivity|split; assumption].
      * rewrite pyset_nonneg by lia. cbn [bind]. rewrite pyset_nonneg by (rewrite upd_length; lia). cbn [bind].
        destruct (GEN (upd (upd ev2 (Z.to_nat new) (qz r)) (Z.to_nat K) (qz new))) as (l' & H1 & H2).
        { now rewrite !upd_length. }
        { intros p Hp. rewrite cell_upd by (rewrite ?upd_length; lia).
          rewrite (Z.eqb_sym K p). destruct (Z.eqb_spec p K); auto.
          rewrite cell_upd by lia. rewrite (Z.eqb_sym new p). destruct (Z.eqb_spec p new); auto. }
        eexists; exists l'; split; [reflexivity|split; assumption].
    + (* front *)
      assert (pre = []) as ->.
      { destruct pre as [|x pre]; auto. exfalso. rewrite Ess in E1. injection E1 as <- _.
        specialize (E2 s0 (or_introl eq_refl)). qlra. }
      cbn [app] in E1. subst post.
      rewrite pyset_nonneg by lia. cbn [bind].
      destruct (FIN [] ss (upd ev2 (Z.to_nat new) (qz s0)) new) as (l' & H1 & H2); auto.
      * now rewrite upd_length.
      * cbn. split; auto. exists s0. split.
        -- rewrite cell_upd by lia. now rewrite Z.eqb_refl.
        -- eapply linked_ext; [|exact LK2]. intros x Hx. destruct (SLs x Hx).
           rewrite cell_upd by lia. destruct (Z.eqb_spec new x); auto. exfalso. eapply NEs; eauto.
      * intros s Hs. destruct (SLf s Hs). rewrite cell_upd by lia.
        destruct (Z.eqb_spec new s); auto. exfalso. eapply NEf; eauto.
      * intros s (? & ? & ?). pose proof (Z.div_mod new 4 ltac:(lia)). pose proof (Z.div_mod s 4 ltac:(lia)).
        rewrite !cell_upd by lia.
        destruct (Z.eqb_spec new (s + 1)); [lia|]. destruct (Z.eqb_spec new (s + 2)); [lia|]. auto.
      * eexists; exists l'; split; [reflexivity|split; assumption].
Qed.

Theorem remove_refines c e l n :
  holds c (e :: l) n ->
  exists c', remove c = Ok (Some (e, c')) /\ holds c' l 1.
Proof.
  intros (ss & fs & L & _ & ND & SL & E & SRT & NQ & NF).
  destruct c as [mfa nq ip ev]. cbn [MFA NUMINQ IPOINT EVNTS] in *.
  destruct ss as [|s ss]; [discriminate|]. cbn [map] in E. injection E as -> ->.
  cbn in L. destruct L as (-> & nx & C & L).
  assert (slot ev s) as SS by (apply SL; now left). destruct SS as (S0 & S4 & S3).
  unfold remove. cbn [MFA NUMINQ IPOINT EVNTS].
  assert (nq <=? 0 = false) as -> by (apply Z.leb_gt; cbn [length] in NQ; lia).
  assert (s <? 0 = false) as -> by (apply Z.ltb_ge; lia).
  rewrite !cell_get by lia. cbn [bind].
  rewrite pyset_nonneg by lia. cbn [bind]. rewrite pyset_nonneg by (rewrite upd_length; lia). cbn [bind].
  set (ev2 := upd _ _ _).
  assert (length ev2 = length ev) as L2 by (unfold ev2; now rewrite !upd_length).
  assert (C2 : forall p, 0 <= p -> cell ev2 p = if s + 2 =? p then q0 else if s + 1 =? p then q0 else cell ev p).
  { intros p Hp. unfold ev2. rewrite cell_upd by (rewrite ?upd_length; lia).
    destruct (s + 2 =? p); auto. rewrite cell_upd by lia. reflexivity. }
  rewrite cell_get by lia. cbn [bind].
  assert (cell ev2 s = qz nx) as Cs.
  { rewrite C2 by lia. destruct (Z.eqb_spec (s + 2) s); [lia|]. destruct (Z.eqb_spec (s + 1) s); [lia|]. exact C. }
  rewrite Cs, qtrunc_qz. eexists. split; [reflexivity|].
  assert (NS : ~ In s (ss ++ fs)) by (cbn in ND; inversion ND; auto).
  assert (CE : forall x k, In x ss -> 0 <= k <= 2 -> cell ev2 (x + k) = cell ev (x + k)).
  { intros x k Hx Hk. assert (slot ev x) as Sx by (apply SL; right; apply in_or_app; now left).
    assert (x <> s) as Nx by (intros ->; apply NS; apply in_or_app; now left).
    destruct (slot_apart ev ev x s Sx (conj S0 (conj S4 S3)) Nx); destruct Sx as (? & ? & ?);
    rewrite C2 by lia; destruct (Z.eqb_spec (s + 2) (x + k)); try lia;
    destruct (Z.eqb_spec (s + 1) (x + k)); lia || auto. }
  exists ss, [s]. cbn [MFA NUMINQ IPOINT EVNTS].
  split. { eapply linked_ext; [|exact L]. intros x Hx. specialize (CE x 0 Hx ltac:(lia)).
           rewrite Z.add_0_r in CE. auto. }
  split. { exists nx. cbn. split; auto. exists nx; auto. }
  split. { apply NoDup_snoc. constructor.
           - intros H. apply NS. apply in_or_app. now left.
           - cbn in ND. inversion ND; subst. now apply NoDup_app_remove_r in H2. }
  split. { intros x Hx. unfold slot. rewrite L2. apply in_app_or in Hx. destruct Hx as [Hx|[<-|[]]].
           - apply SL. right. apply in_or_app. now left.
           - repeat split; auto. }
  split. { apply map_event_ext. intros x Hx. unfold event_at. rewrite !CE; auto; lia. }
  split. { inversion SRT; auto. }
  split; [|reflexivity].
  cbn [length] in NQ. rewrite map_length in *. lia.
Qed.

(* ------------------------------------------------------------------ *)
(** ** Histories *)

Lemma scheduled_unique e l l1 l2 : scheduled e l l1 -> scheduled e l l2 -> l1 = l2.
Proof.
  intros (b1 & a1 & E1 & -> & B1 & A1) (b2 & a2 & E2 & -> & B2 & A2).
  enough (b1 = b2 /\ a1 = a2) as [-> ->] by reflexivity.
  subst l. revert b2 E2 B2. induction b1 as [|x b1 IH]; intros [|y b2] E2 B2; cbn in *.
  - auto.
  - exfalso. subst a1. specialize (A1 y (or_introl eq_refl)). specialize (B2 y (or_introl eq_refl)). qlra.
  - exfalso. subst a2. specialize (A2 x (or_introl eq_refl)). specialize (B1 x (or_introl eq_refl)). qlra.
  - injection E2 as -> E2. destruct (IH ltac:(auto) b2) as [-> ->]; auto.
Qed.

Lemma scheduled_perm e l l' : scheduled e l l' -> Permutation (e :: l) l'.
Proof. intros (b & a & -> & -> & _). apply Permutation_middle. Qed.

Lemma holds_chrono c l n : holds c l n -> chronological l.
Proof. intros (ss & fs & _ & _ & _ & _ & -> & S & _). exact S. Qed.

Lemma holds_count c l n : holds c l n -> NUMINQ c = Z.of_nat (length l).
Proof. intros (ss & fs & _ & _ & _ & _ & -> & _ & N & _). exact N. Qed.

Theorem history_run l k ops tk lf kf :
  history l k ops tk lf kf -> forall c, holds c l k ->
  exists c', run_ops c ops = Ok (tk, c') /\ holds c' lf kf.
Proof.
  induction 1 as [l k | l k e l' ops tk lf kf S _ IH | e l k ops tk lf kf _ IH]; intros c H.
  - exists c. auto.
  - destruct (filem_refines c l k e H) as (c1 & l1 & E & S1 & H1).
    rewrite (scheduled_unique _ _ _ _ S S1) in *.
    destruct (IH c1 H1) as (c' & R & Hf). exists c'. cbn [run_ops]. rewrite E. cbn [bind]. auto.
  - destruct (remove_refines c e l k H) as (c1 & E & H1).
    destruct (IH c1 H1) as (c' & R & Hf). exists c'. cbn [run_ops]. rewrite E. cbn [bind].
    rewrite R. cbn [bind fst snd]. auto.
Qed.

Theorem history_conserves l k ops tk lf kf :
  history l k ops tk lf kf -> Permutation (l ++ scheduled_in ops) (tk ++ lf).
Proof.
  induction 1 as [l k | l k e l' ops tk lf kf S _ IH | e l k ops tk lf kf _ IH]; cbn [scheduled_in app].
  - now rewrite app_nil_r.
  - rewrite <- IH, <- Permutation_middle. now rewrite <- (scheduled_perm _ _ _ S).
  - now constructor.
Qed.

(* ------------------------------------------------------------------ *)
(** ** The freshly initialised calendar *)

Lemma linked_dec_empty ev : linked ev (-1) [] (-1). Proof. reflexivity. Qed.

Definition init_slots : list Z := map (fun i => 4 * Z.of_nat i) (seq 0 25).

(** boolean checkers used to establish [holds] on concrete calendars *)
Fixpoint linkedb (ev : list Qc) (p : Z) (ss : list Z) (q : Z) : bool :=
  match ss with
  | [] => p =? q
  | s :: ss' => (p =? s) && (let nx := qtrunc (cell ev s) in qeqb (cell ev s) (qz nx) && linkedb ev nx ss' q)
  end.
Lemma linkedb_sound ev p ss q : linkedb ev p ss q = true -> linked ev p ss q.
Proof.
  revert p; induction ss as [|s ss IH]; intros p; cbn.
  - apply Z.eqb_eq.
  - rewrite !andb_true_iff, Z.eqb_eq. intros (-> & E & L). split; auto.
    exists (qtrunc (cell ev s)). split; [now apply qeqb_iff in E | auto].
Qed.
Definition slotb (n : nat) (p : Z) : bool := (0 <=? p) && (p mod 4 =? 0) && (p + 3 <? Z.of_nat n).
Lemma slotb_sound ev p : slotb (length ev) p = true -> slot ev p.
Proof. unfold slotb, slot. rewrite !andb_true_iff, Z.leb_le, Z.eqb_eq, Z.ltb_lt. tauto. Qed.
Fixpoint nodupb (l : list Z) : bool :=
  match l with [] => true | x :: r => negb (existsb (Z.eqb x) r) && nodupb r end.
Lemma nodupb_sound l : nodupb l = true -> NoDup l.
Proof.
  induction l as [|x r IH]; cbn; [constructor|]. rewrite andb_true_iff, negb_true_iff. intros [E N].
  constructor; auto. intros C. assert (existsb (Z.eqb x) r = true); [|congruence].
  apply existsb_exists. exists x. split; auto. apply Z.eqb_refl.
Qed.

Lemma initfl_holds : holds initfl [] 25.
Proof.
  exists [], init_slots. split; [reflexivity|]. split.
  { exists 0. apply linkedb_sound. vm_compute. reflexivity. }
  split. { apply nodupb_sound. vm_compute. reflexivity. }
  split. { intros s Hs. apply slotb_sound.
           assert (forallb (slotb (length (EVNTS initfl))) init_slots = true) as F by (vm_compute; reflexivity).
           rewrite forallb_forall in F. apply F. exact Hs. }
  split; [reflexivity|]. split; [constructor|]. split; reflexivity.
Qed.

Lemma chrono_cons a b l : (fst a <= fst b)%Qc -> chronological (b :: l) -> chronological (a :: b :: l).
Proof.
  intros H S. constructor; auto. inversion S as [|? ? S' F]; subst. constructor; auto.
  rewrite Forall_forall in *. intros x Hx. eapply Qcle_trans; [exact H|]. auto.
Qed.

Lemma initl_holds JSTEP ev :
  (length ev = 100)%nat -> 1 <= JSTEP <= 2184 ->
  holds (initl JSTEP ev) (start_events JSTEP (qq 4369 2) (qq 8737 2) (qq 13105 2)) 0.
Proof.
  intros LE HJ. exists [20; 0; 24; 4; 8; 12; 16], [].
  unfold initl. cbn [MFA NUMINQ IPOINT EVNTS].
  assert (LL : length (initl_cells JSTEP ++ skipn 28 ev) = 100%nat).
  { rewrite app_length, skipn_length, LE. reflexivity. }
  split. { cbn. repeat (split; [reflexivity|]; eexists; split; [reflexivity|]). reflexivity. }
  split. { exists 28. reflexivity. }
  split. { apply nodupb_sound. reflexivity. }
  split. { intros s Hs. apply slotb_sound. rewrite LL. revert s Hs. apply forallb_forall. reflexivity. }
  split. { reflexivity. }
  split.
  { unfold start_events.
    assert (H1 : (qq 1 2 <= qz JSTEP)%Qc).
    { apply Qcle_trans with (qz 1); [now vm_compute|]. apply qz_le. lia. }
    assert (H2 : (qz JSTEP <= qq 4369 2)%Qc).
    { apply Qcle_trans with (qz 2184); [apply qz_le; lia|]. now vm_compute. }
    repeat (apply chrono_cons; [cbn [fst]; first [assumption | now vm_compute] |]).
    repeat constructor. }
  split; reflexivity.
Qed.
