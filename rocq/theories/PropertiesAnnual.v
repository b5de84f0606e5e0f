(** Property theorems C116: the annual table. *)
From Verif Require Import Base BaseProofs Sums LoadModel LoadSpec LoadProofs StatModel StatSpec StatProofs
  YearModel YearSpec YearProofs YearRun PropertiesYear AnnualModel AnnualSpec.
Open Scope Z_scope.

Lemma xmgn_mean a b : xmgn a b = mean a b.
Proof.
  unfold xmgn, mean. destruct (Qclt_le_dec q0 b) as [H|H]; destruct (qltb q0 b) eqn:E; try reflexivity.
  - apply (proj2 (qltb_iff _ _)) in H. congruence.
  - apply (proj1 (qltb_iff _ _)) in E. exfalso. exact (Qclt_not_le _ _ E H).
Qed.
Lemma put_about indx a k lh mh lp mp r : put indx a k lh (xmgn mh lh) mh lp (xmgn mp lp) r = about indx a k lh mh lp mp r.
Proof. unfold put, about. now rewrite !xmgn_mean. Qed.
Lemma flat_map_ext_in {A B} (f g : A -> list B) l : (forall x, In x l -> f x = g x) -> flat_map f l = flat_map g l.
Proof. induction l; intros H; cbn; [reflexivity|]. rewrite H by (now left). f_equal. apply IHl. intros x Hx. apply H. now right. Qed.

Section Table.
  Variables (INDX : Z) (NF NO n : nat) (h p : stat).
  Hypothesis HL : levels_ok NF NO.
  Hypothesis SH : stat_shape n 5 h.
  Hypothesis SP : stat_shape n 5 p.

  Lemma NF5 : (NF <= 5)%nat /\ (0 < NF)%nat. Proof. destruct HL as [[-> _]|[-> _]]; lia. Qed.
  Lemma sum_at T G j k : shape n 5 T -> shape n 5 G -> (j < n)%nat -> (k < NF)%nat -> qz (zmget (map2 (sumfirst NF) T G) j k) = of_area G T GT j k.
  Proof. intros. unfold of_area, part. f_equal. apply (sumfirst_get n NF); auto. apply NF5. Qed.
  Lemma mean_at T G j : shape n 5 T -> shape n 5 G -> (j < n)%nat -> weighted NF (nth j (map2 (sumfirst NF) T G) []) = area_mean NF G T GT j.
  Proof.
    intros HT HG Hj. destruct NF5 as [L5 L0]. rewrite (weighted_expected NF NO); auto.
    - apply expected_ext. intros k Hk. apply (sumfirst_get n NF); auto.
    - destruct HT as [LT RT], HG as [LG RG]. rewrite (map2_nth _ T G j [] [] []) by lia. rewrite sumfirst_length; auto.
  Qed.
  Lemma area_lines_spec j : (j < n)%nat -> area_lines INDX NF h p j = lines_of_area INDX NF h p Z.of_nat Z.of_nat (printed_remark INDX) j.
  Proof.
    intros Hj. destruct NF5 as [L5 L0]. destruct SH, SP. unfold area_lines, lines_of_area. f_equal.
    - apply flat_map_ext_in. intros k Hk. apply in_seq in Hk.
      unfold area_level, remarks. cbn [map printed_remark]. cbv zeta. rewrite !put_about.
      rewrite !sum_at by (assumption || lia). reflexivity.
    - unfold area_average, remarks. cbn [map]. cbv zeta. rewrite !put_about.
      assert (W : forall M, shape n 5 M -> weighted NF (nth j M []) = expected NF (zmget M j)).
      { intros M [LM RM]. apply (weighted_expected NF NO); auto. rewrite RM; lia. }
      rewrite !W, !mean_at by assumption. reflexivity.
  Qed.

  Lemma psum_at T G k : length T = 5%nat -> length G = 5%nat -> (k < NF)%nat -> qz (zget (sumfirst NF T G) k) = of_pool G T GT k.
  Proof. intros. unfold of_pool, part. f_equal. apply sumfirst_nth; auto. apply NF5. Qed.
  Lemma pool_average_spec : pool_average INDX NF h p = map (pool_mean_line INDX NF h p) remarks.
  Proof.
    destruct NF5 as [L5 L0]. destruct SH, SP. unfold pool_average, remarks. cbn [map]. cbv zeta. rewrite !put_about.
    assert (W : forall v, length v = 5%nat -> weighted NF v = expected NF (zget v)).
    { intros v Lv. apply (weighted_expected NF NO); auto. lia. }
    assert (WS : forall T G, length T = 5%nat -> length G = 5%nat -> weighted NF (sumfirst NF T G) = pool_mean NF G T GT).
    { intros T G HT HG. rewrite (weighted_expected NF NO); auto.
      - apply expected_ext. intros k Hk. apply sumfirst_nth; auto.
      - rewrite sumfirst_length; auto. }
    rewrite !W, !WS by assumption. reflexivity.
  Qed.

  (** The averages on the generation line, from the ones printed before. *)
  Definition avg_after (s : stat) (k : nat) (before : option Qc) : option Qc :=
    if qltb q0 (of_pool (plolG s) (plolT s) GC k) then Some (Qcdiv (of_pool (pmgnG s) (pmgnT s) GC k) (of_pool (plolG s) (plolT s) GC k)) else before.
  Lemma pool_level_spec k xh xp r : (k < NF)%nat -> pool_level INDX NF h p k xh xp = Ok r <->
    exists vh vp, (if INDX =? 1 then vh = q0 else avg_after h k xh = Some vh) /\ avg_after p k xp = Some vp /\
      r = ([pool_gc_line INDX h p (Z.of_nat k) k vh vp; pool_line INDX h p (Z.of_nat k) k TC; pool_line INDX h p (Z.of_nat k) k GT], Some (both_mean h k), Some (both_mean p k)).
  Proof.
    intros Hk. destruct SH, SP. unfold pool_level. cbv zeta. rewrite !put_about, !psum_at, !xmgn_mean by assumption.
    change (qz (zget (plolG h) k)) with (of_pool (plolG h) (plolT h) GC k). change (qz (zget (plolG p) k)) with (of_pool (plolG p) (plolT p) GC k).
    change (qz (zget (pmgnG h) k)) with (of_pool (pmgnG h) (pmgnT h) GC k). change (qz (zget (pmgnG p) k)) with (of_pool (pmgnG p) (pmgnT p) GC k).
    fold (avg_after h k xh). fold (avg_after p k xp). fold (both_mean h k). fold (both_mean p k).
    unfold pool_gc_line, put, pool_line, of_pool, part.
    split.
    - intros H. destruct (INDX =? 1) eqn:EI.
      + cbn [bind] in H. destruct (avg_after p k xp) as [vp|] eqn:EP; cbn [bound bind] in H; [|discriminate]. injection H as H. subst r. exists q0, vp. auto.
      + destruct (avg_after h k xh) as [vh|] eqn:EH; cbn [bound bind] in H; [|discriminate].
        destruct (avg_after p k xp) as [vp|] eqn:EP; cbn [bound bind] in H; [|discriminate]. injection H as H. subst r. exists vh, vp. auto.
    - intros (vh & vp & A & B & ->). rewrite B. destruct (INDX =? 1) eqn:EI; [subst vh|rewrite A]; reflexivity.
  Qed.

  (** the pool's lines from level k0 on *)
  Lemma pool_levels_spec : forall m k0 xh xp, (k0 + m <= NF)%nat -> forall ls, pool_levels INDX NF h p (seq k0 m) xh xp = Ok ls ->
    exists vh vp : nat -> Qc,
      ls = flat_map (fun k => [pool_gc_line INDX h p (Z.of_nat k) k (vh k) (vp k); pool_line INDX h p (Z.of_nat k) k TC; pool_line INDX h p (Z.of_nat k) k GT]) (seq k0 m) /\
      forall k, (k0 <= k < k0 + m)%nat ->
        (INDX <> 1 -> avg_after h k (if Nat.eqb k k0 then xh else Some (both_mean h (k - 1))) = Some (vh k)) /\
        avg_after p k (if Nat.eqb k k0 then xp else Some (both_mean p (k - 1))) = Some (vp k).
  Proof.
    induction m as [|m IH]; intros k0 xh xp Hm ls E; cbn [seq pool_levels] in E.
    - injection E as <-. exists (fun _ => q0), (fun _ => q0). split; [reflexivity|]. intros k Hk. lia.
    - destruct (pool_level INDX NF h p k0 xh xp) as [[[l xh'] xp']|] eqn:E1; cbn [bind] in E; [|discriminate].
      apply pool_level_spec in E1; [|lia]. destruct E1 as (vh0 & vp0 & A & B & EQ). injection EQ as -> -> ->.
      destruct (pool_levels INDX NF h p (seq (S k0) m) (Some (both_mean h k0)) (Some (both_mean p k0))) as [rest|] eqn:E2; cbn [bind] in E; [|discriminate].
      injection E as <-. destruct (IH (S k0) _ _ ltac:(lia) _ E2) as (vh & vp & -> & V).
      exists (fun k => if Nat.eqb k k0 then vh0 else vh k), (fun k => if Nat.eqb k k0 then vp0 else vp k). split.
      + cbn [seq flat_map]. rewrite Nat.eqb_refl. cbn [app]. do 3 f_equal.
        apply flat_map_ext_in. intros k Hk. apply in_seq in Hk. destruct (Nat.eqb_spec k k0); [lia|reflexivity].
      + intros k Hk. destruct (Nat.eqb_spec k k0) as [->|NE].
        * split; [|exact B]. intros NI. destruct (Z.eqb_spec INDX 1); [contradiction|exact A].
        * destruct (V k ltac:(lia)) as [V1 V2]. destruct (Nat.eqb_spec k (S k0)) as [->|NE2].
          -- cbn [Nat.sub]. rewrite Nat.sub_0_r. auto.
          -- auto.
  Qed.
  Lemma pool_levels_more : forall m k0 a b, (k0 + m <= NF)%nat -> exists ls, pool_levels INDX NF h p (seq k0 m) (Some a) (Some b) = Ok ls.
  Proof.
    induction m as [|m IH]; intros k0 a b Hm; cbn [seq pool_levels]; [now exists []|].
    assert (E : forall s x, exists v, avg_after s k0 (Some x) = Some v) by (intros s x; unfold avg_after; destruct (qltb _ _); eauto).
    destruct (E h a) as [vh Eh], (E p b) as [vp Ep].
    match goal with |- context [pool_level INDX NF h p k0 ?x ?y] => assert (P : exists l, pool_level INDX NF h p k0 x y = Ok (l, Some (both_mean h k0), Some (both_mean p k0))) end.
    { eexists. apply pool_level_spec; [lia|]. exists (if INDX =? 1 then q0 else vh), vp. split; [destruct (INDX =? 1); auto|]. split; [exact Ep|reflexivity]. }
    destruct P as [l ->]. cbn [bind]. destruct (IH (S k0) (both_mean h k0) (both_mean p k0) ltac:(lia)) as [rest ->]. cbn [bind]. eauto.
  Qed.
End Table.

Lemma avg_after_pos s k b v : (q0 < of_pool (plolG s) (plolT s) GC k)%Qc -> avg_after s k b = Some v ->
  v = mean (of_pool (pmgnG s) (pmgnT s) GC k) (of_pool (plolG s) (plolT s) GC k).
Proof.
  intros H. unfold avg_after, mean. rewrite (proj2 (qltb_iff _ _) H). intros E. injection E as <-.
  destruct (Qclt_le_dec _ _) as [_|K]; [reflexivity|]. exfalso. exact (Qclt_not_le _ _ H K).
Qed.
Lemma avg_after_none s k b v : ~ (q0 < of_pool (plolG s) (plolT s) GC k)%Qc -> avg_after s k b = Some v -> b = Some v.
Proof. intros H. unfold avg_after. destruct (qltb _ _) eqn:E; [|auto]. apply (proj1 (qltb_iff _ _)) in E. contradiction. Qed.
Lemma gc_pos s k : (q0 < of_pool (plolG s) (plolT s) GC k)%Qc <-> 0 < zget (plolG s) k.
Proof. unfold of_pool, part. change q0 with (qz 0). apply qz_lt. Qed.

Lemma annual_inv INDX NF NO n h p L : levels_ok NF NO -> stat_shape n 5 h -> stat_shape n 5 p -> annual_table INDX NF n h p = Ok L ->
  exists vh vp : nat -> Qc,
    L = flat_map (lines_of_area INDX NF h p Z.of_nat Z.of_nat (printed_remark INDX)) (seq 0 n) ++
        flat_map (fun k => [pool_gc_line INDX h p (Z.of_nat k) k (vh k) (vp k); pool_line INDX h p (Z.of_nat k) k TC; pool_line INDX h p (Z.of_nat k) k GT]) (seq 0 NF) ++
        map (pool_mean_line INDX NF h p) remarks /\
    forall k, (k < NF)%nat ->
      (INDX <> 1 -> avg_after h k (if Nat.eqb k 0 then None else Some (both_mean h (k - 1))) = Some (vh k)) /\
      avg_after p k (if Nat.eqb k 0 then xmgnp_left NF n p else Some (both_mean p (k - 1))) = Some (vp k).
Proof.
  intros HL SH SP E. unfold annual_table in E.
  destruct (pool_levels INDX NF h p (seq 0 NF) None (xmgnp_left NF n p)) as [pl|] eqn:EP; cbn [bind] in E; [|discriminate]. injection E as <-.
  destruct (pool_levels_spec INDX NF NO n h p HL SH SP NF 0 _ _ (le_n _) _ EP) as (vh & vp & -> & V). exists vh, vp. split.
  - f_equal; [|f_equal; apply (pool_average_spec INDX NF NO n); auto].
    apply flat_map_ext_in. intros j Hj. apply in_seq in Hj. apply (area_lines_spec INDX NF NO n); auto. lia.
  - intros k Hk. apply V. lia.
Qed.

(** C116.  The areas' lines, the pool's lines about transmission and about both, and all
    averages show the year's counts and energies and the energy per hour (day) of loss,
    0 when there was none; so do the pool's lines about generation, but their two
    averages only when there was a loss.  Areas and levels are numbered from 0, and with
    the daily layout the lines of a level say GC, TC, TC. *)
Theorem C116_annual_table_partial : forall INDX NF NO n h p L, levels_ok NF NO -> stat_shape n 5 h -> stat_shape n 5 p ->
  annual_table INDX NF n h p = Ok L ->
  exists vh vp : nat -> Qc,
    L = flat_map (lines_of_area INDX NF h p Z.of_nat Z.of_nat (printed_remark INDX)) (seq 0 n) ++
        flat_map (fun k => [pool_gc_line INDX h p (Z.of_nat k) k (vh k) (vp k); pool_line INDX h p (Z.of_nat k) k TC; pool_line INDX h p (Z.of_nat k) k GT]) (seq 0 NF) ++
        map (pool_mean_line INDX NF h p) remarks /\
    forall k, (k < NF)%nat ->
      (INDX <> 1 -> 0 < zget (plolG h) k -> vh k = mean (of_pool (pmgnG h) (pmgnT h) GC k) (of_pool (plolG h) (plolT h) GC k)) /\
      (0 < zget (plolG p) k -> vp k = mean (of_pool (pmgnG p) (pmgnT p) GC k) (of_pool (plolG p) (plolT p) GC k)).
Proof.
  intros INDX NF NO n h p L HL SH SP E. destruct (annual_inv INDX NF NO n h p L HL SH SP E) as (vh & vp & EL & V).
  exists vh, vp. split; [exact EL|]. intros k Hk. destruct (V k Hk) as [Vh Vp]. split.
  - intros NI P. specialize (Vh NI). apply gc_pos in P. eapply avg_after_pos; eauto.
  - intros P. apply gc_pos in P. eapply avg_after_pos; eauto.
Qed.
Print Assumptions C116_annual_table_partial.

(** With every level losing energy to generation, the whole table is as expected, with
    the hourly layout. *)
Theorem C116_all_losing : forall INDX NF NO n h p L, levels_ok NF NO -> stat_shape n 5 h -> stat_shape n 5 p -> INDX <> 1 ->
  (forall k, (k < NF)%nat -> 0 < zget (plolG h) k /\ 0 < zget (plolG p) k) -> annual_table INDX NF n h p = Ok L ->
  L = flat_map (lines_of_area INDX NF h p Z.of_nat Z.of_nat (fun r => r)) (seq 0 n) ++
      flat_map (fun k => map (pool_line INDX h p (Z.of_nat k) k) remarks) (seq 0 NF) ++
      map (pool_mean_line INDX NF h p) remarks.
Proof.
  intros INDX NF NO n h p L HL SH SP NI P E. destruct (C116_annual_table_partial INDX NF NO n h p L HL SH SP E) as (vh & vp & -> & V). f_equal; [|f_equal].
  - apply flat_map_ext_in. intros j _. unfold lines_of_area, remarks. f_equal. apply flat_map_ext_in. intros k _. cbn [map printed_remark]. now rewrite (proj2 (Z.eqb_neq _ _) NI).
  - apply flat_map_ext_in. intros k Hk. apply in_seq in Hk. destruct (P k ltac:(lia)) as [Ph Pp]. destruct (V k ltac:(lia)) as [Vh Vp].
    rewrite (Vh NI Ph), (Vp Pp). reflexivity.
Qed.
Print Assumptions C116_all_losing.

(** A level after the first without any generation-caused pool loss shows the previous
    level's average over both kinds of loss, next to 0 hours. *)
Theorem C116_stale_average_refuted : forall INDX NF NO n h p L k, levels_ok NF NO -> stat_shape n 5 h -> stat_shape n 5 p ->
  annual_table INDX NF n h p = Ok L -> INDX <> 1 -> (S k < NF)%nat -> zget (plolG h) (S k) = 0 -> zget (pmgnG h) (S k) = 0 ->
  exists l, In l L /\ t_area l = None /\ t_level l = Some (Z.of_nat (S k)) /\ t_remark l = GC /\ t_hourly l = Some (q0, both_mean h k, q0).
Proof.
  intros INDX NF NO n h p L k HL SH SP E NI Hk Z1 Z2. destruct (annual_inv INDX NF NO n h p L HL SH SP E) as (vh & vp & -> & V).
  destruct (V (S k) Hk) as [Vh _]. specialize (Vh NI). apply avg_after_none in Vh; [|intros K; apply gc_pos in K; lia].
  cbn [Nat.eqb Nat.sub] in Vh. rewrite Nat.sub_0_r in Vh. injection Vh as Vh.
  exists (pool_gc_line INDX h p (Z.of_nat (S k)) (S k) (vh (S k)) (vp (S k))). split.
  - apply in_or_app. right. apply in_or_app. left. apply in_flat_map. exists (S k). split; [apply in_seq; lia|now left].
  - unfold pool_gc_line. cbn [t_area t_level t_remark t_hourly]. rewrite (proj2 (Z.eqb_neq _ _) NI), <- Vh. unfold of_pool, part. rewrite Z1, Z2. auto.
Qed.
Print Assumptions C116_stale_average_refuted.

(** The same for the days: a level without generation-caused pool loss at the peaks shows
    next to 0 days the previous level's average over both kinds of loss; the first level
    shows the last area's forecast-weighted one. *)
Theorem C116_stale_peak_refuted : forall INDX NF NO n h p L k, levels_ok NF NO -> stat_shape n 5 h -> stat_shape n 5 p ->
  annual_table INDX NF n h p = Ok L -> (0 < n)%nat -> (k < NF)%nat -> zget (plolG p) k = 0 ->
  exists l, In l L /\ t_area l = None /\ t_level l = Some (Z.of_nat k) /\ t_remark l = GC /\ t_days l = q0 /\
    t_mw l = match k with
             | O => mean (area_mean NF (mgnG p) (mgnT p) GT (n - 1)) (area_mean NF (lolG p) (lolT p) GT (n - 1))
             | S m => both_mean p m end.
Proof.
  intros INDX NF NO n h p L k HL SH SP E Hn Hk Z1. destruct (annual_inv INDX NF NO n h p L HL SH SP E) as (vh & vp & -> & V).
  destruct (V k Hk) as [_ Vp]. apply avg_after_none in Vp; [|intros K; apply gc_pos in K; lia].
  exists (pool_gc_line INDX h p (Z.of_nat k) k (vh k) (vp k)). split.
  - apply in_or_app. right. apply in_or_app. left. apply in_flat_map. exists k. split; [apply in_seq; lia|now left].
  - unfold pool_gc_line. cbn [t_area t_level t_remark t_days t_mw]. do 3 (split; [reflexivity|]). split; [unfold of_pool, part; rewrite Z1; reflexivity|].
    destruct k as [|m]; cbn [Nat.eqb] in Vp.
    + destruct n as [|j]; [lia|]. unfold xmgnp_left in Vp. cbv zeta in Vp. injection Vp as <-. destruct SP.
      rewrite xmgn_mean, !(mean_at NF NO (S j)) by (assumption || lia). cbn [Nat.sub]. now rewrite Nat.sub_0_r.
    + cbn [Nat.sub] in Vp. rewrite Nat.sub_0_r in Vp. now injection Vp as <-.
Qed.
Print Assumptions C116_stale_peak_refuted.

(** With the daily layout no line of an area's level carries the remark of the sum. *)
Theorem C116_daily_remark_refuted : forall NF NO n h p L, levels_ok NF NO -> stat_shape n 5 h -> stat_shape n 5 p ->
  annual_table 1 NF n h p = Ok L -> forall l, In l L -> t_area l <> None -> t_level l <> None -> t_remark l <> GT.
Proof.
  intros NF NO n h p L HL SH SP E l I A K. destruct (annual_inv 1 NF NO n h p L HL SH SP E) as (vh & vp & -> & _).
  apply in_app_or in I. destruct I as [I|I].
  - apply in_flat_map in I. destruct I as (j & _ & I). unfold lines_of_area in I. apply in_app_or in I. destruct I as [I|I].
    + apply in_flat_map in I. destruct I as (k & _ & I). cbn in I. destruct I as [<-|[<-|[<-|[]]]]; discriminate.
    + cbn in I. destruct I as [<-|[<-|[<-|[]]]]; exfalso; apply K; reflexivity.
  - exfalso. apply in_app_or in I. destruct I as [I|I].
    + apply in_flat_map in I. destruct I as (k & _ & I). cbn in I. destruct I as [<-|[<-|[<-|[]]]]; apply A; reflexivity.
    + cbn in I. destruct I as [<-|[<-|[<-|[]]]]; apply A; reflexivity.
Qed.
Print Assumptions C116_daily_remark_refuted.

(** Areas are numbered from 0: the last area's own number never appears. *)
Theorem C116_numbers_refuted : forall INDX NF NO n h p L, levels_ok NF NO -> stat_shape n 5 h -> stat_shape n 5 p ->
  annual_table INDX NF n h p = Ok L -> (forall l a, In l L -> t_area l = Some a -> 0 <= a < Z.of_nat n) /\
  ((0 < n)%nat -> exists l, In l L /\ t_area l = Some 0).
Proof.
  intros INDX NF NO n h p L HL SH SP E. destruct (annual_inv INDX NF NO n h p L HL SH SP E) as (vh & vp & -> & _). split.
  - intros l a I A. apply in_app_or in I. destruct I as [I|I].
    + apply in_flat_map in I. destruct I as (j & Hj & I). apply in_seq in Hj. unfold lines_of_area in I. apply in_app_or in I. destruct I as [I|I].
      * apply in_flat_map in I. destruct I as (k & _ & I). cbn in I. destruct I as [<-|[<-|[<-|[]]]]; injection A as <-; lia.
      * cbn in I. destruct I as [<-|[<-|[<-|[]]]]; injection A as <-; lia.
    + exfalso. apply in_app_or in I. destruct I as [I|I].
      * apply in_flat_map in I. destruct I as (k & _ & I). cbn in I. destruct I as [<-|[<-|[<-|[]]]]; discriminate.
      * cbn in I. destruct I as [<-|[<-|[<-|[]]]]; discriminate.
  - intros Hn. exists (area_mean_line INDX NF h p 0 0 GC). split; [|reflexivity]. apply in_or_app. left. apply in_flat_map. exists 0%nat. split; [apply in_seq; lia|].
    apply in_or_app. right. left. reflexivity.
Qed.
Print Assumptions C116_numbers_refuted.

(** The table can be printed with the daily layout, or when the pool lost energy to
    generation at the first level; every year that ends with printing on printed it. *)
Theorem C116_printed : forall INDX NF NO n h p, levels_ok NF NO -> stat_shape n 5 h -> stat_shape n 5 p -> (0 < n)%nat ->
  ((exists L, annual_table INDX NF n h p = Ok L) <-> INDX = 1 \/ 0 < zget (plolG h) 0) /\
  forall e, annual_table INDX NF n h p = Err e -> e = UnboundLocalError.
Proof.
  intros INDX NF NO n h p HL SH SP Hn. pose proof (NF5 NF NO HL) as [L5 L0].
  assert (XP : exists b, xmgnp_left NF n p = Some b) by (destruct n; [lia|eexists; reflexivity]). destruct XP as [b XP].
  assert (AP : exists v, avg_after p 0 (Some b) = Some v) by (unfold avg_after; destruct (qltb _ _); eauto). destruct AP as [vp AP].
  unfold annual_table. rewrite XP. destruct NF as [|m] eqn:EN; [lia|]. cbn [seq pool_levels].
  assert (D : INDX = 1 \/ 0 < zget (plolG h) 0 -> exists l, pool_level INDX (S m) h p 0 None (Some b) = Ok (l, Some (both_mean h 0), Some (both_mean p 0))).
  { intros C. eexists. apply (pool_level_spec INDX (S m) NO n h p HL SH SP); [lia|].
    exists (if INDX =? 1 then q0 else mean (of_pool (pmgnG h) (pmgnT h) GC 0) (of_pool (plolG h) (plolT h) GC 0)), vp.
    split; [|split; [exact AP|reflexivity]]. destruct (Z.eqb_spec INDX 1); [reflexivity|]. destruct C as [C|C]; [contradiction|].
    apply gc_pos in C. unfold avg_after, mean. rewrite (proj2 (qltb_iff _ _) C). destruct (Qclt_le_dec _ _) as [_|K]; [reflexivity|]. exfalso. exact (Qclt_not_le _ _ C K). }
  split; [split|].
  - intros [L E]. destruct (Z.eq_dec INDX 1) as [?|NI]; [now left|right].
    destruct (pool_level INDX (S m) h p 0 None (Some b)) as [r|] eqn:E1; cbn [bind] in E; [|discriminate].
    apply (pool_level_spec INDX (S m) NO n h p HL SH SP) in E1; [|lia]. destruct E1 as (vh & vp' & A & _). rewrite (proj2 (Z.eqb_neq _ _) NI) in A.
    apply gc_pos. unfold avg_after in A. destruct (qltb _ _) eqn:Q; [|discriminate]. exact (proj1 (qltb_iff _ _) Q).
  - intros C. destruct (D C) as [l ->]. cbn [bind].
    destruct (pool_levels_more INDX (S m) NO n h p HL SH SP m 1 (both_mean h 0) (both_mean p 0) ltac:(lia)) as [rest ->]. cbn [bind]. eauto.
  - intros e E. destruct (Z.eq_dec INDX 1) as [I1|NI].
    + destruct (D (or_introl I1)) as [l Dl]. rewrite Dl in E. cbn [bind] in E.
      destruct (pool_levels_more INDX (S m) NO n h p HL SH SP m 1 (both_mean h 0) (both_mean p 0) ltac:(lia)) as [rest R]. rewrite R in E. discriminate.
    + destruct (Z_lt_le_dec 0 (zget (plolG h) 0)) as [P|Z0].
      * destruct (D (or_intror P)) as [l Dl]. rewrite Dl in E. cbn [bind] in E.
        destruct (pool_levels_more INDX (S m) NO n h p HL SH SP m 1 (both_mean h 0) (both_mean p 0) ltac:(lia)) as [rest R]. rewrite R in E. discriminate.
      * unfold pool_level in E. cbv zeta in E. rewrite (proj2 (Z.eqb_neq _ _) NI) in E.
        assert (Q : qltb q0 (qz (zget (plolG h) 0)) = false).
        { destruct (qltb _ _) eqn:Q; [|reflexivity]. apply (proj1 (qltb_iff _ _)) in Q. change q0 with (qz 0) in Q. apply (proj1 (qz_lt _ _)) in Q. lia. }
        rewrite Q in E. cbn [bound bind] in E. now injection E as <-.
Qed.
Print Assumptions C116_printed.
Theorem C116_every_year : forall cf n clk s s' o, levels_ok (NFCST cf) (NORR cf) -> yst_shape n s -> (0 < n)%nat -> IOJ cf <> 0 ->
  year cf n clk s = Ok (s', o) -> exists L, annual_table (INDX cf) (NFCST cf) n (y_h s) (y_p s) = Ok L.
Proof.
  intros cf n clk s s' o HL [] Hn I0 E. apply (C116_printed (INDX cf) (NFCST cf) (NORR cf) n); auto.
  destruct (year_ok _ _ _ _ _ _ E) as (h1 & d1 & e1 & RF & SSQ & XL & _ & K). cbv zeta in K. destruct K as [PF _].
  unfold print_fails in PF. destruct (Z.eqb_spec (IOJ cf) 0); [contradiction|]. destruct (Z.eqb_spec (INDX cf) 1); [now left|right].
  cbn [negb andb] in PF. apply Z.leb_gt in PF. exact PF.
Qed.
Print Assumptions C116_every_year.
(** A year with one hour, at the first of five levels, in which area 0 lacks 5 MW and
    area 1 has 2 to spare: the second level shows 0 hours, 0 MWh and 5 MW. *)
Definition short_h : stat := snd (hrstat 0 [qz (-5); qz 2] [0; 0] (first_stat 2)).
Lemma short_shape : stat_shape 2 5 short_h.
Proof. unfold short_h. vm_compute. constructor; try reflexivity; (split; [reflexivity|intros [|[|j]] Hj; [reflexivity|reflexivity|exfalso; lia]]). Qed.
Example C116_witness : levels_ok 5 2 /\ stat_shape 2 5 short_h /\ 0 < zget (plolG short_h) 0 /\ zget (plolG short_h) 1 = 0 /\ zget (pmgnG short_h) 1 = 0 /\
  both_mean short_h 0 = qz 5 /\
  exists L l, annual_table 0 5 2 short_h (first_stat 2) = Ok L /\ length L = 54%nat /\ In l L /\ t_area l = None /\ t_level l = Some 1 /\
    t_remark l = GC /\ t_hourly l = Some (q0, qz 5, q0).
Proof.
  assert (B : both_mean short_h 0 = qz 5).
  { unfold both_mean, mean. destruct (Qclt_le_dec _ _) as [_|K]; [apply Qc_is_canon; vm_compute; reflexivity|]. exfalso. revert K. apply Qclt_not_le. vm_compute. reflexivity. }
  split; [right; auto|]. split; [apply short_shape|]. split; [reflexivity|]. split; [reflexivity|]. split; [reflexivity|]. split; [exact B|].
  destruct (proj2 (proj1 (C116_printed 0 5 2 2 short_h (first_stat 2) (or_intror (conj eq_refl eq_refl)) short_shape (first_stat_shape 2) ltac:(lia)))) as [L E]; [right; reflexivity|].
  destruct (C116_stale_average_refuted 0 5 2 2 short_h (first_stat 2) L 0 (or_intror (conj eq_refl eq_refl)) short_shape (first_stat_shape 2) E ltac:(lia) ltac:(lia) eq_refl eq_refl) as (l & I & A & K & R & T).
  exists L, l. rewrite B in T. repeat (split; [first [exact E | exact I | exact A | exact K | exact R | exact T | idtac]|]); [|exact T].
  destruct (annual_inv 0 5 2 2 short_h (first_stat 2) L (or_intror (conj eq_refl eq_refl)) short_shape (first_stat_shape 2) E) as (vh & vp & -> & _). reflexivity.
Qed.
(** A year in which all levels of both statistics lose energy to generation. *)
Definition losing : stat := fold_left (fun s k => snd (hrstat k [qz (-5); qz 2] [0; 0] s)) [0; 1; 2; 3; 4]%nat (first_stat 2).
Lemma losing_shape : stat_shape 2 5 losing.
Proof. unfold losing. vm_compute. constructor; try reflexivity; (split; [reflexivity|intros [|[|j]] Hj; [reflexivity|reflexivity|exfalso; lia]]). Qed.
Example C116_losing_witness : stat_shape 2 5 losing /\ (forall k, (k < 5)%nat -> 0 < zget (plolG losing) k /\ 0 < zget (plolG losing) k) /\
  (exists L, annual_table 0 5 2 losing losing = Ok L) /\ (exists L, annual_table 1 5 2 losing losing = Ok L) /\
  annual_table 0 5 2 (first_stat 2) losing = Err UnboundLocalError.
Proof.
  split; [apply losing_shape|]. split.
  - intros k Hk. do 5 (destruct k as [|k]; [split; vm_compute; reflexivity|]). lia.
  - split; [|split; [|reflexivity]]; apply (C116_printed _ 5 2 2 losing losing (or_intror (conj eq_refl eq_refl)) losing_shape losing_shape ltac:(lia)); [right|left]; reflexivity.
Qed.
