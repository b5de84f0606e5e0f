(** Proofs about the hourly and peak statistics. *)
From Verif Require Import Base BaseProofs Sums LoadModel LoadSpec LoadProofs PeakProofs StatModel StatSpec.
Open Scope Z_scope.

(* ------------------------------------------------------------------ *)
(** ** Cells *)

Lemma zget_addz v i x k : (i < length v)%nat -> zget (addz v i x) k = zget v k + (if Nat.eqb k i then x else 0).
Proof.
  intros H. unfold zget, addz. destruct (Nat.eqb_spec k i) as [->|N]; [now rewrite nth_upd_same|].
  rewrite nth_upd_other by auto. lia.
Qed.
Lemma addz_length v i x : length (addz v i x) = length v.
Proof. apply upd_length. Qed.
Lemma maddz_shape n w M i j x : shape n w M -> (i < n)%nat -> shape n w (maddz M i j x).
Proof.
  intros (L & R) H. unfold maddz, mupd. split; [now rewrite upd_length|]. intros k Hk.
  destruct (Nat.eq_dec i k) as [->|N]; [rewrite nth_upd_same by lia; now rewrite upd_length, R|]. rewrite nth_upd_other by auto. auto.
Qed.
Lemma zmget_maddz n w M i j x a b : shape n w M -> (i < n)%nat -> (j < w)%nat ->
  zmget (maddz M i j x) a b = zmget M a b + (if Nat.eqb a i && Nat.eqb b j then x else 0).
Proof.
  intros (L & R) Hi Hj. unfold maddz, mupd, zmget. destruct (Nat.eqb_spec a i) as [->|N].
  - rewrite nth_upd_same by lia. destruct (Nat.eqb_spec b j) as [->|N']; cbn [andb].
    + rewrite nth_upd_same by (rewrite R; lia). reflexivity.
    + rewrite nth_upd_other by auto. lia.
  - rewrite nth_upd_other by auto. cbn [andb]. lia.
Qed.
Lemma shape_ext n w M M' : shape n w M -> shape n w M' -> (forall j k, (j < n)%nat -> (k < w)%nat -> zmget M j k = zmget M' j k) -> M = M'.
Proof.
  intros (L & R) (L' & R') E. apply (nth_ext _ _ [] []); [lia|]. intros j Hj. apply (nth_ext _ _ 0 0); [rewrite R, R'; lia|].
  intros k Hk. rewrite R in Hk by lia. apply E; lia.
Qed.

Section Folds.
  Variables (NST : nat) (f : Qc -> Z).
  Lemma fold_m n w : (NST < w)%nat -> forall l a M, shape n w M -> (a + length l <= n)%nat ->
    let M' := fold_left (fun M p => if qltb (snd p) q0 then maddz M (fst p) NST (f (snd p)) else M) (combine (seq a (length l)) l) M in
    shape n w M' /\
    forall j k, zmget M' j k = zmget M j k +
      (if Nat.eqb k NST && ((a <=? j)%nat && (j <? a + length l)%nat) && qltb (nth (j - a) l q0) q0 then f (nth (j - a) l q0) else 0).
  Proof.
    intros HN. induction l as [|X l IH]; intros a M SH Ha; cbv zeta.
    - cbn [length seq combine fold_left]. split; [exact SH|]. intros j k.
      replace ((a <=? j)%nat && (j <? a + 0)%nat) with false by (destruct (Nat.leb_spec a j), (Nat.ltb_spec j (a + 0)); auto; lia).
      rewrite andb_false_r. cbn [andb]. lia.
    - cbn [length seq combine fold_left fst snd]. cbn [length] in Ha.
      set (M1 := if qltb X q0 then maddz M a NST (f X) else M).
      assert (S1 : shape n w M1) by (unfold M1; destruct (qltb X q0); [apply maddz_shape; auto; lia|auto]).
      destruct (IH (S a) M1 S1 ltac:(lia)) as (S2 & C2). cbv zeta in *. split; [exact S2|]. intros j k. rewrite C2.
      assert (C1 : zmget M1 j k = zmget M j k + (if Nat.eqb j a && Nat.eqb k NST && qltb X q0 then f X else 0)).
      { unfold M1. destruct (qltb X q0); [|rewrite andb_false_r; lia]. rewrite (zmget_maddz n w) by (auto; lia). rewrite andb_true_r. reflexivity. }
      rewrite C1. clear C1 C2. rewrite <- Z.add_assoc. f_equal. destruct (Nat.eqb k NST); cbn [andb]; [|rewrite andb_false_r; reflexivity]. rewrite andb_true_r.
      destruct (Nat.eqb_spec j a) as [->|NJ].
      + rewrite Nat.sub_diag. cbn [nth]. rewrite Nat.leb_refl. destruct (Nat.leb_spec (S a) a); [lia|]. cbn [andb].
        destruct (Nat.ltb_spec a (a + S (length l))); [|lia]. cbn [andb]. lia.
      + cbn [andb]. rewrite Z.add_0_l. replace (a <=? j)%nat with (S a <=? j)%nat by (destruct (Nat.leb_spec (S a) j), (Nat.leb_spec a j); auto; lia).
        replace (j <? a + S (length l))%nat with (j <? S a + length l)%nat by (f_equal; lia).
        destruct (Nat.leb_spec (S a) j); [|reflexivity]. replace (j - a)%nat with (S (j - S a)) by lia. reflexivity.
  Qed.
  Lemma fold_v : forall l a v, (NST < length v)%nat ->
    let v' := fold_left (fun v (p : nat * Qc) => if qltb (snd p) q0 then addz v NST (f (snd p)) else v) (combine (seq a (length l)) l) v in
    length v' = length v /\
    forall k, zget v' k = zget v k + (if Nat.eqb k NST then zsum (map f (filter (fun X => qltb X q0) l)) else 0).
  Proof.
    induction l as [|X l IH]; intros a v Hv; cbv zeta.
    - cbn [length seq combine fold_left filter map]. split; [auto|]. intros k. change (zsum []) with 0. destruct (Nat.eqb k NST); lia.
    - cbn [length seq combine fold_left fst snd filter]. set (v1 := if qltb X q0 then addz v NST (f X) else v).
      assert (L1 : length v1 = length v) by (unfold v1; destruct (qltb X q0); [apply addz_length|auto]).
      destruct (IH (S a) v1 ltac:(lia)) as (L2 & C2). cbv zeta in *. split; [lia|]. intros k. rewrite C2. unfold v1.
      destruct (qltb X q0); [|reflexivity]. rewrite zget_addz by lia. cbn [map]. rewrite zsum_cons. destruct (Nat.eqb k NST); lia.
  Qed.
End Folds.
Lemma fold_flag : forall (l : list Qc) a v, (a + length l <= length v)%nat ->
  let v' := fold_left (fun v (p : nat * Qc) => if qltb (snd p) q0 then addz v (fst p) 1 else v) (combine (seq a (length l)) l) v in
  length v' = length v /\
  forall j, zget v' j = zget v j + (if (a <=? j)%nat && (j <? a + length l)%nat && qltb (nth (j - a) l q0) q0 then 1 else 0).
Proof.
  induction l as [|X l IH]; intros a v Hv; cbv zeta.
  - cbn [length seq combine fold_left]. split; [auto|]. intros j.
    replace ((a <=? j)%nat && (j <? a + 0)%nat) with false by (destruct (Nat.leb_spec a j), (Nat.ltb_spec j (a + 0)); auto; lia). cbn [andb]. lia.
  - cbn [length] in *. cbn [seq combine fold_left fst snd]. set (v1 := if qltb X q0 then addz v a 1 else v).
    assert (L1 : length v1 = length v) by (unfold v1; destruct (qltb X q0); [apply addz_length|auto]).
    destruct (IH (S a) v1 ltac:(lia)) as (L2 & C2). cbv zeta in *. split; [lia|]. intros j. rewrite C2.
    assert (C1 : zget v1 j = zget v j + (if Nat.eqb j a && qltb X q0 then 1 else 0)).
    { unfold v1. destruct (qltb X q0); [|rewrite andb_false_r; lia]. rewrite zget_addz by lia. now rewrite andb_true_r. }
    rewrite C1. clear C1 C2. rewrite <- Z.add_assoc. f_equal. destruct (Nat.eqb_spec j a) as [->|NJ].
    + rewrite Nat.sub_diag. cbn [nth]. rewrite Nat.leb_refl. destruct (Nat.leb_spec (S a) a); [lia|]. cbn [andb].
      destruct (Nat.ltb_spec a (a + S (length l))); [|lia]. cbn [andb]. lia.
    + cbn [andb]. rewrite Z.add_0_l. replace (a <=? j)%nat with (S a <=? j)%nat by (destruct (Nat.leb_spec (S a) j), (Nat.leb_spec a j); auto; lia).
      replace (j <? a + S (length l))%nat with (j <? S a + length l)%nat by (f_equal; lia).
      destruct (Nat.leb_spec (S a) j); [|reflexivity]. replace (j - a)%nat with (S (j - S a)) by lia. reflexivity.
Qed.

(* ------------------------------------------------------------------ *)
(** ** The loop versions *)

(** what one recorded hour adds to the cells *)
Definition hit (X : Qc) : Z := if qltb X q0 then 1 else 0.
Definition lost (X : Qc) : Z := if qltb X q0 then qtrunc (Qcopp X) else 0.
Definition causeT (M : list Qc) : bool := qltb q0 (qsum M).

Record recorded (n w NST : nat) (M : list Qc) (s s' : stat) : Prop := mkRecorded {
  re_shape : stat_shape n w s';
  re_lolG : mbumped n w NST (fun j => if causeT M then 0 else hit (nth j M q0)) (lolG s) (lolG s');
  re_lolT : mbumped n w NST (fun j => if causeT M then hit (nth j M q0) else 0) (lolT s) (lolT s');
  re_mgnG : mbumped n w NST (fun j => if causeT M then 0 else lost (nth j M q0)) (mgnG s) (mgnG s');
  re_mgnT : mbumped n w NST (fun j => if causeT M then lost (nth j M q0) else 0) (mgnT s) (mgnT s');
  re_plolG : bumped w NST (if qleb q0 (qsum M) then 0 else 1) (plolG s) (plolG s');
  re_plolT : bumped w NST (if qleb q0 (qsum M) then 1 else 0) (plolT s) (plolT s');
  re_pmgnG : bumped w NST (if causeT M then 0 else zsum (map lost M)) (pmgnG s) (pmgnG s');
  re_pmgnT : bumped w NST (if causeT M then zsum (map lost M) else 0) (pmgnT s) (pmgnT s') }.

Lemma mbumped_0 n w NST M : mbumped n w NST (fun _ => 0) M M.
Proof. intros j k _ _. destruct (Nat.eqb k NST); lia. Qed.
Lemma bumped_0 w NST v : bumped w NST 0 v v.
Proof. intros k _. destruct (Nat.eqb k NST); lia. Qed.

Lemma stat_eta s : s = mkStat (lolG s) (lolT s) (mgnG s) (mgnT s) (plolG s) (plolT s) (pmgnG s) (pmgnT s).
Proof. now destruct s. Qed.
Lemma recorded_unique n w NST M s a b : recorded n w NST M s a -> recorded n w NST M s b -> a = b.
Proof.
  intros A B. rewrite (stat_eta a), (stat_eta b).
  destruct A as [[SA1 SA2 SA3 SA4 SA5 SA6 SA7 SA8] A1 A2 A3 A4 A5 A6 A7 A8]. destruct B as [[SB1 SB2 SB3 SB4 SB5 SB6 SB7 SB8] B1 B2 B3 B4 B5 B6 B7 B8].
  assert (VE : forall u v, length u = w -> length v = w -> (forall k, (k < w)%nat -> zget u k = zget v k) -> u = v).
  { intros u v Lu Lv E. apply (nth_ext _ _ 0 0); [lia|]. intros k Hk. apply E. lia. }
  f_equal; try (apply (shape_ext n w); auto; intros j k Hj Hk).
  - now rewrite A1, B1. - now rewrite A2, B2. - now rewrite A3, B3. - now rewrite A4, B4.
  - apply VE; auto. intros k Hk. now rewrite A5, B5.
  - apply VE; auto. intros k Hk. now rewrite A6, B6.
  - apply VE; auto. intros k Hk. now rewrite A7, B7.
  - apply VE; auto. intros k Hk. now rewrite A8, B8.
Qed.

Lemma pool_count_spec n w NST SUM s : stat_shape n w s -> (NST < w)%nat ->
  stat_shape n w (pool_count NST SUM s) /\
  lolG (pool_count NST SUM s) = lolG s /\ lolT (pool_count NST SUM s) = lolT s /\ mgnG (pool_count NST SUM s) = mgnG s /\ mgnT (pool_count NST SUM s) = mgnT s /\
  pmgnG (pool_count NST SUM s) = pmgnG s /\ pmgnT (pool_count NST SUM s) = pmgnT s /\
  bumped w NST (if qleb q0 SUM then 0 else 1) (plolG s) (plolG (pool_count NST SUM s)) /\
  bumped w NST (if qleb q0 SUM then 1 else 0) (plolT s) (plolT (pool_count NST SUM s)).
Proof.
  intros [] HN. unfold pool_count. destruct (qleb q0 SUM); cbn [lolG lolT mgnG mgnT plolG plolT pmgnG pmgnT];
    (split; [constructor; cbn [lolG lolT mgnG mgnT plolG plolT pmgnG pmgnT]; auto; rewrite addz_length; auto|]);
    do 6 (split; [reflexivity|]); split; try apply bumped_0; intros k Hk; rewrite zget_addz by lia; reflexivity.
Qed.

(** the fold splits into one fold per array *)
Definition step_m (NST : nat) (f : Qc -> Z) (M : list (list Z)) (p : nat * Qc) :=
  if qltb (snd p) q0 then maddz M (fst p) NST (f (snd p)) else M.
Definition step_v (NST : nat) (f : Qc -> Z) (v : list Z) (p : nat * Qc) := if qltb (snd p) q0 then addz v NST (f (snd p)) else v.
Definition step_s (NST : nat) (SUM : Qc) (s : stat) (p : nat * Qc) := if qltb (snd p) q0 then area_loss NST SUM (fst p) (snd p) s else s.

Lemma split_fold NST SUM l : forall s,
  let d := fun X => qtrunc (Qcopp X) in
  fold_left (step_s NST SUM) l s =
  if qltb q0 SUM
  then mkStat (lolG s) (fold_left (step_m NST (fun _ => 1)) l (lolT s)) (mgnG s) (fold_left (step_m NST d) l (mgnT s))
              (plolG s) (plolT s) (pmgnG s) (fold_left (step_v NST d) l (pmgnT s))
  else mkStat (fold_left (step_m NST (fun _ => 1)) l (lolG s)) (lolT s) (fold_left (step_m NST d) l (mgnG s)) (mgnT s)
              (plolG s) (plolT s) (fold_left (step_v NST d) l (pmgnG s)) (pmgnT s).
Proof.
  induction l as [|[j X] l IH]; intros s d; cbn [fold_left].
  - destruct (qltb q0 SUM); apply stat_eta.
  - rewrite IH. unfold step_s, step_m, step_v, area_loss, d. cbn [fst snd].
    destruct (qltb X q0); destruct (qltb q0 SUM); reflexivity.
Qed.

Lemma pkstat_loop_fold NST M s : pkstat_loop NST M s = fold_left (step_s NST (qsum M)) (enumerate M) (pool_count NST (qsum M) s).
Proof.
  unfold pkstat_loop. cbv zeta. generalize (pool_count NST (qsum M) s) (enumerate M). intros s0 l. revert s0.
  induction l as [|[j X] l IH]; intros s0; cbn [fold_left]; auto.
Qed.
Lemma hrstat_fold NST M LS s : hrstat NST M LS s =
  (fold_left (fun v (p : nat * Qc) => if qltb (snd p) q0 then addz v (fst p) 1 else v) (enumerate M) LS, pkstat_loop NST M s).
Proof.
  rewrite pkstat_loop_fold. unfold hrstat. cbv zeta. generalize (pool_count NST (qsum M) s) (enumerate M). intros s0 l. revert s0 LS.
  induction l as [|[j X] l IH]; intros s0 LS; cbn [fold_left fst snd]; auto. unfold step_s at 2. cbn [fst snd].
  destruct (qltb X q0); rewrite IH; reflexivity.
Qed.

Lemma lost_sum M : zsum (map (fun X => qtrunc (Qcopp X)) (filter (fun X => qltb X q0) M)) = zsum (map lost M).
Proof.
  induction M as [|X M IH]; cbn [filter map]; auto. rewrite zsum_cons. unfold lost at 1. destruct (qltb X q0); cbn [map]; rewrite ?zsum_cons, IH; lia.
Qed.

Theorem pkstat_loop_spec n w NST M s : stat_shape n w s -> length M = n -> (NST < w)%nat -> recorded n w NST M s (pkstat_loop NST M s).
Proof.
  intros S L HN. rewrite pkstat_loop_fold, split_fold. cbv zeta.
  destruct (pool_count_spec n w NST (qsum M) s S HN) as (S0 & E1 & E2 & E3 & E4 & E5 & E6 & B1 & B2).
  set (s0 := pool_count NST (qsum M) s) in *. clearbody s0. destruct S0 as [Z1 Z2 Z3 Z4 Z5 Z6 Z7 Z8].
  assert (FM : forall f M0 c, shape n w M0 -> (forall X, c X = if qltb X q0 then f X else 0) ->
     let M' := fold_left (step_m NST f) (enumerate M) M0 in shape n w M' /\ mbumped n w NST (fun j => c (nth j M q0)) M0 M').
  { intros f M0 c SM Hc. destruct (fold_m NST f n w HN M 0%nat M0 SM ltac:(lia)) as (SA & CA). cbv zeta in *. split; [exact SA|].
    intros j k Hj Hk. unfold enumerate, step_m. rewrite CA. f_equal. rewrite Nat.sub_0_r, Hc. cbn [Nat.leb Nat.add].
    destruct (Nat.ltb_spec j (length M)); [|lia]. destruct (Nat.eqb k NST); cbn [andb]; reflexivity. }
  assert (FV : forall v, length v = w ->
     let v' := fold_left (step_v NST (fun X => qtrunc (Qcopp X))) (enumerate M) v in length v' = w /\ bumped w NST (zsum (map lost M)) v v').
  { intros v Lv. destruct (fold_v NST (fun X => qtrunc (Qcopp X)) M 0%nat v ltac:(lia)) as (LA & CA). cbv zeta in *. split; [unfold step_v, enumerate; lia|].
    intros k Hk. unfold enumerate, step_v. rewrite CA, lost_sum. reflexivity. }
  destruct (FM (fun _ => 1) (lolT s0) hit Z2 ltac:(reflexivity)) as (T1 & T2).
  destruct (FM (fun _ => 1) (lolG s0) hit Z1 ltac:(reflexivity)) as (T3 & T4).
  destruct (FM (fun X => qtrunc (Qcopp X)) (mgnT s0) lost Z4 ltac:(reflexivity)) as (T5 & T6).
  destruct (FM (fun X => qtrunc (Qcopp X)) (mgnG s0) lost Z3 ltac:(reflexivity)) as (T7 & T8).
  destruct (FV _ Z7) as (T9 & T10). destruct (FV _ Z8) as (T11 & T12). cbv zeta in *.
  rewrite ?E1, ?E2, ?E3, ?E4, ?E5, ?E6 in *.
  unfold causeT in *. destruct (qltb q0 (qsum M)) eqn:EC; constructor; unfold causeT; rewrite ?EC; cbn [lolG lolT mgnG mgnT plolG plolT pmgnG pmgnT];
    try (apply mbumped_0); try (apply bumped_0); auto; constructor; cbn [lolG lolT mgnG mgnT plolG plolT pmgnG pmgnT]; auto.
Qed.

Theorem hrstat_spec n w NST M LS s : stat_shape n w s -> length M = n -> length LS = n -> (NST < w)%nat ->
  let '(LS', s') := hrstat NST M LS s in
  length LS' = n /\ (forall j, (j < n)%nat -> zget LS' j = zget LS j + hit (nth j M q0)) /\ recorded n w NST M s s'.
Proof.
  intros S L LL HN. rewrite hrstat_fold. destruct (fold_flag M 0%nat LS ltac:(lia)) as (LA & CA). cbv zeta in *. unfold enumerate.
  split; [lia|]. split; [|now apply pkstat_loop_spec]. intros j Hj. rewrite CA. f_equal. rewrite Nat.sub_0_r. cbn [Nat.leb Nat.add andb].
  destruct (Nat.ltb_spec j (length M)); [|lia]. reflexivity.
Qed.

(* ------------------------------------------------------------------ *)
(** ** The vectorised versions *)

Lemma qtrunc_opp a : qtrunc (Qcopp a) = - qtrunc a.
Proof.
  unfold qtrunc, Qcopp. assert (E : this (Q2Qc (- this a)) = (- this a)%Q).
  { change (Qred (- this a) = (- this a)%Q). rewrite Qred_opp. now rewrite (canon a). }
  rewrite E. unfold Qopp. cbn [Qnum Qden]. now rewrite Z.quot_opp_l by lia.
Qed.
Lemma qsum_whole l : (forall X, In X l -> exists z, X = qz z) -> qsum l = qz (zsum (map qtrunc l)).
Proof.
  induction l as [|X l IH]; intros H; [reflexivity|]. cbn [map]. rewrite qsum_cons, zsum_cons, IH by (intros; apply H; now right).
  destruct (H X (or_introl eq_refl)) as (z & ->). rewrite qtrunc_qz, qz_plus. reflexivity.
Qed.

Lemma areas_vec_spec n w NST M s : stat_shape n w s -> length M = n -> (NST < w)%nat -> whole M -> recorded n w NST M s (pkstat NST M s).
Proof.
  intros S L HN W. unfold pkstat, areas_vec. cbv zeta.
  destruct (pool_count_spec n w NST (qsum M) s S HN) as (S0 & E1 & E2 & E3 & E4 & E5 & E6 & B1 & B2).
  set (s0 := pool_count NST (qsum M) s) in *. clearbody s0. destruct S0 as [Z1 Z2 Z3 Z4 Z5 Z6 Z7 Z8].
  assert (FM : forall f M0 c, shape n w M0 -> (forall X, c X = if qltb X q0 then f X else 0) ->
     let M' := mask_add NST M f M0 in shape n w M' /\ mbumped n w NST (fun j => c (nth j M q0)) M0 M').
  { intros f M0 c (SL & SR) Hc. unfold mask_add.
    assert (ROW : forall j, (j < n)%nat -> nth j (map2 (fun X r => if qltb X q0 then addz r NST (f X) else r) M M0) [] =
                    if qltb (nth j M q0) q0 then addz (nth j M0 []) NST (f (nth j M q0)) else nth j M0 []).
    { intros j Hj. rewrite (map2_nth _ M M0 j q0 [] []) by lia. reflexivity. }
    split; [split; [rewrite map2_length; lia|]|].
    - intros j Hj. rewrite ROW by auto. destruct (qltb (nth j M q0) q0); rewrite ?addz_length; auto.
    - intros j k Hj Hk. unfold zmget. rewrite ROW by auto. rewrite Hc. destruct (qltb (nth j M q0) q0).
      + change (nth k (addz (nth j M0 []) NST (f (nth j M q0))) 0) with (zget (addz (nth j M0 []) NST (f (nth j M q0))) k).
        rewrite zget_addz by (rewrite SR; auto). reflexivity.
      + destruct (Nat.eqb k NST); lia. }
  assert (TOT : - qtrunc (neg_sum M) = zsum (map lost M)).
  { unfold neg_sum. rewrite qsum_whole, qtrunc_qz.
    - rewrite <- lost_sum. induction (filter (fun X => qltb X q0) M) as [|X l IH]; [reflexivity|]. cbn [map]. rewrite !zsum_cons, qtrunc_opp. lia.
    - intros X HX. apply filter_In in HX. apply W, HX. }
  assert (FV : forall v, length v = w -> let v' := addz v NST (- qtrunc (neg_sum M)) in length v' = w /\ bumped w NST (zsum (map lost M)) v v').
  { intros v Lv. cbv zeta. split; [now rewrite addz_length|]. intros k Hk. rewrite zget_addz by lia. now rewrite TOT. }
  assert (EL : forall X, lost X = if qltb X q0 then - qtrunc X else 0) by (intros X; unfold lost; now rewrite qtrunc_opp).
  destruct (FM (fun _ => 1) (lolT s0) hit Z2 ltac:(reflexivity)) as (T1 & T2).
  destruct (FM (fun _ => 1) (lolG s0) hit Z1 ltac:(reflexivity)) as (T3 & T4).
  destruct (FM (fun X => - qtrunc X) (mgnT s0) lost Z4 EL) as (T5 & T6).
  destruct (FM (fun X => - qtrunc X) (mgnG s0) lost Z3 EL) as (T7 & T8).
  destruct (FV _ Z7) as (T9 & T10). destruct (FV _ Z8) as (T11 & T12). cbv zeta in *.
  rewrite ?E1, ?E2, ?E3, ?E4, ?E5, ?E6 in *.
  unfold causeT in *. destruct (qltb q0 (qsum M)) eqn:EC; constructor; unfold causeT; rewrite ?EC; cbn [lolG lolT mgnG mgnT plolG plolT pmgnG pmgnT];
    try (apply mbumped_0); try (apply bumped_0); auto; constructor; cbn [lolG lolT mgnG mgnT plolG plolT pmgnG pmgnT]; auto.
Qed.

Theorem versions_agree n w NST M LS s : stat_shape n w s -> length M = n -> length LS = n -> (NST < w)%nat -> whole M ->
  hrstat NST M LS s = hrstat_vec NST M LS s /\ pkstat_loop NST M s = pkstat NST M s /\ pkstat NST M s = snd (hrstat NST M LS s).
Proof.
  intros S L LL HN W. pose proof (hrstat_spec n w NST M LS s S L LL HN) as H. pose proof (areas_vec_spec n w NST M s S L HN W) as V.
  pose proof (pkstat_loop_spec n w NST M s S L HN) as K.
  assert (E1 : pkstat_loop NST M s = pkstat NST M s) by exact (recorded_unique n w NST M s _ _ K V).
  destruct (hrstat NST M LS s) as [LS' s'] eqn:EH. destruct H as (L1 & C1 & R1).
  assert (E2 : s' = pkstat NST M s) by exact (recorded_unique n w NST M s _ _ R1 V).
  split; [|split; [exact E1|cbn [snd]; now symmetry]]. unfold hrstat_vec. fold (pkstat NST M s). f_equal; [|exact E2].
  apply (nth_ext _ _ 0 0). { unfold mask_inc. rewrite map2_length; lia. }
  intros j Hj. change (nth j LS' 0) with (zget LS' j). rewrite C1 by lia. unfold mask_inc. rewrite (map2_nth _ M LS j q0 0 0) by lia.
  unfold hit, zget. destruct (qltb (nth j M q0) q0); lia.
Qed.

(* ------------------------------------------------------------------ *)
(** ** Histories *)

Lemma lost_nonneg X : 0 <= lost X.
Proof.
  unfold lost. destruct (qltb X q0) eqn:E; [|lia]. apply (proj1 (qltb_iff _ _)) in E.
  rewrite <- (qtrunc_qz 0). apply qtrunc_mono. change (qz 0) with q0. qlra.
Qed.
Lemma zsum_nonneg l : (forall x, In x l -> 0 <= x) -> 0 <= zsum l.
Proof. induction l as [|x l IH]; intros H; cbn [zsum fold_right]; [lia|]. pose proof (H x (or_introl eq_refl)). specialize (IH (fun y Hy => H y (or_intror Hy))). fold (zsum l). lia. Qed.
Lemma losts_nonneg M : 0 <= zsum (map lost M).
Proof. apply zsum_nonneg. intros x Hx. apply in_map_iff in Hx. destruct Hx as (X & <- & _). apply lost_nonneg. Qed.
Lemma hit_nonneg X : 0 <= hit X.
Proof. unfold hit. destruct (qltb X q0); lia. Qed.

Lemma mle_bumped n w NST c A B A' B' : mle n w A B -> mbumped n w NST c A A' -> mbumped n w NST c B B' -> mle n w A' B'.
Proof. intros L HA HB j k Hj Hk. rewrite HA, HB by auto. specialize (L j k Hj Hk). lia. Qed.
Lemma mle_grow n w NST c A B B' : mle n w A B -> (forall j, 0 <= c j) -> mbumped n w NST c B B' -> mle n w A B'.
Proof. intros L P HB j k Hj Hk. rewrite HB by auto. specialize (L j k Hj Hk). specialize (P j). destruct (Nat.eqb k NST); lia. Qed.
Lemma vle_bumped w NST c a b a' b' : vle w a b -> bumped w NST c a a' -> bumped w NST c b b' -> vle w a' b'.
Proof. intros L HA HB k Hk. rewrite HA, HB by auto. specialize (L k Hk). lia. Qed.
Lemma vle_grow w NST c a b b' : vle w a b -> 0 <= c -> bumped w NST c b b' -> vle w a b'.
Proof. intros L P HB k Hk. rewrite HB by auto. specialize (L k Hk). destruct (Nat.eqb k NST); lia. Qed.

Lemma stat_le_both n w NST M a b a' b' : stat_le n w a b -> recorded n w NST M a a' -> recorded n w NST M b b' -> stat_le n w a' b'.
Proof.
  intros [] [] []. constructor; (eapply mle_bumped; [|eassumption|eassumption]) || (eapply vle_bumped; [|eassumption|eassumption]); assumption.
Qed.
Lemma stat_le_grow n w NST M a b b' : stat_le n w a b -> recorded n w NST M b b' -> stat_le n w a b'.
Proof.
  intros [] []. pose proof hit_nonneg. pose proof lost_nonneg. pose proof (losts_nonneg M).
  constructor; (eapply mle_grow; [| |eassumption]) || (eapply vle_grow; [| |eassumption]); try assumption; intros; try (destruct (causeT M); auto; lia); destruct (qleb q0 (qsum M)); lia.
Qed.
Lemma stat_le_refl n w a : stat_le n w a a.
Proof. constructor; (intros j k _ _; apply Z.le_refl) || (intros k _; apply Z.le_refl). Qed.
Lemma stat_le_trans n w a b c : stat_le n w a b -> stat_le n w b c -> stat_le n w a c.
Proof. intros [] []. constructor; unfold mle, vle in *; intros;
  repeat match goal with H : forall j k, (j < _)%nat -> (k < _)%nat -> _ , X : (?j < n)%nat, Y : (?k < w)%nat |- _ => specialize (H j k X Y) end;
  repeat match goal with H : forall k, (k < _)%nat -> _ , Y : (?k < w)%nat |- _ => specialize (H k Y) end; lia. Qed.

Lemma zsum_map_plus {A} (f g : A -> Z) l : zsum (map (fun x => f x + g x) l) = zsum (map f l) + zsum (map g l).
Proof. induction l as [|x l IH]; cbn [map]; rewrite ?zsum_cons; [reflexivity|]. lia. Qed.
Lemma zsum_map_nth (f : Qc -> Z) (l : list Qc) : forall pre, zsum (map (fun j => f (nth j (pre ++ l) q0)) (seq (length pre) (length l))) = zsum (map f l).
Proof.
  induction l as [|x l IH]; intros pre; [reflexivity|]. cbn [length seq map]. rewrite !zsum_cons. f_equal.
  - f_equal. rewrite app_nth2, Nat.sub_diag by lia. reflexivity.
  - specialize (IH (pre ++ [x])). rewrite app_length in IH. cbn [length] in IH. rewrite Nat.add_1_r in IH. rewrite <- IH.
    f_equal. apply map_ext. intros j. now rewrite <- app_assoc.
Qed.
Lemma column_sum_bumped n w NST c A A' k : mbumped n w NST c A A' -> (k < w)%nat ->
  column_sum n A' k = column_sum n A k + (if Nat.eqb k NST then zsum (map c (seq 0 n)) else 0).
Proof.
  intros H Hk. unfold column_sum. rewrite (map_ext_in _ (fun j => zmget A j k + (if Nat.eqb k NST then c j else 0))).
  - rewrite zsum_map_plus. f_equal. destruct (Nat.eqb k NST); [reflexivity|]. clear. induction (seq 0 n); cbn [map]; rewrite ?zsum_cons; auto; lia.
  - intros j Hj. apply in_seq in Hj. apply H; lia.
Qed.
Lemma zsum_map_0 {A} (l : list A) : zsum (map (fun _ => 0) l) = 0.
Proof. induction l; cbn [map]; rewrite ?zsum_cons; auto. Qed.

Lemma recorded_energy n w NST M s s' k : recorded n w NST M s s' -> length M = n -> (k < w)%nat ->
  zget (pmgnG s') k - zget (pmgnG s) k = column_sum n (mgnG s') k - column_sum n (mgnG s) k /\
  zget (pmgnT s') k - zget (pmgnT s) k = column_sum n (mgnT s') k - column_sum n (mgnT s) k.
Proof.
  intros R L Hk. destruct R as [_ _ _ R1 R2 _ _ R3 R4].
  rewrite (column_sum_bumped _ _ _ _ _ _ k R1 Hk), (column_sum_bumped _ _ _ _ _ _ k R2 Hk), R3, R4 by auto.
  assert (E : zsum (map (fun j => lost (nth j M q0)) (seq 0 n)) = zsum (map lost M)) by (subst n; exact (zsum_map_nth lost M [])).
  destruct (causeT M); rewrite ?zsum_map_0, ?E; split; destruct (Nat.eqb k NST); lia.
Qed.

Section History.
  Variables (n w : nat).
  Definition run_hours (hs : list hour_rec) st := fold_left record_hour hs st.
  Lemma record_hour_spec h LS a p : hour_ok n w h -> length LS = n -> stat_shape n w a -> stat_shape n w p ->
    let '(LS', a', p') := record_hour (LS, a, p) h in
    let '(NST, M, pk) := h in
    length LS' = n /\ recorded n w NST M a a' /\ (if pk then recorded n w NST M p p' else p' = p).
  Proof.
    destruct h as [[NST M] pk]. intros (HN & LM & W) LL SA SP. unfold record_hour.
    pose proof (hrstat_spec n w NST M LS a SA LM LL HN) as H. destruct (hrstat NST M LS a) as [LS' a']. destruct H as (L1 & _ & R).
    split; [auto|]. split; [auto|]. destruct pk; [|reflexivity]. now apply areas_vec_spec.
  Qed.
  Lemma run_hours_le hs : forall LS a p, Forall (hour_ok n w) hs -> length LS = n -> stat_shape n w a -> stat_shape n w p -> stat_le n w p a ->
    let '(_, a', p') := run_hours hs (LS, a, p) in stat_shape n w a' /\ stat_shape n w p' /\ stat_le n w p' a' /\ stat_le n w a a' /\ stat_le n w p p'.
  Proof.
    induction hs as [|h hs IH]; intros LS a p F LL SA SP LE; cbn [run_hours fold_left].
    - auto using stat_le_refl.
    - pose proof (Forall_inv F) as H; pose proof (Forall_inv_tail F) as F'. pose proof (record_hour_spec h LS a p H LL SA SP) as R.
      destruct (record_hour (LS, a, p) h) as [[LS' a'] p']. destruct h as [[NST M] pk]. destruct R as (L1 & RA & RP).
      assert (SP' : stat_shape n w p') by (destruct pk; [exact (re_shape _ _ _ _ _ _ RP)|congruence]).
      assert (LE' : stat_le n w p' a') by (destruct pk; [eapply stat_le_both; eauto|subst p'; eapply stat_le_grow; eauto]).
      assert (LP : stat_le n w p p') by (destruct pk; [eapply stat_le_grow; [apply stat_le_refl|eassumption]|subst p'; apply stat_le_refl]).
      assert (LA : stat_le n w a a') by (eapply stat_le_grow; [apply stat_le_refl|eassumption]).
      specialize (IH LS' a' p' F' L1 (re_shape _ _ _ _ _ _ RA) SP' LE'). unfold run_hours in IH.
      destruct (fold_left record_hour hs (LS', a', p')) as [[? a2] p2]. destruct IH as (I1 & I2 & I3 & I4 & I5). eauto 8 using stat_le_trans.
  Qed.
  Lemma run_hours_energy hs : forall LS a p, Forall (hour_ok n w) hs -> length LS = n -> stat_shape n w a -> stat_shape n w p ->
    energy_adds_up n w a -> energy_adds_up n w p ->
    let '(_, a', p') := run_hours hs (LS, a, p) in energy_adds_up n w a' /\ energy_adds_up n w p'.
  Proof.
    induction hs as [|h hs IH]; intros LS a p F LL SA SP EA EP; cbn [run_hours fold_left]; auto.
    pose proof (Forall_inv F) as H; pose proof (Forall_inv_tail F) as F'. pose proof (record_hour_spec h LS a p H LL SA SP) as R.
    destruct (record_hour (LS, a, p) h) as [[LS' a'] p']. destruct h as [[NST M] pk]. destruct H as (_ & LM & _). destruct R as (L1 & RA & RP).
    assert (SP' : stat_shape n w p') by (destruct pk; [exact (re_shape _ _ _ _ _ _ RP)|congruence]).
    apply IH; auto.
    - exact (re_shape _ _ _ _ _ _ RA).
    - intros k Hk. destruct (recorded_energy _ _ _ _ _ _ k RA LM Hk). destruct (EA k Hk). lia.
    - destruct pk; [|now subst p']. intros k Hk. destruct (recorded_energy _ _ _ _ _ _ k RP LM Hk). destruct (EP k Hk). lia.
  Qed.
End History.

Lemma zget_repeat0 w k : zget (repeat 0 w) k = 0.
Proof. unfold zget. revert k. induction w; destruct k; cbn; auto. Qed.
Lemma zmget_repeat0 n w j k : zmget (repeat (repeat 0 w) n) j k = 0.
Proof.
  unfold zmget. assert (H : nth j (repeat (repeat 0 w) n) [] = repeat 0 w \/ nth j (repeat (repeat 0 w) n) [] = []).
  { revert j. induction n; destruct j; cbn; auto. }
  destruct H as [-> | ->]; [apply zget_repeat0|]. now destruct k.
Qed.
Lemma zero_stat_shape n w : stat_shape n w (zero_stat n w).
Proof.
  assert (H : shape n w (repeat (repeat 0 w) n)).
  { split; [apply repeat_length|]. intros j Hj. rewrite (nth_indep _ _ (repeat 0 w)) by (now rewrite repeat_length). rewrite nth_repeat. apply repeat_length. }
  constructor; cbn; auto using repeat_length.
Qed.
Lemma zero_stat_energy n w : energy_adds_up n w (zero_stat n w).
Proof.
  intros k Hk. cbn [pmgnG pmgnT mgnG mgnT zero_stat]. rewrite zget_repeat0. unfold column_sum.
  rewrite (map_ext _ (fun _ => 0)) by (intros; apply zmget_repeat0). rewrite zsum_map_0. auto.
Qed.
