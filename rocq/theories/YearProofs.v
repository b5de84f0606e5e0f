(** Lemmas about the year-end accumulation (YearModel). *)
From Verif Require Import Base BaseProofs Sums LoadModel LoadSpec LoadProofs StatModel StatSpec StatProofs YearModel YearSpec.
Open Scope Z_scope.

Lemma map2_nil_l {A B C} (f : A -> B -> C) m : map2 f [] m = []. Proof. reflexivity. Qed.
Lemma map2_cons {A B C} (f : A -> B -> C) a l b m : map2 f (a :: l) (b :: m) = f a b :: map2 f l m. Proof. reflexivity. Qed.

(* ---- rows ---- *)
Lemma addfirst_length k v d : length v = 5%nat -> length d = 5%nat -> (k <= 5)%nat -> length (addfirst k v d) = 5%nat.
Proof.
  intros Lv Ld Hk. unfold addfirst. rewrite app_length, map2_length by (rewrite !firstn_length; lia).
  rewrite firstn_length, skipn_length. lia.
Qed.
Lemma sumfirst_length k t g : length t = 5%nat -> length g = 5%nat -> (k <= 5)%nat -> length (sumfirst k t g) = k.
Proof. intros Lt Lg Hk. unfold sumfirst. rewrite map2_length by (rewrite !firstn_length; lia). rewrite firstn_length. lia. Qed.
Lemma nth_firstn {A} (l : list A) k i d : (i < k)%nat -> nth i (firstn k l) d = nth i l d.
Proof.
  revert k i. induction l as [|a l IH]; intros [|k] [|i] H; cbn [firstn nth]; auto; try lia. apply IH. lia.
Qed.
Lemma addfirst_nth m k v d i : length v = 5%nat -> length d = m -> (k <= m)%nat -> (k <= 5)%nat ->
  zget (addfirst k v d) i = zget v i + (if Nat.ltb i k then zget d i else 0).
Proof.
  intros Lv Ld Hk Hk5. unfold addfirst, zget.
  assert (L : length (map2 Z.add (firstn k v) (firstn k d)) = k).
  { rewrite map2_length by (rewrite !firstn_length; lia). rewrite firstn_length. lia. }
  destruct (Nat.ltb_spec i k).
  - rewrite app_nth1 by lia. rewrite (map2_nth Z.add _ _ i 0 0 0) by (rewrite ?firstn_length; lia).
    rewrite !nth_firstn by lia. reflexivity.
  - rewrite app_nth2 by lia. rewrite L. 
    rewrite <- (firstn_skipn k v) at 2. rewrite app_nth2 by (rewrite firstn_length; lia).
    rewrite firstn_length. replace (Nat.min k (length v)) with k by lia. lia.
Qed.
Lemma sumfirst_nth k t g i : length t = 5%nat -> length g = 5%nat -> (k <= 5)%nat -> (i < k)%nat ->
  zget (sumfirst k t g) i = zget t i + zget g i.
Proof.
  intros Lt Lg Hk Hi. unfold sumfirst, zget. rewrite (map2_nth Z.add _ _ i 0 0 0) by (rewrite ?firstn_length; lia).
  rewrite !nth_firstn by lia. reflexivity.
Qed.

Lemma expected_ext NF f g : (forall k, (k < NF)%nat -> f k = g k) -> expected NF f = expected NF g.
Proof. intros H. apply qs_ext. intros k Hk. now rewrite H. Qed.

Lemma levels_le NF NO : levels_ok NF NO -> (NF <= 5 /\ NO < NF /\ 0 < NF)%nat.
Proof. intros [[-> ->]|[-> ->]]; lia. Qed.

Lemma weighted_expected NF NO r : levels_ok NF NO -> (NF <= length r)%nat -> weighted NF r = expected NF (zget r).
Proof.
  intros H L. unfold weighted, expected.
  destruct H as [[-> _]|[-> _]].
  - destruct r as [|a r]; [cbn in L; lia|]. cbn [firstn map]. unfold qdot. 
    change (XPROB 1) with [q1; qq 2417 10000; qq 383 1000; qq 2417 10000; qq 668 10000]. cbn [firstn combine map fst snd].
    rewrite qs_S_l, qs_0, qsum_cons, qsum_nil. cbn [level_weight]. unfold zget. cbn [nth]. qring.
  - do 5 (destruct r as [|? r]; [cbn in L; lia|]). cbn [firstn map]. unfold qdot.
    change (XPROB 5) with [qq 668 10000; qq 2417 10000; qq 383 1000; qq 2417 10000; qq 668 10000]. cbn [firstn combine map fst snd].
    rewrite !qs_S_l, qs_0, !qsum_cons, qsum_nil. cbn [level_weight]. unfold zget. cbn [nth]. qring.
Qed.

Lemma weights_sum NF NO : levels_ok NF NO -> qs NF (level_weight NF) = q1.
Proof. intros [[-> _]|[-> _]]; apply Qc_is_canon; vm_compute; reflexivity. Qed.

(* ---- matrices ---- *)
Lemma shape_map2_rows {A B C} (f : list A -> list B -> list C) n wa wb wc M D :
  shape n wa M -> shape n wb D -> (forall r d, length r = wa -> length d = wb -> length (f r d) = wc) -> shape n wc (map2 f M D).
Proof.
  intros [LM RM] [LD RD] H. split; [rewrite map2_length; lia|].
  intros j Hj. rewrite (map2_nth f M D j [] [] []) by lia. apply H; auto.
Qed.
Lemma maddfirst_shape n k M D w : shape n 5 M -> shape n w D -> (k <= w)%nat -> (k <= 5)%nat -> shape n 5 (maddfirst k M D).
Proof.
  intros SM SD Hk Hk5. unfold maddfirst. apply (shape_map2_rows _ n 5 w 5); auto.
  intros r d Lr Ld. unfold addfirst. rewrite app_length, map2_length by (rewrite !firstn_length; lia).
  rewrite firstn_length, skipn_length. lia.
Qed.
Lemma maddfirst_get n k M D w j i : shape n 5 M -> shape n w D -> (k <= w)%nat -> (k <= 5)%nat -> (j < n)%nat ->
  zmget (maddfirst k M D) j i = zmget M j i + (if Nat.ltb i k then zmget D j i else 0).
Proof.
  intros [LM RM] [LD RD] Hk Hk5 Hj. unfold maddfirst, zmget. rewrite (map2_nth _ M D j [] [] []) by lia.
  change (nth i (addfirst k (nth j M []) (nth j D [])) 0) with (zget (addfirst k (nth j M []) (nth j D [])) i).
  rewrite (addfirst_nth w); auto.
Qed.
Lemma sumfirst_shape n k T G : shape n 5 T -> shape n 5 G -> (k <= 5)%nat -> shape n k (map2 (sumfirst k) T G).
Proof. intros ST SG Hk. apply (shape_map2_rows _ n 5 5 k); auto. intros. apply sumfirst_length; auto. Qed.
Lemma sumfirst_get n k T G j i : shape n 5 T -> shape n 5 G -> (k <= 5)%nat -> (j < n)%nat -> (i < k)%nat ->
  zmget (map2 (sumfirst k) T G) j i = zmget T j i + zmget G j i.
Proof.
  intros [LT RT] [LG RG] Hk Hj Hi. unfold zmget. rewrite (map2_nth _ T G j [] [] []) by lia.
  apply sumfirst_nth; auto.
Qed.
Lemma wadd_get (NF NO n w : nat) (v : list Qc) M j : levels_ok NF NO -> shape n w M -> (NF <= w)%nat -> length v = n -> (j < n)%nat ->
  vget (map2 Qcplus v (map (weighted NF) M)) j = Qcplus (vget v j) (expected NF (zmget M j)).
Proof.
  intros HL [LM RM] Hw Lv Hj. unfold vget. rewrite (map2_nth Qcplus v _ j q0 q0 q0) by (rewrite ?map_length; lia).
  f_equal. rewrite (nth_map_in _ _ _ []) by lia. rewrite (weighted_expected NF NO) by (auto; rewrite RM by auto; lia). reflexivity.
Qed.

Lemma acc_step_spec NF NO n G T a : levels_ok NF NO -> shape n 5 G -> shape n 5 T -> acc_shape n a ->
  acc_shape n (acc_step NF G T a) /\ acc_grown n NF (zmget G) (zmget T) a (acc_step NF G T a).
Proof.
  intros HL SG ST A. destruct (levels_le _ _ HL) as (L5 & _ & _). destruct A.
  pose proof (sumfirst_shape n NF T G ST SG L5) as SS.
  assert (MS : length (map2 (sumfirst NF) T G) = n) by apply SS.
  unfold acc_step. split.
  - destruct SG as [LG ?], ST as [LT ?].
    constructor; cbn [aG aT aS wG wT wS]; try (rewrite map2_length; rewrite ?map_length; lia).
    + apply (maddfirst_shape n NF _ _ 5); auto; try lia. split; auto.
    + apply (maddfirst_shape n NF _ _ 5); auto; try lia. split; auto.
    + apply (maddfirst_shape n NF _ _ NF); auto; try lia.
  - constructor; cbn [aG aT aS wG wT wS].
    + intros. apply (maddfirst_get n NF _ _ 5); auto; lia.
    + intros. apply (maddfirst_get n NF _ _ 5); auto; lia.
    + intros j k Hj Hk. rewrite (maddfirst_get n NF _ _ NF) by (auto; lia). f_equal.
      destruct (Nat.ltb_spec k NF); [|reflexivity]. apply (sumfirst_get n NF); auto.
    + intros. apply (wadd_get NF NO n 5); auto.
    + intros. apply (wadd_get NF NO n 5); auto.
    + intros j Hj. rewrite (wadd_get NF NO n NF) by (auto; lia). f_equal. apply expected_ext. intros k Hk.
      apply (sumfirst_get n NF); auto.
Qed.

Lemma pacc_step_spec NF NO G T a : levels_ok NF NO -> length G = 5%nat -> length T = 5%nat -> pacc_shape a ->
  pacc_shape (pacc_step NF G T a) /\ pool_grown NF (zget G) (zget T) a (pacc_step NF G T a) /\ pool_weighted NF (zget G) (zget T) a (pacc_step NF G T a).
Proof.
  intros HL SG ST A. destruct (levels_le _ _ HL) as (L5 & _ & _). destruct A.
  pose proof (sumfirst_length NF T G ST SG L5) as SS. unfold pacc_step.
  split; [|split].
  - constructor; cbn [pG pT pS]; unfold addfirst; rewrite app_length, map2_length by (rewrite !firstn_length; lia); rewrite firstn_length, skipn_length; lia.
  - constructor; cbn [pG pT pS].
    + intros. apply (addfirst_nth 5); auto.
    + intros. apply (addfirst_nth 5); auto.
    + intros k Hk. rewrite (addfirst_nth NF) by auto. f_equal. destruct (Nat.ltb_spec k NF); [|reflexivity]. apply sumfirst_nth; auto.
  - constructor; cbn [vG vT vS]; f_equal.
    + apply (weighted_expected NF NO); auto; lia.
    + apply (weighted_expected NF NO); auto; lia.
    + rewrite (weighted_expected NF NO) by (auto; lia). apply expected_ext. intros k Hk. apply sumfirst_nth; auto.
Qed.

Lemma accumulate_spec NF NO n s c : levels_ok NF NO -> stat_shape n 5 s -> cumul_shape n c ->
  cumul_shape n (accumulate NF s c) /\ cumul_grown n NF s c (accumulate NF s c) /\ cumul_weighted NF s c (accumulate NF s c).
Proof.
  intros HL S C. destruct S, C.
  destruct (acc_step_spec NF NO n (lolG s) (lolT s) (c_lol c)) as [A1 A2]; auto.
  destruct (acc_step_spec NF NO n (mgnG s) (mgnT s) (c_mgn c)) as [B1 B2]; auto.
  destruct (pacc_step_spec NF NO (plolG s) (plolT s) (c_plol c)) as (P1 & P2 & P3); auto.
  destruct (pacc_step_spec NF NO (pmgnG s) (pmgnT s) (c_pmgn c)) as (Q1 & Q2 & Q3); auto.
  split; [constructor; assumption|split; constructor; assumption].
Qed.

(* ---- reset ---- *)
Lemma zfirst_length k r : length (zfirst k r) = length r.
Proof. unfold zfirst. rewrite app_length, repeat_length, skipn_length. lia. Qed.
Lemma zfirst_get k r i : zget (zfirst k r) i = if Nat.ltb i k then 0 else zget r i.
Proof.
  unfold zfirst, zget. destruct (Nat.le_gt_cases (Nat.min k (length r)) i).
  - rewrite app_nth2 by (rewrite repeat_length; lia). rewrite repeat_length.
    destruct (Nat.ltb_spec i k).
    + apply nth_overflow. rewrite skipn_length. lia.
    + destruct (Nat.le_gt_cases k (length r)).
      * replace (Nat.min k (length r)) with k by lia. rewrite <- (firstn_skipn k r) at 2. rewrite app_nth2 by (rewrite firstn_length; lia).
        rewrite firstn_length. replace (Nat.min k (length r)) with k by lia. reflexivity.
      * rewrite skipn_all2 by lia. rewrite (nth_overflow r) by lia. destruct (i - Nat.min k (length r))%nat; reflexivity.
  - rewrite app_nth1 by (rewrite repeat_length; lia). rewrite nth_repeat.
    destruct (Nat.ltb_spec i k); [reflexivity|lia].
Qed.
Lemma reset_area_shape NF k n w M : shape n w M -> shape n w (reset_area NF k M).
Proof.
  intros [L R]. unfold reset_area. split; [rewrite app_length, map_length, firstn_length, skipn_length; lia|].
  intros j Hj. destruct (Nat.le_gt_cases (Nat.min NF n) j).
  - rewrite app_nth2 by (rewrite map_length, firstn_length; lia). rewrite map_length, firstn_length.
    rewrite <- (R j Hj) . f_equal. symmetry. rewrite <- (firstn_skipn NF M) at 1. rewrite app_nth2 by (rewrite firstn_length; lia). now rewrite firstn_length.
  - rewrite app_nth1 by (rewrite map_length, firstn_length; lia). rewrite (nth_map_in _ _ _ []) by (rewrite firstn_length; lia).
    rewrite zfirst_length, nth_firstn by lia. auto.
Qed.
Lemma reset_area_get NF k n w M j i : shape n w M -> (j < n)%nat ->
  zmget (reset_area NF k M) j i = if Nat.ltb j NF && Nat.ltb i k then 0 else zmget M j i.
Proof.
  intros [L R] Hj. unfold reset_area, zmget. destruct (Nat.ltb_spec j NF); cbn [andb].
  - rewrite app_nth1 by (rewrite map_length, firstn_length; lia). rewrite (nth_map_in _ _ _ []) by (rewrite firstn_length; lia).
    change (nth i (zfirst k (nth j (firstn NF M) [])) 0) with (zget (zfirst k (nth j (firstn NF M) [])) i).
    rewrite zfirst_get. rewrite nth_firstn by lia. reflexivity.
  - rewrite app_nth2 by (rewrite map_length, firstn_length; lia). rewrite map_length, firstn_length.
    f_equal. symmetry. rewrite <- (firstn_skipn NF M) at 1. rewrite app_nth2 by (rewrite firstn_length; lia). now rewrite firstn_length.
Qed.
Lemma reset_shape NF k n w s : stat_shape n w s -> stat_shape n w (reset NF k s).
Proof. intros []. constructor; cbn; try (apply reset_area_shape; auto); rewrite zfirst_length; auto. Qed.

Lemma first_stat_shape n : stat_shape n 5 (first_stat n).
Proof. exact (zero_stat_shape n 5). Qed.

(* ---- histograms ---- *)
Definition hbin (x : Z) : nat := Z.to_nat (Z.min 21 x).
Lemma hbin_lt x : (hbin x < 22)%nat. Proof. unfold hbin. lia. Qed.

Lemma bump_spec row i : length row = 22%nat -> 0 <= i < 22 -> bump row i = Ok (addz row (Z.to_nat i) 1).
Proof.
  intros L Hi. unfold bump. rewrite (pyget_nonneg row i 0) by lia. rewrite bind_ok. rewrite pyset_nonneg by lia. reflexivity.
Qed.
Lemma eue_bin_pos m L : 0 < L -> 0 <= m -> eue_bin m L = Ok (Z.min 22 (m / L + 1)).
Proof.
  intros HL Hm. unfold eue_bin. destruct (Z.eqb_spec L 0); [lia|]. do 2 f_equal.
  assert (NZ : qz L <> q0) by (intros E; apply qz_inj in E; lia).
  assert (P : (q0 < qz L)%Qc) by (apply qz_lt; lia).
  assert (B1 : L * (m / L) <= m) by (apply Z.mul_div_le; lia).
  assert (B2 : m < L * (m / L + 1)) by (pose proof (Z.mul_succ_div_gt m L); lia).
  assert (E : Qcmult (Qcdiv (qz m) (qz L)) (qz L) = qz m) by (field; exact NZ).
  assert (D0 : 0 <= m / L) by (apply Z.div_pos; lia).
  set (d := Qcdiv (qz m) (qz L)) in *.
  assert (Hlo : (qz (m / L) <= d)%Qc).
  { apply Qcnot_lt_le. intros H. assert (Qcmult d (qz L) < Qcmult (qz (m / L)) (qz L))%Qc by (apply Qcmult_lt_compat_r; auto).
    rewrite E, <- qz_mult in H0. apply (proj1 (qz_lt _ _)) in H0. lia. }
  assert (Hhi : (d < qz (m / L + 1))%Qc).
  { apply Qcnot_le_lt. intros H. assert (Qcmult (qz (m / L + 1)) (qz L) <= Qcmult d (qz L))%Qc by (apply Qcmult_le_compat_r; auto; apply Qclt_le_weak; auto).
    rewrite E, <- qz_mult in H0. apply (proj1 (qz_le _ _)) in H0. lia. }
  assert (Q0 : (q0 <= qz (m / L))%Qc) by (apply qz_le; lia).
  rewrite qtrunc_nonneg by (clear - Hlo Q0; change q1 with (qz 1); assert (q0 <= qz 1)%Qc by (apply qz_le; lia); qlra).
  apply qfloor_unique.
  - rewrite qz_plus. change q1 with (qz 1). clear - Hlo. qlra.
  - replace (m / L + 1 + 1) with ((m / L + 1) + 1) by lia. rewrite (qz_plus (m / L + 1) 1). change q1 with (qz 1). clear - Hhi. qlra.
Qed.
Definition val_ok (v : Z * Z * Z) : Prop := let '(a, b, c) := v in 0 <= a /\ 0 <= b /\ 0 <= c.
Lemma hist_area_spec L lh lp mh hl dp eu : 0 < L -> 0 <= lh -> 0 <= lp -> 0 <= mh ->
  length hl = 22%nat -> length dp = 22%nat -> length eu = 22%nat ->
  hist_area L lh lp mh hl dp eu = Ok (addz hl (hbin lh) 1, addz dp (hbin lp) 1, addz eu (hbin (mh / L)) 1).
Proof.
  intros HL H1 H2 H3 L1 L2 L3. unfold hist_area. rewrite eue_bin_pos by auto. rewrite bind_ok.
  assert (D0 : 0 <= mh / L) by (apply Z.div_pos; lia).
  assert (B : forall x, Z.to_nat (Z.min 22 (x + 1) - 1) = hbin x) by (intros; unfold hbin; lia).
  cbv zeta. rewrite !bump_spec, !bind_ok by (auto; lia). rewrite !B. reflexivity.
Qed.
Lemma hist_areas_spec L : 0 < L -> forall vals HL DP EU n, length vals = n -> shape n 22 HL -> shape n 22 DP -> shape n 22 EU -> Forall val_ok vals ->
  hist_areas L vals HL DP EU =
  Ok (map2 (fun v r => addz r (hbin (fst (fst v))) 1) vals HL, map2 (fun v r => addz r (hbin (snd (fst v))) 1) vals DP,
      map2 (fun v r => addz r (hbin (snd v / L)) 1) vals EU).
Proof.
  intros PL. induction vals as [|[[lh lp] mh] vs IH]; intros HL DP EU n Ln [LH RH] [LD RD] [LE RE] F.
  - cbn in Ln. subst n. destruct HL, DP, EU; try discriminate. reflexivity.
  - destruct n; [discriminate|]. destruct HL as [|hl HL], DP as [|dp DP], EU as [|eu EU]; try discriminate.
    pose proof (Forall_inv F) as (F1 & F2 & F3). apply Forall_inv_tail in F.
    cbn [hist_areas]. rewrite hist_area_spec; auto; try (apply (RH 0%nat); lia); try (apply (RD 0%nat); lia); try (apply (RE 0%nat); lia).
    rewrite bind_ok. rewrite (IH HL DP EU n); cbn [length] in *; auto.
    + split; [lia|]. intros j Hj. apply (RH (S j)). lia.
    + split; [lia|]. intros j Hj. apply (RD (S j)). lia.
    + split; [lia|]. intros j Hj. apply (RE (S j)). lia.
Qed.

Lemma observed_map2 n (vals : list (Z * Z * Z)) H (b : Z * Z * Z -> nat) : length vals = n -> shape n 22 H -> (forall v, (b v < 22)%nat) ->
  observed n H (map2 (fun v r => addz r (b v) 1) vals H) (fun j => b (nth j vals (0, 0, 0))) /\ shape n 22 (map2 (fun v r => addz r (b v) 1) vals H).
Proof.
  intros Lv [LH RH] B. split; [|split; [rewrite map2_length; lia|]].
  - intros j Hj. split; [apply B|]. intros i Hi. unfold zmget. rewrite (map2_nth _ vals H j (0, 0, 0) [] []) by lia.
    apply zget_addz. rewrite RH by auto. apply B.
  - intros j Hj. rewrite (map2_nth _ vals H j (0, 0, 0) [] []) by lia. rewrite addz_length. auto.
Qed.

Lemma hist_vals_length NO n h p : stat_shape n 5 h -> stat_shape n 5 p -> length (hist_vals NO h p) = n.
Proof.
  intros [[A1 ?] [A2 ?] [A3 ?] [A4 ?] _ _ _ _] [[B1 ?] [B2 ?] [B3 ?] [B4 ?] _ _ _ _]. unfold hist_vals.
  rewrite !combine_length, !map2_length by lia. lia.
Qed.
Lemma hist_vals_nth NO n h p j : stat_shape n 5 h -> stat_shape n 5 p -> (j < n)%nat ->
  nth j (hist_vals NO h p) (0, 0, 0) =
  (zmget (lolT h) j NO + zmget (lolG h) j NO, zmget (lolT p) j NO + zmget (lolG p) j NO, zmget (mgnT h) j NO + zmget (mgnG h) j NO).
Proof.
  intros [[A1 ?] [A2 ?] [A3 ?] [A4 ?] _ _ _ _] [[B1 ?] [B2 ?] [B3 ?] [B4 ?] _ _ _ _] Hj. unfold hist_vals.
  rewrite combine_nth by (rewrite combine_length, !map2_length by lia; lia).
  rewrite combine_nth by (rewrite !map2_length by lia; lia).
  rewrite !(map2_nth _ _ _ j [] [] 0) by lia. reflexivity.
Qed.
Lemma hist_vals_ok NO n h p : (NO < 5)%nat -> stat_shape n 5 h -> stat_shape n 5 p -> stat_nonneg n h -> stat_nonneg n p -> Forall val_ok (hist_vals NO h p).
Proof.
  intros HN Sh Sp Nh Np. apply Forall_forall. intros v Hv. apply (In_nth _ _ (0, 0, 0)) in Hv. destruct Hv as (j & Hj & <-).
  rewrite (hist_vals_length NO n) in Hj by auto. rewrite (hist_vals_nth NO n) by auto.
  destruct (Nh j NO Hj HN) as (a1 & a2 & a3 & a4). destruct (Np j NO Hj HN) as (b1 & b2 & b3 & b4). cbn. lia.
Qed.

Lemma addz_zsum : forall v i x, (i < length v)%nat -> zsum (addz v i x) = zsum v + x.
Proof.
  unfold addz, zget. induction v as [|a v IH]; intros [|i] x H; cbn [length] in H; try lia; cbn [upd nth]; rewrite !zsum_cons; [lia|].
  rewrite IH by lia. lia.
Qed.
Lemma observed_mass n H H' b : shape n 22 H -> shape n 22 H' -> observed n H H' b -> forall j, (j < n)%nat -> mass H' j = mass H j + 1.
Proof.
  intros [LH RH] [LH' RH'] O j Hj. destruct (O j Hj) as (B & E). unfold mass.
  assert (nth j H' [] = addz (nth j H []) (b j) 1) as ->.
  { apply (nth_ext _ _ 0 0); [rewrite addz_length, RH, RH'; auto|]. intros i Hi. rewrite RH' in Hi by auto.
    specialize (E i Hi). unfold zmget in E. rewrite E. symmetry. apply zget_addz. rewrite RH; auto. }
  apply addz_zsum. rewrite RH; auto.
Qed.

(* ---- squares ---- *)
Lemma xadd n (a b c : list Qc) X : length a = n -> length b = n -> length c = n -> shape n 3 X ->
  let X' := map2 (map2 Qcplus) X (map2 (fun a bc => a :: bc) a (map2 (fun b c => [b; c]) b c)) in
  shape n 3 X' /\ forall j, (j < n)%nat -> nth j X' [] = map2 Qcplus (nth j X []) [nth j a q0; nth j b q0; nth j c q0].
Proof.
  intros La Lb Lc [LX RX] X'.
  assert (L1 : length (map2 (fun b c => [b; c]) b c) = n) by (rewrite map2_length; lia).
  assert (L2 : length (map2 (fun a bc => a :: bc) a (map2 (fun b c => [b; c]) b c)) = n) by (rewrite map2_length; lia).
  assert (R : forall j, (j < n)%nat -> nth j X' [] = map2 Qcplus (nth j X []) [nth j a q0; nth j b q0; nth j c q0]).
  { intros j Hj. unfold X'. rewrite (map2_nth _ _ _ j [] [] []) by lia. rewrite (map2_nth _ a _ j q0 [] []) by lia.
    rewrite (map2_nth _ b c j q0 q0 []) by lia. reflexivity. }
  split; [|exact R]. split; [unfold X'; rewrite map2_length; lia|]. intros j Hj. rewrite R by auto. rewrite map2_length; rewrite RX by auto; reflexivity.
Qed.
Lemma xnewa_get NF NO n h p X j : levels_ok NF NO -> stat_shape n 5 h -> stat_shape n 5 p -> shape n 3 X -> (j < n)%nat ->
  let X' := xnewa_step NF h p X in
  let e T G := expected NF (fun k => zmget T j k + zmget G j k) in
  mget X' j 0 = Qcplus (mget X j 0) (qsq (e (lolT h) (lolG h))) /\
  mget X' j 1 = Qcplus (mget X j 1) (qsq (e (mgnT h) (mgnG h))) /\
  mget X' j 2 = Qcplus (mget X j 2) (qsq (e (lolT p) (lolG p))).
Proof.
  intros HL Sh Sp [LX RX] Hj X' e. destruct (levels_le _ _ HL) as (L5 & _ & _).
  destruct Sh as [h1 h2 h3 h4 _ _ _ _], Sp as [p1 p2 p3 p4 _ _ _ _].
  assert (W : forall T G, shape n 5 T -> shape n 5 G -> length (map qsq (map (weighted NF) (map2 (sumfirst NF) T G))) = n /\
    nth j (map qsq (map (weighted NF) (map2 (sumfirst NF) T G))) q0 = qsq (e T G)).
  { intros T G HT HG. pose proof (sumfirst_shape n NF T G HT HG L5) as [LS RS]. split; [rewrite !map_length; auto|].
    rewrite (nth_map_in _ _ _ q0) by (rewrite map_length; lia). rewrite (nth_map_in _ _ _ []) by lia.
    f_equal. rewrite (weighted_expected NF NO) by (auto; rewrite RS by auto; lia). apply expected_ext. intros k Hk. apply (sumfirst_get n NF T G j k); auto. }
  destruct (W (lolT h) (lolG h) h2 h1) as [a1 a2]. destruct (W (mgnT h) (mgnG h) h4 h3) as [b1 b2]. destruct (W (lolT p) (lolG p) p2 p1) as [c1 c2].
  assert (R : nth j X' [] = map2 Qcplus (nth j X []) [qsq (e (lolT h) (lolG h)); qsq (e (mgnT h) (mgnG h)); qsq (e (lolT p) (lolG p))]).
  { unfold X', xnewa_step. rewrite <- a2, <- b2, <- c2. apply (xadd n); auto. split; auto. }
  unfold mget at 1 3 5. rewrite R. specialize (RX j Hj). unfold mget. destruct (nth j X []) as [|x0 [|x1 [|x2 [|]]]]; try discriminate. repeat split; reflexivity.
Qed.
Lemma xnewa_shape NF n h p X : (NF <= 5)%nat -> stat_shape n 5 h -> stat_shape n 5 p -> shape n 3 X -> shape n 3 (xnewa_step NF h p X).
Proof.
  intros L5 Sh Sp [LX RX]. destruct Sh as [h1 h2 h3 h4 _ _ _ _], Sp as [p1 p2 p3 p4 _ _ _ _].
  assert (W : forall T G, shape n 5 T -> shape n 5 G -> length (map qsq (map (weighted NF) (map2 (sumfirst NF) T G))) = n).
  { intros T G HT HG. rewrite !map_length. apply (sumfirst_shape n NF T G HT HG L5). }
  pose proof (W _ _ h2 h1) as a1. pose proof (W _ _ h4 h3) as b1. pose proof (W _ _ p2 p1) as c1.
  unfold xnewa_step. apply (xadd n); auto. split; auto.
Qed.
Lemma xnewp_get NF NO h p X : levels_ok NF NO -> stat_shape 0 5 h \/ True -> length (plolG h) = 5%nat -> length (plolT h) = 5%nat ->
  length (pmgnG h) = 5%nat -> length (pmgnT h) = 5%nat -> length (plolG p) = 5%nat -> length (plolT p) = 5%nat -> length X = 3%nat ->
  let X' := xnewp_step NF h p X in
  let e T G := expected NF (fun k => zget T k + zget G k) in
  length X' = 3%nat /\
  vget X' 0 = Qcplus (vget X 0) (qsq (e (plolT h) (plolG h))) /\
  vget X' 1 = Qcplus (vget X 1) (qsq (e (pmgnT h) (pmgnG h))) /\
  vget X' 2 = Qcplus (vget X 2) (qsq (e (plolT p) (plolG p))).
Proof.
  intros HL _ l1 l2 l3 l4 l5 l6 LX X' e. destruct (levels_le _ _ HL) as (L5 & _ & _).
  assert (W : forall T G, length T = 5%nat -> length G = 5%nat -> weighted NF (sumfirst NF T G) = e T G).
  { intros T G HT HG. rewrite (weighted_expected NF NO) by (auto; rewrite sumfirst_length; auto). apply expected_ext. intros k Hk. apply sumfirst_nth; auto. }
  unfold X', xnewp_step. rewrite !W by auto. destruct X as [|x0 [|x1 [|x2 [|]]]]; try discriminate. repeat split; reflexivity.
Qed.
