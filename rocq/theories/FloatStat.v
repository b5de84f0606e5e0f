(** C113: sums of whole numbers below 2^53 are exact. *)
From Verif Require Import Base BaseProofs Sums LoadModel LoadProofs StatModel StatProofs YearModel FloatModel FloatSpec FloatProofs FloatSums FloatStatModel FloatStatSpec.
Open Scope Z_scope.

Definition lim : Z := 2 ^ 53.
Lemma fadd_z a b : 0 <= a + b <= lim -> fadd (qz a) (qz b) = qz (a + b).
Proof.
  unfold lim. intros B. unfold fadd. rewrite <- qz_plus. apply (grid_exact 0); [lia|apply grid_qz|]. unfold p2. change (53 - 0 <? 0) with false. cbv iota.
  rewrite qabs_qz. apply qz_le. lia.
Qed.
Local Opaque fadd.
Definition bd (B : Z) (v : list Z) : Prop := Forall (fun x => 0 <= x <= B) v.
Definition mbd (B : Z) (M : list (list Z)) : Prop := Forall (bd B) M.
Lemma bd_le B B' v : B <= B' -> bd B v -> bd B' v. Proof. intros L. apply Forall_impl. intros x X. lia. Qed.
Lemma mbd_le B B' M : B <= B' -> mbd B M -> mbd B' M. Proof. intros L. apply Forall_impl. intros x. now apply bd_le. Qed.
Lemma upd_map {A C} (f : A -> C) v : forall i a, upd (map f v) i (f a) = map f (upd v i a).
Proof. induction v as [|x v IH]; intros [|i] a; cbn [map upd]; [reflexivity..|]. now rewrite IH. Qed.
Lemma bd_upd B v : forall i a, bd B v -> 0 <= a <= B -> bd B (upd v i a).
Proof. intros i a H K. unfold bd. apply Forall_upd; [exact H|exact K]. Qed.
Lemma bd_get B v i : 0 <= B -> bd B v -> 0 <= zget v i <= B.
Proof. intros B0 H. unfold zget. apply (Forall_nth_d (fun x => 0 <= x <= B)); [exact H|lia]. Qed.
Lemma qv_get v i : vget (qv v) i = qz (zget v i).
Proof. unfold vget, zget, qv. change q0 with (qz 0). apply map_nth. Qed.
Lemma faddz_q B v i x : 0 <= B -> bd B v -> 0 <= x -> B + x <= lim -> faddz (qv v) i x = qv (addz v i x) /\ bd (B + x) (addz v i x).
Proof.
  intros B0 H X L. pose proof (bd_get B v i B0 H) as G. split.
  - unfold faddz, addz. rewrite qv_get, fadd_z by lia. apply upd_map.
  - unfold addz. apply bd_upd; [apply (bd_le B); [lia|exact H]|lia].
Qed.
Lemma qm_row M i : nth i (qm M) [] = qv (nth i M []).
Proof. unfold qm. change (@nil Qc) with (qv []). apply map_nth. Qed.
Lemma mbd_row B M i : mbd B M -> bd B (nth i M []).
Proof. intros H. apply (Forall_nth_d (bd B)); [exact H|constructor]. Qed.
Lemma fmaddz_q B M i j x : 0 <= B -> mbd B M -> 0 <= x -> B + x <= lim -> fmaddz (qm M) i j x = qm (maddz M i j x) /\ mbd (B + x) (maddz M i j x).
Proof.
  intros B0 H X L. destruct (faddz_q B (nth i M []) j x B0 (mbd_row _ _ _ H) X L) as (E & F). unfold fmaddz, maddz, mupd, zmget. fold (zget (nth i M []) j). split.
  - rewrite qm_row, E. apply upd_map.
  - apply Forall_upd; [apply (mbd_le B); [lia|exact H]|exact F].
Qed.

Lemma map_snd_combine' {A C} (a : list A) : forall (b : list C), length a = length b -> map snd (combine a b) = b.
Proof. induction a as [|x a IH]; intros [|y b] E; try discriminate E; [reflexivity|]. cbn [combine map snd]. f_equal. apply IH. now injection E. Qed.
Lemma map_repeat' {A C} (f : A -> C) x k : map f (repeat x k) = repeat (f x) k.
Proof. induction k as [|k IH]; [reflexivity|]. cbn [repeat map]. now rewrite IH. Qed.
Record sbd (B : Z) (s : stat) : Prop := mkSbd {
  b1 : mbd B (lolG s); b2 : mbd B (lolT s); b3 : mbd B (mgnG s); b4 : mbd B (mgnT s);
  b5 : bd B (plolG s); b6 : bd B (plolT s); b7 : bd B (pmgnG s); b8 : bd B (pmgnT s) }.
Lemma sbd_le B B' s : B <= B' -> sbd B s -> sbd B' s.
Proof. intros L []. constructor; first [now apply (mbd_le B)|now apply (bd_le B)]. Qed.

Lemma qsum_qz M : qsum (map qz M) = qz (zsum M).
Proof. induction M as [|m M IH]; [reflexivity|]. change (Qcplus (qz m) (qsum (map qz M)) = qz (m + zsum M)). now rewrite IH, qz_plus. Qed.
Lemma qlt_z a : qltb (qz a) q0 = (a <? 0).
Proof. apply Bool.eq_iff_eq_true. rewrite qltb_iff, Z.ltb_lt. change q0 with (qz 0). apply qz_lt. Qed.
Lemma zlt_q a : qltb q0 (qz a) = (0 <? a).
Proof. apply Bool.eq_iff_eq_true. rewrite qltb_iff, Z.ltb_lt. change q0 with (qz 0). apply qz_lt. Qed.
Lemma zle_q a : qleb q0 (qz a) = (0 <=? a).
Proof. apply Bool.eq_iff_eq_true. rewrite qleb_iff, Z.leb_le. change q0 with (qz 0). apply qz_le. Qed.
Lemma trunc_neg a : qtrunc (Qcopp (qz a)) = - a.
Proof. now rewrite <- qz_opp, qtrunc_qz. Qed.

Lemma pool_count_q B NST S s : 0 <= B -> sbd B s -> B + 1 <= lim ->
  fpool_count NST S (q_stat s) = q_stat (pool_count NST (qz S) s) /\ sbd (B + 1) (pool_count NST (qz S) s).
Proof.
  intros B0 H L. unfold fpool_count, pool_count. rewrite zle_q. destruct H as [h1 h2 h3 h4 h5 h6 h7 h8].
  assert (W : sbd (B + 1) s) by (apply (sbd_le B); [lia|constructor; assumption]). destruct W as [w1 w2 w3 w4 w5 w6 w7 w8].
  destruct (0 <=? S).
  - destruct (faddz_q B (plolT s) NST 1 B0 h6 ltac:(lia) L) as (E & F). split; [cbn [q_stat f_lolG f_lolT f_mgnG f_mgnT f_plolG f_plolT f_pmgnG f_pmgnT]; rewrite E; reflexivity|constructor; assumption].
  - destruct (faddz_q B (plolG s) NST 1 B0 h5 ltac:(lia) L) as (E & F). split; [cbn [q_stat f_lolG f_lolT f_mgnG f_mgnT f_plolG f_plolT f_pmgnG f_pmgnT]; rewrite E; reflexivity|constructor; assumption].
Qed.
Lemma area_loss_q B NST S j X s : 0 <= B -> sbd B s -> X < 0 -> B + (1 - X) <= lim ->
  farea_loss NST S j X (q_stat s) = q_stat (area_loss NST (qz S) j (qz X) s) /\ sbd (B + (1 - X)) (area_loss NST (qz S) j (qz X) s).
Proof.
  intros B0 H X0 L. unfold farea_loss, area_loss. rewrite zlt_q, trunc_neg. cbv zeta. destruct H as [h1 h2 h3 h4 h5 h6 h7 h8].
  assert (W : sbd (B + (1 - X)) s) by (apply (sbd_le B); [lia|constructor; assumption]). destruct W as [w1 w2 w3 w4 w5 w6 w7 w8].
  destruct (0 <? S).
  - destruct (fmaddz_q B (lolT s) j NST 1 B0 h2 ltac:(lia) ltac:(lia)) as (E1 & F1). destruct (fmaddz_q B (mgnT s) j NST (- X) B0 h4 ltac:(lia) ltac:(lia)) as (E2 & F2).
    destruct (faddz_q B (pmgnT s) NST (- X) B0 h8 ltac:(lia) ltac:(lia)) as (E3 & F3).
    split; [cbn [q_stat f_lolG f_lolT f_mgnG f_mgnT f_plolG f_plolT f_pmgnG f_pmgnT]; rewrite E1, E2, E3; reflexivity|].
    constructor; try assumption; [apply (mbd_le (B + 1))|apply (mbd_le (B + - X))|apply (bd_le (B + - X))]; first [lia|assumption].
  - destruct (fmaddz_q B (lolG s) j NST 1 B0 h1 ltac:(lia) ltac:(lia)) as (E1 & F1). destruct (fmaddz_q B (mgnG s) j NST (- X) B0 h3 ltac:(lia) ltac:(lia)) as (E2 & F2).
    destruct (faddz_q B (pmgnG s) NST (- X) B0 h7 ltac:(lia) ltac:(lia)) as (E3 & F3).
    split; [cbn [q_stat f_lolG f_lolT f_mgnG f_mgnT f_plolG f_plolT f_pmgnG f_pmgnT]; rewrite E1, E2, E3; reflexivity|].
    constructor; try assumption; [apply (mbd_le (B + 1))|apply (mbd_le (B + - X))|apply (bd_le (B + - X))]; first [lia|assumption].
Qed.
Definition vol (M : list Z) : Z := zsum (map (fun m => if m <? 0 then 1 - m else 0) M).
Lemma vol_nonneg M : 0 <= vol M.
Proof. induction M as [|m M IH]; [reflexivity|]. change (vol (m :: M)) with ((if m <? 0 then 1 - m else 0) + vol M). destruct (Z.ltb_spec m 0); lia. Qed.
Lemma enumerate_map {A C} (f : A -> C) (l : list A) : enumerate (map f l) = map (fun p => (fst p, f (snd p))) (enumerate l).
Proof.
  unfold enumerate. rewrite map_length. generalize 0%nat. induction l as [|x l IH]; intros k; [reflexivity|]. cbn [length seq map combine]. cbn [fst snd]. now rewrite IH.
Qed.
Lemma fold_area_q NST S ps : forall B LS s, 0 <= B -> bd B LS -> sbd B s -> B + vol (map snd ps) <= lim ->
  let e := fold_left (fun (st : list Z * stat) (p : nat * Qc) => let '(j, X) := p in if qltb X q0 then (addz (fst st) j 1, area_loss NST (qz S) j X (snd st)) else st)
             (map (fun p => (fst p, qz (snd p))) ps) (LS, s) in
  let f := fold_left (fun (st : list Qc * fstat) (p : nat * Z) => let '(j, X) := p in if X <? 0 then (faddz (fst st) j 1, farea_loss NST S j X (snd st)) else st)
             ps (qv LS, q_stat s) in
  f = (qv (fst e), q_stat (snd e)) /\ bd (B + vol (map snd ps)) (fst e) /\ sbd (B + vol (map snd ps)) (snd e).
Proof.
  induction ps as [|[j X] ps IH]; intros B LS s B0 HL HS L; cbn zeta.
  - cbn [map fold_left fst snd]. change (vol []) with 0. rewrite Z.add_0_r. auto.
  - cbn [map fold_left fst snd] in *. change (vol (X :: map snd ps)) with ((if X <? 0 then 1 - X else 0) + vol (map snd ps)) in *. rewrite qlt_z. pose proof (vol_nonneg (map snd ps)).
    destruct (Z.ltb_spec X 0).
    + destruct (faddz_q B LS j 1 B0 HL ltac:(lia) ltac:(lia)) as (E1 & F1). destruct (area_loss_q B NST S j X s B0 HS ltac:(lia) ltac:(lia)) as (E2 & F2). rewrite E1, E2.
      destruct (IH (B + (1 - X)) (addz LS j 1) (area_loss NST (qz S) j (qz X) s) ltac:(lia) (bd_le (B + 1) (B + (1 - X)) _ ltac:(lia) F1) F2 ltac:(lia)) as (E & G1 & G2). cbn zeta in *.
      split; [exact E|]. rewrite Z.add_assoc. auto.
    + rewrite Z.add_0_l in *. now apply IH.
Qed.
Lemma hrstat_q B NST M LS s : 0 <= B -> bd B LS -> sbd B s -> B + (1 + vol M) <= lim ->
  let e := hrstat NST (map qz M) LS s in
  fhrstat NST M (qv LS) (q_stat s) = (qv (fst e), q_stat (snd e)) /\ bd (B + (1 + vol M)) (fst e) /\ sbd (B + (1 + vol M)) (snd e).
Proof.
  intros B0 HL HS L. cbn zeta. pose proof (vol_nonneg M). unfold fhrstat, hrstat. cbv zeta. rewrite qsum_qz, enumerate_map.
  destruct (pool_count_q B NST (zsum M) s B0 HS ltac:(lia)) as (E & F). rewrite E.
  assert (EM : map snd (enumerate M) = M) by (unfold enumerate; rewrite map_snd_combine'; [reflexivity|apply seq_length]).
  pose proof (fold_area_q NST (zsum M) (enumerate M) (B + 1) LS (pool_count NST (qz (zsum M)) s) ltac:(lia) (bd_le B (B + 1) LS ltac:(lia) HL) F) as K. rewrite EM in K. specialize (K ltac:(lia)). cbn zeta in K.
  rewrite Z.add_assoc. exact K.
Qed.

Lemma mask_add_q B NST (f : Z -> Z) (g : Qc -> Z) M : 0 <= B -> (forall X, In X M -> X < 0 -> 0 <= f X /\ g (qz X) = f X /\ B + f X <= lim) -> forall T V, (forall X, In X M -> X < 0 -> B + f X <= V) -> B <= V -> mbd B T ->
  fmask_add NST M f (qm T) = qm (mask_add NST (map qz M) g T) /\ mbd V (mask_add NST (map qz M) g T).
Proof.
  intros B0. unfold fmask_add, mask_add, map2. induction M as [|m M IH]; intros HF T V HV BV HT; [split; [reflexivity|constructor]|].
  destruct T as [|r T]; [split; [reflexivity|constructor]|]. unfold qm in *. cbn [map combine fst snd].
  apply Forall_inv_tail in HT as HT'. apply Forall_inv in HT. 
  destruct (IH (fun X I => HF X (or_intror I)) T V (fun X I => HV X (or_intror I)) BV HT') as (E & F). cbn [map] in *. rewrite qlt_z.
  destruct (Z.ltb_spec m 0) as [N|N].
  - destruct (HF m (or_introl eq_refl) N) as (F0 & FG & FL). destruct (faddz_q B r NST (f m) B0 HT F0 FL) as (E1 & F1). rewrite FG. split.
    + rewrite E1. f_equal. exact E.
    + constructor; [apply (bd_le (B + f m)); [apply HV; [now left|exact N]|exact F1]|exact F].
  - split; [f_equal; exact E|constructor; [now apply (bd_le B)|exact F]].
Qed.
Lemma neg_sum_z M : neg_sum (map qz M) = qz (zsum (filter (fun X => X <? 0) M)).
Proof.
  unfold neg_sum. rewrite <- qsum_qz. f_equal. induction M as [|m M IH]; [reflexivity|]. cbn [map filter]. rewrite qlt_z. destruct (m <? 0); cbn [map]; now rewrite IH.
Qed.
Lemma vol_in M X : In X M -> X < 0 -> 1 - X <= vol M.
Proof.
  induction M as [|m M IH]; intros [] N; change (vol (m :: M)) with ((if m <? 0 then 1 - m else 0) + vol M); pose proof (vol_nonneg M).
  - subst m. destruct (Z.ltb_spec X 0); lia.
  - specialize (IH ltac:(assumption) N). destruct (Z.ltb_spec m 0); lia.
Qed.
Lemma vol_neg M : 0 <= - zsum (filter (fun X => X <? 0) M) <= vol M.
Proof.
  induction M as [|m M IH]; [split; reflexivity|]. change (vol (m :: M)) with ((if m <? 0 then 1 - m else 0) + vol M). cbn [filter]. destruct (Z.ltb_spec m 0); [|lia].
  change (zsum (m :: filter (fun X => X <? 0) M)) with (m + zsum (filter (fun X => X <? 0) M)). lia.
Qed.
Lemma pkstat_q B NST M s : 0 <= B -> sbd B s -> B + (1 + vol M) <= lim ->
  fpkstat NST M (q_stat s) = q_stat (pkstat NST (map qz M) s) /\ sbd (B + (1 + vol M)) (pkstat NST (map qz M) s).
Proof.
  intros B0 HS L. pose proof (vol_nonneg M). pose proof (vol_neg M) as VN. unfold fpkstat, pkstat, areas_vec. cbv zeta. rewrite qsum_qz, zlt_q, neg_sum_z.
  destruct (pool_count_q B NST (zsum M) s B0 HS ltac:(lia)) as (E & F). rewrite E. rewrite qtrunc_qz.
  set (s' := pool_count NST (qz (zsum M)) s) in *. clearbody s'. assert (W : sbd (B + (1 + vol M)) s') by (apply (sbd_le (B + 1)); [lia|exact F]). destruct W as [w1 w2 w3 w4 w5 w6 w7 w8].
  assert (ONE : forall T, mbd (B + 1) T -> fmask_add NST M (fun _ => 1) (qm T) = qm (mask_add NST (map qz M) (fun _ => 1) T) /\ mbd (B + (1 + vol M)) (mask_add NST (map qz M) (fun _ => 1) T)).
  { intros T HT. apply (mask_add_q (B + 1)); [lia| | |lia|exact HT].
    - intros X I N. pose proof (vol_in M X I N). repeat split; lia.
    - intros X I N. pose proof (vol_in M X I N). lia. }
  assert (MAG : forall T, mbd (B + 1) T -> fmask_add NST M Z.opp (qm T) = qm (mask_add NST (map qz M) (fun X => - qtrunc X) T) /\ mbd (B + (1 + vol M)) (mask_add NST (map qz M) (fun X => - qtrunc X) T)).
  { intros T HT. apply (mask_add_q (B + 1)); [lia| | |lia|exact HT].
    - intros X I N. pose proof (vol_in M X I N). rewrite qtrunc_qz. repeat split; lia.
    - intros X I N. pose proof (vol_in M X I N). lia. }
  set (d := - zsum _) in *. destruct F as [f1 f2 f3 f4 f5 f6 f7 f8]. destruct (0 <? zsum M).
  - destruct (ONE (lolT s') f2) as (E1 & F1). destruct (MAG (mgnT s') f4) as (E2 & F2). destruct (faddz_q (B + 1) (pmgnT s') NST d ltac:(lia) f8 ltac:(lia) ltac:(lia)) as (E3 & F3).
    split; [cbn [q_stat f_lolG f_lolT f_mgnG f_mgnT f_plolG f_plolT f_pmgnG f_pmgnT]; rewrite E1, E2, E3; reflexivity|]. constructor; try assumption. apply (bd_le (B + 1 + d)); [lia|exact F3].
  - destruct (ONE (lolG s') f1) as (E1 & F1). destruct (MAG (mgnG s') f3) as (E2 & F2). destruct (faddz_q (B + 1) (pmgnG s') NST d ltac:(lia) f7 ltac:(lia) ltac:(lia)) as (E3 & F3).
    split; [cbn [q_stat f_lolG f_lolT f_mgnG f_mgnT f_plolG f_plolT f_pmgnG f_pmgnT]; rewrite E1, E2, E3; reflexivity|]. constructor; try assumption. apply (bd_le (B + 1 + d)); [lia|exact F3].
Qed.

(** accumulation over the years *)
Lemma bd_firstn B k v : bd B v -> bd B (firstn k v).
Proof. intros H. unfold bd in *. rewrite <- (firstn_skipn k v), Forall_app in H. tauto. Qed.
Lemma bd_skipn B k v : bd B v -> bd B (skipn k v).
Proof. intros H. unfold bd in *. rewrite <- (firstn_skipn k v), Forall_app in H. tauto. Qed.
Lemma map2_fadd_q A B v : A + B <= lim -> 0 <= A -> 0 <= B -> forall w, bd A v -> bd B w -> map2 fadd (qv v) (qv w) = qv (map2 Z.add v w) /\ bd (A + B) (map2 Z.add v w).
Proof.
  intros L A0 B0. unfold map2. induction v as [|x v IH]; intros [|y w] HV HW; try (split; [reflexivity|constructor]).
  apply Forall_inv in HV as X. apply Forall_inv in HW as Y. apply Forall_inv_tail in HV, HW. destruct (IH w HV HW) as (E & F). cbn [qv map combine fst snd] in *. unfold qv in *. rewrite fadd_z by lia.
  split; [f_equal; exact E|constructor; [lia|exact F]].
Qed.
Lemma qv_firstn k v : firstn k (qv v) = qv (firstn k v). Proof. apply firstn_map. Qed.
Lemma qv_skipn k v : skipn k (qv v) = qv (skipn k v). Proof. apply skipn_map. Qed.
Lemma qv_app v w : qv (v ++ w) = qv v ++ qv w. Proof. apply map_app. Qed.
Lemma addfirst_q A B k v d : A + B <= lim -> 0 <= A -> 0 <= B -> bd A v -> bd B d -> faddfirst k (qv v) (qv d) = qv (addfirst k v d) /\ bd (A + B) (addfirst k v d).
Proof.
  intros L A0 B0 HV HD. unfold faddfirst, addfirst. rewrite !qv_firstn, qv_skipn, qv_app. destruct (map2_fadd_q A B (firstn k v) L A0 B0 (firstn k d) (bd_firstn _ _ _ HV) (bd_firstn _ _ _ HD)) as (E & F).
  rewrite E. split; [reflexivity|]. apply Forall_app. split; [exact F|]. apply (bd_le A); [lia|now apply bd_skipn].
Qed.
Lemma sumfirst_q B k t g : B + B <= lim -> 0 <= B -> bd B t -> bd B g -> fsumfirst k (qv t) (qv g) = qv (sumfirst k t g) /\ bd (B + B) (sumfirst k t g).
Proof. intros L B0 HT HG. unfold fsumfirst, sumfirst. rewrite !qv_firstn. apply map2_fadd_q; auto; now apply bd_firstn. Qed.
Lemma map2_rows (f : list Z -> list Z -> list Z) (g : list Qc -> list Qc -> list Qc) A B C M : (forall v w, bd A v -> bd B w -> g (qv v) (qv w) = qv (f v w) /\ bd C (f v w)) ->
  forall D, mbd A M -> mbd B D -> map2 g (qm M) (qm D) = qm (map2 f M D) /\ mbd C (map2 f M D).
Proof.
  intros H. unfold map2. induction M as [|x M IH]; intros [|y D] HM HD; try (split; [reflexivity|constructor]).
  apply Forall_inv in HM as X. apply Forall_inv in HD as Y. apply Forall_inv_tail in HM, HD. destruct (IH D HM HD) as (E & F). destruct (H x y X Y) as (E1 & F1). unfold qm in *. cbn [map combine fst snd]. rewrite E1.
  split; [f_equal; exact E|constructor; assumption].
Qed.
Record abd (A : Z) (a : acc) : Prop := mkAbd { a1 : mbd A (aG a); a2 : mbd A (aT a); a3 : mbd A (aS a) }.
Record pbd (A : Z) (a : pacc) : Prop := mkPbd { c1 : bd A (pG a); c2 : bd A (pT a); c3 : bd A (pS a) }.
Record cbd (A : Z) (c : cumul) : Prop := mkCbd { d1 : abd A (c_lol c); d2 : abd A (c_mgn c); d3 : pbd A (c_plol c); d4 : pbd A (c_pmgn c) }.
Lemma acc_q A B NF G T a : 0 <= A -> 0 <= B -> A + 2 * B <= lim -> mbd B G -> mbd B T -> abd A a ->
  facc_step NF (qm G) (qm T) (q_acc a) = q_acc (acc_step NF G T a) /\ abd (A + 2 * B) (acc_step NF G T a).
Proof.
  intros A0 B0 L HG HT [k1 k2 k3]. unfold facc_step, acc_step, fmaddfirst, maddfirst, q_acc. cbn [f_aG f_aT f_aS aG aT aS].
  destruct (map2_rows (addfirst NF) (faddfirst NF) A B (A + B) (aG a) (fun v w V W => addfirst_q A B NF v w ltac:(lia) A0 B0 V W) G k1 HG) as (E1 & F1).
  destruct (map2_rows (addfirst NF) (faddfirst NF) A B (A + B) (aT a) (fun v w V W => addfirst_q A B NF v w ltac:(lia) A0 B0 V W) T k2 HT) as (E2 & F2).
  destruct (map2_rows (sumfirst NF) (fsumfirst NF) B B (B + B) T (fun v w V W => sumfirst_q B NF v w ltac:(lia) B0 V W) G HT HG) as (E3 & F3).
  destruct (map2_rows (addfirst NF) (faddfirst NF) A (B + B) (A + (B + B)) (aS a) (fun v w V W => addfirst_q A (B + B) NF v w ltac:(lia) A0 ltac:(lia) V W) _ k3 F3) as (E4 & F4).
  rewrite E1, E2, E3, E4. split; [reflexivity|]. constructor; cbn [aG aT aS]; [apply (mbd_le (A + B))|apply (mbd_le (A + B))|apply (mbd_le (A + (B + B)))]; first [lia|assumption].
Qed.
Lemma pacc_q A B NF G T a : 0 <= A -> 0 <= B -> A + 2 * B <= lim -> bd B G -> bd B T -> pbd A a ->
  fpacc_step NF (qv G) (qv T) (q_pacc a) = q_pacc (pacc_step NF G T a) /\ pbd (A + 2 * B) (pacc_step NF G T a).
Proof.
  intros A0 B0 L HG HT [k1 k2 k3]. unfold fpacc_step, pacc_step, q_pacc. cbn [f_pG f_pT f_pS pG pT pS].
  destruct (addfirst_q A B NF (pG a) G ltac:(lia) A0 B0 k1 HG) as (E1 & F1). destruct (addfirst_q A B NF (pT a) T ltac:(lia) A0 B0 k2 HT) as (E2 & F2).
  destruct (sumfirst_q B NF T G ltac:(lia) B0 HT HG) as (E3 & F3). destruct (addfirst_q A (B + B) NF (pS a) _ ltac:(lia) A0 ltac:(lia) k3 F3) as (E4 & F4).
  rewrite E1, E2, E3, E4. split; [reflexivity|]. constructor; cbn [pG pT pS]; [apply (bd_le (A + B))|apply (bd_le (A + B))|apply (bd_le (A + (B + B)))]; first [lia|assumption].
Qed.
Lemma accumulate_q A B NF s c : 0 <= A -> 0 <= B -> A + 2 * B <= lim -> sbd B s -> cbd A c ->
  faccumulate NF (q_stat s) (q_cumul c) = q_cumul (keep_scalars c (accumulate NF s c)) /\ cbd (A + 2 * B) (keep_scalars c (accumulate NF s c)).
Proof.
  intros A0 B0 L [s1 s2 s3 s4 s5 s6 s7 s8] [k1 k2 k3 k4]. unfold faccumulate, accumulate, keep_scalars, q_cumul, q_stat.
  cbn [f_lolG f_lolT f_mgnG f_mgnT f_plolG f_plolT f_pmgnG f_pmgnT f_c_lol f_c_mgn f_c_plol f_c_pmgn c_lol c_mgn c_plol c_pmgn].
  destruct (acc_q A B NF (lolG s) (lolT s) (c_lol c) A0 B0 L s1 s2 k1) as (E1 & F1). destruct (acc_q A B NF (mgnG s) (mgnT s) (c_mgn c) A0 B0 L s3 s4 k2) as (E2 & F2).
  destruct (pacc_q A B NF (plolG s) (plolT s) (c_plol c) A0 B0 L s5 s6 k3) as (E3 & F3). destruct (pacc_q A B NF (pmgnG s) (pmgnT s) (c_pmgn c) A0 B0 L s7 s8 k4) as (E4 & F4).
  rewrite E1, E2, E3, E4. split; [reflexivity|]. constructor; cbn [c_lol c_mgn c_plol c_pmgn]; try assumption; destruct F3, F4; constructor; assumption.
Qed.
Lemma zfirst_q B k v : 0 <= B -> bd B v -> fzfirst k (qv v) = qv (zfirst k v) /\ bd B (zfirst k v).
Proof.
  intros B0 H. unfold fzfirst, zfirst, qv. rewrite map_length, skipn_map, map_app. split; [f_equal; change q0 with (qz 0); symmetry; apply map_repeat'|].
  apply Forall_app. split; [|now apply bd_skipn]. apply Forall_forall. intros x X. apply repeat_spec in X. lia.
Qed.
Lemma reset_area_q B NF n M : 0 <= B -> mbd B M -> freset_area NF n (qm M) = qm (reset_area NF n M) /\ mbd B (reset_area NF n M).
Proof.
  intros B0 H. unfold freset_area, reset_area, qm. rewrite firstn_map, skipn_map, map_app, !map_map. unfold mbd in *. rewrite <- (firstn_skipn NF M), Forall_app in H. destruct H as (H1 & H2). split.
  - f_equal. apply map_ext_in. intros v V. apply (proj1 (zfirst_q B n v B0 (proj1 (Forall_forall _ _) H1 v V))).
  - apply Forall_app. split; [|exact H2]. apply Forall_map. apply (Forall_impl _ (fun v V => proj2 (zfirst_q B n v B0 V)) H1).
Qed.
Lemma reset_q B NF n s : 0 <= B -> sbd B s -> freset NF n (q_stat s) = q_stat (reset NF n s) /\ sbd B (reset NF n s).
Proof.
  intros B0 [s1 s2 s3 s4 s5 s6 s7 s8]. unfold freset, reset, q_stat. cbn [f_lolG f_lolT f_mgnG f_mgnT f_plolG f_plolT f_pmgnG f_pmgnT lolG lolT mgnG mgnT plolG plolT pmgnG pmgnT].
  destruct (reset_area_q B NF n _ B0 s1) as (E1 & F1), (reset_area_q B NF n _ B0 s2) as (E2 & F2), (reset_area_q B NF n _ B0 s3) as (E3 & F3), (reset_area_q B NF n _ B0 s4) as (E4 & F4).
  destruct (zfirst_q B NF _ B0 s5) as (E5 & F5), (zfirst_q B NF _ B0 s6) as (E6 & F6), (zfirst_q B NF _ B0 s7) as (E7 & F7), (zfirst_q B NF _ B0 s8) as (E8 & F8).
  rewrite E1, E2, E3, E4, E5, E6, E7, E8. split; [reflexivity|constructor; assumption].
Qed.

Record tbd (B A : Z) (t : tables) : Prop := mkTbd { t1 : bd B (t_LS t); t2 : sbd B (t_h t); t3 : sbd B (t_p t); t4 : cbd A (t_ch t); t5 : cbd A (t_cp t) }.
Lemma volume_nonneg c : 0 <= volume c.
Proof. destruct c as [NST M|NST M|]; cbn [volume]; [pose proof (vol_nonneg M)|pose proof (vol_nonneg M)|reflexivity]; change (zsum _) with (vol M); lia. Qed.
Lemma total_nonneg cs : 0 <= total_volume cs.
Proof. induction cs as [|c cs IH]; [reflexivity|]. change (total_volume (c :: cs)) with (volume c + total_volume cs). pose proof (volume_nonneg c). lia. Qed.
Lemma stats_q NF n W cs : forall B A t, 0 <= B -> 0 <= A -> tbd B A t -> B + total_volume cs <= W -> W <= lim -> A + 2 * year_ends cs * W <= lim ->
  fstats NF n (q_tables t) cs = q_tables (stats NF n t cs).
Proof.
  induction cs as [|c cs IH]; intros B A t B0 A0 [h1 h2 h3 h4 h5] L LW LA; [reflexivity|].
  change (total_volume (c :: cs)) with (volume c + total_volume cs) in L. pose proof (volume_nonneg c). pose proof (total_nonneg cs).
  change (fstats NF n (q_tables t) (c :: cs)) with (fstats NF n (fdo_call NF n (q_tables t) c) cs). change (stats NF n t (c :: cs)) with (stats NF n (do_call NF n t c) cs).
  assert (YN : 0 <= year_ends cs) by apply Nat2Z.is_nonneg.
  destruct c as [NST M|NST M|]; cbn [fdo_call do_call volume] in *.
  - change (zsum (map (fun m => if m <? 0 then 1 - m else 0) M)) with (vol M) in *. change (year_ends (Hourly_loss NST M :: cs)) with (year_ends cs) in LA.
    destruct (hrstat_q B NST M (t_LS t) (t_h t) B0 h1 h2 ltac:(lia)) as (E & F1 & F2). unfold q_tables at 1 2 3 4 5. cbn [ft_LS ft_h ft_p ft_ch ft_cp]. rewrite E. cbn [fst snd].
    refine (IH (B + (1 + vol M)) A (mkTables (fst (hrstat NST (map qz M) (t_LS t) (t_h t))) (snd (hrstat NST (map qz M) (t_LS t) (t_h t))) (t_p t) (t_ch t) (t_cp t)) _ A0 _ _ LW LA); [lia| |lia].
    constructor; try assumption. apply (sbd_le B); [lia|assumption].
  - change (zsum (map (fun m => if m <? 0 then 1 - m else 0) M)) with (vol M) in *. change (year_ends (Peak_loss NST M :: cs)) with (year_ends cs) in LA.
    destruct (pkstat_q B NST M (t_p t) B0 h3 ltac:(lia)) as (E & F2). unfold q_tables at 1 2 3 4 5. cbn [ft_LS ft_h ft_p ft_ch ft_cp]. rewrite E.
    refine (IH (B + (1 + vol M)) A (mkTables (t_LS t) (t_h t) (pkstat NST (map qz M) (t_p t)) (t_ch t) (t_cp t)) _ A0 _ _ LW LA); [lia| |lia].
    constructor; try assumption; [apply (bd_le B)|apply (sbd_le B)]; first [lia|assumption].
  - assert (YE : year_ends (Year_end :: cs) = 1 + year_ends cs) by (unfold year_ends; cbn [filter length]; lia). rewrite YE in LA.
    destruct (reset_q B NF n _ B0 h2) as (E1 & F1), (reset_q B NF n _ B0 h3) as (E2 & F2). assert (LB : A + 2 * B <= lim) by nia.
    destruct (accumulate_q A B NF _ _ A0 B0 LB h2 h4) as (E3 & F3), (accumulate_q A B NF _ _ A0 B0 LB h3 h5) as (E4 & F4).
    unfold q_tables at 1 2 3 4 5 6 7. cbn [ft_LS ft_h ft_p ft_ch ft_cp]. rewrite E1, E2, E3, E4.
    refine (IH B (A + 2 * B) (mkTables (t_LS t) (reset NF n (t_h t)) (reset NF n (t_p t)) (keep_scalars (t_ch t) (accumulate NF (t_h t) (t_ch t))) (keep_scalars (t_cp t) (accumulate NF (t_p t) (t_cp t)))) B0 _ _ _ LW _); [lia| |lia|nia].
    constructor; assumption.
Qed.
Lemma no_stats_bd n : tbd 0 0 (no_stats n).
Proof.
  assert (R : forall k, bd 0 (repeat 0 k)) by (intros k; apply Forall_forall; intros x X; apply repeat_spec in X; lia).
  assert (RR : forall k, mbd 0 (repeat (repeat 0 5) k)) by (intros k; apply Forall_forall; intros x X; apply repeat_spec in X; subst x; apply R).
  assert (ST : sbd 0 (first_stat n)) by (constructor; first [apply RR|apply (R 5%nat)]).
  assert (AC : abd 0 (zero_acc n)) by (constructor; apply RR).
  assert (PC : pbd 0 zero_pacc) by (constructor; apply (R 5%nat)).
  constructor; [apply R|exact ST|exact ST|constructor; assumption|constructor; assumption].
Qed.

(** *** runs *)
From Verif Require Import NetModel ControlModel ControlSpec ControlProofs HourModel HourSpec ProgramModel ProgramSpec ProgramProofs YearRun.
Definition tables_of (w : world) : tables := mkTables (LSFLG (w_h w)) (hrs (w_h w)) (pks (w_h w)) (y_ch (w_y w)) (y_cp (w_y w)).
Definition no_year (c : call) : Prop := c <> Year_end.
Lemma record_level_calls NF n cf CLOCK JHOUR NST M s s' ch cp : record_level cf CLOCK JHOUR NST M s = Ok s' ->
  exists cs, Forall no_year cs /\ mkTables (LSFLG s') (hrs s') (pks s') ch cp = stats NF n (mkTables (LSFLG s) (hrs s) (pks s) ch cp) cs.
Proof.
  unfold record_level. destruct (hrstat NST (map qz M) (LSFLG s) (hrs s)) as [LS h] eqn:EH. destruct (pyget _ _) as [p|]; cbn [bind]; [|discriminate]. intros E. injection E as <-. cbn [LSFLG hrs pks].
  destruct (JHOUR =? p).
  - exists [Hourly_loss NST M; Peak_loss NST M]. split; [repeat constructor; discriminate|]. unfold stats. cbn [fold_left do_call t_LS t_h t_p t_ch t_cp]. rewrite EH. reflexivity.
  - exists [Hourly_loss NST M]. split; [repeat constructor; discriminate|]. unfold stats. cbn [fold_left do_call t_LS t_h t_p t_ch t_cp]. rewrite EH. reflexivity.
Qed.
Lemma stats_app NF n t cs ds : stats NF n t (cs ++ ds) = stats NF n (stats NF n t cs) ds.
Proof. apply fold_left_app. Qed.
Lemma levels_calls inv lp NF n cf CLOCK JHOUR d ch cp ls : forall f s s', levels inv lp cf CLOCK JHOUR d ls f s = Ok s' ->
  exists cs, Forall no_year cs /\ mkTables (LSFLG s') (hrs s') (pks s') ch cp = stats NF n (mkTables (LSFLG s) (hrs s) (pks s) ch cp) cs.
Proof.
  induction ls as [|l ls IH]; intros f s s' E; cbn [levels] in E.
  - injection E as <-. exists []. split; [constructor|reflexivity].
  - destruct (findld _ _ _ _) as [C|]; cbn [bind] in E; [|discriminate]. destruct (last_short _) as [IT|]; cbn [bind] in E; [|discriminate].
    destruct (Nat.eqb _ 0); [injection E as <-; exists []; split; [constructor|reflexivity]|]. destruct (Nat.eqb _ _).
    + destruct (record_level _ _ _ _ _ _) as [s1|] eqn:E1; cbn [bind] in E; [|discriminate]. destruct (record_level_calls NF n _ _ _ _ _ _ _ ch cp E1) as (c1 & N1 & R1). destruct (IH _ _ _ E) as (c2 & N2 & R2).
      exists (c1 ++ c2). split; [apply Forall_app; auto|]. rewrite stats_app, <- R1. exact R2.
    + destruct (if Nat.ltb _ _ then _ else _) as [ND|]; cbn [bind] in E; [|discriminate]. destruct (transm _ _ _ _ _ _ _ _ _ _ _ _ _ _) as [[[[em FL] SA] net1]|]; cbn [bind] in E; [|discriminate].
      destruct em; cbn [negb] in E; [|injection E as <-; exists []; split; [constructor|reflexivity]].
      destruct (existsb _ _); cbn [negb] in E; [|injection E as <-; exists []; split; [constructor|reflexivity]].
      destruct (record_level _ _ _ _ _ _) as [s1|] eqn:E1; cbn [bind] in E; [|discriminate]. destruct (record_level_calls NF n _ _ _ _ _ _ _ ch cp E1) as (c1 & N1 & R1). destruct (IH _ _ _ E) as (c2 & N2 & R2).
      exists (c1 ++ c2). split; [apply Forall_app; auto|]. rewrite stats_app. cbn [LSFLG hrs pks] in R1. rewrite <- R1. exact R2.
Qed.
Lemma hour_calls inv lp NF n cf CLOCK PL RT s s' ch cp : hour inv lp cf CLOCK PL RT s = Ok s' ->
  exists cs, Forall no_year cs /\ mkTables (LSFLG s') (hrs s') (pks s') ch cp = stats NF n (mkTables (LSFLG s) (hrs s) (pks s) ch cp) cs.
Proof.
  unfold hour. destruct (load_hour _ _) as [J|]; cbn [bind]; [|discriminate]. destruct (draws_now _ _) as [now|]; cbn [bind]; [|discriminate]. destruct now; [|discriminate].
  destruct (draw _ _ _ _ _) as [d|]; cbn [bind]; [|discriminate]. intros E. exact (levels_calls inv lp NF n _ _ _ _ ch cp _ _ _ _ E).
Qed.
Lemma year_ends_app cs ds : year_ends (cs ++ ds) = year_ends cs + year_ends ds.
Proof. unfold year_ends. rewrite filter_app, app_length. lia. Qed.
Lemma no_year_ends cs : Forall no_year cs -> year_ends cs = 0.
Proof. unfold year_ends. induction 1 as [|c cs N _ IH]; [reflexivity|]. cbn [filter]. destruct c; [exact IH|exact IH|]. exfalso. now apply N. Qed.
Lemma trace_calls inv lp i nu IG IL lg s a b c d :
  trace (program inv lp i) (loop_cfg i) (start (loop_cfg i) nu (first_world i IG IL)) 0 0 0 0 lg s a b c d ->
  exists cs, year_ends cs = Z.of_nat d /\ tables_of (s_w s) = stats (x_NFCST (i_h i)) (i_areas i) (no_stats (i_areas i)) cs.
Proof.
  remember (start (loop_cfg i) nu (first_world i IG IL)) as s00 eqn:ES0. intros T.
  remember 0%nat as z0 eqn:Z0 in T at 1. remember 0%nat as z1 eqn:Z1 in T at 1. remember 0%nat as z2 eqn:Z2 in T at 1. remember 0%nat as z3 eqn:Z3 in T at 1.
  induction T as [|s0 a0 b0 c0 d0 lg s1 a1 b1 c1 d1 e s2 a2 b2 c2 d2 T IH I ES RF LF LC EC FA ST].
  { subst. exists []. split; [reflexivity|]. reflexivity. }
  destruct IH as (cs & YC & TC); auto.
  destruct ST as [s2 S1 S2 S3 S4 S5 S6 | s2 S1 S2 S3 S4 S5 S6 | s2 S1 S2 S3 S4 S5 S6 | s2 S0 S1 S2 S3 S4 S5].
  - cbn [program h_hour] in S1. unfold do_hour in S1. destruct (hour inv lp (i_h i) _ _ _ _) as [h'|] eqn:EH; cbn [bind] in S1; [|discriminate]. injection S1 as EW.
    destruct (hour_calls inv lp (x_NFCST (i_h i)) (i_areas i) _ _ _ _ _ _ (y_ch (w_y (s_w s1))) (y_cp (w_y (s_w s1))) EH) as (ds & ND & RD).
    exists (cs ++ ds). split; [rewrite year_ends_app, (no_year_ends ds ND); lia|]. rewrite stats_app, <- TC. rewrite <- EW. exact RD.
  - exists cs. rewrite S6. auto.
  - exists cs. rewrite S6. auto.
  - cbn [program h_year] in S1. unfold do_year in S1. destruct (year (year_cfg i) _ _ _) as [[y' o]|] eqn:EY; cbn [bind] in S1; [|discriminate]. injection S1 as EW ER.
    exists (cs ++ [Year_end]). split; [rewrite year_ends_app; change (year_ends [Year_end]) with 1; lia|]. rewrite stats_app, <- TC. rewrite <- EW.
    pose proof (year_ok _ _ _ _ _ _ EY) as (h1 & d1' & e1 & RF' & SSQ & XL & _ & _ & K). cbv zeta in K. destruct K as (_ & A1 & A2 & A3 & A4 & _).
    unfold tables_of, stats. cbn [fold_left do_call t_LS t_h t_p t_ch t_cp w_h w_y LSFLG hrs pks]. rewrite A1, A2, A3, A4. reflexivity.
Qed.
