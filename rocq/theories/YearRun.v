(** Runs of year ends: invariants over the whole history. *)
From Verif Require Import Base BaseProofs Sums LoadModel LoadSpec LoadProofs StatModel StatSpec StatProofs YearModel YearSpec YearProofs.
Open Scope Z_scope.

Lemma year_ok cf n clk s s' o : year cf n clk s = Ok (s', o) ->
  exists HL DP EU R SSQ XL,
    hist_areas (LSTEP cf) (hist_vals (NORR cf) (y_h s) (y_p s)) (y_HL s) (y_DP s) (y_EU s) = Ok (HL, DP, EU) /\
    print_fails cf (y_h s) = false /\
    let IYEAR := qtrunc (Qcdiv (Qcplus clk q1) (qz 8760)) in
    let ch := accumulate (NFCST cf) (y_h s) (y_ch s) in
    let cp := accumulate (NFCST cf) (y_p s) (y_cp s) in
    cvchk clk (YFINISH cf) IYEAR (CVTEST cf) (select cf ch cp) (y_XLAST s) (y_SSQ s) = (R, SSQ, XL) /\
    y_h s' = reset (NFCST cf) n (y_h s) /\ y_p s' = reset (NFCST cf) n (y_p s) /\
    y_ch s' = keep_scalars (y_ch s) ch /\ y_cp s' = keep_scalars (y_cp s) cp /\
    y_HL s' = HL /\ y_DP s' = DP /\ y_EU s' = EU /\
    y_XA s' = xnewa_step (NFCST cf) (y_h s) (y_p s) (y_XA s) /\ y_XP s' = xnewp_step (NFCST cf) (y_h s) (y_p s) (y_XP s) /\
    y_SSQ s' = SSQ /\ y_XLAST s' = XL /\
    y_INTVT s' = (if IYEAR =? y_INTVT s then y_INTVT s + INTV cf else y_INTVT s) /\
    o_year o = IYEAR /\ o_h o = ch /\ o_p o = cp /\ o_rflag o = R /\
    o_ckpt o = (IYEAR =? y_INTVT s) || (IYEAR =? qtrunc (Qcdiv (YFINISH cf) (qz 8760))) /\
    o_report o = (R =? 1) || qleb (YFINISH cf) clk /\
    y_ITAB s' = (let i := if IOJ cf =? 0 then y_ITAB s else y_ITAB s + 1 in if o_report o then i + 2 + Z.of_nat n else i).
Proof.
  unfold year. cbv zeta. destruct (hist_areas _ _ _ _ _) as [[[HL DP] EU]|] eqn:E; cbn [bind]; [|discriminate].
  destruct (print_fails cf (y_h s)) eqn:PF; [discriminate|].
  destruct (cvchk _ _ _ _ _ _ _) as [[R SSQ] XL] eqn:CV. intros H. injection H as <- <-.
  exists HL, DP, EU, R, SSQ, XL. cbn. repeat split; auto.
Qed.

Lemma year_number k : 0 <= k -> qtrunc (Qcdiv (Qcplus (qz (8760 * (k + 1))) q1) (qz 8760)) = k + 1.
Proof.
  intros Hk. assert (NZ : qz 8760 <> q0) by (intros E; apply qz_inj in E; lia).
  assert (E : Qcdiv (Qcplus (qz (8760 * (k + 1))) q1) (qz 8760) = Qcplus (qz (k + 1)) (qq 1 8760)).
  { rewrite qz_mult. assert (qq 1 8760 = Qcdiv q1 (qz 8760)) as -> by (apply Qc_is_canon; reflexivity). field. exact NZ. }
  rewrite E. assert (P0 : (q0 <= qq 1 8760)%Qc) by (apply qleb_iff; reflexivity). assert (P1 : (qq 1 8760 < qz 1)%Qc) by (apply qltb_iff; reflexivity).
  assert (Pk : (q0 <= qz (k + 1))%Qc) by (apply qz_le; lia).
  rewrite qtrunc_nonneg by qlra. apply qfloor_unique; [qlra|]. rewrite (qz_plus (k + 1) 1). qlra.
Qed.

(** A run over l ++ [a] is a run over l followed by one more year end. *)
Lemma run_snoc cf n a : forall l k s s' os,
  run_years cf n k s (l ++ [a]) = Ok (s', os) <->
  exists s1 os1 o, run_years cf n k s l = Ok (s1, os1) /\
    year cf n (qz (8760 * (k + Z.of_nat (length l) + 1))) (with_annual s1 a) = Ok (s', o) /\ os = os1 ++ [o].
Proof.
  induction l as [|b l IH]; intros k s s' os.
  - cbn [app run_years length]. replace (k + Z.of_nat 0 + 1) with (k + 1) by lia. split.
    + destruct (year cf n _ _) as [[s2 o]|] eqn:E; cbn [bind fst snd]; [|discriminate]. intros H. injection H as <- <-.
      exists s, [], o. auto.
    + intros (s1 & os1 & o & H & E & ->). injection H as <- <-. rewrite E. reflexivity.
  - cbn [app run_years length]. split.
    + destruct (year cf n (qz (8760 * (k + 1))) (with_annual s b)) as [[s2 o]|] eqn:E; cbn [bind fst snd]; [|discriminate].
      destruct (run_years cf n (k + 1) s2 (l ++ [a])) as [[s3 os3]|] eqn:E2; cbn [bind fst snd]; [|discriminate].
      intros H. injection H as <- <-. apply IH in E2. destruct E2 as (s1 & os1 & o' & R & Y & ->).
      exists s1, (o :: os1), o'. rewrite R. cbn [bind fst snd]. split; [reflexivity|]. split; [|reflexivity].
      rewrite <- Y. do 2 f_equal. lia.
    + intros (s1 & os1 & o & R & Y & ->).
      destruct (year cf n (qz (8760 * (k + 1))) (with_annual s b)) as [[s2 o2]|] eqn:E; cbn [bind fst snd] in *; [|discriminate].
      destruct (run_years cf n (k + 1) s2 l) as [[s3 os3]|] eqn:E2; cbn [bind fst snd] in R; [|discriminate]. injection R as <- <-.
      assert (run_years cf n (k + 1) s2 (l ++ [a]) = Ok (s', os3 ++ [o])) as ->.
      { apply IH. exists s3, os3, o. split; [exact E2|]. split; [|reflexivity]. rewrite <- Y. do 2 f_equal. lia. }
      reflexivity.
Qed.

Lemma ysum_snoc f l a : ysum f (l ++ [a]) = ysum f l + f a.
Proof. unfold ysum. rewrite map_app, zsum_app. cbn. lia. Qed.
Lemma ywsum_snoc f l a : ywsum f (l ++ [a]) = Qcplus (ywsum f l) (f a).
Proof. unfold ywsum. rewrite map_app, qsum_app. cbn [map]. rewrite qsum_cons, qsum_nil. qring. Qed.

Lemma acc_total_snoc n NF g t l a x x' : (NF <= 5)%nat -> acc_total n NF g t l x -> acc_grown n NF (g a) (t a) x x' -> acc_total n NF g t (l ++ [a]) x'.
Proof.
  intros L5 [] []. constructor.
  - intros j k Hj Hk. rewrite ysum_snoc, <- at_G by auto. rewrite ag_G by lia. destruct (Nat.ltb_spec k NF); [reflexivity|lia].
  - intros j k Hj Hk. rewrite ysum_snoc, <- at_T by auto. rewrite ag_T by lia. destruct (Nat.ltb_spec k NF); [reflexivity|lia].
  - intros j k Hj Hk. rewrite ysum_snoc, <- at_S by auto. rewrite ag_S by lia. destruct (Nat.ltb_spec k NF); [reflexivity|lia].
  - intros j Hj. rewrite ywsum_snoc, <- at_wG by auto. auto.
  - intros j Hj. rewrite ywsum_snoc, <- at_wT by auto. auto.
  - intros j Hj. rewrite ywsum_snoc, <- at_wS by auto. auto.
Qed.
Lemma pool_total_snoc NF g t l a x x' : (NF <= 5)%nat -> pool_total NF g t l x -> pool_grown NF (g a) (t a) x x' -> pool_total NF g t (l ++ [a]) x'.
Proof.
  intros L5 [] []. constructor; intros k Hk; rewrite ysum_snoc.
  - rewrite <- pt_G by auto. rewrite pg_G by lia. destruct (Nat.ltb_spec k NF); [reflexivity|lia].
  - rewrite <- pt_T by auto. rewrite pg_T by lia. destruct (Nat.ltb_spec k NF); [reflexivity|lia].
  - rewrite <- pt_S by auto. rewrite pg_S by lia. destruct (Nat.ltb_spec k NF); [reflexivity|lia].
Qed.
Lemma cumul_total_snoc n NF (s : annual -> stat) l a c c' : (NF <= 5)%nat -> cumul_total n NF s l c -> cumul_grown n NF (s a) c c' -> cumul_total n NF s (l ++ [a]) c'.
Proof.
  intros L5 [] []. constructor.
  - apply (acc_total_snoc n NF _ _ l a (c_lol c)); auto.
  - apply (acc_total_snoc n NF _ _ l a (c_mgn c)); auto.
  - apply (pool_total_snoc NF _ _ l a (c_plol c)); auto.
  - apply (pool_total_snoc NF _ _ l a (c_pmgn c)); auto.
Qed.
Lemma keep_total n NF s l old new : cumul_total n NF s l new -> cumul_total n NF s l (keep_scalars old new).
Proof. intros [A B [] []]. constructor; auto; constructor; auto. Qed.
Lemma keep_shape n old new : cumul_shape n new -> cumul_shape n (keep_scalars old new).
Proof. intros [A B [] []]. constructor; auto; constructor; auto. Qed.

(** The pool scalars in the state stay at zero. *)
Definition scalars_zero (c : cumul) : Prop :=
  vG (c_plol c) = q0 /\ vT (c_plol c) = q0 /\ vS (c_plol c) = q0 /\ vG (c_pmgn c) = q0 /\ vT (c_pmgn c) = q0 /\ vS (c_pmgn c) = q0.
Lemma keep_zero old new : scalars_zero old -> scalars_zero (keep_scalars old new).
Proof. unfold scalars_zero. cbn. auto. Qed.

Lemma shape_repeat {A} (x : A) n w : shape n w (repeat (repeat x w) n).
Proof.
  split; [apply repeat_length|]. intros j Hj.
  rewrite (nth_indep _ [] (repeat x w)) by (rewrite repeat_length; lia). rewrite nth_repeat. apply repeat_length.
Qed.
Lemma zero_acc_total n NF g t : acc_total n NF g t [] (zero_acc n).
Proof.
  constructor; cbn [zero_acc aG aT aS wG wT wS]; intros; try (rewrite zmget_repeat0; reflexivity); unfold vget; rewrite vzeros_nth; reflexivity.
Qed.
Lemma zero_pacc_total NF g t : pool_total NF g t [] zero_pacc.
Proof. constructor; cbn [zero_pacc pG pT pS]; intros; rewrite (zget_repeat0 5); reflexivity. Qed.
Lemma zero_cumul_total n NF s : cumul_total n NF s [] (zero_cumul n).
Proof. constructor; cbn; apply zero_acc_total || apply zero_pacc_total. Qed.
Lemma zero_cumul_shape n : cumul_shape n (zero_cumul n).
Proof.
  constructor; cbn [zero_cumul c_lol c_mgn c_plol c_pmgn]; (constructor; cbn [zero_acc zero_pacc aG aT aS wG wT wS pG pT pS]);
    try apply (shape_repeat 0); try apply repeat_length; reflexivity.
Qed.

(** The invariant of a run from the start. *)
Record run_inv (cf : ycfg) (n : nat) (l : list annual) (s : yst) : Prop := mkRunInv {
  ri_sh : cumul_shape n (y_ch s); ri_sp : cumul_shape n (y_cp s);
  ri_h : cumul_total n (NFCST cf) fst l (y_ch s); ri_p : cumul_total n (NFCST cf) snd l (y_cp s);
  ri_zh : scalars_zero (y_ch s); ri_zp : scalars_zero (y_cp s);
  ri_XA : shape n 3 (y_XA s); ri_XP : length (y_XP s) = 3%nat }.

Lemma pool_weights_last n NF NO (f : annual -> stat) a c : levels_ok NF NO -> stat_shape n 5 (f a) -> cumul_shape n c -> scalars_zero c ->
  pool_weights NF f [a] (accumulate NF (f a) c).
Proof.
  intros HL Sa Sc (_ & _ & Z1 & _ & _ & Z2). destruct (accumulate_spec NF NO n (f a) c HL Sa Sc) as (_ & _ & [[_ _ W1] [_ _ W2]]).
  split; unfold ywsum; cbn [map]; rewrite qsum_cons, qsum_nil.
  - rewrite W1, Z1. qring.
  - rewrite W2, Z2. qring.
Qed.

Lemma run_step cf n l a s s' o k : levels_ok (NFCST cf) (NORR cf) -> run_inv cf n l s -> annual_ok n a ->
  year cf n (qz (8760 * (k + 1))) (with_annual s a) = Ok (s', o) ->
  run_inv cf n (l ++ [a]) s' /\
  cumul_total n (NFCST cf) fst (l ++ [a]) (o_h o) /\ cumul_total n (NFCST cf) snd (l ++ [a]) (o_p o) /\
  pool_weights (NFCST cf) fst [a] (o_h o) /\ pool_weights (NFCST cf) snd [a] (o_p o).
Proof.
  intros HL [] [Ah Ap] E. destruct (levels_le _ _ HL) as (L5 & _ & _).
  apply year_ok in E. destruct E as (HL' & DP & EU & R & SSQ & XL & _ & _ & E). cbv zeta in E. cbn [with_annual y_h y_p y_ch y_cp y_XA y_XP] in E.
  destruct E as (_ & _ & _ & Ech & Ecp & _ & _ & _ & EXA & EXP & _ & _ & _ & _ & Eoh & Eop & _).
  destruct (accumulate_spec _ _ n (fst a) (y_ch s) HL Ah ri_sh0) as (H1 & H2 & _).
  destruct (accumulate_spec _ _ n (snd a) (y_cp s) HL Ap ri_sp0) as (P1 & P2 & _).
  pose proof (cumul_total_snoc n _ fst l a _ _ L5 ri_h0 H2) as TH. pose proof (cumul_total_snoc n _ snd l a _ _ L5 ri_p0 P2) as TP.
  split; [|split; [rewrite Eoh; exact TH|split; [rewrite Eop; exact TP|split]]].
  - constructor.
    + rewrite Ech. now apply keep_shape.
    + rewrite Ecp. now apply keep_shape.
    + rewrite Ech. now apply keep_total.
    + rewrite Ecp. now apply keep_total.
    + rewrite Ech. now apply keep_zero.
    + rewrite Ecp. now apply keep_zero.
    + rewrite EXA. apply xnewa_shape; auto.
    + rewrite EXP. destruct Ah, Ap. apply (xnewp_get _ _ (fst a) (snd a) (y_XP s) HL); auto.
  - rewrite Eoh. apply (pool_weights_last n _ _ fst a (y_ch s) HL); auto.
  - rewrite Eop. apply (pool_weights_last n _ _ snd a (y_cp s) HL); auto.
Qed.

Lemma run_inv_start cf n iv it : run_inv cf n [] (start_year n iv it).
Proof.
  constructor; cbn [start_year y_ch y_cp y_XA y_XP].
  - apply zero_cumul_shape.
  - apply zero_cumul_shape.
  - apply zero_cumul_total.
  - apply zero_cumul_total.
  - repeat split.
  - repeat split.
  - apply (shape_repeat q0).
  - reflexivity.
Qed.

Lemma run_invariant cf n iv it : levels_ok (NFCST cf) (NORR cf) -> forall l s os, Forall (annual_ok n) l ->
  run_years cf n 0 (start_year n iv it) l = Ok (s, os) -> run_inv cf n l s.
Proof.
  intros HL. induction l as [|a l IH] using rev_ind; intros s os F E.
  - injection E as <- <-. apply run_inv_start.
  - apply Forall_app in F. destruct F as [Fl Fa]. apply Forall_inv in Fa.
    apply run_snoc in E. destruct E as (s1 & os1 & o & R & Y & _).
    apply (run_step cf n l a s1 s o (0 + Z.of_nat (length l))); auto. apply (IH s1 os1); auto.
Qed.

(* ---- histograms over a run ---- *)
Lemma year_hist cf n clk s s' o : levels_ok (NFCST cf) (NORR cf) -> 0 < LSTEP cf ->
  stat_shape n 5 (y_h s) -> stat_shape n 5 (y_p s) -> stat_nonneg n (y_h s) -> stat_nonneg n (y_p s) ->
  shape n 22 (y_HL s) -> shape n 22 (y_DP s) -> shape n 22 (y_EU s) ->
  year cf n clk s = Ok (s', o) ->
  shape n 22 (y_HL s') /\ shape n 22 (y_DP s') /\ shape n 22 (y_EU s') /\
  let k := NORR cf in
  observed n (y_HL s) (y_HL s') (fun j => hbin (zmget (lolT (y_h s)) j k + zmget (lolG (y_h s)) j k)) /\
  observed n (y_DP s) (y_DP s') (fun j => hbin (zmget (lolT (y_p s)) j k + zmget (lolG (y_p s)) j k)) /\
  observed n (y_EU s) (y_EU s') (fun j => hbin ((zmget (mgnT (y_h s)) j k + zmget (mgnG (y_h s)) j k) / LSTEP cf)).
Proof.
  intros HL PL Sh Sp Nh Np S1 S2 S3 E. destruct (levels_le _ _ HL) as (L5 & LN & _).
  apply year_ok in E. destruct E as (H1 & D1 & E1 & R & SSQ & XL & EH & _ & E). cbv zeta in E.
  destruct E as (_ & _ & _ & _ & _ & <- & <- & <- & _).
  pose proof (hist_vals_length (NORR cf) n _ _ Sh Sp) as LV.
  rewrite (hist_areas_spec (LSTEP cf) PL _ _ _ _ n LV S1 S2 S3) in EH by (apply (hist_vals_ok _ n); auto; lia).
  injection EH as <- <- <-.
  destruct (observed_map2 n (hist_vals (NORR cf) (y_h s) (y_p s)) (y_HL s) (fun v => hbin (fst (fst v))) LV S1 (fun v => hbin_lt _)) as [O1 Q1].
  destruct (observed_map2 n (hist_vals (NORR cf) (y_h s) (y_p s)) (y_DP s) (fun v => hbin (snd (fst v))) LV S2 (fun v => hbin_lt _)) as [O2 Q2].
  destruct (observed_map2 n (hist_vals (NORR cf) (y_h s) (y_p s)) (y_EU s) (fun v => hbin (snd v / LSTEP cf)) LV S3 (fun v => hbin_lt _)) as [O3 Q3].
  split; [exact Q1|]. split; [exact Q2|]. split; [exact Q3|].
  split; [|split]; intros j Hj; [specialize (O1 j Hj); rename O1 into O|specialize (O2 j Hj); rename O2 into O|specialize (O3 j Hj); rename O3 into O];
    cbv beta in O; rewrite (hist_vals_nth _ n) in O by auto; cbn [fst snd] in O; exact O.
Qed.

Record hist_inv (n : nat) (l : list annual) (s : yst) : Prop := mkHistInv {
  hi_HL : shape n 22 (y_HL s); hi_DP : shape n 22 (y_DP s); hi_EU : shape n 22 (y_EU s);
  hi_mass : forall j, (j < n)%nat -> mass (y_HL s) j = Z.of_nat (length l) /\ mass (y_DP s) j = Z.of_nat (length l) /\ mass (y_EU s) j = Z.of_nat (length l);
  hi_pos : forall j i, (j < n)%nat -> (i < 22)%nat -> 0 <= zmget (y_HL s) j i /\ 0 <= zmget (y_DP s) j i /\ 0 <= zmget (y_EU s) j i }.
Lemma zsum_repeat0 k : zsum (repeat 0 k) = 0.
Proof. induction k; [reflexivity|]. cbn [repeat]. rewrite zsum_cons. lia. Qed.
Lemma hist_inv_start n iv it : hist_inv n [] (start_year n iv it).
Proof.
  constructor; cbn [start_year y_HL y_DP y_EU]; try apply (shape_repeat 0).
  - intros j Hj. assert (mass (repeat (repeat 0 22) n) j = 0).
    { unfold mass. rewrite (nth_indep _ [] (repeat 0 22)) by (rewrite repeat_length; lia). rewrite nth_repeat. apply zsum_repeat0. }
    cbn [length]. auto.
  - intros j i Hj Hi. rewrite zmget_repeat0. lia.
Qed.
Lemma observed_pos n H H' b : observed n H H' b -> (forall j i, (j < n)%nat -> (i < 22)%nat -> 0 <= zmget H j i) ->
  forall j i, (j < n)%nat -> (i < 22)%nat -> 0 <= zmget H' j i.
Proof. intros O P j i Hj Hi. destruct (O j Hj) as (_ & E). rewrite E by auto. specialize (P j i Hj Hi). destruct (Nat.eqb i (b j)); lia. Qed.
Lemma hist_invariant cf n iv it : levels_ok (NFCST cf) (NORR cf) -> 0 < LSTEP cf -> forall l s os,
  Forall (annual_ok n) l -> Forall (annual_nonneg n) l ->
  run_years cf n 0 (start_year n iv it) l = Ok (s, os) -> hist_inv n l s.
Proof.
  intros HL PL. induction l as [|a l IH] using rev_ind; intros s os F G E.
  - injection E as <- <-. apply hist_inv_start.
  - apply Forall_app in F. destruct F as [Fl Fa]. apply Forall_inv in Fa. apply Forall_app in G. destruct G as [Gl Ga]. apply Forall_inv in Ga.
    apply run_snoc in E. destruct E as (s1 & os1 & o & R & Y & _). destruct (IH s1 os1 Fl Gl R) as [I1 I2 I3 I4 I5].
    destruct Fa as [Fh Fp]. destruct Ga as [Gh Gp].
    destruct (year_hist cf n _ (with_annual s1 a) s o HL PL Fh Fp Gh Gp I1 I2 I3 Y) as (Q1 & Q2 & Q3 & O1 & O2 & O3).
    cbn [with_annual y_HL y_DP y_EU] in O1, O2, O3. constructor; auto.
    + intros j Hj. rewrite app_length. cbn [length]. destruct (I4 j Hj) as (m1 & m2 & m3).
      rewrite (observed_mass n _ _ _ I1 Q1 O1 j Hj), (observed_mass n _ _ _ I2 Q2 O2 j Hj), (observed_mass n _ _ _ I3 Q3 O3 j Hj). lia.
    + intros j i Hj Hi. split; [|split].
      * apply (observed_pos n _ _ _ O1); auto. intros j' i' a1 a2. apply (I5 j' i' a1 a2).
      * apply (observed_pos n _ _ _ O2); auto. intros j' i' a1 a2. apply (I5 j' i' a1 a2).
      * apply (observed_pos n _ _ _ O3); auto. intros j' i' a1 a2. apply (I5 j' i' a1 a2).
Qed.

(** Year ends do not fail when the histogram step is positive and annual printing off. *)
Lemma year_succeeds cf n clk s : levels_ok (NFCST cf) (NORR cf) -> 0 < LSTEP cf -> print_fails cf (y_h s) = false ->
  stat_shape n 5 (y_h s) -> stat_shape n 5 (y_p s) -> stat_nonneg n (y_h s) -> stat_nonneg n (y_p s) ->
  shape n 22 (y_HL s) -> shape n 22 (y_DP s) -> shape n 22 (y_EU s) ->
  exists s' o, year cf n clk s = Ok (s', o).
Proof.
  intros HL PL PF Sh Sp Nh Np S1 S2 S3. destruct (levels_le _ _ HL) as (L5 & LN & _). unfold year. cbv zeta.
  pose proof (hist_vals_length (NORR cf) n _ _ Sh Sp) as LV.
  rewrite (hist_areas_spec (LSTEP cf) PL _ _ _ _ n LV S1 S2 S3) by (apply (hist_vals_ok _ n); auto; lia).
  cbn [bind]. rewrite PF. destruct (cvchk _ _ _ _ _ _ _) as [[R SSQ] XL]. eauto.
Qed.
Lemma run_succeeds cf n iv it : levels_ok (NFCST cf) (NORR cf) -> 0 < LSTEP cf -> forall l,
  Forall (annual_ok n) l -> Forall (annual_nonneg n) l -> Forall (fun a => print_fails cf (fst a) = false) l ->
  exists s os, run_years cf n 0 (start_year n iv it) l = Ok (s, os).
Proof.
  intros HL PL. induction l as [|a l IH] using rev_ind; intros F G P; [eexists; eexists; reflexivity|].
  apply Forall_app in F. destruct F as [Fl Fa]. apply Forall_inv in Fa. apply Forall_app in G. destruct G as [Gl Ga]. apply Forall_inv in Ga.
  apply Forall_app in P. destruct P as [Pl Pa]. apply Forall_inv in Pa.
  destruct (IH Fl Gl Pl) as (s1 & os1 & R). destruct (hist_invariant cf n iv it HL PL l s1 os1 Fl Gl R) as [I1 I2 I3 _ _].
  destruct Fa as [Fh Fp]. destruct Ga as [Gh Gp].
  destruct (year_succeeds cf n (qz (8760 * (0 + Z.of_nat (length l) + 1))) (with_annual s1 a) HL PL Pa Fh Fp Gh Gp I1 I2 I3) as (s' & o & Y).
  exists s', (os1 ++ [o]). apply run_snoc. exists s1, os1, o. auto.
Qed.

(* ---- convergence test ---- *)
Lemma qsum_sq_dev (xs : list Qc) (m : Qc) :
  qsum (map (fun x => qsq (Qcminus x m)) xs) =
  Qcplus (Qcminus (qsum (map qsq xs)) (Qcmult (qz 2) (Qcmult m (qsum xs)))) (Qcmult (qz (Z.of_nat (length xs))) (qsq m)).
Proof.
  induction xs as [|x xs IH].
  - cbn [map length]. change (qz (Z.of_nat 0)) with q0. rewrite !qsum_nil. unfold qsq. qring.
  - cbn [map length]. rewrite !qsum_cons, IH. rewrite Nat2Z.inj_succ, <- Z.add_1_r, qz_plus. change (qz 2) with (Qcplus q1 q1). change (qz 1) with q1. unfold qsq. qring.
Qed.
Lemma sq_err_alt xs : xs <> [] -> let y := qz (Z.of_nat (length xs)) in
  sq_err xs = Qcdiv (Qcminus (Qcdiv (qsum (map qsq xs)) y) (qsq (Qcdiv (qsum xs) y))) y.
Proof.
  intros NE y. unfold sq_err. rewrite qsum_sq_dev. rewrite qz_mult. fold y. unfold mean. fold y.
  assert (NZ : y <> q0). { unfold y. intros E. apply qz_inj in E. destruct xs; [auto|]. cbn [length] in E. lia. }
  unfold qsq. change (qz 2) with (Qcplus q1 q1). change q1 with 1%Qc. field. exact NZ.
Qed.
Lemma sq_nonneg x : (q0 <= qsq x)%Qc.
Proof. unfold qsq. destruct (Qc_total q0 x); qnra. Qed.
Lemma sq_err_nonneg xs : (q0 <= sq_err xs)%Qc.
Proof.
  unfold sq_err. assert (H : (q0 <= qsum (map (fun x => qsq (Qcminus x (mean xs))) xs))%Qc).
  { apply qsum_nonneg. intros x Hx. apply in_map_iff in Hx. destruct Hx as (y & <- & _). apply sq_nonneg. }
  destruct xs as [|x0 xs]; [apply qleb_iff; reflexivity|]. 
  set (S1 := qsum _) in *. set (d := Z.of_nat (length (x0 :: xs)) * Z.of_nat (length (x0 :: xs))).
  assert (P : (q0 < qz d)%Qc) by (apply qz_lt; unfold d; cbn [length]; nia).
  assert (NZ : qz d <> q0) by (intros E; rewrite E in P; revert P; apply Qclt_not_eq || (intros P; apply (Qclt_not_eq _ _ P); reflexivity)).
  assert (E : Qcmult (Qcdiv S1 (qz d)) (qz d) = S1) by (field; exact NZ).
  apply Qcnot_lt_le. intros L. assert (Qcmult (Qcdiv S1 (qz d)) (qz d) < Qcmult q0 (qz d))%Qc by (apply Qcmult_lt_compat_r; auto).
  rewrite E in H0. assert (Qcmult q0 (qz d) = q0) as Z0 by qring. rewrite Z0 in H0. exact (Qclt_not_le _ _ H0 H).
Qed.

Lemma cvchk_spec clk fin cv xs : xs <> [] -> forall XL SSQ,
  Qcplus SSQ (qsq (Qcminus (qsum xs) XL)) = qsum (map qsq xs) ->
  exists R, cvchk clk fin (Z.of_nat (length xs)) cv (qsum xs) XL SSQ = (R, qsum (map qsq xs), qsum xs) /\
    (R = 0 \/ R = 1) /\ (R = 1 <-> (fin <= clk)%Qc \/ converged cv xs).
Proof.
  intros NE XL SSQ E. unfold cvchk. cbv zeta. rewrite E.
  set (y := Z.of_nat (length xs)) in *.
  assert (FR : (if qleb fin clk then 1 else 0) = 0 \/ (if qleb fin clk then 1 else 0) = 1) by (destruct (qleb fin clk); auto).
  assert (FC : (if qleb fin clk then 1 else 0) = 1 <-> (fin <= clk)%Qc).
  { rewrite <- qleb_iff. destruct (qleb fin clk); split; auto; discriminate. }
  destruct (Z.ltb_spec y 5).
  - exists (if qleb fin clk then 1 else 0). split; [reflexivity|]. split; [exact FR|]. rewrite FC. split; [auto|].
    intros [?|(H5 & _)]; [auto|]. unfold y in *. lia.
  - pose proof (sq_err_alt xs NE) as ALT. cbv zeta in ALT. fold y in ALT.
    assert (MN : Qcdiv (qsum xs) (qz y) = mean xs) by reflexivity. rewrite MN in *.
    assert (TOL : (if qeqb cv q0 then Qcmult (qq 25 1000) (mean xs) else Qcmult cv (mean xs)) = Qcmult (tolerance cv) (mean xs))
      by (unfold tolerance; destruct (qeqb cv q0); reflexivity).
    rewrite TOL, <- ALT. destruct (qeqb (mean xs) q0) eqn:Z0.
    + exists (if qleb fin clk then 1 else 0). split; [reflexivity|]. split; [exact FR|]. rewrite FC. split; [auto|].
      intros [?|(_ & HZ & _)]; [auto|]. apply (proj1 (qeqb_iff _ _)) in Z0. contradiction.
    + apply (proj1 (qeqb_false _ _)) in Z0. destruct (sqrt_below (sq_err xs) (Qcmult (tolerance cv) (mean xs))) eqn:SB.
      * exists 1. split; [reflexivity|]. split; [auto|]. split; [|auto]. intros _. right.
        unfold sqrt_below in SB. apply andb_true_iff in SB. destruct SB as [SB B3]. apply andb_true_iff in SB. destruct SB as [_ B2].
        apply (proj1 (qltb_iff _ _)) in B2, B3. repeat split; auto.
      * exists (if qleb fin clk then 1 else 0). split; [reflexivity|]. split; [exact FR|]. rewrite FC. split; [auto|].
        intros [?|(_ & _ & B2 & B3)]; [auto|]. exfalso.
        assert (sqrt_below (sq_err xs) (Qcmult (tolerance cv) (mean xs)) = true); [|congruence].
        unfold sqrt_below. apply andb_true_iff. split; [apply andb_true_iff; split|].
        -- apply qleb_iff. apply sq_err_nonneg.
        -- apply qltb_iff. exact B2.
        -- apply qltb_iff. exact B3.
Qed.

Lemma qdiv_pos_le V y : (q0 < y)%Qc -> (q0 <= Qcdiv V y <-> q0 <= V)%Qc.
Proof.
  intros P. assert (NZ : y <> q0) by (intros E; rewrite E in P; apply (Qclt_not_eq _ _ P); reflexivity).
  assert (E : Qcmult (Qcdiv V y) y = V) by (field; exact NZ). set (w := Qcdiv V y) in *. rewrite <- E. split; intros H.
  - assert (Qcmult q0 y <= Qcmult w y)%Qc by (apply Qcmult_le_compat_r; auto; apply Qclt_le_weak; auto).
    replace q0 with (Qcmult q0 y) at 1 by qring. exact H0.
  - apply Qcnot_lt_le. intros L. assert (Qcmult w y < Qcmult q0 y)%Qc by (apply Qcmult_lt_compat_r; auto).
    replace (Qcmult q0 y) with q0 in H0 by qring. apply (Qclt_not_le _ _ H0 H).
Qed.
Lemma qdiv_pos_lt V y X : (q0 < y)%Qc -> (Qcdiv V y < X <-> V < Qcmult X y)%Qc.
Proof.
  intros P. assert (NZ : y <> q0) by (intros E; rewrite E in P; apply (Qclt_not_eq _ _ P); reflexivity).
  assert (E : Qcmult (Qcdiv V y) y = V) by (field; exact NZ). set (w := Qcdiv V y) in *. rewrite <- E. split; intros H.
  - apply Qcmult_lt_compat_r; auto.
  - apply Qcnot_le_lt. intros L. assert (Qcmult X y <= Qcmult w y)%Qc by (apply Qcmult_le_compat_r; auto; apply Qclt_le_weak; auto).
    apply (Qclt_not_le _ _ H H0).
Qed.
Lemma cvchk_versions clk fin y cv SUM XL SSQ : cvchk clk fin y cv SUM XL SSQ = cvchk_loop clk fin y cv SUM XL SSQ.
Proof.
  unfold cvchk, cvchk_loop. cbv zeta. destruct (Z.ltb_spec y 5); [reflexivity|].
  assert (P : (q0 < qz y)%Qc) by (apply qz_lt; lia).
  set (SS := Qcplus SSQ _). set (V := Qcminus (Qcdiv SS (qz y)) _). set (XX := if qeqb cv q0 then _ else _).
  assert (sqrt_below (Qcdiv V (qz y)) XX = qleb q0 V && qltb q0 XX && qltb V (Qcmult (qsq XX) (qz y))) as ->; [|reflexivity].
  unfold sqrt_below. assert (qleb q0 (Qcdiv V (qz y)) = qleb q0 V) as ->.
  { pose proof (qdiv_pos_le V (qz y) P) as H'. destruct (qleb q0 V) eqn:A.
    - apply qleb_iff. apply H'. apply qleb_iff. exact A.
    - apply qleb_false. apply Qcnot_le_lt. intros B. apply (proj1 H') in B. apply qleb_iff in B. congruence. }
  assert (qltb (Qcdiv V (qz y)) (qsq XX) = qltb V (Qcmult (qsq XX) (qz y))) as ->; [|reflexivity].
  pose proof (qdiv_pos_lt V (qz y) (qsq XX) P) as H'. destruct (qltb V (Qcmult (qsq XX) (qz y))) eqn:A.
  - apply qltb_iff. apply H'. apply qltb_iff. exact A.
  - apply qltb_false. apply Qcnot_lt_le. intros B. apply (proj1 H') in B. apply qltb_iff in B. congruence.
Qed.

(** The tested statistic. *)
Lemma select_total cf n l h p pl wn wt b : levels_ok (NFCST cf) (NORR cf) -> selected cf n pl wn wt b ->
  cumul_total n (NFCST cf) fst l h -> cumul_total n (NFCST cf) snd l p -> ~ (pl = Pool /\ b = Weighted) ->
  select cf h p = ywsum (annual_value (NFCST cf) (NORR cf) pl wn wt b) l.
Proof.
  intros HL (EW & EN & ES & ET & EP) TH TP NP. destruct (levels_le _ _ HL) as (L5 & LN & _).
  assert (QS : forall f, qz (ysum f l) = ywsum (fun y => qz (f y)) l).
  { intros f. unfold ysum, ywsum. clear. induction l as [|a l IH]; [reflexivity|]. cbn [map]. rewrite zsum_cons, qsum_cons, qz_plus, IH. reflexivity. }
  destruct TH as [HL1 HM HPL HPM], TP as [PL1 PM PPL PPM].
  unfold select. rewrite EW, EN, ES, ET.
  destruct pl as [j|]; [destruct EP as [EJ Hj]; rewrite EJ|]; destruct wn, wt, b; cbn [code_where code_when code_what code_basis Z.eqb Pos.eqb];
    try (exfalso; apply NP; auto; fail);
    first [ rewrite (at_wS _ _ _ _ _ _ HL1) by auto | rewrite (at_wS _ _ _ _ _ _ HM) by auto
          | rewrite (at_wS _ _ _ _ _ _ PL1) by auto | rewrite (at_wS _ _ _ _ _ _ PM) by auto
          | rewrite (at_S _ _ _ _ _ _ HL1) by auto | rewrite (at_S _ _ _ _ _ _ HM) by auto
          | rewrite (at_S _ _ _ _ _ _ PL1) by auto | rewrite (at_S _ _ _ _ _ _ PM) by auto
          | rewrite (pt_S _ _ _ _ _ HPL) by auto | rewrite (pt_S _ _ _ _ _ HPM) by auto
          | rewrite (pt_S _ _ _ _ _ PPL) by auto | rewrite (pt_S _ _ _ _ _ PPM) by auto ];
    try rewrite QS; reflexivity.
Qed.

(* ---- the convergence test over a run ---- *)
Lemma run_convergence cf n iv it pl wn wt b : levels_ok (NFCST cf) (NORR cf) -> selected cf n pl wn wt b -> ~ (pl = Pool /\ b = Weighted) ->
  let x := annual_value (NFCST cf) (NORR cf) pl wn wt b in
  forall l s os, Forall (annual_ok n) l -> run_years cf n 0 (start_year n iv it) l = Ok (s, os) ->
  y_XLAST s = qsum (map x l) /\ y_SSQ s = qsum (map qsq (map x l)) /\
  forall l' a os' o, l = l' ++ [a] -> os = os' ++ [o] ->
    (o_rflag o = 0 \/ o_rflag o = 1) /\
    (o_rflag o = 1 <-> (YFINISH cf <= qz (8760 * Z.of_nat (length l)))%Qc \/ converged (CVTEST cf) (map x l)) /\
    o_year o = Z.of_nat (length l).
Proof.
  intros HL SEL NP x. induction l as [|a l IH] using rev_ind; intros s os F E.
  - injection E as <- <-. cbn [start_year y_XLAST y_SSQ map]. split; [reflexivity|]. split; [reflexivity|].
    intros l' a os' o E1. destruct l'; discriminate.
  - apply Forall_app in F. destruct F as [Fl Fa]. apply Forall_inv in Fa.
    apply run_snoc in E. destruct E as (s1 & os1 & o & R & Y & ->).
    destruct (IH s1 os1 Fl R) as (EX & ES & _). pose proof (run_invariant cf n iv it HL l s1 os1 Fl R) as INV.
    destruct (run_step cf n l a s1 s o (0 + Z.of_nat (length l)) HL INV Fa Y) as (_ & TH & TP & _).
    apply year_ok in Y. destruct Y as (H1 & D1 & E1 & RF & SSQ & XL & _ & _ & Y). cbv zeta in Y. cbn [with_annual y_h y_p y_ch y_cp y_XA y_XP y_SSQ y_XLAST y_INTVT y_ITAB] in Y.
    destruct Y as (CV & _ & _ & _ & _ & _ & _ & _ & _ & _ & ESSQ & EXL & _ & EY & EH & EP & ERF & _ & _).
    rewrite (year_number (0 + Z.of_nat (length l))) in CV, EY by lia.
    rewrite <- EH, <- EP in CV. rewrite (select_total cf n (l ++ [a]) _ _ pl wn wt b HL SEL TH TP NP) in CV.
    set (xs := map x (l ++ [a])) in *. change (ywsum (annual_value (NFCST cf) (NORR cf) pl wn wt b) (l ++ [a])) with (qsum xs) in CV.
    assert (LN : length xs = S (length l)) by (unfold xs; rewrite map_length, app_length; cbn [length]; lia).
    assert (LZ : 0 + Z.of_nat (length l) + 1 = Z.of_nat (length xs)) by lia. rewrite LZ in *.
    assert (NE : xs <> []) by (destruct xs; [discriminate|discriminate]).
    assert (XS : xs = map x l ++ [x a]) by (unfold xs; rewrite map_app; reflexivity).
    destruct (cvchk_spec (qz (8760 * Z.of_nat (length xs))) (YFINISH cf) (CVTEST cf) xs NE (y_XLAST s1) (y_SSQ s1)) as (R0 & CV0 & RR & RI).
    { rewrite EX, ES. rewrite XS. rewrite map_app, !qsum_app. cbn [map]. rewrite !qsum_cons, !qsum_nil. unfold qsq. qring. }
    rewrite CV0 in CV. injection CV as E3 E4 E5. split; [now rewrite EXL, <- E5|]. split; [now rewrite ESSQ, <- E4|].
    intros l' a' os' o' _ EO. apply app_inj_tail in EO. destruct EO as [_ <-].
    rewrite ERF, <- E3. rewrite app_length. cbn [length]. replace (Z.of_nat (length l + 1)) with (Z.of_nat (length xs)) by lia. auto.
Qed.

(* ---- checkpoints ---- *)
Definition next_ckpt (iv INTV y : Z) : Z := if y <? iv then iv else iv + INTV * ((y - iv) / INTV + 1).
Lemma run_checkpoints cf n iv it : 0 < INTV cf -> 0 < iv -> forall l s os,
  run_years cf n 0 (start_year n iv it) l = Ok (s, os) ->
  y_INTVT s = next_ckpt iv (INTV cf) (Z.of_nat (length l)) /\
  forall l' a os' o, l = l' ++ [a] -> os = os' ++ [o] ->
    let y := Z.of_nat (length l) in
    (o_ckpt o = true <-> (iv <= y /\ (y - iv) mod INTV cf = 0) \/ y = qtrunc (Qcdiv (YFINISH cf) (qz 8760))).
Proof.
  intros PI PV. induction l as [|a l IH] using rev_ind; intros s os E.
  - injection E as <- <-. split; [|intros l' a os' o E1; destruct l'; discriminate].
    cbn [start_year y_INTVT length]. unfold next_ckpt. change (Z.of_nat 0) with 0. destruct (Z.ltb_spec 0 iv); lia.
  - apply run_snoc in E. destruct E as (s1 & os1 & o & R & Y & ->). destruct (IH s1 os1 R) as (EI & _).
    apply year_ok in Y. destruct Y as (H1 & D1 & E1 & RF & SSQ & XL & _ & _ & Y). cbv zeta in Y. cbn [with_annual y_h y_p y_ch y_cp y_XA y_XP y_SSQ y_XLAST y_INTVT y_ITAB] in Y.
    destruct Y as (_ & _ & _ & _ & _ & _ & _ & _ & _ & _ & _ & _ & EV & EY & _ & _ & _ & EC & _).
    rewrite (year_number (0 + Z.of_nat (length l))) in EV, EC by lia. rewrite app_length. cbn [length].
    set (y := Z.of_nat (length l)) in *. replace (Z.of_nat (length l + 1)) with (y + 1) by lia. rewrite Z.add_0_l in *.
    set (V := INTV cf) in *.
    assert (KEY : (y + 1 =? y_INTVT s1) = true <-> (iv <= y + 1 /\ (y + 1 - iv) mod V = 0)).
    { rewrite Z.eqb_eq, EI. unfold next_ckpt. destruct (Z.ltb_spec y iv).
      - split.
        + intros ->. replace (iv - iv) with 0 by lia. rewrite Z.mod_0_l by lia. lia.
        + intros (A & B). destruct (Z.eq_dec (y + 1) iv); [auto|lia].
      - pose proof (Z.div_mod (y - iv) V ltac:(lia)) as DM. pose proof (Z.mod_pos_bound (y - iv) V PI) as MB.
        split.
        + intros EQ. split; [lia|]. replace (y + 1 - iv) with (((y - iv) / V + 1) * V) by lia. apply Z_mod_mult.
        + intros (_ & M0). pose proof (Z.div_mod (y + 1 - iv) V ltac:(lia)) as DM2. rewrite M0 in DM2.
          assert ((y + 1 - iv) / V = (y - iv) / V + 1) by nia. lia. }
    assert (KV : y_INTVT s = next_ckpt iv V (y + 1)).
    { rewrite EV. unfold next_ckpt. destruct (y + 1 =? y_INTVT s1) eqn:B.
      - pose proof (proj1 KEY eq_refl) as (A & M0). apply Z.eqb_eq in B. rewrite <- B.
        destruct (Z.ltb_spec (y + 1) iv); [lia|]. pose proof (Z.div_mod (y + 1 - iv) V ltac:(lia)) as DM2. rewrite M0 in DM2. nia.
      - assert (NK : ~ (iv <= y + 1 /\ (y + 1 - iv) mod V = 0)) by (intros K; apply (proj2 KEY) in K; congruence).
        rewrite EI. unfold next_ckpt. destruct (Z.ltb_spec y iv); destruct (Z.ltb_spec (y + 1) iv); try lia.
        + exfalso. apply NK. replace (y + 1 - iv) with 0 by lia. rewrite Z.mod_0_l by lia. lia.
        + pose proof (Z.div_mod (y - iv) V ltac:(lia)) as DM. pose proof (Z.mod_pos_bound (y - iv) V PI) as MB.
          pose proof (Z.div_mod (y + 1 - iv) V ltac:(lia)) as DM2. pose proof (Z.mod_pos_bound (y + 1 - iv) V PI) as MB2.
          assert ((y + 1 - iv) mod V <> 0) by (intros K; apply NK; split; [lia|exact K]).
          assert ((y + 1 - iv) / V = (y - iv) / V) by nia. lia. }
    split; [exact KV|]. intros l' a' os' o' _ EO. apply app_inj_tail in EO. destruct EO as [_ <-].
    cbv zeta. rewrite EC, orb_true_iff, KEY, Z.eqb_eq. reflexivity.
Qed.

(* ---- sums of squares ---- *)
Definition yv (NF : nat) (pl : place) (wn : when) (wt : what) : annual -> Qc := annual_value NF 0 pl wn wt Weighted.
Lemma run_squares cf n iv it : levels_ok (NFCST cf) (NORR cf) -> forall l s os, Forall (annual_ok n) l ->
  run_years cf n 0 (start_year n iv it) l = Ok (s, os) ->
  let q pl wn wt := qsum (map qsq (map (yv (NFCST cf) pl wn wt) l)) in
  (forall j, (j < n)%nat -> mget (y_XA s) j 0 = q (Area j) Hourly LOLE /\ mget (y_XA s) j 1 = q (Area j) Hourly EUE /\ mget (y_XA s) j 2 = q (Area j) Peak LOLE) /\
  vget (y_XP s) 0 = q Pool Hourly LOLE /\ vget (y_XP s) 1 = q Pool Hourly EUE /\ vget (y_XP s) 2 = q Pool Peak LOLE.
Proof.
  intros HL. induction l as [|a l IH] using rev_ind; intros s os F E q.
  - injection E as <- <-. unfold q. cbn [start_year y_XA y_XP map]. rewrite qsum_nil. split; [|repeat split; reflexivity].
    intros j Hj. unfold mget, mzeros. rewrite !(nth_indep _ [] (vzeros 3)) by (rewrite repeat_length; lia). rewrite !nth_repeat. repeat split; reflexivity.
  - apply Forall_app in F. destruct F as [Fl Fa]. apply Forall_inv in Fa.
    apply run_snoc in E. destruct E as (s1 & os1 & o & R & Y & ->). destruct (IH s1 os1 Fl R) as (IA & P0 & P1 & P2).
    pose proof (run_invariant cf n iv it HL l s1 os1 Fl R) as INV. destruct INV as [_ _ _ _ _ _ SX LX].
    apply year_ok in Y. destruct Y as (H1 & D1 & E1 & RF & SSQ & XL & _ & _ & Y). cbv zeta in Y. cbn [with_annual y_h y_p y_ch y_cp y_XA y_XP y_SSQ y_XLAST y_INTVT y_ITAB] in Y.
    destruct Y as (_ & _ & _ & _ & _ & _ & _ & _ & EXA & EXP & _). destruct Fa as [Fh Fp].
    assert (SN : forall pl wn wt, q pl wn wt = Qcplus (qsum (map qsq (map (yv (NFCST cf) pl wn wt) l))) (qsq (yv (NFCST cf) pl wn wt a))).
    { intros. unfold q. rewrite !map_app, qsum_app. cbn [map]. rewrite qsum_cons, qsum_nil. qring. }
    split.
    + intros j Hj. destruct (IA j Hj) as (I0 & I1 & I2). rewrite !SN, <- I0, <- I1, <- I2, EXA.
      destruct (xnewa_get (NFCST cf) (NORR cf) n (fst a) (snd a) (y_XA s1) j HL Fh Fp SX Hj) as (A0 & A1 & A2).
      rewrite A0, A1, A2. repeat split; reflexivity.
    + rewrite !SN, <- P0, <- P1, <- P2, EXP. destruct Fh, Fp.
      destruct (xnewp_get (NFCST cf) (NORR cf) (fst a) (snd a) (y_XP s1) HL (or_intror Logic.I)) as (_ & A0 & A1 & A2); try assumption.
      rewrite A0, A1, A2. repeat split; reflexivity.
Qed.
