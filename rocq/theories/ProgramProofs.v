(** Invariants of whole runs of the program. *)
From Coq Require Import Permutation.
From Verif Require Import Base BaseProofs Sums LoadModel LoadSpec LoadProofs SampleModel SampleProofs NetModel StatModel StatSpec StatProofs
  EventModel EventSpec ControlModel ControlSpec ControlProofs RunProofs HourModel HourSpec HourProofs
  YearModel YearSpec YearProofs YearRun ReportModel ReportSpec ProgramModel ProgramSpec.
Open Scope Z_scope.

(* ---------- one record ---------- *)
Definition stat_part (pl : place) (wt : what) (c : cause) (k : nat) (s : stat) : Z := part pl Hourly wt c k (s, s).

Lemma zsum_qz M : qsum (map qz M) = qz (zsum M).
Proof. induction M as [|x M IH]; [reflexivity|]. cbn [map]. rewrite qsum_cons, IH, zsum_cons, qz_plus. reflexivity. Qed.
Lemma qltb_qz a b : qltb (qz a) (qz b) = (a <? b).
Proof. destruct (Z.ltb_spec a b); [apply qltb_iff; now apply qz_lt|apply qltb_false; now apply qz_le]. Qed.
Lemma qleb_qz a b : qleb (qz a) (qz b) = (a <=? b).
Proof.
  destruct (Z.leb_spec a b); [apply qleb_iff; now apply qz_le|]. destruct (qleb (qz a) (qz b)) eqn:E; [|reflexivity].
  apply (proj1 (qleb_iff _ _)) in E. apply (proj1 (qz_le _ _)) in E. lia.
Qed.
Lemma lost_qz m : lost (qz m) = unserved m.
Proof.
  unfold lost, unserved. change q0 with (qz 0). rewrite qltb_qz. rewrite <- qz_opp, qtrunc_qz. destruct (Z.ltb_spec m 0); lia.
Qed.
Lemma hit_qz m : hit (qz m) = if m <? 0 then 1 else 0.
Proof. unfold hit. change q0 with (qz 0). now rewrite qltb_qz. Qed.
Lemma nth_map_qz M j : nth j (map qz M) q0 = qz (nth j M 0).
Proof. change q0 with (qz 0). apply map_nth. Qed.

Lemma recorded_part n l M s s' pl wt c k : recorded n 5 l (map qz M) s s' -> length M = n -> valid_place n pl -> (k < 5)%nat ->
  stat_part pl wt c k s' = stat_part pl wt c k s + rec_part pl wt c k (l, M).
Proof.
  intros [_ R1 R2 R3 R4 R5 R6 R7 R8] LM VP Hk.
  assert (CT : causeT (map qz M) = (0 <? zsum M)) by (unfold causeT; rewrite zsum_qz; change q0 with (qz 0); apply qltb_qz).
  assert (PT : qleb q0 (qsum (map qz M)) = (0 <=? zsum M)) by (rewrite zsum_qz; change q0 with (qz 0); apply qleb_qz).
  assert (LS : zsum (map lost (map qz M)) = zsum (map unserved M)) by (rewrite map_map; f_equal; apply map_ext; intros; apply lost_qz).
  rewrite CT in R1, R2, R3, R4, R7, R8. rewrite PT in R5, R6. rewrite LS in R7, R8.
  unfold stat_part, part, rec_part. cbn [fst snd]. rewrite (Nat.eqb_sym l k).
  destruct pl as [j|]; [cbn in VP|]; destruct wt; cbn [rec_amount transmission];
  repeat match goal with
  | |- context [zmget (lolG s') ?a ?b] => rewrite (R1 a b) by auto
  | |- context [zmget (lolT s') ?a ?b] => rewrite (R2 a b) by auto
  | |- context [zmget (mgnG s') ?a ?b] => rewrite (R3 a b) by auto
  | |- context [zmget (mgnT s') ?a ?b] => rewrite (R4 a b) by auto
  | |- context [zget (plolG s') ?b] => rewrite (R5 b) by auto
  | |- context [zget (plolT s') ?b] => rewrite (R6 b) by auto
  | |- context [zget (pmgnG s') ?b] => rewrite (R7 b) by auto
  | |- context [zget (pmgnT s') ?b] => rewrite (R8 b) by auto
  end; rewrite ?nth_map_qz, ?lost_qz, ?hit_qz;
  destruct c; destruct (Nat.eqb k l);
  try destruct (0 <? zsum M); try destruct (0 <=? zsum M); try destruct (nth _ M 0 <? 0); lia.
Qed.

(** all records of one draw *)
Lemma records_part n pk recs : forall LS h p LS' h' p',
  (LS', h', p') = fold_left record_hour (map (fun r : rec => (fst r, map qz (snd r), pk)) recs) (LS, h, p) ->
  Forall (fun r : rec => (fst r < 5)%nat /\ length (snd r) = n) recs -> length LS = n -> stat_shape n 5 h -> stat_shape n 5 p ->
  forall pl wt c k, valid_place n pl -> (k < 5)%nat ->
  stat_part pl wt c k h' = stat_part pl wt c k h + tally pl wt c k recs /\
  stat_part pl wt c k p' = stat_part pl wt c k p + (if pk then tally pl wt c k recs else 0).
Proof.
  induction recs as [|[l M] recs IH]; intros LS h p LS' h' p' E F LL SH SP pl wt c k VP Hk; cbn [map fold_left fst snd] in E.
  - injection E as -> -> ->. unfold tally. cbn [map]. change (zsum []) with 0. destruct pk; lia.
  - pose proof (Forall_inv F) as [H5 HM]; pose proof (Forall_inv_tail F) as F'. cbn [fst snd] in H5, HM.
    pose proof (record_hour_spec n 5 (l, map qz M, pk) LS h p) as RH.
    destruct (record_hour (LS, h, p) (l, map qz M, pk)) as [[LS1 h1] p1].
    destruct RH as (L1 & RA & RP); auto. { split; auto. split; [now rewrite map_length|apply whole_qz]. }
    assert (SP' : stat_shape n 5 p1) by (destruct pk; [exact (re_shape _ _ _ _ _ _ RP)|congruence]).
    destruct (IH LS1 h1 p1 LS' h' p' E F' L1 (re_shape _ _ _ _ _ _ RA) SP' pl wt c k VP Hk) as (A & B).
    rewrite A, B, (recorded_part n l M h h1 pl wt c k RA HM VP Hk).
    unfold tally. cbn [map]. rewrite zsum_cons. split; [lia|].
    destruct pk; [rewrite (recorded_part n l M p p1 pl wt c k RP HM VP Hk)|subst p1]; lia.
Qed.

(* ---------- totals over draws ---------- *)
Lemma tally_app pl wt c k a b : tally pl wt c k (a ++ b) = tally pl wt c k a + tally pl wt c k b.
Proof. unfold tally. now rewrite map_app, zsum_app. Qed.
Lemma flat_map_ext_in {A B} (f g : A -> list B) l : (forall x, In x l -> f x = g x) -> flat_map f l = flat_map g l.
Proof. induction l as [|x l IH]; intros H; [reflexivity|]. cbn. rewrite H by now left. f_equal. apply IH. intros y Hy. apply H. now right. Qed.
Lemma total_ext i pl wn wt c k R R' ks : (forall x, In x ks -> R x = R' x) -> total i pl wn wt c k R ks = total i pl wn wt c k R' ks.
Proof. intros H. unfold total. f_equal. apply flat_map_ext_in. intros x Hx. apply filter_In in Hx. apply H. tauto. Qed.
Lemma total_app i pl wn wt c k R a b : total i pl wn wt c k R (a ++ b) = total i pl wn wt c k R a + total i pl wn wt c k R b.
Proof. unfold total. now rewrite filter_app, flat_map_app, tally_app. Qed.
Lemma total_one i pl wn wt c k R x : total i pl wn wt c k R [x] = if counts i wn x then tally pl wt c k (R x) else 0.
Proof. unfold total. cbn [filter]. destruct (counts i wn x); cbn [flat_map]; [now rewrite app_nil_r|reflexivity]. Qed.
Lemma total_nil i pl wn wt c k R : total i pl wn wt c k R [] = 0.
Proof. reflexivity. Qed.

Lemma peak_hour_spec n nu nl i k : study n nu nl (i_h i) ->
  peak_hour (i_h i) (x_JSTEP (i_h i) * Z.of_nat k) = at_peak i k.
Proof.
  intros ST. unfold peak_hour, at_peak. set (t := x_JSTEP (i_h i) * Z.of_nat k).
  destruct (st_peak _ _ _ _ ST) as (_ & PB). specialize (PB _ (day_of_year_lt t)).
  destruct (Z.eqb_spec (x_JSTEP (i_h i)) 24) as [E|NE]; [reflexivity|]. cbn [orb].
  destruct (Z.eqb_spec (t mod 8760) 0) as [Z0|NZ]; cbn [negb andb]; [rewrite Z0; apply Z.eqb_neq; lia|].
  unfold hour_used. destruct (Z.eqb_spec (x_JSTEP (i_h i)) 24) as [|_]; [contradiction|].
  unfold hour_of_year. rewrite <- wrap_hour. pose proof (Z.mod_pos_bound t 8760 ltac:(lia)).
  rewrite (Z.mod_small (t mod 8760 - 1)) by lia.
  destruct (Z.eqb_spec (t mod 8760 - 1) (zget (x_MXPLHR (i_h i)) (day_of_year t))) as [EQ|NEQ].
  - rewrite EQ. symmetry. apply Nat.eqb_refl.
  - symmetry. apply Nat.eqb_neq. intros EQ. apply NEQ. lia.
Qed.

(* ---------- clearing ---------- *)
Lemma reset_part n NF s pl wt c k : (NF <= 5)%nat -> stat_shape n 5 s -> valid_place n pl -> (k < NF)%nat ->
  stat_part pl wt c k (reset NF n s) = if cleared n NF pl k then 0 else stat_part pl wt c k s.
Proof.
  intros L5 [] VP Hk. unfold stat_part, part, cleared. cbn [fst snd reset lolG lolT mgnG mgnT plolG plolT pmgnG pmgnT].
  destruct pl as [j|]; [cbn in VP; rewrite !(reset_area_get NF n n 5) by (auto; lia); destruct (Nat.ltb j NF && Nat.ltb k n)
    |rewrite !zfirst_get; destruct (Nat.ltb_spec k NF); [|lia]]; destruct wt, c; lia.
Qed.

(* ---------- the invariant ---------- *)
Section Inv.
  Variables (inv : list (list Qc) -> option (list (list Qc)))
            (lp : list (list Qc) -> list (list Qc) -> list (list Qc) -> res (list Qc * list (list Qc))).
  Hypothesis KA : keeps_areas lp.
  Variables (n nu nl : nat) (i : input).
  Hypothesis IN : input_ok n nu nl i.
  Let J := x_JSTEP (i_h i).
  Let NF := x_NFCST (i_h i).

  (** first draw not cleared for an entry, with d year ends done *)
  Definition since (pl : place) (k d : nat) : nat := if cleared n NF pl k then draws_upto i d else 0%nat.

  Record pinv (lg : log world) (s : lst world) (a d : nat) (R : nat -> list rec) (l : list annual) : Prop := mkPinv {
    pi_ok : hst_ok n nu nl (w_h (s_w s));
    pi_ig : forall u, (u < nu)%nat -> nth u (IGSEED (w_h (s_w s))) 0 = unit_seed u a;
    pi_il : forall v, (v < nl)%nat -> nth v (ILSEED (w_h (s_w s))) 0 = line_seed nu v a;
    pi_rt : length (s_rating s) = nu;
    pi_pl : length (s_plndst s) = nu;
    pi_time : J * Z.of_nat a <= 8760 * Z.of_nat (d + 1);
    pi_due : d = 0%nat \/ 8760 * Z.of_nat d < J * Z.of_nat (S a);
    pi_draws : forall k, (1 <= k <= a)%nat -> draw_outcome inv lp n nu nl i lg k (R k);
    pi_cur : forall pl wn wt c k, valid_place n pl -> (k < NF)%nat ->
       part pl wn wt c k (hrs (w_h (s_w s)), pks (w_h (s_w s))) = total i pl wn wt c k R (seq (since pl k d + 1) (a - since pl k d));
    pi_years : run_years (year_cfg i) n 0 (start_year n (i_INTV i) (i_ITAB i)) l = Ok (w_y (s_w s), w_out (s_w s));
    pi_len : length l = d;
    pi_annual : Forall (annual_ok n) l;
    pi_hist : forall y pl wn wt c k, (y < d)%nat -> valid_place n pl -> (k < NF)%nat ->
       part pl wn wt c k (nth y l (first_stat n, first_stat n)) =
       total i pl wn wt c k R (seq (since pl k y + 1) (draws_upto i (S y) - since pl k y)) }.

  Lemma J_pos : 1 <= J <= 2184. Proof. exact (in_step _ _ _ _ IN). Qed.
  Lemma nf5 : (1 <= NF <= 5)%nat. Proof. exact (st_levels _ _ _ _ (in_study _ _ _ _ IN)). Qed.
  Lemma n_areas : i_areas i = n. Proof. exact (proj1 (st_load _ _ _ _ (in_study _ _ _ _ IN))). Qed.
  Lemma n_units : i_units i = nu. Proof. exact (proj1 (st_units _ _ _ _ (in_study _ _ _ _ IN))). Qed.

  Lemma draws_upto_le y y' : (y <= y')%nat -> (draws_upto i y <= draws_upto i y')%nat.
  Proof. intros H. unfold draws_upto. pose proof J_pos. fold J. apply Z2Nat.inj_le; try apply Z.div_pos; try lia. apply Z.div_le_mono; lia. Qed.
  Lemma draws_upto_le_iff y k : (k <= draws_upto i y)%nat <-> J * Z.of_nat k <= 8760 * Z.of_nat y.
  Proof.
    unfold draws_upto. fold J. pose proof J_pos. split; intros H0.
    - pose proof (Z.mul_div_le (8760 * Z.of_nat y) J ltac:(lia)).
      assert (Z.of_nat k <= 8760 * Z.of_nat y / J). { rewrite <- (Z2Nat.id (_ / _)) by (apply Z.div_pos; lia). lia. }
      nia.
    - assert (Z.of_nat k <= 8760 * Z.of_nat y / J) by (apply Z.div_le_lower_bound; lia). lia.
  Qed.
  Lemma draws_upto_full a d : J * Z.of_nat a <= 8760 * Z.of_nat d -> 8760 * Z.of_nat d < J * Z.of_nat (S a) -> draws_upto i d = a.
  Proof. intros A B. apply Nat.le_antisymm; [|now apply draws_upto_le_iff]. apply Nat.nlt_ge. intros C. apply draws_upto_le_iff in C. lia. Qed.
  Lemma since_le pl k d : (since pl k d <= draws_upto i d)%nat.
  Proof. unfold since. destruct (cleared n NF pl k); lia. Qed.
  Lemma since_a pl k a d : (d = 0%nat \/ 8760 * Z.of_nat d < J * Z.of_nat (S a)) -> (since pl k d <= a)%nat.
  Proof.
    intros H. eapply Nat.le_trans; [apply since_le|]. apply Nat.nlt_ge. intros C. apply (proj1 (draws_upto_le_iff d (S a))) in C.
    destruct H as [->|H]; [|lia]. pose proof J_pos. lia.
  Qed.

  Lemma part_stat pl wn wt c k h p : part pl wn wt c k (h, p) = stat_part pl wt c k (match wn with Hourly => h | Peak => p end).
  Proof. destruct wn; reflexivity. Qed.
  Lemma draw_outcome_mono lg e s k recs : draw_outcome inv lp n nu nl i lg k recs -> draw_outcome inv lp n nu nl i (lg ++ [(e, s)]) k recs.
  Proof. intros (s' & AV & LN & H & rest). exists s', AV, LN. split; [apply in_or_app; now left|exact rest]. Qed.

  Lemma seq_snoc st m : seq st (S m) = seq st m ++ [(st + m)%nat].
  Proof. rewrite <- Nat.add_1_r, seq_app. reflexivity. Qed.
  Lemma upto_split st m : (st <= m)%nat -> seq (st + 1) (S m - st) = seq (st + 1) (m - st) ++ [S m].
  Proof. intros H. replace (S m - st)%nat with (S (m - st)) by lia. rewrite seq_snoc. repeat f_equal. lia. Qed.

  Lemma rates_of_length RATES q l : rates_of RATES q = Ok l -> length l = length RATES.
  Proof.
    revert l. induction RATES as [|r RS IH]; intros l; unfold rates_of; cbn [fold_right]; [intros E; injection E as <-; reflexivity|].
    fold (rates_of RS q). destruct (pyget r q); cbn [bind]; [|discriminate]. destruct (rates_of RS q) as [l'|]; cbn [bind]; [|discriminate].
    intros E. injection E as <-. cbn. now rewrite (IH l').
  Qed.

  Lemma program_trace IG IL lg s a b c d :
    seeder JSEED nu nl = Ok (IG, IL) ->
    trace (program inv lp i) (loop_cfg i) (start (loop_cfg i) nu (first_world i IG IL)) 0 0 0 0 lg s a b c d ->
    exists R l, pinv lg s a d R l.
  Proof.
    intros SD. remember (start (loop_cfg i) nu (first_world i IG IL)) as s00 eqn:ES0.
    intros T. pose proof (in_study _ _ _ _ IN) as ST0.
    assert (VARS : forall lg s a b c d, trace (program inv lp i) (loop_cfg i) s00 0 0 0 0 lg s a b c d -> length (s_plndst s) = nu)
      by (intros; subst s00; eapply trace_vars; eassumption).
    remember 0%nat as z0 eqn:Z0 in T at 1. remember 0%nat as z1 eqn:Z1 in T at 1.
    remember 0%nat as z2 eqn:Z2 in T at 1. remember 0%nat as z3 eqn:Z3 in T at 1.
    induction T as [|s0 a0 b0 c0 d0 lg s1 a1 b1 c1 d1 e s2 a2 b2 c2 d2 T IH I ES RF LF LC EC FA ST].
    { subst. exists (fun _ => []), [].
      destruct (streams JSEED nl (x_PROBG (i_h i)) (x_DERATE (i_h i)) [] (x_PROBL (i_h i)) 0) as (IG' & IL' & E & A & B).
      { apply ST0. } { destruct (st_units _ _ _ _ ST0). congruence. } { constructor. }
      fold (i_units i) in E. rewrite n_units, SD in E. injection E as <- <-.
      cbn [gseeds_after lseeds_after] in A, B.
      constructor; cbn [start s_w s_rating s_plndst first_world w_h w_y w_out IGSEED ILSEED hrs pks hnet LSFLG].
      - assert (L12 : length IG = S nu /\ length IL = S nl).
        { unfold seeder in SD. destruct (pyget _ _); cbn [bind] in SD; [|discriminate]. injection SD as <- <-. split; apply seed_chain_length. }
        destruct L12 as (L1 & L2). rewrite n_areas.
        constructor; cbn [IGSEED ILSEED hnet n_BN first_net LSFLG hrs pks]; try lia; try apply first_stat_shape.
        + exact (in_bn _ _ _ _ IN). + apply repeat_length.
      - intros u Hu. rewrite A by (rewrite (proj1 (st_units _ _ _ _ ST0)); exact Hu). reflexivity.
      - intros v Hv. rewrite B by exact Hv. rewrite (proj1 (st_units _ _ _ _ ST0)). reflexivity.
      - apply repeat_length.
      - apply repeat_length.
      - pose proof J_pos. lia.
      - now left.
      - intros k Hk. lia.
      - intros pl wn wt c k VP Hk. replace (since pl k 0) with 0%nat.
        2:{ unfold since. destruct (cleared n NF pl k); [|reflexivity]. symmetry. apply draws_upto_full; pose proof J_pos; lia. }
        cbn [seq Nat.sub]. rewrite total_nil, n_areas. rewrite part_stat. assert (stat_part pl wt c k (first_stat n) = 0) as Z.
        { unfold stat_part, part, first_stat. cbn [fst snd lolG lolT mgnG mgnT plolG plolT pmgnG pmgnT]. destruct pl, wt, c; rewrite ?zmget_repeat0, ?zget_repeat0; reflexivity. }
        destruct wn; exact Z.
      - rewrite n_areas. reflexivity.
      - reflexivity.
      - constructor.
      - intros; lia. }
    destruct IH as (R & l & P); auto.
    assert (PL2 : length (s_plndst s2) = nu).
    { apply (VARS (lg ++ [(e, s2)]) s2 a2 b2 c2 d2). subst. eapply tr_snoc; eauto. }
    assert (AGY : (fst e <= fst (year_event (S d1)))%Qc).
    { rewrite Forall_forall in FA. specialize (FA (2 * (8760 * Z.of_nat (S d1)), 4)).
      assert (In (2 * (8760 * Z.of_nat (S d1)), 4) (agenda (c_JSTEP (loop_cfg i)) a1 b1 c1 d1)) as X by (unfold agenda, zyear; cbn; auto 10).
      specialize (FA X). eapply Qcle_trans; [exact FA|]. unfold inj, year_event. cbn [fst]. unfold on. rewrite qz_hh. apply Qcle_refl. }
    destruct P as [P1 P2 P3 P4 P5 P6 P7 P8 P9 P10 P11 P12 P13].
    destruct ST as [s2 S1 S2 S3 S4 S5 S6 | s2 S1 S2 S3 S4 S5 S6 | s2 S1 S2 S3 S4 S5 S6 | s2 S0 S1 S2 S3 S4 S5].
    - (* draw *)
      cbn [program h_hour] in S1. unfold do_hour in S1.
      destruct (hour inv lp (i_h i) _ _ _ _) as [h'|] eqn:EH; cbn [bind] in S1; [|discriminate]. injection S1 as EW.
      change (fst (draw_event (c_JSTEP (loop_cfg i)) (S a1))) with (on (J * Z.of_nat (S a1))) in EH.
      assert (K1 : 1 <= J * Z.of_nat (S a1)) by (pose proof J_pos; nia).
      destruct (hour_spec n nu nl (i_h i) ST0 _ K1 inv lp (w_h (s_w s1)) (s_plndst s1) (s_rating s1) P1 P5 P4 h' KA EH)
        as (HO & IG1 & IL1 & recs & RE & RF1 & RL & RO & RC & _).
      set (R' := fun k => if Nat.eqb k (S a1) then recs else R k).
      assert (RR : forall k, (k <= a1)%nat -> R' k = R k) by (intros k Hk; unfold R'; destruct (Nat.eqb_spec k (S a1)); [lia|reflexivity]).
      assert (RN : R' (S a1) = recs) by (unfold R'; now rewrite Nat.eqb_refl).
      assert (TE : forall pl wn wt c k st m, (st + m <= a1)%nat -> total i pl wn wt c k R' (seq (st + 1) m) = total i pl wn wt c k R (seq (st + 1) m)).
      { intros. apply total_ext. intros x Hx. apply in_seq in Hx. apply RR. lia. }
      assert (LT1 : J * Z.of_nat (S a1) <= 8760 * Z.of_nat (S d1)).
      { cbn [draw_event year_event fst] in AGY. apply (proj1 (qz_le _ _)) in AGY. exact AGY. }
      exists R', l. constructor; rewrite <- ?EW; cbn [w_h w_y w_out]; auto.
      + intros u Hu. rewrite IG1, P2 by exact Hu. unfold unit_seed. rewrite Zmult_mod_idemp_l. f_equal.
        rewrite Nat2Z.inj_succ, Z.pow_succ_r by lia. ring.
      + intros u Hu. rewrite IL1, P3 by exact Hu. unfold line_seed, unit_seed. rewrite Zmult_mod_idemp_l. f_equal.
        rewrite Nat2Z.inj_succ, Z.pow_succ_r by lia. ring.
      + now rewrite S5.
      + rewrite Nat.add_1_r. exact LT1.
      + destruct P7 as [P7|P7]; [now left|right]. pose proof J_pos. lia.
      + intros k Hk. destruct (Nat.eq_dec k (S a1)) as [->|NE].
        * rewrite RN. exists s2, (snd (gstate (IGSEED (w_h (s_w s1))) (x_PROBG (i_h i)) (s_rating s1) (x_DERATE (i_h i)) (s_plndst s1))),
            (snd (lstate (ILSEED (w_h (s_w s1))) (x_PROBL (i_h i)))).
          split; [apply in_or_app; right; now left|]. split; [|split].
          { exists (IGSEED (w_h (s_w s1))). split; [apply P1|]. split; [intros u Hu; rewrite Nat.sub_1_r; cbn [Nat.pred]; now apply P2|]. rewrite S4, S5. reflexivity. }
          { exists (ILSEED (w_h (s_w s1))). split; [apply P1|]. split; [intros u Hu; rewrite Nat.sub_1_r; cbn [Nat.pred]; now apply P3|]. reflexivity. }
          auto 10.
        * rewrite RR by lia. apply draw_outcome_mono, P8. lia.
      + intros pl wn wt c k VP Hk. pose proof (since_a pl k a1 d1 P7) as SA. rewrite upto_split by exact SA.
        rewrite total_app, total_one, RN, TE by lia. rewrite <- P9 by auto.
        assert (FS : Forall (fun r : rec => (fst r < 5)%nat /\ length (snd r) = n) recs).
        { apply Forall_forall. intros [l0 M] Hr. rewrite Forall_forall in RO. pose proof (RO _ Hr) as (LM & _). cbn. split; [|exact LM].
          assert (In l0 (seq 0 (length recs))) as X by (rewrite <- RF1; apply in_map_iff; exists (l0, M); auto). apply in_seq in X. pose proof nf5. fold NF in RL. lia. }
        destruct P1 as [_ _ _ LFG SH SP].
        pose proof nf5 as N5. destruct (records_part n _ recs _ _ _ _ _ _ RE FS LFG SH SP pl wt c k VP ltac:(lia)) as (A & B).
        rewrite !part_stat. destruct wn; cbn [counts]; [exact A|]. rewrite B. rewrite <- (peak_hour_spec n nu nl i (S a1) ST0). reflexivity.
      + intros y pl wn wt c k Hy VP Hk. rewrite TE; [now apply P13|].
        assert (draws_upto i (S y) <= a1)%nat; [|pose proof (since_le pl k y); pose proof (draws_upto_le y (S y)); lia].
        apply Nat.nlt_ge. intros C. apply (proj1 (draws_upto_le_iff (S y) (S a1))) in C.
        destruct P7 as [->|P7]; [lia|]. lia.
    - (* week *)
      exists R, l. constructor; rewrite ?S6; auto.
      + now rewrite S4.
      + intros k Hk. apply draw_outcome_mono. auto.
    - (* season *)
      exists R, l. constructor; rewrite ?S6; auto.
      + rewrite (rates_of_length _ _ _ S2). exact (in_rates _ _ _ _ IN).
      + intros k Hk. apply draw_outcome_mono. auto.
    - (* year *)
      cbn [program h_year] in S1. unfold do_year in S1. rewrite n_areas in S1.
      set (ann := (hrs (w_h (s_w s1)), pks (w_h (s_w s1)))).
      change (mkYst (hrs (w_h (s_w s1))) _ _ _ _ _ _ _ _ _ _ _ _) with (with_annual (w_y (s_w s1)) ann) in S1.
      change (fst (year_event (S d1))) with (qz (8760 * Z.of_nat (S d1))) in S1.
      destruct (year (year_cfg i) n _ _) as [[y' o]|] eqn:EY; cbn [bind] in S1; [|discriminate]. injection S1 as EW ER.
      assert (AOK : annual_ok n ann) by (split; apply P1).
      assert (DU : draws_upto i (S d1) = a1) by (apply draws_upto_full; [rewrite <- Nat.add_1_r; exact P6|exact S0]).
      pose proof nf5 as N5.
      assert (EH : y_h y' = reset NF n (hrs (w_h (s_w s1))) /\ y_p y' = reset NF n (pks (w_h (s_w s1)))).
      { pose proof (year_ok _ _ _ _ _ _ EY) as (h1 & d1' & e1 & RF' & SSQ & XL & _ & _ & K). cbv zeta in K. destruct K as (_ & A & B & _). auto. }
      destruct EH as (EH & EP).
      exists R, (l ++ [ann]). constructor; rewrite <- ?EW; cbn [w_h w_y w_out IGSEED ILSEED hrs pks]; auto.
      + destruct P1. constructor; cbn [IGSEED ILSEED hnet LSFLG hrs pks]; auto; rewrite ?EH, ?EP; now apply reset_shape.
      + now rewrite S5.
      + cbn [Nat.add]. lia.
      + intros k Hk. apply draw_outcome_mono. auto.
      + intros pl wn wt c k VP Hk. rewrite part_stat, EH, EP.
        transitivity (stat_part pl wt c k (reset NF n match wn with Hourly => hrs (w_h (s_w s1)) | Peak => pks (w_h (s_w s1)) end)); [destruct wn; reflexivity|].
        rewrite reset_part by (try lia; auto; destruct wn; apply P1). unfold since. destruct (cleared n NF pl k) eqn:CL.
        * rewrite DU, Nat.sub_diag. reflexivity.
        * specialize (P9 pl wn wt c k VP Hk). unfold since in P9. rewrite CL in P9. rewrite <- P9, part_stat. reflexivity.
      + apply run_snoc. exists (w_y (s_w s1)), (w_out (s_w s1)), o. split; [exact P10|]. split; [|reflexivity].
        rewrite P11. replace (0 + Z.of_nat d1 + 1) with (Z.of_nat (S d1)) by lia. exact EY.
      + rewrite app_length, P11. cbn [length]. lia.
      + apply Forall_app. split; [exact P12|]. constructor; [exact AOK|constructor].
      + intros y pl wn wt c k Hy VP Hk. destruct (Nat.eq_dec y d1) as [->|NE].
        * rewrite app_nth2, P11, Nat.sub_diag by lia. cbn [nth]. unfold ann. rewrite P9 by auto. rewrite DU. reflexivity.
        * rewrite app_nth1 by lia. apply P13; auto. lia.
  Qed.
End Inv.
