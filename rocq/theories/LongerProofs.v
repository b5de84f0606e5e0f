(** C105: a run with later stopping rules continues the run. *)
From Verif Require Import Base BaseProofs EventModel StatModel YearModel HourModel HourSpec ControlModel ControlSpec ControlProofs SampleModel ProgramModel ProgramSpec YearRun LongerSpec.
Open Scope Z_scope.

Section STEP.
  Context {W : Type}.
  Variables (h h' : handlers W) (cf cf' : rcfg).
  Hypothesis SH : forall c p r w, h_hour h' c p r w = h_hour h c p r w.
  Hypothesis EJ : c_JSTEP cf' = c_JSTEP cf.
  Hypothesis ER : c_RATES cf' = c_RATES cf.
  Hypothesis EP : c_JPLOUT cf' = c_JPLOUT cf.
  Hypothesis LF : (c_FINISH cf <= c_FINISH cf')%Qc.
  Hypothesis YF : forall c w, match h_year h c w with Err e => h_year h' c w = Err e | Ok _ => exists w' f', h_year h' c w = Ok (w', f') end.

  Definition patch (s : lst W) (w : W) (f : Z) : lst W := mkSt (s_cal s) (s_clock s) f (s_jhour s) (s_iq s) (s_plndst s) (s_rating s) w.
  Lemma patch_same s : patch s (s_w s) (s_rflag s) = s.
  Proof. destruct s; reflexivity. Qed.

  Lemma events_longer N s ty : match events h cf N s ty with
    | Err e => events h' cf' N s ty = Err e
    | Ok s1 => exists w' f', events h' cf' N s ty = Ok (patch s1 w' f') /\
        ((w' = s_w s1 /\ f' = s_rflag s1) \/ N = 4 /\ h_year h (s_clock s) (s_w s) = Ok (s_w s1, s_rflag s1) /\ h_year h' (s_clock s) (s_w s) = Ok (w', f'))
    end.
  Proof.
    unfold events. destruct (Z.eqb_spec N 1) as [E1|E1].
    { rewrite EJ. destruct (filem _ _) as [c|e]; cbn [bind]; [|reflexivity]. rewrite SH. destruct (h_hour h _ _ _ _) as [w|e]; cbn [bind]; [|reflexivity].
      exists w, (s_rflag s). auto. }
    destruct (Z.eqb_spec N 2) as [E2|E2].
    { destruct (filem _ _) as [c|e]; cbn [bind]; [|reflexivity]. rewrite EP. destruct (week_status _ _ _) as [p|e]; cbn [bind]; [|reflexivity].
      exists (s_w s), (s_rflag s). auto. }
    destruct (Z.eqb_spec N 3) as [E3|E3].
    { cbv zeta. rewrite ER. destruct (rates_of _ _) as [r|e]; cbn [bind]; [|reflexivity]. destruct (filem _ _) as [c|e]; cbn [bind]; [|reflexivity].
      exists (s_w s), (s_rflag s). auto. }
    destruct (Z.eqb_spec N 4) as [E4|E4]; [|reflexivity].
    destruct (filem _ _) as [c|e]; cbn [bind]; [|reflexivity]. pose proof (YF (s_clock s) (s_w s)) as Y. destruct (h_year h _ _) as [[w1 f1]|e]; cbn [bind].
    - destruct Y as (w' & f' & ->). cbn [bind fst snd s_w s_rflag]. exists w', f'. split; [reflexivity|]. right. auto.
    - rewrite Y. reflexivity.
  Qed.

  Lemma step_longer s : match contrl_step h cf s with
    | Continue e s1 => exists w' f', contrl_step h' cf' s = Continue e (patch s1 w' f') /\
        ((w' = s_w s1 /\ f' = s_rflag s1) \/ qtrunc (snd e) = 4 /\ h_year h (fst e) (s_w s) = Ok (s_w s1, s_rflag s1) /\ h_year h' (fst e) (s_w s) = Ok (w', f'))
    | Failed e => contrl_step h' cf' s = Failed e
    | _ => True
    end.
  Proof.
    unfold contrl_step. destruct (IPOINT (s_cal s) =? -1); [exact I|]. destruct (pyget _ _) as [t|e]; cbn [of_res]; [|reflexivity].
    destruct (qltb t (s_clock s)); [exact I|]. destruct (s_rflag s =? 1); [exact I|].
    destruct (qltb (c_FINISH cf + q1)%Qc t) eqn:Q; [exact I|].
    assert (qltb (c_FINISH cf' + q1)%Qc t = false) as ->. { apply qltb_false in Q. apply qltb_false. qlra. }
    destruct (remove _) as [[[[t' ty] c']|]|e]; cbn [of_res]; [|reflexivity|reflexivity].
    pose proof (events_longer (qtrunc ty) (mkSt c' t' (s_rflag s) (s_jhour s) (s_iq s) (s_plndst s) (s_rating s) (s_w s)) ty) as EV.
    destruct (events h cf _ _ _) as [s1|e]; cbn [of_res].
    - destruct EV as (w' & f' & -> & D). cbn [of_res]. exists w', f'. split; [reflexivity|]. exact D.
    - rewrite EV. reflexivity.
  Qed.
End STEP.

(** ** The year end *)
Lemma tolerance_xx t X : (if qeqb t q0 then (qq 25 1000 * X)%Qc else (t * X)%Qc) = (tolerance t * X)%Qc.
Proof. unfold tolerance. now destruct (qeqb t q0). Qed.
Lemma tolerance_pos t : (q0 <= t)%Qc -> (q0 < tolerance t)%Qc.
Proof.
  intros L. unfold tolerance. destruct (qeqb t q0) eqn:Q; [apply (proj1 (qltb_iff _ _)); vm_compute; reflexivity|].
  destruct (Qc_dec q0 t) as [[K|K]|K]; [exact K|exfalso; qlra|]. subst t. exfalso. assert (X : qeqb q0 q0 = true) by (now apply qeqb_iff). rewrite X in Q. discriminate Q.
Qed.
Lemma sqrt_below_mono V a b X : (q0 < a)%Qc -> (a <= b)%Qc -> sqrt_below V (a * X)%Qc = true -> sqrt_below V (b * X)%Qc = true.
Proof.
  intros A B. unfold sqrt_below. intros H. apply andb_prop in H. destruct H as (H & H3). apply andb_prop in H. destruct H as (H1 & H2).
  rewrite H1. apply (proj1 (qltb_iff _ _)) in H2. apply (proj1 (qltb_iff _ _)) in H3.
  assert (XP : (q0 < X)%Qc). { destruct (Qclt_le_dec q0 X) as [K|K]; [exact K|]. exfalso. qnra. }
  assert (M : (a * X <= b * X)%Qc) by qnra.
  assert (qltb q0 (b * X)%Qc = true) as ->. { apply qltb_iff. qlra. }
  cbn [andb]. apply qltb_iff. unfold qsq in *. revert H2 H3 M. generalize (a * X)%Qc (b * X)%Qc. intros u v H2 H3 M. qnra.
Qed.
Lemma cvchk_longer C F F' y t t' S X Q : (F <= F')%Qc -> (q0 <= t')%Qc -> (tolerance t' <= tolerance t)%Qc ->
  snd (fst (cvchk C F' y t' S X Q)) = snd (fst (cvchk C F y t S X Q)) /\ snd (cvchk C F' y t' S X Q) = snd (cvchk C F y t S X Q) /\
  (fst (fst (cvchk C F y t S X Q)) <> 1 -> fst (fst (cvchk C F' y t' S X Q)) = 0 /\ fst (fst (cvchk C F y t S X Q)) = 0 /\ (C < F)%Qc).
Proof.
  intros LF LT LE. pose proof (tolerance_pos t' LT) as TP. unfold cvchk. rewrite !tolerance_xx.
  assert (FF : qleb F C = false -> qleb F' C = false /\ (C < F)%Qc).
  { intros K. assert (L : (C < F)%Qc) by (destruct (Qclt_le_dec C F) as [L|L]; [exact L|]; apply (proj2 (qleb_iff _ _)) in L; rewrite L in K; discriminate K).
    split; [|exact L]. destruct (qleb F' C) eqn:K2; [|reflexivity]. apply (proj1 (qleb_iff _ _)) in K2. exfalso. qlra. }
  assert (ONE : (if qleb F C then 1 else 0) <> 1 -> (if qleb F' C then 1 else 0) = 0 /\ (if qleb F C then 1 else 0) = 0 /\ (C < F)%Qc).
  { destruct (qleb F C) eqn:K; [intros H; now contradiction H|]. destruct (FF eq_refl) as (-> & L). auto. }
  destruct (y <? 5); cbn [fst snd]; [split; [reflexivity|]; split; [reflexivity|exact ONE]|].
  set (V := ((_ / _ - _) / _)%Qc). set (M := (S / qz y)%Qc). destruct (qeqb M q0); cbn [fst snd]; [split; [reflexivity|]; split; [reflexivity|exact ONE]|].
  destruct (sqrt_below V (tolerance t' * M)%Qc) eqn:S'.
  - rewrite (sqrt_below_mono _ _ _ _ TP LE S'). cbn [fst snd]. split; [reflexivity|]. split; [reflexivity|]. intros H; now contradiction H.
  - destruct (sqrt_below V (tolerance t * M)%Qc); cbn [fst snd]; (split; [reflexivity|]; split; [reflexivity|]); [intros H; now contradiction H|exact ONE].
Qed.

Lemma finish_year y : 0 <= y -> qtrunc (Qcdiv (qz (8760 * y)) (qz 8760)) = y.
Proof.
  intros H. assert (NZ : qz 8760 <> q0) by (intros E; apply qz_inj in E; lia).
  assert (Qcdiv (qz (8760 * y)) (qz 8760) = qz y) as -> by (rewrite qz_mult; field; exact NZ).
  assert ((q0 <= qz y)%Qc) by (apply qz_le; lia). rewrite qtrunc_nonneg by assumption. apply qfloor_unique; [apply Qcle_refl|apply qz_lt; lia].
Qed.

Section YEAR.
  Variables (inv : list (list Qc) -> option (list (list Qc)))
            (lp : list (list Qc) -> list (list Qc) -> list (list Qc) -> res (list Qc * list (list Qc))).
  Variables (i : input) (years : Z) (test : Qc).
  Hypothesis HY : 1 <= i_years i <= years.
  Hypothesis HT : (q0 <= test)%Qc.
  Hypothesis HL : (tolerance test <= tolerance (i_CVTEST i))%Qc.
  Notation i' := (with_stop i years test).

  Lemma finish_le : (i_FINISH i <= i_FINISH i')%Qc.
  Proof. unfold i_FINISH. cbn [with_stop i_years]. apply qz_le. lia. Qed.

  Lemma do_year_longer C w : match do_year i C w with
    | Err e => do_year i' C w = Err e
    | Ok (w1, f) => exists w1' f', do_year i' C w = Ok (w1', f') /\
        w_h w1' = w_h w1 /\ (y_ch (w_y w1') = y_ch (w_y w1) /\ y_cp (w_y w1') = y_cp (w_y w1)) /\
        (y_HL (w_y w1') = y_HL (w_y w1) /\ y_DP (w_y w1') = y_DP (w_y w1) /\ y_EU (w_y w1') = y_EU (w_y w1)) /\
        (y_XA (w_y w1') = y_XA (w_y w1) /\ y_XP (w_y w1') = y_XP (w_y w1)) /\
        (y_SSQ (w_y w1') = y_SSQ (w_y w1) /\ y_XLAST (w_y w1') = y_XLAST (w_y w1)) /\
        (exists os o o', w_out w1 = os ++ [o] /\ w_out w1' = os ++ [o'] /\ o_year o' = o_year o /\ o_h o' = o_h o /\ o_p o' = o_p o) /\
        (f <> 1 -> (C < i_FINISH i)%Qc /\ (forall y, (1 <= y)%nat -> C = on (8760 * Z.of_nat y) -> w1' = w1 /\ f' = f))
    end.
  Proof.
    unfold do_year. cbv zeta. change (i_areas i') with (i_areas i).
    set (st := mkYst _ _ _ _ _ _ _ _ _ _ _ _ _). set (n := i_areas i). unfold year at 1 2 3. 
    change (LSTEP (year_cfg i')) with (LSTEP (year_cfg i)). change (NORR (year_cfg i')) with (NORR (year_cfg i)). change (NFCST (year_cfg i')) with (NFCST (year_cfg i)).
    change (print_fails (year_cfg i')) with (print_fails (year_cfg i)). change (IOJ (year_cfg i')) with (IOJ (year_cfg i)). change (INTV (year_cfg i')) with (INTV (year_cfg i)).
    change (select (year_cfg i')) with (select (year_cfg i)). change (YFINISH (year_cfg i')) with (i_FINISH i'). change (YFINISH (year_cfg i)) with (i_FINISH i).
    change (CVTEST (year_cfg i')) with test. change (CVTEST (year_cfg i)) with (i_CVTEST i).
    destruct (hist_areas _ _ _ _ _) as [[[HL' DP'] EU']|e]; cbn [bind]; [|reflexivity].
    destruct (print_fails _ _); cbn [bind]; [reflexivity|].
    set (SUM := select _ _ _). set (IY := qtrunc _).
    pose proof (cvchk_longer C (i_FINISH i) (i_FINISH i') IY (i_CVTEST i) test SUM (y_XLAST st) (y_SSQ st) finish_le HT HL) as CV.
    destruct (cvchk C (i_FINISH i) IY (i_CVTEST i) SUM (y_XLAST st) (y_SSQ st)) as [[R Q] X]. destruct (cvchk C (i_FINISH i') IY test SUM (y_XLAST st) (y_SSQ st)) as [[R' Q'] X'].
    cbn [fst snd] in CV. destruct CV as (-> & -> & ONE). cbn [bind o_rflag].
    eexists _, _. split; [reflexivity|]. cbn [w_h w_y w_out y_h y_p y_ch y_cp y_HL y_DP y_EU y_XA y_XP y_SSQ y_XLAST].
    split; [reflexivity|]. split; [auto|]. split; [auto|]. split; [auto|]. split; [auto|].
    split. { eexists _, _, _. split; [reflexivity|]. split; [reflexivity|]. auto. }
    intros F. destruct (ONE F) as (-> & -> & LT). split; [exact LT|]. intros y Hy ->.
    assert (LY : Z.of_nat y < i_years i). { unfold i_FINISH, on in LT. apply (proj1 (qz_lt _ _)) in LT. lia. }
    assert (EIY : IY = Z.of_nat y).
    { unfold IY, on. replace (Z.of_nat y) with ((Z.of_nat y - 1) + 1) by lia. apply year_number. lia. }
    assert (E1 : qleb (i_FINISH i') (on (8760 * Z.of_nat y)) = false).
    { apply not_true_iff_false. intros K. apply (proj1 (qleb_iff _ _)) in K. unfold i_FINISH, on in K. cbn [with_stop i_years] in K. apply (proj1 (qz_le _ _)) in K. lia. }
    assert (E2 : qleb (i_FINISH i) (on (8760 * Z.of_nat y)) = false).
    { apply not_true_iff_false. intros K. apply (proj1 (qleb_iff _ _)) in K. unfold i_FINISH, on in K. apply (proj1 (qz_le _ _)) in K. lia. }
    assert (E3 : (IY =? qtrunc (Qcdiv (i_FINISH i') (qz 8760))) = false).
    { unfold i_FINISH. cbn [with_stop i_years]. rewrite finish_year by lia. apply Z.eqb_neq. lia. }
    assert (E4 : (IY =? qtrunc (Qcdiv (i_FINISH i) (qz 8760))) = false).
    { unfold i_FINISH. rewrite finish_year by lia. apply Z.eqb_neq. lia. }
    rewrite E1, E2, E3, E4. split; reflexivity.
  Qed.

  Lemma program_hour C p r w : h_hour (program inv lp i') C p r w = h_hour (program inv lp i) C p r w.
  Proof. reflexivity. Qed.
  Lemma program_year C w : match h_year (program inv lp i) C w with Err e => h_year (program inv lp i') C w = Err e | Ok _ => exists w' f', h_year (program inv lp i') C w = Ok (w', f') end.
  Proof. cbn [program h_year]. pose proof (do_year_longer C w) as D. destruct (do_year i C w) as [[w1 f]|e]; [|exact D]. destruct D as (w1' & f' & D & _). eauto. Qed.

  Notation cf := (loop_cfg i). Notation h := (program inv lp i). Notation cf' := (loop_cfg i'). Notation h' := (program inv lp i').
  Hypothesis SO : step_ok (x_JSTEP (i_h i)).

  Lemma run_longer fuel : forall s a b c d lg o, ControlProofs.inv (x_JSTEP (i_h i)) s a b c d -> s_rflag s <> 1 -> Z.of_nat d < i_years i ->
    contrl fuel h cf s = (lg, o) ->
    exists lg' o', contrl fuel h' cf' s = (lg', o') /\
      ((lg' = lg /\ o' = o) \/
       exists pre y s1 s1' post, lg = pre ++ [(year_event y, s1)] /\ lg' = pre ++ (year_event y, s1') :: post /\ same_results s1 s1' /\ (o = None \/ o = Some Converged)).
  Proof.
    induction fuel as [|fuel IH]; intros s a b c d lg o I RF LD E; cbn [contrl] in E |- *.
    { injection E as <- <-. exists [], None. split; [reflexivity|]. now left. }
    pose proof (step_spec h cf s a b c d SO I) as SP.
    pose proof (step_longer h h' cf cf' program_hour eq_refl eq_refl eq_refl finish_le program_year s) as SL.
    destruct (contrl_step h cf s) as [| | |y|e s1|er]; try contradiction.
    - destruct SP as (_ & _ & FA). exfalso. rewrite Forall_forall in FA.
      specialize (FA (zyear (S d)) ltac:(unfold agenda; cbn; tauto)). rewrite inj_year in FA. cbn [fst year_event] in FA. unfold on in FA. cbn [loop_cfg c_FINISH] in FA. unfold i_FINISH in FA.
      rewrite <- (qz_plus _ 1) in FA. apply (proj1 (qz_lt _ _)) in FA. lia.
    - destruct SP as (_ & _ & _ & EC & _ & a2 & b2 & c2 & d2 & ST & I2). destruct SL as (w' & f' & EQ & D). rewrite EQ.
      destruct (contrl fuel h cf s1) as [lg1 o1] eqn:ER. injection E as <- <-.
      assert (CASE : (w' = s_w s1 /\ f' = s_rflag s1 /\ s_rflag s1 <> 1 /\ Z.of_nat d2 < i_years i) \/ (s_rflag s1 = 1 /\ exists y, e = year_event y /\ same_results s1 (patch s1 w' f'))).
      { destruct ST as [s2 S1 S2 S3 S4 S5 S6 | s2 S1 S2 S3 S4 S5 S6 | s2 S1 S2 S3 S4 S5 S6 | s2 S0 S1 S2 S3 S4 S5].
        - destruct D as [(-> & ->)|(D & _)]; [|exfalso; cbn in D; discriminate D]. left. rewrite S6. auto.
        - destruct D as [(-> & ->)|(D & _)]; [|exfalso; cbn in D; discriminate D]. left. rewrite S5. auto.
        - destruct D as [(-> & ->)|(D & _)]; [|exfalso; cbn in D; discriminate D]. left. rewrite S5. auto.
        - cbn [program h_year] in S1. cbn [fst year_event] in S1. pose proof (do_year_longer (on (8760 * Z.of_nat (S d))) (s_w s)) as Y. rewrite S1 in Y.
          destruct Y as (w1' & f1' & Y0 & Y1 & Y2 & Y3 & Y4 & Y5 & Y6 & Y7).
          destruct D as [(-> & ->)|(_ & _ & D)].
          + destruct (Z.eq_dec (s_rflag s2) 1) as [R1|R1].
            * right. split; [exact R1|]. exists (S d). split; [reflexivity|].
              destruct Y6 as (os & o0 & o' & W1 & _). constructor; cbn [patch s_cal s_clock s_jhour s_iq s_plndst s_rating s_w]; auto 8.
              exists os, o0, o0. auto.
            * left. split; [reflexivity|]. split; [reflexivity|]. split; [exact R1|]. destruct (Y7 R1) as (LT & _). unfold i_FINISH, on in LT. apply (proj1 (qz_lt _ _)) in LT. lia.
          + cbn [program h_year fst year_event] in D. rewrite Y0 in D. injection D as <- <-.
            destruct (Z.eq_dec (s_rflag s2) 1) as [R1|R1].
            * right. split; [exact R1|]. exists (S d). split; [reflexivity|]. constructor; cbn [patch s_cal s_clock s_jhour s_iq s_plndst s_rating s_w]; auto 8.
            * left. destruct (Y7 R1) as (LT & EQ2). destruct (EQ2 (S d) ltac:(lia) eq_refl) as (-> & ->).
              split; [reflexivity|]. split; [reflexivity|]. split; [exact R1|]. unfold i_FINISH, on in LT. apply (proj1 (qz_lt _ _)) in LT. lia. }
      destruct CASE as [(-> & -> & R1 & LD2)|(R1 & y & -> & SM)].
      + rewrite patch_same. destruct (IH s1 a2 b2 c2 d2 lg1 o1 I2 R1 LD2 ER) as (lg' & o' & E' & D'). rewrite E'. exists ((e, s1) :: lg'), o'. split; [reflexivity|].
        destruct D' as [(-> & ->)|(pre & y & s2 & s2' & post & -> & -> & SM & OO)]; [now left|]. right. exists ((e, s1) :: pre), y, s2, s2', post. auto.
      + destruct (contrl fuel h' cf' (patch s1 w' f')) as [post o'] eqn:E'. exists ((year_event y, patch s1 w' f') :: post), o'. split; [reflexivity|]. right.
        assert (LE : lg1 = [] /\ (o1 = None \/ o1 = Some Converged)).
        { destruct fuel as [|fuel]; cbn [contrl] in ER; [injection ER as <- <-; auto|].
          pose proof (step_spec h cf s1 a2 b2 c2 d2 SO I2) as SP. destruct (contrl_step h cf s1) as [| | |z|e3 s3|er]; try contradiction; try (destruct SP as (K & _); contradiction).
          injection ER as <- <-. auto. }
        destruct LE as (-> & OO). exists [], y, s1, (patch s1 w' f'), post. auto.
    - injection E as <- <-. rewrite SL. exists [], (Some (Failed er)). split; [reflexivity|]. now left.
  Qed.
End YEAR.
