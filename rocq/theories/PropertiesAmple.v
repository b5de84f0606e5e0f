(** Property theorems of C124: with ample limits the linear program is never needed. *)
From Verif Require Import Base BaseProofs Sums LoadModel LoadSpec LoadProofs SampleModel SampleProofs NetModel NetSpec MatProofs NetProofs UpdateProofs TransmProofs StatModel StatSpec StatProofs
  EventModel EventSpec ControlModel ControlSpec ControlProofs RunProofs HourModel HourSpec HourProofs CauseSpec
  YearModel YearSpec YearProofs YearRun ReportModel ReportSpec ProgramModel ProgramSpec ProgramProofs HistorySpec HistoryProofs LevelsProofs
  PropertiesNet PropertiesHour PropertiesYear PropertiesReport PropertiesProgram PropertiesBounds CertainSpec PropertiesCertain PropertiesSingle PropertiesLevels
  PlateSpec PlateProofs PlateTrace PropertiesPlate ShortProofs CutProofs AmpleSpec AmpleProofs.
Open Scope Z_scope.

(** *** runs whose handlers agree at every draw *)
Section Same.
  Context {W : Type}.
  Variables (h h' : handlers W) (cf : rcfg).
  Hypothesis SO : step_ok (c_JSTEP cf).
  Hypothesis HY : forall t w, h_year h t w = h_year h' t w.

  Lemma step_same s a b c d : ControlProofs.inv (c_JSTEP cf) s a b c d ->
    h_hour h (fst (draw_event (c_JSTEP cf) (S a))) (s_plndst s) (s_rating s) (s_w s) = h_hour h' (fst (draw_event (c_JSTEP cf) (S a))) (s_plndst s) (s_rating s) (s_w s) ->
    contrl_step h cf s = contrl_step h' cf s.
  Proof using SO HY.
    intros I HH. set (hd := mkHandlers W (fun _ _ _ w => Ok w) (h_year h)). pose proof (step_spec hd cf s a b c d SO I) as SP.
    unfold contrl_step in *. destruct (IPOINT (s_cal s) =? -1); [reflexivity|]. destruct (pyget _ _) as [t|]; cbn [of_res] in *; [|reflexivity].
    destruct (qltb t (s_clock s)); [reflexivity|]. destruct (s_rflag s =? 1); [reflexivity|]. destruct (qltb _ t); [reflexivity|].
    destruct (remove (s_cal s)) as [r|]; cbn [of_res] in *; [|reflexivity]. destruct r as [[[t' ty] c']|]; [|reflexivity].
    unfold events in *. cbn [s_clock s_cal s_plndst s_rating s_w s_rflag s_iq s_jhour] in *.
    destruct (qtrunc ty =? 1) eqn:E1.
    - destruct (filem _ _) as [c1|]; cbn [bind of_res] in *; [|reflexivity]. cbn [hd h_hour bind of_res] in SP.
      destruct SP as (_ & _ & _ & _ & _ & a2 & b2 & c2 & d2 & ST & _).
      assert (ET : t' = fst (draw_event (c_JSTEP cf) (S a))).
      { inversion ST as [s' A1 A2 A3 A4 A5 A6 EV|s' A1 A2 A3 A4 A5 A6 EV|s' A1 A2 A3 A4 A5 A6 EV|s' A0 A1 A2 A3 A4 A5 EV]; [reflexivity| | |]; exfalso;
          match goal with K : _ = ty |- _ => rewrite <- K in E1; vm_compute in E1; discriminate end. }
      rewrite ET, HH. reflexivity.
    - destruct (qtrunc ty =? 2); [reflexivity|]. destruct (qtrunc ty =? 3); [reflexivity|]. destruct (qtrunc ty =? 4); [|reflexivity].
      destruct (filem _ _) as [c1|]; cbn [bind of_res]; [|reflexivity]. rewrite HY. reflexivity.
  Qed.

  Lemma contrl_same s0 : (forall lg s a b c d, trace h cf s0 0 0 0 0 lg s a b c d -> ControlProofs.inv (c_JSTEP cf) s a b c d ->
      h_hour h (fst (draw_event (c_JSTEP cf) (S a))) (s_plndst s) (s_rating s) (s_w s) = h_hour h' (fst (draw_event (c_JSTEP cf) (S a))) (s_plndst s) (s_rating s) (s_w s)) ->
    forall fuel lg s a b c d, trace h cf s0 0 0 0 0 lg s a b c d -> ControlProofs.inv (c_JSTEP cf) s a b c d -> contrl fuel h cf s = contrl fuel h' cf s.
  Proof using SO HY.
    intros HH. induction fuel as [|fuel IH]; intros lg s a b c d T I; [reflexivity|]. cbn [contrl].
    rewrite <- (step_same s a b c d I (HH _ _ _ _ _ _ T I)). pose proof (step_spec h cf s a b c d SO I) as SP.
    destruct (contrl_step h cf s) as [| | |y|e s1|er] eqn:ES; try reflexivity.
    destruct SP as (RF & LF & LC & EC & FA & a2 & b2 & c2 & d2 & ST & I2).
    rewrite (IH (lg ++ [(e, s1)]) s1 a2 b2 c2 d2); [reflexivity| |exact I2]. eapply tr_snoc; eauto.
  Qed.
End Same.

Section Run.
  Variables (inv : list (list Qc) -> option (list (list Qc))) (er : pyerr).
  Hypothesis IO : inv_ok inv.
  Variables (n nu nl : nat) (i : input).
  Hypothesis IN : input_ok n nu nl i. Hypothesis JA : joined_areas n i. Hypothesis AM : ample n nu nl i.

  Lemma kept_first : kept_net n i (first_net i).
  Proof using JA. split; [exact (ja_num _ _ JA)|]. split; [exact (ja_shape _ _ JA)|]. apply kept_refl. Qed.
  Lemma hour_kept k PL RT s s' : 1 <= k -> hst_ok n nu nl s -> kept_net n i (hnet s) -> length PL = nu -> length RT = nu ->
    hour inv (refuse er) (i_h i) (on k) PL RT s = Ok s' ->
    let AV := snd (gstate (IGSEED s) (x_PROBG (i_h i)) RT (x_DERATE (i_h i)) PL) in
    let LN := snd (lstate (ILSEED s) (x_PROBL (i_h i))) in
    hst_ok n nu nl s' /\ kept_net n i (hnet s') /\
    (forall u, (u < nu)%nat -> nth u (IGSEED s') 0 = (nth u (IGSEED s) 0 * 65539) mod 2 ^ 31) /\
    (forall u, (u < nl)%nat -> nth u (ILSEED s') 0 = (nth u (ILSEED s) 0 * 65539) mod 2 ^ 31) /\
    exists recs, (LSFLG s', hrs s', pks s') = fold_left record_hour (map (fun r => (fst r, map qz (snd r), peak_hour (i_h i) k)) recs) (LSFLG s, hrs s, pks s) /\
      map fst recs = seq 0 (length recs) /\ (length recs <= x_NFCST (i_h i))%nat /\
      Forall (level_record inv (refuse er) n (i_h i) k AV LN) recs /\
      (length recs = x_NFCST (i_h i) \/ level_covered inv (refuse er) n (i_h i) k AV LN (length recs)) /\ True.
  Proof using IN.
    intros Hk HS (AN & S5 & LK) LPL LRT E AV LN.
    destruct (hour_spec n nu nl (i_h i) (in_study _ _ _ _ IN) k Hk inv (refuse er) s PL RT HS LPL LRT s' (refuse_areas er) E) as (H & IG & IL & recs & R1 & R2 & R3 & R4 & R5 & _).
    assert (W : wide (n_BN (hnet s))) by (intros j Hj; rewrite (proj2 S5 j) by (rewrite <- (proj1 S5); exact Hj); lia).
    pose proof (hour_limits _ _ _ _ _ _ _ _ (refuse_limits er) W E) as KL. pose proof KL as ((EL & A) & _).
    split; [exact H|]. split; [|split; [exact IG|split; [exact IL|exists recs; auto 10]]].
    split; [|split].
    - split; [rewrite EL; apply AN|]. intros j Hj. rewrite <- (proj2 AN j Hj). apply (A j). cbn. lia.
    - split; [rewrite EL; apply S5|]. intros j Hj. rewrite (proj1 (A j)). now apply S5.
    - exact (kept_trans _ _ _ LK KL).
  Qed.

  Lemma run_free lp fuel : narp inv lp fuel i = narp inv (refuse er) fuel i.
  Proof using IO IN JA AM.
    unfold narp. destruct (seeder _ _ _) as [[IG IL]|] eqn:SD; cbn [bind]; [|reflexivity]. cbn [fst snd]. f_equal. symmetry.
    assert (UN : i_units i = nu) by (apply (n_units n nu nl i IN)). assert (LI : i_lines i = nl).
    { unfold i_lines. exact (in_lp _ _ _ _ IN). }
    rewrite UN, LI in SD. rewrite UN.
    apply (contrl_same (program inv (refuse er) i) (program inv lp i) (loop_cfg i) (in_step _ _ _ _ IN) ltac:(reflexivity) (start (loop_cfg i) nu (first_world i IG IL))) with (lg := []) (a := 0%nat) (b := 0%nat) (c := 0%nat) (d := 0%nat);
      [|constructor|apply start_inv, (in_step _ _ _ _ IN)].
    intros lg s a b c d T I.
    destruct (generic_trace inv (refuse er) n nu nl i IN (kept_net n i) (fun _ _ _ _ => True) kept_first hour_kept IG IL lg s a b c d SD T) as (R & l & P & KN & _).
    cbn [program h_hour]. unfold do_hour.
    destruct (hour_free n nu nl i IN JA AM inv er IO lp (S a) (s_plndst s) (s_rating s) (w_h (s_w s))) as (HF & _); [lia| | | | | | | |].
    - exact (pi_ok _ _ _ _ _ _ _ _ _ _ _ _ P).
    - exact KN.
    - exact (pi_pl _ _ _ _ _ _ _ _ _ _ _ _ P).
    - exact (pi_rt _ _ _ _ _ _ _ _ _ _ _ _ P).
    - exact (trace_binary _ _ _ _ _ _ _ _ _ _ T).
    - intros u Hu. apply (trace_rating _ _ _ _ _ _ _ _ _ _ T u). cbn [loop_cfg c_RATES]. rewrite (in_rates _ _ _ _ IN). exact Hu.
    - intros v Hv. rewrite Nat.sub_1_r. cbn [Nat.pred]. now apply (pi_il _ _ _ _ _ _ _ _ _ _ _ _ P).
    - change (fst (draw_event (c_JSTEP (loop_cfg i)) (S a))) with (on (x_JSTEP (i_h i) * Z.of_nat (S a))). now rewrite HF.
  Qed.
End Run.

(** No line of a solution of the network carries more than the total sent into it, and no
    area sends or takes more. *)
Theorem C124_flows : forall n NR LP adm inj F, lines_in n LP -> (forall k, (k < length LP)%nat -> (adm k <= q0)%Qc) ->
  dc_solution n NR LP adm inj F ->
  let sent := qs n (fun j => qmax (inj j) q0) in
  (forall k, (k < length LP)%nat -> (- sent <= F k /\ F k <= sent)%Qc) /\
  (forall j, (j < n)%nat -> (- sent <= net_outflow LP F j /\ net_outflow LP F j <= sent)%Qc).
Proof.
  intros n NR LP adm inj F LI AD DC sent. split; [intros k Hk; exact (line_bound n NR LP adm inj F LI AD DC k Hk)|].
  intros j Hj. pose proof DC as (T & _ & _ & NO). rewrite (NO j Hj). exact (area_bound n NR LP adm inj F LI DC j Hj).
Qed.
Print Assumptions C124_flows.

(** One solution of the network with ample limits: it succeeds without the linear program
    (if the network can be inverted at all), so its answer is the same whatever the linear
    program would do. *)
Theorem C124_solved : forall inv n cf IFLAG s LN TR TJ SC CR, inv_ok inv -> base_net n cf -> length (x_BLPA cf) = length (x_LP cf) ->
  areas_numbered n (n_BN s) -> shape n 5 (n_BN s) -> (IFLAG = true -> settled inv (x_LP cf) (x_BLPA cf) (x_NR cf) s) ->
  length LN = length (x_LP cf) -> still_joined n cf LN -> length CR = n ->
  (x_NLS cf = false -> qsum CR <> q0 /\ forall j, (j < n)%nat -> (q0 <= vget CR j)%Qc) ->
  wide_limits n cf (n_BN s) LN (qs n (fun j => Qcplus (qabs (Qcplus (vget TR j) (vget TJ j))) (qabs (Qcminus (vget SC j) (vget CR j))))) ->
  let answer lp := transm inv lp IFLAG s (x_BLPA cf) (x_LP cf) (x_NR cf) (repeat [q1; q1] (length LN)) LN (x_NLS cf) TR TJ SC CR in
  (forall lp lp', answer lp = answer lp') /\
  ((exists b, tm1 inv (n_BN s) (x_LP cf) (map (firstn 3) (x_BLPA cf)) (x_NR cf) = Ok b) -> exists r, forall lp, answer lp = Ok r).
Proof.
  intros inv n cf IFLAG s LN TR TJ SC CR IO BN LB AN S5 SE LL SJ LC SH W answer.
  destruct (transm_free inv KeyError n cf IO BN LB IFLAG s LN TR TJ SC CR AN S5 SE LL SJ LC SH W) as (A & B). fold answer in A. change (transm _ (refuse KeyError) _ _ _ _ _ _ _ _ _ _ _ _) with (answer (refuse KeyError)) in B.
  split; [intros lp lp'; unfold answer; now rewrite (A lp), (A lp')|]. intros HB. destruct (B HB) as (r & Hr). exists r. intros lp. unfold answer in *. now rewrite A.
Qed.
Print Assumptions C124_solved.

(** The whole run: the log of events and states, and how the run ends, are the same
    whatever the linear program would answer. *)
Theorem C124_run : forall inv lp lp' n nu nl i fuel, inv_ok inv -> input_ok n nu nl i -> joined_areas n i -> ample n nu nl i ->
  narp inv lp fuel i = narp inv lp' fuel i.
Proof.
  intros inv lp lp' n nu nl i fuel IO IN JA AM. rewrite (run_free inv KeyError IO n nu nl i IN JA AM lp fuel). symmetry. exact (run_free inv KeyError IO n nu nl i IN JA AM lp' fuel).
Qed.
Print Assumptions C124_run.

(** So with ample limits the program, linear program and all, reports the losses of a
    single area (C123), none of them put down to transmission. *)
Theorem C124_single_area : forall inv lp n nu nl i fuel pre post o, inv_ok inv -> input_ok n nu nl i -> joined_areas n i -> ample n nu nl i -> falling_levels n (i_h i) ->
  narp inv lp fuel i = Ok (pre ++ post, o) -> pre <> [] ->
  exists e s cap years, last pre (e, s) = (e, s) /\ In (e, s) pre /\ drawn_caps nu i pre cap /\
    run_years (year_cfg i) n 0 (start_year n (i_INTV i) (i_ITAB i)) years = Ok (w_y (s_w s), w_out (s_w s)) /\ length years = n_years pre /\
    forall y wn l, (y < n_years pre)%nat -> (l < x_NFCST (i_h i))%nat ->
      let ks := draws_of_year i y in let st pl wt c := part pl wn wt c l (nth y years (first_stat n, first_stat n)) in
      plate_hours_by (Z.of_nat n) n i wn cap l ks <= st Pool LOLE Both <= plate_hours n i wn cap l ks /\
      (plate_energy n i wn cap l ks - qz (Z.of_nat n * Z.of_nat (length (filter (counts i wn) ks))) <= qz (st Pool EUE Both))%Qc /\
      (qz (st Pool EUE Both) <= plate_energy n i wn cap l ks)%Qc /\
      forall pl wt, valid_place n pl -> st pl wt Trans = 0 /\ st pl wt Gen = st pl wt Both.
Proof.
  intros inv lp n nu nl i fuel pre post o IO IN JA AM FL E NE. rewrite (run_free inv KeyError IO n nu nl i IN JA AM lp fuel) in E.
  exact (C123_year inv KeyError n nu nl i fuel pre post o IO IN JA FL E NE).
Qed.
Print Assumptions C124_single_area.

(** *** Witness: the study of C123 with a line of 400 MW (at most 155 MW can be asked; twice
    that fits): the same four draws a year, 5 MW lacking at each, whatever the linear
    program.  With a line of 10 MW and 30 MW lacking behind it the linear program matters. *)
Definition wide_input : input := demo_input_print 110 45 400.
Lemma line_state_range r P : 1 <= line_state r P <= 6.
Proof. unfold line_state. repeat match goal with |- context [if ?b then _ else _] => destruct b end; lia. Qed.
Lemma wide_line c b k LN v : line_states 2 1 (demo_input_print c b 400) k LN -> (v < 1)%nat ->
  mget [two_lines (-1) 400] v (state_base LN v) = qz (-1) /\ mget [two_lines (-1) 400] v (state_base LN v + 1) = qz 400 /\ mget [two_lines (-1) 400] v (state_base LN v + 2) = qz 400.
Proof.
  intros (IL & L & _ & ->) Hv. destruct v; [|lia]. cbn [demo_input_print demo_input i_h x_PROBL]. destruct IL as [|s IL]; [cbn in L; lia|]. cbn [lstate snd].
  set (r := rand_of (next_seed s 65539)). unfold state_base. change (zget [line_state r [q1; q1; q1; q1; q1; q1]] 0) with (line_state r [q1; q1; q1; q1; q1; q1]).
  pose proof (line_state_range r [q1; q1; q1; q1; q1; q1]) as R.
  assert (C : line_state r [q1; q1; q1; q1; q1; q1] = 1 \/ line_state r [q1; q1; q1; q1; q1; q1] = 2 \/ line_state r [q1; q1; q1; q1; q1; q1] = 3 \/ line_state r [q1; q1; q1; q1; q1; q1] = 4 \/ line_state r [q1; q1; q1; q1; q1; q1] = 5 \/ line_state r [q1; q1; q1; q1; q1; q1] = 6) by lia.
  destruct C as [-> | [-> | [-> | [-> | [-> | ->]]]]]; repeat split; reflexivity.
Qed.
Lemma qabs_le x b : (- b <= x)%Qc -> (x <= b)%Qc -> (qabs x <= b)%Qc.
Proof. intros H1 H2. unfold qabs. destruct (qltb x q0) eqn:E; qc_bool; qlra. Qed.
Lemma wide_asked k l AV : (l < 5)%nat -> can_be_available 2 wide_input AV -> (asked_at 2 (i_h wide_input) k l AV <= qz 155)%Qc.
Proof.
  intros Hl (LA & HA). destruct AV as [|a [|b [|c AV]]]; try discriminate LA. clear LA.
  assert (B : forall m x, In x (repeat (qz m) 4) -> (x <= qz m)%Qc) by (intros m x H; apply repeat_spec in H; subst; apply Qcle_refl).
  destruct (HA 0%nat ltac:(lia)) as (A0 & A1). destruct (HA 1%nat ltac:(lia)) as (B0 & B1). unfold vget in A0, A1, B0, B1. cbn [nth wide_input demo_input_print demo_input i_RATES] in A0, A1, B0, B1.
  assert (A2 : (a <= qz 100)%Qc). { destruct A1 as [-> | (x & Hx & L)]; [apply qleb_iff; vm_compute; reflexivity|exact (Qcle_trans _ _ _ L (B _ _ Hx))]. }
  assert (B2 : (b <= qz 50)%Qc). { destruct B1 as [-> | (x & Hx & L)]; [apply qleb_iff; vm_compute; reflexivity|exact (Qcle_trans _ _ _ L (B _ _ Hx))]. }
  clear A1 B1 HA B. unfold asked_at.
  assert (E : forall j, (j < 2)%nat -> net_export 2 (x_JENT (i_h wide_input)) (x_INTCH (i_h wide_input)) j (day_of_year k) = q0).
  { intros j Hj. unfold net_export. rewrite (qs_zero 2 (fun k0 => amount _ _ j k0 _)), (qs_zero 2 (fun k0 => amount _ _ k0 j _)); [qring| |]; intros j2 Hj2; destruct j as [|[|j]], j2 as [|[|j2]]; try lia; reflexivity. }
  rewrite (qs_ext 2 _ (fun j => qabs (match j with O => a | _ => b end - match j with O => qz 110 | _ => qz 45 end))).
  2:{ intros j Hj. rewrite E, (even_demand (i_h wide_input) 110 45 k l j) by (exact Hj || reflexivity || exact Hl).
      assert (LO : located (i_h wide_input) [a; b] j = match j with O => a | _ => b end).
      { unfold located. destruct j as [|[|j]]; [| |lia]; unfold qs, qsum; cbn [length seq map fold_right]; cbn; qring. }
      assert (OW : owned_cap (i_h wide_input) [a; b] j = match j with O => a | _ => b end).
      { unfold owned_cap. destruct j as [|[|j]]; [| |lia]; unfold qs, qsum; cbn [length seq map fold_right]; cbn; qring. }
      rewrite LO, OW. destruct j as [|[|j]]; [| |lia].
      - replace (q0 + (a - a))%Qc with q0 by qring. replace (qabs q0) with q0 by reflexivity. qring.
      - replace (q0 + (b - b))%Qc with q0 by qring. replace (qabs q0) with q0 by reflexivity. qring. }
  unfold qs, qsum. cbn [seq map fold_right].
  assert (N110 : qz 110 = (qz 100 + qz 10)%Qc) by (rewrite <- qz_plus; reflexivity). assert (N45 : (q0 <= qz 45 /\ qz 5 <= qz 45 /\ q0 <= qz 10)%Qc) by (repeat split; apply qleb_iff; vm_compute; reflexivity).
  assert (N50 : qz 50 = (qz 45 + qz 5)%Qc) by (rewrite <- qz_plus; reflexivity). assert (N155 : qz 155 = (qz 110 + qz 45)%Qc) by (rewrite <- qz_plus; reflexivity).
  assert (H1 : (qabs (a - qz 110) <= qz 110)%Qc) by (apply qabs_le; qlra). assert (H2 : (qabs (b - qz 45) <= qz 45)%Qc) by (apply qabs_le; qlra). qlra.
Qed.
Lemma wide_joined : joined_areas 2 wide_input /\ falling_levels 2 (i_h wide_input).
Proof.
  destruct even_joined as ([J1 J2 J3 J4 J5] & F & _). split; [|exact F]. constructor; [exact J1|exact J2| |reflexivity|exact J5].
  destruct J3 as [B1 B2 B3 B4 B5]. constructor; [exact B1|exact B2|exact B3| |].
  - intros [|k] H; [apply qltb_iff; vm_compute; reflexivity|cbn in H; lia].
  - exact B5.
Qed.
Lemma wide_ample : ample 2 2 1 wide_input.
Proof.
  constructor.
  - intros [|[|u]] Hu; [| |lia]; split; apply qleb_iff; vm_compute; reflexivity.
  - intros u x H. assert (C : x = qz 100 \/ x = qz 50).
    { destruct u as [|[|u]]; cbn [wide_input demo_input_print demo_input i_RATES nth] in H; [left|right|destruct u; destruct H]; exact (repeat_spec _ _ _ H). }
    destruct C as [-> | ->]; apply qleb_iff; vm_compute; reflexivity.
  - intros k LN Hk HL. assert (V : forall v, (v < 1)%nat -> state_adm (x_BLPA (i_h wide_input)) LN v = qz (-1)) by (intros v Hv; exact (proj1 (wide_line 110 45 k LN v HL Hv))).
    constructor.
    + intros v Hv. cbn in Hv. rewrite V by exact Hv. apply qleb_iff; vm_compute; reflexivity.
    + intros v Hv _ Z0. cbn in Hv. rewrite V in Z0 by exact Hv. discriminate Z0.
    + cbn [wide_input demo_input_print demo_input i_h x_LP x_NR length seq map combine] in *. rewrite V by lia.
      destruct (ja_net _ _ (proj1 wide_joined)) as [_ _ _ _ C]. exact C.
  - intros k l AV LN Hk Hl CA HL. pose proof (wide_asked (x_JSTEP (i_h wide_input) * Z.of_nat k) l AV Hl CA) as W.
    set (w := asked_at 2 (i_h wide_input) _ l AV) in *.
    assert (N : qz 400 = (qz 155 + qz 155 + qz 90)%Qc) by (rewrite <- !qz_plus; reflexivity). assert (M : qz 1000 = (qz 155 + qz 155 + qz 690)%Qc) by (rewrite <- !qz_plus; reflexivity).
    assert (P : (q0 <= qz 90 /\ q0 <= qz 690)%Qc) by (split; apply qleb_iff; vm_compute; reflexivity).
    split.
    + intros v Hv. cbn in Hv. destruct (wide_line 110 45 k LN v HL Hv) as (_ & E1 & E2).
      change (x_BLPA (i_h wide_input)) with [two_lines (-1) 400]. rewrite E1, E2, N. split; qlra.
    + intros [|[|j]] Hj; [| |lia]; change (mget (i_BN wide_input) _ _) with (qz 1000); rewrite M; split; qlra.
Qed.
Example C124_witness : inv_ok (checked_inv [[qz (-1)]]) /\ input_ok 2 2 1 wide_input /\ joined_areas 2 wide_input /\ ample 2 2 1 wide_input /\ falling_levels 2 (i_h wide_input) /\
  run_shown (narp (checked_inv [[qz (-1)]]) still_lp 200 wide_input) = Some (8%nat, 2%nat, Ok true, [(1, false); (2, true)]) /\
  (* not ample: the linear program decides *)
  run_shown (narp (checked_inv [[qz (-1)]]) (refuse KeyError) 200 (demo_input_print 20 80 10)) = Some (0%nat, 0%nat, Err KeyError, []) /\
  run_shown (narp (checked_inv [[qz (-1)]]) still_lp 200 (demo_input_print 20 80 10)) = Some (4%nat, 0%nat, Err UnboundLocalError, []).
Proof.
  split; [apply checked_inv_ok|]. split; [destruct (demo_input_ok_any 110 45); constructor; auto; destruct in_study; constructor; auto|].
  split; [apply wide_joined|]. split; [exact wide_ample|]. split; [apply wide_joined|]. vm_compute. repeat split; reflexivity.
Qed.
