(** Property theorems of C123: an uncongested network is a copper plate. *)
From Verif Require Import Base BaseProofs Sums LoadModel LoadSpec LoadProofs SampleModel SampleProofs NetModel NetSpec MatProofs NetProofs StatModel StatSpec StatProofs
  EventModel EventSpec ControlModel ControlSpec ControlProofs RunProofs HourModel HourSpec HourProofs CauseSpec
  YearModel YearSpec YearProofs YearRun ReportModel ReportSpec ProgramModel ProgramSpec ProgramProofs HistorySpec HistoryProofs LevelsProofs
  PropertiesNet PropertiesHour PropertiesYear PropertiesReport PropertiesProgram PropertiesBounds CertainSpec PropertiesCertain PropertiesSingle PropertiesLevels
  PlateSpec PlateProofs PlateTrace.
Open Scope Z_scope.

Lemma finite_choice {A} (d : A) (P : nat -> A -> Prop) m : (forall k, (1 <= k <= m)%nat -> exists x, P k x) -> exists f, forall k, (1 <= k <= m)%nat -> P k (f k).
Proof.
  induction m as [|m IH]; intros H; [exists (fun _ => d); intros; lia|]. destruct IH as (f & Hf); [intros; apply H; lia|].
  destruct (H (S m) ltac:(lia)) as (x & Hx). exists (fun k => if Nat.eqb k (S m) then x else f k).
  intros k Hk. destruct (Nat.eqb_spec k (S m)) as [->|NE]; [exact Hx|]. apply Hf. lia.
Qed.

Section Plate.
  Variables (inv : list (list Qc) -> option (list (list Qc))) (er : pyerr).
  Hypothesis IO : inv_ok inv.
  Variables (n nu nl : nat) (i : input).
  Hypothesis IN : input_ok n nu nl i.
  Hypothesis JA : joined_areas n i.

  Definition numbered5 (N : netst) : Prop := areas_numbered n (n_BN N) /\ shape n 5 (n_BN N).
  Definition plate_draw (k : Z) (AV : list Qc) (LN : list Z) (recs : list rec) : Prop :=
    Forall (fun r => plate_rec n (pool_missing n (i_h i) AV k (fst r)) (snd r)) recs /\
    (length recs = x_NFCST (i_h i) \/ (pool_missing n (i_h i) AV k (length recs) < qz (Z.of_nat n))%Qc).

  Lemma hour_plate k PL RT s s' : 1 <= k -> hst_ok n nu nl s -> numbered5 (hnet s) -> length PL = nu -> length RT = nu ->
    hour inv (refuse er) (i_h i) (on k) PL RT s = Ok s' ->
    let AV := snd (gstate (IGSEED s) (x_PROBG (i_h i)) RT (x_DERATE (i_h i)) PL) in
    let LN := snd (lstate (ILSEED s) (x_PROBL (i_h i))) in
    hst_ok n nu nl s' /\ numbered5 (hnet s') /\
    (forall u, (u < nu)%nat -> nth u (IGSEED s') 0 = (nth u (IGSEED s) 0 * 65539) mod 2 ^ 31) /\
    (forall u, (u < nl)%nat -> nth u (ILSEED s') 0 = (nth u (ILSEED s) 0 * 65539) mod 2 ^ 31) /\
    exists recs, (LSFLG s', hrs s', pks s') = fold_left record_hour (map (fun r => (fst r, map qz (snd r), peak_hour (i_h i) k)) recs) (LSFLG s, hrs s, pks s) /\
      map fst recs = seq 0 (length recs) /\ (length recs <= x_NFCST (i_h i))%nat /\
      Forall (level_record inv (refuse er) n (i_h i) k AV LN) recs /\
      (length recs = x_NFCST (i_h i) \/ level_covered inv (refuse er) n (i_h i) k AV LN (length recs)) /\
      plate_draw k AV LN recs.
  Proof using IO IN JA.
    pose proof (in_study _ _ _ _ IN) as ST. set (cf := i_h i) in *.
    intros Hk HS (AN & S5) LPL LRT E AV LN. pose proof E as E0. unfold hour in E.
    destruct (load_hour_ok n nu nl cf ST k Hk) as (J & EJ & IJ & DJ). rewrite EJ in E. cbn [bind] in E.
    destruct (draws_now (x_JFREQ cf) J) as [[]|]; cbn [bind] in E; try discriminate.
    destruct (draw_ok n nu nl cf ST k Hk s PL RT HS LPL LRT) as (d & ED & G1 & G2 & G3 & D1 & D2 & D3). rewrite ED in E. cbn [bind] in E.
    pose proof (drawn_state_ok n nu nl cf ST k s PL RT HS LPL LRT d ED G1 G2) as HS1.
    assert (LV : (x_NFCST cf <= 5)%nat) by apply (st_levels _ _ _ _ ST).
    destruct (plate_levels n nu nl cf ST k Hk inv er IO (ja_net _ _ JA) (ja_lines _ _ JA) (ja_share _ _ JA) (avail cf s PL RT) d J D1 D2 D3 IJ (seq 0 (x_NFCST cf)) _ s' false 0%nat
       ltac:(now rewrite seq_length) ltac:(rewrite seq_length; lia) HS1 AN S5 ltac:(discriminate) E) as (H' & I1 & I2 & A1 & A2 & recs & RE & F & LR & FO & LAST & FP & LP).
    rewrite seq_length in LR, LAST, LP. rewrite G3 in FO, LAST. fold LN in FO, LAST. change (avail cf s PL RT) with AV in *.
    assert (PK : peak_now cf k J = peak_hour cf k).
    { unfold peak_now, peak_hour. destruct (x_JSTEP cf =? 24); rewrite DJ; [apply Z.eqb_refl|now rewrite hidx]. }
    destruct (hour_spec n nu nl cf ST k Hk inv (refuse er) s PL RT HS LPL LRT s' (refuse_areas er) E0) as (_ & IG & IL & _).
    split; [exact H'|]. split; [split; auto|]. split; [exact IG|]. split; [exact IL|].
    exists recs. unfold apply_recs, stats_of in RE. rewrite PK in RE. cbn [LSFLG hrs pks] in RE. split; auto. split; auto. split; auto. split; auto. split; [exact LAST|].
    split; [exact FP|exact LP].
  Qed.

  (** records of a draw *)
  Definition plate_recs (AV : list Qc) (t : Z) (recs : list rec) : Prop :=
    map fst recs = seq 0 (length recs) /\ (length recs <= x_NFCST (i_h i))%nat /\
    Forall (fun r => exists m, In m (snd r) /\ m < 0) recs /\ exists LN, plate_draw t AV LN recs.
  Definition plate_run (lg : log world) (R : nat -> list rec) (cap : nat -> list Qc) : Prop := forall k, (1 <= k <= n_draws lg)%nat ->
    (exists s, In (draw_event (x_JSTEP (i_h i)) k, s) lg /\ capacities nu i k s (cap k)) /\ plate_recs (cap k) (x_JSTEP (i_h i) * Z.of_nat k) (R k).

  Lemma plate_at fuel pre post o : narp inv (refuse er) fuel i = Ok (pre ++ post, o) ->
    exists s R l cap, (pre <> [] -> exists e, last pre (e, s) = (e, s) /\ In (e, s) pre) /\ pinv inv (refuse er) n nu nl i pre s (n_draws pre) (n_years pre) R l /\ plate_run pre R cap.
  Proof using IO IN JA.
    intros E. destruct (narp_at inv (refuse er) (refuse_areas er) n nu nl i IN fuel pre post o E) as (IG & IL & s & a & b & c & d & _ & _ & f1 & SD & T & _ & _ & A & D & FS & _).
    destruct (generic_trace inv (refuse er) n nu nl i IN numbered5 plate_draw (conj (ja_num _ _ JA) (ja_shape _ _ JA)) hour_plate IG IL pre s a b c d SD T) as (R & l & P & _ & XS).
    rewrite <- A, <- D.
    assert (CH : forall k, (1 <= k <= a)%nat -> exists AV, (exists s, In (draw_event (x_JSTEP (i_h i)) k, s) pre /\ capacities nu i k s AV) /\ plate_recs AV (x_JSTEP (i_h i) * Z.of_nat k) (R k)).
    { intros k Hk. destruct (XS k Hk) as (s1 & AV & LN & HI & CA & _ & XX). exists AV. split; [eauto|].
      destruct (pi_draws _ _ _ _ _ _ _ _ _ _ _ _ P k Hk) as (s2 & AV2 & LN2 & _ & _ & _ & MF & LE & FO & _).
      split; [exact MF|]. split; [exact LE|]. split; [|exists LN; exact XX]. apply Forall_forall. intros [q M] Hq. rewrite Forall_forall in FO. destruct (FO _ Hq) as (LM & (j & Hj & L) & _).
      exists (zget M j). split; [|exact L]. cbn [snd]. apply nth_In. lia. }
    destruct (finite_choice [] _ a CH) as (cap & HC).
    exists s, R, l, cap. split; [|split; [exact P|unfold plate_run; rewrite <- A; exact HC]].
    intros NE. destruct (exists_last NE) as (p' & (e & s') & ->). unfold final_state in FS. rewrite map_app in FS. cbn [map] in FS. rewrite last_last in FS. cbn [snd] in FS. subst s'.
    exists e. split; [apply last_last|]. apply in_or_app. right. now left.
  Qed.

  Hypothesis FL : falling_levels n (i_h i).

  Lemma tally_level pl wt c l recs : map fst recs = seq 0 (length recs) ->
    tally pl wt c l recs = if Nat.ltb l (length recs) then rec_part pl wt c l (nth l recs (0%nat, [])) else 0.
  Proof using.
    intros F. unfold tally.
    assert (G : forall rs b, map fst rs = seq b (length rs) -> zsum (map (rec_part pl wt c l) rs) = if (Nat.leb b l && Nat.ltb l (b + length rs))%bool then rec_part pl wt c l (nth (l - b) rs (0%nat, [])) else 0).
    { clear. induction rs as [|[x M] rs IH]; intros b H; cbn [map length seq fst] in *.
      - change (zsum []) with 0. destruct (Nat.leb_spec b l), (Nat.ltb_spec l (b + 0)); cbn [andb]; auto; lia.
      - injection H as -> H. rewrite zsum_cons, (IH (S b) H). assert (NB : b <> l -> rec_part pl wt c l (b, M) = 0) by (intros NE; unfold rec_part; destruct (Nat.eqb_spec b l); [contradiction|reflexivity]).
        destruct (Nat.eq_dec b l) as [->|NE].
        + destruct (Nat.leb_spec (S l) l); [lia|]. destruct (Nat.leb_spec l l); [|lia]. destruct (Nat.ltb_spec l (l + S (length rs))); [|lia]. cbn [andb]. rewrite Nat.sub_diag. cbn [nth]. lia.
        + rewrite NB by exact NE. destruct (Nat.leb_spec (S b) l), (Nat.ltb_spec l (S b + length rs)), (Nat.leb_spec b l), (Nat.ltb_spec l (b + S (length rs))); cbn [andb]; try lia.
          replace (l - b)%nat with (S (l - S b)) by lia. cbn [nth]. lia. }
    rewrite (G recs 0%nat F). rewrite Nat.sub_0_r. reflexivity.
  Qed.

  Lemma neg_sum M : (forall x, In x M -> x <= 0) -> (exists m, In m M /\ m < 0) -> zsum M < 0 /\ 0 < zsum (map unserved M).
  Proof using.
    intros H (m & Hm & L). assert (G : forall l : list Z, (forall x, In x l -> x <= 0) -> zsum l <= 0 /\ 0 <= zsum (map unserved l)).
    { induction l as [|x l IH]; intros HL; [split; reflexivity|]. cbn [map]. rewrite !zsum_cons. pose proof (HL x (or_introl eq_refl)). destruct IH as (A & B); [intros; apply HL; now right|]. unfold unserved at 1. lia. }
    destruct (in_split _ _ Hm) as (a & b & ->). rewrite map_app. cbn [map]. rewrite !zsum_app, !zsum_cons.
    destruct (G a ltac:(intros; apply H; apply in_or_app; now left)). destruct (G b ltac:(intros; apply H; apply in_or_app; right; now right)). unfold unserved at 2. lia.
  Qed.

  (** one draw, one level *)
  Lemma plate_tally AV t recs l : plate_recs AV t recs -> (l < x_NFCST (i_h i))%nat ->
    let m := pool_missing n (i_h i) AV t l in let U := tally Pool EUE Both l recs in let H := tally Pool LOLE Both l recs in
    (forall pl wt, tally pl wt Trans l recs = 0 /\ tally pl wt Gen l recs = tally pl wt Both l recs) /\
    (qmax m q0 - qz (Z.of_nat n) < qz U /\ qz U <= qmax m q0)%Qc /\
    (H = 0 \/ H = 1) /\ (H = 1 -> (q0 < m)%Qc) /\ ((qz (Z.of_nat n) <= m)%Qc -> H = 1) /\ (H = 1 <-> 0 < U).
  Proof using IN FL.
    intros (MF & LE & NG & LN & FP & LAST) Hl m U H.
    assert (Qn : (q1 <= qz (Z.of_nat n))%Qc).
    { change q1 with (qz 1). apply (proj2 (qz_le _ _)). pose proof (st_areas _ _ _ _ (in_study _ _ _ _ IN)). lia. }
    assert (TL : forall pl wt c, tally pl wt c l recs = if Nat.ltb l (length recs) then rec_part pl wt c l (nth l recs (0%nat, [])) else 0) by (intros; now apply tally_level).
    unfold U, H. rewrite !TL. destruct (Nat.ltb_spec l (length recs)) as [L|L].
    - set (r := nth l recs (0%nat, [])). assert (HI : In r recs) by (apply nth_In; exact L).
      assert (R1 : fst r = l).
      { unfold r. change 0%nat with (fst (0%nat, @nil Z)) in * |- . rewrite <- (map_nth fst recs (0%nat, [])). cbn [fst]. rewrite MF. rewrite seq_nth by exact L. reflexivity. }
      rewrite Forall_forall in NG, FP. specialize (NG _ HI). specialize (FP _ HI). cbv beta in NG, FP. destruct r as [l' M] eqn:ER. cbn [fst snd] in *. subst l'. fold m in FP.
      destruct FP as (NP & P1 & P2). destruct (neg_sum M NP NG) as (SN & UP).
      assert (TR : forall pl wt, transmission pl wt M = false) by (intros pl wt; unfold transmission; destruct pl, wt; (apply Z.ltb_ge || apply Z.leb_gt); lia).
      split; [intros pl wt; rewrite !TL; destruct (Nat.ltb_spec l (length recs)); [|lia]; fold r; rewrite ER; unfold rec_part; rewrite Nat.eqb_refl, TR; auto|].
      unfold rec_part. rewrite Nat.eqb_refl. cbn [rec_amount].
      assert (UQ : (q1 <= qz (zsum (map unserved M)))%Qc) by (change q1 with (qz 1); apply (proj2 (qz_le _ _)); lia).
      assert (MP : (q0 < m)%Qc) by qlra.
      assert (QM : qmax m q0 = m) by (unfold qmax; destruct (qleb m q0) eqn:EQ; qc_bool; [exfalso; qlra|reflexivity]). rewrite QM.
      split; [split; assumption|]. split; [now right|]. split; [auto|]. split; [auto|]. split; auto.
    - split; [intros pl wt; rewrite !TL; destruct (Nat.ltb_spec l (length recs)); [lia|]; auto|].
      assert (ML : (m < qz (Z.of_nat n))%Qc).
      { destruct LAST as [LAST|LAST]; [lia|]. pose proof (FL t (length recs) l ltac:(lia)) as F. unfold m, pool_missing in *. qlra. }
      change (qz 0) with q0. unfold qmax. split; [destruct (qleb m q0) eqn:EQ; qc_bool; split; qlra|]. split; [now left|]. split; [discriminate|]. split; [intros HN; exfalso; qlra|]. split; [discriminate|lia].
  Qed.

  (** totals over draws *)
  Lemma plate_total lg R cap pl wn wt l ks : plate_run lg R cap -> (forall k, In k ks -> (1 <= k <= n_draws lg)%nat) -> (l < x_NFCST (i_h i))%nat ->
    total i pl wn wt Trans l R ks = 0 /\ total i pl wn wt Gen l R ks = total i pl wn wt Both l R ks /\
    (pl = Pool -> match wt with
      | LOLE => plate_hours_by (Z.of_nat n) n i wn cap l ks <= total i Pool wn LOLE Both l R ks <= plate_hours n i wn cap l ks
      | EUE => (plate_energy n i wn cap l ks - qz (Z.of_nat n * Z.of_nat (length (filter (counts i wn) ks))) <= qz (total i Pool wn EUE Both l R ks) /\
                qz (total i Pool wn EUE Both l R ks) <= plate_energy n i wn cap l ks)%Qc end).
  Proof using IN FL.
    intros PR HK Hl. rewrite !total_map.
    assert (HK' : forall k, In k (filter (counts i wn) ks) -> (1 <= k <= n_draws lg)%nat) by (intros k Hk; apply filter_In in Hk; apply HK; tauto).
    unfold plate_hours_by, plate_hours, plate_energy. rewrite ?total_map. clear HK. induction (filter (counts i wn) ks) as [|x r IH]; cbn [map filter length].
    - repeat split; auto. intros ->. destruct wt; [cbn; lia|]. rewrite Z.mul_0_r. split; apply qleb_iff; vm_compute; reflexivity.
    - destruct IH as (I1 & I2 & I3); [intros; apply HK'; now right|].
      destruct (PR x (HK' x (or_introl eq_refl))) as (_ & PX). destruct (plate_tally _ _ _ l PX Hl) as (T1 & (T2 & T3) & T4 & T5 & T6 & _).
      destruct (T1 pl wt) as (TA & TB). rewrite !zsum_cons, TA, TB, I1, I2. split; [lia|]. split; [reflexivity|]. intros EP. specialize (I3 EP).
      destruct wt.
      + set (m := pool_missing n (i_h i) (cap x) (x_JSTEP (i_h i) * Z.of_nat x) l) in *.
        assert (B1 : plate_short_by (Z.of_nat n) n i cap l x = qleb (qz (Z.of_nat n)) m) by reflexivity.
        assert (B2 : plate_short n i cap l x = qltb q0 m) by reflexivity. rewrite B1, B2.
        assert (C1 : (qleb (qz (Z.of_nat n)) m = true -> tally Pool LOLE Both l (R x) = 1)) by (intros E1; apply T6; now apply qleb_iff).
        assert (C2 : (tally Pool LOLE Both l (R x) = 1 -> qltb q0 m = true)) by (intros E1; apply qltb_iff; auto).
        destruct (qleb (qz (Z.of_nat n)) m), (qltb q0 m); cbn [length];
          destruct T4 as [T4|T4]; rewrite T4 in *; try (specialize (C1 eq_refl)); try (specialize (C2 eq_refl)); try discriminate; lia.
      + cbn [map]. rewrite !qsum_cons, qz_plus. unfold plate_missing at 1 3.
        replace (Z.of_nat n * Z.of_nat (S (length r))) with (Z.of_nat n + Z.of_nat n * Z.of_nat (length r)) by lia. rewrite qz_plus.
        destruct I3 as (I3 & I4). split; qlra.
  Qed.
End Plate.

(** A draw.  What the pool as a whole lacks decides: with a MW per area or more lacking
    there is a loss, with nothing lacking there is none; the energy not served is what is
    lacking, up to less than a MW per area; nothing is put down to transmission. *)
Theorem C123_draws : forall inv er n nu nl i fuel pre post o, inv_ok inv -> input_ok n nu nl i -> joined_areas n i -> falling_levels n (i_h i) ->
  narp inv (refuse er) fuel i = Ok (pre ++ post, o) ->
  exists cap R, drawn_caps nu i pre cap /\ (forall k, (1 <= k <= n_draws pre)%nat -> draw_outcome inv (refuse er) n nu nl i pre k (R k)) /\
  forall k l, (1 <= k <= n_draws pre)%nat -> (l < x_NFCST (i_h i))%nat ->
    let lacks := plate_missing n i cap k l in let energy := qz (tally Pool EUE Both l (R k)) in let hours := tally Pool LOLE Both l (R k) in
    (qmax lacks q0 - qz (Z.of_nat n) < energy)%Qc /\ (energy <= qmax lacks q0)%Qc /\
    ((qz (Z.of_nat n) <= lacks)%Qc -> hours = 1) /\ ((lacks <= q0)%Qc -> hours = 0) /\ 0 <= hours <= 1 /\ (hours = 1 <-> (q0 < energy)%Qc) /\
    forall pl wt, tally pl wt Trans l (R k) = 0.
Proof.
  intros inv er n nu nl i fuel pre post o IO IN JA FL E.
  destruct (plate_at inv er IO n nu nl i IN JA fuel pre post o E) as (s & R & yl & cap & _ & P & PR). exists cap, R.
  split; [intros k Hk; apply (PR k Hk)|]. split; [exact (pi_draws _ _ _ _ _ _ _ _ _ _ _ _ P)|]. intros k l Hk Hl lacks energy hours.
  destruct (PR k Hk) as (_ & PX). destruct (plate_tally n nu nl i IN FL _ _ _ l PX Hl) as (T1 & (T2 & T3) & T4 & T5 & T6 & T7).
  fold (plate_missing n i cap k l) in *. fold lacks energy hours in T2, T3, T4, T5, T6, T7.
  split; [exact T2|]. split; [exact T3|]. split; [exact T6|]. split; [|split; [|split]].
  - intros LE. destruct T4 as [T4|T4]; [exact T4|]. specialize (T5 T4). exfalso. qlra.
  - destruct T4 as [T4|T4]; rewrite T4; lia.
  - rewrite T7. unfold energy. change q0 with (qz 0). rewrite (qz_lt 0). reflexivity.
  - intros pl wt. apply (T1 pl wt).
Qed.
Print Assumptions C123_draws.

(** A year's statistics against those of the single area: the hours are between the hours
    in which n MW or more are lacking and those in which anything is lacking; the energy
    is at most that lacking and less by at most n MW per draw; no hour and no energy is
    put down to transmission, in the pool or in an area. *)
Theorem C123_year : forall inv er n nu nl i fuel pre post o, inv_ok inv -> input_ok n nu nl i -> joined_areas n i -> falling_levels n (i_h i) ->
  narp inv (refuse er) fuel i = Ok (pre ++ post, o) -> pre <> [] ->
  exists e s cap years, last pre (e, s) = (e, s) /\ In (e, s) pre /\ drawn_caps nu i pre cap /\
    run_years (year_cfg i) n 0 (start_year n (i_INTV i) (i_ITAB i)) years = Ok (w_y (s_w s), w_out (s_w s)) /\ length years = n_years pre /\
    forall y wn l, (y < n_years pre)%nat -> (l < x_NFCST (i_h i))%nat ->
      let ks := draws_of_year i y in let st pl wt c := part pl wn wt c l (nth y years (first_stat n, first_stat n)) in
      plate_hours_by (Z.of_nat n) n i wn cap l ks <= st Pool LOLE Both <= plate_hours n i wn cap l ks /\
      (plate_energy n i wn cap l ks - qz (Z.of_nat n * Z.of_nat (length (filter (counts i wn) ks))) <= qz (st Pool EUE Both))%Qc /\
      (qz (st Pool EUE Both) <= plate_energy n i wn cap l ks)%Qc /\
      forall pl wt, valid_place n pl -> st pl wt Trans = 0 /\ st pl wt Gen = st pl wt Both.
Proof.
  intros inv er n nu nl i fuel pre post o IO IN JA FL E NE. pose proof (draws_delivered inv (refuse er) n nu nl i fuel pre post o (refuse_areas er) IN E) as DD.
  destruct (plate_at inv er IO n nu nl i IN JA fuel pre post o E) as (s & R & years & cap & LA & P & PR). destruct (LA NE) as (e & L & HI). exists e, s, cap, years.
  split; [exact L|]. split; [exact HI|]. split; [intros k Hk; apply (PR k Hk)|].
  split; [exact (pi_years _ _ _ _ _ _ _ _ _ _ _ _ P)|]. split; [exact (pi_len _ _ _ _ _ _ _ _ _ _ _ _ P)|].
  intros y wn l Hy Hl ks st.
  assert (UP : (draws_upto i (S y) <= n_draws pre)%nat) by (pose proof (draws_upto_le n nu nl i IN (S y) (n_years pre) ltac:(lia)); lia).
  pose proof (draws_upto_le n nu nl i IN y (S y) ltac:(lia)) as UY.
  assert (KS : forall k, In k ks -> (1 <= k <= n_draws pre)%nat) by (intros k Hk; unfold ks, draws_of_year in Hk; rewrite !Nat.add_1_r in Hk; apply in_seq in Hk; lia).
  assert (V : forall wt c, st Pool wt c = total i Pool wn wt c l R ks).
  { intros wt c. unfold st. rewrite (pi_hist _ _ _ _ _ _ _ _ _ _ _ _ P) by (auto; exact I). unfold ks, draws_of_year. rewrite !(Nat.add_1_r y). reflexivity. }
  destruct (plate_total n nu nl i IN FL pre R cap Pool wn LOLE l ks PR KS Hl) as (_ & _ & TL). specialize (TL eq_refl). cbv beta iota in TL.
  destruct (plate_total n nu nl i IN FL pre R cap Pool wn EUE l ks PR KS Hl) as (_ & _ & TE). specialize (TE eq_refl). cbv beta iota in TE.
  rewrite !V. split; [exact TL|]. split; [apply TE|]. split; [apply TE|].
  intros pl wt VP. unfold st. rewrite !(pi_hist _ _ _ _ _ _ _ _ _ _ _ _ P) by auto.
  match goal with |- total _ _ _ _ _ _ _ ?q = 0 /\ _ => destruct (plate_total n nu nl i IN FL pre R cap pl wn wt l q PR) as (A & B & _); [|exact Hl|split; [exact A|exact B]] end.
  intros k Hk. apply in_seq in Hk. pose proof (since_le n i pl l y). lia.
Qed.
Print Assumptions C123_year.

(** The report: hours (days) of loss and energy per year against the single area's; the
    lines of losses by transmission are zero. *)
Theorem C123_report : forall inv er n nu nl i SUSTAT fuel pre post o e s r, inv_ok inv -> input_ok n nu nl i -> joined_areas n i -> falling_levels n (i_h i) ->
  length SUSTAT = S n -> x_NFCST (i_h i) = 5%nat ->
  narp inv (refuse er) fuel i = Ok (pre ++ (e, s) :: post, o) -> snd e = qz 4 ->
  printed_report i SUSTAT (s_w s) = Some (Ok r) ->
  let Y := n_years (pre ++ [(e, s)]) in let ks := seq 1 (draws_upto i Y) in let per_year z := Qcdiv z (qz (Z.of_nat Y)) in
  exists cap, drawn_caps nu i (pre ++ [(e, s)]) cap /\
  forall l, (l < 5)%nat ->
    let row c := nth (3 * l + code_cause c) (r_pool_level r) no_line in
    (per_year (qz (plate_hours_by (Z.of_nat n) n i Hourly cap l ks)) <= l_lol (row Both))%Qc /\ (l_lol (row Both) <= per_year (qz (plate_hours n i Hourly cap l ks)))%Qc /\
    (per_year (qz (plate_hours_by (Z.of_nat n) n i Peak cap l ks)) <= l_lolp (row Both))%Qc /\ (l_lolp (row Both) <= per_year (qz (plate_hours n i Peak cap l ks)))%Qc /\
    (per_year (plate_energy n i Hourly cap l ks - qz (Z.of_nat n * Z.of_nat (draws_upto i Y))) <= l_eue (row Both))%Qc /\ (l_eue (row Both) <= per_year (plate_energy n i Hourly cap l ks))%Qc /\
    l_lol (row Trans) = q0 /\ l_eue (row Trans) = q0 /\ l_lolp (row Trans) = q0.
Proof.
  intros inv er n nu nl i SU fuel pre post o e s r IO IN JA FL LS N5 E KIND PR Y ks per_year.
  change (pre ++ (e, s) :: post) with (pre ++ [(e, s)] ++ post) in E. rewrite app_assoc in E.
  assert (NE : pre ++ [(e, s)] <> []) by (intros X; apply app_eq_nil in X; destruct X; discriminate).
  pose proof (draws_delivered inv (refuse er) n nu nl i fuel _ post o (refuse_areas er) IN E) as DD. fold Y in DD.
  destruct (plate_at inv er IO n nu nl i IN JA fuel _ post o E) as (s1 & R & years & cap & LA & P & PL). destruct (LA NE) as (e1 & L & HI).
  rewrite last_last in L. injection L as <- <-. exists cap. split; [intros k Hk; apply (PL k Hk)|]. intros l Hl row.
  assert (ROW : forall c, let T wn wt := qz (total i Pool wn wt c l R ks) in
    l_lol (row c) = per_year (T Hourly LOLE) /\ l_eue (row c) = per_year (T Hourly EUE) /\ l_lolp (row c) = per_year (T Peak LOLE)).
  { intros c T. pose proof (pi_len _ _ _ _ _ _ _ _ _ _ _ _ P) as LL. pose proof (pi_years _ _ _ _ _ _ _ _ _ _ _ _ P) as RY. pose proof (pi_annual _ _ _ _ _ _ _ _ _ _ _ _ P) as AO. fold Y in LL.
    assert (TOT : forall y wn wt, (y < Y)%nat -> part Pool wn wt c l (nth y years (first_stat n, first_stat n)) = total i Pool wn wt c l R (draws_of_year i y)).
    { intros y wn wt Hy. rewrite (pi_hist _ _ _ _ _ _ _ _ _ _ _ _ P) by (auto; try exact I; rewrite N5; exact Hl). unfold draws_of_year. rewrite !(Nat.add_1_r y). reflexivity. }
    assert (NY : years <> []).
    { intros EY. rewrite EY in LL. cbn in LL. unfold Y in LL. rewrite of_kind_snoc, app_length in LL. cbn [fst] in LL. rewrite KIND in LL.
      change (qeqb (qz 4) (qz 4)) with true in LL. cbn [length] in LL. lia. }
    destruct (exists_last NY) as (l0 & a & EY). rewrite EY in *.
    pose proof RY as RY0. apply run_snoc in RY. destruct RY as (y1 & os1 & o1 & RY1 & YE & EO).
    assert (NA : i_areas i = n) by exact (n_areas n nu nl i IN).
    assert (REP : reported (year_cfg i) n (i_INTV i) (i_ITAB i) SU (l0 ++ [a]) r).
    { exists l0, a, y1, os1, (w_y (s_w s)), o1. split; [reflexivity|]. split; [exact RY1|]. split.
      - rewrite app_length. cbn [length]. replace (Z.of_nat (length l0 + 1)) with (0 + Z.of_nat (length l0) + 1) by lia. exact YE.
      - unfold printed_report in PR. rewrite EO, rev_app_distr in PR. cbn [rev app] in PR. rewrite NA in PR. unfold year_report.
        pose proof (year_ok _ _ _ _ _ _ YE) as (h1 & d1 & e1 & RF & SSQ & XL & _ & _ & K). cbv zeta in K.
        destruct K as (_ & _ & _ & _ & _ & _ & _ & _ & _ & _ & _ & _ & _ & _ & _ & _ & _ & _ & _ & EIT).
        destruct (o_report o1); [|discriminate]. rewrite <- PR. change (NFCST (year_cfg i)) with (x_NFCST (i_h i)). do 3 f_equal.
        rewrite EIT. lia. }
    pose proof (C48_level_averages (year_cfg i) n _ _ SU _ r (in_levels _ _ _ _ IN) LS (st_areas _ _ _ _ (in_study _ _ _ _ IN)) AO REP N5 c l Hl) as (_ & CP).
    assert (QQ : forall wn wt, qsum (map (fun a => qz (part Pool wn wt c l a)) (l0 ++ [a])) = T wn wt).
    { intros wn wt. apply (mean_parts i Pool wn wt c l R (l0 ++ [a]) Y (first_stat n, first_stat n)); [exact (proj1 (in_step _ _ _ _ IN))|exact LL|].
      intros y Hy. now apply TOT. }
    unfold row. destruct CP as [L1 L2 L3 L4 L5]. unfold mean in *. rewrite !map_length, !QQ, LL in *. auto. }
  assert (KS : forall k, In k ks -> (1 <= k <= n_draws (pre ++ [(e, s)]))%nat) by (intros k Hk; apply in_seq in Hk; lia).
  assert (Hl' : (l < x_NFCST (i_h i))%nat) by lia.
  assert (NP : (q0 <= qz (Z.of_nat Y))%Qc) by (change q0 with (qz 0); apply (proj2 (qz_le _ _)); lia).
  assert (MON : forall a b, (a <= b)%Qc -> (per_year a <= per_year b)%Qc).
  { intros a b H. unfold per_year, Qcdiv. apply Qcmult_le_compat_r; [exact H|]. destruct (Z.eq_dec (Z.of_nat Y) 0) as [->|NZ]; [apply qleb_iff; vm_compute; reflexivity|].
    apply Qcnot_lt_le. intros C. assert (q0 < qz (Z.of_nat Y))%Qc as PZ by (change q0 with (qz 0); apply (proj2 (qz_lt _ _)); lia).
    assert (qz (Z.of_nat Y) * / qz (Z.of_nat Y) = q1)%Qc as X by (apply Qcmult_inv_r; intros X; rewrite X in PZ; qlra). qnra. }
  destruct (ROW Both) as (A1 & A2 & A3). destruct (ROW Trans) as (B1 & B2 & B3). rewrite A1, A2, A3, B1, B2, B3.
  destruct (plate_total n nu nl i IN FL _ R cap Pool Hourly LOLE l ks PL KS Hl') as (T1 & _ & H1). specialize (H1 eq_refl). cbv beta iota in H1.
  destruct (plate_total n nu nl i IN FL _ R cap Pool Hourly EUE l ks PL KS Hl') as (T2 & _ & H2). specialize (H2 eq_refl). cbv beta iota in H2.
  destruct (plate_total n nu nl i IN FL _ R cap Pool Peak LOLE l ks PL KS Hl') as (T3 & _ & H3). specialize (H3 eq_refl). cbv beta iota in H3.
  rewrite T1, T2, T3. rewrite counts_hourly in H2. unfold ks in H2 at 2. rewrite seq_length in H2.
  assert (Z0 : per_year (qz 0) = q0) by (unfold per_year, Qcdiv; change (qz 0) with 0%Qc; apply Qcmult_0_l).
  split; [apply MON, (proj2 (qz_le _ _)), H1|]. split; [apply MON, (proj2 (qz_le _ _)), H1|].
  split; [apply MON, (proj2 (qz_le _ _)), H3|]. split; [apply MON, (proj2 (qz_le _ _)), H3|].
  split; [apply MON, H2|]. split; [apply MON, H2|]. auto.
Qed.
Print Assumptions C123_report.

(** *** Witness: the study of C120 (5 MW lacking at every draw, four draws a year, two
    years): 8 hours of loss and 40 MWh; with loss sharing, in proportion to loads of 110
    and 45 MW, 3 + 1 whole MW are counted at each draw, 32 MWh, not less than 40 - 2 * 8. *)
Definition shared_input : input :=
  let i := demo_input 110 45 in let h := i_h i in
  mkInput (mkHcfg 2184 1 5 (x_MXPLHR h) (x_PROBG h) (x_DERATE h) (x_CAPOWN h) (x_CAPCON h) (x_PROBL h) (x_JENT h) (x_INTCH h) (x_HRLOAD h) (x_FCTERR h)
             (x_LINENO h) (x_BLPA h) (x_LP h) (x_NR h) false)
          (i_RATES i) (i_JPLOUT i) (i_BN i) 2 2 (qz 2000) q1 10 0 1 1 1 1 0 0.
Definition plate_shown (i : input) := match narp (checked_inv [[qz (-1)]]) (refuse KeyError) 200 i with
  | Ok (lg, _) => match rev lg with x :: _ => Some (n_draws lg, n_years lg, map (fun k => (summed Pool Hourly LOLE Both k (w_y (s_w (snd x))), summed Pool Hourly EUE Both k (w_y (s_w (snd x))))) [0; 4]%nat) | [] => None end
  | Err _ => None end.
Lemma even_demand cf l0 l1 k l j : x_HRLOAD cf = flat l0 l1 -> x_FCTERR cf = [repeat q1 5; repeat q1 5] -> x_JSTEP cf = 2184 -> (l < 5)%nat ->
  demand cf k l j = match j with O => qz l0 | 1%nat => qz l1 | _ => q0 end.
Proof.
  intros EH EF EJ Hl. unfold demand, hour_used. rewrite EJ, EH, EF. change (2184 =? 24) with false. cbv iota.
  assert (H : (hour_of_year k < 365 * 24)%nat).
  { unfold hour_of_year. pose proof (Z.mod_pos_bound (k - 1) 8760 ltac:(lia)). change (365 * 24)%nat with (Z.to_nat 8760). apply Z2Nat.inj_lt; lia. }
  unfold mget, flat. destruct j as [|[|j]]; cbn [nth].
  - rewrite (nth_indep _ q0 (qz l0)), nth_repeat by (rewrite repeat_length; exact H). replace (nth l (repeat q1 5) q0) with q1; [qring|]. do 5 (destruct l as [|l]; [reflexivity|]). lia.
  - rewrite (nth_indep _ q0 (qz l1)), nth_repeat by (rewrite repeat_length; exact H). replace (nth l (repeat q1 5) q0) with q1; [qring|]. do 5 (destruct l as [|l]; [reflexivity|]). lia.
  - replace (nth _ match j with O => [] | S _ => [] end q0) with q0; [apply Qcmult_0_l|]. destruct j as [|j], (hour_of_year k); reflexivity.
Qed.
Lemma even_pool cf l0 l1 k l : x_HRLOAD cf = flat l0 l1 -> x_FCTERR cf = [repeat q1 5; repeat q1 5] -> x_JSTEP cf = 2184 -> (l < 5)%nat -> pool_demand 2 cf k l = (qz l0 + qz l1)%Qc.
Proof.
  intros EH EF EJ Hl. unfold pool_demand. rewrite (qs_ext 2 _ (fun j => match j with O => qz l0 | 1%nat => qz l1 | _ => q0 end)) by (intros; now apply even_demand).
  unfold qs. cbn [seq map]. unfold qsum. cbn [fold_right]. qring.
Qed.
Lemma even_joined : joined_areas 2 (demo_input 110 45) /\ falling_levels 2 (i_h (demo_input 110 45)) /\ joined_areas 2 shared_input /\ falling_levels 2 (i_h shared_input).
Proof.
  assert (SH : loads_to_share 2 (i_h shared_input)).
  { intros _ k l Hl. split.
    - intros j Hj. rewrite (even_demand _ 110 45) by (reflexivity || exact Hl). destruct j as [|[|j]]; apply qleb_iff; vm_compute; reflexivity.
    - rewrite (even_pool _ 110 45) by (reflexivity || exact Hl). apply qltb_iff. vm_compute. reflexivity. }
  assert (F : forall cf, x_HRLOAD cf = flat 110 45 -> x_FCTERR cf = [repeat q1 5; repeat q1 5] -> x_JSTEP cf = 2184 -> x_NFCST cf = 5%nat -> falling_levels 2 cf).
  { intros cf E1 E2 E3 E4 k l l' Hl. rewrite !(even_pool cf 110 45) by (auto; lia). apply Qcle_refl. }
  assert (N : areas_numbered 2 (i_BN (demo_input 110 45))).
  { split; [reflexivity|]. intros [|[|j]] Hj; [reflexivity|reflexivity|lia]. }
  assert (S5 : shape 2 5 (i_BN (demo_input 110 45))) by (split; [reflexivity|intros [|[|j]] Hj; [reflexivity|reflexivity|lia]]).
  split; [|split; [apply F; reflexivity|split; [|apply F; reflexivity]]].
  - constructor; [exact N|exact S5|apply demo_base_net|reflexivity|intros C; discriminate C].
  - constructor; [exact N|exact S5| |reflexivity|exact SH]. destruct (demo_base_net 110 45). constructor; auto.
Qed.
Example C123_witness : inv_ok (checked_inv [[qz (-1)]]) /\ input_ok 2 2 1 (demo_input 110 45) /\ input_ok 2 2 1 shared_input /\
  joined_areas 2 (demo_input 110 45) /\ falling_levels 2 (i_h (demo_input 110 45)) /\ joined_areas 2 shared_input /\ falling_levels 2 (i_h shared_input) /\
  plate_shown (demo_input 110 45) = Some (8%nat, 2%nat, [(8, 40); (8, 40)]) /\ plate_shown shared_input = Some (8%nat, 2%nat, [(8, 32); (8, 32)]).
Proof.
  split; [apply checked_inv_ok|]. split; [apply demo_input_ok_any|]. split; [|split; [apply even_joined|split; [apply even_joined|split; [apply even_joined|split; [apply even_joined|vm_compute; auto]]]]].
  destruct (demo_input_ok_any 110 45). constructor; auto. destruct in_study. constructor; auto.
Qed.
