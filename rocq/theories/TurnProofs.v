(** Proofs for C126: the direction in which a line is written down. *)
From Verif Require Import Base BaseProofs Sums LoadModel LoadSpec LoadProofs StatModel StatSpec StatProofs YearModel YearSpec YearProofs YearRun ReportSpec SampleModel SampleProofs NetModel NetSpec MatProofs NetProofs FlowProofs AssignProofs UpdateProofs SolveProofs UniqueProofs TransmProofs EventModel EventProofs ControlModel ControlSpec ControlProofs RunProofs
  HourModel HourSpec HourProofs CauseSpec ProgramModel ProgramSpec ProgramProofs HistorySpec HistoryProofs LevelsProofs PlateSpec PlateProofs PlateTrace DataProofs PropertiesNet ShortProofs CutProofs AmpleSpec AmpleProofs ContractProofs PropertiesAmple RefSpec RefProofs TurnSpec.
Open Scope Z_scope.
Open Scope Qc_scope.

Section Cards.
  Variable sw : nat -> bool.
  Notation o0 := (0%nat, 0%nat).
  Lemma turn_len LP : length (turned_ends sw LP) = length LP. Proof using . apply mapi_length. Qed.
  Lemma turn_nth LP k : (k < length LP)%nat -> nth k (turned_ends sw LP) o0 = if sw k then (snd (nth k LP o0), fst (nth k LP o0)) else nth k LP o0.
  Proof using . intros H. unfold turned_ends. now rewrite (nth_mapi _ _ _ o0). Qed.
  Lemma rows_len B : length (turned_rows sw B) = length B. Proof using . apply mapi_length. Qed.
  Lemma other_mod c : (c mod 3 = 0 -> other_way c = c)%nat. Proof using . intros E. unfold other_way. now rewrite E. Qed.
  Lemma other_3 m : other_way (m * 3) = (m * 3)%nat /\ other_way (m * 3 + 1) = (m * 3 + 2)%nat /\ other_way (m * 3 + 2) = (m * 3 + 1)%nat.
  Proof using .
    assert (A : ((m * 3) mod 3 = 0 /\ (m * 3 + 1) mod 3 = 1 /\ (m * 3 + 2) mod 3 = 2)%nat).
    { rewrite Nat.mod_mul by lia. rewrite !(Nat.add_comm (m * 3)), !Nat.mod_add by lia. auto. }
    destruct A as (A & B & C). unfold other_way. rewrite A, B, C. repeat split; lia.
  Qed.
  Lemma vget_row r c : length r = 18%nat -> vget (turned_row r) c = vget r (other_way c).
  Proof using .
    intros L. unfold turned_row. rewrite L. destruct (Nat.lt_ge_cases c 18) as [H|H]; [rewrite vget_vtab by exact H; reflexivity|].
    unfold vget. rewrite !nth_overflow; [reflexivity|rewrite L|rewrite vtab_length; exact H].
    unfold other_way. pose proof (Nat.div_mod c 3 ltac:(lia)). pose proof (Nat.mod_upper_bound c 3 ltac:(lia)). destruct (c mod 3)%nat as [|[|[|m]]] eqn:EM; lia.
  Qed.
  Lemma mget_rows m B k c : shape m 18 B -> (k < m)%nat -> mget (turned_rows sw B) k c = mget B k (if sw k then other_way c else c).
  Proof using .
    intros (L & S) H. unfold mget, turned_rows. rewrite (nth_mapi _ _ _ []) by lia. destruct (sw k); [|reflexivity]. exact (vget_row _ c (S k H)).
  Qed.
  Lemma rows_shape m B : shape m 18 B -> shape m 18 (turned_rows sw B).
  Proof using .
    intros (L & S). split; [now rewrite rows_len|]. intros j H. unfold turned_rows. rewrite (nth_mapi _ _ _ []) by lia.
    destruct (sw j); [unfold turned_row; rewrite vtab_length|]; now apply S.
  Qed.

  Lemma turn_in n LP : lines_in n LP -> lines_in n (turned_ends sw LP).
  Proof using .
    intros LI l Hl. apply (In_nth _ _ o0) in Hl. destruct Hl as (k & Hk & <-). rewrite turn_len in Hk. rewrite turn_nth by exact Hk.
    destruct (LI (nth k LP o0) (nth_In _ _ Hk)) as (A & B & C). destruct (sw k); cbn [fst snd]; auto.
  Qed.
  Lemma turn_distinct LP : distinct_ends LP -> distinct_ends (turned_ends sw LP).
  Proof using .
    intros LI l Hl. apply (In_nth _ _ o0) in Hl. destruct Hl as (k & Hk & <-). rewrite turn_len in Hk. rewrite turn_nth by exact Hk.
    pose proof (LI (nth k LP o0) (nth_In _ _ Hk)) as C. destruct (sw k); cbn [fst snd]; auto.
  Qed.
  Definition tw (k : nat) (l : wline) : wline := if sw k then ((snd (fst l), fst (fst l)), snd l) else l.
  Lemma turn_wlines LP X : combine (turned_ends sw LP) X = mapi tw (combine LP X).
  Proof using .
    assert (CL : forall A : list (nat * nat), @length wline (combine A X) = Nat.min (length A) (length X)) by (intros A; apply combine_length).
    apply (nth_ext_eq _ _ (o0, q0)); [rewrite mapi_length, CL, turn_len; symmetry; apply CL|]. intros k Hk. rewrite CL, turn_len in Hk.
    rewrite (nth_mapi _ _ _ (o0, q0)) by (rewrite CL; exact Hk).
    assert (E : forall A : list (nat * nat), length A = length LP -> nth k (combine A X) (o0, q0) = (nth k A o0, nth k X q0)).
    { intros A LA. clear CL. revert X k Hk A LA. clear. induction LP as [|l LP IH]; intros [|x X] k Hk [|a A] LA; cbn in Hk, LA; try lia. destruct k; [reflexivity|]. cbn [combine nth]. apply (IH X k); lia. }
    rewrite (E (turned_ends sw LP)) by apply turn_len. rewrite (E LP) by reflexivity. unfold tw. rewrite turn_nth by lia. destruct (sw k); reflexivity.
  Qed.
  Lemma tw_joins k l a b : joins (tw k l) a b = joins l a b.
  Proof using . unfold tw, joins, lfrom, lto. destruct (sw k); [|reflexivity]. cbn [fst snd]. destruct l as ((u, v), x). cbn [fst snd]. destruct (Nat.eqb u a), (Nat.eqb v b), (Nat.eqb u b), (Nat.eqb v a); reflexivity. Qed.
  Lemma tw_ends k l a : ends_at (tw k l) a = ends_at l a.
  Proof using . unfold tw, ends_at, lfrom, lto. destruct (sw k); [|reflexivity]. cbn [fst snd]. apply orb_comm. Qed.
  Lemma tw_adm k l : ladm (tw k l) = ladm l. Proof using . unfold tw, ladm. destruct (sw k); reflexivity. Qed.
  Lemma connected_turn ls i j : connected ls i j -> connected (mapi tw ls) i j.
  Proof using .
    intros A. induction A as [i|i j k A IH (l & H1 & H2 & H3)]; [constructor|]. eapply conn_step; [exact IH|].
    apply (In_nth _ _ (o0, q0)) in H1. destruct H1 as (v & Hv & EV). exists (tw v l). rewrite tw_adm, tw_joins. split; [|auto].
    assert (Z : nth v (mapi tw ls) (o0, q0) = tw v l) by (rewrite (nth_mapi tw ls v (o0, q0) (o0, q0) Hv); f_equal; exact EV). rewrite <- Z. apply nth_In. now rewrite mapi_length.
  Qed.
  Lemma network_turn n NR LP X : network_connected n NR (combine LP X) -> network_connected n NR (combine (turned_ends sw LP) X).
  Proof using . intros C i Hi. rewrite turn_wlines. apply connected_turn. now apply C. Qed.

  Lemma adm_of_turn p ls : (forall k l, p (tw k l) = p l) -> adm_of p (mapi tw ls) = adm_of p ls.
  Proof using .
    intros H. unfold adm_of, mapi. generalize 0%nat. induction ls as [|l ls IH]; intros b; [reflexivity|]. cbn [length seq combine map fst snd filter]. rewrite H.
    destruct (p l); [|apply IH]. cbn [map qsum fold_right]. unfold qsum in *. cbn [fold_right]. rewrite tw_adm, IH. reflexivity.
  Qed.
  Lemma lap_turn ls a b : lap (mapi tw ls) a b = lap ls a b.
  Proof using . unfold lap. destruct (Nat.eqb a b); [|f_equal]; apply adm_of_turn; intros; [apply tw_ends|apply tw_joins]. Qed.
  Lemma areas_turn LP : lp_areas (turned_ends sw LP) = lp_areas LP.
  Proof using .
    unfold lp_areas, turned_ends, mapi. f_equal. generalize 0%nat at 2. induction LP as [|l LP IH]; intros b; [reflexivity|]. cbn [length seq combine map fst snd fold_right]. rewrite IH.
    destruct (sw b); cbn [fst snd]; lia.
  Qed.
  Lemma mget_first B k : mget (map (firstn 3) B) k 0 = mget B k 0.
  Proof using . unfold mget. destruct (Nat.lt_ge_cases k (length B)) as [H|H]; [rewrite (nth_map_in _ _ _ []) by exact H; destruct (nth k B []); reflexivity|]. rewrite !(nth_overflow _ []) by (rewrite ?map_length; exact H). reflexivity. Qed.
  Lemma firstn_rows m B : shape m 18 B -> mcol (map (firstn 3) (turned_rows sw B)) 0 = mcol (map (firstn 3) B) 0.
  Proof using .
    intros S. apply (nth_ext_eq _ _ q0); [rewrite !mcol_length, !map_length, rows_len; reflexivity|]. intros k Hk. rewrite mcol_length, map_length, rows_len in Hk.
    change (vget (mcol (map (firstn 3) (turned_rows sw B)) 0) k = vget (mcol (map (firstn 3) B) 0) k). rewrite !mcol_nth, !mget_first, (mget_rows m) by (auto; destruct S; lia). destruct (sw k); reflexivity.
  Qed.
  Lemma admitb_turn m LP B : distinct_ends LP -> shape m 18 B -> admitb (turned_ends sw LP) (map (firstn 3) (turned_rows sw B)) = admitb LP (map (firstn 3) B).
  Proof using .
    intros D S. destruct (admitb LP (map (firstn 3) B)) as [M|e] eqn:E.
    - destruct (admitb (turned_ends sw LP) (map (firstn 3) (turned_rows sw B))) as [M'|e'] eqn:E'.
      + destruct (admitb_ok _ _ _ D E) as (S1 & G1). destruct (admitb_ok _ _ _ (turn_distinct LP D) E') as (S2 & G2). rewrite areas_turn in S2, G2. f_equal.
        apply (shape_ext (lp_areas LP) (lp_areas LP)); [exact S2|exact S1|]. intros a b Ha Hb. rewrite G2, G1 by assumption.
        unfold wlines. rewrite (firstn_rows m) by exact S. rewrite turn_wlines. apply lap_turn.
      + unfold admitb in E, E'. destruct LP as [|l LP]; [discriminate E|]. destruct (turned_ends sw (l :: LP)) eqn:ET; [apply (f_equal (@length _)) in ET; rewrite turn_len in ET; discriminate|discriminate].
    - unfold admitb in E |- *. destruct LP as [|l LP]; [exact E|discriminate].
  Qed.
  Lemma tm1_turn inv m BN LP B NR : distinct_ends LP -> shape m 18 B ->
    tm1 inv BN (turned_ends sw LP) (map (firstn 3) (turned_rows sw B)) NR = tm1 inv BN LP (map (firstn 3) B) NR.
  Proof using . intros D S. unfold tm1. rewrite (admitb_turn m) by assumption. now rewrite (firstn_rows m). Qed.

  Lemma outflow_turn LP F i : net_outflow LP (seen sw F) i = net_outflow (turned_ends sw LP) F i.
  Proof using .
    unfold net_outflow. rewrite turn_len. apply qs_ext. intros k Hk. rewrite turn_nth by exact Hk. unfold seen. destruct (sw k); cbn [fst snd]; [|reflexivity].
    destruct (Nat.eqb (fst (nth k LP o0)) i), (Nat.eqb (snd (nth k LP o0)) i); qring.
  Qed.
  Lemma dc_turn n NR LP adm inj F : dc_solution n NR (turned_ends sw LP) adm inj F -> dc_solution n NR LP adm inj (seen sw F).
  Proof using .
    intros (T & T0 & FF & NO). exists T. split; [exact T0|]. rewrite turn_len in FF. split.
    - intros k Hk. unfold seen. rewrite FF by exact Hk. rewrite turn_nth by exact Hk. destruct (sw k); cbn [fst snd]; qring.
    - intros i Hi. rewrite outflow_turn. now apply NO.
  Qed.
End Cards.

Lemma forallb_agree {A} (f g : A -> bool) l : (forall x, In x l -> f x = g x) -> forallb f l = forallb g l.
Proof. intros H. induction l as [|x l IH]; [reflexivity|]. cbn [forallb]. rewrite H by now left. rewrite IH; [reflexivity|]. intros y Hy. apply H. now right. Qed.

(** *** one solution *)
Section Solve.
  Variable sw : nat -> bool.
  Record limits_turned (m : nat) (BLP BLP' : list (list Qc)) : Prop := mkLt {
    lt_adm : forall k, (k < m)%nat -> mget BLP' k 0 = mget BLP k 0;
    lt_fwd : forall k, (k < m)%nat -> mget BLP' k 1 = mget BLP k (if sw k then 2 else 1);
    lt_bwd : forall k, (k < m)%nat -> mget BLP' k 2 = mget BLP k (if sw k then 1 else 2);
    lt_pos : forall k, (k < m)%nat -> q0 <= mget BLP k 1 /\ q0 <= mget BLP k 2 }.
  Lemma over_turn f a b : q0 <= a -> q0 <= b -> over (- f) b a = over f a b.
  Proof using .
    intros Ha Hb. unfold over. destruct (qleb q0 f) eqn:E1, (qleb q0 (- f)) eqn:E2; qc_bool.
    - replace f with q0 by qlra. replace (- q0) with q0 by qring. destruct (qltb b q0) eqn:B, (qltb a q0) eqn:A; qc_bool; try reflexivity; exfalso; qlra.
    - f_equal. unfold qabs. destruct (qltb (- f) q0) eqn:C; qc_bool; [qring|exfalso; qlra].
    - f_equal. unfold qabs. destruct (qltb f q0) eqn:C; qc_bool; [qring|exfalso; qlra].
    - exfalso. qlra.
  Qed.
  Lemma accepts_turn m FLOW FLOW' SFLOW BLP BLP' BN : limits_turned m BLP BLP' -> length FLOW = m -> length FLOW' = m -> (forall k, (k < m)%nat -> vget FLOW k = seen sw (vget FLOW') k) ->
    tm2_accepts FLOW' SFLOW BLP' BN = tm2_accepts FLOW SFLOW BLP BN.
  Proof using .
    intros [A1 A2 A3 A4] L L' E. unfold tm2_accepts. f_equal. rewrite L, L'. apply forallb_agree. intros k Hk. apply in_seq in Hk. f_equal.
    rewrite A2, A3, E by lia. destruct (A4 k ltac:(lia)) as (P & Q). unfold seen. destruct (sw k); [|reflexivity]. symmetry. now apply over_turn.
  Qed.

  Lemma tm2_turn n NR LT BN LP BLP BLP' BLP0 BB ZB NLS er :
    state_ok n NR LT LP BLP BLP0 -> state_ok n NR LT (turned_ends sw LP) BLP' BLP0 -> base_ok n LT LP BLP0 BB ZB -> base_ok n LT (turned_ends sw LP) BLP0 BB ZB ->
    limits_turned (length LP) BLP BLP' ->
    shape n 5 BN -> (NLS = false -> qsum (mcol BN 1) <> q0) ->
    match tm2 (refuse er) BN LP BLP BLP0 BB ZB LT NR NLS with
    | Err e => tm2 (refuse er) BN (turned_ends sw LP) BLP' BLP0 BB ZB LT NR NLS = Err e
    | Ok o => exists o', tm2 (refuse er) BN (turned_ends sw LP) BLP' BLP0 BB ZB LT NR NLS = Ok o' /\ (length (t_flow o') = length LP /\ length (t_flow o) = length LP /\ forall k, (k < length LP)%nat -> vget (t_flow o) k = seen sw (vget (t_flow o')) k) /\ t_BN o' = t_BN o /\
        t_BB o = BB /\ t_ZB o = ZB /\ t_BB o' = BB /\ t_ZB o' = ZB /\ shape n 5 (t_BN o)
    end.
  Proof using .
    intros SO SO' BO BO' LT0 SBN NZ. pose proof SO as [ok LI LB LB0 NG RF CN].
    assert (AD : forall k, (k < length LP)%nat -> mget BLP k 0 <= q0) by (intros k Hk; apply NG; auto).
    pose proof (solve_view n NR LT BN LP BLP BLP0 BB ZB NLS SO BO (proj1 SBN) NZ) as V.
    pose proof (solve_view n NR LT BN (turned_ends sw LP) BLP' BLP0 BB ZB NLS SO' BO' (proj1 SBN) NZ) as V'.
    pose proof (fun o => tm2_solution n 5 NR LT (refuse er) BN LP BLP BLP0 BB ZB NLS o SO BO SBN ltac:(lia) NZ) as P.
    pose proof (fun o => tm2_solution n 5 NR LT (refuse er) BN (turned_ends sw LP) BLP' BLP0 BB ZB NLS o SO' BO' SBN ltac:(lia) NZ) as P'.
    unfold tm2 in *. rewrite (proj1 SBN) in *.
    destruct (tm2_update LP BLP BLP0 (ieq_of LT (n - 1) NR) (n - 1) NR BB ZB) as [BB1 ZB1]. destruct (tm2_update (turned_ends sw LP) BLP' BLP0 (ieq_of LT (n - 1) NR) (n - 1) NR BB ZB) as [BB1' ZB1']. cbn [snd] in V, V'.
    destruct (tm2_solve BN LP BLP ZB1 LT NLS) as [[[INJ1 LODC] SFLOW] FLOW]. destruct (tm2_solve BN (turned_ends sw LP) BLP' ZB1' LT NLS) as [[[INJ1' LODC'] SFLOW'] FLOW'].
    destruct V as (EA & LF & LS & DC & K). destruct V' as (EA' & LF' & LS' & DC' & K'). rewrite turn_len in LF'.
    rewrite EA in EA'. injection EA' as <- <-.
    assert (ES : SFLOW' = SFLOW).
    { apply (nth_ext_eq _ _ q0); [congruence|]. intros i Hi. rewrite LS' in Hi. change (vget SFLOW' i = vget SFLOW i).
      destruct (at_surj n NR LT ok i Hi) as (a & Ha & Ea). unfold at_ in *. rewrite <- Ea. now rewrite K, K'. }
    assert (EF : forall k, (k < length LP)%nat -> vget FLOW k = seen sw (vget FLOW') k).
    { intros k Hk. rewrite ES in DC'. apply dc_turn in DC'.
      assert (DC2 : dc_solution n NR LP (fun k => mget BLP k 0) (fun i => - vget SFLOW i) (seen sw (vget FLOW'))).
      { destruct DC' as (T & T0 & FF & NO). exists T. split; [exact T0|]. split; [|exact NO]. intros v Hv. rewrite FF, (lt_adm _ _ _ LT0) by exact Hv. reflexivity. }
      exact (dc_unique n NR LP _ _ _ _ LI AD DC DC2 k Hk). }
    rewrite ES. rewrite (accepts_turn (length LP) FLOW FLOW' SFLOW BLP BLP' BN LT0 LF LF' EF).
    destruct (tm2_accepts FLOW SFLOW BLP BN) eqn:TA.
    - eexists. split; [reflexivity|]. cbn [t_flow t_BN t_BB t_ZB]. split; [auto|]. split; [reflexivity|].
      specialize (P _ eq_refl eq_refl). cbn [t_flow t_BN t_BB t_ZB] in P. destruct P as (_ & _ & AS & RC & SH & RB & RZ & _).
      rewrite ES, (accepts_turn (length LP) FLOW FLOW' SFLOW BLP BLP' BN LT0 LF LF' EF), TA in P'. specialize (P' _ eq_refl eq_refl). cbn [t_flow t_BN t_BB t_ZB] in P'. destruct P' as (_ & _ & AS' & RC' & SH' & RB' & RZ' & _).
      auto 8.
    - destruct NLS; reflexivity.
  Qed.
End Solve.

(** *** one call of the network, with loss sharing *)
Section Call.
  Variables (inv : list (list Qc) -> option (list (list Qc))) (er : pyerr) (n : nat) (cf : hcfg) (sw : nat -> bool).
  Hypothesis IO : inv_ok inv. Hypothesis BN0 : base_net n cf. Hypothesis LB : length (x_BLPA cf) = length (x_LP cf).
  Hypothesis CD : line_cards cf. Hypothesis NS : x_NLS cf = false.
  Let cf' := turn_lines sw cf.
  Lemma row_turn k c : (k < length (x_LP cf))%nat -> mget (x_BLPA cf') k c = mget (x_BLPA cf) k (if sw k then other_way c else c).
  Proof using CD. intros H. exact (mget_rows sw _ _ k c (proj1 CD) H). Qed.
  Lemma row_adm k m : (k < length (x_LP cf))%nat -> mget (x_BLPA cf') k (m * 3) = mget (x_BLPA cf) k (m * 3).
  Proof using CD. intros H. rewrite row_turn by exact H. destruct (sw k); [|reflexivity]. now rewrite (proj1 (other_3 m)). Qed.
  Lemma base_mod LN v : exists m, state_base LN v = (m * 3)%nat.
  Proof using . exists (Z.to_nat (zget LN v) - 1)%nat. unfold state_base. apply Nat.mul_comm. Qed.
  Lemma adm_turn LN v : (v < length (x_LP cf))%nat -> state_adm (x_BLPA cf') LN v = state_adm (x_BLPA cf) LN v.
  Proof using CD. intros H. unfold state_adm. destruct (base_mod LN v) as (m & ->). now apply row_adm. Qed.
  Lemma col_turn : mcol (x_BLPA cf') 0 = mcol (x_BLPA cf) 0.
  Proof using CD LB.
    apply (nth_ext_eq _ _ q0); [cbn [cf' turn_lines x_BLPA]; rewrite !mcol_length, rows_len; reflexivity|]. intros k Hk. cbn [cf' turn_lines x_BLPA] in Hk. rewrite mcol_length, rows_len, LB in Hk.
    change (vget (mcol (x_BLPA cf') 0) k = vget (mcol (x_BLPA cf) 0) k). rewrite !mcol_nth. exact (row_adm k 0 Hk).
  Qed.
  Lemma base_net_turn : base_net n cf'.
  Proof using BN0 LB CD.
    destruct BN0 as [A B C D E]. constructor.
    - cbn [cf' turn_lines x_LP]. now rewrite areas_turn.
    - now apply turn_distinct.
    - exact C.
    - cbn [cf' turn_lines x_LP]. rewrite turn_len. intros k Hk. pose proof (row_adm k 0 Hk) as RA. cbn [Nat.mul] in RA. rewrite RA. now apply D.
    - rewrite col_turn. cbn [cf' turn_lines x_LP x_NR]. now apply network_turn.
  Qed.
  Lemma still_turn LN : still_joined n cf LN -> still_joined n cf' LN.
  Proof using CD LB.
    intros [A B C]. constructor; cbn [cf' turn_lines x_LP x_NR]; rewrite ?turn_len.
    - intros v Hv. rewrite adm_turn by exact Hv. now apply A.
    - intros v Hv. rewrite adm_turn by exact Hv. rewrite turn_nth by exact Hv. intros E. apply B; [exact Hv|]. destruct (sw v); cbn [fst snd] in E; tauto.
    - replace (map (state_adm (x_BLPA cf') LN) (seq 0 (length (x_LP cf)))) with (map (state_adm (x_BLPA cf) LN) (seq 0 (length (x_LP cf)))); [now apply network_turn|].
      apply map_ext_in. intros v Hv. apply in_seq in Hv. symmetry. apply adm_turn. lia.
  Qed.

  Lemma transm_turn IFLAG s LN TR TJ SC CR : areas_numbered n (n_BN s) -> shape n 5 (n_BN s) ->
    (IFLAG = true -> settled inv (x_LP cf) (x_BLPA cf) (x_NR cf) s) ->
    length LN = length (x_LP cf) -> still_joined n cf LN -> length CR = n -> qsum CR <> q0 ->
    match transm inv (refuse er) IFLAG s (x_BLPA cf) (x_LP cf) (x_NR cf) (repeat [q1; q1] (length LN)) LN false TR TJ SC CR with
    | Err e => transm inv (refuse er) IFLAG s (x_BLPA cf') (x_LP cf') (x_NR cf) (repeat [q1; q1] (length LN)) LN false TR TJ SC CR = Err e
    | Ok (JF, FL, SA, s1) => exists FL', transm inv (refuse er) IFLAG s (x_BLPA cf') (x_LP cf') (x_NR cf) (repeat [q1; q1] (length LN)) LN false TR TJ SC CR = Ok (JF, FL', SA, s1) /\
        forall k, (k < length (x_LP cf))%nat -> vget FL k = seen sw (vget FL') k
    end.
  Proof using All.
    intros AN S5 SE LL SJ LC SH.
    assert (T1 : tm1 inv (n_BN s) (x_LP cf') (map (firstn 3) (x_BLPA cf')) (x_NR cf) = tm1 inv (n_BN s) (x_LP cf) (map (firstn 3) (x_BLPA cf)) (x_NR cf)).
    { apply (tm1_turn sw inv (length (x_LP cf))); [apply (bn_ends _ _ BN0)|exact (proj1 CD)]. }
    destruct (tm1 inv (n_BN s) (x_LP cf) (map (firstn 3) (x_BLPA cf)) (x_NR cf)) as [[[[BLP0 BB] LT] ZB]|e] eqn:B1.
    2:{ destruct IFLAG; [specialize (SE eq_refl); unfold settled in SE; rewrite B1 in SE; discriminate SE|]. unfold transm. rewrite B1, T1. reflexivity. }
    assert (TM : forall LP B, tm1 inv (n_BN s) LP (map (firstn 3) B) (x_NR cf) = Ok (BLP0, BB, LT, ZB) -> transm inv (refuse er) IFLAG s B LP (x_NR cf) (repeat [q1; q1] (length LN)) LN false TR TJ SC CR =
      transm inv (refuse er) true (mkNet (n_BN s) BLP0 BB LT ZB) B LP (x_NR cf) (repeat [q1; q1] (length LN)) LN false TR TJ SC CR).
    { intros LP B E1. destruct IFLAG; [|unfold transm at 1; rewrite E1; reflexivity]. pose proof (SE eq_refl) as E. unfold settled in E. rewrite B1 in E. injection E as -> -> -> ->. destruct s; reflexivity. }
    rewrite (TM _ _ B1), (TM _ _ T1). clear TM SE.
    destruct (state_of inv n cf (x_NR cf) IO LB (bn_ref _ _ BN0) s LN BLP0 BB LT ZB cf eq_refl eq_refl BN0 AN B1 LL SJ) as (Q0 & SO & BO).
    assert (LB' : length (x_BLPA cf') = length (x_LP cf')) by (cbn [cf' turn_lines x_BLPA x_LP]; rewrite rows_len, turn_len; exact LB).
    assert (LL' : length LN = length (x_LP cf')) by (cbn [cf' turn_lines x_LP]; rewrite turn_len; exact LL).
    destruct (state_of inv n cf' (x_NR cf') IO LB' (bn_ref _ _ BN0) s LN BLP0 BB LT ZB cf' eq_refl eq_refl base_net_turn AN T1 LL' (still_turn LN SJ)) as (_ & SO' & BO').
    change (x_NR cf') with (x_NR cf) in SO'. change (x_LP cf') with (turned_ends sw (x_LP cf)) in SO', BO' |- *. clear Q0 B1 T1.
    assert (LN' : length (n_BN s) = n) by apply AN.
    set (SM := repeat [q1; q1] (length LN)) in *. set (BLP := line_rows (x_BLPA cf) SM LN) in *. set (BLP' := line_rows (x_BLPA cf') SM LN) in *.
    assert (LTN : limits_turned sw (length (x_LP cf)) BLP BLP').
    { assert (SV : forall k, (k < length (x_LP cf))%nat -> mget SM k 0 = q1 /\ mget SM k 1 = q1) by (intros k Hk; unfold mget, SM; rewrite nth_repeat_lt by lia; split; reflexivity).
      assert (RW : forall k, (k < length (x_LP cf))%nat -> exists m, mget BLP k 0 = mget (x_BLPA cf) k (m * 3) /\ mget BLP k 1 = mget (x_BLPA cf) k (m * 3 + 1) /\ mget BLP k 2 = mget (x_BLPA cf) k (m * 3 + 2) /\
          mget BLP' k 0 = mget (x_BLPA cf') k (m * 3) /\ mget BLP' k 1 = mget (x_BLPA cf') k (m * 3 + 1) /\ mget BLP' k 2 = mget (x_BLPA cf') k (m * 3 + 2)).
      { intros k Hk. destruct (base_mod LN k) as (m & Em). exists m. destruct (SV k Hk) as (V0 & V1).
        destruct (line_rows_state (x_BLPA cf) SM LN k ltac:(lia)) as (R0 & R1 & R2). destruct (line_rows_state (x_BLPA cf') SM LN k ltac:(lia)) as (R0' & R1' & R2').
        unfold state_adm, state_fwd, state_bwd in *. rewrite Em, ?V0, ?V1, ?Qcmult_1_r in *. auto 8. }
      constructor; intros k Hk; destruct (RW k Hk) as (m & A0 & A1 & A2 & B0 & B1 & B2); destruct (other_3 m) as (O0 & O1 & O2).
      - rewrite A0, B0. now apply row_adm.
      - rewrite B1, row_turn by exact Hk. destruct (sw k); [rewrite O1, A2|rewrite A1]; reflexivity.
      - rewrite B2, row_turn by exact Hk. destruct (sw k); [rewrite O2, A1|rewrite A2]; reflexivity.
      - rewrite A1, A2. split; apply CD; try exact Hk; rewrite Nat.add_comm, Nat.mod_add by lia; discriminate. }
    unfold transm. cbn [bind n_BN n_BLP0 n_BB n_LT n_ZB]. rewrite LN'. fold BLP. fold BLP'. cbv zeta.
    destruct (sched_rows_spec n (n_BN s) TR TJ SC CR S5) as (S1 & G1). set (BN1 := sched_rows (n_BN s) TR TJ SC CR) in *.
    pose proof (tm2_turn sw n (x_NR cf) LT BN1 (x_LP cf) BLP BLP' BLP0 BB ZB true er SO SO' BO BO' LTN S1 ltac:(discriminate)) as T1.
    destruct (tm2 (refuse er) BN1 (x_LP cf) BLP BLP0 BB ZB LT (x_NR cf) true) as [o1|e]; cbn [bind]; [|rewrite T1; reflexivity].
    destruct T1 as (o1' & -> & (_ & _ & F1) & E1 & RB & RZ & RB' & RZ' & SB2). cbn [bind]. rewrite E1, RB, RZ, RB', RZ'.
    destruct (forallb (fun x => qleb q0 x) (vtab n (fun i => vget SC i - vget CR i - mget (t_BN o1) i 1))).
    { eexists. split; [reflexivity|exact F1]. }
    set (CADJ := vtab n (fun i => q0)).
    destruct (emergency_rows_spec n (t_BN o1) SC CR CADJ SB2) as (S3 & G3). set (BN3 := emergency_rows (t_BN o1) SC CR CADJ) in *.
    assert (C1 : mcol BN3 1 = CR).
    { apply (nth_ext_eq _ _ q0); [rewrite mcol_length, (proj1 S3); congruence|]. intros k Hk. rewrite mcol_length, (proj1 S3) in Hk.
      change (vget (mcol BN3 1) k = vget CR k). rewrite mcol_nth. now destruct (G3 k Hk) as (-> & _). }
    pose proof (tm2_turn sw n (x_NR cf) LT BN3 (x_LP cf) BLP BLP' BLP0 BB ZB false er SO SO' BO BO' LTN S3 ltac:(rewrite C1; intros _; exact SH)) as T2.
    destruct (tm2 (refuse er) BN3 (x_LP cf) BLP BLP0 BB ZB LT (x_NR cf) false) as [o2|e]; cbn [bind]; [|rewrite T2; reflexivity].
    destruct T2 as (o2' & -> & (_ & _ & F2) & E2 & RB2 & RZ2 & RB2' & RZ2' & _). cbn [bind]. rewrite E2, RB2, RZ2, RB2', RZ2'. eexists. split; [reflexivity|exact F2].
  Qed.
End Call.


(** *** the help of direct neighbours (hour.py 155-168), whose amount is not used *)
Definition same_ok {A B} (r : res A) (r' : res B) : Prop := match r, r' with Ok _, Ok _ => True | Err e, Err e' => e = e' | _, _ => False end.
Lemma pyidx_some n z : match pyidx n z with Some k => (k < n)%nat /\ (- Z.of_nat n <= z < Z.of_nat n)%Z | None => ~ (- Z.of_nat n <= z < Z.of_nat n)%Z end.
Proof. unfold pyidx. destruct (Z.leb_spec 0 z), (Z.ltb_spec z (Z.of_nat n)), (Z.ltb_spec z 0), (Z.leb_spec (- Z.of_nat n) z); cbn [andb]; lia. Qed.
Lemma pyget_same {A B} (l : list A) (l' : list B) z z' : length l = length l' ->
  ((- Z.of_nat (length l) <= z < Z.of_nat (length l))%Z <-> (- Z.of_nat (length l) <= z' < Z.of_nat (length l))%Z) -> same_ok (pyget l z) (pyget l' z').
Proof.
  intros L H. unfold pyget. rewrite <- L. pose proof (pyidx_some (length l) z) as P. pose proof (pyidx_some (length l) z') as P'.
  destruct (pyidx (length l) z) as [k|], (pyidx (length l) z') as [k'|]; try tauto; [|reflexivity].
  destruct (nth_error l k) eqn:E1; [|apply nth_error_None in E1; lia]. destruct (nth_error l' k') eqn:E2; [exact I|apply nth_error_None in E2; lia].
Qed.
Lemma help_turn sw cf LN M IT : line_cards cf -> same_ok (direct_help cf LN M IT) (direct_help (turn_lines sw cf) LN M IT).
Proof.
  intros (SH & _). unfold direct_help. cbn [turn_lines x_LINENO x_LP x_BLPA].
  assert (G : forall js (a b : res Z), same_ok a b -> same_ok
    (fold_left (fun acc j => do NEED <- acc; do row <- pyget (x_LINENO cf) (Z.of_nat j); do N <- pyget row (Z.of_nat IT);
       if (-1 <? N)%Z then do st <- pyget LN N; do ends <- pyget (x_LP cf) N; do r <- pyget (x_BLPA cf) N;
         do XX <- pyget r ((st - 1) * 3 + 1 + (if Nat.eqb (fst ends) j then 0 else 1))%Z; Ok (NEED - Z.min (zget M j) (qtrunc XX))%Z else Ok NEED) js a)
    (fold_left (fun acc j => do NEED <- acc; do row <- pyget (x_LINENO cf) (Z.of_nat j); do N <- pyget row (Z.of_nat IT);
       if (-1 <? N)%Z then do st <- pyget LN N; do ends <- pyget (turned_ends sw (x_LP cf)) N; do r <- pyget (turned_rows sw (x_BLPA cf)) N;
         do XX <- pyget r ((st - 1) * 3 + 1 + (if Nat.eqb (fst ends) j then 0 else 1))%Z; Ok (NEED - Z.min (zget M j) (qtrunc XX))%Z else Ok NEED) js b)).
  { induction js as [|j js IH]; intros a b H; cbn [fold_left]; [exact H|]. apply IH. destruct a as [a|ea], b as [b|eb]; cbn [bind same_ok] in *; try contradiction; [|exact H].
    destruct (pyget (x_LINENO cf) (Z.of_nat j)) as [row|]; cbn [bind same_ok]; [|reflexivity]. destruct (pyget row (Z.of_nat IT)) as [N|]; cbn [bind same_ok]; [|reflexivity].
    destruct (-1 <? N)%Z; [|exact I]. destruct (pyget LN N) as [st|]; cbn [bind same_ok]; [|reflexivity].
    pose proof (pyget_same (x_LP cf) (turned_ends sw (x_LP cf)) N N (eq_sym (turn_len sw _)) ltac:(tauto)) as E1.
    destruct (pyget (x_LP cf) N) as [l1|], (pyget (turned_ends sw (x_LP cf)) N) as [l2|]; cbn [bind same_ok] in *; try contradiction; [|exact E1].
    pose proof (pyget_same (x_BLPA cf) (turned_rows sw (x_BLPA cf)) N N (eq_sym (rows_len sw _)) ltac:(tauto)) as E2.
    destruct (pyget (x_BLPA cf) N) as [r1|] eqn:R1, (pyget (turned_rows sw (x_BLPA cf)) N) as [r2|] eqn:R2; cbn [bind same_ok] in *; try contradiction; [|exact E2].
    assert (L : forall B (r : list Qc), shape (length (x_LP cf)) 18 B -> pyget B N = Ok r -> length r = 18%nat).
    { intros B r (LB & SB) E. apply pyget_In in E. apply (In_nth _ _ []) in E. destruct E as (k & Hk & <-). apply SB. lia. }
    pose proof (L _ _ SH R1) as L1. pose proof (L _ _ (rows_shape sw _ _ SH) R2) as L2.
    pose proof (pyget_same r1 r2 ((st - 1) * 3 + 1 + (if Nat.eqb (fst l1) j then 0 else 1)) ((st - 1) * 3 + 1 + (if Nat.eqb (fst l2) j then 0 else 1)) ltac:(congruence)) as E3.
    rewrite L1 in E3. specialize (E3 ltac:(destruct (Nat.eqb (fst l1) j), (Nat.eqb (fst l2) j); lia)).
    destruct (pyget r1 _), (pyget r2 _); cbn [bind same_ok] in *; try contradiction; auto. }
  apply G. exact I.
Qed.

(** *** the levels of an hour, a draw *)
Section Hours.
  Variables (n nu nl : nat) (i : input) (sw : nat -> bool).
  Let cf := i_h i.
  Hypothesis IN : input_ok n nu nl i. Hypothesis JA : joined_areas n i.
  Hypothesis CD : line_cards cf. Hypothesis NS : x_NLS cf = false.
  Hypothesis RS : reference_served n nu nl i.
  Variables (inv : list (list Qc) -> option (list (list Qc))) (er : pyerr).
  Hypothesis IO : inv_ok inv.

  Variable kd : nat. Hypothesis Hk : (1 <= kd)%nat.
  Let k := (x_JSTEP cf * Z.of_nat kd)%Z.
  Lemma levels_turn (AV : list Qc) (d : drawn) (J : Z) (DSC : d_SYSCON d = vtab n (located cf AV)) (HJ : pyidx (365 * 24) J = Some (hour_used cf k))
    (CLN : line_states nu nl i kd (d_LNSTAT d)) (LLN : length (d_LNSTAT d) = nl) : forall ls s first b, ls = seq b (length ls) -> (b + length ls <= x_NFCST cf)%nat ->
    hst_ok n nu nl s -> kept_net n i (hnet s) ->
    (first = true -> settled inv (x_LP cf) (x_BLPA cf) (x_NR cf) (hnet s)) ->
    levels inv (refuse er) (turn_lines sw cf) (on k) J d ls first s = levels inv (refuse er) cf (on k) J d ls first s.
  Proof using All.
    pose proof (in_study _ _ _ _ IN) as ST. fold cf in ST. pose proof (ja_net _ _ JA) as BN0. fold cf in BN0.
    pose proof (st_levels _ _ _ _ ST) as LV. pose proof (refuse_areas er) as KA. pose proof (st_areas _ _ _ _ ST) as Hn.
    assert (K1 : (1 <= k)%Z) by (pose proof (J_pos n nu nl i IN) as JP; unfold k, cf; nia).
    assert (LSC : length (d_SYSCON d) = n) by (rewrite DSC; apply vtab_length).
    assert (VSC : forall j, (j < n)%nat -> vget (d_SYSCON d) j = located cf AV j) by (intros j H; rewrite DSC; now apply vget_vtab).
    induction ls as [|l rest IH]; intros s first b EL LE HS KN SE; cbn [levels]; [reflexivity|].
    cbn [length seq] in EL. injection EL as -> EL. cbn [length] in LE.
    destruct (demand_ok n nu nl cf ST k J b HJ ltac:(lia)) as (C & EC & LC & VC).
    change (x_HRLOAD (turn_lines sw cf)) with (x_HRLOAD cf). change (x_FCTERR (turn_lines sw cf)) with (x_FCTERR cf). rewrite EC. cbn [bind].
    destruct (margins_ok n cf k (d_SYSCON d) C AV b LSC LC VSC VC) as (LM & VM & SM).
    set (M := margins (d_SYSCON d) C) in *.
    destruct (last_short M) as [IT|e]; cbn [bind]; [|reflexivity].
    destruct (Nat.eqb_spec (length (short_areas M)) 0) as [Z|NZ]; [reflexivity|].
    change (x_CAPOWN (turn_lines sw cf)) with (x_CAPOWN cf).
    change (record_level (turn_lines sw cf)) with (record_level cf).
    destruct (Nat.eqb_spec (length (short_areas M)) (length (x_CAPOWN cf))) as [ALL|NALL].
    - destruct (record_level_ok n nu nl cf ST k K1 J b M s HS ltac:(lia) LM) as (s1 & E1 & HS1 & RSx & G1 & G2 & NT). rewrite E1. cbn [bind].
      apply (IH s1 first (S b)); auto; try lia; rewrite NT; assumption.
    - assert (HLP : forall X (f : res X), (do _ <- (if (1 <? length (short_areas M))%nat then Ok 0%Z else direct_help (turn_lines sw cf) (d_LNSTAT d) M IT); f) =
          (do _ <- (if (1 <? length (short_areas M))%nat then Ok 0%Z else direct_help cf (d_LNSTAT d) M IT); f)).
      { intros X f. destruct (1 <? length (short_areas M))%nat; [reflexivity|]. pose proof (help_turn sw cf (d_LNSTAT d) M IT CD) as H.
        destruct (direct_help cf _ _ _), (direct_help (turn_lines sw cf) _ _ _); cbn [same_ok bind] in *; try contradiction; congruence. }
      rewrite HLP. clear HLP. destruct (if (1 <? length (short_areas M))%nat then Ok 0%Z else direct_help cf (d_LNSTAT d) M IT) as [ND|e]; cbn [bind]; [|reflexivity].
      pose proof KN as (AN & S5 & _). change (x_NR (turn_lines sw cf)) with (x_NR cf). change (x_NLS (turn_lines sw cf)) with (x_NLS cf). rewrite NS.
      assert (LLP : length (d_LNSTAT d) = length (x_LP cf)) by (rewrite LLN; symmetry; exact (in_lp _ _ _ _ IN)).
      assert (SHR : qsum C <> q0).
      { destruct (ja_share _ _ JA NS k b ltac:(fold cf; lia)) as (_ & B).
        unfold pool_demand in B. fold cf in B. assert (QE : qsum C = qs n (demand cf k b)) by (rewrite qsum_qs, LC; apply qs_ext; intros j Hj; now apply VC). rewrite QE. intros Z0. rewrite Z0 in B. qlra. }
      pose proof (transm_turn inv er n cf sw IO BN0 (ja_lines _ _ JA) CD NS first (hnet s) (d_LNSTAT d) (d_TRNSFR d) (d_TRNSFJ d) (d_SYSCON d) C AN S5 SE LLP (RS kd _ Hk CLN) LC SHR) as TR.
      destruct (transm inv (refuse er) first (hnet s) (x_BLPA cf) (x_LP cf) _ _ _ _ _ _ _ _) as [[[[em FL] SA] net1]|e] eqn:ET; cbn [bind]; [|rewrite TR; reflexivity].
      destruct TR as (FL' & ET' & _). rewrite ET'. cbn [bind].
      assert (KN1 : kept_net n i net1) by (eapply kept_call; eassumption).
      assert (W : wide (n_BN (hnet s))) by (intros j Hj; rewrite (proj2 S5 j) by (rewrite <- (proj1 S5); exact Hj); lia).
      assert (SE1 : settled inv (x_LP cf) (x_BLPA cf) (x_NR cf) net1).
      { destruct BN0 as [BA BE BR _ _]. eapply (transm_settles inv er n); [exact IO|exact BA|exact BE|exact BR|exact (ja_lines _ _ JA)|exact AN|exact W|exact SE|exact ET]. }
      destruct (transm_len _ _ _ _ _ _ _ _ _ _ _ _ _ _ _ _ _ _ KA ET) as (LSA & LBN).
      set (s1 := mkHst (IGSEED s) (ILSEED s) net1 (LSFLG s) (hrs s) (pks s)) in *.
      assert (HS1 : hst_ok n nu nl s1) by (destruct HS; constructor; cbn; auto; congruence).
      destruct (negb em); [reflexivity|]. destruct (negb _); [reflexivity|].
      set (M2 := map (fun x => qtrunc (- x)%Qc) SA) in *.
      assert (LM2 : length M2 = n) by (unfold M2; rewrite map_length, LSA; apply AN).
      destruct (record_level_ok n nu nl cf ST k K1 J b M2 s1 HS1 ltac:(lia) LM2) as (s2 & E2 & HS2 & RSx & G1 & G2 & NT). rewrite E2. cbn [bind].
      apply (IH s2 true (S b)); auto; try lia; try (rewrite NT; assumption). intros _. rewrite NT. exact SE1.
  Qed.

  Lemma hour_turn PL RT s : hst_ok n nu nl s -> kept_net n i (hnet s) -> length PL = nu -> length RT = nu ->
    (forall v, (v < nl)%nat -> nth v (ILSEED s) 0%Z = line_seed nu v (kd - 1)) ->
    hour inv (refuse er) (turn_lines sw cf) (on k) PL RT s = hour inv (refuse er) cf (on k) PL RT s.
  Proof using All.
    intros HS KN LPL LRT SD. pose proof (in_study _ _ _ _ IN) as ST. fold cf in ST.
    assert (K1 : (1 <= k)%Z) by (pose proof (J_pos n nu nl i IN) as JP; unfold k, cf; nia).
    unfold hour. change (load_hour (turn_lines sw cf) (on k)) with (load_hour cf (on k)). change (x_JFREQ (turn_lines sw cf)) with (x_JFREQ cf).
    change (draw (turn_lines sw cf) (on k) PL RT s) with (draw cf (on k) PL RT s). change (x_NFCST (turn_lines sw cf)) with (x_NFCST cf).
    destruct (load_hour_ok n nu nl cf ST k K1) as (J & EJ & IJ & DJ). rewrite EJ. cbn [bind].
    destruct (draws_now (x_JFREQ cf) J) as [[]|]; cbn [bind]; try reflexivity.
    destruct (draw_ok n nu nl cf ST k K1 s PL RT HS LPL LRT) as (d & ED & G1 & G2 & G3 & D1 & D2 & D3). rewrite ED. cbn [bind].
    pose proof (drawn_state_ok n nu nl cf ST k s PL RT HS LPL LRT d ED G1 G2) as HS1.
    pose proof (ho_il _ _ _ _ HS) as HL.
    assert (CL : line_states nu nl i kd (d_LNSTAT d)) by (exists (ILSEED s); rewrite G3; auto).
    assert (LL : length (d_LNSTAT d) = nl).
    { rewrite G3. pose proof (lstate_spec (x_PROBL cf) (ILSEED s) ltac:(rewrite (st_lines _ _ _ _ ST); exact HL)) as X. destruct (lstate _ _) as [X1 X2]. destruct X as (_ & X & _). cbn [snd]. rewrite X. exact (st_lines _ _ _ _ ST). }
    apply (levels_turn (avail cf s PL RT) d J D1 IJ CL LL (seq 0 (x_NFCST cf)) _ false 0%nat);
      [now rewrite seq_length|rewrite seq_length; lia|exact HS1|exact KN|discriminate].
  Qed.
End Hours.
