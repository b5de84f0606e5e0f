(** Property theorems of C121: studies of a single area. *)
From Verif Require Import Base BaseProofs Sums LoadModel LoadSpec LoadProofs SampleModel NetModel StatModel StatSpec StatProofs
  EventModel EventSpec ControlModel ControlSpec ControlProofs RunProofs HourModel HourSpec HourProofs
  YearModel YearSpec YearProofs YearRun ReportModel ReportSpec ProgramModel ProgramSpec ProgramProofs
  PropertiesNet PropertiesHour PropertiesYear PropertiesReport PropertiesProgram PropertiesBounds CertainSpec PropertiesCertain.
Open Scope Z_scope.

(** What the area lacks at draw k and level l, in whole MW; [cap k] the capacities drawn. *)
Definition lacking (i : input) (cap : nat -> list Qc) (k l : nat) : Z := - own_margin (i_h i) (cap k) (x_JSTEP (i_h i) * Z.of_nat k) l 0.
(** Is it short by at least a MW? *)
Definition is_short (i : input) (cap : nat -> list Qc) (k l : nat) : bool :=
  qleb (located (i_h i) (cap k) 0 + q1)%Qc (demand (i_h i) (x_JSTEP (i_h i) * Z.of_nat k) l 0).
(** The capacities of each draw of a log are those of the k-th random numbers with the
    ratings and outages in force. *)
Definition drawn_caps (nu : nat) (i : input) (lg : log world) (cap : nat -> list Qc) : Prop :=
  forall k, (1 <= k <= n_draws lg)%nat -> exists s, In (draw_event (x_JSTEP (i_h i)) k, s) lg /\ capacities nu i k s (cap k).
(** Hours of shortage and energy lacking among the draws [ks] (at daily peaks only). *)
Definition shortages (i : input) (wn : when) (wt : what) (cap : nat -> list Qc) (l : nat) (ks : list nat) : Z :=
  zsum (map (fun k => if is_short i cap k l then match wt with LOLE => 1 | EUE => lacking i cap k l end else 0) (filter (counts i wn) ks)).

Lemma truncated_short cf AV t l : short cf AV t l 0 -> own_margin cf AV t l 0 < 0.
Proof. unfold short, own_margin. intros H. apply (proj2 (qtrunc_neg _)). qlra. Qed.
Lemma zsum_ext {A} (f g : A -> Z) l : (forall x, In x l -> f x = g x) -> zsum (map f l) = zsum (map g l).
Proof. intros H. f_equal. now apply map_ext_in. Qed.

Section One.
  Variables (inv : list (list Qc) -> option (list (list Qc)))
            (lp : list (list Qc) -> list (list Qc) -> list (list Qc) -> res (list Qc * list (list Qc))).
  Variables (nu nl : nat) (i : input).
  Hypothesis IN : input_ok 1 nu nl i.

  Lemma single_records lg k recs : draw_outcome inv lp 1 nu nl i lg k recs ->
    exists s AV, In (draw_event (x_JSTEP (i_h i)) k, s) lg /\ capacities nu i k s AV /\
      (forall l, (l < x_NFCST (i_h i))%nat -> short (i_h i) AV (x_JSTEP (i_h i) * Z.of_nat k) l 0) /\
      recs = map (fun l => (l, [own_margin (i_h i) AV (x_JSTEP (i_h i) * Z.of_nat k) l 0])) (seq 0 (x_NFCST (i_h i))).
  Proof.
    intros (s & AV & LN & HI & CA & LS & MF & LE & FO & LAST). exists s, AV. split; [exact HI|]. split; [exact CA|].
    assert (FULL : length recs = x_NFCST (i_h i)).
    { destruct LAST as [L|((a & Ha & SA) & (b & Hb & NB) & _)]; [exact L|]. exfalso. apply NB. replace b with a by lia. exact SA. }
    assert (ALL : forall q, In q recs -> short (i_h i) AV (x_JSTEP (i_h i) * Z.of_nat k) (fst q) 0 /\ q = (fst q, [own_margin (i_h i) AV (x_JSTEP (i_h i) * Z.of_nat k) (fst q) 0])).
    { intros [l M] Hq. rewrite Forall_forall in FO. destruct (FO _ Hq) as (LM & _ & (a & Ha & SA) & D). replace a with 0%nat in SA by lia. cbn [fst]. split; [exact SA|].
      f_equal. destruct D as [(_ & V)|((b & Hb & NB) & _)]; [|exfalso; apply NB; replace b with 0%nat by lia; exact SA].
      specialize (V 0%nat ltac:(lia)). destruct M as [|m [|m2 M]]; try discriminate LM. cbn in V. now rewrite V. }
    split.
    - intros l Hl. assert (IL : In l (map fst recs)) by (rewrite MF; apply in_seq; lia). apply in_map_iff in IL. destruct IL as (q & <- & Hq). now apply ALL.
    - rewrite <- FULL, <- MF, map_map. transitivity (map (fun q : rec => q) recs); [now rewrite map_id|]. apply map_ext_in. intros q Hq. now apply ALL.
  Qed.


  Definition caps_of (lg : log world) (R : nat -> list rec) (cap : nat -> list Qc) : Prop := forall k, (1 <= k <= n_draws lg)%nat ->
    (exists s, In (draw_event (x_JSTEP (i_h i)) k, s) lg /\ capacities nu i k s (cap k)) /\
    (forall l, (l < x_NFCST (i_h i))%nat -> short (i_h i) (cap k) (x_JSTEP (i_h i) * Z.of_nat k) l 0) /\
    R k = map (fun l => (l, [- lacking i cap k l])) (seq 0 (x_NFCST (i_h i))).
  Lemma single_caps lg R : (forall k, (1 <= k <= n_draws lg)%nat -> draw_outcome inv lp 1 nu nl i lg k (R k)) -> exists cap, caps_of lg R cap.
  Proof.
    intros DR.
    assert (CH : forall k, exists AV, (1 <= k <= n_draws lg)%nat -> (exists s, In (draw_event (x_JSTEP (i_h i)) k, s) lg /\ capacities nu i k s AV) /\
      (forall l, (l < x_NFCST (i_h i))%nat -> short (i_h i) AV (x_JSTEP (i_h i) * Z.of_nat k) l 0) /\
      R k = map (fun l => (l, [own_margin (i_h i) AV (x_JSTEP (i_h i) * Z.of_nat k) l 0])) (seq 0 (x_NFCST (i_h i)))).
    { intros k. destruct (Nat.le_gt_cases 1 k); [|exists []; lia]. destruct (Nat.le_gt_cases k (n_draws lg)); [|exists []; lia].
      destruct (single_records lg k (R k) (DR k ltac:(lia))) as (s & AV & HI & CA & SH & RE). exists AV. intros _. split; [eauto|]. auto. }
    assert (FN : forall m, exists cap, forall k, (1 <= k <= m)%nat -> (1 <= k <= n_draws lg)%nat -> (exists s, In (draw_event (x_JSTEP (i_h i)) k, s) lg /\ capacities nu i k s (cap k)) /\
      (forall l, (l < x_NFCST (i_h i))%nat -> short (i_h i) (cap k) (x_JSTEP (i_h i) * Z.of_nat k) l 0) /\
      R k = map (fun l => (l, [own_margin (i_h i) (cap k) (x_JSTEP (i_h i) * Z.of_nat k) l 0])) (seq 0 (x_NFCST (i_h i)))).
    { induction m as [|m (cap & HC)]; [exists (fun _ => []); intros; lia|]. destruct (CH (S m)) as (AV & HA). exists (fun k => if Nat.eqb k (S m) then AV else cap k).
      intros k Hk Hk2. destruct (Nat.eqb_spec k (S m)) as [->|NE]; [now apply HA|]. apply HC; lia. }
    destruct (FN (n_draws lg)) as (cap & HC). exists cap. intros k Hk. destruct (HC k Hk Hk) as (A & B & C). split; [exact A|]. split; [exact B|]. rewrite C. apply map_ext. intros l. unfold lacking. now rewrite Z.opp_involutive.
  Qed.
  Lemma single_tally lg R cap k pl wt c l : caps_of lg R cap -> (1 <= k <= n_draws lg)%nat -> (l < x_NFCST (i_h i))%nat -> valid_place 1 pl ->
    tally pl wt c l (R k) = match c with Trans => 0 | _ => if is_short i cap k l then match wt with LOLE => 1 | EUE => lacking i cap k l end else 0 end.
  Proof.
    intros CO Hk Hl VP. destruct (CO k Hk) as (_ & SH & ->). specialize (SH l Hl). assert (NEG : 1 <= lacking i cap k l) by (unfold lacking; pose proof (truncated_short _ _ _ _ SH); lia).
    assert (IS : is_short i cap k l = true) by (apply (proj2 (qleb_iff _ _)); exact SH). rewrite IS. unfold tally. rewrite map_map.
    set (f := fun x : nat => rec_part pl wt c l (x, [- lacking i cap k x])).
    assert (G : forall m b, zsum (map f (seq b m)) = if (Nat.leb b l && Nat.ltb l (b + m))%bool then f l else 0).
    { induction m as [|m IH]; intros b; cbn [seq map].
      - change (zsum []) with 0. destruct (Nat.leb_spec b l), (Nat.ltb_spec l (b + 0)); cbn [andb]; auto; lia.
      - rewrite zsum_cons, IH. assert (NB : b <> l -> f b = 0) by (intros NE; unfold f, rec_part; destruct (Nat.eqb_spec b l); [contradiction|reflexivity]).
        destruct (Nat.eq_dec b l) as [->|NE].
        + destruct (Nat.leb_spec (S l) l); [lia|]. destruct (Nat.leb_spec l l); [|lia]. destruct (Nat.ltb_spec l (l + S m)); [|lia]. cbn [andb]. lia.
        + rewrite NB by exact NE. destruct (Nat.leb_spec (S b) l), (Nat.ltb_spec l (S b + m)), (Nat.leb_spec b l), (Nat.ltb_spec l (b + S m)); cbn [andb]; lia. }
    rewrite G. destruct (Nat.leb_spec 0 l); [|lia]. destruct (Nat.ltb_spec l (0 + x_NFCST (i_h i))); [|lia]. cbn [andb]. unfold f, rec_part. rewrite Nat.eqb_refl.
    assert (TR : transmission pl wt [- lacking i cap k l] = false).
    { assert (Z1 : zsum [- lacking i cap k l] = - lacking i cap k l) by (unfold zsum; cbn [fold_right]; lia). unfold transmission. rewrite Z1.
      destruct pl, wt; (apply Z.ltb_ge || apply Z.leb_gt); lia. }
    rewrite TR.
    assert (AM : rec_amount pl wt [- lacking i cap k l] = match wt with LOLE => 1 | EUE => lacking i cap k l end).
    { destruct pl as [[|j]|]; cbn [valid_place] in VP; try lia; destruct wt; unfold rec_amount, unserved; cbn [nth map]; try reflexivity; try lia.
      - destruct (Z.ltb_spec (- lacking i cap k l) 0); lia.
      - rewrite zsum_cons. change (zsum []) with 0. lia. }
    rewrite AM. destruct c; reflexivity.
  Qed.
  Lemma single_total lg R cap pl wn wt c l ks : caps_of lg R cap -> (forall k, In k ks -> (1 <= k <= n_draws lg)%nat) -> (l < x_NFCST (i_h i))%nat -> valid_place 1 pl ->
    total i pl wn wt c l R ks = match c with Trans => 0 | _ => shortages i wn wt cap l ks end.
  Proof.
    intros CO HK Hl VP. rewrite total_map. 
    transitivity (zsum (map (fun k => match c with Trans => 0 | _ => if is_short i cap k l then match wt with LOLE => 1 | EUE => lacking i cap k l end else 0 end) (filter (counts i wn) ks))).
    - apply zsum_ext. intros k Hk. apply filter_In in Hk. apply (single_tally lg R); auto; apply HK; tauto.
    - destruct c; try reflexivity. clear. induction (filter (counts i wn) ks) as [|x r IH]; [reflexivity|]. cbn [map]. now rewrite zsum_cons, IH.
  Qed.
End One.

(** A completed draw of a single-area study found the area short at every level. *)
Theorem C121_draws : forall inv lp nu nl i fuel pre post o, keeps_areas lp -> input_ok 1 nu nl i ->
  narp inv lp fuel i = Ok (pre ++ post, o) ->
  exists cap, drawn_caps nu i pre cap /\ forall k l, (1 <= k <= n_draws pre)%nat -> (l < x_NFCST (i_h i))%nat -> is_short i cap k l = true /\ 1 <= lacking i cap k l.
Proof.
  intros inv lp nu nl i fuel pre post o KA IN E.
  destruct (narp_at inv lp KA 1 nu nl i IN fuel _ post o E) as (IG & IL & s1 & a & b & c & d & R & l & f1 & _ & _ & _ & P & A & D & FS & _).
  pose proof (pi_draws _ _ _ _ _ _ _ _ _ _ _ _ P) as DR. rewrite A in DR. destruct (single_caps inv lp nu nl i pre R DR) as (cap & CO). exists cap. split.
  - intros k Hk. apply (CO k Hk).
  - intros k q Hk Hq. destruct (CO k Hk) as (_ & SH & _). specialize (SH q Hq). split; [apply (proj2 (qleb_iff _ _)); exact SH|]. unfold lacking. pose proof (truncated_short _ _ _ _ SH). lia.
Qed.
Print Assumptions C121_draws.

(** The statistics of a year are the hours of shortage and the energy lacking, counted
    from the drawn capacities and the loads alone: no line and no limit has a part in
    them, and nothing is put down to transmission.  (The area's own entries at the levels
    that are not cleared are left out: C41.) *)
Theorem C121_year : forall inv lp nu nl i fuel pre post o, keeps_areas lp -> input_ok 1 nu nl i ->
  narp inv lp fuel i = Ok (pre ++ post, o) -> pre <> [] ->
  exists e s cap years, last pre (e, s) = (e, s) /\ In (e, s) pre /\ drawn_caps nu i pre cap /\
    run_years (year_cfg i) 1 0 (start_year 1 (i_INTV i) (i_ITAB i)) years = Ok (w_y (s_w s), w_out (s_w s)) /\ length years = n_years pre /\
    forall y pl wn wt l, (y < n_years pre)%nat -> valid_place 1 pl -> (l < x_NFCST (i_h i))%nat -> cleared 1 (x_NFCST (i_h i)) pl l = true ->
      let st c := part pl wn wt c l (nth y years (first_stat 1, first_stat 1)) in
      st Both = shortages i wn wt cap l (draws_of_year i y) /\ st Gen = st Both /\ st Trans = 0.
Proof.
  intros inv lp nu nl i fuel pre post o KA IN E NE. pose proof (draws_delivered inv lp 1 nu nl i fuel pre post o KA IN E) as DD.
  destruct (C64_annual_partial inv lp 1 nu nl i fuel pre post o KA IN E NE) as (e & s & R & years & L & HI & DO & RY & LY & FA & PT).
  destruct (single_caps inv lp nu nl i pre R DO) as (cap & CO). exists e, s, cap, years. split; [exact L|]. split; [exact HI|].
  split; [intros k Hk; apply (CO k Hk)|]. split; [exact RY|]. split; [exact LY|].
  intros y pl wn wt l Hy VP Hl CL st.
  assert (KS : forall k, In k (draws_of_year i y) -> (1 <= k <= n_draws pre)%nat).
  { intros k Hk. unfold draws_of_year in Hk. apply in_seq in Hk. pose proof (draws_upto_le 1 nu nl i IN (y + 1) (n_years pre) ltac:(lia)). lia. }
  assert (V : forall c, st c = match c with Trans => 0 | _ => shortages i wn wt cap l (draws_of_year i y) end).
  { intros c. unfold st. rewrite PT by auto. apply (single_total nu i pre R cap); auto. }
  rewrite !V. auto.
Qed.
Print Assumptions C121_year.

(** The report. *)
Theorem C121_report : forall inv lp nu nl i SUSTAT fuel pre post o e s r, keeps_areas lp -> input_ok 1 nu nl i ->
  length SUSTAT = 2%nat -> x_NFCST (i_h i) = 5%nat ->
  narp inv lp fuel i = Ok (pre ++ (e, s) :: post, o) -> snd e = qz 4 ->
  printed_report i SUSTAT (s_w s) = Some (Ok r) ->
  let Y := n_years (pre ++ [(e, s)]) in
  exists cap, drawn_caps nu i (pre ++ [(e, s)]) cap /\
  forall l, (l < 5)%nat ->
    let row c := nth (3 * l + code_cause c) (r_pool_level r) no_line in
    let T wn wt := qz (shortages i wn wt cap l (seq 1 (draws_upto i Y))) in
    l_lol (row Both) = Qcdiv (T Hourly LOLE) (qz (Z.of_nat Y)) /\ l_eue (row Both) = Qcdiv (T Hourly EUE) (qz (Z.of_nat Y)) /\
    l_lolp (row Both) = Qcdiv (T Peak LOLE) (qz (Z.of_nat Y)) /\ l_lol (row Trans) = q0 /\ l_eue (row Trans) = q0 /\ l_lolp (row Trans) = q0.
Proof.
  intros inv lp nu nl i SU fuel pre post o e s r KA IN LS N5 E KIND PR Y.
  pose proof (C64_report_levels inv lp 1 nu nl i SU fuel pre post o e s r KA IN LS N5 E KIND PR) as C64. cbv zeta in C64. fold Y in C64. destruct C64 as (R & DO & ROW).
  change (pre ++ (e, s) :: post) with (pre ++ [(e, s)] ++ post) in E. rewrite app_assoc in E.
  pose proof (draws_delivered inv lp 1 nu nl i fuel _ post o KA IN E) as DD. fold Y in DD.
  destruct (single_caps inv lp nu nl i _ R DO) as (cap & CO). exists cap. split; [intros k Hk; apply (CO k Hk)|]. intros l Hl row T.
  assert (KS : forall k, In k (seq 1 (draws_upto i Y)) -> (1 <= k <= n_draws (pre ++ [(e, s)]))%nat) by (intros k Hk; apply in_seq in Hk; lia).
  destruct (ROW Pool Both l I Hl eq_refl) as (A1 & A2 & A3 & _). destruct (ROW Pool Trans l I Hl eq_refl) as (B1 & B2 & B3 & _).
  unfold row. rewrite A1, A2, A3, B1, B2, B3. rewrite !(single_total nu i (pre ++ [(e, s)]) R cap) by (auto; try lia; exact I).
  assert (Z0 : Qcdiv (qz 0) (qz (Z.of_nat Y)) = q0) by (unfold Qcdiv; change (qz 0) with 0%Qc; apply Qcmult_0_l). rewrite !Z0. auto 10.
Qed.
Print Assumptions C121_report.

(** Refuted: hours without a shortage are never counted as such, they stop the run (C50):
    any year that ends has a loss at every draw and every level, and the report has no
    other hours of loss per year than the number of draws per year. *)
Theorem C121_supplied_hours_refuted : forall inv lp nu nl i fuel pre post o, keeps_areas lp -> input_ok 1 nu nl i ->
  narp inv lp fuel i = Ok (pre ++ post, o) -> pre <> [] ->
  exists e s years, In (e, s) pre /\ run_years (year_cfg i) 1 0 (start_year 1 (i_INTV i) (i_ITAB i)) years = Ok (w_y (s_w s), w_out (s_w s)) /\ length years = n_years pre /\
    forall y l, (y < n_years pre)%nat -> (l < x_NFCST (i_h i))%nat -> part Pool Hourly LOLE Both l (nth y years (first_stat 1, first_stat 1)) = Z.of_nat (length (draws_of_year i y)).
Proof.
  intros inv lp nu nl i fuel pre post o KA IN E NE. pose proof (draws_delivered inv lp 1 nu nl i fuel pre post o KA IN E) as DD.
  destruct (C64_annual_partial inv lp 1 nu nl i fuel pre post o KA IN E NE) as (e & s & R & years & L & HI & DO & RY & LY & FA & PT).
  destruct (single_caps inv lp nu nl i pre R DO) as (cap & CO). exists e, s, years. split; [exact HI|]. split; [exact RY|]. split; [exact LY|].
  intros y l Hy Hl. rewrite PT by (auto; exact I).
  assert (KS : forall k, In k (draws_of_year i y) -> (1 <= k <= n_draws pre)%nat).
  { intros k Hk. unfold draws_of_year in Hk. apply in_seq in Hk. pose proof (draws_upto_le 1 nu nl i IN (y + 1) (n_years pre) ltac:(lia)). lia. }
  rewrite (single_total nu i pre R cap) by (auto; exact I). unfold shortages. rewrite counts_hourly.
  transitivity (zsum (map (fun _ : nat => 1) (draws_of_year i y))).
  - apply zsum_ext. intros k Hk. destruct (CO k (KS k Hk)) as (_ & SH & _). specialize (SH l Hl). replace (is_short i cap k l) with true; [reflexivity|]. symmetry. apply (proj2 (qleb_iff _ _)). exact SH.
  - clear. induction (draws_of_year i y) as [|x r IH]; cbn [map length]; [reflexivity|]. rewrite zsum_cons. lia.
Qed.
Print Assumptions C121_supplied_hours_refuted.

(** *** Witness: one area, two units (100 and 50 MW), no lines; load 170 MW.  Four draws a
    year, two years: 8 hours of loss and 160 MWh.  With a load of 150 MW the first draw
    stops the run. *)
Definition single_input (load : Z) : input :=
  mkInput (mkHcfg 2184 1 5 (map (fun d => 24 * Z.of_nat d + 7) (seq 0 365)) [[q1; q1]; [q1; q1]] [q0; q0] [[q1; q1]] [0; 0]
             [] [[-1]] [] [repeat (qz load) (365 * 24)] [repeat q1 5] [[-1]] [] [] 0 true)
          [repeat (qz 100) 4; repeat (qz 50) 4] (repeat [0; 0] 52) [[q0; q0; q0; qz 1000; qz 1000]] 2
          2 (qz 2000) q1 10 0 1 1 1 1 0 0.
Lemma single_input_ok load : input_ok 1 2 0 (single_input load).
Proof.
  constructor; cbn [single_input i_h i_NORR i_RATES i_BN x_JSTEP x_NFCST x_LP length]; auto; [|split; lia|right; auto].
  constructor; cbn [x_HRLOAD x_FCTERR x_CAPOWN x_CAPCON x_PROBG x_DERATE x_PROBL x_JENT x_INTCH x_MXPLHR x_NFCST]; auto; try lia.
  - split; [reflexivity|]. intros [|j] H; [apply repeat_length|exfalso; cbn in H; lia].
  - split; [reflexivity|]. intros [|j] H; [reflexivity|exfalso; cbn in H; lia].
  - split; [reflexivity|]. intros [|j] H; [reflexivity|exfalso; cbn in H; lia].
  - split; [reflexivity|]. intros [|[|j]] H; cbn; lia.
  - split; [|split].
    + split; [reflexivity|]. intros [|j] H; [reflexivity|exfalso; cbn in H; lia].
    + intros [|i] [|j] H1 H2; try (left; reflexivity); exfalso; cbn in H1, H2; lia.
    + intros r [].
  - split; [now rewrite map_length, seq_length|]. intros d Hd. unfold zget. rewrite nth_map_seq by auto. lia.
Qed.
Definition single_shown (load : Z) := match narp (checked_inv []) no_lp 200 (single_input load) with
  | Ok (lg, x) => Some (n_draws lg, n_years lg, match x with Some Converged => Ok true | Some (Failed e) => Err e | _ => Ok false end,
      match rev lg with x :: _ => map (fun k => (summed Pool Hourly LOLE Both k (w_y (s_w (snd x))), summed Pool Hourly EUE Both k (w_y (s_w (snd x))))) [0; 4]%nat | [] => [] end)
  | Err _ => None end.
Example C121_witness : single_shown 170 = Some (8%nat, 2%nat, Ok true, [(8, 160); (8, 160)]) /\ single_shown 150 = Some (0%nat, 0%nat, Err IndexError, [(0, 0); (0, 0)]).
Proof. vm_compute. auto. Qed.
