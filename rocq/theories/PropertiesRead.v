(** Properties C84-C91: reading the input files. *)
From Coq Require Import String Ascii List Decimal DecimalString.
From Verif Require Import Base BaseProofs LoadModel HourModel ProgramModel DataModel DataSpec DataProofs MaintModel PrepModel PrepProofs PropertiesData
  ProgramSpec ReadModel ReadSpec ReadProofs ReadTables.
Import ListNotations.
Open Scope Z_scope.

(* ------------------------------------------------------------------ *)
(** ** Witnesses: the files of [tiny], in the layout of the integration test *)
Definition tiny_misc_table : table := mkTable misc_columns
  [[Num (qz 345237); Num (qz 0); Num (qz 13); Num (qz 26); Num (qz 39); Num (qz 1); Num (qz 1); Num (qz 1); Num (qz 1); Num (qz 1); Num (qq 25 1000);
    Num (qz 1); Num (qz 1); Num (qz 1); Num (qz 1000); Num (qz 0); Num (qz 0); Num (qz 1); Num (qz 5); Num (qz 1); Num (qz 1)]].
(** [k1], [k2]: the serial numbers; [w]: the first week of the outage windows *)
Definition tiny_area_table (k1 k2 w : Qc) : table := mkTable area_columns
  [[Num k1; Txt "A1"; Num (qz 300); Num q0; Num w; Num (qz 52); Num (qz 31); Num (qz 32); Num (qz 10000)];
   [Num k2; Txt "A2"; Num (qz 200); Num q0; Num w; Num (qz 52); Num (qz 31); Num (qz 32); Num (qz 10000)]]%string.
(** the same with the columns in another order and one more column *)
Definition tiny_area_table2 : table := mkTable
  ["LFU"; "AREA NAME"; "COMMENT"; "PEAK (MW)"; "SUM OF FLOWS CONSTRAINT"; "OUTAGE BEG WK"; "OUTAGE END WK"; "FORBIDDEN BEG WK"; "FORBIDDEN END WK"; "SN"]%string
  [[Num q0; Txt "A1"; Txt "big"; Num (qz 300); Num (qz 10000); Num (qz 1); Num (qz 52); Num (qz 31); Num (qz 32); Num (qz 1)];
   [Num q0; Txt "A2"; Txt "small"; Num (qz 200); Num (qz 10000); Num (qz 1); Num (qz 52); Num (qz 31); Num (qz 32); Num (qz 2)]]%string.
Definition tiny_unit_row (k : Z) (s a : string) (pa b1 d1 b2 d2 : Z) : list cell :=
  [Num (qz k); Txt s; Txt a; Num (qz 100); Num (qz 110); Num (qz 90); Num (qz 100); Num (qq 1 20); Num (qq 1 10); Num (qz 50); Num (qz pa); Num (qz b1); Num (qz d1); Num (qz b2); Num (qz d2)].
Definition tiny_unit_table : table := mkTable unit_columns
  [tiny_unit_row 1 "U1" "A1" 1 20 3 0 0; tiny_unit_row 2 "U2" "A2" 1 20 3 0 0; tiny_unit_row 3 "U3" "A1" 0 0 2 0 0]%string.
Definition tiny_meta : string := "-10. ,50. ,60. ,0.9000, 0. ,0,.0, 1e-1 ,0.,0.,0.,0.0000 ,0,0,0,0,0,0,0,0,0,0,0,0 "%string.
Definition tiny_line_table : table := mkTable line_columns [[Num (qz 1); Num (qz 1); Txt "A1"; Txt "A2"; Txt tiny_meta]]%string.
Definition no_rows (names : list string) : table := mkTable names [].
Definition tiny_files (areas : table) (dd : table) (leei : string) : files :=
  mkFiles tiny_misc_table areas tiny_unit_table tiny_line_table (no_rows contract_columns) (no_rows owner_columns) dd leei.

Lemma field_by t i name c j r : index_of (t_head t) name = Ok j -> nth_error (t_rows t) i = Some r -> nth_error r j = Some c -> field t i name c.
Proof. intros J R C. exists j, r. split; [apply index_ok_inv; exact J|]. auto. Qed.
Ltac at_row := eapply field_by; [reflexivity|reflexivity|reflexivity].
Lemma nodupb (l : list string) : (if list_eq_dec string_dec (nodup string_dec l) l then true else false) = true -> NoDup l.
Proof. destruct (list_eq_dec _ _ _) as [E|]; [|discriminate]. intros _. rewrite <- E. apply NoDup_nodup. Qed.
Ltac be_tidy := split; [apply nodupb; vm_compute; reflexivity|let r := fresh in let H := fresh in intros r H; cbn in H; intuition (subst; reflexivity)].
Ltac have_cols := let x := fresh in let H := fresh in intros x H; vm_compute in H |- *; tauto.
Fixpoint qlist_eqb (a b : list Qc) : bool := match a, b with [], [] => true | x :: a, y :: b => qeqb x y && qlist_eqb a b | _, _ => false end.
Lemma qlist_eqb_eq a : forall b, qlist_eqb a b = true -> a = b.
Proof.
  induction a as [|x a IH]; intros [|y b] E; try discriminate E; [reflexivity|]. cbn in E. apply andb_true_iff in E. destruct E as (E1 & E2).
  apply qeqb_iff in E1. subst. f_equal. apply IH. exact E2.
Qed.
Lemma read_meta_val s v : match read_meta s with Ok w => qlist_eqb w v | Err _ => false end = true -> read_meta s = Ok v.
Proof. destruct (read_meta s) as [w|]; [|discriminate]. intros E. apply qlist_eqb_eq in E. congruence. Qed.
Definition tiny_states : list (Qc * Qc * Qc * Qc) := [(qz (-10), qz 50, qz 60, qq 9 10); (q0, q0, q0, qq 1 10); (q0, q0, q0, q0); (q0, q0, q0, q0); (q0, q0, q0, q0); (q0, q0, q0, q0)].
Lemma tiny_meta_text : meta_text tiny_meta tiny_states.
Proof. apply meta_iff. split; [reflexivity|]. apply read_meta_val. vm_compute. reflexivity. Qed.

Ltac int_at := eexists; split; [at_row|apply qtrunc_qz].
Ltac num_at := eexists; at_row.
Lemma tiny_says_areas k1 k2 w : says_areas (tiny_area_table k1 k2 w) (c_areas tiny).
Proof.
  split; [be_tidy|]. split; [have_cols|]. split; [reflexivity|]. intros i a E.
  destruct i as [|[|[|i]]]; try discriminate E; cbn in E; injection E as <-; cbn [a_name a_peak a_lfu a_flows];
    (repeat (split; [first [at_row|num_at]|]); num_at).
Qed.
Lemma tiny2_says_areas : says_areas tiny_area_table2 (c_areas tiny).
Proof.
  split; [be_tidy|]. split; [have_cols|]. split; [reflexivity|]. intros i a E.
  destruct i as [|[|[|i]]]; try discriminate E; cbn in E; injection E as <-; cbn [a_name a_peak a_lfu a_flows];
    (repeat (split; [first [at_row|num_at]|]); num_at).
Qed.
Lemma tiny_says areas dd leei : says_areas areas (c_areas tiny) -> incl derating_columns (t_head dd) -> says (tiny_files areas dd leei) tiny.
Proof.
  intros SA DD. constructor; cbn [tiny_files f_misc f_areas f_units f_lines f_fc f_od f_dd c_misc tiny c_fc c_od c_pct].
  - split; [be_tidy|]. split; [have_cols|]. split; [reflexivity|]. intros i a E. destruct i as [|[|i]]; try discriminate E. cbn in E. injection E as <-.
    repeat (split; [first [at_row|num_at]|]). num_at.
  - exact SA.
  - split; [be_tidy|]. split; [have_cols|]. split; [reflexivity|]. intros i a E.
    destruct i as [|[|[|[|i]]]]; try discriminate E; cbn in E; injection E as <-; cbn [u_name u_loc u_cap u_dfor u_for u_der u_pa u_b1 u_d1 u_b2 u_d2 tiny_unit];
      (split; [at_row|]; split; [at_row|]; split; [do 4 eexists; split; [reflexivity|]; repeat (split; [at_row|]); at_row|];
       repeat (split; [first [at_row|int_at]|]); num_at).
  - split; [be_tidy|]. split; [have_cols|]. split; [reflexivity|]. intros i a E. destruct i as [|[|i]]; try discriminate E. cbn in E. injection E as <-.
    split; [int_at|]. split; [at_row|]. split; [at_row|]. exists tiny_meta, tiny_states. split; [at_row|]. split; [exact tiny_meta_text|]. repeat split; reflexivity.
  - split; [be_tidy|]. split; [have_cols|]. split; [reflexivity|]. intros i a E. destruct i; discriminate E.
  - split; [be_tidy|]. split; [have_cols|]. split; [reflexivity|]. intros i a E. destruct i; discriminate E.
  - reflexivity.
  - exact DD.
Qed.

(* ------------------------------------------------------------------ *)
(** ** C84: numbers in texts *)
(** A text stands for a number exactly if it is a decimal numeral with blanks around
    it, and then for the value of that numeral. *)
Theorem C84_numbers s x : pyfloat s = Some x <-> exists w, padded w s /\ numeral w x.
Proof. exact (pyfloat_iff s x). Qed.
(** The data of a line is accepted exactly if it is 24 numerals separated by commas;
    the states get them in the order admittance, forward, backward, probability. *)
Theorem C84_line_data t l i x s : read_lines t = Ok l -> tidy t -> nth_error l i = Some x -> field t i "META DATA" (Txt s) ->
  exists states, meta_text s states /\
    ln_adm x = map (fun '(a, f, b, q) => a) states /\ ln_cap x = map (fun '(a, f, b, q) => f) states /\
    ln_capr x = map (fun '(a, f, b, q) => b) states /\ ln_prob x = map (fun '(a, f, b, q) => q) states.
Proof.
  intros E T N F. apply (read_lines_iff t l T) in E. destruct E as (_ & _ & _ & H). destruct (H i x N) as (_ & _ & _ & s' & states & F' & M & R).
  assert (S0 : s = s') by (pose proof (field_det _ _ _ _ _ T F F') as X; congruence). subst s'. exists states. auto.
Qed.
Example C84_witness : meta_text tiny_meta tiny_states /\ pyfloat (list_ascii_of_string " -12.5e1 ") = Some (qz (-125)) /\ pyfloat (list_ascii_of_string "1.2.3") = None.
Proof.
  split; [exact tiny_meta_text|]. split; [|reflexivity].
  apply pyfloat_iff. exists (list_ascii_of_string "-12.5e1"). split; [exists [" "%char], [" "%char]; split; [reflexivity|]; split; constructor; try constructor; vm_compute; tauto|].
  assert (E : qz (-125) = Qcmult (Qcmult (qz (-1)) (Qcplus (qz 12) (Qcdiv (qz 5) (qz 10)))) (qz 10)) by (apply Qc_is_canon; vm_compute; reflexivity). rewrite E.
  apply (numeral_exp (list_ascii_of_string "-12.5") _ "e"%char None (D1 Nil)); [|left; reflexivity|discriminate].
  apply (plain_point (Some false) (D1 (D2 Nil)) (D5 Nil)). left. discriminate.
Qed.

(* ------------------------------------------------------------------ *)
(** ** C85: the cards are what the tables say, found by column name *)
Theorem C85_cards f c : tidy_files f -> (read_cards f = Ok c <-> says f c).
Proof. exact (read_cards_iff f c). Qed.
(** The order of the columns and further columns do not matter. *)
Theorem C85_column_order f f' c : agreeing [] f f' -> tidy_files f -> read_cards f = Ok c -> read_cards f' = Ok c.
Proof.
  intros A T E. apply (read_cards_iff f c T) in E. assert (S' : says f' c) by (apply (agrees_says [] f); [intros x []|exact A|exact E]).
  apply read_cards_iff; [apply (says_tidy _ _ S')|exact S'].
Qed.
Example C85_witness : says (tiny_files (tiny_area_table (qz 1) (qz 2) (qz 1)) (no_rows derating_columns) EmptyString) tiny /\
  says (tiny_files tiny_area_table2 (no_rows derating_columns) EmptyString) tiny.
Proof.
  split; apply tiny_says; try (have_cols); [apply tiny_says_areas|apply tiny2_says_areas].
Qed.

(* ------------------------------------------------------------------ *)
(** ** C86: incomplete input is refused *)
Definition required (f : files) : list (table * list string) :=
  [(f_misc f, misc_columns); (f_areas f, area_columns); (f_units f, unit_columns); (f_lines f, line_columns); (f_fc f, contract_columns);
   (f_od f, owner_columns); (f_dd f, derating_columns)].
Theorem C86_missing_column f t names name : tidy_files f -> In (t, names) (required f) -> In name names -> ~ In name (t_head t) -> exists e, read_cards f = Err e.
Proof.
  intros T R N M. destruct (read_cards f) as [c|er] eqn:E; [|exists er; reflexivity]. exfalso. apply (read_cards_iff f c T) in E. destruct E as [S1 S2 S3 S4 S5 S6 _ S8].
  cbn [required In] in R. destruct R as [R|[R|[R|[R|[R|[R|[R|[]]]]]]]]; injection R as <- <-; apply M;
    first [apply S8, N | apply S1, N | apply S2, N | apply S3, N | apply S4, N | apply S5, N | apply S6, N].
Qed.
(** The settings are one row, with whole numbers where the simulation counts. *)
Theorem C86_one_row f : tidy_files f -> length (t_rows (f_misc f)) <> 1%nat -> exists e, read_cards f = Err e.
Proof.
  intros T L. destruct (read_cards f) as [c|er] eqn:E; [|exists er; reflexivity]. exfalso. apply (read_cards_iff f c T) in E. apply L. apply (s_misc _ _ E).
Qed.
(** A text where a number is needed (here: a peak), and the other way round. *)
Theorem C86_kinds f i s x : tidy_files f -> field (f_areas f) i "PEAK (MW)" (Txt s) \/ field (f_areas f) i "AREA NAME" (Num x) -> exists e, read_cards f = Err e.
Proof.
  intros T H. destruct (read_cards f) as [c|er] eqn:E; [|exists er; reflexivity]. exfalso. apply (read_cards_iff f c T) in E.
  pose proof (s_areas _ _ E) as S2. assert (TA : tidy (f_areas f)) by apply S2.
  assert (L : (i < length (t_rows (f_areas f)))%nat) by (destruct H as [(j & r & _ & R & _)|(j & r & _ & R & _)]; apply (error_lt _ _ _ R)).
  destruct (in_row _ _ _ _ _ S2 L) as (a & _ & F1 & F2 & _).
  destruct H as [H|H]; [pose proof (field_det _ _ _ _ _ TA H F2) as X|pose proof (field_det _ _ _ _ _ TA H F1) as X]; discriminate X.
Qed.
(** A line whose data is not 24 numbers. *)
Theorem C86_line_data f i s : tidy_files f -> field (f_lines f) i "META DATA" (Txt s) -> (forall states, ~ meta_text s states) -> exists e, read_cards f = Err e.
Proof.
  intros T H N. destruct (read_cards f) as [c|er] eqn:E; [|exists er; reflexivity]. exfalso. apply (read_cards_iff f c T) in E.
  pose proof (s_lines _ _ E) as S4. assert (TL : tidy (f_lines f)) by apply S4.
  assert (L : (i < length (t_rows (f_lines f)))%nat) by (destruct H as (j & r & _ & R & _); apply (error_lt _ _ _ R)).
  destruct (in_row _ _ _ _ _ S4 L) as (a & _ & _ & _ & _ & s' & states & F & M & _).
  pose proof (field_det _ _ _ _ _ TL H F) as X. injection X as <-. exact (N _ M).
Qed.
Example C86_witness : tidy_files (tiny_files (mkTable ["AREA NAME"]%string [[Txt "A1"]]%string) (no_rows derating_columns) EmptyString) /\
  read_cards (tiny_files (mkTable ["AREA NAME"]%string [[Txt "A1"]]%string) (no_rows derating_columns) EmptyString) = Err KeyError /\
  (forall states, ~ meta_text "1,2,3" states).
Proof.
  split; [repeat (split; [be_tidy|]); be_tidy|]. split; [vm_compute; reflexivity|].
  intros states M. apply meta_iff in M. destruct M as (_ & M). vm_compute in M. discriminate M.
Qed.

(* ------------------------------------------------------------------ *)
(** ** C87-C89: columns without effect *)
(** Entries keep the order of the file, whatever the serial numbers are. *)
Theorem C87_refuted f f' c : agreeing ["SN"%string] f f' -> tidy_files f -> read_cards f = Ok c -> read_cards f' = Ok c.
Proof.
  intros A T E. apply (read_cards_iff f c T) in E.
  assert (S' : says f' c) by (apply (agrees_says ["SN"%string] f); [intros x [<-|[]]; left; reflexivity|exact A|exact E]).
  apply read_cards_iff; [apply (says_tidy _ _ S')|exact S'].
Qed.
(** the line deratings *)
Theorem C88_refuted rest loss presched block r0 f dd : incl derating_columns (t_head (f_dd f)) -> incl derating_columns (t_head dd) ->
  dataf1_files rest loss presched block r0 (mkFiles (f_misc f) (f_areas f) (f_units f) (f_lines f) (f_fc f) (f_od f) dd (f_leei f)) =
  dataf1_files rest loss presched block r0 f.
Proof.
  intros D1 D2. unfold dataf1_files, read_cards. cbn [f_misc f_areas f_units f_lines f_fc f_od f_dd f_leei].
  apply read_deratings_iff in D1, D2. rewrite D1, D2. reflexivity.
Qed.
(** the weeks of the outage windows and of the forbidden periods *)
Theorem C89_refuted rest loss presched block r0 f f' c : agreeing weeks f f' -> f_leei f' = f_leei f -> tidy_files f -> read_cards f = Ok c ->
  dataf1_files rest loss presched block r0 f' = dataf1_files rest loss presched block r0 f.
Proof.
  intros A L T E. unfold dataf1_files. rewrite L, E. apply (read_cards_iff f c T) in E.
  assert (S' : says f' c) by (apply (agrees_says weeks f); [intros x X; right; right; exact X|exact A|exact E]).
  rewrite (proj2 (read_cards_iff f' c (says_tidy _ _ S')) S'). reflexivity.
Qed.
Lemma tiny_agree skip k1 k2 w k1' k2' w' dd leei : (skip = ["SN"%string] /\ w = w') \/ (skip = weeks /\ k1 = k1' /\ k2 = k2') ->
  agreeing skip (tiny_files (tiny_area_table k1 k2 w) dd leei) (tiny_files (tiny_area_table k1' k2' w') dd leei).
Proof.
  intros K. unfold agreeing. cbn [tiny_files f_misc f_areas f_units f_lines f_fc f_od f_dd].
  assert (R : forall t, tidy t -> agrees skip t t).
  { intros t T. split; [exact T|]. split; [apply incl_refl|]. split; [reflexivity|]. split; [auto|]. intros i name x _ F. exists x. exact F. }
  split; [apply R; be_tidy|]. split; [|split; [apply R; be_tidy|split; [apply R; be_tidy|split; [apply R; be_tidy|split; [apply R; be_tidy|apply incl_refl]]]]].
  split; [be_tidy|]. split; [apply incl_refl|]. split; [reflexivity|].
  assert (G : forall i name c, field (tiny_area_table k1 k2 w) i name c ->
    (~ In name skip -> field (tiny_area_table k1' k2' w') i name c) /\ (forall x, c = Num x -> number_in (tiny_area_table k1' k2' w') i name)).
  { intros i name c (j & r & J & R0 & C). destruct i as [|[|i]]; [..|destruct i; discriminate R0]; cbn in R0; injection R0 as <-;
      (do 9 (destruct j as [|j]; [cbn in J, C; injection J as <-; injection C as <-;
         (split; [intros N; first [at_row | exfalso; destruct K as [(-> & _)|(-> & _)]; apply N; cbv; tauto
                                   | destruct K as [(-> & <-)|(-> & <- & <-)]; first [at_row|exfalso; apply N; cbv; tauto]]
                 |intros x X; first [discriminate X|num_at]])|]); destruct j; discriminate J). }
  split; [intros i name c N F; apply (G i name c F); exact N|]. intros i name x _ F. apply (proj2 (G i name (Num x) F) x eq_refl).
Qed.
(** Area "A2" is to come first, but stays second. *)
Example C87_witness : let f := tiny_files (tiny_area_table (qz 1) (qz 2) (qz 1)) (no_rows derating_columns) EmptyString in
  let f' := tiny_files (tiny_area_table (qz 2) (qz 1) (qz 1)) (no_rows derating_columns) EmptyString in
  agreeing ["SN"%string] f f' /\ tidy_files f /\ read_cards f = Ok tiny /\ read_cards f' = Ok tiny.
Proof.
  intros f f'. assert (A : agreeing ["SN"%string] f f') by (apply tiny_agree; left; auto).
  assert (S0 : says f tiny) by (apply tiny_says; [apply tiny_says_areas|have_cols]). pose proof (says_tidy _ _ S0) as T.
  assert (R : read_cards f = Ok tiny) by (apply read_cards_iff; assumption). split; [exact A|]. split; [exact T|]. split; [exact R|]. apply (C87_refuted f f' tiny A T R).
Qed.
(** Windows that begin in week 1 or in week 25. *)
Example C89_witness leei : let f := tiny_files (tiny_area_table (qz 1) (qz 2) (qz 1)) (no_rows derating_columns) leei in
  let f' := tiny_files (tiny_area_table (qz 1) (qz 2) (qz 25)) (no_rows derating_columns) leei in
  agreeing weeks f f' /\ f_leei f' = f_leei f /\ tidy_files f /\ read_cards f = Ok tiny.
Proof.
  intros f f'. assert (S0 : says f tiny) by (apply tiny_says; [apply tiny_says_areas|have_cols]). pose proof (says_tidy _ _ S0) as T.
  split; [apply tiny_agree; right; auto|]. split; [reflexivity|]. split; [exact T|]. apply read_cards_iff; assumption.
Qed.
(** Line 1 halved whenever unit "U1" is down, or no deratings. *)
Example C88_witness : incl derating_columns (t_head (mkTable derating_columns [[Num (qz 1); Num (qz 1); Txt "U1"; Txt ""; Txt ""; Txt ""; Num (qq 1 2); Num (qq 1 2)]]%string)) /\
  incl derating_columns (t_head (no_rows derating_columns)).
Proof. split; apply incl_refl. Qed.

(* ------------------------------------------------------------------ *)
(** ** C90: the load file *)
Theorem C90_load_text bs s : loads_text bs s -> leei_lines s = load_file bs.
Proof. exact (leei_lines_spec bs s). Qed.

(* ------------------------------------------------------------------ *)
(** ** C91: from the files to the simulation *)
Theorem C91_files rest loss presched block r0 f c bs : says f c -> loads_text bs (f_leei f) ->
  dataf1_files rest loss presched block r0 f = dataf1 rest loss presched block r0 c (load_file bs).
Proof.
  intros S0 L. unfold dataf1_files. rewrite (proj2 (read_cards_iff f c (says_tidy _ _ S0)) S0). cbn [bind]. rewrite (leei_lines_spec bs _ L). reflexivity.
Qed.
Theorem C91_accepted rest loss presched block r0 n nu nl f c bs : says f c -> loads_text bs (f_leei f) -> valid_cards n nu nl c -> Forall (full_block n) bs ->
  exists i SU, dataf1_files rest loss presched block r0 f = Ok (i, SU) /\ input_ok n nu nl i.
Proof.
  intros S0 L V F. rewrite (C91_files _ _ _ _ _ f c bs S0 L). apply C71_accepted; assumption.
Qed.
(** Whatever is accepted was said by the files. *)
Theorem C91_nothing_else rest loss presched block r0 f x : tidy_files f -> dataf1_files rest loss presched block r0 f = Ok x ->
  exists c, says f c /\ dataf1 rest loss presched block r0 c (leei_lines (f_leei f)) = Ok x.
Proof.
  intros T E. unfold dataf1_files in E. destruct (read_cards f) as [c|] eqn:R; [|discriminate E]. cbn [bind] in E. exists c. split; [apply (read_cards_iff f c T); exact R|exact E].
Qed.

(** A load file as in the integration test: the first line of an area begins with a date. *)
Definition nl : list ascii := [line_feed].
Definition words_line (ws : list string) : list ascii := concat (map (fun w => " "%char :: list_ascii_of_string w) ws).
Definition ones_line : list ascii := words_line (repeat "1"%string 12).
Definition peak_line : list ascii := words_line ("0101"%string :: "2"%string :: repeat "1"%string 11).
Definition area_text (h : string) (first : list ascii) : list ascii := list_ascii_of_string h ++ nl ++ first ++ nl ++ concat (repeat (ones_line ++ nl) 729).
Definition ends (h : string) : string := string_of_list_ascii (list_ascii_of_string h ++ nl).
Definition text_loads : list load_block :=
  [mkBlock (ends "AREA:A1") ((qz 101 :: qz 2 :: repeat q1 11) :: repeat (repeat q1 12) 729); mkBlock (ends "AREA:A2") (repeat q1 12 :: repeat (repeat q1 12) 729)]%string.
Definition text_leei : string := string_of_list_ascii (area_text "AREA:A1" peak_line ++ area_text "AREA:A2" ones_line).
Lemma text_blocks : Forall (full_block 2) text_loads.
Proof.
  assert (R : forall k, Forall (fun v : list Qc => (12 <= length v)%nat) (repeat (repeat q1 12) k)).
  { intros k. apply Forall_forall. intros v H. apply repeat_spec in H. subst v. cbn. lia. }
  constructor; [|constructor; [|constructor]].
  - split; [exists 1%nat; split; [lia|]; split; [lia|reflexivity]|]. cbn [b_lines]. split; [cbn [length]; rewrite repeat_length; reflexivity|]. constructor; [cbn; lia|]. apply R.
  - split; [exists 2%nat; split; [lia|]; split; [lia|reflexivity]|]. cbn [b_lines]. split; [cbn [length]; rewrite repeat_length; reflexivity|]. constructor; [cbn; lia|]. apply R.
Qed.
Lemma words_line_spaced ws : Forall (fun w => w <> EmptyString /\ Forall (fun c => ~ blank c) (list_ascii_of_string w)) ws -> ws <> [] ->
  spaced (map list_ascii_of_string ws) (words_line ws).
Proof.
  assert (B : blank " ") by (vm_compute; tauto). assert (BS : blanks [" "%char]) by (repeat constructor; exact B).
  intros F. induction F as [|w ws (N & W) F IH]; intros NE; [congruence|].
  assert (NW : list_ascii_of_string w <> []) by (destruct w; [congruence|discriminate]).
  destruct ws as [|w2 ws].
  - unfold words_line. cbn [map concat]. rewrite app_nil_r. rewrite <- (app_nil_r (list_ascii_of_string w)) at 2. apply (spaced_last [" "%char]); [exact BS|exact NW|exact W|constructor].
  - specialize (IH ltac:(discriminate)). unfold words_line in *. cbn [map concat] in *. cbn [app] in *.
    apply (spaced_cons [" "%char] _ " "%char _ _ BS NW W B). exact IH.
Qed.
Ltac solve_words := repeat constructor; try discriminate; try (vm_compute; intuition discriminate).
Lemma numeral_val w x : pyfloat w = Some x -> (forall c, In c w -> ~ blank c) -> numeral w x.
Proof.
  intros E N. apply pyfloat_iff in E. destruct E as (v & (a & b & -> & A & B) & M).
  assert (Z0 : forall l, blanks l -> (forall c, In c l -> ~ blank c) -> l = []).
  { intros l BL NB. destruct BL as [|c l H _]; [reflexivity|]. exfalso. apply (NB c); [left; reflexivity|exact H]. }
  rewrite (Z0 a A) by (intros c H; apply N, in_or_app; left; exact H).
  rewrite (Z0 b B) by (intros c H; apply N, in_or_app; right; apply in_or_app; right; exact H). rewrite app_nil_r. exact M.
Qed.
Lemma num1 : numeral (list_ascii_of_string "1") q1.
Proof. assert (E : q1 = Qcmult (qz (svalue None)) (qz (Z.of_uint (D1 Nil)))) by (apply Qc_is_canon; vm_compute; reflexivity). rewrite E. apply numeral_plain. apply (plain_whole None (D1 Nil)). discriminate. Qed.
Lemma num2 : numeral (list_ascii_of_string "2") (qz 2).
Proof. assert (E : qz 2 = Qcmult (qz (svalue None)) (qz (Z.of_uint (D2 Nil)))) by (apply Qc_is_canon; vm_compute; reflexivity). rewrite E. apply numeral_plain. apply (plain_whole None (D2 Nil)). discriminate. Qed.
Lemma num101 : numeral (list_ascii_of_string "0101") (qz 101).
Proof. assert (E : qz 101 = Qcmult (qz (svalue None)) (qz (Z.of_uint (D0 (D1 (D0 (D1 Nil))))))) by (apply Qc_is_canon; vm_compute; reflexivity). rewrite E. apply numeral_plain. apply (plain_whole None (D0 (D1 (D0 (D1 Nil))))). discriminate. Qed.
Lemma ones_text : data_text (repeat q1 12) ones_line.
Proof.
  split; [vm_compute; intuition discriminate|]. exists (map list_ascii_of_string (repeat "1"%string 12)). split; [apply words_line_spaced; [solve_words|discriminate]|].
  cbn [repeat map]. repeat (constructor; [exact num1|]). constructor.
Qed.
Lemma peak_text : data_text (qz 101 :: qz 2 :: repeat q1 11) peak_line.
Proof.
  split; [vm_compute; intuition discriminate|]. exists (map list_ascii_of_string ("0101"%string :: "2"%string :: repeat "1"%string 11)). split; [apply words_line_spaced; [solve_words|discriminate]|].
  cbn [repeat map]. constructor; [exact num101|]. constructor; [exact num2|]. repeat (constructor; [exact num1|]). constructor.
Qed.
Lemma map_repeat_ {A B} (g : A -> B) a k : map g (repeat a k) = repeat (g a) k.
Proof. induction k as [|k IH]; [reflexivity|]. cbn. congruence. Qed.
Lemma area_block h first v : no_newline (list_ascii_of_string h) -> firstn 4 (list_ascii_of_string h) = ["A"; "R"; "E"; "A"]%char -> data_text v first ->
  block_text (mkBlock (ends h) (v :: repeat (repeat q1 12) 729)) (area_text h first).
Proof.
  intros N A D. exists (list_ascii_of_string h), (first :: repeat ones_line 729). cbn [b_header b_lines].
  split; [|split; [exact N|split; [exact A|split]]].
  - unfold area_text. cbn [map concat]. rewrite <- !app_assoc. rewrite map_repeat_. reflexivity.
  - unfold ends. apply list_ascii_of_string_of_list_ascii.
  - constructor; [exact D|]. generalize 729%nat as k. induction k as [|k IH]; [constructor|]. constructor; [exact ones_text|exact IH].
Qed.
Lemma text_loads_text : loads_text text_loads text_leei.
Proof.
  exists [area_text "AREA:A1" peak_line; area_text "AREA:A2" ones_line]. split.
  - unfold text_leei. rewrite list_ascii_of_string_of_list_ascii. cbn [concat]. rewrite app_nil_r. reflexivity.
  - constructor; [|constructor; [|constructor]]; (apply area_block; [vm_compute; intuition discriminate|reflexivity|]); [exact peak_text|exact ones_text].
Qed.
Example C90_witness : loads_text text_loads text_leei. Proof. exact text_loads_text. Qed.
Example C91_witness : let f := tiny_files (tiny_area_table (qz 1) (qz 2) (qz 1)) (no_rows derating_columns) text_leei in
  says f tiny /\ loads_text text_loads (f_leei f) /\ valid_cards 2 3 1 tiny /\ Forall (full_block 2) text_loads.
Proof.
  intros f. split; [apply tiny_says; [apply tiny_says_areas|have_cols]|]. split; [exact text_loads_text|]. split; [exact tiny_valid|exact text_blocks].
Qed.

Print Assumptions C84_numbers.
Print Assumptions C84_line_data.
Print Assumptions C85_cards.
Print Assumptions C85_column_order.
Print Assumptions C86_missing_column.
Print Assumptions C86_one_row.
Print Assumptions C86_kinds.
Print Assumptions C86_line_data.
Print Assumptions C87_refuted.
Print Assumptions C88_refuted.
Print Assumptions C89_refuted.
Print Assumptions C90_load_text.
Print Assumptions C91_files.
Print Assumptions C91_accepted.
Print Assumptions C91_nothing_else.
