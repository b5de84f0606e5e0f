(** C102: from input files to a report or a known failure. *)
From Coq Require Import String List.
From Verif Require Import Base BaseProofs Sums LoadModel LoadSpec NetModel NetSpec StatSpec HourModel HourSpec YearModel YearSpec ControlModel ControlSpec RunProofs ReportModel ReportSpec ProgramModel ProgramSpec ProgramProofs
  DataModel DataSpec DataProofs MaintModel MaintSpec PrepModel PrepProofs ReadModel ReadSpec ReadTables PropertiesReport PropertiesProgram PropertiesData PropertiesRead CauseSpec PropertiesCause EndSpec EndProofs.
Import ListNotations.
Open Scope Z_scope.

Section END.
Variable rest : Type.
Variables (loss : Qc -> Qc) (presched : list punit -> mst rest -> res (list Qc * list Z * mst rest))
          (block : nat -> nat -> nat -> mst rest -> res (mst rest)) (r0 : rest).

(** ** C102, preparation: valid cards whose lines connect the areas give a study for which
    C101 holds, with the settings and ratings of the cards. *)
Theorem C102_complete n nu nl c bs : valid_cards n nu nl c -> Forall (full_block n) bs -> sound_lines c ->
  exists i SU, dataf1 rest loss presched block r0 c (load_file bs) = Ok (i, SU) /\ as_set c i /\
    input_ok n nu nl i /\ lines_ok n nl (i_h i) /\ base_net n (i_h i) /\ rates_ok (i_RATES i) /\ outages_ok nu (i_JPLOUT i) /\ length SU = S n.
Proof.
  intros V F SL. destruct (dataf1_full rest loss presched block r0 n nu nl c bs V F) as (fa & fu & d & H & NA & NU & EH & ED & E).
  destruct (dataf1_ok rest loss presched block r0 n nu nl c bs V F) as (i & SU & E' & IN). exists i, SU. split; [exact E'|].
  rewrite E in E'. injection E' as <- <-.
  destruct (datax_form n nu nl c V fa fu NU) as (d' & ED' & _ & _ & _ & _ & _ & _ & _ & _ & _ & _ & _ & _ & EN). rewrite ED in ED'. injection ED' as <-.
  split.
  { unfold as_set. cbn [i_h x_JSTEP x_JFREQ x_NLS x_NFCST i_years i_MAXEUE i_IOJ i_RATES]. repeat split.
    destruct (existsb (fun a => negb (qeqb (a_lfu a) q0)) (c_areas c)); injection EN as -> _; reflexivity. }
  split; [exact IN|].
  cbn [i_h i_RATES i_JPLOUT]. destruct (lines_complete n nu nl c V fa fu NA NU SL d (mkHcfg (m_JSTEP (c_misc c)) (m_JFREQ (c_misc c)) (dx_NFCST d) (map Z.of_nat (plhr H)) (dx_PROBG d) (dx_DERATE d) (dx_CAPOWN d) (dx_CAPCON d) (dx_PROBL d)
                      (dx_JENT d) (dx_INTCH d) H (dx_FCTERR d) (dx_LINENO d) (dx_BLPA d) (dx_LP d) 0 (negb (m_NLS (c_misc c) =? 0))) ED eq_refl eq_refl eq_refl eq_refl) as (LO & BN).
  split; [exact LO|]. split; [exact BN|]. split; [exact (rates_complete n nu nl c V)|]. split; [exact (outages_complete n nu nl c V fa fu NA NU)|].
  unfold sustat. rewrite app_length, mapi_length, map_length. cbn [length]. destruct (v_areas _ _ _ _ V) as (LA & _). lia.
Qed.

(** ** C102, runs *)
Theorem C102_run inv lp n nu nl f c bs fuel : inverts inv -> keeps_areas lp -> says f c -> loads_text bs (f_leei f) ->
  valid_cards n nu nl c -> Forall (full_block n) bs -> sound_lines c ->
  1 <= m_JFREQ (c_misc c) -> (qz 20 <= m_MAXEUE (c_misc c))%Qc -> 1 <= m_FINISH (c_misc c) -> (fuel_bound (qz (8760 * m_FINISH (c_misc c))) < fuel)%nat ->
  exists i SU lg x, dataf1_files rest loss presched block r0 f = Ok (i, SU) /\ narp inv lp fuel i = Ok (lg, Some x) /\
    (x = Converged /\ (1 <= n_years lg)%nat /\ Z.of_nat (n_years lg) <= m_FINISH (c_misc c) /\
       (exists lg' s r, lg = lg' ++ [(year_event (n_years lg), s)] /\ printed_report i SU (s_w s) = Some (Ok r)) \/
     exists er, x = Failed er /\
      ((exists s AVAIL LNSTAT, capacities nu i (S (n_draws lg)) s AVAIL /\ line_states nu nl i (S (n_draws lg)) LNSTAT /\
          (exists lg' e, lg = lg' ++ [(e, s)]) /\
          hour_stops inv lp n (i_h i) (m_JSTEP (c_misc c) * Z.of_nat (S (n_draws lg))) AVAIL LNSTAT er /\
          (er <> UnboundLocalError -> er <> IndexError ->
             (exists B L BN, length BN = n /\ lp B L BN = Err er) \/ m_NLS (c_misc c) = 0 /\ er = TypeError)) \/
       er = UnboundLocalError /\ m_IOJ (c_misc c) <> 0 /\ m_JSTEP (c_misc c) <> 24)).
Proof.
  intros IV KA SA LT V F SL FQ ME FY FB. destruct (C102_complete n nu nl c bs V F SL) as (i & SU & E & SET & IN & LO & BN & RO & OO & LS).
  destruct SET as (S1 & S2 & S3 & S4 & S5 & S6 & S7 & S8).
  assert (FB' : (fuel_bound (i_FINISH i) < fuel)%nat) by (unfold i_FINISH; rewrite S3; exact FB).
  destruct (C101_run inv lp n nu nl i fuel IV KA IN LO BN RO OO ltac:(rewrite S2; exact FQ) ltac:(rewrite S4; exact ME) ltac:(rewrite S3; exact FY) FB') as (lg & x & EN & C).
  exists i, SU, lg, x. split; [rewrite (C91_files _ _ _ _ _ f c bs SA LT); exact E|]. split; [exact EN|].
  destruct C as [->|(er & -> & C)].
  - left. split; [reflexivity|].
    destruct (C65_one_report inv lp n nu nl i fuel lg Converged KA IN ltac:(rewrite S3; exact FY) EN ltac:(intros er; discriminate)) as (_ & lg' & s & os & o & EL & Y1 & Y2 & WO & _ & RP & _).
    split; [exact Y1|]. split; [rewrite <- S3; exact Y2|]. exists lg', s.
    assert (PR : exists r, printed_report i SU (s_w s) = Some (Ok r)).
    { unfold printed_report. rewrite WO, rev_app_distr. cbn [rev app]. rewrite RP. unfold report. rewrite LS. destruct (v_areas _ _ _ _ V) as (_ & NP & _).
      destruct n as [|n']; [lia|]. cbn [Nat.sub pool_row bind]. rewrite ?Nat.sub_0_r. eexists. reflexivity. }
    destruct PR as (r & PR). exists r. auto.
  - right. exists er. split; [reflexivity|]. destruct C as [(s & AV & LN & CA & LNS & LAST & HS & PF)|(EU & I0 & J24 & _)].
    + left. exists s, AV, LN. split; [exact CA|]. split; [exact LNS|]. split; [exact LAST|]. rewrite S1 in HS. split; [exact HS|].
      intros N1 N2. destruct (PF N1 N2) as [P|(P & T)]; [left; exact P|right]. split; [|exact T]. rewrite S6 in P. apply negb_false_iff in P. lia.
    + right. rewrite <- S5, <- S1. auto.
Qed.

(** ** C102, contents: with an uncertain load forecast, the levels of the printed report are
    the yearly means of what happened in the draws of the run (the terms are those of C64). *)
Theorem C102_report inv lp n nu nl f c bs i SU fuel lg' e s r : keeps_areas lp -> says f c -> loads_text bs (f_leei f) ->
  valid_cards n nu nl c -> Forall (full_block n) bs -> sound_lines c -> (exists a, In a (c_areas c) /\ a_lfu a <> q0) ->
  dataf1_files rest loss presched block r0 f = Ok (i, SU) -> narp inv lp fuel i = Ok (lg' ++ [(e, s)], Some Converged) -> snd e = qz 4 ->
  printed_report i SU (s_w s) = Some (Ok r) ->
  let Y := n_years (lg' ++ [(e, s)]) in
  exists R, (forall k, (1 <= k <= n_draws (lg' ++ [(e, s)]))%nat -> draw_outcome inv lp n nu nl i (lg' ++ [(e, s)]) k (R k)) /\
  forall ca k, (k < 5)%nat ->
    let row := nth (3 * k + code_cause ca) (r_pool_level r) no_line in
    let T wn wt := qz (total i Pool wn wt ca k R (seq 1 (draws_upto i Y))) in
    l_lol row = Qcdiv (T Hourly LOLE) (qz (Z.of_nat Y)) /\ l_eue row = Qcdiv (T Hourly EUE) (qz (Z.of_nat Y)) /\
    l_lolp row = Qcdiv (T Peak LOLE) (qz (Z.of_nat Y)).
Proof.
  intros KA SA LT V F SL (a & HA & NZ) E EN KE PR Y. destruct (C102_complete n nu nl c bs V F SL) as (i' & SU' & E' & SET & IN & _ & _ & _ & _ & LS).
  rewrite (C91_files _ _ _ _ _ f c bs SA LT), E' in E. injection E as -> ->.
  destruct SET as (_ & _ & _ & _ & _ & _ & _ & S8).
  assert (N5 : x_NFCST (i_h i) = 5%nat).
  { rewrite S8. replace (existsb (fun a => negb (qeqb (a_lfu a) q0)) (c_areas c)) with true; [reflexivity|]. symmetry. apply existsb_exists. exists a. split; [exact HA|].
    apply negb_true_iff. destruct (qeqb (a_lfu a) q0) eqn:Q; [|reflexivity]. apply (proj1 (qeqb_iff _ _)) in Q. contradiction. }
  destruct (C64_report_levels inv lp n nu nl i SU fuel lg' [] (Some Converged) e s r KA IN LS N5 EN KE PR) as (R & D & G). exists R. split; [exact D|].
  intros ca k Hk row T. destruct (G Pool ca k I Hk eq_refl) as (A & B & C & _). auto.
Qed.
End END.
Print Assumptions C102_complete.
Print Assumptions C102_run.
Print Assumptions C102_report.

(** *** Witness: the files of [tiny] with an uncertain forecast for area A2. *)
Definition unsure : cards string :=
  mkCards tiny_misc [mkArea "A1" (qz 300) q0 (qz 10000); mkArea "A2" (qz 200) (qz 2) (qz 10000)]%string (c_units tiny) (c_lines tiny) [] [] Column.
Definition unsure_table : table := mkTable area_columns
  [[Num (qz 1); Txt "A1"; Num (qz 300); Num q0; Num (qz 1); Num (qz 52); Num (qz 31); Num (qz 32); Num (qz 10000)];
   [Num (qz 2); Txt "A2"; Num (qz 200); Num (qz 2); Num (qz 1); Num (qz 52); Num (qz 31); Num (qz 32); Num (qz 10000)]]%string.
Lemma unsure_says leei : says (tiny_files unsure_table (no_rows derating_columns) leei) unsure.
Proof.
  destruct (tiny_says (tiny_area_table (qz 1) (qz 2) (qz 1)) (no_rows derating_columns) leei (tiny_says_areas _ _ _) ltac:(have_cols)) as [S1 S2 S3 S4 S5 S6 S7 S8].
  constructor; [exact S1| |exact S3|exact S4|exact S5|exact S6|exact S7|exact S8].
  split; [be_tidy|]. split; [have_cols|]. split; [reflexivity|]. intros i a E.
  destruct i as [|[|[|i]]]; try discriminate E; cbn in E; injection E as <-; cbn [a_name a_peak a_lfu a_flows];
    (repeat (split; [first [at_row|num_at]|]); num_at).
Qed.
Lemma unsure_valid : valid_cards 2 3 1 unsure.
Proof. destruct tiny_valid as [V1 V2 V3 V4 V5 V6 V7 V8 V9 V10 V11 V12]. constructor; assumption. Qed.
Definition tiny_line : line_card string :=
  mkLineC 1 "A1"%string "A2"%string [qz (-10); q0; q0; q0; q0; q0] [qz 50; q0; q0; q0; q0; q0] [qz 60; q0; q0; q0; q0; q0] [qq 9 10; qq 1 10; q0; q0; q0; q0].
Lemma joined_lines c : c_lines c = c_lines tiny -> map a_name (c_areas c) = ["A1"; "A2"]%string -> sound_lines c.
Proof.
  intros EL EA.
  assert (ONE : forall l, In l (c_lines c) -> l = tiny_line) by (intros l H; rewrite EL in H; destruct H as [<-|[]]; reflexivity).
  constructor.
  - rewrite EL. discriminate.
  - intros l H. rewrite (ONE l H). rewrite EL. cbn. lia.
  - intros l H. rewrite (ONE l H). discriminate.
  - intros l H. rewrite (ONE l H). apply qleb_iff. vm_compute. reflexivity.
  - intros a0 r a E H.
    assert (E0 : a_name a0 = "A1"%string) by (rewrite E in EA; injection EA as EA _; exact EA). rewrite E0.
    assert (HA : In (a_name a) ["A1"; "A2"]%string) by (rewrite <- EA; apply in_map; exact H).
    destruct HA as [<-|[<-|[]]]; [apply linked_refl|].
    assert (HL : exists l, In l (c_lines c)) by (rewrite EL; eexists; left; reflexivity). destruct HL as (l & HL).
    pose proof (linked_from c "A2"%string l ltac:(rewrite (ONE l HL); apply linked_refl) HL) as X. rewrite (ONE l HL) in X. exact X.
Qed.
Example C102_witness : let f := tiny_files unsure_table (no_rows derating_columns) text_leei in
  says f unsure /\ loads_text text_loads (f_leei f) /\ valid_cards 2 3 1 unsure /\ Forall (full_block 2) text_loads /\ sound_lines unsure /\
  (exists a, In a (c_areas unsure) /\ a_lfu a <> q0) /\ 1 <= m_JFREQ (c_misc unsure) /\ (qz 20 <= m_MAXEUE (c_misc unsure))%Qc /\ 1 <= m_FINISH (c_misc unsure).
Proof.
  intros f. split; [apply unsure_says|]. split; [exact text_loads_text|]. split; [exact unsure_valid|]. split; [exact text_blocks|].
  split; [apply joined_lines; reflexivity|]. split; [|split; [cbn; lia|split; [apply qleb_iff; vm_compute; reflexivity|cbn; lia]]].
  eexists. split; [right; left; reflexivity|]. cbn [a_lfu]. intros C. apply (f_equal this) in C. vm_compute in C. discriminate C.
Qed.
