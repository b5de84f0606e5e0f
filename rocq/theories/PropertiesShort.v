(** C103: a study in which some area is short whatever is drawn runs to its report. *)
From Coq Require Import String List.
From Verif Require Import Base BaseProofs Sums LoadModel LoadSpec NetModel NetSpec StatSpec HourModel HourSpec HourProofs YearModel YearSpec EventModel EventSpec ControlModel ControlSpec ControlProofs RunProofs ReportModel ReportSpec ProgramModel ProgramSpec ProgramProofs
  DataModel DataSpec DataProofs MaintModel MaintSpec PrepModel PrepProofs ReadModel ReadSpec ReadTables MatProofs LinpackModel LinpackProofs PropertiesLinpack PropertiesNet PropertiesReport PropertiesProgram PropertiesData PropertiesRead CauseSpec PropertiesCause EndSpec EndProofs PropertiesEnd ShortProofs.
Import ListNotations.
Open Scope Z_scope.

(** ** C103, capacities: in every state of every run each unit's capacity is between 0 and
    the largest of its ratings. *)
Theorem C103_capacities : forall inv lp n nu nl i tp fuel pre e s post o k AVAIL, keeps_areas lp -> input_ok n nu nl i ->
  (forall u, (u < nu)%nat -> (q0 <= vget (x_DERATE (i_h i)) u)%Qc /\ (vget (x_DERATE (i_h i)) u <= q1)%Qc) ->
  (forall u, (u < nu)%nat -> (q0 <= tp u)%Qc /\ forall x, In x (nth u (i_RATES i) []) -> (q0 <= x)%Qc /\ (x <= tp u)%Qc) ->
  narp inv lp fuel i = Ok (pre ++ (e, s) :: post, o) -> capacities nu i k s AVAIL ->
  length AVAIL = nu /\ forall u, (u < nu)%nat -> (q0 <= vget AVAIL u)%Qc /\ (vget AVAIL u <= tp u)%Qc.
Proof. intros. eapply capacities_bounds; eassumption. Qed.
Print Assumptions C103_capacities.

Lemma fold_filter {A} (f : A -> bool) (g : A -> Qc) l : fold_right Qcplus q0 (map g (filter f l)) = qsum (map (fun x => if f x then g x else q0) l).
Proof. induction l as [|x l IH]; [reflexivity|]. cbn [filter map]. rewrite qsum_cons, <- IH. destruct (f x); cbn [map fold_right]; [reflexivity|]. qring. Qed.
Lemma level_row lfu l : (l < 5)%nat -> nth l (fcterr_row lfu) q0 = level_factor lfu l.
Proof.
  intros H. unfold fcterr_row, level_factor, Qcdiv. generalize (Qcinv (qz 100)) as w. intros w.
  assert (A : qq (-1) 1 = Qcopp q1) by (apply Qc_is_canon; vm_compute; reflexivity).
  assert (B : qq (-5) 2 = Qcopp (qq 5 2)) by (apply Qc_is_canon; vm_compute; reflexivity).
  destruct l as [|[|[|[|[|l]]]]]; [| | | | |lia]; cbn [nth]; rewrite ?A, ?B; qring.
Qed.
Lemma hour_used_lt n nu nl cf k : study n nu nl cf -> (hour_used cf k < 365 * 24)%nat.
Proof.
  intros ST. unfold hour_used. destruct (x_JSTEP cf =? 24).
  - destruct (st_peak _ _ _ _ ST) as (_ & B). pose proof (B _ (day_of_year_lt k)). lia.
  - unfold hour_of_year. pose proof (Z.mod_pos_bound (k - 1) 8760 ltac:(lia)). lia.
Qed.

Section SHORT.
Variable rest : Type.
Variables (loss : Qc -> Qc) (presched : list punit -> mst rest -> res (list Qc * list Z * mst rest))
          (block : nat -> nat -> nat -> mst rest -> res (mst rest)) (r0 : rest).

Lemma short_always n nu nl c bs i SU j : valid_cards n nu nl c -> Forall (full_block n) bs -> dataf1 rest loss presched block r0 c (load_file bs) = Ok (i, SU) ->
  always_short c bs j ->
  exists tp, (forall u, (u < nu)%nat -> (q0 <= tp u)%Qc /\ forall x, In x (nth u (i_RATES i) []) -> (q0 <= x)%Qc /\ (x <= tp u)%Qc) /\
    (j < n)%nat /\ forall AVAIL k l, length AVAIL = nu -> (forall u, (u < nu)%nat -> (vget AVAIL u <= tp u)%Qc) -> (l < 5)%nat -> short (i_h i) AVAIL k l j.
Proof.
  intros V F E (a & b & m & tp & EA & LB & TM & TP & SH).
  destruct (dataf1_ok rest loss presched block r0 n nu nl c bs V F) as (i' & SU' & E2 & IN). rewrite E in E2. injection E2 as <- <-.
  destruct (C71_contents rest loss presched block r0 n nu nl c bs i SU V F E) as (fa & NA & GU & _).
  destruct (C69_digit_partial rest loss presched block r0 n nu nl c bs i SU j a V F E EA) as (GL & _).
  assert (FC : x_FCTERR (i_h i) = map (fun a => fcterr_row (a_lfu a)) (c_areas c)).
  { destruct (dataf1_form rest loss presched block r0 n nu nl c bs V F) as (fa' & fu & d & H & S0 & NA' & NU & EH & ED & E'). rewrite E in E'.
    pose proof (f_equal (fun r => match r with Ok x => x_FCTERR (i_h (fst x)) | Err _ => [] end) E') as X. cbn in X. rewrite X.
    destruct (datax_form n nu nl c V fa' fu NU) as (d' & ED' & _ & _ & _ & _ & _ & _ & _ & _ & _ & _ & EF & _). rewrite ED in ED'. injection ED' as <-. exact EF. }
  assert (HJ : (j < n)%nat) by (rewrite <- (proj1 (v_areas _ _ _ _ V)); apply nth_error_Some; congruence).
  pose (d0 := nth 0 (c_units c) (mkUnit EmptyString EmptyString [] q0 q0 q0 0 0 0 0 0)).
  assert (LU : length (c_units c) = nu) by apply (v_units _ _ _ _ V).
  assert (NE : forall u, (u < nu)%nat -> nth_error (c_units c) u = Some (nth u (c_units c) d0)) by (intros u Hu; apply nth_error_nth'; lia).
  exists (fun u => tp (nth u (c_units c) d0)). split; [|split; [exact HJ|]].
  - intros u Hu. pose proof (NE u Hu) as EU. pose proof (nth_error_In _ _ EU) as IU. destruct (GU u _ EU) as (-> & _).
    destruct (v_caps _ _ _ _ V _ IU) as (L4 & NN). rewrite Forall_forall in NN. split.
    + destruct (u_cap (nth u (c_units c) d0)) as [|x xs] eqn:EC; [discriminate L4|]. eapply Qcle_trans; [apply (NN x); left; reflexivity|]. apply (TP _ x IU). rewrite EC. left. reflexivity.
    + intros x Hx. split; [apply NN; exact Hx|apply (TP _ x IU Hx)].
  - intros AV k l LA BA Hl. unfold short. pose proof (hour_used_lt n nu nl (i_h i) k (in_study _ _ _ _ IN)) as HT. specialize (SH (hour_used (i_h i) k) l HT Hl).
    assert (DM : demand (i_h i) k l j = (nth (hour_used (i_h i) k) (hours_of b) q0 / m * a_peak a * level_factor (a_lfu a) l)%Qc).
    { unfold demand. rewrite (GL b m _ LB TM HT). f_equal. rewrite FC. unfold mget. rewrite (nth_error_nth _ _ [] (map_nth_error _ j _ EA)). apply level_row. exact Hl. }
    rewrite DM. eapply Qcle_trans; [|exact SH].
    assert (LE : (located (i_h i) AV j <= area_top c tp (a_name a))%Qc).
    { unfold located, area_top. rewrite LA, fold_filter, (qsum_map_qs _ _ d0), LU. apply qs_le. intros u Hu. destruct (GU u _ (NE u Hu)) as (_ & -> & _).
      assert (FJ : fa (a_name a) = j) by exact (area_number n nu nl c V fa NA j a EA).
      destruct (Z.eqb_spec (Z.of_nat (fa (u_loc (nth u (c_units c) d0)))) (Z.of_nat j)) as [Q|Q].
      - replace (String.eqb (u_loc (nth u (c_units c) d0)) (a_name a)) with true; [apply BA; exact Hu|]. symmetry. apply String.eqb_eq.
        destruct NA as (INJ & _). apply INJ; [apply (loc_in n nu nl c V); eapply nth_error_In; exact (NE u Hu)|apply in_map; eapply nth_error_In; exact EA|]. lia.
      - replace (String.eqb (u_loc (nth u (c_units c) d0)) (a_name a)) with false; [apply Qcle_refl|]. symmetry. apply String.eqb_neq. intros C. rewrite C, FJ in Q. contradiction. }
    clear - LE. qlra.
Qed.

(** ** C103, runs: with an inverse for what has one, a linear program that answers, every draw
    fresh, no loss sharing and no annual figures (or a daily step), an always-short area makes
    the run end with its report. *)
Theorem C103_completes inv lp n nu nl f c bs fuel j : inverts inv -> keeps_areas lp -> (forall B L BN, exists r, lp B L BN = Ok r) ->
  says f c -> loads_text bs (f_leei f) -> valid_cards n nu nl c -> Forall (full_block n) bs -> sound_lines c ->
  (forall u, In u (c_units c) -> (q0 <= u_der u)%Qc /\ (u_der u <= qz 100)%Qc) -> always_short c bs j ->
  m_JFREQ (c_misc c) = 1 -> m_NLS (c_misc c) <> 0 -> m_IOJ (c_misc c) = 0 \/ m_JSTEP (c_misc c) = 24 ->
  (qz 20 <= m_MAXEUE (c_misc c))%Qc -> 1 <= m_FINISH (c_misc c) -> (fuel_bound (qz (8760 * m_FINISH (c_misc c))) < fuel)%nat ->
  exists i SU lg s r, dataf1_files rest loss presched block r0 f = Ok (i, SU) /\
    narp inv lp fuel i = Ok (lg ++ [(year_event (n_years lg + 1), s)], Some Converged) /\ Z.of_nat (n_years lg + 1) <= m_FINISH (c_misc c) /\
    printed_report i SU (s_w s) = Some (Ok r).
Proof.
  intros IV KA TOT SA LT V F SL DER AS FQ NL NP ME FY FB.
  destruct (C102_complete rest loss presched block r0 n nu nl c bs V F SL) as (i & SU & E & SET & IN & LO & BN & RO & OO & LS).
  destruct (C102_run rest loss presched block r0 inv lp n nu nl f c bs fuel IV KA SA LT V F SL ltac:(lia) ME FY FB) as (i' & SU' & lg & x & E1 & EN & C).
  pose proof E1 as E1'. rewrite (C91_files _ _ _ _ _ f c bs SA LT), E in E1. injection E1 as <- <-.
  destruct SET as (S1 & S2 & S3 & S4 & S5 & S6 & S7 & S8).
  assert (FB' : (fuel_bound (i_FINISH i) < fuel)%nat) by (unfold i_FINISH; rewrite S3; exact FB).
  assert (CONV : x = Converged).
  { destruct (C101_only_cause inv lp n nu nl i fuel IV KA IN LO BN RO OO) as (lg1 & x1 & EN1 & K); try assumption; rewrite ?S2, ?S3, ?S4, ?S5, ?S6, ?S1; try assumption.
    { apply negb_true_iff. apply Z.eqb_neq. exact NL. }
    rewrite EN in EN1. injection EN1 as <- <-. destruct K as [K|(-> & s & AV & l & CA & (lg' & e & EL) & Hl & NS)]; [exact K|exfalso].
    destruct (short_always n nu nl c bs i SU j V F E AS) as (tp & TP & HJ & SHO).
    rewrite EL in EN. destruct (capacities_bounds inv lp KA n nu nl i IN) with (tp := tp) (fuel := fuel) (pre := lg') (e := e) (s := s) (post := @nil (event * lst world)) (o := Some (@Failed world IndexError)) (k := S (n_draws lg)) (AVAIL := AV) as (LA & BA); try assumption.
    { intros u Hu. destruct (C71_contents rest loss presched block r0 n nu nl c bs i SU V F E) as (fa & _ & GU & _).
      assert (NE : exists uc, nth_error (c_units c) u = Some uc).
      { destruct (nth_error (c_units c) u) as [uc|] eqn:EU; [eauto|]. apply nth_error_None in EU. pose proof (proj1 (v_units _ _ _ _ V)). lia. }
      destruct NE as (uc & EU). destruct (GU u uc EU) as (_ & _ & _ & ED). unfold vget. rewrite ED. destruct (DER uc (nth_error_In _ _ EU)) as (A & B). clear - A B.
      assert (X : (u_der uc / qz 100 = u_der uc * qq 1 100)%Qc) by (unfold Qcdiv; f_equal; apply Qc_is_canon; vm_compute; reflexivity).
      rewrite X. assert (Y : (qz 100 * qq 1 100 = q1)%Qc) by (apply Qc_is_canon; vm_compute; reflexivity).
      assert (P : (q0 <= qq 1 100)%Qc) by (apply qleb_iff; vm_compute; reflexivity).
      pose proof (Qcmult_le_compat_r _ _ _ A P) as M1. pose proof (Qcmult_le_compat_r _ _ _ B P) as M2. rewrite Y in M2.
      assert (Z0 : (q0 * qq 1 100 = q0)%Qc) by qring. rewrite Z0 in M1. split; qlra. }
    apply (NS j HJ). apply SHO; [exact LA|intros u Hu; apply BA; exact Hu|]. pose proof (proj2 (st_levels _ _ _ _ (in_study _ _ _ _ IN))). lia. }
  subst x. destruct C as [(_ & Y1 & Y2 & lg' & s & r & EL & PR)|(er & C & _)]; [|discriminate C].
  assert (NY : n_years lg = (n_years lg' + 1)%nat).
  { assert (X : forall y, n_years (lg' ++ [(year_event y, s)]) = (n_years lg' + 1)%nat).
    { intros y. transitivity (List.length (of_kind 4 lg' ++ [year_event y])); [f_equal; apply of_kind_snoc|]. rewrite app_length. reflexivity. }
    rewrite EL at 1. apply X. }
  exists i, SU, lg', s, r. split; [exact E1'|]. rewrite <- NY. split; [rewrite <- EL; exact EN|]. split; [exact Y2|exact PR].
Qed.
End SHORT.
Print Assumptions C103_completes.

(** *** Witnesses.  An inversion routine as assumed: the factorisation of C35, checked. *)
Definition lu_inv (M : list (list Qc)) : option (list (list Qc)) := checked_inv (match M with [] => [] | _ => linpack_inv M (length M) end) M.
Theorem C103_inverts : inverts lu_inv.
Proof.
  split; [intros m M Z H E; exact (checked_inv_ok _ m M Z H E)|].
  intros m M Z SH IL IR. unfold lu_inv, checked_inv. destruct SH as (L & R). rewrite L.
  assert (X : forall c, length c = m -> (forall j, (j < m)%nat -> length (nth j c []) = m) -> is_inverse m (mget M) (mget c) ->
    (if Nat.eqb (length c) m && forallb (fun r => Nat.eqb (length r) m) c &&
     forallb (fun i => forallb (fun j => qeqb (qs m (fun k => Qcmult (mget M i k) (mget c k j))) (if Nat.eqb i j then q1 else q0)) (seq 0 m)) (seq 0 m)
     then Some c else None) <> None).
  { intros c L1 L2 I. replace (Nat.eqb (length c) m) with true by (symmetry; now apply Nat.eqb_eq).
    replace (forallb (fun r => Nat.eqb (length r) m) c) with true.
    2:{ symmetry. apply forallb_forall. intros r Hr. destruct (In_nth _ _ [] Hr) as (j & Hj & <-). apply Nat.eqb_eq. apply L2. lia. }
    replace (forallb _ (seq 0 m)) with true; [discriminate|]. symmetry. apply forallb_forall. intros i Hi. apply in_seq in Hi. apply forallb_forall. intros j Hj. apply in_seq in Hj.
    apply qeqb_iff. apply I; lia. }
  destruct M as [|row rows] eqn:EM.
  - cbn in L. subst m. apply X; [reflexivity|intros j Hj; lia|intros i j Hi; lia].
  - rewrite <- EM in *. assert (P : (0 < m)%nat) by (rewrite <- L, EM; cbn; lia).
    destruct (C35_inverse m M P (conj L R)) as ((S1 & S2) & I & _).
    { apply (injective_of_inverse m _ (mget Z)). exact IL. }
    apply X; assumption.
Qed.
Print Assumptions C103_inverts.

(** A study: the files of [tiny], without loss sharing, with a peak of 3000 MW in area A2 (one
    unit of at most 110 MW) and an uncertain forecast there.  Its run ends with a report, and
    its report has the contents of C102_report. *)
Definition starved_misc : misc := mkMisc 345237 1 (13, 26, 39) 1 1 1 1 1 (qq 25 1000) 1 1 1 (qz 1000) 0 5.
Definition starved_misc_table : table := mkTable misc_columns
  [[Num (qz 345237); Num (qz 1); Num (qz 13); Num (qz 26); Num (qz 39); Num (qz 1); Num (qz 1); Num (qz 1); Num (qz 1); Num (qz 1); Num (qq 25 1000);
    Num (qz 1); Num (qz 1); Num (qz 1); Num (qz 1000); Num (qz 0); Num (qz 0); Num (qz 1); Num (qz 5); Num (qz 1); Num (qz 1)]].
Definition starved : cards string :=
  mkCards starved_misc [mkArea "A1" (qz 300) q0 (qz 10000); mkArea "A2" (qz 3000) (qz 2) (qz 10000)]%string (c_units tiny) (c_lines tiny) [] [] Column.
Definition starved_table : table := mkTable area_columns
  [[Num (qz 1); Txt "A1"; Num (qz 300); Num q0; Num (qz 1); Num (qz 52); Num (qz 31); Num (qz 32); Num (qz 10000)];
   [Num (qz 2); Txt "A2"; Num (qz 3000); Num (qz 2); Num (qz 1); Num (qz 52); Num (qz 31); Num (qz 32); Num (qz 10000)]]%string.
Definition starved_files : files :=
  mkFiles starved_misc_table starved_table tiny_unit_table tiny_line_table (no_rows contract_columns) (no_rows owner_columns) (no_rows derating_columns) text_leei.
Lemma starved_says : says starved_files starved.
Proof.
  destruct (tiny_says (tiny_area_table (qz 1) (qz 2) (qz 1)) (no_rows derating_columns) text_leei (tiny_says_areas _ _ _) ltac:(have_cols)) as [S1 S2 S3 S4 S5 S6 S7 S8].
  constructor; [| |exact S3|exact S4|exact S5|exact S6|exact S7|exact S8].
  - split; [be_tidy|]. split; [have_cols|]. split; [reflexivity|]. intros i a E. destruct i as [|[|i]]; try discriminate E. cbn in E. injection E as <-.
    repeat (split; [first [at_row|num_at]|]). num_at.
  - split; [be_tidy|]. split; [have_cols|]. split; [reflexivity|]. intros i a E.
    destruct i as [|[|[|i]]]; try discriminate E; cbn in E; injection E as <-; cbn [a_name a_peak a_lfu a_flows];
      (repeat (split; [first [at_row|num_at]|]); num_at).
Qed.
Lemma starved_valid : valid_cards 2 3 1 starved.
Proof. destruct tiny_valid as [V1 V2 V3 V4 V5 V6 V7 V8 V9 V10 V11 V12]. constructor; assumption. Qed.
Lemma starved_short : always_short starved text_loads 1.
Proof.
  set (b := mkBlock (ends "AREA:A2") (repeat q1 12 :: repeat (repeat q1 12) 729)).
  assert (ALL : forall x, In x (hours_of b) -> x = q1).
  { intros x H. change (b_lines b) with (repeat (repeat q1 12) 730) in *. unfold hours_of in H. apply in_flat_map in H. destruct H as (v & HV & H).
    apply (repeat_spec 730) in HV. subst v. change (skipn (length (repeat q1 12) - 12) (repeat q1 12)) with (repeat q1 12) in H. apply repeat_spec in H. exact H. }
  assert (LEN : length (hours_of b) = (365 * 24)%nat).
  { apply (hours_length 2). pose proof text_blocks as T. apply Forall_inv_tail, Forall_inv in T. exact T. }
  exists (mkArea "A2" (qz 3000) (qz 2) (qz 10000))%string, b, q1, (fun _ => qz 110). split; [reflexivity|]. split; [|split; [|split]].
  - eexists [_], []. split; [reflexivity|]. split; [split; [lia|reflexivity]|]. intros b' [].
  - split.
    + intros x [<-|H]; [apply qleb_iff; vm_compute; reflexivity|]. rewrite (ALL x H). apply Qcle_refl.
    + right. assert (H : In (nth 0 (hours_of b) q0) (hours_of b)) by (apply nth_In; rewrite LEN; lia). rewrite (ALL _ H) in H. exact H.
  - intros u x HU HX. cbn in HU. destruct HU as [<-|[<-|[<-|[]]]]; cbn in HX; repeat (destruct HX as [<-|HX]; [apply qleb_iff; vm_compute; reflexivity|]); destruct HX.
  - intros t l Ht Hl. assert (H : In (nth t (hours_of b) q0) (hours_of b)) by (apply nth_In; rewrite LEN; exact Ht). rewrite (ALL _ H). clear H ALL LEN Ht.
    cbn [a_name a_peak a_lfu]. destruct l as [|[|[|[|[|l]]]]]; [| | | | |lia]; apply qleb_iff; vm_compute; reflexivity.
Qed.
Example C103_witness rest loss presched block r0 : exists i SU lg s r, dataf1_files rest loss presched block r0 starved_files = Ok (i, SU) /\
  narp lu_inv still_lp (S (fuel_bound (qz 8760))) i = Ok (lg ++ [(year_event (n_years lg + 1), s)], Some Converged) /\ Z.of_nat (n_years lg + 1) <= 1 /\
  printed_report i SU (s_w s) = Some (Ok r).
Proof.
  apply (C103_completes rest loss presched block r0 lu_inv still_lp 2 3 1 starved_files starved text_loads _ 1).
  - exact C103_inverts.
  - intros B L BN F BN' E. injection E as <- <-. now rewrite map_length.
  - intros B L BN. eexists. reflexivity.
  - exact starved_says.
  - exact text_loads_text.
  - exact starved_valid.
  - exact text_blocks.
  - apply joined_lines; reflexivity.
  - intros u HU. cbn in HU. destruct HU as [<-|[<-|[<-|[]]]]; split; apply qleb_iff; vm_compute; reflexivity.
  - exact starved_short.
  - reflexivity.
  - discriminate.
  - left. reflexivity.
  - apply qleb_iff. vm_compute. reflexivity.
  - cbn. lia.
  - apply Nat.lt_succ_diag_r.
Qed.
