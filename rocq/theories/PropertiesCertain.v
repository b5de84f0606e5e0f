(** Property theorems of C114: without random outages every year is the same. *)
From Verif Require Import Base BaseProofs Sums LoadModel LoadSpec StatModel StatSpec YearModel YearSpec YearProofs YearRun ReportSpec SampleModel NetModel EventModel ControlModel ControlSpec ControlProofs RunProofs
  HourModel HourSpec HourProofs ProgramModel ProgramSpec ProgramProofs HistorySpec HistoryProofs PropertiesNet PropertiesHour PropertiesYear PropertiesProgram CertainSpec CertainProofs.
Open Scope Z_scope.

Section Certain.
  Variables (inv : list (list Qc) -> option (list (list Qc)))
            (lp : list (list Qc) -> list (list Qc) -> list (list Qc) -> res (list Qc * list (list Qc))).
  Hypothesis KA : keeps_areas lp. Hypothesis KL : keeps_limits lp.
  Variables (n nu nl : nat) (i : input).
  Hypothesis IN : input_ok n nu nl i.
  Hypothesis CE : certain nu nl i.

  Lemma certain_at fuel pre e s post o : narp inv lp fuel i = Ok (pre ++ (e, s) :: post, o) ->
    exists b l, cinv inv lp n nu nl i s (n_draws (pre ++ [(e, s)])) b (n_years (pre ++ [(e, s)])) l.
  Proof.
    intros E. change (pre ++ (e, s) :: post) with (pre ++ [(e, s)] ++ post) in E. rewrite app_assoc in E.
    destruct (narp_at inv lp KA n nu nl i IN fuel _ post o E) as (IG & IL & s1 & a & b & c & d & R & l & f1 & SD & T & _ & _ & A & D & FS & _).
    unfold final_state in FS. rewrite map_app in FS. cbn [map] in FS. rewrite last_last in FS. cbn [snd] in FS. subst s1.
    destruct (certain_trace inv lp KA KL n nu nl i IN CE IG IL _ s a b c d SD T) as (l' & C). exists b, l'. rewrite <- A, <- D. exact C.
  Qed.
  Lemma total_of l y pl wn wt c k : levels_ok (x_NFCST (i_h i)) (i_NORR i) -> Forall (annual_ok n) l ->
    run_years (year_cfg i) n 0 (start_year n (i_INTV i) (i_ITAB i)) l = Ok y -> valid_place n pl -> (k < x_NFCST (i_h i))%nat ->
    summed pl wn wt c k (fst y) = ysum (part pl wn wt c k) l.
  Proof.
    intros HL FA E VP Hk. destruct y as [y os]. destruct (C40_sums_over_years (year_cfg i) n _ _ _ _ _ HL FA E) as ([A1 A2 A3 A4] & [B1 B2 B3 B4]).
    destruct A1, A2, A3, A4, B1, B2, B3, B4. change (NFCST (year_cfg i)) with (x_NFCST (i_h i)) in *. cbn [fst].
    unfold summed, part. destruct pl as [j|]; cbn [valid_place] in VP; destruct wn, wt, c; cbv zeta; cbn [fst snd]; auto.
  Qed.
  Lemma ysum_const f v (l : list annual) : (forall y, (y < length l)%nat -> f (nth y l (first_stat n, first_stat n)) = v) -> ysum f l = Z.of_nat (length l) * v.
  Proof.
    unfold ysum. induction l as [|a l IH]; intros H; [reflexivity|]. cbn [map length]. pose proof (H 0%nat ltac:(cbn; lia)) as H0. cbn [nth] in H0. rewrite zsum_cons, H0. rewrite IH; [lia|]. intros y Hy. exact (H (S y) ltac:(cbn; lia)).
  Qed.
  Lemma ysum_growing f v (l : list annual) : (forall y, (y < length l)%nat -> f (nth y l (first_stat n, first_stat n)) = Z.of_nat (S y) * v) -> 2 * ysum f l = Z.of_nat (length l) * (Z.of_nat (length l) + 1) * v.
  Proof.
    unfold ysum. induction l as [|a l IH] using rev_ind; intros H; [reflexivity|]. rewrite map_app, zsum_app, app_length. cbn [map length]. rewrite zsum_cons. change (zsum []) with 0.
    pose proof (H (length l) ltac:(rewrite app_length; cbn; lia)) as HL. rewrite app_nth2, Nat.sub_diag in HL by lia. cbn [nth] in HL. rewrite HL.
    assert (IH' : 2 * zsum (map f l) = Z.of_nat (length l) * (Z.of_nat (length l) + 1) * v).
    { apply IH. intros y Hy. rewrite <- H by (rewrite app_length; lia). now rewrite app_nth1 by lia. }
    rewrite Nat2Z.inj_add, Nat2Z.inj_succ. change (Z.of_nat 1) with 1. set (L := Z.of_nat (length l)) in *.
    transitivity (2 * zsum (map f l) + 2 * ((L + 1) * v)); [unfold Z.succ; ring|]. rewrite IH'. ring.
  Qed.
  Lemma qsum_same x m : qsum (repeat x m) = (qz (Z.of_nat m) * x)%Qc.
  Proof. induction m as [|m IH]; [change (qsum (repeat x 0)) with q0; change (qz (Z.of_nat 0)) with q0; qring|]. cbn [repeat]. rewrite qsum_cons, IH, Nat2Z.inj_succ. unfold Z.succ. rewrite qz_plus. change (qz 1) with q1. qring. Qed.
  Lemma same_mean x m : (0 < m)%nat -> mean (repeat x m) = x /\ sq_err (repeat x m) = q0.
  Proof.
    intros Hm. assert (NZ : qz (Z.of_nat m) <> q0) by (change q0 with (qz 0); intros H; apply qz_inj in H; lia).
    assert (M : mean (repeat x m) = x). { unfold mean. rewrite qsum_same, repeat_length. field. exact NZ. }
    split; [exact M|]. unfold sq_err. rewrite M. replace (map _ (repeat x m)) with (repeat q0 m).
    - rewrite qsum_same, repeat_length. unfold Qcdiv. qring.
    - clear. induction m as [|m IH]; [reflexivity|]. cbn [repeat map]. f_equal; [unfold qsq; qring|exact IH].
  Qed.
End Certain.

(** In a study in which nothing is left to chance ([certain]), every year that has ended
    had the same annual statistics: the sum of what its hours lose, each hour by itself
    ([year_loss]: no earlier hour, no random number, no year matters).  The entries of an
    area that are not cleared at a year end (C41) are left out here.  [years] are the years
    whose ends have been run. *)
Theorem C114_years_partial : forall inv lp n nu nl i fuel pre e s post o, keeps_areas lp -> keeps_limits lp -> input_ok n nu nl i -> certain nu nl i ->
  narp inv lp fuel i = Ok (pre ++ (e, s) :: post, o) ->
  exists years, run_years (year_cfg i) n 0 (start_year n (i_INTV i) (i_ITAB i)) years = Ok (w_y (s_w s), w_out (s_w s)) /\
    length years = n_years (pre ++ [(e, s)]) /\
    forall y pl wn wt c k, (y < length years)%nat -> valid_place n pl -> (k < x_NFCST (i_h i))%nat -> cleared n (x_NFCST (i_h i)) pl k = true ->
      part pl wn wt c k (nth y years (first_stat n, first_stat n)) = year_loss inv lp n nu nl i pl wn wt c k.
Proof.
  intros inv lp n nu nl i fuel pre e s post o KA KL IN CE E. destruct (certain_at inv lp KA KL n nu nl i IN CE _ _ _ _ _ _ E) as (b & l & C).
  exists l. pose proof (certain_years inv lp n nu nl i IN CE _ _ _ _ _ C) as Y. destruct C as [_ _ _ C4 C5 _ _]. split; [exact C4|]. split; [exact C5|].
  intros y pl wn wt c k Hy VP Hk CL. rewrite Y by (auto; lia). rewrite CL. lia.
Qed.
Print Assumptions C114_years_partial.

(** The accumulated statistics after y years are y times those of a year. *)
Theorem C114_totals_partial : forall inv lp n nu nl i fuel pre e s post o, keeps_areas lp -> keeps_limits lp -> input_ok n nu nl i -> certain nu nl i ->
  narp inv lp fuel i = Ok (pre ++ (e, s) :: post, o) ->
  forall pl wn wt c k, valid_place n pl -> (k < x_NFCST (i_h i))%nat -> cleared n (x_NFCST (i_h i)) pl k = true ->
    summed pl wn wt c k (w_y (s_w s)) = Z.of_nat (n_years (pre ++ [(e, s)])) * year_loss inv lp n nu nl i pl wn wt c k.
Proof.
  intros inv lp n nu nl i fuel pre e s post o KA KL IN CE E pl wn wt c k VP Hk CL. destruct (certain_at inv lp KA KL n nu nl i IN CE _ _ _ _ _ _ E) as (b & l & C).
  pose proof (certain_years inv lp n nu nl i IN CE _ _ _ _ _ C) as Y. destruct C as [_ _ _ C4 C5 C6 _].
  pose proof (total_of n i l _ pl wn wt c k (in_levels _ _ _ _ IN) C6 C4 VP Hk) as T. cbn [fst] in T. rewrite T.
  rewrite (ysum_const n _ (year_loss inv lp n nu nl i pl wn wt c k)); [f_equal; f_equal; exact C5|]. intros y Hy. rewrite Y by (auto; lia). rewrite CL. lia.
Qed.
Print Assumptions C114_totals_partial.

(** The statistics counted so far, after the last draw of any year. *)
Theorem C114_annual_partial : forall inv lp n nu nl i fuel pre e s post o y, keeps_areas lp -> keeps_limits lp -> input_ok n nu nl i -> certain nu nl i ->
  narp inv lp fuel i = Ok (pre ++ (e, s) :: post, o) ->
  n_years (pre ++ [(e, s)]) = y -> x_JSTEP (i_h i) * Z.of_nat (n_draws (pre ++ [(e, s)])) = 8760 * Z.of_nat (S y) ->
  forall pl wn wt c k, valid_place n pl -> (k < x_NFCST (i_h i))%nat -> cleared n (x_NFCST (i_h i)) pl k = true ->
    part pl wn wt c k (hrs (w_h (s_w s)), pks (w_h (s_w s))) = year_loss inv lp n nu nl i pl wn wt c k.
Proof.
  intros inv lp n nu nl i fuel pre e s post o y KA KL IN CE E HY HD pl wn wt c k VP Hk CL. destruct (certain_at inv lp KA KL n nu nl i IN CE _ _ _ _ _ _ E) as (b & l & C).
  rewrite HY in C. replace (length (of_kind 1 (pre ++ [(e, s)]))) with (draws_upto i (S y)) in C.
  - rewrite (certain_current inv lp n nu nl i IN CE _ _ _ _ C) by auto. rewrite CL. lia.
  - apply (draws_upto_full n nu nl i IN); [lia|]. pose proof (in_step _ _ _ _ IN) as SO. unfold step_ok in SO. lia.
Qed.
Print Assumptions C114_annual_partial.

(** Refuted for the entries that are not cleared: the y-th year has y times the losses of
    a year, and the total after y years is y (y + 1) / 2 times. *)
Theorem C114_area_years_refuted : forall inv lp n nu nl i fuel pre e s post o, keeps_areas lp -> keeps_limits lp -> input_ok n nu nl i -> certain nu nl i ->
  narp inv lp fuel i = Ok (pre ++ (e, s) :: post, o) -> let Y := Z.of_nat (n_years (pre ++ [(e, s)])) in
  exists years, run_years (year_cfg i) n 0 (start_year n (i_INTV i) (i_ITAB i)) years = Ok (w_y (s_w s), w_out (s_w s)) /\ Z.of_nat (length years) = Y /\
  forall pl wn wt c k, valid_place n pl -> (k < x_NFCST (i_h i))%nat -> cleared n (x_NFCST (i_h i)) pl k = false ->
    (forall y, (y < length years)%nat -> part pl wn wt c k (nth y years (first_stat n, first_stat n)) = Z.of_nat (S y) * year_loss inv lp n nu nl i pl wn wt c k) /\
    2 * summed pl wn wt c k (w_y (s_w s)) = Y * (Y + 1) * year_loss inv lp n nu nl i pl wn wt c k.
Proof.
  intros inv lp n nu nl i fuel pre e s post o KA KL IN CE E Y. destruct (certain_at inv lp KA KL n nu nl i IN CE _ _ _ _ _ _ E) as (b & l & C).
  pose proof (certain_years inv lp n nu nl i IN CE _ _ _ _ _ C) as CY. destruct C as [_ _ _ C4 C5 C6 _]. exists l. split; [exact C4|]. split; [unfold Y; now rewrite C5|].
  intros pl wn wt c k VP Hk CL.
  assert (P : forall y, (y < length l)%nat -> part pl wn wt c k (nth y l (first_stat n, first_stat n)) = Z.of_nat (S y) * year_loss inv lp n nu nl i pl wn wt c k).
  { intros y Hy. rewrite CY by (auto; lia). now rewrite CL. }
  split; [exact P|]. pose proof (total_of n i l _ pl wn wt c k (in_levels _ _ _ _ IN) C6 C4 VP Hk) as T. cbn [fst] in T. rewrite T.
  rewrite (ysum_growing n _ _ l P). unfold Y. rewrite <- C5. reflexivity.
Qed.
Print Assumptions C114_area_years_refuted.

(** Hence the convergence test is passed at the first year in which it is made, the fifth,
    if the selected statistic is not zero (and is not the pool's weighted value: C45). *)
Theorem C114_converges_at_five_partial : forall inv lp n nu nl i fuel pre e s post o pl wn wt b, keeps_areas lp -> keeps_limits lp -> input_ok n nu nl i -> certain nu nl i ->
  narp inv lp fuel i = Ok (pre ++ (e, s) :: post, o) -> let Y := Z.of_nat (n_years (pre ++ [(e, s)])) in 1 <= Y ->
  selected (year_cfg i) n pl wn wt b -> ~ (pl = Pool /\ b = Weighted) -> (forall k, (k < x_NFCST (i_h i))%nat -> cleared n (x_NFCST (i_h i)) pl k = true) -> (q0 <= i_CVTEST i)%Qc ->
  let x := match b with Weighted => expected (x_NFCST (i_h i)) (year_loss inv lp n nu nl i pl wn wt Both) | Central => qz (year_loss inv lp n nu nl i pl wn wt Both (i_NORR i)) end in
  (q0 < x)%Qc ->
  exists os last, w_out (s_w s) = os ++ [last] /\ o_year last = Y /\ (o_rflag last = 1 <-> i_years i <= Y \/ 5 <= Y).
Proof.
  intros inv lp n nu nl i fuel pre e s post o pl wn wt b KA KL IN CE E Y HY SEL NP CL CV x XP. destruct (certain_at inv lp KA KL n nu nl i IN CE _ _ _ _ _ _ E) as (b0 & l & C).
  pose proof (certain_years inv lp n nu nl i IN CE _ _ _ _ _ C) as CY. destruct C as [_ _ _ C4 C5 C6 _].
  assert (LY : Z.of_nat (length l) = Y) by (unfold Y; now rewrite C5).
  assert (VP : valid_place n pl) by (destruct SEL as (_ & _ & _ & _ & V); destruct pl; cbn in *; [lia|exact I]).
  assert (LV := in_levels _ _ _ _ IN). assert (NO : (i_NORR i < x_NFCST (i_h i))%nat) by (destruct LV as [(-> & ->)|(-> & ->)]; lia).
  assert (XS : map (annual_value (NFCST (year_cfg i)) (YearModel.NORR (year_cfg i)) pl wn wt b) l = repeat x (length l)).
  { apply (nth_ext_eq _ _ q0); [now rewrite map_length, repeat_length|]. intros y Hy. rewrite map_length in Hy. rewrite (nth_indep (repeat x _) q0 x), nth_repeat by (rewrite repeat_length; exact Hy).
    rewrite (nth_indep _ q0 (annual_value (NFCST (year_cfg i)) (YearModel.NORR (year_cfg i)) pl wn wt b (first_stat n, first_stat n))) by (rewrite map_length; exact Hy).
    rewrite map_nth. change (NFCST (year_cfg i)) with (x_NFCST (i_h i)). change (YearModel.NORR (year_cfg i)) with (i_NORR i).
    assert (AV : forall a, annual_value (x_NFCST (i_h i)) (i_NORR i) pl wn wt b a = match b with Weighted => expected (x_NFCST (i_h i)) (fun k => part pl wn wt Both k a) | Central => qz (part pl wn wt Both (i_NORR i) a) end)
      by (intros a; destruct b, pl, wn, wt; reflexivity).
    rewrite AV. unfold x. destruct b.
    - unfold expected. apply qs_ext. intros k Hk. rewrite CY by (auto; lia). rewrite CL by exact Hk. now rewrite Z.mul_1_l.
    - rewrite CY by (auto; lia). rewrite CL by exact NO. now rewrite Z.mul_1_l. }
  assert (NE : l <> []) by (intros ->; cbn in LY; lia).
  destruct (exists_last NE) as (l0 & a & ->). pose proof C4 as R. apply run_snoc in R. destruct R as (s1 & os1 & o1 & _ & _ & EO). exists os1, o1. split; [exact EO|].
  rewrite EO in C4. destruct (C44_in_a_run (year_cfg i) n _ _ pl wn wt b l0 a _ os1 o1 LV SEL NP C6 C4) as (OY & RF). rewrite LY in OY, RF. split; [exact OY|].
  rewrite RF. rewrite XS. change (YFINISH (year_cfg i)) with (qz (8760 * i_years i)). change (YearModel.CVTEST (year_cfg i)) with (i_CVTEST i).
  assert (FIN : (qz (8760 * i_years i) <= qz (8760 * Y))%Qc <-> i_years i <= Y) by (rewrite qz_le; lia). rewrite FIN.
  destruct (same_mean x (length (l0 ++ [a])) ltac:(lia)) as (ME & SE). unfold converged. rewrite ME, SE, repeat_length, LY.
  assert (TP : (q0 < tolerance (i_CVTEST i) * x)%Qc).
  { assert (q0 < tolerance (i_CVTEST i))%Qc. { unfold tolerance. destruct (qeqb (i_CVTEST i) q0) eqn:EQ; [apply (proj1 (qltb_iff _ _)); vm_compute; reflexivity|]. apply qeqb_false in EQ. apply Qcle_lt_or_eq in CV. destruct CV as [CV|CV]; [exact CV|congruence]. }
    set (z := tolerance (i_CVTEST i)) in *. clearbody z. clearbody x. qnra. }
  split; [intros [A|(A & _)]; auto|]. intros [A|A]; [now left|]. right. split; [exact A|]. split; [intros ZX; rewrite ZX in XP; now apply Qclt_not_eq in XP|]. split; [exact TP|].
  unfold qsq. set (z := (tolerance (i_CVTEST i) * x)%Qc) in *. clearbody z. qnra.
Qed.
Print Assumptions C114_converges_at_five_partial.

(** *** Witness: the study of C64 with five draws a year; areas 0 and 1 lack 10 MW and 30
    MW at all times; two years.  A year has 5 hours with loss and 200 MWh; area 0 has 50
    MWh; at level 2, which is not cleared for an area, 50 in the first year and 100 in the
    second. *)
Definition certain_input : input :=
  let i := demo_input 110 80 in let h := i_h i in
  mkInput (mkHcfg 1752 1 5 (x_MXPLHR h) (x_PROBG h) (x_DERATE h) (x_CAPOWN h) (x_CAPCON h) (x_PROBL h) (x_JENT h) (x_INTCH h) (x_HRLOAD h) (x_FCTERR h)
             (x_LINENO h) (x_BLPA h) (x_LP h) (x_NR h) (x_NLS h))
          (i_RATES i) (i_JPLOUT i) (i_BN i) 2 2 (qz 2000) q1 10 0 1 1 1 1 0 0.
Lemma certain_input_ok : input_ok 2 2 1 certain_input.
Proof. destruct demo_input_ok as [S1 S2 S3 S4 S5 S6]. constructor; auto; [|split; cbn; lia]. destruct S1. constructor; auto. Qed.
Lemma certain_input_certain : certain 2 1 certain_input.
Proof.
  constructor.
  - intros [|[|u]] Hu; [reflexivity|reflexivity|lia].
  - intros [|v] Hv; [reflexivity|lia].
  - intros w Hw. cbn [certain_input i_JPLOUT demo_input] in *. rewrite repeat_length in Hw. rewrite (nth_indep _ [] [0; 0]), nth_repeat by (rewrite repeat_length; exact Hw). reflexivity.
  - intros [|[|u]] [|[|[|[|q]]]] Hu Hq; (reflexivity || lia).
  - intros [|[|j]] Hj; cbn in Hj |- *; lia.
  - intros [|[|j]] Hj; cbn in Hj; (reflexivity || lia).
  - exists 5. reflexivity.
Qed.
Definition certain_run := narp (checked_inv [[qz (-1)]]) no_lp 200 certain_input.
Definition certain_shown := match certain_run with
  | Ok (lg, _) => let s := final_state (start (loop_cfg certain_input) 2 (first_world certain_input [] [])) lg in
      Some (n_draws lg, n_years lg, map (fun p => (summed (fst p) Hourly LOLE Both (snd p) (w_y (s_w s)), summed (fst p) Hourly EUE Both (snd p) (w_y (s_w s)))) [(Pool, 0%nat); (Pool, 4%nat); (Area 0, 1%nat); (Area 0, 2%nat)])
  | Err _ => None end.
Definition certain_year := map (fun p => (year_loss (checked_inv [[qz (-1)]]) no_lp 2 2 1 certain_input (fst p) Hourly LOLE Both (snd p), year_loss (checked_inv [[qz (-1)]]) no_lp 2 2 1 certain_input (fst p) Hourly EUE Both (snd p)))
  [(Pool, 0%nat); (Area 0, 2%nat)].
Example C114_witness : certain_shown = Some (10%nat, 2%nat, [(10, 400); (10, 400); (10, 100); (15, 150)]).
Proof. vm_compute. reflexivity. Qed.
Example C114_year_witness : certain_year = [(5, 200); (5, 50)].
Proof. vm_compute. reflexivity. Qed.
