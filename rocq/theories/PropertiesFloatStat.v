(** C113: rounding does not touch the counted hours and energies. *)
From Verif Require Import Base BaseProofs Sums LoadModel StatModel YearModel FloatModel FloatSpec FloatProofs FloatStatModel FloatStatSpec FloatStat ControlModel ControlSpec HourModel HourSpec ProgramModel ProgramSpec PropertiesProgram.
Open Scope Z_scope.

(** Every sequence of hourly and peak losses and year ends: with arrays of binary64 numbers
    and rounded additions, the annual tables and the totals over the years hold exactly the
    whole numbers of the exact calculation (C36, C38, C40), if (losses of all hours and
    areas in MW, plus the hours of loss) times twice the number of years stays below 2^53
    (10 TWh per hour for a thousand years is 9e13). *)
Theorem C113_tables : forall NF n cs, 2 * Z.max 1 (year_ends cs) * total_volume cs <= 2 ^ 53 ->
  fstats NF n (q_tables (no_stats n)) cs = q_tables (stats NF n (no_stats n) cs).
Proof.
  intros NF n cs H. pose proof (total_nonneg cs) as T. assert (Y : 0 <= year_ends cs) by apply Nat2Z.is_nonneg.
  apply (stats_q NF n (total_volume cs) cs 0 0); [lia|lia|apply no_stats_bd|lia|unfold lim|unfold lim]; nia.
Qed.
Print Assumptions C113_tables.

(** In a run: the tables at any moment are those of some sequence of calls with as many year
    ends as there were, and of the same sequence with floats. *)
Theorem C113_run : forall inv lp n nu nl i fuel pre post o, keeps_areas lp -> input_ok n nu nl i ->
  narp inv lp fuel i = Ok (pre ++ post, o) -> pre <> [] ->
  exists e s cs, last pre (e, s) = (e, s) /\ In (e, s) pre /\ year_ends cs = Z.of_nat (n_years pre) /\
    let w := s_w s in
    stats (x_NFCST (i_h i)) n (no_stats n) cs = mkTables (LSFLG (w_h w)) (hrs (w_h w)) (pks (w_h w)) (y_ch (w_y w)) (y_cp (w_y w)) /\
    (2 * Z.max 1 (year_ends cs) * total_volume cs <= 2 ^ 53 ->
     fstats (x_NFCST (i_h i)) n (q_tables (no_stats n)) cs = q_tables (mkTables (LSFLG (w_h w)) (hrs (w_h w)) (pks (w_h w)) (y_ch (w_y w)) (y_cp (w_y w)))).
Proof.
  intros inv lp n nu nl i fuel pre post o KA IN E NE.
  destruct (narp_at inv lp KA n nu nl i IN fuel _ post o E) as (IG & IL & s1 & a & b & c & d & R & l & f1 & _ & T & _ & _ & _ & D & FS & _).
  destruct (exists_last NE) as (pre' & (e & s) & ->). unfold final_state in FS. rewrite map_app in FS. cbn [map] in FS. rewrite last_last in FS. cbn [snd] in FS. subst s1.
  destruct (trace_calls inv lp i nu IG IL _ _ _ _ _ _ T) as (cs & YC & TC). rewrite (ProgramProofs.n_areas n nu nl i IN) in TC.
  exists e, s, cs. split; [apply last_last|]. split; [apply in_or_app; right; now left|]. split; [now rewrite YC, D|]. cbv zeta. fold (tables_of (s_w s)). split; [now symmetry|].
  intros H. rewrite (C113_tables _ _ _ H). now rewrite TC.
Qed.
Print Assumptions C113_run.

(** Without the bound it is false: above 2^53 a loss of 1 MW is not counted any more. *)
Theorem C113_bound_needed : exists cs, fstats 1 1 (q_tables (no_stats 1)) cs <> q_tables (stats 1 1 (no_stats 1) cs).
Proof.
  exists [Hourly_loss 0 [- 2 ^ 53]; Hourly_loss 0 [-1]]. intros E. apply (f_equal (fun t => qeqb (mget (f_mgnG (ft_h t)) 0 0) (qz (2 ^ 53)))) in E.
  vm_compute in E. discriminate E.
Qed.
Print Assumptions C113_bound_needed.

(** The averages of the report are the totals divided by the number of years (C48), here in
    one rounded division: the float nearest to the exact average. *)
Theorem C113_average : forall total years, 0 <= total <= 2 ^ 53 -> 1 <= years <= 2 ^ 53 ->
  rounded (Qcdiv (qz total) (qz years)) (fdiv (qz total) (qz years)).
Proof.
  intros t y T Y. unfold fdiv. apply fl_rounded. unfold in_range. assert (P : (q0 < qz y)%Qc) by (change q0 with (qz 0); apply qz_lt; lia).
  assert (N : qz y <> q0) by (intros K; rewrite K in P; now apply Qclt_not_eq in P).
  assert (D : (q0 <= qz t / qz y)%Qc /\ (qz t / qz y <= qz t)%Qc).
  { assert (E : (qz t / qz y * qz y = qz t)%Qc) by (field; exact N). set (d := (qz t / qz y)%Qc) in *. assert (T0 : (q0 <= qz t)%Qc) by (change q0 with (qz 0); apply qz_le; lia).
    assert (Y1 : (q1 <= qz y)%Qc) by (change q1 with (qz 1); apply qz_le; lia). clearbody d. rewrite <- E in T0 |- *. clear E.
    assert (D0 : (q0 <= d)%Qc). { apply Qcnot_lt_le. intros K. apply (Qcle_not_lt _ _ T0). replace q0 with (q0 * qz y)%Qc by apply Qcmult_0_l. now apply Qcmult_lt_compat_r. }
    split; [exact D0|]. rewrite <- (Qcmult_1_r d) at 1. rewrite !(Qcmult_comm d). apply Qcmult_le_compat_r; assumption. }
  rewrite qabs_of_nonneg by apply D. eapply Qcle_trans; [apply D|]. apply qz_le. eapply Z.le_trans; [apply T|]. change (2 ^ 53 <= (2 ^ 53 - 1) * 2 ^ 971). 
  apply Z.leb_le. vm_compute. reflexivity.
Qed.
Print Assumptions C113_average.

(** Two years of a study with two areas. *)
Example C113_witness : let cs := [Hourly_loss 0 [-12; 5]; Hourly_loss 1 [-3; 5]; Peak_loss 0 [-12; 5]; Year_end; Hourly_loss 0 [-7; -8]; Year_end] in
  2 * Z.max 1 (year_ends cs) * total_volume cs <= 2 ^ 53 /\
  let t := stats 2 2 (no_stats 2) cs in (pG (c_pmgn (t_ch t)), pG (c_plol (t_ch t)), zmget (aG (c_mgn (t_ch t))) 1 0) = ([27; 0; 0; 0; 0], [2; 0; 0; 0; 0], 8).
Proof. cbv zeta. split; [vm_compute; discriminate|]. vm_compute. reflexivity. Qed.
