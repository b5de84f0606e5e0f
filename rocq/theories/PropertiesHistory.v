(** C107: what an hour records does not depend on earlier hours. *)
From Verif Require Import Base BaseProofs EventModel EventSpec StatModel StatSpec LoadModel NetModel NetSpec LpModel YearModel HourModel HourSpec ControlModel ControlSpec SampleModel ProgramModel ProgramSpec HistorySpec HistoryProofs
  PropertiesNet PropertiesLp PropertiesHour PropertiesMono PropertiesProgram.
Open Scope Z_scope.

(** ** C107.  Of the network data kept between hours an hour uses only the numbers and the
    limits of the areas: with other matrices, injections and loads left over it has the
    same outcome.  For any inversion and any linear-programming branch. *)
Theorem C107_leftovers : forall inv lp cf C PLNDST RATING s N, same_areas (n_BN (hnet s)) (n_BN N) ->
  same_hour (hour inv lp cf C PLNDST RATING s) (hour inv lp cf C PLNDST RATING (with_net s N)).
Proof. exact hour_same. Qed.
Print Assumptions C107_leftovers.

(** And the branch of the program keeps the limits. *)
Theorem C107_branch : forall fuel LP LT NR, keeps_limits (lp_nls fuel LP LT NR).
Proof. exact lp_nls_limits. Qed.
Print Assumptions C107_branch.

(** What a solution of the network leaves behind: everything but working space and the
    export limits; these too, unless the emergency solution was computed. Then each area's
    export limit has been replaced by its import limit. *)
Theorem C107_export_limits_lost : forall inv lp IFLAG s BLPA LP NR STMULT LNSTAT NLS TRNSFR TRNSFJ SYSCON CAPREQ JFLAG FLOW SADJ s', keeps_limits lp ->
  (forall i, (i < length (n_BN s))%nat -> (4 < length (nth i (n_BN s) []))%nat) ->
  transm inv lp IFLAG s BLPA LP NR STMULT LNSTAT NLS TRNSFR TRNSFJ SYSCON CAPREQ = Ok (JFLAG, FLOW, SADJ, s') ->
  agree_off [1; 2; 4]%nat (n_BN s) (n_BN s') /\
  (forall i, (i < length (n_BN s))%nat -> mget (n_BN s') i 4 = if JFLAG then mget (n_BN s) i 3 else mget (n_BN s) i 4).
Proof. exact transm_limits. Qed.
Print Assumptions C107_export_limits_lost.

Lemma kept_same i B : wide (i_BN i) -> limits_kept (i_BN i) B ->
  same_areas (n_BN (cards_net i)) B \/ same_areas (n_BN (exports_as_imports i)) B.
Proof.
  intros WD ((EL & A) & [D|D]); [left|right].
  - split; [exact EL|]. intros j. split; [apply (A j)|]. intros c NC. destruct (Nat.eq_dec c 4) as [->|N4]; [|apply (A j); cbn in *; intuition].
    destruct (Nat.lt_ge_cases j (length (i_BN i))) as [L|L]; [now apply D|]. unfold mget. rewrite !nth_overflow with (l := B), nth_overflow with (l := n_BN _) by (cbn [cards_net first_net n_BN]; lia). reflexivity.
  - set (f := fun r : list Qc => upd r 4 (nth 3 r q0)). change (n_BN (exports_as_imports i)) with (map f (i_BN i)).
    assert (NF : forall j, nth j (map f (i_BN i)) [] = f (nth j (i_BN i) [])) by (intros j; exact (map_nth f (i_BN i) [] j)).
    split; [rewrite map_length; exact EL|]. intros j. unfold mget at 2. rewrite NF. unfold f. rewrite upd_length. split; [apply (A j)|]. intros c NC.
    destruct (Nat.eq_dec c 4) as [->|N4]; [|rewrite nth_upd_other by congruence; apply (A j); cbn in *; intuition].
    destruct (Nat.lt_ge_cases j (length (i_BN i))) as [L|L].
    + rewrite nth_upd_same by now apply WD. now apply D.
    + unfold mget. rewrite (nth_overflow B) by lia. rewrite (nth_overflow (i_BN i)) by lia. reflexivity.
Qed.

(** In a run: at every point, whatever hour comes next has the outcome it would have with
    the network of the cards, or the one it would have if all export limits on the cards
    were equal to the import limits. *)
Theorem C107_run : forall inv lp fuel i lg o, keeps_limits lp -> wide (i_BN i) -> narp inv lp fuel i = Ok (lg, o) ->
  forall e s, In (e, s) lg -> let h := w_h (s_w s) in
  (forall C PLNDST RATING, same_hour (hour inv lp (i_h i) C PLNDST RATING (with_net h (cards_net i))) (hour inv lp (i_h i) C PLNDST RATING h)) \/
  (forall C PLNDST RATING, same_hour (hour inv lp (i_h i) C PLNDST RATING (with_net h (exports_as_imports i))) (hour inv lp (i_h i) C PLNDST RATING h)).
Proof.
  intros inv lp fuel i lg o K WD E e s IN h. unfold narp in E. destruct (seeder _ _ _) as [sd|]; cbn [bind] in E; [|discriminate]. injection E as E.
  assert (F := run_keep (program inv lp i) (loop_cfg i) (fun w => limits_kept (i_BN i) (n_BN (hnet (w_h w))))).
  assert (KP : limits_kept (i_BN i) (n_BN (hnet h))).
  { refine (proj1 (Forall_forall _ _) (F _ _ fuel _ lg o _ E) (e, s) IN).
    - intros C p r w w1 KW X. cbn [program h_hour] in X. unfold do_hour in X. destruct (hour _ _ _ _ _ _ _) as [h1|er] eqn:EH; cbn [bind] in X; [|discriminate].
      injection X as <-. cbn [w_h]. apply (hour_limits _ _ _ _ _ _ _ _ K (wide_agree _ _ _ (proj1 KW) WD)) in EH. exact (kept_trans _ _ _ KW EH).
    - intros C w w1 f KW X. cbn [program h_year] in X. unfold do_year in X. cbv zeta in X. destruct (year _ _ _ _) as [[y o1]|er]; cbn [bind] in X; [|discriminate].
      injection X as <- _. exact KW.
    - cbn [start s_w first_world w_h hnet first_net n_BN]. apply kept_refl. }
  assert (EN : h = with_net (with_net h (cards_net i)) (hnet h)) by now destruct h.
  assert (EN2 : h = with_net (with_net h (exports_as_imports i)) (hnet h)) by now destruct h.
  destruct (kept_same i _ WD KP) as [S|S]; [left|right]; intros C PL RT; [rewrite EN at 2|rewrite EN2 at 2]; apply hour_same; exact S.
Qed.
Print Assumptions C107_run.

(** In particular no hour depends on the earlier ones if the limits on the cards are equal
    for both directions. *)
Theorem C107_equal_limits : forall inv lp fuel i lg o, keeps_limits lp -> wide (i_BN i) -> equal_limits (i_BN i) -> narp inv lp fuel i = Ok (lg, o) ->
  forall e s C PLNDST RATING, In (e, s) lg -> let h := w_h (s_w s) in
  same_hour (hour inv lp (i_h i) C PLNDST RATING (with_net h (cards_net i))) (hour inv lp (i_h i) C PLNDST RATING h).
Proof.
  intros inv lp fuel i lg o K WD EL E e s C PL RT IN h.
  assert (EX : exports_as_imports i = cards_net i).
  { unfold exports_as_imports, cards_net, first_net. cbn [n_BN n_BLP0 n_BB n_LT n_ZB]. f_equal. apply (nth_ext_eq _ _ []); [apply map_length|]. intros j Hj. rewrite map_length in Hj.
    set (f := fun r : list Qc => upd r 4 (nth 3 r q0)). change (@nil Qc) with (f []) at 1. rewrite map_nth. unfold f. apply (nth_ext_eq _ _ q0); [apply upd_length|].
    intros c _. destruct (Nat.eq_dec c 4) as [->|N4]; [|now rewrite nth_upd_other by congruence]. rewrite nth_upd_same by now apply WD. symmetry. now apply EL. }
  destruct (C107_run inv lp fuel i lg o K WD E e s IN) as [X|X]; [apply X|]. specialize (X C PL RT). rewrite EX in X. exact X.
Qed.
Print Assumptions C107_equal_limits.

(** *** Refuted when they differ.  Area 2 is short of 10, area 0 has 50 to spare, and may export at most
    4 (import 1000), or import at most 4 (export 1000).  The same hour twice: what is lost
    in total after the first and after the second. *)
Definition lim_state (imp exp : Z) : hst := mkHst [1; 3; 5; 7] [7; 7; 7]
  (mkNet [[q0; q0; q0; qz imp; qz exp]; [qz 1; q0; q0; qz 1000; qz 1000]; [qz 2; q0; q0; qz 1000; qz 1000]] [] [] [] []) [0; 0; 0] (zero_stat 3 5) (zero_stat 3 5).
Definition lim_hour (s : hst) := hour t_inv (lp_nls 60 t_LP [1; 2; 0]%nat 0) (t_study 1) (on 8) [q1; q1; q1] [qz 100; qz 50; qz 40] s.
Definition twice (imp exp : Z) := (lost (lim_hour (lim_state imp exp)), lost (do s <- lim_hour (lim_state imp exp); lim_hour s)).
Theorem C107_same_hour_again_refuted : inv_ok t_inv /\
  map (fun p => twice (fst p) (snd p)) [(1000, 4); (4, 1000)] =
    [(Ok (1, [0; 0; 6], 6), Ok (1, [0; 0; 6], 6)); (Ok (0, [0; 0; 0], 0), Ok (1, [0; 0; 6], 6))].
Proof. split; [apply checked_inv_ok|]. vm_compute. reflexivity. Qed.
Print Assumptions C107_same_hour_again_refuted.

(** *** Nor are the load levels of an hour independent (consequence of C32): after the linear program the matrix is in the place
    of its inverse.  Line 0-2 carries at most 8; at the second level areas 1 and 2 are
    short of 16 and 8 and area 2 loses 4; after a first level with 10 percent more load it
    loses nothing. *)
Definition lv_study (nf : nat) (f0 f1 : Qc) : hcfg :=
  mkHcfg 1 1 nf (map (fun d => 24 * Z.of_nat d + 7) (seq 0 365)) [[q1; q1]; [q1; q1]; [q1; q1]] [q0; q0; q0] [[q1; q0; q0]; [q0; q1; q0]; [q0; q0; q1]] [0; 1; 2]
    (repeat (repeat q1 6) 3) (repeat [-1; -1; -1] 3) [] (repeat (repeat (qz 50) (365 * 24)) 3) (repeat [f0; f1; f1; f1; f1] 3)
    [[-1; 0; 1]; [0; -1; 2]; [1; 2; -1]] [two_lines (-1) 90; two_lines (-1) 8; two_lines (-1) 90] t_LP 0 true.
Definition lv_hour nf f0 f1 := hour t_inv (lp_nls 60 t_LP [1; 2; 0]%nat 0) (lv_study nf f0 f1) (on 8) [q1; q1; q1] [qz 100; qz 34; qz 42] t_state.
Definition lost_at (k : nat) (r : res hst) := match r with
  | Ok s => Ok (zget (plolG (hrs s)) k + zget (plolT (hrs s)) k, map (fun j => zmget (mgnG (hrs s)) j k + zmget (mgnT (hrs s)) j k) (seq 0 3))
  | Err e => Err e end.
Theorem C107_levels_refuted : 
  lost_at 0 (lv_hour 2 (qq 11 10) q1) = Ok (1, [0; 0; 11]) /\ lost_at 1 (lv_hour 2 (qq 11 10) q1) = Ok (0, [0; 0; 0]) /\
  lost_at 0 (lv_hour 1 q1 q1) = Ok (1, [0; 0; 4]).
Proof. vm_compute. auto. Qed.
Print Assumptions C107_levels_refuted.

(** The two-area study meets the hypotheses of the run theorems. *)
Example C107_witness : wide (i_BN (demo_input 110 80)) /\ equal_limits (i_BN (demo_input 110 80)) /\ keeps_limits no_lp /\
  run_shown demo_run = Some (8%nat, 2%nat, Ok true, [(1, false); (2, true)]).
Proof.
  split. { intros [|[|j]] H; cbn in *; lia. } split. { intros [|[|j]] H; [reflexivity|reflexivity|cbn in H; lia]. }
  split; [intros B L N F N' X; discriminate X|exact C65_witness].
Qed.
