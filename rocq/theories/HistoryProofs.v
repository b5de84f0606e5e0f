(** C107: proofs. *)
From Verif Require Import Base BaseProofs NetModel NetProofs StatModel LoadModel YearModel HourModel HourSpec HourProofs LpModel LpNet EventModel EventSpec ControlModel ControlSpec ProgramModel ProgramSpec HistorySpec.
Open Scope Z_scope.

Lemma agree_refl cols B : agree_off cols B B. Proof. split; auto. Qed.
Lemma agree_sym cols B B' : agree_off cols B B' -> agree_off cols B' B.
Proof. intros (E & H). split; auto. intros i. destruct (H i) as (H1 & H2). split; auto. intros c NC. symmetry. auto. Qed.
Lemma agree_trans cols B B' B'' : agree_off cols B B' -> agree_off cols B' B'' -> agree_off cols B B''.
Proof.
  intros (E & H) (E' & H'). split; [congruence|]. intros i. destruct (H i) as (H1 & H2). destruct (H' i) as (H3 & H4). split; [congruence|].
  intros c NC. rewrite H4, H2; auto.
Qed.
Lemma agree_weak cols cols' B B' : incl cols cols' -> agree_off cols B B' -> agree_off cols' B B'.
Proof. intros IC (E & H). split; [exact E|]. intros i. destruct (H i) as (H1 & H2). split; [exact H1|]. intros c NC. apply H2. intros K. apply NC, IC, K. Qed.
Lemma agree_mapi cols f (B : list (list Qc)) : (forall i r, length (f i r) = length r /\ forall c, ~ In c cols -> nth c (f i r) q0 = nth c r q0) -> agree_off cols B (mapi f B).
Proof.
  intros H. split; [apply mapi_length|]. intros i. unfold mget. destruct (Nat.lt_ge_cases i (length B)) as [L|L].
  - rewrite (nth_mapi f B i [] []) by auto. destruct (H i (nth i B [])). auto.
  - rewrite !nth_overflow by (rewrite ?mapi_length; auto). auto.
Qed.
Lemma agree_mupd cols (B : list (list Qc)) i c x : In c cols -> agree_off cols B (mupd B i c x).
Proof.
  intros IC. unfold mupd. split; [apply upd_length|]. intros j. unfold mget. rewrite nth_upd. destruct (Nat.eqb_spec i j) as [->|N]; cbn [andb]; [|auto].
  destruct (Nat.ltb j (length B)); [|auto]. split; [apply upd_length|]. intros d NC. apply nth_upd_other. intros ->. auto.
Qed.
Lemma agree_fold {X} cols (f : list (list Qc) -> X -> list (list Qc)) l : (forall B x, agree_off cols B (f B x)) -> forall B, agree_off cols B (fold_left f l B).
Proof. intros H. induction l as [|x l IH]; intros B; [apply agree_refl|]. cbn [fold_left]. exact (agree_trans _ _ _ _ (H B x) (IH _)). Qed.

Lemma sched_agree BN a b c d : same_areas BN (sched_rows BN a b c d).
Proof.
  unfold sched_rows. apply agree_mapi. intros i r. rewrite !upd_length. split; [reflexivity|]. intros k NC. cbn in NC.
  rewrite !nth_upd_other; auto; intros ->; apply NC; auto.
Qed.
Lemma emergency_agree BN a b c : same_areas BN (emergency_rows BN a b c).
Proof.
  unfold emergency_rows. apply agree_mapi. intros i r. rewrite !upd_length. split; [reflexivity|]. intros k NC. cbn in NC.
  rewrite !nth_upd_other; auto; intros ->; apply NC; auto.
Qed.
Lemma store_agree LT I L BN : same_areas BN (store_solution LT I L BN).
Proof.
  unfold store_solution. apply agree_fold. intros B i. apply agree_trans with (mupd B (nth i LT 0%nat) 1 (vget I i)); apply agree_mupd; cbn; auto.
Qed.
Lemma store_lp_agree LT R NX BN : same_areas BN (store_lp LT R NX BN).
Proof.
  unfold store_lp. apply agree_fold. intros B i. cbv zeta. eapply agree_trans; apply agree_mupd; cbn; auto.
Qed.
Lemma lp_nls_limits fuel LP LT NR : keeps_limits (lp_nls fuel LP LT NR).
Proof.
  intros B L BN F BN' E. unfold lp_nls in E. cbv zeta in E. destruct (connls _ _ _ _ _ _ _ _) as [d|]; cbn [bind] in E; [|discriminate].
  destruct (linp fuel d) as [s|]; cbn [bind] in E; [|discriminate]. apply ok_inj in E. injection E as _ <-. apply store_lp_agree.
Qed.
Lemma fancy_agree BN c ends x : agree_off [c] BN (fancy_add BN c ends x).
Proof. unfold fancy_add. apply agree_fold. intros B p. apply agree_mupd. cbn. auto. Qed.
Lemma resid_agree BN LP F : agree_off [3; 4]%nat BN (residual_areas BN LP F).
Proof.
  unfold residual_areas. cbv zeta. do 3 (eapply agree_trans; [|refine (agree_weak _ _ _ _ _ (fancy_agree _ _ _ _)); intros c [<-|[]]; cbn; auto]).
  refine (agree_weak _ _ _ _ _ (fancy_agree _ _ _ _)); intros c [<-|[]]; cbn; auto.
Qed.
Lemma tm2_agree lp BN LP BLP BLP0 BB ZB LT NR NLS o : keeps_limits lp -> tm2 lp BN LP BLP BLP0 BB ZB LT NR NLS = Ok o -> same_areas BN (t_BN o).
Proof.
  intros K. unfold tm2. destruct (tm2_update _ _ _ _ _ _ _ _) as [BB1 ZB1]. destruct (tm2_solve _ _ _ _ _ _) as [[[I1 LC] SF] F].
  destruct (tm2_accepts _ _ _ _).
  - intros H. injection H as <-. cbn [t_BN]. apply store_agree.
  - destruct NLS; [|discriminate]. destruct (lp BB1 BLP BN) as [[F' BN']|] eqn:E; cbn [bind]; [|discriminate].
    intros H. injection H as <-. cbn [t_BN snd]. exact (K _ _ _ _ _ E).
Qed.

(** What a solution leaves of the area table. *)
Lemma transm_limits inv lp IFLAG s BLPA LP NR STMULT LNSTAT NLS TRNSFR TRNSFJ SYSCON CAPREQ JFLAG FLOW SADJ s' : keeps_limits lp ->
  (forall i, (i < length (n_BN s))%nat -> (4 < length (nth i (n_BN s) []))%nat) ->
  transm inv lp IFLAG s BLPA LP NR STMULT LNSTAT NLS TRNSFR TRNSFJ SYSCON CAPREQ = Ok (JFLAG, FLOW, SADJ, s') ->
  agree_off [1; 2; 4]%nat (n_BN s) (n_BN s') /\
  (forall i, (i < length (n_BN s))%nat -> mget (n_BN s') i 4 = if JFLAG then mget (n_BN s) i 3 else mget (n_BN s) i 4).
Proof.
  intros K RL E. unfold transm in E.
  destruct (if IFLAG then _ else _) as [[[[BLP0 BB] LT] ZB]|e]; cbn [bind] in E; [|discriminate].
  destruct (tm2 lp (sched_rows (n_BN s) TRNSFR TRNSFJ SYSCON CAPREQ) LP _ BLP0 BB ZB LT NR true) as [o1|e] eqn:E1; cbn [bind] in E; [|discriminate].
  apply tm2_agree in E1; auto. pose proof (agree_trans _ _ _ _ (sched_agree _ _ _ _ _) E1) as A2.
  assert (I12 : incl [1; 2]%nat [1; 2; 4]%nat) by (intros c; cbn; tauto).
  assert (I34 : ~ In 3%nat [1; 2]%nat) by (cbn; lia). assert (I44 : ~ In 4%nat [1; 2]%nat) by (cbn; lia).
  destruct (forallb _ _).
  - injection E as <- <- <- <-. cbn [n_BN]. split; [exact (agree_weak _ _ _ _ I12 A2)|]. intros i Hi. now apply (proj2 A2 i).
  - match type of E with context [tm2 lp ?a ?b ?c ?d ?e ?f ?g ?h ?i] => destruct (tm2 lp a b c d e f g h i) as [o2|er] eqn:E2 end; cbn [bind] in E; [|discriminate].
    apply tm2_agree in E2; auto. injection E as <- <- <- <-. cbn [n_BN].
    set (CADJ := vtab _ _) in *. set (BN3 := emergency_rows (t_BN o1) SYSCON CAPREQ CADJ) in *.
    assert (A3 : same_areas (n_BN s) BN3) by exact (agree_trans _ _ _ _ A2 (emergency_agree _ _ _ _)).
    set (I1234 := [1; 2; 3; 4]%nat).
    assert (A4 : agree_off I1234 BN3 (t_BN o2)).
    { eapply agree_trans; [|refine (agree_weak _ _ _ _ _ E2); intros c; unfold I1234; cbn; tauto].
      destruct NLS; [refine (agree_weak _ _ _ _ _ (resid_agree _ _ _)); intros c; unfold I1234; cbn; tauto|apply agree_refl]. }
    set (f := fun (i : nat) (r : list Qc) => upd (upd r 3 (mget BN3 i 3)) 4 (mget BN3 i 3)).
    assert (A5 : agree_off [3; 4]%nat (t_BN o2) (mapi f (t_BN o2))).
    { apply agree_mapi. intros i r. unfold f. rewrite !upd_length. split; [reflexivity|]. intros k NC. cbn in NC. rewrite !nth_upd_other; auto; intros ->; apply NC; auto. }
    assert (A6 : agree_off I1234 (n_BN s) (mapi f (t_BN o2))).
    { eapply agree_trans; [refine (agree_weak _ _ _ _ _ A3); intros c; unfold I1234; cbn; tauto|].
      eapply agree_trans; [exact A4|]. refine (agree_weak _ _ _ _ _ A5); intros c; unfold I1234; cbn; tauto. }
    assert (LL : length (t_BN o2) = length (n_BN s)) by (rewrite <- (proj1 A6); symmetry; apply mapi_length).
    assert (RL2 : forall i, length (nth i (t_BN o2) []) = length (nth i (n_BN s) [])).
    { intros i. rewrite (proj1 (proj2 A4 i)). apply (proj2 A3 i). }
    split.
    + split; [apply A6|]. intros i. split; [apply (proj2 A6 i)|]. intros c NC. destruct (Nat.eq_dec c 3) as [->|N3].
      * destruct (Nat.lt_ge_cases i (length (n_BN s))) as [L|L].
        -- unfold mget at 1. rewrite (nth_mapi f (t_BN o2) i [] []) by lia. unfold f. rewrite nth_upd_other by lia. rewrite nth_upd_same by (specialize (RL2 i); specialize (RL i L); lia).
           now apply (proj2 A3 i).
        -- unfold mget. rewrite (nth_overflow (mapi f (t_BN o2))) by (rewrite mapi_length; lia). rewrite (nth_overflow (n_BN s)) by lia. reflexivity.
      * apply (proj2 A6 i). unfold I1234. cbn in *. intuition lia.
    + intros i Hi. unfold mget at 1. rewrite (nth_mapi f (t_BN o2) i [] []) by lia. unfold f. rewrite nth_upd_same by (rewrite upd_length; specialize (RL2 i); specialize (RL i Hi); lia).
      now apply (proj2 A3 i).
Qed.

(** *** an hour with other network data *)
Lemma nth_ext0 {A} (d : A) (l l' : list A) : length l' = length l -> (forall i, nth i l' d = nth i l d) -> l' = l.
Proof. intros E H. apply (nth_ext _ _ d d); auto. Qed.
Lemma sched_same B B' a b c d : same_areas B B' -> sched_rows B' a b c d = sched_rows B a b c d.
Proof.
  intros (E & H). apply (nth_ext0 []); [unfold sched_rows; now rewrite !mapi_length|]. intros i. unfold sched_rows.
  destruct (Nat.lt_ge_cases i (length B)) as [L|L]; [|rewrite !nth_overflow by (rewrite mapi_length; lia); reflexivity].
  rewrite (nth_mapi _ B i [] []), (nth_mapi _ B' i [] []) by lia. destruct (H i) as (H1 & H2).
  apply (nth_ext0 q0); [now rewrite !upd_length|]. intros k. rewrite !nth_upd, !upd_length, H1.
  destruct (Nat.eqb_spec 1 k) as [<-|N1]; cbn [andb].
  - destruct (Nat.ltb_spec 1 (length (nth i B []))); [reflexivity|]. cbn [Nat.eqb andb]. rewrite !nth_overflow by lia. reflexivity.
  - destruct (Nat.eqb_spec 2 k) as [<-|N2]; cbn [andb].
    + destruct (Nat.ltb_spec 2 (length (nth i B []))); [reflexivity|]. rewrite !nth_overflow by lia. reflexivity.
    + apply (H2 k). cbn. intuition.
Qed.
Lemma mcol_same B B' c : same_areas B B' -> ~ In c [1; 2]%nat -> mcol B' c = mcol B c.
Proof.
  intros (E & H) NC. unfold mcol. apply (nth_ext0 q0); [now rewrite !map_length|]. intros i.
  destruct (Nat.lt_ge_cases i (length B)) as [L|L]; [|rewrite !nth_overflow by (rewrite map_length; lia); reflexivity].
  change (vget (mcol B' c) i = vget (mcol B c) i). rewrite !mcol_nth. now apply (H i).
Qed.
Lemma transm_same inv lp s s' BLPA LP NR STMULT LNSTAT NLS TRNSFR TRNSFJ SYSCON CAPREQ : same_areas (n_BN s) (n_BN s') ->
  transm inv lp false s' BLPA LP NR STMULT LNSTAT NLS TRNSFR TRNSFJ SYSCON CAPREQ = transm inv lp false s BLPA LP NR STMULT LNSTAT NLS TRNSFR TRNSFJ SYSCON CAPREQ.
Proof.
  intros H. unfold transm. rewrite (sched_same _ _ _ _ _ _ H), (proj1 H). unfold tm1, admitr. rewrite (proj1 H), (mcol_same _ _ 0 H) by (cbn; lia). reflexivity.
Qed.

Lemma same_hour_refl r : same_hour r r.
Proof. destruct r as [t|e]; cbn; [|reflexivity]. exists (hnet t). split; [now destruct t|apply agree_refl]. Qed.

Lemma levels_same inv lp cf C J d : forall nsts s N, same_areas (n_BN (hnet s)) (n_BN N) ->
  same_hour (levels inv lp cf C J d nsts false s) (levels inv lp cf C J d nsts false (with_net s N)).
Proof.
  induction nsts as [|NST nsts IH]; intros s N SA; cbn [levels]; [exists N; auto|].
  destruct (findld _ _ _ _) as [CR|e]; cbn [bind]; [|reflexivity]. destruct (last_short _) as [IT|e]; cbn [bind]; [|reflexivity].
  destruct (Nat.eqb _ 0); [exists N; auto|]. destruct (Nat.eqb _ (length (x_CAPOWN cf))).
  { unfold record_level. cbn [with_net LSFLG hrs pks IGSEED ILSEED hnet]. destruct (hrstat _ _ _ _) as [LS h]. destruct (pyget _ _) as [p|e]; cbn [bind]; [|reflexivity].
    exact (IH (mkHst (IGSEED s) (ILSEED s) (hnet s) LS h _) N SA). }
  destruct (if Nat.ltb _ _ then _ else _) as [ND|e]; cbn [bind]; [|reflexivity]. cbn [with_net hnet].
  rewrite (transm_same inv lp (hnet s) N) by exact SA. destruct (transm _ _ _ _ _ _ _ _ _ _ _ _ _ _) as [[[[JF FL] SD] net]|e]; cbn [bind]; [|reflexivity].
  apply same_hour_refl.
Qed.
Lemma hour_same inv lp cf C PL RT s N : same_areas (n_BN (hnet s)) (n_BN N) -> same_hour (hour inv lp cf C PL RT s) (hour inv lp cf C PL RT (with_net s N)).
Proof.
  intros SA. unfold hour. destruct (load_hour _ _) as [J|e]; cbn [bind]; [|reflexivity]. destruct (draws_now _ _) as [[|]|e]; cbn [bind]; try reflexivity.
  change (draw cf C PL RT (with_net s N)) with (draw cf C PL RT s). destruct (draw _ _ _ _ _) as [d|e]; cbn [bind]; [|reflexivity].
  exact (levels_same inv lp cf C J d _ (mkHst (d_IG d) (d_IL d) (hnet s) (LSFLG s) (hrs s) (pks s)) N SA).
Qed.

(** *** the limits after an hour *)
Definition limits_kept (B B' : list (list Qc)) : Prop :=
  agree_off [1; 2; 4]%nat B B' /\
  ((forall i, (i < length B)%nat -> mget B' i 4 = mget B i 4) \/ (forall i, (i < length B)%nat -> mget B' i 4 = mget B i 3)).
Lemma kept_refl B : limits_kept B B. Proof. split; [apply agree_refl|auto]. Qed.
Lemma wide_agree cols B B' : agree_off cols B B' -> wide B -> wide B'.
Proof. intros (E & H) W i Hi. rewrite (proj1 (H i)). apply W. lia. Qed.
Lemma kept_trans B B' B'' : limits_kept B B' -> limits_kept B' B'' -> limits_kept B B''.
Proof.
  intros (A & D) (A' & D'). split; [exact (agree_trans _ _ _ _ A A')|]. assert (EL := proj1 A). assert (C3 : forall i, mget B' i 3 = mget B i 3) by (intros i; apply (proj2 A i); cbn; lia).
  destruct D' as [D'|D'].
  - destruct D as [D|D]; [left|right]; intros i Hi; rewrite D' by lia; auto.
  - right. intros i Hi. rewrite D' by lia. apply C3.
Qed.
Lemma levels_limits inv lp cf C J d : keeps_limits lp -> forall nsts b s t, wide (n_BN (hnet s)) -> levels inv lp cf C J d nsts b s = Ok t -> limits_kept (n_BN (hnet s)) (n_BN (hnet t)).
Proof.
  intros K. induction nsts as [|NST nsts IH]; intros b s t W E; cbn [levels] in E; [injection E as <-; apply kept_refl|].
  destruct (findld _ _ _ _) as [CR|e]; cbn [bind] in E; [|discriminate]. destruct (last_short _) as [IT|e]; cbn [bind] in E; [|discriminate].
  destruct (Nat.eqb _ 0); [injection E as <-; apply kept_refl|]. destruct (Nat.eqb _ (length (x_CAPOWN cf))).
  { destruct (record_level _ _ _ _ _ _) as [s1|e] eqn:R; cbn [bind] in E; [|discriminate]. apply IH in E.
    - unfold record_level in R. destruct (hrstat _ _ _ _) as [LS h]. destruct (pyget _ _) as [p|e]; cbn [bind] in R; [|discriminate]. injection R as <-. exact E.
    - unfold record_level in R. destruct (hrstat _ _ _ _) as [LS h]. destruct (pyget _ _) as [p|e]; cbn [bind] in R; [|discriminate]. injection R as <-. exact W. }
  destruct (if Nat.ltb _ _ then _ else _) as [ND|e]; cbn [bind] in E; [|discriminate].
  destruct (transm _ _ _ _ _ _ _ _ _ _ _ _ _ _) as [[[[JF FL] SD] net]|e] eqn:T; cbn [bind] in E; [|discriminate].
  apply (transm_limits _ _ _ _ _ _ _ _ _ _ _ _ _ _ _ _ _ _ K W) in T. destruct T as (A & D).
  assert (KN : limits_kept (n_BN (hnet s)) (n_BN net)) by (split; [exact A|]; destruct JF; auto).
  destruct (negb JF); [injection E as <-; exact KN|]. destruct (negb (existsb _ _)); [injection E as <-; exact KN|].
  destruct (record_level _ _ _ _ _ _) as [s1|e] eqn:R; cbn [bind] in E; [|discriminate].
  unfold record_level in R. destruct (hrstat _ _ _ _) as [LS h]. destruct (pyget _ _) as [p|e]; cbn [bind] in R; [|discriminate]. injection R as <-.
  apply IH in E; [|exact (wide_agree _ _ _ A W)]. exact (kept_trans _ _ _ KN E).
Qed.
Lemma hour_limits inv lp cf C PL RT s t : keeps_limits lp -> wide (n_BN (hnet s)) -> hour inv lp cf C PL RT s = Ok t -> limits_kept (n_BN (hnet s)) (n_BN (hnet t)).
Proof.
  intros K W E. unfold hour in E. destruct (load_hour _ _) as [J|e]; cbn [bind] in E; [|discriminate]. destruct (draws_now _ _) as [[|]|e]; cbn [bind] in E; try discriminate.
  destruct (draw _ _ _ _ _) as [d|e]; cbn [bind] in E; [|discriminate]. now apply levels_limits in E.
Qed.

(** *** runs *)
Section RUN.
  Context {W : Type}.
  Variables (h : handlers W) (cf : rcfg) (P : W -> Prop).
  Hypothesis PH : forall c p r w w1, P w -> h_hour h c p r w = Ok w1 -> P w1.
  Hypothesis PY : forall c w w1 f, P w -> h_year h c w = Ok (w1, f) -> P w1.
  Lemma events_keep N s ty s1 : P (s_w s) -> events h cf N s ty = Ok s1 -> P (s_w s1).
  Proof.
    intros PW. unfold events. destruct (N =? 1).
    { destruct (filem _ _) as [c|e]; cbn [bind]; [|discriminate]. destruct (h_hour h _ _ _ _) as [w1|e] eqn:E; cbn [bind]; [|discriminate].
      intros X. injection X as <-. exact (PH _ _ _ _ _ PW E). }
    destruct (N =? 2).
    { destruct (filem _ _) as [c|e]; cbn [bind]; [|discriminate]. destruct (week_status _ _ _) as [p|e]; cbn [bind]; [|discriminate]. intros X. injection X as <-. exact PW. }
    destruct (N =? 3).
    { cbv zeta. destruct (rates_of _ _) as [r|e]; cbn [bind]; [|discriminate]. destruct (filem _ _) as [c|e]; cbn [bind]; [|discriminate]. intros X. injection X as <-. exact PW. }
    destruct (N =? 4); [|discriminate || (intros X; injection X as <-; exact PW)].
    destruct (filem _ _) as [c|e]; cbn [bind]; [|discriminate]. destruct (h_year h _ _) as [[w1 f1]|e] eqn:E; cbn [bind]; [|discriminate].
    intros X. injection X as <-. exact (PY _ _ _ _ PW E).
  Qed.
  Lemma step_keep s e s1 : P (s_w s) -> contrl_step h cf s = Continue e s1 -> P (s_w s1).
  Proof.
    intros PW. unfold contrl_step. destruct (_ =? -1); [discriminate|]. destruct (pyget _ _) as [t|er]; cbn [of_res]; [|discriminate].
    destruct (qltb _ _); [discriminate|]. destruct (_ =? 1); [discriminate|]. destruct (qltb _ _); [discriminate|].
    destruct (remove _) as [[[[t' ty] c']|]|er]; cbn [of_res]; [|discriminate|discriminate].
    destruct (events h cf _ _ _) as [s2|er] eqn:E; cbn [of_res]; [|discriminate]. intros X. injection X as _ <-. apply events_keep in E; auto.
  Qed.
  Lemma run_keep fuel : forall s lg o, P (s_w s) -> contrl fuel h cf s = (lg, o) -> Forall (fun x => P (s_w (snd x))) lg.
  Proof.
    induction fuel as [|fuel IH]; intros s lg o PW E; cbn [contrl] in E; [injection E as <- _; constructor|].
    destruct (contrl_step h cf s) as [| | |y|e s1|er] eqn:ES; try (injection E as <- _; constructor).
    destruct (contrl fuel h cf s1) as [lg1 o1] eqn:ER. injection E as <- _. apply step_keep in ES; auto. constructor; [exact ES|]. exact (IH _ _ _ ES ER).
  Qed.
End RUN.
