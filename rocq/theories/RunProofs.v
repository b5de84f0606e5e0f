(** Consequences of the loop invariant for whole runs. *)
From Coq Require Import Sorted Permutation.
From Verif Require Import Base BaseProofs EventModel EventSpec EventProofs ControlModel ControlSpec ControlProofs.
Open Scope Z_scope.

Lemma filter_perm_length {A} (f : A -> bool) l l' :
  Permutation l l' -> length (filter f l) = length (filter f l').
Proof. induction 1; cbn; try congruence; repeat destruct (f _); cbn; auto; lia. Qed.

Lemma inv_pending {W} J (s : lst W) a b c d : inv J s a b c d ->
  exists l n, holds (s_cal s) l n /\
    length l = 7%nat /\
    length (pending_of 1 l) = 1%nat /\ length (pending_of 2 l) = 1%nat /\
    length (pending_of 3 l) = 4%nat /\ length (pending_of 4 l) = 1%nat /\
    Forall (fun e => (s_clock s <= fst e)%Qc) l.
Proof.
  intros [(lz & n & H & P & _) (ck & EC & _ & F)].
  exists (map inj lz), n. split; auto.
  assert (P2 : Permutation (map inj lz) (map inj (agenda J a b c d))) by (now apply Permutation_map).
  split. { rewrite (Permutation_length P2). reflexivity. }
  unfold pending_of.
  split; [rewrite (filter_perm_length _ _ _ P2); reflexivity|].
  split; [rewrite (filter_perm_length _ _ _ P2); reflexivity|].
  split; [rewrite (filter_perm_length _ _ _ P2); reflexivity|].
  split; [rewrite (filter_perm_length _ _ _ P2); reflexivity|].
  apply Forall_forall. intros e He. apply in_map_iff in He. destruct He as (p & <- & Hp).
  rewrite EC. cbn. apply hh_le. rewrite Forall_forall in F. apply F.
  eapply Permutation_in; [exact P|exact Hp].
Qed.

Lemma contrl_none {W} (h : handlers W) cf fuel s lg :
  contrl fuel h cf s = (lg, None) -> length lg = fuel.
Proof.
  revert s lg. induction fuel as [|f IH]; intros s lg; cbn [contrl].
  - intros H. injection H as <-. reflexivity.
  - destruct (contrl_step h cf s) as [| | |y|e s'|er]; try discriminate.
    destruct (contrl f h cf s') as [lg' o'] eqn:E. intros H. injection H as <- ->.
    cbn. f_equal. eauto.
Qed.

Lemma contrl_no_continue {W} (h : handlers W) cf fuel s lg e s' :
  contrl fuel h cf s <> (lg, Some (Continue e s')).
Proof.
  revert s lg. induction fuel as [|f IH]; intros s lg; cbn [contrl]; [discriminate|].
  destruct (contrl_step h cf s) as [| | |y|e1 s1|er]; try discriminate.
  destruct (contrl f h cf s1) as [lg' o'] eqn:E. intros H. injection H as <- ->. eapply IH; eauto.
Qed.

(** the last call of the loop *)
Lemma contrl_last {W} (h : handlers W) cf fuel s o :
  contrl fuel h cf s = ([], Some o) -> contrl_step h cf s = o.
Proof.
  destruct fuel; cbn [contrl]; [discriminate|].
  destruct (contrl_step h cf s) as [| | |y|e1 s1|er]; try (intros H; injection H as <-; reflexivity).
  destruct (contrl fuel h cf s1). discriminate.
Qed.

(** state of the run after its whole log *)
Lemma run_end {W} (h : handlers W) cf nu (w : W) fuel lg o :
  step_ok (c_JSTEP cf) ->
  contrl fuel h cf (start cf nu w) = (lg, o) ->
  exists s1 a1 b1 c1 d1 fuel1,
    trace h cf (start cf nu w) 0 0 0 0 lg s1 a1 b1 c1 d1 /\ inv (c_JSTEP cf) s1 a1 b1 c1 d1 /\
    contrl fuel1 h cf s1 = ([], o).
Proof.
  intros SO R. rewrite <- (app_nil_r lg) in R.
  destruct (run_trace h cf nu w fuel lg [] o SO R) as (s1 & a1 & b1 & c1 & d1 & f1 & T & I & C & _).
  exists s1, a1, b1, c1, d1, f1. auto.
Qed.

(** state of the run just before a given entry of its log *)
Lemma run_at {W} (h : handlers W) cf nu (w : W) fuel pre e s post o :
  step_ok (c_JSTEP cf) ->
  contrl fuel h cf (start cf nu w) = (pre ++ (e, s) :: post, o) ->
  exists s1 a1 b1 c1 d1 a2 b2 c2 d2,
    trace h cf (start cf nu w) 0 0 0 0 pre s1 a1 b1 c1 d1 /\ inv (c_JSTEP cf) s1 a1 b1 c1 d1 /\
    s_rflag s1 <> 1 /\ (fst e <= Qcplus (c_FINISH cf) q1)%Qc /\
    (s_clock s1 <= fst e)%Qc /\ s_clock s = fst e /\
    Forall (fun p => (fst e <= fst (inj p))%Qc) (agenda (c_JSTEP cf) a1 b1 c1 d1) /\
    stepped h cf s1 a1 b1 c1 d1 e s a2 b2 c2 d2 /\ inv (c_JSTEP cf) s a2 b2 c2 d2.
Proof.
  intros SO R.
  destruct (run_trace h cf nu w fuel pre ((e, s) :: post) o SO R) as (s1 & a1 & b1 & c1 & d1 & f1 & T & I & C & _).
  exists s1, a1, b1, c1, d1.
  pose proof (step_spec h cf s1 a1 b1 c1 d1 SO I) as SP.
  destruct f1 as [|f1]; [discriminate|]. cbn [contrl] in C.
  destruct (contrl_step h cf s1) as [| | |y|e1 s'|er] eqn:ES; try discriminate.
  destruct (contrl f1 h cf s') as [lg' o'].
  apply pair_equal_spec in C. destruct C as [C ->]. apply cons_inv in C. destruct C as [C _].
  apply pair_equal_spec in C. destruct C as [-> ->].
  destruct SP as (RF & LF & LC & EC & FA & a2 & b2 & c2 & d2 & ST & I2).
  exists a2, b2, c2, d2. auto 10.
Qed.

Lemma trace_last {W} (h : handlers W) cf s0 lg s a b c d :
  trace h cf s0 0 0 0 0 lg s a b c d -> lg = [] /\ s = s0 \/ exists lg' e, lg = lg' ++ [(e, s)] /\ s_clock s = fst e.
Proof. intros T. inversion T; subst; [left; auto|right; eauto]. Qed.

(* ---------------- C06 ---------------- *)

Lemma trace_sorted {W} (h : handlers W) cf s0 lg s a b c d :
  trace h cf s0 0 0 0 0 lg s a b c d ->
  StronglySorted (fun x y => (fst (fst x) <= fst (fst y))%Qc) lg /\
  Forall (fun x => (fst (fst x) <= s_clock s)%Qc) lg.
Proof.
  intros T.
  induction T as [|s0 a0 b0 c0 d0 lg s1 a1 b1 c1 d1 e s2 a2 b2 c2 d2 T IH I ES RF LF LC EC FA ST].
  { split; constructor. }
  destruct IH as (S & F).
  assert (F2 : Forall (fun x : event * lst W => (fst (fst x) <= fst e)%Qc) lg).
  { eapply Forall_impl; [|exact F]. intros x Hx. cbn beta in Hx. eapply Qcle_trans; eauto. }
  split.
  - clear - S F2. induction lg as [|x lg IH]; cbn.
    + repeat constructor.
    + inversion S; subst. inversion F2; subst. constructor; auto.
      apply Forall_app. split; auto.
  - rewrite EC. apply Forall_app. split; auto. constructor; [apply Qcle_refl|constructor].
Qed.

Theorem loop_invariant {W} (h : handlers W) cf nu (w : W) fuel lg o :
  step_ok (c_JSTEP cf) ->
  contrl fuel h cf (start cf nu w) = (lg, o) ->
  (forall e s, In (e, s) lg -> s_clock s = fst e /\
     exists l n, holds (s_cal s) l n /\ length l = 7%nat /\
       length (pending_of 1 l) = 1%nat /\ length (pending_of 2 l) = 1%nat /\
       length (pending_of 3 l) = 4%nat /\ length (pending_of 4 l) = 1%nat /\
       Forall (fun e => (s_clock s <= fst e)%Qc) l) /\
  StronglySorted (fun x y => (fst (fst x) <= fst (fst y))%Qc) lg /\
  o <> Some PtrError /\ o <> Some PastError.
Proof.
  intros SO R. split; [|split].
  - intros e s Hin. apply in_split in Hin. destruct Hin as (pre & post & ->).
    destruct (run_at h cf nu w fuel pre e s post o SO R)
      as (s1 & a1 & b1 & c1 & d1 & a2 & b2 & c2 & d2 & _ & _ & _ & _ & _ & EC & _ & _ & I2).
    split; auto. eapply inv_pending; eauto.
  - destruct (run_end h cf nu w fuel lg o SO R) as (s1 & a & b & c & d & f1 & T & _).
    apply trace_sorted in T. tauto.
  - destruct (run_end h cf nu w fuel lg o SO R) as (s1 & a & b & c & d & f1 & T & I & C).
    pose proof (step_spec h cf s1 a b c d SO I) as SP.
    split; intros ->; apply contrl_last in C; rewrite C in SP; exact SP.
Qed.

Theorem loop_only_handlers_fail {W} (h : handlers W) cf nu (w : W) fuel lg er :
  step_ok (c_JSTEP cf) ->
  contrl fuel h cf (start cf nu w) = (lg, Some (Failed er)) ->
  exists s, (lg = [] /\ s = start cf nu w \/ exists lg' e, lg = lg' ++ [(e, s)]) /\ handler_failed h cf s er.
Proof.
  intros SO R. destruct (run_end h cf nu w fuel lg _ SO R) as (s1 & a & b & c & d & f1 & T & I & C).
  pose proof (step_spec h cf s1 a b c d SO I) as SP. apply contrl_last in C. rewrite C in SP.
  exists s1. split; [|eapply failed_at_handler; exact (proj2 SP)]. apply trace_last in T. destruct T as [[-> ->]|(lg' & e & -> & _)]; eauto.
Qed.

(* ---------------- C07 ---------------- *)

Theorem timetable {W} (h : handlers W) cf nu (w : W) fuel lg o :
  step_ok (c_JSTEP cf) ->
  contrl fuel h cf (start cf nu w) = (lg, o) ->
  exists a b c d,
    of_kind 1 lg = map (draw_event (c_JSTEP cf)) (seq 1 a) /\
    of_kind 2 lg = map week_event (seq 0 b) /\
    of_kind 3 lg = map season_event (seq 0 c) /\
    of_kind 4 lg = map year_event (seq 1 d) /\
    length lg = (a + b + c + d)%nat /\
    (* a run that reached its end time delivered everything due by then *)
    (forall y, o = Some (EndTime y) ->
       (forall n, (fst (draw_event (c_JSTEP cf) n) <= Qcplus (c_FINISH cf) q1)%Qc -> (n <= a)%nat) /\
       (forall n, (fst (week_event n) <= Qcplus (c_FINISH cf) q1)%Qc -> (n < b)%nat) /\
       (forall n, (fst (season_event n) <= Qcplus (c_FINISH cf) q1)%Qc -> (n < c)%nat) /\
       (forall n, (fst (year_event n) <= Qcplus (c_FINISH cf) q1)%Qc -> (n <= d)%nat)).
Proof.
  intros SO R. destruct (run_end h cf nu w fuel lg o SO R) as (s1 & a & b & c & d & f1 & T & I & C).
  exists a, b, c, d. destruct (trace_kinds _ _ _ _ _ _ _ _ _ T) as (K1 & K2 & K3 & K4 & KL).
  repeat (split; [assumption|]). intros y ->.
  pose proof (step_spec h cf s1 a b c d SO I) as SP. apply contrl_last in C. rewrite C in SP.
  destruct SP as (_ & _ & F). unfold agenda in F.
  inversion F as [|? ? F1 F']; subst. inversion F' as [|? ? F2 F'']; subst.
  inversion F'' as [|? ? F3 F3']; subst.
  assert (F7 : (c_FINISH cf + q1 < fst (inj (zyear (S d))))%Qc).
  { repeat match goal with H : Forall _ (_ :: _) |- _ => inversion H; clear H; subst end. assumption. }
  assert (G : forall u v, (c_FINISH cf + q1 < hh u)%Qc -> (hh v <= c_FINISH cf + q1)%Qc -> v < u).
  { intros u v A B. apply hh_lt. eapply Qcle_lt_trans; eauto. }
  unfold step_ok in SO.
  split; [|split; [|split]]; intros n Hn.
  - rewrite <- inj_draw in Hn. specialize (G _ _ F1 Hn). unfold zdraw in G. cbn [fst] in G. nia.
  - rewrite <- inj_week in Hn. specialize (G _ _ F2 Hn). unfold zweek in G. cbn [fst] in G. lia.
  - rewrite <- inj_season in Hn. specialize (G _ _ F3 Hn).
    destruct (Nat.lt_ge_cases n c) as [|GE]; auto. exfalso.
    assert (fst (zseason c) <= fst (zseason n)); [|lia].
    clear - GE. induction GE; [lia|]. pose proof (season_lt m). lia.
  - rewrite <- inj_year in Hn. specialize (G _ _ F7 Hn). unfold zyear in G. cbn [fst] in G. lia.
Qed.

(* ---------------- C08 ---------------- *)

Definition fuel_bound (FINISH : Qc) : nat := 4 * Z.to_nat (qfloor (Qcplus FINISH q1) + 1).

Lemma in_of_kind {W} k (lg : log W) e : In e (of_kind k lg) -> exists s, In (e, s) lg.
Proof.
  unfold of_kind. intros H. apply filter_In in H. destruct H as [H _]. apply in_map_iff in H.
  destruct H as ([e' s] & E & H). cbn in E. subst. eauto.
Qed.

Lemma trace_due {W} (h : handlers W) cf s0 lg s a b c d :
  trace h cf s0 0 0 0 0 lg s a b c d ->
  forall e s', In (e, s') lg -> (fst e <= Qcplus (c_FINISH cf) q1)%Qc.
Proof.
  intros T. induction T as [|s0 a0 b0 c0 d0 lg s1 a1 b1 c1 d1 e s2 a2 b2 c2 d2 T IH I ES RF LF LC EC FA ST].
  - intros e s' [].
  - intros e' s' H. apply in_app_or in H. destruct H as [H|[H|[]]]; [eauto|].
    apply pair_equal_spec in H. destruct H as [<- _]. exact LF.
Qed.

Lemma count_bound (f : nat -> event) (lo n : nat) (F : Qc) :
  (forall k, (lo <= k)%nat -> (qz (Z.of_nat (k - lo)) <= fst (f k))%Qc) ->
  (forall e, In e (map f (seq lo n)) -> (fst e <= F)%Qc) ->
  (n <= Z.to_nat (qfloor F + 1))%nat.
Proof.
  intros LB H. destruct n as [|n]; [lia|].
  assert (In (f (lo + n)%nat) (map f (seq lo (S n)))) as I.
  { apply in_map. apply in_seq. lia. }
  specialize (H _ I). specialize (LB (lo + n)%nat ltac:(lia)).
  replace (lo + n - lo)%nat with n in LB by lia.
  assert (qz (Z.of_nat n) <= F)%Qc by (eapply Qcle_trans; eauto).
  destruct (qfloor_spec F) as [_ Q].
  assert (qz (Z.of_nat n) < qz (qfloor F + 1))%Qc as L by (eapply Qcle_lt_trans; eauto).
  apply (proj1 (qz_lt _ _)) in L. lia.
Qed.

Lemma qz_hh z : qz z = hh (2 * z). Proof. apply hh_on. Qed.

Theorem terminates {W} (h : handlers W) cf nu (w : W) fuel :
  step_ok (c_JSTEP cf) -> (fuel_bound (c_FINISH cf) < fuel)%nat ->
  exists lg o, contrl fuel h cf (start cf nu w) = (lg, Some o).
Proof.
  intros SO HF. destruct (contrl fuel h cf (start cf nu w)) as [lg o] eqn:R.
  destruct o as [o|]; [eauto|]. exfalso.
  pose proof (contrl_none _ _ _ _ _ R) as L.
  destruct (run_end h cf nu w fuel lg None SO R) as (s1 & a & b & c & d & f1 & T & I & C).
  destruct (trace_kinds _ _ _ _ _ _ _ _ _ T) as (K1 & K2 & K3 & K4 & KL).
  pose proof (trace_due _ _ _ _ _ _ _ _ _ T) as D. unfold step_ok in SO.
  assert (DK : forall k e, In e (of_kind k lg) -> (fst e <= c_FINISH cf + q1)%Qc).
  { intros k e He. apply in_of_kind in He. destruct He as (s & He). eauto. }
  unfold fuel_bound in HF.
  assert (B1 : (a <= Z.to_nat (qfloor (c_FINISH cf + q1) + 1))%nat).
  { eapply (count_bound (draw_event (c_JSTEP cf)) 1); [|intros e He; apply (DK 1); now rewrite K1].
    intros k Hk. rewrite <- inj_draw, qz_hh. cbn [inj zdraw fst]. apply hh_le.
    assert (Z.of_nat (k - 1) <= Z.of_nat k) by lia. nia. }
  assert (B2 : (b <= Z.to_nat (qfloor (c_FINISH cf + q1) + 1))%nat).
  { eapply (count_bound week_event 0); [|intros e He; apply (DK 2); now rewrite K2].
    intros k Hk. rewrite <- inj_week, qz_hh. cbn [inj zweek fst]. apply hh_le. lia. }
  assert (B3 : (c <= Z.to_nat (qfloor (c_FINISH cf + q1) + 1))%nat).
  { eapply (count_bound season_event 0); [|intros e He; apply (DK 3); now rewrite K3].
    intros k Hk. rewrite <- inj_season, qz_hh. cbn [inj zseason fst]. apply hh_le.
    pose proof (Nat.div_mod k 4 ltac:(lia)). lia. }
  assert (B4 : (d <= Z.to_nat (qfloor (c_FINISH cf + q1) + 1))%nat).
  { eapply (count_bound year_event 1); [|intros e He; apply (DK 4); now rewrite K4].
    intros k Hk. rewrite <- inj_year, qz_hh. cbn [inj zyear fst]. apply hh_le. lia. }
  assert (fuel = a + b + c + d)%nat by (rewrite <- L; exact KL). lia.
Qed.

Theorem no_late_event {W} (h : handlers W) cf nu (w : W) fuel lg o :
  step_ok (c_JSTEP cf) -> contrl fuel h cf (start cf nu w) = (lg, o) ->
  forall e s, In (e, s) lg -> (fst e <= Qcplus (c_FINISH cf) q1)%Qc.
Proof.
  intros SO R. destruct (run_end h cf nu w fuel lg o SO R) as (s1 & a & b & c & d & f1 & T & I & C).
  eapply trace_due; eauto.
Qed.

Lemma stepped_rflag {W} (h : handlers W) cf s a b c d e s' a' b' c' d' :
  stepped h cf s a b c d e s' a' b' c' d' -> s_rflag s' <> s_rflag s ->
  snd e = qz 4 /\ h_year h (fst e) (s_w s) = Ok (s_w s', s_rflag s').
Proof. intros ST H. destruct ST; try congruence. split; auto. Qed.

(** converged: exactly when a year end reported it, and then at once *)
Theorem stop_on_convergence {W} (h : handlers W) cf nu (w : W) fuel lg o :
  step_ok (c_JSTEP cf) -> contrl fuel h cf (start cf nu w) = (lg, o) ->
  (forall pre e s post, lg = pre ++ (e, s) :: post -> s_rflag s = 1 ->
      snd e = qz 4 /\ post = [] /\ (o = Some Converged \/ o = None)) /\
  (o = Some Converged -> exists pre e s, lg = pre ++ [(e, s)] /\ s_rflag s = 1 /\
      exists w0, h_year h (fst e) w0 = Ok (s_w s, 1)).
Proof.
  intros SO R.
  assert (CHG : forall pre e s post, lg = pre ++ (e, s) :: post -> s_rflag s = 1 ->
     snd e = qz 4 /\ exists w0, h_year h (fst e) w0 = Ok (s_w s, 1)).
  { intros pre e s post -> RF.
    destruct (run_at h cf nu w fuel pre e s post o SO R)
      as (s1 & a1 & b1 & c1 & d1 & a2 & b2 & c2 & d2 & T & I & NRF & LF & LC & EC & FA & ST & I2).
    apply stepped_rflag in ST; [|congruence]. rewrite RF in ST. destruct ST. eauto. }
  split.
  - intros pre e s post E RF. split; [eapply CHG; eauto|].
    subst lg. replace (pre ++ (e, s) :: post) with ((pre ++ [(e, s)]) ++ post) in R by (rewrite <- app_assoc; reflexivity).
    destruct (run_trace h cf nu w fuel _ _ o SO R) as (s1 & a1 & b1 & c1 & d1 & f1 & T & I & C & _).
    assert (s1 = s) as ->.
    { apply trace_last in T. destruct T as [[T _]|(lg' & e' & T & _)].
      - destruct pre; discriminate.
      - apply app_inj_tail in T. destruct T as [_ T]. congruence. }
    pose proof (step_spec h cf s a1 b1 c1 d1 SO I) as SP.
    destruct f1 as [|f1]; cbn [contrl] in C.
    { injection C as <- <-. auto. }
    destruct (contrl_step h cf s) as [| | |y|e1 s'|er] eqn:ES; try tauto.
    injection C as <- <-. auto.
  - intros ->. destruct (run_end h cf nu w fuel lg _ SO R) as (s1 & a & b & c & d & f1 & T & I & C).
    pose proof (step_spec h cf s1 a b c d SO I) as SP. apply contrl_last in C. rewrite C in SP.
    apply trace_last in T. destruct T as [[_ ->]|(pre & e & E & _)]; [discriminate|].
    exists pre, e, s1. split; auto. split; auto.
    eapply (CHG pre e s1 []); auto.
Qed.

(* ---------------- C09 ---------------- *)

(** draws done before the year end number [y] *)
Theorem draws_before_year_end {W} (h : handlers W) cf nu (w : W) fuel pre y s post o :
  step_ok (c_JSTEP cf) ->
  contrl fuel h cf (start cf nu w) = (pre ++ (year_event y, s) :: post, o) ->
  exists m, of_kind 1 pre = map (draw_event (c_JSTEP cf)) (seq 1 m) /\
    c_JSTEP cf * Z.of_nat m <= 8760 * Z.of_nat y < c_JSTEP cf * Z.of_nat (S m).
Proof.
  intros SO R.
  destruct (run_at h cf nu w fuel pre _ s post o SO R)
    as (s1 & a1 & b1 & c1 & d1 & a2 & b2 & c2 & d2 & T & I & NRF & LF & LC & EC & FA & ST & I2).
  destruct (trace_kinds _ _ _ _ _ _ _ _ _ T) as (K1 & _).
  exists a1. split; auto.
  remember (year_event y) as e eqn:E.
  destruct ST; try (apply (f_equal snd) in E; apply qz_inj in E; discriminate).
  assert (y = S d1) as ->.
  { rewrite <- !inj_year in E. apply inj_inj in E. apply (f_equal fst) in E. cbn [zyear fst] in E. lia. }
  split; [|lia].
  destruct I as [_ (ck & EK & HK & _)]. rewrite EK, <- inj_year in LC. apply (proj1 (hh_le _ _)) in LC.
  cbn [zyear fst] in LC. lia.
Qed.

(** with a step dividing 8760, each year contains all its draws *)
Theorem draws_per_year {W} (h : handlers W) cf nu (w : W) fuel pre y s mid s' post o :
  step_ok (c_JSTEP cf) -> (c_JSTEP cf | 8760) ->
  contrl fuel h cf (start cf nu w) =
    (pre ++ (year_event y, s) :: mid ++ (year_event (S y), s') :: post, o) ->
  Z.of_nat (length (of_kind 1 mid)) = 8760 / c_JSTEP cf /\
  Z.of_nat (length (of_kind 1 pre)) = (8760 / c_JSTEP cf) * Z.of_nat y.
Proof.
  intros SO [q DV] R.
  destruct (draws_before_year_end h cf nu w fuel pre y s _ o SO R) as (m1 & K1 & B1).
  assert (R2 : contrl fuel h cf (start cf nu w) =
    ((pre ++ (year_event y, s) :: mid) ++ (year_event (S y), s') :: post, o)).
  { rewrite R. now rewrite <- app_assoc. }
  destruct (draws_before_year_end h cf nu w fuel _ (S y) s' post o SO R2) as (m2 & K2 & B2).
  assert (KS : of_kind 1 (pre ++ (year_event y, s) :: mid) = of_kind 1 pre ++ of_kind 1 mid).
  { unfold of_kind. rewrite map_app, filter_app. cbn [map filter]. reflexivity. }
  rewrite KS in K2. apply (f_equal (@length _)) in K1. apply (f_equal (@length _)) in K2.
  rewrite app_length in K2. rewrite !map_length, !seq_length in *.
  unfold step_ok in SO. assert (8760 / c_JSTEP cf = q) as -> by (rewrite DV; apply Z.div_mul; lia).
  split; nia.
Qed.

(* ---------------- C10 ---------------- *)

Lemma pyget_ok_nat {A} (l : list A) i x d : pyget l (Z.of_nat i) = Ok x -> nth i l d = x /\ (i < length l)%nat.
Proof.
  intros H. destruct (Nat.lt_ge_cases i (length l)) as [L|L].
  - rewrite (pyget_nonneg l (Z.of_nat i) d) in H by lia. rewrite Nat2Z.id in H. split; congruence.
  - unfold pyget, pyidx in H.
    replace ((0 <=? Z.of_nat i) && (Z.of_nat i <? Z.of_nat (length l)))%bool with false in H.
    + replace (Z.of_nat i <? 0) with false in H by (symmetry; apply Z.ltb_ge; lia). discriminate.
    + symmetry. apply andb_false_iff. right. apply Z.ltb_ge. lia.
Qed.

Lemma fancy_set_spec idx : forall v x,
  (forall i, In i idx -> 0 <= i < Z.of_nat (length v)) ->
  exists v', fancy_set v idx x = Ok v' /\ length v' = length v /\
   forall u d, (u < length v)%nat ->
     (In (Z.of_nat u) idx -> nth u v' d = x) /\ (~ In (Z.of_nat u) idx -> nth u v' d = nth u v d).
Proof.
  induction idx as [|i idx IH]; intros v x H; cbn [fancy_set].
  - exists v. split; auto. split; auto. intros u d Hu. split; [intros []|auto].
  - rewrite pyset_nonneg by (apply H; now left). cbn [bind].
    destruct (IH (upd v (Z.to_nat i) x) x) as (v' & E & L & S).
    { intros k Hk. rewrite upd_length. apply H. now right. }
    rewrite upd_length in L, S. exists v'. split; auto. split; auto.
    intros u d Hu. destruct (S u d Hu) as [S1 S2].
    assert (0 <= i < Z.of_nat (length v)) as Hi by (apply H; now left).
    split.
    + intros [->|Hin]; auto.
      destruct (in_dec Z.eq_dec (Z.of_nat u) idx) as [Y|N]; auto.
      rewrite S2 by auto. rewrite Nat2Z.id. now apply nth_upd_same.
    + intros N. rewrite S2 by (intros C; apply N; now right).
      apply nth_upd_other. intros <-. apply N. left. lia.
Qed.

Lemma week_status_spec JHOUR JPLOUT PLNDST row :
  0 <= JHOUR / 168 <= 51 -> nth_error JPLOUT (Z.to_nat (JHOUR / 168)) = Some row ->
  row_ok (length PLNDST) row ->
  exists p, week_status JHOUR JPLOUT PLNDST = Ok p /\ status_of row (length PLNDST) p.
Proof.
  intros HW HR (MT & rest & -> & HM & HE).
  unfold week_status. replace (51 <? JHOUR / 168) with false by (symmetry; apply Z.ltb_ge; lia).
  assert (LR : (Z.to_nat (JHOUR / 168) < length JPLOUT)%nat) by (apply nth_error_Some; congruence).
  rewrite (pyget_nonneg _ _ []) by lia. rewrite (nth_error_nth _ _ _ HR). cbn [bind].
  rewrite (pyget_nonneg _ _ 0) by (cbn [length]; lia). cbn [nth bind Z.to_nat].
  assert (PS : pyslice (MT :: rest) 1 (MT + 1) = firstn (Z.to_nat MT) rest).
  { unfold pyslice. replace (MT + 1 <? 0) with false by (symmetry; apply Z.ltb_ge; lia).
    rewrite Z2Nat.inj_add by lia. rewrite Nat.add_1_r. cbn [firstn skipn]. reflexivity. }
  rewrite PS.
  destruct (fancy_set_spec (firstn (Z.to_nat MT) rest) (repeat q1 (length PLNDST)) q0) as (p & E & L & S).
  { intros i Hi. rewrite repeat_length. apply In_nth with (d := 0) in Hi. destruct Hi as (j & Hj & <-).
    rewrite firstn_length in Hj. rewrite <- (firstn_skipn (Z.to_nat MT) rest) in HE.
    specialize (HE j ltac:(lia)). rewrite app_nth1 in HE by (rewrite firstn_length; lia). exact HE. }
  rewrite repeat_length in L, S.
  exists p. split; auto. split; auto. intros u Hu. destruct (S u q0 Hu) as [S1 S2].
  assert (LI : listed (MT :: rest) u <-> In (Z.of_nat u) (firstn (Z.to_nat MT) rest)).
  { split.
    - intros (j & J1 & J2 & J3). cbn [nth] in J2. destruct j as [|j]; [lia|]. cbn [nth] in J3.
      rewrite <- J3. rewrite <- (firstn_skipn (Z.to_nat MT) rest) at 1.
      rewrite app_nth1 by (rewrite firstn_length; lia). apply nth_In. rewrite firstn_length. lia.
    - intros Hin. apply In_nth with (d := -1) in Hin. destruct Hin as (j & Hj & EJ).
      rewrite firstn_length in Hj. exists (Datatypes.S j). split; [lia|]. cbn [nth]. split; [lia|].
      rewrite <- EJ. rewrite <- (firstn_skipn (Z.to_nat MT) rest) at 1.
      rewrite app_nth1; auto. rewrite firstn_length. lia. }
  split; intros H.
  - apply S1. now apply LI.
  - rewrite S2 by (intros C; apply H; now apply LI).
    rewrite nth_indep with (d' := q1) by (rewrite repeat_length; lia). apply nth_repeat.
Qed.

Lemma week_status_after_year JHOUR JPLOUT PLNDST :
  51 < JHOUR / 168 -> week_status JHOUR JPLOUT PLNDST = Ok (repeat q1 (length PLNDST)).
Proof. intros H. unfold week_status. now replace (51 <? JHOUR / 168) with true by (symmetry; apply Z.ltb_lt; lia). Qed.

Theorem week_event_effect {W} (h : handlers W) cf (s : lst W) ty l n row :
  holds (s_cal s) l (S n) ->
  0 <= s_jhour s / 168 <= 51 -> nth_error (c_JPLOUT cf) (Z.to_nat (s_jhour s / 168)) = Some row ->
  row_ok (length (s_plndst s)) row ->
  exists s' l', events h cf 2 s ty = Ok s' /\
    status_of row (length (s_plndst s)) (s_plndst s') /\
    scheduled (Qcplus (s_clock s) (qz 168), ty) l l' /\ holds (s_cal s') l' n /\
    s_rating s' = s_rating s /\ s_w s' = s_w s /\ s_rflag s' = s_rflag s /\ s_iq s' = s_iq s.
Proof.
  intros H HW HR RO.
  destruct (filem_refines _ _ _ (Qcplus (s_clock s) (qz 168), ty) H) as (c' & l' & F & S & H').
  destruct (week_status_spec _ _ _ _ HW HR RO) as (p & E & SP).
  eexists; exists l'. unfold events. cbn [Z.eqb Pos.eqb]. rewrite F. cbn [bind]. rewrite E. cbn [bind].
  split; [reflexivity|]. cbn. auto 10.
Qed.

(* ---------------- C11, C12 ---------------- *)

Lemma trace_vars {W} (h : handlers W) cf nu (w : W) lg s a b c d :
  trace h cf (start cf nu w) 0 0 0 0 lg s a b c d ->
  s_jhour s = (if Nat.eqb a 0 then 0 else hour_index (on (c_JSTEP cf * Z.of_nat a))) /\
  s_iq s = Z.of_nat (c mod 4) /\
  (c <> 0%nat -> rates_of (c_RATES cf) (Z.of_nat (c mod 4)) = Ok (s_rating s)) /\
  length (s_plndst s) = nu.
Proof.
  remember (start cf nu w) as s00 eqn:ES0.
  intros T. remember 0%nat as z0 eqn:Z0 in T at 1. remember 0%nat as z1 eqn:Z1 in T at 1.
  remember 0%nat as z2 eqn:Z2 in T at 1. remember 0%nat as z3 eqn:Z3 in T at 1.
  induction T as [|s0 a0 b0 c0 d0 lg s1 a1 b1 c1 d1 e s2 a2 b2 c2 d2 T IH I ES RF LF LC EC FA ST].
  { subst. cbn. split; auto. split; auto. split; [congruence|]. apply repeat_length. }
  destruct IH as (J1 & Q1 & R1 & P1); auto.
  destruct ST as [s2 S1 S2 S3 S4 S5 S6 | s2 S1 S2 S3 S4 S5 S6 | s2 S1 S2 S3 S4 S5 S6 | s2 S1 S2 S3 S4 S5 S6].
  - rewrite S2, S3, S4, S5. cbn [Nat.eqb]. auto.
  - rewrite S2, S3, S4. split; auto. split; auto. split; auto.
    clear - S1 P1. unfold week_status in S1. destruct (51 <? s_jhour s1 / 168).
    + injection S1 as E. rewrite <- E. now rewrite repeat_length.
    + destruct (pyget _ _); cbn [bind] in S1; [|discriminate].
      destruct (pyget _ _); cbn [bind] in S1; [|discriminate].
      assert (FL : forall idx v x v', fancy_set v idx x = Ok v' -> length v' = length v).
      { induction idx as [|i idx IH]; cbn; intros v x v' E; [congruence|].
        unfold pyset in E. destruct (pyidx _ _); cbn [bind] in E; [|discriminate].
        apply IH in E. now rewrite upd_length in E. }
      apply FL in S1. now rewrite repeat_length in S1; congruence.
  - assert (EQ : s_iq s2 = Z.of_nat (S c1 mod 4)).
    { rewrite S1, Q1. unfold next_IQ. rewrite Nat2Z.inj_mod, Nat2Z.inj_mod.
      change (Z.of_nat 4) with 4. rewrite Zplus_mod_idemp_l. f_equal. lia. }
    rewrite S3, S4, EQ. split; auto. split; auto. split; auto. intros _. rewrite <- EQ. exact S2.
  - rewrite S3, S4, S5, S6. auto.
Qed.

Lemma hour_index_int t : 0 <= t -> hour_index (on t) = t mod 8760 - 1.
Proof.
  intros H. unfold hour_index, qmod, on.
  assert (F : qfloor (Qcdiv (qz t) (qz 8760)) = t / 8760).
  { apply qfloor_unique.
    - unfold Qcle. rewrite this_div, !this_qz. apply Qle_shift_div_l; [reflexivity|].
      rewrite <- inject_Z_mult. rewrite <- Zle_Qle. pose proof (Z.mul_div_le t 8760 ltac:(lia)). lia.
    - unfold Qclt. rewrite this_div, !this_qz. apply Qlt_shift_div_r; [reflexivity|].
      rewrite <- inject_Z_mult. rewrite <- Zlt_Qlt. pose proof (Z.mul_succ_div_gt t 8760 ltac:(lia)). lia. }
  rewrite F, <- qz_mult, <- qz_minus, qtrunc_qz. rewrite Z.mod_eq by lia. lia.
Qed.

Theorem maintenance_row_in_force {W} (h : handlers W) cf nu (w : W) fuel pre k s post o row :
  step_ok (c_JSTEP cf) -> (c_JSTEP cf | 168) -> (1 <= k <= 52)%nat ->
  contrl fuel h cf (start cf nu w) = (pre ++ (week_event k, s) :: post, o) ->
  nth_error (c_JPLOUT cf) (k - 1) = Some row -> row_ok nu row ->
  status_of row nu (s_plndst s).
Proof.
  intros SO [q DV] HK R HR RO.
  destruct (run_at h cf nu w fuel pre _ s post o SO R)
    as (s1 & a1 & b1 & c1 & d1 & a2 & b2 & c2 & d2 & T & I & NRF & LF & LC & EC & FA & ST & I2).
  destruct (trace_vars _ _ _ _ _ _ _ _ _ _ T) as (J1 & _ & _ & PL).
  destruct I as [_ (ck & EK & HCK & _)]. rewrite EK, <- inj_week in LC. apply (proj1 (hh_le _ _)) in LC.
  cbn [zweek fst] in LC.
  unfold agenda in FA. inversion FA as [|? ? F1 _]; subst. rewrite <- inj_week in F1. apply (proj1 (hh_le _ _)) in F1.
  unfold zweek, zdraw in F1. cbn [fst] in F1. unfold step_ok in SO.
  assert (A : c_JSTEP cf * Z.of_nat a1 = 168 * Z.of_nat k).
  { set (J := c_JSTEP cf) in *. set (x := Z.of_nat a1) in *. set (y := Z.of_nat k) in *.
    replace (Z.of_nat (S a1)) with (x + 1) in F1 by lia.
    assert (L1 : J * x <= J * (q * y)) by nia. assert (L2 : J * (q * y) < J * (x + 1)) by nia.
    apply Z.mul_le_mono_pos_l in L1; [|lia]. apply Z.mul_lt_mono_pos_l in L2; [|lia].
    assert (x = q * y) by lia. nia. }
  assert (a1 <> 0%nat) as NZ by nia.
  rewrite (proj2 (Nat.eqb_neq a1 0) NZ) in J1. rewrite A, hour_index_int in J1 by lia.
  assert (JW : s_jhour s1 / 168 = Z.of_nat (k - 1)).
  { rewrite J1, Z.mod_small by lia. symmetry. apply Z.div_unique with (r := 167); lia. }
  remember (week_event k) as e eqn:E.
  destruct ST as [s2 S1 S2 S3 S4 S5 S6 | s2 S1 S2 S3 S4 S5 S6 | s2 S1 S2 S3 S4 S5 S6 | s2 S1 S2 S3 S4 S5 S6];
    try (apply (f_equal snd) in E; apply qz_inj in E; discriminate).
  destruct (week_status_spec (s_jhour s1) (c_JPLOUT cf) (s_plndst s1) row) as (p & EP & SP).
  - rewrite JW. lia.
  - rewrite JW, Nat2Z.id. exact HR.
  - exact RO.
  - rewrite EP in S1. injection S1 as <-. exact SP.
Qed.

Lemma rates_of_column RATES q : (q < 4)%nat -> rates_ok RATES ->
  rates_of RATES (Z.of_nat q) = Ok (season_ratings RATES q).
Proof.
  intros Hq. induction RATES as [|row RATES IH]; intros RO; cbn; auto.
  inversion RO as [|? ? LR RO']; subst. cbn in LR.
  fold (rates_of RATES (Z.of_nat q)). rewrite IH by auto.
  rewrite (pyget_nonneg row _ q0) by lia. cbn [bind]. now rewrite Nat2Z.id.
Qed.

(** the ratings in force at a draw *)
Theorem ratings_in_force {W} (h : handlers W) cf nu (w : W) fuel pre n s post o :
  step_ok (c_JSTEP cf) -> rates_ok (c_RATES cf) ->
  contrl fuel h cf (start cf nu w) = (pre ++ (draw_event (c_JSTEP cf) n, s) :: post, o) ->
  exists q, in_season (fst (draw_event (c_JSTEP cf) n)) q /\
    s_rating s = season_ratings (c_RATES cf) (S q mod 4).
Proof.
  intros SO RO R.
  destruct (run_at h cf nu w fuel pre _ s post o SO R)
    as (s1 & a1 & b1 & c1 & d1 & a2 & b2 & c2 & d2 & T & I & NRF & LF & LC & EC & FA & ST & I2).
  destruct (trace_vars _ _ _ _ _ _ _ _ _ _ T) as (_ & _ & R1 & _).
  set (J := c_JSTEP cf) in *. unfold step_ok in SO.
  assert (DR : s_rating s = s_rating s1 /\ n = S a1).
  { remember (draw_event J n) as e eqn:E.
    destruct ST as [s2 S1 S2 S3 S4 S5 S6 | s2 S1 S2 S3 S4 S5 S6 | s2 S1 S2 S3 S4 S5 S6 | s2 S1 S2 S3 S4 S5 S6];
    try (apply (f_equal snd) in E; apply qz_inj in E; discriminate).
    split; auto. fold J in E. rewrite <- !inj_draw in E. apply inj_inj in E. apply (f_equal fst) in E.
    cbn [zdraw fst] in E. nia. }
  destruct DR as [-> ->].
  unfold agenda in FA. inversion FA as [|? ? F1 FA1]; subst. inversion FA1 as [|? ? F2 FA2]; subst.
  inversion FA2 as [|? ? F3 _]; subst. rewrite <- inj_draw in F3. apply (proj1 (hh_le _ _)) in F3.
  destruct c1 as [|c1].
  { exfalso. unfold zseason, zdraw in F3. cbn [fst] in F3. change (0 mod 4)%nat with 0%nat in F3.
    change (0 / 4)%nat with 0%nat in F3. nia. }
  exists c1. split.
  - split; rewrite <- inj_draw, <- inj_season.
    + apply hh_le.
      (* the last season event delivered is not after the clock *)
      destruct (trace_kinds _ _ _ _ _ _ _ _ _ T) as (_ & _ & K3 & _).
      destruct (trace_sorted _ _ _ _ _ _ _ _ _ T) as (_ & FS).
      assert (In (season_event c1) (of_kind 3 pre)) as IN by (rewrite K3; apply in_map, in_seq; lia).
      apply in_of_kind in IN. destruct IN as (sx & IN). rewrite Forall_forall in FS. specialize (FS _ IN).
      cbn [fst] in FS. rewrite <- inj_season in FS. rewrite <- inj_draw in LC.
      apply hh_le. eapply Qcle_trans; [exact FS|exact LC].
    + apply hh_lt. assert (fst (zdraw J (S a1)) <> fst (zseason (S c1))); [|lia].
      unfold zdraw, zseason. cbn [fst]. lia.
  - rewrite rates_of_column in R1; auto.
    + specialize (R1 ltac:(lia)). congruence.
    + apply Nat.mod_upper_bound. lia.
Qed.
