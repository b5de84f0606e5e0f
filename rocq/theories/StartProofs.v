(** The initial calendar (C05) and what can go wrong with it (C04). *)
From Coq Require Import Sorted Permutation.
From Verif Require Import Base BaseProofs EventModel EventSpec EventProofs.
Open Scope Z_scope.

Fixpoint cells_eqb (l l' : list Qc) : bool :=
  match l, l' with
  | [], [] => true
  | a :: r, a' :: r' => qeqb a a' && cells_eqb r r'
  | _, _ => false
  end.
Lemma cells_eqb_sound l l' : cells_eqb l l' = true -> l = l'.
Proof.
  revert l'. induction l as [|a l IH]; intros [|a' l']; cbn; try discriminate; auto.
  rewrite andb_true_iff. intros [E R]. apply qeqb_iff in E. subst. f_equal. auto.
Qed.
Definition cal_eqb (c c' : cal) : bool :=
  (MFA c =? MFA c') && (NUMINQ c =? NUMINQ c') && (IPOINT c =? IPOINT c') && cells_eqb (EVNTS c) (EVNTS c').
Lemma cal_eqb_sound c c' : cal_eqb c c' = true -> c = c'.
Proof.
  destruct c, c'. unfold cal_eqb. cbn. rewrite !andb_true_iff, !Z.eqb_eq. intros (((-> & ->) & ->) & E).
  apply cells_eqb_sound in E. congruence.
Qed.

(** the calendar after the six events that do not depend on the step *)
Definition six : cal :=
  mkCal 24 6 20 (firstn 24 (upd (initl_cells 1) 0 (qz 4)) ++ skipn 24 initfl_cells).

Lemma six_ok : (do c1 <- filem initfl (qq 1 2, qz 3);
  do c2 <- filem c1 (qq 4369 2, qz 3);
  do c3 <- filem c2 (qq 8737 2, qz 3);
  do c4 <- filem c3 (qq 13105 2, qz 3);
  do c5 <- filem c4 (qz 8760, qz 4);
  filem c5 (qq 1 2, qz 2)) = Ok six.
Proof.
  assert (forall r : res cal, match r with Ok c => cal_eqb c six | _ => false end = true -> r = Ok six) as G.
  { intros [c|e]; [|discriminate]. intros H. f_equal. now apply cal_eqb_sound. }
  apply G. vm_compute. reflexivity.
Qed.

Lemma bind_assoc {A B C} (m : res A) (f : A -> res B) (g : B -> res C) :
  bind (bind m f) g = bind m (fun x => bind (f x) g).
Proof. destruct m; reflexivity. Qed.

Theorem initl_is_scheduling J : 1 <= J <= 2184 ->
  initl_alt J initfl (qq 4369 2, qq 8737 2, qq 13105 2) = Ok (initl J initfl_cells).
Proof.
  intros HJ. unfold initl_alt.
  pose proof six_ok as SIX.
  match goal with |- ?L = _ => replace L with (bind (Ok six) (fun c => filem c (qz J, qz 1))) end.
  2:{ rewrite <- SIX. rewrite !bind_assoc.
      destruct (filem initfl _); cbn [bind]; auto.
      destruct (filem a _); cbn [bind]; auto. destruct (filem a0 _); cbn [bind]; auto.
      destruct (filem a1 _); cbn [bind]; auto. destruct (filem a2 _); cbn [bind]; auto. }
  cbn [bind]. unfold filem. cbn [six MFA NUMINQ IPOINT EVNTS fst snd].
  set (ev := firstn 24 _ ++ _). assert (LEV : length ev = 100%nat) by reflexivity.
  rewrite pyset_nonneg by (rewrite LEV; lia). cbn [bind].
  rewrite pyset_nonneg by (rewrite upd_length, LEV; lia). cbn [bind].
  set (ev2 := upd _ _ _). assert (L2 : length ev2 = 100%nat) by (unfold ev2; now rewrite !upd_length).
  rewrite (cell_get ev2 24) by lia. cbn [bind].
  replace (qtrunc (cell ev2 24)) with 28 by reflexivity.
  cbn [Z.ltb Z.compare].
  assert (GT : qltb (qq 1 2) (qz J) = true).
  { apply qltb_iff. apply Qclt_le_trans with (qz 1); [now vm_compute|]. apply qz_le. lia. }
  assert (LE : qltb (qq 4369 2) (qz J) = false).
  { apply qltb_false. apply Qcle_trans with (qz 2184); [apply qz_le; lia|]. now vm_compute. }
  rewrite (cell_get ev2 (20 + 1)) by lia. cbn [bind].
  replace (cell ev2 (20 + 1)) with (qq 1 2) by reflexivity. rewrite GT.
  rewrite L2. change 100%nat with (S (S (S 97))). cbn [filem_walk].
  rewrite (cell_get ev2 (20 + 1)) by lia. cbn [bind].
  replace (cell ev2 (20 + 1)) with (qq 1 2) by reflexivity. rewrite GT.
  rewrite (cell_get ev2 20) by lia. cbn [bind].
  replace (qtrunc (cell ev2 20)) with 0 by reflexivity. cbn [Z.eqb].
  rewrite (cell_get ev2 (0 + 1)) by lia. cbn [bind].
  replace (cell ev2 (0 + 1)) with (qq 1 2) by reflexivity. rewrite GT.
  rewrite (cell_get ev2 0) by lia. cbn [bind].
  replace (qtrunc (cell ev2 0)) with 4 by reflexivity. cbn [Z.eqb Pos.eqb].
  rewrite (cell_get ev2 (4 + 1)) by lia. cbn [bind].
  replace (cell ev2 (4 + 1)) with (qq 4369 2) by reflexivity. rewrite LE.
  cbn [bind Z.eqb Pos.eqb].
  rewrite pyset_nonneg by lia. cbn [bind]. rewrite pyset_nonneg by (rewrite upd_length; lia). cbn [bind].
  unfold initl. f_equal.
Qed.

(** the calendar a run would need for other season boundaries *)
Theorem initl_ignores_seasons :
  exists J Q1 Q2 Q3 c, 1 <= J <= 2184 /\ (qq 1 2 < Q1)%Qc /\ (Q1 < Q2)%Qc /\ (Q2 < Q3)%Qc /\ (Q3 < qz 8760)%Qc /\
    initl_alt J initfl (Q1, Q2, Q3) = Ok c /\ c <> initl J initfl_cells.
Proof.
  exists 1, (qz 2000), (qz 4000), (qz 6000).
  destruct (initl_alt 1 initfl (qz 2000, qz 4000, qz 6000)) as [c|e] eqn:E.
  - exists c. repeat (split; [first [lia | now vm_compute | reflexivity]|]).
    intros ->. assert (H : match initl_alt 1 initfl (qz 2000, qz 4000, qz 6000) with
      Ok c => cal_eqb c (initl 1 initfl_cells) | _ => false end = true).
    { rewrite E. clear E. unfold cal_eqb. rewrite !Z.eqb_refl.
      induction (EVNTS (initl 1 initfl_cells)) as [|a l IH]; [reflexivity|].
      cbn in *. rewrite IH. rewrite andb_true_r. now apply qeqb_iff. }
    vm_compute in H. discriminate.
  - exfalso. apply (f_equal (fun r => match r with Ok _ => true | _ => false end)) in E.
    vm_compute in E. discriminate.
Qed.

(* ------------------------------------------------------------------ *)
(** ** C04 *)

Lemma room_history ops : forall l k, chronological l -> room (length l) k ops ->
  exists tk lf kf, history l k ops tk lf kf.
Proof.
  induction ops as [|[e|] ops IH]; intros l k C R; cbn [room] in R.
  - exists [], l, k. constructor.
  - destruct k as [|k]; [tauto|].
    assert (exists l', scheduled e l l' /\ chronological l') as (l' & S & C').
    { clear - C. exists (filter (fun x => qltb (fst x) (fst e)) l ++ e :: filter (fun x => negb (qltb (fst x) (fst e))) l).
      assert (EL : l = filter (fun x => qltb (fst x) (fst e)) l ++ filter (fun x => negb (qltb (fst x) (fst e))) l).
      { induction l as [|x l IH]; cbn; auto. inversion C as [|? ? C' F]; subst.
        destruct (qltb (fst x) (fst e)) eqn:E; cbn.
        - f_equal. auto.
        - assert (Z : filter (fun x => qltb (fst x) (fst e)) l = []).
          { clear - F E. induction l as [|y l IH]; cbn; auto. inversion F; subst.
            assert (qltb (fst y) (fst e) = false) as ->.
            { qc_bool. eapply Qcle_trans; eauto. } auto. }
          specialize (IH C'). cbn beta in *. rewrite Z in IH |- *. cbn [app] in IH |- *. now rewrite <- IH. }
      split.
      - exists (filter (fun x => qltb (fst x) (fst e)) l), (filter (fun x => negb (qltb (fst x) (fst e))) l).
        split; auto. split; auto. split; intros x Hx; apply filter_In in Hx; destruct Hx as [_ Hx].
        + now apply qltb_iff in Hx.
        + apply negb_true_iff in Hx. now apply qltb_false in Hx.
      - rewrite EL in C. apply sorted_insert; auto.
        + intros x Hx; apply filter_In in Hx; destruct Hx as [_ Hx]. now apply qltb_iff in Hx.
        + intros x Hx; apply filter_In in Hx; destruct Hx as [_ Hx]. apply negb_true_iff in Hx. now apply qltb_false in Hx. }
    destruct (IH l' k C') as (tk & lf & kf & H).
    { destruct S as (b & a & -> & -> & _). rewrite app_length in *. cbn [length] in *.
      rewrite Nat.add_succ_r. exact R. }
    exists tk, lf, kf. econstructor; eauto.
  - destruct l as [|e l]; [destruct R|]. cbn [length] in R.
    destruct (IH l 1%nat) as (tk & lf & kf & H); auto. { inversion C; auto. }
    exists (e :: tk), lf, kf. constructor. exact H.
Qed.

Theorem run_with_room ops : room 0 25 ops ->
  exists tk c' l n, run_ops initfl ops = Ok (tk, c') /\ holds c' l n /\
    Permutation (scheduled_in ops) (tk ++ l).
Proof.
  intros R. destruct (room_history ops [] 25 ltac:(constructor) R) as (tk & lf & kf & H).
  destruct (history_run _ _ _ _ _ _ H initfl initfl_holds) as (c' & E & HF).
  exists tk, c', lf, kf. split; auto. split; auto.
  apply history_conserves in H. exact H.
Qed.

(** taking an event and then scheduling two loses a pending event *)
Definition losing_history : list op :=
  [Schedule (qz 1, qz 1); Schedule (qz 2, qz 1); Schedule (qz 3, qz 1); Take;
   Schedule (qz 4, qz 1); Schedule (qz 5, qz 1); Take].

Lemma self_loop_broken c l n x :
  IPOINT c = x -> cell (EVNTS c) x = qz x -> x <> -1 -> ~ holds c l n.
Proof.
  intros EI EC NX (ss & fs & L & _ & ND & _). rewrite EI in L.
  destruct ss as [|a ss]; cbn in L; [congruence|]. destruct L as (<- & nx & E & L).
  rewrite EC in E. apply qz_inj in E. subst nx.
  destruct ss as [|b ss]; cbn in L; [congruence|]. destruct L as (<- & _).
  inversion ND as [|? ? NI _]; subst. apply NI. now left.
Qed.

(** three events pending (2, 3 and 4), yet the take delivers 5, and the calendar
    no longer represents any list of events *)
Theorem losing_history_broken : exists tk c,
  run_ops initfl losing_history = Ok (tk, c) /\ tk = [(qz 1, qz 1); (qz 5, qz 1)] /\
  NUMINQ c = 3 /\ (forall l n, ~ holds c l n).
Proof.
  set (good := fun r : res (list event * cal) => match r with
    | Ok ([(a, b); (a', b')], c) => qeqb a (qz 1) && qeqb b (qz 1) && qeqb a' (qz 5) && qeqb b' (qz 1) &&
        (NUMINQ c =? 3) && (IPOINT c =? 4) && qeqb (cell (EVNTS c) 4) (qz 4)
    | _ => false end).
  assert (G : good (run_ops initfl losing_history) = true) by (vm_compute; reflexivity).
  destruct (run_ops initfl losing_history) as [[tk c]|e]; [|discriminate].
  exists tk, c. split; auto. unfold good in G.
  destruct tk as [|[a b] [|[a' b'] [|]]]; try discriminate.
  rewrite !andb_true_iff, !Z.eqb_eq in G. destruct G as ((((((A & B) & A') & B') & N) & I) & C).
  apply qeqb_iff in A, B, A', B', C. subst. split; auto. split; auto.
  intros l n. eapply self_loop_broken; eauto. discriminate.
Qed.

(** the 26th event scheduled into a fresh calendar overwrites the first *)
Definition overfull : list op :=
  map (fun i => Schedule (qz (Z.of_nat i), qz 1)) (seq 1 26).

Theorem overfull_broken : exists c, run_ops initfl overfull = Ok ([], c) /\ NUMINQ c = 26 /\
  cell (EVNTS c) 1 = qz 26 /\ (forall s, 0 <= s < 100 -> cell (EVNTS c) s <> qz 1 \/ s mod 4 = 2).
Proof.
  set (good := fun r : res (list event * cal) => match r with
    | Ok ([], c) => (NUMINQ c =? 26) && qeqb (cell (EVNTS c) 1) (qz 26) &&
        forallb (fun i => negb (qeqb (cell (EVNTS c) (Z.of_nat i)) (qz 1)) || (Z.of_nat i mod 4 =? 2)) (seq 0 100)
    | _ => false end).
  assert (G : good (run_ops initfl overfull) = true) by (vm_compute; reflexivity).
  destruct (run_ops initfl overfull) as [[tk c]|e]; [|discriminate].
  unfold good in G. destruct tk; [|discriminate]. exists c. split; auto.
  rewrite !andb_true_iff, Z.eqb_eq in G. destruct G as ((N & A) & F). apply qeqb_iff in A.
  split; auto. split; auto. intros s Hs. rewrite forallb_forall in F.
  specialize (F (Z.to_nat s) ltac:(apply in_seq; lia)). rewrite Z2Nat.id in F by lia.
  apply orb_true_iff in F. destruct F as [F|F].
  - left. apply negb_true_iff in F. now apply qeqb_false in F.
  - right. now apply Z.eqb_eq.
Qed.
