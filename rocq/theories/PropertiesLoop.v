(** Property theorems C06-C12: the simulation loop.

    All theorems quantify over every behaviour [h] of the hour and year handlers
    (their effect on the rest of the program's data, including failure). *)
From Coq Require Import Sorted Permutation.
From Verif Require Import Base BaseProofs EventModel EventSpec EventProofs ControlModel ControlSpec
  ControlProofs RunProofs.
Open Scope Z_scope.

(** A run configuration used to show the theorems are not vacuous: one unit,
    daily step, one year; the unit is listed for maintenance in week 1 only. *)
Definition quiet : handlers unit := mkHandlers unit (fun _ _ _ w => Ok w) (fun _ w => Ok (w, 0)).
Definition demo : rcfg :=
  mkCfg 24 (qz 8760) [[qz 10; qz 20; qz 30; qz 40]]
    ([0; 0] :: [1; 0] :: repeat [0; 0] 50).

(** C06.  At every iteration exactly 1 + 1 + 4 + 1 events are pending, none before
    the clock; the clock is the time of the event just delivered and never moves
    backwards; the two internal error exits are unreachable. *)
Theorem C06_loop_invariant : forall W (h : handlers W) cf nu (w : W) fuel lg o,
  step_ok (c_JSTEP cf) ->
  contrl fuel h cf (start cf nu w) = (lg, o) ->
  (forall e s, In (e, s) lg -> s_clock s = fst e /\
     exists l n, holds (s_cal s) l n /\ length l = 7%nat /\
       length (pending_of 1 l) = 1%nat /\ length (pending_of 2 l) = 1%nat /\
       length (pending_of 3 l) = 4%nat /\ length (pending_of 4 l) = 1%nat /\
       Forall (fun e => (s_clock s <= fst e)%Qc) l) /\
  StronglySorted (fun x y => (fst (fst x) <= fst (fst y))%Qc) lg /\
  o <> Some PtrError /\ o <> Some PastError.
Proof. exact @loop_invariant. Qed.
Print Assumptions C06_loop_invariant.

(** C06, the other way a run can end abnormally: an exception always comes out of
    the hour or year handler, the outage table or the rates table, never out of
    the calendar. *)
Theorem C06_only_handlers_fail : forall W (h : handlers W) cf nu (w : W) fuel lg er,
  step_ok (c_JSTEP cf) ->
  contrl fuel h cf (start cf nu w) = (lg, Some (Failed er)) ->
  exists s, (lg = [] /\ s = start cf nu w \/ exists lg' e, lg = lg' ++ [(e, s)]) /\
   ((exists t, h_hour h t (s_plndst s) (s_rating s) (s_w s) = Err er) \/
    week_status (s_jhour s) (c_JPLOUT cf) (s_plndst s) = Err er \/
    rates_of (c_RATES cf) (next_IQ (s_iq s)) = Err er \/
    (exists t, h_year h t (s_w s) = Err er)).
Proof. exact @loop_only_handlers_fail. Qed.
Print Assumptions C06_only_handlers_fail.

(** C07.  The delivered draws, week starts, season changes and year ends are
    exactly the first [a], [b], [c], [d] entries of the timetable; a run that
    reaches its end time has delivered every entry due by then. *)
Theorem C07_timetable : forall W (h : handlers W) cf nu (w : W) fuel lg o,
  step_ok (c_JSTEP cf) ->
  contrl fuel h cf (start cf nu w) = (lg, o) ->
  exists a b c d,
    of_kind 1 lg = map (draw_event (c_JSTEP cf)) (seq 1 a) /\
    of_kind 2 lg = map week_event (seq 0 b) /\
    of_kind 3 lg = map season_event (seq 0 c) /\
    of_kind 4 lg = map year_event (seq 1 d) /\
    length lg = (a + b + c + d)%nat /\
    (forall y, o = Some (EndTime y) ->
       (forall n, (fst (draw_event (c_JSTEP cf) n) <= Qcplus (c_FINISH cf) q1)%Qc -> (n <= a)%nat) /\
       (forall n, (fst (week_event n) <= Qcplus (c_FINISH cf) q1)%Qc -> (n < b)%nat) /\
       (forall n, (fst (season_event n) <= Qcplus (c_FINISH cf) q1)%Qc -> (n < c)%nat) /\
       (forall n, (fst (year_event n) <= Qcplus (c_FINISH cf) q1)%Qc -> (n <= d)%nat)).
Proof. exact @timetable. Qed.
Print Assumptions C07_timetable.

(** C08.  The loop ends after at most [fuel_bound FINISH] iterations, *)
Theorem C08_terminates : forall W (h : handlers W) cf nu (w : W) fuel,
  step_ok (c_JSTEP cf) -> (4 * Z.to_nat (qfloor (Qcplus (c_FINISH cf) q1) + 1) < fuel)%nat ->
  exists lg o, contrl fuel h cf (start cf nu w) = (lg, Some o).
Proof. exact @terminates. Qed.
Print Assumptions C08_terminates.

(** delivers nothing later than an hour after the end time, *)
Theorem C08_no_late_event : forall W (h : handlers W) cf nu (w : W) fuel lg o,
  step_ok (c_JSTEP cf) -> contrl fuel h cf (start cf nu w) = (lg, o) ->
  forall e s, In (e, s) lg -> (fst e <= Qcplus (c_FINISH cf) q1)%Qc.
Proof. exact @no_late_event. Qed.
Print Assumptions C08_no_late_event.

(** and stops at once when a year end reports convergence, and only then. *)
Theorem C08_stop_on_convergence : forall W (h : handlers W) cf nu (w : W) fuel lg o,
  step_ok (c_JSTEP cf) -> contrl fuel h cf (start cf nu w) = (lg, o) ->
  (forall pre e s post, lg = pre ++ (e, s) :: post -> s_rflag s = 1 ->
      snd e = qz 4 /\ post = [] /\ (o = Some Converged \/ o = None)) /\
  (o = Some Converged -> exists pre e s, lg = pre ++ [(e, s)] /\ s_rflag s = 1 /\
      exists w0, h_year h (fst e) w0 = Ok (s_w s, 1)).
Proof. exact @stop_on_convergence. Qed.
Print Assumptions C08_stop_on_convergence.

(** C09.  When year end [y] is delivered, exactly the draws due by then have been
    performed, those due at that very time included; *)
Theorem C09_draws_before_year_end : forall W (h : handlers W) cf nu (w : W) fuel pre y s post o,
  step_ok (c_JSTEP cf) ->
  contrl fuel h cf (start cf nu w) = (pre ++ (year_event y, s) :: post, o) ->
  exists m, of_kind 1 pre = map (draw_event (c_JSTEP cf)) (seq 1 m) /\
    c_JSTEP cf * Z.of_nat m <= 8760 * Z.of_nat y < c_JSTEP cf * Z.of_nat (S m).
Proof. exact @draws_before_year_end. Qed.
Print Assumptions C09_draws_before_year_end.

(** so each year contains all its 8760/step draws. *)
Theorem C09_draws_per_year : forall W (h : handlers W) cf nu (w : W) fuel pre y s mid s' post o,
  step_ok (c_JSTEP cf) -> (c_JSTEP cf | 8760) ->
  contrl fuel h cf (start cf nu w) =
    (pre ++ (year_event y, s) :: mid ++ (year_event (S y), s') :: post, o) ->
  Z.of_nat (length (of_kind 1 mid)) = 8760 / c_JSTEP cf /\
  Z.of_nat (length (of_kind 1 pre)) = (8760 / c_JSTEP cf) * Z.of_nat y.
Proof. exact @draws_per_year. Qed.
Print Assumptions C09_draws_per_year.

(** non-vacuity of C06-C09: the demo run completes its year: 365 draws, 53 week
    starts, 5 season changes, 1 year end, and ends at its end time *)
Example C09_example :
  let '(lg, o) := contrl 500 quiet demo (start demo 1 tt) in
  (length (of_kind 1 lg), length (of_kind 2 lg), length (of_kind 3 lg), length (of_kind 4 lg),
   match o with Some (EndTime y) => y | _ => -1 end) = (365%nat, 53%nat, 5%nat, 1%nat, 1).
Proof. vm_compute. reflexivity. Qed.

(** C10.  After a week-start event exactly the units listed in the row in force are
    out of service, and the next week start is scheduled 168 hours later; nothing
    else changes. *)
Theorem C10_week_start : forall W (h : handlers W) cf (s : lst W) ty l n row,
  holds (s_cal s) l (S n) ->
  0 <= s_jhour s / 168 <= 51 -> nth_error (c_JPLOUT cf) (Z.to_nat (s_jhour s / 168)) = Some row ->
  row_ok (length (s_plndst s)) row ->
  exists s' l', events h cf 2 s ty = Ok s' /\
    status_of row (length (s_plndst s)) (s_plndst s') /\
    scheduled (Qcplus (s_clock s) (qz 168), ty) l l' /\ holds (s_cal s') l' n /\
    s_rating s' = s_rating s /\ s_w s' = s_w s /\ s_rflag s' = s_rflag s /\ s_iq s' = s_iq s.
Proof. exact @week_event_effect. Qed.
Print Assumptions C10_week_start.

(** beyond week 51 every unit is in service *)
Theorem C10_after_last_week : forall JHOUR JPLOUT PLNDST,
  51 < JHOUR / 168 -> week_status JHOUR JPLOUT PLNDST = Ok (repeat q1 (length PLNDST)).
Proof. exact week_status_after_year. Qed.
Print Assumptions C10_after_last_week.

Example C10_example : row_ok 3 [2; 1; 0; 7] /\ listed [2; 1; 0; 7] 0 /\ ~ listed [2; 1; 0; 7] 2.
Proof.
  split; [|split].
  - exists 2, [1; 0; 7]. cbn. split; auto. split; [lia|]. intros [|[|j]] Hj; cbn; lia.
  - exists 2%nat. cbn. lia.
  - intros (j & H1 & H2 & H3). cbn in H2. destruct j as [|[|[|[|j]]]]; cbn in *; try lia.
Qed.

Lemma find_entry {W} (P : event * lst W -> bool) lg :
  existsb P lg = true -> exists pre e s post, lg = pre ++ (e, s) :: post /\ P (e, s) = true.
Proof.
  intros H. apply existsb_exists in H. destruct H as ([e s] & I & HP).
  apply in_split in I. destruct I as (pre & post & ->). eauto 10.
Qed.
Lemma demo_rates : rates_ok (c_RATES demo).
Proof. repeat constructor. Qed.

(** C11 is false; what holds instead, for every table and every run: at the start
    of calendar week [k] (1 <= k <= 52) the outages applied are those of week
    [k - 1], one week late. *)
Theorem C11_lags_one_week : forall W (h : handlers W) cf nu (w : W) fuel pre k s post o row,
  step_ok (c_JSTEP cf) -> (c_JSTEP cf | 168) -> (1 <= k <= 52)%nat ->
  contrl fuel h cf (start cf nu w) = (pre ++ (week_event k, s) :: post, o) ->
  nth_error (c_JPLOUT cf) (k - 1) = Some row -> row_ok nu row ->
  status_of row nu (s_plndst s).
Proof. exact @maintenance_row_in_force. Qed.
Print Assumptions C11_lags_one_week.

(** a run in which the outages applied at the start of week 1 are not week 1's *)
Theorem C11_refuted : exists (h : handlers unit) cf nu fuel pre s post o row,
  step_ok (c_JSTEP cf) /\ (c_JSTEP cf | 168) /\
  contrl fuel h cf (start cf nu tt) = (pre ++ (week_event 1, s) :: post, o) /\
  nth_error (c_JPLOUT cf) 1 = Some row /\ row_ok nu row /\ ~ status_of row nu (s_plndst s).
Proof.
  destruct (contrl 10 quiet demo (start demo 1 tt)) as [lg o] eqn:R.
  assert (X : existsb (fun x => qeqb (fst (fst x)) (fst (week_event 1)) && qeqb (snd (fst x)) (qz 2) &&
                 qeqb (nth 0 (s_plndst (snd x)) q0) q1) lg = true).
  { replace lg with (fst (contrl 10 quiet demo (start demo 1 tt))) by (rewrite R; reflexivity).
    vm_compute. reflexivity. }
  apply find_entry in X. destruct X as (pre & [t ty] & s & post & -> & P). cbn [fst snd] in P.
  rewrite !andb_true_iff in P. destruct P as ((P1 & P2) & P3). apply qeqb_iff in P1, P2, P3. subst t ty.
  exists quiet, demo, 1%nat, 10%nat, pre, s, post, o, [1; 0].
  split. { unfold step_ok, demo. cbn. lia. } split. { exists 7. reflexivity. }
  split. { exact R. } split. { reflexivity. }
  split. { exists 1, [0]. split; auto. split; [cbn; lia|]. intros [|j] Hj; cbn in *; lia. }
  intros (_ & H). destruct (H 0%nat ltac:(lia)) as [H0 _].
  rewrite P3 in H0. assert (q1 = q0) as C; [|apply qz_inj in C; discriminate].
  apply H0. exists 1%nat. cbn. lia.
Qed.
Print Assumptions C11_refuted.

(** C12 is false; what holds instead: at every draw, the ratings used are those
    the user gave for the season after the one the draw lies in. *)
Theorem C12_ratings_one_season_ahead : forall W (h : handlers W) cf nu (w : W) fuel pre n s post o,
  step_ok (c_JSTEP cf) -> rates_ok (c_RATES cf) ->
  contrl fuel h cf (start cf nu w) = (pre ++ (draw_event (c_JSTEP cf) n, s) :: post, o) ->
  exists q, in_season (fst (draw_event (c_JSTEP cf) n)) q /\
    s_rating s = season_ratings (c_RATES cf) (S q mod 4).
Proof. exact @ratings_in_force. Qed.
Print Assumptions C12_ratings_one_season_ahead.

(** the first draw of a run does not use the first season's ratings *)
Theorem C12_refuted : exists (h : handlers unit) cf nu fuel pre s post o,
  step_ok (c_JSTEP cf) /\ rates_ok (c_RATES cf) /\
  contrl fuel h cf (start cf nu tt) = (pre ++ (draw_event (c_JSTEP cf) 1, s) :: post, o) /\
  in_season (fst (draw_event (c_JSTEP cf) 1)) 0 /\
  s_rating s <> season_ratings (c_RATES cf) 0.
Proof.
  destruct (contrl 3 quiet demo (start demo 1 tt)) as [lg o] eqn:R.
  assert (X : existsb (fun x => qeqb (fst (fst x)) (fst (draw_event 24 1)) && qeqb (snd (fst x)) (qz 1) &&
                 qeqb (nth 0 (s_rating (snd x)) q0) (qz 20)) lg = true).
  { replace lg with (fst (contrl 3 quiet demo (start demo 1 tt))) by (rewrite R; reflexivity).
    vm_compute. reflexivity. }
  apply find_entry in X. destruct X as (pre & [t ty] & s & post & -> & P). cbn [fst snd] in P.
  rewrite !andb_true_iff in P. destruct P as ((P1 & P2) & P3). apply qeqb_iff in P1, P2, P3. subst t ty.
  exists quiet, demo, 1%nat, 3%nat, pre, s, post, o.
  split. { unfold step_ok, demo. cbn. lia. } split. { exact demo_rates. }
  split. { exact R. } split. { split; [apply qleb_iff|apply qltb_iff]; vm_compute; reflexivity. }
  intros C. rewrite C in P3. cbn in P3. apply qz_inj in P3. discriminate.
Qed.
Print Assumptions C12_refuted.
