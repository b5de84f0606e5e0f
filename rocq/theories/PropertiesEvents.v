(** Property theorems C01-C05: the event calendar. *)
From Coq Require Import Sorted Permutation.
From Verif Require Import Base BaseProofs EventModel EventSpec EventProofs StartProofs.
Open Scope Z_scope.

(** C01.  Scheduling any event into any calendar with a free slot succeeds; the
    pending events are the old ones with the new one inserted, in chronological
    order, and the count grows by one. *)
Theorem C01_schedule : forall c l n e,
  holds c l (S n) ->
  exists c' l', filem c e = Ok c' /\ holds c' l' n /\
    (exists before after, l = before ++ after /\ l' = before ++ e :: after) /\
    chronological l' /\ NUMINQ c' = NUMINQ c + 1 /\ NUMINQ c' = Z.of_nat (length l').
Proof.
  intros c l n e H. destruct (filem_refines c l n e H) as (c' & l' & E & S & H').
  exists c', l'. split; [exact E|]. split; [exact H'|].
  split. { destruct S as (b & a & E1 & E2 & _). eauto. }
  split. { eapply holds_chrono; eauto. }
  rewrite (holds_count _ _ _ H'), (holds_count _ _ _ H). split; [|reflexivity].
  apply scheduled_perm in S. apply Permutation_length in S. cbn [length] in S. lia.
Qed.
Print Assumptions C01_schedule.

(** the freshly initialised calendar has room for 25 events *)
Example C01_example : holds initfl [] 25.
Proof. exact initfl_holds. Qed.
(** ... and the start calendar of a run holds seven *)
Example C01_example_run : holds (initl 1 initfl_cells)
  (start_events 1 (qq 4369 2) (qq 8737 2) (qq 13105 2)) 0.
Proof. apply initl_holds; [reflexivity|lia]. Qed.

(** C02.  A newly scheduled event is delivered before every pending event that is
    due at the same time (or later) and after every strictly earlier one. *)
Theorem C02_ties : forall c l n e c',
  holds c l (S n) -> filem c e = Ok c' ->
  exists before after, l = before ++ after /\ holds c' (before ++ e :: after) n /\
    (forall x, In x l -> fst x = fst e -> In x after) /\
    (forall x, In x after -> (fst e <= fst x)%Qc) /\
    (forall x, In x before -> (fst x < fst e)%Qc).
Proof.
  intros c l n e c' H F. destruct (filem_refines c l n e H) as (c2 & l' & E & S & H').
  rewrite E in F. injection F as ->. destruct S as (b & a & -> & -> & B & A).
  exists b, a. split; [reflexivity|]. split; [exact H'|]. split; [|split; assumption].
  intros x Hx EQ. apply in_app_or in Hx. destruct Hx as [Hx|Hx]; [|exact Hx].
  specialize (B x Hx). rewrite EQ in B. apply Qclt_not_le in B. exfalso. apply B. apply Qcle_refl.
Qed.
Print Assumptions C02_ties.

(** C03.  Taking from a calendar with pending events [e :: l] delivers [e], which
    is no later than any other, leaves exactly [l] and decrements the count; an
    empty calendar ends the program. *)
Theorem C03_take : forall c e l n,
  holds c (e :: l) n ->
  exists c', remove c = Ok (Some (e, c')) /\ holds c' l 1 /\
    (forall x, In x l -> (fst e <= fst x)%Qc) /\ NUMINQ c' = NUMINQ c - 1.
Proof.
  intros c e l n H. destruct (remove_refines c e l n H) as (c' & E & H').
  exists c'. split; [exact E|]. split; [exact H'|]. split.
  - apply holds_chrono in H. inversion H as [|? ? _ F]; subst. apply Forall_forall. exact F.
  - rewrite (holds_count _ _ _ H'), (holds_count _ _ _ H). cbn [length]. lia.
Qed.
Print Assumptions C03_take.

Theorem C03_take_empty : forall c, NUMINQ c <= 0 -> remove c = Err SystemExit.
Proof. intros c H. unfold remove. now rewrite (proj2 (Z.leb_le _ _) H). Qed.
Print Assumptions C03_take_empty.

(** C04 (part that holds).  In every history in which each schedule finds a known
    free slot ([room]: 25 in a fresh calendar, exactly one after each take),
    nothing is lost: taken and pending events together are the scheduled ones.
    Missing from the full property: histories with two schedules in a row after a
    take, or more than 25 pending events; there the claim is false (below). *)
Theorem C04_histories_partial : forall ops, room 0 25 ops ->
  exists tk c' l n, run_ops initfl ops = Ok (tk, c') /\ holds c' l n /\
    Permutation (scheduled_in ops) (tk ++ l).
Proof. exact run_with_room. Qed.
Print Assumptions C04_histories_partial.

Example C04_example : room 0 25
  [Schedule (qz 3, qz 1); Schedule (qz 1, qz 2); Take; Schedule (qz 2, qz 1); Take; Take].
Proof. cbn. exact I. Qed.

(** C04 fails in general: schedule 1,2,3; take; schedule 4; schedule 5; take.
    Events 2, 3, 4 are pending but 5 is delivered, and the remaining calendar
    represents no list of events at all. *)
Theorem C04_refuted : exists ops tk c,
  ops = [Schedule (qz 1, qz 1); Schedule (qz 2, qz 1); Schedule (qz 3, qz 1); Take;
         Schedule (qz 4, qz 1); Schedule (qz 5, qz 1); Take] /\
  run_ops initfl ops = Ok (tk, c) /\ tk = [(qz 1, qz 1); (qz 5, qz 1)] /\
  NUMINQ c = 3 /\ (forall l n, ~ holds c l n).
Proof.
  destruct losing_history_broken as (tk & c & H). exists losing_history, tk, c. split; [reflexivity|exact H].
Qed.
Print Assumptions C04_refuted.

(** C04 also fails at the capacity: after scheduling events 1..26 into a fresh
    calendar, event 1 is in no slot any more although 26 are reported pending. *)
Theorem C04_overflow_refuted : exists c,
  run_ops initfl (map (fun i => Schedule (qz (Z.of_nat i), qz 1)) (seq 1 26)) = Ok ([], c) /\
  NUMINQ c = 26 /\ cell (EVNTS c) 1 = qz 26 /\
  (forall s, 0 <= s < 100 -> cell (EVNTS c) s <> qz 1 \/ s mod 4 = 2).
Proof. exact overfull_broken. Qed.
Print Assumptions C04_overflow_refuted.

(** C05 (part that holds).  For every sampling step up to a quarter the hard-wired
    calendar is, cell by cell, what scheduling the seven start events into the
    empty calendar gives with the built-in season boundaries. *)
Theorem C05_initial_calendar_partial : forall JSTEP, 1 <= JSTEP <= 2184 ->
  initl_alt JSTEP initfl (qq 4369 2, qq 8737 2, qq 13105 2) = Ok (initl JSTEP initfl_cells) /\
  holds (initl JSTEP initfl_cells) (start_events JSTEP (qq 4369 2) (qq 8737 2) (qq 13105 2)) 0.
Proof. intros J HJ. split; [now apply initl_is_scheduling|]. apply initl_holds; [reflexivity|exact HJ]. Qed.
Print Assumptions C05_initial_calendar_partial.

(** C05 fails for the user's own season boundaries: they are ignored. *)
Theorem C05_refuted : exists JSTEP Q1 Q2 Q3 c,
  1 <= JSTEP <= 2184 /\ (qq 1 2 < Q1)%Qc /\ (Q1 < Q2)%Qc /\ (Q2 < Q3)%Qc /\ (Q3 < qz 8760)%Qc /\
  initl_alt JSTEP initfl (Q1, Q2, Q3) = Ok c /\ c <> initl JSTEP initfl_cells.
Proof. exact initl_ignores_seasons. Qed.
Print Assumptions C05_refuted.
