(** Property theorems C36-C39: statistics of a recorded loss hour. *)
From Verif Require Import Base BaseProofs Sums LoadModel LoadSpec LoadProofs StatModel StatSpec StatProofs.
Open Scope Z_scope.

(** C36.  [s] statistics of n areas and w forecast levels; the margins at level NST
    are M, negative where an area is short.  Shortfall of area j: [int(-M[j])]. *)
Theorem C36_hourly_record : forall n w NST M LS s,
  stat_shape n w s -> length M = n -> length LS = n -> (NST < w)%nat ->
  let '(LS', s') := hrstat NST M LS s in
  let short j := qltb (nth j M q0) q0 in
  let loss j := if short j then qtrunc (Qcopp (nth j M q0)) else 0 in
  let one j := if short j then 1 else 0 in
  let T := qltb q0 (qsum M) in
  stat_shape n w s' /\
  (* exactly one pool counter grows, by one, at this level *)
  (bumped w NST 1 (plolT s) (plolT s') /\ plolG s' = plolG s \/ bumped w NST 1 (plolG s) (plolG s') /\ plolT s' = plolT s) /\
  (* areas: the counter and the energy of one and the same cause; nothing else *)
  mbumped n w NST (fun j => if T then one j else 0) (lolT s) (lolT s') /\
  mbumped n w NST (fun j => if T then 0 else one j) (lolG s) (lolG s') /\
  mbumped n w NST (fun j => if T then loss j else 0) (mgnT s) (mgnT s') /\
  mbumped n w NST (fun j => if T then 0 else loss j) (mgnG s) (mgnG s') /\
  (* the pool's energy grows by the areas' *)
  (forall k, (k < w)%nat ->
     zget (pmgnG s') k - zget (pmgnG s) k = column_sum n (mgnG s') k - column_sum n (mgnG s) k /\
     zget (pmgnT s') k - zget (pmgnT s) k = column_sum n (mgnT s') k - column_sum n (mgnT s) k) /\
  (forall j, (j < n)%nat -> zget LS' j = zget LS j + one j).
Proof.
  intros n w NST M LS s S L LL HN. pose proof (hrstat_spec n w NST M LS s S L LL HN) as H.
  destruct (hrstat NST M LS s) as [LS' s']. destruct H as (L1 & C1 & R). cbv zeta. destruct R as [SR R1 R2 R3 R4 R5 R6 R7 R8].
  split; [exact SR|]. split; [|split; [exact R2|split; [exact R1|split; [exact R4|split; [exact R3|split; [|exact C1]]]]]].
  - assert (VE : forall u v, length u = w -> length v = w -> bumped w NST 0 u v -> v = u).
    { intros u v Lu Lv E. apply (nth_ext _ _ 0 0); [lia|]. intros k Hk. specialize (E k ltac:(lia)). unfold zget in E. rewrite E. destruct (Nat.eqb k NST); lia. }
    destruct (qleb q0 (qsum M)); [left|right]; (split; [assumption|]); apply VE; auto; (apply S || apply SR).
  - intros k Hk. apply (recorded_energy n w NST M); auto. constructor; auto.
Qed.
Print Assumptions C36_hourly_record.

Theorem C36_versions_agree : forall n w NST M LS s,
  stat_shape n w s -> length M = n -> length LS = n -> (NST < w)%nat -> whole M ->
  hrstat NST M LS s = hrstat_vec NST M LS s.
Proof. intros n w NST M LS s S L LL HN W. apply (versions_agree n w NST M LS s S L LL HN W). Qed.
Print Assumptions C36_versions_agree.

Definition zs := zero_stat 3 5.
Definition demo_margins : list Qc := [qz (-5); qz 10; qz (-2)].
Example C36_witness : stat_shape 3 5 zs /\ whole demo_margins /\
  hrstat 2 demo_margins [0; 0; 0] zs =
  ([1; 0; 1], mkStat (lolG zs) [[0; 0; 1; 0; 0]; [0; 0; 0; 0; 0]; [0; 0; 1; 0; 0]] (mgnG zs) [[0; 0; 5; 0; 0]; [0; 0; 0; 0; 0]; [0; 0; 2; 0; 0]]
                     (plolG zs) [0; 0; 1; 0; 0] (pmgnG zs) [0; 0; 7; 0; 0]).
Proof.
  split; [apply zero_stat_shape|]. split; [|vm_compute; reflexivity].
  intros X [<-|[<-|[<-|[]]]]; eexists; reflexivity.
Qed.
(** The restriction to whole margins matters: with fractions the two versions round
    the pool's energy differently. *)
Example C36_fractions_differ :
  pmgnT (snd (hrstat 0 [qq (-1) 2; qq (-1) 2; qz 5] [0; 0; 0] zs)) <> pmgnT (snd (hrstat_vec 0 [qq (-1) 2; qq (-1) 2; qz 5] [0; 0; 0] zs)).
Proof. vm_compute. discriminate. Qed.

(** C37.  Only one cause is charged, for the pool and for the areas. *)
Definition only_T (s s' : stat) : Prop := lolG s' = lolG s /\ mgnG s' = mgnG s /\ plolG s' = plolG s /\ pmgnG s' = pmgnG s.
Definition only_G (s s' : stat) : Prop := lolT s' = lolT s /\ mgnT s' = mgnT s /\ plolT s' = plolT s /\ pmgnT s' = pmgnT s.
Theorem C37_one_cause_partial : forall n w NST M LS s,
  stat_shape n w s -> length M = n -> length LS = n -> (NST < w)%nat -> qsum M <> q0 ->
  let s' := snd (hrstat NST M LS s) in
  (only_T s s' /\ Qclt q0 (qsum M)) \/ (only_G s s' /\ Qclt (qsum M) q0).
Proof.
  intros n w NST M LS s S L LL HN NZ. pose proof (hrstat_spec n w NST M LS s S L LL HN) as H.
  destruct (hrstat NST M LS s) as [LS' s']. destruct H as (_ & _ & R). cbv zeta. cbn [snd]. destruct R as [SR R1 R2 R3 R4 R5 R6 R7 R8].
  assert (VE : forall u v, length u = w -> length v = w -> bumped w NST 0 u v -> v = u).
  { intros u v Lu Lv E. apply (nth_ext _ _ 0 0); [lia|]. intros k Hk. specialize (E k ltac:(lia)). unfold zget in E. rewrite E. destruct (Nat.eqb k NST); lia. }
  assert (ME : forall u v, shape n w u -> shape n w v -> mbumped n w NST (fun _ => 0) u v -> v = u).
  { intros u v Su Sv E. apply (shape_ext n w); auto. intros j k Hj Hk. rewrite E by auto. destruct (Nat.eqb k NST); lia. }
  destruct S, SR. unfold causeT in *. destruct (qltb q0 (qsum M)) eqn:E.
  - left. apply (proj1 (qltb_iff _ _)) in E. assert (qleb q0 (qsum M) = true) as E2 by (apply qleb_iff; apply Qclt_le_weak; exact E).
    rewrite E2 in *. split; [|exact E]. unfold only_T. auto 10.
  - right. apply (proj1 (qltb_false _ _)) in E. assert (LT : Qclt (qsum M) q0) by (apply Qcle_lt_or_eq in E; destruct E; [auto|contradiction]).
    assert (qleb q0 (qsum M) = false) as E2. { destruct (qleb q0 (qsum M)) eqn:Q; auto. apply (proj1 (qleb_iff _ _)) in Q. exfalso. apply (Qclt_not_le _ _ LT Q). }
    rewrite E2 in *. split; [|exact LT]. unfold only_G. auto 10.
Qed.
Print Assumptions C37_one_cause_partial.
(** False when the margins add up to zero: the pool charges transmission, the areas
    charge generation. *)
Theorem C37_zero_sum_refuted : exists M, whole M /\ (exists X, In X M /\ Qclt X q0) /\
  let s' := snd (hrstat 0 M [0; 0] (zero_stat 2 5)) in
  zget (plolT s') 0 = 1 /\ zget (plolG s') 0 = 0 /\ zmget (lolT s') 0 0 = 0 /\ zmget (lolG s') 0 0 = 1 /\
  ~ only_T (zero_stat 2 5) s' /\ ~ only_G (zero_stat 2 5) s'.
Proof.
  exists [qz (-5); qz 5]. split. { intros X [<-|[<-|[]]]; eexists; reflexivity. }
  split. { exists (qz (-5)). split; [now left|]. reflexivity. }
  cbv zeta. repeat split; try (vm_compute; reflexivity).
  - intros (H & _). vm_compute in H. discriminate H.
  - intros (_ & _ & H & _). vm_compute in H. discriminate H.
Qed.
Print Assumptions C37_zero_sum_refuted.
Example C37_witness : qsum demo_margins <> q0.
Proof. intros H. apply (f_equal (fun q => Qnum (this q))) in H. vm_compute in H. discriminate H. Qed.

(** C38. *)
Theorem C38_peak_like_hourly : forall n w NST M LS s,
  stat_shape n w s -> length M = n -> length LS = n -> (NST < w)%nat -> whole M ->
  pkstat NST M s = snd (hrstat NST M LS s) /\ pkstat_loop NST M s = pkstat NST M s.
Proof. intros n w NST M LS s S L LL HN W. destruct (versions_agree n w NST M LS s S L LL HN W) as (_ & A & B). auto. Qed.
Print Assumptions C38_peak_like_hourly.

Theorem C38_peak_below_hourly : forall n w hs LS0,
  Forall (hour_ok n w) hs -> length LS0 = n ->
  let '(_, h, p) := fold_left record_hour hs (LS0, zero_stat n w, zero_stat n w) in stat_le n w p h.
Proof.
  intros n w hs LS0 F L. pose proof (zero_stat_shape n w) as Z.
  pose proof (run_hours_le n w hs LS0 _ _ F L Z Z (stat_le_refl n w _)) as H. unfold run_hours in H.
  destruct (fold_left record_hour hs (LS0, zero_stat n w, zero_stat n w)) as [[? ?] ?]. apply H.
Qed.
Print Assumptions C38_peak_below_hourly.

Definition demo_hours : list hour_rec :=
  [(0%nat, demo_margins, true); (1%nat, demo_margins, false); (0%nat, [qz (-3); qz (-4); qz 1], true)].
Example C38_witness : Forall (hour_ok 3 5) demo_hours /\
  let '(_, h, p) := fold_left record_hour demo_hours ([0; 0; 0], zs, zs) in
  pmgnT h = [7; 7; 0; 0; 0] /\ pmgnG h = [7; 0; 0; 0; 0] /\ pmgnT p = [7; 0; 0; 0; 0] /\ pmgnG p = [7; 0; 0; 0; 0] /\
  lolG h = [[1; 0; 0; 0; 0]; [1; 0; 0; 0; 0]; [0; 0; 0; 0; 0]].
Proof.
  split; [|vm_compute; auto]. assert (W1 : whole demo_margins) by (intros X [<-|[<-|[<-|[]]]]; eexists; reflexivity).
  assert (W2 : whole [qz (-3); qz (-4); qz 1]) by (intros X [<-|[<-|[<-|[]]]]; eexists; reflexivity).
  repeat constructor; auto.
Qed.

(** C39. *)
Theorem C39_pool_energy_is_sum : forall n w hs LS0,
  Forall (hour_ok n w) hs -> length LS0 = n ->
  let '(_, h, p) := fold_left record_hour hs (LS0, zero_stat n w, zero_stat n w) in
  energy_adds_up n w h /\ energy_adds_up n w p.
Proof.
  intros n w hs LS0 F L. pose proof (zero_stat_shape n w) as Z. pose proof (zero_stat_energy n w) as E.
  exact (run_hours_energy n w hs LS0 _ _ F L Z Z E E).
Qed.
Print Assumptions C39_pool_energy_is_sum.
