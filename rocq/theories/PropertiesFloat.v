(** Property theorems C92-C99: what rounding to binary64 does to the results proved in
    exact arithmetic elsewhere. *)
From Coq Require Import Permutation.
From Verif Require Import Base BaseProofs Sums EventModel EventSpec ControlModel ControlSpec SampleModel SampleProofs
  LoadModel LoadSpec LoadProofs ContractProofs PropertiesLoop PropertiesLoad
  FloatSpec FloatModel FloatProofs FloatLoop FloatSums FloatData FloatSample FloatMore.
Open Scope Z_scope.
Ltac qneq := let E := fresh in intros E; apply (f_equal this) in E; vm_compute in E; discriminate E.

(** ** The arithmetic itself: each operation returns the binary64 number nearest to the exact
    result, ties to even, as long as that does not exceed the largest one. *)
Theorem C92_arithmetic : forall a b,
  (in_range (a + b)%Qc -> rounded (a + b)%Qc (fadd a b)) /\
  (in_range (a - b)%Qc -> rounded (a - b)%Qc (fsub a b)) /\
  (in_range (a * b)%Qc -> rounded (a * b)%Qc (fmul a b)) /\
  (in_range (a / b)%Qc -> rounded (a / b)%Qc (fdiv a b)).
Proof. intros a b. split; [|split; [|split]]; intros H; apply fl_rounded; exact H. Qed.
Print Assumptions C92_arithmetic.

(** ** C92.  The simulation clock is not affected by rounding: for every behaviour of the hour and
    year handlers, the loop run on floats goes through the same events and states as the loop run
    in exact arithmetic (to which C06-C12 apply). *)
Theorem C92_clock_exact : forall W (h : handlers W) cf nu (w : W) fuel n,
  step_ok (c_JSTEP cf) -> c_FINISH cf = qz n -> Z.abs n <= 2 ^ 51 ->
  fcontrl fuel h cf (start cf nu w) = contrl fuel h cf (start cf nu w).
Proof. exact @clock_exact. Qed.
Print Assumptions C92_clock_exact.

(** C92: the day number at any hour index the program computes (-1 .. 8758) and the year number at
    any year end are the exact ones. *)
Theorem C92_day_number : forall n, -1 <= n <= 8760 -> fday_number n = n / 24.
Proof. exact day_number_exact. Qed.
Print Assumptions C92_day_number.
Theorem C92_year_number : forall n, (Z.of_nat n <= 2 ^ 38)%Z -> fyear_number (fst (year_event n)) = Z.of_nat n.
Proof. intros n H. exact (year_number_exact (Z.of_nat n) ltac:(lia)). Qed.
Print Assumptions C92_year_number.

Example C92_witness : step_ok (c_JSTEP demo) /\ c_FINISH demo = qz 8760 /\ Z.abs 8760 <= 2 ^ 51 /\
  length (fst (fcontrl 30 quiet demo (start demo 1 tt))) = 30%nat /\
  fadd (qq 1 10) (qq 2 10) <> (qq 1 10 + qq 2 10)%Qc /\
  fday_number (-1) = -1 /\ fday_number 8758 = 364.
Proof.
  split; [unfold step_ok; cbn; lia|]. split; [reflexivity|]. split; [vm_compute; discriminate|].
  split; [vm_compute; reflexivity|]. split; [qneq|]. split; vm_compute; reflexivity.
Qed.

(** ** C93.  Which areas are counted as short.  [margin a b < 0] is the test of hour.py 139-141. *)
Theorem C93_counted : forall SYSCON CAPREQ i, (i < length SYSCON)%nat -> (i < length CAPREQ)%nat ->
  ((vget SYSCON i - vget CAPREQ i <= qz (-1))%Qc -> nth i (fmargins SYSCON CAPREQ) 0 < 0) /\
  (nth i (fmargins SYSCON CAPREQ) 0 < 0 -> (vget SYSCON i - vget CAPREQ i <= qz (-1) + p2 (-54))%Qc).
Proof. exact margins_counted. Qed.
Print Assumptions C93_counted.

(** C93: with capacities and loads given to k <= 53 binary places, rounding never matters. *)
Theorem C93_grid : forall k SYSCON CAPREQ i, (i < length SYSCON)%nat -> (i < length CAPREQ)%nat ->
  0 <= k <= 53 -> on_grid k (vget SYSCON i) -> on_grid k (vget CAPREQ i) ->
  (nth i (fmargins SYSCON CAPREQ) 0 < 0 <-> (vget SYSCON i - vget CAPREQ i <= qz (-1))%Qc).
Proof. exact margins_grid. Qed.
Print Assumptions C93_grid.

(** C93: the sign of a difference of two floats is always right. *)
Theorem C93_sign : forall a b, b64 a -> b64 b ->
  ((fsub a b < q0)%Qc <-> (a < b)%Qc) /\ ((q0 < fsub a b)%Qc <-> (b < a)%Qc) /\ (fsub a b = q0 <-> a = b).
Proof. intros a b A B. apply fsub_sign; now apply b64_flt. Qed.
Print Assumptions C93_sign.

(** C93, refuted in general: an area short by less than one MW can be counted as short. *)
Theorem C93_exact_threshold_refuted : exists a b, b64 a /\ b64 b /\
  nth 0 (fmargins [a] [b]) 0 < 0 /\ ~ (a - b <= qz (-1))%Qc.
Proof.
  exists (p2 (-60)), q1. split; [exists 1, (-60); split; [reflexivity|]; split; [lia|qcheck]|].
  split; [exists 1, 0; split; [reflexivity|]; split; [lia|reflexivity]|].
  split; [vm_compute; reflexivity|]. intros H. apply (proj2 (qleb_iff _ _)) in H. vm_compute in H. discriminate H.
Qed.
Print Assumptions C93_exact_threshold_refuted.
Example C93_witness : on_grid 3 (qq 805 8) /\ on_grid 3 (qq 813 8) /\ on_grid 3 (qq 812 8) /\
  fmargins [qq 805 8; qq 805 8] [qq 813 8; qq 812 8] = [-1; 0].
Proof. split; [exists 805; qcheck|]. split; [exists 813; qcheck|]. split; [exists 812; qcheck|vm_compute; reflexivity]. Qed.

(** ** C94.  Data given to k binary places: sums are exact, whatever the order and the blocking in
    which they are carried out, as long as the sum of the magnitudes stays below 2^(53-k). *)
Theorem C94_sum_exact : forall k l x, 0 <= k <= 1074 -> Forall (on_grid k) l ->
  (qsum (map qabs l) <= p2 (53 - k))%Qc -> fsum_to l x -> x = qsum l.
Proof. exact fsum_grid. Qed.
Print Assumptions C94_sum_exact.
(** C94: the capacity of each area. *)
Theorem C94_capacity_by_area : forall k AVAIL CAPCON n, 0 <= k <= 1074 ->
  Forall (on_grid k) AVAIL -> (qsum (map qabs AVAIL) <= p2 (53 - k))%Qc ->
  fsyscon_loop AVAIL CAPCON (vzeros n) = syscon_loop AVAIL CAPCON (vzeros n).
Proof. exact fsyscon_zeros. Qed.
Print Assumptions C94_capacity_by_area.
(** C94: the net transfers of a day; with C18 they are those of the contracts and sum to zero. *)
Theorem C94_transfers : forall k X JENT INTCH JDAY, 0 <= k <= 1074 -> (q0 <= X)%Qc ->
  (forall r v, In r INTCH -> In v r -> on_grid k v /\ (qabs v <= X)%Qc) ->
  (qz (2 * Z.of_nat (length (contracts JENT))) * X <= p2 (53 - k))%Qc ->
  ffindtn JENT INTCH JDAY = findtn JENT INTCH JDAY.
Proof. exact ffindtn_grid. Qed.
Print Assumptions C94_transfers.
(** C94: the order does matter otherwise. *)
Theorem C94_any_data_refuted : exists l x y, Forall b64 l /\ fsum_to l x /\ fsum_to l y /\ x <> y.
Proof.
  exists [q1; p2 (-53); p2 (-53)].
  exists (feval (Node (Node (Leaf q1) (Leaf (p2 (-53)))) (Leaf (p2 (-53))))).
  exists (feval (Node (Leaf q1) (Node (Leaf (p2 (-53))) (Leaf (p2 (-53)))))).
  split. { repeat constructor; [exists 1, 0|exists 1, (-53)|exists 1, (-53)]; (split; [reflexivity|]; split; [lia|qcheck]). }
  split; [apply fsum_tree, Permutation_refl|]. split; [apply fsum_tree, Permutation_refl|].
  intros E. apply (f_equal (fun v => qeqb v q1)) in E. vm_compute in E. discriminate E.
Qed.
Print Assumptions C94_any_data_refuted.
Lemma demo_cells : forall r v, In r demo_intch -> In v r -> on_grid 0 v /\ (qabs v <= qz 10)%Qc.
Proof.
  assert (C : forall n, Z.abs n <= 10 -> on_grid 0 (qz n) /\ (qabs (qz n) <= qz 10)%Qc).
  { intros n Hn. split; [exists n; change (p2 (- 0)) with q1; qring|]. apply qabs_le_iff. rewrite <- qz_opp. split; apply qz_le; lia. }
  intros r v [<-|[<-|[]]] [<-|[<-|[]]]; apply C; lia.
Qed.
Example C94_witness : Forall (on_grid 2) [qq 401 4; qz 200; qq 1 2] /\ (qsum (map qabs [qq 401 4; qz 200; qq 1 2]) <= p2 51)%Qc /\
  fsyscon_loop [qq 401 4; qz 200; qq 1 2] [0; 1; 0] (vzeros 2) = Ok [qq 403 4; qz 200] /\
  (forall r v, In r demo_intch -> In v r -> on_grid 0 v /\ (qabs v <= qz 10)%Qc) /\
  ffindtn demo_jent demo_intch 0 = Ok [qz (-5); qz 10; qz (-5)].
Proof.
  split. { repeat constructor; [exists 401|exists 800|exists 2]; qcheck. }
  split; [apply qleb_iff; vm_compute; reflexivity|]. split; [qcheck|].
  split; [|qcheck].
  exact demo_cells.
Qed.

(** ** C95.  Any data: a sum of n floats, in any order, is off by at most n * 2^-52 times the sum
    of the magnitudes. *)
Theorem C95_sum_error : forall l x, Forall b64 l -> Z.of_nat (length l) <= 2 ^ 52 -> fsum_to l x ->
  (qabs (x - qsum l) <= qz (Z.of_nat (length l)) * p2 (-52) * qsum (map qabs l))%Qc.
Proof. intros l x F. apply fsum_error. eapply Forall_impl; [|exact F]. exact b64_flt. Qed.
Print Assumptions C95_sum_error.
(** C95: any two orders therefore agree to twice that, and a sum of nonnegative data is within a
    relative n * 2^-52 of the exact one. *)
Theorem C95_relative : forall l x, Forall b64 l -> Forall (fun v => q0 <= v)%Qc l -> Z.of_nat (length l) <= 2 ^ 52 -> fsum_to l x ->
  (qabs (x - qsum l) <= qz (Z.of_nat (length l)) * p2 (-52) * qsum l)%Qc.
Proof. exact fsum_relative. Qed.
Print Assumptions C95_relative.
Example C95_witness : Forall b64 [q1; p2 (-53); p2 (-53)] /\ fsum_to [q1; p2 (-53); p2 (-53)] q1 /\ qsum [q1; p2 (-53); p2 (-53)] <> q1.
Proof.
  split. { repeat constructor; [exists 1, 0|exists 1, (-53)|exists 1, (-53)]; (split; [reflexivity|]; split; [lia|qcheck]). }
  split.
  - replace q1 with (feval (Node (Node (Leaf q1) (Leaf (p2 (-53)))) (Leaf (p2 (-53))))) at 2 by qcheck.
    apply fsum_tree, Permutation_refl.
  - qneq.
Qed.

(** ** C96.  Load scaling on floats: if some hour of the profile is at least 0.001, the highest load
    of the scaled year is the annual peak the user gave, exactly, no hour exceeds it, and the order
    of the hours by load is kept. *)
Theorem C96_peak : forall row pk, b64 pk -> (q0 <= pk)%Qc -> (exists v, In v row /\ (fl (qq 1 1000) <= v)%Qc) ->
  In pk (frescale row pk) /\ (forall y, In y (frescale row pk) -> (y <= pk)%Qc).
Proof. intros row pk F. apply frescale_peak. now apply b64_flt. Qed.
Print Assumptions C96_peak.
Theorem C96_order : forall row pk i j, (q0 <= pk)%Qc -> (i < length row)%nat -> (j < length row)%nat ->
  (vget row i <= vget row j)%Qc -> (vget (frescale row pk) i <= vget (frescale row pk) j)%Qc.
Proof. exact frescale_order. Qed.
Print Assumptions C96_order.
(** C96: each scaled hour is within a relative 2^-51 of the exact one. *)
Theorem C96_error : forall row pk i, (q0 <= pk)%Qc -> Forall (fun v => q0 <= v)%Qc row -> (i < length row)%nat ->
  let M := fold_left qmax row (fl (qq 1 1000)) in
  (vget row i = q0 \/ (p2 (-1022) <= vget row i / M)%Qc) ->
  (pk = q0 \/ vget row i = q0 \/ (p2 (-1021) <= vget row i / M * pk)%Qc) ->
  (qabs (vget (frescale row pk) i - vget row i / M * pk) <= p2 (-51) * (vget row i / M * pk))%Qc.
Proof. exact frescale_error. Qed.
Print Assumptions C96_error.
Example C96_witness : b64 (qz 2850) /\ In (qz 77) [qz 31; qz 77; qz 12] /\ (fl (qq 1 1000) <= qz 77)%Qc /\
  vget (frescale [qz 31; qz 77; qz 12] (qz 2850)) 1 = qz 2850 /\
  vget (frescale [qz 31; qz 77; qz 12] (qz 2850)) 0 <> (qz 31 / qz 77 * qz 2850)%Qc.
Proof.
  split; [exists 2850, 0; split; [reflexivity|]; split; [lia|qcheck]|]. split; [right; left; reflexivity|].
  split; [apply qleb_iff; vm_compute; reflexivity|]. split; [qcheck|qneq].
Qed.

(** ** C97.  Random numbers.  The streams of C13 do not depend on the floating point arithmetic. *)
Theorem C97_same_seeds : forall IG PROBG RT DR PL IL PROBL hist,
  fst (fst (fgstate IG PROBG RT DR PL)) = fst (fst (gstate IG PROBG RT DR PL)) /\
  fst (flstate IL PROBL) = fst (lstate IL PROBL) /\
  fgseeds_after hist IG PROBG DR = gseeds_after hist IG PROBG DR.
Proof. intros. split; [apply fgstate_seeds|]. split; [apply flstate_seeds|apply fgseeds_same]. Qed.
Print Assumptions C97_same_seeds.
(** C97: a draw depends on the seed through two thresholds within 2^-25 of the probabilities given. *)
Theorem C97_outcome : forall IG PROBG RT DR PL i,
  (length PROBG <= length IG)%nat -> length RT = length PROBG -> length DR = length PROBG ->
  length PL = length PROBG -> (i < length PROBG)%nat ->
  (q0 <= mget PROBG i 0)%Qc -> (mget PROBG i 0 <= mget PROBG i 1)%Qc -> (mget PROBG i 1 <= q1)%Qc ->
  let '(IG', PCTAVL, AVAIL) := fgstate IG PROBG RT DR PL in
  exists T0 T1,
   (qabs (qz T0 * p2 (-31) - mget PROBG i 0) <= p2 (-25))%Qc /\
   (qabs (qz T1 * p2 (-31) - mget PROBG i 1) <= p2 (-25))%Qc /\
   (nth i IG' 0 < T0 -> vget PCTAVL i = q1) /\
   (T0 <= nth i IG' 0 < T1 -> vget PCTAVL i = vget DR i) /\
   (T0 <= nth i IG' 0 -> T1 <= nth i IG' 0 -> vget PCTAVL i = q0).
Proof. exact fgstate_outcome. Qed.
Print Assumptions C97_outcome.
(** C97: capacities.  What a unit delivers is between 0 and its rating; exactly its rating when it
    is fully available, exactly 0 when it is out or on maintenance. *)
Theorem C97_capacity : forall IG PROBG RT DR PL i,
  (length PROBG <= length IG)%nat -> length RT = length PROBG -> length DR = length PROBG ->
  length PL = length PROBG -> (i < length PROBG)%nat ->
  b64 (vget RT i) -> (q0 <= vget RT i)%Qc -> (q0 <= vget DR i)%Qc -> (vget DR i <= q1)%Qc ->
  vget PL i = q0 \/ vget PL i = q1 ->
  let '(_, PCTAVL, AVAIL) := fgstate IG PROBG RT DR PL in
  (q0 <= vget AVAIL i)%Qc /\ (vget AVAIL i <= vget RT i)%Qc /\
  (vget PL i = q0 \/ vget PCTAVL i = q0 -> vget AVAIL i = q0) /\
  (vget PCTAVL i = q1 -> vget PL i = q1 -> vget AVAIL i = vget RT i).
Proof. exact fgstate_capacity. Qed.
Print Assumptions C97_capacity.
(** C97: C15 on floats. *)
Theorem C97_reliable_unit : forall JSEED NL PROBG DR hist RT PL i,
  (64 | JSEED) -> length DR = length PROBG -> shapes (length PROBG) hist ->
  length RT = length PROBG -> length PL = length PROBG ->
  (i < length PROBG)%nat -> mget PROBG i 0 = q1 ->
  exists IG IL, seeder JSEED (length PROBG) NL = Ok (IG, IL) /\
    nth i (snd (fst (fgstate (fgseeds_after hist IG PROBG DR) PROBG RT DR PL))) q0 = q1.
Proof. exact freliable_unit. Qed.
Print Assumptions C97_reliable_unit.
(** C97: lines.  The state of a line is monotone in the seed, with the five thresholds within 2^-25
    of the cumulative probabilities. *)
Theorem C97_line_outcome : forall IL PROBL i, (length PROBL <= length IL)%nat -> (i < length PROBL)%nat ->
  (forall c, (c < 5)%nat -> (q0 <= mget PROBL i c)%Qc /\ (mget PROBL i c <= q1)%Qc) ->
  let '(IL', ST) := flstate IL PROBL in
  exists T : nat -> Z, (forall c, (c < 5)%nat -> (qabs (qz (T c) * p2 (-31) - mget PROBL i c) <= p2 (-25))%Qc) /\
    (1 <= nth i ST 0 <= 6) /\
    (forall c, (c < 5)%nat -> nth i IL' 0 < T c -> nth i ST 0 <= Z.of_nat c + 1) /\
    (forall c, (c < 5)%nat -> (forall d, (d <= c)%nat -> T d <= nth i IL' 0) -> Z.of_nat c + 1 < nth i ST 0).
Proof. exact flstate_outcome. Qed.
Print Assumptions C97_line_outcome.
Example C97_witness : (64 | 123456) /\
  fgstate [1; 2000000000; 3] [[qq 9 10; qq 19 20]; [q1; q1]] [qz 100; qz 50] [qq 1 2; q0] [q1; q0] =
    ([65539; 2040577024; 3], [q1; q1], [qz 100; q0]) /\
  flstate [1; 5] [[qq 1 2; q1; q1; q1; q1]] = ([65539; 5], [1]).
Proof. split; [exists 1929; reflexivity|]. split; qcheck. Qed.

(** ** C98.  The five load levels: the middle factor is 1 and leaves the load as it is, bit for bit;
    the levels are ordered. *)
Theorem C98_levels : forall fu, b64 fu -> (q0 <= fu)%Qc ->
  nth 2 (ffcterr_row fu) q0 = q1 /\
  forall i, (i < 4)%nat -> (nth (S i) (ffcterr_row fu) q0 <= nth i (ffcterr_row fu) q0)%Qc.
Proof. intros fu F. apply fcterr_ordered. now apply b64_flt. Qed.
Print Assumptions C98_levels.
Theorem C98_loads : forall HRLOAD FU h N CAPREQ, length FU = length HRLOAD ->
  Forall (Forall b64) HRLOAD -> Forall (Forall (fun v => q0 <= v)%Qc) HRLOAD ->
  Forall (fun fu => b64 fu /\ (q0 <= fu)%Qc) FU -> 0 <= h ->
  ffindld N h HRLOAD (map ffcterr_row FU) = Ok CAPREQ ->
  length CAPREQ = length HRLOAD /\
  (N = 2%nat -> forall a, (a < length HRLOAD)%nat -> vget CAPREQ a = nth (Z.to_nat h) (nth a HRLOAD []) q0) /\
  (forall CAPREQ', (N < 4)%nat -> ffindld (S N) h HRLOAD (map ffcterr_row FU) = Ok CAPREQ' ->
     forall a, (a < length HRLOAD)%nat -> (vget CAPREQ' a <= vget CAPREQ a)%Qc).
Proof. exact ffindld_levels. Qed.
Print Assumptions C98_loads.
Example C98_witness : ffindld 2 1 [[qz 7; qz 100]; [qz 3; qz 9]] (map ffcterr_row [qz 3; q0]) = Ok [qz 100; qz 9] /\
  exists C1 C3, ffindld 1 1 [[qz 7; qz 100]; [qz 3; qz 9]] (map ffcterr_row [qz 3; q0]) = Ok C1 /\
   ffindld 3 1 [[qz 7; qz 100]; [qz 3; qz 9]] (map ffcterr_row [qz 3; q0]) = Ok C3 /\ C1 = [qz 103; qz 9] /\ C3 = [qz 97; qz 9].
Proof. split; [qcheck|]. eexists; eexists. split; [vm_compute; reflexivity|]. split; [vm_compute; reflexivity|]. split; qcheck. Qed.

(** ** C99.  Contracts added to the loads for maintenance planning and taken out again: the loads
    come back exactly when loads and contracts have k binary places ... *)
Theorem C99_contracts_restored : forall k X B ND n w JENT INTCH H, 0 <= k <= 1074 ->
  shape n n JENT -> pointers_ok n JENT INTCH -> shape n w H -> (q0 <= X)%Qc -> (q0 <= B)%Qc ->
  (forall r, In r INTCH -> (length r <= ND)%nat) ->
  (forall r v, In r INTCH -> In v r -> on_grid k v /\ (qabs v <= X)%Qc) ->
  (forall r v, In r H -> In v r -> on_grid k v /\ (qabs v <= B)%Qc) ->
  (B + qz (4 * Z.of_nat (length (contracts JENT) * ND)) * X <= p2 (53 - k))%Qc ->
  exists H', fxporta JENT INTCH H = Ok H' /\ fxports JENT INTCH H' = Ok H.
Proof. exact fcontracts_restored. Qed.
Print Assumptions C99_contracts_restored.
(** ... and not in general. *)
Theorem C99_any_data_refuted : exists JENT INTCH H H' H'', shape 2 2 JENT /\ pointers_ok 2 JENT INTCH /\ shape 2 24 H /\
  Forall (Forall b64) INTCH /\ Forall (Forall b64) H /\
  fxporta JENT INTCH H = Ok H' /\ fxports JENT INTCH H' = Ok H'' /\ H'' <> H.
Proof.
  exists [[-1; 0]; [-1; -1]], [[fl (qq 2 10)]], [repeat (fl (qq 1 10)) 24; repeat q1 24]. eexists; eexists.
  split. { split; [reflexivity|]. intros [|[|j]] Hj; try reflexivity; lia. }
  split. { intros [|[|i]] [|[|j]] Hi Hj; try lia; cbn; lia. }
  split. { split; [reflexivity|]. intros [|[|j]] Hj; try (vm_compute; reflexivity); lia. }
  split. { repeat constructor. apply flt_b64; [apply fl_flt|apply qleb_iff; vm_compute; reflexivity]. }
  split. { apply Forall_cons; [|apply Forall_cons; [|constructor]]; apply Forall_forall; intros x HX; apply repeat_spec in HX; subst x.
    - apply flt_b64; [apply fl_flt|apply qleb_iff; vm_compute; reflexivity].
    - exists 1, 0. split; [reflexivity|]. split; [lia|reflexivity]. }
  split; [vm_compute; reflexivity|]. split; [vm_compute; reflexivity|].
  intros E. apply (f_equal (fun m => qeqb (nth 0 (nth 0 m []) q0) (fl (qq 1 10)))) in E. vm_compute in E. discriminate E.
Qed.
Print Assumptions C99_any_data_refuted.
Example C99_witness : shape 3 3 demo_jent /\ pointers_ok 3 demo_jent demo_intch /\
  (forall r v, In r demo_intch -> In v r -> on_grid 0 v /\ (qabs v <= qz 10)%Qc) /\
  (qz 1000 + qz (4 * Z.of_nat (length (contracts demo_jent) * 2)) * qz 10 <= p2 53)%Qc /\
  exists H', fxporta demo_jent demo_intch (repeat (repeat (qz 1000) 48) 3) = Ok H' /\ H' <> repeat (repeat (qz 1000) 48) 3 /\
    fxports demo_jent demo_intch H' = Ok (repeat (repeat (qz 1000) 48) 3).
Proof.
  split; [apply demo_contracts_ok|]. split; [apply demo_contracts_ok|]. split.
  { exact demo_cells. }
  split; [apply qleb_iff; vm_compute; reflexivity|]. eexists. split; [vm_compute; reflexivity|]. split.
  - intros E. apply (f_equal (fun m => qeqb (nth 0 (nth 0 m []) q0) (qz 1000))) in E. vm_compute in E. discriminate E.
  - qcheck.
Qed.
