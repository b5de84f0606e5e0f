(** C104: stronger lines, more surplus, more capacity. *)
From Verif Require Import Base BaseProofs Sums LoadModel LoadSpec NetModel NetSpec MatProofs LpModel LpSpec LpUpdate MonoSpec StatModel StatSpec ControlModel ControlSpec HourModel HourSpec
  MonoProofs PropertiesNet PropertiesLp PropertiesHour.
Open Scope Qc_scope.

(** ** C104.  What is reported as unserved for an hour with stronger lines, wider area
    limits or larger surpluses is at most what any dispatch leaves unserved in the hour
    without them, up to the solver's tolerance (lines at the reference area in their base
    state, no numbers below the solver's tolerances: as in C78). *)
Theorem C104_eased_hour : forall fuel n m NR LT BN LP BLP BLP0 BB ZB BLP' BN' o T g flow,
  state_ok n NR LT LP BLP' BLP0 -> base_ok n LT LP BLP0 BB ZB -> (1 < n)%nat -> shape n m BN' -> (4 < m)%nat ->
  (forall a c, (a < n - 1)%nat -> (c < n - 1)%nat -> mget BB a c = reduced LT (combine LP BLP0) a c) ->
  (forall k, (k < length LP)%nat -> fst (nth k LP (0%nat, 0%nat)) = NR \/ snd (nth k LP (0%nat, 0%nat)) = NR -> mget BLP' k 0 = vget BLP0 k) ->
  (forall k, (k < length LP)%nat -> q0 <= mget BLP' k 1 /\ q0 <= mget BLP' k 2) ->
  (forall i, (i < n)%nat -> q0 <= mget BN' i 3 /\ q0 <= mget BN' i 4) ->
  (forall d, connls (lp_matrix n NR LT LP BLP' BLP0 BB ZB) (mcol BN' 2) (n - 1) NR LT BLP' LP BN' = Ok d -> well_scaled d) ->
  tm2 (lp_nls fuel LP LT NR) BN' LP BLP' BLP0 BB ZB LT NR true = Ok o ->
  eased n LP BLP BN BLP' BN' -> dispatch n NR LP BLP BN T g flow ->
  qs n (fun i => mget (t_BN o) i 2) <= total_unserved n BN g + qq 1 10000000 * lp_size n LP BLP' BN' T.
Proof. exact eased_result. Qed.
Print Assumptions C104_eased_hour.

(** Two hours, the first solved without the linear program: the second reports no more
    (up to the tolerance). *)
Theorem C104_two_hours : forall lp fuel n m m' NR LT BN LP BLP BLP0 BB ZB BLP' BN' o o',
  state_ok n NR LT LP BLP BLP0 -> base_ok n LT LP BLP0 BB ZB -> (1 < n)%nat -> shape n m BN -> (4 < m)%nat -> shape n m' BN' -> (4 < m')%nat ->
  (forall a c, (a < n - 1)%nat -> (c < n - 1)%nat -> mget BB a c = reduced LT (combine LP BLP0) a c) ->
  (forall k, (k < length LP)%nat -> fst (nth k LP (0%nat, 0%nat)) = NR \/ snd (nth k LP (0%nat, 0%nat)) = NR -> mget BLP k 0 = vget BLP0 k) ->
  (forall k, (k < length LP)%nat -> q0 <= mget BLP k 1 /\ q0 <= mget BLP k 2) ->
  (forall i, (i < n)%nat -> q0 <= mget BN i 3 /\ q0 <= mget BN i 4) ->
  length BLP' = length LP ->
  (forall d, connls (lp_matrix n NR LT LP BLP' BLP0 BB ZB) (mcol BN' 2) (n - 1) NR LT BLP' LP BN' = Ok d -> well_scaled d) ->
  eased n LP BLP BN BLP' BN' ->
  tm2 lp BN LP BLP BLP0 BB ZB LT NR true = Ok o -> t_accepted o = true ->
  tm2 (lp_nls fuel LP LT NR) BN' LP BLP' BLP0 BB ZB LT NR true = Ok o' ->
  exists T, qs n (fun i => mget (t_BN o') i 2) <= qs n (fun i => mget (t_BN o) i 2) + qq 1 10000000 * lp_size n LP BLP' BN' T /\
    forall k, (k < length LP)%nat -> vget (t_flow o) k = (T (fst (nth k LP (0%nat, 0%nat))) - T (snd (nth k LP (0%nat, 0%nat)))) * mget BLP k 0.
Proof.
  intros lp fuel n m m' NR LT BN LP BLP BLP0 BB ZB BLP' BN' o o' SO BO Hn SH M SH' M' HB RF CP LM LB WS EA E A E'.
  destruct (accepted_dispatch n m NR LT lp BN LP BLP BLP0 BB ZB o SO BO SH M CP LM E A) as (T & D & U). exists T. rewrite <- U.
  split; [|exact (dp_flow _ _ _ _ _ _ _ _ D)].
  refine (eased_result fuel n m' NR LT BN LP BLP BLP0 BB ZB BLP' BN' o' T _ _ (eased_state _ _ _ _ _ _ _ _ _ SO LB EA) BO Hn SH' M' HB _ _ _ WS E' EA D).
  - intros k Hk R. rewrite (ea_adm _ _ _ _ _ _ EA k Hk). auto.
  - intros k Hk. destruct (ea_lines _ _ _ _ _ _ EA k Hk), (CP k Hk). split; qlra.
  - intros i Hi. destruct (ea_areas _ _ _ _ _ _ EA i Hi), (LM i Hi). split; qlra.
Qed.
Print Assumptions C104_two_hours.

(** When only limits are raised, an hour solved without the linear program stays so, and
    nothing changes: not the flows, not what is unserved. *)
Theorem C104_limits_only : forall lp lp' n m m' NR LT BN LP BLP BLP0 BB ZB BLP' BN' o,
  state_ok n NR LT LP BLP BLP0 -> base_ok n LT LP BLP0 BB ZB -> shape n m BN -> (4 < m)%nat -> shape n m' BN' -> (4 < m')%nat ->
  (forall k, (k < length LP)%nat -> q0 <= mget BLP k 1 /\ q0 <= mget BLP k 2) ->
  (forall i, (i < n)%nat -> q0 <= mget BN i 3 /\ q0 <= mget BN i 4) ->
  length BLP' = length LP -> eased n LP BLP BN BLP' BN' -> (forall i, (i < n)%nat -> mget BN' i 1 = mget BN i 1 /\ mget BN' i 2 = mget BN i 2) ->
  tm2 lp BN LP BLP BLP0 BB ZB LT NR true = Ok o -> t_accepted o = true ->
  exists o', tm2 lp' BN' LP BLP' BLP0 BB ZB LT NR true = Ok o' /\ t_accepted o' = true /\
    (forall k, (k < length LP)%nat -> vget (t_flow o') k = vget (t_flow o) k) /\
    (forall i, (i < n)%nat -> mget (t_BN o') i 1 = mget (t_BN o) i 1 /\ mget (t_BN o') i 2 = mget (t_BN o) i 2).
Proof. exact eased_accepted. Qed.
Print Assumptions C104_limits_only.

(** Area 1 is short of 10; area 0 (behind a line of capacity 1, then 2) and area 2 have a
    surplus.  [f_run] is solved by the linear program (C78_witness). *)
Definition g_BLP : list (list Qc) := [[qz (-1); qz 1; qz 1]; [qz (-2); qz 10; qz 10]].
Definition g_BN : list (list Qc) := [[qz 0; qz 40; qz 0; qz 90; qz 90]; [qz 1; qz 50; qz (-10); qz 20; qz 20]; [qz 2; qz 50; qz 10; qz 90; qz 90]].
Example C104_witness : state_ok 3 2 w_LT w_LP f_BLP f_BLP0 /\ base_ok 3 w_LT w_LP f_BLP0 w_BB f_ZB /\ shape 3 5 f_BN /\
  eased 3 w_LP g_BLP g_BN f_BLP f_BN /\ dispatch 3 2 w_LP g_BLP g_BN (vget [q0; qz 5; q0]) (vget [q0; qz (-10); qz 10]) (vget [q0; qz (-10)]) /\
  (exists o, f_run = Ok o /\ t_accepted o = false) /\
  exists o, tm2 no_lp g_BN w_LP g_BLP f_BLP0 w_BB f_ZB w_LT 2 true = Ok o /\ t_accepted o = true.
Proof.
  split. { constructor; try exact w_order; try exact w_lines; try reflexivity; try (small; split; qineq); try (small; intros _; qneq).
    intros [|[|[|k]]] H; [| |apply conn_refl|exfalso; cbn in H; lia]; apply conn_step with (1 := conn_refl _ _).
    + exists ((0, 2)%nat, qz (-1)). split; [left; vm_compute; repeat f_equal; apply Qc_is_canon; reflexivity|split; [qneq|reflexivity]].
    + exists ((1, 2)%nat, qz (-2)). split; [right; left; vm_compute; repeat f_equal; apply Qc_is_canon; reflexivity|split; [qneq|reflexivity]]. }
  split. { constructor.
    - split; [reflexivity|]. intros [|[|[|j]]] H; try reflexivity; lia.
    - split; [reflexivity|]. intros [|[|[|j]]] H; try reflexivity; lia.
    - intros [|[|[|a]]] H; try lia; split; reflexivity.
    - intros i j Hi Hj. destruct i as [|[|i]]; try lia; destruct j as [|[|j]]; try lia; qcheck. }
  split. { split; [reflexivity|]. intros [|[|[|j]]] H; try reflexivity; lia. }
  split. { constructor.
    - small; apply Qc_is_canon; vm_compute; reflexivity.
    - small; split; qineq.
    - small; split; qineq.
    - small; intros L; try (apply Qc_is_canon; vm_compute; reflexivity); exfalso; apply (proj2 (qltb_iff _ _)) in L; discriminate L.
    - small; intros L; try qineq; exfalso; apply (proj2 (qleb_iff _ _)) in L; discriminate L. }
  split. { constructor; [reflexivity|small; qcheck|small; apply Qc_is_canon; vm_compute; reflexivity|small; split; qineq|small; split; qineq|small; split; qineq]. }
  split. { pose proof f_out as O. destruct f_run as [o|]; [|discriminate O]. injection O as O1 O2 _. eauto. }
  destruct (tm2 no_lp g_BN w_LP g_BLP f_BLP0 w_BB f_ZB w_LT 2 true) as [o|] eqn:E; [|vm_compute in E; discriminate E].
  exists o. split; [reflexivity|]. assert (Ok (t_accepted o) = Ok true); [|congruence].
  transitivity (match tm2 no_lp g_BN w_LP g_BLP f_BLP0 w_BB f_ZB w_LT 2 true with Ok o => Ok (t_accepted o) | Err x => Err x end); [now rewrite E|vm_compute; reflexivity].
Qed.

(** *** More capacity can make an hour worse.  Three areas in a triangle of equal lines,
    loads of 50; area 0 has 100, area 2 has 40.  The line from 1 to 2 carries 1 in its
    first state and is out in the others.  With 40 in area 1 nothing is lost; with 60 (or 50) area
    2 loses 7, because area 1 no longer imports against the flow towards area 2. *)
Open Scope Z_scope.
Definition t_LP : list (nat * nat) := [(0, 1); (0, 2); (1, 2)]%nat.
Definition t_inv := checked_inv [[qq (-2) 3; qq (-1) 3]; [qq (-1) 3; qq (-2) 3]].
Definition t_BLPA : list (list Qc) := [two_lines (-1) 90; two_lines (-1) 90; [qz (-1); qz 1; qz 1] ++ concat (repeat [q0; q0; q0] 5)].
Definition t_study (out : Z) : hcfg :=
  mkHcfg 1 1 1 (map (fun d => 24 * Z.of_nat d + 7) (seq 0 365)) [[q1; q1]; [q1; q1]; [q1; q1]] [q0; q0; q0] [[q1; q0; q0]; [q0; q1; q0]; [q0; q0; q1]] [0; 1; 2]
    [repeat q1 6; repeat q1 6; qz (1 - out) :: repeat q1 5] (repeat [-1; -1; -1] 3) [] (repeat (repeat (qz 50) (365 * 24)) 3) (repeat (repeat q1 5) 3)
    [[-1; 0; 1]; [0; -1; 2]; [1; 2; -1]] t_BLPA t_LP 0 true.
Definition t_net : netst := mkNet (map (fun i => [qz i; q0; q0; qz 1000; qz 1000]) [0; 1; 2]) [] [] [] [].
Definition t_state : hst := mkHst [1; 3; 5; 7] [7; 7; 7] t_net [0; 0; 0] (zero_stat 3 5) (zero_stat 3 5).
Definition t_hour2 out b c := hour t_inv (lp_nls 60 t_LP [1; 2; 0]%nat 0) (t_study out) (on 8) [q1; q1; q1] [qz 100; qz b; qz c] t_state.
Definition t_hour out b := t_hour2 out b 40.
(** pool: hours lost; by area and pool: energy lost (generation and transmission) *)
Definition lost (r : res hst) := match r with
  | Ok s => Ok (zget (plolG (hrs s)) 0 + zget (plolT (hrs s)) 0, map (fun j => zmget (mgnG (hrs s)) j 0 + zmget (mgnT (hrs s)) j 0) (seq 0 3), zget (pmgnG (hrs s)) 0 + zget (pmgnT (hrs s)) 0)
  | Err e => Err e end.
Theorem C104_more_capacity_refuted : inv_ok t_inv /\
  map lost [t_hour 0 40; t_hour 0 45; t_hour 0 50; t_hour 0 60] = [Ok (0, [0; 0; 0], 0); Ok (1, [0; 0; 2], 2); Ok (1, [0; 0; 7], 7); Ok (1, [0; 0; 7], 7)].
Proof. split; [apply checked_inv_ok|]. vm_compute. reflexivity. Qed.
Print Assumptions C104_more_capacity_refuted.
(** Nor does a line in service always help: with the line out nothing is lost. *)
Theorem C104_line_in_service_refuted : map lost [t_hour 1 50; t_hour 0 50] = [Ok (0, [0; 0; 0], 0); Ok (1, [0; 0; 7], 7)].
Proof. vm_compute. reflexivity. Qed.
Print Assumptions C104_line_in_service_refuted.

(** *** C77 in a simulated hour: the loss of the area that comes first in the order of the
    network is not counted.  The triangle is the same seen from area 1 and from area 2;
    when area 2 is short by 10 it loses 7, when area 1 is, nothing is recorded and the
    hour counts as one without loss. *)
Theorem C77_loss_not_counted_refuted : map lost [t_hour2 0 50 40; t_hour2 0 40 50] = [Ok (1, [0; 0; 7], 7); Ok (0, [0; 0; 0], 0)].
Proof. vm_compute. reflexivity. Qed.
Print Assumptions C77_loss_not_counted_refuted.
