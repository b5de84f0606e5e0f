(** Property theorems C26-C34, C59, C60: the network. *)
From Verif Require Import Base BaseProofs Sums LoadModel LoadSpec LoadProofs ContractProofs NetModel NetSpec MatProofs NetProofs FlowProofs
  AssignProofs SolveProofs UpdateProofs TransmProofs UniqueProofs.
Open Scope Z_scope.
Open Scope Qc_scope.

(** C26.  [wlines LP BLP] are the lines with their admittances; [joins l i j]: the
    line has ends i and j in either order. *)
Theorem C26_matrix_is_laplacian : forall LP BLP BB,
  distinct_ends LP -> admitb LP BLP = Ok BB ->
  let n := lp_areas LP in
  shape n n BB /\
  (forall i j, (i < n)%nat -> (j < n)%nat -> mget BB i j = mget BB j i) /\
  (forall i, (i < n)%nat -> qs n (fun j => mget BB i j) = q0) /\
  (forall i j, (i < n)%nat -> (j < n)%nat -> i <> j ->
     mget BB i j = - adm_of (fun l => joins l i j) (wlines LP BLP)) /\
  (forall i, (i < n)%nat -> mget BB i i = adm_of (fun l => ends_at l i) (wlines LP BLP)).
Proof. exact admitb_spec. Qed.
Print Assumptions C26_matrix_is_laplacian.

Definition demo_lines : list (nat * nat) := [(0, 1); (1, 2); (0, 2); (2, 0)]%nat.
Definition demo_base : list (list Qc) := [[qz (-1)]; [qz (-1)]; [qq (-1) 2]; [qq (-1) 2]].
Example C26_witness : distinct_ends demo_lines /\
  admitb demo_lines demo_base = Ok [[qz (-2); qz 1; qz 1]; [qz 1; qz (-2); qz 1]; [qz 1; qz 1; qz (-2)]].
Proof. split; [intros l [<-|[<-|[<-|[<-|[]]]]]; cbn; lia|qcheck]. Qed.

(** C27.  The full matrix: *)
Theorem C27_update_is_rebuild : forall LP BLP BB i j b,
  distinct_ends LP -> length BLP = length LP -> admitb LP BLP = Ok BB ->
  (i < lp_areas LP)%nat -> (j < lp_areas LP)%nat -> i <> j ->
  admitb (LP ++ [(i, j)]) (BLP ++ [[b]]) = Ok (admitm BB i j b).
Proof. exact admitm_is_rebuild. Qed.
Print Assumptions C27_update_is_rebuild.

(** and the matrix without the reference area, for branches not touching the
    reference ([admitm]) and branches to it ([admref]). *)
Theorem C27_reduced_update_is_rebuild : forall LP BLP B BN NR i j b B',
  let n := lp_areas LP in
  distinct_ends LP -> length BLP = length LP -> areas_numbered n BN -> (NR < n)%nat ->
  (i < n)%nat -> (j < n)%nat -> i <> j ->
  admitb LP BLP = Ok B -> admitb (LP ++ [(i, j)]) (BLP ++ [[b]]) = Ok B' ->
  let '(BR, LT) := admitr B BN NR in
  let '(BR', _) := admitr B' BN NR in
  forall p q, (p < n - 1)%nat -> (q < n - 1)%nat ->
    (nth p LT 0%nat = i -> nth q LT 0%nat = j -> admitm BR p q b = BR') /\
    (nth p LT 0%nat = i -> j = NR -> admref BR p b = BR') /\
    (nth p LT 0%nat = j -> i = NR -> admref BR p b = BR').
Proof. exact reduced_update. Qed.
Print Assumptions C27_reduced_update_is_rebuild.

(** The reduction drops the reference row and column, lists the other areas in order
    and the reference last; the loop version agrees. *)
Theorem C27_reduction : forall n BB BN NR,
  shape n n BB -> areas_numbered n BN -> (NR < n)%nat ->
  (let '(BR, LT) := admitr BB BN NR in
   order_ok n NR LT /\ shape n n BR /\
   forall a b, (a < n)%nat -> (b < n)%nat ->
     mget BR a b = if (a <? n - 1)%nat && (b <? n - 1)%nat then mget BB (nth a LT 0%nat) (nth b LT 0%nat) else q0) /\
  admitr_loop BB BN NR = admitr BB BN NR.
Proof.
  intros n BB BN NR S A H. split; [|now apply (admitr_agree n)].
  pose proof (admitr_spec n BB BN NR S A H) as R. destruct (admitr BB BN NR). tauto.
Qed.
Print Assumptions C27_reduction.

Definition demo_BN : list (list Qc) :=
  [[qz 0; q0; qz 30; qz 100; qz 100]; [qz 1; q0; qz (-10); qz 100; qz 100]; [qz 2; q0; qz (-20); qz 100; qz 100]].
Example C27_witness : areas_numbered 3 demo_BN /\
  match admitb demo_lines demo_base with
  | Ok B => admitr B demo_BN 1 = ([[qz (-2); qz 1; q0]; [qz 1; qz (-2); q0]; [q0; q0; q0]], [0; 2; 1]%nat) /\
            admitm (fst (admitr B demo_BN 1)) 0 1 (qz (-3)) = [[qz (-5); qz 4; q0]; [qz 4; qz (-5); q0]; [q0; q0; q0]] /\
            admref (fst (admitr B demo_BN 1)) 1 (qz (-3)) = [[qz (-2); qz 1; q0]; [qz 1; qz (-5); q0]; [q0; q0; q0]]
  | Err _ => False end.
Proof.
  split. { split; [reflexivity|]. intros [|[|[|i]]] H; try reflexivity; lia. }
  vm_compute admitb. split; [qcheck|split; qcheck].
Qed.

(** C28.  Branch between two areas; branch to the reference. *)
Theorem C28_impedance_branch : forall m A Z i j b,
  shape m m A -> shape m m Z -> symmetric m (mget A) -> is_inverse m (mget A) (mget Z) ->
  (i < m)%nat -> (j < m)%nat -> i <> j -> b <> q0 ->
  mget Z i i + mget Z j j - qz 2 * mget Z i j - qz (-1) / b <> q0 ->
  is_inverse m (mget (admitm A i j b)) (mget (ximpa Z (qz (-1) / b) i j)) /\ symmetric m (mget (admitm A i j b)).
Proof. exact ximpa_exact. Qed.
Print Assumptions C28_impedance_branch.

Theorem C28_impedance_reference : forall m A Z i b,
  shape m m A -> shape m m Z -> symmetric m (mget A) -> is_inverse m (mget A) (mget Z) ->
  (i < m)%nat -> b <> q0 -> mget Z i i - qz (-1) / b <> q0 ->
  is_inverse m (mget (admref A i b)) (mget (ximpar Z (qz (-1) / b) i)) /\ symmetric m (mget (admref A i b)).
Proof. exact ximpar_exact. Qed.
Print Assumptions C28_impedance_reference.

Definition demo_red : list (list Qc) := [[qz (-2); qz 1]; [qz 1; qz (-2)]].
Definition demo_inv : list (list Qc) := [[qq (-2) 3; qq (-1) 3]; [qq (-1) 3; qq (-2) 3]].
Ltac cells := intros [|[|[|?]]] [|[|[|?]]] ? ?; try lia; qcheck.
Example C28_witness : shape 2 2 demo_red /\ shape 2 2 demo_inv /\ symmetric 2 (mget demo_red) /\ is_inverse 2 (mget demo_red) (mget demo_inv) /\
  mget demo_inv 0 0 + mget demo_inv 1 1 - qz 2 * mget demo_inv 0 1 - qz (-1) / qz (-3) <> q0 /\
  mget demo_inv 0 0 - qz (-1) / qz (-3) <> q0 /\
  ximpa demo_inv (qz (-1) / qz (-3)) 0 1 = [[qq (-5) 9; qq (-4) 9]; [qq (-4) 9; qq (-5) 9]].
Proof.
  split. { split; [reflexivity|]. intros [|[|j]] H; try reflexivity; lia. }
  split. { split; [reflexivity|]. intros [|[|j]] H; try reflexivity; lia. }
  split. { cells. } split. { cells. }
  split. { intros E. apply (f_equal this) in E. vm_compute in E. discriminate. }
  split. { intros E. apply (f_equal this) in E. vm_compute in E. discriminate. }
  qcheck.
Qed.

(** C29.  Flows from angles: each line carries its admittance times the angle
    difference, the recorded area flow is minus the net outflow, pool total zero; *)
Theorem C29_flows_from_angles : forall n LP BLP T,
  lines_in n LP -> length BLP = length LP -> length T = n ->
  let '(SFLOW, FLOW) := flo LP BLP T in
  length SFLOW = n /\ length FLOW = length LP /\
  (forall k, (k < length LP)%nat ->
    vget FLOW k = (vget T (fst (nth k LP (0%nat, 0%nat))) - vget T (snd (nth k LP (0%nat, 0%nat)))) * mget BLP k 0) /\
  (forall i, (i < n)%nat -> vget SFLOW i = - net_outflow LP (vget FLOW) i) /\ qsum SFLOW = q0.
Proof. exact flo_spec. Qed.
Print Assumptions C29_flows_from_angles.

(** if the angles solve the equations of every area but the reference, for balanced
    injections, the reference is served too; *)
Theorem C29_kirchhoff : forall n NR LP BLP T (INJ : nat -> Qc),
  lines_in n LP -> length BLP = length LP -> length T = n -> (NR < n)%nat ->
  (forall i, (i < n)%nat -> i <> NR -> qs n (fun j => lap (wlines LP BLP) i j * vget T j) = INJ i) ->
  qs n INJ = q0 ->
  let '(_, FLOW) := flo LP BLP T in forall i, (i < n)%nat -> net_outflow LP (vget FLOW) i = INJ i.
Proof. exact kirchhoff. Qed.
Print Assumptions C29_kirchhoff.

(** and the solver's own angles and flows deliver its balanced injections, whenever it
    is given the inverse of the network without the reference. *)
Theorem C29_solver_delivers : forall n NR LT, order_ok n NR LT ->
  forall LP BLP BN ZB NLS,
  lines_in n LP -> length BLP = length LP -> length BN = n -> shape n n ZB -> zero_border n ZB ->
  is_inverse (n - 1) (reduced LT (wlines LP BLP)) (mget ZB) ->
  (NLS = false -> qsum (mcol BN 1) <> q0) ->
  let '(INJ1, LODC, SFLOW, FLOW) := tm2_solve BN LP BLP ZB LT NLS in
  assign (map (fun k => mget BN k 2) LT) (mcol BN 1) LT NLS = (INJ1, LODC) /\
  length FLOW = length LP /\ length SFLOW = n /\
  (forall a, (a < n)%nat -> net_outflow LP (vget FLOW) (nth a LT 0%nat) = vget INJ1 a) /\
  (forall a, (a < n)%nat -> vget SFLOW (nth a LT 0%nat) = - vget INJ1 a).
Proof. exact solve_delivers. Qed.
Print Assumptions C29_solver_delivers.

(** The solution of the network equations is unique. *)
Theorem C29_unique : forall n NR LP adm inj F G,
  lines_in n LP -> (forall k, (k < length LP)%nat -> adm k <= q0) ->
  dc_solution n NR LP adm inj F -> dc_solution n NR LP adm inj G ->
  forall k, (k < length LP)%nat -> F k = G k.
Proof. exact dc_unique. Qed.
Print Assumptions C29_unique.

Definition demo_ZB : list (list Qc) := [[qq (-2) 3; qq (-1) 3; q0]; [qq (-1) 3; qq (-2) 3; q0]; [q0; q0; q0]].
Example demo_order : order_ok 3 1 [0; 2; 1]%nat.
Proof.
  split; [reflexivity|]. split. { repeat constructor; cbn; intuition congruence. }
  split. { intros a [<-|[<-|[<-|[]]]]; lia. } split; [lia|reflexivity].
Qed.
Example demo_lines_ok : lines_in 3 demo_lines.
Proof. intros l [<-|[<-|[<-|[<-|[]]]]]; cbn; lia. Qed.
Example C29_witness : shape 3 3 demo_ZB /\ zero_border 3 demo_ZB /\
  is_inverse 2 (reduced [0; 2; 1]%nat (wlines demo_lines demo_base)) (mget demo_ZB) /\
  tm2_solve demo_BN demo_lines demo_base demo_ZB [0; 2; 1]%nat true =
    ([qz 30; qz (-20); qz (-10)], [q0; q0; q0], [qz (-30); qz 10; qz 20],
     [qq 40 3; qq 10 3; qq 25 3; qq (-25) 3]).
Proof.
  split. { split; [reflexivity|]. intros [|[|[|j]]] H; try reflexivity; lia. }
  split. { intros [|[|[|a]]] H; try lia; split; reflexivity. }
  split. { cells. } qcheck.
Qed.

(** C30.  [surplus]/[deficit] are the totals of the positive/negative injections. *)
Theorem C30_balanced : forall n NR INJ LOD LT NLS,
  order_ok n NR LT -> length INJ = n -> length LOD = n -> (NLS = false -> qsum LOD <> q0) ->
  let '(INJ1, LODC) := assign INJ LOD LT NLS in
  length INJ1 = n /\ length LODC = n /\ qsum INJ1 = q0 /\
  (deficit INJ <= surplus INJ -> forall i, (i < n)%nat ->
     vget LODC i = q0 /\
     (vget INJ i <= q0 -> vget INJ1 i = vget INJ i) /\
     (q0 < vget INJ i -> surplus INJ * vget INJ1 i = deficit INJ * vget INJ i)) /\
  (surplus INJ < deficit INJ -> NLS = true -> forall i, (i < n)%nat ->
     vget LODC (nth i LT 0%nat) = vget INJ1 i - vget INJ i /\
     (q0 < vget INJ i -> vget INJ1 i = vget INJ i) /\
     (vget INJ i <= q0 -> deficit INJ * vget INJ1 i = surplus INJ * vget INJ i)) /\
  (surplus INJ < deficit INJ -> NLS = false -> forall i, (i < n)%nat ->
     vget LODC (nth i LT 0%nat) = vget INJ1 i - vget INJ i /\
     qsum LOD * vget LODC i = (deficit INJ - surplus INJ) * vget LOD i).
Proof. exact assign_spec. Qed.
Print Assumptions C30_balanced.

Theorem C30_curtailment_total : forall n NR INJ LOD LT NLS,
  order_ok n NR LT -> length INJ = n -> length LOD = n ->
  (NLS = false -> qsum LOD <> q0 /\ forall k, (k < n)%nat -> q0 <= vget LOD k) ->
  let '(_, LODC) := assign INJ LOD LT NLS in
  qsum LODC = qmax (deficit INJ - surplus INJ) q0 /\ forall k, (k < n)%nat -> q0 <= vget LODC k.
Proof. exact assign_curtailment. Qed.
Print Assumptions C30_curtailment_total.

Theorem C30_versions_agree : forall INJ LOD LT NLS, assign_loop INJ LOD LT NLS = assign INJ LOD LT NLS.
Proof. exact assign_agree. Qed.
Print Assumptions C30_versions_agree.

Example C30_witness :
  assign [qz 30; qz (-20); qz (-40)] [qz 10; qz 20; qz 30] [0; 2; 1]%nat true = ([qz 30; qz (-10); qz (-20)], [q0; qz 20; qz 10]) /\
  assign [qz 30; qz (-20); qz (-40)] [qz 10; qz 20; qz 30] [0; 2; 1]%nat false = ([qz 35; qz (-5); qz (-30)], [qz 5; qz 10; qz 15]) /\
  assign [qz 90; qz (-20); qz (-40)] [qz 10; qz 20; qz 30] [0; 2; 1]%nat true = ([qz 60; qz (-20); qz (-40)], [q0; q0; q0]).
Proof. split; [qcheck|split; qcheck]. Qed.

(* ------------------------------------------------------------------ *)
(** Demonstration states.  The base network has admittances -1, -1, -1/2, -1/2; in the
    state, line 0 (to the reference, area 1) is doubled and line 2 is out. *)
Definition demo_BLP0 : list Qc := [qz (-1); qz (-1); qq (-1) 2; qq (-1) 2].
Definition demo_state (cap : Z) : list (list Qc) :=
  [[qz (-2); qz cap; qz cap]; [qz (-1); qz cap; qz cap]; [q0; qz cap; qz cap]; [qq (-1) 2; qz cap; qz cap]].
Definition demo_BB : list (list Qc) := [[qz (-2); qz 1; q0]; [qz 1; qz (-2); q0]; [q0; q0; q0]].
Ltac small := let H := fresh in intros [|[|[|[|?]]]] H; try (exfalso; cbn in H; lia).
Ltac qineq := first [apply qleb_iff; vm_compute; reflexivity | apply qltb_iff; vm_compute; reflexivity].
Ltac qneq := let E := fresh in intros E; apply (f_equal this) in E; vm_compute in E; discriminate E.
Lemma demo_connected cap : network_connected 3 1 (wlines demo_lines (demo_state cap)).
Proof.
  small.
  - apply conn_step with (1 := conn_refl _ _). exists ((0, 1)%nat, qz (-2)). split; [now left|]. split; [qneq|reflexivity].
  - apply conn_refl.
  - apply conn_step with (1 := conn_refl _ _). exists ((1, 2)%nat, qz (-1)). split; [right; now left|]. split; [qneq|reflexivity].
Qed.
Example demo_state_ok cap : state_ok 3 1 [0; 2; 1]%nat demo_lines (demo_state cap) demo_BLP0.
Proof.
  constructor; [exact demo_order|exact demo_lines_ok|reflexivity|reflexivity| | |apply demo_connected].
  - small; split; qineq.
  - small; cbn [nth demo_lines fst snd]; intros [E|E]; try discriminate E; qneq.
Qed.
Example demo_base_ok : base_ok 3 [0; 2; 1]%nat demo_lines demo_BLP0 demo_BB demo_ZB.
Proof.
  constructor; [| | |cells].
  - split; [reflexivity|]. intros [|[|[|j]]] H; try reflexivity; lia.
  - split; [reflexivity|]. intros [|[|[|j]]] H; try reflexivity; lia.
  - intros [|[|[|a]]] H; try lia; split; reflexivity.
Qed.
Example demo_BN_shape : shape 3 5 demo_BN.
Proof. split; [reflexivity|]. intros [|[|[|j]]] H; try reflexivity; lia. Qed.

(** C31.  Whatever flows [F] solve the network equations for the balanced injections,
    the solver accepts (and returns) them exactly when every line is within its
    forward/backward capacity and every area within its import/export limit; an
    accepted solution is such a solution. *)
Theorem C31_accepted_iff_within_limits : forall n m NR LT lp BN LP BLP BLP0 BB ZB NLS F,
  state_ok n NR LT LP BLP BLP0 -> base_ok n LT LP BLP0 BB ZB -> shape n m BN -> (4 < m)%nat ->
  (NLS = false -> qsum (mcol BN 1) <> q0) ->
  (forall k, (k < length LP)%nat -> q0 <= mget BLP k 1 /\ q0 <= mget BLP k 2) ->
  (forall i, (i < n)%nat -> q0 <= mget BN i 3 /\ q0 <= mget BN i 4) ->
  (forall inj, (forall a, (a < n)%nat -> inj (nth a LT 0%nat) = vget (fst (assign (map (fun k => mget BN k 2) LT) (mcol BN 1) LT NLS)) a) ->
     dc_solution n NR LP (fun k => mget BLP k 0) inj F) ->
  (((forall k, (k < length LP)%nat -> within (F k) (mget BLP k 1) (mget BLP k 2)) /\
    (forall i, (i < n)%nat -> within (- net_outflow LP F i) (mget BN i 3) (mget BN i 4)))
   <-> exists o, tm2 lp BN LP BLP BLP0 BB ZB LT NR NLS = Ok o /\ t_accepted o = true /\
         forall k, (k < length LP)%nat -> vget (t_flow o) k = F k).
Proof. exact accepted_exactly. Qed.
Print Assumptions C31_accepted_iff_within_limits.

Theorem C31_accepted_solution : forall n m NR LT lp BN LP BLP BLP0 BB ZB NLS o,
  state_ok n NR LT LP BLP BLP0 -> base_ok n LT LP BLP0 BB ZB -> shape n m BN -> (4 < m)%nat ->
  (NLS = false -> qsum (mcol BN 1) <> q0) ->
  tm2 lp BN LP BLP BLP0 BB ZB LT NR NLS = Ok o -> t_accepted o = true ->
  length (t_flow o) = length LP /\
  dc_solution n NR LP (fun k => mget BLP k 0) (fun i => mget (t_BN o) i 1) (vget (t_flow o)) /\
  (let '(INJ1, LODC) := assign (map (fun k => mget BN k 2) LT) (mcol BN 1) LT NLS in
   (forall a, (a < n)%nat -> mget (t_BN o) (nth a LT 0%nat) 1 = vget INJ1 a) /\
   (forall i, (i < n)%nat -> mget (t_BN o) i 2 = vget LODC i)) /\
  (forall i c, (i < n)%nat -> (c < m)%nat -> c <> 1%nat -> c <> 2%nat -> mget (t_BN o) i c = mget BN i c).
Proof.
  intros n m NR LT lp BN LP BLP BLP0 BB ZB NLS o H1 H2 H3 H4 H5 H6 H7.
  destruct (tm2_solution n m NR LT lp BN LP BLP BLP0 BB ZB NLS o H1 H2 H3 H4 H5 H6 H7) as (A & B & C & D & _). auto.
Qed.
Print Assumptions C31_accepted_solution.

Definition no_lp : list (list Qc) -> list (list Qc) -> list (list Qc) -> res (list Qc * list (list Qc)) := fun _ _ _ => Err TypeError.
(** In the demonstration state the flows are 20, 10, 0, -10: capacity 20 is accepted,
    19 is not. *)
Example C31_witness :
  match tm2 no_lp demo_BN demo_lines (demo_state 20) demo_BLP0 demo_BB demo_ZB [0; 2; 1]%nat 1 true with
  | Ok o => (t_accepted o, t_flow o, mcol (t_BN o) 1) = (true, [qz 20; qz 10; q0; qz (-10)], [qz 30; qz (-10); qz (-20)])
  | Err _ => False end /\
  tm2 no_lp demo_BN demo_lines (demo_state 19) demo_BLP0 demo_BB demo_ZB [0; 2; 1]%nat 1 true = Err TypeError /\
  dc_solution 3 1 demo_lines (fun k => mget (demo_state 20) k 0) (vget [qz 30; qz (-10); qz (-20)]) (vget [qz 20; qz 10; q0; qz (-10)]).
Proof.
  split; [qcheck|]. split; [vm_compute; reflexivity|].
  exists (vget [qz (-10); q0; qz 10]). split; [reflexivity|]. split.
  - small; qcheck.
  - small; qcheck.
Qed.

(** C32.  Proved: the matrix is always restored; its inverse is restored when the
    direct solution is accepted; after the linear-programming branch the inverse is
    overwritten with the matrix itself. *)
Theorem C32_base_restored_partial : forall n NR LT lp BN LP BLP BLP0 BB ZB NLS o,
  order_ok n NR LT -> lines_in n LP -> length BN = n -> shape n n BB -> shape n n ZB ->
  tm2 lp BN LP BLP BLP0 BB ZB LT NR NLS = Ok o ->
  t_BB o = BB /\ (t_accepted o = true -> t_ZB o = ZB) /\
  (t_accepted o = false -> forall a b, (a < n - 1)%nat -> (b < n - 1)%nat -> mget (t_ZB o) a b = mget BB a b).
Proof. intros n NR LT lp BN LP BLP BLP0 BB ZB NLS o. apply tm2_restores. Qed.
Print Assumptions C32_base_restored_partial.

Example C32_witness :
  match tm2 no_lp demo_BN demo_lines (demo_state 20) demo_BLP0 demo_BB demo_ZB [0; 2; 1]%nat 1 true with
  | Ok o => t_ZB o = demo_ZB /\ t_BB o = demo_BB /\
      (* the state really differs from the base *)
      snd (tm2_update demo_lines (demo_state 20) demo_BLP0 (ieq_of [0; 2; 1]%nat 2 1) 2 1 demo_BB demo_ZB) <> demo_ZB
  | Err _ => False end.
Proof. vm_compute tm2. split; [qcheck|]. split; [qcheck|]. intros E. apply (f_equal (map (map this))) in E. vm_compute in E. discriminate E. Qed.

(** The property as stated is false: two areas, one line of admittance -2 and capacity
    1, a transfer of 10.  Whatever the linear program returns, the base inverse is
    lost. *)
Theorem C32_lp_branch_loses_base_refuted : forall f b,
  let lp := fun _ _ _ => Ok (f, b) in
  let BB := [[qz (-2); q0]; [q0; q0]] in let ZB := [[qq (-1) 2; q0]; [q0; q0]] in
  base_ok 2 [0; 1]%nat [(0, 1)%nat] [qz (-2)] BB ZB /\
  exists o, tm2 lp [[q0; q0; qz 10; qz 50; qz 50]; [q1; q0; qz (-10); qz 50; qz 50]] [(0, 1)%nat] [[qz (-2); q1; q1]] [qz (-2)] BB ZB
              [0; 1]%nat 1 true = Ok o /\ t_ZB o <> ZB.
Proof.
  intros f b. cbv zeta. split.
  { constructor; [| | |intros [|i] [|j] Hi Hj; try (exfalso; lia); qcheck].
    - split; [reflexivity|]. intros [|[|j]] H; try reflexivity; lia.
    - split; [reflexivity|]. intros [|[|j]] H; try reflexivity; lia.
    - intros [|[|a]] H; try lia; split; reflexivity. }
  set (BN := [[q0; q0; qz 10; qz 50; qz 50]; [q1; q0; qz (-10); qz 50; qz 50]]).
  set (BB := [[qz (-2); q0]; [q0; q0]]). set (ZB := [[qq (-1) 2; q0]; [q0; q0]]).
  assert (A : (let '(BB1, ZB1) := tm2_update [(0, 1)%nat] [[qz (-2); q1; q1]] [qz (-2)] (ieq_of [0; 1]%nat 1 1) 1 1 BB ZB in
               let '(_, _, SF, FL) := tm2_solve BN [(0, 1)%nat] [[qz (-2); q1; q1]] ZB1 [0; 1]%nat true in
               tm2_accepts FL SF [[qz (-2); q1; q1]] BN) = false) by (vm_compute; reflexivity).
  assert (EX : exists o, tm2 (fun _ _ _ => Ok (f, b)) BN [(0, 1)%nat] [[qz (-2); q1; q1]] [qz (-2)] BB ZB [0; 1]%nat 1 true = Ok o /\ t_accepted o = false).
  { unfold tm2. change (length BN - 1)%nat with 1%nat. destruct (tm2_update _ _ _ _ _ _ BB ZB) as [BB1 ZB1].
    destruct (tm2_solve _ _ _ _ _ _) as [[[INJ1 LODC] SF] FL]. rewrite A. cbn [bind fst snd]. eexists. split; reflexivity. }
  destruct EX as (o & E & NA). exists o. split; [exact E|].
  assert (R := tm2_restores 2 1 [0; 1]%nat (fun _ _ _ => Ok (f, b)) BN [(0, 1)%nat] [[qz (-2); q1; q1]] [qz (-2)] BB ZB true o).
  destruct R as (_ & _ & R).
  - split; [reflexivity|]. split. { repeat constructor; cbn; intuition congruence. }
    split. { intros a [<-|[<-|[]]]; lia. } split; [lia|reflexivity].
  - intros l [<-|[]]; cbn; lia.
  - reflexivity.
  - split; [reflexivity|]. intros [|[|j]] H; try reflexivity; lia.
  - split; [reflexivity|]. intros [|[|j]] H; try reflexivity; lia.
  - exact E.
  - specialize (R NA 0%nat 0%nat ltac:(lia) ltac:(lia)). intros EZ. rewrite EZ in R. apply (f_equal this) in R. vm_compute in R. discriminate R.
Qed.
Print Assumptions C32_lp_branch_loses_base_refuted.

(** C33.  The impedance matrix the flows of a state are computed from is the inverse of
    the network in which every line has its state's admittance -- for connected
    states in which no line at the reference is out. *)
Theorem C33_outages_applied_partial : forall n NR LT LP BLP BLP0 BB ZB,
  order_ok n NR LT -> lines_in n LP -> length BLP = length LP -> length BLP0 = length LP ->
  (forall k, (k < length LP)%nat -> vget BLP0 k < q0 /\ mget BLP k 0 <= q0) ->
  (forall k, (k < length LP)%nat -> fst (nth k LP (0%nat, 0%nat)) = NR \/ snd (nth k LP (0%nat, 0%nat)) = NR -> mget BLP k 0 <> q0) ->
  network_connected n NR (wlines LP BLP) ->
  shape n n ZB -> zero_border n ZB -> is_inverse (n - 1) (reduced LT (combine LP BLP0)) (mget ZB) ->
  let ZB' := snd (tm2_update LP BLP BLP0 (ieq_of LT (n - 1) NR) (n - 1) NR BB ZB) in
  shape n n ZB' /\ zero_border n ZB' /\ is_inverse (n - 1) (reduced LT (wlines LP BLP)) (mget ZB').
Proof. exact update_exact. Qed.
Print Assumptions C33_outages_applied_partial.

Example C33_witness :
  snd (tm2_update demo_lines (demo_state 20) demo_BLP0 (ieq_of [0; 2; 1]%nat 2 1) 2 1 demo_BB demo_ZB) =
    [[qq (-3) 7; qq (-1) 7; q0]; [qq (-1) 7; qq (-5) 7; q0]; [q0; q0; q0]].
Proof. qcheck. Qed.

(** The property as stated is false.  (a) Three areas, three lines of admittance -1,
    reference 2, and the line between areas 1 and 2 out: the impedance matrix used is
    still the base one, which is not the inverse of the state's network, although the
    state is connected. *)
Theorem C33_reference_outage_ignored_refuted :
  let LP := [(0, 1); (1, 2); (0, 2)]%nat in let LT := [0; 1; 2]%nat in
  let BLP := [[qz (-1); qz 9; qz 9]; [q0; qz 9; qz 9]; [qz (-1); qz 9; qz 9]] in let BLP0 := [qz (-1); qz (-1); qz (-1)] in
  let BB := [[qz (-2); qz 1; q0]; [qz 1; qz (-2); q0]; [q0; q0; q0]] in
  order_ok 3 2 LT /\ lines_in 3 LP /\ base_ok 3 LT LP BLP0 BB demo_ZB /\ network_connected 3 2 (wlines LP BLP) /\
  let ZB' := snd (tm2_update LP BLP BLP0 (ieq_of LT 2 2) 2 2 BB demo_ZB) in
  ZB' = demo_ZB /\ ~ is_inverse 2 (reduced LT (wlines LP BLP)) (mget ZB').
Proof.
  cbv zeta. split.
  { split; [reflexivity|]. split. { repeat constructor; cbn; intuition congruence. }
    split. { intros a [<-|[<-|[<-|[]]]]; lia. } split; [lia|reflexivity]. }
  split. { intros l [<-|[<-|[<-|[]]]]; cbn; lia. }
  split.
  { constructor; [| | |cells].
    - split; [reflexivity|]. intros [|[|[|j]]] H; try reflexivity; lia.
    - split; [reflexivity|]. intros [|[|[|j]]] H; try reflexivity; lia.
    - intros [|[|[|a]]] H; try lia; split; reflexivity. }
  split.
  { small.
    - apply conn_step with (1 := conn_refl _ _). exists ((0, 2)%nat, qz (-1)). split; [right; right; now left|]. split; [qneq|reflexivity].
    - apply conn_step with (j := 0%nat).
      + apply conn_step with (1 := conn_refl _ _). exists ((0, 1)%nat, qz (-1)). split; [now left|]. split; [qneq|reflexivity].
      + exists ((0, 2)%nat, qz (-1)). split; [right; right; now left|]. split; [qneq|reflexivity].
    - apply conn_refl. }
  split; [qcheck|]. intros I. specialize (I 1%nat 0%nat ltac:(lia) ltac:(lia)). apply (f_equal this) in I. vm_compute in I. discriminate I.
Qed.
Print Assumptions C33_reference_outage_ignored_refuted.

(** (b) For a line to the reference that changes from -1 to -2 the matrix handed to the
    linear program gets -2 added twice (tm2.py 112) and not the change -1. *)
Theorem C33_reference_change_matrix_refuted :
  let LP := [(0, 1)]%nat in let LT := [0; 1]%nat in
  let BB := [[qz (-1); q0]; [q0; q0]] in let ZB := [[qz (-1); q0]; [q0; q0]] in
  let '(BB', ZB') := tm2_update LP [[qz (-2); qz 9; qz 9]] [qz (-1)] (ieq_of LT 1 1) 1 1 BB ZB in
  mget ZB' 0 0 = qq (-1) 2 /\ mget BB' 0 0 = qz (-5) /\ reduced LT (wlines LP [[qz (-2); qz 9; qz 9]]) 0%nat 0%nat = qz (-2).
Proof. vm_compute tm2_update. cbn [fst snd]. split; [qcheck|]. split; qcheck. Qed.
Print Assumptions C33_reference_change_matrix_refuted.

(** C34.  No loss reported: every area can cover its demand and its scheduled
    injection, in every call. *)
Theorem C34_no_loss_means_margin : forall inv lp IFLAG s BLPA LP NR STMULT LNSTAT NLS TRNSFR TRNSFJ SYSCON CAPREQ FLOW SADJ s',
  transm inv lp IFLAG s BLPA LP NR STMULT LNSTAT NLS TRNSFR TRNSFJ SYSCON CAPREQ = Ok (false, FLOW, SADJ, s') ->
  length SADJ = length (n_BN s) /\
  forall i, (i < length (n_BN s))%nat ->
    vget SADJ i = vget SYSCON i - vget CAPREQ i - mget (n_BN s') i 1 /\ q0 <= vget SADJ i.
Proof. exact transm_no_loss. Qed.
Print Assumptions C34_no_loss_means_margin.

Lemma line_rows_state BLPA STMULT LNSTAT k : (k < length LNSTAT)%nat ->
  mget (line_rows BLPA STMULT LNSTAT) k 0 = state_adm BLPA LNSTAT k /\
  mget (line_rows BLPA STMULT LNSTAT) k 1 = state_fwd BLPA STMULT LNSTAT k /\
  mget (line_rows BLPA STMULT LNSTAT) k 2 = state_bwd BLPA STMULT LNSTAT k.
Proof.
  intros H. assert (E : state_base LNSTAT k = Z.to_nat ((zget LNSTAT k - 1) * 3)) by (unfold state_base; lia).
  unfold state_adm, state_fwd, state_bwd. rewrite E. unfold line_rows, mget at 1 3 6. rewrite !nth_map_seq by auto.
  repeat split; reflexivity.
Qed.
Lemma dc_solution_ext n NR LP a b inj F : (forall k, (k < length LP)%nat -> a k = b k) -> dc_solution n NR LP a inj F -> dc_solution n NR LP b inj F.
Proof. intros H (T & T0 & TF & TI). exists T. split; [exact T0|]. split; [|exact TI]. intros k Hk. rewrite <- H by auto. auto. Qed.

(** For hours solved without the linear program the scheduled injection is the area's
    actual net outflow: *)
Theorem C34_direct_balance : forall inv e s BLPA LP NR STMULT LNSTAT NLS TRNSFR TRNSFJ SYSCON CAPREQ FLOW SADJ s',
  inv_ok inv -> hour_net_ok s BLPA LP NR STMULT LNSTAT -> length CAPREQ = length (n_BN s) -> (NLS = false -> qsum CAPREQ <> q0) ->
  transm inv (fun _ _ _ => Err e) false s BLPA LP NR STMULT LNSTAT NLS TRNSFR TRNSFJ SYSCON CAPREQ = Ok (false, FLOW, SADJ, s') ->
  (exists sched, dc_solution (length (n_BN s)) NR LP (state_adm BLPA LNSTAT) sched (vget FLOW)) /\
  (forall k, (k < length LP)%nat -> within (vget FLOW k) (state_fwd BLPA STMULT LNSTAT k) (state_bwd BLPA STMULT LNSTAT k)) /\
  (forall i, (i < length (n_BN s))%nat -> q0 <= vget SYSCON i - vget CAPREQ i - net_outflow LP (vget FLOW) i).
Proof.
  intros inv e s BLPA LP NR STMULT LNSTAT NLS TRNSFR TRNSFJ SYSCON CAPREQ FLOW SADJ s' IV HN LC NZ E.
  destruct (transm_direct inv e s BLPA LP NR STMULT LNSTAT NLS TRNSFR TRNSFJ SYSCON CAPREQ false FLOW SADJ s' IV HN LC NZ E)
    as (F1 & sched & (T & T0 & TF & TI) & W & J & _).
  destruct (J eq_refl) as (EF & M).
  assert (V : forall k, (k < length LP)%nat -> vget FLOW k = F1 k) by (intros k Hk; rewrite EF; unfold vget; now rewrite nth_map_seq).
  assert (NO : forall i, net_outflow LP (vget FLOW) i = net_outflow LP F1 i).
  { intros i. unfold net_outflow. apply qs_ext; intros k Hk. now rewrite V. }
  split; [|split].
  - exists sched, T. split; [exact T0|]. split; [|intros i Hi; rewrite NO; auto].
    intros k Hk. rewrite V by auto. rewrite (TF k Hk). f_equal. apply line_rows_state. destruct HN. lia.
  - intros k Hk. rewrite V by auto. specialize (W k Hk). destruct HN. destruct (line_rows_state BLPA STMULT LNSTAT k ltac:(lia)) as (_ & <- & <-). auto.
  - intros i Hi. rewrite NO. specialize (M i Hi). qlra.
Qed.
Print Assumptions C34_direct_balance.

(** What the transmission module does without the linear program it does whatever the
    linear program is. *)
Lemma tm2_lp_indep : forall lp e BN LP BLP BLP0 BB ZB LT NR NLS o,
  tm2 (fun _ _ _ => Err e) BN LP BLP BLP0 BB ZB LT NR NLS = Ok o -> tm2 lp BN LP BLP BLP0 BB ZB LT NR NLS = Ok o.
Proof.
  intros lp e BN LP BLP BLP0 BB ZB LT NR NLS o. unfold tm2. destruct (tm2_update _ _ _ _ _ _ _ _) as [BB1 ZB1].
  destruct (tm2_solve _ _ _ _ _ _) as [[[INJ1 LODC] SFLOW] FLOW]. destruct (tm2_accepts FLOW SFLOW BLP BN); auto.
  destruct NLS; cbn [bind]; discriminate.
Qed.
Theorem C34_direct_any_lp : forall inv lp e IFLAG s BLPA LP NR STMULT LNSTAT NLS TRNSFR TRNSFJ SYSCON CAPREQ r,
  transm inv (fun _ _ _ => Err e) IFLAG s BLPA LP NR STMULT LNSTAT NLS TRNSFR TRNSFJ SYSCON CAPREQ = Ok r ->
  transm inv lp IFLAG s BLPA LP NR STMULT LNSTAT NLS TRNSFR TRNSFJ SYSCON CAPREQ = Ok r.
Proof.
  intros inv lp e IFLAG s BLPA LP NR STMULT LNSTAT NLS TRNSFR TRNSFJ SYSCON CAPREQ r. unfold transm. cbv zeta.
  destruct (if IFLAG then _ else _) as [[[[BLP0 BB] LT] ZB]|x]; cbn [bind]; [|auto].
  destruct (tm2 (fun _ _ _ => Err e) (sched_rows _ _ _ _ _) _ _ _ _ _ _ _ true) as [o1|] eqn:E1; cbn [bind]; [|discriminate].
  rewrite (tm2_lp_indep lp _ _ _ _ _ _ _ _ _ _ _ E1). cbn [bind]. destruct (forallb _ _); auto.
  destruct (tm2 (fun _ _ _ => Err e) _ _ _ _ _ _ _ _ NLS) as [o2|] eqn:E2; cbn [bind]; [|discriminate].
  rewrite (tm2_lp_indep lp _ _ _ _ _ _ _ _ _ _ _ E2). cbn [bind]. auto.
Qed.
Print Assumptions C34_direct_any_lp.

(** C60.  Emergency assistance without the linear program.  [x i] is what area i has
    after its demand and (without loss sharing) its scheduled injection; the recorded
    adjustment is zero or negative everywhere when the pool's surplus covers its
    deficit, and otherwise shares the pool shortfall [D - S]: without loss sharing in
    proportion to each area's own deficit, with loss sharing in proportion to load. *)
Theorem C60_emergency_shares : forall inv e s BLPA LP NR STMULT LNSTAT NLS TRNSFR TRNSFJ SYSCON CAPREQ JFLAG FLOW SADJ s',
  inv_ok inv -> hour_net_ok s BLPA LP NR STMULT LNSTAT -> length CAPREQ = length (n_BN s) -> (NLS = false -> qsum CAPREQ <> q0) ->
  transm inv (fun _ _ _ => Err e) false s BLPA LP NR STMULT LNSTAT NLS TRNSFR TRNSFJ SYSCON CAPREQ = Ok (JFLAG, FLOW, SADJ, s') ->
  let n := length (n_BN s) in
  let adm := state_adm BLPA LNSTAT in
  let fwd := state_fwd BLPA STMULT LNSTAT in
  let bwd := state_bwd BLPA STMULT LNSTAT in
  exists F1 sched : nat -> Qc,
    dc_solution n NR LP adm sched F1 /\
    (forall k, (k < length LP)%nat -> within (F1 k) (fwd k) (bwd k)) /\
    (JFLAG = false -> FLOW = map F1 (seq 0 (length LP)) /\ forall i, (i < n)%nat -> net_outflow LP F1 i <= vget SYSCON i - vget CAPREQ i) /\
    (JFLAG = true ->
      (exists i, (i < n)%nat /\ vget SYSCON i - vget CAPREQ i < net_outflow LP F1 i) /\
      let x := fun i => vget SYSCON i - vget CAPREQ i - (if NLS then sched i else q0) in
      let S := qs n (fun i => qmax (x i) q0) in
      let D := qs n (fun i => qmax (- x i) q0) in
      dc_solution n NR LP adm (fun i => x i + vget SADJ i) (vget FLOW) /\
      (forall k, (k < length LP)%nat -> within (if NLS then F1 k + vget FLOW k else vget FLOW k) (fwd k) (bwd k)) /\
      (D <= S -> forall i, (i < n)%nat -> vget SADJ i <= q0) /\
      (S < D -> NLS = true -> forall i, (i < n)%nat -> D * vget SADJ i = (D - S) * qmax (- x i) q0) /\
      (S < D -> NLS = false -> forall i, (i < n)%nat -> qsum CAPREQ * vget SADJ i = (D - S) * vget CAPREQ i)).
Proof.
  intros inv e s BLPA LP NR STMULT LNSTAT NLS TRNSFR TRNSFJ SYSCON CAPREQ JFLAG FLOW SADJ s' IV HN LC NZ E.
  destruct (transm_direct inv e s BLPA LP NR STMULT LNSTAT NLS TRNSFR TRNSFJ SYSCON CAPREQ JFLAG FLOW SADJ s' IV HN LC NZ E)
    as (F1 & sched & DS & W & J0 & J1).
  assert (LR : forall k, (k < length LP)%nat -> (k < length LNSTAT)%nat) by (destruct HN; lia).
  assert (RA : forall k, (k < length LP)%nat -> mget (line_rows BLPA STMULT LNSTAT) k 0 = state_adm BLPA LNSTAT k) by (intros; apply line_rows_state; auto).
  cbv zeta. exists F1, sched. split; [exact (dc_solution_ext _ _ _ _ _ _ _ RA DS)|]. split; [|split; [exact J0|]].
  - intros k Hk. specialize (W k Hk). destruct (line_rows_state BLPA STMULT LNSTAT k (LR k Hk)) as (_ & <- & <-). exact W.
  - intros EJ. destruct (J1 EJ) as (A & B & C & D). split; [exact A|]. split; [exact (dc_solution_ext _ _ _ _ _ _ _ RA B)|]. split; [|exact D].
    intros k Hk. specialize (C k Hk). destruct (line_rows_state BLPA STMULT LNSTAT k (LR k Hk)) as (_ & <- & <-). exact C.
Qed.
Print Assumptions C60_emergency_shares.

(** C59.  Lines: the scheduled flow, and the scheduled plus emergency flow, are within
    the capacities of the sampled line states. *)
Theorem C59_line_limits_partial : forall inv e s BLPA LP NR STMULT LNSTAT TRNSFR TRNSFJ SYSCON CAPREQ FLOW SADJ s',
  inv_ok inv -> hour_net_ok s BLPA LP NR STMULT LNSTAT -> length CAPREQ = length (n_BN s) ->
  transm inv (fun _ _ _ => Err e) false s BLPA LP NR STMULT LNSTAT true TRNSFR TRNSFJ SYSCON CAPREQ = Ok (true, FLOW, SADJ, s') ->
  exists F1 sched,
    dc_solution (length (n_BN s)) NR LP (state_adm BLPA LNSTAT) sched F1 /\
    forall k, (k < length LP)%nat ->
      within (F1 k) (state_fwd BLPA STMULT LNSTAT k) (state_bwd BLPA STMULT LNSTAT k) /\
      within (F1 k + vget FLOW k) (state_fwd BLPA STMULT LNSTAT k) (state_bwd BLPA STMULT LNSTAT k).
Proof.
  intros inv e s BLPA LP NR STMULT LNSTAT TRNSFR TRNSFJ SYSCON CAPREQ FLOW SADJ s' IV HN LC E.
  destruct (C60_emergency_shares inv e s BLPA LP NR STMULT LNSTAT true TRNSFR TRNSFJ SYSCON CAPREQ true FLOW SADJ s' IV HN LC ltac:(discriminate) E)
    as (F1 & sched & DS & W & _ & J). destruct (J eq_refl) as (_ & _ & W2 & _).
  exists F1, sched. split; [exact DS|]. intros k Hk. split; [apply (W k Hk)|apply (W2 k Hk)].
Qed.
Print Assumptions C59_line_limits_partial.

(** An inversion routine meeting the contract of [np.linalg.inv], for the examples: it
    offers one candidate and checks it. *)
Definition checked_inv (c : list (list Qc)) (M : list (list Qc)) : option (list (list Qc)) :=
  let m := length M in
  if Nat.eqb (length c) m && forallb (fun r => Nat.eqb (length r) m) c &&
     forallb (fun i => forallb (fun j => qeqb (qs m (fun k => mget M i k * mget c k j)) (if Nat.eqb i j then q1 else q0)) (seq 0 m)) (seq 0 m)
  then Some c else None.
Lemma checked_inv_ok c : inv_ok (checked_inv c).
Proof.
  intros m M Z (L & _) E. unfold checked_inv in E. rewrite L in E.
  destruct (Nat.eqb (length c) m && forallb (fun r => Nat.eqb (length r) m) c) eqn:E1; [|discriminate].
  cbn [andb] in E. destruct (forallb _ (seq 0 m)) eqn:E2; [|discriminate]. injection E as <-.
  apply andb_true_iff in E1. destruct E1 as (E1 & E3). apply Nat.eqb_eq in E1. rewrite forallb_forall in E3. split.
  - split; [exact E1|]. intros j Hj. apply Nat.eqb_eq. apply E3. apply nth_In. lia.
  - intros i j Hi Hj. rewrite forallb_seq in E2. specialize (E2 i Hi). rewrite forallb_seq in E2. specialize (E2 j Hj).
    now apply qeqb_iff in E2.
Qed.

(** Two areas, one line of capacity 100; area 1 may import 12. *)
Definition two_lines (b c : Z) : list Qc := concat (repeat [qz b; qz c; qz c] 6).
Definition two_net (lim : Z) : netst := mkNet [[q0; q0; q0; qz 1000; qz 1000]; [q1; q0; q0; qz lim; qz lim]] [] [] [] [].
Example two_net_ok lim : hour_net_ok (two_net lim) [two_lines (-1) 100] [(0, 1)%nat] 1 [[q1; q1]] [1%Z].
Proof.
  constructor.
  - split; [reflexivity|]. intros [|[|j]] H; try reflexivity; exfalso; cbn in H; lia.
  - split; [reflexivity|]. intros [|[|j]] H; try reflexivity; exfalso; cbn in H; lia.
  - reflexivity.
  - intros l [<-|[]]; cbn; lia.
  - split; reflexivity.
  - cbn. lia.
  - intros [|k] H; [qineq|exfalso; cbn in H; lia].
  - intros [|k] H; [qineq|exfalso; cbn in H; lia].
  - intros [|k] H; [intros _; qneq|exfalso; cbn in H; lia].
  - intros [|k] H; [split; qineq|exfalso; cbn in H; lia].
  - intros [|[|k]] H; [|apply conn_refl|exfalso; cbn in H; lia].
    apply conn_step with (1 := conn_refl _ _). exists ((0, 1)%nat, qz (-1)). split; [left; vm_compute; repeat f_equal; apply Qc_is_canon; reflexivity|split; [qneq|reflexivity]].
Qed.
Definition two_run (lim : Z) (NLS : bool) (cr0 : Z) :=
  transm (checked_inv [[qz (-1)]]) no_lp false (two_net lim) [two_lines (-1) 100] [(0, 1)%nat] 1 [[q1; q1]] [1%Z]
    NLS [qz 10; qz (-10)] [q0; q0] [qz 100; qz 50] [qz cr0; qz 80].
(** The observable result of a run. *)
Definition seen (r : res (bool * list Qc * list Qc * netst)) : option (bool * list Q * list Q) :=
  match r with Ok (j, f, a, _) => Some (j, map this f, map this a) | Err _ => None end.
(** A scheduled transfer of 10 leaves area 1 short by 20.  With 60 in use at area 0,
    it has 30 left; the emergency transfer is 20.  With 90 in use there is none. *)
Example C60_witness :
  seen (two_run 1000 true 60) = Some (true, [Qmake 20 1], [Qmake (-10) 1; Qmake 0 1]) /\
  seen (two_run 1000 true 90) = Some (true, [Qmake 0 1], [Qmake 0 1; Qmake 20 1]) /\
  match seen (two_run 1000 false 85) with Some (j, _, [a; b]) => j = true /\ Qeq (Qplus a b) (Qmake 15 1) | _ => False end.
Proof. vm_compute. auto. Qed.

(** The import limit of an area is not respected by the total: limit 12, scheduled
    import 10, emergency import 20. *)
Theorem C59_area_limits_refuted : exists f a s,
  two_run 12 true 60 = Ok (true, f, a, s) /\
  (* the emergency flow into area 1 alone already exceeds the limit *)
  ~ within (- net_outflow [(0, 1)%nat] (vget f) 1) (qz 12) (qz 12) /\
  forall inj F1, dc_solution 2 1 [(0, 1)%nat] (fun _ => qz (-1)) inj F1 -> inj 1%nat = qz (-10) ->
  - net_outflow [(0, 1)%nat] (fun k => F1 k + vget f k) 1 = qz 30.
Proof.
  assert (E : seen (two_run 12 true 60) = Some (true, [Qmake 20 1], [Qmake (-10) 1; Qmake 0 1])) by (vm_compute; reflexivity).
  destruct (two_run 12 true 60) as [[[[j f] a] s]|]; [|discriminate]. cbn [seen] in E.
  assert (EF : f = [qz 20]).
  { destruct f as [|x [|y f]]; try discriminate. f_equal. apply Qc_is_canon. injection E as _ E _. rewrite E. reflexivity. }
  exists f, a, s. split. { injection E as -> _ _. reflexivity. } subst f. split.
  - intros (_ & H). apply qleb_iff in H. vm_compute in H. discriminate H.
  - intros inj F1 (T & _ & _ & TI) EI. specialize (TI 1%nat ltac:(lia)). rewrite EI in TI.
    unfold net_outflow, qs, qsum in *. cbn [length seq map fold_right fst snd nth Nat.eqb vget] in *.
    assert (F1 0%nat = qz 10) as ->. { revert TI. generalize (F1 0%nat). intros y Hy. apply (f_equal Qcopp) in Hy. transitivity (- qz (-10)); [|qcheck]. rewrite <- Hy. qring. }
    apply Qc_is_canon. vm_compute. reflexivity.
Qed.
Print Assumptions C59_area_limits_refuted.
