(** C73 - C81: the linear program for congested hours.  (Specification: LpSpec.) *)
From Verif Require Import Base BaseProofs Sums LoadModel LoadSpec NetModel NetSpec MatProofs TransmProofs PropertiesNet HourSpec
  LpModel LpSpec LpProofs LpRun LpNet LpResult LpUpdate LpNetLoop LpCycle LpBranch LpEndless LpTransm UniqueProofs.
Open Scope Qc_scope.

(** ** The example: areas 0 and 1 are short of 10 each, area 2 (the reference) has 50 to
    spare; the lines to area 2 carry 5 and 6. *)
Definition w_LP : list (nat * nat) := [(0, 2); (1, 2)]%nat.
Definition w_LT : list nat := [0; 1; 2]%nat.
Definition w_BLP : list (list Qc) := [[qz (-1); qz 5; qz 5]; [qz (-2); qz 6; qz 6]].
Definition w_BN : list (list Qc) :=
  [[qz 0; qz 40; qz (-10); qz 90; qz 90]; [qz 1; qz 50; qz (-10); qz 90; qz 90]; [qz 2; qz 50; qz 50; qz 90; qz 90]].
Definition w_BB : list (list Qc) := [[qz (-1); q0; q0]; [q0; qz (-2); q0]; [q0; q0; q0]].
Definition w_data : res lpdata := connls w_BB (mcol w_BN 2) 2 2 w_LT w_BLP w_LP w_BN.
Lemma w_order : order_ok 3 2 w_LT.
Proof. split; [reflexivity|]. split. { repeat constructor; cbn; intuition congruence. } split. { intros a [<-|[<-|[<-|[]]]]; lia. } split; [lia|reflexivity]. Qed.
Lemma w_lines : lines_in 3 w_LP.
Proof. intros l [<-|[<-|[]]]; cbn; lia. Qed.
Lemma w_caps k : (k < length w_LP)%nat -> q0 <= mget w_BLP k 1 /\ q0 <= mget w_BLP k 2.
Proof. revert k. small; split; qineq. Qed.
Lemma w_lims i : (i < 3)%nat -> q0 <= mget w_BN i 3 /\ q0 <= mget w_BN i 4.
Proof. revert i. small; split; qineq. Qed.
Lemma w_check : match w_data with Ok d => check 60 d (linp_start (d_M d) (d_XOBI0 d) (d_IBAS d) (d_BS d)) | Err _ => false end = true.
Proof. vm_compute. reflexivity. Qed.
Lemma w_stops : match w_data with Ok d => match linp 60 d with Ok _ => true | Err _ => false end | Err _ => false end = true.
Proof. vm_compute. reflexivity. Qed.
Lemma w_size : exists d, w_data = Ok d.
Proof. apply (proj1 (connls_size w_BB (mcol w_BN 2) 2 2 w_LT w_BLP w_LP w_BN)). cbn; lia. Qed.
Lemma w_lp : exists d, w_data = Ok d /\ lp_ok d /\ well_scaled d /\ exists s, linp 60 d = Ok s.
Proof.
  destruct w_size as (d & E). exists d. split; [exact E|].
  split; [exact (proj1 (connls_ok w_BB (mcol w_BN 2) 2 2 w_LT w_BLP w_LP w_BN w_order w_lines eq_refl w_caps w_lims d E))|].
  pose proof w_check as C1. pose proof w_stops as C2. rewrite E in C1, C2. split; [exact (check_well_scaled 60 d C1)|]. destruct (linp 60 d); [eauto|discriminate].
Qed.

(** ** C73.  When the solver stops, the basis and the values it leaves are a solution of
    the constraints with no negative variable. *)
Theorem C73_solution : forall fuel d s, lp_ok d -> well_scaled d -> linp fuel d = Ok s ->
  let x := basic_value (d_M d) s in
  (forall k, q0 <= x k) /\
  (forall i, (i < d_M d)%nat -> qs (d_N d) (fun k => d_A d i k * x k) = vget (d_BS d) i) /\
  (forall i, (i < d_M d)%nat -> x (nth i (s_IBAS s) 0%nat) = vget (s_BS s) i) /\
  (forall k, ~ In k (s_IBAS s) -> x k = q0) /\
  length (s_IBAS s) = d_M d /\ NoDup (s_IBAS s) /\ (forall k, In k (s_IBAS s) -> (k < d_N d)%nat).
Proof.
  intros fuel d s OK WS E x. destruct (linp_final d fuel s OK WS E) as (G & _). pose proof (g_inv d s G) as I.
  split; [intros k; apply basic_pos; exact (g_pos d s G)|].
  split; [intros i Hi; exact (basic_solves (d_M d) (d_N d) (d_A d) (d_BS d) s I (g_rng d s G) i Hi)|].
  split; [intros i Hi; exact (basic_nth (d_M d) (d_A d) (d_BS d) s I i Hi)|].
  split; [intros k Hk; exact (basic_out (d_M d) (d_A d) (d_BS d) s I k Hk)|].
  split; [exact (i_len _ _ _ s I)|]. split; [exact (i_nd _ _ _ s I)|exact (g_rng d s G)].
Qed.
Print Assumptions C73_solution.
(** The programs [connls] builds are of the form required. *)
Theorem C73_program : forall BC INJB NX NR LT BLP LP BN d, order_ok (S NX) NR LT -> lines_in (S NX) LP -> length BLP = length LP ->
  (forall k, (k < length LP)%nat -> q0 <= mget BLP k 1 /\ q0 <= mget BLP k 2) ->
  (forall i, (i < S NX)%nat -> q0 <= mget BN i 3 /\ q0 <= mget BN i 4) ->
  connls BC INJB NX NR LT BLP LP BN = Ok d -> lp_ok d.
Proof. intros BC INJB NX NR LT BLP LP BN d OK LI LB C L E. exact (proj1 (connls_ok BC INJB NX NR LT BLP LP BN OK LI LB (fun k Hk => C k (eq_ind _ (fun m => (k < m)%nat) Hk _ LB)) L d E)). Qed.
Print Assumptions C73_program.

(** ** C74.  Its cost exceeds that of no feasible solution by more than the tolerance
    times the sum of the variables. *)
Theorem C74_optimal : forall fuel d s y, lp_ok d -> well_scaled d -> linp fuel d = Ok s -> feasible d y ->
  qs (d_N d) (fun k => cost2 d k * basic_value (d_M d) s k) <= qs (d_N1 d) (fun k => cost2 d k * y k) + qq 1 10000000 * qs (d_N1 d) y.
Proof.
  intros fuel d s y OK WS E (YP & YF). destruct (linp_final d fuel s OK WS E) as (G & P2 & EX).
  pose proof (basic_optimal (d_M d) (d_N d) (d_A d) (d_BS d) s (g_inv d s G) (g_rng d s G) (d_N1 d) y YP YF EX) as B.
  rewrite (qs_ext (d_N d) (fun k => cost2 d k * basic_value (d_M d) s k) (fun k => s_XOB s k * basic_value (d_M d) s k)), (qs_ext (d_N1 d) (fun k => cost2 d k * y k) (fun k => s_XOB s k * y k)); [exact B| |];
    intros k _; rewrite (g_xob d s G); unfold costs; now rewrite P2.
Qed.
Print Assumptions C74_optimal.
Example C73_C74_witness : exists d s y, w_data = Ok d /\ lp_ok d /\ well_scaled d /\ linp 60 d = Ok s /\ feasible d y /\
  qs (d_N d) (fun k => cost2 d k * basic_value (d_M d) s k) = qz 9 /\ qs (d_N1 d) (fun k => cost2 d k * y k) = qz 9.
Proof.
  destruct w_lp as (d & E & OK & WS & s & ES). exists d, s, (basic_value (d_M d) s). split; [exact E|]. split; [exact OK|]. split; [exact WS|]. split; [exact ES|].
  destruct (C73_solution 60 d s OK WS ES) as (X1 & X2 & _ & X4 & _).
  assert (C : match w_data with Ok d => match linp 60 d with Ok s => forallb (fun k => (k <? d_N1 d)%nat) (s_IBAS s) &&
      qeqb (qs (d_N d) (fun k => cost2 d k * basic_value (d_M d) s k)) (qz 9) && qeqb (qs (d_N1 d) (fun k => cost2 d k * basic_value (d_M d) s k)) (qz 9) && (d_N1 d <=? d_N d)%nat
    | Err _ => false end | Err _ => false end = true) by (vm_compute; reflexivity).
  rewrite E, ES in C. apply andb_prop in C. destruct C as (C & C4). apply andb_prop in C. destruct C as (C & C3). apply andb_prop in C. destruct C as (C1 & C2).
  apply qeqb_iff in C2, C3. apply Nat.leb_le in C4. split; [|split; assumption]. split; [intros k _; apply X1|]. intros i Hi. rewrite <- (X2 i Hi).
  replace (d_N d) with (d_N1 d + (d_N d - d_N1 d))%nat by lia. rewrite qs_app.
  rewrite (qs_zero (d_N d - d_N1 d)); [qring|]. intros j _. rewrite X4; [qring|]. intros IN. rewrite forallb_forall in C1. specialize (C1 _ IN). apply Nat.ltb_lt in C1. lia.
Qed.

(** ** C75.  The solver does not fail; the objective of the phase never grows and every
    pass within a phase changes the basis.  It need not stop. *)
Theorem C75_no_exception : forall fuel d, lp_ok d -> well_scaled d -> linp fuel d = Err OutOfFuel \/ exists s, linp fuel d = Ok s.
Proof. intros fuel d OK WS. exact (loop_total d OK WS fuel _ (passes_here _ _ _ _ _ _)). Qed.
Print Assumptions C75_no_exception.
Theorem C75_descends : forall d s s', lp_ok d -> well_scaled d -> visits d s -> linp_pass (d_M d) (d_N1 d) (d_A d) (d_XOBI1 d) (d_BS d) s = Ok (inl s') ->
  s_PH2 s' = s_PH2 s -> objective d s' <= objective d s /\ s_IBAS s' <> s_IBAS s.
Proof. exact pass_descends. Qed.
Print Assumptions C75_descends.
(** It stops within 2 N^M passes or never. *)
Theorem C75_bound_partial : forall d, lp_ok d -> well_scaled d ->
  (exists s, linp (2 * d_N d ^ d_M d) d = Ok s) \/ forall fuel, linp fuel d = Err OutOfFuel.
Proof. exact stops_or_never. Qed.
Print Assumptions C75_bound_partial.
(** A run that comes back to a basis in the same phase does not end. *)
Theorem C75_repetition_is_endless : forall d i j s s', lp_ok d -> well_scaled d -> (i < j)%nat -> after d i = Some s -> after d j = Some s' ->
  s_IBAS s = s_IBAS s' -> s_PH2 s = s_PH2 s' -> forall fuel, linp fuel d = Err OutOfFuel.
Proof. intros d i j s s' OK WS. exact (repetition_endless d OK WS i j s s'). Qed.
Print Assumptions C75_repetition_is_endless.
(** There is such a run: a feasible program of four constraints. *)
Theorem C75_always_stops_refuted : exists d y, lp_ok d /\ well_scaled d /\ feasible d y /\ forall fuel, linp fuel d = Err OutOfFuel.
Proof. exists c_d, c_y. split; [exact c_ok|]. split; [exact c_scaled|]. split; [exact c_feasible|exact c_endless]. Qed.
Print Assumptions C75_always_stops_refuted.
Example C75_witness : exists d, lp_ok d /\ well_scaled d /\ exists s, linp 60 d = Ok s.
Proof. destruct w_lp as (d & _ & OK & WS & s & E). eauto. Qed.

(** ** C76.  The two versions of the result array agree. *)
Theorem C76_net_versions : forall B B1 RES IBAS BS M N, (M <= N)%nat -> (M <= length IBAS)%nat ->
  forall k c, net_loop B B1 RES IBAS BS M N k c = net B B1 RES IBAS BS M N k c.
Proof. exact net_versions. Qed.
Print Assumptions C76_net_versions.

Example C76_witness : exists d s, w_data = Ok d /\ linp 60 d = Ok s /\ (d_M d <= d_N1 d)%nat /\ (d_M d <= length (s_IBAS s))%nat /\
  map (fun k => this (net (d_B d) (d_B1 d) (fun _ _ => q0) (s_IBAS s) (s_BS s) (d_M d) (d_N1 d) k 0%nat)) (seq 0 12) = map this [qz 5; q0; qz 3; q0; qz 15; qz 6; qz (-11); qz 5; qz 4; qz 11; qz (-5); qz (-6)].
Proof.
  destruct w_lp as (d & E & OK & WS & s & ES). exists d, s. split; [exact E|]. split; [exact ES|].
  assert (C : match w_data with Ok d => match linp 60 d with Ok s => (d_M d <=? d_N1 d)%nat && (d_M d <=? length (s_IBAS s))%nat | Err _ => false end | Err _ => false end = true) by (vm_compute; reflexivity).
  assert (V : match w_data with Ok d => match linp 60 d with Ok s => map (fun k => this (net (d_B d) (d_B1 d) (fun _ _ => q0) (s_IBAS s) (s_BS s) (d_M d) (d_N1 d) k 0%nat)) (seq 0 12) | Err _ => [] end | Err _ => [] end =
    map this [qz 5; q0; qz 3; q0; qz 15; qz 6; qz (-11); qz 5; qz 4; qz 11; qz (-5); qz (-6)]) by (vm_compute; reflexivity).
  rewrite E, ES in C, V. apply andb_prop in C. destruct C as (C1 & C2). apply Nat.leb_le in C1, C2. auto.
Qed.

(** ** C77.  A congested hour: the emergency transfers need the linear program. *)
(** The example as [transm] meets it: SYSCON - CAPREQ is -10, -10, 50. *)
Definition h_net : netst := mkNet [[qz 0; q0; q0; qz 90; qz 90]; [qz 1; q0; q0; qz 90; qz 90]; [qz 2; q0; q0; qz 90; qz 90]] [] [] [] [].
Definition h_BLPA : list (list Qc) := [two_lines (-1) 5; two_lines (-2) 6].
Definition h_inv := checked_inv [[qz (-1); q0]; [q0; qq (-1) 2]].
Definition h_ones : list (list Qc) := [[q1; q1]; [q1; q1]].
Definition h_zero : list Qc := [q0; q0; q0].
Definition h_con : list Qc := [qz 30; qz 40; qz 100].
Definition h_req : list Qc := [qz 40; qz 50; qz 50].
Definition h_run lp := transm h_inv lp false h_net h_BLPA w_LP 2 h_ones [1; 1]%Z true h_zero h_zero h_con h_req.

(** Flows F1 of the scheduled transfers and FLOW of the emergency transfers together are
    within the capacities of the lines; FLOW obeys the network equations; every area
    receives or gives what g says (up to the amounts e of infeasible injections, which
    count as curtailed); the adjustment of every area except the first in the order LT is
    what is missing; the total curtailment is least, within the tolerance, among all
    dispatches.  Missing: the first area of LT (refuted below); lines at the reference
    area in another than their base state (refuted below). *)
Theorem C77_congested_hour_partial : forall inv fuel e s BLPA LP NR STMULT LNSTAT TRNSFR TRNSFJ SYSCON CAPREQ BLP0 BB LT ZB o1 FLOW SADJ s',
  let n := length (n_BN s) in
  let BLP := line_rows BLPA STMULT LNSTAT in
  inv_ok inv -> hour_net_ok s BLPA LP NR STMULT LNSTAT -> (1 < n)%nat ->
  tm1 inv (n_BN s) LP (map (firstn 3) BLPA) NR = Ok (BLP0, BB, LT, ZB) ->
  (forall k, (k < length LP)%nat -> fst (nth k LP (0%nat, 0%nat)) = NR \/ snd (nth k LP (0%nat, 0%nat)) = NR -> state_adm BLPA LNSTAT k = mget BLPA k 0) ->
  tm2 (fun _ _ _ => Err e) (sched_rows (n_BN s) TRNSFR TRNSFJ SYSCON CAPREQ) LP BLP BLP0 BB ZB LT NR true = Ok o1 ->
  transm inv (fun _ _ _ => Err e) false s BLPA LP NR STMULT LNSTAT true TRNSFR TRNSFJ SYSCON CAPREQ = Err e ->
  transm inv (lp_nls fuel LP LT NR) false s BLPA LP NR STMULT LNSTAT true TRNSFR TRNSFJ SYSCON CAPREQ = Ok (true, FLOW, SADJ, s') ->
  let BLP' := residual_lines BLP (t_flow o1) in
  let BN4 := residual_areas (emergency_rows (t_BN o1) SYSCON CAPREQ (vtab n (fun i => mget (t_BN o1) i 1))) LP (t_flow o1) in
  (forall i, (i < n)%nat -> q0 <= mget BN4 i 3 /\ q0 <= mget BN4 i 4) ->
  (forall d, connls (lp_matrix n NR LT LP BLP' BLP0 BB ZB) (mcol BN4 2) (n - 1) NR LT BLP' LP BN4 = Ok d -> well_scaled d) ->
  exists sched F1 T g e,
    dc_solution n NR LP (state_adm BLPA LNSTAT) sched F1 /\
    (forall k, (k < length LP)%nat -> within (F1 k) (state_fwd BLPA STMULT LNSTAT k) (state_bwd BLPA STMULT LNSTAT k)) /\
    let x i := vget SYSCON i - vget CAPREQ i - sched i in
    (exists i, (i < n)%nat /\ x i < q0) /\
    T NR = q0 /\ length FLOW = length LP /\
    (forall k, (k < length LP)%nat -> vget FLOW k = (T (fst (nth k LP (0%nat, 0%nat))) - T (snd (nth k LP (0%nat, 0%nat)))) * state_adm BLPA LNSTAT k) /\
    (forall i, (i < n)%nat -> net_outflow LP (vget FLOW) i = g i + (if qltb (x i) q0 then e i else - e i) /\ q0 <= e i) /\
    (forall k, (k < length LP)%nat -> within (F1 k + vget FLOW k) (state_fwd BLPA STMULT LNSTAT k) (state_bwd BLPA STMULT LNSTAT k)) /\
    (forall i, (i < n)%nat -> qmin (x i) q0 <= g i <= qmax (x i) q0) /\
    (forall i, (i < n)%nat -> i <> nth 0 LT 0%nat -> vget SADJ i = g i - x i) /\
    vget SADJ (nth 0 LT 0%nat) <= q0 /\
    forall T' g' flow', dispatch n NR LP BLP' BN4 T' g' flow' ->
      total_unserved n BN4 g + qs n e <= total_unserved n BN4 g' + qq 1 10000000 * lp_size n LP BLP' BN4 T'.
Proof.
  intros inv fuel e s BLPA LP NR STMULT LNSTAT TRNSFR TRNSFJ SYSCON CAPREQ BLP0 BB LT ZB o1 FLOW SADJ s' n BLP IO H Hn ET RFB E1 EN E BLP' BN4 LIMS WS.
  assert (LN : forall k, (k < length LP)%nat -> (k < length LNSTAT)%nat) by (intros k Hk; destruct (hn_len _ _ _ _ _ _ H); lia).
  destruct (transm_lp inv fuel e s BLPA LP NR STMULT LNSTAT TRNSFR TRNSFJ SYSCON CAPREQ BLP0 BB LT ZB o1 FLOW SADJ s' IO H Hn ET) with (2 := E1) (3 := EN) (4 := E) (5 := LIMS) (6 := WS)
    as (sched & F1 & T & g & e0 & D & W1 & X & TN & LF & FF & GG & W2 & R & SA & S0 & OPT).
  { intros k Hk P. destruct (line_rows_state BLPA STMULT LNSTAT k (LN k Hk)) as (-> & _). now apply RFB. }
  exists sched, F1, T, g, e0. split.
  { apply (dc_solution_ext n NR LP (fun k => mget (line_rows BLPA STMULT LNSTAT) k 0)); [|exact D]. intros k Hk. apply line_rows_state, LN, Hk. }
  split. { intros k Hk. specialize (W1 k Hk). destruct (line_rows_state BLPA STMULT LNSTAT k (LN k Hk)) as (_ & <- & <-). exact W1. }
  cbv zeta. split; [exact X|]. split; [exact TN|]. split; [exact LF|].
  split. { intros k Hk. destruct (line_rows_state BLPA STMULT LNSTAT k (LN k Hk)) as (<- & _). now apply FF. }
  split; [exact GG|].
  split. { intros k Hk. specialize (W2 k Hk). destruct (line_rows_state BLPA STMULT LNSTAT k (LN k Hk)) as (_ & <- & <-). exact W2. }
  repeat split; auto; apply R; auto.
Qed.
Print Assumptions C77_congested_hour_partial.

Example h_net_ok : hour_net_ok h_net h_BLPA w_LP 2 h_ones [1; 1]%Z.
Proof.
  constructor.
  - split; [reflexivity|]. intros [|[|[|j]]] H; try reflexivity; exfalso; cbn in H; lia.
  - split; [reflexivity|]. intros [|[|[|j]]] H; try reflexivity; exfalso; cbn in H; lia.
  - reflexivity.
  - intros l [<-|[<-|[]]]; cbn; lia.
  - split; reflexivity.
  - cbn. lia.
  - small; qineq.
  - small; qineq.
  - small; intros _; qneq.
  - small; split; qineq.
  - intros [|[|[|k]]] H; [| |apply conn_refl|exfalso; cbn in H; lia]; apply conn_step with (1 := conn_refl _ _).
    + exists ((0, 2)%nat, qz (-1)). split; [left; vm_compute; repeat f_equal; apply Qc_is_canon; reflexivity|split; [qneq|reflexivity]].
    + exists ((1, 2)%nat, qz (-2)). split; [right; left; vm_compute; repeat f_equal; apply Qc_is_canon; reflexivity|split; [qneq|reflexivity]].
Qed.
Definition h_base := tm1 h_inv (n_BN h_net) w_LP (map (firstn 3) h_BLPA) 2.
Definition h_first := do b <- h_base; let '(BLP0, BB, LT, ZB) := b in
  tm2 (fun _ _ _ => Err KeyError) (sched_rows (n_BN h_net) h_zero h_zero h_con h_req) w_LP (line_rows h_BLPA h_ones [1; 1]%Z) BLP0 BB ZB LT 2 true.
Definition h_lines (o1 : tm2_out) := residual_lines (line_rows h_BLPA h_ones [1; 1]%Z) (t_flow o1).
Definition h_areas (o1 : tm2_out) := residual_areas (emergency_rows (t_BN o1) h_con h_req (vtab 3 (fun i => mget (t_BN o1) i 1))) w_LP (t_flow o1).
Definition h_all : bool := match h_base with
  | Ok (BLP0, BB, LT, ZB) => match h_first with
    | Ok o1 => forallb (fun i => qleb q0 (mget (h_areas o1) i 3) && qleb q0 (mget (h_areas o1) i 4)) (seq 0 3) &&
        match connls (lp_matrix 3 2 LT w_LP (h_lines o1) BLP0 BB ZB) (mcol (h_areas o1) 2) 2 2 LT (h_lines o1) w_LP (h_areas o1) with
        | Ok d => check 60 d (linp_start (d_M d) (d_XOBI0 d) (d_IBAS d) (d_BS d)) | Err _ => false end &&
        match LT with [0; 1; 2]%nat => true | _ => false end
    | Err _ => false end
  | Err _ => false end.
Lemma h_all_true : h_all = true. Proof. vm_compute. reflexivity. Qed.
Lemma h_seen : seen (h_run (lp_nls 60 w_LP w_LT 2)) = Some (true, [Qmake (-5) 1; Qmake (-6) 1], [Qmake (-5) 1; Qmake 4 1; Qmake (-39) 1]).
Proof. vm_compute. reflexivity. Qed.
Lemma h_fails : match h_run (fun _ _ _ => Err KeyError) with Err KeyError => true | _ => false end = true. Proof. vm_compute. reflexivity. Qed.
Local Opaque tm1 tm2 transm connls linp check lp_nls lp_matrix residual_areas emergency_rows residual_lines line_rows sched_rows.
Example C77_witness : exists BLP0 BB LT ZB o1 FLOW SADJ s',
  inv_ok h_inv /\ hour_net_ok h_net h_BLPA w_LP 2 h_ones [1; 1]%Z /\
  tm1 h_inv (n_BN h_net) w_LP (map (firstn 3) h_BLPA) 2 = Ok (BLP0, BB, LT, ZB) /\
  (forall k, (k < length w_LP)%nat -> state_adm h_BLPA [1; 1]%Z k = mget h_BLPA k 0) /\
  tm2 (fun _ _ _ => Err KeyError) (sched_rows (n_BN h_net) h_zero h_zero h_con h_req) w_LP (line_rows h_BLPA h_ones [1; 1]%Z) BLP0 BB ZB LT 2 true = Ok o1 /\
  h_run (fun _ _ _ => Err KeyError) = Err KeyError /\ h_run (lp_nls 60 w_LP LT 2) = Ok (true, FLOW, SADJ, s') /\
  (forall i, (i < 3)%nat -> q0 <= mget (h_areas o1) i 3 /\ q0 <= mget (h_areas o1) i 4) /\
  (forall d, connls (lp_matrix 3 2 LT w_LP (h_lines o1) BLP0 BB ZB) (mcol (h_areas o1) 2) 2 2 LT (h_lines o1) w_LP (h_areas o1) = Ok d -> well_scaled d) /\
  nth 0 LT 0%nat = 0%nat /\ map this FLOW = [Qmake (-5) 1; Qmake (-6) 1] /\ map this SADJ = [Qmake (-5) 1; Qmake 4 1; Qmake (-39) 1].
Proof.
  pose proof h_all_true as C. unfold h_all, h_first in C. fold h_base. destruct h_base as [[[[BLP0 BB] LT] ZB]|] eqn:EB; [|discriminate C]. cbn [bind] in C.
  destruct (tm2 _ _ _ _ _ _ _ _ _ _) as [o1|] eqn:E1; [|discriminate C]. apply andb_prop in C. destruct C as (C & C3). apply andb_prop in C. destruct C as (C1 & C2).
  assert (ELT : LT = [0; 1; 2]%nat) by (destruct LT as [|[|?] [|[|[|?]] [|[|[|[|?]]] [|]]]]; try discriminate C3; reflexivity). subst LT.
  pose proof h_seen as S. fold w_LT. unfold seen in S. destruct (h_run (lp_nls 60 w_LP w_LT 2)) as [[[[J FLOW] SADJ] s']|] eqn:ER; [|discriminate S]. injection S as EJ EF ES. subst J.
  pose proof h_fails as F. exists BLP0, BB, w_LT, ZB, o1, FLOW, SADJ, s'.
  split; [apply checked_inv_ok|]. split; [exact h_net_ok|]. split; [reflexivity|]. split. { small; apply Qc_is_canon; vm_compute; reflexivity. } split; [exact E1|].
  split. { destruct (h_run (fun _ _ _ => Err KeyError)) as [|er]; [discriminate F|]. destruct er; try discriminate F. reflexivity. }
  split; [exact ER|]. split.
  { intros i Hi. rewrite forallb_forall in C1. specialize (C1 i (proj2 (in_seq _ _ _) (conj (Nat.le_0_l _) Hi))). apply andb_prop in C1. destruct C1. split; now apply qleb_iff. }
  split. { intros d ED. fold w_LT in C2. rewrite ED in C2. exact (check_well_scaled 60 d C2). }
  split; [reflexivity|]. split; assumption.
Qed.

(** The first area: area 0 is short of 10 and receives 5; its adjustment is -5, the
    record of an area with 5 to spare. *)
Theorem C77_first_area_refuted : exists FLOW SADJ s', h_run (lp_nls 60 w_LP w_LT 2) = Ok (true, FLOW, SADJ, s') /\
  vget h_con 0 - vget h_req 0 = qz (-10) /\ net_outflow w_LP (vget FLOW) 0 = qz (-5) /\ vget SADJ 0 = qz (-5).
Proof.
  pose proof h_seen as S. unfold seen in S. destruct (h_run (lp_nls 60 w_LP w_LT 2)) as [[[[J FLOW] SADJ] s']|] eqn:ER; [|discriminate S]. injection S as EJ EF ES. subst J.
  exists FLOW, SADJ, s'. split; [reflexivity|]. split; [apply Qc_is_canon; vm_compute; reflexivity|].
  destruct FLOW as [|f0 [|f1 [|]]]; try discriminate EF. injection EF as F0 F1. destruct SADJ as [|a0 r]; [discriminate ES|]. injection ES as A0 _.
  assert (f0 = qz (-5)) by (apply Qc_is_canon; rewrite F0; reflexivity). assert (a0 = qz (-5)) by (apply Qc_is_canon; rewrite A0; reflexivity). subst.
  split; [unfold net_outflow; cbn [length w_LP]; apply Qc_is_canon; vm_compute; reflexivity|reflexivity].
Qed.
Print Assumptions C77_first_area_refuted.
(** Lines at the reference area: line 1 in its second state (admittance -2 instead of -4,
    capacity 6).  Area 1 is short of 10 and receives 5/2, but is recorded as served. *)
Definition r_BLPA : list (list Qc) := [two_lines (-1) 5; [qz (-4); qz 12; qz 12; qz (-2); qz 6; qz 6]].
Definition r_run lp := transm (checked_inv [[qz (-1); q0]; [q0; qq (-1) 4]]) lp false h_net r_BLPA w_LP 2 h_ones [1; 2]%Z true h_zero h_zero h_con h_req.
Lemma r_seen : seen (r_run (lp_nls 60 w_LP w_LT 2)) = Some (true, [Qmake (-5) 1; Qmake (-5) 2], [Qmake (-5) 1; Qmake 0 1; Qmake (-85) 2]).
Proof. vm_compute. reflexivity. Qed.
Theorem C77_reference_line_refuted : exists FLOW SADJ s', r_run (lp_nls 60 w_LP w_LT 2) = Ok (true, FLOW, SADJ, s') /\
  vget h_con 1 - vget h_req 1 = qz (-10) /\ net_outflow w_LP (vget FLOW) 1 = qq (-5) 2 /\ vget SADJ 1 = q0.
Proof.
  pose proof r_seen as S. unfold seen in S. destruct (r_run (lp_nls 60 w_LP w_LT 2)) as [[[[J FLOW] SADJ] s']|] eqn:ER; [|discriminate S]. injection S as EJ EF ES. subst J.
  exists FLOW, SADJ, s'. split; [reflexivity|]. split; [apply Qc_is_canon; vm_compute; reflexivity|].
  destruct FLOW as [|f0 [|f1 [|]]]; try discriminate EF. injection EF as F0 F1. destruct SADJ as [|a0 [|a1 r]]; try discriminate ES. injection ES as _ A1 _.
  assert (f0 = qz (-5)) by (apply Qc_is_canon; rewrite F0; reflexivity). assert (f1 = qq (-5) 2) by (apply Qc_is_canon; rewrite F1; reflexivity). assert (a1 = q0) by (apply Qc_is_canon; rewrite A1; reflexivity). subst.
  split; [unfold net_outflow; cbn [length w_LP]; apply Qc_is_canon; vm_compute; reflexivity|reflexivity].
Qed.
Print Assumptions C77_reference_line_refuted.

Local Transparent tm1 tm2 transm connls linp check lp_nls lp_matrix residual_areas emergency_rows residual_lines line_rows sched_rows.

(** ** C78.  When the solver stops for a congested hour of a network in its base state at
    the reference, no more is curtailed than the tolerance over the least possible. *)
Theorem C78_least_curtailment : forall fuel n m NR LT BN LP BLP BLP0 BB ZB o,
  order_ok n NR LT -> (1 < n)%nat -> lines_in n LP -> length BLP = length LP -> length BLP0 = length LP -> shape n m BN -> (4 < m)%nat -> shape n n BB ->
  (forall a c, (a < n - 1)%nat -> (c < n - 1)%nat -> mget BB a c = reduced LT (combine LP BLP0) a c) ->
  (forall k, (k < length LP)%nat -> fst (nth k LP (0%nat, 0%nat)) = NR \/ snd (nth k LP (0%nat, 0%nat)) = NR -> mget BLP k 0 = vget BLP0 k) ->
  (forall k, (k < length LP)%nat -> q0 <= mget BLP k 1 /\ q0 <= mget BLP k 2) ->
  (forall i, (i < n)%nat -> q0 <= mget BN i 3 /\ q0 <= mget BN i 4) ->
  (forall d, connls (lp_matrix n NR LT LP BLP BLP0 BB ZB) (mcol BN 2) (n - 1) NR LT BLP LP BN = Ok d -> well_scaled d) ->
  tm2 (lp_nls fuel LP LT NR) BN LP BLP BLP0 BB ZB LT NR true = Ok o -> t_accepted o = false ->
  exists T g e, congested n NR m LT LP BLP BN (t_flow o) (t_BN o) T g e /\
    forall T' g' flow', dispatch n NR LP BLP BN T' g' flow' ->
      total_unserved n BN g + qs n e <= total_unserved n BN g' + qq 1 10000000 * lp_size n LP BLP BN T'.
Proof.
  intros fuel n m NR LT BN LP BLP BLP0 BB ZB o H1 H2 H3 H4 H5 H6 H7 H8 H9 H10 H11 H12 H13 H14 H15.
  destruct (tm2_congested fuel n m NR LT BN LP BLP BLP0 BB ZB o H1 H2 H3 H4 H5 H6 H7 H8 H9 H10 H11 H12 H13 H14 H15) as (T & g & e & A & _ & B). eauto.
Qed.
Print Assumptions C78_least_curtailment.
(** Served as far as possible means: when some dispatch serves every area, what is
    curtailed is within the tolerance. *)
Theorem C78_feasible_served : forall fuel n m NR LT BN LP BLP BLP0 BB ZB o T' g' flow',
  order_ok n NR LT -> (1 < n)%nat -> lines_in n LP -> length BLP = length LP -> length BLP0 = length LP -> shape n m BN -> (4 < m)%nat -> shape n n BB ->
  (forall a c, (a < n - 1)%nat -> (c < n - 1)%nat -> mget BB a c = reduced LT (combine LP BLP0) a c) ->
  (forall k, (k < length LP)%nat -> fst (nth k LP (0%nat, 0%nat)) = NR \/ snd (nth k LP (0%nat, 0%nat)) = NR -> mget BLP k 0 = vget BLP0 k) ->
  (forall k, (k < length LP)%nat -> q0 <= mget BLP k 1 /\ q0 <= mget BLP k 2) ->
  (forall i, (i < n)%nat -> q0 <= mget BN i 3 /\ q0 <= mget BN i 4) ->
  (forall d, connls (lp_matrix n NR LT LP BLP BLP0 BB ZB) (mcol BN 2) (n - 1) NR LT BLP LP BN = Ok d -> well_scaled d) ->
  tm2 (lp_nls fuel LP LT NR) BN LP BLP BLP0 BB ZB LT NR true = Ok o -> t_accepted o = false ->
  dispatch n NR LP BLP BN T' g' flow' -> (forall i, (i < n)%nat -> mget BN i 2 < q0 -> g' i = mget BN i 2) ->
  forall i, (i < n)%nat -> i <> nth 0 LT 0%nat -> mget BN i 2 < q0 -> mget (t_BN o) i 2 <= qq 1 10000000 * lp_size n LP BLP BN T'.
Proof.
  intros fuel n m NR LT BN LP BLP BLP0 BB ZB o T' g' flow' H1 H2 H3 H4 H5 H6 H7 H8 H9 H10 H11 H12 H13 H14 H15 D SV i Hi NE NEG.
  destruct (C78_least_curtailment fuel n m NR LT BN LP BLP BLP0 BB ZB o H1 H2 H3 H4 H5 H6 H7 H8 H9 H10 H11 H12 H13 H14 H15) as (T & g & e & CG & OPT).
  specialize (OPT T' g' flow' D).
  assert (Z : total_unserved n BN g' = q0).
  { unfold total_unserved. apply qs_zero. intros j Hj. destruct (qleb (mget BN j 2) q0) eqn:Q; [|reflexivity]. apply (proj1 (qleb_iff _ _)) in Q. unfold unserved.
    destruct (Qclt_le_dec (mget BN j 2) q0) as [L|L].
    - rewrite (SV j Hj L), (qmin_neg _ L). qring.
    - pose proof (dp_range _ _ _ _ _ _ _ _ D j Hj) as R. rewrite (qmin_pos _ L) in *. rewrite (qmax_neg _ Q) in R. qlra. }
  assert (U : forall j, (j < n)%nat -> q0 <= (if qleb (mget BN j 2) q0 then unserved BN g j else q0)).
  { intros j Hj. destruct (qleb (mget BN j 2) q0); [|apply Qcle_refl]. unfold unserved. pose proof (cg_range _ _ _ _ _ _ _ _ _ _ _ _ CG j Hj). qlra. }
  assert (TE : (if qleb (mget BN i 2) q0 then unserved BN g i else q0) <= total_unserved n BN g).
  { unfold total_unserved. rewrite <- (qs_delta n i (fun j => if qleb (mget BN j 2) q0 then unserved BN g j else q0) Hi). apply qs_le. intros j Hj.
    destruct (Nat.eqb j i); [apply Qcle_refl|apply U, Hj]. }
  assert (EP : q0 <= qs n e) by (apply qs_nonneg; intros j Hj; exact (cg_slack _ _ _ _ _ _ _ _ _ _ _ _ CG j Hj)).
  destruct (cg_stored _ _ _ _ _ _ _ _ _ _ _ _ CG i Hi NE) as (_ & ->). rewrite (proj2 (qltb_iff _ _) NEG). rewrite (proj2 (qleb_iff _ _) (Qclt_le_weak _ _ NEG)) in TE.
  rewrite Z in OPT. qlra.
Qed.
Print Assumptions C78_feasible_served.

(** Area 1 is short of 10; area 0 (behind a line of capacity 2) and area 2 have 10 each.
    Shared equally the line is overloaded; the linear program serves area 1. *)
Definition f_BN : list (list Qc) := [[qz 0; qz 40; qz 10; qz 90; qz 90]; [qz 1; qz 50; qz (-10); qz 90; qz 90]; [qz 2; qz 50; qz 10; qz 90; qz 90]].
Definition f_BLP : list (list Qc) := [[qz (-1); qz 2; qz 2]; [qz (-2); qz 20; qz 20]].
Definition f_BLP0 : list Qc := [qz (-1); qz (-2)].
Definition f_ZB : list (list Qc) := [[qz (-1); q0; q0]; [q0; qq (-1) 2; q0]; [q0; q0; q0]].
Definition f_run := tm2 (lp_nls 60 w_LP w_LT 2) f_BN w_LP f_BLP f_BLP0 w_BB f_ZB w_LT 2 true.
Definition f_data := connls (lp_matrix 3 2 w_LT w_LP f_BLP f_BLP0 w_BB f_ZB) (mcol f_BN 2) (3 - 1) 2 w_LT f_BLP w_LP f_BN.
Lemma f_check : match f_data with Ok d => check 60 d (linp_start (d_M d) (d_XOBI0 d) (d_IBAS d) (d_BS d)) | Err _ => false end = true.
Proof. vm_compute. reflexivity. Qed.
Lemma f_out : match f_run with Ok o => (t_accepted o, map this (t_flow o), map (fun r => this (nth 2 r q0)) (t_BN o)) | Err _ => (true, [], []) end = (false, [Qmake 2 1; Qmake (-10) 1], [Qmake 0 1; Qmake 0 1; Qmake 0 1]).
Proof. vm_compute. reflexivity. Qed.
Example C78_witness : order_ok 3 2 w_LT /\ lines_in 3 w_LP /\ shape 3 5 f_BN /\ shape 3 3 w_BB /\
  (forall a c, (a < 3 - 1)%nat -> (c < 3 - 1)%nat -> mget w_BB a c = reduced w_LT (combine w_LP f_BLP0) a c) /\
  (forall k, (k < length w_LP)%nat -> mget f_BLP k 0 = vget f_BLP0 k) /\
  (forall k, (k < length w_LP)%nat -> q0 <= mget f_BLP k 1 /\ q0 <= mget f_BLP k 2) /\
  (forall i, (i < 3)%nat -> q0 <= mget f_BN i 3 /\ q0 <= mget f_BN i 4) /\
  (forall d, f_data = Ok d -> well_scaled d) /\
  (exists o, f_run = Ok o /\ t_accepted o = false /\ map this (t_flow o) = [Qmake 2 1; Qmake (-10) 1]) /\
  dispatch 3 2 w_LP f_BLP f_BN (vget [q0; qz 5; q0]) (vget [q0; qz (-10); qz 10]) (vget [q0; qz (-10)]) /\
  (forall i, (i < 3)%nat -> mget f_BN i 2 < q0 -> vget [q0; qz (-10); qz 10] i = mget f_BN i 2).
Proof.
  split; [exact w_order|]. split; [exact w_lines|].
  split. { split; [reflexivity|]. intros [|[|[|j]]] H; try reflexivity; lia. }
  split. { split; [reflexivity|]. intros [|[|[|j]]] H; try reflexivity; lia. }
  split. { intros a c Ha Hc. destruct a as [|[|a]]; try lia; destruct c as [|[|c]]; try lia; apply Qc_is_canon; vm_compute; reflexivity. }
  split. { small; reflexivity. }
  split. { small; split; qineq. }
  split. { small; split; qineq. }
  split. { intros d E. pose proof f_check as C. rewrite E in C. exact (check_well_scaled 60 d C). }
  split. { pose proof f_out as O. destruct f_run as [o|]; [|discriminate O]. injection O as O1 O2 _. eauto. }
  split.
  { constructor; [reflexivity|small; qcheck|small; apply Qc_is_canon; vm_compute; reflexivity|small; split; qineq|small; split; qineq|small; split; qineq]. }
  small; intros L; try (apply Qc_is_canon; vm_compute; reflexivity); exfalso; apply (proj2 (qltb_iff _ _)) in L; discriminate L.
Qed.

(** ** C79.  Sizes: the program fits the arrays exactly for small networks; networks that
    do not fit fail with IndexError in a congested hour. *)
Theorem C79_fits_iff : forall BC INJB NX NR LT BLP LP BN,
  (4 * S NX + 2 * length BLP <= 200)%nat /\ (7 * S NX + 2 * length BLP <= 252)%nat <-> exists d, connls BC INJB NX NR LT BLP LP BN = Ok d.
Proof. exact connls_size. Qed.
Print Assumptions C79_fits_iff.
Theorem C79_too_large_refuted : forall fuel LP LT NR BB BLP BN, (29 <= length BN)%nat -> (length BN - 1 <= length BLP)%nat -> lp_nls fuel LP LT NR BB BLP BN = Err IndexError.
Proof.
  intros fuel LP LT NR BB BLP BN H1 H2. unfold lp_nls. cbv zeta. destruct (connls BB (mcol BN 2) (length BN - 1) NR LT BLP LP BN) as [d|er] eqn:E.
  - exfalso. destruct (proj2 (connls_size BB (mcol BN 2) (length BN - 1) NR LT BLP LP BN)) as (_ & C); [eauto|]. lia.
  - cbn [bind]. now rewrite (connls_err _ _ _ _ _ _ _ _ _ E).
Qed.
Print Assumptions C79_too_large_refuted.
(** When it fits, the branch fails only by not stopping. *)
Theorem C79_fits_runs : forall fuel LP LT NR BB BLP BN, order_ok (length BN) NR LT -> (0 < length BN)%nat -> lines_in (length BN) LP -> length BLP = length LP ->
  (forall k, (k < length LP)%nat -> q0 <= mget BLP k 1 /\ q0 <= mget BLP k 2) ->
  (forall i, (i < length BN)%nat -> q0 <= mget BN i 3 /\ q0 <= mget BN i 4) ->
  (4 * length BN + 2 * length LP <= 200)%nat -> (7 * length BN + 2 * length LP <= 252)%nat ->
  (forall d, connls BB (mcol BN 2) (length BN - 1) NR LT BLP LP BN = Ok d -> well_scaled d) ->
  lp_nls fuel LP LT NR BB BLP BN = Err OutOfFuel \/ exists r, lp_nls fuel LP LT NR BB BLP BN = Ok r.
Proof.
  intros fuel LP LT NR BB BLP BN OK LN LI LB C L S1 S2 WS. unfold lp_nls. cbv zeta.
  destruct (proj1 (connls_size BB (mcol BN 2) (length BN - 1) NR LT BLP LP BN)) as (d & E); [rewrite LB; lia|]. rewrite E. cbn [bind].
  destruct (C75_no_exception fuel d) as [F|(s & F)]; [|apply (WS d E)|left; now rewrite F|right; rewrite F; cbn [bind]; eauto].
  replace (length BN) with (S (length BN - 1)) in OK, LI, L by lia. exact (C73_program BB (mcol BN 2) (length BN - 1) NR LT BLP LP BN d OK LI LB C L E).
Qed.
Print Assumptions C79_fits_runs.

Example C79_witness : (4 * length w_BN + 2 * length w_LP <= 200)%nat /\ (7 * length w_BN + 2 * length w_LP <= 252)%nat /\
  (exists r, lp_nls 60 w_LP w_LT 2 w_BB w_BLP w_BN = Ok r) /\
  (let BN := repeat [q0; q0; q0; q0; q0] 29 in let BLP := repeat [qz (-1); q1; q1] 28 in (29 <= length BN)%nat /\ (length BN - 1 <= length BLP)%nat).
Proof.
  split; [cbn; lia|]. split; [cbn; lia|]. split; [|cbn; lia].
  pose proof w_stops as C. unfold lp_nls. cbv zeta. change (length w_BN - 1)%nat with 2%nat. fold w_data. destruct w_data as [d|]; [|discriminate]. cbn [bind].
  destruct (linp 60 d); [|discriminate]. cbn [bind]. eauto.
Qed.

(** ** C80.  With loss sharing (NLS = 0), an hour whose direct solution is not within the
    limits cannot be evaluated. *)
Theorem C80_loss_sharing_refuted : forall n m NR LT lp BN LP BLP BLP0 BB ZB F,
  state_ok n NR LT LP BLP BLP0 -> base_ok n LT LP BLP0 BB ZB -> shape n m BN -> (4 < m)%nat -> qsum (mcol BN 1) <> q0 ->
  (forall k, (k < length LP)%nat -> q0 <= mget BLP k 1 /\ q0 <= mget BLP k 2) ->
  (forall i, (i < n)%nat -> q0 <= mget BN i 3 /\ q0 <= mget BN i 4) ->
  (forall inj, (forall a, (a < n)%nat -> inj (nth a LT 0%nat) = vget (fst (assign (map (fun k => mget BN k 2) LT) (mcol BN 1) LT false)) a) ->
     dc_solution n NR LP (fun k => mget BLP k 0) inj F) ->
  ~ ((forall k, (k < length LP)%nat -> within (F k) (mget BLP k 1) (mget BLP k 2)) /\
     (forall i, (i < n)%nat -> within (- net_outflow LP F i) (mget BN i 3) (mget BN i 4))) ->
  tm2 lp BN LP BLP BLP0 BB ZB LT NR false = Err TypeError.
Proof.
  intros n m NR LT lp BN LP BLP BLP0 BB ZB F SO BO SBN Hm NZ C1 C2 DF NW.
  destruct (tm2 lp BN LP BLP BLP0 BB ZB LT NR false) as [o|er] eqn:E.
  - exfalso. apply NW. assert (ACC : t_accepted o = true).
    { revert E. unfold tm2. destruct (tm2_update _ _ _ _ _ _ _ _) as [BB1 ZB1]. destruct (tm2_solve _ _ _ _ _ _) as [[[INJ1 LODC] SFLOW] FLOW].
      destruct (tm2_accepts _ _ _ _); [|discriminate]. intros E. apply ok_inj in E. now subst o. }
    apply (proj2 (C31_accepted_iff_within_limits n m NR LT lp BN LP BLP BLP0 BB ZB false F SO BO SBN Hm (fun _ => NZ) C1 C2 DF)). exists o. split; [exact E|]. split; [exact ACC|].
    destruct (C31_accepted_solution n m NR LT lp BN LP BLP BLP0 BB ZB false o SO BO SBN Hm (fun _ => NZ) E ACC) as (_ & DS & A & _).
    destruct (assign (map (fun k => mget BN k 2) LT) (mcol BN 1) LT false) as [INJ1 LODC]. cbn [fst] in DF. destruct A as (A & _).
    pose proof SO as [ok LI LB LB0 NG RF CN]. intros k Hk.
    refine (dc_unique n NR LP (fun k => mget BLP k 0) (fun i => mget (t_BN o) i 1) _ _ LI _ DS (DF _ A) k Hk). intros j Hj. apply (NG j Hj).
  - revert E. unfold tm2. destruct (tm2_update _ _ _ _ _ _ _ _) as [BB1 ZB1]. destruct (tm2_solve _ _ _ _ _ _) as [[[INJ1 LODC] SFLOW] FLOW].
    destruct (tm2_accepts _ _ _ _); [discriminate|]. intros E. injection E as <-. reflexivity.
Qed.
Print Assumptions C80_loss_sharing_refuted.

Definition l_BN : list (list Qc) := [[qz 0; qz 5; qz 30; qz 100; qz 100]; [qz 1; qz 5; qz (-10); qz 100; qz 100]; [qz 2; qz 5; qz (-20); qz 100; qz 100]].
(** The flows are 20, 10, 0, -10; the capacity is 19. *)
Example C80_witness : state_ok 3 1 [0; 2; 1]%nat demo_lines (demo_state 19) demo_BLP0 /\ base_ok 3 [0; 2; 1]%nat demo_lines demo_BLP0 demo_BB demo_ZB /\ shape 3 5 l_BN /\
  qsum (mcol l_BN 1) <> q0 /\ (forall k, (k < length demo_lines)%nat -> q0 <= mget (demo_state 19) k 1 /\ q0 <= mget (demo_state 19) k 2) /\
  (forall i, (i < 3)%nat -> q0 <= mget l_BN i 3 /\ q0 <= mget l_BN i 4) /\
  (let F := vget [qz 20; qz 10; q0; qz (-10)] in
   (forall inj, (forall a, (a < 3)%nat -> inj (nth a [0; 2; 1]%nat 0%nat) = vget (fst (assign (map (fun k => mget l_BN k 2) [0; 2; 1]%nat) (mcol l_BN 1) [0; 2; 1]%nat false)) a) ->
     dc_solution 3 1 demo_lines (fun k => mget (demo_state 19) k 0) inj F) /\
   ~ within (F 0%nat) (mget (demo_state 19) 0 1) (mget (demo_state 19) 0 2)) /\
  tm2 no_lp l_BN demo_lines (demo_state 19) demo_BLP0 demo_BB demo_ZB [0; 2; 1]%nat 1 false = Err TypeError.
Proof.
  split; [apply demo_state_ok|]. split; [exact demo_base_ok|]. split. { split; [reflexivity|]. intros [|[|[|j]]] H; try reflexivity; lia. }
  split; [qneq|]. split. { small; split; qineq. } split. { small; split; qineq. } split; [|vm_compute; reflexivity]. cbv zeta. split.
  - intros inj HI. exists (vget [qz (-10); q0; qz 10]). split; [reflexivity|]. split; [small; qcheck|].
    pose proof (HI 0%nat ltac:(lia)) as H0. pose proof (HI 1%nat ltac:(lia)) as H1. pose proof (HI 2%nat ltac:(lia)) as H2. cbn [nth] in H0, H1, H2.
    small; [rewrite H0|rewrite H2|rewrite H1]; apply Qc_is_canon; vm_compute; reflexivity.
  - intros (_ & W). apply (proj2 (qleb_iff _ _)) in W. vm_compute in W. discriminate W.
Qed.

(** ** C81.  With the solver's trace switched on (IOI), a congested hour always fails: with an
    IndexError when there are units and every one of them is out or derated, with a TypeError
    otherwise. *)
Theorem C81_trace_fails_refuted : forall fuel PLNDST PCTAVL LP LT NR BB BLP BN,
  (exists r, lp_branch fuel false PLNDST PCTAVL LP LT NR BB BLP BN = Ok r) ->
  let available i := (i < length PLNDST)%nat /\ vget PLNDST i = q1 /\ vget PCTAVL i = q1 in
  ((exists i, available i) \/ PLNDST = [] -> lp_branch fuel true PLNDST PCTAVL LP LT NR BB BLP BN = Err TypeError) /\
  ((forall i, ~ available i) /\ PLNDST <> [] -> lp_branch fuel true PLNDST PCTAVL LP LT NR BB BLP BN = Err IndexError).
Proof.
  intros fuel PLNDST PCTAVL LP LT NR BB BLP BN (r & E) available. unfold lp_branch in *. destruct (lp_nls fuel LP LT NR BB BLP BN); cbn [bind] in *; [|discriminate].
  unfold print_error. cbv zeta. split.
  - intros [(i & L & A & B)| ->]; [|reflexivity].
    destruct (forallb _ (seq 0 (length PLNDST))) eqn:F; [exfalso|now rewrite andb_false_r].
    rewrite forallb_forall in F. specialize (F i ltac:(apply in_seq; lia)). rewrite A, B in F. vm_compute in F. discriminate.
  - intros (N & NE). replace (0 <? length PLNDST)%nat with true by (symmetry; apply Nat.ltb_lt; destruct PLNDST; [congruence|cbn; lia]).
    replace (forallb _ (seq 0 (length PLNDST))) with true; [reflexivity|]. symmetry. apply forallb_forall. intros i I. apply in_seq in I.
    destruct (qeqb (vget PLNDST i) q1) eqn:A; [|reflexivity]. destruct (qeqb (vget PCTAVL i) q1) eqn:B; [|reflexivity].
    qc_bool. exfalso. apply (N i). split; [lia|auto].
Qed.
Print Assumptions C81_trace_fails_refuted.
Example C81_witness : exists r, lp_branch 60 false [q1] [q1] w_LP w_LT 2 w_BB w_BLP w_BN = Ok r.
Proof. destruct C79_witness as (_ & _ & (r & E) & _). unfold lp_branch. rewrite E. cbn [bind]. eauto. Qed.
