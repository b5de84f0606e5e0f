(** C100: the linear program of the loss-sharing mode.  (Specification: LpShareSpec.) *)
From Verif Require Import Base BaseProofs Sums LoadModel LoadSpec NetModel NetSpec MatProofs TransmProofs PropertiesNet
  LpModel LpSpec LpProofs LpRun LpNet LpResult LpBranch LpShareModel LpShareSpec LpShare.
Open Scope Qc_scope.

(** What the arguments of [conls] have to satisfy: the order of the areas ends with the
    reference, lines join different areas, BC is the reduced susceptance matrix, INJ lists
    the surplus of the areas in the order LT, capacities, limits, loads and the capacity
    (load and surplus) of no area are negative. *)
Definition share_input (BC : list (list Qc)) (INJ : list Qc) (NX NR : nat) (LT : list nat) (BLP : list (list Qc)) (LP : list (nat * nat)) (BN : list (list Qc)) (LOD : list Qc) (surplus : nat -> Qc) : Prop :=
  order_ok (S NX) NR LT /\ lines_in (S NX) LP /\ length BLP = length LP /\ (0 < NX)%nat /\
  (forall a c, (a < NX)%nat -> (c < NX)%nat -> mget BC a c = reduced LT (wlines LP BLP) a c) /\
  (forall k, (k < length LP)%nat -> q0 <= mget BLP k 1 /\ q0 <= mget BLP k 2) /\
  (forall i, (i < S NX)%nat -> q0 <= mget BN i 3 /\ q0 <= mget BN i 4) /\
  (forall p, (p < S NX)%nat -> vget INJ p = surplus (nth p LT 0%nat)) /\
  (forall i, (i < S NX)%nat -> q0 <= vget LOD i /\ q0 <= vget LOD i + surplus i).

(** ** C100.  The program is of the form the solver expects. *)
Theorem C100_program : forall BC INJ NX NR LT BLP LP BN LOD surplus d, share_input BC INJ NX NR LT BLP LP BN LOD surplus -> conls BC INJ NX NR LT BLP LP BN LOD = Ok d -> lp_ok d.
Proof. intros BC INJ NX NR LT BLP LP BN LOD sp d (H1 & H2 & H3 & H4 & H5 & H6 & H7 & H8 & H9) E. rewrite <- H3 in H6. eapply conls_ok; eassumption. Qed.
Print Assumptions C100_program.
(** Its solutions are the dispatches of the areas, and what it minimizes is the load that
    is curtailed: column 3 of BN bounds the exports, column 4 the imports. *)
Theorem C100_feasible_is_dispatch : forall BC INJ NX NR LT BLP LP BN LOD surplus d y, share_input BC INJ NX NR LT BLP LP BN LOD surplus -> conls BC INJ NX NR LT BLP LP BN LOD = Ok d -> feasible d y ->
  exists T c g flow, sharing (S NX) NR LP BLP (fun i => mget BN i 3) (fun i => mget BN i 4) (vget LOD) surplus T c g flow /\
    qs (d_N1 d) (fun k => cost2 d k * y k) = qs (S NX) c.
Proof. intros BC INJ NX NR LT BLP LP BN LOD sp d y (H1 & H2 & H3 & H4 & H5 & H6 & H7 & H8 & H9) E F. rewrite <- H3 in H6. eapply share_feasible; eassumption. Qed.
Print Assumptions C100_feasible_is_dispatch.
Theorem C100_dispatch_is_feasible : forall BC INJ NX NR LT BLP LP BN LOD surplus d T c g flow, share_input BC INJ NX NR LT BLP LP BN LOD surplus -> conls BC INJ NX NR LT BLP LP BN LOD = Ok d ->
  sharing (S NX) NR LP BLP (fun i => mget BN i 3) (fun i => mget BN i 4) (vget LOD) surplus T c g flow ->
  exists y, feasible d y /\ qs (d_N1 d) (fun k => cost2 d k * y k) = qs (S NX) c.
Proof.
  intros BC INJ NX NR LT BLP LP BN LOD sp d T c g flow (H1 & H2 & H3 & H4 & H5 & H6 & H7 & H8 & H9) E F. rewrite <- H3 in H6.
  destruct (share_point BC INJ NX NR LT BLP LP BN LOD sp H1 H2 H3 H4 H5 H6 H7 H8 H9 d E T c g flow F) as (y & Y1 & Y2 & _). eauto.
Qed.
Print Assumptions C100_dispatch_is_feasible.
(** When the solver stops, no more is curtailed than the tolerance over the least possible. *)
Theorem C100_least_curtailment : forall BC INJ NX NR LT BLP LP BN LOD surplus d fuel s, share_input BC INJ NX NR LT BLP LP BN LOD surplus -> conls BC INJ NX NR LT BLP LP BN LOD = Ok d ->
  well_scaled d -> linp fuel d = Ok s ->
  exists T c g flow e, nearly_sharing (S NX) NR LP BLP (fun i => mget BN i 3) (fun i => mget BN i 4) (vget LOD) surplus T c g flow e /\
    forall T' c' g' flow', sharing (S NX) NR LP BLP (fun i => mget BN i 3) (fun i => mget BN i 4) (vget LOD) surplus T' c' g' flow' ->
      qs (S NX) c + qs (S NX) e <= qs (S NX) c' + qq 1 10000000 * share_size (S NX) LP BLP (fun i => mget BN i 3) (fun i => mget BN i 4) (vget LOD) surplus T'.
Proof. intros BC INJ NX NR LT BLP LP BN LOD sp d fuel s (H1 & H2 & H3 & H4 & H5 & H6 & H7 & H8 & H9) E WS ES. rewrite <- H3 in H6. eapply share_least; eassumption. Qed.
Print Assumptions C100_least_curtailment.
(** It fits in the arrays when there are at most 200 rows and 250 columns. *)
Theorem C100_fits_iff : forall BC INJ NX NR LT BLP LP BN LOD,
  (exists d, conls BC INJ NX NR LT BLP LP BN LOD = Ok d) <-> (5 * S NX + 2 * length BLP <= 200)%nat /\ (9 * NX + 2 * length BLP <= 243)%nat.
Proof.
  intros. unfold conls. set (a := (200 <? _)%nat). set (b := (250 <? _)%nat).
  assert (A : a = true <-> (200 < 5 * S NX + 2 * length BLP)%nat) by (unfold a; rewrite Nat.ltb_lt; lia).
  assert (B : b = true <-> (243 < 9 * NX + 2 * length BLP)%nat) by (unfold b; rewrite Nat.ltb_lt; lia). clearbody a b.
  destruct a, b; cbn [orb]; (split; [intros (d & E)|intros (X & Y)]); try discriminate E;
    try (assert (200 < 5 * S NX + 2 * length BLP)%nat by (apply A; reflexivity); lia); try (assert (243 < 9 * NX + 2 * length BLP)%nat by (apply B; reflexivity); lia); [|eauto].
  split; [destruct (le_lt_dec (5 * S NX + 2 * length BLP) 200)|destruct (le_lt_dec (9 * NX + 2 * length BLP) 243)]; try assumption; [apply A in l|apply B in l]; discriminate.
Qed.
Print Assumptions C100_fits_iff.

(** *** Examples.  Area 0 has a load of 10 and nothing to serve it, area 1 (the reference)
    has a load of 5 and 25 to serve it; the line carries [cap].  Area 0 may take [imp0]. *)
Definition e_LP : list (nat * nat) := [(0, 1)]%nat.
Definition e_LT : list nat := [0; 1]%nat.
Definition e_BLP (cap : Z) : list (list Qc) := [[qz (-1); qz cap; qz cap]].
Definition e_LOD : list Qc := [qz 10; qz 5].
Definition e_sur (i : nat) : Qc := match i with O => qz (-10) | _ => qz 20 end.
Definition e_INJ : list Qc := [qz (-10); qz 20].
Definition e_BC : list (list Qc) := [[qz (-1)]].
Definition e_BN (c03 c04 c13 c14 : Z) : list (list Qc) := [[q0; qz 10; qz (-10); qz c03; qz c04]; [q1; qz 5; qz 20; qz c13; qz c14]].
Definition e_data (cap c03 c04 c13 c14 : Z) : res lpdata := conls e_BC e_INJ 1 1 e_LT (e_BLP cap) e_LP (e_BN c03 c04 c13 c14) e_LOD.
Lemma e_input cap c03 c04 c13 c14 : (0 <= cap)%Z -> (0 <= c03)%Z -> (0 <= c04)%Z -> (0 <= c13)%Z -> (0 <= c14)%Z ->
  share_input e_BC e_INJ 1 1 e_LT (e_BLP cap) e_LP (e_BN c03 c04 c13 c14) e_LOD e_sur.
Proof.
  intros. assert (P : forall z, (0 <= z)%Z -> q0 <= qz z) by (intros z Hz; unfold q0; now apply qz_le).
  split; [|split; [|split; [|split; [|split; [|split; [|split; [|split]]]]]]].
  - split; [reflexivity|]. split. { repeat constructor; cbn; intuition congruence. } split. { intros a [<-|[<-|[]]]; lia. } split; [lia|reflexivity].
  - intros l [<-|[]]; cbn; lia.
  - reflexivity.
  - lia.
  - intros [|a] [|c] Ha Hc; try lia. apply Qc_is_canon. vm_compute. reflexivity.
  - intros [|k] Hk; cbn in Hk; [|lia]. split; cbn [mget e_BLP vget nth]; now apply P.
  - intros [|[|i]] Hi; try lia; (split; now apply P).
  - intros [|[|p]] Hp; try lia; reflexivity.
  - intros [|[|i]] Hi; try lia; (split; apply qleb_iff; reflexivity).
Qed.
Lemma e_check : match e_data 6 90 90 90 90 with Ok d => check 60 d (linp_start (d_M d) (d_XOBI0 d) (d_IBAS d) (d_BS d)) &&
  match linp 60 d with Ok s => qeqb (qs (d_N d) (fun k => cost2 d k * basic_value (d_M d) s k)) (qz 4) | Err _ => false end | Err _ => false end = true.
Proof. vm_compute. reflexivity. Qed.
(** The line brings 6 of the 10; 4 are curtailed. *)
Example C100_witness : exists d s, share_input e_BC e_INJ 1 1 e_LT (e_BLP 6) e_LP (e_BN 90 90 90 90) e_LOD e_sur /\ e_data 6 90 90 90 90 = Ok d /\ well_scaled d /\ linp 60 d = Ok s /\
  qs (d_N d) (fun k => cost2 d k * basic_value (d_M d) s k) = qz 4.
Proof.
  pose proof e_check as C. destruct (proj2 (C100_fits_iff e_BC e_INJ 1 1 e_LT (e_BLP 6) e_LP (e_BN 90 90 90 90) e_LOD)) as (d & E); [cbn; lia|].
  change (e_data 6 90 90 90 90 = Ok d) in E. rewrite E in C. apply andb_prop in C. destruct C as (C1 & C2). destruct (linp 60 d) as [s|] eqn:ES; [|discriminate]. apply qeqb_iff in C2.
  exists d, s. split; [apply e_input; lia|]. split; [exact E|]. split; [exact (check_well_scaled 60 d C1)|]. split; [exact ES|exact C2].
Qed.
(** A dispatch of the same example. *)
Example C100_dispatch_witness : sharing 2 1 e_LP (e_BLP 6) (fun i => mget (e_BN 90 90 90 90) i 3) (fun i => mget (e_BN 90 90 90 90) i 4) (vget e_LOD) e_sur
  (fun i => match i with O => qz 6 | _ => q0 end) (fun i => match i with O => qz 4 | _ => q0 end) (fun i => match i with O => q0 | _ => qz 11 end) (fun _ => qz (-6)).
Proof.
  constructor.
  - reflexivity.
  - intros [|k] Hk; [|cbn in Hk; lia]. qcheck.
  - intros [|[|i]] Hi; try lia; apply Qc_is_canon; vm_compute; reflexivity.
  - intros [|k] Hk; [|cbn in Hk; lia]. split; apply qleb_iff; vm_compute; reflexivity.
  - intros [|[|i]] Hi; try lia; split; apply qleb_iff; vm_compute; reflexivity.
  - intros [|[|i]] Hi; try lia; split; apply qleb_iff; vm_compute; reflexivity.
  - intros [|[|i]] Hi; try lia; split; apply qleb_iff; vm_compute; reflexivity.
Qed.

(** In the program without loss sharing column 3 of BN bounds the imports and column 4 the
    exports of an area ([dp_areas] of LpSpec).  Here the two are exchanged: with area 0
    free to take 10 and area 1 free to give 10 all could be served, but the program
    curtails the whole load of area 0. *)
Theorem C100_limits_exchanged_refuted : exists BC INJ NX NR LT BLP LP BN LOD surplus d, share_input BC INJ NX NR LT BLP LP BN LOD surplus /\ conls BC INJ NX NR LT BLP LP BN LOD = Ok d /\
  (exists T g flow, sharing (S NX) NR LP BLP (fun i => mget BN i 4) (fun i => mget BN i 3) (vget LOD) surplus T (fun _ => q0) g flow) /\
  forall y, feasible d y -> qz 10 <= qs (d_N1 d) (fun k => cost2 d k * y k).
Proof.
  destruct (proj2 (C100_fits_iff e_BC e_INJ 1 1 e_LT (e_BLP 20) e_LP (e_BN 10 0 0 10) e_LOD)) as (d & E); [cbn; lia|].
  exists e_BC, e_INJ, 1%nat, 1%nat, e_LT, (e_BLP 20), e_LP, (e_BN 10 0 0 10), e_LOD, e_sur, d.
  assert (IN : share_input e_BC e_INJ 1 1 e_LT (e_BLP 20) e_LP (e_BN 10 0 0 10) e_LOD e_sur) by (apply e_input; lia).
  split; [exact IN|]. split; [exact E|]. split.
  - exists (fun i => match i with O => qz 10 | _ => q0 end), (fun i => match i with O => q0 | _ => qz 15 end), (fun _ => qz (-10)). constructor.
    + reflexivity.
    + intros [|k] Hk; [|cbn in Hk; lia]. qcheck.
    + intros [|[|i]] Hi; try lia; apply Qc_is_canon; vm_compute; reflexivity.
    + intros [|k] Hk; [|cbn in Hk; lia]. split; apply qleb_iff; vm_compute; reflexivity.
    + intros [|[|i]] Hi; try lia; split; apply qleb_iff; vm_compute; reflexivity.
    + intros [|[|i]] Hi; try lia; split; apply qleb_iff; vm_compute; reflexivity.
    + intros [|[|i]] Hi; try lia; split; apply qleb_iff; vm_compute; reflexivity.
  - intros y Y. destruct (C100_feasible_is_dispatch _ _ _ _ _ _ _ _ _ _ _ y IN E Y) as (T & c & g & F & D & ->).
    pose proof (sh_balance _ _ _ _ _ _ _ _ _ _ _ _ D 0%nat ltac:(lia)) as B. destruct (sh_areas _ _ _ _ _ _ _ _ _ _ _ _ D 0%nat ltac:(lia)) as (A & _).
    destruct (sh_gen _ _ _ _ _ _ _ _ _ _ _ _ D 0%nat ltac:(lia)) as (_ & G). destruct (sh_curt _ _ _ _ _ _ _ _ _ _ _ _ D 1%nat ltac:(lia)) as (C1 & _). rewrite B in A.
    change (vget e_LOD 0) with (qz 10) in *. change (e_sur 0) with (qz (-10)) in G. change (mget (e_BN 10 0 0 10) 0 4) with q0 in A.
    assert (Z : qz 10 + qz (-10) = q0) by (apply Qc_is_canon; reflexivity). rewrite Z in G. rewrite !qs_S. unfold qs at 1. cbn [seq map qsum fold_right]. qlra.
Qed.
Print Assumptions C100_limits_exchanged_refuted.
(** When the capacity of an area (load and surplus) is negative, as it can be with more
    firm sales than capacity, the row is negated and the basis the solver starts from is
    not the unit matrix it takes it for. *)
Theorem C100_negative_capacity_refuted : exists BC INJ NX NR LT BLP LP BN LOD d i, conls BC INJ NX NR LT BLP LP BN LOD = Ok d /\ ~ lp_ok d /\
  (i < d_M d)%nat /\ d_A d i (nth i (d_IBAS d) 0%nat) = - q1.
Proof.
  destruct (proj2 (C100_fits_iff e_BC [qz (-11); qz 20] 1 1 e_LT (e_BLP 20) e_LP (e_BN 10 10 10 10) e_LOD)) as (d & E); [cbn; lia|].
  exists e_BC, [qz (-11); qz 20], 1%nat, 1%nat, e_LT, (e_BLP 20), e_LP, (e_BN 10 10 10 10), e_LOD, d, 2%nat. split; [exact E|].
  assert (C : match conls e_BC [qz (-11); qz 20] 1 1 e_LT (e_BLP 20) e_LP (e_BN 10 10 10 10) e_LOD with Ok d => (2 <? d_M d)%nat && qeqb (d_A d 2%nat (nth 2 (d_IBAS d) 0%nat)) (- q1) | Err _ => false end = true) by (vm_compute; reflexivity).
  rewrite E in C. apply andb_prop in C. destruct C as (C1 & C2). apply Nat.ltb_lt in C1. apply qeqb_iff in C2. split; [|split; assumption].
  intros L. pose proof (lo_unit d L 2%nat 2%nat C1 C1) as U. rewrite C2 in U. cbn [Nat.eqb] in U. revert U. qneq.
Qed.
Print Assumptions C100_negative_capacity_refuted.
