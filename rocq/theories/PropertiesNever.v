(** C75 for the networks the program builds: an hour whose linear program never ends. *)
From Verif Require Import Base BaseProofs Sums LoadModel LoadSpec EventModel ControlModel ControlSpec SampleModel NetModel NetSpec MatProofs TransmProofs LpModel LpSpec
  StatModel HourModel HourSpec YearModel YearSpec ReportModel ProgramModel ProgramSpec LpEndless LpOrbit LpNever DataProofs LinpackModel PropertiesLinpack PropertiesNet CauseSpec.
Open Scope Z_scope.

(** *** The network: five areas, seven lines; every line has six states, all like the
    first: admittance (quarters), forward and backward capacity in MW. *)
Definition v_LP : list (nat * nat) := [(0, 1); (2, 4); (3, 2); (0, 3); (1, 2); (4, 1); (3, 4)]%nat.
Definition v_line (b f r : Z) : list Qc := concat (repeat [qq b 4; qz f; qz r] 6).
Definition v_BLPA : list (list Qc) :=
  [v_line (-1) 49 9; v_line (-5) 14 79; v_line (-3) 18 26; v_line (-5) 20 63; v_line (-2) 38 4; v_line (-1) 66 16; v_line (-6) 48 48].
(** the limits of the areas' exchange *)
Definition v_BN : list (list Qc) := map (map qz) [[0; 0; 0; 1600; 1600]; [1; 0; 0; 64; 64]; [2; 0; 0; 1600; 1600]; [3; 0; 0; 1600; 1600]; [4; 0; 0; 48; 48]].
(** scheduled exports, available capacity and load of an hour *)
Definition v_tran : list Qc := map qz [11; 63; -71; 16; -19].
Definition v_con : list Qc := map qz [127; 195; 29; 164; 65].
Definition v_req : list Qc := map qz [100; 100; 100; 100; 100].
Definition v_LT : list nat := [1; 2; 3; 4; 0]%nat.
Definition v_net : netst := mkNet v_BN (vzeros 7) (mzeros 5 5) (repeat 0%nat 5) (mzeros 5 5).
Definition v_one : list (list Qc) := repeat [q1; q1] 7.
Definition v_first : list Z := repeat 1 7.

(** *** What the emergency transfers are computed from *)
Definition v_M : list (list Qc) := map (map (fun x => qq x 4)) [[-4; 2; 0; 1]; [2; -10; 3; 5]; [0; 3; -14; 6]; [1; 5; 6; -12]].
Definition v_Z : list (list Qc) := map (map (fun x => qq x 1717))
  [[-2728; -1408; -828; -1228]; [-1408; -2056; -1092; -1520]; [-828; -1092; -1208; -1128]; [-1228; -1520; -1128; -1872]].
Definition e_BB : list (list Qc) := map (map (fun x => qq x 4)) [[-4; 2; 0; 1; 0]; [2; -10; 3; 5; 0]; [0; 3; -14; 6; 0]; [1; 5; 6; -12; 0]; [0; 0; 0; 0; 0]].
Definition e_BLP : list (list Qc) :=
  [[qq (-1) 4; qz 58; qz 0]; [qq (-5) 4; qz 29; qz 64]; [qq (-3) 4; qz 0; qz 44]; [qq (-5) 4; qz 0; qz 83]; [qq (-2) 4; qz 0; qz 42]; [qq (-1) 4; qz 82; qz 0]; [qq (-6) 4; qz 30; qz 66]].
Definition e_BN : list (list Qc) := map (map qz) [[0; 100; 16; 1620; 1580]; [1; 100; 32; 86; 42]; [2; 100; 0; 1623; 1577]; [3; 100; 48; 1638; 1562]; [4; 100; -16; 50; 46]].
Definition e_data : res lpdata := connls e_BB (mcol e_BN 2) 4 0 v_LT e_BLP v_LP e_BN.
Lemma e_orbit : match e_data with Ok d => orbit 6 6 d | Err _ => false end = true.
Proof. vm_compute. reflexivity. Qed.
Lemma e_endless k : lp_nls k v_LP v_LT 0 e_BB e_BLP e_BN = Err OutOfFuel.
Proof.
  unfold lp_nls. cbv zeta. change (length e_BN - 1)%nat with 4%nat. fold e_data. pose proof e_orbit as C. destruct e_data as [d|]; [|discriminate C]. cbn [bind].
  rewrite (orbit_endless d 6 6 ltac:(lia) C k). reflexivity.
Qed.
Definition m_lp : list (list Qc) -> list (list Qc) -> list (list Qc) -> res (list Qc * list (list Qc)) :=
  fun BB BLP BN => if qsames BB e_BB && qsames BLP e_BLP && qsames BN e_BN then Err OutOfFuel else Err TypeError.
Definition m_inv (M : list (list Qc)) : option (list (list Qc)) := if qsames M v_M then Some v_Z else None.
Lemma m_lp_rel k BB BLP BN : rel (m_lp BB BLP BN) (lp_nls k v_LP v_LT 0 BB BLP BN).
Proof.
  unfold m_lp. destruct (qsames BB e_BB) eqn:E1; cbn [andb]; [|left; now left]. destruct (qsames BLP e_BLP) eqn:E2; cbn [andb]; [|left; now left].
  destruct (qsames BN e_BN) eqn:E3; [|left; now left]. apply qsames_eq in E1, E2, E3. subst. rewrite e_endless. apply rel_refl.
Qed.
Definition inverseb (n : nat) (A Z : nat -> nat -> Qc) : bool :=
  forallb (fun i => forallb (fun j => qeqb (qs n (fun k => Qcmult (A i k) (Z k j))) (if Nat.eqb i j then q1 else q0)) (seq 0 n)) (seq 0 n).
Lemma inverseb_sound n A Z : inverseb n A Z = true -> is_inverse n A Z.
Proof.
  unfold inverseb. intros H i j Hi Hj. rewrite forallb_forall in H. specialize (H i (proj2 (in_seq _ _ _) (conj (Nat.le_0_l _) Hi))).
  rewrite forallb_forall in H. specialize (H j (proj2 (in_seq _ _ _) (conj (Nat.le_0_l _) Hj))). now apply qeqb_iff.
Qed.
Lemma v_left : is_inverse 4 (mget v_Z) (mget v_M). Proof. apply inverseb_sound. vm_compute. reflexivity. Qed.
Lemma v_right : is_inverse 4 (mget v_M) (mget v_Z). Proof. apply inverseb_sound. vm_compute. reflexivity. Qed.
Lemma v_shape : shape 4 4 v_M. Proof. split; [reflexivity|]. intros [|[|[|[|j]]]] H; try reflexivity; exfalso; cbn in H; lia. Qed.
Lemma v_shapeZ : shape 4 4 v_Z. Proof. split; [reflexivity|]. intros [|[|[|[|j]]]] H; try reflexivity; exfalso; cbn in H; lia. Qed.
Lemma v_inverse inv : inverts inv -> inv v_M = Some v_Z.
Proof.
  intros (OK & TOT). destruct (inv v_M) as [Z|] eqn:E; [|exfalso; exact (TOT 4%nat v_M v_Z v_shape v_left v_right E)].
  destruct (OK 4%nat v_M Z v_shape E) as ((L1 & R1) & I). destruct v_shapeZ as (L2 & R2). f_equal. apply (nth_ext _ _ [] []); [congruence|].
  intros i Hi. rewrite L1 in Hi. apply list_vget_ext; [rewrite R1, R2; auto|]. intros j Hj. rewrite R1 in Hj by exact Hi.
  symmetry. exact (inverse_unique 4 (mget v_Z) (mget Z) (mget v_M) v_left I i j Hi Hj).
Qed.
Lemma m_inv_rel inv : inverts inv -> forall M, m_inv M = None \/ m_inv M = inv M.
Proof. intros H M. unfold m_inv. destruct (qsames M v_M) eqn:E; [|now left]. apply qsames_eq in E. subst. right. symmetry. now apply v_inverse. Qed.

(** ** C75 (refuted for the program's own networks).  A connected network whose line
    capacities and area limits are all positive; scheduled transfers that balance and that
    the lines can carry; areas 2 and 4 are short before, area 4 after the scheduled
    transfers.  The second call of the network computation goes on for ever: whatever
    number of passes the solver is given, it has not finished. *)
Definition v_call inv lp := transm inv lp false v_net v_BLPA v_LP 0 v_one v_first true v_tran (vzeros 5) v_con v_req.
Lemma v_marked : match v_call m_inv m_lp with Err OutOfFuel => true | _ => false end = true.
Proof. vm_compute. reflexivity. Qed.
Theorem C75_network_refuted :
  hour_net_ok v_net v_BLPA v_LP 0 v_one v_first /\ order_ok 5 0 v_LT /\
  (forall k, (k < 7)%nat -> q0 < state_fwd v_BLPA v_one v_first k /\ q0 < state_bwd v_BLPA v_one v_first k)%Qc /\
  (forall i, (i < 5)%nat -> q0 < mget v_BN i 3 /\ mget v_BN i 4 = mget v_BN i 3)%Qc /\
  qsum v_tran = q0 /\
  forall inv, inverts inv -> forall passes,
    transm inv (lp_nls passes v_LP v_LT 0) false v_net v_BLPA v_LP 0 v_one v_first true v_tran (vzeros 5) v_con v_req = Err OutOfFuel.
Proof.
  split; [|split; [|split; [|split; [|split]]]].
  - constructor; cbn [v_net n_BN]; change (length v_BN) with 5%nat; change (length v_LP) with 7%nat.
    + split; [reflexivity|]. intros [|[|[|[|[|j]]]]] H; try reflexivity; exfalso; cbn in H; lia.
    + split; [reflexivity|]. intros [|[|[|[|[|j]]]]] H; try reflexivity; exfalso; cbn in H; lia.
    + reflexivity.
    + intros l H. repeat (destruct H as [<-|H]; [cbn; lia|]). destruct H.
    + split; reflexivity.
    + lia.
    + intros k H. do 7 (destruct k as [|k]; [qineq|]). lia.
    + intros k H. do 7 (destruct k as [|k]; [qineq|]). lia.
    + intros k H _. do 7 (destruct k as [|k]; [qneq|]). lia.
    + intros k H. do 7 (destruct k as [|k]; [split; qineq|]). lia.
    + assert (ST : forall k i a b, (k < 7)%nat -> joins (nth k (wlines v_LP (line_rows v_BLPA v_one v_first)) ((0%nat, 0%nat), q0)) a b = true ->
        connected (wlines v_LP (line_rows v_BLPA v_one v_first)) i a -> connected (wlines v_LP (line_rows v_BLPA v_one v_first)) i b).
      { intros k i a b Hk J C. apply conn_step with (1 := C). exists (nth k (wlines v_LP (line_rows v_BLPA v_one v_first)) ((0%nat, 0%nat), q0)).
        split; [apply nth_In; exact Hk|]. split; [|exact J]. clear J C. do 7 (destruct k as [|k]; [qneq|]). lia. }
      intros i Hi. destruct i as [|[|[|[|[|i]]]]]; [apply conn_refl| | | | |lia].
      * apply (ST 0%nat _ 1%nat); [lia|reflexivity|apply conn_refl].
      * apply (ST 0%nat _ 1%nat); [lia|reflexivity|]. apply (ST 4%nat _ 2%nat); [lia|reflexivity|apply conn_refl].
      * apply (ST 3%nat _ 3%nat); [lia|reflexivity|apply conn_refl].
      * apply (ST 0%nat _ 1%nat); [lia|reflexivity|]. apply (ST 5%nat _ 4%nat); [lia|reflexivity|apply conn_refl].
  - split; [reflexivity|]. split; [|split; [|split; [lia|reflexivity]]].
    + unfold v_LT. repeat constructor; cbn; intuition congruence.
    + intros a H. repeat (destruct H as [<-|H]; [lia|]). destruct H.
  - intros k H. do 7 (destruct k as [|k]; [split; qineq|]). lia.
  - intros i H. do 5 (destruct i as [|i]; [split; [qineq|apply Qc_is_canon; vm_compute; reflexivity]|]). lia.
  - apply Qc_is_canon. vm_compute. reflexivity.
  - intros inv IV passes.
    destruct (transm_rel m_inv inv m_lp (lp_nls passes v_LP v_LT 0) (m_inv_rel inv IV) (m_lp_rel passes) false v_net v_BLPA v_LP 0 v_one v_first true v_tran (vzeros 5) v_con v_req) as [[U|U]|<-].
    + exfalso. pose proof v_marked as C. unfold v_call in C. rewrite U in C. discriminate C.
    + exfalso. pose proof v_marked as C. unfold v_call in C. rewrite U in C. discriminate C.
    + pose proof v_marked as C. unfold v_call in C. destruct (transm m_inv _ _ _ _ _ _ _ _ _ _ _ _ _) as [|[]]; try discriminate C. reflexivity.
Qed.
Print Assumptions C75_network_refuted.

(** *** The same hour in a simulation: five units, one in each area, always available;
    constant loads of 100 MW; four contracts (8 MW from area 0 to 2, 3 from 0 to 4, 63 from
    1 to 2, 16 from 3 to 4); hourly steps; one forecast level; one year. *)
Definition v_input : input :=
  mkInput (mkHcfg 1 1 1 (map (fun d => 24 * Z.of_nat d + 7) (seq 0 365)) (repeat [q1; q1] 5) (repeat q0 5)
             (map (map qz) [[1; 0; 0; 0; 0]; [0; 1; 0; 0; 0]; [0; 0; 1; 0; 0]; [0; 0; 0; 1; 0]; [0; 0; 0; 0; 1]]) [0; 1; 2; 3; 4]
             (repeat (repeat q1 6) 7)
             [[-1; -1; 0; -1; 1]; [-1; -1; 2; -1; -1]; [-1; -1; -1; -1; -1]; [-1; -1; -1; -1; 3]; [-1; -1; -1; -1; -1]]
             (map (fun x => repeat (qz x) 365) [8; 3; 63; 16]) (repeat (repeat (qz 100) (365 * 24)) 5) (repeat (repeat q1 5) 5)
             [[-1; 0; -1; 3; -1]; [0; -1; 4; -1; 5]; [-1; 4; -1; 2; 1]; [3; -1; 2; -1; 6]; [-1; 5; 1; 6; -1]] v_BLPA v_LP 0 true)
          (map (fun x => repeat (qz x) 4) [127; 195; 29; 164; 65]) (repeat [0; 0] 52) v_BN 1
          0 (qz 2000) q1 10 0 1 1 1 1 0 0.
Lemma v_run : match narp m_inv m_lp 3 v_input with
  | Ok ([(t1, _); (t2, _)], Some (Failed OutOfFuel)) => qeqb (snd t1) (qz 2) && qeqb (snd t2) (qz 3) | _ => false end = true.
Proof. vm_compute. reflexivity. Qed.
Lemma repeat_shape {A} n w (x : A) : length (repeat (repeat x w) n) = n /\ forall j, (j < n)%nat -> length (nth j (repeat (repeat x w) n) []) = w.
Proof. split; [apply repeat_length|]. intros j Hj. rewrite nth_repeat_lt by exact Hj. apply repeat_length. Qed.
Example v_input_ok : input_ok 5 5 7 v_input.
Proof.
  constructor; cbn [v_input i_h i_NORR i_RATES i_BN x_JSTEP x_NFCST x_LP].
  - constructor; cbn [x_HRLOAD x_FCTERR x_CAPOWN x_CAPCON x_PROBG x_DERATE x_PROBL x_JENT x_INTCH x_MXPLHR x_NFCST].
    + lia.
    + exact (repeat_shape 5 (365 * 24) (qz 100)).
    + exact (repeat_shape 5 5 q1).
    + split; [reflexivity|]. intros [|[|[|[|[|j]]]]] H; try reflexivity; exfalso; cbn in H; lia.
    + split; [reflexivity|]. intros [|[|[|[|[|j]]]]] H; cbn; try lia; exfalso; cbn in H; lia.
    + split; reflexivity.
    + reflexivity.
    + split; [|split].
      * split; [reflexivity|]. intros [|[|[|[|[|j]]]]] H; try reflexivity; exfalso; cbn in H; lia.
      * intros i j Hi Hj. cbn [map length]. do 5 (destruct i as [|i]; [do 5 (destruct j as [|j]; [cbn; lia|]); lia|]). lia.
      * intros r H. repeat (destruct H as [<-|H]; [apply repeat_length|]). destruct H.
    + split; [now rewrite map_length, seq_length|]. intros d Hd. unfold zget. rewrite nth_map_seq by auto. lia.
    + lia.
  - split; lia.
  - left; auto.
  - reflexivity.
  - reflexivity.
  - reflexivity.
Qed.
(** The program is in its first hour and does not come out of it: the log holds the first
    week and the first season and no hour, whatever number of passes the solver of the
    linear program is given and however many iterations of the loop are allowed. *)
Theorem C75_program_refuted : input_ok 5 5 7 v_input /\
  forall inv, inverts inv -> forall passes more, exists e1 s1 e2 s2,
    narp inv (lp_nls passes v_LP v_LT 0) (3 + more) v_input = Ok ([(e1, s1); (e2, s2)], Some (Failed OutOfFuel)) /\
    snd e1 = qz 2 /\ snd e2 = qz 3.
Proof.
  split; [exact v_input_ok|]. intros inv IV passes more. pose proof v_run as C.
  destruct (narp m_inv m_lp 3 v_input) as [[lg o]|] eqn:E; [|discriminate C].
  destruct lg as [|[e1 s1] [|[e2 s2] [|]]]; try discriminate C. destruct o as [[]|]; try discriminate C. destruct e; try discriminate C.
  apply andb_prop in C. destruct C as (C1 & C2). apply qeqb_iff in C1, C2. exists e1, s1, e2, s2. split; [|split; assumption].
  apply (narp_rel m_inv inv m_lp (lp_nls passes v_LP v_LT 0) (m_inv_rel inv IV) (m_lp_rel passes) v_input 3 _ _ E). intros [H|H]; discriminate H.
Qed.
Print Assumptions C75_program_refuted.
(** An inversion routine with this contract: LINPACK's, with a check of its result. *)
Definition sure_inv (M : list (list Qc)) : option (list (list Qc)) :=
  let m := length M in let Z := linpack_inv M m in
  if Nat.eqb m 0 then Some [] else
  if Nat.eqb (length Z) m && forallb (fun r => Nat.eqb (length r) m) Z && inverseb m (mget M) (mget Z) then Some Z else None.
Example C75_inverts_witness : inverts sure_inv /\ sure_inv v_M = Some v_Z.
Proof.
  assert (I : inverts sure_inv).
  { split.
    - intros m M Z (L & _) E. unfold sure_inv in E. cbv zeta in E. rewrite L in E. destruct (Nat.eqb_spec m 0) as [->|N].
      { injection E as <-. split; [split; [reflexivity|intros; lia]|intros i j Hi; lia]. }
      destruct (Nat.eqb (length (linpack_inv M m)) m) eqn:E1; [|discriminate]. destruct (forallb _ _) eqn:E2; [|discriminate]. destruct (inverseb _ _ _) eqn:E3; [|discriminate].
      injection E as <-. apply Nat.eqb_eq in E1. split; [split; [exact E1|]|now apply inverseb_sound]. intros j Hj. rewrite forallb_forall in E2. apply Nat.eqb_eq, E2, nth_In. lia.
    - intros m M Z S HL HR. unfold sure_inv. cbv zeta. rewrite (proj1 S). destruct (Nat.eqb_spec m 0) as [->|N]; [discriminate|].
      assert (NS : nonsingular m M).
      { intros x H i Hi. transitivity (qs m (fun j => Qcmult (if Nat.eqb i j then q1 else q0) (x j))).
        { rewrite (qs_ext m _ (fun j => if Nat.eqb j i then x j else q0)); [now rewrite (qs_delta m i x)|]. intros j Hj. rewrite Nat.eqb_sym. destruct (Nat.eqb j i); qring. }
        rewrite (qs_ext m _ (fun j => qs m (fun k => Qcmult (Qcmult (mget Z i k) (mget M k j)) (x j)))) by (intros j Hj; rewrite <- qs_mul_r, (HL i j Hi Hj); reflexivity).
        rewrite qs_exchange. rewrite (qs_ext m _ (fun _ => q0)); [apply qs_zero; auto|]. intros k Hk.
        transitivity (Qcmult (mget Z i k) (qs m (fun j => Qcmult (mget M k j) (x j)))); [rewrite qs_mul_l; apply qs_ext; intros; qring|]. rewrite (H k Hk). qring. }
      destruct (C35_inverse m M ltac:(lia) S NS) as ((L1 & R1) & I1 & _). rewrite L1, Nat.eqb_refl. cbn [andb].
      replace (forallb _ _) with true by (symmetry; apply forallb_forall; intros r Hr; apply (In_nth _ _ []) in Hr; destruct Hr as (j & Hj & <-); apply Nat.eqb_eq, R1; lia).
      cbn [andb]. replace (inverseb _ _ _) with true; [discriminate|]. symmetry. unfold inverseb. apply forallb_forall. intros i Hi. apply forallb_forall. intros j Hj. apply in_seq in Hi, Hj.
      apply qeqb_iff. apply I1; lia. }
  split; [exact I|]. now apply v_inverse.
Qed.
