(** Property theorems C117: both versions of the factorisation and of the inversion. *)
From Verif Require Import Base BaseProofs Sums LoadModel LoadSpec LoadProofs NetModel NetSpec MatProofs NetProofs LinpackModel LinpackProofs PropertiesLinpack LinLoopModel.
Open Scope Z_scope.
Open Scope Qc_scope.

Lemma mat_ext n (X Y : list (list Qc)) : shape n n X -> shape n n Y -> (forall i j, (i < n)%nat -> (j < n)%nat -> mget X i j = mget Y i j) -> X = Y.
Proof.
  intros [LX RX] [LY RY] E. apply (nth_ext _ _ [] []); [lia|]. intros i Hi. apply (nth_ext _ _ q0 q0); [rewrite RX, RY; lia|].
  intros j Hj. rewrite RX in Hj by lia. apply (E i j); lia.
Qed.

Ltac cases :=
  cbn [andb];
  lazymatch goal with
  | |- ?x = ?x => reflexivity
  | |- context [Nat.eqb ?a ?b] => destruct (Nat.eqb_spec a b); try (exfalso; lia); cases
  | |- context [Nat.ltb ?a ?b] => destruct (Nat.ltb_spec a b); try (exfalso; lia); cases
  | |- _ => subst; try lia; try reflexivity
  end.

Section Loop.
  Variable N : nat.

  (** The columns one after the other. *)
  Lemma elim_cols K L B : (K < N)%nat -> (K <= L < N)%nat -> shape N N B -> forall m, (S K + m <= N)%nat ->
    let A := fold_left (elim_col N K L) (seq (S K) m) B in
    shape N N A /\ forall i j, (i < N)%nat -> (j < N)%nat ->
      mget A i j = if (K <? j)%nat && (j <? S K + m)%nat
                   then swp K L (fun r => mget B r j) i + (if (K <? i)%nat then mget B L j * mget B i K else q0)
                   else mget B i j.
  Proof.
    intros HK HL SB. induction m as [|m IH]; intros Hm; cbv zeta.
    - cbn [seq fold_left]. split; [exact SB|]. intros i j Hi Hj. cases.
    - rewrite seq_S, fold_left_app. cbn [fold_left]. destruct (IH ltac:(lia)) as [SA G]. cbv zeta in SA, G.
      set (A := fold_left (elim_col N K L) (seq (S K) m) B) in *. split; [apply mtab_shape|].
      intros i j Hi Hj. unfold elim_col. rewrite mget_mtab by auto. unfold swp.
      destruct (Nat.eqb_spec L K) as [->|NE].
      + rewrite !G by lia. unfold swp. cases; try qring.
      + rewrite !mget_mtab by lia. rewrite !G by lia. unfold swp. cases; try qring.
  Qed.

  Lemma dgefa0_step_same A P I K : shape N N A -> (K < N)%nat -> dgefa0_step N (A, P, I) K = dgefa_step N (A, P, I) K.
  Proof.
    intros SA HK. unfold dgefa0_step, dgefa_step. destruct (pivot_row_spec N A K HK) as (HL & _). set (L := pivot_row N A K) in *. clearbody L. cbv zeta.
    destruct (qeqb (mget A L K) q0); [reflexivity|]. do 2 f_equal.
    set (B := multipliers N (if Nat.eqb L K then A else swap_pivot N A K L) K).
    assert (SB : shape N N B) by apply mtab_shape.
    destruct (elim_cols K L B HK HL SB (N - S K) ltac:(lia)) as [SE GE]. cbv zeta in SE, GE.
    apply (mat_ext N); [exact SE|apply mtab_shape|]. intros i j Hi Hj. rewrite GE by auto.
    unfold eliminate. rewrite mget_mtab by auto. unfold B, multipliers, scale_col. cbv zeta.
    unfold swp. rewrite !mget_mtab by lia.
    destruct (Nat.eqb_spec L K) as [EL|NE].
    - subst L. cases; try qring.
    - unfold swap_pivot, swap_rows. rewrite !mget_mtab by lia. cases; try qring.
  Qed.

  Lemma dgefa0_fact A : shape N N A -> forall m, (m < N)%nat -> fold_left (dgefa0_step N) (seq 0 m) (A, [], 0%nat) = fact N A m.
  Proof.
    intros SA. induction m as [|m IH]; intros Hm; [reflexivity|]. rewrite seq_S, fold_left_app, IH by lia. cbn [fold_left plus].
    rewrite fact_S. pose proof (fact_spec N A SA m ltac:(lia)) as F. destruct (fact N A m) as [[B P] I]. apply dgefa0_step_same; [apply F|lia].
  Qed.

  Lemma up_cols K B : (K < N)%nat -> shape N N B -> forall m, (S K + m <= N)%nat ->
    let A := fold_left (up_col N K) (seq (S K) m) B in
    shape N N A /\ forall i j, (i < N)%nat -> (j < N)%nat ->
      mget A i j = if (K <? j)%nat && (j <? S K + m)%nat && (i <? S K)%nat
                   then (if Nat.eqb i K then q0 else mget B i j) + mget B K j * mget B i K
                   else mget B i j.
  Proof.
    intros HK SB. induction m as [|m IH]; intros Hm; cbv zeta.
    - cbn [seq fold_left]. split; [exact SB|]. intros i j Hi Hj. cases.
    - rewrite seq_S, fold_left_app. cbn [fold_left]. destruct (IH ltac:(lia)) as [SA G]. cbv zeta in SA, G.
      set (A := fold_left (up_col N K) (seq (S K) m) B) in *. split; [apply mtab_shape|].
      intros i j Hi Hj. unfold up_col. rewrite !mget_mtab by lia. rewrite !G by lia. cases; try qring.
  Qed.
  Lemma dgedi0_up_same A K : (K < N)%nat -> dgedi0_up N A K = dgedi_up N A K.
  Proof.
    intros HK. unfold dgedi0_up. set (B := inv_diag N A K). assert (SB : shape N N B) by apply mtab_shape.
    destruct (up_cols K B HK SB (N - S K) ltac:(lia)) as [SE GE]. cbv zeta in SE, GE.
    apply (mat_ext N); [exact SE|apply mtab_shape|]. intros i j Hi Hj. rewrite GE by auto.
    unfold dgedi_up. cbv zeta. rewrite !mget_mtab by lia. unfold B, inv_diag. cbv zeta. rewrite !mget_mtab by lia.
    cases; try qring.
  Qed.

  Lemma take_cols K A W : (K < N)%nat -> shape N N A -> length W = N -> forall m, (S K + m <= N)%nat ->
    let '(A1, W1) := fold_left (take_work N K) (seq (S K) m) (A, W) in
    shape N N A1 /\ length W1 = N /\ (forall i, (K < i < S K + m)%nat -> vget W1 i = mget A i K) /\
    forall i j, (i < N)%nat -> (j < N)%nat -> mget A1 i j = if Nat.eqb j K && (K <? i)%nat && (i <? S K + m)%nat then q0 else mget A i j.
  Proof.
    intros HK SA LW. induction m as [|m IH]; intros Hm.
    - cbn [seq fold_left]. split; [exact SA|]. split; [exact LW|]. split; [intros; lia|]. intros i j Hi Hj. cases.
    - rewrite seq_S, fold_left_app. cbn [fold_left]. specialize (IH ltac:(lia)). destruct (fold_left (take_work N K) (seq (S K) m) (A, W)) as [A1 W1].
      destruct IH as (S1 & L1 & V1 & G1). cbn [take_work]. split; [apply mtab_shape|]. split; [now rewrite upd_length|]. split.
      + intros i Hi. unfold vget. destruct (Nat.eq_dec i (S K + m)) as [->|NE].
        * rewrite nth_upd_same by lia. rewrite G1 by lia. cases.
        * rewrite nth_upd_other by lia. apply V1. lia.
      + intros i j Hi Hj. rewrite mget_mtab by auto. rewrite G1 by auto. cases.
  Qed.
  Lemma add_cols K W B : (K < N)%nat -> shape N N B -> forall m, (S K + m <= N)%nat ->
    let A := fold_left (add_col N K W) (seq (S K) m) B in
    shape N N A /\ forall i j, (i < N)%nat -> (j < N)%nat ->
      mget A i j = if Nat.eqb j K then mget B i K + qsum (map (fun l => mget B i l * vget W l) (seq (S K) m)) else mget B i j.
  Proof.
    intros HK SB. induction m as [|m IH]; intros Hm; cbv zeta.
    - cbn [seq fold_left map]. split; [exact SB|]. intros i j Hi Hj. cases. change (qsum []) with q0. qring.
    - rewrite seq_S, fold_left_app. cbn [fold_left]. destruct (IH ltac:(lia)) as [SA G]. cbv zeta in SA, G.
      set (A := fold_left (add_col N K W) (seq (S K) m) B) in *. split; [apply mtab_shape|].
      intros i j Hi Hj. unfold add_col. rewrite mget_mtab by auto. rewrite !G by lia.
      rewrite map_app, qsum_app. cbn [map]. change (qsum [mget B i (S K + m) * vget W (S K + m)%nat]) with (mget B i (S K + m) * vget W (S K + m)%nat + 0).
      cases. qring.
  Qed.
  Lemma dgedi0_down_same P A W K : (K < N)%nat -> shape N N A -> length W = N ->
    fst (dgedi0_down N P (A, W) K) = dgedi_down N P A K /\ length (snd (dgedi0_down N P (A, W) K)) = N.
  Proof.
    intros HK SA LW. unfold dgedi0_down. pose proof (take_cols K A W HK SA LW (N - S K) ltac:(lia)) as T.
    destruct (fold_left (take_work N K) (seq (S K) (N - S K)) (A, W)) as [A1 W1]. destruct T as (S1 & L1 & V1 & G1).
    destruct (add_cols K W1 A1 HK S1 (N - S K) ltac:(lia)) as [S2 G2]. cbv zeta in S2, G2.
    set (A2 := fold_left (add_col N K W1) (seq (S K) (N - S K)) A1) in *.
    split; [|exact L1]. cbn [fst]. unfold dgedi_down. cbv zeta.
    match goal with |- _ = (if _ then ?B else _) => set (B2 := B) end.
    assert (E : A2 = B2).
    { apply (mat_ext N); [exact S2|apply mtab_shape|]. intros i j Hi Hj. rewrite G2 by auto. unfold B2. rewrite mget_mtab by auto. rewrite !mget_mtab by lia.
      rewrite !G1 by lia. destruct (Nat.eqb_spec j K) as [->|NE].
      - rewrite Nat.eqb_refl. cbn [andb]. f_equal; [cases|]. f_equal. apply map_ext_in. intros l Hl. apply in_seq in Hl. rewrite G1, mget_mtab by lia. rewrite V1 by lia. cases.
      - cases. }
    rewrite E. reflexivity.
  Qed.
End Loop.

Lemma dgedi_down_shape N P A K : shape N N (dgedi_down N P A K).
Proof. unfold dgedi_down. cbv zeta. destruct (Nat.eqb _ _); apply mtab_shape. Qed.
Lemma downs_same N P : forall Ks A W, (forall K, In K Ks -> (K < N)%nat) -> shape N N A -> length W = N ->
  fst (fold_left (dgedi0_down N P) Ks (A, W)) = fold_left (dgedi_down N P) Ks A.
Proof.
  induction Ks as [|K Ks IH]; intros A W HK SA LW; cbn [fold_left]; [reflexivity|].
  destruct (dgedi0_down_same N P A W K (HK K (or_introl eq_refl)) SA LW) as [E1 E2].
  destruct (dgedi0_down N P (A, W) K) as [A' W']. cbn [fst snd] in E1, E2. subst A'. apply IH; [intros; apply HK; now right|apply dgedi_down_shape|exact E2].
Qed.

(** C117.  The original factorisation returns the same matrix, flag and pivots. *)
Theorem C117_factorisations_agree : forall N A, (0 < N)%nat -> shape N N A -> dgefa0 A N = dgefa A N.
Proof. intros N A HN SA. unfold dgefa0, dgefa. rewrite (dgefa0_fact N A SA (N - 1)) by lia. reflexivity. Qed.
Print Assumptions C117_factorisations_agree.
(** The original inversion (inverse only: JOB = 2) returns the same matrix, whatever the
    factor and the pivots. *)
Theorem C117_inversions_agree : forall N A P, shape N N A -> dgedi0 A N P 2 = Ok (dgedi A N P).
Proof.
  intros N A P SA. unfold dgedi0. cbn [Z.eqb orb Pos.eqb bind]. f_equal. unfold inverse0, dgedi.
  assert (U : forall Ks, (forall K, In K Ks -> (K < N)%nat) -> forall B, fold_left (dgedi0_up N) Ks B = fold_left (dgedi_up N) Ks B).
  { induction Ks as [|K Ks IH]; intros HK B; cbn [fold_left]; [reflexivity|]. rewrite dgedi0_up_same by (apply HK; now left). apply IH. intros; apply HK; now right. }
  rewrite U by (intros K HK; apply in_seq in HK; lia).
  destruct (Nat.leb_spec N 1).
  - replace (N - 1)%nat with 0%nat by lia. reflexivity.
  - assert (SU : shape N N (fold_left (dgedi_up N) (seq 0 N) A)).
    { destruct N as [|m]; [lia|]. rewrite seq_S, fold_left_app. cbn [fold_left]. apply mtab_shape. }
    apply downs_same; [|exact SU|apply repeat_length]. intros K HK. apply in_rev in HK. apply in_seq in HK. lia.
Qed.
Print Assumptions C117_inversions_agree.
(** Hence the original pair also inverts every non-singular matrix. *)
Theorem C117_original_inverts : forall N A, (0 < N)%nat -> shape N N A -> nonsingular N A ->
  exists Z, (let '(LU, _, P) := dgefa0 A N in dgedi0 LU N P 2) = Ok Z /\ shape N N Z /\
  (forall i j, (i < N)%nat -> (j < N)%nat -> qs N (fun k => mget A i k * mget Z k j) = if Nat.eqb i j then q1 else q0) /\
  (forall i j, (i < N)%nat -> (j < N)%nat -> qs N (fun k => mget Z i k * mget A k j) = if Nat.eqb i j then q1 else q0).
Proof.
  intros N A HN SA NS. exists (linpack_inv A N). split; [|exact (C35_inverse N A HN SA NS)].
  rewrite C117_factorisations_agree by auto. unfold linpack_inv, dgeco, dgefa.
  pose proof (fact_spec N A SA (N - 1) ltac:(lia)) as F. unfold fact in F.
  destruct (fold_left (dgefa_step N) (seq 0 (N - 1)) (A, [], 0%nat)) as [[S_ P] I]. destruct F as (SS & _).
  apply C117_inversions_agree. exact SS.
Qed.
Print Assumptions C117_original_inverts.

Lemma factor_diag N A : (0 < N)%nat -> shape N N A -> nonsingular N A -> forall k, (k < N)%nat -> mget (fst (fst (dgefa A N))) k k <> q0.
Proof.
  intros HN SA J. unfold dgefa.
  pose proof (fact_spec N A SA (N - 1) ltac:(lia)) as F. unfold fact in F.
  destruct (fold_left (dgefa_step N) (seq 0 (N - 1)) (A, [], 0%nat)) as [[S_ P] I]. destruct F as (SS & LP & _ & W & W0 & Wn & Wk). cbn [fst].
  set (m := fun k r => mget S_ r k). set (L := fun k => nth k P 0%nat).
  assert (WS : forall k x i, (k < N - 1)%nat -> (i < N)%nat -> mv N (W (S k)) x i = elem k (L k) (m k) (mv N (W k) x) i).
  { intros k x i Hk Hi. rewrite <- elem_mv. apply mv_ext; auto. intros j Hj. apply (Wk k Hk); auto. }
  assert (HL : forall k, (k < N - 1)%nat -> (k <= L k < N)%nat) by (intros k Hk; apply (Wk k Hk)).
  assert (TU : upper_tri N (W (N - 1)%nat)).
  { intros i j Hi Hj. rewrite Wn by lia. unfold upper. destruct (Nat.ltb_spec j (N - 1)), (Nat.ltb_spec j i); try lia. reflexivity. }
  assert (JW : forall k, (k <= N - 1)%nat -> injective N (W k)).
  { induction k as [|k IH]; intros Hk.
    - intros x Z. apply J. intros i Hi. rewrite <- (Z i Hi). apply mv_ext; auto. intros j Hj. now rewrite W0.
    - intros x Z. apply (IH ltac:(lia)). apply (elem_injective N k (L k) (m k)); [lia|apply HL; lia|].
      intros i Hi. rewrite <- WS by lia. auto. }
  intros k Hk E. apply (ut_diag N (W (N - 1)%nat) TU (JW _ (Nat.le_refl _)) k Hk). rewrite Wn by lia. unfold upper. now rewrite Nat.ltb_irrefl, andb_false_r.
Qed.
(** The determinant: asking the original for it (JOB = 1 or 3) fails for every
    non-singular matrix. *)
Theorem C117_determinant_refuted : forall N A JOB, (0 < N)%nat -> shape N N A -> nonsingular N A -> JOB = 1%Z \/ JOB = 3%Z ->
  (let '(LU, _, P) := dgefa0 A N in dgedi0 LU N P JOB) = Err (if Nat.eqb N 1 then IndexError else TypeError).
Proof.
  intros N A JOB HN SA NS HJ. rewrite C117_factorisations_agree by auto. pose proof (factor_diag N A HN SA NS) as D.
  destruct (dgefa A N) as [[LU I] P]. cbn [fst] in D. unfold dgedi0.
  assert ((JOB =? 1) || (JOB =? 3) = true)%Z as -> by (destruct HJ as [-> | ->]; reflexivity).
  destruct N as [|[|m]]; [lia|reflexivity|]. cbn [determinant0 Nat.eqb].
  destruct (qeqb (mget LU 1 1) q0) eqn:E; [|reflexivity]. apply qeqb_iff in E. destruct (D 1%nat ltac:(lia) E).
Qed.
Print Assumptions C117_determinant_refuted.

Example C117_witness : shape 3 3 demo_mat /\ nonsingular 3 demo_mat /\ dgefa0 demo_mat 3 = dgefa demo_mat 3 /\
  snd (dgefa0 demo_mat 3) = [1; 1; 2]%nat.
Proof. split; [apply C35_witness|]. split; [apply C35_witness|]. split; [apply C117_factorisations_agree; [lia|apply C35_witness]|]. vm_compute. reflexivity. Qed.
