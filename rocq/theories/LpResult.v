(** Proofs about the result of the linear-programming branch. *)
From Coq Require Import Field.
From Verif Require Import Base BaseProofs Sums LoadModel LoadSpec NetModel NetSpec MatProofs NetProofs FlowProofs LpModel LpSpec LpProofs LpRun LpNet.
Open Scope Qc_scope.

Lemma qs_app a c f : qs (a + c) f = qs a f + qs c (fun i => f (a + i)%nat).
Proof. induction c as [|c IH]; [rewrite Nat.add_0_r; unfold qs at 3; cbn; qring|]. rewrite Nat.add_succ_r, !qs_S, IH. ring. Qed.
Lemma qs_pairs2 m f : qs (2 * m) f = qs m (fun c => f (2 * c)%nat + f (2 * c + 1)%nat).
Proof. induction m as [|m IH]; [reflexivity|]. replace (2 * S m)%nat with (S (S (2 * m))) by lia. rewrite !qs_S, IH. replace (2 * m + 1)%nat with (S (2 * m)) by lia. ring. Qed.

(** *** net *)
Lemma res_fill_at N M IBAS BS RES k : (M <= length IBAS)%nat -> NoDup IBAS ->
  (forall i, (i < M)%nat -> nth i IBAS 0%nat = k -> res_fill N M IBAS BS RES k = vget BS i) /\
  ((forall i, (i < M)%nat -> nth i IBAS 0%nat <> k) -> res_fill N M IBAS BS RES k = if (k <? N)%nat then q0 else RES k).
Proof.
  intros L ND. unfold res_fill. assert (G : forall m R, (m <= M)%nat ->
    (forall i, (i < m)%nat -> nth i IBAS 0%nat = k -> fold_left (fun R i k => if Nat.eqb k (nth i IBAS 0%nat) then vget BS i else R k) (seq 0 m) R k = vget BS i) /\
    ((forall i, (i < m)%nat -> nth i IBAS 0%nat <> k) -> fold_left (fun R i k => if Nat.eqb k (nth i IBAS 0%nat) then vget BS i else R k) (seq 0 m) R k = R k)).
  { induction m as [|m IH]; intros R Hm; [split; [intros; lia|reflexivity]|]. rewrite seq_S, fold_left_app. cbn [fold_left Nat.add]. destruct (IH R ltac:(lia)) as (I1 & I2). split.
    - intros i Hi E. destruct (Nat.eqb_spec k (nth m IBAS 0%nat)) as [EK|NK].
      + replace i with m; [reflexivity|]. rewrite (NoDup_nth _ 0%nat) in ND. apply ND; [lia|lia|congruence].
      + apply I1; [|exact E]. destruct (Nat.eq_dec i m); [subst; congruence|lia].
    - intros H. destruct (Nat.eqb_spec k (nth m IBAS 0%nat)) as [EK|NK]; [exfalso; apply (H m); [lia|congruence]|]. apply I2. intros i Hi. apply H. lia. }
  destruct (G M (fun k => if (k <? N)%nat then q0 else RES k) (le_n M)) as (G1 & G2). split; assumption.
Qed.
Lemma res_fill_basic M N A b s k : inv M A b s -> res_fill N M (s_IBAS s) (s_BS s) (fun _ => q0) k = basic_value M s k.
Proof.
  intros I. destruct (res_fill_at N M (s_IBAS s) (s_BS s) (fun _ => q0) k) as (G1 & G2); [rewrite (i_len _ _ _ s I); lia|apply (i_nd _ _ _ s I)|].
  destruct (in_dec Nat.eq_dec k (s_IBAS s)) as [H|H].
  - apply In_nth with (d := 0%nat) in H. destruct H as (i & Hi & E). rewrite (i_len _ _ _ s I) in Hi. rewrite (G1 i Hi E), <- E. symmetry. now apply (basic_nth M A b s I).
  - rewrite (basic_out M A b s I k H), G2; [now destruct (k <? N)%nat|]. intros i Hi E. apply H. rewrite <- E. apply nth_In. rewrite (i_len _ _ _ s I). exact Hi.
Qed.
Lemma net_value M N1 A b s B B1 k : inv M A b s -> (M <= N1)%nat -> (N1 - M <= k)%nat -> (k < N1)%nat ->
  net B B1 (fun _ _ => q0) (s_IBAS s) (s_BS s) M N1 k 0%nat = (if Nat.eqb k (N1 - M) then basic_value M s k else - basic_value M s k) + B (k - (N1 - M))%nat.
Proof.
  intros I H1 H2 H3. unfold net. rewrite (proj2 (Nat.leb_le _ _) H2), (proj2 (Nat.ltb_lt _ _) H3). cbn [andb]. f_equal. rewrite (res_fill_basic M N1 A b s k I).
  rewrite firstn_all2 by (rewrite (i_len _ _ _ s I); lia).
  destruct (Nat.eqb_spec k (N1 - M)) as [E|NE].
  - destruct (Nat.ltb_spec (N1 - M) k); [lia|]. now rewrite andb_false_r.
  - destruct (Nat.ltb_spec (N1 - M) k); [|lia]. rewrite andb_true_r. destruct (existsb (Nat.eqb k) (s_IBAS s)) eqn:X; [reflexivity|].
    rewrite (basic_out M A b s I k); [qring|]. intros HI. assert (existsb (Nat.eqb k) (s_IBAS s) = true) by (apply existsb_exists; exists k; split; [exact HI|apply Nat.eqb_refl]). congruence.
Qed.

(** *** store_lp *)
Lemma store_lp_spec n m LT R NX BN NR : order_ok n NR LT -> n = S NX -> shape n m BN -> (2 < m)%nat ->
  let BN' := store_lp LT R NX BN in shape n m BN' /\
  (forall i, (i < n)%nat -> let j := nth i LT 0%nat in mget BN' j 1 = - R (2 * NX + i)%nat /\ mget BN' j 2 = qmax (- mget BN j 2 - R (2 * NX + i)%nat) q0) /\
  (forall j c, (j < n)%nat -> (c < m)%nat -> c <> 1%nat -> c <> 2%nat -> mget BN' j c = mget BN j c).
Proof.
  intros ok En S Hm. unfold store_lp. rewrite <- En.
  assert (AL : forall i, (i < n)%nat -> (nth i LT 0 < n)%nat) by (intros i Hi; apply (at_lt n NR LT ok i Hi)).
  assert (AI : forall i j, (i < n)%nat -> (j < n)%nat -> nth i LT 0%nat = nth j LT 0%nat -> i = j) by (intros i j; apply (at_inj n NR LT ok)).
  set (f := fun B i => let j := nth i LT 0%nat in let x := - R (2 * NX + i)%nat in let y := - mget B j 2 + x in mupd (mupd B j 1 x) j 2 (if qltb y q0 then q0 else y)).
  assert (G : forall k, (k <= n)%nat -> let B := fold_left f (seq 0 k) BN in shape n m B /\
    (forall i, (i < k)%nat -> let j := nth i LT 0%nat in mget B j 1 = - R (2 * NX + i)%nat /\ mget B j 2 = qmax (- mget BN j 2 - R (2 * NX + i)%nat) q0) /\
    (forall i, (k <= i)%nat -> (i < n)%nat -> mget B (nth i LT 0%nat) 2 = mget BN (nth i LT 0%nat) 2) /\
    (forall j c, (j < n)%nat -> (c < m)%nat -> c <> 1%nat -> c <> 2%nat -> mget B j c = mget BN j c)).
  { induction k as [|k IH]; intros Hk; cbv zeta.
    - cbn [seq fold_left]. split; [exact S|]. split; [intros; lia|]. split; reflexivity.
    - rewrite seq_S, fold_left_app. cbn [fold_left Nat.add]. specialize (IH ltac:(lia)). cbv zeta in IH. destruct IH as (S1 & I1 & I2 & I3).
      set (B := fold_left f (seq 0 k) BN) in *. clearbody B. unfold f. set (j := nth k LT 0%nat). set (x := - R (2 * NX + k)%nat).
      assert (Hj : (j < n)%nat) by (apply AL; lia).
      assert (S2 : shape n m (mupd B j 1 x)) by (apply mupd_shape; auto).
      set (v := if qltb (- mget B j 2 + x) q0 then q0 else - mget B j 2 + x).
      assert (S3 : shape n m (mupd (mupd B j 1 x) j 2 v)) by (apply mupd_shape; auto).
      assert (GG : forall a c, (a < n)%nat -> (c < m)%nat -> mget (mupd (mupd B j 1 x) j 2 v) a c = if Nat.eqb a j then (if Nat.eqb c 2 then v else if Nat.eqb c 1 then x else mget B a c) else mget B a c).
      { intros a c Ha Hc. rewrite (mget_mupd n m) by (auto; lia). rewrite (mget_mupd n m) by (auto; lia).
        destruct (Nat.eqb a j), (Nat.eqb c 2) eqn:E2, (Nat.eqb c 1) eqn:E1; cbn [andb]; reflexivity. }
      split; [exact S3|]. split; [|split].
      + intros i Hi. destruct (Nat.eq_dec i k) as [->|NE].
        * cbv zeta. fold j. rewrite !GG by lia. rewrite Nat.eqb_refl. cbn [Nat.eqb]. split; [reflexivity|]. unfold v. assert (EB : mget B j 2 = mget BN j 2) by (apply (I2 k); lia). rewrite EB. unfold x.
          replace (- mget BN j 2 + - R (2 * NX + k)%nat) with (- mget BN j 2 - R (2 * NX + k)%nat) by ring.
          unfold qmax. destruct (qltb (- mget BN j 2 - R (2 * NX + k)%nat) q0) eqn:Q.
          -- apply qltb_iff in Q. destruct (qleb (- mget BN j 2 - R (2 * NX + k)%nat) q0) eqn:Q2; [reflexivity|]. apply Qclt_le_weak, qleb_iff in Q. congruence.
          -- apply qltb_false in Q. destruct (qleb (- mget BN j 2 - R (2 * NX + k)%nat) q0) eqn:Q2; [|reflexivity]. apply qleb_iff in Q2. apply Qcle_antisym; assumption.
        * cbv zeta. rewrite !GG by (try lia; apply AL; lia). destruct (Nat.eqb_spec (nth i LT 0%nat) j) as [E|_]; [exfalso; apply NE, AI; [lia|lia|exact E]|]. apply I1. lia.
      + intros i H1 H2. rewrite GG by (try lia; apply AL; lia). destruct (Nat.eqb_spec (nth i LT 0%nat) j) as [E|_]; [apply AI in E; lia|]. apply I2; lia.
      + intros a c Ha Hc N1 N2. rewrite GG by lia. destruct (Nat.eqb_spec c 2); [lia|]. destruct (Nat.eqb_spec c 1); [lia|]. destruct (Nat.eqb a j); apply I3; auto. }
  destruct (G n (le_n n)) as (G1 & G2 & _ & G4). cbv zeta. split; [exact G1|]. split; [exact G2|exact G4].
Qed.

Lemma qmin_le x y : qmin x y <= x /\ qmin x y <= y.
Proof. unfold qmin. destruct (qleb x y) eqn:Q; [apply qleb_iff in Q; split; [apply Qcle_refl|exact Q]|]. assert (y <= x) by (apply Qclt_le_weak, Qcnot_le_lt; intros H; apply qleb_iff in H; congruence). split; [assumption|apply Qcle_refl]. Qed.
Lemma qmin_neg x : x < q0 -> qmin x q0 = x.
Proof. intros H. unfold qmin. destruct (qleb x q0) eqn:Q; [reflexivity|]. apply Qclt_le_weak, qleb_iff in H. congruence. Qed.
Lemma qmin_pos x : q0 <= x -> qmin x q0 = q0.
Proof. intros H. unfold qmin. destruct (qleb x q0) eqn:Q; [apply qleb_iff in Q; apply Qcle_antisym; assumption|reflexivity]. Qed.
Lemma qmax_neg x : x <= q0 -> qmax x q0 = q0.
Proof. intros H. unfold qmax. now rewrite (proj2 (qleb_iff x q0) H). Qed.
Lemma qmax_pos x : q0 <= x -> qmax x q0 = x.
Proof. intros H. unfold qmax. destruct (qleb x q0) eqn:Q; [apply qleb_iff in Q; apply Qcle_antisym; assumption|reflexivity]. Qed.
Lemma qabs_neg x : x <= q0 -> qabs x = - x.
Proof. intros H. unfold qabs. destruct (qltb x q0) eqn:Q; [reflexivity|]. apply qltb_false in Q. replace x with q0 by (apply Qcle_antisym; assumption). qring. Qed.
Lemma qabs_nonneg x : q0 <= x -> qabs x = x.
Proof. intros H. unfold qabs. destruct (qltb x q0) eqn:Q; [|reflexivity]. apply qltb_iff in Q. exfalso. exact (Qclt_not_le _ _ Q H). Qed.

Section MAIN.
Variables (NX NR m : nat) (LT : list nat) (LP : list (nat * nat)) (BB BLP BN : list (list Qc)).
Let n := S NX.
Hypothesis ok : order_ok n NR LT.
Hypothesis LI : lines_in n LP.
Hypothesis LB : length BLP = length LP.
Hypothesis SB : shape n m BN.
Hypothesis Hm : (4 < m)%nat.
Hypothesis NXP : (0 < NX)%nat.
Hypothesis BBL : forall a c, (a < NX)%nat -> (c < NX)%nat -> mget BB a c = reduced LT (wlines LP BLP) a c.
Hypothesis CAPS : forall k, (k < length LP)%nat -> q0 <= mget BLP k 1 /\ q0 <= mget BLP k 2.
Hypothesis LIMS : forall i, (i < n)%nat -> q0 <= mget BN i 3 /\ q0 <= mget BN i 4.
Let NL := length BLP.
Let M0 : nat := (2 * n + 2 * NL)%nat.
Let M : nat := (M0 + 2 * n)%nat.
Let N0 : nat := (2 * NX + 2 * n + 2 * NL)%nat.
Let N1 : nat := (N0 + 2 * n)%nat.
Let INJB := mcol BN 2.
Variable d : lpdata.
Hypothesis CD : connls BB INJB NX NR LT BLP LP BN = Ok d.
Let area (i : nat) := nth i LT 0%nat.

Lemma CAPS' : forall k, (k < length BLP)%nat -> q0 <= mget BLP k 1 /\ q0 <= mget BLP k 2.
Proof. rewrite LB. exact CAPS. Qed.
Lemma inj_area i : (i < n)%nat -> inj INJB NX NR LT i = mget BN (area i) 2.
Proof.
  intros Hi. unfold inj, INJB, area. destruct (Nat.ltb_spec i NX); [apply mcol_nth|]. rewrite mcol_nth.
  replace i with NX by (unfold n in Hi; lia). now rewrite (ref_at NX NR LT ok).
Qed.
Lemma clip_area i : (i < n)%nat -> clip_B INJB NX NR LT BLP BN i = qmin (mget BN (area i) 2) q0.
Proof. intros Hi. unfold clip_B, con_B. fold n. rewrite (proj2 (Nat.ltb_lt _ _) Hi). now rewrite inj_area. Qed.
Lemma fin_area i : (i < n)%nat -> fin_B INJB NX NR LT BLP BN i = - qmin (mget BN (area i) 2) q0.
Proof.
  intros Hi. unfold fin_B. fold n NL M0 M. destruct (Nat.ltb_spec i M); [|unfold M, M0 in *; lia]. rewrite clip_area by exact Hi. apply qabs_neg. apply qmin_le.
Qed.
Lemma fin_rest a : (n <= a)%nat -> (a < M)%nat -> fin_B INJB NX NR LT BLP BN a = con_B INJB NX NR LT BLP BN a.
Proof.
  intros H1 H2. unfold fin_B, clip_B. fold n NL M0 M. rewrite (proj2 (Nat.ltb_lt _ _) H2). destruct (Nat.ltb_spec a n); [lia|].
  apply qabs_nonneg. exact (conB_pos INJB NX NR LT BLP LP BN ok LB CAPS' LIMS a H1 H2).
Qed.
Lemma fin_share i : (i < n)%nat -> fin_B INJB NX NR LT BLP BN (n + i) = qabs (mget BN (area i) 2).
Proof.
  intros Hi. rewrite fin_rest by (unfold M, M0; lia). unfold con_B. fold n. destruct (Nat.ltb_spec (n + i) n); [lia|]. destruct (Nat.ltb_spec (n + i) (2 * n)); [|lia].
  replace (n + i - n)%nat with i by lia. now rewrite inj_area.
Qed.
Lemma fin_fwd l : (l < NL)%nat -> fin_B INJB NX NR LT BLP BN (2 * n + l) = mget BLP l 1.
Proof.
  intros Hl. rewrite fin_rest by (unfold M, M0; lia). unfold con_B. fold n NL M0 M. destruct (Nat.ltb_spec (2 * n + l) n); [lia|]. destruct (Nat.ltb_spec (2 * n + l) (2 * n)); [lia|].
  destruct (Nat.ltb_spec (2 * n + l) (2 * n + NL)); [|lia]. f_equal. lia.
Qed.
Lemma fin_bwd l : (l < NL)%nat -> fin_B INJB NX NR LT BLP BN (2 * n + NL + l) = mget BLP l 2.
Proof.
  intros Hl. rewrite fin_rest by (unfold M, M0; lia). unfold con_B. fold n NL M0 M. destruct (Nat.ltb_spec (2 * n + NL + l) n); [lia|]. destruct (Nat.ltb_spec (2 * n + NL + l) (2 * n)); [lia|].
  destruct (Nat.ltb_spec (2 * n + NL + l) (2 * n + NL)); [lia|]. destruct (Nat.ltb_spec (2 * n + NL + l) M0); [|unfold M0 in *; lia]. f_equal. lia.
Qed.
Lemma fin_out i : (i < n)%nat -> fin_B INJB NX NR LT BLP BN (M0 + i) = mget BN (area i) 4.
Proof.
  intros Hi. rewrite fin_rest by (unfold M, M0; lia). unfold con_B. fold n NL M0 M. destruct (Nat.ltb_spec (M0 + i) n); [unfold M0 in *; lia|]. destruct (Nat.ltb_spec (M0 + i) (2 * n)); [unfold M0 in *; lia|].
  destruct (Nat.ltb_spec (M0 + i) (2 * n + NL)); [unfold M0 in *; lia|]. destruct (Nat.ltb_spec (M0 + i) M0); [lia|]. destruct (Nat.ltb_spec (M0 + i) (M0 + n)); [|lia].
  destruct (Nat.eqb_spec NX 0); [lia|]. replace (M0 + i - M0)%nat with i by lia. reflexivity.
Qed.
Lemma fin_in i : (i < n)%nat -> fin_B INJB NX NR LT BLP BN (M0 + n + i) = mget BN (area i) 3.
Proof.
  intros Hi. rewrite fin_rest by (unfold M, M0; lia). unfold con_B. fold n NL M0 M. destruct (Nat.ltb_spec (M0 + n + i) n); [unfold M0 in *; lia|]. destruct (Nat.ltb_spec (M0 + n + i) (2 * n)); [unfold M0 in *; lia|].
  destruct (Nat.ltb_spec (M0 + n + i) (2 * n + NL)); [unfold M0 in *; lia|]. destruct (Nat.ltb_spec (M0 + n + i) M0); [lia|]. destruct (Nat.ltb_spec (M0 + n + i) (M0 + n)); [lia|].
  destruct (Nat.ltb_spec (M0 + n + i) M); [|unfold M in *; lia].
  destruct (Nat.eqb_spec NX 0); [lia|]. replace (M0 + n + i - M0 - n)%nat with i by lia. reflexivity.
Qed.

(** *** What a solution of the constraints means *)
Notation artA := (art_A BB INJB NX NR LT BLP LP BN).
Notation finB := (fin_B INJB NX NR LT BLP BN).
Definition solves (y : nat -> Qc) : Prop := forall a, (a < M)%nat -> qs (N1 + n) (fun k => artA a k * y k) = finB a.
Section SOLUTION.
Variable y : nat -> Qc.
Hypothesis YS : solves y.
Hypothesis YP : forall k, (k < N1 + n)%nat -> q0 <= y k.
Let F := lflow NX LT BLP LP y.
Let out (i : nat) := net_outflow LP F (area i).
Let x (i : nat) := y (2 * NX + i)%nat.
Lemma sol_share i : (i < n)%nat -> q0 <= x i <= qabs (mget BN (area i) 2).
Proof.
  intros Hi. assert (HA : (n + i < M)%nat) by (unfold M, M0; lia). pose proof (eq_trans (eq_sym (sum_share BB INJB NX NR LT BLP LP BN ok LB CAPS' LIMS y i Hi)) (YS (n + i)%nat HA)) as E. rewrite fin_share in E by exact Hi.
  pose proof (YP (2 * NX + n + i)%nat ltac:(unfold N1, N0; lia)) as P1. fold n in E. change (y (2 * NX + i)%nat) with (x i) in E. split; [apply YP; unfold N1, N0; lia|]. rewrite <- E. qlra.
Qed.
Lemma sol_bus i : (i < n)%nat -> out i = x i + qmin (mget BN (area i) 2) q0 + (if qltb (mget BN (area i) 2) q0 then y (N1 + i)%nat else - y (N1 + i)%nat).
Proof.
  intros Hi. assert (HA : (i < M)%nat) by (unfold M, M0; lia). pose proof (eq_trans (eq_sym (sum_bus BB INJB NX NR LT BLP LP BN ok LI LB BBL y i Hi)) (YS i HA)) as E. rewrite fin_area in E by exact Hi.
  unfold sg in E. rewrite clip_area in E by exact Hi. fold n NL N0 N1 in E. change (net_outflow LP (lflow NX LT BLP LP y) (nth i LT 0%nat)) with (out i) in E. change (y (2 * NX + i)%nat) with (x i) in E.
  destruct (qltb (mget BN (area i) 2) q0) eqn:Q.
  - apply qltb_iff in Q. rewrite (qmin_neg _ Q) in *. rewrite (proj2 (qltb_iff _ _) Q) in E. replace (- q1 * (out i - x i)) with (x i - out i) in E by qring. qlra.
  - apply qltb_false in Q. rewrite (qmin_pos _ Q) in *. change (qltb q0 q0) with false in E. cbv iota in E. replace (q1 * (out i - x i)) with (out i - x i) in E by qring. qlra.
Qed.
Lemma sol_line l : (l < NL)%nat -> within (F l) (mget BLP l 1) (mget BLP l 2) /\ F l = mget BLP l 1 - y (2 * NX + (2 * n + l))%nat.
Proof.
  intros Hl. assert (HA : (2 * n + l < M)%nat) by (unfold M, M0; lia). assert (HB : (2 * n + NL + l < M)%nat) by (unfold M, M0; lia).
  pose proof (eq_trans (eq_sym (sum_fwd BB INJB NX NR LT BLP LP BN ok LI LB CAPS' LIMS y l Hl)) (YS _ HA)) as E1. pose proof (eq_trans (eq_sym (sum_bwd BB INJB NX NR LT BLP LP BN ok LI LB CAPS' LIMS y l Hl)) (YS _ HB)) as E2.
  fold n NL in E1, E2. rewrite fin_fwd in E1 by exact Hl. rewrite fin_bwd in E2 by exact Hl. fold F in E1, E2.
  pose proof (YP (2 * NX + (2 * n + l))%nat ltac:(unfold N1, N0; lia)) as P1. pose proof (YP (2 * NX + (2 * n + NL + l))%nat ltac:(unfold N1, N0; lia)) as P2.
  split; [split; qlra|]. rewrite <- E1. qlra.
Qed.
Lemma sol_area i : (i < n)%nat -> within (- out i) (mget BN (area i) 3) (mget BN (area i) 4).
Proof.
  intros Hi. assert (HA : (M0 + i < M)%nat) by (unfold M, M0; lia). assert (HB : (M0 + n + i < M)%nat) by (unfold M, M0; lia).
  pose proof (eq_trans (eq_sym (sum_out BB INJB NX NR LT BLP LP BN ok LI LB BBL CAPS' LIMS y i Hi)) (YS _ HA)) as E1. pose proof (eq_trans (eq_sym (sum_in BB INJB NX NR LT BLP LP BN ok LI LB BBL CAPS' LIMS y i Hi)) (YS _ HB)) as E2.
  fold n NL in E1, E2. fold M0 in E1, E2. rewrite fin_out in E1 by exact Hi. rewrite fin_in in E2 by exact Hi.
  change (net_outflow LP (lflow NX LT BLP LP y) (nth i LT 0%nat)) with (out i) in E1, E2.
  pose proof (YP (2 * NX + (M0 + i))%nat ltac:(unfold N1, N0, M0; lia)) as P1. pose proof (YP (2 * NX + (M0 + n + i))%nat ltac:(unfold N1, N0, M0; lia)) as P2.
  split; qlra.
Qed.
End SOLUTION.

(** *** Every dispatch is a solution *)
Section DISPATCH.
Variables T g F : nat -> Qc.
Hypothesis DP : dispatch n NR LP BLP BN T g F.
Let xs (i : nat) := unserved BN g (area i).
Definition vars (k : nat) : Qc :=
  if (k <? 2 * NX)%nat then (if Nat.even k then qmax (T (area (Nat.div2 k))) q0 else qmax (- T (area (Nat.div2 k))) q0)
  else if (k <? 2 * NX + n)%nat then xs (k - 2 * NX)
  else if (k <? 2 * NX + 2 * n)%nat then qabs (mget BN (area (k - 2 * NX - n)) 2) - xs (k - 2 * NX - n)
  else if (k <? 2 * NX + 2 * n + NL)%nat then mget BLP (k - 2 * NX - 2 * n) 1 - F (k - 2 * NX - 2 * n)%nat
  else if (k <? N0)%nat then mget BLP (k - 2 * NX - 2 * n - NL) 2 + F (k - 2 * NX - 2 * n - NL)%nat
  else if (k <? N0 + n)%nat then mget BN (area (k - N0)) 4 - g (area (k - N0))
  else if (k <? N1)%nat then mget BN (area (k - N0 - n)) 3 + g (area (k - N0 - n))
  else q0.
Ltac piece := unfold vars; repeat (match goal with |- context [(?a <? ?c)%nat] => destruct (Nat.ltb_spec a c); [try (exfalso; unfold N1, N0 in *; lia)|try (exfalso; unfold N1, N0 in *; lia)] end; try reflexivity).
Lemma v_x i : (i < n)%nat -> vars (2 * NX + i) = xs i.
Proof. intros H. piece. f_equal. lia. Qed.
Lemma v_s i : (i < n)%nat -> vars (2 * NX + n + i) = qabs (mget BN (area i) 2) - xs i.
Proof. intros H. piece. replace (2 * NX + n + i - 2 * NX - n)%nat with i by lia. reflexivity. Qed.
Lemma v_f l : (l < NL)%nat -> vars (2 * NX + (2 * n + l)) = mget BLP l 1 - F l.
Proof. intros H. piece. replace (2 * NX + (2 * n + l) - 2 * NX - 2 * n)%nat with l by lia. reflexivity. Qed.
Lemma v_b l : (l < NL)%nat -> vars (2 * NX + (2 * n + NL + l)) = mget BLP l 2 + F l.
Proof. intros H. piece. replace (2 * NX + (2 * n + NL + l) - 2 * NX - 2 * n - NL)%nat with l by lia. reflexivity. Qed.
Lemma v_o i : (i < n)%nat -> vars (2 * NX + (M0 + i)) = mget BN (area i) 4 - g (area i).
Proof. intros H. unfold M0. piece. replace (2 * NX + (2 * n + 2 * NL + i) - N0)%nat with i by (unfold N0; lia). reflexivity. Qed.
Lemma v_i i : (i < n)%nat -> vars (2 * NX + (M0 + n + i)) = mget BN (area i) 3 + g (area i).
Proof. intros H. unfold M0. piece. replace (2 * NX + (2 * n + 2 * NL + n + i) - N0 - n)%nat with i by (unfold N0; lia). reflexivity. Qed.
Lemma v_a i : vars (N1 + i) = q0.
Proof. piece. Qed.
Lemma v_t c : (c < NX)%nat -> vars (2 * c) = qmax (T (area c)) q0 /\ vars (2 * c + 1) = qmax (- T (area c)) q0.
Proof.
  intros H. unfold vars. destruct (Nat.ltb_spec (2 * c) (2 * NX)); [|lia]. destruct (Nat.ltb_spec (2 * c + 1) (2 * NX)); [|lia].
  replace (2 * c + 1)%nat with (S (2 * c)) by lia. rewrite even2, even21, Nat.div2_double, Nat.div2_succ_double. split; reflexivity.
Qed.
Lemma area_lt i : (i < n)%nat -> (area i < n)%nat.
Proof. apply (at_lt n NR LT ok). Qed.
Lemma xs_range i : (i < n)%nat -> q0 <= xs i <= qabs (mget BN (area i) 2).
Proof.
  intros H. destruct (dp_range _ _ _ _ _ _ _ _ DP (area i) (area_lt i H)) as (R1 & R2). unfold xs, unserved. split; [qlra|].
  destruct (Qclt_le_dec (mget BN (area i) 2) q0) as [Q|Q].
  - rewrite (qmin_neg _ Q), (qmax_neg _ (Qclt_le_weak _ _ Q)), (qabs_neg _ (Qclt_le_weak _ _ Q)) in *. qlra.
  - rewrite (qmin_pos _ Q), (qmax_pos _ Q), (qabs_nonneg _ Q) in *. qlra.
Qed.
Lemma vars_pos k : q0 <= vars k.
Proof.
  unfold vars. assert (MX : forall x, q0 <= qmax x q0) by (intros x; unfold qmax; destruct (qleb x q0) eqn:Q; [apply Qcle_refl|]; apply Qclt_le_weak, Qcnot_le_lt; intros H; apply qleb_iff in H; congruence).
  destruct (Nat.ltb_spec k (2 * NX)); [destruct (Nat.even k); apply MX|].
  destruct (Nat.ltb_spec k (2 * NX + n)); [apply xs_range; lia|].
  destruct (Nat.ltb_spec k (2 * NX + 2 * n)). { destruct (xs_range (k - 2 * NX - n) ltac:(lia)). qlra. }
  destruct (Nat.ltb_spec k (2 * NX + 2 * n + NL)). { destruct (dp_lines _ _ _ _ _ _ _ _ DP (k - 2 * NX - 2 * n)%nat) as (L1 & L2); [rewrite <- LB; fold NL; lia|]. qlra. }
  destruct (Nat.ltb_spec k N0). { destruct (dp_lines _ _ _ _ _ _ _ _ DP (k - 2 * NX - 2 * n - NL)%nat) as (L1 & L2); [rewrite <- LB; fold NL; unfold N0 in *; lia|]. qlra. }
  destruct (Nat.ltb_spec k (N0 + n)). { destruct (dp_areas _ _ _ _ _ _ _ _ DP (area (k - N0)) (area_lt (k - N0) ltac:(lia))) as (L1 & L2). qlra. }
  destruct (Nat.ltb_spec k N1); [|apply Qcle_refl]. destruct (dp_areas _ _ _ _ _ _ _ _ DP (area (k - N0 - n)) (area_lt (k - N0 - n) ltac:(unfold N1 in *; lia))) as (L1 & L2). qlra.
Qed.
Lemma qmax_split t : qmax t q0 - qmax (- t) q0 = t /\ qmax t q0 + qmax (- t) q0 = qabs t.
Proof.
  destruct (Qclt_le_dec t q0) as [Q|Q].
  - rewrite (qmax_neg t (Qclt_le_weak _ _ Q)), (qmax_pos (- t)), (qabs_neg t (Qclt_le_weak _ _ Q)) by qlra. split; qring.
  - rewrite (qmax_pos t Q), (qmax_neg (- t)), (qabs_nonneg t Q) by qlra. split; qring.
Qed.
Lemma vars_ang j : (j < n)%nat -> ang NX LT vars j = T j.
Proof.
  intros H. destruct (Nat.eq_dec j NR) as [->|NE]; [rewrite (ang_ref NX NR LT ok); symmetry; apply (dp_ref _ _ _ _ _ _ _ _ DP)|].
  destruct (ieq_pos' NX NR LT ok j H NE) as (p & Hp & <- & _). rewrite (ang_at NX NR LT ok) by exact Hp. unfold th. destruct (v_t p Hp) as (-> & ->). apply qmax_split.
Qed.
Lemma vars_flow l : (l < NL)%nat -> lflow NX LT BLP LP vars l = F l.
Proof.
  intros H. unfold NL in H. rewrite LB in H. unfold lflow. rewrite (dp_flow _ _ _ _ _ _ _ _ DP l H). destruct (LI (nth l LP (0%nat, 0%nat))) as (H1 & H2 & _); [now apply nth_In|]. now rewrite !vars_ang.
Qed.
Lemma vars_out i : (i < n)%nat -> net_outflow LP (lflow NX LT BLP LP vars) (area i) = g (area i).
Proof.
  intros H. rewrite <- (dp_inj _ _ _ _ _ _ _ _ DP (area i) (area_lt i H)). unfold net_outflow. apply qs_ext. intros k Hk. rewrite vars_flow by (unfold NL; rewrite LB; exact Hk). reflexivity.
Qed.
Lemma vars_solves : solves vars.
Proof.
  intros a Ha. destruct (Nat.ltb_spec a n) as [H|H].
  { rewrite fin_area by exact H. refine (eq_trans (sum_bus BB INJB NX NR LT BLP LP BN ok LI LB BBL vars a H) _).
    change (net_outflow LP (lflow NX LT BLP LP vars) (nth a LT 0%nat)) with (net_outflow LP (lflow NX LT BLP LP vars) (area a)). rewrite vars_out by exact H.
    rewrite v_x by exact H. rewrite (v_a a : vars (2 * NX + 2 * S NX + 2 * length BLP + 2 * S NX + a) = q0). unfold sg. rewrite clip_area by exact H. unfold xs, unserved. set (q := qmin (mget BN (area a) 2) q0).
    destruct (qltb q q0) eqn:Q; [qring|]. assert (q = q0) as ->; [|qring]. apply qltb_false in Q. apply Qcle_antisym; [apply qmin_le|exact Q]. }
  destruct (Nat.ltb_spec a (2 * n)) as [H0|H0].
  { replace a with (n + (a - n))%nat by lia. assert (Hi : (a - n < n)%nat) by lia. rewrite fin_share by exact Hi.
    refine (eq_trans (sum_share BB INJB NX NR LT BLP LP BN ok LB CAPS' LIMS vars (a - n) Hi) _). fold n. rewrite v_x, v_s by exact Hi. ring. }
  destruct (Nat.ltb_spec a (2 * n + NL)) as [H2|H2].
  { replace a with (2 * n + (a - 2 * n))%nat by lia. assert (Hi : (a - 2 * n < NL)%nat) by lia. rewrite fin_fwd by exact Hi.
    refine (eq_trans (sum_fwd BB INJB NX NR LT BLP LP BN ok LI LB CAPS' LIMS vars (a - 2 * n) Hi) _). fold n. rewrite vars_flow, v_f by exact Hi. ring. }
  destruct (Nat.ltb_spec a M0) as [H3|H3].
  { replace a with (2 * n + NL + (a - 2 * n - NL))%nat by lia. assert (Hi : (a - 2 * n - NL < NL)%nat) by (unfold M0 in *; lia). rewrite fin_bwd by exact Hi.
    refine (eq_trans (sum_bwd BB INJB NX NR LT BLP LP BN ok LI LB CAPS' LIMS vars (a - 2 * n - NL) Hi) _). fold n NL. rewrite vars_flow, v_b by exact Hi. ring. }
  destruct (Nat.ltb_spec a (M0 + n)) as [H4|H4].
  { replace a with (M0 + (a - M0))%nat by lia. assert (Hi : (a - M0 < n)%nat) by lia. rewrite fin_out by exact Hi.
    refine (eq_trans (sum_out BB INJB NX NR LT BLP LP BN ok LI LB BBL CAPS' LIMS vars (a - M0) Hi) _). fold n NL. fold M0. fold (area (a - M0)). rewrite vars_out, v_o by exact Hi. ring. }
  replace a with (M0 + n + (a - M0 - n))%nat by lia. assert (Hi : (a - M0 - n < n)%nat) by (unfold M in *; lia). rewrite fin_in by exact Hi.
  refine (eq_trans (sum_in BB INJB NX NR LT BLP LP BN ok LI LB BBL CAPS' LIMS vars (a - M0 - n) Hi) _). fold n NL. fold M0. fold (area (a - M0 - n)). rewrite vars_out, v_i by exact Hi. ring.
Qed.
Lemma area_sum (f : nat -> Qc) : qs n (fun i => f (area i)) = qs n f.
Proof. apply (qs_reindex n NR LT ok). Qed.
(** The sum of the variables. *)
Lemma vars_size : qs N1 vars = lp_size n LP BLP BN T.
Proof.
  unfold lp_size. replace N1 with (2 * NX + (n + (n + (NL + (NL + (n + n))))))%nat by (unfold N1, N0; lia). rewrite !qs_app, qs_pairs2.
  rewrite (qs_ext NX _ (fun c => qabs (T (area c)))).
  2:{ intros c Hc. destruct (v_t c Hc) as (-> & ->). apply qmax_split. }
  rewrite (qs_ext n (fun i => vars (2 * NX + i)) xs) by (intros; now apply v_x).
  rewrite (qs_ext n (fun i => vars (2 * NX + (n + i))) (fun i => qabs (mget BN (area i) 2) - xs i)) by (intros; rewrite Nat.add_assoc; now apply v_s).
  rewrite (qs_ext NL (fun i => vars (2 * NX + (n + (n + i)))) (fun i => mget BLP i 1 - F i)) by (intros; rewrite <- v_f by assumption; f_equal; lia).
  rewrite (qs_ext NL (fun i => vars (2 * NX + (n + (n + (NL + i))))) (fun i => mget BLP i 2 + F i)) by (intros; rewrite <- v_b by assumption; f_equal; lia).
  rewrite (qs_ext n (fun i => vars (2 * NX + (n + (n + (NL + (NL + i)))))) (fun i => mget BN (area i) 4 - g (area i))) by (intros; rewrite <- v_o by assumption; f_equal; unfold M0; lia).
  rewrite (qs_ext n (fun i => vars (2 * NX + (n + (n + (NL + (NL + (n + i))))))) (fun i => mget BN (area i) 3 + g (area i))) by (intros; rewrite <- v_i by assumption; f_equal; unfold M0; lia).
  rewrite !qs_minus, !qs_plus. rewrite (area_sum (fun j => qabs (mget BN j 2))), (area_sum (fun j => mget BN j 4)), (area_sum (fun j => mget BN j 3)), (area_sum g).
  replace (qs NX (fun c => qabs (T (area c)))) with (qs n (fun i => qabs (T i))).
  2:{ rewrite <- (area_sum (fun i => qabs (T i))). unfold n at 1. rewrite qs_S. unfold area at 2. rewrite (ref_at NX NR LT ok), (dp_ref _ _ _ _ _ _ _ _ DP). change (qabs q0) with q0. qring. }
  unfold NL. rewrite LB. ring.
Qed.
(** The objective. *)
Lemma cost_sum y : (forall i, (i < n)%nat -> y (2 * NX + i)%nat = xs i) -> qs N1 (fun k => cost INJB NX NR LT k * y k) = total_unserved n BN g.
Proof.
  intros H. replace N1 with (2 * NX + (n + (N1 - 2 * NX - n)))%nat by (unfold N1, N0; lia). rewrite !qs_app.
  rewrite (qs_zero (2 * NX)), (qs_zero (N1 - 2 * NX - n)).
  - rewrite (qs_ext n _ (fun i => (fun j => if qleb (mget BN j 2) q0 then unserved BN g j else q0) (area i))).
    + rewrite (area_sum (fun j => if qleb (mget BN j 2) q0 then unserved BN g j else q0)). unfold total_unserved. qring.
    + intros i Hi. unfold cost. fold n. rewrite (proj2 (Nat.leb_le _ _)), (proj2 (Nat.ltb_lt _ _)) by lia. replace (2 * NX + i - 2 * NX)%nat with i by lia. rewrite inj_area by exact Hi. cbn [andb].
      rewrite H by exact Hi. unfold xs. destruct (qleb _ q0); qring.
  - intros i Hi. unfold cost. fold n. rewrite (proj2 (Nat.ltb_ge _ _)) by lia. rewrite andb_false_r. cbn [andb]. qring.
  - intros i Hi. unfold cost. rewrite (proj2 (Nat.leb_gt _ _)) by lia. cbn [andb]. qring.
Qed.
End DISPATCH.

(** *** The result *)
Lemma linp_nls fuel FLOW BN' : lp_nls fuel LP LT NR BB BLP BN = Ok (FLOW, BN') -> exists s, linp fuel d = Ok s /\
  let R k := net (d_B d) (d_B1 d) (fun _ _ => q0) (s_IBAS s) (s_BS s) (d_M d) (d_N1 d) k 0%nat in
  FLOW = map (fun l => R (4 * NX + 2 + l)%nat) (seq 0 NL) /\ BN' = store_lp LT R NX BN.
Proof.
  unfold lp_nls. assert (E : (length BN - 1)%nat = NX) by (destruct SB as (-> & _); unfold n; lia). rewrite E. change (mcol BN 2) with INJB. rewrite CD. cbn [bind].
  destruct (linp fuel d) as [s|e] eqn:L; [|discriminate]. cbn [bind]. intros H. apply ok_inj in H. exists s. split; [reflexivity|]. cbv zeta. injection H as <- <-. split; reflexivity.
Qed.
Lemma row_solves s : inv (d_M d) (d_A d) (d_BS d) s -> (forall k, In k (s_IBAS s) -> (k < d_N d)%nat) -> solves (basic_value (d_M d) s).
Proof.
  destruct (connls_ok BB INJB NX NR LT BLP LP BN ok LI LB CAPS' LIMS d CD) as (LO & EM & EN1 & EN & EA & EBS & EB & _).
  intros IV RG a Ha. destruct (row_of_back NX BLP LP LB a Ha) as (j & Hj & Ej).
  pose proof (basic_solves (d_M d) (d_N d) (d_A d) (d_BS d) s IV RG j) as H. rewrite EM in H at 1. specialize (H Hj). rewrite EN, EA, EBS in H. rewrite Ej in H.
  refine (eq_trans H _). unfold vget. rewrite (nth_map_in _ _ _ 0%nat) by (rewrite seq_length; exact Hj). rewrite seq_nth by exact Hj. cbn [Nat.add]. now rewrite Ej.
Qed.
Theorem lp_result fuel FLOW BN' : lp_nls fuel LP LT NR BB BLP BN = Ok (FLOW, BN') -> well_scaled d ->
  exists T g e, congested n NR m LT LP BLP BN FLOW BN' T g e /\
    ((forall s, linp fuel d = Ok s -> forall k, In k (s_IBAS s) -> (k < d_N1 d)%nat) -> forall i, e i = q0) /\
    forall T' g' flow', dispatch n NR LP BLP BN T' g' flow' ->
      total_unserved n BN g + qs n e <= total_unserved n BN g' + TOL * lp_size n LP BLP BN T'.
Proof.
  intros E WS. destruct (linp_nls fuel FLOW BN' E) as (s & ES & EF & EBN). cbv zeta in EF, EBN.
  destruct (connls_ok BB INJB NX NR LT BLP LP BN ok LI LB CAPS' LIMS d CD) as (LO & EM & EN1 & EN & EA & EBS & EB & _ & _ & EX0 & EX1).
  destruct (linp_final d fuel s LO WS ES) as ([IV XOBS POS RNG] & PH & EXIT).
  set (y := basic_value (d_M d) s) in *. pose proof (row_solves s IV RNG) as YS. fold y in YS.
  assert (YP : forall k, q0 <= y k) by (intros k; now apply basic_pos).
  assert (YP' : forall k, (k < N1 + n)%nat -> q0 <= y k) by (intros; apply YP).
  fold n NL M0 M N0 N1 in EM, EN1, EN.
  assert (ENX : (n - 1)%nat = NX) by (unfold n; lia).
  set (ps := pos n LT).
  assert (PA : forall i, (i < n)%nat -> ps (area i) = i) by (intros i Hi; apply (pos_at n NR LT ok i Hi)).
  assert (AP : forall j, (j < n)%nat -> exists i, (i < n)%nat /\ area i = j /\ ps j = i).
  { intros j Hj. destruct (at_surj n NR LT ok j Hj) as (i & Hi & <-). exists i. split; [exact Hi|]. split; [reflexivity|]. now apply PA. }
  set (x := fun i => y (2 * NX + i)%nat).
  set (g := fun j => x (ps j) + qmin (mget BN j 2) q0). set (e := fun j => y (N1 + ps j)%nat). set (T := ang NX LT y).
  assert (DIV : (N1 - M = 2 * NX)%nat) by (unfold N1, N0, M, M0; lia).
  assert (RV : forall i, (i < M)%nat -> net (d_B d) (d_B1 d) (fun _ _ => q0) (s_IBAS s) (s_BS s) (d_M d) (d_N1 d) (2 * NX + i)%nat 0%nat =
     (if Nat.eqb i 0 then y (2 * NX + i)%nat else - y (2 * NX + i)%nat) + finB i).
  { intros i Hi. rewrite EM, EN1, EB. rewrite EM in IV. rewrite (net_value M N1 (d_A d) (d_BS d) s _ _ _ IV) by (unfold N1, N0, M, M0 in *; lia).
    rewrite DIV. replace (2 * NX + i - 2 * NX)%nat with i by lia. unfold y. rewrite EM. destruct (Nat.eqb_spec (2 * NX + i) (2 * NX)), (Nat.eqb_spec i 0); try lia; reflexivity. }
  assert (FV : forall k, (k < length LP)%nat -> vget FLOW k = lflow NX LT BLP LP y k).
  { intros k Hk. rewrite <- LB in Hk. fold NL in Hk. rewrite EF. unfold vget. rewrite (nth_map_in _ _ _ 0%nat) by (rewrite seq_length; exact Hk). rewrite seq_nth by exact Hk. cbn [Nat.add].
    replace (4 * NX + 2 + k)%nat with (2 * NX + (2 * n + k))%nat by (unfold n; lia). rewrite RV by (unfold M, M0; lia).
    destruct (Nat.eqb_spec (2 * n + k) 0); [unfold n in *; lia|]. rewrite fin_fwd by exact Hk.
    destruct (sol_line y YS YP' k Hk) as (_ & EL). rewrite EL. ring. }
  assert (OUT : forall j, net_outflow LP (vget FLOW) j = net_outflow LP (lflow NX LT BLP LP y) j).
  { intros j. unfold net_outflow. apply qs_ext. intros k Hk. now rewrite FV. }
  assert (GR : forall j, (j < n)%nat -> qmin (mget BN j 2) q0 <= g j <= qmax (mget BN j 2) q0).
  { intros j Hj. destruct (AP j Hj) as (i & Hi & EA' & EP). unfold g. rewrite EP. destruct (sol_share y YS YP' i Hi) as (S1 & S2). rewrite EA' in S2. fold (x i) in S1, S2. split; [qlra|].
    destruct (Qclt_le_dec (mget BN j 2) q0) as [Q|Q].
    - rewrite (qmin_neg _ Q), (qmax_neg _ (Qclt_le_weak _ _ Q)), (qabs_neg _ (Qclt_le_weak _ _ Q)) in *. qlra.
    - rewrite (qmin_pos _ Q), (qmax_pos _ Q), (qabs_nonneg _ Q) in *. qlra. }
  exists T, g, e. split; [|split].
  - destruct (store_lp_spec n m LT (fun k => net (d_B d) (d_B1 d) (fun _ _ => q0) (s_IBAS s) (s_BS s) (d_M d) (d_N1 d) k 0%nat) NX BN NR ok eq_refl SB ltac:(lia)) as (SH & ST & KP).
    rewrite <- EBN in SH, ST, KP. constructor; try assumption.
    + rewrite EF, map_length, seq_length. exact LB.
    + apply (ang_ref NX NR LT ok).
    + intros j Hj. rewrite OUT. destruct (AP j Hj) as (i & Hi & EA' & EP). unfold g, e. rewrite EP. pose proof (sol_bus y YS i Hi) as SBU. cbv beta zeta in SBU. rewrite !EA' in SBU. exact SBU.
    + intros k Hk. rewrite FV by exact Hk. rewrite <- LB in Hk. apply (sol_line y YS YP' k Hk).
    + intros j Hj. rewrite OUT. destruct (AP j Hj) as (i & Hi & EA' & EP). pose proof (sol_area y YS YP' i Hi) as SA. cbv beta zeta in SA. rewrite !EA' in SA. exact SA.
    + intros j Hj. apply YP.
    + intros j Hj NF. destruct (AP j Hj) as (i & Hi & EA' & EP). destruct (ST i Hi) as (S1 & S2). fold (area i) in S1, S2. rewrite EA' in S1, S2. rewrite S1, S2.
      rewrite (RV i) by (unfold M, M0; lia). destruct (Nat.eqb_spec i 0) as [Z|NZ]; [subst i; unfold area in EA'; congruence|].
      rewrite fin_area by exact Hi. rewrite EA'. unfold unserved. destruct (GR j Hj) as (G1 & G2). unfold g in *. rewrite EP in *. fold (x i).
      replace (- (- x i + - qmin (mget BN j 2) q0)) with (x i + qmin (mget BN j 2) q0) by ring. split; [reflexivity|].
      destruct (qltb (mget BN j 2) q0) eqn:Q.
      * apply qltb_iff in Q. rewrite (qmin_neg _ Q) in *. rewrite qmax_pos; [ring|]. qlra.
      * apply qltb_false in Q. rewrite (qmin_pos _ Q) in *. rewrite (qmax_pos _ Q) in G2. rewrite qmax_neg; [reflexivity|]. qlra.
    + cbv zeta. assert (H0 : (0 < n)%nat) by (unfold n; lia). destruct (ST 0%nat H0) as (S1 & S2). rewrite S1, S2. rewrite (RV 0%nat) by (unfold M, M0; lia). cbn [Nat.eqb].
      rewrite fin_area by exact H0. fold (x 0%nat). unfold g. change (nth 0 LT 0%nat) with (area 0). rewrite PA by exact H0.
      split; [ring|]. apply qmax_neg. pose proof (YP (2 * NX + 0)%nat) as P0. fold (x 0%nat) in P0. destruct (Qclt_le_dec (mget BN (area 0) 2) q0) as [Q|Q].
      * rewrite (qmin_neg _ Q). qlra.
      * rewrite (qmin_pos _ Q). qlra.
  - intros NA i. apply basic_out with (A := d_A d) (b := d_BS d); [exact IV|]. intros HI. specialize (NA s ES _ HI). rewrite EN1 in NA. lia.
  - intros T' g' flow' DP. set (v := vars T' g' flow').
    assert (VF : forall i, (i < d_M d)%nat -> qs (d_N1 d) (fun k => d_A d i k * v k) = vget (d_BS d) i).
    { intros j Hj. rewrite EM in Hj. rewrite EN1, EA, EBS. unfold vget. rewrite (nth_map_in _ _ _ 0%nat) by (rewrite seq_length; exact Hj). rewrite seq_nth by exact Hj. cbn [Nat.add].
      rewrite <- (vars_solves T' g' flow' DP (row_of NX BLP j) (row_of_lt NX BLP LP LB j Hj)). fold v. rewrite qs_app. rewrite (qs_zero n); [qring|]. intros i Hi. unfold v. rewrite v_a. qring. }
    pose proof (basic_optimal (d_M d) (d_N d) (d_A d) (d_BS d) s IV RNG (d_N1 d) v (fun k _ => vars_pos T' g' flow' DP k) VF EXIT) as OPT. fold y in OPT.
    rewrite EN, EN1 in OPT. rewrite qs_app in OPT. unfold v in OPT at 2. rewrite (vars_size T' g' flow' DP) in OPT.
    rewrite (qs_ext N1 (fun k => s_XOB s k * y k) (fun k => cost INJB NX NR LT k * y k)) in OPT.
    2:{ intros k Hk. rewrite XOBS, PH. unfold costs, cost2. rewrite EN1, (proj2 (Nat.ltb_lt _ _) Hk), EX1. fold n NL. fold N0. fold N1. now rewrite (proj2 (Nat.ltb_lt _ _) Hk). }
    rewrite (qs_ext N1 (fun k => s_XOB s k * v k) (fun k => cost INJB NX NR LT k * v k)) in OPT.
    2:{ intros k Hk. rewrite XOBS, PH. unfold costs, cost2. rewrite EN1, (proj2 (Nat.ltb_lt _ _) Hk), EX1. fold n NL. fold N0. fold N1. now rewrite (proj2 (Nat.ltb_lt _ _) Hk). }
    rewrite (qs_ext n (fun i => s_XOB s (N1 + i)%nat * y (N1 + i)%nat) (fun i => e (area i))) in OPT.
    2:{ intros i Hi. rewrite XOBS, PH. unfold costs, cost2. rewrite EN1. destruct (Nat.ltb_spec (N1 + i) N1); [lia|]. rewrite EX0. fold n NL. fold N0. fold N1.
        rewrite (proj2 (Nat.leb_le _ _)), (proj2 (Nat.ltb_lt _ _)) by lia. cbn [andb]. unfold e. rewrite PA by exact Hi. qring. }
    rewrite (area_sum e) in OPT.
    rewrite (cost_sum g' v) in OPT by (intros i Hi; unfold v; now apply v_x).
    rewrite (cost_sum g y) in OPT; [exact OPT|]. intros i Hi. unfold unserved, g. rewrite PA by exact Hi. unfold x. ring.
Qed.
End MAIN.
