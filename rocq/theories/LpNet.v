(** Proofs about [connls]: what the rows of the linear program say. *)
From Coq Require Import Field.
From Verif Require Import Base BaseProofs Sums LoadModel LoadSpec NetModel NetSpec MatProofs NetProofs FlowProofs LpModel LpSpec.
Open Scope Qc_scope.

Lemma even2 m : Nat.even (2 * m) = true. Proof. rewrite Nat.even_mul. reflexivity. Qed.
Lemma even21 m : Nat.even (S (2 * m)) = false. Proof. rewrite Nat.even_succ, Nat.odd_mul. reflexivity. Qed.
Lemma qs_pairs m x y : qs (2 * m) (fun b => pair_col x b * y b) = qs m (fun c => x c * (y (2 * c)%nat - y (2 * c + 1)%nat)).
Proof.
  induction m as [|m IH]; [reflexivity|]. replace (2 * S m)%nat with (S (S (2 * m))) by lia. rewrite !qs_S, IH. unfold pair_col.
  rewrite even2, even21, Nat.div2_double, Nat.div2_succ_double. replace (2 * m + 1)%nat with (S (2 * m)) by lia. ring.
Qed.
Lemma qs_head N m f : (m <= N)%nat -> qs N (fun k => if (k <? m)%nat then f k else q0) = qs m f.
Proof.
  intros H. induction H as [|N H IH].
  - apply qs_ext. intros i Hi. destruct (Nat.ltb_spec i m); [reflexivity|lia].
  - rewrite qs_S, IH. destruct (Nat.ltb_spec N m); [lia|]. qring.
Qed.
Lemma qs_row N m e w (g c y : nat -> Qc) : (m <= N)%nat -> (e < N)%nat ->
  (forall k, (k < N)%nat -> c k = (if (k <? m)%nat then g k else q0) + (if Nat.eqb k e then w else q0)) ->
  qs N (fun k => c k * y k) = qs m (fun k => g k * y k) + w * y e.
Proof.
  intros Hm He H. rewrite (qs_ext N _ (fun k => (if (k <? m)%nat then g k * y k else q0) + (if Nat.eqb k e then w * y k else q0))).
  - rewrite qs_plus, qs_head by exact Hm. now rewrite (qs_delta N e (fun k => w * y k)).
  - intros k Hk. rewrite (H k Hk). destruct (k <? m)%nat, (Nat.eqb k e); qring.
Qed.

Lemma ok_inj {X} (a b : X) : Ok a = Ok b -> a = b. Proof. now intros [= ->]. Qed.

Section ROWS.
Variables (BC : list (list Qc)) (INJB : list Qc) (NX NR : nat) (LT : list nat) (BLP : list (list Qc)) (LP : list (nat * nat)) (BN : list (list Qc)).
Let n : nat := S NX.
Let NL : nat := length BLP.
Let IEQ : list nat := ieq_of LT NX NR.
Let M0 : nat := (2 * n + 2 * NL)%nat.
Let M : nat := (M0 + 2 * n)%nat.
Let N0 : nat := (2 * NX + 2 * n + 2 * NL)%nat.
Let N1 : nat := (N0 + 2 * n)%nat.
Notation conA := (con_A BC NX NR LT BLP LP).
Notation conB := (con_B INJB NX NR LT BLP BN).
Notation clipB := (clip_B INJB NX NR LT BLP BN).
Notation artA := (art_A BC INJB NX NR LT BLP LP BN).
Notation finB := (fin_B INJB NX NR LT BLP BN).
Notation inj := (inj INJB NX NR LT).

Hypothesis ok : order_ok n NR LT.
Hypothesis LI : lines_in n LP.
Hypothesis LB : length BLP = length LP.

Lemma ieq_at' a : (a < NX)%nat -> nth (nth a LT 0%nat) IEQ 0%nat = a.
Proof. intros H. pose proof (ieq_at n NR LT ok a) as E. unfold n in E. rewrite Nat.sub_succ, Nat.sub_0_r in E. exact (E H). Qed.
Lemma ieq_pos' i : (i < n)%nat -> i <> NR -> exists p, (p < NX)%nat /\ nth p LT 0%nat = i /\ nth i IEQ 0%nat = p.
Proof. intros H1 H2. destruct (ieq_pos n NR LT ok i H1 H2) as (p & A1 & A2 & A3). unfold n in *. rewrite Nat.sub_succ, Nat.sub_0_r in *. exists p. auto. Qed.
Lemma LT_length : length LT = n. Proof. apply ok. Qed.
Lemma ref_lt : (NR < n)%nat.
Proof. destruct ok as (L & _ & I & P & E). rewrite <- E. apply I, nth_In. lia. Qed.
Lemma ref_at : nth NX LT 0%nat = NR.
Proof. destruct ok as (L & _ & I & P & E). unfold n in E. rewrite Nat.sub_succ, Nat.sub_0_r in E. exact E. Qed.
Lemma ieq_ref : nth NR IEQ 0%nat = NX.
Proof.
  unfold IEQ, ieq_of. apply nth_upd_same. assert (F : forall l (v : list nat), length (fold_left (fun v (p : nat * nat) => upd v (snd p) (fst p)) l v) = length v).
  { induction l as [|p l IH]; intros v; [reflexivity|]. cbn [fold_left]. now rewrite IH, upd_length. }
  rewrite F, repeat_length, LT_length. apply ref_lt.
Qed.
Lemma ieq_le i : (i < n)%nat -> (nth i IEQ 0 <= NX)%nat.
Proof. intros H. destruct (Nat.eq_dec i NR) as [->|N]; [rewrite ieq_ref; lia|]. destruct (ieq_pos' i H N) as (p & Hp & _ & ->). lia. Qed.
Lemma line_ends k : (k < NL)%nat -> let '(f, t) := nth k LP (0%nat, 0%nat) in (f < n)%nat /\ (t < n)%nat /\ f <> t.
Proof. intros H. pose proof (LI (nth k LP (0%nat, 0%nat))) as E. destruct (nth k LP (0%nat, 0%nat)) as [f t] eqn:Q. apply E. rewrite <- Q. apply nth_In. unfold NL in H. lia. Qed.

(** *** Angles *)
Definition th (y : nat -> Qc) (c : nat) : Qc := y (2 * c)%nat - y (2 * c + 1)%nat.
Definition ang (y : nat -> Qc) : nat -> Qc := extend n LT (th y).
Lemma ang_at y a : (a < NX)%nat -> ang y (nth a LT 0%nat) = th y a.
Proof. intros H. apply (extend_at n NR LT ok). unfold n. rewrite Nat.sub_succ, Nat.sub_0_r. exact H. Qed.
Lemma ang_ref y : ang y NR = q0. Proof. apply (extend_ref n NR LT ok). Qed.
Lemma ang_ieq y i : (i < n)%nat -> ang y i = if (nth i IEQ 0 <? NX)%nat then th y (nth i IEQ 0%nat) else q0.
Proof.
  intros H. destruct (Nat.eq_dec i NR) as [->|N].
  - rewrite ang_ref, ieq_ref, Nat.ltb_irrefl. reflexivity.
  - destruct (ieq_pos' i H N) as (p & Hp & <- & E). rewrite E, ang_at by exact Hp. destruct (Nat.ltb_spec p NX); [reflexivity|lia].
Qed.
Definition lflow (y : nat -> Qc) (k : nat) : Qc :=
  (ang y (fst (nth k LP (0%nat, 0%nat))) - ang y (snd (nth k LP (0%nat, 0%nat)))) * mget BLP k 0.

(** *** The reference row *)
Lemma ref_sum_zero c : (NX <= c)%nat -> ref_sum LP BLP IEQ NR c = q0.
Proof.
  intros Hc. unfold ref_sum. apply (qs_zero NL). intros i Hi. pose proof (line_ends i Hi) as E. destruct (nth i LP (0%nat, 0%nat)) as [f t]. destruct E as (Hf & Ht & NE).
  assert (Z : forall a b, (a < n)%nat -> (b < n)%nat -> a <> b -> Nat.eqb a NR && Nat.eqb (nth b IEQ 0%nat) c = false).
  { intros a b Ha Hb N. destruct (Nat.eqb_spec a NR) as [->|]; [|reflexivity]. destruct (ieq_pos' b Hb (not_eq_sym N)) as (p & Hp & _ & ->). destruct (Nat.eqb_spec p c); [lia|reflexivity]. }
  rewrite !Z by auto. qring.
Qed.
Lemma ref_row y : qs NX (fun c => ref_sum LP BLP IEQ NR c * th y c) = - net_outflow LP (lflow y) NR.
Proof.
  unfold net_outflow. rewrite <- LB. fold NL. rewrite <- qs_opp.
  rewrite (qs_ext NX _ (fun c => qs NL (fun i => (let '(f, t) := nth i LP (0%nat, 0%nat) in
    (if Nat.eqb f NR && Nat.eqb (nth t IEQ 0%nat) c then mget BLP i 0 else q0) + (if Nat.eqb t NR && Nat.eqb (nth f IEQ 0%nat) c then mget BLP i 0 else q0)) * th y c))).
  2:{ intros c Hc. unfold ref_sum. change (qsum (map ?g (seq 0 (length BLP)))) with (qs NL g). apply qs_mul_r. }
  rewrite qs_exchange. apply qs_ext. intros i Hi. pose proof (line_ends i Hi) as E. unfold lflow. destruct (nth i LP (0%nat, 0%nat)) as [f t]. cbn [fst snd]. destruct E as (Hf & Ht & NE).
  assert (D : forall b, (b < n)%nat -> b <> NR -> qs NX (fun c => if Nat.eqb (nth b IEQ 0%nat) c then mget BLP i 0 * th y c else q0) = mget BLP i 0 * ang y b).
  { intros b Hb N. destruct (ieq_pos' b Hb N) as (p & Hp & E1 & E2). rewrite E2. rewrite <- E1, ang_at by exact Hp.
    rewrite (qs_ext NX _ (fun c => if Nat.eqb c p then mget BLP i 0 * th y c else q0)) by (intros c Hc; now rewrite Nat.eqb_sym).
    now rewrite (qs_delta NX p (fun c => mget BLP i 0 * th y c)). }
  destruct (Nat.eqb_spec f NR) as [->|NF].
  - destruct (Nat.eqb_spec t NR); [congruence|]. cbn [andb].
    rewrite (qs_ext NX _ (fun c => if Nat.eqb (nth t IEQ 0%nat) c then mget BLP i 0 * th y c else q0)) by (intros c Hc; destruct (Nat.eqb _ c); qring).
    rewrite D by auto. rewrite ang_ref. qring.
  - cbn [andb]. destruct (Nat.eqb_spec t NR) as [->|NT]; cbn [andb].
    + rewrite (qs_ext NX _ (fun c => if Nat.eqb (nth f IEQ 0%nat) c then mget BLP i 0 * th y c else q0)) by (intros c Hc; destruct (Nat.eqb _ c); qring).
      rewrite D by auto. rewrite ang_ref. qring.
    + rewrite qs_zero by (intros; qring). qring.
Qed.

(** *** The line rows *)
Lemma line_row_sum y i : (i < NL)%nat -> qs (2 * NX) (fun b => line_coef LP BLP IEQ NX i b * y b) = lflow y i.
Proof.
  intros Hi. pose proof (line_ends i Hi) as E. unfold lflow, line_coef. destruct (nth i LP (0%nat, 0%nat)) as [f t]. cbn [fst snd]. destruct E as (Hf & Ht & NE).
  set (J4 := nth f IEQ 0%nat) in *. set (J5 := nth t IEQ 0%nat) in *.
  assert (D45 : (J4 < NX)%nat -> J4 <> J5).
  { intros H E. apply NE. destruct (Nat.eq_dec f NR) as [->|NF]; [unfold J4 in H; rewrite ieq_ref in H; lia|].
    destruct (Nat.eq_dec t NR) as [->|NT]; [unfold J5 in E; rewrite ieq_ref in E; lia|].
    destruct (ieq_pos' f Hf NF) as (p & _ & <- & E1). destruct (ieq_pos' t Ht NT) as (q & _ & <- & E2). unfold J4, J5 in E. rewrite E1, E2 in E. now subst. }
  rewrite (qs_ext (2 * NX) _ (fun b => pair_col (fun c => (if (J4 <? NX)%nat && Nat.eqb c J4 then mget BLP i 0 else q0) - (if (J5 <? NX)%nat && Nat.eqb c J5 then mget BLP i 0 else q0)) b * y b)).
  2:{ intros b Hb. f_equal. unfold pair_col. destruct (Nat.ltb_spec J5 NX), (Nat.ltb_spec J4 NX), (Nat.eqb_spec (Nat.div2 b) J5), (Nat.eqb_spec (Nat.div2 b) J4); cbn [andb];
      try (exfalso; apply D45; [assumption|congruence]); destruct (Nat.even b); qring. }
  rewrite qs_pairs. fold (th y).
  assert (D : forall J, qs NX (fun c => if (J <? NX)%nat && Nat.eqb c J then mget BLP i 0 * th y c else q0) = mget BLP i 0 * (if (J <? NX)%nat then th y J else q0)).
  { intros J. destruct (Nat.ltb_spec J NX) as [H|H]; cbn [andb]; [now rewrite (qs_delta NX J (fun c => mget BLP i 0 * th y c))|]. rewrite qs_zero by reflexivity. qring. }
  rewrite (qs_ext NX _ (fun c => (if (J4 <? NX)%nat && Nat.eqb c J4 then mget BLP i 0 * th y c else q0) - (if (J5 <? NX)%nat && Nat.eqb c J5 then mget BLP i 0 * th y c else q0))).
  2:{ intros c Hc. fold (th y c). destruct ((J4 <? NX)%nat && Nat.eqb c J4), ((J5 <? NX)%nat && Nat.eqb c J5); qring. }
  rewrite qs_minus, !D, !ang_ieq by assumption. fold J4 J5. ring.
Qed.

(** *** The area rows *)
Hypothesis BBL : forall a c, (a < NX)%nat -> (c < NX)%nat -> mget BC a c = reduced LT (wlines LP BLP) a c.
Lemma outflow_lap y i : (i < n)%nat -> qs n (fun j => lap (wlines LP BLP) i j * ang y j) = net_outflow LP (lflow y) i.
Proof.
  intros Hi. set (T := vtab n (ang y)). assert (ET : forall j, (j < n)%nat -> vget T j = ang y j) by (intros; unfold T; now apply vget_vtab).
  rewrite (qs_ext n _ (fun j => lap (wlines LP BLP) i j * vget T j)) by (intros; now rewrite ET).
  rewrite <- (outflow_mv n (wlines LP BLP) T i (wlines_ok n LP BLP LI)).
  rewrite <- (net_outflow_sum LP BLP T (map (line_flow T) (wlines LP BLP)) LB eq_refl).
  unfold net_outflow. apply qs_ext. intros k Hk. assert (E : vget (map (line_flow T) (wlines LP BLP)) k = lflow y k); [|now rewrite E].
  unfold vget. rewrite (nth_map_in (line_flow T) _ _ ((0%nat, 0%nat), q0)) by (rewrite wlines_length by exact LB; exact Hk).
  unfold wlines. rewrite combine_nth by (rewrite mcol_length; lia). unfold line_flow, lflow. cbn [fst snd]. change (nth k (mcol BLP 0) q0) with (vget (mcol BLP 0) k). rewrite mcol_nth.
  destruct (LI (nth k LP (0%nat, 0%nat))) as (H1 & H2 & _); [apply nth_In; exact Hk|]. rewrite !ET by assumption. reflexivity.
Qed.
(** h: net power leaving the area of row i *)
Definition outrow (i b : nat) : Qc := if (i <? NX)%nat then pair_col (fun c => mget BC i c) b else - pair_col (ref_sum LP BLP IEQ NR) b.
Lemma outrow_sum y i : (i < n)%nat -> qs (2 * NX) (fun b => outrow i b * y b) = net_outflow LP (lflow y) (nth i LT 0%nat).
Proof.
  intros Hi. unfold outrow. destruct (Nat.ltb_spec i NX) as [H|H].
  - rewrite qs_pairs. rewrite <- outflow_lap by (apply (at_lt n NR LT ok); exact Hi). unfold ang. rewrite <- (red_mv n NR LT ok (wlines LP BLP) (th y)).
    unfold n. rewrite Nat.sub_succ, Nat.sub_0_r. apply qs_ext. intros c Hc. rewrite BBL by assumption. reflexivity.
  - assert (i = NX) as -> by (unfold n in Hi; lia). rewrite ref_at.
    rewrite (qs_ext (2 * NX) _ (fun b => - (pair_col (ref_sum LP BLP IEQ NR) b * y b))) by (intros; ring). rewrite qs_opp, qs_pairs. fold (th y).
    change (- qs NX (fun c => ref_sum LP BLP IEQ NR c * th y c) = net_outflow LP (lflow y) NR). rewrite ref_row. ring.
Qed.
Lemma pair_zero x b : x (Nat.div2 b) = q0 -> pair_col x b = q0.
Proof. intros E. unfold pair_col. rewrite E. destruct (Nat.even b); qring. Qed.
Lemma bus_row_eq i b : (i < n)%nat -> bus_row BC LP BLP IEQ NX NR i b = (if (b <? 2 * NX)%nat then outrow i b else q0) + (if Nat.eqb b (2 * NX + i) then - q1 else q0).
Proof.
  intros Hi. unfold bus_row, outrow. destruct (Nat.ltb_spec i NX) as [H|H].
  - destruct (Nat.eqb_spec b (2 * NX + i)) as [->|NE]; [destruct (Nat.ltb_spec (2 * NX + i) (2 * NX)); [lia|qring]|]. destruct (b <? 2 * NX)%nat; qring.
  - assert (i = NX) as -> by (unfold n in Hi; lia). replace (3 * NX)%nat with (2 * NX + NX)%nat by lia.
    destruct (Nat.eqb_spec b (2 * NX + NX)) as [->|NE]; [destruct (Nat.ltb_spec (2 * NX + NX) (2 * NX)); [lia|qring]|].
    destruct (Nat.ltb_spec b (2 * NX)), (Nat.ltb_spec b (2 * NX + NX)); try lia; try qring.
    rewrite pair_zero; [qring|]. apply ref_sum_zero. rewrite <- (Nat.div2_double NX). rewrite !Nat.div2_div. apply Nat.div_le_mono; lia.
Qed.

(** *** All rows, with the signs and the artificial variables *)
Hypothesis CAPS : forall k, (k < NL)%nat -> q0 <= mget BLP k 1 /\ q0 <= mget BLP k 2.
Hypothesis LIMS : forall i, (i < n)%nat -> q0 <= mget BN i 3 /\ q0 <= mget BN i 4.
Lemma conB_pos a : (n <= a)%nat -> (a < M)%nat -> q0 <= conB a.
Proof.
  intros H1 H2. unfold con_B. fold n NL M0 M. assert (LL : forall i, (i < n)%nat -> (nth i LT 0 < n)%nat) by (intros i Hi; apply (at_lt n NR LT ok i Hi)).
  destruct (Nat.ltb_spec a n); [lia|]. destruct (Nat.ltb_spec a (2 * n)). { unfold qabs. destruct (qltb (LpModel.inj INJB NX NR LT (a - n)) q0) eqn:Q; [apply qltb_iff in Q; qlra|apply qltb_false in Q; exact Q]. }
  destruct (Nat.ltb_spec a (2 * n + NL)); [apply CAPS; lia|]. destruct (Nat.ltb_spec a M0); [apply CAPS; unfold M0 in *; lia|].
  destruct (Nat.ltb_spec a (M0 + n)); [destruct (NX =? 0)%nat; [apply Qcle_refl|apply LIMS, LL; lia]|].
  destruct (Nat.ltb_spec a M); [|lia]. destruct (NX =? 0)%nat; [apply Qcle_refl|apply LIMS, LL; unfold M in *; lia].
Qed.
Lemma no_flip a b : (n <= a)%nat -> (a < M)%nat -> artA a b = conA a b.
Proof.
  intros H1 H2. unfold art_A, flip_A, clip_B. fold n NL M0 M N0 N1. destruct (Nat.ltb_spec a n); [lia|]. cbn [andb].
  destruct (qltb (conB a) q0) eqn:Q; [|reflexivity]. apply qltb_iff in Q. exfalso. exact (Qclt_not_le _ _ Q (conB_pos a H1 H2)).
Qed.
Lemma con_slack a b : (n <= a)%nat -> (a < M)%nat -> (2 * NX + n <= b)%nat -> conA a b = if Nat.eqb b (2 * NX + a) then q1 else q0.
Proof.
  intros H1 H2 H3. unfold con_A. fold n NL M0 M N0. destruct (Nat.ltb_spec a n); [lia|].
  destruct (Nat.ltb_spec b (2 * NX)); [lia|].
  destruct (Nat.ltb_spec a (2 * n)).
  { replace (3 * NX + 1 + (a - n))%nat with (2 * NX + a)%nat by (unfold n; lia). destruct (Nat.eqb_spec b (2 * NX + (a - n))); [lia|]. now rewrite orb_false_r. }
  destruct (Nat.ltb_spec a (2 * n + NL)); [replace (2 * NX + 2 * n + (a - 2 * n))%nat with (2 * NX + a)%nat by lia; reflexivity|].
  destruct (Nat.ltb_spec a M0); [replace (2 * NX + 2 * n + NL + (a - 2 * n - NL))%nat with (2 * NX + a)%nat by (unfold M0 in *; lia); reflexivity|].
  destruct (Nat.ltb_spec a (M0 + n)); [replace (N0 + (a - M0))%nat with (2 * NX + a)%nat by (unfold M0, N0 in *; lia); reflexivity|].
  destruct (Nat.ltb_spec a M); [|lia]. replace (N0 + n + (a - M0 - n))%nat with (2 * NX + a)%nat by (unfold M, M0, N0 in *; lia). reflexivity.
Qed.
Lemma bus_out i b : (i < n)%nat -> (2 * NX + n <= b)%nat -> conA i b = q0.
Proof.
  intros Hi Hb. unfold con_A. fold n. destruct (Nat.ltb_spec i n); [|lia]. rewrite bus_row_eq by assumption.
  destruct (Nat.ltb_spec b (2 * NX)); [lia|]. destruct (Nat.eqb_spec b (2 * NX + i)); [lia|]. qring.
Qed.
Definition sg (a : nat) : Qc := if qltb (clipB a) q0 then - q1 else q1.
Lemma art_row a b : (a < n)%nat -> artA a b = (if (b <? N1)%nat then sg a * conA a b else q0) + (if Nat.eqb b (N1 + a) then q1 else q0).
Proof.
  intros Ha. unfold art_A, flip_A, sg. fold n NL M0 M N0 N1. destruct (Nat.ltb_spec a n); [|lia]. destruct (Nat.ltb_spec a M); [|unfold M, M0 in *; lia].
  destruct (Nat.eqb_spec b (N1 + a)) as [->|NE]; cbn [andb]; [destruct (Nat.ltb_spec (N1 + a) N1); [lia|qring]|].
  destruct (Nat.ltb_spec b N1).
  - destruct (qltb _ q0); cbn [andb]; qring.
  - rewrite andb_false_r. rewrite bus_out by (unfold N1, N0 in *; lia). qring.
Qed.

Lemma sum_bus y a : (a < n)%nat -> qs (N1 + n) (fun k => artA a k * y k) = sg a * (net_outflow LP (lflow y) (nth a LT 0%nat) - y (2 * NX + a)%nat) + y (N1 + a)%nat.
Proof.
  intros Ha. rewrite (qs_row (N1 + n) N1 (N1 + a) q1 (fun k => sg a * conA a k) (artA a)); [|lia|lia|intros k Hk; now apply art_row].
  rewrite (qs_ext N1 _ (fun k => sg a * (conA a k * y k))) by (intros; ring). rewrite qs_scale.
  rewrite (qs_row N1 (2 * NX) (2 * NX + a) (- q1) (outrow a) (conA a)).
  - rewrite outrow_sum by exact Ha. qring.
  - unfold N1, N0; lia.
  - unfold N1, N0; lia.
  - intros k Hk. unfold con_A. fold n. destruct (Nat.ltb_spec a n); [|lia]. now apply bus_row_eq.
Qed.
Lemma sum_share y i : (i < n)%nat -> qs (N1 + n) (fun k => artA (n + i) k * y k) = y (2 * NX + i)%nat + y (2 * NX + n + i)%nat.
Proof.
  intros Hi. rewrite (qs_ext _ _ (fun k => conA (n + i) k * y k)) by (intros; rewrite no_flip; [reflexivity|lia|unfold M, M0; lia]).
  rewrite (qs_row (N1 + n) (2 * NX + n) (2 * NX + n + i) q1 (fun k => if Nat.eqb k (2 * NX + i) then q1 else q0) (conA (n + i))).
  - rewrite (qs_ext _ _ (fun k => if Nat.eqb k (2 * NX + i) then y k else q0)) by (intros k Hk; destruct (Nat.eqb k _); qring).
    rewrite (qs_delta (2 * NX + n) (2 * NX + i) y) by lia. qring.
  - unfold N1, N0; lia.
  - unfold N1, N0; lia.
  - intros k Hk. unfold con_A. fold n. destruct (Nat.ltb_spec (n + i) n); [lia|]. destruct (Nat.ltb_spec (n + i) (2 * n)); [|lia].
    replace (n + i - n)%nat with i by lia. replace (3 * NX + 1 + i)%nat with (2 * NX + n + i)%nat by (unfold n; lia).
    destruct (Nat.eqb_spec k (2 * NX + n + i)), (Nat.eqb_spec k (2 * NX + i)), (Nat.ltb_spec k (2 * NX + n)); cbn [orb]; try lia; qring.
Qed.
Lemma sum_rest y a g : (2 * n <= a)%nat -> (a < M)%nat -> (forall k, conA a k = if Nat.eqb k (2 * NX + a) then q1 else if (k <? 2 * NX)%nat then g k else q0) ->
  qs (N1 + n) (fun k => artA a k * y k) = qs (2 * NX) (fun k => g k * y k) + y (2 * NX + a)%nat.
Proof.
  intros H1 H2 E. rewrite (qs_ext _ _ (fun k => conA a k * y k)) by (intros; rewrite no_flip; [reflexivity|lia|exact H2]).
  rewrite (qs_row (N1 + n) (2 * NX) (2 * NX + a) q1 g (conA a)).
  - qring.
  - unfold N1, N0; lia.
  - unfold N1, N0, M, M0 in *; lia.
  - intros k Hk. rewrite E. destruct (Nat.eqb_spec k (2 * NX + a)) as [->|]; [destruct (Nat.ltb_spec (2 * NX + a) (2 * NX)); [lia|qring]|]. destruct (k <? 2 * NX)%nat; qring.
Qed.
Lemma sum_fwd y l : (l < NL)%nat -> qs (N1 + n) (fun k => artA (2 * n + l) k * y k) = lflow y l + y (2 * NX + (2 * n + l))%nat.
Proof.
  intros H. rewrite (sum_rest y (2 * n + l) (line_coef LP BLP IEQ NX l)); [now rewrite line_row_sum|lia|unfold M, M0; lia|].
  intros k. unfold con_A. fold n NL M0 M N0 IEQ. destruct (Nat.ltb_spec (2 * n + l) n); [lia|]. destruct (Nat.ltb_spec (2 * n + l) (2 * n)); [lia|].
  destruct (Nat.ltb_spec (2 * n + l) (2 * n + NL)); [|lia]. replace (2 * n + l - 2 * n)%nat with l by lia. replace (2 * NX + 2 * n + l)%nat with (2 * NX + (2 * n + l))%nat by lia. reflexivity.
Qed.
Lemma sum_bwd y l : (l < NL)%nat -> qs (N1 + n) (fun k => artA (2 * n + NL + l) k * y k) = - lflow y l + y (2 * NX + (2 * n + NL + l))%nat.
Proof.
  intros H. rewrite (sum_rest y (2 * n + NL + l) (fun k => - line_coef LP BLP IEQ NX l k)); [|lia|unfold M, M0; lia|].
  - rewrite (qs_ext _ _ (fun k => - (line_coef LP BLP IEQ NX l k * y k))) by (intros; ring). now rewrite qs_opp, line_row_sum.
  - intros k. unfold con_A. fold n NL M0 M N0 IEQ. destruct (Nat.ltb_spec (2 * n + NL + l) n); [lia|]. destruct (Nat.ltb_spec (2 * n + NL + l) (2 * n)); [lia|].
    destruct (Nat.ltb_spec (2 * n + NL + l) (2 * n + NL)); [lia|]. destruct (Nat.ltb_spec (2 * n + NL + l) M0); [|unfold M0 in *; lia].
    replace (2 * n + NL + l - 2 * n - NL)%nat with l by lia. replace (2 * NX + 2 * n + NL + l)%nat with (2 * NX + (2 * n + NL + l))%nat by lia. reflexivity.
Qed.
Lemma sum_out y i : (i < n)%nat -> qs (N1 + n) (fun k => artA (M0 + i) k * y k) = net_outflow LP (lflow y) (nth i LT 0%nat) + y (2 * NX + (M0 + i))%nat.
Proof.
  intros H. rewrite (sum_rest y (M0 + i) (outrow i)); [now rewrite outrow_sum|unfold M0; lia|unfold M; lia|].
  intros k. unfold con_A. fold n NL M0 M N0 IEQ. destruct (Nat.ltb_spec (M0 + i) n); [unfold M0 in *; lia|]. destruct (Nat.ltb_spec (M0 + i) (2 * n)); [unfold M0 in *; lia|].
  destruct (Nat.ltb_spec (M0 + i) (2 * n + NL)); [unfold M0 in *; lia|]. destruct (Nat.ltb_spec (M0 + i) M0); [lia|]. destruct (Nat.ltb_spec (M0 + i) (M0 + n)); [|lia].
  replace (M0 + i - M0)%nat with i by lia. replace (N0 + i)%nat with (2 * NX + (M0 + i))%nat by (unfold N0, M0; lia).
  destruct (Nat.eqb k (2 * NX + (M0 + i))); [reflexivity|]. destruct (Nat.ltb_spec k (2 * NX)); [|reflexivity].
  rewrite bus_row_eq by exact H. destruct (Nat.ltb_spec k (2 * NX)); [|lia]. destruct (Nat.eqb_spec k (2 * NX + i)); [lia|qring].
Qed.
Lemma sum_in y i : (i < n)%nat -> qs (N1 + n) (fun k => artA (M0 + n + i) k * y k) = - net_outflow LP (lflow y) (nth i LT 0%nat) + y (2 * NX + (M0 + n + i))%nat.
Proof.
  intros H. rewrite (sum_rest y (M0 + n + i) (fun k => - outrow i k)); [|unfold M0; lia|unfold M; lia|].
  - rewrite (qs_ext _ _ (fun k => - (outrow i k * y k))) by (intros; ring). now rewrite qs_opp, outrow_sum.
  - intros k. unfold con_A. fold n NL M0 M N0 IEQ. destruct (Nat.ltb_spec (M0 + n + i) n); [unfold M0 in *; lia|]. destruct (Nat.ltb_spec (M0 + n + i) (2 * n)); [unfold M0 in *; lia|].
    destruct (Nat.ltb_spec (M0 + n + i) (2 * n + NL)); [unfold M0 in *; lia|]. destruct (Nat.ltb_spec (M0 + n + i) M0); [lia|]. destruct (Nat.ltb_spec (M0 + n + i) (M0 + n)); [lia|].
    destruct (Nat.ltb_spec (M0 + n + i) M); [|unfold M in *; lia].
    replace (M0 + n + i - M0 - n)%nat with i by lia. replace (N0 + n + i)%nat with (2 * NX + (M0 + n + i))%nat by (unfold N0, M0; lia).
    destruct (Nat.eqb k (2 * NX + (M0 + n + i))); [reflexivity|]. destruct (Nat.ltb_spec k (2 * NX)); [|reflexivity].
    rewrite bus_row_eq by exact H. destruct (Nat.ltb_spec k (2 * NX)); [|lia]. destruct (Nat.eqb_spec k (2 * NX + i)); [lia|qring].
Qed.

(** *** The form [linp] expects *)
Lemma row_of_back a : (a < M)%nat -> exists j, (j < M)%nat /\ row_of NX BLP j = a.
Proof.
  intros H. unfold row_of. fold n NL M0 M. destruct (le_lt_dec n a).
  - exists (a - n)%nat. split; [lia|]. destruct (Nat.ltb_spec (a - n) (M - n)); lia.
  - exists (M - n + a)%nat. split; [unfold M, M0 in *; lia|]. destruct (Nat.ltb_spec (M - n + a) (M - n)); lia.
Qed.
Lemma row_of_lt j : (j < M)%nat -> (row_of NX BLP j < M)%nat.
Proof. intros H. unfold row_of. fold n NL M0 M. destruct (Nat.ltb_spec j (M - n)); lia. Qed.
Lemma connls_ok d : connls BC INJB NX NR LT BLP LP BN = Ok d -> lp_ok d /\ d_M d = M /\ d_N1 d = N1 /\ d_N d = (N1 + n)%nat /\
  d_A d = (fun j k => artA (row_of NX BLP j) k) /\ d_BS d = map (fun j => finB (row_of NX BLP j)) (seq 0 M) /\ d_B d = finB /\ (M <= 200)%nat /\ (N1 + n <= 250)%nat /\
  (forall k, d_XOBI0 d k = if (N1 <=? k)%nat && (k <? N1 + n)%nat then q1 else q0) /\ (forall k, d_XOBI1 d k = if (k <? N1)%nat then cost INJB NX NR LT k else q0).
Proof.
  intros E. unfold connls in E. fold n NL M0 M N0 N1 in E. destruct (Nat.ltb_spec 200 M); [discriminate|]. destruct (Nat.ltb_spec 250 (N1 + n)); [discriminate|].
  cbn [orb] in E. apply ok_inj in E. subst d. cbn [d_M d_N1 d_N d_A d_BS d_B d_XOBI0 d_XOBI1]. split; [|repeat split; auto].
  assert (F : forall a, q0 <= qabs a). { intros a. unfold qabs. destruct (qltb a q0) eqn:Q; [apply qltb_iff in Q; qlra|apply qltb_false in Q; exact Q]. }
  constructor; cbn [d_M d_N1 d_N d_A d_BS d_B d_IBAS d_XOBI0 d_XOBI1].
  - unfold M, M0, n. lia.
  - apply seq_length.
  - apply seq_NoDup.
  - intros k Hk. apply in_seq in Hk. fold n in Hk. unfold N1, N0, M, M0 in *. lia.
  - now rewrite map_length, seq_length.
  - lia.
  - intros i j Hi Hj. fold n. rewrite seq_nth by exact Hj. pose proof (row_of_lt i Hi) as RL. unfold row_of in *. fold n NL M0 M in RL |- *.
    destruct (Nat.ltb_spec i (M - n)).
    + rewrite no_flip by lia. rewrite con_slack by lia. destruct (Nat.eqb_spec i j), (Nat.eqb_spec (2 * NX + n + j) (2 * NX + (i + n))); try reflexivity; lia.
    + rewrite art_row by (unfold M, M0 in *; lia). destruct (Nat.ltb_spec (2 * NX + n + j) N1).
      * rewrite bus_out by (unfold M, M0 in *; lia). destruct (Nat.eqb_spec (2 * NX + n + j) (N1 + (i - (M - n)))), (Nat.eqb_spec i j); try qring; unfold N1, N0, M, M0 in *; lia.
      * destruct (Nat.eqb_spec (2 * NX + n + j) (N1 + (i - (M - n)))), (Nat.eqb_spec i j); try qring; unfold N1, N0, M, M0 in *; lia.
  - intros i Hi. unfold vget. rewrite (nth_map_in _ _ _ 0%nat) by (rewrite seq_length; exact Hi). rewrite seq_nth by exact Hi. cbn [Nat.add]. unfold fin_B. fold n NL M0 M.
    destruct (Nat.ltb_spec (row_of NX BLP i) M); [apply F|]. pose proof (row_of_lt i Hi). lia.
  - intros k. destruct (_ && _); apply qleb_iff; reflexivity.
  - intros k. destruct (k <? N1)%nat; [|apply Qcle_refl]. unfold cost. destruct (_ && _ && _); apply qleb_iff; reflexivity.
Qed.
End ROWS.
