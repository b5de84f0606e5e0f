(** Proofs about [tm2]: updating the impedance matrix to the line states, flows of
    the solution, acceptance, restoration of the base network. *)
From Coq Require Import Permutation.
From Verif Require Import Base BaseProofs Sums LoadModel LoadSpec LoadProofs ContractProofs NetModel NetSpec MatProofs NetProofs FlowProofs AssignProofs.
Open Scope Z_scope.
Open Scope Qc_scope.

Lemma qdot_nil_l v : qdot [] v = q0.
Proof. reflexivity. Qed.
Lemma qdot_qs u v : length u = length v -> qdot u v = qs (length v) (fun i => vget u i * vget v i).
Proof.
  revert v. induction u as [|a u IH]; intros [|b v] L; cbn in L; try discriminate; [reflexivity|].
  change (qdot (a :: u) (b :: v)) with (a * b + qdot u v). rewrite IH by lia. cbn [length]. rewrite qs_S_l. reflexivity.
Qed.

Lemma theta_spec n Z INJ : shape n n Z -> length INJ = n -> length (theta Z INJ) = n /\
  forall a, (a < n)%nat -> vget (theta Z INJ) a = qs n (fun b => mget Z a b * vget INJ b).
Proof.
  intros (L & R) LI. unfold theta. split; [now rewrite map_length|]. intros a Ha.
  unfold vget at 1. rewrite (nth_map_in _ _ _ []) by lia. rewrite qdot_qs by (rewrite R; auto). now rewrite LI.
Qed.

Section Flows.
  Variables (n NR : nat) (LT : list nat).
  Hypothesis ok : order_ok n NR LT.
  Let NX := (n - 1)%nat.

  Lemma solve_angles ls Z INJ : wlines_in n ls -> shape n n Z -> zero_border n Z -> is_inverse NX (red LT ls) (mget Z) -> length INJ = n ->
    let T := thetac (theta Z INJ) LT in
    length T = n /\
    forall i, (i < n)%nat -> i <> NR -> qs n (fun j => lap ls i j * vget T j) = vget INJ (pos n LT i).
  Proof.
    intros W SZ ZB I LI. destruct (theta_spec n Z INJ SZ LI) as (LTh & GT). cbv zeta. set (Th := theta Z INJ) in *.
    split; [rewrite thetac_len; exact LTh|]. intros i Hi Ni.
    destruct (at_surj n NR LT ok i Hi) as (p & Hp & <-). rewrite (pos_at n NR LT ok p Hp).
    assert (HpX : (p < NX)%nat).
    { destruct (Nat.eq_dec p NX) as [E|]; [|unfold NX in *; lia]. exfalso. apply Ni. rewrite E. apply (at_ref n NR LT ok). }
    rewrite <- (qs_reindex n NR LT ok). pose proof (n_NX n NR LT ok) as EN. fold NX in EN. rewrite EN. rewrite qs_S.
    pose proof (at_ref n NR LT ok) as AR. fold NX in AR. rewrite AR. rewrite (thetac_ref n NR LT ok) by exact LTh.
    transitivity (qs NX (fun a => red LT ls p a * mv NX (mget Z) (vget INJ) a)).
    { transitivity (qs NX (fun a => lap ls (at_ LT p) (at_ LT a) * vget (thetac Th LT) (at_ LT a))); [qring|].
      apply qs_ext; intros a Ha. rewrite (thetac_at n NR LT ok) by (auto; exact LTh). unfold red. f_equal.
      rewrite GT by lia. unfold mv. rewrite EN, qs_S. destruct (ZB a ltac:(lia)) as (E & _). fold NX in E. rewrite E. qring. }
    change (qs NX (fun a => red LT ls p a * mv NX (mget Z) (vget INJ) a)) with (mv NX (red LT ls) (mv NX (mget Z) (vget INJ)) p).
    now apply inverse_mv.
  Qed.

  (** C29, end to end: the flows deliver the balanced injections. *)
  Theorem solve_delivers : forall LP BLP BN ZB NLS, lines_in n LP -> length BLP = length LP -> length BN = n ->
    shape n n ZB -> zero_border n ZB -> is_inverse NX (red LT (wlines LP BLP)) (mget ZB) ->
    (NLS = false -> qsum (mcol BN 1) <> q0) ->
    let '(INJ1, LODC, SFLOW, FLOW) := tm2_solve BN LP BLP ZB LT NLS in
    assign (map (fun k => mget BN k 2) LT) (mcol BN 1) LT NLS = (INJ1, LODC) /\
    length FLOW = length LP /\ length SFLOW = n /\
    (forall a, (a < n)%nat -> net_outflow LP (vget FLOW) (nth a LT 0%nat) = vget INJ1 a) /\
    (forall a, (a < n)%nat -> vget SFLOW (nth a LT 0%nat) = - vget INJ1 a).
  Proof.
    intros LP BLP BN ZB NLS LI LB LBN SZ Zb I NZ. unfold tm2_solve.
    assert (EI : map (fun k => vget (mcol BN 2) k) LT = map (fun k => mget BN k 2) LT) by (apply map_ext; intros; apply mcol_nth).
    rewrite EI. set (INJ := map (fun k => mget BN k 2) LT).
    assert (LIn : length INJ = n) by (unfold INJ; rewrite map_length; apply ok).
    pose proof (assign_spec n NR INJ (mcol BN 1) LT NLS ok LIn ltac:(now rewrite mcol_length) NZ) as A.
    destruct (assign INJ (mcol BN 1) LT NLS) as [INJ1 LODC]. destruct A as (L1 & _ & S0 & _).
    pose proof (wlines_ok n LP BLP LI) as W.
    destruct (solve_angles (wlines LP BLP) ZB INJ1 W SZ Zb I L1) as (LT' & EQ). set (T := thetac (theta ZB INJ1) LT) in *.
    assert (NRn : (NR < n)%nat). { pose proof (at_ref n NR LT ok) as E. rewrite <- E. apply (at_lt n NR LT ok). pose proof (n_NX n NR LT ok). lia. }
    pose proof (flo_spec n LP BLP T LI LB LT') as F.
    pose proof (kirchhoff n NR LP BLP T (fun i => vget INJ1 (pos n LT i)) LI LB LT' NRn EQ) as K.
    destruct (flo LP BLP T) as [SFLOW FLOW]. destruct F as (LS & LF & _ & FS & _).
    assert (K' : forall a, (a < n)%nat -> net_outflow LP (vget FLOW) (nth a LT 0%nat) = vget INJ1 a).
    { intros a Ha. change (nth a LT 0%nat) with (at_ LT a). rewrite K; [now rewrite (pos_at n NR LT ok)| |now apply (at_lt n NR LT ok)].
      rewrite <- (qs_reindex n NR LT ok). rewrite qsum_qs, L1 in S0. rewrite <- S0. apply qs_ext; intros b Hb.
      rewrite (pos_at n NR LT ok) by auto. reflexivity. }
    split; [reflexivity|]. split; [exact LF|]. split; [exact LS|]. split; [exact K'|].
    intros a Ha. rewrite FS by (apply (at_lt n NR LT ok a Ha)). now rewrite K'.
  Qed.
End Flows.
