(** The two versions of [net] agree; sizes and failures of the branch. *)
From Verif Require Import Base BaseProofs Sums LoadModel LoadSpec LoadProofs NetModel NetSpec MatProofs NetProofs LpModel LpSpec LpNet LpResult.
Open Scope Qc_scope.

Lemma set2_at A i j x a b : set2 A i j x a b = if Nat.eqb a i && Nat.eqb b j then x else A a b.
Proof. reflexivity. Qed.
Definition zero3 (R : arr2) (i : nat) : arr2 := fold_left (fun R j => set2 R i j q0) (seq 0 3) R.
Lemma zero3_at R i k c : zero3 R i k c = if Nat.eqb k i && (c <? 3)%nat then q0 else R k c.
Proof. unfold zero3. cbn [fold_left seq]. rewrite !set2_at. destruct (Nat.eqb k i); [|reflexivity]. destruct c as [|[|[|c]]]; reflexivity. Qed.
Lemma zero_rows N RES k c : fold_left zero3 (seq 0 N) RES k c = if (k <? N)%nat && (c <? 3)%nat then q0 else RES k c.
Proof.
  induction N as [|N IH]; [reflexivity|]. rewrite (seq_S N 0), fold_left_app. cbn [fold_left Nat.add]. rewrite zero3_at, IH.
  destruct (Nat.eqb_spec k N) as [->|NE].
  - rewrite Nat.ltb_irrefl. destruct (Nat.ltb_spec N (S N)); [|lia]. cbn [andb]. now destruct (c <? 3)%nat.
  - cbn [andb]. destruct (Nat.ltb_spec k N), (Nat.ltb_spec k (S N)); try lia; reflexivity.
Qed.
Theorem net_versions : forall B B1 RES IBAS BS M N, (M <= N)%nat -> (M <= length IBAS)%nat ->
  forall k c, net_loop B B1 RES IBAS BS M N k c = net B B1 RES IBAS BS M N k c.
Proof.
  intros B B1 RES IBAS BS M N HMN HL k c. unfold net_loop. set (NX1 := (N - M)%nat).
  set (R0 := fold_left (fun R i => fold_left (fun R j => set2 R i j q0) (seq 0 3) R) (seq 0 N) RES).
  assert (E0 : forall k c, R0 k c = if (k <? N)%nat && (c <? 3)%nat then q0 else RES k c) by (intros; apply zero_rows). clearbody R0.
  set (r := fun m k => fold_left (fun R i k => if Nat.eqb k (nth i IBAS 0%nat) then vget BS i else R k) (seq 0 m) (fun k => if (k <? N)%nat then q0 else RES k 0%nat) k).
  set (step := fun R i => let k := nth i IBAS 0%nat in if (NX1 <? k)%nat then set2 R k 0 (Qcopp (vget BS i)) else set2 R k 0 (vget BS i)).
  assert (E1 : forall m, (m <= M)%nat -> forall k c, fold_left step (seq 0 m) R0 k c =
     if Nat.eqb c 0 then (if existsb (Nat.eqb k) (firstn m IBAS) && (NX1 <? k)%nat then - r m k else r m k) else R0 k c).
  { induction m as [|m IH]; intros Hm a b.
    - cbn [seq fold_left firstn existsb andb]. rewrite E0. unfold r. cbn [seq fold_left]. destruct (Nat.eqb_spec b 0) as [->|]; [|reflexivity]. cbn [Nat.ltb Nat.leb]. now rewrite andb_true_r.
    - rewrite seq_S, fold_left_app. cbn [fold_left Nat.add].
      assert (FS : firstn (S m) IBAS = firstn m IBAS ++ [nth m IBAS 0%nat]) by (rewrite <- (firstn_skipn m IBAS) at 3; rewrite app_nth2; rewrite firstn_length, Nat.min_l by lia; [|lia]; rewrite Nat.sub_diag; rewrite <- (firstn_skipn m IBAS) at 1; rewrite firstn_app, firstn_length, Nat.min_l by lia; replace (S m - m)%nat with 1%nat by lia; rewrite firstn_firstn, Nat.min_r by lia; f_equal; destruct (skipn m IBAS) eqn:SK; [exfalso; pose proof (skipn_length m IBAS) as L; rewrite SK in L; cbn in L; lia|reflexivity]).
      rewrite FS, existsb_app. cbn [existsb]. rewrite orb_false_r. set (q := nth m IBAS 0%nat).
      assert (RS : r (S m) a = if Nat.eqb a q then vget BS m else r m a) by (unfold r; rewrite seq_S, fold_left_app; reflexivity).
      rewrite RS. unfold step at 1. fold q. destruct (Nat.ltb_spec NX1 q) as [G|G]; rewrite set2_at, (IH ltac:(lia)); destruct (Nat.eqb_spec a q) as [->|NE], (Nat.eqb_spec b 0) as [->|NB]; cbn [andb]; rewrite ?orb_true_r, ?orb_false_r; try reflexivity.
      + destruct (Nat.ltb_spec NX1 q); [reflexivity|lia].
      + destruct (Nat.ltb_spec NX1 q); [lia|reflexivity]. }
  set (R1 := fold_left step (seq 0 M) R0) in *. specialize (E1 M (le_n M)).
  assert (E2 : forall m, (m <= M)%nat -> forall k c, fold_left (fun R i => let i1 := (i + NX1)%nat in let R' := if qltb (B1 i) q0 then set2 R i1 1 q1 else R in set2 R' i1 0 (R' i1 0%nat + B i)) (seq 0 m) R1 k c =
     if (NX1 <=? k)%nat && (k <? NX1 + m)%nat then (if Nat.eqb c 0 then R1 k 0%nat + B (k - NX1)%nat else if Nat.eqb c 1 && qltb (B1 (k - NX1)%nat) q0 then q1 else R1 k c) else R1 k c).
  { induction m as [|m IH]; intros Hm a b.
    - cbn [seq fold_left]. destruct (Nat.leb_spec NX1 a), (Nat.ltb_spec a (NX1 + 0)); try lia; reflexivity.
    - rewrite seq_S, fold_left_app. cbn [fold_left Nat.add]. cbv zeta. set (R := fold_left _ (seq 0 m) R1) in *. specialize (IH ltac:(lia)).
      destruct (Nat.eq_dec a (m + NX1)) as [->|NE].
      + destruct (Nat.leb_spec NX1 (m + NX1)); [|lia]. destruct (Nat.ltb_spec (m + NX1) (NX1 + S m)); [|lia]. cbn [andb]. replace (m + NX1 - NX1)%nat with m by lia.
        assert (IB : forall c, R (m + NX1)%nat c = R1 (m + NX1)%nat c) by (intros c0; rewrite IH; destruct (Nat.ltb_spec (m + NX1) (NX1 + m)); [lia|]; now rewrite andb_false_r).
        destruct (qltb (B1 m) q0) eqn:Q; rewrite !set2_at, Nat.eqb_refl; cbn [andb]; destruct b as [|[|b]]; cbn [Nat.eqb andb]; rewrite ?set2_at, ?Nat.eqb_refl; cbn [Nat.eqb andb]; rewrite ?IB; reflexivity.
      + destruct (qltb (B1 m) q0); rewrite !set2_at; destruct (Nat.eqb_spec a (m + NX1)); try lia; cbn [andb]; rewrite ?set2_at; destruct (Nat.eqb_spec a (m + NX1)); try lia; cbn [andb]; rewrite IH;
        destruct (Nat.leb_spec NX1 a), (Nat.ltb_spec a (NX1 + m)), (Nat.ltb_spec a (NX1 + S m)); try lia; reflexivity. }
  refine (eq_trans (E2 M (le_n M) k c) _). rewrite !E1. unfold net, res_fill. fold NX1. replace (NX1 + M)%nat with N by (unfold NX1; lia). fold (r M).
  destruct c as [|[|c]]; cbn [Nat.eqb].
  - destruct ((NX1 <=? k)%nat && (k <? N)%nat); reflexivity.
  - rewrite E0. change (1 <? 3)%nat with true. rewrite andb_true_r. cbn [andb]. destruct (NX1 <=? k)%nat, (k <? N)%nat, (qltb (B1 (k - NX1)%nat) q0); reflexivity.
  - cbn [andb]. rewrite E0. destruct (NX1 <=? k)%nat, (k <? N)%nat; reflexivity.
Qed.
