(** Proofs about capacity accounting and contracts. *)
From Verif Require Import Base BaseProofs Sums LoadModel LoadSpec.
Open Scope Z_scope.

Lemma addv_length v j x : length (addv v j x) = length v.
Proof. apply upd_length. Qed.
Lemma addv_nth v j x k : (k < length v)%nat ->
  nth k (addv v j x) q0 = Qcplus (nth k v q0) (if (k =? j)%nat then x else q0).
Proof.
  intros H. unfold addv. rewrite nth_upd. destruct (Nat.eqb_spec k j) as [->|N].
  - rewrite Nat.eqb_refl. cbn [andb]. destruct (Nat.ltb_spec j (length v)); [reflexivity|lia].
  - destruct (Nat.eqb_spec j k); [congruence|]. cbn [andb]. qring.
Qed.

Lemma vzeros_nth n k : nth k (vzeros n) q0 = q0.
Proof. unfold vzeros. apply nth_repeat. Qed.

(* ------------------------------------------------------------------ *)
(** ** sumcap *)

Definition in_areas (n : nat) (CAPCON : list Z) : Prop := Forall (fun j => 0 <= j < Z.of_nat n) CAPCON.

Lemma syscon_loop_spec : forall AVAIL CAPCON S0, length CAPCON = length AVAIL -> in_areas (length S0) CAPCON ->
  exists S, syscon_loop AVAIL CAPCON S0 = Ok S /\ length S = length S0 /\
    forall k, (k < length S0)%nat -> nth k S q0 =
      Qcplus (nth k S0 q0) (qs (length AVAIL) (fun i => if zget CAPCON i =? Z.of_nat k then vget AVAIL i else q0)).
Proof.
  induction AVAIL as [|a A IH]; intros [|c C] S0 L IN; try discriminate.
  - exists S0. repeat split; auto. intros. cbn [length]. rewrite qs_0. qring.
  - pose proof (Forall_inv IN) as HC. apply Forall_inv_tail in IN. cbn beta in HC. cbn [syscon_loop].
    rewrite (pyget_nonneg _ _ q0) by lia. cbn [bind].
    rewrite pyset_nonneg by lia. cbn [bind]. set (S1 := upd _ _ _).
    assert (E1 : S1 = addv S0 (Z.to_nat c) a) by reflexivity. clearbody S1. subst S1.
    destruct (IH C (addv S0 (Z.to_nat c) a)) as (S & E & LS & N).
    { cbn in L. lia. } { now rewrite addv_length. }
    rewrite addv_length in *. exists S. repeat split; auto. intros k Hk. rewrite N by auto.
    rewrite addv_nth by auto. cbn [length]. rewrite qs_S_l.
    change (zget (c :: C) 0) with c. change (vget (a :: A) 0) with a.
    replace (c =? Z.of_nat k) with (k =? Z.to_nat c)%nat.
    + rewrite <- Qcplus_assoc. reflexivity.
    + destruct (Nat.eqb_spec k (Z.to_nat c)); destruct (Z.eqb_spec c (Z.of_nat k)); auto; lia.
Qed.

Lemma map2_length {A B C} (f : A -> B -> C) l m : length l = length m -> length (map2 f l m) = length l.
Proof. intros H. unfold map2. rewrite map_length, combine_length. lia. Qed.
Lemma map2_nth {A B C} (f : A -> B -> C) l m i da db dc : length l = length m -> (i < length l)%nat ->
  nth i (map2 f l m) dc = f (nth i l da) (nth i m db).
Proof.
  intros L H. unfold map2. rewrite (nth_indep _ dc (f da db)) by (rewrite map_length, combine_length; lia).
  change (f da db) with ((fun p => f (fst p) (snd p)) (da, db)). rewrite map_nth. rewrite combine_nth by auto. reflexivity.
Qed.

Theorem sumcap_spec AVAIL CAPOWN CAPCON na :
  shape na (length AVAIL) CAPOWN -> length CAPCON = length AVAIL -> in_areas na CAPCON ->
  exists CAPAVL SYSOWN SYSCON TRNSFJ, sumcap AVAIL CAPOWN CAPCON = Ok (CAPAVL, SYSOWN, SYSCON, TRNSFJ) /\
    length SYSOWN = na /\ length SYSCON = na /\ length TRNSFJ = na /\
    (forall k, (k < na)%nat ->
      vget SYSCON k = qs (length AVAIL) (fun i => if zget CAPCON i =? Z.of_nat k then vget AVAIL i else q0) /\
      vget SYSOWN k = qs (length AVAIL) (fun i => Qcmult (mget CAPOWN k i) (vget AVAIL i)) /\
      vget TRNSFJ k = Qcminus (vget SYSCON k) (vget SYSOWN k)) /\
    qsum SYSCON = qsum AVAIL /\
    ((forall i, (i < length AVAIL)%nat -> qs na (fun k => mget CAPOWN k i) = q1) ->
      qsum SYSOWN = qsum AVAIL /\ qsum TRNSFJ = q0).
Proof.
  intros (LO & LR) LC IN. unfold sumcap. rewrite LO.
  destruct (syscon_loop_spec AVAIL CAPCON (vzeros na)) as (S & E & LS & N); auto.
  { unfold vzeros. rewrite repeat_length. auto. }
  rewrite E. cbn [bind]. unfold vzeros in LS. rewrite repeat_length in LS.
  set (AVL := map (fun row => map2 Qcmult row AVAIL) CAPOWN). set (OWN := map qsum AVL).
  assert (LOW : length OWN = na) by (unfold OWN, AVL; now rewrite !map_length).
  exists AVL, OWN, S, (map2 Qcminus S OWN).
  assert (LT : length (map2 Qcminus S OWN) = na) by (rewrite map2_length; lia).
  assert (NC : forall k, (k < na)%nat ->
      vget S k = qs (length AVAIL) (fun i => if zget CAPCON i =? Z.of_nat k then vget AVAIL i else q0)).
  { intros k Hk. unfold vget at 1. rewrite N by (unfold vzeros; rewrite repeat_length; auto).
    rewrite vzeros_nth. qring. }
  assert (NO : forall k, (k < na)%nat -> vget OWN k = qs (length AVAIL) (fun i => Qcmult (mget CAPOWN k i) (vget AVAIL i))).
  { intros k Hk. unfold vget at 1, OWN. rewrite (nth_indep _ q0 (qsum [])) by (unfold AVL; rewrite !map_length; lia).
    rewrite map_nth. unfold AVL. change (@nil Qc) with (map2 Qcmult [] AVAIL) at 1.
    rewrite (map_nth (fun row => map2 Qcmult row AVAIL)). rewrite qsum_qs.
    rewrite map2_length by now rewrite LR. rewrite LR by auto. apply qs_ext. intros i Hi.
    rewrite (map2_nth _ _ _ _ q0 q0) by (rewrite ?LR; auto). reflexivity. }
  assert (NT : forall k, (k < na)%nat -> vget (map2 Qcminus S OWN) k = Qcminus (vget S k) (vget OWN k)).
  { intros k Hk. unfold vget. apply map2_nth; lia. }
  assert (SC : qsum S = qsum AVAIL).
  { rewrite (qsum_qs S), (qsum_qs AVAIL), LS.
    rewrite (qs_ext na _ (fun k => qs (length AVAIL) (fun i => if zget CAPCON i =? Z.of_nat k then vget AVAIL i else q0)))
      by (intros k Hk; apply NC; auto).
    rewrite qs_exchange. apply qs_ext. intros i Hi.
    assert (HB : 0 <= zget CAPCON i < Z.of_nat na).
    { unfold in_areas in IN. rewrite Forall_forall in IN. apply IN. apply nth_In. lia. }
    rewrite <- (qs_delta na (Z.to_nat (zget CAPCON i)) (fun _ => nth i AVAIL q0)) by lia.
    apply qs_ext. intros k Hk. unfold vget.
    destruct (Nat.eqb_spec k (Z.to_nat (zget CAPCON i))); destruct (Z.eqb_spec (zget CAPCON i) (Z.of_nat k)); auto; lia. }
  do 4 (split; [now auto|]). split.
  { intros k Hk. auto. }
  split; [exact SC|]. intros COL.
  assert (SO : qsum OWN = qsum AVAIL).
  { rewrite (qsum_qs OWN), (qsum_qs AVAIL), LOW.
    rewrite (qs_ext na _ (fun k => qs (length AVAIL) (fun i => Qcmult (mget CAPOWN k i) (vget AVAIL i))))
      by (intros k Hk; apply NO; auto).
    rewrite qs_exchange. apply qs_ext. intros i Hi. rewrite qs_scale_r, COL by auto. unfold vget. qring. }
  split; [exact SO|].
  rewrite (qsum_qs (map2 _ _ _)), LT.
  rewrite (qs_ext na _ (fun k => Qcminus (vget S k) (vget OWN k))) by (intros k Hk; apply NT; auto).
  rewrite qs_minus.
  replace (qs na (vget S)) with (qsum S) by (rewrite qsum_qs, LS; reflexivity).
  replace (qs na (vget OWN)) with (qsum OWN) by (rewrite qsum_qs, LOW; reflexivity).
  rewrite SO, SC. qring.
Qed.

(* ------------------------------------------------------------------ *)
(** ** Contracts *)

Lemma contracts_eq n JENT : shape n n JENT ->
  contracts JENT = flat_map (fun i => flat_map (fun j => if zmget JENT i j =? -1 then [] else [(i, j, zmget JENT i j)])
    (seq 0 n)) (seq 0 n).
Proof.
  intros (L & R). unfold contracts. rewrite (combine_seq JENT []). rewrite flat_map_concat_map, map_map, <- flat_map_concat_map, L.
  rewrite !flat_map_concat_map. f_equal. apply map_ext_in. intros i Hi. apply in_seq in Hi. cbn [fst snd].
  rewrite (combine_seq _ 0), R by lia. rewrite !flat_map_concat_map, map_map. reflexivity.
Qed.

Lemma contracts_in n JENT i j p : shape n n JENT -> In (i, j, p) (contracts JENT) ->
  (i < n)%nat /\ (j < n)%nat /\ p = zmget JENT i j /\ p <> -1.
Proof.
  intros S H. rewrite (contracts_eq n) in H by auto. apply in_flat_map in H as (a & Ha & H).
  apply in_flat_map in H as (b & Hb & H). apply in_seq in Ha, Hb.
  destruct (Z.eqb_spec (zmget JENT a b) (-1)); [destruct H|]. destruct H as [H|[]].
  apply pair_equal_spec in H as [H E3]. apply pair_equal_spec in H as [E1 E2]. subst. repeat split; auto; lia.
Qed.

Lemma qsum_contracts n JENT (f : nat * nat * Z -> Qc) : shape n n JENT ->
  qsum (map f (contracts JENT)) =
  qs n (fun i => qs n (fun j => if zmget JENT i j =? -1 then q0 else f (i, j, zmget JENT i j))).
Proof.
  intros S. rewrite (contracts_eq n) by auto. rewrite qsum_flat_map. apply qs_ext. intros i Hi.
  rewrite qsum_flat_map. apply qs_ext. intros j Hj. destruct (_ =? _); cbn; [reflexivity|qring].
Qed.

(** sums of signed indicators over the contracts are net exports *)
Lemma net_of_contracts n JENT (INTCH : list (list Qc)) k d : shape n n JENT -> (k < n)%nat ->
  qsum (map (fun c => let '(j1, j2, p) := c in
     Qcminus (if (k =? j1)%nat then mget INTCH (Z.to_nat p) d else q0)
             (if (k =? j2)%nat then mget INTCH (Z.to_nat p) d else q0)) (contracts JENT))
  = net_export n JENT INTCH k d.
Proof.
  intros S Hk. rewrite (qsum_contracts n) by auto. unfold net_export.
  rewrite (qs_ext n _ (fun i => Qcminus (if (i =? k)%nat then qs n (fun j => amount JENT INTCH i j d) else q0)
       (amount JENT INTCH i k d))).
  - rewrite qs_minus. rewrite qs_delta by auto. reflexivity.
  - intros i Hi. rewrite <- (qs_delta n k (fun j => amount JENT INTCH i j d)) by auto.
    destruct (Nat.eqb_spec i k) as [->|N].
    + rewrite <- qs_minus. apply qs_ext. intros j Hj. unfold amount. rewrite Nat.eqb_refl.
      rewrite (Nat.eqb_sym k j). destruct (_ =? -1); destruct (j =? k)%nat; qring.
    + transitivity (Qcopp (qs n (fun j => if (j =? k)%nat then amount JENT INTCH i j d else q0))); [|qring].
      rewrite <- qs_opp. apply qs_ext. intros j Hj. unfold amount.
      destruct (Nat.eqb_spec k i); [congruence|]. rewrite (Nat.eqb_sym k j).
      destruct (_ =? -1); destruct (j =? k)%nat; qring.
Qed.

Lemma net_sum n JENT INTCH d : qs n (fun k => net_export n JENT INTCH k d) = q0.
Proof.
  unfold net_export. rewrite qs_minus. rewrite (qs_exchange n n (fun k j => amount JENT INTCH k j d)). qring.
Qed.

Definition tn_step (INTCH : list (list Qc)) (d : nat) (t : list Qc) (c : nat * nat * Z) : list Qc :=
  let '(j1, j2, p) := c in
  let x := mget INTCH (Z.to_nat p) d in addv (addv t j1 x) j2 (Qcopp x).

Lemma tn_step_length INTCH d cs : forall t, length (fold_left (tn_step INTCH d) cs t) = length t.
Proof.
  induction cs as [|[[j1 j2] p] cs IH]; intros t; [reflexivity|]. cbn [fold_left]. rewrite IH. cbn. now rewrite !addv_length.
Qed.
Lemma tn_step_nth INTCH d cs : forall t k, (k < length t)%nat ->
  nth k (fold_left (tn_step INTCH d) cs t) q0 = Qcplus (nth k t q0)
   (qsum (map (fun c => let '(j1, j2, p) := c in
     Qcminus (if (k =? j1)%nat then mget INTCH (Z.to_nat p) d else q0)
             (if (k =? j2)%nat then mget INTCH (Z.to_nat p) d else q0)) cs)).
Proof.
  induction cs as [|[[j1 j2] p] cs IH]; intros t k Hk.
  - cbn. qring.
  - cbn [fold_left map]. rewrite IH by (cbn; now rewrite !addv_length). rewrite qsum_cons.
    unfold tn_step. rewrite addv_nth by now rewrite addv_length. rewrite addv_nth by auto.
    destruct (k =? j1)%nat; destruct (k =? j2)%nat; qring.
Qed.

Lemma intch_ok INTCH p ND JDAY d : 0 <= p < Z.of_nat (length INTCH) ->
  (forall r, In r INTCH -> length r = ND) -> pyidx ND JDAY = Some d ->
  intch INTCH p JDAY = Ok (mget INTCH (Z.to_nat p) d).
Proof.
  intros HP HR HD. unfold intch. rewrite (pyget_nonneg _ _ []) by auto. cbn [bind]. unfold pyget.
  assert (L : length (nth (Z.to_nat p) INTCH []) = ND) by (apply HR, nth_In; lia).
  rewrite L, HD. unfold of_option, mget.
  assert (d < ND)%nat.
  { unfold pyidx in HD. destruct (_ && _) eqn:B1 in HD.
    - injection HD as <-. apply andb_true_iff in B1 as [B1 B2]. apply Z.leb_le in B1. apply Z.ltb_lt in B2. lia.
    - destruct (_ && _) eqn:B2 in HD; [|discriminate]. injection HD as <-.
      apply andb_true_iff in B2 as [B2 B3]. apply Z.leb_le in B3. apply Z.ltb_lt in B2. lia. }
  destruct (nth_error (nth (Z.to_nat p) INTCH []) d) eqn:E.
  - f_equal. symmetry. now apply nth_error_nth.
  - apply nth_error_None in E. lia.
Qed.

Theorem findtn_spec n JENT INTCH ND JDAY d :
  shape n n JENT -> pointers_ok n JENT INTCH -> (forall r, In r INTCH -> length r = ND) ->
  pyidx ND JDAY = Some d ->
  exists T, findtn JENT INTCH JDAY = Ok T /\ length T = n /\
    (forall k, (k < n)%nat -> vget T k = net_export n JENT INTCH k d) /\ qsum T = q0.
Proof.
  intros S P R D. unfold findtn.
  assert (G : forall cs t, (forall c, In c cs -> In c (contracts JENT)) ->
    fold_left (fun acc c => let '(j1, j2, p) := c in
     do t <- acc; do x <- intch INTCH p JDAY; Ok (addv (addv t j1 x) j2 (Qcopp x))) cs (Ok t) =
    Ok (fold_left (tn_step INTCH d) cs t)).
  { induction cs as [|[[j1 j2] p] cs IH]; intros t IN; [reflexivity|]. cbn [fold_left bind].
    destruct (contracts_in n JENT j1 j2 p S (IN _ (or_introl eq_refl))) as (H1 & H2 & EP & NP).
    destruct (P j1 j2 H1 H2) as [H|H]; [congruence|]. rewrite <- EP in H.
    rewrite (intch_ok INTCH p ND JDAY d) by auto. cbn [bind]. rewrite IH; [reflexivity|].
    intros c Hc. apply IN. now right. }
  rewrite G by auto. eexists. split; [reflexivity|]. destruct S as (L & RR).
  rewrite tn_step_length. unfold vzeros at 1. rewrite repeat_length.
  assert (N : forall k, (k < n)%nat -> vget (fold_left (tn_step INTCH d) (contracts JENT) (vzeros (length JENT))) k
     = net_export n JENT INTCH k d).
  { intros k Hk. unfold vget. rewrite tn_step_nth by (unfold vzeros; rewrite repeat_length; lia).
    rewrite vzeros_nth, (net_of_contracts n) by (try split; auto). qring. }
  split; [auto|]. split; [exact N|].
  rewrite qsum_qs, tn_step_length. unfold vzeros at 1. rewrite repeat_length.
  transitivity (qs n (fun k => net_export n JENT INTCH k d)); [|apply net_sum]. rewrite L at 1. apply qs_ext. intros k Hk. rewrite <- N by auto. reflexivity.
Qed.
