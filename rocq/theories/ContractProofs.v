(** Proofs about adding and removing contracts ([xporta], [_xporta], [xports]). *)
From Verif Require Import Base BaseProofs Sums LoadModel LoadSpec LoadProofs.
Open Scope Z_scope.

(** A matrix transformer that adds [delta j h] to entry (j,h). *)
Definition adds (n w : nat) (f : list (list Qc) -> list (list Qc)) (delta : nat -> nat -> Qc) : Prop :=
  forall H, shape n w H -> shape n w (f H) /\
    forall j h, (j < n)%nat -> (h < w)%nat -> mget (f H) j h = Qcplus (mget H j h) (delta j h).

Lemma adds_fold {A} n w (f : list (list Qc) -> A -> list (list Qc)) (delta : A -> nat -> nat -> Qc) (l : list A) :
  (forall a, In a l -> adds n w (fun H => f H a) (delta a)) ->
  adds n w (fun H => fold_left f l H) (fun j h => qsum (map (fun a => delta a j h) l)).
Proof.
  induction l as [|a l IH]; intros HA H S.
  - cbn [fold_left map]. split; auto. intros. rewrite qsum_nil. qring.
  - cbn [fold_left]. destruct (HA a (or_introl eq_refl) H S) as (S1 & E1).
    destruct (IH (fun b Hb => HA b (or_intror Hb)) (f H a) S1) as (S2 & E2). split; auto.
    intros j h Hj Hh. rewrite E2, E1 by auto. cbn [map]. rewrite qsum_cons. qring.
Qed.

Lemma adds_ext n w f g d e : (forall H, f H = g H) ->
  (forall j h, (j < n)%nat -> (h < w)%nat -> d j h = e j h) -> adds n w f d -> adds n w g e.
Proof.
  intros FG DE A H S. destruct (A H S) as (S1 & E1). rewrite <- FG. split; auto. intros j h Hj Hh. rewrite E1 by auto. now rewrite DE.
Qed.
Lemma adds_comp n w f g d e : adds n w f d -> adds n w g e -> adds n w (fun H => g (f H)) (fun j h => Qcplus (d j h) (e j h)).
Proof.
  intros A B H S. destruct (A H S) as (S1 & E1). destruct (B _ S1) as (S2 & E2). split; auto.
  intros. rewrite E2, E1 by auto. qring.
Qed.
Lemma adds_id n w : adds n w (fun H => H) (fun _ _ => q0).
Proof. intros H S. split; auto. intros. qring. Qed.

Lemma shape_upd n w (H : list (list Qc)) j r : shape n w H -> length r = w -> shape n w (upd H j r).
Proof.
  intros (L & R) LR. split; [now rewrite upd_length|]. intros k Hk. rewrite nth_upd.
  destruct ((j =? k)%nat && (j <? length H)%nat); auto.
Qed.

Lemma mget_upd n w (H : list (list Qc)) i r j h : shape n w H -> (j < n)%nat ->
  mget (upd H i r) j h = if (j =? i)%nat then nth h r q0 else mget H j h.
Proof.
  intros (L & _) Hj. unfold mget. rewrite nth_upd. rewrite (Nat.eqb_sym i j).
  destruct (Nat.eqb_spec j i); subst; cbn [andb]; auto.
  destruct (Nat.ltb_spec i (length H)); auto; lia.
Qed.

Lemma adds_slice n w j0 a b x : (j0 < n)%nat -> adds n w (fun H => add_slice H j0 a b x)
  (fun j h => if (j =? j0)%nat && ((a <=? h)%nat && (h <? b)%nat) then x else q0).
Proof.
  intros H0 H S. unfold add_slice. split.
  - apply shape_upd; auto. rewrite mapi_length. apply S. auto.
  - intros j h Hj Hh. rewrite (mget_upd n w) by auto. destruct (Nat.eqb_spec j j0) as [->|N].
    + rewrite (nth_mapi _ _ _ q0) by (destruct S as (_ & R); rewrite R; auto). cbn [andb].
      destruct ((a <=? h)%nat && (h <? b)%nat); unfold mget; qring.
    + cbn [andb]. qring.
Qed.

Lemma adds_elem n w j0 k x : (j0 < n)%nat -> adds n w (fun H => add_elem H j0 k x)
  (fun j h => if (j =? j0)%nat && (h =? k)%nat then x else q0).
Proof.
  intros H0 H S. unfold add_elem. split.
  - apply shape_upd; auto. rewrite addv_length. apply S. auto.
  - intros j h Hj Hh. rewrite (mget_upd n w) by auto. destruct (Nat.eqb_spec j j0) as [->|N].
    + rewrite addv_nth by (destruct S as (_ & R); rewrite R; auto). reflexivity.
    + cbn [andb]. qring.
Qed.

(** the change made by contract number [p] between [j1] and [j2] *)
Definition cdelta (INTCH : list (list Qc)) (c : nat * nat * Z) (j h : nat) : Qc :=
  let '(j1, j2, p) := c in
  Qcminus (if (j =? j1)%nat then mget INTCH (Z.to_nat p) (h / 24) else q0)
          (if (j =? j2)%nat then mget INTCH (Z.to_nat p) (h / 24) else q0).

Lemma in_day d h : ((d * 24 <=? h)%nat && (h <? (d + 1) * 24)%nat) = (h / 24 =? d)%nat.
Proof.
  pose proof (Nat.div_mod h 24 ltac:(lia)). pose proof (Nat.mod_upper_bound h 24 ltac:(lia)).
  destruct (Nat.eqb_spec (h / 24) d); destruct (Nat.leb_spec (d * 24) h); destruct (Nat.ltb_spec h ((d + 1) * 24)); cbn; auto; lia.
Qed.

Definition xporta_contract (INTCH : list (list Qc)) (H : list (list Qc)) (c : nat * nat * Z) : list (list Qc) :=
  let '(j1, j2, p) := c in
  let row := nth (Z.to_nat p) INTCH [] in
  fold_left (xporta_day j1 j2)
           (filter (fun dx => negb (qeqb (snd dx) q0)) (combine (seq 0 (length row)) row)) H.

Lemma adds_contract n w INTCH j1 j2 p : (j1 < n)%nat -> (j2 < n)%nat ->
  adds n w (fun H => xporta_contract INTCH H (j1, j2, p)) (cdelta INTCH (j1, j2, p)).
Proof.
  intros H1 H2. unfold xporta_contract. set (row := nth (Z.to_nat p) INTCH []).
  eapply adds_ext; [reflexivity| |].
  2:{ apply adds_fold with (delta := fun dx j h =>
        Qcplus (if (j =? j1)%nat && ((fst dx * 24 <=? h)%nat && (h <? (fst dx + 1) * 24)%nat) then snd dx else q0)
               (if (j =? j2)%nat && ((fst dx * 24 <=? h)%nat && (h <? (fst dx + 1) * 24)%nat) then Qcopp (snd dx) else q0)).
      intros [d x] _. unfold xporta_day. cbn [fst snd].
      exact (adds_comp n w (fun H => add_slice H j1 (d * 24) ((d + 1) * 24) x)
                (fun H => add_slice H j2 (d * 24) ((d + 1) * 24) (Qcopp x)) _ _
               (adds_slice n w j1 _ _ x H1) (adds_slice n w j2 _ _ (Qcopp x) H2)). }
  intros j h Hj Hh. cbn beta. rewrite qsum_filter, (combine_seq row q0), map_map. cbn [fst snd]. fold (qs (length row)
    (fun d => if negb (qeqb (nth d row q0) q0) then
       Qcplus (if (j =? j1)%nat && ((d * 24 <=? h)%nat && (h <? (d + 1) * 24)%nat) then nth d row q0 else q0)
         (if (j =? j2)%nat && ((d * 24 <=? h)%nat && (h <? (d + 1) * 24)%nat) then Qcopp (nth d row q0) else q0) else q0)).
  transitivity (qs (length row) (fun d => if (d =? h / 24)%nat then
     Qcminus (if (j =? j1)%nat then nth d row q0 else q0) (if (j =? j2)%nat then nth d row q0 else q0) else q0)).
  - apply qs_ext. intros d Hd. rewrite in_day, (Nat.eqb_sym d).
    destruct (qeqb (nth d row q0) q0) eqn:E; cbn [negb].
    + apply qeqb_iff in E. rewrite E. destruct (h / 24 =? d)%nat; auto. destruct (j =? j1)%nat, (j =? j2)%nat; qring.
    + destruct (h / 24 =? d)%nat, (j =? j1)%nat, (j =? j2)%nat; cbn [andb]; qring.
  - unfold cdelta, mget. fold row. destruct (Nat.lt_ge_cases (h / 24) (length row)) as [L|L].
    + rewrite qs_delta by auto. reflexivity.
    + rewrite qs_delta_out by auto. rewrite (nth_overflow row) by auto. destruct (j =? j1)%nat, (j =? j2)%nat; qring.
Qed.

Lemma xporta_ok n JENT INTCH H : shape n n JENT -> pointers_ok n JENT INTCH ->
  xporta JENT INTCH H = Ok (fold_left (xporta_contract INTCH) (contracts JENT) H).
Proof.
  intros S P. unfold xporta.
  assert (G : forall cs H, (forall c, In c cs -> In c (contracts JENT)) ->
    fold_left (fun acc c => let '(j1, j2, p) := c in
     do H <- acc; do row <- pyget INTCH p;
     Ok (fold_left (xporta_day j1 j2)
           (filter (fun dx => negb (qeqb (snd dx) q0)) (combine (seq 0 (length row)) row)) H)) cs (Ok H)
    = Ok (fold_left (xporta_contract INTCH) cs H)).
  { induction cs as [|[[j1 j2] p] cs IH]; intros H0 IN; [reflexivity|]. cbn [fold_left bind].
    destruct (contracts_in n JENT j1 j2 p S (IN _ (or_introl eq_refl))) as (H1 & H2 & EP & NP).
    destruct (P j1 j2 H1 H2) as [HB|HB]; [congruence|]. rewrite <- EP in HB.
    rewrite (pyget_nonneg _ _ []) by auto. cbn [bind]. rewrite IH; [reflexivity|].
    intros c Hc. apply IN. now right. }
  apply G. auto.
Qed.

Lemma xporta_adds n w JENT INTCH : shape n n JENT -> 
  adds n w (fun H => fold_left (xporta_contract INTCH) (contracts JENT) H)
    (fun j h => net_export n JENT INTCH j (h / 24)).
Proof.
  intros S. eapply adds_ext; [reflexivity| |apply adds_fold with (delta := cdelta INTCH)].
  - intros j h Hj Hh. cbn beta. rewrite <- (net_of_contracts n) by auto. apply qsum_map_ext. intros [[a b] p] _. reflexivity.
  - intros [[a b] p] IN. destruct (contracts_in n JENT a b p S IN) as (H1 & H2 & _). now apply adds_contract.
Qed.

Theorem xporta_spec n w JENT INTCH H :
  shape n n JENT -> pointers_ok n JENT INTCH -> shape n w H ->
  exists H', xporta JENT INTCH H = Ok H' /\ shape n w H' /\
    (forall j h, (j < n)%nat -> (h < w)%nat -> mget H' j h = Qcplus (mget H j h) (net_export n JENT INTCH j (h / 24))) /\
    (forall h, (h < w)%nat -> qs n (fun j => mget H' j h) = qs n (fun j => mget H j h)).
Proof.
  intros S P SH. rewrite (xporta_ok n) by auto. destruct (xporta_adds n w JENT INTCH S H SH) as (S' & E).
  eexists. split; [reflexivity|]. split; [exact S'|]. split; [exact E|].
  intros h Hh. rewrite (qs_ext n _ (fun j => Qcplus (mget H j h) (net_export n JENT INTCH j (h / 24)))) by auto.
  rewrite qs_plus, net_sum. qring.
Qed.

Lemma mget_opp INTCH p d : mget (map (map Qcopp) INTCH) p d = Qcopp (mget INTCH p d).
Proof.
  unfold mget. change (@nil Qc) with (map Qcopp []) at 1. rewrite map_nth.
  destruct (Nat.lt_ge_cases d (length (nth p INTCH []))) as [L|L].
  - rewrite (nth_indep _ q0 (Qcopp q0)) by now rewrite map_length. now rewrite map_nth.
  - rewrite !nth_overflow by (rewrite ?map_length; auto). qring.
Qed.
Lemma net_opp n JENT INTCH j d : net_export n JENT (map (map Qcopp) INTCH) j d = Qcopp (net_export n JENT INTCH j d).
Proof.
  unfold net_export. 
  assert (A : forall a b, amount JENT (map (map Qcopp) INTCH) a b d = Qcopp (amount JENT INTCH a b d)).
  { intros. unfold amount. destruct (_ =? _); [qring|]. apply mget_opp. }
  rewrite (qs_ext n _ (fun k => Qcopp (amount JENT INTCH j k d))) by auto.
  rewrite (qs_ext n (fun k => amount _ _ k j d) (fun k => Qcopp (amount JENT INTCH k j d))) by auto.
  rewrite !qs_opp. qring.
Qed.

Lemma shape_ext n w (H K : list (list Qc)) : shape n w H -> shape n w K ->
  (forall j h, (j < n)%nat -> (h < w)%nat -> mget H j h = mget K j h) -> H = K.
Proof.
  intros (L1 & R1) (L2 & R2) E. apply (nth_ext_eq H K []); [congruence|]. intros j Hj. rewrite L1 in Hj.
  apply (nth_ext_eq _ _ q0); [rewrite R1, R2; auto|]. intros h Hh. rewrite R1 in Hh by auto. now apply E.
Qed.

Theorem contracts_restored n w JENT INTCH H :
  shape n n JENT -> pointers_ok n JENT INTCH -> shape n w H ->
  exists H', xporta JENT INTCH H = Ok H' /\ xports JENT INTCH H' = Ok H.
Proof.
  intros S P SH. destruct (xporta_spec n w JENT INTCH H S P SH) as (H1 & E1 & S1 & M1 & _).
  exists H1. split; auto. unfold xports.
  destruct (xporta_spec n w JENT (map (map Qcopp) INTCH) H1 S) as (H2 & E2 & S2 & M2 & _); auto.
  { intros i j Hi Hj. rewrite map_length. now apply P. }
  rewrite E2. f_equal. apply (shape_ext n w); auto. intros j h Hj Hh. rewrite M2, M1, net_opp by auto. qring.
Qed.

Lemma seq_off a n : map (fun i => (a + i)%nat) (seq 0 n) = seq a n.
Proof.
  assert (G : forall s, map (fun i => (a + i)%nat) (seq s n) = seq (a + s) n).
  { induction n as [|n IH]; intros s; [reflexivity|]. cbn [seq map]. rewrite IH. f_equal. f_equal. lia. }
  rewrite G. now rewrite Nat.add_0_r.
Qed.

Lemma xporta_loop_adds n w ND JENT INTCH : shape n n JENT -> pointers_ok n JENT INTCH -> shape (length INTCH) ND INTCH ->
  forall H, shape n w H -> shape n w (xporta_loop ND JENT INTCH H) /\
    forall j h, (j < n)%nat -> (h < w)%nat ->
      mget (xporta_loop ND JENT INTCH H) j h = Qcplus (mget H j h) (net_export n JENT INTCH j (h / 24)).
Proof.
  intros S P SI. intros H SH.
  assert (LH : length H = n) by apply SH. revert H LH SH.
  assert (G : adds n w (fun H => fold_left (fun H j1 =>
    fold_left (fun H j2 =>
      let p := zmget JENT j1 j2 in
      if p =? -1 then H else
      fold_left (fun H k =>
        let x := mget INTCH (Z.to_nat p) k in
        if qeqb x q0 then H else
        fold_left (fun H k3 => add_elem (add_elem H j1 k3 x) j2 k3 (Qcopp x)) (seq (k * 24) 24) H)
        (seq 0 ND) H)
      (seq 0 n) H)
    (seq 0 n) H) (fun j h => net_export n JENT INTCH j (h / 24))).
  2:{ intros H LH SH. unfold xporta_loop. rewrite LH. exact (G H SH). }
  eapply adds_ext; [reflexivity| |].
  2:{ apply adds_fold with (delta := fun j1 j h => qsum (map (fun j2 =>
         if zmget JENT j1 j2 =? -1 then q0 else cdelta INTCH (j1, j2, zmget JENT j1 j2) j h) (seq 0 n))).
      intros j1 HI1. apply in_seq in HI1.
      apply adds_fold with (delta := fun j2 j h => if zmget JENT j1 j2 =? -1 then q0 else cdelta INTCH (j1, j2, zmget JENT j1 j2) j h).
      intros j2 HI2. apply in_seq in HI2. cbv zeta.
      destruct (Z.eqb_spec (zmget JENT j1 j2) (-1)) as [|NE]; [apply adds_id|].
      assert (HP : 0 <= zmget JENT j1 j2 < Z.of_nat (length INTCH)) by (destruct (P j1 j2); [lia|lia|congruence|auto]).
      set (p := zmget JENT j1 j2) in *.
      eapply adds_ext; [reflexivity| |].
      2:{ apply adds_fold with (delta := fun k j h => if qeqb (mget INTCH (Z.to_nat p) k) q0 then q0 else
            qsum (map (fun k3 => Qcplus (if (j =? j1)%nat && (h =? k3)%nat then mget INTCH (Z.to_nat p) k else q0)
               (if (j =? j2)%nat && (h =? k3)%nat then Qcopp (mget INTCH (Z.to_nat p) k) else q0)) (seq (k * 24) 24))).
          intros k _. destruct (qeqb (mget INTCH (Z.to_nat p) k) q0); [apply adds_id|].
          apply adds_fold with (delta := fun k3 j h => Qcplus (if (j =? j1)%nat && (h =? k3)%nat then mget INTCH (Z.to_nat p) k else q0)
               (if (j =? j2)%nat && (h =? k3)%nat then Qcopp (mget INTCH (Z.to_nat p) k) else q0)).
          intros k3 _. set (x := mget INTCH (Z.to_nat p) k).
          exact (adds_comp n w (fun H => add_elem H j1 k3 x) (fun H => add_elem H j2 k3 (Qcopp x)) _ _
               (adds_elem n w j1 k3 x ltac:(lia)) (adds_elem n w j2 k3 (Qcopp x) ltac:(lia))). }
      intros j h Hj Hh. cbn beta.
      assert (LR : length (nth (Z.to_nat p) INTCH []) = ND) by (apply SI; lia).
      transitivity (qs ND (fun k => if (k =? h / 24)%nat then cdelta INTCH (j1, j2, p) j h else q0)).
      - apply qs_ext. intros k Hk. 
        assert (EX : forall x, qsum (map (fun k3 => Qcplus (if (j =? j1)%nat && (h =? k3)%nat then x else q0)
           (if (j =? j2)%nat && (h =? k3)%nat then Qcopp x else q0)) (seq (k * 24) 24)) =
           if (k =? h / 24)%nat then Qcminus (if (j =? j1)%nat then x else q0) (if (j =? j2)%nat then x else q0) else q0).
        { intros x. rewrite (Nat.eqb_sym k (h / 24)), <- in_day.
          replace (seq (k * 24) 24) with (map (fun i => (k * 24 + i)%nat) (seq 0 24)).
          2:{ apply seq_off. }
          rewrite map_map. change (qs 24 (fun i => Qcplus (if (j =? j1)%nat && (h =? k * 24 + i)%nat then x else q0)
              (if (j =? j2)%nat && (h =? k * 24 + i)%nat then Qcopp x else q0)) =
            (if ((k * 24 <=? h)%nat && (h <? (k + 1) * 24)%nat) then Qcminus (if (j =? j1)%nat then x else q0) (if (j =? j2)%nat then x else q0) else q0)).
          destruct (Nat.leb_spec (k * 24) h); destruct (Nat.ltb_spec h ((k + 1) * 24)); cbn [andb].
          - rewrite (qs_ext 24 _ (fun i => if (i =? h - k * 24)%nat then
               Qcminus (if (j =? j1)%nat then x else q0) (if (j =? j2)%nat then x else q0) else q0)).
            + rewrite qs_delta by lia. reflexivity.
            + intros i Hi. destruct (Nat.eqb_spec i (h - k * 24)); destruct (Nat.eqb_spec h (k * 24 + i)); try lia;
                destruct (j =? j1)%nat, (j =? j2)%nat; cbn [andb]; qring.
          - apply qs_zero. intros i Hi. destruct (Nat.eqb_spec h (k * 24 + i)); [lia|]. rewrite !andb_false_r. qring.
          - apply qs_zero. intros i Hi. destruct (Nat.eqb_spec h (k * 24 + i)); [lia|]. rewrite !andb_false_r. qring.
          - lia. }
        rewrite EX. unfold cdelta. destruct (Nat.eqb_spec k (h / 24)) as [->|N].
        + destruct (qeqb _ q0) eqn:Q; auto. apply qeqb_iff in Q. rewrite Q. destruct (j =? j1)%nat, (j =? j2)%nat; qring.
        + destruct (qeqb _ q0); reflexivity.
      - destruct (Nat.lt_ge_cases (h / 24) ND) as [L|L].
        + rewrite (qs_delta ND (h / 24) (fun _ => cdelta INTCH (j1, j2, p) j h)) by auto. reflexivity.
        + rewrite (qs_delta_out ND (h / 24) (fun _ => cdelta INTCH (j1, j2, p) j h)) by auto.
          unfold cdelta, mget. rewrite (nth_overflow (nth (Z.to_nat p) INTCH [])) by lia.
          destruct (j =? j1)%nat, (j =? j2)%nat; qring. }
  intros j h Hj Hh. cbn beta. rewrite <- (net_of_contracts n) by auto.
  rewrite (qsum_contracts n) by auto. reflexivity.
Qed.

Theorem xporta_agree n w ND JENT INTCH H : shape n n JENT -> pointers_ok n JENT INTCH -> shape (length INTCH) ND INTCH ->
  shape n w H -> xporta JENT INTCH H = Ok (xporta_loop ND JENT INTCH H).
Proof.
  intros S P SI SH. destruct (xporta_spec n w JENT INTCH H S P SH) as (H1 & E1 & S1 & M1 & _).
  destruct (xporta_loop_adds n w ND JENT INTCH S P SI H SH) as (S2 & M2).
  rewrite E1. f_equal. apply (shape_ext n w); auto. intros. now rewrite M1, M2.
Qed.
