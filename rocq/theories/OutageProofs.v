(** Proofs about the capacity outage table. *)
From Verif Require Import Base BaseProofs Sums OutageModel OutageSpec.
Open Scope Z_scope.

Lemma lookup_app l l' K : (forall r, In r l -> fst r < K) -> lookup (l ++ l') K = lookup l' K.
Proof.
  induction l as [|r l IH]; intros H; [reflexivity|]. cbn [app lookup]. pose proof (H r (or_introl eq_refl)).
  destruct (Z.leb_spec K (fst r)); [lia|]. apply IH. intros r' I. apply H. now right.
Qed.

(** the loop over abstract columns *)
Section LOOP.
  Variables (N : nat) (lev : nat -> Z) (p : nat -> Qc) (x1 x2 x3 : Z) (K1 K2 K3 : list Z) (P : list Qc) (P1 P2 P3 : Qc) (C : Z).
  Let c (x : Z) (j : nat) : Z := if (j <? N)%nat then lev j + x else BIG.
  Hypothesis HK1 : forall j, (j <= N)%nat -> zget K1 j = c x1 j.
  Hypothesis HK2 : forall j, (j <= N)%nat -> zget K2 j = c x2 j.
  Hypothesis HK3 : forall j, (j <= N)%nat -> zget K3 j = c x3 j.
  Hypothesis HP : forall j, (j <= N)%nat -> vget P j = if (j <? N)%nat then p j else q0.
  Hypothesis Hlev : forall i j, (i <= j < N)%nat -> lev i <= lev j.
  Hypothesis Hp : forall i j, (i <= j < N)%nat -> (p j <= p i)%Qc.
  Hypothesis Hp0 : forall i, (i < N)%nat -> (q0 <= p i)%Qc.
  Hypothesis Hbig : forall j x, (j < N)%nat -> In x [x1; x2; x3] -> lev j + x <= C.
  Hypothesis HC : C < BIG.
  Hypothesis W1 : (q0 <= P1)%Qc.
  Hypothesis W2 : (q0 <= P2)%Qc.
  Hypothesis W3 : (q0 <= P3)%Qc.

  Let pp (j : nat) : Qc := if (j <? N)%nat then p j else q0.
  Let val (J1 J2 J3 : nat) : Qc := Qcplus (Qcplus (Qcmult (pp J1) P1) (Qcmult (pp J2) P2)) (Qcmult (pp J3) P3).

  Lemma pp_mono i j : (i <= j)%nat -> (pp j <= pp i)%Qc.
  Proof.
    intros H. unfold pp. destruct (Nat.ltb_spec j N), (Nat.ltb_spec i N); try lia; [apply Hp; lia|apply Hp0; lia|apply Qcle_refl].
  Qed.
  Lemma pp_nonneg i : (q0 <= pp i)%Qc.
  Proof. unfold pp. destruct (Nat.ltb_spec i N); [auto|apply Qcle_refl]. Qed.
  Lemma val_mono a b d a' b' d' : (a <= a')%nat -> (b <= b')%nat -> (d <= d')%nat -> (val a' b' d' <= val a b d)%Qc.
  Proof.
    intros A B D. unfold val. pose proof (pp_mono _ _ A). pose proof (pp_mono _ _ B). pose proof (pp_mono _ _ D).
    pose proof (Qcmult_le_compat_r _ _ P1 H W1). pose proof (Qcmult_le_compat_r _ _ P2 H0 W2). pose proof (Qcmult_le_compat_r _ _ P3 H1 W3).
    apply Qcplus_le_compat; [apply Qcplus_le_compat|]; assumption.
  Qed.
  Lemma val_nonneg a b d : (q0 <= val a b d)%Qc.
  Proof.
    unfold val. pose proof (pp_nonneg a). pose proof (pp_nonneg b). pose proof (pp_nonneg d).
    pose proof (Qcmult_le_compat_r _ _ P1 H W1). pose proof (Qcmult_le_compat_r _ _ P2 H0 W2). pose proof (Qcmult_le_compat_r _ _ P3 H1 W3).
    set (u := Qcmult (pp a) P1) in *. set (v := Qcmult (pp b) P2) in *. set (w := Qcmult (pp d) P3) in *.
    replace (Qcmult q0 P1) with q0 in * by qring. replace (Qcmult q0 P2) with q0 in * by qring. replace (Qcmult q0 P3) with q0 in * by qring.
    qlra.
  Qed.

  (** the entries of column x before J are at most L, from J on at least L *)
  Definition at_ (x : Z) (J : nat) (L : Z) : Prop :=
    (J <= N)%nat /\ (forall j, (j < J)%nat -> c x j <= L) /\ (forall j, (J <= j <= N)%nat -> L <= c x j).
  (** the first index of column x with a level at or above K *)
  Definition first_ (x K : Z) (i : nat) : Prop := (i <= N)%nat /\ (forall j, (j < i)%nat -> c x j < K) /\ (i = N \/ K <= c x i).

  Lemma c_mono x i j : In x [x1; x2; x3] -> (i <= j <= N)%nat -> c x i <= c x j.
  Proof.
    intros I H. unfold c. destruct (Nat.ltb_spec j N), (Nat.ltb_spec i N); try lia; [pose proof (Hlev i j); lia|pose proof (Hbig i x ltac:(assumption) I); lia].
  Qed.

  Lemma at_step x J L K : In x [x1; x2; x3] -> at_ x J L -> L <= K -> K < BIG -> K <= c x J -> at_ x (step (c x J) K J) K.
  Proof.
    intros I (JN & A & B) LK KB KC. unfold step. destruct (Z.eqb_spec (c x J) K) as [E|NE].
    - assert (J < N)%nat. { destruct (Nat.lt_ge_cases J N); [assumption|]. unfold c in E. destruct (Nat.ltb_spec J N); lia. }
      split; [lia|]. split.
      + intros j Hj. assert (j = J \/ j < J)%nat as [->|H1] by lia; [lia|]. pose proof (A j H1). lia.
      + intros j Hj. rewrite <- E. apply c_mono; [assumption|lia].
    - split; [assumption|]. split; [intros j Hj; pose proof (A j Hj); lia|].
      intros j Hj. pose proof (c_mono x J j I ltac:(lia)). lia.
  Qed.

  Variables (ex : Z -> Qc).
  Hypothesis EX : forall K i1 i2 i3, first_ x1 K i1 -> first_ x2 K i2 -> first_ x3 K i3 -> ex K = val i1 i2 i3.

  Lemma first_exists x K : exists i, first_ x K i.
  Proof.
    assert (G : forall m, (m <= N)%nat -> (exists i, first_ x K i) \/ (forall j, (j < m)%nat -> c x j < K)).
    { induction m as [|m IH]; intros H; [right; intros; lia|].
      destruct (IH ltac:(lia)) as [|A]; [now left|].
      destruct (Z_lt_ge_dec (c x m) K) as [L|G]; [right; intros j Hj; assert (j = m \/ j < m)%nat as [->|] by lia; auto|].
      left. exists m. split; [lia|]. split; [assumption|right; lia]. }
    destruct (G N ltac:(lia)) as [|A]; [assumption|]. exists N. split; [lia|]. split; [exact A|now left].
  Qed.
  Lemma first_ge x K i J L : first_ x K i -> at_ x J L -> L < K -> (J <= i)%nat.
  Proof.
    intros (A & B & D) (JN & E & F) LK. destruct (Nat.le_gt_cases J i); [assumption|]. specialize (E i H).
    destruct D as [->|D]; lia.
  Qed.
  Lemma first_at_J x K i J L : first_ x K i -> at_ x J L -> L < K -> K <= c x J -> i = J.
  Proof.
    intros FI AT LK KC. pose proof (first_ge _ _ _ _ _ FI AT LK). destruct FI as (A & B & D), AT as (JN & _ & _).
    destruct (Nat.lt_ge_cases J i) as [G|G]; [specialize (B J G); lia|lia].
  Qed.

  Lemma loop_lookup : forall f J1 J2 J3 L last, at_ x1 J1 L -> at_ x2 J2 L -> at_ x3 J3 L -> (val J1 J2 J3 <= last)%Qc ->
    let out := gsm_loop N K1 K2 K3 P P1 P2 P3 f J1 J2 J3 last in
    (forall r, In r out -> L <= fst r <= C /\ Qcle q0 (snd r) /\ Qcle (snd r) last) /\
    sorted_rows out /\ (length out <= f)%nat /\
    (forall K, L < K -> lookup out K = ex K \/
       (lookup out K = q0 /\ (forall r, In r out -> fst r < K) /\ ((length out < f)%nat -> (ex K <= CUT)%Qc))).
  Proof.
    assert (I1 : In x1 [x1; x2; x3]) by (cbn; auto). assert (I2 : In x2 [x1; x2; x3]) by (cbn; auto). assert (I3 : In x3 [x1; x2; x3]) by (cbn; auto).
    induction f as [|f IH]; intros J1 J2 J3 L last A1 A2 A3 V; cbv zeta.
    { cbn [gsm_loop]. split; [contradiction|]. split; [intros i j H; cbn in H; lia|]. split; [apply le_n|].
      intros K H. right. split; [reflexivity|]. split; [contradiction|cbn; lia]. }
    cbn [gsm_loop]. pose proof (proj1 A1) as N1. pose proof (proj1 A2) as N2. pose proof (proj1 A3) as N3.
    destruct (Nat.ltb_spec (Nat.min J1 (Nat.min J2 J3)) N) as [LT|GE]; cbn [andb].
    2:{ split; [contradiction|]. split; [intros i j H; cbn in H; lia|]. split; [cbn; lia|]. intros K H. right.
        split; [reflexivity|]. split; [contradiction|]. intros _.
        destruct (first_exists x1 K) as (i1 & F1), (first_exists x2 K) as (i2 & F2), (first_exists x3 K) as (i3 & F3).
        rewrite (EX _ _ _ _ F1 F2 F3).
        pose proof (first_ge _ _ _ _ _ F1 A1 H). pose proof (first_ge _ _ _ _ _ F2 A2 H). pose proof (first_ge _ _ _ _ _ F3 A3 H).
        unfold val, pp. destruct (Nat.ltb_spec i1 N); [lia|]. destruct (Nat.ltb_spec i2 N); [lia|]. destruct (Nat.ltb_spec i3 N); [lia|].
        replace (Qcplus _ _) with q0 by qring. apply qleb_iff. reflexivity. }
    destruct (qltb CUT last) eqn:CU; cbn [andb].
    2:{ split; [contradiction|]. split; [intros i j H; cbn in H; lia|]. split; [cbn; lia|]. intros K H. right.
        split; [reflexivity|]. split; [contradiction|]. intros _. apply Qcle_trans with last; [|unfold qltb in CU; apply negb_false_iff in CU; apply qleb_iff; exact CU].
        destruct (first_exists x1 K) as (i1 & F1), (first_exists x2 K) as (i2 & F2), (first_exists x3 K) as (i3 & F3).
        rewrite (EX _ _ _ _ F1 F2 F3). eapply Qcle_trans; [|exact V].
        apply val_mono; eapply first_ge; eassumption. }
    rewrite (HK1 J1 N1), (HK2 J2 N2), (HK3 J3 N3), (HP J1 N1), (HP J2 N2), (HP J3 N3). fold (pp J1) (pp J2) (pp J3). fold (val J1 J2 J3).
    set (K := Z.min (c x1 J1) (Z.min (c x2 J2) (c x3 J3))).
    assert (LK : L <= K). { pose proof (proj2 (proj2 A1) J1 ltac:(lia)). pose proof (proj2 (proj2 A2) J2 ltac:(lia)). pose proof (proj2 (proj2 A3) J3 ltac:(lia)). lia. }
    assert (KC : K <= C).
    { assert (CC : forall x J, In x [x1; x2; x3] -> (J < N)%nat -> c x J <= C).
      { intros x J I H. unfold c. destruct (Nat.ltb_spec J N); [|lia]. apply Hbig; auto. }
      destruct (Nat.min_spec J1 (Nat.min J2 J3)) as [(_ & E)|(_ & E)]; rewrite E in LT; [specialize (CC x1 J1 I1 LT); lia|].
      destruct (Nat.min_spec J2 J3) as [(_ & E2)|(_ & E2)]; rewrite E2 in LT; [specialize (CC x2 J2 I2 LT)|specialize (CC x3 J3 I3 LT)]; lia. }
    assert (B1 : at_ x1 (step (c x1 J1) K J1) K) by (apply at_step with L; auto; lia).
    assert (B2 : at_ x2 (step (c x2 J2) K J2) K) by (apply at_step with L; auto; lia).
    assert (B3 : at_ x3 (step (c x3 J3) K J3) K) by (apply at_step with L; auto; lia).
    assert (VM : (val (step (c x1 J1) K J1) (step (c x2 J2) K J2) (step (c x3 J3) K J3) <= val J1 J2 J3)%Qc).
    { apply val_mono; unfold step; match goal with |- context [if ?b then _ else _] => destruct b end; lia. }
    specialize (IH _ _ _ _ (val J1 J2 J3) B1 B2 B3 VM). cbv zeta in IH. destruct IH as (R1 & R2 & R3 & R4).
    set (out := gsm_loop _ _ _ _ _ _ _ _ _ _ _ _ _) in *.
    split; [|split; [|split]].
    - intros r [<-|I]; cbn [fst snd]; [split; [lia|]; split; [apply val_nonneg|exact V]|].
      destruct (R1 r I) as (a & b & d). split; [lia|]. split; [exact b|]. eapply Qcle_trans; [exact d|exact V].
    - intros [|i] [|j] H; try (cbn [length] in H; lia).
      + cbn [nth]. split; [lia|apply Qcle_refl].
      + change (nth (S j) ((K, val J1 J2 J3) :: out) (0, q0)) with (nth j out (0, q0)). cbn [nth fst snd].
        cbn [length] in H. destruct (R1 (nth j out (0, q0)) (nth_In out _ (ltac:(lia) : (j < length out)%nat))) as (a & b & d). split; [lia|exact d].
      + apply (R2 i j). cbn [length] in H. lia.
    - cbn [length]. lia.
    - intros K' HK. cbn [lookup fst snd]. destruct (Z.leb_spec K' K) as [LE|GT].
      + left. symmetry. destruct (first_exists x1 K') as (i1 & F1), (first_exists x2 K') as (i2 & F2), (first_exists x3 K') as (i3 & F3).
        rewrite (EX _ _ _ _ F1 F2 F3).
        rewrite (first_at_J _ _ _ _ _ F1 A1 HK) by lia. rewrite (first_at_J _ _ _ _ _ F2 A2 HK) by lia. rewrite (first_at_J _ _ _ _ _ F3 A3 HK) by lia. reflexivity.
      + destruct (R4 K' GT) as [E|(E1 & E2 & E3)]; [now left|right]. split; [exact E1|]. split.
        * intros r [<-|I]; cbn [fst]; [lia|auto].
        * cbn [length]. intros G. apply E3. lia.
  Qed.

  (** strict version: entries from J on lie above L *)
  Lemma loop_strict : (forall i j, (i < j < N)%nat -> lev i < lev j) ->
    forall f J1 J2 J3 L last, at_ x1 J1 L -> at_ x2 J2 L -> at_ x3 J3 L -> L < c x1 J1 -> L < c x2 J2 -> L < c x3 J3 ->
    let out := gsm_loop N K1 K2 K3 P P1 P2 P3 f J1 J2 J3 last in
    (forall r, In r out -> L < fst r) /\ strict_rows out.
  Proof.
    intros ST. assert (I1 : In x1 [x1; x2; x3]) by (cbn; auto). assert (I2 : In x2 [x1; x2; x3]) by (cbn; auto). assert (I3 : In x3 [x1; x2; x3]) by (cbn; auto).
    induction f as [|f IH]; intros J1 J2 J3 L last A1 A2 A3 S1 S2 S3; cbv zeta.
    { cbn [gsm_loop]. split; [contradiction|intros i j H; cbn in H; lia]. }
    cbn [gsm_loop]. pose proof (proj1 A1) as N1. pose proof (proj1 A2) as N2. pose proof (proj1 A3) as N3.
    destruct (Nat.ltb_spec (Nat.min J1 (Nat.min J2 J3)) N) as [LT|GE]; cbn [andb]; [|split; [contradiction|intros i j H; cbn in H; lia]].
    destruct (qltb CUT last) eqn:CU; cbn [andb]; [|split; [contradiction|intros i j H; cbn in H; lia]].
    rewrite (HK1 J1 N1), (HK2 J2 N2), (HK3 J3 N3).
    set (K := Z.min (c x1 J1) (Z.min (c x2 J2) (c x3 J3))).
    assert (LK : L < K) by lia.
    assert (KC : K <= C).
    { assert (CC : forall x J, In x [x1; x2; x3] -> (J < N)%nat -> c x J <= C).
      { intros x J I H. unfold c. destruct (Nat.ltb_spec J N); [|lia]. apply Hbig; auto. }
      destruct (Nat.min_spec J1 (Nat.min J2 J3)) as [(_ & E)|(_ & E)]; rewrite E in LT; [specialize (CC x1 J1 I1 LT); lia|].
      destruct (Nat.min_spec J2 J3) as [(_ & E2)|(_ & E2)]; rewrite E2 in LT; [specialize (CC x2 J2 I2 LT)|specialize (CC x3 J3 I3 LT)]; lia. }
    assert (B1 : at_ x1 (step (c x1 J1) K J1) K) by (apply at_step with L; auto; lia).
    assert (B2 : at_ x2 (step (c x2 J2) K J2) K) by (apply at_step with L; auto; lia).
    assert (B3 : at_ x3 (step (c x3 J3) K J3) K) by (apply at_step with L; auto; lia).
    assert (SS : forall x J, In x [x1; x2; x3] -> (J <= N)%nat -> K <= c x J -> K < c x (step (c x J) K J)).
    { intros x J I JN G. unfold step. destruct (Z.eqb_spec (c x J) K) as [E|E]; [|lia]. unfold c in *.
      destruct (Nat.ltb_spec J N); [|lia]. destruct (Nat.ltb_spec (S J) N); [|lia]. pose proof (ST J (S J) ltac:(lia)). lia. }
    match goal with |- context [gsm_loop _ _ _ _ _ _ _ _ f _ _ _ ?l] =>
      specialize (IH _ _ _ K l B1 B2 B3 (SS x1 J1 I1 N1 ltac:(lia)) (SS x2 J2 I2 N2 ltac:(lia)) (SS x3 J3 I3 N3 ltac:(lia))) end.
    cbv zeta in IH. destruct IH as (R1 & R2). set (out := gsm_loop _ _ _ _ _ _ _ _ _ _ _ _ _) in *. split.
    - intros r [<-|I]; cbn [fst]; [lia|]. specialize (R1 r I). lia.
    - intros [|i] [|j] H; try (cbn [length] in H; lia); cbn [length] in H.
      + cbn [nth fst]. apply (R1 (nth j out (0, q0)) (nth_In out _ (ltac:(lia) : (j < length out)%nat))).
      + apply (R2 i j). lia.
  Qed.

  (** every level stored is an old level plus one of the losses *)
  Lemma loop_levels (Q : Z -> Prop) : (forall j x, (j < N)%nat -> In x [x1; x2; x3] -> Q (lev j + x)) ->
    forall f J1 J2 J3 L last, at_ x1 J1 L -> at_ x2 J2 L -> at_ x3 J3 L ->
    forall r, In r (gsm_loop N K1 K2 K3 P P1 P2 P3 f J1 J2 J3 last) -> Q (fst r).
  Proof.
    intros HQ. assert (I1 : In x1 [x1; x2; x3]) by (cbn; auto). assert (I2 : In x2 [x1; x2; x3]) by (cbn; auto). assert (I3 : In x3 [x1; x2; x3]) by (cbn; auto).
    induction f as [|f IH]; intros J1 J2 J3 L last A1 A2 A3 r; cbn [gsm_loop]; [contradiction|].
    pose proof (proj1 A1) as N1. pose proof (proj1 A2) as N2. pose proof (proj1 A3) as N3.
    destruct (Nat.ltb_spec (Nat.min J1 (Nat.min J2 J3)) N) as [LT|GE]; cbn [andb]; [|contradiction].
    destruct (qltb CUT last) eqn:CU; cbn [andb]; [|contradiction].
    rewrite (HK1 J1 N1), (HK2 J2 N2), (HK3 J3 N3).
    set (K := Z.min (c x1 J1) (Z.min (c x2 J2) (c x3 J3))).
    assert (LK : L <= K). { pose proof (proj2 (proj2 A1) J1 ltac:(lia)). pose proof (proj2 (proj2 A2) J2 ltac:(lia)). pose proof (proj2 (proj2 A3) J3 ltac:(lia)). lia. }
    assert (KC : K <= C).
    { assert (CC : forall x J, In x [x1; x2; x3] -> (J < N)%nat -> c x J <= C).
      { intros x J I H. unfold c. destruct (Nat.ltb_spec J N); [|lia]. apply Hbig; auto. }
      destruct (Nat.min_spec J1 (Nat.min J2 J3)) as [(_ & E)|(_ & E)]; rewrite E in LT; [specialize (CC x1 J1 I1 LT); lia|].
      destruct (Nat.min_spec J2 J3) as [(_ & E2)|(_ & E2)]; rewrite E2 in LT; [specialize (CC x2 J2 I2 LT)|specialize (CC x3 J3 I3 LT)]; lia. }
    assert (B1 : at_ x1 (step (c x1 J1) K J1) K) by (apply at_step with L; auto; lia).
    assert (B2 : at_ x2 (step (c x2 J2) K J2) K) by (apply at_step with L; auto; lia).
    assert (B3 : at_ x3 (step (c x3 J3) K J3) K) by (apply at_step with L; auto; lia).
    intros [<-|I]; cbn [fst]; [|eapply IH; [exact B1|exact B2|exact B3|exact I]].
    assert (CQ : forall x J, In x [x1; x2; x3] -> K = c x J -> Q K).
    { intros x J I E. assert (J < N)%nat. { destruct (Nat.lt_ge_cases J N); [assumption|]. unfold c in E. destruct (Nat.ltb_spec J N); lia. }
      rewrite E. unfold c. destruct (Nat.ltb_spec J N); [apply HQ; auto|lia]. }
    destruct (Z.min_spec (c x1 J1) (Z.min (c x2 J2) (c x3 J3))) as [(_ & E)|(_ & E)]; [exact (CQ x1 J1 I1 E)|].
    destruct (Z.min_spec (c x2 J2) (c x3 J3)) as [(_ & E2)|(_ & E2)]; [exact (CQ x2 J2 I2 (eq_trans E E2))|exact (CQ x3 J3 I3 (eq_trans E E2))].
  Qed.

  (** the second implementation runs the same loop *)
  Lemma loop_same K1' K2' K3' P' :
    (forall j, (j <= N)%nat -> zget K1' j = c x1 j) -> (forall j, (j <= N)%nat -> zget K2' j = c x2 j) ->
    (forall j, (j <= N)%nat -> zget K3' j = c x3 j) -> (forall j, (j <= N)%nat -> vget P' j = pp j) ->
    forall f J1 J2 J3 L last, at_ x1 J1 L -> at_ x2 J2 L -> at_ x3 J3 L ->
    (Nat.min J1 (Nat.min J2 J3) < N)%nat -> (CUT < last)%Qc ->
    gsm_loop N K1 K2 K3 P P1 P2 P3 f J1 J2 J3 last = gsm_loop_ N K1' K2' K3' P' P1 P2 P3 f J1 J2 J3.
  Proof.
    intros G1 G2 G3 GP. assert (I1 : In x1 [x1; x2; x3]) by (cbn; auto). assert (I2 : In x2 [x1; x2; x3]) by (cbn; auto). assert (I3 : In x3 [x1; x2; x3]) by (cbn; auto).
    induction f as [|f IH]; intros J1 J2 J3 L last A1 A2 A3 LT CU; [reflexivity|].
    cbn [gsm_loop gsm_loop_]. pose proof (proj1 A1) as N1. pose proof (proj1 A2) as N2. pose proof (proj1 A3) as N3.
    destruct (Nat.ltb_spec (Nat.min J1 (Nat.min J2 J3)) N) as [_|GE]; [|lia]. apply qltb_iff in CU. rewrite CU. cbn [andb].
    rewrite (HK1 J1 N1), (HK2 J2 N2), (HK3 J3 N3), (HP J1 N1), (HP J2 N2), (HP J3 N3), (G1 J1 N1), (G2 J2 N2), (G3 J3 N3), (GP J1 N1), (GP J2 N2), (GP J3 N3).
    fold (pp J1) (pp J2) (pp J3). fold (val J1 J2 J3). f_equal.
    set (K := Z.min (c x1 J1) (Z.min (c x2 J2) (c x3 J3))).
    assert (SY : forall k J, (if K =? k then S J else J) = step k K J) by (intros; unfold step; now rewrite Z.eqb_sym). rewrite !SY.
    assert (LK : L <= K). { pose proof (proj2 (proj2 A1) J1 ltac:(lia)). pose proof (proj2 (proj2 A2) J2 ltac:(lia)). pose proof (proj2 (proj2 A3) J3 ltac:(lia)). lia. }
    assert (KC : K <= C).
    { assert (CC : forall x J, In x [x1; x2; x3] -> (J < N)%nat -> c x J <= C).
      { intros x J I H. unfold c. destruct (Nat.ltb_spec J N); [|lia]. apply Hbig; auto. }
      destruct (Nat.min_spec J1 (Nat.min J2 J3)) as [(_ & E)|(_ & E)]; rewrite E in LT; [specialize (CC x1 J1 I1 LT); lia|].
      destruct (Nat.min_spec J2 J3) as [(_ & E2)|(_ & E2)]; rewrite E2 in LT; [specialize (CC x2 J2 I2 LT)|specialize (CC x3 J3 I3 LT)]; lia. }
    assert (B1 : at_ x1 (step (c x1 J1) K J1) K) by (apply at_step with L; auto; lia).
    assert (B2 : at_ x2 (step (c x2 J2) K J2) K) by (apply at_step with L; auto; lia).
    assert (B3 : at_ x3 (step (c x3 J3) K J3) K) by (apply at_step with L; auto; lia).
    destruct f as [|f].
    { cbn [gsm_loop gsm_loop_]. destruct (N <=? _)%nat; [reflexivity|]. destruct (qleb _ _); reflexivity. }
    destruct (Nat.leb_spec N (Nat.min (step (c x1 J1) K J1) (Nat.min (step (c x2 J2) K J2) (step (c x3 J3) K J3)))) as [G|G].
    { cbn [gsm_loop]. destruct (Nat.ltb_spec (Nat.min (step (c x1 J1) K J1) (Nat.min (step (c x2 J2) K J2) (step (c x3 J3) K J3))) N); [lia|reflexivity]. }
    destruct (qleb (val J1 J2 J3) CUT) eqn:CV.
    { cbn [gsm_loop]. unfold qltb. unfold qleb in CV. rewrite CV. cbn [negb]. rewrite andb_false_r. reflexivity. }
    eapply IH; try eassumption. apply qltb_iff. unfold qltb, qleb in *. now rewrite CV.
  Qed.
End LOOP.

(* ------------------------------------------------------------------ *)
Lemma lookup_first : forall l K i, (i <= length l)%nat -> (forall j, (j < i)%nat -> fst (nth j l (0, q0)) < K) ->
  i = length l \/ K <= fst (nth i l (0, q0)) -> lookup l K = if (i <? length l)%nat then snd (nth i l (0, q0)) else q0.
Proof.
  induction l as [|r l IH]; intros K i Hi A B; [destruct i; reflexivity|]. cbn [lookup length].
  destruct i as [|i].
  - destruct B as [B|B]; [cbn in B; lia|]. cbn [nth] in B. destruct (Z.leb_spec K (fst r)); [reflexivity|lia].
  - pose proof (A 0%nat ltac:(lia)) as A0. cbn [nth] in A0. destruct (Z.leb_spec K (fst r)); [lia|].
    change (S i <? S (length l))%nat with (i <? length l)%nat. cbn [nth]. apply IH.
    + cbn [length] in Hi. lia.
    + intros j Hj. apply (A (S j)). lia.
    + cbn [length] in B. destruct B as [B|B]; [left; lia|right; exact B].
Qed.

Lemma nth_firstn_lt {A} (d : A) : forall l n j, (j < n)%nat -> nth j (firstn n l) d = nth j l d.
Proof.
  induction l as [|x l IH]; intros [|n] [|j] H; try reflexivity; try lia. cbn [firstn nth]. apply IH. lia.
Qed.
Lemma combine_rows {A B} : forall (l : list (A * B)) a b, firstn (length l) (combine (map fst l ++ a) (map snd l ++ b)) = l.
Proof. induction l as [|[x y] l IH]; intros a b; [reflexivity|]. cbn [length map app combine fst snd firstn]. now rewrite IH. Qed.
Lemma upd_app_at {A} (x : A) : forall l s, upd (l ++ s) (length l) x = l ++ upd s 0 x.
Proof. induction l as [|y l IH]; intros s; [reflexivity|]. cbn [app length upd]. now rewrite IH. Qed.

Lemma gsm_loop_length N a b c P P1 P2 P3 : forall f J1 J2 J3 last, (length (gsm_loop N a b c P P1 P2 P3 f J1 J2 J3 last) <= f)%nat.
Proof.
  induction f as [|f IH]; intros; [apply le_n|]. cbn [gsm_loop]. destruct (_ && _); cbn [length]; [|lia]. apply le_n_S, IH.
Qed.
Lemma overflows_false l : overflows l = false -> (length l < S INGS1)%nat.
Proof. unfold overflows. generalize INGS1. intros n H. apply Nat.leb_gt in H. lia. Qed.
Lemma ings1_val : INGS1 = 4950%nat. Proof. reflexivity. Qed.
Lemma ings_val : INGS = 5000%nat. Proof. reflexivity. Qed.

Section TABLE.
  Variables (C : Z) (t : ctab).
  Hypothesis TK : table_ok C t.
  Let N := ct_N t.

  Lemma rows_length : length (rows t) = N.
  Proof.
    destruct TK. unfold rows. rewrite firstn_length, combine_length, tk_KA, tk_PA. unfold N, INGS in *. lia.
  Qed.
  Lemma rows_nth j : (j < N)%nat -> nth j (rows t) (0, q0) = (zget (ct_KA t) j, vget (ct_PA t) j).
  Proof.
    intros H. unfold rows. rewrite nth_firstn_lt by exact H. destruct TK. rewrite combine_nth by congruence. reflexivity.
  Qed.
  Lemma ko_nth x j : (j <= N)%nat -> zget (ko N x (ct_KA t)) j = if (j <? N)%nat then fst (nth j (rows t) (0, q0)) + x else BIG.
  Proof.
    intros H. unfold ko, fill2, zget. destruct TK. assert (LM : length (map (fun k => k + x) (ct_KA t)) = INGS) by (rewrite map_length; exact tk_KA).
    unfold N, INGS in *. rewrite nth_upd_other by lia. destruct (Nat.ltb_spec j (ct_N t)) as [L|G].
    - rewrite nth_upd_other by lia. rewrite rows_nth by exact L. cbn [fst]. unfold zget.
      rewrite nth_indep with (d' := 0 + x) by (rewrite LM; lia). exact (map_nth (fun k => k + x) (ct_KA t) 0 j).
    - assert (j = ct_N t) as -> by lia. apply nth_upd_same. lia.
  Qed.
  Lemma p_nth j : (j <= N)%nat -> vget (fill2 N q0 (ct_PA t)) j = if (j <? N)%nat then snd (nth j (rows t) (0, q0)) else q0.
  Proof.
    intros H. unfold fill2, vget. destruct TK. unfold N, INGS in *. rewrite nth_upd_other by lia.
    destruct (Nat.ltb_spec j (ct_N t)) as [L|G].
    - rewrite nth_upd_other by lia. rewrite rows_nth by exact L. reflexivity.
    - assert (j = ct_N t) as -> by lia. apply nth_upd_same. lia.
  Qed.
  Lemma ko_nth_ x j : (j <= N)%nat -> zget (ko_ N x (ct_KA t)) j = if (j <? N)%nat then fst (nth j (rows t) (0, q0)) + x else BIG.
  Proof.
    intros H. unfold ko_, zget. destruct TK. assert (LF : length (map (fun k => k + x) (firstn N (ct_KA t))) = N).
    { rewrite map_length, firstn_length, tk_KA. unfold N, INGS in *. lia. }
    destruct (Nat.ltb_spec j N) as [L|G].
    - rewrite app_nth1 by lia. rewrite rows_nth by exact L. cbn [fst]. unfold zget.
      rewrite nth_indep with (d' := 0 + x) by lia. rewrite (map_nth (fun k => k + x) (firstn N (ct_KA t)) 0 j). f_equal.
      rewrite <- (firstn_skipn N (ct_KA t)) at 2. rewrite app_nth1; [reflexivity|]. rewrite map_length in LF. lia.
    - rewrite app_nth2 by lia. rewrite LF. replace (j - N)%nat with 0%nat by lia. reflexivity.
  Qed.
  Lemma p_nth_ j : (j <= N)%nat -> vget (p_ N (ct_PA t)) j = if (j <? N)%nat then snd (nth j (rows t) (0, q0)) else q0.
  Proof.
    intros H. unfold p_, vget. destruct TK. assert (LF : length (firstn N (ct_PA t)) = N).
    { rewrite firstn_length, tk_PA. unfold N, INGS in *. lia. }
    destruct (Nat.ltb_spec j N) as [L|G].
    - rewrite app_nth1 by lia. rewrite rows_nth by exact L. cbn [snd]. unfold vget.
      rewrite <- (firstn_skipn N (ct_PA t)) at 2. rewrite app_nth1; [reflexivity|lia].
    - rewrite app_nth2 by lia. rewrite LF. replace (j - N)%nat with 0%nat by lia. reflexivity.
  Qed.

  Let lev (j : nat) : Z := fst (nth j (rows t) (0, q0)).
  Let p (j : nat) : Qc := snd (nth j (rows t) (0, q0)).
  Lemma lev_mono i j : (i <= j < N)%nat -> lev i <= lev j.
  Proof. intros H. apply (tk_sorted _ _ TK). rewrite rows_length. exact H. Qed.
  Lemma p_mono i j : (i <= j < N)%nat -> (p j <= p i)%Qc.
  Proof. intros H. apply (tk_sorted _ _ TK). rewrite rows_length. exact H. Qed.
  Lemma row_in j : (j < N)%nat -> In (nth j (rows t) (0, q0)) (rows t).
  Proof. intros H. apply nth_In. rewrite rows_length. exact H. Qed.
  Lemma p_nonneg i : (i < N)%nat -> (q0 <= p i)%Qc.
  Proof. intros H. pose proof (tk_nonneg _ _ TK) as F. rewrite Forall_forall in F. apply F, row_in, H. Qed.
  Lemma lev_le i : (i < N)%nat -> lev i <= C.
  Proof. intros H. pose proof (tk_below _ _ TK) as F. rewrite Forall_forall in F. apply F, row_in, H. Qed.
  Lemma N_pos : (1 <= N <= 4951)%nat. Proof. exact (tk_N _ _ TK). Qed.
  Lemma lev0 : lev 0 = 0. Proof. unfold lev. now rewrite (tk_first _ _ TK). Qed.
  Lemma p0 : p 0 = q1. Proof. unfold p. now rewrite (tk_first _ _ TK). Qed.

  Lemma lookup_shift x K i : (i <= N)%nat -> (forall j, (j < i)%nat -> (if (j <? N)%nat then lev j + x else BIG) < K) ->
    i = N \/ K <= (if (i <? N)%nat then lev i + x else BIG) ->
    listed t (K - x) = if (i <? N)%nat then p i else q0.
  Proof.
    intros Hi A B. unfold listed. rewrite (lookup_first (rows t) (K - x) i).
    - rewrite rows_length. reflexivity.
    - rewrite rows_length. exact Hi.
    - intros j Hj. specialize (A j Hj). destruct (Nat.ltb_spec j N); [|lia]. unfold lev in A. lia.
    - rewrite rows_length. destruct (Nat.ltb_spec i N) as [L|G]; [|left; lia]. destruct B as [B|B]; [left; exact B|right; unfold lev in B; lia].
  Qed.

  Lemma listed_le0 K : K <= 0 -> listed t K = q1.
  Proof.
    intros H. replace K with (K - 0) by lia. rewrite (lookup_shift 0 K 0).
    - pose proof N_pos. destruct (Nat.ltb_spec 0 N); [apply p0|lia].
    - lia.
    - intros; lia.
    - right. pose proof N_pos. destruct (Nat.ltb_spec 0 N); [rewrite lev0; lia|lia].
  Qed.

  Variable u : unit3.
  Hypothesis UK : unit3_ok u.
  Hypothesis CB : C + mw_out u < BIG.

  Definition new_rows : list (Z * Qc) := gsm_rows (mw_out u) (mw_der u) (pr_full u) (pr_der u) (pr_out u) t.
  Definition new_table : ctab := gsm (mw_out u) (mw_der u) (pr_full u) (pr_der u) (pr_out u) t.

  Lemma shifts_le j x : (j < N)%nat -> In x [0; mw_der u; mw_out u] -> lev j + x <= C + mw_out u.
  Proof. intros H I. pose proof (lev_le j H). destruct UK as (_ & _ & _ & _ & D & O). destruct I as [<-|[<-|[<-|[]]]]; lia. Qed.

  Lemma start_at : at_ N lev 0 1 0 /\ at_ N lev (mw_der u) (if mw_der u =? 0 then 1 else 0) 0 /\ at_ N lev (mw_out u) 0 0.
  Proof.
    pose proof N_pos. pose proof lev0 as L0. destruct UK as (_ & _ & _ & _ & D & O).
    assert (G : forall x, 0 <= x -> forall j, 0 <= (if (j <? N)%nat then lev j + x else BIG)).
    { intros x X j. destruct (Nat.ltb_spec j N); [pose proof (lev_mono 0 j ltac:(lia)); lia|unfold BIG; lia]. }
    assert (Z0 : forall j, (j < 1)%nat -> (if (j <? N)%nat then lev j + 0 else BIG) <= 0).
    { intros [|j] Hj; [|lia]. destruct (Nat.ltb_spec 0 N); lia. }
    split; [|split]; unfold at_.
    - split; [lia|]. split; [exact Z0|]. intros; apply G; lia.
    - destruct (Z.eqb_spec (mw_der u) 0) as [E|E].
      + rewrite E. split; [lia|]. split; [exact Z0|]. intros; apply G; lia.
      + split; [lia|]. split; [intros; lia|]. intros; apply G; lia.
    - split; [lia|]. split; [intros; lia|]. intros; apply G; lia.
  Qed.

  Lemma new_length : (1 <= length new_rows <= 4951)%nat /\ (overflows new_rows = false -> (length new_rows <= 4950)%nat).
  Proof.
    unfold new_rows, gsm_rows, overflows. cbv zeta.
    pose proof (gsm_loop_length (ct_N t) (ko (ct_N t) 0 (ct_KA t)) (ko (ct_N t) (mw_der u) (ct_KA t)) (ko (ct_N t) (mw_out u) (ct_KA t)) (fill2 (ct_N t) q0 (ct_PA t))
      (pr_full u) (pr_der u) (pr_out u) INGS1 1 (if mw_der u =? 0 then 1 else 0) 0 q1) as H.
    generalize dependent (gsm_loop (ct_N t) (ko (ct_N t) 0 (ct_KA t)) (ko (ct_N t) (mw_der u) (ct_KA t)) (ko (ct_N t) (mw_out u) (ct_KA t)) (fill2 (ct_N t) q0 (ct_PA t))
      (pr_full u) (pr_der u) (pr_out u) INGS1 1 (if mw_der u =? 0 then 1 else 0) 0 q1).
    intros l. cbn [length]. generalize (length l). intros n H. pose proof ings1_val. split; [lia|]. intros OV. apply Nat.leb_gt in OV. lia.
  Qed.

  Lemma stored_rows : rows new_table = new_rows /\ ct_N new_table = length new_rows /\ length (ct_KA new_table) = INGS /\ length (ct_PA new_table) = INGS.
  Proof.
    destruct new_length as [LN _]. destruct TK. unfold new_table, gsm, store. fold new_rows. cbn [ct_N ct_KA ct_PA].
    assert (LA : length (map fst new_rows ++ skipn (length new_rows) (ct_KA t)) = INGS).
    { rewrite app_length, map_length, skipn_length, tk_KA. unfold INGS. lia. }
    assert (LB : length (map snd new_rows ++ skipn (length new_rows) (ct_PA t)) = INGS).
    { rewrite app_length, map_length, skipn_length, tk_PA. unfold INGS. lia. }
    split; [|split; [reflexivity|split; [exact LA|rewrite upd_length; exact LB]]].
    unfold rows. cbn [ct_N ct_KA ct_PA]. generalize new_rows. intros nr. rewrite <- (map_length snd nr) at 4. rewrite upd_app_at. apply combine_rows.
  Qed.

  Definition rows_with (f : nat) : list (Z * Qc) :=
    (0, q1) :: gsm_loop N (ko N 0 (ct_KA t)) (ko N (mw_der u) (ct_KA t)) (ko N (mw_out u) (ct_KA t)) (fill2 N q0 (ct_PA t)) (pr_full u) (pr_der u) (pr_out u)
                 f 1 (if mw_der u =? 0 then 1 else 0) 0 q1.
  Lemma rows_with_new : rows_with INGS1 = new_rows. Proof. reflexivity. Qed.

  Lemma new_spec_gen f :
    (forall r, In r (rows_with f) -> 0 <= fst r <= C + mw_out u /\ Qcle q0 (snd r)) /\ sorted_rows (rows_with f) /\
    (forall K, lookup (rows_with f) K = added_prob (listed t) u K \/
       (lookup (rows_with f) K = q0 /\ (forall r, In r (rows_with f) -> fst r < K) /\ ((length (rows_with f) < S f)%nat -> (added_prob (listed t) u K <= CUT)%Qc))).
  Proof.
    destruct start_at as (A1 & A2 & A3). destruct UK as (W1 & W2 & W3 & SU & D & O). pose proof N_pos as NP.
    pose proof (loop_lookup N lev p 0 (mw_der u) (mw_out u) _ _ _ _ (pr_full u) (pr_der u) (pr_out u) (C + mw_out u)
      (ko_nth 0) (ko_nth (mw_der u)) (ko_nth (mw_out u)) p_nth lev_mono p_mono p_nonneg shifts_le CB W1 W2 W3 (added_prob (listed t) u)) as LL.
    assert (EX : forall K i1 i2 i3, first_ N lev 0 K i1 -> first_ N lev (mw_der u) K i2 -> first_ N lev (mw_out u) K i3 ->
      added_prob (listed t) u K = Qcplus (Qcplus (Qcmult (if (i1 <? N)%nat then p i1 else q0) (pr_full u)) (Qcmult (if (i2 <? N)%nat then p i2 else q0) (pr_der u)))
        (Qcmult (if (i3 <? N)%nat then p i3 else q0) (pr_out u))).
    { intros K i1 i2 i3 (a1 & b1 & d1) (a2 & b2 & d2) (a3 & b3 & d3). unfold added_prob.
      rewrite <- (lookup_shift 0 K i1 a1 b1 d1), <- (lookup_shift _ K i2 a2 b2 d2), <- (lookup_shift _ K i3 a3 b3 d3). rewrite Z.sub_0_r. ring. }
    specialize (LL EX f 1%nat (if (mw_der u =? 0)%Z then 1 else 0)%nat 0%nat 0 q1 A1 A2 A3). clear EX.
    assert (V : Qcle (Qcplus (Qcplus (Qcmult (if (1 <? N)%nat then p 1 else q0) (pr_full u)) (Qcmult (if ((if (mw_der u =? 0)%Z then 1 else 0) <? N)%nat then p (if (mw_der u =? 0)%Z then 1 else 0)%nat else q0) (pr_der u)))
        (Qcmult (if (0 <? N)%nat then p 0 else q0) (pr_out u))) q1).
    { assert (B : forall i, Qcle (if (i <? N)%nat then p i else q0) q1).
      { intros i. destruct (Nat.ltb_spec i N); [rewrite <- p0; apply p_mono; lia|apply qleb_iff; reflexivity]. }
      pose proof (Qcmult_le_compat_r _ _ _ (B 1%nat) W1) as E1. pose proof (Qcmult_le_compat_r _ _ _ (B (if (mw_der u =? 0)%Z then 1 else 0)%nat) W2) as E2.
      pose proof (Qcmult_le_compat_r _ _ _ (B 0%nat) W3) as E3. rewrite <- SU.
      change q1 with 1%Qc in E1, E2, E3. rewrite Qcmult_1_l in E1, E2, E3.
      apply Qcplus_le_compat; [apply Qcplus_le_compat|]; assumption. }
    specialize (LL V). cbv zeta in LL. destruct LL as (R1 & R2 & R3 & R4).
    unfold rows_with. set (out := gsm_loop _ _ _ _ _ _ _ _ _ _ _ _ _) in *. clearbody out.
    split; [|split].
    - intros r [<-|I]; cbn [fst snd]; [pose proof (lev_le 0 ltac:(lia)); rewrite lev0 in *; split; [lia|apply qleb_iff; reflexivity]|].
      destruct (R1 r I) as (a & b & _). split; [lia|exact b].
    - intros [|i] [|j] H; try (cbn [length] in H; lia); cbn [length] in H.
      + cbn [nth]. split; [lia|apply Qcle_refl].
      + change (nth (S j) ((0, q1) :: out) (0, q0)) with (nth j out (0, q0)). cbn [nth fst snd].
        destruct (R1 (nth j out (0, q0)) (nth_In out _ (ltac:(lia) : (j < length out)%nat))) as (a & b & d). split; [lia|exact d].
      + apply (R2 i j). lia.
    - intros K. cbn [lookup fst snd]. destruct (Z.leb_spec K 0) as [L|G].
      + left. unfold added_prob. rewrite !listed_le0 by lia. symmetry. etransitivity; [|exact SU]. change q1 with 1%Qc. ring.
      + destruct (R4 K G) as [E|(E1 & E2 & E3)]; [now left|right]. split; [exact E1|]. split.
        * intros r [<-|I]; cbn [fst]; [lia|auto].
        * cbn [length]. intros H. apply E3. lia.
  Qed.

  Lemma new_spec :
    (forall r, In r new_rows -> 0 <= fst r <= C + mw_out u /\ Qcle q0 (snd r)) /\ sorted_rows new_rows /\
    (forall K, lookup new_rows K = added_prob (listed t) u K \/
       (lookup new_rows K = q0 /\ (forall r, In r new_rows -> fst r < K) /\ (overflows new_rows = false -> (added_prob (listed t) u K <= CUT)%Qc))).
  Proof.
    pose proof (new_spec_gen INGS1) as (A & B & D). rewrite rows_with_new in A, B, D. split; [exact A|]. split; [exact B|].
    intros K. destruct (D K) as [E|(E1 & E2 & E3)]; [now left|right]. split; [exact E1|]. split; [exact E2|].
    intros O. apply E3. apply overflows_false in O. lia.
  Qed.

  Lemma new_ok : table_ok (C + mw_out u) new_table.
  Proof.
    destruct new_spec as (R1 & R2 & _). destruct stored_rows as (E & EN & LA & LB). destruct new_length as [LN _].
    assert (F : nth 0 new_rows (0, q0) = (0, q1)) by (rewrite <- rows_with_new; unfold rows_with; reflexivity).
    apply mkTableOk.
    - exact LA.
    - exact LB.
    - rewrite EN. exact LN.
    - rewrite E. exact F.
    - rewrite E. exact R2.
    - rewrite E. apply Forall_forall. intros r I. apply R1, I.
    - rewrite E. apply Forall_forall. intros r I. apply R1 in I. lia.
  Qed.

  Lemma new_strict_gen f : strict_rows (rows t) -> 0 < mw_out u -> strict_rows (rows_with f).
  Proof.
    intros ST OP. destruct start_at as (A1 & A2 & A3). destruct UK as (W1 & W2 & W3 & SU & D & O). pose proof N_pos as NP.
    assert (SL : forall i j, (i < j < N)%nat -> lev i < lev j) by (intros i j H; apply ST; rewrite rows_length; exact H).
    pose proof (loop_strict N lev 0 (mw_der u) (mw_out u) _ _ _ (fill2 N q0 (ct_PA t)) (pr_full u) (pr_der u) (pr_out u) (C + mw_out u)
      (ko_nth 0) (ko_nth (mw_der u)) (ko_nth (mw_out u)) lev_mono shifts_le CB SL f 1%nat (if (mw_der u =? 0)%Z then 1 else 0)%nat 0%nat 0 q1 A1 A2 A3) as LS.
    assert (G : forall x j, 0 <= x -> (0 < x \/ (0 < j)%nat) -> 0 < (if (j <? N)%nat then lev j + x else BIG)).
    { intros x j X H. destruct (Nat.ltb_spec j N); [|reflexivity]. pose proof (lev_mono 0 j ltac:(lia)). rewrite lev0 in *.
      destruct H as [H|H]; [lia|]. pose proof (SL 0%nat j ltac:(lia)). rewrite lev0 in *. lia. }
    specialize (LS (G _ _ (Z.le_refl 0) (or_intror (Nat.lt_0_succ 0)))).
    assert (D1 : 0 < mw_der u \/ (0 < (if (mw_der u =? 0)%Z then 1 else 0))%nat) by (destruct (Z.eqb_spec (mw_der u) 0); [right|left]; lia).
    specialize (LS (G _ _ D D1) (G (mw_out u) 0%nat (Z.le_trans _ _ _ D O) (or_introl OP))). cbv zeta in LS. destruct LS as (R1 & R2).
    unfold rows_with. set (out := gsm_loop _ _ _ _ _ _ _ _ _ _ _ _ _) in *. clearbody out.
    intros [|i] [|j] H; try (cbn [length] in H; lia); cbn [length] in H.
    - cbn [nth fst]. apply (R1 (nth j out (0, q0)) (nth_In out _ (ltac:(lia) : (j < length out)%nat))).
    - apply (R2 i j). lia.
  Qed.

  Lemma new_strict : strict_rows (rows t) -> 0 < mw_out u -> strict_rows new_rows.
  Proof. rewrite <- rows_with_new. apply new_strict_gen. Qed.

  Lemma new_levels (Q : Z -> Prop) : Q 0 -> (forall r x, In r (rows t) -> In x [0; mw_der u; mw_out u] -> Q (fst r + x)) ->
    forall r, In r new_rows -> Q (fst r).
  Proof.
    intros Q0 HQ. destruct start_at as (A1 & A2 & A3). destruct UK as (W1 & W2 & W3 & SU & D & O).
    assert (G : forall f r, In r (rows_with f) -> Q (fst r)).
    { intros f r [<-|I]; [exact Q0|].
      eapply (loop_levels N lev 0 (mw_der u) (mw_out u) _ _ _ (fill2 N q0 (ct_PA t)) (pr_full u) (pr_der u) (pr_out u) (C + mw_out u)
        (ko_nth 0) (ko_nth (mw_der u)) (ko_nth (mw_out u)) lev_mono shifts_le CB Q); [|exact A1|exact A2|exact A3|exact I].
      intros j x Hj Ix. apply HQ; [apply row_in, Hj|exact Ix]. }
    rewrite <- rows_with_new. apply G.
  Qed.
  (** if the second row has level 0, or the unit has no capacity, the new second row has level 0 *)
  Lemma new_double : mw_out u = 0 \/ ((2 <= N)%nat /\ lev 1 = 0) -> (2 <= length new_rows)%nat /\ fst (nth 1 new_rows (0, q0)) = 0.
  Proof.
    intros H. destruct start_at as (A1 & A2 & A3). destruct UK as (W1 & W2 & W3 & SU & D & O). pose proof N_pos as NP.
    assert (G : forall f, (2 <= length (rows_with (S f)))%nat /\ fst (nth 1 (rows_with (S f)) (0, q0)) = 0).
    { intros f. unfold rows_with. cbn [gsm_loop]. rewrite Nat.min_0_r, Nat.min_0_r. destruct (Nat.ltb_spec 0 N) as [_|]; [|lia].
      change (qltb CUT q1) with true. cbn [andb length nth fst]. split; [lia|].
      rewrite ko_nth by lia. rewrite ko_nth by (destruct (mw_der u =? 0); lia). rewrite ko_nth by lia.
      pose proof (proj2 (proj2 A1) 1%nat ltac:(lia)) as B1. pose proof (proj2 (proj2 A2) (if mw_der u =? 0 then 1%nat else 0%nat) ltac:(destruct (mw_der u =? 0); lia)) as B2.
      pose proof (proj2 (proj2 A3) 0%nat ltac:(lia)) as B3. cbv beta in B1, B2, B3. fold (lev 1) (lev 0). fold (lev (if mw_der u =? 0 then 1%nat else 0%nat)).
      destruct (Nat.ltb_spec 0 N) as [_|]; [|lia]. destruct H as [H|(H1 & H2)].
      - rewrite lev0 in *. lia.
      - destruct (Nat.ltb_spec 1 N) as [_|]; [|lia]. rewrite H2 in *. lia. }
    rewrite <- rows_with_new. rewrite ings1_val. exact (G 4949%nat).
  Qed.

  Lemma same_tables : gsm_ (mw_out u) (mw_der u) (pr_full u) (pr_der u) (pr_out u) t = new_table.
  Proof.
    destruct start_at as (A1 & A2 & A3). destruct UK as (W1 & W2 & W3 & SU & D & O). pose proof N_pos as NP.
    unfold new_table, gsm, gsm_. f_equal. unfold gsm_rows. cbv zeta. fold N. f_equal. symmetry.
    eapply (loop_same N lev p 0 (mw_der u) (mw_out u)) with (C := C + mw_out u) (L := 0); eauto using ko_nth, p_nth, lev_mono, shifts_le, ko_nth_, p_nth_.
    - lia.
    - apply qltb_iff. reflexivity.
  Qed.
End TABLE.
