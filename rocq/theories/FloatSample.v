(** Sampling under rounding, per unit and per line. *)
From Verif Require Import Base BaseProofs SampleModel SampleProofs FloatSpec FloatModel FloatProofs FloatSums FloatData.
Open Scope Z_scope.

Lemma fgseeds_same PROBG DR : forall hist IG, fgseeds_after hist IG PROBG DR = gseeds_after hist IG PROBG DR.
Proof. induction hist as [|[rt pl] h IH]; intros IG; cbn [fgseeds_after gseeds_after]; [reflexivity|]. now rewrite fgstate_seeds, IH. Qed.

Lemma fgstate_spec : forall PROBG IG RT DR PL,
  (length PROBG <= length IG)%nat -> length RT = length PROBG -> length DR = length PROBG -> length PL = length PROBG ->
  let '(IG', F, AV) := fgstate IG PROBG RT DR PL in
  length F = length PROBG /\ length AV = length PROBG /\
  forall i, (i < length PROBG)%nat ->
    nth i F q0 = gen_fraction (frand_of (nth i IG' 0)) (mget PROBG i 0) (mget PROBG i 1) (nth i DR q0) /\
    nth i AV q0 = fmul (fmul (nth i F q0) (nth i RT q0)) (nth i PL q0).
Proof.
  induction PROBG as [|p ps IH]; intros IG RT DR PL L1 L2 L3 L4.
  - cbn [fgstate]. repeat split; auto; cbn in *; lia.
  - destruct IG as [|s ss]; [cbn in L1; lia|]. destruct RT as [|r rs]; [discriminate|]. destruct DR as [|d ds]; [discriminate|].
    destruct PL as [|o os]; [discriminate|]. cbn [length] in *.
    specialize (IH ss rs ds os ltac:(lia) ltac:(lia) ltac:(lia) ltac:(lia)). cbn [fgstate].
    destruct (fgstate ss ps rs ds os) as [[a b] c]. destruct IH as (LF & LA & H). cbn [length].
    split; [lia|]. split; [lia|]. intros [|i] Hi; [split; reflexivity|]. apply (H i). lia.
Qed.

Lemma flstate_spec : forall PROBL IL, (length PROBL <= length IL)%nat ->
  let '(IL', ST) := flstate IL PROBL in
  length ST = length PROBL /\ forall i, (i < length PROBL)%nat -> nth i ST 0 = line_state (frand_of (nth i IL' 0)) (nth i PROBL []).
Proof.
  induction PROBL as [|p ps IH]; intros [|s ss] L; cbn [length] in *; try lia; cbn [flstate].
  - split; auto. intros i H. cbn in H. lia.
  - split; auto. intros i H. cbn in H. lia.
  - specialize (IH ss ltac:(lia)). destruct (flstate ss ps) as [a b]. destruct IH as [LL H]. cbn [length]. split; [lia|].
    intros [|i] Hi; [reflexivity|]. apply (H i). lia.
Qed.

Lemma seed64_le y : 64 * y mod 2147483648 <= 2147483584.
Proof.
  pose proof (Z.mod_pos_bound (64 * y) 2147483648 ltac:(lia)) as B.
  pose proof (Z.div_mod (64 * y) 2147483648 ltac:(lia)) as D. lia.
Qed.

Theorem freliable_unit JSEED NL PROBG DR hist RT PL i :
  (64 | JSEED) -> length DR = length PROBG -> shapes (length PROBG) hist ->
  length RT = length PROBG -> length PL = length PROBG ->
  (i < length PROBG)%nat -> mget PROBG i 0 = q1 ->
  exists IG IL, seeder JSEED (length PROBG) NL = Ok (IG, IL) /\
    nth i (snd (fst (fgstate (fgseeds_after hist IG PROBG DR) PROBG RT DR PL))) q0 = q1.
Proof.
  intros [q DV] L2 SH L3 L4 Hi P1.
  destruct (seeder_spec JSEED (length PROBG) NL) as (IG & IL & E & LG & LI & G & L).
  exists IG, IL. split; auto. rewrite fgseeds_same.
  destruct (gseeds_after_spec PROBG DR hist IG ltac:(lia) L2 SH) as (HL & HN).
  pose proof (gstate_spec PROBG (gseeds_after hist IG PROBG DR) RT DR PL ltac:(lia) L3 L2 L4) as GS.
  pose proof (fgstate_spec PROBG (gseeds_after hist IG PROBG DR) RT DR PL ltac:(lia) L3 L2 L4) as FS.
  pose proof (fgstate_seeds PROBG (gseeds_after hist IG PROBG DR) RT DR PL) as SE.
  destruct (gstate (gseeds_after hist IG PROBG DR) PROBG RT DR PL) as [[IG' F] AV].
  destruct (fgstate (gseeds_after hist IG PROBG DR) PROBG RT DR PL) as [[IG2 F2] AV2]. cbn [fst snd] in *. subst IG2.
  destruct GS as (_ & _ & _ & D & _). destruct (D i Hi) as (DS & _). destruct FS as (_ & _ & FS). destruct (FS i Hi) as [FF _].
  rewrite FF. unfold gen_fraction. rewrite P1.
  assert (exists y, nth i IG' 0 = 64 * y mod 2147483648) as (y & EY).
  { rewrite DS, HN by auto. rewrite G by auto. rewrite DV.
    exists (q * 9649599 ^ (Z.of_nat i + 1) * 65539 ^ Z.of_nat (length hist) * 65539).
    destruct hist as [|x h].
    - rewrite Z.mul_mod_idemp_l by lia. f_equal. cbn [length]. change (65539 ^ Z.of_nat 0) with 1. ring.
    - rewrite Z.mul_mod_idemp_l by lia. rewrite <- (Z.mul_assoc (_ mod _)). rewrite Z.mul_mod_idemp_l by lia.
      f_equal. ring. }
  rewrite EY. pose proof (Z.mod_pos_bound (64 * y) 2147483648 ltac:(lia)) as B. pose proof (seed64_le y) as U.
  pose proof (frand_below_one (64 * y mod 2147483648) ltac:(lia)) as R. apply (proj2 (qltb_iff _ _)) in R. now rewrite R.
Qed.

(** thresholds per unit *)
Theorem unit_thresholds p0 p1 : (q0 <= p0)%Qc -> (p0 <= p1)%Qc -> (p1 <= q1)%Qc ->
  exists T0 T1, (qabs (qz T0 * p2 (-31) - p0) <= p2 (-25))%Qc /\ (qabs (qz T1 * p2 (-31) - p1) <= p2 (-25))%Qc /\
  forall s der, 0 <= s < 2 ^ 31 ->
    (s < T0 -> gen_fraction (frand_of s) p0 p1 der = q1) /\
    (T0 <= s < T1 -> gen_fraction (frand_of s) p0 p1 der = der) /\
    (T0 <= s -> T1 <= s -> gen_fraction (frand_of s) p0 p1 der = q0).
Proof.
  intros A B C. destruct (frand_threshold p0) as (T0 & _ & H0 & E0); auto. { eapply Qcle_trans; eauto. }
  destruct (frand_threshold p1) as (T1 & _ & H1 & E1); auto. { eapply Qcle_trans; eauto. }
  exists T0, T1. split; [exact E0|]. split; [exact E1|]. intros s der Hs. specialize (H0 s Hs). specialize (H1 s Hs).
  rewrite <- qltb_iff in H0, H1. unfold gen_fraction.
  destruct (qltb (frand_of s) p0), (qltb (frand_of s) p1); repeat split; intros; try reflexivity; exfalso;
    try (destruct H0 as [H0 H0']; specialize (H0 eq_refl)); try (destruct H1 as [H1 H1']; specialize (H1 eq_refl)); try lia;
    try (assert (X : false = true) by (apply H0; lia); discriminate); try (assert (X : false = true) by (apply H1; lia); discriminate);
    try (assert (X : false = true) by (apply H0'; lia); discriminate); try (assert (X : false = true) by (apply H1'; lia); discriminate).
Qed.

Lemma fmul_0_l x : fmul q0 x = q0. Proof. unfold fmul. replace (q0 * x)%Qc with q0 by qring. reflexivity. Qed.
Lemma fmul_0_r x : fmul x q0 = q0. Proof. unfold fmul. replace (x * q0)%Qc with q0 by qring. reflexivity. Qed.
Lemma fmul_comm x y : fmul x y = fmul y x. Proof. unfold fmul. now rewrite Qcmult_comm. Qed.
Lemma fmul_flt x y : flt (fmul x y). Proof. apply fl_flt. Qed.

Theorem unit_capacity f r o : flt r -> (q0 <= f)%Qc -> (f <= q1)%Qc -> (q0 <= r)%Qc -> o = q0 \/ o = q1 ->
  let a := fmul (fmul f r) o in
  (q0 <= a)%Qc /\ (a <= r)%Qc /\ (o = q0 -> a = q0) /\ (f = q0 -> a = q0) /\ (f = q1 -> o = q1 -> a = r).
Proof.
  intros F F0 F1 R0 O a.
  assert (B : (q0 <= fmul f r)%Qc /\ (fmul f r <= r)%Qc).
  { split.
    - rewrite <- (fmul_0_l r). now apply fmul_mono.
    - rewrite <- (fmul_1_l r F) at 2. now apply fmul_mono. }
  destruct O as [->| ->]; unfold a.
  - rewrite fmul_0_r. repeat split; auto; try apply Qcle_refl. intros _ E. discriminate E.
  - rewrite fmul_1_r by apply fmul_flt. split; [apply B|]. split; [apply B|]. split; [discriminate|]. split.
    + intros ->. apply fmul_0_l.
    + intros -> _. now apply fmul_1_l.
Qed.
