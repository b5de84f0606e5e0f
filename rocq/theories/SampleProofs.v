(** Proofs about the random sampling. *)
From Verif Require Import Base BaseProofs SampleModel.
Open Scope Z_scope.

Lemma next_seed_mod s m : next_seed s m = (s * m) mod 2147483648.
Proof.
  unfold next_seed, wrap32. set (x := s * m).
  pose proof (Z.div_mod (x + 2147483648) 4294967296 ltac:(lia)) as D1.
  pose proof (Z.mod_pos_bound (x + 2147483648) 4294967296 ltac:(lia)) as B1.
  set (r := (x + 2147483648) mod 4294967296) in *. set (q := (x + 2147483648) / 4294967296) in *.
  destruct (Z.ltb_spec (r - 2147483648) 0).
  - rewrite (Z.mod_small (r - 2147483648 + 2147483647 + 2147483648)) by lia.
    rewrite (Z.mod_small) by lia.
    replace (r - 2147483648 + 2147483647 + 2147483648 - 2147483648 + 1 + 2147483648 - 2147483648) with r by lia.
    apply Z.mod_unique with (q := 2 * q - 1); lia.
  - apply Z.mod_unique with (q := 2 * q); lia.
Qed.

Lemma seed_chain_length s n : length (seed_chain s n) = S n.
Proof. revert s; induction n as [|[|n] IH]; intros s; auto. cbn [seed_chain length] in *. now rewrite IH. Qed.

Lemma seed_chain_nth n : forall s i, (i < n)%nat ->
  nth i (seed_chain s n) 0 = (s * 9649599 ^ (Z.of_nat i + 1)) mod 2147483648.
Proof.
  induction n as [|n IH]; intros s i H; [lia|].
  assert (E : nth i (seed_chain s (S n)) 0 =
    match i with O => next_seed s 9649599 | S j => nth j (seed_chain (next_seed s 9649599) n) 0 end).
  { cbn [seed_chain]. destruct n as [|n]; destruct i as [|i]; try reflexivity; lia. }
  rewrite E. destruct i as [|i].
  - rewrite next_seed_mod. reflexivity.
  - rewrite IH by lia. rewrite next_seed_mod. rewrite Z.mul_mod_idemp_l by lia. f_equal.
    rewrite <- Z.mul_assoc. f_equal. replace (Z.of_nat (S i) + 1) with (Z.succ (Z.of_nat i + 1)) by lia.
    rewrite Z.pow_succ_r by lia. reflexivity.
Qed.

Lemma seeder_spec JSEED NU NL : exists IG IL, seeder JSEED NU NL = Ok (IG, IL) /\
  length IG = S NU /\ length IL = S NL /\
  (forall i, (i < NU)%nat -> nth i IG 0 = (JSEED * 9649599 ^ (Z.of_nat i + 1)) mod 2147483648) /\
  (forall j, (j < NL)%nat -> nth j IL 0 = (JSEED * 9649599 ^ (Z.of_nat (NU + j) + 1)) mod 2147483648).
Proof.
  unfold seeder. set (IG := seed_chain JSEED NU).
  assert (LG : length IG = S NU) by apply seed_chain_length.
  assert (exists s, pyget IG (Z.of_nat NU - 1) = Ok s /\
    forall k, (s * 9649599 ^ (Z.of_nat k + 1)) mod 2147483648 =
      (JSEED * 9649599 ^ (Z.of_nat (NU + k) + 1)) mod 2147483648) as (s & E & ES).
  { destruct NU as [|n].
    - exists JSEED. split; [reflexivity|]. intros k. reflexivity.
    - exists (nth n IG 0). split.
      + rewrite (pyget_nonneg _ _ 0) by lia. do 2 f_equal. lia.
      + intros k. unfold IG. rewrite seed_chain_nth by lia. rewrite Z.mul_mod_idemp_l by lia. f_equal.
        rewrite <- Z.mul_assoc. f_equal. rewrite <- Z.pow_add_r by lia. f_equal. lia. }
  exists IG, (seed_chain s NL). rewrite E. cbn [bind]. split; auto. split; auto.
  split. { apply seed_chain_length. }
  split. { intros i Hi. now apply seed_chain_nth. }
  intros j Hj. rewrite seed_chain_nth by auto. apply ES.
Qed.

(** gstate by index *)
Lemma gstate_spec : forall PROBG IG RT DR PL, 
  (length PROBG <= length IG)%nat -> length RT = length PROBG -> length DR = length PROBG -> length PL = length PROBG ->
  let '(IG', F, AV) := gstate IG PROBG RT DR PL in
  length IG' = length IG /\ length F = length PROBG /\ length AV = length PROBG /\
  (forall i, (i < length PROBG)%nat ->
     nth i IG' 0 = (nth i IG 0 * 65539) mod 2147483648 /\
     nth i F q0 = gen_fraction (rand_of (nth i IG' 0)) (mget PROBG i 0) (mget PROBG i 1) (vget DR i) /\
     nth i AV q0 = Qcmult (Qcmult (nth i F q0) (vget RT i)) (vget PL i)) /\
  (forall i, (length PROBG <= i)%nat -> nth i IG' 0 = nth i IG 0).
Proof.
  induction PROBG as [|p PROBG IH]; intros IG RT DR PL L1 L2 L3 L4.
  - cbn [gstate length]. do 3 (split; [auto|]). split; [intros i Hi; lia | auto].
  - destruct IG as [|s IG]; [cbn in L1; lia|]. destruct RT as [|r RT]; [discriminate|].
    destruct DR as [|d DR]; [discriminate|]. destruct PL as [|o PL]; [discriminate|].
    cbn [length] in *. cbn [gstate].
    specialize (IH IG RT DR PL ltac:(lia) ltac:(lia) ltac:(lia) ltac:(lia)).
    destruct (gstate IG PROBG RT DR PL) as [[IG' F] AV]. destruct IH as (A & B & C & D & E).
    cbn [length]. repeat (split; [lia|]). split.
    + intros [|i] Hi; cbn [nth].
      * split; [apply next_seed_mod|]. split; reflexivity.
      * apply D. lia.
    + intros [|i] Hi; [lia|]. cbn [nth]. apply E. lia.
Qed.

Lemma lstate_spec : forall PROBL IL, (length PROBL <= length IL)%nat ->
  let '(IL', st) := lstate IL PROBL in
  length IL' = length IL /\ length st = length PROBL /\
  (forall i, (i < length PROBL)%nat ->
     nth i IL' 0 = (nth i IL 0 * 65539) mod 2147483648 /\
     nth i st 0 = line_state (rand_of (nth i IL' 0)) (nth i PROBL [])) /\
  (forall i, (length PROBL <= i)%nat -> nth i IL' 0 = nth i IL 0).
Proof.
  induction PROBL as [|p PROBL IH]; intros IL L1.
  - cbn [lstate length]. do 2 (split; [auto|]). split; [intros i Hi; lia | auto].
  - destruct IL as [|s IL]; [cbn in L1; lia|]. cbn [length] in *. cbn [lstate].
    specialize (IH IL ltac:(lia)). destruct (lstate IL PROBL) as [IL' st]. destruct IH as (A & B & D & E).
    cbn [length]. repeat (split; [lia|]). split.
    + intros [|i] Hi; cbn [nth]; [split; [apply next_seed_mod|reflexivity] | apply D; lia].
    + intros [|i] Hi; [lia|]. cbn [nth]. apply E. lia.
Qed.

Lemma mod_pow_step x m k : 0 <= k ->
  ((x mod 2147483648) * m ^ k) mod 2147483648 = (x * m ^ k) mod 2147483648.
Proof. intros. now rewrite Z.mul_mod_idemp_l by lia. Qed.

Definition shapes (n : nat) (hist : list (list Qc * list Qc)) : Prop :=
  Forall (fun p => length (fst p) = n /\ length (snd p) = n) hist.

Lemma gseeds_after_spec PROBG DR hist : forall IG,
  (length PROBG <= length IG)%nat -> length DR = length PROBG -> shapes (length PROBG) hist ->
  length (gseeds_after hist IG PROBG DR) = length IG /\
  forall i, (i < length PROBG)%nat ->
    nth i (gseeds_after hist IG PROBG DR) 0 =
      match hist with [] => nth i IG 0 | _ => (nth i IG 0 * 65539 ^ Z.of_nat (length hist)) mod 2147483648 end.
Proof.
  induction hist as [|[rt pl] h IH]; intros IG L1 L2 SH; [cbn; auto|].
  pose proof (Forall_inv SH) as [L3 L4]. apply Forall_inv_tail in SH. cbn [fst snd] in L3, L4.
  cbn [gseeds_after]. pose proof (gstate_spec PROBG IG rt DR pl L1 L3 L2 L4) as G.
  destruct (gstate IG PROBG rt DR pl) as [[IG' F] AV]. destruct G as (A & B & C & D & E). cbn [fst].
  destruct (IH IG' ltac:(lia) L2 SH) as (HL & HN). split; [lia|].
  intros i Hi. rewrite HN by auto. destruct (D i Hi) as (DS & _). rewrite DS. clear - Hi.
  destruct h as [|x h].
  - reflexivity.
  - rewrite Z.mul_mod_idemp_l by lia. f_equal. rewrite <- Z.mul_assoc. f_equal.
    cbn [length]. rewrite (Nat2Z.inj_succ (S (length h))). rewrite Z.pow_succ_r by lia. reflexivity.
Qed.

Lemma lseeds_after_spec PROBL n : forall IL, (length PROBL <= length IL)%nat ->
  length (lseeds_after n IL PROBL) = length IL /\
  forall i, (i < length PROBL)%nat ->
    nth i (lseeds_after n IL PROBL) 0 =
      match n with O => nth i IL 0 | _ => (nth i IL 0 * 65539 ^ Z.of_nat n) mod 2147483648 end.
Proof.
  induction n as [|n IH]; intros IL L1; [cbn; auto|].
  cbn [lseeds_after]. pose proof (lstate_spec PROBL IL L1) as G.
  destruct (lstate IL PROBL) as [IL' st]. destruct G as (A & B & D & E). cbn [fst].
  destruct (IH IL' ltac:(lia)) as (HL & HN). split; [lia|].
  intros i Hi. rewrite HN by auto. destruct (D i Hi) as (DS & _). rewrite DS. clear - Hi.
  destruct n as [|n].
  - reflexivity.
  - rewrite Z.mul_mod_idemp_l by lia. f_equal. rewrite <- Z.mul_assoc. f_equal.
    rewrite (Nat2Z.inj_succ (S n)). rewrite Z.pow_succ_r by lia. reflexivity.
Qed.

(** C13: closed form of all streams *)
Theorem streams JSEED NL PROBG DR hist PROBL m :
  length PROBL = NL -> length DR = length PROBG -> shapes (length PROBG) hist ->
  exists IG IL, seeder JSEED (length PROBG) NL = Ok (IG, IL) /\
   (forall i, (i < length PROBG)%nat ->
      nth i (gseeds_after hist IG PROBG DR) 0 =
        (JSEED * 9649599 ^ (Z.of_nat i + 1) * 65539 ^ Z.of_nat (length hist)) mod 2 ^ 31) /\
   (forall j, (j < NL)%nat ->
      nth j (lseeds_after m IL PROBL) 0 =
        (JSEED * 9649599 ^ (Z.of_nat (length PROBG + j) + 1) * 65539 ^ Z.of_nat m) mod 2 ^ 31).
Proof.
  change (2 ^ 31) with 2147483648.
  intros LL L2 SH. destruct (seeder_spec JSEED (length PROBG) NL) as (IG & IL & E & LG & LI & G & L).
  exists IG, IL. split; auto. split.
  - intros i Hi. destruct (gseeds_after_spec PROBG DR hist IG ltac:(lia) L2 SH) as (_ & H).
    rewrite H by auto. rewrite G by auto. destruct hist as [|x h].
    + cbn [length Z.of_nat Z.pow]. now rewrite Z.mul_1_r.
    + now rewrite Z.mul_mod_idemp_l by lia.
  - intros j Hj. destruct (lseeds_after_spec PROBL m IL ltac:(lia)) as (_ & H).
    rewrite H by lia. rewrite L by auto. destruct m as [|m].
    + cbn [Z.of_nat Z.pow]. now rewrite Z.mul_1_r.
    + now rewrite Z.mul_mod_idemp_l by lia.
Qed.

(** C15: with a seed divisible by 64 every random number is below one *)
Lemma seed64_rand x : (rand_of (64 * x mod 2147483648) < q1)%Qc.
Proof.
  assert (E : 64 * x mod 2147483648 = 64 * (x mod 33554432)).
  { change 2147483648 with (64 * 33554432). apply Z.mul_mod_distr_l; lia. }
  rewrite E. pose proof (Z.mod_pos_bound x 33554432 ltac:(lia)). set (y := x mod 33554432) in *.
  assert (64 * y <= 2147483584) by lia. clearbody y.
  unfold rand_of, Qclt, q1. rewrite this_mult, this_qz, this_qq, this_qz.
  unfold Qlt, Qmult, inject_Z. cbn [Qnum Qden]. rewrite Pos2Z.inj_mul. lia.
Qed.

Theorem reliable_unit JSEED NL PROBG DR hist RT PL i :
  (64 | JSEED) -> length DR = length PROBG -> shapes (length PROBG) hist ->
  length RT = length PROBG -> length PL = length PROBG ->
  (i < length PROBG)%nat -> mget PROBG i 0 = q1 ->
  exists IG IL, seeder JSEED (length PROBG) NL = Ok (IG, IL) /\
    nth i (snd (fst (gstate (gseeds_after hist IG PROBG DR) PROBG RT DR PL))) q0 = q1.
Proof.
  intros [q DV] L2 SH L3 L4 Hi P1.
  destruct (seeder_spec JSEED (length PROBG) NL) as (IG & IL & E & LG & LI & G & L).
  exists IG, IL. split; auto.
  destruct (gseeds_after_spec PROBG DR hist IG ltac:(lia) L2 SH) as (HL & HN).
  pose proof (gstate_spec PROBG (gseeds_after hist IG PROBG DR) RT DR PL ltac:(lia) L3 L2 L4) as GS.
  destruct (gstate (gseeds_after hist IG PROBG DR) PROBG RT DR PL) as [[IG' F] AV]. cbn [fst snd].
  destruct GS as (_ & _ & _ & D & _). destruct (D i Hi) as (DS & DF & _).
  rewrite DF. unfold gen_fraction. rewrite P1.
  assert (exists y, nth i IG' 0 = 64 * y mod 2147483648) as (y & EY).
  { rewrite DS, HN by auto. rewrite G by auto. rewrite DV.
    exists (q * 9649599 ^ (Z.of_nat i + 1) * 65539 ^ Z.of_nat (length hist) * 65539).
    destruct hist as [|x h].
    - rewrite Z.mul_mod_idemp_l by lia. f_equal. cbn [length]. change (65539 ^ Z.of_nat 0) with 1. ring.
    - rewrite Z.mul_mod_idemp_l by lia. rewrite <- (Z.mul_assoc (_ mod _)). rewrite Z.mul_mod_idemp_l by lia.
      f_equal. ring. }
  rewrite EY. pose proof (seed64_rand y) as R. apply (proj2 (qltb_iff _ _)) in R. now rewrite R.
Qed.

(** C14 *)
Definition fraction_rule (r p0 p1 der f : Qc) : Prop :=
  ((r < p0)%Qc -> f = q1) /\
  ((p0 <= r)%Qc -> (r < p1)%Qc -> f = der) /\
  ((p0 <= r)%Qc -> (p1 <= r)%Qc -> f = q0).

Lemma gen_fraction_rule r p0 p1 der : fraction_rule r p0 p1 der (gen_fraction r p0 p1 der).
Proof.
  unfold fraction_rule, gen_fraction.
  split; [|split]; intros; destruct (qltb r p0) eqn:E0; destruct (qltb r p1) eqn:E1; auto; exfalso; qlra.
Qed.

Lemma gen_fraction_alt_eq r p0 p1 der : (p0 <= p1)%Qc -> r <> p0 -> r <> p1 ->
  gen_fraction_alt r p0 p1 der = gen_fraction r p0 p1 der.
Proof.
  intros P N0 N1. unfold gen_fraction_alt, bisect_left2, gen_fraction.
  destruct (qltb p1 r) eqn:A; destruct (qltb p0 r) eqn:B; destruct (qltb r p0) eqn:C; destruct (qltb r p1) eqn:D; auto;
  exfalso; try (apply N0; qlra); try (apply N1; qlra); qlra.
Qed.

(** C16 *)
Definition line_rule (r : Qc) (P : list Qc) (k : Z) : Prop :=
  exists i, k = Z.of_nat i + 1 /\ (i <= 5)%nat /\
    (forall j, (j < i)%nat -> (vget P j < r)%Qc) /\ ((i < 5)%nat -> (r <= vget P i)%Qc).

Lemma line_state_rule r P : line_rule r P (line_state r P).
Proof.
  unfold line_rule, line_state.
  destruct (qleb r (nth 0 P q0)) eqn:E0; [exists 0%nat|destruct (qleb r (nth 1 P q0)) eqn:E1; [exists 1%nat|
   destruct (qleb r (nth 2 P q0)) eqn:E2; [exists 2%nat|destruct (qleb r (nth 3 P q0)) eqn:E3; [exists 3%nat|
   destruct (qleb r (nth 4 P q0)) eqn:E4; [exists 4%nat|exists 5%nat]]]]];
  repeat match goal with H : qleb _ _ = true |- _ => apply (proj1 (qleb_iff _ _)) in H
   | H : qleb _ _ = false |- _ => apply (proj1 (qleb_false _ _)) in H end;
  (split; [reflexivity|]); (split; [lia|]); (split; [|intros Hlt; try assumption; try lia]);
  try (intros j Hj; destruct j as [|[|[|[|[|j]]]]]; try lia; assumption).
Qed.

Lemma line_rule_unique r P k k' : line_rule r P k -> line_rule r P k' -> k = k'.
Proof.
  intros (i & E & B & H1 & H2) (i' & E' & B' & H1' & H2').
  destruct (Nat.lt_trichotomy i i') as [L|[L|L]]; [|subst; auto|]; exfalso.
  - apply (Qclt_not_le _ _ (H1' i L)). apply H2. lia.
  - apply (Qclt_not_le _ _ (H1 i' L)). apply H2'. lia.
Qed.

Lemma qltb_notie r p : r <> p -> qltb r p = qleb r p.
Proof.
  intros N. destruct (qleb r p) eqn:E.
  - apply (proj1 (qleb_iff _ _)) in E. apply qltb_iff. destruct (Qc_total p r) as [H|H].
    + destruct N. now apply Qcle_antisym.
    + apply Qclt_nle. intros H'. apply N. now apply Qcle_antisym.
  - apply (proj1 (qleb_false _ _)) in E. apply qltb_false. now apply Qclt_le_weak.
Qed.

Lemma line_state_alt_eq r P : (r < vget P 5)%Qc -> (forall i, (i < 5)%nat -> r <> vget P i) ->
  line_state_alt r P = line_state r P.
Proof.
  intros H5 N. unfold line_state_alt, line_state. cbn [seq fold_left].
  unfold vget in *. rewrite !qltb_notie by (apply N; lia).
  assert (E5 : qltb r (nth 5 P q0) = true) by now apply qltb_iff. rewrite E5.
  destruct (qleb r (nth 0 P q0)); [reflexivity|]. cbn [Z.eqb andb].
  destruct (qleb r (nth 1 P q0)); [reflexivity|]. cbn [Z.eqb andb].
  destruct (qleb r (nth 2 P q0)); [reflexivity|]. cbn [Z.eqb andb].
  destruct (qleb r (nth 3 P q0)); [reflexivity|]. cbn [Z.eqb andb].
  destruct (qleb r (nth 4 P q0)); reflexivity.
Qed.

Lemma gstate_range IG PROBG RT DR PL i :
  (length PROBG <= length IG)%nat -> length RT = length PROBG -> length DR = length PROBG ->
  length PL = length PROBG -> (i < length PROBG)%nat ->
  0 <= nth i (fst (fst (gstate IG PROBG RT DR PL))) 0 < 2 ^ 31.
Proof.
  intros L1 L2 L3 L4 Hi. pose proof (gstate_spec PROBG IG RT DR PL L1 L2 L3 L4) as G.
  destruct (gstate IG PROBG RT DR PL) as [[IG' F] AV]. destruct G as (_ & _ & _ & D & _).
  destruct (D i Hi) as (E & _). cbn [fst]. rewrite E. apply Z.mod_pos_bound. lia.
Qed.

Lemma lstate_range IL PROBL i :
  (length PROBL <= length IL)%nat -> (i < length PROBL)%nat ->
  0 <= nth i (fst (lstate IL PROBL)) 0 < 2 ^ 31.
Proof.
  intros L1 Hi. pose proof (lstate_spec PROBL IL L1) as G.
  destruct (lstate IL PROBL) as [IL' st]. destruct G as (_ & _ & D & _).
  destruct (D i Hi) as (E & _). cbn [fst]. rewrite E. apply Z.mod_pos_bound. lia.
Qed.

Lemma gstate_outcome IG PROBG RT DR PL i :
  (length PROBG <= length IG)%nat -> length RT = length PROBG -> length DR = length PROBG ->
  length PL = length PROBG -> (i < length PROBG)%nat ->
  let '(IG', PCTAVL, AVAIL) := gstate IG PROBG RT DR PL in
  let r := Qcmult (qz (nth i IG' 0)) (qq 4656613 10000000000000000) in
  length PCTAVL = length PROBG /\ length AVAIL = length PROBG /\
  ((r < mget PROBG i 0)%Qc -> vget PCTAVL i = q1) /\
  ((mget PROBG i 0 <= r)%Qc -> (r < mget PROBG i 1)%Qc -> vget PCTAVL i = vget DR i) /\
  ((mget PROBG i 0 <= r)%Qc -> (mget PROBG i 1 <= r)%Qc -> vget PCTAVL i = q0) /\
  vget AVAIL i = Qcmult (Qcmult (vget PCTAVL i) (vget RT i)) (vget PL i).
Proof.
  intros L1 L2 L3 L4 Hi. pose proof (gstate_spec PROBG IG RT DR PL L1 L2 L3 L4) as G.
  destruct (gstate IG PROBG RT DR PL) as [[IG' F] AV]. destruct G as (_ & A & B & D & _).
  destruct (D i Hi) as (E & EF & EA). intros r.
  pose proof (gen_fraction_rule r (mget PROBG i 0) (mget PROBG i 1) (vget DR i)) as (R1 & R2 & R3).
  assert (EF' : vget F i = gen_fraction r (mget PROBG i 0) (mget PROBG i 1) (vget DR i)) by exact EF.
  split; [auto|]. split; [auto|]. split; [now rewrite EF'|]. split; [now rewrite EF'|]. split; [now rewrite EF'|]. exact EA.
Qed.

Lemma gstate_bounds IG PROBG RT DR PL i :
  (length PROBG <= length IG)%nat -> length RT = length PROBG -> length DR = length PROBG ->
  length PL = length PROBG -> (i < length PROBG)%nat ->
  let AVAIL := snd (gstate IG PROBG RT DR PL) in
  (vget PL i = q0 -> vget AVAIL i = q0) /\
  ((q0 <= vget DR i)%Qc -> (vget DR i <= q1)%Qc -> (q0 <= vget RT i)%Qc ->
   vget PL i = q0 \/ vget PL i = q1 ->
   (q0 <= vget AVAIL i)%Qc /\ (vget AVAIL i <= vget RT i)%Qc).
Proof.
  intros L1 L2 L3 L4 Hi. pose proof (gstate_outcome IG PROBG RT DR PL i L1 L2 L3 L4 Hi) as G.
  destruct (gstate IG PROBG RT DR PL) as [[IG' F] AV]. cbn [snd]. cbv zeta in G |- *.
  destruct G as (_ & _ & C1 & C2 & C3 & EA). rewrite EA. split.
  - intros ->. qring.
  - intros D0 D1 R0 P.
    set (r := Qcmult (qz (nth i IG' 0)) (qq 4656613 10000000000000000)) in *.
    assert (FB : (q0 <= vget F i)%Qc /\ (vget F i <= q1)%Qc).
    { destruct (qltb r (mget PROBG i 0)) eqn:E0; qc_bool.
      - rewrite (C1 E0). split; qlra.
      - destruct (qltb r (mget PROBG i 1)) eqn:E1; qc_bool.
        + rewrite (C2 E0 E1). auto.
        + rewrite (C3 E0 E1). split; qlra. }
    destruct FB as [F0 F1]. destruct P as [-> | ->].
    + split; qnra.
    + split; qnra.
Qed.

Lemma lstate_rule IL PROBL j :
  (length PROBL <= length IL)%nat -> (j < length PROBL)%nat ->
  let '(IL', LNSTAT) := lstate IL PROBL in
  let r := Qcmult (qz (nth j IL' 0)) (qq 4656613 10000000000000000) in
  let P := nth j PROBL [] in
  length LNSTAT = length PROBL /\ 1 <= zget LNSTAT j <= 6 /\
  (forall k, 1 <= k <= 5 -> (zget LNSTAT j = k <->
     (r <= vget P (Z.to_nat (k - 1)))%Qc /\
     forall k', 1 <= k' < k -> (vget P (Z.to_nat (k' - 1)) < r)%Qc)) /\
  (zget LNSTAT j = 6 <-> forall k', 1 <= k' <= 5 -> (vget P (Z.to_nat (k' - 1)) < r)%Qc).
Proof.
  intros L1 Hj. pose proof (lstate_spec PROBL IL L1) as G.
  destruct (lstate IL PROBL) as [IL' st]. destruct G as (_ & LS & D & _). intros r P.
  destruct (D j Hj) as (E & ES). unfold zget. rewrite ES. fold (rand_of (nth j IL' 0)) in r. fold r P.
  pose proof (line_state_rule r P) as R. pose proof R as (i & EK & B & H1 & H2).
  split; [auto|]. split; [lia|]. split.
  - intros k HK. split.
    + intros EE. assert (i = Z.to_nat (k - 1)) by lia. subst i. split; [apply H2; lia|].
      intros k' HK'. apply H1. lia.
    + intros (Q1 & Q2). apply (line_rule_unique r P); auto. exists (Z.to_nat (k - 1)).
      split; [lia|]. split; [lia|]. split; auto. intros j' Hj'.
      specialize (Q2 (Z.of_nat j' + 1) ltac:(lia)). replace (Z.to_nat (Z.of_nat j' + 1 - 1)) with j' in Q2 by lia. auto.
  - split.
    + intros EE k' HK'. apply H1. lia.
    + intros Q. apply (line_rule_unique r P); auto. exists 5%nat. split; [lia|]. split; [lia|]. split; [|lia].
      intros j' Hj'. specialize (Q (Z.of_nat j' + 1) ltac:(lia)).
      replace (Z.to_nat (Z.of_nat j' + 1 - 1)) with j' in Q by lia. auto.
Qed.
