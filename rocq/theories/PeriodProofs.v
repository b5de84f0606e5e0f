(** C109: the streams have period 2^23 and are equidistributed over it. *)
From Coq Require Import Znumtheory Zpow_facts Permutation.
From Verif Require Import Base BaseProofs Sums SampleModel SampleProofs ProgramSpec FloatProofs PeriodSpec.
Open Scope Z_scope.

(** *** powers of a number that is 3 modulo 8 *)
Section ORDER.
  Variable g : Z. Hypothesis G8 : g mod 8 = 3.
  Lemma g_form : exists j, g = 8 * j + 3. Proof. exists (g / 8). pose proof (Z.div_mod g 8). lia. Qed.
  (** g^(2^K) = 1 + 2^(K+2) * odd *)
  Lemma pow2 K : 1 <= K -> exists c, g ^ (2 ^ K) = 1 + 2 ^ (K + 2) * (2 * c + 1).
  Proof.
    revert K. apply Zlt_lower_bound_ind. intros K IH HK. destruct (Z.eq_dec K 1) as [->|N].
    { destruct g_form as (j & ->). exists (2 * j * (2 * j + 1) + j). change (2 ^ 1) with 2. change (2 ^ (1 + 2)) with 8. rewrite Z.pow_2_r. ring. }
    destruct (IH (K - 1) ltac:(lia)) as (c & E). replace (2 ^ K) with (2 ^ (K - 1) * 2) by (rewrite Z.mul_comm, <- Z.pow_succ_r by lia; f_equal; lia).
    rewrite Z.pow_mul_r by lia. rewrite E. replace (K - 1 + 2) with (K + 1) by lia. rewrite Z.pow_2_r.
    exists (c + 2 ^ (K - 1) * (2 * c + 1) * (2 * c + 1)).
    replace (2 ^ (K + 2)) with (2 * 2 ^ (K + 1)) by (rewrite <- Z.pow_succ_r by lia; f_equal; lia).
    replace (2 ^ (K + 1)) with (4 * 2 ^ (K - 1)) by (replace (K + 1) with ((K - 1) + 2) by lia; rewrite Z.pow_add_r by lia; lia). ring.
  Qed.
  Lemma one_plus_pow x q : 0 <= q -> exists c, (1 + x) ^ q = 1 + x * q + x * x * c.
  Proof.
    revert q. apply natlike_ind; [exists 0; rewrite Z.pow_0_r; ring|]. intros q HQ (c & E). rewrite Z.pow_succ_r by lia. rewrite E. exists (q + c + x * c). unfold Z.succ. ring.
  Qed.
  Lemma order K m : 1 <= K -> 0 <= m -> (2 ^ (K + 2) | g ^ m - 1) -> (2 ^ K | m).
  Proof.
    intros HK. revert K HK m. apply (Zlt_lower_bound_ind (fun K => forall m, 0 <= m -> (2 ^ (K + 2) | g ^ m - 1) -> (2 ^ K | m))).
    intros K IH HK m HM D. destruct (Z.eq_dec K 1) as [->|N].
    { change (2 ^ (1 + 2)) with 8 in D. change (2 ^ 1) with 2. destruct (Z.Even_or_Odd m) as [(q & ->)|(q & ->)]; [exists q; lia|].
      exfalso. destruct D as (d & D). rewrite Z.pow_add_r, Z.pow_mul_r, Z.pow_1_r in D by lia.
      assert (E : exists c, (g ^ 2) ^ q = 1 + 8 * c).
      { destruct (pow2 1 ltac:(lia)) as (c & E). change (2 ^ 1) with 2 in E. rewrite E. change (2 ^ (1 + 2)) with 8. destruct (one_plus_pow (8 * (2 * c + 1)) q ltac:(lia)) as (e & ->). eexists. ring_simplify.
        instantiate (1 := (2 * c + 1) * q + (2 * c + 1) * (2 * c + 1) * 8 * e). ring. }
      destruct E as (c & E). rewrite E in D. destruct g_form as (j & F). rewrite F in D. lia. }
    assert (HK1 : 1 <= K - 1) by lia. assert (D1 : (2 ^ (K - 1) | m)).
    { apply IH; [lia|exact HM|]. refine (Z.divide_trans _ _ _ _ D). exists 2. replace (K + 2) with (Z.succ (K - 1 + 2)) by lia. now rewrite Z.pow_succ_r by lia. }
    destruct D1 as (q & ->). assert (P0 : 0 < 2 ^ (K - 1)) by (apply Z.pow_pos_nonneg; lia). assert (HQ : 0 <= q) by nia.
    rewrite Z.mul_comm, Z.pow_mul_r in D by lia. destruct (pow2 (K - 1) HK1) as (c & E). rewrite E in D. replace (K - 1 + 2) with (K + 1) in * by lia.
    destruct (one_plus_pow (2 ^ (K + 1) * (2 * c + 1)) q HQ) as (e & F). rewrite F in D. destruct D as (d & D).
    replace (2 ^ (K + 2)) with (2 * 2 ^ (K + 1)) in D by (rewrite <- Z.pow_succ_r by lia; f_equal; lia).
    assert (P1 : 2 ^ (K + 1) = 4 * 2 ^ (K - 1)) by (replace (K + 1) with ((K - 1) + 2) by lia; rewrite Z.pow_add_r by lia; lia).
    set (X := 2 ^ (K + 1)) in *. assert (X0 : X <> 0) by lia.
    assert (Q : (2 * c + 1) * q + X * ((2 * c + 1) * (2 * c + 1) * e) = 2 * d).
    { apply (Z.mul_reg_l _ _ X X0). replace (X * (2 * d)) with (1 + X * (2 * c + 1) * q + X * (2 * c + 1) * (X * (2 * c + 1)) * e - 1) by (rewrite D; ring). ring. }
    destruct (Z.Even_or_Odd q) as [(r & ->)|(r & ->)].
    - exists r. replace (2 ^ K) with (2 * 2 ^ (K - 1)) by (rewrite <- Z.pow_succ_r by lia; f_equal; lia). ring.
    - exfalso. rewrite P1 in Q. set (Y := 2 ^ (K - 1)) in *. assert (O : 2 * (d - c * (2 * r + 1) - r - 2 * Y * ((2 * c + 1) * (2 * c + 1) * e)) = 1) by (ring_simplify in Q; ring_simplify; lia). lia.
  Qed.
  Lemma order_conv K m : 1 <= K -> 0 <= m -> (2 ^ K | m) -> (2 ^ (K + 2) | g ^ m - 1).
  Proof.
    intros HK HM (q & ->). assert (0 < 2 ^ K) by (apply Z.pow_pos_nonneg; lia). rewrite Z.mul_comm, Z.pow_mul_r by nia. destruct (pow2 K HK) as (c & ->).
    destruct (one_plus_pow (2 ^ (K + 2) * (2 * c + 1)) q ltac:(nia)) as (e & ->). exists ((2 * c + 1) * q + (2 * c + 1) * (2 ^ (K + 2) * (2 * c + 1)) * e). ring.
  Qed.
End ORDER.

(** *** the streams *)
Definition odd_part (u : nat) : Z := 1929 * 9649599 ^ (Z.of_nat u + 1).
Lemma seed_form u m : unit_seed u m = 64 * ((odd_part u * 65539 ^ Z.of_nat m) mod 2 ^ 25).
Proof.
  unfold unit_seed, odd_part. replace (123456 * 9649599 ^ (Z.of_nat u + 1) * 65539 ^ Z.of_nat m) with (64 * (1929 * 9649599 ^ (Z.of_nat u + 1) * 65539 ^ Z.of_nat m)) by ring.
  change (2 ^ 31) with (64 * 2 ^ 25). apply Z.mul_mod_distr_l; discriminate.
Qed.
Lemma odd_pow a k : 0 <= k -> Z.Odd a -> Z.Odd (a ^ k).
Proof.
  intros HK OA. revert k HK. apply natlike_ind; [rewrite Z.pow_0_r; exists 0; reflexivity|]. intros k HK OK. rewrite Z.pow_succ_r by lia. apply Z.odd_spec. rewrite Z.odd_mul.
  apply Z.odd_spec in OA, OK. now rewrite OA, OK.
Qed.
Lemma odd_part_odd u : Z.Odd (odd_part u).
Proof. apply Z.odd_spec. unfold odd_part. rewrite Z.odd_mul. cbn [Z.odd]. apply Z.odd_spec, odd_pow; [lia|]. exists 4824799. reflexivity. Qed.
Lemma odd_coprime a K : 0 <= K -> Z.Odd a -> rel_prime (2 ^ K) a.
Proof.
  intros HK OA. apply rel_prime_sym, rel_prime_Zpower_r; [exact HK|]. apply rel_prime_sym, prime_rel_prime; [exact prime_2|]. intros (q & E). destruct OA as (r & F). lia.
Qed.
Lemma mod_eq_divide a b n : 0 < n -> a mod n = b mod n <-> (n | a - b).
Proof.
  intros HN. split.
  - intros E. exists (a / n - b / n). pose proof (Z.div_mod a n ltac:(lia)). pose proof (Z.div_mod b n ltac:(lia)). rewrite Z.mul_sub_distr_r. lia.
  - intros (q & E). replace a with (b + q * n) by lia. apply Z.mod_add. lia.
Qed.
Lemma seed_eq_le u m m' : (m <= m')%nat -> unit_seed u m' = unit_seed u m <-> (2 ^ 23 | Z.of_nat m' - Z.of_nat m).
Proof.
  intros L. rewrite !seed_form. set (b := odd_part u). set (d := Z.of_nat m' - Z.of_nat m). assert (D0 : 0 <= d) by lia.
  transitivity ((b * 65539 ^ Z.of_nat m') mod 2 ^ 25 = (b * 65539 ^ Z.of_nat m) mod 2 ^ 25); [lia|]. rewrite mod_eq_divide by (apply Z.pow_pos_nonneg; lia).
  replace (Z.of_nat m') with (Z.of_nat m + d) by lia. rewrite Z.pow_add_r by lia.
  replace (b * (65539 ^ Z.of_nat m * 65539 ^ d) - b * 65539 ^ Z.of_nat m) with ((b * 65539 ^ Z.of_nat m) * (65539 ^ d - 1)) by ring.
  split.
  - intros V. apply (order 65539 eq_refl 23); [lia|exact D0|]. change (23 + 2) with 25. apply Gauss with (1 := V). apply odd_coprime; [lia|]. apply Z.odd_spec. rewrite Z.odd_mul.
    apply andb_true_intro. split; apply Z.odd_spec; [apply odd_part_odd|]. apply odd_pow; [lia|]. exists 32769. reflexivity.
  - intros V. apply Z.divide_mul_r. change 25 with (23 + 2). now apply order_conv.
Qed.
Theorem seed_period u m m' : unit_seed u m = unit_seed u m' <-> (2 ^ 23 | Z.of_nat m - Z.of_nat m').
Proof.
  destruct (Nat.le_ge_cases m m') as [L|L]; [|exact (seed_eq_le u m' m L)]. pose proof (seed_eq_le u m m' L) as E. split.
  - intros H. symmetry in H. apply E in H. replace (Z.of_nat m - Z.of_nat m') with (- (Z.of_nat m' - Z.of_nat m)) by lia. now apply Z.divide_opp_r.
  - intros H. symmetry. apply E. replace (Z.of_nat m' - Z.of_nat m) with (- (Z.of_nat m - Z.of_nat m')) by lia. now apply Z.divide_opp_r.
Qed.

(** *** the values of a period *)
Lemma period_Z : Z.of_nat period = 2 ^ 23. Proof. unfold period. apply Z2Nat.id. discriminate. Qed.
Definition half : nat := Z.to_nat (2 ^ 22).
Lemma half_Z : Z.of_nat half = 2 ^ 22. Proof. unfold half. apply Z2Nat.id. discriminate. Qed.
Lemma period_half : (period = half + half)%nat. Proof. apply Nat2Z.inj. rewrite Nat2Z.inj_add, period_Z, half_Z. reflexivity. Qed.
Global Opaque period half.

Definition values (c : Z) : list Z := flat_map (fun j => [512 * Z.of_nat j + 64 * (c mod 8); 512 * Z.of_nat j + 64 * ((3 * c) mod 8)]) (seq 0 half).
Lemma values_length c : length (values c) = period.
Proof.
  unfold values. rewrite period_half. generalize 0%nat. generalize half. intros h. induction h as [|h IH]; intros z; [reflexivity|]. cbn [seq flat_map length app].
  rewrite IH. lia.
Qed.
Lemma pow_mod8 m : 65539 ^ Z.of_nat m mod 8 = 1 \/ 65539 ^ Z.of_nat m mod 8 = 3.
Proof.
  induction m as [|m IH]; [left; reflexivity|]. rewrite Nat2Z.inj_succ, Z.pow_succ_r by lia. rewrite Z.mul_mod by lia. change (65539 mod 8) with 3. destruct IH as [-> | ->]; [right|left]; reflexivity.
Qed.
Lemma value_in u m : In (unit_seed u m) (values (odd_part u)).
Proof.
  rewrite seed_form. set (b := odd_part u). set (y := (b * 65539 ^ Z.of_nat m) mod 2 ^ 25).
  assert (Y : 0 <= y < 2 ^ 25) by (apply Z.mod_pos_bound; reflexivity). assert (Y8 : y mod 8 = b mod 8 \/ y mod 8 = (3 * b) mod 8).
  { unfold y. rewrite <- Znumtheory.Zmod_div_mod; [|lia|lia|exists (2 ^ 22); reflexivity]. rewrite Z.mul_mod by lia. destruct (pow_mod8 m) as [-> | ->]; [left|right].
    - rewrite Z.mul_1_r. apply Z.mod_mod. lia.
    - rewrite Z.mul_mod_idemp_l by lia. f_equal. ring. }
  unfold values. apply in_flat_map. exists (Z.to_nat (y / 8)). assert (0 <= y / 8 < 2 ^ 22) by (split; [apply Z.div_pos; lia|apply Z.div_lt_upper_bound; [lia|change (8 * 2 ^ 22) with (2 ^ 25); lia]]).
  split. { apply in_seq. pose proof half_Z. lia. }
  pose proof (Z.div_mod y 8 ltac:(lia)). rewrite Z2Nat.id by lia. destruct Y8 as [E|E]; [left|right; left]; rewrite <- E; lia.
Qed.
Lemma NoDup_map_in {A B} (f : A -> B) l : (forall x y, In x l -> In y l -> f x = f y -> x = y) -> NoDup l -> NoDup (map f l).
Proof.
  intros INJ ND. induction ND as [|x l NI ND IH]; cbn [map]; constructor.
  - intros I. apply in_map_iff in I. destruct I as (y & E & I). apply NI. rewrite (INJ x y); auto; [now left|now right].
  - apply IH. intros a b A0 B0. apply INJ; now right.
Qed.
Lemma values_perm u k : Permutation (map (unit_seed u) (seq k period)) (values (odd_part u)).
Proof.
  apply NoDup_Permutation_bis.
  - apply NoDup_map_in; [|apply seq_NoDup]. intros m m' I I'. apply in_seq in I, I'. intros E. apply seed_period in E. pose proof period_Z. destruct E as (q & E).
    assert (q = 0) by (assert (- 2 ^ 23 < q * 2 ^ 23 < 2 ^ 23) by lia; lia). subst q. lia.
  - rewrite values_length, map_length, seq_length. lia.
  - intros x I. apply in_map_iff in I. destruct I as (m & <- & _). apply value_in.
Qed.
Lemma filter_perm {A} (f : A -> bool) l l' : Permutation l l' -> length (filter f l) = length (filter f l').
Proof.
  intros P. induction P as [|x l l' P IH|x y l|l l' l'' P IH P' IH']; cbn [filter]; [reflexivity| | |congruence].
  - destruct (f x); cbn [length]; now rewrite IH.
  - destruct (f x), (f y); reflexivity.
Qed.
Lemma filter_map {A B} (f : A -> B) (P : B -> bool) l : length (filter P (map f l)) = length (filter (fun a => P (f a)) l).
Proof. induction l as [|a l IH]; cbn [map filter]; [reflexivity|]. destruct (P (f a)); cbn [length]; now rewrite IH. Qed.

Lemma values_below t c : forall h z, 512 * Z.of_nat z <= t -> t <= 512 * (Z.of_nat z + Z.of_nat h) ->
  let l := flat_map (fun j => [512 * Z.of_nat j + 64 * (c mod 8); 512 * Z.of_nat j + 64 * ((3 * c) mod 8)]) (seq z h) in
  2 * (t / 512 - Z.of_nat z) <= count (fun x => x <? t) l <= 2 * (t / 512 - Z.of_nat z) + 2.
Proof.
  assert (M1 := Z.mod_pos_bound c 8 ltac:(lia)). assert (M2 := Z.mod_pos_bound (3 * c) 8 ltac:(lia)).
  assert (NIL : forall h z, t <= 512 * Z.of_nat z -> count (fun x => x <? t) (flat_map (fun j => [512 * Z.of_nat j + 64 * (c mod 8); 512 * Z.of_nat j + 64 * ((3 * c) mod 8)]) (seq z h)) = 0).
  { induction h as [|h IH]; intros z L; [reflexivity|]. unfold count in *. cbn [seq flat_map app filter]. destruct (Z.ltb_spec (512 * Z.of_nat z + 64 * (c mod 8)) t); [lia|].
    destruct (Z.ltb_spec (512 * Z.of_nat z + 64 * ((3 * c) mod 8)) t); [lia|]. apply IH. lia. }
  induction h as [|h IH]; intros z L1 L2; cbv zeta.
  { unfold count. cbn [seq flat_map filter length]. assert (t / 512 = Z.of_nat z); [|lia]. symmetry. apply Z.div_unique with 0; lia. }
  cbn [seq flat_map app]. set (r := flat_map _ (seq (S z) h)). pose proof (Z.div_mod t 512 ltac:(lia)) as DM. pose proof (Z.mod_pos_bound t 512 ltac:(lia)) as MB.
  destruct (Z.le_gt_cases (512 * Z.of_nat (S z)) t) as [F|F].
  - specialize (IH (S z) F ltac:(lia)). cbv zeta in IH. fold r in IH. unfold count in *. cbn [filter]. destruct (Z.ltb_spec (512 * Z.of_nat z + 64 * (c mod 8)) t); [|lia].
    destruct (Z.ltb_spec (512 * Z.of_nat z + 64 * ((3 * c) mod 8)) t); [|lia]. cbn [length]. lia.
  - assert (N := NIL h (S z) ltac:(lia)). fold r in N. unfold count in *. assert (T : t / 512 = Z.of_nat z) by lia. rewrite T. cbn [filter].
    destruct (_ <? t), (_ <? t); cbn [length]; lia.
Qed.
Theorem seeds_below u k t : 0 <= t <= 2 ^ 31 ->
  2 * (t / 512) <= count (fun m => unit_seed u m <? t) (seq k period) <= 2 * (t / 512) + 2.
Proof.
  intros T. unfold count. rewrite <- (filter_map (unit_seed u) (fun x => x <? t)), (filter_perm _ _ _ (values_perm u k)).
  pose proof (values_below t (odd_part u) half 0 ltac:(lia)) as X. rewrite half_Z in X. specialize (X ltac:(change (512 * (Z.of_nat 0 + 2 ^ 22)) with (2 ^ 31); lia)). cbv zeta in X. unfold values, count in *. lia.
Qed.

(** *** frequencies *)
Lemma count_mono {A} (P Q : A -> bool) l : (forall a, In a l -> P a = true -> Q a = true) -> count P l <= count Q l.
Proof.
  unfold count. induction l as [|a l IH]; intros H; cbn [filter]; [lia|]. specialize (IH (fun b B => H b (or_intror B))). specialize (H a (or_introl eq_refl)).
  destruct (P a); [rewrite H by auto; cbn [length]; lia|]. destruct (Q a); cbn [length]; lia.
Qed.
Lemma count_split {A} (P Q R : A -> bool) l : (forall a, In a l -> (if P a then 1 else 0) = (if Q a then 1 else 0) + (if R a then 1 else 0)) -> count P l = count Q l + count R l.
Proof.
  unfold count. induction l as [|a l IH]; intros H; cbn [filter]; [reflexivity|]. specialize (IH (fun b B => H b (or_intror B))). specialize (H a (or_introl eq_refl)).
  destruct (P a), (Q a), (R a); cbn [length]; lia.
Qed.

Definition scale : Qc := qq 4656613 10000000000000000.
Lemma scale_pos : (q0 < scale)%Qc. Proof. apply qltb_iff. reflexivity. Qed.
(** counting numbers below [p], whether or not [p] itself is included *)
Lemma frequency_about (P : nat -> bool) u k p : (q0 <= p)%Qc -> (p <= q1)%Qc ->
  (forall m, (number_at u m < p)%Qc -> P m = true) -> (forall m, P m = true -> (number_at u m <= p)%Qc) -> (qabs (Qcminus (frequency P k) p) <= qq 1 2000000)%Qc.
Proof.
  intros P0 P1 IN OUT. set (a := Qcdiv p scale). assert (SP := scale_pos). assert (SN : scale <> q0) by (intros K; rewrite K in SP; exact (Qclt_not_eq _ _ SP eq_refl)).
  assert (EP : p = Qcmult a scale) by (unfold a; rewrite Qcmult_comm; symmetry; now apply Qcmult_div_r).
  set (t := qfloor a). destruct (qfloor_spec a) as (T1 & T2). fold t in T1, T2.
  assert (T0 : 0 <= t). { assert (K : (qz 0 < qz (t + 1))%Qc); [|apply (proj1 (qz_lt _ _)) in K; lia]. apply Qcle_lt_trans with a; [|exact T2]. destruct (Qclt_le_dec a (qz 0)) as [L|L]; [|exact L].
    exfalso. apply (Qclt_not_le p q0); [|exact P0]. rewrite EP. change q0 with (qz 0). assert (X : Qcmult (qz 0) scale = qz 0) by (apply Qc_is_canon; reflexivity). rewrite <- X. now apply Qcmult_lt_compat_r. }
  assert (TM : t + 1 <= 2 ^ 31).
  { assert (K : (qz t < qz (2 ^ 31))%Qc); [|apply (proj1 (qz_lt _ _)) in K; lia]. apply Qcle_lt_trans with a; [exact T1|].
    destruct (Qclt_le_dec a (qz (2 ^ 31))) as [L|L]; [exact L|]. exfalso. apply (Qclt_not_le q1 (Qcmult (qz (2 ^ 31)) scale)).
    - apply qltb_iff. vm_compute. reflexivity.
    - apply Qcle_trans with p; [|exact P1]. rewrite EP. apply Qcmult_le_compat_r; [exact L|]. now apply Qclt_le_weak. }
  assert (RD : forall x, rand_of x = Qcmult (qz x) scale) by reflexivity.
  assert (C1 : 2 * (t / 512) <= count P (seq k period)).
  { eapply Z.le_trans; [exact (proj1 (seeds_below u k t ltac:(lia)))|]. apply count_mono. intros m _ L. apply Z.ltb_lt in L. apply IN. unfold number_at. rewrite RD, EP.
    apply Qcmult_lt_compat_r; [exact SP|]. apply Qclt_le_trans with (qz t); [apply qz_lt; exact L|exact T1]. }
  assert (C2 : count P (seq k period) <= 2 * ((t + 1) / 512) + 2).
  { eapply Z.le_trans; [|exact (proj2 (seeds_below u k (t + 1) ltac:(lia)))]. apply count_mono. intros m _ L. apply Z.ltb_lt. apply OUT in L. unfold number_at in L. rewrite RD, EP in L.
    destruct (Z.lt_ge_cases (unit_seed u m) (t + 1)) as [B|B]; [exact B|]. exfalso. apply (Qclt_not_le (Qcmult a scale) (Qcmult (qz (unit_seed u m)) scale)); [|exact L].
    apply Qcmult_lt_compat_r; [exact SP|]. apply Qclt_le_trans with (qz (t + 1)); [exact T2|]. apply qz_le. lia. }
  set (c := count P (seq k period)) in *. pose proof (Z.div_mod t 512 ltac:(lia)). pose proof (Z.mod_pos_bound t 512 ltac:(lia)).
  pose proof (Z.div_mod (t + 1) 512 ltac:(lia)). pose proof (Z.mod_pos_bound (t + 1) 512 ltac:(lia)).
  assert (B1 : t - 511 <= 256 * c) by lia. assert (B2 : 256 * c <= t + 513) by lia.
  apply qz_le in B1, B2. rewrite !qz_plus, !qz_mult in B2. unfold Z.sub in B1. rewrite !qz_plus, !qz_mult in B1.
  unfold frequency. fold c. change (2 ^ 23) with 8388608.
  assert (FD : Qcdiv (qz c) (qz 8388608) = Qcmult (qz c) (qq 1 8388608)) by (unfold Qcdiv; f_equal; apply Qc_is_canon; reflexivity). rewrite FD.
  assert (SV : scale = qq 4656613 10000000000000000) by reflexivity. rewrite SV in EP. clearbody t a c. clear - EP T1 T2 B1 B2 P0 P1. rewrite qz_plus in T2.
  apply qabs_le_iff. subst p. change (qz (- (511))) with (qq (-511) 1) in B1. change (qz 256) with (qq 256 1) in B1, B2. change (qz 513) with (qq 513 1) in B2. change (qz 1) with (qq 1 1) in T2. generalize dependent (qz t). generalize dependent (qz c). intros x y T1 T2 B1 B2. unfold Qcle, Qclt, q0, q1 in *. repeat (rewrite ?this_plus, ?this_mult, ?this_minus, ?this_opp, ?this_qq in * ). generalize dependent (this x). generalize dependent (this y). generalize dependent (this a). cbn [this]. clear. intros b P1 P0 y T1 T2 x B1 B2. change (this (qz 1)) with 1%Q in P1. change (this (qz 0)) with 0%Q in P0. split; lra.
Qed.

Lemma frequency_plus (P Q R : nat -> bool) k : (forall m, (if P m then 1 else 0) = (if Q m then 1 else 0) + (if R m then 1 else 0)) -> frequency P k = Qcplus (frequency Q k) (frequency R k).
Proof.
  intros H. unfold frequency. rewrite (count_split P Q R) by (intros m _; apply H). rewrite qz_plus. unfold Qcdiv. ring.
Qed.
Lemma near_about f p : (qabs (Qcminus f p) <= qq 1 2000000)%Qc -> about f p.
Proof. unfold about. intros H. eapply Qcle_trans; [exact H|]. apply qleb_iff. reflexivity. Qed.
Lemma near_minus f g h p q : f = Qcplus g h -> (qabs (Qcminus f p) <= qq 1 2000000)%Qc -> (qabs (Qcminus g q) <= qq 1 2000000)%Qc -> about h (Qcminus p q).
Proof. unfold about. intros -> A B. apply (proj1 (qabs_le_iff _ _)) in A, B. apply qabs_le_iff. qlra. Qed.
Lemma always_one k : frequency (fun _ => true) k = q1.
Proof.
  unfold frequency, count. assert (E : forall l : list nat, length (filter (fun _ => true) l) = length l) by (induction l as [|a l IH]; cbn [filter length]; congruence).
  rewrite E, seq_length, period_Z. apply Qc_is_canon. reflexivity.
Qed.
Lemma frequency_ext (P Q : nat -> bool) k : (forall m, P m = Q m) -> frequency P k = frequency Q k.
Proof. intros H. unfold frequency, count. now rewrite (filter_ext P Q H). Qed.

(** *** the RANDU relation *)
Lemma randu u m : (2 ^ 31 | unit_seed u (S (S m)) - 6 * unit_seed u (S m) + 9 * unit_seed u m).
Proof.
  unfold unit_seed. set (b := 123456 * 9649599 ^ (Z.of_nat u + 1)). rewrite !Nat2Z.inj_succ, !Z.pow_succ_r by lia. set (x := 65539 ^ Z.of_nat m).
  assert (D : forall a, exists q, a mod 2 ^ 31 = a + q * 2 ^ 31) by (intros a; exists (- (a / 2 ^ 31)); pose proof (Z.div_mod a (2 ^ 31) ltac:(lia)); lia).
  destruct (D (b * (65539 * (65539 * x)))) as (q2 & ->). destruct (D (b * (65539 * x))) as (q1 & ->). destruct (D (b * x)) as (q3 & ->).
  exists (2 * b * x + q2 - 6 * q1 + 9 * q3). change (2 ^ 31) with 2147483648. ring.
Qed.
