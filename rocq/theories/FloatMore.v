(** The last steps to the statements of PropertiesFloat.v. *)
From Coq Require Import Permutation.
From Verif Require Import Base BaseProofs Sums SampleModel SampleProofs LoadModel LoadSpec LoadProofs ContractProofs
  FloatSpec FloatModel FloatProofs FloatSums FloatData FloatSample.
Open Scope Z_scope.

Lemma map2_nth_lt {A B C} (f : A -> B -> C) : forall a b i da db dc, (i < length a)%nat -> (i < length b)%nat ->
  nth i (map2 f a b) dc = f (nth i a da) (nth i b db).
Proof.
  unfold map2. induction a as [|x a IH]; intros [|y b] i da db dc Ha Hb; cbn [length] in *; try lia.
  destruct i as [|i]; [reflexivity|]. cbn [combine map nth]. apply (IH b i); lia.
Qed.
Theorem margins_counted SYSCON CAPREQ i : (i < length SYSCON)%nat -> (i < length CAPREQ)%nat ->
  ((vget SYSCON i - vget CAPREQ i <= qz (-1))%Qc -> nth i (fmargins SYSCON CAPREQ) 0 < 0) /\
  (nth i (fmargins SYSCON CAPREQ) 0 < 0 -> (vget SYSCON i - vget CAPREQ i <= qz (-1) + p2 (-54))%Qc).
Proof.
  intros A B. unfold fmargins. rewrite (map2_nth_lt _ _ _ i q0 q0) by assumption.
  split; [apply counted_short|apply counted_only_short].
Qed.
Theorem margins_grid k SYSCON CAPREQ i : (i < length SYSCON)%nat -> (i < length CAPREQ)%nat ->
  0 <= k <= 53 -> on_grid k (vget SYSCON i) -> on_grid k (vget CAPREQ i) ->
  (nth i (fmargins SYSCON CAPREQ) 0 < 0 <-> (vget SYSCON i - vget CAPREQ i <= qz (-1))%Qc).
Proof.
  intros A B. unfold fmargins. rewrite (map2_nth_lt _ _ _ i q0 q0) by assumption. now apply counted_iff_grid.
Qed.

Theorem fsyscon_zeros k AVAIL CAPCON n : 0 <= k <= 1074 ->
  Forall (on_grid k) AVAIL -> (qsum (map qabs AVAIL) <= p2 (53 - k))%Qc ->
  fsyscon_loop AVAIL CAPCON (vzeros n) = syscon_loop AVAIL CAPCON (vzeros n).
Proof.
  intros K G B. apply (fsyscon_exact k K); auto; unfold vzeros; apply Forall_forall; intros x I; apply repeat_spec in I; subst x.
  - apply grid_0.
  - rewrite (qabs_of_nonneg q0) by apply Qcle_refl. unfold qsabs in *. qlra.
Qed.
Theorem ffindtn_grid k X JENT INTCH JDAY : 0 <= k <= 1074 -> (q0 <= X)%Qc ->
  (forall r v, In r INTCH -> In v r -> on_grid k v /\ (qabs v <= X)%Qc) ->
  (qz (2 * Z.of_nat (length (contracts JENT))) * X <= p2 (53 - k))%Qc ->
  ffindtn JENT INTCH JDAY = findtn JENT INTCH JDAY.
Proof.
  intros K X0 C H. apply (ffindtn_exact k K X); auto. apply Forall_forall. intros r R. apply Forall_forall. intros v V. now apply (C r v).
Qed.
Theorem fsum_relative l x : Forall b64 l -> Forall (fun v => q0 <= v)%Qc l -> Z.of_nat (length l) <= 2 ^ 52 -> fsum_to l x ->
  (qabs (x - qsum l) <= qz (Z.of_nat (length l)) * p2 (-52) * qsum l)%Qc.
Proof.
  intros F P N S. assert (E : map qabs l = l).
  { clear - P. induction P as [|v l V P IH]; cbn [map]; [reflexivity|]. now rewrite (qabs_of_nonneg v V), IH. }
  rewrite <- E at 3. apply fsum_error; auto. eapply Forall_impl; [|exact F]. exact b64_flt.
Qed.

Theorem frescale_error row pk i : (q0 <= pk)%Qc -> Forall (fun v => q0 <= v)%Qc row -> (i < length row)%nat ->
  let M := fold_left qmax row (fl (qq 1 1000)) in
  (vget row i = q0 \/ (p2 (-1022) <= vget row i / M)%Qc) ->
  (pk = q0 \/ vget row i = q0 \/ (p2 (-1021) <= vget row i / M * pk)%Qc) ->
  (qabs (vget (frescale row pk) i - vget row i / M * pk) <= p2 (-51) * (vget row i / M * pk))%Qc.
Proof.
  intros P FR Hi M N1 N2.
  assert (E : vget (frescale row pk) i = fmul (fdiv (vget row i) M) pk).
  { unfold vget, frescale. set (f := fun v => fmul (fdiv v (famax_init row)) pk).
    rewrite (nth_indep _ q0 (f q0)) by (rewrite map_length; exact Hi). rewrite map_nth. reflexivity. }
  rewrite E. clear E.
  assert (MP : (q0 < M)%Qc) by (eapply Qclt_le_trans; [apply fl_thousandth|exact (proj1 (fold_qmax_spec row _))]).
  assert (V : (q0 <= vget row i)%Qc) by (rewrite Forall_forall in FR; apply FR, nth_In, Hi).
  set (v := vget row i) in *. clearbody v M.
  assert (MN : M <> 0%Qc) by (intros ->; apply (proj1 (Qclt_nle _ _)) in MP; apply MP, Qcle_refl).
  assert (ZERO : forall y, (qabs (q0 - y) <= p2 (-51) * y)%Qc <-> (qabs (q0 - y) <= p2 (-51) * y)%Qc) by tauto. clear ZERO.
  destruct N1 as [->|N1].
  { replace (q0 / M * pk)%Qc with q0 by (change q0 with 0%Qc; field; exact MN).
    replace (fdiv q0 M) with q0. 2:{ unfold fdiv. replace (q0 / M)%Qc with q0 by (change q0 with 0%Qc; field; exact MN). reflexivity. }
    rewrite fmul_0_l. apply qleb_iff. vm_compute. reflexivity. }
  destruct N2 as [->|[->|N2]].
  { rewrite fmul_0_r. replace (v / M * q0)%Qc with q0 by qring. apply qleb_iff. vm_compute. reflexivity. }
  { replace (q0 / M * pk)%Qc with q0 by (change q0 with 0%Qc; field; exact MN).
    replace (fdiv q0 M) with q0. 2:{ unfold fdiv. replace (q0 / M)%Qc with q0 by (change q0 with 0%Qc; field; exact MN). reflexivity. }
    rewrite fmul_0_l. apply qleb_iff. vm_compute. reflexivity. }
  unfold fdiv, fmul. set (y := (v / M)%Qc) in *.
  pose proof (p2_pos (-1022)) as PP. assert (Y0 : (q0 <= y)%Qc) by qlra.
  pose proof (fl_error y) as E1. rewrite (qabs_of_nonneg y Y0) in E1. specialize (E1 N1).
  set (d := fl y) in *. clearbody y d. clear MN MP V v M PP.
  (* |d - y| <= u y *)
  assert (U : p2 (-53) = qq 1 (2 ^ 53)) by (apply Qc_is_canon; vm_compute; reflexivity).
  set (u := p2 (-53)) in *. assert (U1 : (q0 < u)%Qc) by apply p2_pos. assert (U2 : (u <= qq 1 8)%Qc) by (apply qleb_iff; vm_compute; reflexivity).
  assert (A1 : (y - u * y <= d)%Qc /\ (d <= y + u * y)%Qc).
  { set (t := (u * y)%Qc) in *. clearbody t. clear - E1. split; qabs_all; qlra. }
  destruct A1 as [A1 A2].
  assert (A3 : ((y - u * y) * pk <= d * pk)%Qc) by now apply qmul_le. assert (A4 : (d * pk <= (y + u * y) * pk)%Qc) by now apply qmul_le.
  set (z := (y * pk)%Qc) in *.
  replace ((y - u * y) * pk)%Qc with (z - u * z)%Qc in A3 by (unfold z; ring). replace ((y + u * y) * pk)%Qc with (z + u * z)%Qc in A4 by (unfold z; ring).
  pose proof (p2_pos (-1021)) as P3. assert (Z0 : (q0 <= z)%Qc) by qlra.
  assert (UZ : (u * z <= qq 1 8 * z)%Qc) by now apply qmul_le. assert (UZ0 : (q0 <= u * z)%Qc) by (replace q0 with (q0 * z)%Qc by qring; apply qmul_le; auto; qlra).
  assert (H8 : (qq 1 8 * z + qq 1 8 * z + qq 1 8 * z + qq 1 8 * z + qq 1 8 * z + qq 1 8 * z + qq 1 8 * z + qq 1 8 * z = z)%Qc).
  { replace (qq 1 8 * z + qq 1 8 * z + qq 1 8 * z + qq 1 8 * z + qq 1 8 * z + qq 1 8 * z + qq 1 8 * z + qq 1 8 * z)%Qc
      with (((qq 1 8 + qq 1 8) + (qq 1 8 + qq 1 8) + ((qq 1 8 + qq 1 8) + (qq 1 8 + qq 1 8))) * z)%Qc by ring.
    replace ((qq 1 8 + qq 1 8) + (qq 1 8 + qq 1 8) + ((qq 1 8 + qq 1 8) + (qq 1 8 + qq 1 8)))%Qc with 1%Qc by (apply Qc_is_canon; vm_compute; reflexivity). ring. }
  assert (D2 : (p2 (-1021) = p2 (-1022) + p2 (-1022))%Qc) by (apply Qc_is_canon; vm_compute; reflexivity).
  set (w := (d * pk)%Qc) in *.
  assert (W : (p2 (-1022) <= w)%Qc).
  { set (a := (u * z)%Qc) in *. set (b := (qq 1 8 * z)%Qc) in *. set (c := p2 (-1022)) in *. set (c2 := p2 (-1021)) in *.
    clearbody a b c c2 w. clear - A3 UZ H8 D2 N2 P3. qlra. }
  assert (W0 : (q0 <= w)%Qc) by (pose proof (p2_pos (-1022)); qlra).
  pose proof (fl_error w) as E2. rewrite (qabs_of_nonneg w W0) in E2. specialize (E2 W). fold u in E2.
  assert (UW : (u * w <= u * (z + u * z))%Qc).
  { rewrite !(Qcmult_comm u). apply qmul_le; [qlra|]. rewrite (Qcmult_comm z u). exact A4. }
  assert (UUZ : (u * (u * z) <= qq 1 8 * (u * z))%Qc) by now apply qmul_le.
  replace (u * (z + u * z))%Qc with (u * z + u * (u * z))%Qc in UW by ring.
  assert (H4 : (p2 (-51) * z = u * z + u * z + u * z + u * z)%Qc).
  { replace (p2 (-51)) with (u + u + u + u)%Qc by (unfold u; apply Qc_is_canon; vm_compute; reflexivity). ring. }
  rewrite H4. clear H4. set (f := fl w) in *. set (a := (u * z)%Qc) in *. set (b := (u * a)%Qc) in *. set (c := (u * w)%Qc) in *.
  assert (H1 : (qq 1 8 * a <= a)%Qc).
  { assert (X : (qq 1 8 * a <= q1 * a)%Qc) by (apply qmul_le; [exact UZ0|apply qleb_iff; reflexivity]). replace (q1 * a)%Qc with a in X by qring. exact X. }
  set (g := (qq 1 8 * a)%Qc) in *. clearbody a b c f g w. clear - E2 UW UUZ H1 A3 A4 UZ0. apply qabs_le_iff. 
  assert (E3 : (w - f <= c)%Qc /\ (f - w <= c)%Qc) by (clear - E2; split; qabs_all; qlra). destruct E3. split; qlra.
Qed.

Lemma flt_of_b64 x : b64 x -> flt x. Proof. apply b64_flt. Qed.

Theorem fgstate_outcome IG PROBG RT DR PL i :
  (length PROBG <= length IG)%nat -> length RT = length PROBG -> length DR = length PROBG ->
  length PL = length PROBG -> (i < length PROBG)%nat ->
  (q0 <= mget PROBG i 0)%Qc -> (mget PROBG i 0 <= mget PROBG i 1)%Qc -> (mget PROBG i 1 <= q1)%Qc ->
  let '(IG', PCTAVL, AVAIL) := fgstate IG PROBG RT DR PL in
  exists T0 T1,
   (qabs (qz T0 * p2 (-31) - mget PROBG i 0) <= p2 (-25))%Qc /\
   (qabs (qz T1 * p2 (-31) - mget PROBG i 1) <= p2 (-25))%Qc /\
   (nth i IG' 0 < T0 -> vget PCTAVL i = q1) /\
   (T0 <= nth i IG' 0 < T1 -> vget PCTAVL i = vget DR i) /\
   (T0 <= nth i IG' 0 -> T1 <= nth i IG' 0 -> vget PCTAVL i = q0).
Proof.
  intros L1 L2 L3 L4 Hi P0 P1 P2.
  pose proof (fgstate_spec PROBG IG RT DR PL L1 L2 L3 L4) as S. pose proof (gstate_range IG PROBG RT DR PL i L1 L2 L3 L4 Hi) as R.
  rewrite <- fgstate_seeds in R. destruct (fgstate IG PROBG RT DR PL) as [[IG' F] AV]. cbn [fst] in R.
  destruct S as (_ & _ & S). destruct (S i Hi) as [SF _]. unfold vget. rewrite SF.
  destruct (unit_thresholds _ _ P0 P1 P2) as (T0 & T1 & E0 & E1 & H). exists T0, T1. split; [exact E0|]. split; [exact E1|].
  exact (H _ _ R).
Qed.
Theorem fgstate_capacity IG PROBG RT DR PL i :
  (length PROBG <= length IG)%nat -> length RT = length PROBG -> length DR = length PROBG ->
  length PL = length PROBG -> (i < length PROBG)%nat ->
  b64 (vget RT i) -> (q0 <= vget RT i)%Qc -> (q0 <= vget DR i)%Qc -> (vget DR i <= q1)%Qc ->
  vget PL i = q0 \/ vget PL i = q1 ->
  let '(_, PCTAVL, AVAIL) := fgstate IG PROBG RT DR PL in
  (q0 <= vget AVAIL i)%Qc /\ (vget AVAIL i <= vget RT i)%Qc /\
  (vget PL i = q0 \/ vget PCTAVL i = q0 -> vget AVAIL i = q0) /\
  (vget PCTAVL i = q1 -> vget PL i = q1 -> vget AVAIL i = vget RT i).
Proof.
  intros L1 L2 L3 L4 Hi BR R0 D0 D1 O.
  pose proof (fgstate_spec PROBG IG RT DR PL L1 L2 L3 L4) as S. destruct (fgstate IG PROBG RT DR PL) as [[IG' F] AV].
  destruct S as (_ & _ & S). destruct (S i Hi) as [SF SA]. unfold vget in *. rewrite SA.
  assert (B : (q0 <= nth i F q0)%Qc /\ (nth i F q0 <= q1)%Qc).
  { rewrite SF. unfold gen_fraction. destruct (qltb _ _); [|destruct (qltb _ _)]; split; auto; try apply Qcle_refl; apply qleb_iff; reflexivity. }
  destruct (unit_capacity (nth i F q0) (nth i RT q0) (nth i PL q0) (b64_flt _ BR) (proj1 B) (proj2 B) R0 O) as (C1 & C2 & C3 & C4 & C5).
  split; [exact C1|]. split; [exact C2|]. split; [|exact C5]. intros [X|X]; auto.
Qed.

Lemma line_le_threshold p : (q0 <= p)%Qc -> (p <= q1)%Qc ->
  exists T, (forall s, 0 <= s < 2 ^ 31 -> ((frand_of s <= p)%Qc <-> s < T)) /\ (qabs (qz T * p2 (-31) - p) <= p2 (-25))%Qc.
Proof.
  intros P0 P1.
  destruct (threshold (fun s => qleb (frand_of s) p) (Z.to_nat (2 ^ 31))) as (T & B & H).
  { intros s t ST E. qc_bool. eapply Qcle_trans; [apply frand_mono; apply ST|exact E]. }
  rewrite Z2Nat.id in B, H by (vm_compute; discriminate).
  exists T. split. { intros s Hs. rewrite <- (H s Hs). symmetry. apply qleb_iff. }
  assert (TOT : (p2 (-31) + drift <= p2 (-25))%Qc) by (apply qleb_iff; vm_compute; reflexivity).
  pose proof (p2_pos (-31)) as P31. assert (DP : (q0 <= drift)%Qc) by (apply qleb_iff; reflexivity).
  assert (UP : (qz T * p2 (-31) - p <= p2 (-31) + drift)%Qc).
  { destruct (Z.eq_dec T 0) as [->|NZ].
    { change (qz 0) with 0%Qc. replace (0 * p2 (-31) - p)%Qc with (- p)%Qc by ring.
      set (u := p2 (-31)) in *. set (dd := drift) in *. clearbody u dd. clear - DP P31 P0. qlra. }
    assert (L : qleb (frand_of (T - 1)) p = true) by (apply (H (T - 1)); lia). qc_bool.
    pose proof (frand_close (T - 1) ltac:(lia)) as C. rewrite qz_minus in C.
    replace ((qz T - qz 1) * p2 (-31))%Qc with (qz T * p2 (-31) - p2 (-31))%Qc in C by (change (qz 1) with 1%Qc; ring).
    set (f := frand_of (T - 1)) in *. set (z := (qz T * p2 (-31))%Qc) in *. set (u := p2 (-31)) in *.
    clearbody f z u. clear - L C. qabs_all; qlra. }
  assert (LO : (p - qz T * p2 (-31) <= drift)%Qc).
  { destruct (Z.eq_dec T (2 ^ 31)) as [->|NZ].
    { rewrite <- p2_nonneg by lia. rewrite p2_inv. clear - DP P1. set (dd := drift) in *. clearbody dd. qlra. }
    assert (L : qleb (frand_of T) p = false).
    { destruct (qleb (frand_of T) p) eqn:E; auto. apply (H T) in E; lia. }
    qc_bool. pose proof (frand_close T ltac:(lia)) as C. set (f := frand_of T) in *. set (z := (qz T * p2 (-31))%Qc) in *.
    clearbody f z. clear - L C. qabs_all; qlra. }
  apply qabs_le_iff. set (z := (qz T * p2 (-31))%Qc) in *. set (u := p2 (-31)) in *. set (w := p2 (-25)) in *. set (dd := drift) in *. clearbody z u w dd.
  clear - TOT UP LO P31 DP. split; qlra.
Qed.

Theorem flstate_outcome IL PROBL i : (length PROBL <= length IL)%nat -> (i < length PROBL)%nat ->
  (forall c, (c < 5)%nat -> (q0 <= mget PROBL i c)%Qc /\ (mget PROBL i c <= q1)%Qc) ->
  let '(IL', ST) := flstate IL PROBL in
  exists T : nat -> Z, (forall c, (c < 5)%nat -> (qabs (qz (T c) * p2 (-31) - mget PROBL i c) <= p2 (-25))%Qc) /\
    (1 <= nth i ST 0 <= 6) /\
    (forall c, (c < 5)%nat -> nth i IL' 0 < T c -> nth i ST 0 <= Z.of_nat c + 1) /\
    (forall c, (c < 5)%nat -> (forall d, (d <= c)%nat -> T d <= nth i IL' 0) -> Z.of_nat c + 1 < nth i ST 0).
Proof.
  intros L Hi P. pose proof (flstate_spec PROBL IL L) as S. pose proof (lstate_range IL PROBL i L Hi) as R.
  rewrite <- flstate_seeds in R. destruct (flstate IL PROBL) as [IL' ST]. cbn [fst] in R. destruct S as [_ S]. rewrite (S i Hi).
  set (s := nth i IL' 0) in *.
  destruct (line_le_threshold (mget PROBL i 0)) as (T0 & H0 & E0); try (apply P; lia).
  destruct (line_le_threshold (mget PROBL i 1)) as (T1 & H1 & E1); try (apply P; lia).
  destruct (line_le_threshold (mget PROBL i 2)) as (T2 & H2 & E2); try (apply P; lia).
  destruct (line_le_threshold (mget PROBL i 3)) as (T3 & H3 & E3); try (apply P; lia).
  destruct (line_le_threshold (mget PROBL i 4)) as (T4 & H4 & E4); try (apply P; lia).
  exists (fun c => nth c [T0; T1; T2; T3; T4] 0).
  specialize (H0 s R). specialize (H1 s R). specialize (H2 s R). specialize (H3 s R). specialize (H4 s R).
  rewrite <- qleb_iff in H0, H1, H2, H3, H4.
  split. { intros [|[|[|[|[|c]]]]] Hc; cbn [nth]; auto; lia. }
  unfold line_state. unfold mget in H0, H1, H2, H3, H4.
  change (nth i PROBL []) with (nth i PROBL []) in *.
  set (b0 := qleb (frand_of s) (nth 0 (nth i PROBL []) q0)) in *. set (b1 := qleb (frand_of s) (nth 1 (nth i PROBL []) q0)) in *.
  set (b2 := qleb (frand_of s) (nth 2 (nth i PROBL []) q0)) in *. set (b3 := qleb (frand_of s) (nth 3 (nth i PROBL []) q0)) in *.
  set (b4 := qleb (frand_of s) (nth 4 (nth i PROBL []) q0)) in *.
  clearbody b0 b1 b2 b3 b4. clear - H0 H1 H2 H3 H4.
  split; [destruct b0, b1, b2, b3, b4; lia|]. split.
  - intros [|[|[|[|[|c]]]]] Hc; cbn [nth]; intros HT; try lia;
      [apply H0 in HT|apply H1 in HT|apply H2 in HT|apply H3 in HT|apply H4 in HT]; destruct b0, b1, b2, b3, b4; try discriminate HT; lia.
  - intros c Hc HT.
    assert (Q : forall d, (d <= c)%nat -> nth d [b0; b1; b2; b3; b4] true = false).
    { intros d Hd. specialize (HT d Hd). destruct d as [|[|[|[|[|d]]]]]; cbn [nth] in *; try lia;
        [destruct b0|destruct b1|destruct b2|destruct b3|destruct b4]; auto; exfalso;
        [destruct H0 as [H _]|destruct H1 as [H _]|destruct H2 as [H _]|destruct H3 as [H _]|destruct H4 as [H _]]; specialize (H eq_refl); lia. }
    destruct c as [|[|[|[|[|c]]]]]; try lia;
      try (pose proof (Q 0%nat ltac:(lia)) as Q0; cbn [nth] in Q0; rewrite Q0);
      try (pose proof (Q 1%nat ltac:(lia)) as Q1; cbn [nth] in Q1; rewrite Q1);
      try (pose proof (Q 2%nat ltac:(lia)) as Q2; cbn [nth] in Q2; rewrite Q2);
      try (pose proof (Q 3%nat ltac:(lia)) as Q3; cbn [nth] in Q3; rewrite Q3);
      try (pose proof (Q 4%nat ltac:(lia)) as Q4; cbn [nth] in Q4; rewrite Q4);
      destruct b0, b1, b2, b3, b4; lia.
Qed.

Lemma ffindld_spec N h : forall HRLOAD FC CAPREQ, length FC = length HRLOAD -> 0 <= h ->
  ffindld N h HRLOAD FC = Ok CAPREQ ->
  length CAPREQ = length HRLOAD /\
  forall a, (a < length HRLOAD)%nat -> (Z.to_nat h < length (nth a HRLOAD []))%nat /\
    vget CAPREQ a = fmul (nth (Z.to_nat h) (nth a HRLOAD []) q0) (nth N (nth a FC []) q0).
Proof.
  unfold ffindld. induction HRLOAD as [|r H IH]; intros [|c FC] CAPREQ L H0 E; try discriminate L.
  - cbn in E. injection E as <-. split; auto. cbn. intros a Ha. lia.
  - cbn [combine fold_right fst snd] in E.
    destruct (fold_right _ _ _) as [rest|er] eqn:ER; cbn [bind] in E; [|discriminate].
    destruct (pyget r h) as [v|er] eqn:EV; cbn [bind] in E; [|discriminate]. injection E as <-.
    destruct (IH FC rest) as [LR HR]; auto. split; [cbn [length]; congruence|].
    intros [|a] Ha; cbn [nth length] in *.
    + unfold pyget, pyidx in EV. destruct (h <? 0) eqn:X; [lia|].
      destruct ((0 <=? h) && (h <? Z.of_nat (length r))) eqn:Y; [|discriminate].
      destruct (nth_error r (Z.to_nat h)) as [w|] eqn:NE; [|discriminate]. injection EV as ->.
      split; [apply nth_error_Some; congruence|]. unfold vget. cbn [nth]. now rewrite (nth_error_nth _ _ _ NE).
    + apply HR. lia.
Qed.
Theorem ffindld_levels HRLOAD FU h N CAPREQ : length FU = length HRLOAD ->
  Forall (Forall b64) HRLOAD -> Forall (Forall (fun v => q0 <= v)%Qc) HRLOAD ->
  Forall (fun fu => b64 fu /\ (q0 <= fu)%Qc) FU -> 0 <= h ->
  ffindld N h HRLOAD (map ffcterr_row FU) = Ok CAPREQ ->
  length CAPREQ = length HRLOAD /\
  (N = 2%nat -> forall a, (a < length HRLOAD)%nat -> vget CAPREQ a = nth (Z.to_nat h) (nth a HRLOAD []) q0) /\
  (forall CAPREQ', (N < 4)%nat -> ffindld (S N) h HRLOAD (map ffcterr_row FU) = Ok CAPREQ' ->
     forall a, (a < length HRLOAD)%nat -> (vget CAPREQ' a <= vget CAPREQ a)%Qc).
Proof.
  intros L FB F0 FF Hh E. assert (LF : length (map ffcterr_row FU) = length HRLOAD) by now rewrite map_length.
  destruct (ffindld_spec N h _ _ _ LF Hh E) as [LC HC]. split; [exact LC|].
  assert (ROW : forall a, (a < length HRLOAD)%nat -> exists fu, nth a (map ffcterr_row FU) [] = ffcterr_row fu /\ b64 fu /\ (q0 <= fu)%Qc).
  { intros a Ha. exists (nth a FU q0). split.
    - rewrite (nth_indep _ [] (ffcterr_row q0)) by lia. apply map_nth.
    - rewrite Forall_forall in FF. apply FF, nth_In. lia. }
  assert (CELL : forall a, (a < length HRLOAD)%nat -> (Z.to_nat h < length (nth a HRLOAD []))%nat ->
      b64 (nth (Z.to_nat h) (nth a HRLOAD []) q0) /\ (q0 <= nth (Z.to_nat h) (nth a HRLOAD []) q0)%Qc).
  { intros a Ha Hb. rewrite Forall_forall in FB, F0. specialize (FB _ (nth_In _ [] Ha)). specialize (F0 _ (nth_In _ [] Ha)).
    rewrite Forall_forall in FB, F0. split; [apply FB|apply F0]; now apply nth_In. }
  split.
  - intros -> a Ha. destruct (HC a Ha) as [Hb ->]. destruct (ROW a Ha) as (fu & -> & _). destruct (CELL a Ha Hb) as [B _].
    change (nth 2 (ffcterr_row fu) q0) with q1. apply fmul_1_r. now apply b64_flt.
  - intros C' HN E' a Ha. destruct (ffindld_spec (S N) h _ _ _ LF Hh E') as [_ HC'].
    destruct (HC a Ha) as [Hb ->]. destruct (HC' a Ha) as [_ ->]. destruct (ROW a Ha) as (fu & -> & BF & FP).
    destruct (CELL a Ha Hb) as [_ C0]. rewrite !(fmul_comm (nth (Z.to_nat h) _ _)). apply fmul_mono; [exact C0|].
    apply (fcterr_ordered fu (b64_flt _ BF) FP). exact HN.
Qed.

Theorem fcontracts_restored k X B ND n w JENT INTCH H : 0 <= k <= 1074 ->
  shape n n JENT -> pointers_ok n JENT INTCH -> shape n w H -> (q0 <= X)%Qc -> (q0 <= B)%Qc ->
  (forall r, In r INTCH -> (length r <= ND)%nat) ->
  (forall r v, In r INTCH -> In v r -> on_grid k v /\ (qabs v <= X)%Qc) ->
  (forall r v, In r H -> In v r -> on_grid k v /\ (qabs v <= B)%Qc) ->
  (B + qz (4 * Z.of_nat (length (contracts JENT) * ND)) * X <= p2 (53 - k))%Qc ->
  exists H', fxporta JENT INTCH H = Ok H' /\ fxports JENT INTCH H' = Ok H.
Proof.
  intros K S P SH X0 B0 LR CI CH HB. destruct (contracts_restored n w JENT INTCH H S P SH) as (H' & E1 & E2). exists H'.
  set (m := Z.of_nat (length (contracts JENT) * ND)) in *.
  assert (M0 : (q0 <= qz (2 * m) * X)%Qc).
  { replace q0 with (q0 * X)%Qc by qring. apply qmul_le; [exact X0|]. apply (proj2 (qz_le 0 _)). unfold m. lia. }
  assert (SP : (qz (4 * m) * X = qz (2 * m) * X + qz (2 * m) * X)%Qc).
  { replace (4 * m) with (2 * m + 2 * m) by lia. rewrite qz_plus. ring. }
  rewrite SP in HB. set (y := (qz (2 * m) * X)%Qc) in *.
  assert (FI : Forall (fun r => Forall (cell k X) r /\ (length r <= ND)%nat) INTCH).
  { apply Forall_forall. intros r R. split; [|now apply LR]. apply Forall_forall. intros v V. now apply (CI r v). }
  assert (FH : Forall (Forall (cell k B)) H).
  { apply Forall_forall. intros r R. apply Forall_forall. intros v V. now apply (CH r v). }
  destruct (fxporta_exact k K X ND B JENT INTCH H X0 B0 FI FH) as [F1 F2].
  { fold m. fold y. clearbody y. qlra. }
  split; [now rewrite F1|]. specialize (F2 H' E1). fold m in F2. fold y in F2.
  rewrite (fxports_exact k K X ND (B + y)%Qc); auto.
  - clearbody y. qlra.
  - fold m. fold y. clearbody y. qlra.
Qed.
