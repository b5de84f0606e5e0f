(** [tm2]'s update loop turns the base impedance matrix into the one of the sampled
    line states. *)
From Coq Require Import Permutation.
From Verif Require Import Base BaseProofs Sums LoadModel LoadSpec LoadProofs ContractProofs NetModel NetSpec MatProofs NetProofs FlowProofs AssignProofs SolveProofs.
Open Scope Z_scope.
Open Scope Qc_scope.

(** connectivity grows with the set of lines carrying an admittance *)
Lemma connected_mono l1 l2 : (forall l, In l l1 -> ladm l <> q0 -> exists l', In l' l2 /\ fst l' = fst l /\ ladm l' <> q0) ->
  forall i j, connected l1 i j -> connected l2 i j.
Proof.
  intros H i j C. induction C as [i|i j k C IH (l & Hl & Nz & J)]; [constructor|].
  destruct (H l Hl Nz) as (l' & Hl' & E & Nz'). apply conn_step with (j := j); auto.
  exists l'. split; auto. split; auto. unfold joins, lfrom, lto in *. now rewrite E.
Qed.

Lemma set_block_spec n NX ZB Z : shape n n ZB -> (NX <= n)%nat -> shape n n (set_block NX ZB Z) /\
  forall a b, (a < n)%nat -> (b < n)%nat -> mget (set_block NX ZB Z) a b = if (a <? NX)%nat && (b <? NX)%nat then mget Z a b else mget ZB a b.
Proof.
  intros S H. unfold set_block. rewrite (proj1 S). split; [apply mtab_shape|]. intros. now rewrite mget_mtab.
Qed.
Lemma set_block_border n ZB Z : (0 < n)%nat -> shape n n ZB -> zero_border n ZB -> zero_border n (set_block (n - 1) ZB Z).
Proof.
  intros Hn S B a Ha. destruct (set_block_spec n (n - 1) ZB Z S ltac:(lia)) as (_ & G). rewrite !G by lia. rewrite Nat.ltb_irrefl.
  rewrite andb_false_r. cbn [andb]. now apply B.
Qed.
Lemma is_inverse_ext n A A' Z Z' : (forall i j, (i < n)%nat -> (j < n)%nat -> A i j = A' i j) ->
  (forall i j, (i < n)%nat -> (j < n)%nat -> Z i j = Z' i j) -> is_inverse n A Z -> is_inverse n A' Z'.
Proof.
  intros EA EZ I i j Hi Hj. rewrite <- (I i j Hi Hj). apply qs_ext; intros k Hk. now rewrite EA, EZ.
Qed.

Section Upd.
  Variables (n NR : nat) (LT : list nat).
  Hypothesis ok : order_ok n NR LT.
  Let NX := (n - 1)%nat.
  Let IEQ := ieq_of LT NX NR.

  Definition chg : Type := ((nat * nat) * (Qc * Qc))%type.
  Definition st_line (t : chg) : wline := (fst t, fst (snd t)).
  Definition base_line (t : chg) : wline := (fst t, snd (snd t)).

  Lemma red_sym ls : symmetric NX (red LT ls).
  Proof. intros i j _ _. apply lap_sym. Qed.

  (** contribution of a line to the reduced matrix *)
  Lemma red_line2 ni nj b p q a c : ni <> nj -> (p < NX)%nat -> (q < NX)%nat -> at_ LT p = ni -> at_ LT q = nj -> (a < NX)%nat -> (c < NX)%nat ->
    lap1 ((ni, nj), b) (at_ LT a) (at_ LT c) = b * (unit2 p q a * unit2 p q c).
  Proof.
    intros N Hp Hq <- <- Ha Hc. rewrite lap1_unit2 by exact N.
    assert (E : forall x y, (x < NX)%nat -> (y < NX)%nat -> Nat.eqb (at_ LT x) (at_ LT y) = Nat.eqb x y).
    { intros x y Hx Hy. destruct (Nat.eqb_spec x y) as [->|Nxy]; [now rewrite Nat.eqb_refl|].
      apply Nat.eqb_neq. intros C. apply Nxy. apply (at_inj n NR LT ok); auto; unfold NX in *; lia. }
    unfold unit2. now rewrite !E.
  Qed.
  Lemma red_line1 ni nj b p a c : ni <> nj -> (p < NX)%nat -> (ni = NR /\ at_ LT p = nj \/ nj = NR /\ at_ LT p = ni) -> (a < NX)%nat -> (c < NX)%nat ->
    lap1 ((ni, nj), b) (at_ LT a) (at_ LT c) = b * (unit1 p a * unit1 p c).
  Proof.
    intros N Hp D Ha Hc. rewrite lap1_unit2 by exact N.
    assert (E : forall x y, (x < NX)%nat -> (y < NX)%nat -> Nat.eqb (at_ LT x) (at_ LT y) = Nat.eqb x y).
    { intros x y Hx Hy. destruct (Nat.eqb_spec x y) as [->|Nxy]; [now rewrite Nat.eqb_refl|].
      apply Nat.eqb_neq. intros C. apply Nxy. apply (at_inj n NR LT ok); auto; unfold NX in *; lia. }
    assert (R : forall x, (x < NX)%nat -> Nat.eqb (at_ LT x) NR = false).
    { intros x Hx. apply Nat.eqb_neq. now apply (at_not_ref n NR LT ok). }
    unfold unit2, unit1. destruct D as [(-> & <-)|(-> & <-)]; rewrite !E, !R by auto; qring.
  Qed.

  Lemma step2 ls ZB p q ni nj b : wlines_in n (((ni, nj), b) :: ls) -> shape n n ZB ->
    is_inverse NX (red LT ls) (mget ZB) -> (p < NX)%nat -> (q < NX)%nat -> at_ LT p = ni -> at_ LT q = nj -> b <> q0 ->
    injective NX (red LT (((ni, nj), b) :: ls)) ->
    let ZB' := set_block NX ZB (ximpa ZB (qz (-1) / b) p q) in
    shape n n ZB' /\ is_inverse NX (red LT (((ni, nj), b) :: ls)) (mget ZB').
  Proof.
    intros W S I Hp Hq Ep Eq Hb IJ. destruct (W _ (or_introl eq_refl)) as (_ & _ & N). unfold lfrom, lto in N. cbn [fst snd] in N.
    cbv zeta. destruct (set_block_spec n NX ZB (ximpa ZB (qz (-1) / b) p q) S ltac:(unfold NX; lia)) as (S' & G'). split; [exact S'|].
    assert (Npq : p <> q) by (intros ->; congruence).
    assert (HA : forall a c, (a < NX)%nat -> (c < NX)%nat -> red LT (((ni, nj), b) :: ls) a c = red LT ls a c + b * (unit2 p q a * unit2 p q c)).
    { intros a c Ha Hc. unfold red. rewrite lap_cons. rewrite (red_line2 ni nj b p q) by auto. qring. }
    assert (V : is_inverse NX (red LT (((ni, nj), b) :: ls)) (mget (ximpa ZB (qz (-1) / b) p q))).
    { apply (u2_inverse n NX (red LT ls)); auto; [unfold NX; lia|apply red_sym|].
      apply (u2_pivot NX (red LT ls) (red LT (((ni, nj), b) :: ls))); auto; apply red_sym. }
    eapply is_inverse_ext; [reflexivity| |exact V]. intros i j Hi Hj. rewrite G' by (unfold NX in *; lia).
    destruct (Nat.ltb_spec i NX), (Nat.ltb_spec j NX); try lia. reflexivity.
  Qed.
  Lemma step1 ls ZB p ni nj b : wlines_in n (((ni, nj), b) :: ls) -> shape n n ZB ->
    is_inverse NX (red LT ls) (mget ZB) -> (p < NX)%nat -> (ni = NR /\ at_ LT p = nj \/ nj = NR /\ at_ LT p = ni) -> b <> q0 ->
    injective NX (red LT (((ni, nj), b) :: ls)) ->
    let ZB' := set_block NX ZB (ximpar ZB (qz (-1) / b) p) in
    shape n n ZB' /\ is_inverse NX (red LT (((ni, nj), b) :: ls)) (mget ZB').
  Proof.
    intros W S I Hp D Hb IJ. destruct (W _ (or_introl eq_refl)) as (_ & _ & N). unfold lfrom, lto in N. cbn [fst snd] in N.
    cbv zeta. destruct (set_block_spec n NX ZB (ximpar ZB (qz (-1) / b) p) S ltac:(unfold NX; lia)) as (S' & G'). split; [exact S'|].
    assert (HA : forall a c, (a < NX)%nat -> (c < NX)%nat -> red LT (((ni, nj), b) :: ls) a c = red LT ls a c + b * (unit1 p a * unit1 p c)).
    { intros a c Ha Hc. unfold red. rewrite lap_cons. rewrite (red_line1 ni nj b p) by auto. qring. }
    assert (V : is_inverse NX (red LT (((ni, nj), b) :: ls)) (mget (ximpar ZB (qz (-1) / b) p))).
    { apply (u1_inverse n NX (red LT ls)); auto; [unfold NX; lia|apply red_sym|].
      apply (u1_pivot NX (red LT ls) (red LT (((ni, nj), b) :: ls))); auto; apply red_sym. }
    eapply is_inverse_ext; [reflexivity| |exact V]. intros i j Hi Hj. rewrite G' by (unfold NX in *; lia).
    destruct (Nat.ltb_spec i NX), (Nat.ltb_spec j NX); try lia. reflexivity.
  Qed.
  Lemma inverse_lap ls ls' Z : (forall i j, lap ls i j = lap ls' i j) -> is_inverse NX (red LT ls) Z -> is_inverse NX (red LT ls') Z.
  Proof. intros E I. eapply is_inverse_ext; [|reflexivity|exact I]. intros. apply E. Qed.
  Lemma injective_lap ls ls' : (forall i j, lap ls i j = lap ls' i j) -> injective NX (red LT ls) -> injective NX (red LT ls').
  Proof.
    intros E I x Hx. apply I. intros i Hi. rewrite <- (Hx i Hi). apply qs_ext; intros k Hk. unfold red. now rewrite E.
  Qed.

  (** the loop over the lines *)
  Lemma update_fold : forall todo pre BB ZB,
    wlines_in n (pre ++ map st_line todo) ->
    (forall l, In l pre -> ladm l <= q0) ->
    (forall t, In t todo -> fst (snd t) <= q0 /\ snd (snd t) < q0) ->
    (forall t, In t todo -> (fst (fst t) = NR \/ snd (fst t) = NR) -> fst (snd t) <> q0) ->
    network_connected n NR (pre ++ map st_line todo) ->
    shape n n ZB -> zero_border n ZB ->
    is_inverse NX (red LT (pre ++ map base_line todo)) (mget ZB) ->
    let ZB' := snd (fold_left (tm2_line IEQ NX NR) todo (BB, ZB)) in
    shape n n ZB' /\ zero_border n ZB' /\ is_inverse NX (red LT (pre ++ map st_line todo)) (mget ZB').
  Proof.
    induction todo as [|t todo IH]; intros pre BB ZB W NP NT RF CN S ZBd I; [cbn [map fold_left snd] in *; auto|].
    destruct t as [[ni nj] [b b0]]. cbv zeta. cbn [fold_left].
    destruct (NT _ (or_introl eq_refl)) as (Bn & B0n). cbn [fst snd] in Bn, B0n.
    assert (Wt : wlines_in n [((ni, nj), b)]).
    { intros l [<-|[]]. apply W. apply in_or_app. right. left. reflexivity. }
    destruct (Wt _ (or_introl eq_refl)) as (Hni & Hnj & Nij). unfold lfrom, lto in Hni, Hnj, Nij. cbn [fst snd] in Hni, Hnj, Nij.
    (* move the line from todo to pre *)
    assert (NEXT : forall BB1 ZB1, shape n n ZB1 -> zero_border n ZB1 ->
       is_inverse NX (red LT ((pre ++ [((ni, nj), b)]) ++ map base_line todo)) (mget ZB1) ->
       let ZB' := snd (fold_left (tm2_line IEQ NX NR) todo (BB1, ZB1)) in
       shape n n ZB' /\ zero_border n ZB' /\ is_inverse NX (red LT (pre ++ map st_line (((ni, nj), (b, b0)) :: todo))) (mget ZB')).
    { intros BB1 ZB1 S1 Z1 I1.
      destruct (IH (pre ++ [((ni, nj), b)]) BB1 ZB1) as (A & B & C); auto.
      - rewrite <- app_assoc. exact W.
      - intros l Hl. apply in_app_or in Hl. destruct Hl as [Hl|[<-|[]]]; auto.
      - intros t Ht. apply NT. now right.
      - intros t Ht. apply RF. now right.
      - rewrite <- app_assoc. exact CN.
      - cbv zeta. split; auto. split; auto. rewrite <- app_assoc in C. exact C. }
    cbv zeta in NEXT.
    assert (WL : wlines_in n (pre ++ map base_line todo)).
    { intros l Hl. apply in_app_or in Hl. destruct Hl as [Hl|Hl]; [apply W; apply in_or_app; now left|].
      apply in_map_iff in Hl. destruct Hl as (t & <- & Ht). specialize (W (st_line t)).
      unfold base_line, st_line, lfrom, lto in *. cbn [fst] in *. apply W. apply in_or_app. right. right. now apply (in_map st_line). }
    (* intermediate networks are non-singular *)
    assert (INJ : forall extra, (forall l, In l extra -> fst l = (ni, nj) /\ ladm l <= q0) ->
       (b <> q0 -> exists l, In l extra /\ ladm l <> q0) -> injective NX (red LT (extra ++ pre ++ map base_line todo))).
    { intros extra X1 X2. apply (red_injective n NR LT ok).
      - intros l Hl. apply in_app_or in Hl. destruct Hl as [Hl|Hl]; [|now apply WL].
        destruct (X1 l Hl) as (E & _). unfold lfrom, lto. rewrite E. auto.
      - intros l Hl. apply in_app_or in Hl. destruct Hl as [Hl|Hl]; [now apply X1|].
        apply in_app_or in Hl. destruct Hl as [Hl|Hl]; [now apply NP|].
        apply in_map_iff in Hl. destruct Hl as (t & <- & Ht). destruct (NT t (or_intror Ht)). unfold base_line, ladm. cbn [snd]. qlra.
      - intros i Hi. apply (connected_mono (pre ++ map st_line (((ni, nj), (b, b0)) :: todo))); [|now apply CN].
        intros l Hl Nz. apply in_app_or in Hl. destruct Hl as [Hl|Hl].
        + exists l. split; auto. apply in_or_app. right. apply in_or_app. now left.
        + cbn [map] in Hl. destruct Hl as [<-|Hl].
          * unfold st_line, ladm in Nz. cbn [fst snd] in Nz. destruct (X2 Nz) as (l & Hl & Nl). exists l.
            split; [apply in_or_app; now left|]. split; auto. now apply X1.
          * apply in_map_iff in Hl. destruct Hl as (t & <- & Ht). exists (base_line t). split.
            { apply in_or_app. right. apply in_or_app. right. now apply in_map. }
            split; [reflexivity|]. destruct (NT t (or_intror Ht)). unfold base_line, ladm. cbn [snd]. intros C. qlra. }
    assert (B0 : b0 <> q0) by (intros C; qlra).
    assert (MB0 : - b0 <> q0) by (intros C; qlra).
    assert (L0 : forall i j, lap (pre ++ map base_line (((ni, nj), (b, b0)) :: todo)) i j = lap (((ni, nj), b0) :: pre ++ map base_line todo) i j).
    { intros i j. rewrite lap_cons, !lap_app. cbn [map]. rewrite lap_cons. unfold base_line at 1. cbn [fst snd]. qring. }
    assert (I0 := inverse_lap _ _ _ L0 I).
    assert (LF : forall i j, lap (((ni, nj), - b0) :: ((ni, nj), b) :: ((ni, nj), b0) :: pre ++ map base_line todo) i j =
                             lap ((pre ++ [((ni, nj), b)]) ++ map base_line todo) i j).
    { intros i j. rewrite !lap_cons, !lap_app, lap_cons, lap_nil, !(lap1_unit2 ni nj) by auto. qring. }
    assert (LF0 : b = q0 -> forall i j, lap (((ni, nj), - b0) :: ((ni, nj), b0) :: pre ++ map base_line todo) i j =
                             lap ((pre ++ [((ni, nj), b)]) ++ map base_line todo) i j).
    { intros -> i j. rewrite !lap_cons, !lap_app, lap_cons, lap_nil, !(lap1_unit2 ni nj) by auto. qring. }
    assert (LI : forall i j, lap ((((ni, nj), b) :: nil) ++ pre ++ map base_line todo) i j = lap ((pre ++ [((ni, nj), b)]) ++ map base_line todo) i j).
    { intros i j. rewrite !lap_app. qring. }
    assert (IJ2 : injective NX (red LT ((pre ++ [((ni, nj), b)]) ++ map base_line todo))).
    { apply (injective_lap _ _ LI). apply INJ.
      - intros l [<-|[]]. auto.
      - intros Nb. eexists. split; [now left|exact Nb]. }
    assert (WX : forall x y z, wlines_in n (((ni, nj), x) :: ((ni, nj), y) :: ((ni, nj), z) :: pre ++ map base_line todo)).
    { intros x y z l [<-|[<-|[<-|Hl]]]; unfold lfrom, lto; cbn [fst snd]; auto. now apply WL. }
    assert (WX2 : forall x y, wlines_in n (((ni, nj), x) :: ((ni, nj), y) :: pre ++ map base_line todo)).
    { intros x y l [<-|[<-|Hl]]; unfold lfrom, lto; cbn [fst snd]; auto. now apply WL. }
    assert (IJ1 : injective NX (red LT (((ni, nj), b) :: ((ni, nj), b0) :: pre ++ map base_line todo))).
    { apply (INJ [((ni, nj), b); ((ni, nj), b0)]).
      - intros l [<-|[<-|[]]]; split; auto. unfold ladm; cbn [snd]. qlra.
      - intros _. exists ((ni, nj), b0). split; [right; now left|]. exact B0. }
    assert (n0 : (0 < n)%nat) by apply ok.
    enough (EX : exists BB1 ZB1, tm2_line IEQ NX NR (BB, ZB) ((ni, nj), (b, b0)) = (BB1, ZB1) /\ shape n n ZB1 /\ zero_border n ZB1 /\
       is_inverse NX (red LT ((pre ++ [((ni, nj), b)]) ++ map base_line todo)) (mget ZB1)).
    { destruct EX as (BB1 & ZB1 & -> & S1 & Z1 & I1). now apply NEXT. }
    clear NEXT IH. unfold tm2_line. destruct (qeqb b b0) eqn:E0; qc_bool.
    { subst b0. do 2 eexists. split; [reflexivity|]. split; auto. split; auto. eapply inverse_lap; [|exact I0]. intros i j.
      rewrite <- LI. reflexivity. }
    destruct (negb (Nat.eqb ni NR || Nat.eqb nj NR)) eqn:ER.
    - (* neither end at the reference *)
      apply negb_true_iff, orb_false_iff in ER. destruct ER as (R1 & R2). apply Nat.eqb_neq in R1, R2.
      destruct (ieq_pos n NR LT ok ni Hni R1) as (p & Hp & Ep & Eq). destruct (ieq_pos n NR LT ok nj Hnj R2) as (q & Hq & Ep' & Eq').
      fold NX in Hp, Eq, Hq, Eq'. fold IEQ in Eq, Eq'. rewrite Eq, Eq'.
      destruct (qeqb b q0) eqn:Eb; qc_bool.
      + destruct (step2 (((ni, nj), b0) :: pre ++ map base_line todo) ZB p q ni nj (- b0)) as (S2 & I2); auto.
        { eapply injective_lap; [|exact IJ2]. intros i j. symmetry. now apply LF0. }
        do 2 eexists. split; [reflexivity|]. split; auto. split; [now apply set_block_border|]. eapply inverse_lap; [|exact I2]. now apply LF0.
      + destruct (step2 (((ni, nj), b0) :: pre ++ map base_line todo) ZB p q ni nj b) as (S1 & I1); auto.
        set (ZB1 := set_block NX ZB (ximpa ZB (qz (-1) / b) p q)) in *.
        destruct (step2 (((ni, nj), b) :: ((ni, nj), b0) :: pre ++ map base_line todo) ZB1 p q ni nj (- b0)) as (S2 & I2); auto.
        { eapply injective_lap; [|exact IJ2]. intros i j. symmetry. apply LF. }
        do 2 eexists. split; [reflexivity|]. split; auto. split; [apply set_block_border; auto; now apply set_block_border|]. eapply inverse_lap; [|exact I2]. apply LF.
    - (* a line at the reference *)
      apply negb_false_iff in ER.
      assert (Nb : b <> q0).
      { apply (RF _ (or_introl eq_refl)). cbn [fst snd]. apply orb_true_iff in ER. rewrite !Nat.eqb_eq in ER. exact ER. }
      set (ne := if Nat.eqb ni NR then nj else ni).
      assert (NE : (ne < n)%nat /\ ne <> NR /\ (ni = NR /\ ne = nj \/ nj = NR /\ ne = ni)).
      { unfold ne. destruct (Nat.eqb_spec ni NR) as [->|R1]; [auto|]. apply orb_true_iff in ER.
        destruct ER as [ER|ER]; [discriminate|]. apply Nat.eqb_eq in ER. auto. }
      destruct NE as (Hne & Rne & Dne). destruct (ieq_pos n NR LT ok ne Hne Rne) as (p & Hp & Ep & Eq).
      fold NX in Hp, Eq. fold IEQ in Eq. rewrite Eq.
      assert (D : ni = NR /\ at_ LT p = nj \/ nj = NR /\ at_ LT p = ni) by (rewrite Ep; exact Dne).
      destruct (qeqb b q0) eqn:Eb; qc_bool; [contradiction|].
      cbn [fold_left fst snd].
      destruct (step1 (((ni, nj), b0) :: pre ++ map base_line todo) ZB p ni nj b) as (S1 & I1); auto.
      set (ZB1 := set_block NX ZB (ximpar ZB (qz (-1) / b) p)) in *.
      destruct (step1 (((ni, nj), b) :: ((ni, nj), b0) :: pre ++ map base_line todo) ZB1 p ni nj (- b0)) as (S2 & I2); auto.
      { eapply injective_lap; [|exact IJ2]. intros i j. symmetry. apply LF. }
      do 2 eexists. split; [reflexivity|]. split; auto. split; [apply set_block_border; auto; now apply set_block_border|]. eapply inverse_lap; [|exact I2]. apply LF.
  Qed.
End Upd.

(** the three line lists *)
Lemma combine3_st LP (u v : list Qc) : length u = length LP -> length v = length LP -> map st_line (combine LP (combine u v)) = combine LP u.
Proof.
  revert u v; induction LP as [|l LP IH]; intros [|x u] [|y v] H1 H2; cbn in *; try discriminate; auto.
  unfold st_line at 1. cbn [fst snd]. f_equal. apply IH; lia.
Qed.
Lemma combine3_base LP (u v : list Qc) : length u = length LP -> length v = length LP -> map base_line (combine LP (combine u v)) = combine LP v.
Proof.
  revert u v; induction LP as [|l LP IH]; intros [|x u] [|y v] H1 H2; cbn in *; try discriminate; auto.
  unfold base_line at 1. cbn [fst snd]. f_equal. apply IH; lia.
Qed.
Lemma in_combine3 LP (u v : list Qc) t : length u = length LP -> length v = length LP -> In t (combine LP (combine u v)) ->
  exists k, (k < length LP)%nat /\ fst t = nth k LP (0%nat, 0%nat) /\ fst (snd t) = vget u k /\ snd (snd t) = vget v k.
Proof.
  revert u v; induction LP as [|l LP IH]; intros [|x u] [|y v] H1 H2 I; cbn in *; try discriminate; try contradiction.
  destruct I as [<-|I]. { exists 0%nat. split; [lia|]. auto. }
  destruct (IH u v ltac:(lia) ltac:(lia) I) as (k & Hk & E). exists (S k). split; [lia|exact E].
Qed.

(** C33 *)
Theorem update_exact : forall n NR LT LP BLP BLP0 BB ZB, order_ok n NR LT -> lines_in n LP ->
  length BLP = length LP -> length BLP0 = length LP ->
  (forall k, (k < length LP)%nat -> vget BLP0 k < q0 /\ mget BLP k 0 <= q0) ->
  (forall k, (k < length LP)%nat -> fst (nth k LP (0%nat, 0%nat)) = NR \/ snd (nth k LP (0%nat, 0%nat)) = NR -> mget BLP k 0 <> q0) ->
  network_connected n NR (wlines LP BLP) ->
  shape n n ZB -> zero_border n ZB -> is_inverse (n - 1) (red LT (combine LP BLP0)) (mget ZB) ->
  let ZB' := snd (tm2_update LP BLP BLP0 (ieq_of LT (n - 1) NR) (n - 1) NR BB ZB) in
  shape n n ZB' /\ zero_border n ZB' /\ is_inverse (n - 1) (red LT (wlines LP BLP)) (mget ZB').
Proof.
  intros n NR LT LP BLP BLP0 BB ZB ok LI LB LB0 NG RF CN S Zb I.
  set (todo := combine LP (combine (mcol BLP 0) BLP0)).
  assert (E1 : map st_line todo = wlines LP BLP) by (unfold todo; rewrite combine3_st; auto; now rewrite mcol_length).
  assert (E2 : map base_line todo = combine LP BLP0) by (unfold todo; rewrite combine3_base; auto; now rewrite mcol_length).
  pose proof (update_fold n NR LT ok todo [] BB ZB) as U. cbn [app] in U. rewrite E1, E2 in U.
  unfold tm2_update. fold todo. apply U; auto.
  - now apply wlines_ok.
  - intros l [].
  - intros t Ht. destruct (in_combine3 LP (mcol BLP 0) BLP0 t ltac:(now rewrite mcol_length) LB0 Ht) as (k & Hk & _ & -> & ->).
    rewrite mcol_nth. destruct (NG k Hk). auto.
  - intros t Ht. destruct (in_combine3 LP (mcol BLP 0) BLP0 t ltac:(now rewrite mcol_length) LB0 Ht) as (k & Hk & -> & -> & _).
    rewrite mcol_nth. now apply RF.
Qed.

(* ------------------------------------------------------------------ *)
(** ** Entries outside the leading block, and restoration *)

Definition same_border (n : nat) (M M' : list (list Qc)) : Prop :=
  shape n n M' /\ forall a b, (a < n)%nat -> (b < n)%nat -> ((a < n - 1)%nat /\ (b < n - 1)%nat) \/ mget M' a b = mget M a b.

Lemma sb_refl n M : shape n n M -> same_border n M M.
Proof. intros S. split; auto. Qed.
Lemma sb_trans n M1 M2 M3 : same_border n M1 M2 -> same_border n M2 M3 -> same_border n M1 M3.
Proof.
  intros (S2 & H2) (S3 & H3). split; auto. intros a b Ha Hb. destruct (H3 a b Ha Hb) as [|E3]; auto. destruct (H2 a b Ha Hb) as [|E2]; auto.
  right. congruence.
Qed.
Lemma sb_madd n M i j x : (i < n - 1)%nat -> (j < n - 1)%nat -> shape n n M -> same_border n M (madd M i j x).
Proof.
  intros Hi Hj S. split; [apply madd_shape; auto; lia|]. intros a b Ha Hb. rewrite (mget_madd n n) by (auto; lia).
  destruct (Nat.eqb_spec a i), (Nat.eqb_spec b j); subst; cbn [andb]; [now left|right; qring..].
Qed.
Lemma sb_admitm n M i j x : (i < n - 1)%nat -> (j < n - 1)%nat -> shape n n M -> same_border n M (admitm M i j x).
Proof.
  intros Hi Hj S. unfold admitm. assert (H1 := sb_madd n M i j (- x) Hi Hj S).
  assert (H2 := sb_madd n _ j i (- x) Hj Hi (proj1 H1)). assert (H3 := sb_madd n _ i i x Hi Hi (proj1 H2)).
  assert (H4 := sb_madd n _ j j x Hj Hj (proj1 H3)).
  eapply sb_trans; [exact H1|]. eapply sb_trans; [exact H2|]. eapply sb_trans; [exact H3|exact H4].
Qed.
Lemma sb_set_block n ZB Z : shape n n ZB -> same_border n ZB (set_block (n - 1) ZB Z).
Proof.
  intros S. destruct (set_block_spec n (n - 1) ZB Z S ltac:(lia)) as (S' & G). split; auto. intros a b Ha Hb. rewrite G by auto.
  destruct (Nat.ltb_spec a (n - 1)), (Nat.ltb_spec b (n - 1)); cbn [andb]; auto.
Qed.
Lemma restore n M M1 : shape n n M -> same_border n M M1 -> set_block (n - 1) M1 M = M.
Proof.
  intros S (S1 & B). destruct (set_block_spec n (n - 1) M1 M S1 ltac:(lia)) as (S' & G). apply (shape_ext n n); auto.
  intros a b Ha Hb. rewrite G by auto. destruct (B a b Ha Hb) as [(H1 & H2)|E].
  - destruct (Nat.ltb_spec a (n - 1)), (Nat.ltb_spec b (n - 1)); try lia. reflexivity.
  - destruct ((a <? n - 1)%nat && (b <? n - 1)%nat); auto.
Qed.

Lemma update_border n NR LT LP u v BB ZB : order_ok n NR LT -> lines_in n LP -> shape n n BB -> shape n n ZB ->
  let r := fold_left (tm2_line (ieq_of LT (n - 1) NR) (n - 1) NR) (combine LP (combine u v)) (BB, ZB) in
  same_border n BB (fst r) /\ same_border n ZB (snd r).
Proof.
  intros ok. revert u v BB ZB. induction LP as [|[ni nj] LP IH]; intros u v BB ZB LI SB SZ.
  { cbn. split; now apply sb_refl. }
  destruct u as [|b u]; [cbn; split; now apply sb_refl|]. destruct v as [|b0 v]; [cbn; split; now apply sb_refl|].
  cbv zeta. cbn [combine fold_left].
  enough (H : exists BB1 ZB1, tm2_line (ieq_of LT (n - 1) NR) (n - 1) NR (BB, ZB) ((ni, nj), (b, b0)) = (BB1, ZB1) /\ same_border n BB BB1 /\ same_border n ZB ZB1).
  { destruct H as (BB1 & ZB1 & -> & H1 & H2). destruct (IH u v BB1 ZB1) as (K1 & K2).
    - intros l Hl. apply LI. now right.
    - apply H1.
    - apply H2.
    - split; eapply sb_trans; eauto. }
  destruct (LI _ (or_introl eq_refl)) as (Hni & Hnj & Nij). cbn [fst snd] in Hni, Hnj, Nij.
  unfold tm2_line. destruct (qeqb b b0). { do 2 eexists. split; [reflexivity|]. split; now apply sb_refl. }
  destruct (negb (Nat.eqb ni NR || Nat.eqb nj NR)) eqn:ER.
  - apply negb_true_iff, orb_false_iff in ER. destruct ER as (R1 & R2). apply Nat.eqb_neq in R1, R2.
    destruct (ieq_pos n NR LT ok ni Hni R1) as (p & Hp & _ & ->). destruct (ieq_pos n NR LT ok nj Hnj R2) as (q & Hq & _ & ->).
    destruct (qeqb b q0).
    + do 2 eexists. split; [reflexivity|]. split; [now apply sb_admitm|now apply sb_set_block].
    + do 2 eexists. split; [reflexivity|]. split.
      * eapply sb_trans; [apply (sb_admitm n BB p q b); auto|]. apply sb_admitm; auto. now apply sb_admitm.
      * eapply sb_trans; [apply sb_set_block; auto|]. apply sb_set_block. now apply sb_set_block.
  - destruct (qeqb b q0). { do 2 eexists. split; [reflexivity|]. split; now apply sb_refl. }
    set (ne := if Nat.eqb ni NR then nj else ni).
    assert (NE : (ne < n)%nat /\ ne <> NR).
    { unfold ne. destruct (Nat.eqb_spec ni NR) as [->|R1]; [auto|]. auto. }
    destruct NE as (Hne & Rne). destruct (ieq_pos n NR LT ok ne Hne Rne) as (p & Hp & _ & ->).
    cbn [fold_left fst snd]. do 2 eexists. split; [reflexivity|]. unfold admref. split.
    + eapply sb_trans; [apply (sb_madd n BB p p b); auto|]. apply sb_madd; auto. now apply sb_madd.
    + eapply sb_trans; [apply sb_set_block; auto|]. apply sb_set_block. now apply sb_set_block.
Qed.

(** C32: what the solver leaves behind *)
Theorem tm2_restores : forall n NR LT lp BN LP BLP BLP0 BB ZB NLS o, order_ok n NR LT -> lines_in n LP -> length BN = n ->
  shape n n BB -> shape n n ZB -> tm2 lp BN LP BLP BLP0 BB ZB LT NR NLS = Ok o ->
  t_BB o = BB /\ (t_accepted o = true -> t_ZB o = ZB) /\
  (t_accepted o = false -> forall a b, (a < n - 1)%nat -> (b < n - 1)%nat -> mget (t_ZB o) a b = mget BB a b).
Proof.
  intros n NR LT lp BN LP BLP BLP0 BB ZB NLS o ok LI LBN SB SZ. unfold tm2. rewrite LBN. unfold tm2_update.
  pose proof (update_border n NR LT LP (mcol BLP 0) BLP0 BB ZB ok LI SB SZ) as U. cbv zeta in U.
  destruct (fold_left _ _ _) as [BB1 ZB1]. cbn [fst snd] in U. destruct U as (U1 & U2).
  destruct (tm2_solve BN LP BLP ZB1 LT NLS) as [[[INJ1 LODC] SFLOW] FLOW].
  destruct (tm2_accepts FLOW SFLOW BLP BN).
  - intros E. injection E as <-. cbn [t_BB t_ZB t_accepted]. split; [now apply restore|]. split; [intros _; now apply restore|discriminate].
  - destruct NLS; [|discriminate]. destruct (lp BB1 BLP BN) as [r|e]; cbn [bind]; [|discriminate].
    intros E. injection E as <-. cbn [t_BB t_ZB t_accepted]. split; [now apply restore|]. split; [discriminate|].
    intros _ a b Ha Hb. destruct (set_block_spec n (n - 1) ZB1 BB (proj1 U2) ltac:(lia)) as (_ & G). rewrite G by lia.
    destruct (Nat.ltb_spec a (n - 1)), (Nat.ltb_spec b (n - 1)); try lia. reflexivity.
Qed.

(* ------------------------------------------------------------------ *)
(** ** Acceptance *)

Lemma over_within f fwd bwd : q0 <= fwd -> q0 <= bwd -> (over f fwd bwd = false <-> within f fwd bwd).
Proof.
  intros H1 H2. unfold over, within, qabs. destruct (qleb q0 f) eqn:E; qc_bool.
  - rewrite qltb_false. split; [intros; split; qlra|intros (_ & ?); qlra].
  - destruct (qltb f q0) eqn:E2; qc_bool; [|exfalso; qlra]. rewrite qltb_false. split; [intros; split; qlra|intros (? & _); qlra].
Qed.
Lemma forallb_seq n p : forallb p (seq 0 n) = true <-> forall i, (i < n)%nat -> p i = true.
Proof. rewrite forallb_forall. split; intros H i Hi; apply H; apply in_seq || apply in_seq in Hi; lia. Qed.

Theorem accepts_iff : forall FLOW SFLOW BLP BN,
  (forall k, (k < length FLOW)%nat -> q0 <= mget BLP k 1 /\ q0 <= mget BLP k 2) ->
  (forall i, (i < length BN)%nat -> q0 <= mget BN i 3 /\ q0 <= mget BN i 4) ->
  tm2_accepts FLOW SFLOW BLP BN = true <->
  (forall k, (k < length FLOW)%nat -> within (vget FLOW k) (mget BLP k 1) (mget BLP k 2)) /\
  (forall i, (i < length BN)%nat -> within (vget SFLOW i) (mget BN i 3) (mget BN i 4)).
Proof.
  intros FLOW SFLOW BLP BN H1 H2. unfold tm2_accepts. rewrite andb_true_iff, !forallb_seq. split; intros (A & B); split; intros i Hi.
  - specialize (A i Hi). apply negb_true_iff in A. destruct (H1 i Hi). now apply (proj1 (over_within _ _ _ H H0)).
  - specialize (B i Hi). apply negb_true_iff in B. destruct (H2 i Hi). now apply (proj1 (over_within _ _ _ H H0)).
  - specialize (A i Hi). apply negb_true_iff. destruct (H1 i Hi). now apply (proj2 (over_within _ _ _ H H0)).
  - specialize (B i Hi). apply negb_true_iff. destruct (H2 i Hi). now apply (proj2 (over_within _ _ _ H H0)).
Qed.
