(** Property theorems of C115: critical units of lines. *)
From Verif Require Import Base BaseProofs Sums SampleModel LoadModel NetModel StatModel ControlModel HourModel CritModel CritSpec.
Open Scope Z_scope.

Lemma pyget_app {A} (pre l : list A) k d : 0 <= k < Z.of_nat (length l) -> pyget (pre ++ l) (Z.of_nat (length pre) + k) = Ok (nth (Z.to_nat k) l d).
Proof.
  intros H. rewrite (pyget_nonneg _ _ d) by (rewrite app_length; lia). rewrite app_nth2 by lia. do 2 f_equal. lia.
Qed.
Lemma stored_len r : length (stored r) = (length (cr_units r) + 5)%nat.
Proof. unfold stored. rewrite !app_length. cbn [length]. lia. Qed.
Lemma stored_get r k : (k <= length (cr_units r))%nat -> nth (S k) (stored r) 0 = nth k (Z.of_nat (length (cr_units r)) :: cr_units r) 0.
Proof. intros H. unfold stored. cbn [app nth]. destruct k as [|k]; [reflexivity|]. apply app_nth1. lia. Qed.
Lemma stored_pct r : nth (length (cr_units r) + 3) (stored r) 0 = cr_fwd r /\ nth (length (cr_units r) + 4) (stored r) 0 = cr_bwd r.
Proof.
  unfold stored. cbn [app]. replace (length (cr_units r) + 3)%nat with (S (S (length (cr_units r) + 1))) by lia. replace (length (cr_units r) + 4)%nat with (S (S (length (cr_units r) + 2))) by lia.
  cbn [nth]. rewrite !app_nth2 by lia. split; [replace (_ - _)%nat with 1%nat by lia|replace (_ - _)%nat with 2%nat by lia]; reflexivity.
Qed.

Section Value.
  Variable AVAIL : list Qc. Hypothesis POS : forall a, In a AVAIL -> (q0 <= a)%Qc.
  Lemma avail_pos u : (q0 <= nth u AVAIL q0)%Qc.
  Proof. destruct (Nat.lt_ge_cases u (length AVAIL)) as [L|L]; [apply POS, nth_In, L|rewrite nth_overflow by exact L; apply Qcle_refl]. Qed.
  (** the running sum over entries [us] of the table *)
  Lemma value_fold (f : nat -> Z) ks : forall v, (q0 <= v)%Qc -> (forall k, In k ks -> 1 <= f k <= 499 -> f k < Z.of_nat (length AVAIL)) ->
    exists w, fold_left (fun acc ii => do v <- acc; let u := f ii in if (0 <? u) && (u <=? 500 - 1) then do a <- pyget AVAIL u; Ok (Qcplus v a) else Ok v) ks (Ok v) = Ok w /\
      (q0 <= w)%Qc /\ (w = q0 <-> v = q0 /\ forall k, In k ks -> 1 <= f k <= 499 -> unit_out AVAIL (f k)).
  Proof.
    induction ks as [|k ks IH]; intros v Hv H; cbn [fold_left].
    - exists v. split; [reflexivity|]. split; [exact Hv|]. split; [intros E; split; [exact E|intros ? []]|now intros [E _]].
    - cbn [bind]. cbv zeta. destruct ((0 <? f k) && (f k <=? 500 - 1)) eqn:E.
      + apply andb_true_iff in E. destruct E as [E1 E2]. apply Z.ltb_lt in E1. apply Z.leb_le in E2.
        specialize (H k (or_introl eq_refl)) as HK. rewrite (pyget_nonneg AVAIL _ q0) by lia. cbn [bind].
        pose proof (avail_pos (Z.to_nat (f k))) as P. set (a := nth (Z.to_nat (f k)) AVAIL q0) in *.
        destruct (IH (v + a)%Qc ltac:(qlra) ltac:(intros; apply H; auto; now right)) as (w & EW & PW & ZW). exists w. split; [exact EW|]. split; [exact PW|].
        rewrite ZW. split.
        * intros [Z1 Z2]. assert (v = q0 /\ a = q0) as [ZV ZA] by (split; apply Qcle_antisym; qlra). split; [exact ZV|]. intros k' [<-|Hk']; [intros _; exact ZA|auto].
        * intros [Z1 Z2]. split; [|intros; apply Z2; auto; now right]. rewrite Z1. assert (a = q0) as -> by (apply (Z2 k); [now left|lia]). qring.
      + assert (NR : ~ (1 <= f k <= 499)). { intros C. apply andb_false_iff in E. destruct E as [E|E]; [apply Z.ltb_ge in E|apply Z.leb_gt in E]; lia. }
        destruct (IH v Hv ltac:(intros; apply H; auto; now right)) as (w & EW & PW & ZW). exists w. split; [exact EW|]. split; [exact PW|]. rewrite ZW.
        split; intros [Z1 Z2]; (split; [exact Z1|]); [intros k' [<-|Hk']; [now intros C|auto]|intros; apply Z2; auto; now right].
  Qed.
  Lemma fold_ext (F G : res Qc -> nat -> res Qc) ks : (forall a k, In k ks -> F a k = G a k) -> forall a, fold_left F ks a = fold_left G ks a.
  Proof. induction ks as [|k ks IH]; intros H a; [reflexivity|]. cbn [fold_left]. rewrite H by now left. apply IH. intros; apply H; now right. Qed.
  Lemma value_of pre r post : (forall u, In u (looked_at r) -> 1 <= u <= 499 -> u < Z.of_nat (length AVAIL)) ->
    exists w, crit_value AVAIL (pre ++ stored r ++ post) (Z.of_nat (length pre)) (Z.of_nat (length (cr_units r))) = Ok w /\ (w = q0 <-> reduces AVAIL r).
  Proof.
    intros H. set (n := length (cr_units r)) in *. set (f := fun ii => nth ii (Z.of_nat n :: cr_units r) 0).
    assert (LA : forall u, In u (looked_at r) <-> exists k, In k (seq 0 n) /\ f k = u).
    { intros u. unfold looked_at. fold n. split.
      - intros I. apply (In_nth _ _ 0) in I. destruct I as (k & Hk & E). rewrite firstn_length in Hk. cbn [length] in Hk. fold n in Hk. exists k. split; [apply in_seq; lia|]. unfold f.
        rewrite <- E. rewrite <- (firstn_skipn n (Z.of_nat n :: cr_units r)) at 1. rewrite app_nth1; [reflexivity|]. rewrite firstn_length. cbn [length]. fold n. lia.
      - intros (k & Hk & <-). apply in_seq in Hk. unfold f. rewrite <- (firstn_skipn n (Z.of_nat n :: cr_units r)) at 1. rewrite app_nth1; [apply nth_In|]; rewrite firstn_length; cbn [length]; fold n; lia. }
    destruct (value_fold f (seq 0 n) q0 (Qcle_refl _)) as (w & EW & _ & ZW).
    { intros k Hk R. apply H; [apply LA; eauto|exact R]. }
    exists w. split.
    - rewrite <- EW. unfold crit_value. rewrite Nat2Z.id. apply fold_ext. intros a k Hk. apply in_seq in Hk.
      destruct a as [v|]; cbn [bind]; [|reflexivity]. replace (Z.of_nat (length pre) + 1 + Z.of_nat k) with (Z.of_nat (length pre) + Z.of_nat (S k)) by lia.
      rewrite (pyget_app pre _ _ 0) by (rewrite app_length, stored_len; fold n; lia). cbn [bind]. rewrite Nat2Z.id, app_nth1 by (rewrite stored_len; fold n; lia).
      rewrite stored_get by (fold n; lia). reflexivity.
    - rewrite ZW. unfold reduces. split.
      + intros [_ Z2] u Hu R. apply LA in Hu. destruct Hu as (k & Hk & <-). now apply Z2.
      + intros Z2. split; [reflexivity|]. intros k Hk R. apply Z2; [apply LA; eauto|exact R].
  Qed.
End Value.

(** the reductions made by the records, in order: the last one for a line counts *)
Definition outcome_of (AVAIL : list Qc) (rs : list crit_rec) (l : nat) (before row : list Qc) : Prop :=
  (exists a r b, rs = a ++ r :: b /\ cr_line r = Z.of_nat l /\ reduces AVAIL r /\ (forall r', In r' b -> cr_line r' = Z.of_nat l -> ~ reduces AVAIL r') /\ row = reduced r) \/
  ((forall r, In r rs -> cr_line r = Z.of_nat l -> ~ reduces AVAIL r) /\ row = before).

Lemma crit_table AVAIL nl : (forall a, In a AVAIL -> (q0 <= a)%Qc) -> forall rs pre ST, Forall (rec_ok (length AVAIL) nl) rs ->
  length ST = nl -> (forall l, (l < nl)%nat -> length (nth l ST []) = 2%nat) ->
  exists ST', crit_loop AVAIL (pre ++ table rs) (length rs) (Z.of_nat (length pre)) ST = Ok ST' /\ length ST' = nl /\ (forall l, (l < nl)%nat -> length (nth l ST' []) = 2%nat) /\
    forall l, (l < nl)%nat -> outcome_of AVAIL rs l (nth l ST []) (nth l ST' []).
Proof.
  intros POS. induction rs as [|r rs IH]; intros pre ST F LS LR.
  - exists ST. split; [reflexivity|]. split; [exact LS|]. split; [exact LR|]. intros l Hl. right. split; [intros ? []|reflexivity].
  - inversion F as [|? ? [RL RU] F']; subst. cbn [length crit_loop table flat_map]. fold (table rs).
    set (n := length (cr_units r)). assert (SL := stored_len r). fold n in SL.
    assert (G0 : forall k, (k < n + 5)%nat -> pyget (pre ++ stored r ++ table rs) (Z.of_nat (length pre) + Z.of_nat k) = Ok (nth k (stored r) 0)).
    { intros k Hk. rewrite (pyget_app pre _ _ 0) by (rewrite app_length; lia). rewrite Nat2Z.id, app_nth1 by lia. reflexivity. }
    pose proof (G0 0%nat ltac:(lia)) as G. change (Z.of_nat 0) with 0 in G. rewrite Z.add_0_r in G. rewrite G. cbn [bind]. change (nth 0 (stored r) 0) with (cr_line r).
    destruct (Z.eqb_spec (cr_line r) 0) as [C|_]; [lia|].
    pose proof (G0 1%nat ltac:(lia)) as G1. change (Z.of_nat 1) with 1 in G1. rewrite G1. cbn [bind]. change (nth 1 (stored r) 0) with (Z.of_nat n).
    destruct (value_of AVAIL POS pre r (table rs) RU) as (w & EW & ZW). fold n in EW. rewrite EW. cbn [bind].
    destruct (stored_pct r) as (PF & PB). fold n in PF, PB.
    set (L := Z.to_nat (cr_line r)). assert (LL : (L < length ST)%nat) by lia. assert (LZ : cr_line r = Z.of_nat L) by lia.
    assert (S1 : exists S', (if qeqb w q0 then
                    do f <- pyget (pre ++ stored r ++ table rs) (Z.of_nat (length pre) + Z.of_nat n + 3); do S1 <- crit_set ST (cr_line r) 0 f;
                    do b <- pyget (pre ++ stored r ++ table rs) (Z.of_nat (length pre) + Z.of_nat n + 4); crit_set S1 (cr_line r) 1 b
                  else Ok ST) = Ok S' /\ length S' = length ST /\ (forall l, l <> L -> nth l S' [] = nth l ST []) /\ length (nth L S' []) = 2%nat /\
        (reduces AVAIL r /\ nth L S' [] = reduced r \/ ~ reduces AVAIL r /\ S' = ST)).
    { destruct (qeqb w q0) eqn:EQ.
      - apply qeqb_iff in EQ. apply ZW in EQ. replace (Z.of_nat (length pre) + Z.of_nat n + 3) with (Z.of_nat (length pre) + Z.of_nat (n + 3)) by lia.
        replace (Z.of_nat (length pre) + Z.of_nat n + 4) with (Z.of_nat (length pre) + Z.of_nat (n + 4)) by lia. rewrite !G0 by lia. cbn [bind]. rewrite PF, PB.
        unfold crit_set. rewrite LZ. rewrite (pyget_nonneg ST _ []) by lia. cbn [bind]. rewrite pyset_nonneg by lia. cbn [bind]. rewrite Nat2Z.id.
        rewrite (pyget_nonneg _ _ []) by (rewrite upd_length; lia). cbn [bind]. rewrite Nat2Z.id, nth_upd_same by exact LL. rewrite pyset_nonneg by (rewrite upd_length; lia). rewrite Nat2Z.id.
        eexists. split; [reflexivity|]. split; [now rewrite !upd_length|]. split; [intros l NL; now rewrite !nth_upd_other by auto|].
        rewrite nth_upd_same by (rewrite upd_length; exact LL). split; [rewrite !upd_length; now apply LR|].
        left. split; [exact EQ|]. specialize (LR L LL). destruct (nth L ST []) as [|x [|y [|]]]; try discriminate LR. reflexivity.
      - apply qeqb_false in EQ. exists ST. split; [reflexivity|]. split; [reflexivity|]. split; [reflexivity|]. split; [now apply LR|]. right. split; [|reflexivity]. intros C. apply EQ. now apply ZW. }
    destruct S1 as (S' & -> & LS' & OT & L2 & RD). cbn [bind].
    assert (PP : Z.of_nat (length pre) + (Z.of_nat n + 5) = Z.of_nat (length (pre ++ stored r))) by (rewrite app_length; lia). rewrite PP, app_assoc.
    destruct (IH (pre ++ stored r) S' F' LS') as (ST' & ES & LST & LRT & OC).
    { intros l Hl. destruct (Nat.eq_dec l L) as [->|NL]; [exact L2|]. rewrite OT by exact NL. now apply LR. }
    exists ST'. split; [exact ES|]. split; [exact LST|]. split; [exact LRT|]. intros l Hl. destruct (OC l Hl) as [(a & r0 & b & EL & LN & RE & NR & ER)|(NR & ER)].
    + left. exists (r :: a), r0, b. split; [cbn; now rewrite EL|]. auto.
    + destruct (Nat.eq_dec l L) as [->|NL].
      * destruct RD as [(RD & ERD)|(RD & ->)].
        -- left. exists [], r, rs. split; [reflexivity|]. split; [exact LZ|]. split; [exact RD|]. split; [exact NR|]. now rewrite ER.
        -- right. split; [|exact ER]. intros r' [<-|I]; auto.
      * right. split; [|now rewrite ER, OT]. intros r' [<-|I]; [intros C; lia|auto].
Qed.

(** What the program does with a table of critical units: a line is reduced to the
    percentages of the last of its records that [reduces] it, otherwise it keeps its full
    capacity. *)
Theorem C115_exact_partial : forall AVAIL nl rs, (forall a, In a AVAIL -> (q0 <= a)%Qc) -> Forall (rec_ok (length AVAIL) nl) rs ->
  exists ST, stmult AVAIL (table rs) (length rs) nl = Ok ST /\ length ST = nl /\
    forall l, (l < nl)%nat -> 
      (exists a r b, rs = a ++ r :: b /\ cr_line r = Z.of_nat l /\ reduces AVAIL r /\ (forall r', In r' b -> cr_line r' = Z.of_nat l -> ~ reduces AVAIL r') /\ nth l ST [] = reduced r) \/
      ((forall r, In r rs -> cr_line r = Z.of_nat l -> ~ reduces AVAIL r) /\ nth l ST [] = full).
Proof.
  intros AVAIL nl rs POS F. destruct (crit_table AVAIL nl POS rs [] (repeat [q1; q1] nl) F (repeat_length _ _)) as (ST & E & LS & _ & OC).
  { intros l Hl. rewrite (nth_indep _ [] [q1; q1]), nth_repeat by (rewrite repeat_length; exact Hl). reflexivity. }
  exists ST. split; [exact E|]. split; [exact LS|]. intros l Hl. specialize (OC l Hl). unfold outcome_of in OC. rewrite (nth_indep (repeat _ _) [] [q1; q1]), nth_repeat in OC by (rewrite repeat_length; exact Hl). exact OC.
Qed.
Print Assumptions C115_exact_partial.

(** Refuted as the user means it: a line with exactly one critical unit u is reduced
    exactly when unit 1 is out, whatever u is and whether it is out. *)
Theorem C115_wrong_unit_refuted : forall AVAIL nl l u x f b, (forall a, In a AVAIL -> (q0 <= a)%Qc) -> (1 < length AVAIL)%nat -> 1 <= l < Z.of_nat nl ->
  exists ST, stmult AVAIL (table [mkCrit l [u] x f b]) 1 nl = Ok ST /\
    (unit_out AVAIL 1 -> nth (Z.to_nat l) ST [] = [percent f; percent b]) /\ (~ unit_out AVAIL 1 -> nth (Z.to_nat l) ST [] = full).
Proof.
  intros AVAIL nl l u x f b POS LA HL. set (r := mkCrit l [u] x f b).
  assert (LK : looked_at r = [1]) by reflexivity.
  assert (RE : reduces AVAIL r <-> unit_out AVAIL 1).
  { unfold reduces. rewrite LK. split; [intros H; apply H; [now left|lia]|]. intros H v [<-|[]] _. exact H. }
  destruct (C115_exact_partial AVAIL nl [r] POS) as (ST & E & _ & OC).
  { constructor; [|constructor]. split; [exact HL|]. rewrite LK. intros v [<-|[]] _. lia. }
  exists ST. split; [exact E|]. destruct (OC (Z.to_nat l) ltac:(lia)) as [(a & r' & c & EL & LN & RR & _ & ER)|(NR & ER)].
  - assert (r' = r) as ->. { assert (In r' [r]) as [H|[]] by (rewrite EL; apply in_or_app; right; now left). now symmetry. }
    split; [intros _; exact ER|]. intros C. exact (False_ind _ (C (proj1 RE RR))).
  - split; [|intros _; exact ER]. intros C. exfalso. apply (NR r); [now left|cbn [r cr_line]; lia|exact (proj2 RE C)].
Qed.
Print Assumptions C115_wrong_unit_refuted.

(** Nor can line 0 be reduced: its record is taken for an empty entry. *)
Theorem C115_line_zero_refuted : forall AVAIL nl us x f b, stmult AVAIL (table [mkCrit 0 us x f b]) 1 nl = Ok (repeat full nl).
Proof. intros. reflexivity. Qed.
Print Assumptions C115_line_zero_refuted.

(** The data preparation never delivers critical units (MXCRIT = 0): then all lines keep
    their full capacity and the hour is that of HourModel, for every table. *)
Theorem C115_none_delivered : forall inv lp JCRIT cf CLOCK PLNDST RATING s, crit_hour inv lp JCRIT 0 cf CLOCK PLNDST RATING s = hour inv lp cf CLOCK PLNDST RATING s.
Proof.
  intros. unfold crit_hour, hour. destruct (load_hour _ _) as [J|]; cbn [bind]; [|reflexivity]. destruct (draws_now _ _) as [[]|]; cbn [bind]; try reflexivity.
  destruct (draw _ _ _ _ _) as [d|]; cbn [bind]; [|reflexivity]. destruct (gstate _ _ _ _ _) as [[IG PC] AV]. cbn [stmult crit_loop bind].
  generalize (mkHst (d_IG d) (d_IL d) (hnet s) (LSFLG s) (hrs s) (pks s)) as t. generalize false as b. generalize (seq 0 (x_NFCST cf)) as ls.
  induction ls as [|l ls IH]; intros b t; cbn [crit_levels levels]; [reflexivity|].
  destruct (findld _ _ _ _); cbn [bind]; [|reflexivity]. destruct (last_short _); cbn [bind]; [|reflexivity]. destruct (Nat.eqb _ 0); [reflexivity|]. destruct (Nat.eqb _ _).
  - destruct (record_level _ _ _ _ _ _); cbn [bind]; [apply IH|reflexivity].
  - match goal with |- bind ?x _ = _ => destruct x end; cbn [bind]; [|reflexivity]. destruct (transm _ _ _ _ _ _ _ _ _ _ _ _ _ _) as [[[[em FL] SA] net1]|]; cbn [bind]; [|reflexivity].
    destruct em; cbn [negb]; [|reflexivity]. destruct (existsb _ _); cbn [negb]; [|reflexivity]. destruct (record_level _ _ _ _ _ _); cbn [bind]; [apply IH|reflexivity].
Qed.
Print Assumptions C115_none_delivered.

(** *** Witness: three lines, four units of which unit 1 is out and unit 3 runs.  Line 1
    depends on unit 3 (runs) and is reduced to 50 and 60 percent; line 2 depends on units 3
    and 1 (one of them runs); the program looks at 2 and 3. *)
Definition crit_demo : list crit_rec := [mkCrit 1 [3] 0 50 60; mkCrit 2 [3; 1] 0 10 20].
Example C115_witness : Forall (rec_ok 4 3) crit_demo /\ ~ all_out [qz 10; q0; qz 5; qz 7] (mkCrit 1 [3] 0 50 60) /\
  stmult [qz 10; q0; qz 5; qz 7] (table crit_demo) 2 3 = Ok [full; [percent 50; percent 60]; full] /\
  stmult [qz 10; qz 1; q0; q0] (table crit_demo) 2 3 = Ok [full; full; [percent 10; percent 20]].
Proof.
  split; [|split; [|split; vm_compute; reflexivity]].
  - repeat constructor; cbn [cr_line looked_at cr_units length firstn]; try (cbn; lia); intros u [<-|H] _; try lia; destruct H as [<-|[]]; lia.
  - intros H. specialize (H 3 (or_introl eq_refl)). unfold unit_out in H. vm_compute in H. discriminate H.
Qed.
