(** Proofs for C102: prepared inputs are complete. *)
From Coq Require Import String List.
From Verif Require Import Base BaseProofs Sums LoadModel LoadSpec NetModel NetSpec HourModel HourSpec ControlSpec ProgramModel ProgramSpec DataModel DataSpec DataProofs
  MaintModel MaintSpec MaintProofs PrepModel PrepProofs PropertiesData CauseSpec EndSpec.
Import ListNotations.
Open Scope Z_scope.

Lemma linked_touches c a b : linked c a b -> a <> b -> exists l, In l (c_lines c) /\ (ln_from l = a \/ ln_to l = a).
Proof.
  intros L. induction L as [|l L IH H|l L IH H]; intros N; [contradiction| |].
  - destruct (string_dec a (ln_from l)) as [->|D]; [exists l; auto|exact (IH D)].
  - destruct (string_dec a (ln_to l)) as [->|D]; [exists l; auto|exact (IH D)].
Qed.
Lemma lp_areas_max LP n : (forall l, In l LP -> (fst l < n)%nat /\ (snd l < n)%nat) -> (exists l, In l LP /\ (fst l = n - 1 \/ snd l = n - 1)%nat) -> lp_areas LP = n.
Proof.
  intros U (l0 & H0 & E0). unfold lp_areas.
  set (f := fun (l : nat * nat) (a : nat) => Nat.max (Nat.max (fst l) (snd l)) a).
  assert (UP : forall L, (forall l, In l L -> (fst l < n)%nat /\ (snd l < n)%nat) -> (0 < n)%nat -> (fold_right f 0 L < n)%nat).
  { induction L as [|l L IH]; intros U0 N; cbn [fold_right]; [exact N|]. specialize (IH (fun x H => U0 x (or_intror H)) N). destruct (U0 l (or_introl eq_refl)). unfold f at 1. lia. }
  assert (LO : forall L, In l0 L -> (Nat.max (fst l0) (snd l0) <= fold_right f 0 L)%nat).
  { induction L as [|l L IH]; intros H; [destruct H|]. cbn [fold_right]. unfold f at 1. destruct H as [->|H]; [lia|specialize (IH H); lia]. }
  pose proof (U l0 H0). specialize (UP LP U ltac:(lia)). specialize (LO LP H0). lia.
Qed.
Lemma lineno_values n (P : Z -> Prop) : P (-1) -> forall L, (forall l, In l L -> P (ln_id l)) -> forall x y, (x < n)%nat -> (y < n)%nat -> P (zmget (lineno n L) x y).
Proof.
  intros P1 L HL x y Hx Hy. unfold lineno. assert (G : forall L M, (forall l, In l L -> P (ln_id l)) -> P (zmget M x y) -> P (zmget (fold_left (fun M l => mupd M (ln_from l) (ln_to l) (ln_id l)) L M) x y)).
  { clear L HL. induction L as [|l L IH]; intros M HL HM; cbn [fold_left]; [exact HM|]. apply IH; [intros l' H; apply HL; right; exact H|].
    unfold mupd, zmget. destruct (Nat.eq_dec (ln_from l) x) as [->|N].
    - destruct (Nat.lt_ge_cases x (length M)) as [A|A].
      + rewrite nth_upd_same by exact A. destruct (Nat.eq_dec (ln_to l) y) as [->|N].
        * destruct (Nat.lt_ge_cases y (length (nth x M []))) as [B|B]; [rewrite nth_upd_same by exact B; apply HL; left; reflexivity|].
          match goal with |- P (nth y ?u _) => rewrite (nth_overflow u) by (rewrite upd_length; exact B) end. unfold zmget in HM. rewrite (nth_overflow (nth x M [])) in HM by exact B. exact HM.
        * rewrite nth_upd_other by exact N. exact HM.
      + unfold zmget in HM. rewrite (nth_overflow M) in HM by exact A. match goal with |- P (nth y (nth x ?u _) _) => rewrite (nth_overflow u) by (rewrite upd_length; exact A) end. exact HM.
    - rewrite nth_upd_other by exact N. exact HM. }
  apply G; [exact HL|]. unfold zmget. rewrite nth_repeat_lt by exact Hx. rewrite nth_repeat_lt by exact Hy. exact P1.
Qed.
Lemma combine_map {A B C} (f : A -> B) (g : A -> C) l : combine (map f l) (map g l) = map (fun x => (f x, g x)) l.
Proof. induction l as [|x l IH]; [reflexivity|]. cbn. now rewrite IH. Qed.
Lemma nonzero_neg x : (x <= q0)%Qc -> (nonzero x (qq (-1) 2) < q0)%Qc.
Proof.
  intros H. unfold nonzero. destruct (qeqb x q0) eqn:E; [apply qltb_iff; vm_compute; reflexivity|]. apply Qcle_lt_or_eq in H. destruct H as [H|H]; [exact H|]. subst x.
  rewrite (proj2 (qeqb_iff q0 q0) eq_refl) in E. discriminate.
Qed.

Section COMPLETE.
Variables (n nu nl : nat) (c : cards string). Hypothesis V : valid_cards n nu nl c.
Variables (fa fu : string -> nat).
Hypothesis NA : numbering (map a_name (c_areas c)) fa. Hypothesis NU : numbering (map u_name (c_units c)) fu.

Lemma rates_complete : rates_ok (map u_cap (c_units c)).
Proof. apply Forall_forall. intros r H. apply in_map_iff in H. destruct H as (u & <- & H). exact (proj1 (v_caps _ _ _ _ V u H)). Qed.
Lemma row_complete w : row_ok nu (table_row nu (in_table (after_scheduling (ID c fa fu)) w)).
Proof.
  set (L := in_table _ w). exists (Z.of_nat (length L)), (L ++ repeat (-1) (nu - length L)).
  split; [reflexivity|]. split; [rewrite app_length; lia|]. intros j Hj. rewrite Nat2Z.id in Hj. rewrite app_nth1 by exact Hj.
  assert (IN : In (nth j L 0) L) by (apply nth_In; exact Hj). unfold L, in_table in IN. apply in_map_iff in IN. destruct IN as (o & EO & H).
  apply filter_In in H. destruct H as (H & _). apply in_flat_map in H. destruct H as (r & HR & H).
  destruct (In_nth _ _ [] HR) as (k & Hk & EK). rewrite (after_length n nu nl c V) in Hk.
  destruct (after_nth n nu nl c V fa fu NA NU k Hk) as (u & _ & HU & D1 & D2).
  assert (Z0 : zget r 0 = Z.of_nat k) by (rewrite <- EK; destruct (only_dec n nu nl c V fa fu NA NU u HU) as [O|O]; [rewrite (D1 O)|rewrite (D2 O)]; reflexivity).
  assert (EZ : fst (fst o) = Z.of_nat k) by (destruct H as [H|[H|[]]]; subst o; cbn [fst]; exact Z0). rewrite EZ in EO. change (nth j L 0) with (nth j (in_table (after_scheduling (ID c fa fu)) w) 0). unfold in_table. rewrite <- EO. lia.
Qed.
Lemma outages_complete : outages_ok nu (rows nu c fa fu).
Proof.
  split; [unfold rows; now rewrite map_length, seq_length|]. apply Forall_forall. intros r H. unfold rows in H. apply in_map_iff in H. destruct H as (w & <- & _). apply row_complete.
Qed.

Hypothesis SL : sound_lines c.
Lemma line_area l : In l (c_lines c) -> (fa (ln_from l) < n)%nat /\ (fa (ln_to l) < n)%nat.
Proof. intros H. destruct (v_known _ _ _ _ V) as (_ & KL & _). split; apply (area_lt n nu nl c V fa NA); apply KL; exact H. Qed.
Lemma area_number k a : nth_error (c_areas c) k = Some a -> fa (a_name a) = k.
Proof.
  intros EK. assert (HX : (k < length (c_areas c))%nat) by (apply nth_error_Some; congruence).
  pose proof (numbering_nth _ fa k (proj2 (proj2 (v_areas _ _ _ _ V))) NA ltac:(rewrite map_length; exact HX)) as Y.
  rewrite (nth_error_nth _ _ EmptyString (map_nth_error a_name k _ EK)) in Y. exact Y.
Qed.
Lemma linked_connected ls a b : (forall l, In l (c_lines c) -> exists w, In ((fa (ln_from l), fa (ln_to l)), w) ls /\ w <> q0) -> linked c a b -> connected ls (fa a) (fa b).
Proof.
  intros W L. induction L as [|l L IH H|l L IH H]; [apply conn_refl| |].
  - destruct (W l H) as (w & HI & NZ). eapply conn_step; [exact IH|]. eexists. split; [exact HI|]. split; [exact NZ|]. unfold joins, lfrom, lto. cbn [fst snd]. rewrite !Nat.eqb_refl. reflexivity.
  - destruct (W l H) as (w & HI & NZ). eapply conn_step; [exact IH|]. eexists. split; [exact HI|]. split; [exact NZ|]. unfold joins, lfrom, lto. cbn [fst snd]. rewrite !Nat.eqb_refl. apply orb_true_r.
Qed.

Lemma lines_complete d x : datax (renamed fa fu c) = Ok d -> x_LP x = dx_LP d -> x_BLPA x = dx_BLPA d -> x_LINENO x = dx_LINENO d -> x_NR x = 0%nat ->
  lines_ok n nl x /\ base_net n x.
Proof.
  intros ED E1 E2 E3 E4.
  destruct (datax_form n nu nl c V fa fu NU) as (d' & ED' & _ & _ & _ & _ & _ & _ & _ & EB & ELP & _ & _ & _ & _). rewrite ED in ED'. injection ED' as <-.
  destruct (m_IW (c_misc c)) as [[w1 w2] w3] eqn:EW. destruct (datax_more n nu nl c V fa fu d w1 w2 w3 ED EW) as (_ & EL).
  pose proof (v_lines _ _ _ _ V) as LL.
  assert (N0 : (0 < nl)%nat) by (pose proof (sl_some _ SL); destruct (c_lines c); [contradiction|cbn in LL; lia]).
  destruct (v_areas _ _ _ _ V) as (LA & NP & ND).
  assert (RN : c_lines (renamed fa fu c) = map (fun l => mkLineC (ln_id l - 1) (fa (ln_from l)) (fa (ln_to l)) (ln_adm l) (ln_cap l) (ln_capr l) (ln_prob l)) (c_lines c)) by reflexivity.
  assert (EBL : x_BLPA x = map blpa_row (c_lines c)) by (rewrite E2, EB, RN, map_map; reflexivity).
  assert (WL : combine (x_LP x) (mcol (x_BLPA x) 0) = map (fun l => ((fa (ln_from l), fa (ln_to l)), nonzero (nth 0 (ln_adm l) q0) (qq (-1) 2))) (c_lines c)).
  { rewrite E1, ELP, EBL. unfold mcol. rewrite map_map. rewrite combine_map. reflexivity. }
  split.
  - constructor.
    + split; [exact N0|]. rewrite E1, ELP, map_length. exact LL.
    + rewrite EBL. split; [rewrite map_length; exact LL|]. intros k Hk. destruct (nth_error (c_lines c) k) as [l|] eqn:EK; [|apply nth_error_None in EK; lia].
      rewrite (nth_error_nth _ _ [] (map_nth_error blpa_row k _ EK)). reflexivity.
    + rewrite E3, EL. assert (S0 : shape n n (repeat (repeat (-1) n) n)).
      { split; [apply repeat_length|]. intros j Hj. rewrite nth_repeat_lt by exact Hj. apply repeat_length. }
      apply (lineno_from n _ _ S0). intros l HL. rewrite RN in HL. apply in_map_iff in HL. destruct HL as (l0 & <- & HL). exact (line_area l0 HL).
    + intros a b Ha Hb. rewrite E3, EL. apply (lineno_values n (fun z => -1 <= z < Z.of_nat nl)); [lia| |exact Ha|exact Hb].
      intros l HL. rewrite RN in HL. apply in_map_iff in HL. destruct HL as (l0 & <- & HL). cbn [ln_id]. pose proof (sl_ids _ SL l0 HL) as B. rewrite LL in B. lia.
  - assert (EA : exists a0 ar, c_areas c = a0 :: ar) by (pose proof LA as LB; pose proof NP as NQ; clear - LB NQ; destruct (c_areas c) as [|a0 ar]; [cbn in LB; lia|eauto]). destruct EA as (a0 & ar & EA).
    assert (A0 : fa (a_name a0) = 0%nat) by (apply (area_number 0); now rewrite EA).
    constructor.
    + rewrite E1, ELP. apply lp_areas_max.
      * intros l H. apply in_map_iff in H. destruct H as (l0 & <- & H). exact (line_area l0 H).
      * assert (N2 : (2 <= n)%nat).
        { assert (ELS : exists l, In l (c_lines c)) by (pose proof (sl_some _ SL) as NZ; clear - NZ; destruct (c_lines c) as [|l ls]; [contradiction|exists l; now left]). destruct ELS as (l & HL). pose proof (sl_ends _ SL l HL) as NE.
          destruct (line_area l HL) as (B1 & B2). destruct (Nat.eq_dec n 1) as [N1|]; [|lia]. exfalso. apply NE.
          destruct NA as (INJ & _). destruct (v_known _ _ _ _ V) as (_ & KL & _). destruct (KL l HL). apply INJ; auto. lia. }
        destruct (nth_error (c_areas c) (n - 1)) as [al|] eqn:EN; [|apply nth_error_None in EN; lia].
        pose proof (area_number _ _ EN) as FN.
        destruct (linked_touches c (a_name al) (a_name a0)) as (l & HL & TC).
        { eapply (sl_all _ SL); [exact EA|]. eapply nth_error_In. exact EN. }
        { intros C. rewrite C in FN. lia. }
        exists (fa (ln_from l), fa (ln_to l)). split; [apply in_map_iff; exists l; auto|]. cbn [fst snd]. destruct TC as [TC|TC]; rewrite TC; auto.
    + intros l H. rewrite E1, ELP in H. apply in_map_iff in H. destruct H as (l0 & <- & H). cbn [fst snd]. intros C. apply (sl_ends _ SL l0 H).
      destruct NA as (INJ & _). destruct (v_known _ _ _ _ V) as (_ & KL & _). destruct (KL l0 H). apply INJ; auto.
    + rewrite E4. exact NP.
    + intros k Hk. rewrite EBL. rewrite E1, ELP, map_length in Hk. destruct (nth_error (c_lines c) k) as [l|] eqn:EK; [|apply nth_error_None in EK; lia].
      unfold mget. rewrite (nth_error_nth _ _ [] (map_nth_error blpa_row k _ EK)). cbn [nth blpa_row flat_map seq app]. apply nonzero_neg. apply (sl_adm _ SL). eapply nth_error_In. exact EK.
    + rewrite WL, E4. intros j Hj.
      destruct (nth_error (c_areas c) j) as [aj|] eqn:EJ; [|apply nth_error_None in EJ; lia].
      assert (Y : connected (map (fun l => ((fa (ln_from l), fa (ln_to l)), nonzero (nth 0 (ln_adm l) q0) (qq (-1) 2))) (c_lines c)) (fa (a_name aj)) (fa (a_name a0))).
      { apply linked_connected.
        - intros l H. eexists. split; [apply in_map_iff; exists l; split; [reflexivity|exact H]|]. intros C.
          pose proof (nonzero_neg _ (sl_adm _ SL l H)) as X. rewrite C in X. exact (Qclt_not_le _ _ X (Qcle_refl _)).
        - eapply (sl_all _ SL); [exact EA|]. eapply nth_error_In. exact EJ. }
      rewrite A0, (area_number _ _ EJ) in Y. exact Y.
Qed.
End COMPLETE.
