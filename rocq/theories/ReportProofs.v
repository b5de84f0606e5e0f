(** Proofs about the final report. *)
From Verif Require Import Base BaseProofs Sums LoadModel LoadSpec LoadProofs StatModel StatSpec StatProofs YearModel YearSpec YearProofs YearRun ReportModel ReportSpec.
Open Scope Z_scope.

Lemma qz_ysum f l : qz (ysum f l) = qsum (map (fun y => qz (f y)) l).
Proof. unfold ysum. induction l as [|a l IH]; [reflexivity|]. cbn [map]. rewrite zsum_cons, qsum_cons, qz_plus, IH. reflexivity. Qed.

Lemma mk_line_of xs es ps qs lol mgn lolp mgnp : length es = length xs -> length ps = length xs ->
  lol = qsum xs -> mgn = qsum es -> lolp = qsum ps -> mgnp = qsum qs ->
  line_of xs es ps qs (mk_line (qz (Z.of_nat (length xs))) lol mgn lolp mgnp).
Proof.
  intros L1 L2 -> -> -> ->. constructor; cbn [mk_line l_lol l_eue l_lolp l_xmgn l_xmgnp]; unfold mean, per_loss; rewrite ?L1, ?L2; reflexivity.
Qed.

Lemma nth_flat3 {A} (f g h : nat -> A) (d : A) (c : nat) : forall n s k, (k < n)%nat -> (c < 3)%nat ->
  nth (3 * k + c) (flat_map (fun N => [f N; g N; h N]) (seq s n)) d = nth c [f (s + k)%nat; g (s + k)%nat; h (s + k)%nat] d.
Proof.
  induction n as [|n IH]; intros s k Hk Hc; [lia|]. cbn [seq flat_map app]. destruct k as [|k].
  - rewrite Nat.add_0_r. replace (3 * 0 + c)%nat with c by lia. destruct c as [|[|[|c]]]; try lia; reflexivity.
  - replace (3 * S k + c)%nat with (S (S (S (3 * k + c)))) by lia. cbn [nth]. rewrite IH by lia. replace (S s + k)%nat with (s + S k)%nat by lia. reflexivity.
Qed.

Section Lines.
Variables (cf : ycfg) (n : nat) (l : list annual) (h p : cumul).
Hypothesis HL : levels_ok (NFCST cf) (NORR cf).
Hypothesis TH : cumul_total n (NFCST cf) fst l h.
Hypothesis TP : cumul_total n (NFCST cf) snd l p.
Let y := qz (Z.of_nat (length l)).
Let vals pl wn wt c k := map (fun a => qz (part pl wn wt c k a)) l.
Let wvals pl wn wt c := map (wpart (NFCST cf) pl wn wt c) l.

Lemma area_level_line d j k c : (j < n)%nat -> (k < NFCST cf)%nat -> NFCST cf <> 1%nat ->
  line_of (vals (Area j) Hourly LOLE c k) (vals (Area j) Hourly EUE c k) (vals (Area j) Peak LOLE c k) (vals (Area j) Peak EUE c k)
          (nth (3 * k + code_cause c) (area_level_lines (NFCST cf) y h p j) d).
Proof.
  intros Hj Hk N1. unfold area_level_lines. destruct (Nat.eqb_spec (NFCST cf) 1); [contradiction|].
  cbv zeta. rewrite (nth_flat3 _ _ _ d (code_cause c)) by (auto; destruct c; cbn; lia). rewrite Nat.add_0_l.
  destruct TH as [HL1 HM _ _], TP as [PL1 PM _ _]. unfold y.
  replace (length l) with (length (vals (Area j) Hourly LOLE c k)) by (unfold vals; apply map_length).
  destruct c; cbn [code_cause nth]; apply mk_line_of; unfold vals; rewrite ?map_length; auto;
    first [ rewrite (at_G _ _ _ _ _ _ HL1) by auto | rewrite (at_G _ _ _ _ _ _ HM) by auto | rewrite (at_G _ _ _ _ _ _ PL1) by auto | rewrite (at_G _ _ _ _ _ _ PM) by auto
          | rewrite (at_T _ _ _ _ _ _ HL1) by auto | rewrite (at_T _ _ _ _ _ _ HM) by auto | rewrite (at_T _ _ _ _ _ _ PL1) by auto | rewrite (at_T _ _ _ _ _ _ PM) by auto
          | rewrite (at_S _ _ _ _ _ _ HL1) by auto | rewrite (at_S _ _ _ _ _ _ HM) by auto | rewrite (at_S _ _ _ _ _ _ PL1) by auto | rewrite (at_S _ _ _ _ _ _ PM) by auto ];
    rewrite qz_ysum; reflexivity.
Qed.
Lemma area_avg_line d j c : (j < n)%nat ->
  line_of (wvals (Area j) Hourly LOLE c) (wvals (Area j) Hourly EUE c) (wvals (Area j) Peak LOLE c) (wvals (Area j) Peak EUE c)
          (nth (code_cause c) (area_avg_lines y h p j) d).
Proof.
  intros Hj. unfold area_avg_lines. cbv zeta. destruct TH as [HL1 HM _ _], TP as [PL1 PM _ _]. unfold y.
  replace (length l) with (length (wvals (Area j) Hourly LOLE c)) by (unfold wvals; apply map_length).
  destruct c; cbn [code_cause nth]; apply mk_line_of; unfold wvals; rewrite ?map_length; auto;
    first [ rewrite (at_wG _ _ _ _ _ _ HL1) by auto | rewrite (at_wG _ _ _ _ _ _ HM) by auto | rewrite (at_wG _ _ _ _ _ _ PL1) by auto | rewrite (at_wG _ _ _ _ _ _ PM) by auto
          | rewrite (at_wT _ _ _ _ _ _ HL1) by auto | rewrite (at_wT _ _ _ _ _ _ HM) by auto | rewrite (at_wT _ _ _ _ _ _ PL1) by auto | rewrite (at_wT _ _ _ _ _ _ PM) by auto
          | rewrite (at_wS _ _ _ _ _ _ HL1) by auto | rewrite (at_wS _ _ _ _ _ _ HM) by auto | rewrite (at_wS _ _ _ _ _ _ PL1) by auto | rewrite (at_wS _ _ _ _ _ _ PM) by auto ];
    reflexivity.
Qed.
Lemma pool_level_line d k c : (k < NFCST cf)%nat -> NFCST cf <> 1%nat ->
  line_of (vals Pool Hourly LOLE c k) (vals Pool Hourly EUE c k) (vals Pool Peak LOLE c k) (vals Pool Peak EUE c k)
          (nth (3 * k + code_cause c) (pool_level_lines (NFCST cf) y h p) d).
Proof.
  intros Hk N1. unfold pool_level_lines. destruct (Nat.eqb_spec (NFCST cf) 1); [contradiction|].
  cbv zeta. rewrite (nth_flat3 _ _ _ d (code_cause c)) by (auto; destruct c; cbn; lia). rewrite Nat.add_0_l.
  destruct TH as [_ _ HL1 HM], TP as [_ _ PL1 PM]. unfold y.
  replace (length l) with (length (vals Pool Hourly LOLE c k)) by (unfold vals; apply map_length).
  destruct c; cbn [code_cause nth]; apply mk_line_of; unfold vals; rewrite ?map_length; auto;
    first [ rewrite (pt_G _ _ _ _ _ HL1) by auto | rewrite (pt_G _ _ _ _ _ HM) by auto | rewrite (pt_G _ _ _ _ _ PL1) by auto | rewrite (pt_G _ _ _ _ _ PM) by auto
          | rewrite (pt_T _ _ _ _ _ HL1) by auto | rewrite (pt_T _ _ _ _ _ HM) by auto | rewrite (pt_T _ _ _ _ _ PL1) by auto | rewrite (pt_T _ _ _ _ _ PM) by auto
          | rewrite (pt_S _ _ _ _ _ HL1) by auto | rewrite (pt_S _ _ _ _ _ HM) by auto | rewrite (pt_S _ _ _ _ _ PL1) by auto | rewrite (pt_S _ _ _ _ _ PM) by auto ];
    rewrite qz_ysum; reflexivity.
Qed.
End Lines.

(** The deviations. *)
Lemma dev2_spec xs es ps r X : xs <> [] -> length es = length xs -> length ps = length xs ->
  l_lol r = mean xs -> l_eue r = mean es -> l_lolp r = mean ps ->
  vget X 0 = qsum (map qsq xs) -> vget X 1 = qsum (map qsq es) -> vget X 2 = qsum (map qsq ps) ->
  dev2 (qz (Z.of_nat (length xs))) X r = [sq_err xs; sq_err es; sq_err ps].
Proof.
  intros NE L1 L2 M1 M2 M3 X0 X1 X2. unfold dev2. cbv zeta. rewrite M1, M2, M3, X0, X1, X2.
  assert (N2 : es <> []) by (destruct xs; [contradiction|destruct es; discriminate]).
  assert (N3 : ps <> []) by (destruct xs; [contradiction|destruct ps; discriminate]).
  pose proof (sq_err_alt xs NE) as S1. pose proof (sq_err_alt es N2) as S2. pose proof (sq_err_alt ps N3) as S3. cbv zeta in S1, S2, S3. rewrite L1 in S2. rewrite L2 in S3.
  rewrite S1, S2, S3. unfold mean. rewrite L1, L2. reflexivity.
Qed.

(** The distributions. *)
Lemma distribution_row H S j y : length H = length S -> (j < length H)%nat -> mass S j = y ->
  forall i, (i < length (nth j H []))%nat -> vget (nth j (distribution H S) []) i = Qcdiv (qz (zget (nth j H []) i)) (qz y).
Proof.
  intros L Hj E i Hi. unfold distribution. rewrite (map2_nth _ H S j [] [] []) by lia.
  unfold vget. rewrite (nth_indep _ q0 (Qcdiv (qz 0) (qz (zsum (nth j S []))))) by (rewrite map_length; exact Hi).
  rewrite (map_nth (fun x => Qcdiv (qz x) (qz (zsum (nth j S []))))). unfold mass in E. rewrite E. reflexivity.
Qed.
Lemma qsum_scale y : forall r, qsum (map (fun x => Qcdiv (qz x) y) r) = Qcdiv (qz (zsum r)) y.
Proof.
  induction r as [|a r IH]; [cbn [map]; rewrite qsum_nil; change (zsum []) with 0; change (qz 0) with q0; unfold Qcdiv; qring|].
  cbn [map]. rewrite qsum_cons, zsum_cons, IH, qz_plus. unfold Qcdiv. qring.
Qed.
Lemma qdiv_nonneg x y : (q0 <= x)%Qc -> (q0 < y)%Qc -> (q0 <= Qcdiv x y)%Qc.
Proof. intros A B. apply (proj2 (qdiv_pos_le x y B)). exact A. Qed.
Lemma distribution_fine n H S j : shape n 22 H -> length S = n -> (j < n)%nat -> 0 < mass S j -> mass H j = mass S j ->
  (forall i, (i < 22)%nat -> 0 <= zmget H j i) ->
  distribution_ok (nth j (distribution H S) []) /\ fraction_of (nth j (distribution H S) []) (nth j H []) (mass S j).
Proof.
  intros [LH RH] LS Hj P E POS. specialize (RH j Hj).
  assert (R : nth j (distribution H S) [] = map (fun x => Qcdiv (qz x) (qz (mass S j))) (nth j H [])).
  { unfold distribution. rewrite (map2_nth _ H S j [] [] []) by lia. reflexivity. }
  split.
  - rewrite R. split; [now rewrite map_length|]. split.
    + intros x Hx. apply in_map_iff in Hx. destruct Hx as (z & <- & Hz). apply qdiv_nonneg; [|apply qz_lt; exact P].
      apply qz_le. apply (In_nth _ _ 0) in Hz. destruct Hz as (i & Hi & <-). rewrite RH in Hi. specialize (POS i Hi). exact POS.
    + rewrite qsum_scale. fold (mass H j). rewrite E.
      assert (NZ : qz (mass S j) <> q0) by (intros K; apply qz_inj in K; lia).
      change q1 with 1%Qc. field. exact NZ.
  - intros i Hi. apply distribution_row; auto; try lia.
Qed.
