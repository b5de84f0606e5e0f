(** Proofs for C127: the linear program is proportional. *)
From Verif Require Import Base BaseProofs Sums LoadModel NetModel LinpackModel LpModel ScaleSpec ScaleProofs ScaleLpSpec.
Open Scope Z_scope.
Open Scope Qc_scope.

Section Unit.
  Variable c : Qc. Hypothesis C0 : q0 < c.
  Notation U := (in_unit c). Notation UA := (areas_in_unit c). Notation UL := (lines_in_unit c).

  (** *** connls *)
  Section Con.
    Variables (BC : list (list Qc)) (INJB : list Qc) (NX NR : nat) (LT : list nat) (BLP : list (list Qc)) (LP : list (nat * nat)) (BN : list (list Qc)).
    Lemma adm_l i : mget (UL BLP) i 0 = mget BLP i 0. Proof using . unfold lines_in_unit. rewrite t_get. reflexivity. Qed.
    Lemma fwd_l i : mget (UL BLP) i 1 = c * mget BLP i 1. Proof using . unfold lines_in_unit. rewrite t_get. reflexivity. Qed.
    Lemma bwd_l i : mget (UL BLP) i 2 = c * mget BLP i 2. Proof using . unfold lines_in_unit. rewrite t_get. reflexivity. Qed.
    Lemma len_l : length (UL BLP) = length BLP. Proof using . apply t_len. Qed.
    Lemma inj_l i : inj (U INJB) NX NR LT i = c * inj INJB NX NR LT i. Proof using . unfold inj. destruct (i <? NX)%nat; apply u_get. Qed.
    Lemma ref_sum_l IEQ k : ref_sum LP (UL BLP) IEQ NR k = ref_sum LP BLP IEQ NR k.
    Proof using . unfold ref_sum. rewrite len_l. f_equal. apply map_ext. intros i. destruct (nth i LP _) as [f t]. now rewrite adm_l. Qed.
    Lemma bus_row_l IEQ i b : bus_row BC LP (UL BLP) IEQ NX NR i b = bus_row BC LP BLP IEQ NX NR i b.
    Proof using . unfold bus_row, pair_col. now rewrite ref_sum_l. Qed.
    Lemma line_coef_l IEQ i b : line_coef LP (UL BLP) IEQ NX i b = line_coef LP BLP IEQ NX i b.
    Proof using . unfold line_coef. destruct (nth i LP _) as [f t]. now rewrite adm_l. Qed.
    Lemma con_A_l a b : con_A BC NX NR LT (UL BLP) LP a b = con_A BC NX NR LT BLP LP a b.
    Proof using . unfold con_A. rewrite len_l. rewrite !bus_row_l, !line_coef_l. reflexivity. Qed.
    Lemma con_B_l a : con_B (U INJB) NX NR LT (UL BLP) (UA BN) a = c * con_B INJB NX NR LT BLP BN a.
    Proof using C0.
      unfold con_B. rewrite len_l, !inj_l, fwd_l, bwd_l, (c_abs c C0). unfold areas_in_unit. rewrite !t_get. change (area_number 4) with false. change (area_number 3) with false. cbv iota.
      repeat match goal with |- context [if ?x then _ else _] => destruct x end; try reflexivity; symmetry; apply c_zero.
    Qed.
    Lemma clip_B_l a : clip_B (U INJB) NX NR LT (UL BLP) (UA BN) a = c * clip_B INJB NX NR LT BLP BN a.
    Proof using C0. unfold clip_B. rewrite con_B_l. destruct (a <? S NX)%nat; [apply (c_min0 c C0)|reflexivity]. Qed.
    Lemma fin_B_l a : fin_B (U INJB) NX NR LT (UL BLP) (UA BN) a = c * fin_B INJB NX NR LT BLP BN a.
    Proof using C0. unfold fin_B. rewrite len_l, clip_B_l. destruct (_ <? _)%nat; [apply (c_abs c C0)|reflexivity]. Qed.
    Lemma art_A_l a b : art_A BC (U INJB) NX NR LT (UL BLP) LP (UA BN) a b = art_A BC INJB NX NR LT BLP LP BN a b.
    Proof using C0. unfold art_A, flip_A. rewrite len_l, clip_B_l, (c_ltb0 c C0), con_A_l. reflexivity. Qed.
    Lemma cost_l b : cost (U INJB) NX NR LT b = cost INJB NX NR LT b.
    Proof using C0. unfold cost. rewrite inj_l, (c_leb0 c C0). reflexivity. Qed.
    Lemma connls_l : match connls BC INJB NX NR LT BLP LP BN with
      | Ok d => exists d', connls BC (U INJB) NX NR LT (UL BLP) LP (UA BN) = Ok d' /\ d_M d' = d_M d /\ d_N1 d' = d_N1 d /\ (forall i j, d_A d' i j = d_A d i j) /\
          (forall i, d_XOBI0 d' i = d_XOBI0 d i) /\ (forall i, d_XOBI1 d' i = d_XOBI1 d i) /\ d_IBAS d' = d_IBAS d /\ d_BS d' = U (d_BS d) /\
          (forall i, d_B d' i = c * d_B d i) /\ (forall i, d_B1 d' i = c * d_B1 d i)
      | Err e => connls BC (U INJB) NX NR LT (UL BLP) LP (UA BN) = Err e end.
    Proof using C0.
      unfold connls. rewrite len_l. destruct (_ || _)%bool; [reflexivity|]. eexists. split; [reflexivity|]. cbn [d_M d_N1 d_A d_XOBI0 d_XOBI1 d_IBAS d_BS d_B d_B1].
      split; [reflexivity|]. split; [reflexivity|]. split; [intros i j; unfold row_of; rewrite ?len_l; apply art_A_l|]. split; [reflexivity|].
      split; [intros i; rewrite cost_l; reflexivity|]. split; [reflexivity|].
      split; [unfold in_unit; rewrite map_map; apply map_ext; intros i; unfold row_of; rewrite ?len_l; apply fin_B_l|]. split; intros i; [apply fin_B_l|apply con_B_l].
    Qed.
  End Con.

  (** *** linp *)
  Definition same_state (s s' : sx) : Prop :=
    s_IBAS s' = s_IBAS s /\ (forall i, s_IBASF s' i = s_IBASF s i) /\ s_TAB s' = s_TAB s /\ s_BS s' = U (s_BS s) /\ s_CB s' = s_CB s /\ (forall i, s_XOB s' i = s_XOB s i) /\
    s_IR s' = s_IR s /\ s_PH2 s' = s_PH2 s /\ s_IPIV s' = s_IPIV s.
  Section Loop.
    Variables (M N1 : nat) (A A' : arr2) (X X' : arr1) (BS1 : list Qc).
    Hypothesis EA : forall i j, A' i j = A i j. Hypothesis EX : forall i, X' i = X i.
    Lemma fold_same {S T} (f g : S -> T -> S) l a : (forall x y, f x y = g x y) -> fold_left f l a = fold_left g l a.
    Proof using . intros H. revert a; induction l as [|x l IH]; intros a; cbn; [reflexivity|]. rewrite H. apply IH. Qed.
    Lemma rc_same PY k : rc M PY A' k = rc M PY A k. Proof using EA. unfold rc. f_equal. apply map_ext. intros i. now rewrite EA. Qed.
    Lemma mc_same k TAB : mc M k TAB A' = mc M k TAB A.
    Proof using EA. unfold mc, vtab. apply map_ext. intros i. f_equal. apply map_ext. intros j. now rewrite EA. Qed.
    Lemma scan_same PY Y Y' F F' : (forall i, Y' i = Y i) -> (forall i, F' i = F i) -> scan M N1 A' PY Y' F' = scan M N1 A PY Y F.
    Proof using EA. intros EY EF. unfold scan. apply fold_same. intros x y. unfold scan_col. rewrite EF, EY, rc_same. reflexivity. Qed.
    Definition up (o : option (Qc * nat)) := option_map (fun r : Qc * nat => (c * fst r, snd r)) o.
    Lemma ratio_same P BS Y Y' IB PH : (forall i, Y' i = Y i) -> (forall x, In x BS -> not_tiny c x) -> ratio M P (U BS) Y' IB PH = up (ratio M P BS Y IB PH).
    Proof using C0.
      intros EY NT. unfold ratio. assert (H : forall o i, ratio_row P (U BS) Y' IB PH (up o) i = up (ratio_row P BS Y IB PH o i)).
      { intros o i. unfold ratio_row. destruct (qltb TOL (vget P i)); [|reflexivity]. rewrite u_get, EY. set (b := vget BS i).
        assert (T : (if qleb TINY (qabs (c * b)) then c * b else q0) = c * (if qleb TINY (qabs b) then b else q0)).
        { assert (B : b = q0 \/ TINY <= qabs b /\ TINY <= qabs (c * b)).
          { destruct (Nat.lt_ge_cases i (length BS)) as [L|L]; [apply NT; unfold b, vget; now apply nth_In|]. left. unfold b, vget. now rewrite nth_overflow. }
          destruct B as [->|(B1 & B2)]; [rewrite c_zero; destruct (qleb _ _); rewrite ?c_zero; reflexivity|]. apply qleb_iff in B1, B2. now rewrite B1, B2. }
        rewrite T. set (n := if qleb TINY (qabs b) then b else q0). replace (Qcdiv (c * n) (vget P i)) with (c * Qcdiv n (vget P i)) by (unfold Qcdiv; qring).
        assert (Z : qeqb (c * b) q0 = qeqb b q0).
        { destruct (qeqb b q0) eqn:E; [apply qeqb_iff in E; rewrite E, c_zero; reflexivity|]. destruct (qeqb (c * b) q0) eqn:E'; [|reflexivity].
          apply qeqb_iff in E'. destruct (Qcmult_integral _ _ E') as [X1|X1]; [destruct (c_nz c C0 X1)|]. assert (Y1 : qeqb b q0 = true) by now apply qeqb_iff. congruence. }
        rewrite Z. destruct o as [(r, p)|]; cbn [up option_map fst snd]; [|reflexivity]. rewrite (c_ltb c C0). destruct (qltb _ r); [reflexivity|]. destruct (_ && _)%bool; reflexivity. }
      change None with (up None) at 1. generalize (@None (Qc * nat)). induction (seq 0 M) as [|i l IH]; intros o; cbn [fold_left]; [reflexivity|]. rewrite H. apply IH.
    Qed.
    Definition related {S} (R : S -> S -> Prop) (r r' : res S) : Prop := match r with Ok t => exists t', r' = Ok t' /\ R t t' | Err e => r' = Err e end.
    Lemma pivot_same k s s' : same_state s s' -> (forall x, In x (s_BS s) -> not_tiny c x) -> related same_state (pivot M A k s) (pivot M A' k s').
    Proof using C0 EA.
      intros (E1 & E2 & E3 & E4 & E5 & E6 & E7 & E8 & E9) NT. unfold pivot. rewrite E1, E3, E4, E5, E8, E9, mc_same, (ratio_same _ _ _ _ _ _ E6 NT). set (P := mc M k (s_TAB s) A).
      assert (Q : (match up (ratio M P (s_BS s) (s_XOB s) (s_IBAS s) (s_PH2 s)) with Some r => Ok (snd r) | None => of_option UnboundLocalError (s_IPIV s) end) =
                  match ratio M P (s_BS s) (s_XOB s) (s_IBAS s) (s_PH2 s) with Some r => Ok (snd r) | None => of_option UnboundLocalError (s_IPIV s) end).
      { destruct (ratio _ _ _ _ _ _) as [(r, q)|]; reflexivity. }
      rewrite Q. destruct (match ratio _ _ _ _ _ _ with Some _ => _ | None => _ end) as [p|e]; cbn [bind related]; [|reflexivity].
      eexists. split; [reflexivity|]. unfold same_state. cbn [s_IBAS s_IBASF s_TAB s_BS s_CB s_XOB s_IR s_PH2 s_IPIV]. split; [reflexivity|]. split; [intros i; now rewrite E2|].
      split; [reflexivity|]. split; [|split; [now rewrite E6|auto]]. rewrite u_vtab. unfold vtab. apply map_ext. intros i. rewrite !u_get.
      destruct (Nat.eqb i p); [unfold Qcdiv; qring|]. destruct (qeqb _ _); [reflexivity|]. unfold Qcdiv; qring.
    Qed.
    Lemma next_same s s' : same_state s s' -> match next_phase M N1 X s with Some t => exists t', next_phase M N1 X' s' = Some t' /\ same_state t t' | None => next_phase M N1 X' s' = None end.
    Proof using EX.
      intros (E1 & E2 & E3 & E4 & E5 & E6 & E7 & E8 & E9). unfold next_phase. rewrite E8. destruct (s_PH2 s); [reflexivity|]. eexists. split; [reflexivity|].
      unfold same_state. cbn [s_IBAS s_IBASF s_TAB s_BS s_CB s_XOB s_IR s_PH2 s_IPIV]. rewrite E1. repeat split; auto.
      - apply map_ext. intros i. now rewrite EX, E6.
      - intros i. now rewrite EX, E6.
    Qed.
    Lemma reinvert_same s s' : same_state s s' -> same_state (reinvert M A BS1 s) (reinvert M A' (U BS1) s').
    Proof using EA.
      intros (E1 & E2 & E3 & E4 & E5 & E6 & E7 & E8 & E9). unfold reinvert. rewrite E1.
      assert (T : mtab M M (fun i j => A' i (nth j (s_IBAS s) 0%nat)) = mtab M M (fun i j => A i (nth j (s_IBAS s) 0%nat))) by (unfold mtab; apply map_ext; intros i; apply map_ext; intros j; apply EA).
      rewrite T. unfold same_state. cbn [s_IBAS s_IBASF s_TAB s_BS s_CB s_XOB s_IR s_PH2 s_IPIV]. repeat split; auto.
      rewrite u_vtab. unfold vtab. apply map_ext. intros i. rewrite <- u_sum. f_equal. unfold in_unit at 2. rewrite map_map. apply map_ext. intros j. rewrite u_get. qring.
    Qed.
    Lemma price_same s s' : same_state s s' -> scan M N1 A' (rm M (s_CB s') (s_TAB s')) (s_XOB s') (s_IBASF s') = scan M N1 A (rm M (s_CB s) (s_TAB s)) (s_XOB s) (s_IBASF s).
    Proof using EA. intros (E1 & E2 & E3 & E4 & E5 & E6 & E7 & E8 & E9). rewrite E3, E5. apply scan_same; assumption. Qed.
    Definition same_end (a b : sx + sx) : Prop := match a, b with inl s, inl s' => same_state s s' | inr s, inr s' => same_state s s' | _, _ => False end.
    Lemma pass_same s s' : same_state s s' -> (forall x, In x (pass_amounts M N1 A BS1 s) -> not_tiny c x) ->
      related same_end (linp_pass M N1 A X BS1 s) (linp_pass M N1 A' X' (U BS1) s').
    Proof using C0 EA EX.
      intros R NT. unfold linp_pass. cbv zeta. rewrite (price_same s s' R). unfold pass_amounts, entering in NT.
      assert (PV : forall k t t', same_state t t' -> (forall x, In x (s_BS t) -> not_tiny c x) ->
        related same_end (do u <- pivot M A k t; Ok (inl u)) (do u <- pivot M A' k t'; Ok (inl u))).
      { intros k t t' RT NT'. pose proof (pivot_same k t t' RT NT') as H. destruct (pivot M A k t) as [u|e]; cbn [related] in H.
        - destruct H as (u' & -> & Hu). exists (inl u'). auto.
        - rewrite H. reflexivity. }
      assert (NX : forall t t', same_state t t' ->
        related same_end (Ok (match next_phase M N1 X t with Some s0 => inl s0 | None => inr t end)) (Ok (match next_phase M N1 X' t' with Some s0 => inl s0 | None => inr t' end))).
      { intros t t' RT. pose proof (next_same t t' RT) as H. destruct (next_phase M N1 X t) as [u|]; [destruct H as (u' & -> & Hu)|rewrite H]; cbn; eexists; split; try reflexivity; assumption. }
      destruct (scan M N1 A (rm M (s_CB s) (s_TAB s)) (s_XOB s) (s_IBASF s)) as (cm, o) eqn:ES.
      assert (G : forall (w : option nat) (EW : w = match o with Some k => if qltb cm q0 then Some k else None | None => None end), True) by auto.
      set (w := match o with Some k => if qltb cm q0 then Some k else None | None => None end) in *. clear G.
      destruct w as [k|]; [apply PV; assumption|]. pose proof R as (_ & _ & _ & _ & _ & _ & E7 & _ & _). rewrite E7. destruct (s_IR s) eqn:IR; [apply NX; exact R|].
      pose proof (reinvert_same s s' R) as R1. rewrite (price_same _ _ R1). destruct (scan M N1 A (rm M (s_CB (reinvert M A BS1 s)) _) _ _) as (cm1, o1).
      destruct (match o1 with Some k => if qltb cm1 q0 then Some k else None | None => None end) as [k|]; [apply PV; assumption|apply NX; exact R1].
    Qed.
    Lemma loop_same fuel s s' : same_state s s' -> (forall x, In x (run_amounts fuel M N1 A X BS1 s) -> not_tiny c x) ->
      related same_state (linp_loop fuel M N1 A X BS1 s) (linp_loop fuel M N1 A' X' (U BS1) s').
    Proof using C0 EA EX.
      revert s s'. induction fuel as [|f IH]; intros s s' R NT; cbn [linp_loop]; [reflexivity|]. cbn [run_amounts] in NT.
      assert (N1' : forall x, In x (pass_amounts M N1 A BS1 s) -> not_tiny c x) by (intros x H; apply NT, in_or_app; now left).
      pose proof (pass_same s s' R N1') as H. destruct (linp_pass M N1 A X BS1 s) as [[t|t]|e]; cbn [related] in H; cbn [bind].
      - destruct H as ([t'|t'] & -> & Ht); [|destruct Ht]. cbn [bind]. apply IH; [exact Ht|]. intros x Hx. apply NT, in_or_app. now right.
      - destruct H as ([t'|t'] & -> & Ht); [destruct Ht|]. cbn [bind related]. exists t'. auto.
      - rewrite H. reflexivity.
    Qed.
  End Loop.

  (** *** net, store *)
  Lemma fill_same N M IB BS R R' : (forall k, R' k = c * R k) -> forall k, res_fill N M IB (U BS) R' k = c * res_fill N M IB BS R k.
  Proof using .
    intros H. unfold res_fill.
    assert (IND : forall l f g, (forall k, g k = c * f k) ->
      forall k, fold_left (fun R i k => if Nat.eqb k (nth i IB 0%nat) then vget (U BS) i else R k) l g k = c * fold_left (fun R i k => if Nat.eqb k (nth i IB 0%nat) then vget BS i else R k) l f k).
    { induction l as [|i l IH]; intros f g G; cbn [fold_left]; [exact G|]. apply IH. intros k. destruct (Nat.eqb k _); [apply u_get|apply G]. }
    apply IND. intros k. destruct (k <? N)%nat; [symmetry; apply c_zero|apply H].
  Qed.
  Lemma net_same B B' B1 B1' IB BS M N k : (forall i, B' i = c * B i) -> net B' B1' (fun _ _ => q0) IB (U BS) M N k 0%nat = c * net B B1 (fun _ _ => q0) IB BS M N k 0%nat.
  Proof using .
    intros EB. unfold net. cbv zeta. rewrite (fill_same N M IB BS (fun _ => q0) (fun _ => q0)) by (intros _; symmetry; apply c_zero). rewrite EB.
    destruct (existsb _ _ && _)%bool, (_ && _)%bool; qring.
  Qed.
  Lemma store_lp_same LT R R' NX BN : (forall k, R' k = c * R k) -> store_lp LT R' NX (UA BN) = UA (store_lp LT R NX BN).
  Proof using C0.
    intros H. unfold store_lp. revert BN. induction (seq 0 (S NX)) as [|i l IH]; intros BN; cbn [fold_left]; [reflexivity|]. rewrite <- IH. f_equal.
    unfold areas_in_unit. rewrite !t_mupd, t_get. change (area_number 1) with false. change (area_number 2) with false. cbv iota. rewrite H.
    replace (- (c * R (2 * NX + i)%nat)) with (c * - R (2 * NX + i)%nat) by qring.
    replace (- (c * mget BN (nth i LT 0%nat) 2) + c * - R (2 * NX + i)%nat) with (c * (- mget BN (nth i LT 0%nat) 2 + - R (2 * NX + i)%nat)) by qring.
    rewrite (c_ltb0 c C0). destruct (qltb _ q0); [rewrite c_zero|]; reflexivity.
  Qed.
  Lemma lp_same fuel LP LT NR BB BLP BN : (forall x, In x (lp_amounts fuel LP LT NR BB BLP BN) -> not_tiny c x) ->
    lp_nls fuel LP LT NR BB (UL BLP) (UA BN) = match lp_nls fuel LP LT NR BB BLP BN with Ok (F, B) => Ok (U F, UA B) | Err e => Err e end.
  Proof using C0.
    unfold lp_amounts, lp_nls. rewrite (len_l BLP). replace (length (UA BN)) with (length BN) by (symmetry; apply t_len).
    replace (mcol (UA BN) 2) with (U (mcol BN 2)) by (unfold areas_in_unit; now rewrite t_col).
    pose proof (connls_l BB (mcol BN 2) (length BN - 1) NR LT BLP LP BN) as H. destruct (connls BB (mcol BN 2) _ NR LT BLP LP BN) as [d|e]; cbn [bind]; [|rewrite H; reflexivity].
    destruct H as (d' & -> & EM & EN & EA & E0 & E1 & EI & ES & EB & EB1). cbn [bind]. intros NT. unfold linp. rewrite EM, EN, ES, EI.
    assert (R : same_state (linp_start (d_M d) (d_XOBI0 d) (d_IBAS d) (d_BS d)) (linp_start (d_M d) (d_XOBI0 d') (d_IBAS d) (U (d_BS d)))).
    { unfold same_state, linp_start. cbn [s_IBAS s_IBASF s_TAB s_BS s_CB s_XOB s_IR s_PH2 s_IPIV]. repeat split; auto. apply map_ext. intros i. apply E0. }
    pose proof (loop_same (d_M d) (d_N1 d) (d_A d) (d_A d') (d_XOBI1 d) (d_XOBI1 d') (d_BS d) EA E1 fuel _ _ R NT) as H. unfold linp in *.
    destruct (linp_loop fuel (d_M d) (d_N1 d) (d_A d) _ _ _) as [s|e]; cbn [related] in H; [|rewrite H; reflexivity]. destruct H as (s' & -> & (F1 & F2 & F3 & F4 & _)). cbn [bind]. rewrite F1, F4.
    assert (NE : forall k, net (d_B d') (d_B1 d') (fun _ _ => q0) (s_IBAS s) (U (s_BS s)) (d_M d) (d_N1 d) k 0%nat = c * net (d_B d) (d_B1 d) (fun _ _ => q0) (s_IBAS s) (s_BS s) (d_M d) (d_N1 d) k 0%nat) by (intros k; now apply net_same).
    f_equal. f_equal; [|apply store_lp_same; exact NE]. unfold in_unit at 2. rewrite map_map. apply map_ext. intros l. apply NE.
  Qed.

  (** *** Answers carry over *)
  Definition answers (lp lp' : list (list Qc) -> list (list Qc) -> list (list Qc) -> res (list Qc * list (list Qc))) : Prop := forall BB BLP BN F B, lp BB BLP BN = Ok (F, B) -> lp' BB (UL BLP) (UA BN) = Ok (U F, UA B).
  Lemma tm2_le lp lp' BN LP BLP BLP0 BB ZB LT NR NLS o : answers lp lp' ->
    tm2 lp BN LP BLP BLP0 BB ZB LT NR NLS = Ok o ->
    tm2 lp' (UA BN) LP (UL BLP) BLP0 BB ZB LT NR NLS = Ok (mkTm2 (U (t_flow o)) (t_accepted o) (UA (t_BN o)) (t_BB o) (t_ZB o)).
  Proof using C0.
    intros SP. assert (EL : length (UA BN) = length BN) by apply t_len. unfold tm2. rewrite EL, (update_u c). cbv zeta. destruct (tm2_update _ _ _ _ _ _ _ _) as [BB1 ZB1]. rewrite (solve_u c C0).
    destruct (tm2_solve BN LP BLP ZB1 LT NLS) as [[[I1 L1] S1] F1]. rewrite (accepts_u c C0). destruct (tm2_accepts F1 S1 BLP BN).
    - intros E. injection E as <-. cbn [t_flow t_accepted t_BN t_BB t_ZB]. now rewrite (store_u c).
    - destruct NLS; [|discriminate]. destruct (lp BB1 BLP BN) as [[F B]|e] eqn:EL1; cbn [bind]; [|discriminate]. intros E. injection E as <-. cbn [t_flow t_accepted t_BN t_BB t_ZB fst snd].
      now rewrite (SP _ _ _ _ _ EL1).
  Qed.
  Lemma net_le inv lp lp' IFLAG s B LP NR SM LN NLS TR TJ SC CR J F SA s1 : answers lp lp' ->
    transm inv lp IFLAG s B LP NR SM LN NLS TR TJ SC CR = Ok (J, F, SA, s1) ->
    transm inv lp' IFLAG (net_in_unit c s) (UL B) LP NR SM LN NLS (U TR) (U TJ) (U SC) (U CR) = Ok (J, U F, U SA, net_in_unit c s1).
  Proof using C0.
    intros SP. unfold transm. cbn [net_in_unit n_BN n_BLP0 n_BB n_LT n_ZB]. rewrite (tm1_u c).
    destruct (if IFLAG then _ else _) as [[[[BLP0 BB] LT] ZB]|e]; cbn [bind]; [|discriminate].
    rewrite (line_rows_u c), (sched_u c C0).
    destruct (tm2 lp (sched_rows (n_BN s) TR TJ SC CR) LP _ _ _ _ _ _ true) as [o1|e] eqn:T1; cbn [bind]; [|discriminate].
    rewrite (tm2_le _ _ _ _ _ _ _ _ _ _ _ _ SP T1). cbn [bind t_flow t_BN t_BB t_ZB].
    replace (length (UA (n_BN s))) with (length (n_BN s)) by (symmetry; apply t_len).
    assert (E1 : forall i, mget (UA (t_BN o1)) i 1 = c * mget (t_BN o1) i 1) by (intros i; unfold areas_in_unit; now rewrite t_get).
    assert (ES : vtab (length (n_BN s)) (fun i => vget (U SC) i - vget (U CR) i - mget (UA (t_BN o1)) i 1) = U (vtab (length (n_BN s)) (fun i => vget SC i - vget CR i - mget (t_BN o1) i 1))).
    { rewrite u_vtab. unfold vtab. apply map_ext. intros i. rewrite E1, !u_get. qring. }
    rewrite ES. set (SADJ := vtab _ (fun i => vget SC i - _ - _)).
    assert (EF : forallb (fun x => qleb q0 x) (U SADJ) = forallb (fun x => qleb q0 x) SADJ).
    { generalize SADJ. intros l. unfold in_unit. induction l as [|x l IH]; cbn [map forallb]; [reflexivity|]. now rewrite IH, (c_0leb c C0). }
    rewrite EF. destruct (forallb (fun x => qleb q0 x) SADJ); [intros E; injection E as <- <- <- <-; reflexivity|].
    assert (EC : vtab (length (n_BN s)) (fun i => if NLS then mget (UA (t_BN o1)) i 1 else q0) = U (vtab (length (n_BN s)) (fun i => if NLS then mget (t_BN o1) i 1 else q0))).
    { rewrite u_vtab. unfold vtab. apply map_ext. intros i. destruct NLS; [apply E1|symmetry; apply c_zero]. }
    rewrite EC. set (CADJ := vtab _ (fun i => if NLS then _ else _)). rewrite (emergency_u c). set (BN3 := emergency_rows (t_BN o1) SC CR CADJ).
    rewrite (residual_lines_u c C0), (residual_areas_u c). set (BLP := line_rows B SM LN).
    replace (if NLS then UL (residual_lines BLP (t_flow o1)) else UL BLP) with (UL (if NLS then residual_lines BLP (t_flow o1) else BLP)) by (destruct NLS; reflexivity).
    replace (if NLS then UA (residual_areas BN3 LP (t_flow o1)) else UA BN3) with (UA (if NLS then residual_areas BN3 LP (t_flow o1) else BN3)) by (destruct NLS; reflexivity).
    destruct (tm2 lp _ LP _ BLP0 _ _ LT NR NLS) as [o2|e] eqn:T2; cbn [bind]; [|discriminate].
    rewrite (tm2_le _ _ _ _ _ _ _ _ _ _ _ _ SP T2). cbn [bind t_flow t_BN t_BB t_ZB].
    assert (E2 : forall i, mget (UA (t_BN o2)) i 1 = c * mget (t_BN o2) i 1) by (intros i; unfold areas_in_unit; now rewrite t_get).
    intros E. injection E as <- <- <- <-. apply (f_equal Ok). apply f_equal2; [apply f_equal2; [reflexivity|]|].
    - rewrite u_vtab. unfold vtab. apply map_ext. intros i. rewrite E2, !u_get. qring.
    - unfold net_in_unit. cbn [n_BN n_BLP0 n_BB n_LT n_ZB]. f_equal. unfold areas_in_unit. symmetry. symmetry. apply t_mapi. intros i r. rewrite !r_upd. change (area_number 3) with false. change (area_number 4) with false. cbv iota.
      now rewrite t_get.
  Qed.
  Lemma careful_answers fuel LP LT NR : answers (careful c fuel LP LT NR) (lp_nls fuel LP LT NR).
  Proof using C0.
    intros BB BLP BN F B E. unfold careful in E. destruct (forallb _ _) eqn:EB; [|discriminate E]. rewrite lp_same; [rewrite E; reflexivity|].
    intros x Hx. rewrite forallb_forall in EB. specialize (EB x Hx). unfold not_tinyb in EB. apply orb_prop in EB. destruct EB as [H|H]; [left; now apply qeqb_iff|]. right.
    apply andb_prop in H. destruct H as (H1 & H2). apply qleb_iff in H1, H2. auto.
  Qed.
End Unit.

(** *** One is no change *)
Lemma one_v v : in_unit q1 v = v.
Proof. unfold in_unit. rewrite (map_ext _ (fun x => x)) by (intros x; qring). apply map_id. Qed.
Lemma one_t keep M : table_in_unit keep q1 M = M.
Proof.
  unfold table_in_unit. rewrite (map_ext _ (fun r => r)); [apply map_id|]. intros r. apply (nth_ext_eq _ _ q0); [apply r_len|]. intros i _. rewrite r_nth. destruct (keep i); [reflexivity|qring].
Qed.
Lemma one_net s : net_in_unit q1 s = s.
Proof. unfold net_in_unit, areas_in_unit. rewrite one_t. now destruct s. Qed.
Lemma careful_same inv c fuel LP' LT NR' IFLAG s B LP NR SM LN NLS TR TJ SC CR r :
  transm inv (careful c fuel LP' LT NR') IFLAG s B LP NR SM LN NLS TR TJ SC CR = Ok r ->
  transm inv (lp_nls fuel LP' LT NR') IFLAG s B LP NR SM LN NLS TR TJ SC CR = Ok r.
Proof.
  destruct r as [[[J F] SA] s1]. intros E.
  assert (AN : answers q1 (careful c fuel LP' LT NR') (lp_nls fuel LP' LT NR')).
  { intros BB BLP BN G H X. unfold areas_in_unit, lines_in_unit. rewrite !one_t, one_v. unfold careful in X. destruct (forallb _ _); [exact X|discriminate X]. }
  assert (P : (q0 < q1)%Qc) by (apply qltb_iff; reflexivity).
  pose proof (net_le q1 P _ _ _ _ _ _ _ _ _ _ _ _ _ _ _ _ _ _ _ AN E) as H. unfold lines_in_unit in H. rewrite !one_t, !one_v, !one_net in H. exact H.
Qed.
