(** Proofs for C128: only the ratios of the admittances matter. *)
From Verif Require Import Base BaseProofs Sums LoadModel NetModel LevelsProofs ScaleSpec ScaleProofs AdmSpec.
Open Scope Z_scope.
Open Scope Qc_scope.

Section Any.
  Variable c : Qc.
  Notation T := (every c).
  Lemma row_none r : row_in_unit (fun _ => false) c r = in_unit c r.
  Proof using . unfold row_in_unit, in_unit. unfold mapi. generalize 0%nat. induction r as [|x r IH]; intros b; cbn; [reflexivity|]. f_equal. apply IH. Qed.
  Lemma every_map M : T M = map (in_unit c) M.
  Proof using . unfold every, table_in_unit. apply map_ext. exact row_none. Qed.
  Lemma e_len M : length (T M) = length M. Proof using . apply t_len. Qed.
  Lemma e_get M i j : mget (T M) i j = c * mget M i j. Proof using . unfold every. rewrite t_get. reflexivity. Qed.
  Lemma e_madd M i j x : T (madd M i j x) = madd (T M) i j (c * x).
  Proof using . unfold madd, every. rewrite t_mupd, t_get. f_equal. qring. Qed.
  Lemma e_mtab n m f : T (mtab n m f) = mtab n m (fun i j => c * f i j).
  Proof using . rewrite every_map. unfold mtab. rewrite map_map. apply map_ext. intros i. apply u_vtab. Qed.
  Lemma e_zeros n m : T (mzeros n m) = mzeros n m.
  Proof using . rewrite every_map. unfold mzeros. induction n as [|n IH]; cbn; [reflexivity|]. rewrite IH. f_equal. apply u_zeros. Qed.
  Lemma e_del {A} (f : A -> A) k l : map f (del_nth k l) = del_nth k (map f l).
  Proof using . unfold del_nth. now rewrite map_app, firstn_map, skipn_map. Qed.
  Lemma e_block n M : block n (T M) = T (block n M).
  Proof using . rewrite !every_map. unfold block. rewrite firstn_map, !map_map. apply map_ext. intros r. unfold in_unit. apply firstn_map. Qed.
  Lemma e_pad M : pad1 (T M) = T (pad1 M).
  Proof using .
    rewrite !every_map. unfold pad1. rewrite map_app, !map_map. f_equal.
    - apply map_ext. intros r. unfold in_unit. rewrite map_app. cbn [map]. f_equal. f_equal. symmetry. apply c_zero.
    - cbn [map]. f_equal. rewrite u_zeros. f_equal. f_equal. destruct M as [|r M]; cbn [map nth]; [reflexivity|apply u_len].
  Qed.
  Lemma e_set n Z Y : set_block n (T Z) (T Y) = T (set_block n Z Y).
  Proof using . unfold set_block. rewrite e_mtab, e_len. unfold mtab, vtab. apply map_ext. intros i. apply map_ext. intros j. rewrite !e_get. destruct (_ && _)%bool; reflexivity. Qed.
  Lemma comb_u (LP : list (nat * nat)) v : combine LP (in_unit c v) = map (fun p => (fst p, c * snd p)) (combine LP v).
  Proof using . revert v; induction LP as [|l LP IH]; intros [|x v]; cbn; try reflexivity. f_equal. apply IH. Qed.
  Lemma admitb_line_e B l : admitb_line (T B) (fst l, c * snd l) = T (admitb_line B l).
  Proof using .
    destruct l as [[j k] b]. cbn [fst snd]. unfold admitb_line. rewrite !e_madd. f_equal. f_equal. unfold every at 3. rewrite t_mupd. fold (every c (madd B j k (b * qz (-1)))). rewrite e_madd.
    replace (c * b * qz (-1)) with (c * (b * qz (-1))) by qring. f_equal. rewrite <- e_madd. apply e_get.
  Qed.
  Lemma admitm_e B i j b : admitm (T B) i j (c * b) = T (admitm B i j b).
  Proof using . unfold admitm. rewrite !e_madd. replace (- (c * b)) with (c * - b) by qring. reflexivity. Qed.
  Lemma adm_col B : mcol (adm_times c B) 0 = in_unit c (mcol B 0).
  Proof using . unfold adm_times. rewrite t_col. reflexivity. Qed.
  Lemma admitb_e LP B : admitb LP (adm_times c B) = match admitb LP B with Ok M => Ok (T M) | Err e => Err e end.
  Proof using .
    unfold admitb. destruct LP as [|l0 LP0]; [reflexivity|]. set (LP := l0 :: LP0). f_equal. rewrite adm_col, comb_u. rewrite <- (e_zeros (lp_areas LP) (lp_areas LP)) at 1. generalize (mzeros (lp_areas LP) (lp_areas LP)) as Z.
    induction (combine LP (mcol B 0)) as [|l ls IH]; intros Z; cbn [map fold_left]; [reflexivity|]. rewrite admitb_line_e. apply IH.
  Qed.
  Lemma admitr_e B BN NR : admitr (T B) BN NR = (T (fst (admitr B BN NR)), snd (admitr B BN NR)).
  Proof using .
    unfold admitr. cbn [fst snd]. f_equal. rewrite <- e_pad. f_equal. rewrite !every_map, !map_map, <- e_del, map_map. apply map_ext. intros r. unfold in_unit. symmetry. apply e_del.
  Qed.
  Lemma firstn_adm B : map (firstn 3) (adm_times c B) = adm_times c (map (firstn 3) B).
  Proof using .
    unfold adm_times, table_in_unit. rewrite !map_map. apply map_ext. intros r. apply (nth_ext_eq _ _ q0).
    - rewrite r_len, !firstn_length, r_len. reflexivity.
    - intros i Hi. rewrite firstn_length, r_len in Hi. rewrite r_nth. rewrite !nth_first_ by lia. apply r_nth.
  Qed.
  Lemma adm_lim B i j : admittance j = false -> mget (adm_times c B) i j = mget B i j.
  Proof using . intros E. unfold adm_times. rewrite t_get, E. reflexivity. Qed.
  Lemma line_rows_a B SM LN : line_rows (adm_times c B) SM LN = adm_times c (line_rows B SM LN).
  Proof using .
    unfold line_rows. unfold adm_times at 2, table_in_unit. rewrite map_map. apply map_ext. intros i. unfold line_row, adm_times. rewrite !t_get.
    set (L := Z.to_nat _). assert (EL : exists m, L = (m * 3)%nat) by (exists (Z.to_nat (zget LN i - 1)); unfold L; lia). destruct EL as (m & ->).
    assert (A : admittance (m * 3) = true /\ admittance (m * 3 + 1) = false /\ admittance (m * 3 + 2) = false).
    { unfold admittance. rewrite Nat.mod_mul by lia. rewrite !(Nat.add_comm (m * 3)), !Nat.mod_add by lia. repeat split. }
    destruct A as (-> & -> & ->). reflexivity.
  Qed.
  Lemma residual_lines_a B F : residual_lines (adm_times c B) F = adm_times c (residual_lines B F).
  Proof using .
    unfold residual_lines, adm_times. apply t_mapi. intros i r. rewrite !r_nth. change (admittance 0) with true. change (admittance 1) with false. change (admittance 2) with false. reflexivity.
  Qed.
  Lemma accepts_a F SF B BN : tm2_accepts F SF (adm_times c B) BN = tm2_accepts F SF B BN.
  Proof using . unfold tm2_accepts. f_equal. apply forall_same. intros i. now rewrite !adm_lim by reflexivity. Qed.
End Any.

Section Unit.
  Variable k : Qc. Hypothesis K0 : k <> q0.
  Notation h := (Qcinv k). Notation E := (every k). Notation H := (every h). Notation AL := (adm_times k).
  Lemma kh : k * h = q1. Proof using K0. apply Qcmult_inv_r. exact K0. Qed.
  Lemma h_nz : h <> q0. Proof using K0. intros X. pose proof kh as Y. rewrite X in Y. replace (k * q0) with q0 in Y by qring. discriminate Y. Qed.
  Lemma inv_mul b : / (k * b) = h * / b.
  Proof using K0.
    destruct (Qc_eq_dec b q0) as [->|NZ]; [replace (k * q0) with q0 by qring; rewrite inv0; qring|]. change q0 with 0 in *. field. auto.
  Qed.
  Lemma z_k b : Qcdiv (qz (-1)) (k * b) = h * Qcdiv (qz (-1)) b.
  Proof using K0. unfold Qcdiv. rewrite inv_mul. qring. Qed.
  Lemma z_h a b n : Qcdiv (h * a * (h * b)) (h * n) = h * Qcdiv (a * b) n.
  Proof using K0.
    destruct (Qc_eq_dec n q0) as [->|NZ]; [replace (h * q0) with q0 by qring; unfold Qcdiv; rewrite inv0; qring|]. pose proof h_nz as HN. unfold Qcdiv. change q0 with 0 in *. field. auto.
  Qed.
  Lemma k_eqb a b : qeqb (k * a) (k * b) = qeqb a b.
  Proof using K0.
    destruct (qeqb a b) eqn:Q; [apply qeqb_iff in Q; rewrite Q; now apply qeqb_iff|]. destruct (qeqb (k * a) (k * b)) eqn:Q'; [|reflexivity]. apply qeqb_iff in Q'.
    assert (X : a = b). { replace a with (h * (k * a)); [|replace (h * (k * a)) with (k * h * a) by qring; rewrite kh; qring]. rewrite Q'. replace (h * (k * b)) with (k * h * b) by qring. rewrite kh. qring. }
    apply qeqb_iff in X. congruence.
  Qed.
  Lemma k_eqb0 a : qeqb (k * a) q0 = qeqb a q0. Proof using K0. replace q0 with (k * q0) at 1 by qring. apply k_eqb. Qed.
  Lemma ximpa_e Z z i j : ximpa (H Z) (h * z) i j = H (ximpa Z z i j).
  Proof using K0.
    unfold ximpa. rewrite e_len, e_mtab. unfold mtab, vtab. apply map_ext. intros a. apply map_ext. intros b. rewrite !e_get.
    replace (h * mget Z a i - h * mget Z a j) with (h * (mget Z a i - mget Z a j)) by qring. replace (h * mget Z b i - h * mget Z b j) with (h * (mget Z b i - mget Z b j)) by qring.
    replace (h * mget Z i i + h * mget Z j j - qz 2 * (h * mget Z i j) - h * z) with (h * (mget Z i i + mget Z j j - qz 2 * mget Z i j - z)) by qring. rewrite z_h. qring.
  Qed.
  Lemma ximpar_e Z z i : ximpar (H Z) (h * z) i = H (ximpar Z z i).
  Proof using K0.
    unfold ximpar. rewrite e_len, e_mtab. unfold mtab, vtab. apply map_ext. intros a. apply map_ext. intros b. rewrite !e_get.
    replace (h * mget Z i i - h * z) with (h * (mget Z i i - z)) by qring. rewrite z_h. qring.
  Qed.
  Definition both (st : list (list Qc) * list (list Qc)) := (E (fst st), H (snd st)).
  Lemma line_e IEQ NX NR st l b b0 : tm2_line IEQ NX NR (both st) (l, (k * b, k * b0)) = both (tm2_line IEQ NX NR st (l, (b, b0))).
  Proof using K0.
    destruct st as (BB, ZB), l as (ni, nj). unfold both at 1. cbn [fst snd]. unfold tm2_line. rewrite k_eqb, k_eqb0. replace (- (k * b0)) with (k * - b0) by qring.
    destruct (qeqb b b0); [reflexivity|]. destruct (negb _).
    - destruct (qeqb b q0).
      + rewrite admitm_e, z_k, ximpa_e, e_set. reflexivity.
      + rewrite !admitm_e, !z_k, ximpa_e, e_set, ximpa_e, e_set. reflexivity.
    - destruct (qeqb b q0); [reflexivity|]. cbn [fold_left fst snd]. unfold both, admref. cbn [fst snd]. rewrite !e_madd, !z_k, ximpar_e, e_set, ximpar_e, e_set. reflexivity.
  Qed.
  Lemma update_e LP B B0 IEQ NX NR BB ZB : tm2_update LP (AL B) (in_unit k B0) IEQ NX NR (E BB) (H ZB) = both (tm2_update LP B B0 IEQ NX NR BB ZB).
  Proof using K0.
    unfold tm2_update. rewrite adm_col. change (E BB, H ZB) with (both (BB, ZB)). generalize (BB, ZB) as st. generalize (mcol B 0) as v. revert B0.
    induction LP as [|l LP IH]; intros B0 v st; [reflexivity|]. destruct v as [|b v]; [reflexivity|]. destruct B0 as [|b0 B0]; [reflexivity|].
    unfold in_unit. cbn [map combine fold_left]. rewrite line_e. apply IH.
  Qed.
  Lemma theta_e Z v : theta (H Z) v = in_unit h (theta Z v).
  Proof using .
    rewrite every_map. unfold theta, in_unit at 2. rewrite !map_map. apply map_ext. intros r. unfold qdot, in_unit. revert v. induction r as [|a r IH]; intros [|b v]; cbn [map combine]; try (rewrite !qsum_nil; symmetry; apply c_zero).
    rewrite !qsum_cons, IH. cbn [fst snd]. qring.
  Qed.
  Lemma flo_e LP B Th : flo LP (AL B) (in_unit h Th) = flo LP B Th.
  Proof using K0.
    assert (F : forall l, line_flow (in_unit h Th) (fst l, k * snd l) = line_flow Th l).
    { intros l. unfold line_flow. cbn [fst snd]. rewrite !u_get. replace ((h * vget Th (fst (fst l)) - h * vget Th (snd (fst l))) * (k * snd l)) with (k * h * ((vget Th (fst (fst l)) - vget Th (snd (fst l))) * snd l)) by qring. rewrite kh. qring. }
    unfold flo. rewrite adm_col, comb_u, u_len. cbv zeta. f_equal.
    - generalize (vzeros (length Th)). induction (combine LP (mcol B 0)) as [|l ls IH]; intros v; cbn [map fold_left]; [reflexivity|]. rewrite F. cbn [fst snd]. apply IH.
    - rewrite map_map. apply map_ext. exact F.
  Qed.
  Lemma solve_e BN LP B Z LT NLS : tm2_solve BN LP (AL B) (H Z) LT NLS = tm2_solve BN LP B Z LT NLS.
  Proof using K0.
    unfold tm2_solve. destruct (assign _ _ LT NLS) as [I1 L1]. rewrite theta_e, thetac_u, flo_e. reflexivity.
  Qed.
  Lemma tm2_e er BN LP B B0 BB ZB LT NR NLS : tm2 (refuse er) BN LP (AL B) (in_unit k B0) (E BB) (H ZB) LT NR NLS =
    match tm2 (refuse er) BN LP B B0 BB ZB LT NR NLS with
    | Ok o => Ok (mkTm2 (t_flow o) (t_accepted o) (t_BN o) (E (t_BB o)) (H (t_ZB o))) | Err e => Err e end.
  Proof using K0.
    unfold tm2. rewrite update_e. cbv zeta. destruct (tm2_update LP B B0 _ _ NR BB ZB) as [BB1 ZB1]. unfold both. cbn [fst snd]. rewrite solve_e.
    destruct (tm2_solve BN LP B ZB1 LT NLS) as [[[I1 L1] S1] F1]. rewrite accepts_a. destruct (tm2_accepts F1 S1 B BN); [|destruct NLS; reflexivity]. cbn [t_flow t_accepted t_BN t_BB t_ZB]. now rewrite !e_set.
  Qed.
  Lemma tm1_e inv inv' BN LP B NR : same_routine k inv inv' -> tm1 inv' BN LP (map (firstn 3) (AL B)) NR =
    match tm1 inv BN LP (map (firstn 3) B) NR with Ok (B0, BB, LT, ZB) => Ok (in_unit k B0, E BB, LT, H ZB) | Err e => Err e end.
  Proof using .
    intros SR. unfold tm1. rewrite firstn_adm, admitb_e, adm_col. destruct (admitb LP (map (firstn 3) B)) as [M|e]; cbn [bind]; [|reflexivity].
    rewrite admitr_e. destruct (admitr M BN NR) as [BB LT]. cbn [fst snd]. rewrite e_block, SR. destruct (inv _) as [Z|]; cbn [option_map]; [|reflexivity]. now rewrite e_pad.
  Qed.
  Lemma net_e inv inv' er IFLAG s B LP NR SM LN NLS TR TJ SC CR : same_routine k inv inv' ->
    transm inv' (refuse er) IFLAG (net_adm k s) (AL B) LP NR SM LN NLS TR TJ SC CR =
    match transm inv (refuse er) IFLAG s B LP NR SM LN NLS TR TJ SC CR with
    | Ok (J, F, SA, s1) => Ok (J, F, SA, net_adm k s1) | Err e => Err e end.
  Proof using K0.
    intros SR. unfold transm. cbn [net_adm n_BN n_BLP0 n_BB n_LT n_ZB]. rewrite (tm1_e inv inv') by exact SR.
    assert (EB : (if IFLAG then Ok (in_unit k (n_BLP0 s), E (n_BB s), n_LT s, H (n_ZB s)) else match tm1 inv (n_BN s) LP (map (firstn 3) B) NR with Ok (B0, BB, LT, ZB) => Ok (in_unit k B0, E BB, LT, H ZB) | Err e => Err e end) =
      match (if IFLAG then Ok (n_BLP0 s, n_BB s, n_LT s, n_ZB s) else tm1 inv (n_BN s) LP (map (firstn 3) B) NR) with Ok (B0, BB, LT, ZB) => Ok (in_unit k B0, E BB, LT, H ZB) | Err e => Err e end) by (destruct IFLAG; reflexivity).
    rewrite EB. destruct (if IFLAG then Ok (n_BLP0 s, _, _, _) else _) as [[[[BLP0 BB] LT] ZB]|e]; cbn [bind]; [|reflexivity].
    rewrite line_rows_a, tm2_e. destruct (tm2 (refuse er) (sched_rows (n_BN s) TR TJ SC CR) LP _ _ _ _ _ _ true) as [o1|e]; cbn [bind t_flow t_BN t_BB t_ZB]; [|reflexivity].
    destruct (forallb _ _); [reflexivity|]. rewrite residual_lines_a. set (BLP := line_rows B SM LN).
    replace (if NLS then AL (residual_lines BLP (t_flow o1)) else AL BLP) with (AL (if NLS then residual_lines BLP (t_flow o1) else BLP)) by (destruct NLS; reflexivity).
    rewrite tm2_e. destruct (tm2 (refuse er) _ LP _ BLP0 _ _ LT NR NLS) as [o2|e]; cbn [bind t_flow t_BN t_BB t_ZB]; reflexivity.
  Qed.
End Unit.
