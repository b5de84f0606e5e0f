(** Proofs for C127: the network is proportional. *)
From Verif Require Import Base BaseProofs Sums LoadModel NetModel ScaleSpec.
Open Scope Z_scope.
Open Scope Qc_scope.

Lemma nth_first_ {A} (d : A) : forall n l j, (j < n)%nat -> nth j (firstn n l) d = nth j l d.
Proof. induction n as [|n IH]; intros [|x l] [|j] H; cbn [firstn nth]; try lia; try reflexivity; apply IH; lia. Qed.
Section Unit.
  Variable c : Qc. Hypothesis C0 : q0 < c.
  Notation U := (in_unit c). Notation UA := (areas_in_unit c). Notation UL := (lines_in_unit c).
  Lemma c_nz : c <> q0. Proof using C0. intros E. rewrite E in C0. exact (Qclt_not_eq _ _ C0 eq_refl). Qed.
  Lemma c_le a b : c * a <= c * b <-> a <= b.
  Proof using C0.
    split; intros H.
    - apply Qcnot_lt_le. intros L. pose proof (Qcmult_lt_compat_r _ _ c C0 L) as X. rewrite !(Qcmult_comm _ c) in X. exact (Qclt_not_le _ _ X H).
    - rewrite !(Qcmult_comm c). apply Qcmult_le_compat_r; [exact H|now apply Qclt_le_weak].
  Qed.
  Lemma c_leb a b : qleb (c * a) (c * b) = qleb a b.
  Proof using C0. destruct (qleb a b) eqn:E; [apply qleb_iff, c_le, qleb_iff; exact E|]. apply BaseProofs.qleb_false in E. apply BaseProofs.qleb_false. apply Qcnot_le_lt. intros H. pose proof (proj1 (c_le _ _) H) as H'. exact (Qclt_not_le _ _ E H'). Qed.
  Lemma c_ltb a b : qltb (c * a) (c * b) = qltb a b.
  Proof using C0. destruct (qltb a b) eqn:E; [apply qltb_iff in E; apply qltb_iff; apply Qcnot_le_lt; intros H; pose proof (proj1 (c_le _ _) H) as H'; exact (Qclt_not_le _ _ E H')|]. apply BaseProofs.qltb_false in E. apply BaseProofs.qltb_false. now apply c_le. Qed.
  Lemma c_zero : c * q0 = q0. Proof using . qring. Qed.
  Lemma c_leb0 a : qleb (c * a) q0 = qleb a q0. Proof using C0. rewrite <- c_zero at 1. apply c_leb. Qed.
  Lemma c_0leb a : qleb q0 (c * a) = qleb q0 a. Proof using C0. rewrite <- c_zero at 1. apply c_leb. Qed.
  Lemma c_ltb0 a : qltb (c * a) q0 = qltb a q0. Proof using C0. rewrite <- c_zero at 1. apply c_ltb. Qed.
  Lemma c_0ltb a : qltb q0 (c * a) = qltb q0 a. Proof using C0. rewrite <- c_zero at 1. apply c_ltb. Qed.
  Lemma c_abs a : qabs (c * a) = c * qabs a. Proof using C0. unfold qabs. rewrite c_ltb0. destruct (qltb a q0); [qring|reflexivity]. Qed.
  Lemma c_max a b : qmax (c * a) (c * b) = c * qmax a b. Proof using C0. unfold qmax. rewrite c_leb. now destruct (qleb a b). Qed.
  Lemma c_max0 a : qmax (c * a) q0 = c * qmax a q0. Proof using C0. rewrite <- c_zero at 1. apply c_max. Qed.
  Lemma c_min0 a : qmin (c * a) q0 = c * qmin a q0. Proof using C0. unfold qmin. rewrite c_leb0. destruct (qleb a q0); [reflexivity|qring]. Qed.
  Lemma inv0 : / q0 = q0. Proof using . apply Qc_is_canon. reflexivity. Qed.
  Lemma c_ratio a b : Qcdiv (c * a) (c * b) = Qcdiv a b.
  Proof using C0.
    destruct (Qc_eq_dec b q0) as [->|NZ]; [rewrite c_zero; unfold Qcdiv; rewrite inv0; qring|].
    pose proof c_nz as CN. change q0 with 0%Qc in *. field. auto.
  Qed.
  Lemma c_share a d s : Qcdiv (c * a * (c * d)) (c * s) = c * Qcdiv (a * d) s.
  Proof using C0. replace (c * a * (c * d)) with (c * (c * (a * d))) by qring. rewrite c_ratio. unfold Qcdiv. qring. Qed.

  Lemma u_len v : length (U v) = length v. Proof using . apply map_length. Qed.
  Lemma u_get v i : vget (U v) i = c * vget v i.
  Proof using . unfold vget, in_unit. rewrite <- c_zero at 1. apply map_nth. Qed.
  Lemma u_nth v i : nth i (U v) q0 = c * nth i v q0. Proof using . exact (u_get v i). Qed.
  Lemma u_upd v i x : U (upd v i x) = upd (U v) i (c * x).
  Proof using . revert i; induction v as [|a v IH]; intros [|i]; cbn; try reflexivity. f_equal. apply IH. Qed.
  Lemma u_zeros n : U (vzeros n) = vzeros n.
  Proof using . unfold in_unit, vzeros. induction n as [|n IH]; cbn; [reflexivity|]. rewrite IH. f_equal. apply c_zero. Qed.
  Lemma u_vtab n f : U (vtab n f) = vtab n (fun i => c * f i). Proof using . unfold in_unit, vtab. now rewrite map_map. Qed.
  Lemma u_sum v : qsum (U v) = c * qsum v.
  Proof using . unfold in_unit. induction v as [|a v IH]; cbn [map]; [rewrite !qsum_nil; symmetry; apply c_zero|]. rewrite !qsum_cons, IH. qring. Qed.
  Lemma u_filter (p : Qc -> bool) v : (forall x, p (c * x) = p x) -> filter p (U v) = U (filter p v).
  Proof using . intros H. unfold in_unit. induction v as [|a v IH]; cbn [map filter]; [reflexivity|]. rewrite H, IH. now destruct (p a). Qed.
  Lemma u_mapf f g v : (forall e, f (c * e) = c * g e) -> map f (U v) = U (map g v).
  Proof using . intros H. unfold in_unit. rewrite !map_map. apply map_ext. exact H. Qed.

  (** tables *)
  Lemma r_len keep r : length (row_in_unit keep c r) = length r. Proof using . apply mapi_length. Qed.
  Lemma r_nth keep r j : nth j (row_in_unit keep c r) q0 = if keep j then nth j r q0 else c * nth j r q0.
  Proof using .
    destruct (Nat.lt_ge_cases j (length r)) as [H|H]; [unfold row_in_unit; now rewrite (nth_mapi _ _ _ q0)|].
    rewrite !nth_overflow by (rewrite ?r_len; exact H). rewrite c_zero. now destruct (keep j).
  Qed.
  Lemma r_upd keep r j x : row_in_unit keep c (upd r j x) = upd (row_in_unit keep c r) j (if keep j then x else c * x).
  Proof using .
    apply (nth_ext_eq _ _ q0); [rewrite r_len, !upd_length, r_len; reflexivity|]. intros i Hi. rewrite r_nth, !nth_upd, r_len, r_nth.
    destruct (Nat.eqb_spec j i) as [->|]; cbn [andb]; [destruct (i <? length r)%nat|]; destruct (keep i); reflexivity.
  Qed.
  Lemma t_len keep M : length (table_in_unit keep c M) = length M. Proof using . apply map_length. Qed.
  Lemma t_nth keep M i : nth i (table_in_unit keep c M) [] = row_in_unit keep c (nth i M []).
  Proof using . unfold table_in_unit. change (@nil Qc) with (row_in_unit keep c []) at 1. apply map_nth. Qed.
  Lemma t_get keep M i j : mget (table_in_unit keep c M) i j = if keep j then mget M i j else c * mget M i j.
  Proof using . unfold mget. rewrite t_nth. apply r_nth. Qed.
  Lemma t_upd keep M i r : table_in_unit keep c (upd M i r) = upd (table_in_unit keep c M) i (row_in_unit keep c r).
  Proof using . revert i; induction M as [|a v IH]; intros [|i]; cbn; try reflexivity. f_equal. apply IH. Qed.
  Lemma t_mupd keep M i j x : table_in_unit keep c (mupd M i j x) = mupd (table_in_unit keep c M) i j (if keep j then x else c * x).
  Proof using . unfold mupd. rewrite t_upd, r_upd, t_nth. reflexivity. Qed.
  Lemma t_col keep M j : mcol (table_in_unit keep c M) j = if keep j then mcol M j else U (mcol M j).
  Proof using .
    unfold mcol, table_in_unit, in_unit. rewrite map_map. destruct (keep j) eqn:E; [|rewrite map_map]; apply map_ext; intros r; rewrite r_nth, E; reflexivity.
  Qed.
  Lemma t_mapi keep (f g : nat -> list Qc -> list Qc) M : (forall i r, f i (row_in_unit keep c r) = row_in_unit keep c (g i r)) ->
    mapi f (table_in_unit keep c M) = table_in_unit keep c (mapi g M).
  Proof using .
    intros H. apply (nth_ext_eq _ _ []); [rewrite mapi_length, !t_len, mapi_length; reflexivity|]. intros i Hi. rewrite mapi_length, t_len in Hi.
    rewrite (nth_mapi _ _ _ []) by (rewrite t_len; exact Hi). rewrite !t_nth, (nth_mapi g _ _ []) by exact Hi. apply H.
  Qed.

  (** balancing *)
  Lemma lodc_u LT vals vals' L : vals' = map (fun p : nat * Qc => (fst p, c * snd p)) vals -> set_lodc LT vals' (U L) = U (set_lodc LT vals L).
  Proof using .
    intros ->. unfold set_lodc. revert L. induction vals as [|(i, x) vals IH]; intros L; cbn [map fold_left fst snd]; [reflexivity|]. rewrite <- u_upd. apply IH.
  Qed.
  Lemma assign_u INJ LOD LT NLS : assign (U INJ) (U LOD) LT NLS = (U (fst (assign INJ LOD LT NLS)), U (snd (assign INJ LOD LT NLS))).
  Proof using C0.
    unfold assign. rewrite u_len. assert (SN : qabs (sum_neg (U INJ)) = c * qabs (sum_neg INJ)).
    { unfold sum_neg. rewrite u_filter by apply c_leb0. rewrite u_sum. apply c_abs. }
    assert (SP : sum_pos (U INJ) = c * sum_pos INJ) by (unfold sum_pos; rewrite u_filter by apply c_0ltb; apply u_sum).
    rewrite SN, SP, c_leb, c_0ltb, !c_ratio. set (a := qabs (sum_neg INJ)). set (b := sum_pos INJ).
    destruct (qleb a b); cbn [fst snd].
    - rewrite u_zeros. f_equal. apply u_mapf. intros x. rewrite c_0ltb. destruct (qltb q0 x); [qring|reflexivity].
    - destruct NLS; cbn [fst snd].
      + assert (E : map (fun e => if qleb e q0 then e * Qcdiv b a else e) (U INJ) = U (map (fun e => if qleb e q0 then e * Qcdiv b a else e) INJ)).
        { apply u_mapf. intros x. rewrite c_leb0. destruct (qleb x q0); [qring|reflexivity]. }
        rewrite E. f_equal. rewrite <- (u_zeros (length INJ)) at 1. apply lodc_u. rewrite map_map. set (J := map _ INJ).
        rewrite (filter_ext _ (fun i => qleb (vget J i) q0)) by (intros i; rewrite u_get; apply c_leb0).
        apply map_ext. intros i. cbn [fst snd]. rewrite !u_get. f_equal. qring.
      + assert (E : set_lodc LT (map (fun i => (i, Qcdiv (vget (U LOD) (nth i LT 0%nat) * (c * a - c * b)) (qsum (U LOD)))) (seq 0 (length INJ))) (vzeros (length INJ)) =
            U (set_lodc LT (map (fun i => (i, Qcdiv (vget LOD (nth i LT 0%nat) * (a - b)) (qsum LOD))) (seq 0 (length INJ))) (vzeros (length INJ)))).
        { rewrite <- (u_zeros (length INJ)) at 1. apply lodc_u. rewrite map_map. apply map_ext. intros i. cbn [fst snd]. rewrite u_get, u_sum. f_equal.
          replace (c * a - c * b) with (c * (a - b)) by qring. apply c_share. }
        rewrite E. f_equal. set (L := set_lodc _ _ _). apply (nth_ext_eq _ _ q0); [rewrite mapi_length, !u_len, mapi_length; reflexivity|]. intros i Hi. rewrite mapi_length, u_len in Hi.
        rewrite (nth_mapi _ _ _ q0) by (rewrite u_len; exact Hi). rewrite !u_nth, u_get, (nth_mapi _ INJ _ q0) by exact Hi. qring.
  Qed.

  (** angles and flows *)
  Lemma dot_u r v : qdot r (U v) = c * qdot r v.
  Proof using .
    unfold qdot, in_unit. revert v. induction r as [|a r IH]; intros [|b v]; cbn [map combine]; try (rewrite !qsum_nil; symmetry; apply c_zero).
    rewrite !qsum_cons, IH. cbn [fst snd]. qring.
  Qed.
  Lemma theta_u Z v : theta Z (U v) = U (theta Z v).
  Proof using . unfold theta, in_unit. rewrite map_map. apply map_ext. intros r. apply dot_u. Qed.
  Lemma removelast_u v : removelast (U v) = U (removelast v).
  Proof using . unfold in_unit. induction v as [|a [|b v] IH]; cbn [map removelast] in *; try reflexivity. now rewrite IH. Qed.
  Lemma thetac_u T LT : thetac (U T) LT = U (thetac T LT).
  Proof using .
    unfold thetac. rewrite removelast_u, u_len. rewrite <- (u_zeros (length T)) at 1. generalize (vzeros (length T)) as v. generalize (removelast LT) as l. generalize (removelast T) as t.
    intros t l. revert t. induction l as [|k l IH]; intros [|x t] v; try reflexivity. unfold in_unit at 1. cbn [map combine fold_left fst snd]. rewrite <- u_upd. apply IH.
  Qed.
  Lemma line_flow_u T l : line_flow (U T) l = c * line_flow T l.
  Proof using . unfold line_flow. rewrite !u_get. qring. Qed.
  Lemma addv_u v i x : addv (U v) i (c * x) = U (addv v i x).
  Proof using . unfold addv. rewrite u_upd. f_equal. pose proof (u_get v i) as X. unfold vget in X. rewrite X. qring. Qed.
  Lemma flo_u LP BLP T : flo LP (UL BLP) (U T) = (U (fst (flo LP BLP T)), U (snd (flo LP BLP T))).
  Proof using .
    unfold flo. unfold lines_in_unit. rewrite t_col, u_len. change (admittance 0) with true. cbv iota zeta. cbn [fst snd]. f_equal.
    - rewrite <- (u_zeros (length T)) at 1. generalize (vzeros (length T)). induction (combine LP (mcol BLP 0)) as [|l ls IH]; intros v; cbn [fold_left]; [reflexivity|].
      rewrite line_flow_u, addv_u. replace (- (c * line_flow T l)) with (c * - line_flow T l) by qring. rewrite addv_u. apply IH.
    - unfold in_unit. rewrite map_map. apply map_ext. intros l. apply line_flow_u.
  Qed.
  Lemma solve_u BN LP BLP ZB LT NLS : tm2_solve (UA BN) LP (UL BLP) ZB LT NLS =
    let '(I1, L1, S1, F1) := tm2_solve BN LP BLP ZB LT NLS in (U I1, U L1, U S1, U F1).
  Proof using C0.
    unfold tm2_solve. unfold areas_in_unit. rewrite !t_col. change (area_number 1) with false. change (area_number 2) with false. cbv iota zeta.
    replace (map (fun k => vget (U (mcol BN 2)) k) LT) with (U (map (fun k => vget (mcol BN 2) k) LT)) by (unfold in_unit at 1; rewrite map_map; apply map_ext; intros k; now rewrite u_get).
    rewrite assign_u. destruct (assign _ _ LT NLS) as [I1 L1]. cbn [fst snd]. rewrite theta_u, thetac_u, flo_u. destruct (flo LP BLP _) as [S1 F1]. reflexivity.
  Qed.

  (** one solution *)
  Lemma over_u f a b : over (c * f) (c * a) (c * b) = over f a b.
  Proof using C0. unfold over. rewrite c_0leb, c_abs, !c_ltb. reflexivity. Qed.
  Lemma forall_same (f g : nat -> bool) l : (forall x, f x = g x) -> forallb f l = forallb g l.
  Proof using . intros H. induction l as [|x l IH]; cbn [forallb]; [reflexivity|]. now rewrite H, IH. Qed.
  Lemma accepts_u F SF BLP BN : tm2_accepts (U F) (U SF) (UL BLP) (UA BN) = tm2_accepts F SF BLP BN.
  Proof using C0.
    unfold tm2_accepts, areas_in_unit, lines_in_unit. rewrite u_len, t_len. f_equal; apply forall_same; intros i; rewrite !t_get, u_get.
    - change (admittance 1) with false. change (admittance 2) with false. cbv iota. now rewrite over_u.
    - change (area_number 3) with false. change (area_number 4) with false. cbv iota. now rewrite over_u.
  Qed.
  Lemma store_u LT I1 L1 BN : store_solution LT (U I1) (U L1) (UA BN) = UA (store_solution LT I1 L1 BN).
  Proof using .
    unfold store_solution, areas_in_unit. rewrite t_len. generalize (seq 0 (length BN)) as l. intros l. revert BN. induction l as [|i l IH]; intros BN; cbn [fold_left]; [reflexivity|].
    rewrite <- IH. f_equal. rewrite !t_mupd. change (area_number 1) with false. change (area_number 2) with false. cbv iota. now rewrite !u_get.
  Qed.
  Lemma update_u LP BLP BLP0 IEQ NX NR BB ZB : tm2_update LP (UL BLP) BLP0 IEQ NX NR BB ZB = tm2_update LP BLP BLP0 IEQ NX NR BB ZB.
  Proof using . unfold tm2_update, lines_in_unit. rewrite t_col. reflexivity. Qed.
  Lemma tm2_u lp lp' BN LP BLP BLP0 BB ZB LT NR NLS : same_program c lp lp' ->
    tm2 lp' (UA BN) LP (UL BLP) BLP0 BB ZB LT NR NLS =
    match tm2 lp BN LP BLP BLP0 BB ZB LT NR NLS with
    | Ok o => Ok (mkTm2 (U (t_flow o)) (t_accepted o) (UA (t_BN o)) (t_BB o) (t_ZB o)) | Err e => Err e end.
  Proof using C0.
    intros SP. assert (EL : length (UA BN) = length BN) by apply t_len. unfold tm2. rewrite EL, update_u. cbv zeta. destruct (tm2_update _ _ _ _ _ _ _ _) as [BB1 ZB1]. rewrite solve_u.
    destruct (tm2_solve BN LP BLP ZB1 LT NLS) as [[[I1 L1] S1] F1]. rewrite accepts_u. destruct (tm2_accepts F1 S1 BLP BN); cbn [t_flow t_accepted t_BN t_BB t_ZB].
    - now rewrite store_u.
    - destruct NLS; [|reflexivity]. rewrite SP. destruct (lp BB1 BLP BN) as [[F B]|e]; reflexivity.
  Qed.

  (** the preparation of the rows *)
  Lemma line_rows_u B SM LN : line_rows (UL B) SM LN = UL (line_rows B SM LN).
  Proof using .
    unfold line_rows, lines_in_unit, table_in_unit at 2. rewrite map_map. apply map_ext. intros i. unfold line_row. rewrite !t_get.
    set (L := Z.to_nat _). assert (EL : exists m, L = (m * 3)%nat) by (exists (Z.to_nat (zget LN i - 1)); unfold L; lia). destruct EL as (m & ->).
    assert (A : admittance (m * 3) = true /\ admittance (m * 3 + 1) = false /\ admittance (m * 3 + 2) = false).
    { unfold admittance. rewrite Nat.mod_mul by lia. rewrite !(Nat.add_comm (m * 3)), !Nat.mod_add by lia. repeat split. }
    destruct A as (-> & -> & ->). unfold row_in_unit, mapi. cbn [length seq combine map fst snd]. change (admittance 0) with true. change (admittance 1) with false. change (admittance 2) with false. cbv iota. f_equal. f_equal; [qring|]. f_equal. qring.
  Qed.
  Lemma sched_u BN TR TJ SC CR : sched_rows (UA BN) (U TR) (U TJ) (U SC) (U CR) = UA (sched_rows BN TR TJ SC CR).
  Proof using C0.
    unfold sched_rows, areas_in_unit. apply t_mapi. intros i r. rewrite !r_upd, !u_get. change (area_number 1) with false. change (area_number 2) with false. cbv iota.
    rewrite c_zero. f_equal. f_equal. replace (c * vget TR i + c * vget TJ i) with (c * (vget TR i + vget TJ i)) by qring. replace (c * vget SC i - c * vget CR i) with (c * (vget SC i - vget CR i)) by qring.
    now rewrite c_min0, c_max.
  Qed.
  Lemma emergency_u BN SC CR CA : emergency_rows (UA BN) (U SC) (U CR) (U CA) = UA (emergency_rows BN SC CR CA).
  Proof using .
    unfold emergency_rows, areas_in_unit. apply t_mapi. intros i r. rewrite !r_upd, !u_get. change (area_number 1) with false. change (area_number 2) with false. cbv iota.
    f_equal. f_equal. qring.
  Qed.
  Lemma residual_lines_u BLP F : residual_lines (UL BLP) (U F) = UL (residual_lines BLP F).
  Proof using C0.
    unfold residual_lines, lines_in_unit. apply t_mapi. intros i r. rewrite !r_nth, u_get. change (admittance 0) with true. change (admittance 1) with false. change (admittance 2) with false. cbv iota.
    unfold row_in_unit at 1, mapi. cbn [length seq combine map fst snd]. change (admittance 0) with true. change (admittance 1) with false. change (admittance 2) with false. cbv iota.
    replace (c * nth 1 r q0 - c * vget F i) with (c * (nth 1 r q0 - vget F i)) by qring. replace (c * nth 2 r q0 + c * vget F i) with (c * (nth 2 r q0 + vget F i)) by qring. now rewrite !c_max0.
  Qed.
  Lemma fancy_u BN j ends x : area_number j = false -> fancy_add (UA BN) j ends (U x) = UA (fancy_add BN j ends x).
  Proof using .
    intros E. unfold fancy_add, areas_in_unit. set (BN0 := BN) at 1 3. clearbody BN0. 
    assert (H : forall (l : list (nat * Qc)) B, fold_left (fun B p => mupd B (fst p) j (mget (table_in_unit area_number c BN0) (fst p) j + snd p)) (map (fun p => (fst p, c * snd p)) l) (table_in_unit area_number c B) =
       table_in_unit area_number c (fold_left (fun B p => mupd B (fst p) j (mget BN0 (fst p) j + snd p)) l B)).
    { induction l as [|(k, y) l IH]; intros B; cbn [map fold_left fst snd]; [reflexivity|]. rewrite <- IH. f_equal. rewrite t_mupd, t_get, E. f_equal. qring. }
    rewrite <- H. f_equal. unfold in_unit. clear. revert x. induction ends as [|k ends IH]; intros [|y x]; cbn; try reflexivity. now rewrite IH.
  Qed.
  Lemma residual_areas_u BN LP F : residual_areas (UA BN) LP (U F) = UA (residual_areas BN LP F).
  Proof using .
    unfold residual_areas. cbv zeta. replace (map Qcopp (U F)) with (U (map Qcopp F)) by (unfold in_unit; rewrite !map_map; apply map_ext; intros x; qring).
    now rewrite !fancy_u by reflexivity.
  Qed.

  (** the matrices *)
  Lemma firstn_u B : map (firstn 3) (UL B) = UL (map (firstn 3) B).
  Proof using .
    unfold lines_in_unit, table_in_unit. rewrite !map_map. apply map_ext. intros r. apply (nth_ext_eq _ _ q0).
    - rewrite r_len, !firstn_length, r_len. reflexivity.
    - intros i Hi. rewrite firstn_length, r_len in Hi. rewrite r_nth. rewrite !nth_first_ by lia. apply r_nth.
  Qed.
  Lemma tm1_u inv BN LP B NR : tm1 inv (UA BN) LP (map (firstn 3) (UL B)) NR = tm1 inv BN LP (map (firstn 3) B) NR.
  Proof using .
    rewrite firstn_u. unfold tm1, areas_in_unit. rewrite t_len. unfold admitb, lines_in_unit, admitr. rewrite !t_col. change (admittance 0) with true. change (area_number 0) with true. cbv iota. reflexivity.
  Qed.

  (** the two solutions of an hour *)
  Lemma net_u inv lp lp' IFLAG s B LP NR SM LN NLS TR TJ SC CR : same_program c lp lp' ->
    transm inv lp' IFLAG (net_in_unit c s) (UL B) LP NR SM LN NLS (U TR) (U TJ) (U SC) (U CR) =
    match transm inv lp IFLAG s B LP NR SM LN NLS TR TJ SC CR with
    | Ok (J, F, SA, s1) => Ok (J, U F, U SA, net_in_unit c s1) | Err e => Err e end.
  Proof using C0.
    intros SP. unfold transm. cbn [net_in_unit n_BN n_BLP0 n_BB n_LT n_ZB]. rewrite tm1_u. 
    destruct (if IFLAG then _ else _) as [[[[BLP0 BB] LT] ZB]|e]; cbn [bind]; [|reflexivity].
    rewrite line_rows_u, sched_u, (tm2_u lp lp') by exact SP.
    destruct (tm2 lp (sched_rows (n_BN s) TR TJ SC CR) LP _ _ _ _ _ _ true) as [o1|e]; cbn [bind t_flow t_BN t_BB t_ZB]; [|reflexivity].
    replace (length (UA (n_BN s))) with (length (n_BN s)) by (symmetry; apply t_len).
    assert (E1 : forall i, mget (UA (t_BN o1)) i 1 = c * mget (t_BN o1) i 1) by (intros i; unfold areas_in_unit; now rewrite t_get).
    assert (ES : vtab (length (n_BN s)) (fun i => vget (U SC) i - vget (U CR) i - mget (UA (t_BN o1)) i 1) = U (vtab (length (n_BN s)) (fun i => vget SC i - vget CR i - mget (t_BN o1) i 1))).
    { rewrite u_vtab. unfold vtab. apply map_ext. intros i. rewrite E1, !u_get. qring. }
    rewrite ES. set (SADJ := vtab _ (fun i => vget SC i - _ - _)).
    assert (EF : forallb (fun x => qleb q0 x) (U SADJ) = forallb (fun x => qleb q0 x) SADJ).
    { generalize SADJ. intros l. unfold in_unit. induction l as [|x l IH]; cbn [map forallb]; [reflexivity|]. now rewrite IH, c_0leb. }
    rewrite EF. destruct (forallb (fun x => qleb q0 x) SADJ); [reflexivity|].
    assert (EC : vtab (length (n_BN s)) (fun i => if NLS then mget (UA (t_BN o1)) i 1 else q0) = U (vtab (length (n_BN s)) (fun i => if NLS then mget (t_BN o1) i 1 else q0))).
    { rewrite u_vtab. unfold vtab. apply map_ext. intros i. destruct NLS; [apply E1|symmetry; apply c_zero]. }
    rewrite EC. set (CADJ := vtab _ (fun i => if NLS then _ else _)). rewrite emergency_u. set (BN3 := emergency_rows (t_BN o1) SC CR CADJ).
    rewrite residual_lines_u, residual_areas_u. set (BLP := line_rows B SM LN).
    replace (if NLS then UL (residual_lines BLP (t_flow o1)) else UL BLP) with (UL (if NLS then residual_lines BLP (t_flow o1) else BLP)) by (destruct NLS; reflexivity).
    replace (if NLS then UA (residual_areas BN3 LP (t_flow o1)) else UA BN3) with (UA (if NLS then residual_areas BN3 LP (t_flow o1) else BN3)) by (destruct NLS; reflexivity).
    rewrite (tm2_u lp lp') by exact SP. destruct (tm2 lp _ LP _ BLP0 _ _ LT NR NLS) as [o2|e]; cbn [bind t_flow t_BN t_BB t_ZB]; [|reflexivity].
    assert (E2 : forall i, mget (UA (t_BN o2)) i 1 = c * mget (t_BN o2) i 1) by (intros i; unfold areas_in_unit; now rewrite t_get).
    apply (f_equal Ok). apply f_equal2; [apply f_equal2; [reflexivity|]|].
    - rewrite u_vtab. unfold vtab. apply map_ext. intros i. rewrite E2, !u_get. qring.
    - unfold net_in_unit. cbn [n_BN n_BLP0 n_BB n_LT n_ZB]. f_equal. unfold areas_in_unit. apply t_mapi. intros i r. rewrite !r_upd. change (area_number 3) with false. change (area_number 4) with false. cbv iota.
      now rewrite t_get.
  Qed.
End Unit.
