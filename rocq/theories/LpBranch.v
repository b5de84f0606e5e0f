(** The linear-programming branch as the program calls it: sizes, failures, and a
    decision procedure for [well_scaled] on a given program. *)
From Verif Require Import Base BaseProofs Sums LoadModel NetModel NetSpec HourSpec LinpackModel LpModel LpSpec LpProofs LpRun LpNet.
Open Scope Z_scope.

Lemma store_lp_len LT R NX BN : length (store_lp LT R NX BN) = length BN.
Proof.
  unfold store_lp. generalize (seq 0 (S NX)). intros l. revert BN. induction l as [|i l IH]; intros BN; [reflexivity|]. cbn [fold_left]. rewrite IH.
  cbv zeta. unfold mupd. now rewrite !upd_length.
Qed.
Lemma lp_nls_keeps fuel LP LT NR : keeps_areas (lp_nls fuel LP LT NR).
Proof.
  intros B L BN F BN' E. unfold lp_nls in E. cbv zeta in E. destruct (connls _ _ _ _ _ _ _ _) as [d|]; cbn [bind] in E; [|discriminate].
  destruct (linp fuel d) as [s|]; cbn [bind] in E; [|discriminate]. apply ok_inj in E. injection E as _ <-. apply store_lp_len.
Qed.
Theorem lp_branch_keeps : forall fuel IOI PLNDST PCTAVL LP LT NR, keeps_areas (lp_branch fuel IOI PLNDST PCTAVL LP LT NR).
Proof.
  intros fuel IOI PLNDST PCTAVL LP LT NR B L BN F BN' E. unfold lp_branch in E. destruct (lp_nls fuel LP LT NR B L BN) as [r|] eqn:E1; cbn [bind] in E; [|discriminate].
  destruct IOI; [discriminate|]. apply ok_inj in E. subst r. exact (lp_nls_keeps fuel LP LT NR B L BN F BN' E1).
Qed.
Theorem lp_branch_prints : forall fuel PLNDST PCTAVL LP LT NR BB BLP BN r, lp_branch fuel true PLNDST PCTAVL LP LT NR BB BLP BN <> Ok r.
Proof. intros. unfold lp_branch. destruct (lp_nls _ _ _ _ _ _ _); cbn [bind]; discriminate. Qed.

Lemma connls_size BC INJB NX NR LT BLP LP BN :
  (4 * S NX + 2 * length BLP <= 200)%nat /\ (7 * S NX + 2 * length BLP <= 252)%nat <-> exists d, connls BC INJB NX NR LT BLP LP BN = Ok d.
Proof.
  unfold connls. destruct (Nat.ltb_spec 200 (2 * S NX + 2 * length BLP + 2 * S NX)) as [H1|H1]; cbn [orb];
    [split; [intros []; lia|intros (d & E); discriminate]|].
  destruct (Nat.ltb_spec 250 (2 * NX + 2 * S NX + 2 * length BLP + 2 * S NX + S NX)) as [H2|H2].
  - split; [intros []; lia|intros (d & E); discriminate].
  - split; [intros _; eexists; reflexivity|intros _; lia].
Qed.
Lemma connls_err BC INJB NX NR LT BLP LP BN e : connls BC INJB NX NR LT BLP LP BN = Err e -> e = IndexError.
Proof. unfold connls. destruct (_ || _); [intros E; now injection E|discriminate]. Qed.

(** *** Deciding [well_scaled] *)
Definition scaledb (d : lpdata) (s : sx) : bool :=
  forallb (fun k => forallb (fun i => let p := qs (d_M d) (fun j => Qcmult (mget (s_TAB s) i j) (d_A d j k)) in qleb p q0 || qltb (qq 1 10000000) p)
                            (seq 0 (d_M d))) (seq 0 (d_N1 d)) &&
  forallb (fun i => qeqb (vget (s_BS s) i) q0 || qleb (qq 1 10000000000000) (qabs (vget (s_BS s) i))) (seq 0 (d_M d)).
Fixpoint check (fuel : nat) (d : lpdata) (s : sx) : bool :=
  match fuel with
  | O => false
  | S f => scaledb d s && match linp_pass (d_M d) (d_N1 d) (d_A d) (d_XOBI1 d) (d_BS d) s with Ok (inl s') => check f d s' | _ => true end
  end.
Lemma check_well_scaled fuel d : check fuel d (linp_start (d_M d) (d_XOBI0 d) (d_IBAS d) (d_BS d)) = true -> well_scaled d.
Proof.
  intros C s V. assert (H : exists f, check f d s = true).
  { unfold visits in V. remember (linp_start (d_M d) (d_XOBI0 d) (d_IBAS d) (d_BS d)) as s0. induction V as [|s s1 s2 V IH E]; [eauto|].
    destruct (IH Heqs0 C) as ([|f] & Hf); [discriminate|]. cbn [check] in Hf. rewrite E in Hf. apply andb_prop in Hf. exists f. apply Hf. }
  destruct H as ([|f] & H); [discriminate|]. cbn [check] in H. apply andb_prop in H. destruct H as (H & _). apply andb_prop in H. destruct H as (H1 & H2).
  rewrite forallb_forall in H1, H2. split.
  - intros k i Hk Hi p. specialize (H1 k (proj2 (in_seq _ _ _) (conj (Nat.le_0_l _) Hk))). rewrite forallb_forall in H1.
    specialize (H1 i (proj2 (in_seq _ _ _) (conj (Nat.le_0_l _) Hi))). cbv zeta in H1. apply orb_prop in H1. destruct H1 as [H1|H1]; [left; now apply qleb_iff|right; now apply qltb_iff].
  - intros i Hi. specialize (H2 i (proj2 (in_seq _ _ _) (conj (Nat.le_0_l _) Hi))). apply orb_prop in H2. destruct H2 as [H2|H2]; [left; now apply qeqb_iff|right; now apply qleb_iff].
Qed.
