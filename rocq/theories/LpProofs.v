(** Proofs about the simplex method of [linp]. *)
From Coq Require Import Field.
From Verif Require Import Base BaseProofs Sums LoadModel LoadSpec NetModel NetSpec MatProofs LinpackModel LinpackProofs LpModel LpSpec.
Open Scope Qc_scope.

Lemma vget_vtab n f i : (i < n)%nat -> vget (vtab n f) i = f i.
Proof. intros H. unfold vget, vtab. rewrite (nth_map_in f _ _ 0%nat) by (rewrite seq_length; exact H). now rewrite seq_nth. Qed.
Lemma vtab_length n f : length (vtab n f) = n. Proof. unfold vtab. now rewrite map_length, seq_length. Qed.

Section SIMPLEX.
Variables (M N1 : nat) (A : arr2) (b : list Qc).

Definition AB (IBAS : list nat) (i j : nat) : Qc := A i (nth j IBAS 0%nat).

Record inv (s : sx) : Prop := mkInv {
  i_len : length (s_IBAS s) = M; i_nd : NoDup (s_IBAS s);
  i_flag : forall k, s_IBASF s k = true <-> In k (s_IBAS s);
  i_shape : shape M M (s_TAB s);
  i_left : is_inverse M (mget (s_TAB s)) (AB (s_IBAS s));
  i_right : is_inverse M (AB (s_IBAS s)) (mget (s_TAB s));
  i_bs : length (s_BS s) = M;
  i_val : forall i, (i < M)%nat -> vget (s_BS s) i = qs M (fun j => mget (s_TAB s) i j * vget b j);
  i_cb : forall i, (i < M)%nat -> vget (s_CB s) i = s_XOB s (nth i (s_IBAS s) 0%nat);
  i_cbl : length (s_CB s) = M }.

(** The constraints hold for the basic values. *)
Lemma inv_solves s : inv s -> forall i, (i < M)%nat -> qs M (fun j => AB (s_IBAS s) i j * vget (s_BS s) j) = vget b i.
Proof.
  intros I i Hi. rewrite (qs_ext M _ (fun j => AB (s_IBAS s) i j * mv M (mget (s_TAB s)) (vget b) j)).
  - exact (inverse_mv M (AB (s_IBAS s)) (mget (s_TAB s)) (vget b) i (i_right s I) Hi).
  - intros j Hj. f_equal. apply (i_val s I j Hj).
Qed.

Lemma mc_nth k TAB i : (i < M)%nat -> vget (mc M k TAB A) i = qs M (fun j => mget TAB i j * A j k).
Proof. intros H. unfold mc. now rewrite vget_vtab. Qed.
Lemma rm_nth CB TAB j : (j < M)%nat -> vget (rm M CB TAB) j = qs M (fun i => vget CB i * mget TAB i j).
Proof. intros H. unfold rm. now rewrite vget_vtab. Qed.
(** A column outside the basis in terms of the basis. *)
Lemma col_in_basis s k i : inv s -> (i < M)%nat -> qs M (fun j => AB (s_IBAS s) i j * vget (mc M k (s_TAB s) A) j) = A i k.
Proof.
  intros I Hi. rewrite (qs_ext M _ (fun j => AB (s_IBAS s) i j * mv M (mget (s_TAB s)) (fun r => A r k) j)).
  - exact (inverse_mv M (AB (s_IBAS s)) (mget (s_TAB s)) (fun r => A r k) i (i_right s I) Hi).
  - intros j Hj. f_equal. apply mc_nth, Hj.
Qed.
(** The price of a column through the basis. *)
Lemma rc_nth s k : inv s -> rc M (rm M (s_CB s) (s_TAB s)) A k = qs M (fun i => vget (s_CB s) i * vget (mc M k (s_TAB s) A) i).
Proof.
  intros I. unfold rc. change (qs M (fun i => vget (rm M (s_CB s) (s_TAB s)) i * A i k) = qs M (fun i => vget (s_CB s) i * vget (mc M k (s_TAB s) A) i)).
  rewrite (qs_ext M _ (fun j => qs M (fun i => vget (s_CB s) i * mget (s_TAB s) i j * A j k))).
  2:{ intros j Hj. rewrite rm_nth by exact Hj. apply qs_mul_r. }
  rewrite qs_exchange. apply qs_ext. intros i Hi. rewrite mc_nth by exact Hi. rewrite qs_mul_l. apply qs_ext. intros j Hj. ring.
Qed.
Lemma rc_basic s i : inv s -> (i < M)%nat -> rc M (rm M (s_CB s) (s_TAB s)) A (nth i (s_IBAS s) 0%nat) = s_XOB s (nth i (s_IBAS s) 0%nat).
Proof.
  intros I Hi. rewrite rc_nth by exact I. rewrite (qs_ext M _ (fun j => if Nat.eqb j i then vget (s_CB s) j else q0)).
  - rewrite (qs_delta M i (vget (s_CB s))) by exact Hi. apply (i_cb s I i Hi).
  - intros j Hj. rewrite mc_nth by exact Hj. pose proof (i_left s I j i Hj Hi) as E. unfold AB in E. rewrite E. destruct (Nat.eqb j i); qring.
Qed.

(** *** The scan *)
Lemma qabs_lt x t : qltb (qabs x) t = true <-> (- t < x)%Qc /\ (x < t)%Qc.
Proof.
  unfold qabs. destruct (qltb x q0) eqn:E.
  - apply qltb_iff in E. rewrite qltb_iff. split; [intros H; split; qlra|intros [H _]; qlra].
  - assert (G : q0 <= x). { apply Qcnot_lt_le. intros G. apply qltb_iff in G. congruence. }
    rewrite qltb_iff. split; [intros H; split; qlra|intros [_ H]; exact H].
Qed.
Lemma qltb_false x y : qltb x y = false <-> (y <= x)%Qc.
Proof.
  split; intros H.
  - apply Qcnot_lt_le. intros G. apply qltb_iff in G. congruence.
  - destruct (qltb x y) eqn:E; [|reflexivity]. apply qltb_iff in E. exfalso. exact (Qclt_not_le _ _ E H).
Qed.
Definition redcost (s : sx) (k : nat) : Qc := s_XOB s k - rc M (rm M (s_CB s) (s_TAB s)) A k.
Lemma tol_pos : (q0 < TOL)%Qc. Proof. apply qltb_iff. reflexivity. Qed.

Lemma scan_spec s PY F : let d := fun k => s_XOB s k - rc M PY A k in forall m CM o,
  fold_left (scan_col M A PY (s_XOB s) F) (seq 0 m) (q0, None) = (CM, o) ->
  match o with
  | None => CM = q0 /\ forall k, (k < m)%nat -> F k = false -> (- TOL < d k)%Qc
  | Some k => (CM < q0)%Qc /\ (k < m)%nat /\ F k = false /\ d k = CM
  end.
Proof.
  intros d. induction m as [|m IH]; intros CM o E.
  - cbn in E. injection E as <- <-. split; [reflexivity|intros; lia].
  - rewrite seq_S, fold_left_app in E. cbn [fold_left Nat.add] in E. destruct (fold_left _ (seq 0 m) _) as [CM0 o0] eqn:E0. specialize (IH CM0 o0 eq_refl).
    unfold scan_col in E. cbn [fst] in E. fold (d m) in E. destruct (F m) eqn:EF.
    { injection E as <- <-. destruct o0 as [k0|]; [destruct IH as (A1 & A2 & A3 & A4); repeat split; auto|].
      destruct IH as (A1 & A2). split; [exact A1|]. intros k Hk FK. destruct (Nat.eq_dec k m) as [->|NE]; [congruence|]. apply A2; [lia|exact FK]. }
    set (CC := if qltb (qabs (d m)) TOL then q0 else d m) in E. pose proof tol_pos as TP.
    assert (CV : (CC = q0 /\ (- TOL < d m)%Qc) \/ (CC = d m /\ ((d m <= - TOL)%Qc \/ (TOL <= d m)%Qc))).
    { unfold CC. destruct (qltb (qabs (d m)) TOL) eqn:Q; [left|right]; (split; [reflexivity|]).
      - apply qabs_lt in Q. apply Q.
      - apply qltb_false in Q. unfold qabs in Q. destruct (qltb (d m) q0); [left|right]; qlra. }
    clearbody CC. destruct (qltb (qabs (CC - CM0)) TOL) eqn:Q1.
    { injection E as <- <-. apply qabs_lt in Q1. destruct o0 as [k0|].
      - destruct IH as (A1 & A2 & A3 & A4). repeat split; auto.
      - destruct IH as (A1 & A2). split; [exact A1|]. intros k Hk FK. destruct (Nat.eq_dec k m) as [->|NE]; [|apply A2; [lia|exact FK]].
        destruct CV as [(_ & G)|(G & _)]; [exact G|]. rewrite A1, G in Q1. destruct Q1 as [Q1 _]. qlra. }
    destruct (qltb CC CM0) eqn:Q2.
    { injection E as <- <-. apply qltb_iff in Q2.
      assert (C0 : (CM0 <= q0)%Qc) by (destruct o0; [apply Qclt_le_weak; apply IH|rewrite (proj1 IH); apply Qcle_refl]).
      split; [eapply Qclt_le_trans; [exact Q2|exact C0]|]. split; [lia|]. split; [exact EF|].
      destruct CV as [(G & _)|(G & _)]; [|symmetry; exact G]. exfalso. rewrite G in Q2. exact (Qclt_not_le _ _ Q2 C0). }
    injection E as <- <-. apply qltb_false in Q2. destruct o0 as [k0|].
    { destruct IH as (A1 & A2 & A3 & A4). repeat split; auto. }
    destruct IH as (A1 & A2). split; [exact A1|]. intros k Hk FK. destruct (Nat.eq_dec k m) as [->|NE]; [|apply A2; [lia|exact FK]].
    destruct CV as [(_ & G)|(G & _)]; [exact G|]. rewrite A1, G in Q2. qlra.
Qed.

Definition entering (s : sx) : option nat :=
  match scan M N1 A (rm M (s_CB s) (s_TAB s)) (s_XOB s) (s_IBASF s) with (CM, Some k) => if qltb CM q0 then Some k else None | _ => None end.
Lemma entering_spec s : match entering s with
  | Some k => (k < N1)%nat /\ s_IBASF s k = false /\ (redcost s k < q0)%Qc
  | None => forall k, (k < N1)%nat -> s_IBASF s k = false -> (- TOL < redcost s k)%Qc
  end.
Proof.
  unfold entering, scan. pose proof (scan_spec s (rm M (s_CB s) (s_TAB s)) (s_IBASF s) N1) as S. cbv zeta in S.
  destruct (fold_left _ _ _) as [CM [k|]].
  - destruct (S _ _ eq_refl) as (A1 & A2 & A3 & A4). destruct (qltb CM q0) eqn:Q; [|apply qltb_false in Q; exfalso; exact (Qclt_not_le _ _ A1 Q)].
    split; [exact A2|]. split; [exact A3|]. unfold redcost. rewrite A4. exact A1.
  - destruct (S _ _ eq_refl) as (_ & A2). exact A2.
Qed.

(** *** The pivot *)
Lemma nth_upd_list {X} (l : list X) p x j d : (p < length l)%nat -> nth j (upd l p x) d = if Nat.eqb j p then x else nth j l d.
Proof.
  intros H. destruct (Nat.eqb_spec j p) as [->|NE]; [now apply nth_upd_same|]. apply nth_upd_other. congruence.
Qed.
Lemma qs_split p f : (p < M)%nat -> qs M f = qs M (fun i => if Nat.eqb i p then q0 else f i) + f p.
Proof.
  intros H. rewrite <- (qs_delta M p f H) at 1. rewrite <- qs_plus. apply qs_ext. intros i Hi. destruct (Nat.eqb i p); qring.
Qed.
Lemma mget_mtab n m f i j : (i < n)%nat -> (j < m)%nat -> mget (mtab n m f) i j = f i j.
Proof. intros Hi Hj. unfold mget, mtab. rewrite (nth_map_in (fun i => vtab m (f i)) _ _ 0%nat) by (rewrite seq_length; exact Hi). rewrite seq_nth by exact Hi. exact (vget_vtab m (f i) j Hj). Qed.
Lemma shape_mtab n m f : shape n m (mtab n m f).
Proof. unfold mtab. split; [now rewrite map_length, seq_length|]. intros i Hi. rewrite (nth_map_in (fun i => vtab m (f i)) _ _ 0%nat) by (rewrite seq_length; exact Hi). apply vtab_length. Qed.

Definition pivoted (k p : nat) (s : sx) : sx :=
  let P := mc M k (s_TAB s) A in let TAB := s_TAB s in let BS := s_BS s in
  mkSx (upd (s_IBAS s) p k)
           (fun i => if Nat.eqb i k then true else if Nat.eqb i (nth p (s_IBAS s) 0%nat) then false else s_IBASF s i)
           (mtab M M (fun i j => if Nat.eqb i p then Qcdiv (mget TAB p j) (vget P p)
                                 else if qeqb (vget P i) q0 then mget TAB i j
                                 else Qcminus (mget TAB i j) (Qcdiv (Qcmult (mget TAB p j) (vget P i)) (vget P p))))
           (vtab M (fun i => if Nat.eqb i p then Qcdiv (vget BS p) (vget P p)
                             else if qeqb (vget P i) q0 then vget BS i
                             else Qcminus (vget BS i) (Qcdiv (Qcmult (vget BS p) (vget P i)) (vget P p))))
           (upd (s_CB s) p (s_XOB s k)) (s_XOB s) false (s_PH2 s) (Some p).
Lemma pivot_form k s : pivot M A k s =
  do p <- match ratio M (mc M k (s_TAB s) A) (s_BS s) (s_XOB s) (s_IBAS s) (s_PH2 s) with Some r => Ok (snd r) | None => of_option UnboundLocalError (s_IPIV s) end;
  Ok (pivoted k p s).
Proof. reflexivity. Qed.

Lemma elim_form (a t P pp : Qc) : pp <> q0 -> (if qeqb P q0 then a else a - Qcdiv (t * P) pp) = a - t * P / pp.
Proof. intros H. destruct (qeqb P q0) eqn:Q; [|reflexivity]. apply qeqb_iff in Q. rewrite Q. unfold Qcdiv. qring. Qed.

Section PIVOT.
Variables (s : sx) (k p : nat).
Hypothesis I : inv s.
Let P := vget (mc M k (s_TAB s) A).
Hypothesis HP : (p < M)%nat.
Hypothesis PP : P p <> q0.
Hypothesis HK : s_IBASF s k = false.
Let s' := pivoted k p s.

Lemma piv_TAB i j : (i < M)%nat -> (j < M)%nat ->
  mget (s_TAB s') i j = if Nat.eqb i p then mget (s_TAB s) p j / P p else mget (s_TAB s) i j - mget (s_TAB s) p j * P i / P p.
Proof.
  intros Hi Hj. unfold s', pivoted. cbn [s_TAB]. rewrite mget_mtab by assumption. destruct (Nat.eqb i p); [reflexivity|]. apply elim_form. exact PP.
Qed.
Lemma piv_BS i : (i < M)%nat ->
  vget (s_BS s') i = if Nat.eqb i p then vget (s_BS s) p / P p else vget (s_BS s) i - vget (s_BS s) p * P i / P p.
Proof.
  intros Hi. unfold s', pivoted. cbn [s_BS]. rewrite vget_vtab by assumption. destruct (Nat.eqb i p); [reflexivity|]. apply elim_form. exact PP.
Qed.
Lemma piv_AB i j : AB (s_IBAS s') i j = if Nat.eqb j p then A i k else AB (s_IBAS s) i j.
Proof.
  unfold AB, s', pivoted. cbn [s_IBAS]. rewrite nth_upd_list by (rewrite (i_len s I); exact HP). destruct (Nat.eqb j p); reflexivity.
Qed.
Lemma piv_left : is_inverse M (mget (s_TAB s')) (AB (s_IBAS s')).
Proof.
  intros i j Hi Hj.
  assert (C : forall i, (i < M)%nat -> qs M (fun r => mget (s_TAB s) i r * (AB (s_IBAS s') r j)) = if Nat.eqb j p then P i else if Nat.eqb i j then q1 else q0).
  { intros i0 Hi0. destruct (Nat.eqb j p) eqn:JP.
    - unfold P. rewrite mc_nth by exact Hi0. apply qs_ext. intros r Hr. rewrite piv_AB, JP. reflexivity.
    - rewrite <- (i_left s I i0 j Hi0 Hj). apply qs_ext. intros r Hr. rewrite piv_AB, JP. reflexivity. }
  destruct (Nat.eqb i p) eqn:IP.
  - rewrite (qs_ext M _ (fun r => / P p * (mget (s_TAB s) p r * AB (s_IBAS s') r j))).
    2:{ intros r Hr. rewrite piv_TAB by assumption. rewrite IP. unfold Qcdiv. ring. }
    rewrite qs_scale, (C p HP). apply Nat.eqb_eq in IP. subst i. rewrite (Nat.eqb_sym p j). destruct (Nat.eqb j p); change q1 with 1; [rewrite Qcmult_comm; apply Qcmult_inv_r; exact PP|qring].
  - rewrite (qs_ext M _ (fun r => mget (s_TAB s) i r * AB (s_IBAS s') r j - P i / P p * (mget (s_TAB s) p r * AB (s_IBAS s') r j))).
    2:{ intros r Hr. rewrite piv_TAB by assumption. rewrite IP. unfold Qcdiv. ring. }
    rewrite qs_minus, qs_scale, (C p HP), (C i Hi). rewrite (Nat.eqb_sym p j). destruct (Nat.eqb j p) eqn:JP.
    + apply Nat.eqb_eq in JP. subst j. rewrite IP. change q0 with 0 in *. field. exact PP.
    + destruct (Nat.eqb i j); qring.
Qed.
Lemma piv_right : is_inverse M (AB (s_IBAS s')) (mget (s_TAB s')).
Proof.
  intros i j Hi Hj. pose proof (i_right s I i j Hi Hj) as R. pose proof (col_in_basis s k i I Hi) as Cc. fold P in Cc.
  rewrite (qs_split p) in R, Cc by exact HP. rewrite (qs_split p) by exact HP.
  rewrite (qs_ext M _ (fun r => (if Nat.eqb r p then q0 else AB (s_IBAS s) i r * mget (s_TAB s) r j) - mget (s_TAB s) p j / P p * (if Nat.eqb r p then q0 else AB (s_IBAS s) i r * P r))).
  2:{ intros r Hr. rewrite piv_AB, piv_TAB by assumption. destruct (Nat.eqb r p); [qring|unfold Qcdiv; ring]. }
  rewrite qs_minus, qs_scale. rewrite piv_AB, piv_TAB, Nat.eqb_refl by assumption.
  set (U := qs M (fun r => if Nat.eqb r p then q0 else AB (s_IBAS s) i r * mget (s_TAB s) r j)) in *.
  set (V := qs M (fun r => if Nat.eqb r p then q0 else AB (s_IBAS s) i r * P r)) in *.
  rewrite <- R, <- Cc. change q0 with 0 in *. field. exact PP.
Qed.
Lemma pivot_inv : inv s'.
Proof.
  constructor.
  - unfold s', pivoted. cbn [s_IBAS]. rewrite upd_length. apply (i_len s I).
  - unfold s', pivoted. cbn [s_IBAS]. assert (NI : ~ In k (s_IBAS s)) by (intros H; apply (i_flag s I) in H; congruence).
    apply NoDup_nth with (d := 0%nat). intros a c Ha Hc E. rewrite upd_length, (i_len s I) in *. rewrite !nth_upd_list in E by (rewrite (i_len s I); exact HP).
    destruct (Nat.eqb_spec a p) as [->|NA], (Nat.eqb_spec c p) as [->|NC]; auto.
    + exfalso. apply NI. rewrite E. apply nth_In. rewrite (i_len s I). exact Hc.
    + exfalso. apply NI. rewrite <- E. apply nth_In. rewrite (i_len s I). exact Ha.
    + pose proof (i_nd s I) as ND. rewrite (NoDup_nth _ 0%nat) in ND. apply ND; auto; rewrite (i_len s I); assumption.
  - intros j. unfold s', pivoted. cbn [s_IBAS s_IBASF]. pose proof (i_nd s I) as ND. rewrite (NoDup_nth _ 0%nat) in ND.
    assert (LI := i_len s I). destruct (Nat.eqb_spec j k) as [->|NE].
    { split; [intros _|reflexivity]. replace k with (nth p (upd (s_IBAS s) p k) 0%nat) at 1 by (apply nth_upd_same; rewrite LI; exact HP). apply nth_In. rewrite upd_length, LI. exact HP. }
    assert (X : In j (upd (s_IBAS s) p k) <-> exists c, (c < M)%nat /\ c <> p /\ nth c (s_IBAS s) 0%nat = j).
    { split.
      - intros H. apply In_nth with (d := 0%nat) in H. destruct H as (c & Hc & E). rewrite upd_length, LI in Hc. rewrite nth_upd_list in E by (rewrite LI; exact HP).
        destruct (Nat.eqb_spec c p); [congruence|]. exists c. auto.
      - intros (c & Hc & NC & E). rewrite <- E. rewrite <- (nth_upd_other (s_IBAS s) p c k 0%nat) by auto. apply nth_In. rewrite upd_length, LI. exact Hc. }
    rewrite X. destruct (Nat.eqb_spec j (nth p (s_IBAS s) 0%nat)) as [EJ|NJ].
    + split; [discriminate|]. intros (c & Hc & NC & E). exfalso. apply NC. apply ND; try (rewrite LI; assumption). congruence.
    + rewrite (i_flag s I). split.
      * intros H. apply In_nth with (d := 0%nat) in H. destruct H as (c & Hc & E). exists c. rewrite LI in Hc. split; [exact Hc|]. split; [congruence|exact E].
      * intros (c & Hc & _ & E). rewrite <- E. apply nth_In. rewrite LI. exact Hc.
  - unfold s', pivoted. cbn [s_TAB]. apply shape_mtab.
  - exact piv_left.
  - exact piv_right.
  - unfold s', pivoted. cbn [s_BS]. apply vtab_length.
  - intros i Hi. rewrite piv_BS by exact Hi. rewrite !(i_val s I) by assumption. destruct (Nat.eqb i p) eqn:IP.
    + unfold Qcdiv. rewrite qs_mul_r. apply qs_ext. intros j Hj. rewrite piv_TAB by assumption. rewrite IP. unfold Qcdiv. ring.
    + rewrite (qs_ext M (fun j => mget (s_TAB s') i j * vget b j) (fun j => mget (s_TAB s) i j * vget b j - P i / P p * (mget (s_TAB s) p j * vget b j))).
      2:{ intros j Hj. rewrite piv_TAB by assumption. rewrite IP. unfold Qcdiv. ring. }
      rewrite qs_minus, qs_scale. unfold Qcdiv. ring.
  - intros i Hi. unfold s', pivoted. cbn [s_CB s_XOB s_IBAS]. unfold vget. rewrite !nth_upd_list by (rewrite ?(i_cbl s I), ?(i_len s I); exact HP).
    destruct (Nat.eqb i p); [reflexivity|]. apply (i_cb s I i Hi).
  - unfold s', pivoted. cbn [s_CB]. rewrite upd_length. apply (i_cbl s I).
Qed.
End PIVOT.

(** *** The leaving row *)
Section RATIO.
Variables (P BS : list Qc) (XOB : arr1) (IBAS : list nat) (PH2 : bool).
Hypothesis B0 : forall i, (i < M)%nat -> q0 <= vget BS i.
Hypothesis BT : forall i, (i < M)%nat -> vget BS i = q0 \/ (TINY <= qabs (vget BS i)).
Lemma bnum i : (i < M)%nat -> (if qleb TINY (qabs (vget BS i)) then vget BS i else q0) = vget BS i.
Proof.
  intros H. destruct (qleb TINY (qabs (vget BS i))) eqn:Q; [reflexivity|]. destruct (BT i H) as [E|E]; [now rewrite E|]. apply qleb_iff in E. congruence.
Qed.
Lemma ratio_spec : forall m, (m <= M)%nat ->
  match fold_left (ratio_row P BS XOB IBAS PH2) (seq 0 m) None with
  | None => forall i, (i < m)%nat -> vget P i <= TOL
  | Some (r, p) => (p < m)%nat /\ TOL < vget P p /\ r = vget BS p / vget P p /\ forall i, (i < m)%nat -> TOL < vget P i -> r <= vget BS i / vget P i
  end.
Proof.
  induction m as [|m IH]; intros Hm; [cbn; intros; lia|]. rewrite seq_S, fold_left_app. cbn [fold_left Nat.add]. specialize (IH ltac:(lia)).
  set (st := fold_left _ (seq 0 m) None) in *. clearbody st. unfold ratio_row. rewrite bnum by lia.
  assert (DP : forall i, (i < M)%nat -> TOL < vget P i -> q0 <= vget BS i / vget P i).
  { intros i Hi T. assert (q0 < vget P i) as T0 by (eapply Qclt_trans; [apply tol_pos|exact T]). unfold Qcdiv.
    assert (IP : q0 <= / vget P i).
    { apply Qclt_le_weak. assert (NZ : vget P i <> 0) by (intros E; rewrite E in T0; discriminate T0).
      apply Qcnot_le_lt. intros G. pose proof (Qcmult_le_compat_r _ _ (vget P i) G (Qclt_le_weak _ _ T0)) as G2. rewrite Qcmult_comm, Qcmult_inv_r in G2 by exact NZ.
      replace (q0 * vget P i) with q0 in G2 by qring. apply qleb_iff in G2. discriminate G2. }
    pose proof (Qcmult_le_compat_r _ _ _ (B0 i Hi) IP) as G. replace (q0 * / vget P i) with q0 in G by qring. exact G. }
  destruct (qltb TOL (vget P m)) eqn:Q.
  - apply qltb_iff in Q. destruct st as [[r p]|].
    + destruct IH as (A1 & A2 & A3 & A4). destruct (qltb (vget BS m / vget P m) r) eqn:Q2.
      * apply qltb_iff in Q2. split; [lia|]. split; [exact Q|]. split; [reflexivity|]. intros i Hi T. destruct (Nat.eq_dec i m) as [->|NE]; [apply Qcle_refl|].
        apply Qclt_le_weak. eapply Qclt_le_trans; [exact Q2|]. apply A4; [lia|exact T].
      * apply qltb_false in Q2. assert (MIN : forall i, (i < S m)%nat -> TOL < vget P i -> r <= vget BS i / vget P i).
        { intros i Hi T. destruct (Nat.eq_dec i m) as [->|NE]; [exact Q2|]. apply A4; [lia|exact T]. }
        destruct (negb PH2 && qeqb (vget BS m) q0 && qeqb (XOB (nth m IBAS 0%nat)) q1) eqn:TIE.
        -- apply andb_true_iff in TIE. destruct TIE as [TIE _]. apply andb_true_iff in TIE. destruct TIE as [_ TIE]. apply qeqb_iff in TIE.
           split; [lia|]. split; [exact Q|]. split; [|exact MIN]. rewrite TIE in *. unfold Qcdiv in *. replace (q0 * / vget P m) with q0 in * by qring.
           apply Qcle_antisym; [exact Q2|]. rewrite A3. apply DP; [lia|exact A2].
        -- split; [lia|]. auto.
    + split; [lia|]. split; [exact Q|]. split; [reflexivity|]. intros i Hi T. destruct (Nat.eq_dec i m) as [->|NE]; [apply Qcle_refl|].
      exfalso. apply (Qclt_not_le _ _ T). apply IH. lia.
  - apply qltb_false in Q. destruct st as [[r p]|].
    + destruct IH as (A1 & A2 & A3 & A4). split; [lia|]. repeat split; auto. intros i Hi T. destruct (Nat.eq_dec i m) as [->|NE]; [exfalso; exact (Qclt_not_le _ _ T Q)|]. apply A4; [lia|exact T].
    + intros i Hi. destruct (Nat.eq_dec i m) as [->|NE]; [exact Q|]. apply IH. lia.
Qed.
End RATIO.
Lemma ratio_found P BS XOB IBAS PH2 : forall m, match fold_left (ratio_row P BS XOB IBAS PH2) (seq 0 m) None with
  | None => True | Some (r, p) => (p < m)%nat /\ TOL < vget P p end.
Proof.
  induction m as [|m IH]; [exact Logic.I|]. rewrite seq_S, fold_left_app. cbn [fold_left Nat.add]. set (st := fold_left _ (seq 0 m) None) in *. clearbody st.
  unfold ratio_row. destruct (qltb TOL (vget P m)) eqn:Q.
  - apply qltb_iff in Q. destruct st as [[r p]|]; [|split; [lia|exact Q]]. destruct (qltb _ r); [split; [lia|exact Q]|]. destruct (negb PH2 && _ && _); [split; [lia|exact Q]|]. destruct IH. split; [lia|auto].
  - destruct st as [[r p]|]; auto. destruct IH. split; [lia|auto].
Qed.

(** *** Fresh inversion changes nothing. *)
Lemma inverse_unique (X Z Y : nat -> nat -> Qc) : is_inverse M X Y -> is_inverse M Y Z -> forall i j, (i < M)%nat -> (j < M)%nat -> X i j = Z i j.
Proof.
  intros L R i j Hi Hj.
  transitivity (qs M (fun k => X i k * qs M (fun l => Y k l * Z l j))).
  - rewrite (qs_ext M _ (fun k => if Nat.eqb k j then X i k else q0)); [now rewrite (qs_delta M j (X i))|].
    intros k Hk. rewrite (R k j Hk Hj). destruct (Nat.eqb k j); qring.
  - rewrite (qs_ext M _ (fun k => qs M (fun l => X i k * Y k l * Z l j))) by (intros k Hk; rewrite qs_mul_l; apply qs_ext; intros; ring).
    rewrite qs_exchange. rewrite (qs_ext M _ (fun l => if Nat.eqb l i then Z l j else q0)).
    + now rewrite (qs_delta M i (fun l => Z l j)).
    + intros l Hl. rewrite qs_scale_r, (L i l Hi Hl), (Nat.eqb_sym l i). destruct (Nat.eqb i l); qring.
Qed.
Lemma shape_ext n m X Y : shape n m X -> shape n m Y -> (forall i j, (i < n)%nat -> (j < m)%nat -> mget X i j = mget Y i j) -> X = Y.
Proof.
  intros (LX & RX) (LY & RY) E. apply nth_ext with (d := []) (d' := []); [congruence|]. intros i Hi. rewrite LX in Hi.
  apply nth_ext with (d := q0) (d' := q0); [rewrite RX, RY by exact Hi; reflexivity|]. intros j Hj. rewrite RX in Hj by exact Hi. apply E; assumption.
Qed.
Hypothesis MP : (0 < M)%nat.
Lemma reinvert_same s : inv s -> s_TAB (reinvert M A b s) = s_TAB s /\ s_BS (reinvert M A b s) = s_BS s.
Proof.
  intros I. unfold reinvert. cbn [s_TAB s_BS]. set (D := mtab M M _).
  assert (SD : shape M M D) by apply shape_mtab.
  assert (ED : forall i j, (i < M)%nat -> (j < M)%nat -> mget D i j = AB (s_IBAS s) i j) by (intros; unfold D; now rewrite mget_mtab).
  assert (J : injective M (mget D)).
  { apply (injective_of_inverse M (mget D) (mget (s_TAB s))). intros i j Hi Hj. rewrite <- (i_left s I i j Hi Hj). apply qs_ext. intros r Hr. now rewrite ED. }
  destruct (linpack_inverse M D MP SD J) as (SZ & R & L). set (Z := linpack_inv D M) in *. clearbody Z.
  assert (E : Z = s_TAB s).
  { apply (shape_ext M M); [exact SZ|apply (i_shape s I)|]. apply (inverse_unique (mget Z) (mget (s_TAB s)) (AB (s_IBAS s))); [|apply (i_right s I)].
    intros i j Hi Hj. rewrite <- (L i j Hi Hj). apply qs_ext. intros r Hr. now rewrite ED. }
  split; [exact E|]. rewrite E. apply nth_ext with (d := q0) (d' := q0); [rewrite vtab_length; symmetry; apply (i_bs s I)|].
  intros i Hi. rewrite vtab_length in Hi. change (vget (vtab M (fun i => qs M (fun j => mget (s_TAB s) i j * vget b j))) i = vget (s_BS s) i). rewrite vget_vtab by exact Hi. symmetry. apply (i_val s I i Hi).
Qed.
Lemma reinvert_form s : inv s -> reinvert M A b s = mkSx (s_IBAS s) (s_IBASF s) (s_TAB s) (s_BS s) (s_CB s) (s_XOB s) true (s_PH2 s) (s_IPIV s).
Proof. intros I. destruct (reinvert_same s I) as (E1 & E2). unfold reinvert in *. cbn [s_TAB s_BS] in *. rewrite E1 in E2 |- *. now rewrite E2. Qed.
End SIMPLEX.
