(** Checking by computation that the solver comes back to a state of its first phase: the
    passes on lists, and their relation to [linp_pass]. *)
From Verif Require Import Base BaseProofs Sums LoadModel LoadSpec NetModel MatProofs LpModel LpSpec LpProofs LpCycle LpEndless.
Open Scope Z_scope.

(** The data of a state that decide the next pass of phase 1. *)
Record lst1 := mkL1 { l_ib : list nat; l_fl : list bool; l_tab : list (list Qc); l_bs : list Qc; l_cb : list Qc }.

Section ORBIT.
Variables (M N1 : nat) (A : arr2) (X0 X1 : arr1) (b : list Qc).
Let LA : list (list Qc) := mtab M N1 A.
Definition view (c : lst1) : sx := mkSx (l_ib c) (fun k => nth k (l_fl c) false) (l_tab c) (l_bs c) (l_cb c) X0 false false None.
Definition pass1 (LA : list (list Qc)) (c : lst1) : option lst1 :=
  match scan M N1 (mget LA) (rm M (l_cb c) (l_tab c)) X0 (fun k => nth k (l_fl c) false) with
  | (CM, Some k) =>
      if qltb CM q0 && (k <? N1)%nat && (k <? length (l_fl c))%nat && (length (l_fl c) =? N1)%nat then
        match ratio M (mc M k (l_tab c) (mget LA)) (l_bs c) X0 (l_ib c) false with
        | Some (_, p) =>
            match pivot M (mget LA) k (view c) with
            | Ok s => Some (mkL1 (s_IBAS s) (upd (upd (l_fl c) (nth p (l_ib c) 0%nat) false) k true) (s_TAB s) (s_BS s) (s_CB s))
            | Err _ => None
            end
        | None => None
        end
      else None
  | _ => None
  end.
Definition like (s : sx) (c : lst1) : Prop :=
  s_IBAS s = l_ib c /\ (forall k, (k < N1)%nat -> s_IBASF s k = nth k (l_fl c) false) /\ s_TAB s = l_tab c /\ s_BS s = l_bs c /\ s_CB s = l_cb c /\
  (forall k, s_XOB s k = X0 k) /\ s_PH2 s = false.

Lemma LA_get i k : (i < M)%nat -> (k < N1)%nat -> mget LA i k = A i k.
Proof. intros Hi Hk. unfold LA. now apply mget_mtab. Qed.
Lemma rc_LA PY k : (k < N1)%nat -> rc M PY (mget LA) k = rc M PY A k.
Proof. intros Hk. unfold rc. f_equal. apply map_ext_in. intros i Hi. apply in_seq in Hi. rewrite LA_get by lia. reflexivity. Qed.
Lemma mc_LA T k : (k < N1)%nat -> mc M k T (mget LA) = mc M k T A.
Proof. intros Hk. unfold mc, vtab. apply map_ext_in. intros i _. f_equal. apply map_ext_in. intros j Hj. apply in_seq in Hj. rewrite LA_get by lia. reflexivity. Qed.
Lemma scan_LA PY XO XO' F F' : (forall k, XO k = XO' k) -> (forall k, (k < N1)%nat -> F k = F' k) -> scan M N1 (mget LA) PY XO F = scan M N1 A PY XO' F'.
Proof.
  intros X Y. unfold scan. assert (G : forall l, (forall k, In k l -> (k < N1)%nat) -> forall st, fold_left (scan_col M (mget LA) PY XO F) l st = fold_left (scan_col M A PY XO' F') l st).
  { induction l as [|k l IH]; intros H st; [reflexivity|]. cbn [fold_left]. assert (Hk : (k < N1)%nat) by (apply H; now left). rewrite IH by (intros; apply H; now right).
    f_equal. unfold scan_col. rewrite X, (Y k Hk), (rc_LA PY k Hk). reflexivity. }
  apply G. intros k Hk. apply in_seq in Hk. lia.
Qed.
Lemma pass1_sound s c c' : like s c -> pass1 LA c = Some c' -> exists s', linp_pass M N1 A X1 b s = Ok (inl s') /\ like s' c'.
Proof.
  intros (E1 & E2 & E3 & E4 & E5 & E6 & E8) H. unfold pass1 in H.
  destruct (scan M N1 (mget LA) (rm M (l_cb c) (l_tab c)) X0 (fun k => nth k (l_fl c) false)) as [CM [k|]] eqn:ES; [|discriminate].
  destruct (qltb CM q0) eqn:EC; [|discriminate]. destruct (k <? N1)%nat eqn:EK; [|discriminate]. destruct (k <? length (l_fl c))%nat eqn:EL; [|discriminate].
  destruct (length (l_fl c) =? N1)%nat eqn:EN; [|discriminate]. cbn [andb] in H. apply Nat.ltb_lt in EK, EL. apply Nat.eqb_eq in EN.
  destruct (ratio M (mc M k (l_tab c) (mget LA)) (l_bs c) X0 (l_ib c) false) as [[r p]|] eqn:ER; [|discriminate].
  assert (SC : scan M N1 A (rm M (s_CB s) (s_TAB s)) (s_XOB s) (s_IBASF s) = (CM, Some k)).
  { rewrite E3, E5, <- ES. symmetry. apply scan_LA; [intros j; symmetry; apply E6|intros j Hj; symmetry; now apply E2]. }
  assert (RT : ratio M (mc M k (s_TAB s) A) (s_BS s) (s_XOB s) (s_IBAS s) (s_PH2 s) = Some (r, p)).
  { rewrite E3, E4, E1, E8, <- ER, <- (mc_LA (l_tab c) k EK). apply (ratio_ext (mkLp M 0 0 A X0 X0 [] [] X0 X0)). exact E6. }
  unfold pivot in H. cbn [view s_TAB s_BS s_XOB s_IBAS s_PH2 s_IBASF s_CB s_IPIV] in H. cbv zeta in H. rewrite ER in H. cbn [snd bind s_IBAS s_TAB s_BS s_CB] in H.
  injection H as <-. unfold linp_pass. rewrite SC, EC. unfold pivot. rewrite RT. cbn [snd bind]. cbv zeta. cbn [bind]. eexists. split; [reflexivity|].
  unfold like. cbn [s_IBAS s_IBASF s_TAB s_BS s_CB s_XOB s_PH2 l_ib l_fl l_tab l_bs l_cb]. rewrite E1, E3, E4, E5, E6, !(mc_LA (l_tab c) k EK). repeat split; auto.
  intros j Hj. destruct (Nat.eqb_spec j k) as [->|NK]; [now rewrite nth_upd_same by (rewrite upd_length; lia)|]. rewrite nth_upd_other by auto.
  destruct (Nat.eqb_spec j (nth p (l_ib c) 0%nat)) as [->|NP]; [now rewrite nth_upd_same by lia|]. rewrite nth_upd_other by auto. now apply E2.
Qed.
End ORBIT.

(** *** Coming back *)
Fixpoint turn (step : lst1 -> option lst1) (n : nat) (c : lst1) : option lst1 :=
  match n with O => Some c | S n' => match step c with Some c' => turn step n' c' | None => None end end.
Lemma turn_plus step n m c : turn step (n + m) c = match turn step n c with Some c' => turn step m c' | None => None end.
Proof. revert c. induction n as [|n IH]; intros c; [reflexivity|]. cbn [turn Nat.add]. destruct (step c); [apply IH|reflexivity]. Qed.
Lemma turn_S step n c : turn step (S n) c = match turn step n c with Some c' => step c' | None => None end.
Proof. replace (S n) with (n + 1)%nat by lia. rewrite turn_plus. destruct (turn step n c); [|reflexivity]. cbn [turn]. destruct (step l); reflexivity. Qed.
Lemma turn_ever step i p c ci : (0 < p)%nat -> turn step i c = Some ci -> turn step p ci = Some ci -> forall n, exists c', turn step n c = Some c'.
Proof.
  intros Hp E1 E2.
  assert (G : forall n, exists c', turn step n ci = Some c').
  { intros n. induction n as [n IH] using lt_wf_ind. destruct (Nat.lt_ge_cases n p) as [L|L].
    - assert (X : turn step (n + (p - n)) ci = Some ci) by (now replace (n + (p - n))%nat with p by lia). rewrite turn_plus in X. destruct (turn step n ci); [eauto|discriminate].
    - destruct (IH (n - p)%nat) as (c' & EC); [lia|]. exists c'. replace n with (p + (n - p))%nat by lia. now rewrite turn_plus, E2. }
  intros n. destruct (Nat.lt_ge_cases n i) as [L|L].
  - assert (X : turn step (n + (i - n)) c = Some ci) by (now replace (n + (i - n))%nat with i by lia). rewrite turn_plus in X. destruct (turn step n c); [eauto|discriminate].
  - destruct (G (n - i)%nat) as (c' & EC). exists c'. replace n with (i + (n - i))%nat by lia. now rewrite turn_plus, E1.
Qed.
Fixpoint qsame (a b : list Qc) : bool := match a, b with [], [] => true | x :: a', y :: b' => qeqb x y && qsame a' b' | _, _ => false end.
Fixpoint qsames (a b : list (list Qc)) : bool := match a, b with [], [] => true | x :: a', y :: b' => qsame x y && qsames a' b' | _, _ => false end.
Fixpoint nsame (a b : list nat) : bool := match a, b with [], [] => true | x :: a', y :: b' => Nat.eqb x y && nsame a' b' | _, _ => false end.
Fixpoint bsame (a b : list bool) : bool := match a, b with [], [] => true | x :: a', y :: b' => Bool.eqb x y && bsame a' b' | _, _ => false end.
Lemma qsame_eq a : forall b, qsame a b = true -> a = b.
Proof. induction a as [|x a IH]; intros [|y b]; try discriminate; [reflexivity|]. cbn [qsame]. intros H. apply andb_prop in H. destruct H as (H1 & H2). apply qeqb_iff in H1. f_equal; auto. Qed.
Lemma qsames_eq a : forall b, qsames a b = true -> a = b.
Proof. induction a as [|x a IH]; intros [|y b]; try discriminate; [reflexivity|]. cbn [qsames]. intros H. apply andb_prop in H. destruct H as (H1 & H2). apply qsame_eq in H1. f_equal; auto. Qed.
Lemma nsame_eq a : forall b, nsame a b = true -> a = b.
Proof. induction a as [|x a IH]; intros [|y b]; try discriminate; [reflexivity|]. cbn [nsame]. intros H. apply andb_prop in H. destruct H as (H1 & H2). apply Nat.eqb_eq in H1. f_equal; auto. Qed.
Lemma bsame_eq a : forall b, bsame a b = true -> a = b.
Proof. induction a as [|x a IH]; intros [|y b]; try discriminate; [reflexivity|]. cbn [bsame]. intros H. apply andb_prop in H. destruct H as (H1 & H2). apply Bool.eqb_prop in H1. f_equal; auto. Qed.
Definition lsame (c c' : lst1) : bool :=
  nsame (l_ib c) (l_ib c') && bsame (l_fl c) (l_fl c') && qsames (l_tab c) (l_tab c') && qsame (l_bs c) (l_bs c') && qsame (l_cb c) (l_cb c').
Lemma lsame_eq c c' : lsame c c' = true -> c = c'.
Proof.
  unfold lsame. intros H. repeat (apply andb_prop in H; destruct H as (H & ?)). destruct c, c'. cbn [l_ib l_fl l_tab l_bs l_cb] in *.
  apply nsame_eq in H. f_equal; [assumption|now apply bsame_eq|now apply qsames_eq|now apply qsame_eq|now apply qsame_eq].
Qed.

Definition first1 (d : lpdata) : lst1 :=
  mkL1 (d_IBAS d) (map (fun i => existsb (Nat.eqb i) (d_IBAS d)) (seq 0 (d_N1 d)))
       (mtab (d_M d) (d_M d) (fun i j => if Nat.eqb i j then q1 else q0)) (d_BS d) (map (fun i => d_XOBI0 d (nth i (d_IBAS d) 0%nat)) (seq 0 (d_M d))).
(** The state after [i] passes is the state after [i + p] passes. *)
Definition orbit (i p : nat) (d : lpdata) : bool :=
  let LA := mtab (d_M d) (d_N1 d) (d_A d) in
  let step := pass1 (d_M d) (d_N1 d) (d_XOBI0 d) LA in
  match turn step i (first1 d) with
  | Some c => match turn step p c with Some c' => lsame c c' | None => false end
  | None => false
  end.
Theorem orbit_endless d i p : (0 < p)%nat -> orbit i p d = true -> forall fuel, linp fuel d = Err OutOfFuel.
Proof.
  intros Hp H. unfold orbit in H. cbv zeta in H. set (step := pass1 _ _ _ _) in H.
  destruct (turn step i (first1 d)) as [c|] eqn:E1; [|discriminate]. destruct (turn step p c) as [c'|] eqn:E2; [|discriminate]. apply lsame_eq in H. subst c'.
  pose proof (turn_ever step i p (first1 d) c Hp E1 E2) as EV. apply ever_endless.
  assert (G : forall n c', turn step n (first1 d) = Some c' -> exists s, after d n = Some s /\ like (d_N1 d) (d_XOBI0 d) s c').
  { induction n as [|n IH]; intros c' EC.
    - injection EC as <-. eexists. split; [reflexivity|]. unfold like, linp_start, first1. cbn [s_IBAS s_IBASF s_TAB s_BS s_CB s_XOB s_PH2 l_ib l_fl l_tab l_bs l_cb]. repeat split.
      intros k Hk. rewrite (nth_map_in _ _ _ 0%nat) by (now rewrite seq_length). now rewrite seq_nth by exact Hk.
    - rewrite turn_S in EC. destruct (turn step n (first1 d)) as [c1|]; [|discriminate]. destruct (IH c1 eq_refl) as (s & ES & L).
      destruct (pass1_sound (d_M d) (d_N1 d) (d_A d) (d_XOBI0 d) (d_XOBI1 d) (d_BS d) s c1 c' L EC) as (s' & EP & L'). exists s'. split; [|exact L']. cbn [after]. now rewrite ES, EP. }
  intros n. destruct (EV n) as (c1 & EC). destruct (G n c1 EC) as (s & ES & _). eauto.
Qed.
