(** Proofs about the tables: the cards that are read are what the files say. *)
From Coq Require Import String Ascii List Decimal DecimalString.
From Verif Require Import Base BaseProofs DataModel DataSpec DataProofs ReadModel ReadSpec ReadProofs.
Import ListNotations.
Open Scope Z_scope.

(* ------------------------------------------------------------------ *)
(** ** Columns *)
Lemma rmap_ok_inv {A B} (f : A -> res B) : forall l v, rmap f l = Ok v -> Forall2 (fun a b => f a = Ok b) l v.
Proof.
  induction l as [|a l IH]; intros v E; cbn [rmap] in E; [injection E as <-; constructor|].
  destruct (f a) as [b|] eqn:F; [|discriminate]. cbn [bind] in E. destruct (rmap f l) as [bs|] eqn:G; [|discriminate]. cbn [bind] in E. injection E as <-.
  constructor; [exact F|apply IH; reflexivity].
Qed.
Lemma forall2_len {A B} (R : A -> B -> Prop) l v : Forall2 R l v -> length l = length v.
Proof. induction 1; cbn; congruence. Qed.
Lemma forall2_nth_error {A B} (R : A -> B -> Prop) l v i a : Forall2 R l v -> nth_error l i = Some a -> exists b, nth_error v i = Some b /\ R a b.
Proof.
  intros F. revert i. induction F as [|x y l v H _ IH]; intros i E; [destruct i; discriminate|]. destruct i as [|i]; [|apply IH; exact E].
  cbn in E. injection E as <-. exists y. split; [reflexivity|exact H].
Qed.
Lemma list_eq_nth {A} (l m : list A) : length l = length m -> (forall i a, nth_error l i = Some a -> nth_error m i = Some a) -> l = m.
Proof.
  revert m. induction l as [|x l IH]; intros [|y m] L H; try discriminate L; [reflexivity|]. pose proof (H 0%nat x eq_refl) as E. cbn in E. injection E as ->.
  f_equal. apply IH; [cbn in L; lia|]. intros i a. apply (H (S i) a).
Qed.
Lemma nth_of_error {A} (l : list A) i a d : nth_error l i = Some a -> nth i l d = a.
Proof. revert i. induction l as [|x l IH]; intros [|i] E; try discriminate E; cbn in *; [congruence|apply IH; exact E]. Qed.
Lemma error_lt {A} (l : list A) i a : nth_error l i = Some a -> (i < length l)%nat.
Proof. intros E. apply nth_error_Some. rewrite E. discriminate. Qed.
Lemma map_seq_spec {A} (F : nat -> A) l n : n = length l -> (forall i a, nth_error l i = Some a -> F i = a) -> map F (seq 0 n) = l.
Proof.
  intros -> H. symmetry. apply list_eq_nth; [rewrite map_length, seq_length; reflexivity|]. intros i a E. rewrite nth_error_map.
  assert (L := error_lt _ _ _ E). rewrite (nth_error_nth' _ 0%nat) by (rewrite seq_length; exact L). rewrite seq_nth by exact L. cbn. f_equal. apply H. exact E.
Qed.
Lemma map_seq_inv {A} (F : nat -> A) n i a : nth_error (map F (seq 0 n)) i = Some a -> (i < n)%nat /\ a = F i.
Proof.
  intros E. pose proof (error_lt _ _ _ E) as L. rewrite map_length, seq_length in L. split; [exact L|].
  rewrite nth_error_map, (nth_error_nth' _ 0%nat), seq_nth in E by (rewrite ?seq_length; exact L). cbn in E. congruence.
Qed.

Lemma index_spec keys s : NoDup keys -> forall j, nth_error keys j = Some s -> index_of keys s = Ok j.
Proof.
  intros N j E. pose proof (error_lt _ _ _ E) as L. pose proof (index_nth keys 0 j N L) as X. rewrite (nth_of_error _ _ _ EmptyString E) in X. exact X.
Qed.
Lemma index_ok_inv keys s j : index_of keys s = Ok j -> nth_error keys j = Some s.
Proof.
  intros E. destruct (in_dec string_dec s keys) as [H|H].
  - destruct (index_in keys 0 s H) as (k & X & L & Y). unfold index_of in E. rewrite X in E. injection E as <-. cbn. rewrite <- Y. apply nth_error_nth'. exact L.
  - unfold index_of in E. rewrite index_notin in E by exact H. discriminate.
Qed.
(** the i-th entry of a column is the field *)
Lemma column_field t name v i c : tidy t -> column t name = Ok v -> (nth_error v i = Some c <-> field t i name c).
Proof.
  intros (ND & LEN) E. unfold column in E. destruct (index_of (t_head t) name) as [j|] eqn:J; [|discriminate]. cbn [bind] in E. injection E as <-.
  apply index_ok_inv in J. rewrite nth_error_map. split.
  - destruct (nth_error (t_rows t) i) as [r|] eqn:R; [|discriminate]. cbn. intros H. injection H as <-. exists j, r. split; [exact J|]. split; [exact R|].
    apply nth_error_nth'. rewrite (LEN r) by (apply (nth_error_In _ _ R)). apply (error_lt _ _ _ J).
  - intros (j' & r & J' & R & C). rewrite R. cbn. f_equal.
    pose proof (index_spec _ _ ND _ J) as X. rewrite (index_spec _ _ ND _ J') in X. injection X as ->. apply nth_of_error. exact C.
Qed.
Lemma column_length t name v : column t name = Ok v -> length v = length (t_rows t).
Proof. unfold column. destruct (index_of _ _); [|discriminate]. cbn [bind]. intros E. injection E as <-. apply map_length. Qed.
Lemma column_in t name : In name (t_head t) -> exists v, column t name = Ok v.
Proof. intros H. destruct (index_in _ 0 _ H) as (j & E & _). unfold column, index_of. rewrite E. eexists. reflexivity. Qed.
Lemma column_out t name : ~ In name (t_head t) -> column t name = Err KeyError.
Proof. intros H. unfold column, index_of. rewrite index_notin by exact H. reflexivity. Qed.
Lemma column_has t name v : column t name = Ok v -> In name (t_head t).
Proof. intros E. destruct (in_dec string_dec name (t_head t)) as [H|H]; [exact H|]. rewrite column_out in E by exact H. discriminate. Qed.

(** columns of numbers and texts *)
Lemma nums_fields t name v : tidy t -> nums t name = Ok v ->
  In name (t_head t) /\ length v = length (t_rows t) /\ forall i x, nth_error v i = Some x <-> field t i name (Num x).
Proof.
  intros T E. unfold nums in E. destruct (column t name) as [c|] eqn:C; [|discriminate]. cbn [bind] in E. apply rmap_ok_inv in E.
  split; [apply (column_has _ _ _ C)|]. split; [rewrite <- (column_length _ _ _ C); symmetry; apply (forall2_len _ _ _ E)|]. intros i x. rewrite <- (column_field t name c i (Num x) T C).
  split; intros H.
  - destruct (nth_error c i) as [y|] eqn:Y; [|exfalso; apply nth_error_None in Y; apply error_lt in H; rewrite <- (forall2_len _ _ _ E) in H; lia].
    destruct (forall2_nth_error _ _ _ _ _ E Y) as (b & B & N). rewrite B in H. injection H as ->. destruct y; [|discriminate]. cbn in N. congruence.
  - destruct (forall2_nth_error _ _ _ _ _ E H) as (b & B & N). cbn in N. congruence.
Qed.
Lemma texts_fields t name v : tidy t -> texts t name = Ok v ->
  In name (t_head t) /\ length v = length (t_rows t) /\ forall i x, nth_error v i = Some x <-> field t i name (Txt x).
Proof.
  intros T E. unfold texts in E. destruct (column t name) as [c|] eqn:C; [|discriminate]. cbn [bind] in E. apply rmap_ok_inv in E.
  split; [apply (column_has _ _ _ C)|]. split; [rewrite <- (column_length _ _ _ C); symmetry; apply (forall2_len _ _ _ E)|]. intros i x. rewrite <- (column_field t name c i (Txt x) T C).
  split; intros H.
  - destruct (nth_error c i) as [y|] eqn:Y; [|exfalso; apply nth_error_None in Y; apply error_lt in H; rewrite <- (forall2_len _ _ _ E) in H; lia].
    destruct (forall2_nth_error _ _ _ _ _ E Y) as (b & B & N). rewrite B in H. injection H as ->. destruct y; [discriminate|]. cbn in N. congruence.
  - destruct (forall2_nth_error _ _ _ _ _ E H) as (b & B & N). cbn in N. congruence.
Qed.
Lemma column_all (P : cell -> Prop) t name c : tidy t -> column t name = Ok c -> (forall i, (i < length (t_rows t))%nat -> exists x, field t i name x /\ P x) -> Forall P c.
Proof.
  intros T C H. apply Forall_forall. intros x HX. apply In_nth_error in HX. destruct HX as (i & E).
  assert (L : (i < length (t_rows t))%nat) by (rewrite <- (column_length _ _ _ C); apply (error_lt _ _ _ E)). destruct (H i L) as (y & F & Y).
  apply (column_field t name c i y T C) in F. congruence.
Qed.
Lemma nums_ok t name : tidy t -> In name (t_head t) -> (forall i, (i < length (t_rows t))%nat -> number_in t i name) -> exists v, nums t name = Ok v.
Proof.
  intros T N H. destruct (column_in t name N) as (c & C). unfold nums. rewrite C. cbn [bind].
  assert (F : Forall (fun x => exists q, x = Num q) c).
  { apply (column_all _ t name c T C). intros i L. destruct (H i L) as (x & X). exists (Num x). split; [exact X|exists x; reflexivity]. }
  clear - F. induction F as [|x c (q & ->) _ (v & E)]; [exists []; reflexivity|]. exists (q :: v). cbn. rewrite E. reflexivity.
Qed.
Lemma texts_ok t name : tidy t -> In name (t_head t) -> (forall i, (i < length (t_rows t))%nat -> exists s, field t i name (Txt s)) -> exists v, texts t name = Ok v.
Proof.
  intros T N H. destruct (column_in t name N) as (c & C). unfold texts. rewrite C. cbn [bind].
  assert (F : Forall (fun x => exists q, x = Txt q) c).
  { apply (column_all _ t name c T C). intros i L. destruct (H i L) as (x & X). exists (Txt x). split; [exact X|exists x; reflexivity]. }
  clear - F. induction F as [|x c (q & ->) _ (v & E)]; [exists []; reflexivity|]. exists (q :: v). cbn. rewrite E. reflexivity.
Qed.

(** what a row of the cards needs, column by column *)
Lemma rows_bound {A} (t : table) (l : list A) i : length (t_rows t) = length l -> (i < length (t_rows t))%nat -> exists a, nth_error l i = Some a.
Proof. intros L H. rewrite L in H. destruct (nth_error l i) as [a|] eqn:E; [exists a; reflexivity|]. apply nth_error_None in E. lia. Qed.
Lemma field_det t i name c d : tidy t -> field t i name c -> field t i name d -> c = d.
Proof.
  intros T F G. destruct F as (j & r & J & R & C). assert (IN : In name (t_head t)) by (apply (nth_error_In _ _ J)).
  destruct (column_in t name IN) as (v & V). assert (F : field t i name c) by (exists j, r; auto).
  apply (column_field t name v i _ T V) in F, G. congruence.
Qed.

Lemma nums_at t name v i : tidy t -> nums t name = Ok v -> (i < length (t_rows t))%nat -> field t i name (Num (nth i v q0)).
Proof. intros T E L. destruct (nums_fields t name v T E) as (_ & LV & F). apply F. apply nth_error_nth'. lia. Qed.
Lemma texts_at t name v i : tidy t -> texts t name = Ok v -> (i < length (t_rows t))%nat -> field t i name (Txt (nth i v EmptyString)).
Proof. intros T E L. destruct (texts_fields t name v T E) as (_ & LV & F). apply F. apply nth_error_nth'. lia. Qed.
Lemma ints_inv t name v : ints t name = Ok v -> exists w, nums t name = Ok w /\ v = map qtrunc w.
Proof. unfold ints. destruct (nums t name) as [w|]; [|discriminate]. cbn [bind]. intros E. injection E as <-. exists w. auto. Qed.
Lemma qtrunc_0 : qtrunc q0 = 0. Proof. reflexivity. Qed.
Lemma ints_at t name v i : tidy t -> ints t name = Ok v -> (i < length (t_rows t))%nat -> int_field t i name (zget v i).
Proof.
  intros T E L. destruct (ints_inv _ _ _ E) as (w & W & ->). exists (nth i w q0). split; [apply (nums_at _ _ _ _ T W L)|].
  unfold zget. rewrite <- qtrunc_0. symmetry. apply map_nth.
Qed.
Lemma ints_number t name v i : tidy t -> ints t name = Ok v -> (i < length (t_rows t))%nat -> number_in t i name.
Proof. intros T E L. destruct (ints_inv _ _ _ E) as (w & W & ->). exists (nth i w q0). apply (nums_at _ _ _ _ T W L). Qed.
Lemma nums_get t name v i x : tidy t -> nums t name = Ok v -> field t i name (Num x) -> nth i v q0 = x.
Proof. intros T E F. destruct (nums_fields t name v T E) as (_ & LV & H). apply nth_of_error. apply H. exact F. Qed.
Lemma texts_get t name v i x : tidy t -> texts t name = Ok v -> field t i name (Txt x) -> nth i v EmptyString = x.
Proof. intros T E F. destruct (texts_fields t name v T E) as (_ & LV & H). apply nth_of_error. apply H. exact F. Qed.
Lemma ints_get t name v i z : tidy t -> ints t name = Ok v -> int_field t i name z -> zget v i = z.
Proof.
  intros T E (x & F & <-). destruct (ints_inv _ _ _ E) as (w & W & ->). unfold zget. rewrite <- qtrunc_0, map_nth. f_equal. apply (nums_get _ _ _ _ _ T W F).
Qed.
Lemma nums_in t name v : nums t name = Ok v -> In name (t_head t).
Proof. unfold nums. destruct (column t name) eqn:E; [|discriminate]. intros _. apply (column_has _ _ _ E). Qed.
Lemma texts_in t name v : texts t name = Ok v -> In name (t_head t).
Proof. unfold texts. destruct (column t name) eqn:E; [|discriminate]. intros _. apply (column_has _ _ _ E). Qed.
Lemma ints_in t name v : ints t name = Ok v -> In name (t_head t).
Proof. intros E. destruct (ints_inv _ _ _ E) as (w & W & _). apply (nums_in _ _ _ W). Qed.
Lemma ints_ok t name : tidy t -> In name (t_head t) -> (forall i, (i < length (t_rows t))%nat -> number_in t i name) -> exists v, ints t name = Ok v.
Proof. intros T N H. destruct (nums_ok t name T N H) as (v & E). exists (map qtrunc v). unfold ints. rewrite E. reflexivity. Qed.

Lemma item_iff t name x : tidy t -> (item t name = Ok x <-> length (t_rows t) = 1%nat /\ field t 0 name (Num x)).
Proof.
  intros T. unfold item. split.
  - destruct (column t name) as [c|] eqn:C; [|discriminate]. cbn [bind]. pose proof (column_length _ _ _ C) as L. destruct c as [|y [|? ?]]; try discriminate.
    intros E. split; [rewrite <- L; reflexivity|]. apply (column_field t name [y] 0 _ T C). cbn. destruct y; [|discriminate]. cbn in E. congruence.
  - intros (L & F). assert (IN : In name (t_head t)) by (destruct F as (j & r & J & _); apply (nth_error_In _ _ J)).
    destruct (column_in t name IN) as (c & C). rewrite C. cbn [bind]. apply (column_field t name c 0 _ T C) in F. pose proof (column_length _ _ _ C) as LC.
    rewrite L in LC. destruct c as [|y [|? ?]]; try discriminate LC. cbn in F. injection F as ->. reflexivity.
Qed.
Lemma whole_iff t name z : tidy t -> (whole t name = Ok z <-> length (t_rows t) = 1%nat /\ field t 0 name (Num (qz z))).
Proof.
  intros T. rewrite <- item_iff by exact T. unfold whole. split.
  - destruct (item t name) as [x|]; [|discriminate]. cbn [bind]. destruct (qeqb (qz (qtrunc x)) x) eqn:E; [|discriminate]. apply qeqb_iff in E. intros H. injection H as <-. congruence.
  - intros ->. cbn [bind]. assert (E : qtrunc (qz z) = z) by apply qtrunc_qz. rewrite E. assert (X : qeqb (qz z) (qz z) = true) by (apply qeqb_iff; reflexivity). rewrite X. reflexivity.
Qed.

(* ------------------------------------------------------------------ *)
(** ** The cards *)
Lemma do_ok {A B} (m : res A) (f : A -> res B) b : bind m f = Ok b -> exists a, m = Ok a /\ f a = Ok b.
Proof. destruct m as [a|]; [|discriminate]. intros E. exists a. auto. Qed.
Ltac undo E := repeat (apply do_ok in E; destruct E as (? & ? & E)).
Lemma in_row {A} (t : table) names (l : list A) P i : lists t names l P -> (i < length (t_rows t))%nat -> exists a, nth_error l i = Some a /\ P i a.
Proof. intros (_ & _ & L & H) B. destruct (rows_bound t l i L B) as (a & E). exists a. split; [exact E|apply H; exact E]. Qed.
Lemma incl_all (names l : list string) : Forall (fun x => In x l) names -> incl names l.
Proof. intros F x H. apply (proj1 (Forall_forall _ _) F x H). Qed.
Ltac have_columns := apply incl_all; repeat (constructor; [first [eapply nums_in; eassumption | eapply texts_in; eassumption | eapply ints_in; eassumption | eapply column_has; eassumption]|]); constructor.
Ltac member := match goal with H : incl _ _ |- _ => apply H; cbv; tauto end.

Theorem read_misc_iff t m : tidy t -> (read_misc t = Ok m <-> says_misc t m).
Proof.
  intros T. split.
  - intros E. unfold read_misc in E. undo E. injection E as <-.
    repeat match goal with
      | H : whole t _ = Ok _ |- _ => apply (whole_iff _ _ _ T) in H; destruct H as (? & ?)
      | H : item t _ = Ok _ |- _ => apply (item_iff _ _ _ T) in H; destruct H as (? & ?) end.
    split; [exact T|]. split.
    + apply incl_all. repeat (constructor; [match goal with H : field t 0 ?n _ |- In ?n _ => destruct H as (? & ? & J & _); apply (nth_error_In _ _ J) end|]). constructor.
    + split; [assumption|]. intros i a E. destruct i as [|[|i]]; try discriminate E. cbn in E. injection E as <-.
      cbn [m_SEED m_NLS m_IW m_KWHERE m_KVWHEN m_KVSTAT m_KVTYPE m_KVL m_CVTEST m_FINISH m_JSTEP m_JFREQ m_MAXEUE m_IOJ m_INTV fst snd].
      repeat (split; [first [assumption | eexists; eassumption]|]). eexists; eassumption.
  - intros (_ & _ & L & H). specialize (H 0%nat m eq_refl). cbn [length] in L.
    destruct m as [seed ls ((w1 & w2) & w3) wh wn kvs kvt kvl cvt fin st fr mx ij iv].
    cbn [m_SEED m_NLS m_IW m_KWHERE m_KVWHEN m_KVSTAT m_KVTYPE m_KVL m_CVTEST m_FINISH m_JSTEP m_JFREQ m_MAXEUE m_IOJ m_INTV fst snd] in H.
    destruct H as (H1 & H2 & H3 & H4 & H5 & H6 & H7 & H8 & H9 & H10 & H11 & H12 & H13 & H14 & H15 & H16 & H17 & (x1 & H18) & (x2 & H19) & (x3 & H20) & (x4 & H21)).
    assert (W : forall n z, field t 0 n (Num (qz z)) -> whole t n = Ok z) by (intros; apply whole_iff; auto).
    assert (W2 : forall n x, field t 0 n (Num x) -> item t n = Ok x) by (intros; apply item_iff; auto).
    unfold read_misc.
    repeat match goal with |- context [whole t ?n] => erewrite (W n) by eassumption; cbn [bind] | |- context [item t ?n] => erewrite (W2 n) by eassumption; cbn [bind] end.
    reflexivity.
Qed.

Theorem read_areas_iff t l : tidy t -> (read_areas t = Ok l <-> says_areas t l).
Proof.
  intros T. split.
  - intros E. unfold read_areas in E. undo E. injection E as <-. split; [exact T|]. split; [have_columns|].
    split; [rewrite map_length, seq_length; reflexivity|]. intros i a E. apply map_seq_inv in E. destruct E as (L & ->). cbn [a_name a_peak a_lfu a_flows].
    repeat (split; [first [apply texts_at; assumption | apply nums_at; assumption | eapply ints_number; eassumption]|]). eapply ints_number; eassumption.
  - intros S0. pose proof S0 as (_ & INC & L & H). unfold read_areas, area_columns in *.
    assert (W : forall n, (n = "SN" \/ n = "OUTAGE BEG WK" \/ n = "OUTAGE END WK" \/ n = "FORBIDDEN BEG WK" \/ n = "FORBIDDEN END WK")%string -> exists v, ints t n = Ok v).
    { intros n N. apply ints_ok; [exact T|repeat destruct N as [->|N]; try subst; member|]. intros i B. destruct (in_row _ _ _ _ _ S0 B) as (a & _ & P).
      repeat destruct N as [->|N]; try subst; apply P. }
    assert (V : exists v, texts t "AREA NAME" = Ok v). { apply texts_ok; [exact T|member|]. intros i B. destruct (in_row _ _ _ _ _ S0 B) as (a & _ & P). eexists; apply P. }
    assert (X : forall n, (n = "PEAK (MW)" \/ n = "LFU" \/ n = "SUM OF FLOWS CONSTRAINT")%string -> exists v, nums t n = Ok v).
    { intros n N. apply nums_ok; [exact T|repeat destruct N as [->|N]; try subst; member|]. intros i B. destruct (in_row _ _ _ _ _ S0 B) as (a & _ & P).
      repeat destruct N as [->|N]; try subst; eexists; apply P. }
    destruct V as (v & V). rewrite V. cbn [bind].
    repeat match goal with
      | |- context [ints t ?n] => let v := fresh "iv" in let E := fresh "IE" in destruct (W n ltac:(tauto)) as (v & E); rewrite E; cbn [bind]
      | |- context [nums t ?n] => let v := fresh "nv" in let E := fresh "NE" in destruct (X n ltac:(tauto)) as (v & E); rewrite E; cbn [bind] end.
    f_equal. apply map_seq_spec; [exact L|]. intros i a E. specialize (H i a E). destruct a as [nm pk lf fl]. cbn [a_name a_peak a_lfu a_flows] in H.
    destruct H as (H1 & H2 & H3 & H4 & _). f_equal; [eapply texts_get; eassumption|eapply nums_get; eassumption..].
Qed.

Theorem read_units_iff t l : tidy t -> (read_units t = Ok l <-> says_units t l).
Proof.
  intros T. split.
  - intros E. unfold read_units in E. undo E. injection E as <-. split; [exact T|]. split; [have_columns|].
    split; [rewrite map_length, seq_length; reflexivity|]. intros i a E. apply map_seq_inv in E. destruct E as (L & ->).
    cbn [u_name u_loc u_cap u_dfor u_for u_der u_pa u_b1 u_d1 u_b2 u_d2].
    split; [apply texts_at; assumption|]. split; [apply texts_at; assumption|]. split.
    { do 4 eexists. split; [reflexivity|]. repeat (split; [apply nums_at; eassumption|]). apply nums_at; assumption. }
    repeat (split; [first [apply nums_at; assumption | apply ints_at; assumption]|]). eapply ints_number; eassumption.
  - intros S0. pose proof S0 as (_ & INC & L & H). unfold read_units, unit_columns in *.
    assert (W : forall n, (n = "SN" \/ n = "P/A" \/ n = "B1" \/ n = "D1" \/ n = "B2" \/ n = "D2")%string -> exists v, ints t n = Ok v).
    { intros n N. apply ints_ok; [exact T|repeat destruct N as [->|N]; try subst; member|]. intros i B. destruct (in_row _ _ _ _ _ S0 B) as (a & _ & P).
      destruct P as (_ & _ & _ & _ & _ & _ & (x1 & P1 & _) & (x2 & P2 & _) & (x3 & P3 & _) & (x4 & P4 & _) & (x5 & P5 & _) & P6).
      repeat destruct N as [->|N]; try subst; try exact P6; eexists; eassumption. }
    assert (V : forall n, (n = "NAME" \/ n = "LOC")%string -> exists v, texts t n = Ok v).
    { intros n N. apply texts_ok; [exact T|repeat destruct N as [->|N]; try subst; member|]. intros i B. destruct (in_row _ _ _ _ _ S0 B) as (a & _ & P).
      repeat destruct N as [->|N]; try subst; eexists; apply P. }
    assert (X : forall n, (n = "CAP1" \/ n = "CAP2" \/ n = "CAP3" \/ n = "CAP4" \/ n = "DFOR" \/ n = "FOR" \/ n = "DER")%string -> exists v, nums t n = Ok v).
    { intros n N. apply nums_ok; [exact T|repeat destruct N as [->|N]; try subst; member|]. intros i B. destruct (in_row _ _ _ _ _ S0 B) as (a & _ & P).
      destruct P as (_ & _ & (c1 & c2 & c3 & c4 & _ & P1 & P2 & P3 & P4) & P5 & P6 & P7 & _).
      repeat destruct N as [->|N]; try subst; eexists; eassumption. }
    repeat match goal with
      | |- context [ints t ?n] => let v := fresh "iv" in let E := fresh "IE" in destruct (W n ltac:(tauto)) as (v & E); rewrite E; cbn [bind]
      | |- context [texts t ?n] => let v := fresh "tv" in let E := fresh "TE" in destruct (V n ltac:(tauto)) as (v & E); rewrite E; cbn [bind]
      | |- context [nums t ?n] => let v := fresh "nv" in let E := fresh "NE" in destruct (X n ltac:(tauto)) as (v & E); rewrite E; cbn [bind] end.
    f_equal. apply map_seq_spec; [exact L|]. intros i a E. specialize (H i a E). destruct a as [nm lo cp df fo de pa b1 d1 b2 d2].
    cbn [u_name u_loc u_cap u_dfor u_for u_der u_pa u_b1 u_d1 u_b2 u_d2] in H.
    destruct H as (H1 & H2 & (c1 & c2 & c3 & c4 & -> & C1 & C2 & C3 & C4) & H4 & H5 & H6 & H7 & H8 & H9 & H10 & H11 & _).
    f_equal; try (eapply texts_get; eassumption); try (eapply nums_get; eassumption); try (eapply ints_get; eassumption).
    repeat (f_equal; try (eapply nums_get; eassumption)).
Qed.

Lemma commas_split l : commas (split_on (Ascii.eqb ",") l) = l.
Proof.
  induction l as [|c l IH]; [reflexivity|]. cbn [split_on]. destruct (split_on (Ascii.eqb ",") l) as [|w ws] eqn:E; [exfalso; apply (split_on_nonempty _ _ E)|].
  destruct (Ascii.eqb_spec "," c) as [<-|N]; [change (commas ([] :: w :: ws)) with (","%char :: commas (w :: ws)); congruence|].
  destruct ws as [|w2 ws]; [cbn in IH |- *; congruence|]. change (commas ((c :: w) :: w2 :: ws)) with (c :: commas (w :: w2 :: ws)). congruence.
Qed.
Lemma floats_iff ps v : floats ps = Ok v <-> Forall2 (fun p x => exists w, padded w p /\ numeral w x) ps v.
Proof.
  unfold floats. split.
  - intros E. apply rmap_ok_inv in E. induction E as [|p x ps v H _ IH]; constructor; [|exact IH]. apply pyfloat_iff. destruct (pyfloat p); [cbn in H; congruence|discriminate].
  - intros F. apply rmap_forall2. induction F as [|p x ps v H _ IH]; constructor; [|exact IH]. apply pyfloat_iff in H. rewrite H. reflexivity.
Qed.
Lemma pyfloat_ext p q : strip p = strip q -> pyfloat p = pyfloat q.
Proof. intros E. rewrite !pyfloat_strip, E. reflexivity. Qed.
Lemma floats_ext ps qs : map strip ps = map strip qs -> floats ps = floats qs.
Proof.
  unfold floats. revert qs. induction ps as [|p ps IH]; intros [|q qs] E; try discriminate E; [reflexivity|]. cbn [map] in E. injection E as E1 E2.
  cbn [rmap]. rewrite (pyfloat_ext p q E1), (IH qs E2). reflexivity.
Qed.
Lemma numeral_piece p w x : padded w p -> numeral w x -> comma_free p.
Proof.
  intros (a & b & -> & A & B) N C. assert (NB : forall l, blanks l -> ~ In ","%char l).
  { intros l BL H. pose proof (proj1 (Forall_forall _ _) BL _ H) as X. apply is_space_iff in X. discriminate X. }
  apply in_app_or in C. destruct C as [C|C]; [exact (NB _ A C)|]. apply in_app_or in C. destruct C as [C|C]; [|exact (NB _ B C)].
  pose proof (proj1 (Forall_forall _ _) (numeral_chars _ _ N) _ C) as X. apply numchar_no in X. destruct X as (X & _). apply X. reflexivity.
Qed.
Lemma read_meta_iff s v : read_meta s = Ok v <->
  length v = 24%nat /\ exists ps, list_ascii_of_string s = commas ps /\ Forall2 (fun p x => exists w, padded w p /\ numeral w x) ps v.
Proof.
  unfold read_meta. rewrite (floats_ext _ (split_on (Ascii.eqb ",") (list_ascii_of_string s))) by apply pieces_strip. split.
  - intros E. apply do_ok in E. destruct E as (w & F & E). destruct (Nat.eqb_spec (length w) 24) as [L|]; [|discriminate]. injection E as <-. split; [exact L|].
    eexists. split; [symmetry; apply commas_split|]. apply floats_iff. exact F.
  - intros (L & ps & -> & F). assert (NE : ps <> []) by (intros ->; inversion F; subst; discriminate L).
    rewrite split_commas; [|exact NE|].
    + rewrite (proj2 (floats_iff ps v) F). cbn [bind]. rewrite L. reflexivity.
    + clear - F. induction F as [|p x ps v (w & P & N) _ IH]; constructor; [apply (numeral_piece _ _ _ P N)|exact IH].
Qed.
Definition quad := (Qc * Qc * Qc * Qc)%type.
Definition flat (states : list quad) : list Qc := flat_map (fun '(a, f, b, q) => [a; f; b; q]) states.
Definition group (v : list Qc) : list quad := map (fun i => (nth (4 * i) v q0, nth (4 * i + 1) v q0, nth (4 * i + 2) v q0, nth (4 * i + 3) v q0)) (seq 0 6).
Lemma flat_group v : length v = 24%nat -> flat (group v) = v.
Proof. intros L. do 24 (destruct v as [|? v]; [discriminate L|]). destruct v; [|discriminate L]. reflexivity. Qed.
Lemma every4_flat states : length states = 6%nat ->
  every4 0 (flat states) = map (fun '(a, f, b, q) => a) states /\ every4 1 (flat states) = map (fun '(a, f, b, q) => f) states /\
  every4 2 (flat states) = map (fun '(a, f, b, q) => b) states /\ every4 3 (flat states) = map (fun '(a, f, b, q) => q) states.
Proof.
  intros L. do 6 (destruct states as [|[[[? ?] ?] ?] states]; [discriminate L|]). destruct states; [|discriminate L]. repeat split; reflexivity.
Qed.
Lemma meta_iff s states : meta_text s states <-> length states = 6%nat /\ read_meta s = Ok (flat states).
Proof.
  unfold meta_text. rewrite read_meta_iff. unfold flat. split.
  - intros (L & H). split; [exact L|]. split; [|exact H]. do 6 (destruct states as [|[[[? ?] ?] ?] states]; [discriminate L|]). destruct states; [reflexivity|discriminate L].
  - intros (L & _ & H). auto.
Qed.

Theorem read_lines_iff t l : tidy t -> (read_lines t = Ok l <-> says_lines t l).
Proof.
  intros T. split.
  - intros E. unfold read_lines in E. undo E. injection E as <-. split; [exact T|]. split; [have_columns|].
    split; [rewrite map_length, seq_length; reflexivity|]. intros i a E. apply map_seq_inv in E. destruct E as (L & ->). cbv zeta.
    cbn [ln_id ln_from ln_to ln_adm ln_cap ln_capr ln_prob].
    split; [eexists; split; [apply nums_at; eassumption|reflexivity]|]. split; [apply texts_at; assumption|]. split; [apply texts_at; assumption|].
    match goal with H : rmap read_meta ?m = Ok ?r, H2 : texts t "META DATA" = Ok ?m |- _ => rename H into RM; rename H2 into TM; set (mt := m) in *; set (ms := r) in * end.
    destruct (texts_fields t _ mt T TM) as (_ & LM & _).
    apply rmap_ok_inv in RM. assert (E : nth_error mt i = Some (nth i mt EmptyString)) by (apply nth_error_nth'; lia).
    destruct (forall2_nth_error _ _ _ _ _ RM E) as (v & V & R). rewrite (nth_of_error _ _ _ [] V).
    exists (nth i mt EmptyString), (group v). split; [apply texts_at; assumption|]. pose proof (proj1 (read_meta_iff _ _) R) as (LV & _).
    assert (MG : meta_text (nth i mt EmptyString) (group v)) by (apply meta_iff; split; [reflexivity|rewrite flat_group by exact LV; exact R]).
    split; [exact MG|]. destruct (every4_flat (group v) eq_refl) as (A & B & C & D). rewrite (flat_group v LV) in A, B, C, D. auto.
  - intros S0. pose proof S0 as (_ & INC & L & H). unfold read_lines, line_columns in *.
    assert (SN : exists v, column t "SN" = Ok v) by (apply column_in; member). destruct SN as (sn & SN). rewrite SN. cbn [bind].
    assert (X : exists v, nums t "LINE NUMBER" = Ok v).
    { apply nums_ok; [exact T|member|]. intros i B. destruct (in_row _ _ _ _ _ S0 B) as (a & _ & (x & P & _) & _). exists x. exact P. }
    destruct X as (ids & ID). rewrite ID. cbn [bind].
    assert (V : forall n, (n = "FROM AREA" \/ n = "TO AREA" \/ n = "META DATA")%string -> exists v, texts t n = Ok v).
    { intros n N. apply texts_ok; [exact T|repeat destruct N as [->|N]; try subst; member|]. intros i B.
      destruct (in_row _ _ _ _ _ S0 B) as (a & _ & _ & P1 & P2 & s & states & P3 & _). repeat destruct N as [->|N]; try subst; eexists; eassumption. }
    destruct (V "FROM AREA"%string ltac:(tauto)) as (fr & FR). rewrite FR. destruct (V "TO AREA"%string ltac:(tauto)) as (to & TO). rewrite TO.
    destruct (V "META DATA"%string ltac:(tauto)) as (mt & MT). rewrite MT. cbn [bind].
    destruct (texts_fields t _ mt T MT) as (_ & LM & FM).
    assert (R : exists ms, rmap read_meta mt = Ok ms).
    { assert (F : Forall (fun s => exists v, read_meta s = Ok v) mt).
      { apply Forall_forall. intros s HS. apply In_nth_error in HS. destruct HS as (i & E). assert (B : (i < length (t_rows t))%nat) by (rewrite <- LM; apply (error_lt _ _ _ E)).
        destruct (in_row _ _ _ _ _ S0 B) as (a & _ & _ & _ & _ & s' & states & P3 & P4 & _). apply FM in P3. rewrite E in P3. injection P3 as ->.
        apply meta_iff in P4. exists (flat states). apply P4. }
      clear - F. induction F as [|s mt (v & E) _ (ms & IH)]; [exists []; reflexivity|]. exists (v :: ms). cbn. rewrite E, IH. reflexivity. }
    destruct R as (ms & RM). rewrite RM. cbn [bind]. f_equal. apply map_seq_spec; [exact L|]. intros i a E. specialize (H i a E).
    destruct a as [id f0 t0 ad ca cr pr]. cbn [ln_id ln_from ln_to ln_adm ln_cap ln_capr ln_prob] in H.
    destruct H as ((x & P & <-) & P1 & P2 & s & states & P3 & P4 & -> & -> & -> & ->). cbv zeta.
    apply FM in P3. destruct (forall2_nth_error _ _ _ _ _ (rmap_ok_inv _ _ _ RM) P3) as (v & V1 & V2). rewrite (nth_of_error _ _ _ [] V1).
    apply meta_iff in P4. destruct P4 as (L6 & P4). rewrite P4 in V2. injection V2 as <-. destruct (every4_flat states L6) as (-> & -> & -> & ->).
    f_equal; [f_equal; eapply nums_get; eassumption|eapply texts_get; eassumption|eapply texts_get; eassumption].
Qed.

Theorem read_contracts_iff t l : tidy t -> (read_contracts t = Ok l <-> says_contracts t l).
Proof.
  intros T. split.
  - intros E. unfold read_contracts in E. undo E. injection E as <-. split; [exact T|]. split; [have_columns|].
    split; [rewrite map_length, seq_length; reflexivity|]. intros i a E. apply map_seq_inv in E. destruct E as (L & ->). cbn [fc_from fc_to fc_beg fc_end fc_mw].
    split; [apply texts_at; assumption|]. split; [apply texts_at; assumption|].
    split; [eexists; split; [apply nums_at; eassumption|reflexivity]|]. split; [eexists; split; [apply nums_at; eassumption|reflexivity]|]. apply nums_at; assumption.
  - intros S0. pose proof S0 as (_ & INC & L & H). unfold read_contracts, contract_columns in *.
    assert (SN : exists v, column t "SN" = Ok v) by (apply column_in; member). destruct SN as (sn & SN). rewrite SN. cbn [bind].
    assert (V : forall n, (n = "FROM AREA" \/ n = "TO AREA")%string -> exists v, texts t n = Ok v).
    { intros n N. apply texts_ok; [exact T|repeat destruct N as [->|N]; try subst; member|]. intros i B. destruct (in_row _ _ _ _ _ S0 B) as (a & _ & P).
      repeat destruct N as [->|N]; try subst; eexists; apply P. }
    assert (X : forall n, (n = "BEG DAY" \/ n = "END DAY" \/ n = "MW")%string -> exists v, nums t n = Ok v).
    { intros n N. apply nums_ok; [exact T|repeat destruct N as [->|N]; try subst; member|]. intros i B.
      destruct (in_row _ _ _ _ _ S0 B) as (a & _ & _ & _ & (x1 & P1 & _) & (x2 & P2 & _) & P3). repeat destruct N as [->|N]; try subst; eexists; eassumption. }
    repeat match goal with
      | |- context [texts t ?n] => let v := fresh "tv" in let E := fresh "TE" in destruct (V n ltac:(tauto)) as (v & E); rewrite E; cbn [bind]
      | |- context [nums t ?n] => let v := fresh "nv" in let E := fresh "NE" in destruct (X n ltac:(tauto)) as (v & E); rewrite E; cbn [bind] end.
    f_equal. apply map_seq_spec; [exact L|]. intros i a E. specialize (H i a E). destruct a as [f0 t0 b e0 mw]. cbn [fc_from fc_to fc_beg fc_end fc_mw] in H.
    destruct H as (H1 & H2 & (x & H3 & <-) & (y & H4 & <-) & H5).
    f_equal; [eapply texts_get; eassumption|eapply texts_get; eassumption|f_equal; eapply nums_get; eassumption|f_equal; eapply nums_get; eassumption|eapply nums_get; eassumption].
Qed.

Theorem read_owners_iff t l : tidy t -> (read_owners t = Ok l <-> says_owners t l).
Proof.
  intros T. split.
  - intros E. unfold read_owners in E. undo E. injection E as <-. split; [exact T|]. split; [have_columns|].
    match goal with H : texts t _ = Ok ?v |- _ => destruct (texts_fields t _ _ T H) as (_ & LV & F) end.
    split; [symmetry; exact LV|]. intros i a E. apply F. exact E.
  - intros S0. pose proof S0 as (_ & INC & L & H). unfold read_owners, owner_columns in *.
    assert (SN : exists v, column t "SN" = Ok v) by (apply column_in; member). destruct SN as (sn & SN). rewrite SN. cbn [bind].
    assert (PC : exists v, column t "PERCENT OWNED BY AREA" = Ok v) by (apply column_in; member). destruct PC as (pc & PC).
    assert (V : exists v, texts t "UNIT NAME" = Ok v).
    { apply texts_ok; [exact T|member|]. intros i B. destruct (in_row _ _ _ _ _ S0 B) as (a & _ & P). exists a. exact P. }
    destruct V as (v & V). rewrite V. cbn [bind]. rewrite PC. cbn [bind]. f_equal. destruct (texts_fields t _ _ T V) as (_ & LV & F).
    symmetry. apply list_eq_nth; [congruence|]. intros i a E. apply F. apply H. exact E.
Qed.
Lemma read_deratings_iff t : read_deratings t = Ok tt <-> incl derating_columns (t_head t).
Proof.
  split.
  - intros E. unfold read_deratings in E. undo E. have_columns.
  - intros INC. unfold derating_columns in INC. unfold read_deratings.
    repeat match goal with |- context [column t ?n] => let v := fresh "v" in let E := fresh "E" in destruct (column_in t n ltac:(member)) as (v & E); rewrite E; cbn [bind] end. reflexivity.
Qed.

Theorem read_cards_iff f c : tidy_files f -> (read_cards f = Ok c <-> says f c).
Proof.
  intros (T1 & T2 & T3 & T4 & T5 & T6). split.
  - intros E. unfold read_cards in E. undo E. injection E as <-.
    repeat match goal with u : unit |- _ => destruct u end.
    constructor; cbn [c_misc c_areas c_units c_lines c_fc c_od c_pct];
      [apply read_misc_iff|apply read_areas_iff|apply read_units_iff|apply read_lines_iff|apply read_contracts_iff|apply read_owners_iff|reflexivity|apply read_deratings_iff]; assumption.
  - intros [S1 S2 S3 S4 S5 S6 S7 S8]. unfold read_cards.
    rewrite (proj2 (read_misc_iff _ _ T1) S1), (proj2 (read_areas_iff _ _ T2) S2), (proj2 (read_units_iff _ _ T3) S3), (proj2 (read_lines_iff _ _ T4) S4),
      (proj2 (read_contracts_iff _ _ T5) S5), (proj2 (read_owners_iff _ _ T6) S6), (proj2 (read_deratings_iff _) S8). cbn [bind].
    destruct c as [m a u l fc od pct]. cbn [c_misc c_areas c_units c_lines c_fc c_od c_pct] in *. rewrite S7. reflexivity.
Qed.

Lemma says_tidy f c : says f c -> tidy_files f.
Proof. intros [S1 S2 S3 S4 S5 S6 _ _]. repeat split; first [apply S1|apply S2|apply S3|apply S4|apply S5|apply S6]. Qed.

(* ------------------------------------------------------------------ *)
(** ** Tables that agree *)
Lemma agrees_field skip t t' i name c : agrees skip t t' -> ~ In name skip -> field t i name c -> field t' i name c.
Proof. intros (_ & _ & _ & F & _) N H. apply F; assumption. Qed.
Lemma agrees_number skip t t' i name : agrees skip t t' -> number_in t i name -> number_in t' i name.
Proof.
  intros (_ & _ & _ & F & G) (x & H). destruct (in_dec string_dec name skip) as [Y|N]; [apply (G i name x Y H)|exists x; apply F; assumption].
Qed.
Lemma agrees_int skip t t' i name z : agrees skip t t' -> ~ In name skip -> int_field t i name z -> int_field t' i name z.
Proof. intros A N (x & H & E). exists x. split; [apply (agrees_field skip t); assumption|exact E]. Qed.
Lemma agrees_lists {A} skip t t' names (l : list A) (P Q : nat -> A -> Prop) : agrees skip t t' -> (forall i a, P i a -> Q i a) -> lists t names l P -> lists t' names l Q.
Proof.
  intros (T & I & L & _) PQ (_ & N & LL & H). split; [exact T|]. split; [intros x X; apply I, N, X|]. split; [congruence|]. intros i a E. apply PQ, H, E.
Qed.
Definition loose : list string := "SN"%string :: "PERCENT OWNED BY AREA"%string :: weeks.
Ltac not_skipped := match goal with I : incl ?s loose |- ~ In _ ?s => let H := fresh in intros H; apply I in H; cbv in H; intuition discriminate end.
Theorem agrees_says skip f f' c : incl skip loose -> agreeing skip f f' -> says f c -> says f' c.
Proof.
  intros SK (A1 & A2 & A3 & A4 & A5 & A6 & A7) [S1 S2 S3 S4 S5 S6 S7 S8]. constructor.
  - eapply (agrees_lists _ _ _ _ _ _ _ A1); [|exact S1]. intros i a H.
    cbv beta in H; clear S1 S2 S3 S4 S5 S6; repeat match goal with X : field _ _ _ _ /\ _ |- _ => destruct X | X : number_in _ _ _ /\ _ |- _ => destruct X | X : int_field _ _ _ _ /\ _ |- _ => destruct X end.
    repeat (split; [first [eapply agrees_field; [exact A1|not_skipped|assumption] | eapply agrees_number; [exact A1|assumption]]|]). eapply agrees_number; [exact A1|assumption].
  - eapply (agrees_lists _ _ _ _ _ _ _ A2); [|exact S2]. intros i a H. cbv beta in H; clear S1 S2 S3 S4 S5 S6; repeat match goal with X : field _ _ _ _ /\ _ |- _ => destruct X | X : number_in _ _ _ /\ _ |- _ => destruct X | X : int_field _ _ _ _ /\ _ |- _ => destruct X end.
    repeat (split; [first [eapply agrees_field; [exact A2|not_skipped|assumption] | eapply agrees_number; [exact A2|assumption]]|]). eapply agrees_number; [exact A2|assumption].
  - eapply (agrees_lists _ _ _ _ _ _ _ A3); [|exact S3]. intros i a H.
    destruct H as (H1 & H2 & (c1 & c2 & c3 & c4 & E & C1 & C2 & C3 & C4) & H4 & H5 & H6 & H7 & H8 & H9 & H10 & H11 & H12).
    split; [eapply agrees_field; [exact A3|not_skipped|assumption]|]. split; [eapply agrees_field; [exact A3|not_skipped|assumption]|]. split.
    { exists c1, c2, c3, c4. split; [exact E|]. repeat (split; [eapply agrees_field; [exact A3|not_skipped|assumption]|]). eapply agrees_field; [exact A3|not_skipped|assumption]. }
    repeat (split; [first [eapply agrees_field; [exact A3|not_skipped|assumption] | eapply agrees_int; [exact A3|not_skipped|assumption] | eapply agrees_number; [exact A3|assumption]]|]).
    eapply agrees_number; [exact A3|assumption].
  - eapply (agrees_lists _ _ _ _ _ _ _ A4); [|exact S4]. intros i a (H1 & H2 & H3 & s & states & H4 & H5).
    split; [eapply agrees_int; [exact A4|not_skipped|assumption]|]. split; [eapply agrees_field; [exact A4|not_skipped|assumption]|]. split; [eapply agrees_field; [exact A4|not_skipped|assumption]|].
    exists s, states. split; [eapply agrees_field; [exact A4|not_skipped|assumption]|exact H5].
  - eapply (agrees_lists _ _ _ _ _ _ _ A5); [|exact S5]. intros i a H. cbv beta in H; clear S1 S2 S3 S4 S5 S6; repeat match goal with X : field _ _ _ _ /\ _ |- _ => destruct X | X : number_in _ _ _ /\ _ |- _ => destruct X | X : int_field _ _ _ _ /\ _ |- _ => destruct X end.
    repeat (split; [first [eapply agrees_field; [exact A5|not_skipped|assumption] | eapply agrees_int; [exact A5|not_skipped|assumption]]|]). eapply agrees_field; [exact A5|not_skipped|assumption].
  - eapply (agrees_lists _ _ _ _ _ _ _ A6); [|exact S6]. intros i a H. eapply agrees_field; [exact A6|not_skipped|assumption].
  - exact S7.
  - intros x X. apply A7, S8, X.
Qed.
