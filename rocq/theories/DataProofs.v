(** Proofs about names, datax and the load file. *)
From Coq Require Import String Ascii List.
From Verif Require Import Base BaseProofs Sums LoadModel LoadSpec LoadProofs PeakProofs MaintProofs DataModel DataSpec.
Import ListNotations.
Open Scope Z_scope.

(* ------------------------------------------------------------------ *)
(** ** Names *)
Lemma mem_iff s l : mem s l = true <-> In s l.
Proof.
  unfold mem. rewrite existsb_exists. split.
  - intros (x & H & E). apply String.eqb_eq in E. subst. exact H.
  - intros H. exists s. split; [exact H|apply String.eqb_refl].
Qed.
Lemma distinct_in : forall l seen s, In s (distinct_from seen l) <-> In s l /\ ~ In s seen.
Proof.
  induction l as [|x l IH]; intros seen s; cbn [distinct_from]; [cbn; tauto|].
  destruct (mem x seen) eqn:E.
  - apply mem_iff in E. rewrite IH. cbn [In]. split; [tauto|]. intros [[->|H] N]; [contradiction|tauto].
  - assert (N : ~ In x seen) by (intros C; apply mem_iff in C; congruence).
    cbn [In]. rewrite IH. cbn [In]. destruct (string_dec x s); [subst; tauto|]. tauto.
Qed.
Lemma distinct_nodup : forall l seen, NoDup (distinct_from seen l).
Proof.
  induction l as [|x l IH]; intros seen; cbn [distinct_from]; [constructor|].
  destruct (mem x seen); [apply IH|]. constructor; [|apply IH]. rewrite distinct_in. cbn. tauto.
Qed.
Lemma distinct_app : forall p q seen, exists r, distinct_from seen (p ++ q) = distinct_from seen p ++ r.
Proof.
  induction p as [|x p IH]; intros q seen; cbn [app distinct_from]; [eexists; reflexivity|].
  destruct (mem x seen); [apply IH|]. destruct (IH q (x :: seen)) as (r & ->). exists r. reflexivity.
Qed.
Lemma distinct_length l : length (distinct l) = length (nodup string_dec l).
Proof.
  assert (A : NoDup (distinct l)) by apply distinct_nodup.
  assert (B : NoDup (nodup string_dec l)) by apply NoDup_nodup.
  apply Nat.le_antisymm; apply NoDup_incl_length; try assumption; intros s H.
  - apply nodup_In. apply distinct_in in H. apply H.
  - apply nodup_In in H. apply distinct_in. split; [exact H|intros []].
Qed.
Lemma index_in : forall keys k s, In s keys -> exists j, index_from k keys s = Ok (k + j)%nat /\ (j < length keys)%nat /\ nth j keys EmptyString = s.
Proof.
  induction keys as [|x keys IH]; intros k s H; [destruct H|]. cbn [index_from].
  destruct (String.eqb x s) eqn:E.
  - apply String.eqb_eq in E. exists 0%nat. rewrite Nat.add_0_r. cbn. split; [reflexivity|]. split; [lia|exact E].
  - apply String.eqb_neq in E. destruct H as [->|H]; [congruence|].
    destruct (IH (S k) s H) as (j & -> & B & C). exists (S j). split; [f_equal; lia|]. cbn. split; [lia|exact C].
Qed.
Lemma index_notin : forall keys k s, ~ In s keys -> index_from k keys s = Err KeyError.
Proof.
  induction keys as [|x keys IH]; intros k s H; [reflexivity|]. cbn [index_from].
  destruct (String.eqb x s) eqn:E; [apply String.eqb_eq in E; subst; exfalso; apply H; left; reflexivity|].
  apply IH. intros C. apply H. right. exact C.
Qed.
Lemma index_nth : forall keys k j, NoDup keys -> (j < length keys)%nat -> index_from k keys (nth j keys EmptyString) = Ok (k + j)%nat.
Proof.
  intros keys k j N H. destruct (index_in keys k (nth j keys EmptyString) (nth_In _ _ H)) as (i & -> & B & C).
  f_equal. f_equal. apply (proj1 (NoDup_nth keys EmptyString) N i j B H C).
Qed.
Lemma index_app : forall p r k s, (In s p -> index_from k (p ++ r) s = index_from k p s) /\
  (~ In s p -> index_from k (p ++ r) s = index_from (k + length p) r s).
Proof.
  induction p as [|x p IH]; intros r k s; cbn [app index_from length].
  - split; [intros []|]. intros _. rewrite Nat.add_0_r. reflexivity.
  - destruct (String.eqb x s) eqn:E.
    + apply String.eqb_eq in E. split; [reflexivity|]. intros C. exfalso. apply C. left. exact E.
    + apply String.eqb_neq in E. destruct (IH r (S k) s) as (A & B). split.
      * intros [C|C]; [congruence|]. apply A. exact C.
      * intros C. rewrite B by (intros D; apply C; right; exact D). f_equal. lia.
Qed.

Definition number (names : list string) (s : string) : nat :=
  match index_of (distinct names) s with Ok k => k | Err _ => 0%nat end.
Lemma index_number names s : In s names -> index_of (distinct names) s = Ok (number names s).
Proof.
  intros H. unfold number. destruct (index_in (distinct names) 0 s) as (j & E & _); [apply distinct_in; split; [exact H|intros []]|].
  unfold index_of. rewrite E. reflexivity.
Qed.
Lemma index_unknown names s : ~ In s names -> index_of (distinct names) s = Err KeyError.
Proof. intros H. apply index_notin. intros C. apply distinct_in in C. apply H. apply C. Qed.
Lemma number_spec names s : In s names -> (number names s < length (distinct names))%nat /\ nth (number names s) (distinct names) EmptyString = s.
Proof.
  intros H. unfold number. destruct (index_in (distinct names) 0 s) as (j & E & B & C); [apply distinct_in; split; [exact H|intros []]|].
  unfold index_of. rewrite E. cbn. split; assumption.
Qed.
Lemma number_numbering names : numbering names (number names).
Proof.
  split; [|split].
  - intros s t A B E. destruct (number_spec names s A) as (_ & <-). destruct (number_spec names t B) as (_ & <-). rewrite E. reflexivity.
  - intros k. rewrite <- distinct_length. split.
    + intros (s & A & <-). apply number_spec. exact A.
    + intros H. exists (nth k (distinct names) EmptyString). split.
      * assert (X := nth_In (distinct names) EmptyString H). apply distinct_in in X. apply X.
      * unfold number, index_of. rewrite index_nth by (try apply distinct_nodup; exact H). reflexivity.
  - intros p s q t E NS HT. destruct (distinct_app p (s :: q) []) as (r & R). unfold number, distinct. subst names. rewrite R. unfold index_of.
    assert (HT' : In t (distinct_from [] p)) by (apply distinct_in; split; [exact HT|intros []]).
    assert (NS' : ~ In s (distinct_from [] p)) by (intros C; apply distinct_in in C; apply NS; apply C).
    rewrite (proj1 (index_app (distinct_from [] p) r 0 t) HT'). rewrite (proj2 (index_app (distinct_from [] p) r 0 s) NS').
    destruct (index_in _ 0 t HT') as (j & -> & B & _).
    assert (HS : In s (distinct_from [] (p ++ s :: q))) by (apply distinct_in; split; [apply in_or_app; right; left; reflexivity|intros []]).
    rewrite R in HS. apply in_app_or in HS. destruct HS as [HS|HS]; [contradiction|].
    destruct (index_in r (0 + length (distinct_from [] p)) s HS) as (i & -> & _). lia.
Qed.
Lemma distinct_self : forall l seen, NoDup l -> (forall s, In s l -> ~ In s seen) -> distinct_from seen l = l.
Proof.
  induction l as [|x l IH]; intros seen N H; [reflexivity|]. cbn [distinct_from].
  destruct (mem x seen) eqn:E; [apply mem_iff in E; exfalso; apply (H x); [left; reflexivity|exact E]|].
  inversion N as [|a b C D]; subst. rewrite IH; [reflexivity|exact D|]. intros s A [<-|B]; [contradiction|]. apply (H s); [right; exact A|exact B].
Qed.
(** without repetitions the number is the position *)
Lemma numbering_nth names f k : NoDup names -> numbering names f -> (k < length names)%nat -> f (nth k names EmptyString) = k.
Proof.
  intros N (INJ & ONTO & ORD) H.
  assert (L : length (nodup string_dec names) = length names).
  { apply Nat.le_antisymm; apply NoDup_incl_length; try assumption; try apply NoDup_nodup; intros s A; apply nodup_In in A || apply nodup_In; exact A. }
  assert (B : forall k, (k < length names)%nat -> (f (nth k names EmptyString) < length names)%nat).
  { intros j Hj. rewrite <- L. apply ONTO. eexists. split; [|reflexivity]. apply nth_In. exact Hj. }
  assert (M : forall i j, (i < j)%nat -> (j < length names)%nat -> (f (nth i names EmptyString) < f (nth j names EmptyString))%nat).
  { intros i j A C. apply (ORD (firstn j names) _ (skipn (S j) names)).
    - rewrite <- (firstn_skipn j names) at 1. f_equal. clear -C. revert j C. induction names as [|x l IH]; intros [|j] C; cbn in *; try lia; [reflexivity|]. apply IH. lia.
    - intros D. destruct (In_nth _ _ EmptyString D) as (i' & P & Q). rewrite firstn_length in P.
      assert (E : nth i' (firstn j names) EmptyString = nth i' names EmptyString).
      { rewrite <- (firstn_skipn j names) at 2. rewrite app_nth1 by (rewrite firstn_length; lia). reflexivity. }
      rewrite E in Q. apply (proj1 (NoDup_nth names EmptyString) N) in Q; lia.
    - assert (E : nth i (firstn j names) EmptyString = nth i names EmptyString).
      { rewrite <- (firstn_skipn j names) at 2. rewrite app_nth1 by (rewrite firstn_length; lia). reflexivity. }
      rewrite <- E. apply nth_In. rewrite firstn_length. lia. }
  assert (LO : forall k, (k < length names)%nat -> (k <= f (nth k names EmptyString))%nat).
  { induction k0 as [|j IH]; intros C; [lia|]. specialize (IH ltac:(lia)). pose proof (M j (S j) ltac:(lia) C). lia. }
  assert (HI : forall d, (d < length names)%nat -> (f (nth (length names - 1 - d) names EmptyString) <= length names - 1 - d)%nat).
  { induction d as [|d IH]; intros C; [pose proof (B (length names - 1 - 0)%nat ltac:(lia)); lia|].
    specialize (IH ltac:(lia)). pose proof (M (length names - 1 - S d)%nat (length names - 1 - d)%nat ltac:(lia) ltac:(lia)). lia. }
  specialize (LO k H). specialize (HI (length names - 1 - k)%nat ltac:(lia)).
  replace (length names - 1 - (length names - 1 - k))%nat with k in HI by lia. lia.
Qed.

Lemma rmap_ok {A B} (f : A -> res B) (g : A -> B) l : (forall a, In a l -> f a = Ok (g a)) -> rmap f l = Ok (map g l).
Proof.
  induction l as [|a l IH]; intros H; [reflexivity|]. cbn [rmap map]. rewrite (H a) by (left; reflexivity). cbn [bind].
  rewrite IH by (intros; apply H; right; assumption). reflexivity.
Qed.
Lemma rmap_err {A B} (f : A -> res B) e l : (forall a, In a l -> f a = Err e \/ exists b, f a = Ok b) -> (exists a, In a l /\ f a = Err e) -> rmap f l = Err e.
Proof.
  induction l as [|a l IH]; intros H (x & X & Y); [destruct X|]. cbn [rmap].
  destruct (H a (or_introl eq_refl)) as [->|(b & E)]; [reflexivity|]. rewrite E. cbn [bind].
  rewrite IH; [reflexivity|intros; apply H; right; assumption|]. destruct X as [->|X]; [congruence|]. exists x. split; assumption.
Qed.

Definition anames (c : cards string) := map a_name (c_areas c).
Definition unames (c : cards string) := map u_name (c_units c).
Theorem pind_ok c : known c -> pind c = Ok (renamed (number (anames c)) (number (unames c)) c).
Proof.
  intros (KU & KL & KF & KO). unfold pind. fold (anames c) (unames c) in *.
  rewrite (rmap_ok _ (fun a => mkArea (number (anames c) (a_name a)) (a_peak a) (a_lfu a) (a_flows a))).
  2:{ intros a H. rewrite index_number by (apply in_map; exact H). reflexivity. } cbn [bind].
  rewrite (rmap_ok _ (fun u => mkUnit (number (unames c) (u_name u)) (number (anames c) (u_loc u)) (u_cap u) (u_dfor u) (u_for u) (u_der u) (u_pa u) (u_b1 u) (u_d1 u) (u_b2 u) (u_d2 u))).
  2:{ intros u H. rewrite index_number by (apply in_map; exact H). cbn [bind]. rewrite index_number by (apply KU; exact H). reflexivity. } cbn [bind].
  rewrite (rmap_ok _ (fun l => mkLineC (ln_id l - 1) (number (anames c) (ln_from l)) (number (anames c) (ln_to l)) (ln_adm l) (ln_cap l) (ln_capr l) (ln_prob l))).
  2:{ intros l H. destruct (KL l H). rewrite !index_number by assumption. reflexivity. } cbn [bind].
  rewrite (rmap_ok _ (fun x => mkFc (number (anames c) (fc_from x)) (number (anames c) (fc_to x)) (fc_beg x) (fc_end x) (fc_mw x))).
  2:{ intros x H. destruct (KF x H). rewrite !index_number by assumption. reflexivity. } cbn [bind].
  rewrite (rmap_ok _ (number (unames c))) by (intros s H; apply index_number; apply KO; exact H). reflexivity.
Qed.

Lemma index_cases names s : (In s names /\ index_of (distinct names) s = Ok (number names s)) \/ (~ In s names /\ index_of (distinct names) s = Err KeyError).
Proof. destruct (in_dec string_dec s names); [left|right]; split; auto using index_number, index_unknown. Qed.
Lemma two_err {A B C} (f : A -> res B) (l : list A) (P : A -> Prop) : (forall a, {P a} + {~ P a}) ->
  (forall a, P a -> exists b, f a = Ok b) -> (forall a, ~ P a -> f a = Err KeyError) ->
  forall (k : list B -> res C), (forall a, In a l -> P a) /\ (exists bs, rmap f l = Ok bs) \/ (~ (forall a, In a l -> P a)) /\ (do x <- rmap f l; k x) = Err KeyError.
Proof.
  intros D F1 F2 k. destruct (Forall_Exists_dec P D l) as [F|E].
  - left. split; [apply Forall_forall; exact F|]. induction F as [|a l PA F IH]; [eexists; reflexivity|]. cbn [rmap].
    destruct (F1 a PA) as (b & ->). destruct IH as (bs & ->). cbn [bind]. eexists. reflexivity.
  - right. apply Exists_exists in E. destruct E as (a & HA & NP). split; [intros X; apply NP; apply X; exact HA|].
    rewrite (rmap_err f KeyError); [reflexivity| |exists a; split; [exact HA|apply F2; exact NP]].
    intros x HX. destruct (D x) as [PX|PX]; [right; apply F1; exact PX|left; apply F2; exact PX].
Qed.
Theorem pind_unknown c : ~ known c -> pind c = Err KeyError.
Proof.
  intros K. unfold pind. fold (anames c) (unames c).
  rewrite (rmap_ok _ (fun a => mkArea (number (anames c) (a_name a)) (a_peak a) (a_lfu a) (a_flows a))).
  2:{ intros a H. rewrite index_number by (apply in_map; exact H). reflexivity. } cbn [bind].
  match goal with |- (do U <- rmap ?f ?l; @?k U) = _ =>
    destruct (two_err f l (fun u => In (u_loc u) (anames c) /\ In (u_name u) (unames c))
       ltac:(intros a; destruct (in_dec string_dec (u_loc a) (anames c)), (in_dec string_dec (u_name a) (unames c)); tauto)
       ltac:(intros u (A & B); rewrite (index_number _ _ A), (index_number _ _ B); cbn [bind]; eexists; reflexivity)
       ltac:(intros u NU; destruct (index_cases (unames c) (u_name u)) as [(A & ->)|(A & ->)]; cbn [bind]; [|reflexivity];
             destruct (index_cases (anames c) (u_loc u)) as [(B & ->)|(B & ->)]; [exfalso; tauto|reflexivity]) k)
    as [(KU & bs & ->)|(_ & E)]; [cbn [bind]|exact E] end.
  match goal with |- (do U <- rmap ?f ?l; @?k U) = _ =>
    destruct (two_err f l (fun u => In (ln_from u) (anames c) /\ In (ln_to u) (anames c))
       ltac:(intros a; destruct (in_dec string_dec (ln_from a) (anames c)), (in_dec string_dec (ln_to a) (anames c)); tauto)
       ltac:(intros u (A & B); rewrite (index_number _ _ A), (index_number _ _ B); cbn [bind]; eexists; reflexivity)
       ltac:(intros u NU; destruct (index_cases (anames c) (ln_from u)) as [(A & ->)|(A & ->)]; cbn [bind]; [|reflexivity];
             destruct (index_cases (anames c) (ln_to u)) as [(B & ->)|(B & ->)]; [exfalso; tauto|reflexivity]) k)
    as [(KL & ls & ->)|(_ & E)]; [cbn [bind]|exact E] end.
  match goal with |- (do U <- rmap ?f ?l; @?k U) = _ =>
    destruct (two_err f l (fun u => In (fc_from u) (anames c) /\ In (fc_to u) (anames c))
       ltac:(intros a; destruct (in_dec string_dec (fc_from a) (anames c)), (in_dec string_dec (fc_to a) (anames c)); tauto)
       ltac:(intros u (A & B); rewrite (index_number _ _ A), (index_number _ _ B); cbn [bind]; eexists; reflexivity)
       ltac:(intros u NU; destruct (index_cases (anames c) (fc_from u)) as [(A & ->)|(A & ->)]; cbn [bind]; [|reflexivity];
             destruct (index_cases (anames c) (fc_to u)) as [(B & ->)|(B & ->)]; [exfalso; tauto|reflexivity]) k)
    as [(KF & fs & ->)|(_ & E)]; [cbn [bind]|exact E] end.
  match goal with |- (do U <- rmap ?f ?l; @?k U) = _ =>
    destruct (two_err f l (fun s => In s (unames c)) ltac:(intros a; apply in_dec; apply string_dec)
       ltac:(intros u A; rewrite (index_number _ _ A); eexists; reflexivity)
       ltac:(intros u NU; apply index_unknown; exact NU) k)
    as [(KO & os & ->)|(_ & E)]; [|exact E] end.
  exfalso. apply K. split; [|split; [|split]]; intros; [apply KU|apply KL|apply KF|apply KO]; assumption.
Qed.

(* ------------------------------------------------------------------ *)
(** ** The load file *)
Lemma digit_of b d : header_digit b d -> (1 <= d)%nat -> area_digit (b_header b) = Ok (Z.of_nat (d - 1)).
Proof.
  intros (D9 & E) D1. unfold area_digit. rewrite E. rewrite nat_ascii_embedding by lia.
  replace (48 <=? Z.of_nat (48 + d)) with true by (symmetry; apply Z.leb_le; lia).
  replace (Z.of_nat (48 + d) <=? 57) with true by (symmetry; apply Z.leb_le; lia). cbn [andb]. f_equal. lia.
Qed.
Lemma digit_unique b d d' : header_digit b d -> header_digit b d' -> d = d'.
Proof.
  intros (A & E) (B & F). rewrite E in F. injection F as F. apply (f_equal nat_of_ascii) in F.
  rewrite !nat_ascii_embedding in F by lia. lia.
Qed.

Lemma nth_repeat_lt {A} (x : A) n k d : (k < n)%nat -> nth k (repeat x n) d = x.
Proof. intros H. rewrite (nth_indep _ d x) by (rewrite repeat_length; exact H). apply nth_repeat. Qed.
Lemma skipn_skipn_ {A} : forall a b (l : list A), skipn a (skipn b l) = skipn (b + a) l.
Proof. intros a b. revert a. induction b as [|b IH]; intros a [|x l]; cbn; try reflexivity; [apply skipn_nil|apply IH]. Qed.
(** writing whole lines one after the other *)
Lemma set_hours_at row t v : length v = 12%nat -> (t + 12 <= length row)%nat ->
  set_hours row t v = Ok (firstn t row ++ v ++ skipn (t + 12) row).
Proof.
  intros L H. unfold set_hours. replace (Nat.min 12 (length row - t)) with 12%nat by lia. rewrite L. reflexivity.
Qed.
Lemma read_lines : forall ls r H j row t, (j < length H)%nat -> nth j H [] = row -> Forall (fun v => (12 <= length v)%nat) ls ->
  (t + 12 * length ls <= length row)%nat ->
  read_loads (map Hours ls ++ r) (Some (Z.of_nat j, t)) H =
  read_loads r (Some (Z.of_nat j, (t + 12 * length ls)%nat))
    (upd H j (firstn t row ++ flat_map (fun v => skipn (length v - 12) v) ls ++ skipn (t + 12 * length ls) row)).
Proof.
  induction ls as [|v ls IH]; intros r H j row t J E F L; cbn [map app flat_map length].
  - rewrite Nat.mul_0_r, Nat.add_0_r. rewrite firstn_skipn. rewrite <- E, upd_self. reflexivity.
  - cbn [read_loads]. rewrite (pyget_nonneg _ _ []) by lia. rewrite Nat2Z.id, E. cbn [bind].
    cbn [length] in L.
    assert (LV : length (last12 v) = 12%nat) by (unfold last12; rewrite skipn_length; pose proof (Forall_inv F) as FI; cbn beta in FI; lia).
    rewrite set_hours_at by (try exact LV; lia). cbn [bind]. rewrite pyset_nonneg by lia. rewrite Nat2Z.id. cbn [bind].
    set (row' := firstn t row ++ last12 v ++ skipn (t + 12) row).
    assert (LR : length row' = length row) by (unfold row'; rewrite !app_length, firstn_length, skipn_length; lia).
    rewrite (IH r (upd H j row') j row' (t + 12)%nat).
    + replace (t + 12 * S (length ls))%nat with (t + 12 + 12 * length ls)%nat by lia. rewrite upd_twice. do 2 f_equal.
      assert (X : firstn (t + 12) row' = firstn t row ++ last12 v).
      { unfold row'. rewrite app_assoc. rewrite firstn_app. rewrite app_length, firstn_length, LV.
        replace (t + 12 - (Nat.min t (length row) + 12))%nat with 0%nat by lia. cbn [firstn]. rewrite app_nil_r. apply firstn_all2.
        rewrite app_length, firstn_length, LV. lia. }
      rewrite X. rewrite <- !app_assoc. do 2 f_equal. f_equal. unfold row'. rewrite app_assoc, skipn_app. rewrite app_length, firstn_length, LV.
      rewrite (skipn_all2 (firstn t row ++ last12 v)) by (rewrite app_length, firstn_length, LV; lia). cbn [app].
      rewrite skipn_skipn_. f_equal. lia.
    + rewrite upd_length. exact J.
    + apply nth_upd_same. exact J.
    + exact (Forall_inv_tail F).
    + rewrite LR. lia.
Qed.
Lemma hours_length n b : full_block n b -> length (hours_of b) = (365 * 24)%nat.
Proof.
  intros (_ & L & F). unfold hours_of.
  assert (X : forall ls, Forall (fun v : list Qc => (12 <= length v)%nat) ls -> length (flat_map (fun v => skipn (length v - 12) v) ls) = (12 * length ls)%nat).
  { clear. induction ls as [|v ls IH]; intros F; cbn [flat_map length]; [lia|]. rewrite app_length, IH by exact (Forall_inv_tail F).
    rewrite skipn_length. pose proof (Forall_inv F). cbn beta in *. lia. }
  rewrite X by exact F. rewrite L. reflexivity.
Qed.
Lemma shape_upd {A} n w (H : list (list A)) j row : shape n w H -> length row = w -> shape n w (upd H j row).
Proof.
  intros (L & R) E. split; [rewrite upd_length; exact L|]. intros i Hi.
  destruct (Nat.eq_dec i j) as [->|D]; [rewrite nth_upd_same by lia; exact E|]. rewrite nth_upd_other by congruence. apply R. exact Hi.
Qed.
Lemma read_blocks n : forall bs st H, Forall (full_block n) bs -> shape n (365 * 24) H ->
  exists H', read_loads (load_file bs) st H = Ok H' /\ shape n (365 * 24) H' /\
    forall j, (j < n)%nat -> (forall b, last_block bs (S j) b -> nth j H' [] = hours_of b) /\
      ((forall b, In b bs -> ~ header_digit b (S j)) -> nth j H' [] = nth j H []).
Proof.
  induction bs as [|b bs IH]; intros st H F SH.
  - exists H. split; [reflexivity|]. split; [exact SH|]. intros j Hj. split; [|reflexivity]. intros b (p & q & E & _). destruct p; discriminate E.
  - pose proof (Forall_inv F) as FB. destruct FB as ((d & D1 & HD) & L & F12) eqn:EFB. clear EFB.
    change (load_file (b :: bs)) with (AreaLine (b_header b) :: (map Hours (b_lines b) ++ load_file bs)). cbn [read_loads].
    rewrite (digit_of b d HD) by lia. cbn [bind]. destruct SH as (LH & RH).
    rewrite (read_lines (b_lines b) (load_file bs) H (d - 1) (nth (d - 1) H []) 0 ltac:(lia) eq_refl F12).
    2:{ rewrite RH by lia. rewrite L. lia. }
    cbn [firstn app]. rewrite (skipn_all2 (nth (d - 1) H [])) by (rewrite RH by lia; rewrite L; lia). rewrite app_nil_r.
    fold (hours_of b). set (H1 := upd H (d - 1) (hours_of b)).
    destruct (IH (Some (Z.of_nat (d - 1), (0 + 12 * length (b_lines b))%nat)) H1 (Forall_inv_tail F)) as (H' & E & SH' & C).
    { apply shape_upd; [split; assumption|]. apply (hours_length n). exact (Forall_inv F). }
    exists H'. split; [exact E|]. split; [exact SH'|]. intros j Hj. destruct (C j Hj) as (C1 & C2).
    assert (DEC : forall l, {forall x, In x l -> ~ header_digit x (S j)} + {~ forall x, In x l -> ~ header_digit x (S j)}).
    { induction l as [|x l IHl]; [left; intros ? []|].
      assert (DX : {header_digit x (S j)} + {~ header_digit x (S j)}).
      { unfold header_digit. destruct (le_dec (S j) 9); [|right; tauto].
        destruct (String.get 6 (b_header x)) as [ch|]; [|right; intros (_ & X); discriminate X].
        destruct (ascii_dec ch (ascii_of_nat (48 + S j))) as [->|N]; [left; auto|right; intros (_ & X); injection X; auto]. }
      destruct DX as [DX|DX]; [right; intros X; apply (X x); [left; reflexivity|exact DX]|].
      destruct IHl as [G|G]; [left; intros y [<-|Y]; auto|right; intros X; apply G; intros y Y; apply X; right; exact Y]. }
    split.
    + intros b' (p & q & EB & HB & NQ). destruct p as [|p0 p].
      * cbn in EB. injection EB as -> ->. assert (d = S j) by (apply (digit_unique b'); assumption). subst d.
        rewrite C2 by exact NQ. unfold H1. replace (S j - 1)%nat with j by lia. apply nth_upd_same. lia.
      * cbn in EB. injection EB as -> EB. apply C1. exists p, q. repeat split; try assumption; apply HB.
    + intros NB. rewrite C2 by (intros x X; apply NB; right; exact X). unfold H1. apply nth_upd_other.
      intros E0. apply (NB b); [left; reflexivity|]. replace (S j) with d by lia. exact HD.
Qed.
Lemma amax_top row : top row (amax_init row).
Proof.
  unfold top, amax_init. generalize (qq 1 1000). induction row as [|x row IH]; intros m; cbn [fold_left].
  - split; [intros x [<-|[]]; apply Qcle_refl|left; reflexivity].
  - destruct (IH (qmax m x)) as (A & B). split.
    + intros y [<-|[<-|Y]]; [| |apply A; right; exact Y].
      * apply Qcle_trans with (qmax m x); [|apply A; left; reflexivity]. unfold qmax. destruct (qleb m x) eqn:E; [apply (proj1 (qleb_iff _ _)) in E; exact E|apply Qcle_refl].
      * apply Qcle_trans with (qmax m x); [|apply A; left; reflexivity]. unfold qmax. destruct (qleb m x) eqn:E; [apply Qcle_refl|].
        apply Qclt_le_weak. apply Qcnot_le_lt. intros C. apply (proj2 (qleb_iff _ _)) in C. congruence.
    + destruct B as [B|B]; [|right; right; exact B]. unfold qmax in B at 1. destruct (qleb m x); [right; left; exact B|left; exact B].
Qed.
Lemma top_unique l m m' : top l m -> top l m' -> m = m'.
Proof. intros (A & B) (C & D). apply Qcle_antisym; [apply C; exact B|apply A; exact D]. Qed.
(** the loads delivered for a complete file *)
Theorem xldnew_spec n bs PK : length PK = n -> Forall (full_block n) bs ->
  exists H, xldnew (load_file bs) PK = Ok H /\ shape n (365 * 24) H /\
    forall j, (j < n)%nat ->
      (forall b m t, last_block bs (S j) b -> top (hours_of b) m -> (t < 365 * 24)%nat ->
         mget H j t = Qcmult (Qcdiv (nth t (hours_of b) q0) m) (nth j PK q0)) /\
      ((forall b, In b bs -> ~ header_digit b (S j)) -> forall t, mget H j t = q0).
Proof.
  intros LP F. unfold xldnew.
  destruct (read_blocks n bs None (mzeros (length PK) (365 * 24)) F) as (H' & -> & (LH & RH) & C).
  { rewrite LP. unfold mzeros, vzeros. split; [apply repeat_length|]. intros j Hj. rewrite (nth_repeat_lt _ _ _ []) by exact Hj. apply repeat_length. }
  cbn [bind]. exists (rescale_all H' PK). split; [reflexivity|].
  assert (EQ : forall j, (j < n)%nat -> nth j (rescale_all H' PK) [] = rescale (nth j H' []) (nth j PK q0)).
  { intros j Hj. unfold rescale_all. rewrite (map2_nth rescale H' PK j [] q0 []) by lia. reflexivity. }
  split.
  - split; [unfold rescale_all; rewrite map2_length; lia|]. intros j Hj. rewrite EQ by exact Hj. unfold rescale. rewrite map_length. apply RH. exact Hj.
  - intros j Hj. destruct (C j Hj) as (C1 & C2). split.
    + intros b m t LB T Ht. unfold mget. rewrite EQ by exact Hj. pose proof (C1 b LB) as E. rewrite E.
      assert (LB' : length (hours_of b) = (365 * 24)%nat) by (rewrite <- E; apply RH; exact Hj).
      unfold rescale. rewrite (top_unique _ _ _ T (amax_top _)).
      rewrite (nth_indep _ q0 (Qcmult (Qcdiv q0 (amax_init (hours_of b))) (nth j PK q0))) by (rewrite map_length, LB'; exact Ht).
      rewrite (map_nth (fun v => Qcmult (Qcdiv v (amax_init (hours_of b))) (nth j PK q0))). reflexivity.
    + intros NB t. unfold mget. rewrite EQ by exact Hj. rewrite (C2 NB). unfold mzeros, vzeros. rewrite (nth_repeat_lt _ _ _ []) by lia.
      unfold rescale.
      destruct (le_lt_dec (365 * 24) t) as [G|G]; [apply nth_overflow; rewrite map_length, repeat_length; exact G|].
      set (row := repeat q0 (365 * 24)).
      rewrite (nth_indep _ q0 (Qcmult (Qcdiv q0 (amax_init row)) (nth j PK q0))) by (rewrite map_length; unfold row; rewrite repeat_length; exact G).
      rewrite (map_nth (fun v => Qcmult (Qcdiv v (amax_init row)) (nth j PK q0))). unfold row. rewrite (nth_repeat_lt _ _ _ q0) by exact G.
      unfold Qcdiv. change q0 with 0%Qc. ring.
Qed.
