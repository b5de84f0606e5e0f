(** Proofs about the maintenance scheduler and the outage table. *)
From Verif Require Import Base BaseProofs LoadModel LoadProofs PeakProofs HourProofs MaintModel MaintSpec.
Open Scope Z_scope.

(* ------------------------------------------------------------------ *)
(** ** The outage table *)

Lemma put_unit_row nu L u : (length L < nu)%nat -> put_unit u (table_row nu L) = Ok (table_row nu (L ++ [u])).
Proof.
  intros Hl. unfold put_unit, table_row. cbn [zget nth length].
  rewrite app_length, repeat_length.
  replace (Z.of_nat (length L) + 1 <? Z.of_nat (S (length L + (nu - length L)))) with true
    by (symmetry; apply Z.ltb_lt; lia).
  f_equal. cbn [upd]. replace (Z.to_nat (Z.of_nat (length L) + 1)) with (S (length L)) by lia.
  cbn [upd]. rewrite app_length. cbn [length]. f_equal; [lia|].
  replace (nu - length L)%nat with (S (nu - (length L + 1)))%nat by lia. cbn [repeat].
  clear Hl. induction L as [|x L IH]; cbn [app length upd repeat]; [reflexivity|].
  f_equal. rewrite <- app_assoc in *. cbn [app] in *.
  replace (nu - (S (length L) + 1))%nat with (nu - S (length L + 1))%nat by lia.
  clear IH. generalize (repeat (-1) (nu - S (length L + 1))). intros t. induction L as [|y L IH2]; cbn; [reflexivity|]. f_equal. apply IH2.
Qed.

Lemma put_unit_full nu L u : (nu <= length L)%nat -> put_unit u (table_row nu L) = Err IndexError.
Proof.
  intros Hl. unfold put_unit, table_row. cbn [zget nth length].
  rewrite app_length, repeat_length.
  replace (Z.of_nat (length L) + 1 <? Z.of_nat (S (length L + (nu - length L)))) with false
    by (symmetry; apply Z.ltb_ge; lia). reflexivity.
Qed.

(** rows w, w+1, ... with lists [f w], [f (w+1)], ... *)
Definition rows_from (nu : nat) (f : Z -> list Z) (w : Z) (n : nat) : list (list Z) :=
  map (fun k => table_row nu (f (w + Z.of_nat k))) (seq 0 n).

Lemma rows_from_S nu f w n : rows_from nu f w (S n) = table_row nu (f w) :: rows_from nu f (w + 1) n.
Proof.
  unfold rows_from. cbn [seq map]. replace (w + Z.of_nat 0) with w by lia. f_equal.
  rewrite <- seq_shift, map_map. apply map_ext. intros k. f_equal. f_equal. lia.
Qed.
Lemma rows_from_ext nu f g w n : (forall k, w <= k < w + Z.of_nat n -> f k = g k) -> rows_from nu f w n = rows_from nu g w n.
Proof. intros H. unfold rows_from. apply map_ext_in. intros k Hk. apply in_seq in Hk. rewrite H by lia. reflexivity. Qed.

Definition add_if (u j1 j2 : Z) (f : Z -> list Z) (w : Z) : list Z := f w ++ if (j1 <=? w) && (w <? j2) then [u] else [].

Lemma put_rows_ok nu u j1 j2 f : forall n w,
  (forall k, w <= k < w + Z.of_nat n -> (length (add_if u j1 j2 f k) <= nu)%nat) ->
  put_rows u j1 j2 w (rows_from nu f w n) = Ok (rows_from nu (add_if u j1 j2 f) w n).
Proof.
  induction n as [|n IH]; intros w H; [reflexivity|].
  rewrite !rows_from_S. cbn [put_rows].
  pose proof (H w ltac:(lia)) as H0. unfold add_if in H0.
  assert (E : (if (j1 <=? w) && (w <? j2) then put_unit u (table_row nu (f w)) else Ok (table_row nu (f w))) = Ok (table_row nu (add_if u j1 j2 f w))).
  { unfold add_if. destruct ((j1 <=? w) && (w <? j2)).
    - rewrite app_length in H0. cbn in H0. apply put_unit_row. lia.
    - rewrite app_nil_r. reflexivity. }
  rewrite E. cbn [bind]. rewrite IH by (intros k Hk; apply H; lia). reflexivity.
Qed.
Lemma put_rows_err nu u j1 j2 f : forall n w k, w <= k < w + Z.of_nat n ->
  (forall k, w <= k < w + Z.of_nat n -> (length (f k) <= nu)%nat) ->
  (nu < length (add_if u j1 j2 f k))%nat ->
  put_rows u j1 j2 w (rows_from nu f w n) = Err IndexError.
Proof.
  induction n as [|n IH]; intros w k Hk H Hb; [lia|].
  rewrite !rows_from_S. cbn [put_rows].
  destruct (le_lt_dec (length (add_if u j1 j2 f w)) nu) as [Hw|Hw].
  - assert (E : (if (j1 <=? w) && (w <? j2) then put_unit u (table_row nu (f w)) else Ok (table_row nu (f w))) = Ok (table_row nu (add_if u j1 j2 f w))).
    { unfold add_if in *. destruct ((j1 <=? w) && (w <? j2)).
      - rewrite app_length in Hw. cbn in Hw. apply put_unit_row. lia.
      - rewrite app_nil_r. reflexivity. }
    rewrite E. cbn [bind].
    destruct (Z.eq_dec k w) as [->|Hne]; [lia|].
    rewrite (IH (w + 1) k) by (try lia; intros; apply H; lia). reflexivity.
  - unfold add_if in Hw. pose proof (H w ltac:(lia)).
    destruct ((j1 <=? w) && (w <? j2)); rewrite app_length in Hw; cbn in Hw; [|lia].
    rewrite put_unit_full by lia. reflexivity.
Qed.

(** what an outage contributes to the rows as the code computes it *)
Definition covers51 (w : Z) (o : outage) : bool := covers w o && (w <? 51).
Definition add_outage (o : outage) (f : Z -> list Z) (w : Z) : list Z := f w ++ if covers51 w o then [fst (fst o)] else [].

Lemma put_outage_ok nu u b d f :
  (forall k, 0 <= k < 52 -> (length (add_outage (u, b, d) f k) <= nu)%nat) ->
  put_outage u b d (rows_from nu f 0 52) = Ok (rows_from nu (add_outage (u, b, d) f) 0 52).
Proof.
  intros H. unfold put_outage.
  assert (X : forall k, add_if u b (Z.min 51 (b + d)) f k = add_outage (u, b, d) f k \/ b < 0).
  { intros k. destruct (Z_lt_le_dec b 0); [right; lia|left]. unfold add_if, add_outage, covers51, covers. cbn [fst].
    replace ((0 <=? b) && (b <=? k) && (k <? b + d) && (k <? 51)) with ((b <=? k) && (k <? Z.min 51 (b + d))); [reflexivity|].
    destruct (Z.leb_spec 0 b), (Z.leb_spec b k), (Z.ltb_spec k (b + d)), (Z.ltb_spec k 51), (Z.ltb_spec k (Z.min 51 (b + d))); cbn; lia. }
  destruct (b <? 0) eqn:Eb.
  - apply Z.ltb_lt in Eb. f_equal. apply rows_from_ext. intros k Hk. unfold add_outage, covers51, covers.
    replace (0 <=? b) with false by (symmetry; apply Z.leb_gt; lia). cbn. rewrite app_nil_r. reflexivity.
  - apply Z.ltb_ge in Eb. rewrite put_rows_ok.
    + f_equal. apply rows_from_ext. intros k Hk. destruct (X k); [assumption|lia].
    + intros k Hk. destruct (X k) as [->|]; [|lia]. apply H. lia.
Qed.

Fixpoint add_outages (os : list outage) (f : Z -> list Z) : Z -> list Z :=
  match os with [] => f | o :: r => add_outages r (add_outage o f) end.
Lemma add_outages_value os : forall f w, add_outages os f w = f w ++ map (fun o => fst (fst o)) (filter (covers51 w) os).
Proof.
  induction os as [|o os IH]; intros f w; cbn [add_outages filter map]; [rewrite app_nil_r; reflexivity|].
  rewrite IH. unfold add_outage. rewrite <- app_assoc. f_equal. destruct (covers51 w o); reflexivity.
Qed.
Lemma add_outage_le o f w : (length (f w) <= length (add_outage o f w))%nat.
Proof. unfold add_outage. rewrite app_length. lia. Qed.
Lemma add_outages_le os f w : (length (f w) <= length (add_outages os f w))%nat.
Proof. rewrite add_outages_value, app_length. lia. Qed.

Definition step (acc : res (list (list Z))) (r : list Z) : res (list (list Z)) :=
  do T <- acc; do T' <- put_outage (zget r 0) (zget r 3) (zget r 4) T; put_outage (zget r 0) (zget r 5) (zget r 6) T'.
Lemma table_fold nu : forall ID f,
  (forall w, 0 <= w < 52 -> (length (add_outages (flat_map outages_of ID) f w) <= nu)%nat) ->
  fold_left step ID (Ok (rows_from nu f 0 52)) = Ok (rows_from nu (add_outages (flat_map outages_of ID) f) 0 52).
Proof.
  induction ID as [|r ID IH]; intros f H; [reflexivity|].
  cbn [fold_left]. cbn [flat_map app outages_of] in *. cbn [add_outages] in *.
  unfold step at 2. cbn [bind].
  rewrite put_outage_ok. 2:{ intros k Hk. eapply Nat.le_trans; [|apply (H k Hk)]. eapply Nat.le_trans; [apply add_outage_le|apply add_outages_le]. }
  cbn [bind]. rewrite put_outage_ok. 2:{ intros k Hk. eapply Nat.le_trans; [|apply (H k Hk)]. apply add_outages_le. }
  apply IH. exact H.
Qed.
Lemma step_err : forall ID e, fold_left step ID (Err e) = Err e.
Proof. induction ID; intros e; cbn; auto. Qed.

(** the units the table lists in week w *)
Definition in_table (ID : list (list Z)) (w : Z) : list Z := map (fun o => fst (fst o)) (filter (covers51 w) (flat_map outages_of ID)).
Lemma in_table_early ID w : w < 51 -> in_table ID w = out_in ID w.
Proof.
  intros H. unfold in_table, out_in. f_equal. apply filter_ext. intros o. unfold covers51.
  replace (w <? 51) with true by (symmetry; apply Z.ltb_lt; lia). apply andb_true_r.
Qed.
Lemma in_table_last ID w : 51 <= w -> in_table ID w = [].
Proof.
  intros H. unfold in_table. assert (E : filter (covers51 w) (flat_map outages_of ID) = []); [|rewrite E; reflexivity].
  induction (flat_map outages_of ID) as [|o l IH]; [reflexivity|]. cbn [filter]. unfold covers51 at 1.
  replace (w <? 51) with false by (symmetry; apply Z.ltb_ge; lia). rewrite andb_false_r. exact IH.
Qed.

Theorem outage_table_ok ID : (forall w, 0 <= w < 51 -> (length (out_in ID w) <= length ID)%nat) ->
  outage_table ID = Ok (map (fun w => table_row (length ID) (in_table ID (Z.of_nat w))) (seq 0 52)).
Proof.
  intros H. unfold outage_table. change (fun acc r => _) with step.
  assert (E : repeat (0 :: repeat (-1) (length ID)) 52 = rows_from (length ID) (fun _ => []) 0 52).
  { unfold rows_from, table_row. cbn [length]. rewrite Nat.sub_0_r. reflexivity. }
  rewrite E. clear E. rewrite table_fold.
  - f_equal. unfold rows_from. apply map_ext. intros k. rewrite Z.add_0_l, add_outages_value. reflexivity.
  - intros w Hw. rewrite add_outages_value. cbn [app]. change (map _ (filter _ _)) with (in_table ID w).
    destruct (Z_lt_le_dec w 51); [rewrite in_table_early by lia; apply H; lia|rewrite in_table_last by lia; cbn; lia].
Qed.

Lemma put_outage_err nu u b d f k : 0 <= k < 52 ->
  (forall k, 0 <= k < 52 -> (length (f k) <= nu)%nat) -> (nu < length (add_outage (u, b, d) f k))%nat ->
  put_outage u b d (rows_from nu f 0 52) = Err IndexError.
Proof.
  intros Hk H Hb. unfold put_outage. pose proof (H k Hk).
  unfold add_outage, covers51, covers in Hb. cbn [fst] in Hb. rewrite app_length in Hb.
  destruct ((0 <=? b) && (b <=? k) && (k <? b + d) && (k <? 51)) eqn:E; [|cbn in Hb; lia].
  rewrite !andb_true_iff, !Z.leb_le, !Z.ltb_lt in E.
  replace (b <? 0) with false by (symmetry; apply Z.ltb_ge; lia).
  apply (put_rows_err nu u b _ f 52 0 k); [lia|intros; apply H; lia|].
  unfold add_if. replace ((b <=? k) && (k <? Z.min 51 (b + d))) with true; [rewrite app_length; exact Hb|].
  symmetry. rewrite andb_true_iff, Z.leb_le, Z.ltb_lt. lia.
Qed.
Lemma exceeds_dec nu (f : Z -> list Z) : (forall k, 0 <= k < 52 -> (length (f k) <= nu)%nat) \/ exists k, 0 <= k < 52 /\ (nu < length (f k))%nat.
Proof.
  assert (G : forall m : nat, (forall k, 0 <= k < Z.of_nat m -> (length (f k) <= nu)%nat) \/ exists k, 0 <= k < Z.of_nat m /\ (nu < length (f k))%nat).
  { induction m as [|m IH]; [left; intros; lia|]. destruct IH as [IH|(k & A & B)]; [|right; exists k; split; [lia|exact B]].
    destruct (le_lt_dec (length (f (Z.of_nat m))) nu) as [L|L].
    - left. intros k Hk. destruct (Z.eq_dec k (Z.of_nat m)) as [->|]; [exact L|apply IH; lia].
    - right. exists (Z.of_nat m). split; [lia|exact L]. }
  exact (G 52%nat).
Qed.
Lemma table_fold_err nu : forall ID f w, 0 <= w < 52 ->
  (forall w, 0 <= w < 52 -> (length (f w) <= nu)%nat) ->
  (nu < length (add_outages (flat_map outages_of ID) f w))%nat ->
  fold_left step ID (Ok (rows_from nu f 0 52)) = Err IndexError.
Proof.
  induction ID as [|r ID IH]; intros f w Hw H Hb; [pose proof (H w Hw); cbn in Hb; lia|].
  cbn [fold_left]. cbn [flat_map app outages_of] in *. cbn [add_outages] in *.
  unfold step at 2. cbn [bind].
  destruct (exceeds_dec nu (add_outage (zget r 0, zget r 3, zget r 4) f)) as [A|(k & Hk & A)].
  - rewrite put_outage_ok by exact A. cbn [bind].
    destruct (exceeds_dec nu (add_outage (zget r 0, zget r 5, zget r 6) (add_outage (zget r 0, zget r 3, zget r 4) f))) as [B|(k & Hk & B)].
    + rewrite put_outage_ok by exact B. apply (IH _ w Hw B Hb).
    + rewrite (put_outage_err nu _ _ _ _ k Hk A B). apply step_err.
  - rewrite (put_outage_err nu _ _ _ _ k Hk H A). cbn [bind]. apply step_err.
Qed.
(** too many entries in a week: the table cannot be built *)
Theorem outage_table_err ID w : 0 <= w < 51 -> (length ID < length (out_in ID w))%nat -> outage_table ID = Err IndexError.
Proof.
  intros Hw H. unfold outage_table. change (fun acc r => _) with step.
  assert (E : repeat (0 :: repeat (-1) (length ID)) 52 = rows_from (length ID) (fun _ => []) 0 52).
  { unfold rows_from, table_row. cbn [length]. rewrite Nat.sub_0_r. reflexivity. }
  rewrite E. clear E. apply (table_fold_err (length ID) ID (fun _ => []) w); [lia|intros; cbn; lia|].
  rewrite add_outages_value. cbn [app]. change (map _ (filter _ _)) with (in_table ID w). rewrite in_table_early by lia. exact H.
Qed.

(* ------------------------------------------------------------------ *)
(** ** Sorting the units of an area *)

(** plants strictly ascending, from [lo] *)
Fixpoint ascending (lo : Z) (us : list punit) : Prop :=
  match us with [] => True | u :: r => lo <= p_plant u /\ ascending (p_plant u + 1) r end.
Lemma ascending_weaken lo lo' us : lo' <= lo -> ascending lo us -> ascending lo' us.
Proof. destruct us; cbn; [auto|]. intros H (A & B). split; [lia|exact B]. Qed.
Lemma ascending_in : forall us lo u, ascending lo us -> In u us -> lo <= p_plant u.
Proof.
  induction us as [|v us IH]; intros lo u A H; [destruct H|]. cbn in A. destruct A as (A & B), H as [<-|H]; [exact A|].
  specialize (IH _ _ B H). lia.
Qed.
Lemma no_plant i lo us : i < lo -> ascending lo us -> existsb (fun u => p_plant u =? i) us = false.
Proof.
  intros H A. apply not_true_is_false. intros C. apply existsb_exists in C. destruct C as (u & Hu & E).
  apply Z.eqb_eq in E. pose proof (ascending_in _ _ _ A Hu). lia.
Qed.
Lemma largest_none i lo : forall us k C J, i < lo -> ascending lo us -> largest i us k C J = J.
Proof.
  intros us. revert lo. induction us as [|u us IH]; intros lo k C J H A; [reflexivity|].
  cbn [largest]. cbn in A. destruct A as (A & B).
  replace (p_plant u =? i) with false by (symmetry; apply Z.eqb_neq; lia). apply (IH (p_plant u + 1)); [lia|exact B].
Qed.
Definition sane (u : punit) : Prop := (q0 <= p_cap u)%Qc /\ 0 <= p_d1 u /\ 0 <= p_d2 u.
Lemma sane_cdur u : sane u -> qltb (qz (-5)) (Qcmult (p_cap u) (qz (Z.max (p_d1 u) (p_d2 u)))) = true.
Proof.
  intros (A & B & C). apply qltb_iff.
  apply Qclt_le_trans with q0; [apply qltb_iff; vm_compute; reflexivity|].
  assert (D : (q0 <= qz (Z.max (p_d1 u) (p_d2 u)))%Qc) by (apply qz_le; lia).
  change q0 with (0%Qc) in *. replace 0%Qc with (0 * qz (Z.max (p_d1 u) (p_d2 u)))%Qc by ring.
  apply Qcmult_le_compat_r; assumption.
Qed.
Lemma take_plant_spec i us : ascending i us -> Forall sane us ->
  take_plant (length us) i us =
    match us with
    | u :: r => if p_plant u =? i then Ok ([u], r) else Ok ([], us)
    | [] => Ok ([], [])
    end.
Proof.
  intros A S0. destruct us as [|u r]; [reflexivity|]. cbn in A. destruct A as (A & B).
  cbn [length take_plant existsb]. destruct (p_plant u =? i) eqn:E.
  - cbn [orb largest]. rewrite E. rewrite (sane_cdur u (Forall_inv S0)).
    rewrite (largest_none i (p_plant u + 1)) by (try exact B; apply Z.eqb_eq in E; lia).
    unfold remove_at. cbn [firstn skipn app nth].
    assert (N0 : existsb (fun u => p_plant u =? i) r = false) by (apply (no_plant i (p_plant u + 1)); [apply Z.eqb_eq in E; lia|exact B]).
    destruct (length r); cbn [take_plant]; rewrite N0; reflexivity.
  - cbn [orb]. apply Z.eqb_neq in E. rewrite (no_plant i (p_plant u + 1)) by (try lia; exact B). reflexivity.
Qed.
Lemma take_plants_spec : forall n i us, ascending i us -> Forall sane us ->
  take_plants n i us = Ok (filter (fun u => p_plant u <? i + Z.of_nat n) us).
Proof.
  induction n as [|n IH]; intros i us A S0.
  - cbn [take_plants]. f_equal. symmetry. replace (i + Z.of_nat 0) with i by lia.
    destruct us as [|u r]; [reflexivity|]. cbn in A. destruct A as (A & B). cbn [filter].
    replace (p_plant u <? i) with false by (symmetry; apply Z.ltb_ge; lia).
    clear S0. assert (G : forall lo us, i <= lo -> ascending lo us -> filter (fun u => p_plant u <? i) us = []).
    { intros lo us. revert lo. induction us as [|v us IH]; intros lo L X; [reflexivity|]. cbn in X. destruct X as (X & Y). cbn [filter].
      replace (p_plant v <? i) with false by (symmetry; apply Z.ltb_ge; lia). apply (IH (p_plant v + 1)); [lia|exact Y]. }
    apply (G (p_plant u + 1)); [lia|exact B].
  - cbn [take_plants]. rewrite (take_plant_spec i us A S0).
    destruct us as [|u r].
    + cbn [bind fst snd]. rewrite IH by (cbn; auto). reflexivity.
    + cbn in A. destruct A as (A & B). destruct (p_plant u =? i) eqn:E.
      * apply Z.eqb_eq in E. cbn [bind fst snd]. rewrite IH; [|rewrite <- E; exact B|exact (Forall_inv_tail S0)].
        cbn [bind app filter]. replace (p_plant u <? i + Z.of_nat (S n)) with true by (symmetry; apply Z.ltb_lt; lia).
        f_equal. f_equal. apply filter_ext. intros v. f_equal. lia.
      * apply Z.eqb_neq in E. cbn [bind fst snd]. rewrite IH; [|cbn; split; [lia|exact B]|exact S0].
        cbn [bind app]. f_equal. apply filter_ext. intros v. f_equal. lia.
Qed.

Lemma top_plant_last : forall us lo u, 0 <= lo -> ascending lo (us ++ [u]) -> top_plant (us ++ [u]) = p_plant u.
Proof.
  intros us lo u L A. unfold top_plant. rewrite fold_left_app. cbn [fold_left].
  assert (G : forall us lo a, ascending lo (us ++ [u]) -> a <= lo -> fold_left (fun N u => Z.max N (p_plant u)) us a <= p_plant u).
  { clear. induction us as [|v us IH]; intros lo a A H; cbn [app ascending fold_left] in *; [lia|].
    destruct A as (A & B). apply (IH (p_plant v + 1)); [exact B|lia]. }
  specialize (G us lo 0 A L). assert (G2 : 0 <= p_plant u) by (pose proof (ascending_in _ _ u A ltac:(apply in_or_app; right; left; reflexivity)); lia). lia.
Qed.
Lemma filter_below_last : forall us lo u, ascending lo (us ++ [u]) -> filter (fun v => p_plant v <? p_plant u) (us ++ [u]) = us.
Proof.
  induction us as [|v us IH]; intros lo u A; cbn [app filter].
  - rewrite Z.ltb_irrefl. reflexivity.
  - cbn [app ascending] in A. destruct A as (A & B).
    assert (p_plant v < p_plant u) by (pose proof (ascending_in _ _ u B ltac:(apply in_or_app; right; left; reflexivity)); lia).
    replace (p_plant v <? p_plant u) with true by (symmetry; apply Z.ltb_lt; lia). f_equal. apply (IH _ _ B).
Qed.
(** the sorted array: a row of zeros and all units but the last *)
Lemma sorted_spec us u : ascending 0 (us ++ [u]) -> Forall sane (us ++ [u]) -> sorted_units (us ++ [u]) = Ok (zero_unit :: us).
Proof.
  intros A S0. unfold sorted_units. rewrite (take_plants_spec _ 0 _ A S0). cbn [bind].
  rewrite (top_plant_last us 0 u ltac:(lia) A).
  assert (0 <= p_plant u) by (apply (ascending_in _ _ u A); apply in_or_app; right; left; reflexivity).
  rewrite Z.add_0_l, Z2Nat.id by lia. rewrite (filter_below_last us 0 u A).
  f_equal. rewrite app_length. cbn [length]. replace (length us + 1)%nat with (S (length us)) by lia. cbn [firstn]. f_equal.
  rewrite firstn_app, Nat.sub_diag, firstn_all. cbn. apply app_nil_r.
Qed.

(* ------------------------------------------------------------------ *)
(** ** Nothing is ever scheduled *)

Section PM.
Variable rest : Type.
Variable loss : Qc -> Qc.
Variable presched : list punit -> mst rest -> res (list Qc * list Z * mst rest).
Variable block : nat -> nat -> nat -> mst rest -> res (mst rest).

Lemma mw_zero : mw_weeks loss zero_unit = q0.
Proof. unfold mw_weeks, zero_unit. cbn [p_d1 p_d2]. change (qz (0 + 0)) with q0. change q0 with 0%Qc. ring. Qed.

Lemma pyset_ok {A} (l : list A) i x : (0 < length l)%nat -> -1 <= i < Z.of_nat (length l) -> exists l', pyset l i x = Ok l' /\ length l' = length l.
Proof.
  intros L H. unfold pyset. rewrite (pyidx_wrap _ _ _ L H eq_refl). eexists. split; [reflexivity|]. apply upd_length.
Qed.
Lemma pyget_ok {A} (l : list A) i (d : A) : (0 < length l)%nat -> -1 <= i < Z.of_nat (length l) -> exists x, pyget l i = Ok x.
Proof.
  intros L H. eexists. apply (pyget_idx l i _ d (pyidx_wrap _ _ _ L H eq_refl)).
  pose proof (Z.mod_pos_bound i (Z.of_nat (length l)) ltac:(lia)). lia.
Qed.
Lemma plant_totals_ok : forall us j i LT M W, (0 < length M)%nat -> -1 <= i -> i + Z.of_nat (length us) < Z.of_nat (length M) ->
  exists M' W', plant_totals loss us j i LT M W = Ok (M', W') /\ length M' = length M /\ length W' = length W.
Proof.
  induction us as [|u us IH]; intros j i LT M W L I0 B; cbn [plant_totals]; [exists M, W; auto|].
  cbn [length] in B.
  set (new := negb (LT =? p_plant u)). set (M1 := if new then upd M j q0 else M). set (W1 := if new then upd W j (p_plant u) else W).
  assert (LM : length M1 = length M) by (unfold M1; destruct new; [apply upd_length|reflexivity]).
  assert (LW : length W1 = length W) by (unfold W1; destruct new; [apply upd_length|reflexivity]).
  set (i1 := if new then i + 1 else i). assert (I1 : -1 <= i1 <= i + 1) by (unfold i1; destruct new; lia).
  destruct (pyget_ok M1 i1 q0 ltac:(lia) ltac:(lia)) as (v & ->). cbn [bind].
  destruct (pyset_ok M1 i1 (Qcplus v (mw_weeks loss u)) ltac:(lia) ltac:(lia)) as (M2 & -> & L2). cbn [bind].
  destruct (IH (S j) i1 (if new then p_plant u else LT) M2 W1 ltac:(lia) ltac:(lia) ltac:(lia)) as (M3 & W3 & -> & L3 & L4).
  exists M3, W3. split; [reflexivity|]. lia.
Qed.

Lemma largest_total_bound N i M : (largest_total N i M <= Nat.max N i)%nat.
Proof.
  unfold largest_total.
  assert (G : forall l st, (forall K, In K l -> (K < N)%nat) -> (snd st <= Nat.max N i)%nat ->
     (snd (fold_left (fun st K => if qltb (fst st) (vget M K) then (vget M K, K) else st) l st) <= Nat.max N i)%nat).
  { induction l as [|K l IH]; intros st H Hs; [exact Hs|]. cbn [fold_left]. apply IH; [intros; apply H; right; assumption|].
    pose proof (H K (or_introl eq_refl)). destruct (qltb _ _); cbn [snd]; lia. }
  apply G; [intros K HK; apply in_seq in HK; lia|cbn [snd]; lia].
Qed.

(** at most one entry is not zero *)
Definition single (l : list Qc) : Prop :=
  Forall (fun x => x = q0) l \/ exists a x b, l = a ++ x :: b /\ Forall (fun x => x = q0) a /\ Forall (fun x => x = q0) b.
Definition bstep (nn : Z * Z) (jx : nat * Qc) : Z * Z :=
  let '(N1, N2) := nn in let '(j, x) := jx in
  let N2' := if qeqb x q0 then N2 else Z.of_nat j in
  (if qeqb x q0 && (N2' =? -1) then N1 + 1 else N1, N2').
Lemma bstep_zero_lead : forall a k N1, Forall (fun x => x = q0) a ->
  fold_left bstep (combine (seq k (length a)) a) (N1, -1) = (N1 + Z.of_nat (length a), -1).
Proof.
  induction a as [|x a IH]; intros k N1 F; cbn [length seq combine fold_left]; [f_equal; lia|].
  rewrite (Forall_inv F). unfold bstep at 2. replace (qeqb q0 q0) with true by reflexivity. change (-1 =? -1) with true. cbn [andb].
  rewrite IH by exact (Forall_inv_tail F). f_equal. lia.
Qed.
Lemma bstep_zero_tail : forall b k N1 N2, N2 <> -1 -> Forall (fun x => x = q0) b ->
  fold_left bstep (combine (seq k (length b)) b) (N1, N2) = (N1, N2).
Proof.
  induction b as [|x b IH]; intros k N1 N2 H F; cbn [length seq combine fold_left]; [reflexivity|].
  rewrite (Forall_inv F). unfold bstep at 2. replace (qeqb q0 q0) with true by reflexivity.
  replace (N2 =? -1) with false by (symmetry; apply Z.eqb_neq; exact H). cbn [andb]. apply IH; [exact H|exact (Forall_inv_tail F)].
Qed.
Lemma combine_mid {A B} (x : B) (b : list B) (m : A) (S1 : list A) : forall (a : list B) (l : list A), length l = length a ->
  combine (l ++ m :: S1) (a ++ x :: b) = combine l a ++ (m, x) :: combine S1 b.
Proof. induction a as [|y a IH]; intros [|z l] H; try discriminate H; cbn; [reflexivity|]. f_equal. apply IH. cbn in H. lia. Qed.
Lemma bounds_single l : single l -> snd (bounds l) <= fst (bounds l).
Proof.
  intros S0. unfold bounds. change (fun nn jx => _) with bstep.
  destruct S0 as [F|(a & x & b & -> & Fa & Fb)].
  - rewrite bstep_zero_lead by exact F. cbn [fst snd]. lia.
  - rewrite app_length. cbn [length]. rewrite seq_app. cbn [seq].
    assert (C : combine (seq 0 (length a) ++ (0 + length a)%nat :: seq (S (0 + length a)) (length b)) (a ++ x :: b) =
                combine (seq 0 (length a)) a ++ (length a, x) :: combine (seq (S (length a)) (length b)) b).
    { apply combine_mid. apply seq_length. }
    rewrite C. rewrite fold_left_app. rewrite bstep_zero_lead by exact Fa. cbn [fold_left].
    destruct (qeqb x q0) eqn:E.
    + assert (X : bstep (0 + Z.of_nat (length a), -1) (length a, x) = (0 + Z.of_nat (length a) + 1, -1)) by (unfold bstep; rewrite E; reflexivity).
      rewrite X. rewrite bstep_zero_lead by exact Fb. cbn [fst snd]. lia.
    + assert (X : bstep (0 + Z.of_nat (length a), -1) (length a, x) = (0 + Z.of_nat (length a), Z.of_nat (length a))) by (unfold bstep; rewrite E; reflexivity).
      rewrite X. rewrite bstep_zero_tail by (try exact Fb; lia). cbn [fst snd]. lia.
Qed.

Lemma schedule_idle : forall p N i M W s, length M = length W -> (N < length M)%nat -> (i <= N)%nat ->
  (forall K, single (plant_weeks loss K (t_us rest s))) -> schedule rest loss block p N i M W s = Ok s.
Proof.
  induction p as [|p IH]; intros N i M W s LW LN LI SG; [reflexivity|]. cbn [schedule]. cbv zeta.
  pose proof (largest_total_bound N i M) as LB.
  destruct (pyget_ok W (Z.of_nat (largest_total N i M)) 0 ltac:(lia) ltac:(lia)) as (K1 & ->). cbn [bind].
  destruct (qeqb _ _).
  - apply IH; try assumption; lia.
  - pose proof (bounds_single _ (SG K1)) as BS. destruct (bounds (plant_weeks loss K1 (t_us rest s))) as [N1 N2]. cbn [fst snd] in BS.
    replace (N1 <? N2) with false by (symmetry; apply Z.ltb_ge; lia). cbn [bind].
    apply IH; try assumption; rewrite ?upd_length; try assumption; lia.
Qed.

Lemma weeks_zero_below K lo us : K < lo -> ascending lo us -> Forall (fun x => x = q0) (plant_weeks loss K us).
Proof.
  intros H A. apply Forall_forall. intros x Hx. unfold plant_weeks in Hx. apply in_map_iff in Hx. destruct Hx as (u & <- & Hu).
  pose proof (ascending_in _ _ _ A Hu). replace (p_plant u =? K) with false by (symmetry; apply Z.eqb_neq; lia). reflexivity.
Qed.
Lemma weeks_single K us : forall lo, ascending lo us -> single (plant_weeks loss K us).
Proof.
  induction us as [|u us IH]; intros lo A; [left; constructor|]. cbn in A. destruct A as (A & B).
  destruct (Z.eq_dec (p_plant u) K) as [E|E].
  - right. exists [], (mw_weeks loss u), (plant_weeks loss K us). unfold plant_weeks at 1. cbn [map].
    rewrite E, Z.eqb_refl. split; [reflexivity|]. split; [constructor|]. apply (weeks_zero_below K (p_plant u + 1)); [lia|exact B].
  - unfold plant_weeks. cbn [map]. replace (p_plant u =? K) with false by (symmetry; apply Z.eqb_neq; exact E).
    destruct (IH _ B) as [F|(a & x & b & E1 & Fa & Fb)].
    + left. constructor; [reflexivity|exact F].
    + right. exists (q0 :: a), x, b. unfold plant_weeks in E1. rewrite E1. repeat split; auto.
Qed.
Lemma weeks_single0 K us : ascending 0 us -> single (plant_weeks loss K (zero_unit :: us)).
Proof.
  intros A. assert (E : plant_weeks loss K (zero_unit :: us) = q0 :: plant_weeks loss K us).
  { unfold plant_weeks. cbn [map]. rewrite mw_zero. destruct (_ =? K); reflexivity. }
  rewrite E. destruct (weeks_single K us 0 A) as [F|(a & x & b & -> & Fa & Fb)].
  - left. constructor; [reflexivity|exact F].
  - right. exists (q0 :: a), x, b. repeat split; auto.
Qed.

(* ------------------------------------------------------------------ *)
(** ** One area *)

Fixpoint asc (lo : nat) (ps : list nat) : Prop := match ps with [] => True | p :: r => (lo <= p)%nat /\ asc (S p) r end.
Lemma asc_weaken lo lo' ps : (lo' <= lo)%nat -> asc lo ps -> asc lo' ps.
Proof. destruct ps; cbn; [auto|]. intros H (A & B). split; [lia|exact B]. Qed.
Lemma asc_filter f : forall n lo, asc lo (filter f (seq lo n)).
Proof.
  induction n as [|n IH]; intros lo; cbn [seq filter]; [exact Logic.I|].
  destruct (f lo); [cbn; split; [lia|apply IH]|apply (asc_weaken (S lo)); [lia|apply IH]].
Qed.
Lemma area_units_in IA ID p : In p (area_units IA ID) <-> (p < length ID)%nat /\ zget (nth p ID []) 2 = Z.of_nat IA.
Proof. unfold area_units. rewrite filter_In, in_seq, Z.eqb_eq. lia. Qed.

Lemma upd_self {A} (l : list A) n d : upd l n (nth n l d) = l.
Proof. revert n. induction l as [|x l IH]; intros [|n]; cbn; try reflexivity. f_equal. apply IH. Qed.
Lemma upd_twice {A} (l : list A) n x y : upd (upd l n x) n y = upd l n y.
Proof. revert n. induction l as [|z l IH]; intros [|n]; cbn; try reflexivity. f_equal. apply IH. Qed.
Lemma upd_comm {A} (l : list A) n m x y : n <> m -> upd (upd l n x) m y = upd (upd l m y) n x.
Proof. revert n m. induction l as [|z l IH]; intros [|n] [|m] H; cbn; try reflexivity; try congruence. f_equal. apply IH. congruence. Qed.

Section AREA.
Variables (ID : list (list Z)) (RATES : list (list Qc)).
Hypothesis RO : rows_ok ID.
Hypothesis RA : ratings_ok (length ID) RATES.

Lemma local_sane k i : (i < length ID)%nat -> sane (local_unit k (nth i ID []) (nth i RATES [])).
Proof.
  intros H. destruct (RO i H) as (_ & _ & _ & A & B). destruct RA as (L & C).
  destruct (C (nth i RATES []) ltac:(apply nth_In; lia)) as (L4 & F).
  split; [|split; cbn; assumption]. cbn [local_unit p_cap]. rewrite firstn_all2 by lia.
  destruct (argmaxv_spec (nth i RATES [])) as ((K & _) & E); [intros C0; rewrite C0 in L4; discriminate L4|].
  rewrite E. apply (proj1 (Forall_forall _ _) F). apply nth_In. exact K.
Qed.
Lemma local_list : forall ps k lo, asc lo ps -> (forall p, In p ps -> (p < length ID)%nat) ->
  let us := map (fun q => local_unit (fst q) (nth (snd q) ID []) (nth (snd q) RATES [])) (combine (seq k (length ps)) ps) in
  ascending (Z.of_nat lo) us /\ Forall sane us.
Proof.
  induction ps as [|p ps IH]; intros k lo A H; cbn [length seq combine map]; [split; [exact Logic.I|constructor]|].
  cbn in A. destruct A as (A & B). assert (HP : (p < length ID)%nat) by (apply H; left; reflexivity).
  destruct (IH (S k) (S p) B ltac:(intros; apply H; right; assumption)) as (X & Y). cbn [fst snd].
  split.
  - cbn [ascending]. unfold local_unit at 1 2. cbn [p_plant]. destruct (RO p HP) as (_ & _ & -> & _). split; [lia|].
    replace (Z.of_nat p + 1) with (Z.of_nat (S p)) by lia. exact X.
  - constructor; [apply local_sane; exact HP|exact Y].
Qed.
Lemma local_units_ok IA : ascending 0 (local_units IA ID RATES) /\ Forall sane (local_units IA ID RATES).
Proof.
  unfold local_units, mapi. apply (local_list (area_units IA ID) 0 0).
  - apply asc_filter.
  - intros p Hp. apply area_units_in in Hp. apply Hp.
Qed.
Lemma local_length IA : length (local_units IA ID RATES) = length (area_units IA ID).
Proof. apply mapi_length. Qed.
Lemma local_nth IA k : (k < length (area_units IA ID))%nat ->
  let p := nth k (area_units IA ID) 0%nat in
  nth k (local_units IA ID RATES) zero_unit = local_unit k (nth p ID []) (nth p RATES []) /\ (p < length ID)%nat.
Proof.
  intros H p. split; [unfold local_units; rewrite (nth_mapi _ _ _ 0%nat) by exact H; reflexivity|].
  apply (area_units_in IA). apply nth_In. exact H.
Qed.

Lemma wb_step (D : list (list Z)) IA k u : (k < length (area_units IA ID))%nat -> length D = length ID -> p_no u = Z.of_nat k ->
  let p := nth k (area_units IA ID) 0%nat in
  (do DD <- Ok D; do IND <- pyget (numbers IA ID) (p_no u); do row <- pyget DD IND;
   pyset DD IND (upd (upd row 3 (p_b1 u / 168 + 1)) 5 (p_b2 u / 168 + 1))) =
  Ok (upd D p (upd (upd (nth p D []) 3 (p_b1 u / 168 + 1)) 5 (p_b2 u / 168 + 1))).
Proof.
  intros H LD E p. cbn [bind]. rewrite E.
  assert (LN : length (numbers IA ID) = length (area_units IA ID)) by apply map_length.
  destruct (local_nth IA k H) as (_ & HP). fold p in HP.
  rewrite (pyget_nonneg _ _ 0) by lia. cbn [bind]. rewrite Nat2Z.id.
  assert (EN : nth k (numbers IA ID) 0 = Z.of_nat p).
  { unfold numbers. rewrite (nth_indep _ 0 (zget (nth 0%nat ID []) 0)) by (rewrite map_length; exact H).
    rewrite (map_nth (fun i => zget (nth i ID []) 0)). fold p. apply (RO p HP). }
  rewrite EN. rewrite (pyget_nonneg _ _ []) by lia. cbn [bind]. rewrite pyset_nonneg by lia. rewrite !Nat2Z.id. reflexivity.
Qed.
Lemma back x : (x * 168 - 168) / 168 + 1 = x.
Proof. replace (x * 168 - 168) with ((x - 1) * 168) by lia. rewrite Z.div_mul by lia. lia. Qed.
Lemma row_id p : (p < length ID)%nat -> upd (upd (nth p ID []) 3 (zget (nth p ID []) 3)) 5 (zget (nth p ID []) 5) = nth p ID [].
Proof. intros H. unfold zget. rewrite upd_self, upd_self. reflexivity. Qed.

Definition wb (NR0 : list Z) (acc : res (list (list Z))) (u : punit) : res (list (list Z)) :=
  do D <- acc; do IND <- pyget NR0 (p_no u); do row <- pyget D IND;
  pyset D IND (upd (upd row 3 (p_b1 u / 168 + 1)) 5 (p_b2 u / 168 + 1)).
(** writing back unchanged units changes nothing *)
Lemma wb_same IA : forall us, (forall u, In u us -> exists k, (k < length (area_units IA ID))%nat /\ u = nth k (local_units IA ID RATES) zero_unit) ->
  fold_left (wb (numbers IA ID)) us (Ok ID) = Ok ID.
Proof.
  induction us as [|u us IH]; intros H; [reflexivity|]. cbn [fold_left].
  destruct (H u (or_introl eq_refl)) as (k & Hk & E). destruct (local_nth IA k Hk) as (EN & HP). cbv zeta in EN, HP.
  assert (X : wb (numbers IA ID) (Ok ID) u = Ok ID).
  { unfold wb. rewrite (wb_step ID IA k u Hk eq_refl) by (rewrite E, EN; reflexivity). rewrite E, EN. cbn [local_unit p_b1 p_b2]. rewrite !back.
    rewrite row_id by exact HP. rewrite upd_self. reflexivity. }
  rewrite X. apply IH. intros v Hv. apply H. right. exact Hv.
Qed.


Lemma pmsc_spec IA ITAB r0 : (length (area_units IA ID) <= 500)%nat ->
  pmsc rest loss presched block IA ID ITAB RATES r0 =
  match area_units IA ID with
  | [] => Ok (ID, ITAB)
  | [p] => Ok (upd ID p (restarted (nth p ID [])), ITAB + 1)
  | _ => Ok (ID, ITAB + 1)
  end.
Proof.
  intros L5. unfold pmsc. cbv zeta. rewrite local_length.
  destruct (local_units_ok IA) as (AS & SN).
  pose proof (local_length IA) as LL. pose proof (local_nth IA) as LN. cbv zeta in LN.
  assert (AIN : forall p, In p (area_units IA ID) -> (p < length ID)%nat) by (intros p Hp; apply area_units_in in Hp; apply Hp).
  assert (LEN : (length (area_units IA ID) <= length ID)%nat).
  { unfold area_units. eapply Nat.le_trans; [apply filter_le|]. rewrite seq_length. lia. }
  destruct (Nat.eqb_spec (length (area_units IA ID)) 0) as [Z0|NZ].
  { destruct (area_units IA ID); [reflexivity|discriminate Z0]. }
  assert (NE : local_units IA ID RATES <> []) by (intros C; rewrite C in LL; cbn in LL; lia).
  destruct (exists_last NE) as (us & u & EU).
  assert (LU : (length us + 1 = length (area_units IA ID))%nat).
  { rewrite <- LL, EU, app_length. cbn. lia. }
  rewrite EU in AS, SN. rewrite EU, (sorted_spec us u AS SN). cbn [bind].
  replace (500 <? length (area_units IA ID))%nat with false by (symmetry; apply Nat.ltb_ge; exact L5).
  replace (leading (zero_unit :: us)) with 0%nat by reflexivity. cbn [Nat.eqb].
  assert (AU : ascending 0 us).
  { clear - AS. revert AS. generalize 0. induction us as [|v us IH]; intros lo A; [exact Logic.I|]. cbn in *. destruct A as (A & B). split; [exact A|apply IH; exact B]. }
  assert (TP : top_plant (us ++ [u]) = Z.of_nat (nth (length us) (area_units IA ID) 0%nat) /\ (nth (length us) (area_units IA ID) 0 < length ID)%nat).
  { rewrite (top_plant_last us 0 u ltac:(lia) AS). destruct (LN (length us) ltac:(lia)) as (E & HP). split; [|exact HP].
    rewrite EU, app_nth2, Nat.sub_diag in E by lia. cbn [nth] in E. rewrite E. cbn [local_unit p_plant]. apply (RO _ HP). }
  destruct TP as (TP & TL). rewrite TP, Nat2Z.id. set (N := nth (length us) (area_units IA ID) 0%nat) in *.
  destruct (plant_totals_ok (zero_unit :: us) 0 (-1) 0 (vzeros (length ID)) (repeat 0 (length ID))) as (M & W & E & LM & LW).
  { unfold vzeros. rewrite repeat_length. lia. } { lia. } { unfold vzeros. rewrite repeat_length. cbn [length]. lia. }
  rewrite E. cbn [bind]. unfold vzeros in LM. rewrite repeat_length in LM, LW.
  rewrite schedule_idle; [|lia|lia|lia|intros K; cbn [t_us]; apply weeks_single0; exact AU].
  cbn [bind t_INDEX t_us].
  assert (IX : existsb (fun p : Qc * Qc => negb (qeqb (fst p) q0) || negb (qeqb (snd p) q0)) (firstn (length (area_units IA ID)) (repeat (q0, q0) 500)) = false).
  { apply not_true_is_false. intros C. apply existsb_exists in C. destruct C as (x & Hx & C).
    assert (In x (repeat (q0, q0) 500)) by (revert Hx; clear; intros Hx; rewrite <- (firstn_skipn (length (area_units IA ID)) (repeat (q0, q0) 500)); apply in_or_app; left; exact Hx).
    apply repeat_spec in H. subst x. discriminate C. }
  rewrite IX. unfold write_back. fold (wb (numbers IA ID)).
  assert (W0 : wb (numbers IA ID) (Ok ID) zero_unit = Ok (upd ID (nth 0 (area_units IA ID) 0%nat) (restarted (nth (nth 0 (area_units IA ID) 0%nat) ID [])))).
  { unfold wb. rewrite (wb_step ID IA 0 zero_unit ltac:(lia) eq_refl eq_refl). reflexivity. }
  cbn [fold_left]. rewrite W0. set (p := nth 0 (area_units IA ID) 0%nat) in *.
  destruct us as [|v us].
  - cbn [fold_left bind]. destruct (area_units IA ID) as [|p0 [|p1 l]] eqn:EA; [cbn in LU; lia| |cbn in LU; lia]. reflexivity.
  - cbn [fold_left].
    destruct (LN 0%nat ltac:(lia)) as (EV & HP). fold p in EV, HP. rewrite EU in EV. cbn [app nth] in EV.
    assert (W1 : wb (numbers IA ID) (Ok (upd ID p (restarted (nth p ID [])))) v = Ok ID).
    { unfold wb. rewrite (wb_step _ IA 0 v ltac:(lia) ltac:(apply upd_length)) by (rewrite EV; reflexivity). fold p.
      rewrite nth_upd_same by exact HP. rewrite upd_twice. rewrite EV. cbn [local_unit p_b1 p_b2]. rewrite !back.
      unfold restarted. rewrite (upd_comm (upd (nth p ID []) 3 1) 5 3) by lia. rewrite upd_twice, upd_twice.
      rewrite row_id by exact HP. rewrite upd_self. reflexivity. }
    rewrite W1. rewrite wb_same.
    + cbn [bind]. destruct (area_units IA ID) as [|p0 [|p1 l]] eqn:EA; [cbn in LU; lia|cbn in LU; lia|reflexivity].
    + intros w Hw. apply (In_nth _ _ zero_unit) in Hw. destruct Hw as (k & Hk & <-). cbn [length] in LU. exists (S k). split; [lia|].
      rewrite EU. cbn [app nth]. rewrite app_nth1 by exact Hk. reflexivity.
Qed.
End AREA.

(* ------------------------------------------------------------------ *)
(** ** All areas *)

Lemma alone_b_iff ID i : alone_b ID i = true <-> alone ID i.
Proof.
  unfold alone_b, alone. rewrite forallb_forall. split.
  - intros H k Hk E. specialize (H k ltac:(apply in_seq; lia)). apply orb_true_iff in H. destruct H as [H|H]; [apply Nat.eqb_eq; exact H|].
    rewrite E, Z.eqb_refl in H. discriminate H.
  - intros H k Hk. apply in_seq in Hk. destruct (Z.eqb_spec (area_of ID k) (area_of ID i)) as [E|E]; [|apply orb_true_r].
    rewrite (H k ltac:(lia) E), Nat.eqb_refl. reflexivity.
Qed.
Lemma asc_lt : forall ps lo k l, asc lo ps -> (k < l < length ps)%nat -> (nth k ps 0 < nth l ps 0)%nat.
Proof.
  assert (LO : forall ps lo k, asc lo ps -> (k < length ps)%nat -> (lo <= nth k ps 0)%nat).
  { induction ps as [|p ps IH]; intros lo k A H; cbn in H; [lia|]. cbn in A. destruct A as (A & B). destruct k; cbn [nth]; [exact A|].
    specialize (IH _ k B ltac:(lia)). lia. }
  induction ps as [|p ps IH]; intros lo k l A H; cbn [length] in H; [lia|]. cbn in A. destruct A as (A & B).
  destruct l as [|l]; [lia|]. destruct k as [|k]; cbn [nth].
  - specialize (LO ps (S p) l B ltac:(lia)). lia.
  - apply (IH (S p)); [exact B|lia].
Qed.
Lemma alone_count ID i : (i < length ID)%nat -> 0 <= area_of ID i ->
  (alone ID i <-> area_units (Z.to_nat (area_of ID i)) ID = [i]).
Proof.
  intros Hi Hn. set (a := Z.to_nat (area_of ID i)).
  assert (IN : forall k, In k (area_units a ID) <-> (k < length ID)%nat /\ area_of ID k = area_of ID i).
  { intros k. rewrite area_units_in. unfold a. rewrite Z2Nat.id by exact Hn. reflexivity. }
  split.
  - intros A. assert (AS : asc 0 (area_units a ID)) by apply asc_filter.
    assert (H0 : In i (area_units a ID)) by (apply IN; auto).
    assert (AL : forall k, In k (area_units a ID) -> k = i) by (intros k Hk; apply IN in Hk; apply A; apply Hk).
    destruct (area_units a ID) as [|x [|y l]]; [destruct H0|f_equal; apply AL; left; reflexivity|].
    cbn in AS. destruct AS as (_ & C & _). rewrite (AL x), (AL y) in C by (cbn; auto). lia.
  - intros E k Hk EA. assert (X : In k (area_units a ID)) by (apply IN; auto). rewrite E in X. destruct X as [X|[]]. symmetry. exact X.
Qed.

Definition partly (ID : list (list Z)) (P : list nat) : list (list Z) :=
  mapi (fun i r => if alone_b ID i && existsb (fun a => zget r 2 =? Z.of_nat a) P then restarted r else r) ID.
Lemma partly_nth ID P i : (i < length ID)%nat ->
  nth i (partly ID P) [] = if alone_b ID i && existsb (fun a => area_of ID i =? Z.of_nat a) P then restarted (nth i ID []) else nth i ID [].
Proof. intros H. unfold partly. rewrite (nth_mapi _ _ _ []) by exact H. reflexivity. Qed.
Lemma zget_restarted r k : (k <> 3)%nat -> (k <> 5)%nat -> zget (restarted r) k = zget r k.
Proof. intros A B. unfold zget, restarted. rewrite !nth_upd_other by auto. reflexivity. Qed.
Lemma partly_keeps ID P i k : (i < length ID)%nat -> (k <> 3)%nat -> (k <> 5)%nat -> zget (nth i (partly ID P) []) k = zget (nth i ID []) k.
Proof. intros H A B. rewrite partly_nth by exact H. destruct (_ && _); [apply zget_restarted; assumption|reflexivity]. Qed.
Lemma partly_rows_ok ID P : rows_ok ID -> rows_ok (partly ID P).
Proof.
  intros RO i Hi. unfold partly in Hi. rewrite mapi_length in Hi. destruct (RO i Hi) as (A & B & C & D & E). cbv zeta.
  rewrite !partly_keeps by (auto; lia). repeat split; try assumption.
  rewrite partly_nth by exact Hi. destruct (_ && _); [unfold restarted; rewrite !upd_length; exact A|exact A].
Qed.
Lemma partly_units ID P a : area_units a (partly ID P) = area_units a ID.
Proof.
  unfold area_units. assert (L : length (partly ID P) = length ID) by apply mapi_length. rewrite L.
  apply filter_ext_in. intros k Hk. apply in_seq in Hk. rewrite partly_keeps by lia. reflexivity.
Qed.
Lemma partly_length ID P : length (partly ID P) = length ID.
Proof. apply mapi_length. Qed.

(** how many of the areas have units: one table number each *)
Definition occupied (ID : list (list Z)) (areas : list nat) : nat :=
  length (filter (fun a => negb (Nat.eqb (length (area_units a ID)) 0)) areas).

Lemma pmsc_all_spec ID RATES r0 (RO : rows_ok ID) (RA : ratings_ok (length ID) RATES)
  (NN : forall i, (i < length ID)%nat -> 0 <= area_of ID i) : forall areas P ITAB,
  NoDup areas -> (forall a, In a areas -> ~ In a P) -> (forall a, In a areas -> (length (area_units a ID) <= 500)%nat) ->
  pmsc_all rest loss presched block areas (partly ID P) ITAB RATES r0 =
  Ok (partly ID (areas ++ P), ITAB + Z.of_nat (occupied ID areas)).
Proof.
  induction areas as [|a areas IH]; intros P ITAB ND DJ L5.
  - cbn. rewrite Z.add_0_r. reflexivity.
  - cbn [pmsc_all].
    rewrite (pmsc_spec (partly ID P) RATES (partly_rows_ok ID P RO)); [|rewrite partly_length; exact RA|rewrite partly_units; apply L5; left; reflexivity].
    rewrite partly_units.
    assert (GO : forall D t, D = partly ID (a :: P) -> t = ITAB + Z.of_nat (if Nat.eqb (length (area_units a ID)) 0 then 0 else 1) ->
       (do r <- Ok (D, t); pmsc_all rest loss presched block areas (fst r) (snd r) RATES r0) =
       Ok (partly ID ((a :: areas) ++ P), ITAB + Z.of_nat (occupied ID (a :: areas)))).
    { intros D t -> ->. cbn [bind fst snd]. rewrite IH.
      - f_equal. f_equal.
        + unfold partly. unfold mapi. apply map_ext_in. intros (i, r) Hir. cbn [fst snd].
          replace (existsb (fun a0 => zget r 2 =? Z.of_nat a0) (areas ++ a :: P)) with (existsb (fun a0 => zget r 2 =? Z.of_nat a0) ((a :: areas) ++ P)); [reflexivity|].
          cbn [app existsb]. rewrite !existsb_app. cbn [existsb]. destruct (zget r 2 =? Z.of_nat a); cbn; [rewrite orb_true_r; reflexivity|reflexivity].
        + unfold occupied. cbn [filter]. destruct (Nat.eqb _ 0); cbn [negb length]; lia.
      - inversion ND; assumption.
      - intros b Hb [C|C]; [subst b; inversion ND; contradiction|]. apply (DJ b); [right; exact Hb|exact C].
      - intros b Hb. apply L5. right. exact Hb. }
    assert (NP : ~ In a P) by (apply DJ; left; reflexivity).
    assert (OUT : forall i, (i < length ID)%nat -> area_of ID i <> Z.of_nat a \/ alone_b ID i = false -> nth i (partly ID P) [] = nth i (partly ID (a :: P)) []).
    { intros i Hi C. rewrite !partly_nth by exact Hi. cbn [existsb]. destruct C as [C| ->]; [|reflexivity].
      replace (area_of ID i =? Z.of_nat a) with false by (symmetry; apply Z.eqb_neq; exact C). reflexivity. }
    assert (EXT : forall D, length D = length ID -> (forall i, (i < length ID)%nat -> nth i D [] = nth i (partly ID (a :: P)) []) -> D = partly ID (a :: P)).
    { intros D LD H. apply (nth_ext _ _ [] []); [rewrite partly_length; exact LD|]. intros i Hi. apply H. lia. }
    destruct (area_units a ID) as [|p [|p' l]] eqn:EA; apply GO; try (cbn; lia).
    + apply EXT; [apply partly_length|]. intros i Hi. apply OUT; [exact Hi|]. left. intros C.
      assert (X : In i (area_units a ID)) by (apply area_units_in; auto). rewrite EA in X. destruct X.
    + assert (HP : (p < length ID)%nat /\ area_of ID p = Z.of_nat a) by (apply area_units_in; rewrite EA; left; reflexivity). destruct HP as (HP & AP).
      assert (AL : alone_b ID p = true).
      { apply alone_b_iff. apply alone_count; [exact HP|apply NN; exact HP|]. rewrite AP, Nat2Z.id. exact EA. }
      apply EXT; [rewrite upd_length; apply partly_length|]. intros i Hi. destruct (Nat.eq_dec i p) as [->|NE].
      * rewrite nth_upd_same by (rewrite partly_length; exact HP). rewrite !partly_nth by exact HP. cbn [existsb]. rewrite AL, AP, Z.eqb_refl. cbn [andb orb].
        assert (EP : existsb (fun a0 => Z.of_nat a =? Z.of_nat a0) P = false).
        { apply not_true_is_false. intros C. apply existsb_exists in C. destruct C as (b & Hb & C). apply Z.eqb_eq in C. apply Nat2Z.inj in C. subst b. contradiction. }
        rewrite EP. reflexivity.
      * rewrite nth_upd_other by auto. apply OUT; [exact Hi|]. left. intros C.
        assert (X : In i (area_units a ID)) by (apply area_units_in; auto). rewrite EA in X. destruct X as [X|[]]. congruence.
    + apply EXT; [apply partly_length|]. intros i Hi. apply OUT; [exact Hi|].
      destruct (Z.eq_dec (area_of ID i) (Z.of_nat a)) as [E|E]; [right|left; exact E].
      apply not_true_is_false. intros C. apply alone_b_iff in C. apply (alone_count ID i Hi (NN i Hi)) in C. rewrite E, Nat2Z.id, EA in C. discriminate C.
Qed.

Theorem pmsc_all_after ID RATES r0 n ITAB : rows_ok ID -> ratings_ok (length ID) RATES ->
  (forall i, (i < length ID)%nat -> 0 <= area_of ID i < Z.of_nat n) ->
  (forall a, (a < n)%nat -> (length (area_units a ID) <= 500)%nat) ->
  pmsc_all rest loss presched block (seq 0 n) ID ITAB RATES r0 =
  Ok (after_scheduling ID, ITAB + Z.of_nat (occupied ID (seq 0 n))).
Proof.
  intros RO RA NN L5.
  assert (E0 : ID = partly ID []).
  { apply (nth_ext _ _ [] []); [rewrite partly_length; reflexivity|]. intros i Hi. rewrite partly_nth by exact Hi. cbn [existsb]. rewrite andb_false_r. reflexivity. }
  pose proof (pmsc_all_spec ID RATES r0 RO RA ltac:(intros i Hi; apply NN; exact Hi) (seq 0 n) [] ITAB (seq_NoDup n 0) ltac:(intros a _ []) ltac:(intros a Ha; apply L5; apply in_seq in Ha; lia)) as H.
  rewrite <- E0 in H. rewrite H. f_equal. f_equal. rewrite app_nil_r.
  apply (nth_ext _ _ [] []); [rewrite partly_length; unfold after_scheduling; rewrite mapi_length; reflexivity|].
  intros i Hi. rewrite partly_length in Hi. rewrite partly_nth by exact Hi. unfold after_scheduling. rewrite (nth_mapi _ _ _ []) by exact Hi.
  replace (existsb (fun a => area_of ID i =? Z.of_nat a) (seq 0 n)) with true; [rewrite andb_true_r; reflexivity|].
  symmetry. apply existsb_exists. exists (Z.to_nat (area_of ID i)). pose proof (NN i Hi). split; [apply in_seq; lia|]. apply Z.eqb_eq. lia.
Qed.

Theorem smaint_spec ID RATES r0 n ITAB : rows_ok ID -> ratings_ok (length ID) RATES ->
  (forall i, (i < length ID)%nat -> 0 <= area_of ID i < Z.of_nat n) ->
  (forall a, (a < n)%nat -> (length (area_units a ID) <= 500)%nat) ->
  smaint loss presched block r0 n ID ITAB RATES =
  do T <- outage_table (after_scheduling ID); Ok (T, ITAB + Z.of_nat (occupied ID (seq 0 n))).
Proof. intros RO RA NN L5. unfold smaint. rewrite pmsc_all_after by assumption. reflexivity. Qed.
End PM.
