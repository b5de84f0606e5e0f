(** Proofs about the whole data preparation. *)
From Coq Require Import String Ascii List.
From Verif Require Import Base BaseProofs Sums LoadModel LoadSpec LoadProofs PeakProofs NetModel NetProofs StatProofs ControlModel ControlSpec HourModel HourSpec YearModel YearSpec
  ProgramModel ProgramSpec MaintModel MaintSpec MaintProofs DataModel DataSpec DataProofs PrepModel.
Import ListNotations.
Open Scope Z_scope.

Lemma flat_map_nil {A B} (f : A -> list B) l : (forall a, In a l -> f a = []) -> flat_map f l = [].
Proof. induction l as [|a l IH]; intros H; cbn; [reflexivity|]. rewrite H by (left; reflexivity). apply IH. intros; apply H; right; assumption. Qed.
Lemma no_contracts n m : contracts (repeat (repeat (-1) n) m) = [].
Proof.
  unfold contracts. apply flat_map_nil. intros [i row] H. cbn [fst snd]. apply in_combine_r in H. apply repeat_spec in H. subst row.
  apply flat_map_nil. intros [j p] H. cbn [fst snd]. apply in_combine_r in H. apply repeat_spec in H. subst p. reflexivity.
Qed.
Lemma xporta_none n m INTCH H : xporta (repeat (repeat (-1) n) m) INTCH H = Ok H.
Proof. unfold xporta. rewrite no_contracts. reflexivity. Qed.
Lemma xports_none n m INTCH H : xports (repeat (repeat (-1) n) m) INTCH H = Ok H.
Proof. apply xporta_none. Qed.

(** one value per position *)
Lemma fold_upd {A B} (pos : A -> nat) (g : A -> B) (z : B) : forall U p, (forall i d, (i < length U)%nat -> pos (nth i U d) = length p + i)%nat ->
  fold_left (fun v u => upd v (pos u) (g u)) U (p ++ repeat z (length U)) = p ++ map g U.
Proof.
  induction U as [|u U IH]; intros p H; [reflexivity|]. cbn [fold_left length repeat map].
  pose proof (H 0%nat u ltac:(cbn; lia)) as P. cbn [nth] in P. rewrite Nat.add_0_r in P. rewrite P.
  assert (X : upd (p ++ z :: repeat z (length U)) (length p) (g u) = (p ++ [g u]) ++ repeat z (length U)).
  { clear. induction p as [|x p IH]; cbn; [reflexivity|]. f_equal. apply IH. }
  rewrite X. rewrite IH; [rewrite <- app_assoc; reflexivity|]. intros i d Hi. rewrite app_length. cbn [length].
  pose proof (H (S i) d ltac:(cbn; lia)) as Q. cbn [nth] in Q. lia.
Qed.
Lemma capcon_spec U : (forall i d, (i < length U)%nat -> u_name (nth i U d) = i) -> capcon U = map (fun u => Z.of_nat (u_loc u)) U.
Proof. intros H. unfold capcon. apply (fold_upd u_name (fun u => Z.of_nat (u_loc u)) 0 U []). exact H. Qed.
Lemma capown_from n nu : forall U M, shape n nu M -> (forall u, In u U -> (u_loc u < n)%nat /\ (u_name u < nu)%nat) ->
  let R := fold_left (fun M u => mupd M (u_loc u) (u_name u) q1) U M in
  shape n nu R /\ forall a b, (a < n)%nat -> (b < nu)%nat ->
    mget R a b = if existsb (fun u => Nat.eqb (u_loc u) a && Nat.eqb (u_name u) b) U then q1 else mget M a b.
Proof.
  induction U as [|u U IH]; intros M SH H; cbn [fold_left existsb]; [split; [exact SH|reflexivity]|].
  destruct (H u (or_introl eq_refl)) as (A & B).
  destruct (IH (mupd M (u_loc u) (u_name u) q1)) as (S2 & G); [apply mupd_shape; assumption|intros; apply H; right; assumption|].
  split; [exact S2|]. intros a b Ha Hb. cbv zeta in G. rewrite G by assumption. rewrite (mget_mupd n nu) by assumption.
  rewrite (Nat.eqb_sym a), (Nat.eqb_sym b). destruct (_ && _); cbn [orb]; [destruct (existsb _ U); reflexivity|reflexivity].
Qed.

(** at most one unit per row and week *)
Lemma out_in_le ID w : (forall r, In r ID -> (length (filter (covers w) (outages_of r)) <= 1)%nat) -> (length (out_in ID w) <= length ID)%nat.
Proof.
  unfold out_in. rewrite map_length. induction ID as [|r ID IH]; intros H; [cbn; lia|].
  cbn [flat_map]. rewrite filter_app, app_length. cbn [length]. specialize (IH ltac:(intros; apply H; right; assumption)).
  exact (Nat.add_le_mono _ 1 _ _ (H r (or_introl eq_refl)) IH).
Qed.

Lemma covers_one (u b d w : Z) : covers w (u, b, d) = true <-> 0 <= b /\ b <= w < b + d.
Proof. unfold covers. rewrite !andb_true_iff, !Z.leb_le, Z.ltb_lt. tauto. Qed.

Section VALID.
Variable rest : Type.
Variables (loss : Qc -> Qc) (presched : list punit -> mst rest -> res (list Qc * list Z * mst rest))
          (block : nat -> nat -> nat -> mst rest -> res (mst rest)) (r0 : rest).
Variables (n nu nl : nat) (c : cards string).
Hypothesis V : valid_cards n nu nl c.
Variable fa fu : string -> nat.
Hypothesis FA : numbering (map a_name (c_areas c)) fa.
Hypothesis FU : numbering (map u_name (c_units c)) fu.
Let U : list (unit_card nat) := c_units (renamed fa fu c).

Lemma nodup_length l : NoDup l -> length (nodup string_dec l) = length l.
Proof. intros N. apply Nat.le_antisymm; apply NoDup_incl_length; try assumption; try apply NoDup_nodup; intros s A; apply nodup_In in A || apply nodup_In; exact A. Qed.
Lemma area_lt s : In s (map a_name (c_areas c)) -> (fa s < n)%nat.
Proof.
  intros H. destruct (v_areas _ _ _ _ V) as (L & _ & N). destruct FA as (_ & O & _).
  rewrite <- L, <- (map_length a_name). rewrite <- nodup_length by exact N. apply O. exists s. auto.
Qed.
Lemma U_length : length U = nu.
Proof. unfold U. cbn [renamed c_units]. rewrite map_length. apply (v_units _ _ _ _ V). Qed.
Lemma U_nth i d : (i < nu)%nat -> exists u, nth_error (c_units c) i = Some u /\ In u (c_units c) /\
  nth i U d = mkUnit i (fa (u_loc u)) (u_cap u) (u_dfor u) (u_for u) (u_der u) (u_pa u) (u_b1 u) (u_d1 u) (u_b2 u) (u_d2 u).
Proof.
  intros H. destruct (v_units _ _ _ _ V) as (L & _ & N).
  destruct (nth_error (c_units c) i) as [u|] eqn:E; [|apply nth_error_None in E; lia].
  exists u. split; [reflexivity|]. split; [apply nth_error_In in E; exact E|].
  unfold U. cbn [renamed c_units]. erewrite nth_error_nth; [|apply map_nth_error; exact E].
  assert (X : fu (u_name u) = i).
  { pose proof (numbering_nth _ fu i N FU ltac:(rewrite map_length; lia)) as X.
    rewrite (nth_error_nth _ _ EmptyString (map_nth_error u_name i _ E)) in X. exact X. }
  rewrite X. reflexivity.
Qed.
Definition ID : list (list Z) := map id_row U.
Lemma ID_length : length ID = nu.
Proof. unfold ID. rewrite map_length. apply U_length. Qed.
Lemma ID_nth i : (i < nu)%nat -> exists u, nth_error (c_units c) i = Some u /\ In u (c_units c) /\
  nth i ID [] = [Z.of_nat i; Z.of_nat i; Z.of_nat (fa (u_loc u)); u_b1 u - 1; u_d1 u; u_b2 u - 1; u_d2 u; u_pa u].
Proof.
  intros H. destruct (U_nth i (nth 0%nat U (mkUnit 0%nat 0%nat [] q0 q0 q0 0 0 0 0 0)) H) as (u & E & HI & X). exists u. split; [exact E|]. split; [exact HI|].
  unfold ID. rewrite (nth_indep _ [] (id_row (nth 0%nat U (mkUnit 0%nat 0%nat [] q0 q0 q0 0 0 0 0 0)))) by (rewrite map_length, U_length; exact H).
  rewrite map_nth. rewrite X. reflexivity.
Qed.
Lemma ID_rows : rows_ok ID.
Proof.
  intros i H. rewrite ID_length in H. destruct (ID_nth i H) as (u & _ & HU & E). cbv zeta. rewrite E. cbn [zget nth length].
  pose proof (v_outages _ _ _ _ V u HU). repeat split; lia.
Qed.
Lemma ID_area i u : nth_error (c_units c) i = Some u -> area_of ID i = Z.of_nat (fa (u_loc u)).
Proof.
  intros E. assert (H : (i < nu)%nat) by (rewrite <- (proj1 (v_units _ _ _ _ V)); apply nth_error_Some; congruence).
  destruct (ID_nth i H) as (u' & E' & _ & X). unfold area_of. rewrite X. cbn [zget nth]. congruence.
Qed.
Lemma loc_in u : In u (c_units c) -> In (u_loc u) (map a_name (c_areas c)).
Proof. intros H. destruct (v_known _ _ _ _ V) as (K & _). apply K. exact H. Qed.
Lemma ID_range i : (i < length ID)%nat -> 0 <= area_of ID i < Z.of_nat n.
Proof.
  intros H. rewrite ID_length in H. destruct (ID_nth i H) as (u & E & HU & _). rewrite (ID_area i u E).
  pose proof (area_lt _ (loc_in u HU)). lia.
Qed.
Lemma ID_500 a : (a < n)%nat -> (length (area_units a ID) <= 500)%nat.
Proof.
  intros Ha. unfold area_units.
  (* the area's name *)
  destruct (v_areas _ _ _ _ V) as (LA & _ & NA). destruct FA as (INJ & ONTO & _).
  destruct (proj2 (ONTO a)) as (s & HS & ES); [rewrite nodup_length by exact NA; rewrite map_length; lia|].
  eapply Nat.le_trans; [|apply (v_500 _ _ _ _ V s)].
  assert (G : forall us k, (forall j u, nth_error us j = Some u -> nth_error (c_units c) (k + j) = Some u) ->
     (length (filter (fun i => (zget (nth i ID []) 2 =? Z.of_nat a)%Z) (seq k (length us))) <= length (filter (fun u => String.eqb (u_loc u) s) us))%nat).
  { induction us as [|u us IH]; intros k H; [cbn; lia|]. cbn [length seq filter].
    pose proof (H 0%nat u eq_refl) as E. rewrite Nat.add_0_r in E.
    pose proof (ID_area k u E) as AR. unfold area_of in AR. rewrite AR.
    specialize (IH (S k)). assert (IH' := IH ltac:(intros j v Hv; replace (S k + j)%nat with (k + S j)%nat by lia; apply H; exact Hv)).
    destruct (Z.eqb_spec (Z.of_nat (fa (u_loc u))) (Z.of_nat a)) as [Q|Q].
    - apply Nat2Z.inj in Q. assert (u_loc u = s) by (apply INJ; [apply loc_in; apply nth_error_In in E; exact E|exact HS|congruence]).
      destruct (String.eqb_spec (u_loc u) s); [|contradiction]. cbn [length]. lia.
    - destruct (String.eqb (u_loc u) s); cbn [length]; lia. }
  specialize (G (c_units c) 0%nat ltac:(intros j u H; exact H)). rewrite ID_length, <- (proj1 (v_units _ _ _ _ V)). exact G.
Qed.
Lemma ratings : ratings_ok (length ID) (map u_cap U).
Proof.
  split; [rewrite map_length, ID_length; apply U_length|]. intros r H. apply in_map_iff in H. destruct H as (u & <- & HU).
  unfold U in HU. cbn [renamed c_units] in HU. apply in_map_iff in HU. destruct HU as (v & <- & HV). cbn [u_cap]. apply (v_caps _ _ _ _ V). exact HV.
Qed.
Lemma alone_only i u : nth_error (c_units c) i = Some u -> alone ID i -> only_unit c u.
Proof.
  intros E A v HV EQ. destruct (In_nth_error _ _ HV) as (k & EK). assert (k = i); [|congruence].
  apply A; [rewrite ID_length, <- (proj1 (v_units _ _ _ _ V)); apply nth_error_Some; congruence|].
  rewrite (ID_area k v EK), (ID_area i u E). congruence.
Qed.
Lemma only_alone i u : nth_error (c_units c) i = Some u -> only_unit c u -> alone ID i.
Proof.
  intros E O k Hk EQ. rewrite ID_length in Hk. destruct (ID_nth k Hk) as (v & EK & HV & _).
  rewrite (ID_area k v EK), (ID_area i u E) in EQ. apply Nat2Z.inj in EQ.
  assert (EL : u_loc v = u_loc u) by (apply FA; [apply loc_in; exact HV|apply loc_in; apply nth_error_In in E; exact E|exact EQ]).
  pose proof (O v HV EL) as X. subst v.
  destruct (v_units _ _ _ _ V) as (L & _ & N).
  apply (proj1 (NoDup_nth (map u_name (c_units c)) EmptyString) N); rewrite ?map_length; try (apply nth_error_Some; congruence).
  rewrite (nth_error_nth _ _ EmptyString (map_nth_error u_name k _ EK)), (nth_error_nth _ _ EmptyString (map_nth_error u_name i _ E)). reflexivity.
Qed.
(** the rows after scheduling *)
Lemma after_length : length (after_scheduling ID) = nu.
Proof. unfold after_scheduling. rewrite mapi_length. apply ID_length. Qed.
Lemma after_nth i : (i < nu)%nat -> exists u, nth_error (c_units c) i = Some u /\ In u (c_units c) /\
  (only_unit c u -> nth i (after_scheduling ID) [] = [Z.of_nat i; Z.of_nat i; Z.of_nat (fa (u_loc u)); 1; u_d1 u; 1; u_d2 u; u_pa u]) /\
  (~ only_unit c u -> nth i (after_scheduling ID) [] = [Z.of_nat i; Z.of_nat i; Z.of_nat (fa (u_loc u)); u_b1 u - 1; u_d1 u; u_b2 u - 1; u_d2 u; u_pa u]).
Proof.
  intros H. destruct (ID_nth i H) as (u & E & HU & X). exists u. split; [exact E|]. split; [exact HU|].
  unfold after_scheduling. rewrite (nth_mapi _ _ _ []) by (rewrite ID_length; exact H). rewrite X.
  destruct (alone_b ID i) eqn:A.
  - apply alone_b_iff in A. split; [reflexivity|]. intros C. exfalso. apply C. apply (alone_only i); assumption.
  - split; [|reflexivity]. intros C. apply (only_alone i u E) in C. apply alone_b_iff in C. congruence.
Qed.
Lemma nth_in_ {A} (l : list A) x d : In x l -> exists i, (i < length l)%nat /\ nth i l d = x.
Proof. apply In_nth. Qed.
Lemma only_dec u : In u (c_units c) -> only_unit c u \/ ~ only_unit c u.
Proof.
  intros H. destruct (In_nth_error _ _ H) as (i & E).
  destruct (alone_b ID i) eqn:A; [left; apply alone_b_iff in A; apply (alone_only i); assumption|].
  right. intros C. apply (only_alone i u E) in C. apply alone_b_iff in C. congruence.
Qed.
Lemma table_fits w : (length (out_in (after_scheduling ID) w) <= nu)%nat.
Proof.
  rewrite <- after_length. apply out_in_le. intros r HR. destruct (In_nth _ _ [] HR) as (i & Hi & <-). rewrite after_length in Hi.
  destruct (after_nth i Hi) as (u & E & HU & C1 & C2).
  pose proof (v_outages _ _ _ _ V u HU) as VO. pose proof (v_apart _ _ _ _ V u HU) as VA.
  destruct (only_dec u HU) as [O|O].
  - rewrite (C1 O). unfold outages_of. cbn [zget nth filter].
    destruct (v_only _ _ _ _ V u HU O) as [Z|Z]; rewrite Z.
    + destruct (covers w (Z.of_nat i, 1, 0)) eqn:A; [apply covers_one in A; lia|]. destruct (covers w (Z.of_nat i, 1, u_d2 u)); cbn [length]; lia.
    + destruct (covers w (Z.of_nat i, 1, 0)) eqn:A; [apply covers_one in A; lia|]. destruct (covers w (Z.of_nat i, 1, u_d1 u)); cbn [length]; lia.
  - rewrite (C2 O). unfold outages_of. cbn [zget nth filter].
    destruct (covers w (Z.of_nat i, u_b1 u - 1, u_d1 u)) eqn:A; destruct (covers w (Z.of_nat i, u_b2 u - 1, u_d2 u)) eqn:B; cbn [length]; try lia.
    apply covers_one in A. apply covers_one in B. unfold outages_apart in VA. lia.
Qed.
Definition rows : list (list Z) := map (fun w => table_row nu (in_table (after_scheduling ID) (Z.of_nat w))) (seq 0 52).
Lemma table : smaint loss presched block r0 n ID 6 (map u_cap U) = Ok (rows, 6 + Z.of_nat (occupied ID (seq 0 n))).
Proof.
  rewrite smaint_spec by (first [apply ID_rows|apply ratings|apply ID_range|apply ID_500]).
  rewrite outage_table_ok by (intros w _; rewrite after_length; apply table_fits). cbn [bind]. rewrite after_length. reflexivity.
Qed.

(* ------------------------------------------------------------------ *)
(** ** datax *)
Definition own0 : list (list Qc) := capown n U.
Lemma datax_form : exists d, datax (renamed fa fu c) = Ok d /\
  dx_JENT d = repeat (repeat (-1) n) n /\ dx_INTCH d = mzeros 60 365 /\
  dx_CAPCON d = map (fun u => Z.of_nat (u_loc u)) U /\ dx_CAPOWN d = own0 /\ dx_PROBG d = map probg_row U /\ dx_DERATE d = map derate_of U /\
  dx_PROBL d = map (fun l => cumulate q0 (ln_prob l)) (c_lines c) /\ dx_BLPA d = map blpa_row (c_lines (renamed fa fu c)) /\
  dx_LP d = map (fun l => (fa (ln_from l), fa (ln_to l))) (c_lines c) /\ dx_ID d = ID /\
  dx_FCTERR d = map (fun a => fcterr_row (a_lfu a)) (c_areas c) /\
  dx_BN d = mapi (fun i a => [qz (Z.of_nat i); q0; q0; a_flows a; a_flows a]) (c_areas c) /\
  (dx_NFCST d, dx_NORR d) = (if existsb (fun a => negb (qeqb (a_lfu a) q0)) (c_areas c) then (5, 2) else (1, 0))%nat.
Proof.
  unfold datax. cbn [renamed c_areas c_fc c_od c_misc c_lines c_pct]. rewrite (v_fc _ _ _ _ V), (v_od _ _ _ _ V). cbn [map interchange ownership].
  destruct (m_IW (c_misc c)) as [[w1 w2] w3]. cbn [bind fst snd]. rewrite !map_length. destruct (v_areas _ _ _ _ V) as (LA & _). rewrite LA.
  eexists. split; [reflexivity|]. cbn [dx_JENT dx_INTCH dx_CAPCON dx_CAPOWN dx_PROBG dx_DERATE dx_PROBL dx_BLPA dx_LP dx_ID dx_FCTERR dx_BN dx_NFCST dx_NORR].
  rewrite !map_map. cbn [a_lfu ln_from ln_to ln_prob].
  split; [reflexivity|]. split; [reflexivity|].
  split. { rewrite capcon_spec; [reflexivity|]. intros i d Hi. change (i < length U)%nat in Hi. rewrite U_length in Hi.
           destruct (U_nth i d Hi) as (u & _ & _ & E). change (u_name (nth i U d) = i). rewrite E. reflexivity. }
  split; [reflexivity|]. split; [reflexivity|]. split; [reflexivity|]. split; [reflexivity|]. split; [reflexivity|]. split; [reflexivity|].
  split; [reflexivity|]. split; [reflexivity|].
  split. { unfold mapi. rewrite map_length. clear. generalize 0%nat as k. induction (c_areas c) as [|a l IH]; intros k; cbn; [reflexivity|]. f_equal. apply IH. }
  assert (X : existsb (fun x => negb (qeqb x q0)) (map (fun a : area_card string => a_lfu a) (c_areas c)) = existsb (fun a => negb (qeqb (a_lfu a) q0)) (c_areas c)).
  { clear. induction (c_areas c) as [|a l IH]; cbn; [reflexivity|]. rewrite IH. reflexivity. }
  rewrite X. clear X. destruct (existsb _ _); reflexivity.
Qed.
Lemma datax_more d w1 w2 w3 : datax (renamed fa fu c) = Ok d -> m_IW (c_misc c) = (w1, w2, w3) ->
  dx_QTR d = map (fun w => Qcplus (qz (w * 168)) (qq 1 2)) [w1; w2; w3] /\ dx_LINENO d = lineno n (c_lines (renamed fa fu c)).
Proof.
  unfold datax. cbn [renamed c_areas c_fc c_od c_misc c_lines c_pct]. rewrite (v_fc _ _ _ _ V), (v_od _ _ _ _ V). cbn [map interchange ownership].
  intros E EW. rewrite EW in E. cbn [bind] in E. assert (X : forall (a b : datax_out), Ok a = Ok b -> a = b) by congruence. apply X in E. subst d. cbn [dx_QTR dx_LINENO]. rewrite map_length, (proj1 (v_areas _ _ _ _ V)). split; reflexivity.
Qed.
Lemma own0_spec : shape n nu own0 /\ forall j i u, (j < n)%nat -> nth_error (c_units c) i = Some u -> mget own0 j i = if Nat.eqb (fa (u_loc u)) j then q1 else q0.
Proof.
  assert (HU : forall u, In u U -> (u_loc u < n)%nat /\ (u_name u < nu)%nat).
  { intros u H. destruct (In_nth _ _ u H) as (i & Hi & <-). rewrite U_length in Hi. destruct (U_nth i u Hi) as (v & E & HV & ->). cbn [u_loc u_name].
    split; [apply area_lt; apply loc_in; exact HV|exact Hi]. }
  assert (S0 : shape n nu (mzeros n (length U))).
  { rewrite U_length. split; [apply repeat_length|]. intros j Hj. unfold mzeros. rewrite nth_repeat_lt by exact Hj. apply repeat_length. }
  destruct (capown_from n nu U _ S0 HU) as (SH & G). cbv zeta in SH, G. split; [exact SH|]. intros j i u Hj E.
  assert (Hi : (i < nu)%nat) by (rewrite <- (proj1 (v_units _ _ _ _ V)); apply nth_error_Some; congruence).
  unfold own0, capown. rewrite G by assumption.
  assert (Z0 : mget (mzeros n (length U)) j i = q0) by (unfold mget, mzeros, vzeros; rewrite nth_repeat_lt by exact Hj; apply nth_repeat_lt; rewrite U_length; exact Hi).
  rewrite Z0. destruct (Nat.eqb_spec (fa (u_loc u)) j) as [EQ|NE].
  - replace (existsb _ U) with true; [reflexivity|]. symmetry. apply existsb_exists. destruct (U_nth i (mkUnit 0%nat 0%nat [] q0 q0 q0 0 0 0 0 0) Hi) as (v & E' & _ & X).
    exists (nth i U (mkUnit 0%nat 0%nat [] q0 q0 q0 0 0 0 0 0)). split; [apply nth_In; rewrite U_length; exact Hi|]. rewrite X. cbn [u_loc u_name].
    rewrite Nat.eqb_refl. replace v with u by congruence. rewrite EQ, Nat.eqb_refl. reflexivity.
  - replace (existsb _ U) with false; [reflexivity|]. symmetry. apply not_true_is_false. intros C. apply existsb_exists in C. destruct C as (v & HV & C).
    apply andb_true_iff in C. destruct C as (C1 & C2). apply Nat.eqb_eq in C1. apply Nat.eqb_eq in C2.
    destruct (In_nth _ _ v HV) as (k & Hk & EK). rewrite U_length in Hk. destruct (U_nth k v Hk) as (u' & E' & _ & X). rewrite EK in X. subst v.
    cbn [u_loc u_name] in C1, C2. subst k. congruence.
Qed.
End VALID.

(* ------------------------------------------------------------------ *)
(** ** The whole preparation *)
Section WHOLE.
Variable rest : Type.
Variables (loss : Qc -> Qc) (presched : list punit -> mst rest -> res (list Qc * list Z * mst rest))
          (block : nat -> nat -> nat -> mst rest -> res (mst rest)) (r0 : rest).

Lemma dataf1_pind c leei : c_units c <> [] -> dataf1 rest loss presched block r0 c leei = do c' <- pind c; process rest loss presched block r0 c' leei.
Proof. intros H. unfold dataf1. destruct (c_units c); [congruence|reflexivity]. Qed.

Theorem dataf1_full n nu nl c bs : valid_cards n nu nl c -> Forall (full_block n) bs ->
  exists fa fu d H, numbering (map a_name (c_areas c)) fa /\ numbering (map u_name (c_units c)) fu /\
    xldnew (load_file bs) (map a_peak (c_areas c)) = Ok H /\ datax (renamed fa fu c) = Ok d /\
    dataf1 rest loss presched block r0 c (load_file bs) =
    Ok (mkInput (mkHcfg (m_JSTEP (c_misc c)) (m_JFREQ (c_misc c)) (dx_NFCST d) (map Z.of_nat (plhr H)) (dx_PROBG d) (dx_DERATE d) (dx_CAPOWN d) (dx_CAPCON d) (dx_PROBL d)
                      (dx_JENT d) (dx_INTCH d) H (dx_FCTERR d) (dx_LINENO d) (dx_BLPA d) (dx_LP d) 0 (negb (m_NLS (c_misc c) =? 0)))
              (map u_cap (c_units c)) (rows nu c fa fu) (dx_BN d) (m_FINISH (c_misc c)) (dx_NORR d) (m_MAXEUE (c_misc c)) (m_CVTEST (c_misc c)) (m_INTV (c_misc c)) (m_IOJ (c_misc c))
              (m_KWHERE (c_misc c)) (m_KVWHEN (c_misc c)) (m_KVSTAT (c_misc c)) (m_KVTYPE (c_misc c)) (Z.to_nat (m_KVL (c_misc c) - 1)) (6 + Z.of_nat (occupied (ID c fa fu) (seq 0 n))),
        sustat (map a_peak (c_areas c)) (snd (dpeak 24 H)) d (map u_cap (c_units c))).
Proof.
  intros V F. set (fa := number (anames c)). set (fu := number (unames c)).
  assert (NA : numbering (map a_name (c_areas c)) fa) by apply number_numbering.
  assert (NU : numbering (map u_name (c_units c)) fu) by apply number_numbering.
  destruct (datax_form n nu nl c V fa fu NU) as (d & ED & EJ & EI & _ & _ & _ & _ & _ & _ & _ & EID & _).
  destruct (xldnew_spec n bs (map a_peak (c_areas c))) as (H & EH & _); [rewrite map_length; apply V|exact F|].
  rewrite dataf1_pind by (intros C; pose proof (v_units _ _ _ _ V) as (A & B & _); rewrite C in A; cbn in A; lia).
  rewrite (pind_ok c (v_known _ _ _ _ V)). fold fa fu. cbn [bind]. unfold process. cbv zeta. rewrite ED. cbn [bind].
  assert (EP : map a_peak (c_areas (renamed fa fu c)) = map a_peak (c_areas c)) by (cbn [renamed c_areas]; rewrite map_map; reflexivity).
  assert (EU : map u_cap (c_units (renamed fa fu c)) = map u_cap (c_units c)) by (cbn [renamed c_units]; rewrite map_map; reflexivity).
  rewrite EP, EH. cbn [bind]. rewrite EJ, EI, xporta_none. cbn [bind].
  destruct (dpeak 24 H) as [[MAXHR DYLOAD] MAXDAY] eqn:EDP. rewrite xports_none. cbn [bind].
  assert (LA : length (c_areas (renamed fa fu c)) = n) by (cbn [renamed c_areas]; rewrite map_length; apply V). rewrite LA, EID.
  rewrite (table rest loss presched block r0 n nu nl c V fa fu NA NU). cbn [bind fst snd]. rewrite EU.
  exists fa, fu, d, H. split; [exact NA|]. split; [exact NU|]. split; [first [exact EH|reflexivity]|]. split; [exact ED|]. rewrite ?EJ, ?EI. rewrite EDP. reflexivity.
Qed.

Theorem dataf1_form n nu nl c bs : valid_cards n nu nl c -> Forall (full_block n) bs ->
  exists fa fu d H S, numbering (map a_name (c_areas c)) fa /\ numbering (map u_name (c_units c)) fu /\
    xldnew (load_file bs) (map a_peak (c_areas c)) = Ok H /\ datax (renamed fa fu c) = Ok d /\
    dataf1 rest loss presched block r0 c (load_file bs) =
    Ok (mkInput (mkHcfg (m_JSTEP (c_misc c)) (m_JFREQ (c_misc c)) (dx_NFCST d) (map Z.of_nat (plhr H)) (dx_PROBG d) (dx_DERATE d) (dx_CAPOWN d) (dx_CAPCON d) (dx_PROBL d)
                      (dx_JENT d) (dx_INTCH d) H (dx_FCTERR d) (dx_LINENO d) (dx_BLPA d) (dx_LP d) 0 (negb (m_NLS (c_misc c) =? 0)))
              (map u_cap (c_units c)) (rows nu c fa fu) (dx_BN d) (m_FINISH (c_misc c)) (dx_NORR d) (m_MAXEUE (c_misc c)) (m_CVTEST (c_misc c)) (m_INTV (c_misc c)) (m_IOJ (c_misc c))
              (m_KWHERE (c_misc c)) (m_KVWHEN (c_misc c)) (m_KVSTAT (c_misc c)) (m_KVTYPE (c_misc c)) (Z.to_nat (m_KVL (c_misc c) - 1)) (6 + Z.of_nat (occupied (ID c fa fu) (seq 0 n))), S).
Proof.
  intros V F. destruct (dataf1_full n nu nl c bs V F) as (fa & fu & d & H & A). exists fa, fu, d, H. eexists. exact A.
Qed.

Theorem dataf1_ok n nu nl c bs : valid_cards n nu nl c -> Forall (full_block n) bs ->
  exists i S, dataf1 rest loss presched block r0 c (load_file bs) = Ok (i, S) /\ input_ok n nu nl i.
Proof.
  intros V F. destruct (dataf1_form n nu nl c bs V F) as (fa & fu & d & H & S0 & NA & NU & EH & ED & E).
  eexists. exists S0. split; [exact E|].
  destruct (datax_form n nu nl c V fa fu NU) as (d' & ED' & EJ & EI & EC & EO & EG & ER & EL & EB & ELP & EID & EF & EBN & EN). rewrite ED in ED'. injection ED' as <-.
  destruct (xldnew_spec n bs (map a_peak (c_areas c))) as (H' & EH' & SH & _); [rewrite map_length; apply V|exact F|]. rewrite EH in EH'. injection EH' as <-.
  destruct (v_areas _ _ _ _ V) as (LA & N0 & _).
  constructor; cbn [i_h i_RATES i_BN i_NORR x_JSTEP x_NFCST x_LP].
  - constructor; cbn [x_HRLOAD x_FCTERR x_CAPOWN x_CAPCON x_PROBG x_DERATE x_PROBL x_JENT x_INTCH x_MXPLHR x_NFCST].
    + exact N0.
    + exact SH.
    + rewrite EF. split; [rewrite map_length; exact LA|]. intros j Hj.
      rewrite (nth_indep _ [] (fcterr_row q0)) by (rewrite map_length; lia).
      destruct (nth_error (c_areas c) j) as [a|] eqn:EA; [|apply nth_error_None in EA; lia].
      erewrite nth_error_nth by (apply map_nth_error; exact EA). reflexivity.
    + rewrite EO. apply (own0_spec n nu nl c V fa fu NA NU).
    + rewrite EC. split; [rewrite map_length; apply (U_length n nu nl); exact V|]. intros i Hi.
      destruct (U_nth n nu nl c V fa fu NU i (mkUnit 0%nat 0%nat [] q0 q0 q0 0 0 0 0 0) Hi) as (u & EU & HU & X).
      unfold zget. rewrite (nth_indep _ 0 ((fun u => Z.of_nat (u_loc u)) (mkUnit 0%nat 0%nat [] q0 q0 q0 0 0 0 0 0))) by (rewrite map_length; rewrite (U_length n nu nl) by exact V; exact Hi).
      rewrite (map_nth (fun u => Z.of_nat (u_loc u))). rewrite X. cbn [u_loc].
      pose proof (area_lt n nu nl c V fa NA (u_loc u) (loc_in n nu nl c V u HU)). lia.
    + rewrite EG, ER, !map_length. split; apply (U_length n nu nl); exact V.
    + rewrite EL, map_length. apply V.
    + rewrite EJ, EI. split; [|split].
      * split; [apply repeat_length|]. intros j Hj. rewrite nth_repeat_lt by exact Hj. apply repeat_length.
      * intros i j Hi Hj. left. unfold zmget. rewrite nth_repeat_lt by exact Hi. apply nth_repeat_lt. exact Hj.
      * intros r Hr. unfold mzeros in Hr. apply repeat_spec in Hr. subst r. apply repeat_length.
    + destruct (plhr_spec n 365 H N0 SH) as (LP & PK). split; [rewrite map_length; exact LP|]. intros q Hq.
      unfold zget. rewrite (nth_indep _ 0 (Z.of_nat 0)) by (rewrite map_length, LP; exact Hq). rewrite map_nth.
      destruct (PK q Hq) as (A & _). lia.
    + revert EN. destruct (existsb _ _); intros EN; injection EN as A B; rewrite A; split; repeat constructor.
  - apply V.
  - revert EN. unfold levels_ok. destruct (existsb _ _); intros EN; injection EN as A B; rewrite A, B; [right|left]; split; reflexivity.
  - rewrite map_length. apply V.
  - rewrite EBN, mapi_length. exact LA.
  - rewrite ELP, map_length. apply V.
Qed.
End WHOLE.
