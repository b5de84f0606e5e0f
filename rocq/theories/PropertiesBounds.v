(** Property theorems C119: the indices of a year stay within what is physically possible
    and agree with each other. *)
From Verif Require Import Base BaseProofs Sums LoadModel LoadSpec LoadProofs SampleModel NetModel StatModel StatSpec StatProofs
  EventModel EventSpec ControlModel ControlSpec ControlProofs RunProofs HourModel HourSpec HourProofs
  YearModel YearSpec YearProofs YearRun ReportModel ReportSpec ProgramModel ProgramSpec ProgramProofs
  PropertiesNet PropertiesHour PropertiesYear PropertiesReport PropertiesProgram.
Open Scope Z_scope.

(* ---------- lists ---------- *)
Lemma zsum_le {A} (f g : A -> Z) l : (forall x, In x l -> f x <= g x) -> zsum (map f l) <= zsum (map g l).
Proof.
  induction l as [|x l IH]; intros H; cbn [map]; rewrite ?zsum_cons; [lia|].
  pose proof (H x (or_introl eq_refl)). specialize (IH (fun y Hy => H y (or_intror Hy))). lia.
Qed.
Lemma zsum_swap {A B} (f : A -> B -> Z) (la : list A) (lb : list B) :
  zsum (map (fun a => zsum (map (f a) lb)) la) = zsum (map (fun b => zsum (map (fun a => f a b) la)) lb).
Proof.
  induction la as [|a la IH]; cbn [map].
  - induction lb as [|b lb IB]; cbn [map]; [reflexivity|]. rewrite zsum_cons, <- IB. reflexivity.
  - rewrite zsum_cons, IH. clear IH. induction lb as [|b lb IB]; cbn [map]; rewrite ?zsum_cons; [reflexivity|]. cbn [map] in IB. lia.
Qed.
Lemma zsum_flat {A B} (f : B -> Z) (g : A -> list B) l : zsum (map f (flat_map g l)) = zsum (map (fun x => zsum (map f (g x))) l).
Proof. induction l as [|x l IH]; cbn [flat_map map]; [reflexivity|]. rewrite map_app, zsum_app, zsum_cons, IH. reflexivity. Qed.
Lemma zsum_nonneg {A} (f : A -> Z) l : (forall x, In x l -> 0 <= f x) -> 0 <= zsum (map f l).
Proof. intros H. pose proof (zsum_le (fun _ => 0) f l H) as L. replace (zsum (map (fun _ => 0) l)) with 0 in L; [exact L|]. clear. induction l; cbn [map]; [reflexivity|]. now rewrite zsum_cons. Qed.
Lemma zsum_filter_le {A} (f : A -> Z) p l : (forall x, In x l -> 0 <= f x) -> zsum (map f (filter p l)) <= zsum (map f l).
Proof.
  induction l as [|x l IH]; intros H; cbn [filter map]; [lia|]. pose proof (H x (or_introl eq_refl)). specialize (IH (fun y Hy => H y (or_intror Hy))).
  destruct (p x); cbn [map]; rewrite ?zsum_cons; lia.
Qed.
Lemma zsum_ones {A} (f : A -> Z) l : (forall x, In x l -> f x <= 1) -> zsum (map f l) <= Z.of_nat (length l).
Proof. intros H. pose proof (zsum_le f (fun _ => 1) l H) as L. replace (zsum (map (fun _ => 1) l)) with (Z.of_nat (length l)) in L; [exact L|]. clear. induction l; cbn [map length]; [reflexivity|]. rewrite zsum_cons. lia. Qed.
Lemma zsum_member l x : (forall y, In y l -> 0 <= y) -> In x l -> x <= zsum l.
Proof.
  induction l as [|y l IH]; intros H HI; [destruct HI|]. rewrite zsum_cons. destruct HI as [->|HI].
  - pose proof (zsum_nonneg (fun z => z) l (fun z Hz => H z (or_intror Hz))) as P. rewrite map_id in P. lia.
  - pose proof (H y (or_introl eq_refl)). specialize (IH (fun z Hz => H z (or_intror Hz)) HI). lia.
Qed.

(* ---------- one record ---------- *)
Definition losing_record (n : nat) (r : rec) : Prop := length (snd r) = n /\ exists j, (j < n)%nat /\ zget (snd r) j < 0.
(** the records of a draw: levels 0, 1, ..., each with a loss *)
Definition draw_records (n : nat) (recs : list rec) : Prop := map fst recs = seq 0 (length recs) /\ Forall (losing_record n) recs.

Lemma rec_part_nonneg pl wt c k r : 0 <= rec_part pl wt c k r.
Proof.
  destruct r as [l M]. unfold rec_part. destruct (Nat.eqb l k); [|lia].
  assert (0 <= rec_amount pl wt M).
  { destruct pl, wt; unfold rec_amount, unserved; try lia; [destruct (_ <? _); lia|].
    apply zsum_nonneg. intros. lia. }
  destruct c, (transmission pl wt M); lia.
Qed.
Lemma unserved_in M m : In m M -> unserved m <= zsum (map unserved M).
Proof. intros H. apply zsum_member; [|now apply in_map]. intros y Hy. apply in_map_iff in Hy. destruct Hy as (z & <- & _). unfold unserved. lia. Qed.
Lemma amount_lole_eue pl n r : losing_record n r -> valid_place n pl -> rec_amount pl LOLE (snd r) <= rec_amount pl EUE (snd r).
Proof.
  intros (L & j & Hj & NEG) VP. destruct pl as [a|]; unfold rec_amount.
  - unfold unserved. destruct (Z.ltb_spec (nth a (snd r) 0) 0); lia.
  - pose proof (unserved_in (snd r) (zget (snd r) j)) as U. unfold unserved at 1 in U. unfold zget in *. specialize (U ltac:(apply nth_In; lia)). lia.
Qed.
Lemma part_lole_eue n r pl c k : losing_record n r -> valid_place n pl -> ((exists j, pl = Area j) \/ c = Both) ->
  rec_part pl LOLE c k r <= rec_part pl EUE c k r.
Proof.
  intros LR VP CA. pose proof (amount_lole_eue pl n r LR VP) as A. destruct r as [l M]. unfold rec_part. cbn [snd] in A. destruct (Nat.eqb l k); [|lia].
  destruct c; try exact A; destruct CA as [(j0 & ->)|CC]; try discriminate CC; unfold transmission; destruct (0 <? zsum M); lia.
Qed.
Lemma amount_area_pool n r j wt : losing_record n r -> (j < n)%nat -> rec_amount (Area j) wt (snd r) <= rec_amount Pool wt (snd r).
Proof.
  intros (L & _) Hj. destruct wt; unfold rec_amount; [destruct (_ <? _); lia|]. apply unserved_in. apply nth_In. lia.
Qed.
Lemma part_area_pool n r j wt c k : losing_record n r -> (j < n)%nat -> rec_part (Area j) wt c k r <= rec_part Pool wt Both k r.
Proof.
  intros LR Hj. pose proof (amount_area_pool n r j wt LR Hj) as A. pose proof (rec_part_nonneg (Area j) wt Both k r) as NN. destruct r as [l M]. unfold rec_part in *. cbn [snd] in A.
  destruct (Nat.eqb l k); [|lia]. destruct c, (transmission (Area j) wt M); lia.
Qed.
Lemma hit_sum M j : (j < length M)%nat -> zget M j < 0 -> 1 <= zsum (map (fun a => if nth a M 0 <? 0 then 1 else 0) (seq 0 (length M))).
Proof.
  intros Hj NEG. set (f := fun a => if nth a M 0 <? 0 then 1 else 0).
  replace 1 with (f j) by (unfold f, zget in *; destruct (Z.ltb_spec (nth j M 0) 0); lia).
  apply zsum_member; [|apply in_map, in_seq; lia]. intros y Hy. apply in_map_iff in Hy. destruct Hy as (z & <- & _). unfold f. destruct (_ <? _); lia.
Qed.
Lemma part_pool_lole n r k : losing_record n r -> rec_part Pool LOLE Both k r <= zsum (map (fun j => rec_part (Area j) LOLE Both k r) (seq 0 n)).
Proof.
  intros (L & j & Hj & NEG). destruct r as [l M]. cbn [snd] in *. unfold rec_part. destruct (Nat.eqb l k).
  - unfold rec_amount. rewrite <- L in *. apply (hit_sum M j); assumption.
  - apply zsum_nonneg. intros; lia.
Qed.
Lemma map_nth_seq {A B} (f : A -> B) l d : map (fun j => f (nth j l d)) (seq 0 (length l)) = map f l.
Proof. induction l as [|x l IH]; [reflexivity|]. cbn [length seq map]. f_equal. rewrite <- seq_shift, map_map. exact IH. Qed.
Lemma part_pool_eue n r c k : losing_record n r -> rec_part Pool EUE c k r = zsum (map (fun j => rec_part (Area j) EUE c k r) (seq 0 n)).
Proof.
  intros (L & _). destruct r as [l M]. cbn [snd] in *. unfold rec_part. 
  assert (Z0 : zsum (map (fun _ : nat => 0) (seq 0 n)) = 0) by (clear; induction (seq 0 n); cbn [map]; [reflexivity|]; now rewrite zsum_cons).
  assert (S0 : zsum (map unserved M) = zsum (map (fun j => unserved (nth j M 0)) (seq 0 n))) by (rewrite <- L, map_nth_seq; reflexivity).
  destruct (Nat.eqb l k); [|now rewrite Z0]. unfold rec_amount, transmission. destruct c; [destruct (0 <? zsum M)|destruct (0 <? zsum M)|]; auto.
Qed.

(* ---------- one draw ---------- *)
Lemma tally_pool recs n k : draw_records n recs -> tally Pool LOLE Both k recs = if Nat.ltb k (length recs) then 1 else 0.
Proof.
  intros (F & _). unfold tally.
  assert (E : map (rec_part Pool LOLE Both k) recs = map (fun l => if Nat.eqb l k then 1 else 0) (map fst recs)).
  { rewrite map_map. apply map_ext. intros [l M]. reflexivity. }
  rewrite E, F. clear. generalize (length recs) as m. induction m as [|m IH]; [reflexivity|].
  rewrite seq_S, map_app, zsum_app, IH. cbn [map Nat.add]. rewrite zsum_cons. change (zsum []) with 0.
  destruct (Nat.ltb_spec k m), (Nat.ltb_spec k (S m)), (Nat.eqb_spec m k); lia.
Qed.

(* ---------- totals ---------- *)
Lemma total_map i pl wn wt c k R ks : total i pl wn wt c k R ks = zsum (map (fun x => tally pl wt c k (R x)) (filter (counts i wn) ks)).
Proof. unfold total, tally. apply zsum_flat. Qed.
Lemma total_le i pl pl' wn wt wt' c c' k k' R ks :
  (forall x, In x ks -> tally pl wt c k (R x) <= tally pl' wt' c' k' (R x)) -> total i pl wn wt c k R ks <= total i pl' wn wt' c' k' R ks.
Proof. intros H. rewrite !total_map. apply zsum_le. intros x Hx. apply H. apply filter_In in Hx. tauto. Qed.
Lemma tally_nonneg pl wt c k recs : 0 <= tally pl wt c k recs.
Proof. apply zsum_nonneg. intros. apply rec_part_nonneg. Qed.
Lemma counts_hourly i ks : filter (counts i Hourly) ks = ks.
Proof. induction ks as [|x ks IH]; [reflexivity|]. cbn. now f_equal. Qed.
Lemma peak_le_hourly i pl wt c k R ks : total i pl Peak wt c k R ks <= total i pl Hourly wt c k R ks.
Proof. rewrite !total_map, counts_hourly. apply zsum_filter_le. intros. apply tally_nonneg. Qed.

(** at most one draw of a day is at the day's peak hour *)
Lemma peaks_of_year n nu nl i y : input_ok n nu nl i -> (length (filter (counts i Peak) (draws_of_year i y)) <= 365)%nat.
Proof.
  intros IN. pose proof (in_step _ _ _ _ IN) as SO. unfold step_ok in SO. set (J := x_JSTEP (i_h i)) in *.
  assert (RANGE : forall x, In x (draws_of_year i y) -> 8760 * Z.of_nat y < J * Z.of_nat x <= 8760 * (Z.of_nat y + 1)).
  { intros x Hx. unfold draws_of_year in Hx. apply in_seq in Hx.
    pose proof (draws_upto_le_iff n nu nl i IN (y + 1) x) as A. pose proof (draws_upto_le_iff n nu nl i IN y x) as B. fold J in A, B.
    assert (x <= draws_upto i (y + 1))%nat by lia. apply A in H. split; [|lia]. apply Z.nle_gt. intros C. apply B in C. lia. }
  set (f := fun x => day_of_year (J * Z.of_nat x)).
  assert (INJ : forall a b, In a (filter (counts i Peak) (draws_of_year i y)) -> In b (filter (counts i Peak) (draws_of_year i y)) -> f a = f b -> a = b).
  { intros a b Ha Hb E. apply filter_In in Ha, Hb. destruct Ha as (Ia & Ca), Hb as (Ib & Cb). apply RANGE in Ia, Ib.
    assert (HY : forall x, 8760 * Z.of_nat y < J * Z.of_nat x <= 8760 * (Z.of_nat y + 1) -> Z.of_nat (hour_of_year (J * Z.of_nat x)) = J * Z.of_nat x - 1 - 8760 * Z.of_nat y).
    { intros x Hx. unfold hour_of_year. rewrite Z2Nat.id by (apply Z.mod_pos_bound; lia).
      symmetry. apply (Z.mod_unique_pos _ 8760 (Z.of_nat y)); lia. }
    pose proof (HY a Ia) as Ya. pose proof (HY b Ib) as Yb.
    unfold counts, at_peak in Ca, Cb. fold J in Ca, Cb. unfold f in E.
    destruct (Z.eqb_spec J 24) as [J24|J24].
    - unfold day_of_year in E. set (p := hour_of_year (J * Z.of_nat a)) in *. set (q := hour_of_year (J * Z.of_nat b)) in *.
      pose proof (Nat.div_mod p 24 ltac:(lia)). pose proof (Nat.div_mod q 24 ltac:(lia)).
      pose proof (Nat.mod_upper_bound p 24 ltac:(lia)). pose proof (Nat.mod_upper_bound q 24 ltac:(lia)). rewrite J24 in *. lia.
    - cbn [orb] in Ca, Cb. apply andb_prop in Ca, Cb. destruct Ca as (_ & Ca), Cb as (_ & Cb). apply Nat.eqb_eq in Ca, Cb.
      rewrite E in Ca. unfold hour_used in Ca, Cb. fold J in Ca, Cb. destruct (Z.eqb_spec J 24) as [|_]; [contradiction|]. nia. }
  assert (ND : NoDup (map f (filter (counts i Peak) (draws_of_year i y)))).
  { assert (ND0 : NoDup (filter (counts i Peak) (draws_of_year i y))) by (apply NoDup_filter, seq_NoDup).
    clear RANGE. revert ND0 INJ. generalize (filter (counts i Peak) (draws_of_year i y)) as l. induction l as [|x l IH]; intros ND0 INJ; cbn [map]; constructor.
    - intros Hx. apply in_map_iff in Hx. destruct Hx as (z & E & Hz). inversion ND0. subst. apply INJ in E; [subst; contradiction|now right|now left].
    - apply IH; [now inversion ND0|]. intros a b Ha Hb. apply INJ; now right. }
  rewrite <- (map_length f). rewrite <- (seq_length 365 0). apply NoDup_incl_length; [exact ND|].
  intros d Hd. apply in_map_iff in Hd. destruct Hd as (x & <- & _). apply in_seq. pose proof (day_of_year_lt (J * Z.of_nat x)). unfold f. lia.
Qed.
Lemma draws_in_year n nu nl i y : input_ok n nu nl i -> x_JSTEP (i_h i) * Z.of_nat (length (draws_of_year i y)) < 8760 + x_JSTEP (i_h i).
Proof.
  intros IN. pose proof (in_step _ _ _ _ IN) as SO. unfold step_ok in SO. unfold draws_of_year. rewrite seq_length.
  pose proof (draws_upto_le n nu nl i IN y (y + 1) ltac:(lia)) as LE.
  pose proof (proj1 (draws_upto_le_iff n nu nl i IN (y + 1) (draws_upto i (y + 1))) (Nat.le_refl _)) as A.
  assert (B : ~ x_JSTEP (i_h i) * Z.of_nat (S (draws_upto i y)) <= 8760 * Z.of_nat y).
  { intros C. apply (draws_upto_le_iff n nu nl i IN) in C. lia. }
  nia.
Qed.

(* ---------- a run ---------- *)
Lemma outcome_records inv lp n nu nl i lg k recs : draw_outcome inv lp n nu nl i lg k recs -> draw_records n recs.
Proof.
  intros (s & AV & LN & _ & _ & _ & F & _ & LV & _). split; [exact F|]. eapply Forall_impl; [|exact LV].
  intros [l M] (A & B & _). split; [exact A|exact B].
Qed.

Section Run.
  Variables (inv : list (list Qc) -> option (list (list Qc)))
            (lp : list (list Qc) -> list (list Qc) -> list (list Qc) -> res (list Qc * list (list Qc))).
  Variables (n nu nl : nat) (i : input) (fuel : nat) (pre post : log world) (o : option (outcome world)).
  Hypothesis KA : keeps_areas lp.
  Hypothesis IN : input_ok n nu nl i.
  Hypothesis E : narp inv lp fuel i = Ok (pre ++ post, o).
  Hypothesis NE : pre <> [].

  (** every year's statistics are totals over its draws, and each of these draws has its records *)
  Lemma year_records : exists e s R years, last pre (e, s) = (e, s) /\ In (e, s) pre /\
    run_years (year_cfg i) n 0 (start_year n (i_INTV i) (i_ITAB i)) years = Ok (w_y (s_w s), w_out (s_w s)) /\ length years = n_years pre /\
    (forall y x, (y < n_years pre)%nat -> In x (draws_of_year i y) -> draw_records n (R x)) /\
    forall y pl wn wt c k, (y < n_years pre)%nat -> valid_place n pl -> (k < x_NFCST (i_h i))%nat -> cleared n (x_NFCST (i_h i)) pl k = true ->
      part pl wn wt c k (nth y years (first_stat n, first_stat n)) = total i pl wn wt c k R (draws_of_year i y).
  Proof.
    destruct (narp_at inv lp KA n nu nl i IN fuel _ post o E) as (IG & IL & s1 & a & b & c & d & R & l & f1 & _ & _ & _ & P & A & D & FS & _).
    destruct (exists_last NE) as (pre' & (e & s) & EP). exists e, s, R, l. rewrite EP in *.
    unfold final_state in FS. rewrite map_app in FS. cbn [map] in FS. rewrite last_last in FS. cbn [snd] in FS. subst s1.
    pose proof (pi_due _ _ _ _ _ _ _ _ _ _ _ _ P) as DUE. pose proof (pi_draws _ _ _ _ _ _ _ _ _ _ _ _ P) as DR. pose proof (pi_hist _ _ _ _ _ _ _ _ _ _ _ _ P) as HI.
    split; [apply last_last|]. split; [apply in_or_app; right; now left|]. split; [exact (pi_years _ _ _ _ _ _ _ _ _ _ _ _ P)|].
    split; [rewrite <- D; exact (pi_len _ _ _ _ _ _ _ _ _ _ _ _ P)|]. rewrite <- D. split.
    - intros y x Hy Hx. apply (outcome_records inv lp n nu nl i (pre' ++ [(e, s)]) x). apply DR. unfold draws_of_year in Hx. apply in_seq in Hx.
      pose proof (draws_upto_le n nu nl i IN (y + 1) d ltac:(lia)) as LE.
      assert (x <= draws_upto i d)%nat by lia. apply (draws_upto_le_iff n nu nl i IN) in H. destruct DUE as [DUE|DUE]; [lia|].
      pose proof (in_step _ _ _ _ IN) as SO. unfold step_ok in SO. nia.
    - intros y pl wn wt c0 k Hy VP Hk CL. rewrite HI by auto. unfold since. rewrite CL. unfold draws_of_year. now rewrite (Nat.add_1_r y).
  Qed.
End Run.

(** *** C119. *)

(** The pool.  In every year of every run, at each forecast level: no index is negative;
    the hours (draws) with a loss are at most the year's draws, the days at most 365;
    the values at the daily peaks are at most the hourly ones; each loss is of at least
    one MW; a level is counted only if the one before is; and hours by cause add up. *)
Theorem C119_pool_bounds : forall inv lp n nu nl i fuel pre post o, keeps_areas lp -> input_ok n nu nl i ->
  narp inv lp fuel i = Ok (pre ++ post, o) -> pre <> [] ->
  exists e s years, last pre (e, s) = (e, s) /\ In (e, s) pre /\
    run_years (year_cfg i) n 0 (start_year n (i_INTV i) (i_ITAB i)) years = Ok (w_y (s_w s), w_out (s_w s)) /\ length years = n_years pre /\
    forall y k, (y < n_years pre)%nat -> (k < x_NFCST (i_h i))%nat ->
      let v wn wt c k := part Pool wn wt c k (nth y years (first_stat n, first_stat n)) in
      (forall wn wt c, 0 <= v wn wt c k) /\
      v Hourly LOLE Both k <= Z.of_nat (length (draws_of_year i y)) /\ x_JSTEP (i_h i) * v Hourly LOLE Both k < 8760 + x_JSTEP (i_h i) /\
      v Peak LOLE Both k <= 365 /\
      (forall wt c, v Peak wt c k <= v Hourly wt c k) /\
      (forall wn, v wn LOLE Both k <= v wn EUE Both k) /\
      (forall wn, (S k < x_NFCST (i_h i))%nat -> v wn LOLE Both (S k) <= v wn LOLE Both k) /\
      (forall wn wt, v wn wt Both k = v wn wt Gen k + v wn wt Trans k).
Proof.
  intros inv lp n nu nl i fuel pre post o KA IN E NE.
  destruct (year_records inv lp n nu nl i fuel pre post o KA IN E NE) as (e & s & R & years & LA & II & RY & LY & DR & TOT).
  exists e, s, years. do 4 (split; [assumption|]). intros y k Hy Hk v.
  assert (V : forall wn wt c k, (k < x_NFCST (i_h i))%nat -> v wn wt c k = total i Pool wn wt c k R (draws_of_year i y)) by (intros; apply TOT; auto; exact I).
  assert (DRY : forall x, In x (draws_of_year i y) -> draw_records n (R x)) by (intros x; apply DR; exact Hy).
  assert (ONE : forall x k, In x (draws_of_year i y) -> tally Pool LOLE Both k (R x) <= 1).
  { intros x k0 Hx. rewrite (tally_pool _ n) by auto. destruct (Nat.ltb _ _); lia. }
  assert (HL : v Hourly LOLE Both k <= Z.of_nat (length (draws_of_year i y))).
  { rewrite V, total_map, counts_hourly by exact Hk. apply zsum_ones. intros; now apply ONE. }
  split; [|split; [exact HL|split; [|split; [|split; [|split; [|split]]]]]].
  - intros wn wt c. rewrite V by exact Hk. rewrite total_map. apply zsum_nonneg. intros. apply tally_nonneg.
  - pose proof (draws_in_year n nu nl i y IN) as B. pose proof (in_step _ _ _ _ IN) as SO. unfold step_ok in SO. nia.
  - rewrite V, total_map by exact Hk. pose proof (peaks_of_year n nu nl i y IN) as P.
    pose proof (zsum_ones (fun x => tally Pool LOLE Both k (R x)) (filter (counts i Peak) (draws_of_year i y))) as Z1.
    assert (forall x, In x (filter (counts i Peak) (draws_of_year i y)) -> tally Pool LOLE Both k (R x) <= 1) as Z2 by (intros x Hx; apply filter_In in Hx; apply ONE; tauto).
    specialize (Z1 Z2). lia.
  - intros wt c. rewrite !V by exact Hk. apply peak_le_hourly.
  - intros wn. rewrite !V by exact Hk. apply total_le. intros x Hx. destruct (DRY x Hx) as (_ & F). unfold tally. apply zsum_le.
    intros r Hr. rewrite Forall_forall in F. apply (part_lole_eue n); [now apply F|exact I|now right].
  - intros wn Hk'. rewrite !V by lia. apply total_le. intros x Hx. rewrite !(tally_pool _ n) by auto.
    destruct (Nat.ltb_spec (S k) (length (R x))), (Nat.ltb_spec k (length (R x))); lia.
  - intros wn wt. unfold v, part. lia.
Qed.
Print Assumptions C119_pool_bounds.

(** The areas (the entries that are cleared at a year end, C41): an area has at most the
    pool's hours, days and energy, at least a MW per loss of each cause, at the daily peaks
    at most the hourly values; the pool has at most the hours of all areas together; and
    its energy is that of all areas together, by cause. *)
Theorem C119_area_bounds_partial : forall inv lp n nu nl i fuel pre post o, keeps_areas lp -> input_ok n nu nl i ->
  narp inv lp fuel i = Ok (pre ++ post, o) -> pre <> [] ->
  exists e s years, last pre (e, s) = (e, s) /\ In (e, s) pre /\
    run_years (year_cfg i) n 0 (start_year n (i_INTV i) (i_ITAB i)) years = Ok (w_y (s_w s), w_out (s_w s)) /\ length years = n_years pre /\
    forall y k, (y < n_years pre)%nat -> (k < x_NFCST (i_h i))%nat ->
      let v pl wn wt c := part pl wn wt c k (nth y years (first_stat n, first_stat n)) in
      (forall j wn wt c, (j < n)%nat -> cleared n (x_NFCST (i_h i)) (Area j) k = true ->
         0 <= v (Area j) wn wt c <= v Pool wn wt Both /\ v (Area j) wn LOLE c <= v (Area j) wn EUE c /\ v (Area j) Peak wt c <= v (Area j) Hourly wt c) /\
      ((forall j, (j < n)%nat -> cleared n (x_NFCST (i_h i)) (Area j) k = true) ->
         forall wn, v Pool wn LOLE Both <= zsum (map (fun j => v (Area j) wn LOLE Both) (seq 0 n)) /\
           forall c, v Pool wn EUE c = zsum (map (fun j => v (Area j) wn EUE c) (seq 0 n))).
Proof.
  intros inv lp n nu nl i fuel pre post o KA IN E NE.
  destruct (year_records inv lp n nu nl i fuel pre post o KA IN E NE) as (e & s & R & years & LA & II & RY & LY & DR & TOT).
  exists e, s, years. do 4 (split; [assumption|]). intros y k Hy Hk v.
  assert (VP : forall wn wt c, v Pool wn wt c = total i Pool wn wt c k R (draws_of_year i y)) by (intros; apply TOT; auto; exact I).
  assert (VA : forall j wn wt c, (j < n)%nat -> cleared n (x_NFCST (i_h i)) (Area j) k = true -> v (Area j) wn wt c = total i (Area j) wn wt c k R (draws_of_year i y)) by (intros; apply TOT; auto).
  assert (F : forall x r, In x (draws_of_year i y) -> In r (R x) -> losing_record n r).
  { intros x r Hx Hr. destruct (DR y x Hy Hx) as (_ & F). rewrite Forall_forall in F. now apply F. }
  split.
  - intros j wn wt c Hj CL. rewrite !VA, !VP by assumption. split; [split|split].
    + rewrite total_map. apply zsum_nonneg. intros. apply tally_nonneg.
    + apply total_le. intros x Hx. unfold tally. apply zsum_le. intros r Hr. apply (part_area_pool n); [now apply (F x)|exact Hj].
    + apply total_le. intros x Hx. unfold tally. apply zsum_le. intros r Hr. apply (part_lole_eue n); [now apply (F x)|exact Hj|]. left; now exists j.
    + apply peak_le_hourly.
  - intros CL wn. rewrite !VP.
    assert (SUMS : forall wt c, zsum (map (fun j => v (Area j) wn wt c) (seq 0 n)) =
                   zsum (map (fun x => zsum (map (fun r => zsum (map (fun j => rec_part (Area j) wt c k r) (seq 0 n))) (R x))) (filter (counts i wn) (draws_of_year i y)))).
    { intros wt c. rewrite (map_ext_in _ (fun j => zsum (map (fun x => tally (Area j) wt c k (R x)) (filter (counts i wn) (draws_of_year i y))))).
      - rewrite zsum_swap. f_equal. apply map_ext. intros x. unfold tally. apply zsum_swap.
      - intros j Hj. apply in_seq in Hj. rewrite VA by (try apply CL; lia). apply total_map. }
    split; [|intros c]; rewrite ?VP, SUMS, total_map.
    + apply zsum_le. intros x Hx. apply filter_In in Hx. unfold tally. apply zsum_le. intros r Hr. apply part_pool_lole. apply (F x); tauto.
    + f_equal. apply map_ext_in. intros x Hx. apply filter_In in Hx. unfold tally. f_equal. apply map_ext_in. intros r Hr. apply part_pool_eue. apply (F x); tauto.
Qed.
Print Assumptions C119_area_bounds_partial.

Lemma total_pool_count i R ks n c k wn : (forall x, In x ks -> draw_records n (R x)) -> total i Pool wn LOLE c k R ks <= Z.of_nat (length (filter (counts i wn) ks)).
Proof.
  intros H. rewrite total_map. apply zsum_ones. intros x Hx. apply filter_In in Hx. destruct Hx as (Hx & _).
  assert (tally Pool LOLE c k (R x) <= tally Pool LOLE Both k (R x)).
  { unfold tally. apply zsum_le. intros [l M] _. unfold rec_part. destruct (Nat.eqb l k); [|lia]. destruct c; unfold rec_amount; destruct (transmission Pool LOLE M); lia. }
  rewrite (tally_pool (R x) n k) in H0 by auto. destruct (Nat.ltb _ _); lia.
Qed.
Lemma total_nonneg i pl wn wt c k R ks : 0 <= total i pl wn wt c k R ks.
Proof. rewrite total_map. apply zsum_nonneg. intros. apply tally_nonneg. Qed.
Lemma per_year a b Y : (1 <= Y)%Z -> a <= b * Y -> Qcle (Qcdiv (qz a) (qz Y)) (qz b).
Proof.
  intros HY H. apply (proj2 (qz_le _ _)) in H. assert (P : (q0 < qz Y)%Qc) by (apply (proj2 (qz_lt 0 Y)); lia).
  assert (EQ : qz (b * Y) = (qz b * qz Y)%Qc) by (unfold qz; apply Qc_is_canon; unfold Qcmult; cbn [this Q2Qc]; rewrite !Qred_correct; now rewrite <- inject_Z_mult).
  rewrite EQ in H. revert H P. generalize (qz a) (qz b) (qz Y). intros x z w H P.
  assert (D : (x = Qcdiv x w * w)%Qc) by (field; intros ->; now apply Qclt_not_eq in P).
  apply Qcnot_lt_le. intros C. assert (X : (z * w < Qcdiv x w * w)%Qc) by (apply Qcmult_lt_compat_r; assumption). rewrite <- D in X. now apply (Qclt_not_le _ _ X).
Qed.
Lemma per_year_mono a b Y : (1 <= Y)%Z -> a <= b -> Qcle (Qcdiv (qz a) (qz Y)) (Qcdiv (qz b) (qz Y)).
Proof.
  intros HY H. apply (proj2 (qz_le _ _)) in H. assert (P : (q0 < qz Y)%Qc) by (apply (proj2 (qz_lt 0 Y)); lia).
  unfold Qcdiv. apply Qcmult_le_compat_r; [exact H|]. apply Qclt_le_weak. 
  revert P. generalize (qz Y). intros w P. assert (D : (w * / w = q1)%Qc) by (apply Qcmult_inv_r; intros ->; now apply Qclt_not_eq in P).
  apply Qcnot_le_lt. intros C. assert (X : (/ w * w <= 0 * w)%Qc) by (apply Qcmult_le_compat_r; [exact C|now apply Qclt_le_weak]).
  rewrite (Qcmult_comm (/ w)), D in X. revert X. intros X. ring_simplify in X. apply (Qcle_not_lt _ _ X). reflexivity.
Qed.
(** all draws of the years that have ended were delivered *)
Lemma draws_delivered inv lp n nu nl i fuel pre post o : keeps_areas lp -> input_ok n nu nl i ->
  narp inv lp fuel i = Ok (pre ++ post, o) -> (draws_upto i (n_years pre) <= n_draws pre)%nat.
Proof.
  intros KA IN E. destruct (narp_at inv lp KA n nu nl i IN fuel _ post o E) as (IG & IL & s1 & a & b & c & d & R & l & f1 & _ & _ & _ & P & A & D & _ & _).
  rewrite <- A, <- D. pose proof (pi_due _ _ _ _ _ _ _ _ _ _ _ _ P) as DUE. apply Nat.nlt_ge. intros C. apply (proj1 (draws_upto_le_iff n nu nl i IN d (S a))) in C.
  pose proof (in_step _ _ _ _ IN) as SO. unfold step_ok in SO. destruct DUE as [->|DUE]; lia.
Qed.

(** The report.  Its pool lines: hours (draws) of loss per year at most 8760 divided by the
    step, days at most 365 and at most the hours; with both causes together at least one
    MWh per hour of loss; the next level's count is not larger.  An area's line has at
    most the pool's values. *)
Theorem C119_report_bounds_partial : forall inv lp n nu nl i SUSTAT fuel pre post o e s r, keeps_areas lp -> input_ok n nu nl i ->
  length SUSTAT = S n -> x_NFCST (i_h i) = 5%nat ->
  narp inv lp fuel i = Ok (pre ++ (e, s) :: post, o) -> snd e = qz 4 ->
  printed_report i SUSTAT (s_w s) = Some (Ok r) ->
  let pool c k := nth (3 * k + code_cause c) (r_pool_level r) no_line in
  let area j c k := nth (3 * k + code_cause c) (nth j (r_area_level r) []) no_line in
  forall c k, (k < 5)%nat ->
    (q0 <= l_lol (pool c k))%Qc /\ (qz (x_JSTEP (i_h i)) * l_lol (pool c k) <= qz 8760)%Qc /\
    (q0 <= l_lolp (pool c k))%Qc /\ (l_lolp (pool c k) <= qz 365)%Qc /\ (l_lolp (pool c k) <= l_lol (pool c k))%Qc /\
    (l_lol (pool Both k) <= l_eue (pool Both k))%Qc /\
    ((S k < 5)%nat -> (l_lol (pool Both (S k)) <= l_lol (pool Both k))%Qc /\ (l_lolp (pool Both (S k)) <= l_lolp (pool Both k))%Qc) /\
    (forall j, (j < n)%nat -> cleared n 5 (Area j) k = true ->
       (l_lol (area j c k) <= l_lol (pool Both k))%Qc /\ (l_lolp (area j c k) <= l_lolp (pool Both k))%Qc /\
       (l_eue (area j c k) <= l_eue (pool Both k))%Qc /\ (l_lol (area j c k) <= l_eue (area j c k))%Qc).
Proof.
  intros inv lp n nu nl i SU fuel pre post o e s r KA IN LS N5 E KIND PR pool area c k Hk.
  pose proof (C64_report_levels inv lp n nu nl i SU fuel pre post o e s r KA IN LS N5 E KIND PR) as C64. cbv zeta in C64. destruct C64 as (R & DO & ROW).
  change (pre ++ (e, s) :: post) with (pre ++ [(e, s)] ++ post) in E. rewrite app_assoc in E.
  pose proof (draws_delivered inv lp n nu nl i fuel _ post o KA IN E) as DD. set (Y := n_years (pre ++ [(e, s)])) in *.
  assert (Y1 : 1 <= Z.of_nat Y).
  { unfold Y. rewrite of_kind_snoc, app_length. cbn [fst]. rewrite KIND. change (qeqb (qz 4) (qz 4)) with true. cbn [length]. lia. }
  set (ks := seq 1 (draws_upto i Y)) in *.
  assert (DR : forall x, In x ks -> draw_records n (R x)).
  { intros x Hx. apply in_seq in Hx. apply (outcome_records inv lp n nu nl i (pre ++ [(e, s)]) x). apply DO. lia. }
  assert (PV : forall c k, (k < 5)%nat -> l_lol (pool c k) = Qcdiv (qz (total i Pool Hourly LOLE c k R ks)) (qz (Z.of_nat Y)) /\
             l_eue (pool c k) = Qcdiv (qz (total i Pool Hourly EUE c k R ks)) (qz (Z.of_nat Y)) /\ l_lolp (pool c k) = Qcdiv (qz (total i Pool Peak LOLE c k R ks)) (qz (Z.of_nat Y))).
  { intros c0 k0 Hk0. destruct (ROW Pool c0 k0 I Hk0 eq_refl) as (A & B & C & _). auto. }
  assert (AV : forall j c k, (j < n)%nat -> (k < 5)%nat -> cleared n 5 (Area j) k = true -> l_lol (area j c k) = Qcdiv (qz (total i (Area j) Hourly LOLE c k R ks)) (qz (Z.of_nat Y)) /\
             l_eue (area j c k) = Qcdiv (qz (total i (Area j) Hourly EUE c k R ks)) (qz (Z.of_nat Y)) /\ l_lolp (area j c k) = Qcdiv (qz (total i (Area j) Peak LOLE c k R ks)) (qz (Z.of_nat Y))).
  { intros j c0 k0 Hj Hk0 CL. destruct (ROW (Area j) c0 k0 Hj Hk0 CL) as (A & B & C & _). auto. }
  pose proof (in_step _ _ _ _ IN) as SO. unfold step_ok in SO.
  destruct (PV c k Hk) as (-> & _ & ->). destruct (PV Both k Hk) as (-> & -> & PB).
  assert (CNT : x_JSTEP (i_h i) * total i Pool Hourly LOLE c k R ks <= 8760 * Z.of_nat Y).
  { pose proof (total_pool_count i R ks n c k Hourly DR) as T. rewrite counts_hourly in T. unfold ks in T at 2. rewrite seq_length in T.
    pose proof (proj1 (draws_upto_le_iff n nu nl i IN Y (draws_upto i Y)) (Nat.le_refl _)) as A. nia. }
  assert (PK : total i Pool Peak LOLE c k R ks <= 365 * Z.of_nat Y).
  { unfold ks. rewrite <- total_years by lia.
    assert (forall y, In y (seq 0 Y) -> total i Pool Peak LOLE c k R (draws_of_year i y) <= 365).
    { intros y Hy. apply in_seq in Hy. pose proof (peaks_of_year n nu nl i y IN) as P.
      assert (DRY : forall x, In x (draws_of_year i y) -> draw_records n (R x)).
      { intros x Hx. apply DR. unfold draws_of_year in Hx. apply in_seq in Hx. pose proof (draws_upto_le n nu nl i IN (y + 1) Y ltac:(lia)). apply in_seq. lia. }
      pose proof (total_pool_count i R (draws_of_year i y) n c k Peak DRY). lia. }
    pose proof (zsum_le _ (fun _ => 365) _ H) as Z1. replace (zsum (map (fun _ => 365) (seq 0 Y))) with (365 * Z.of_nat Y) in Z1; [exact Z1|].
    clear. generalize 0%nat as z. induction Y as [|Y IH]; intros z; cbn [seq map]; [reflexivity|]. rewrite zsum_cons, <- IH. lia. }
  assert (ZERO : forall a, 0 <= a -> (q0 <= Qcdiv (qz a) (qz (Z.of_nat Y)))%Qc).
  { intros a Ha. pose proof (per_year_mono 0 a (Z.of_nat Y) Y1 Ha) as P. replace (Qcdiv (qz 0) (qz (Z.of_nat Y))) with q0 in P; [exact P|]. unfold Qcdiv. change (qz 0) with 0%Qc. now rewrite Qcmult_0_l. }
  split; [apply ZERO, total_nonneg|]. split.
  { replace (qz (x_JSTEP (i_h i)) * Qcdiv (qz (total i Pool Hourly LOLE c k R ks)) (qz (Z.of_nat Y)))%Qc with (Qcdiv (qz (x_JSTEP (i_h i) * total i Pool Hourly LOLE c k R ks)) (qz (Z.of_nat Y))).
    - apply per_year; assumption.
    - unfold Qcdiv. rewrite Qcmult_assoc. f_equal. unfold qz. apply Qc_is_canon. unfold Qcmult. cbn [this Q2Qc]. rewrite !Qred_correct. now rewrite <- inject_Z_mult. }
  split; [apply ZERO, total_nonneg|]. split; [apply per_year; assumption|]. split; [apply per_year_mono; [exact Y1|apply peak_le_hourly]|].
  assert (LR : forall x q, In x ks -> In q (R x) -> losing_record n q).
  { intros x q Hx Hq. destruct (DR x Hx) as (_ & F). rewrite Forall_forall in F. now apply F. }
  split; [|split].
  - apply per_year_mono; [exact Y1|]. apply total_le. intros x Hx. unfold tally. apply zsum_le. intros q Hq. apply (part_lole_eue n); [now apply (LR x)|exact I|now right].
  - intros Hk'. destruct (PV Both (S k) Hk') as (-> & _ & ->). rewrite PB.
    assert (MONO : forall wn, total i Pool wn LOLE Both (S k) R ks <= total i Pool wn LOLE Both k R ks).
    { intros wn. apply total_le. intros x Hx. rewrite !(tally_pool _ n) by auto. destruct (Nat.ltb_spec (S k) (length (R x))), (Nat.ltb_spec k (length (R x))); lia. }
    split; apply per_year_mono; auto.
  - intros j Hj CL. destruct (AV j c k Hj Hk CL) as (-> & -> & ->). rewrite PB.
    assert (LE : forall wn wt, total i (Area j) wn wt c k R ks <= total i Pool wn wt Both k R ks).
    { intros wn wt. apply total_le. intros x Hx. unfold tally. apply zsum_le. intros q Hq. apply (part_area_pool n); [now apply (LR x)|exact Hj]. }
    repeat (split; [apply per_year_mono; auto|]). apply per_year_mono; [exact Y1|]. apply total_le. intros x Hx. unfold tally. apply zsum_le. intros q Hq.
    apply (part_lole_eue n); [now apply (LR x)|exact Hj|left; now exists j].
Qed.
Print Assumptions C119_report_bounds_partial.

(** Refuted for the entries that are not cleared: a report of a run shows an area with more
    hours of loss than the pool it belongs to. *)
Theorem C119_area_exceeds_refuted : exists inv lp i fuel lg pre e s r, keeps_areas lp /\ input_ok 2 2 1 i /\ x_NFCST (i_h i) = 5%nat /\
  narp inv lp fuel i = Ok (lg, Some Converged) /\ lg = pre ++ [(e, s)] /\ printed_report i (repeat (repeat q0 5) 3) (s_w s) = Some (Ok r) /\
  (l_lol (nth (3 * 2 + code_cause Both) (r_pool_level r) no_line) < l_lol (nth (3 * 2 + code_cause Both) (nth 0 (r_area_level r) []) no_line))%Qc.
Proof.
  pose proof C65_witness as W65. pose proof C64_witness as W64. unfold demo_run in *.
  exists (checked_inv [[qz (-1)]]), no_lp, (demo_input 110 80), 200%nat.
  destruct (narp (checked_inv [[qz (-1)]]) no_lp 200 (demo_input 110 80)) as [[lg o]|] eqn:ER; [|discriminate W65].
  assert (O : o = Some Converged).
  { unfold run_shown in W65. injection W65 as _ _ W65 _. destruct o as [[| | | | |]|]; try discriminate W65. reflexivity. }
  subst o. assert (NE : lg <> []) by (intros ->; discriminate W65).
  destruct (exists_last NE) as (pre & (e & s) & ->).
  unfold printed in W64. unfold final_state in W64. rewrite map_app in W64. cbn [map] in W64. rewrite ?last_last in W64. cbn [snd] in W64.
  destruct (printed_report (demo_input 110 80) (repeat (repeat q0 5) 3) (s_w s)) as [[r|]|] eqn:PR; try discriminate W64.
  exists (pre ++ [(e, s)]), pre, e, s, r. split; [intros B L BN F BN'; discriminate|]. split; [exact (demo_input_ok_any 110 80)|]. split; [reflexivity|].
  split; [reflexivity|]. split; [reflexivity|]. split; [exact PR|].
  cbn [option_map] in W64. apply (f_equal (fun x => match x with Some p => p | None => ([], []) end)) in W64. cbv beta iota in W64.
  pose proof (f_equal fst W64) as A. pose proof (f_equal snd W64) as B. cbn [fst snd] in A, B.
  apply (f_equal (fun l => fst (nth 8 l (0%Q, 0%Q)))) in A, B.
  set (f := fun l => (this (l_lol l), this (l_eue l))) in *.
  assert (D : f no_line = (0%Q, 0%Q)) by reflexivity. rewrite <- D in A, B. rewrite (map_nth f) in A, B. cbn [f fst] in A, B.
  change (3 * 2 + code_cause Both)%nat with 8%nat. unfold Qclt. rewrite A, B. reflexivity.
Qed.
Print Assumptions C119_area_exceeds_refuted.

(** *** Witness: the run of C64 satisfies the hypotheses of the three theorems, with two
    years, a report and losses. *)
Example C119_witness : exists inv lp i fuel pre e s r, keeps_areas lp /\ input_ok 2 2 1 i /\ x_NFCST (i_h i) = 5%nat /\ x_JSTEP (i_h i) = 2184 /\
  narp inv lp fuel i = Ok (pre ++ [(e, s)], Some Converged) /\ n_years (pre ++ [(e, s)]) = 2%nat /\ snd e = qz 4 /\ printed_report i (repeat (repeat q0 5) 3) (s_w s) = Some (Ok r) /\
  l_lol (nth (3 * 0 + code_cause Both) (r_pool_level r) no_line) = qz 4.
Proof.
  pose proof C65_witness as W65. pose proof C64_witness as W64. unfold demo_run in *.
  exists (checked_inv [[qz (-1)]]), no_lp, (demo_input 110 80), 200%nat.
  destruct (narp (checked_inv [[qz (-1)]]) no_lp 200 (demo_input 110 80)) as [[lg o]|] eqn:ER; [|discriminate W65].
  assert (O : o = Some Converged).
  { unfold run_shown in W65. injection W65 as _ _ W65 _. destruct o as [[| | | | |]|]; try discriminate W65. reflexivity. }
  subst o. assert (NE : lg <> []) by (intros ->; discriminate W65).
  destruct (exists_last NE) as (pre & (e & s) & ->).
  unfold printed in W64. unfold final_state in W64. rewrite map_app in W64. cbn [map] in W64. rewrite ?last_last in W64. cbn [snd] in W64.
  destruct (printed_report (demo_input 110 80) (repeat (repeat q0 5) 3) (s_w s)) as [[r|]|] eqn:PR; try discriminate W64.
  exists pre, e, s, r. split; [intros B L BN F BN'; discriminate|]. split; [exact (demo_input_ok_any 110 80)|]. split; [reflexivity|]. split; [reflexivity|].
  split; [reflexivity|]. unfold run_shown in W65. injection W65 as _ W65 _. split; [exact W65|].
  split; [|split; [exact PR|]].
  - destruct (C65_one_report (checked_inv [[qz (-1)]]) no_lp 2 2 1 (demo_input 110 80) 200 _ _ ltac:(intros B L BN F BN'; discriminate) (demo_input_ok_any 110 80) ltac:(cbn; lia) ER ltac:(intros; discriminate))
      as (_ & lg' & s' & os & o & EL & _). apply app_inj_tail in EL. destruct EL as (_ & EL). injection EL as EL _. rewrite EL. reflexivity.
  - cbn [option_map] in W64. apply (f_equal (fun x => match x with Some p => p | None => ([], []) end)) in W64. cbv beta iota in W64.
    pose proof (f_equal fst W64) as A. cbn [fst] in A. apply (f_equal (fun l => fst (nth 2 l (0%Q, 0%Q)))) in A.
    set (f := fun l => (this (l_lol l), this (l_eue l))) in *. assert (D : f no_line = (0%Q, 0%Q)) by reflexivity. rewrite <- D in A. rewrite (map_nth f) in A. cbn [f fst] in A.
    change (3 * 0 + code_cause Both)%nat with 2%nat. apply Qc_is_canon. rewrite A. reflexivity.
Qed.
