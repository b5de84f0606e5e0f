(** C53-C56 and C66-C72: data preparation.  The maintenance scheduler's heuristics are
    arbitrary ([rest], [loss], [presched], [block], [r0]); the theorems hold for all. *)
From Coq Require Import String Ascii List.
From Verif Require Import Base BaseProofs Sums LoadModel LoadSpec LoadProofs PeakProofs NetModel NetProofs ControlModel ControlSpec HourModel HourSpec
  ProgramModel ProgramSpec MaintModel MaintSpec MaintProofs DataModel DataSpec DataProofs PrepModel PrepProofs.
Import ListNotations.
Open Scope Z_scope.

(* ------------------------------------------------------------------ *)
(** ** C53 *)
Lemma listed_row nu L u : (length L <= nu)%nat -> listed (table_row nu L) u <-> In (Z.of_nat u) L.
Proof.
  intros H. unfold listed, table_row. split.
  - intros (j & A & B & C). cbn [nth] in B. destruct j as [|j]; [lia|]. cbn [nth] in C. rewrite app_nth1 in C by lia. rewrite <- C. apply nth_In. lia.
  - intros I0. destruct (In_nth _ _ (-1) I0) as (j & A & B). exists (S j). cbn [nth]. split; [lia|]. split; [lia|]. rewrite app_nth1 by lia. exact B.
Qed.
Lemma table_nth ID w T : outage_table ID = Ok T -> (forall w, 0 <= w < 51 -> (length (out_in ID w) <= length ID)%nat) -> (w < 52)%nat ->
  nth w T [] = table_row (length ID) (in_table ID (Z.of_nat w)).
Proof.
  intros E H Hw. assert (X : T = map (fun w => table_row (length ID) (in_table ID (Z.of_nat w))) (seq 0 52)) by (rewrite (outage_table_ok ID H) in E; congruence).
  rewrite X, nth_map_seq by exact Hw. reflexivity.
Qed.
Lemma fits_of_ok ID T : outage_table ID = Ok T -> forall w, 0 <= w < 51 -> (length (out_in ID w) <= length ID)%nat.
Proof.
  intros E w Hw. destruct (le_lt_dec (length (out_in ID w)) (length ID)) as [L|L]; [exact L|].
  rewrite (outage_table_err ID w Hw L) in E. discriminate E.
Qed.

(** Whenever a table is built, the row of each week before the last one holds the
    number of covering outages, then the units, one entry per covering outage in the
    order of the input, then -1. *)
Theorem C53_rows_partial ID T : outage_table ID = Ok T ->
  length T = 52%nat /\ forall w, (w < 51)%nat ->
    nth w T [] = table_row (length ID) (out_in ID (Z.of_nat w)) /\ (length (out_in ID (Z.of_nat w)) <= length ID)%nat.
Proof.
  intros E. pose proof (fits_of_ok ID T E) as F. split.
  - assert (X : T = map (fun w => table_row (length ID) (in_table ID (Z.of_nat w))) (seq 0 52)) by (rewrite (outage_table_ok ID F) in E; congruence).
    rewrite X, map_length. reflexivity.
  - intros w Hw. split; [|apply F; lia]. rewrite (table_nth ID w T E F) by lia. rewrite in_table_early by lia. reflexivity.
Qed.
(** The same as a statement about single units; the rows are what the week handler
    expects (C10). *)
Theorem C53_listed_partial ID T : outage_table ID = Ok T ->
  (forall r, In r ID -> 0 <= zget r 0 < Z.of_nat (length ID)) ->
  forall w, (w < 51)%nat ->
    row_ok (length ID) (nth w T []) /\
    forall u, listed (nth w T []) u <->
      exists r b d, In r ID /\ zget r 0 = Z.of_nat u /\ (b, d) = (zget r 3, zget r 4) /\ 0 <= b /\ b <= Z.of_nat w < b + d \/
                    In r ID /\ zget r 0 = Z.of_nat u /\ (b, d) = (zget r 5, zget r 6) /\ 0 <= b /\ b <= Z.of_nat w < b + d.
Proof.
  intros E R w Hw. destruct (C53_rows_partial ID T E) as (_ & G). destruct (G w Hw) as (EW & LW). rewrite EW.
  assert (IN : forall z, In z (out_in ID (Z.of_nat w)) <-> exists r b d, In r ID /\ zget r 0 = z /\ (b, d) = (zget r 3, zget r 4) /\ 0 <= b /\ b <= Z.of_nat w < b + d \/
                    In r ID /\ zget r 0 = z /\ (b, d) = (zget r 5, zget r 6) /\ 0 <= b /\ b <= Z.of_nat w < b + d).
  { intros z. unfold out_in. rewrite in_map_iff. split.
    - intros (o & EO & H). apply filter_In in H. destruct H as (H & C). apply in_flat_map in H. destruct H as (r & HR & [H|[H|[]]]); subst o; cbn in EO; apply covers_one in C.
      + exists r, (zget r 3), (zget r 4). left. auto.
      + exists r, (zget r 5), (zget r 6). right. auto.
    - intros (r & b & d & [(HR & A & B & C)|(HR & A & B & C)]); injection B as -> ->.
      + exists (zget r 0, zget r 3, zget r 4). split; [exact A|]. apply filter_In. split; [apply in_flat_map; exists r; split; [exact HR|left; reflexivity]|apply covers_one; exact C].
      + exists (zget r 0, zget r 5, zget r 6). split; [exact A|]. apply filter_In. split; [apply in_flat_map; exists r; split; [exact HR|right; left; reflexivity]|apply covers_one; exact C]. }
  split.
  - exists (Z.of_nat (length (out_in ID (Z.of_nat w)))). eexists. split; [reflexivity|]. rewrite app_length, repeat_length. split; [lia|].
    rewrite Nat2Z.id. intros j Hj. rewrite app_nth1 by exact Hj.
    assert (X : In (nth j (out_in ID (Z.of_nat w)) 0) (out_in ID (Z.of_nat w))) by (apply nth_In; exact Hj).
    apply IN in X. destruct X as (r & b & d & [(HR & A & _)|(HR & A & _)]); rewrite <- A; apply R; exact HR.
  - intros u. rewrite (listed_row _ _ _ LW). apply IN.
Qed.
(** A table is built exactly if no week before the last has more covering outages than
    there are units; otherwise the preparation stops with an IndexError. *)
Theorem C53_overflow ID : (exists T, outage_table ID = Ok T) <-> forall w, 0 <= w < 51 -> (length (out_in ID w) <= length ID)%nat.
Proof.
  split; [intros (T & E); apply (fits_of_ok ID T E)|]. intros H. eexists. apply (outage_table_ok ID H).
Qed.
Theorem C53_overflow_error ID w : 0 <= w < 51 -> (length ID < length (out_in ID w))%nat -> outage_table ID = Err IndexError.
Proof. exact (outage_table_err ID w). Qed.
(** The last week lists no unit, whatever is planned for it. *)
Theorem C53_last_week_refuted ID T u : outage_table ID = Ok T -> ~ listed (nth 51 T []) u.
Proof.
  intros E L. rewrite (table_nth ID 51 T E (fits_of_ok ID T E)) in L by lia. rewrite in_table_last in L by lia.
  apply listed_row in L; [destruct L|cbn; lia].
Qed.
(** Two units, the second planned out in the last two weeks. *)
Example C53_witness : let ID := [[0; 0; 0; 4; 2; -1; 0; 0]; [1; 1; 0; 50; 2; 5; 1; 0]] in
  exists T, outage_table ID = Ok T /\ nth 5 T [] = [2; 0; 1] /\ nth 4 T [] = [1; 0; -1] /\ nth 50 T [] = [1; 1; -1] /\ nth 51 T [] = [0; -1; -1] /\
    covers 51 (1, 50, 2) = true.
Proof. eexists. split; [vm_compute; reflexivity|]. repeat split; reflexivity. Qed.
Example C53_overflow_witness : outage_table [[0; 0; 0; 4; 2; 5; 1; 0]] = Err IndexError.
Proof. reflexivity. Qed.

(* ------------------------------------------------------------------ *)
(** ** C54 *)
(** With all names declared the cards come out with every name replaced by its number:
    one numbering for areas and one for units, used everywhere. *)
Theorem C54_faithful c : known c -> exists fa fu, numbering (map a_name (c_areas c)) fa /\ numbering (map u_name (c_units c)) fu /\
  pind c = Ok (renamed fa fu c).
Proof.
  intros K. exists (number (anames c)), (number (unames c)). split; [apply number_numbering|]. split; [apply number_numbering|]. apply pind_ok. exact K.
Qed.
Theorem C54_unknown c : ~ known c -> pind c = Err KeyError.
Proof. exact (pind_unknown c). Qed.
(** a numbering is determined by the names: the position, if no name is repeated *)
Theorem C54_position names f k : NoDup names -> numbering names f -> (k < length names)%nat -> f (nth k names EmptyString) = k.
Proof. exact (numbering_nth names f k). Qed.
Definition tiny_misc : misc := mkMisc 345237 0 (13, 26, 39) 1 1 1 1 1 (qq 25 1000) 1 1 1 (qz 1000) 0 5.
Definition tiny_unit (s a : string) (pa b1 d1 b2 d2 : Z) : unit_card string :=
  mkUnit s a [qz 100; qz 110; qz 90; qz 100] (qq 1 20) (qq 1 10) (qz 50) pa b1 d1 b2 d2.
Definition tiny : cards string :=
  mkCards tiny_misc [mkArea "A1" (qz 300) q0 (qz 10000); mkArea "A2" (qz 200) q0 (qz 10000)]%string
    [tiny_unit "U1" "A1" 1 20 3 0 0; tiny_unit "U2" "A2" 1 20 3 0 0; tiny_unit "U3" "A1" 0 0 2 0 0]%string
    [mkLineC 1 "A1" "A2" [qz (-10); q0; q0; q0; q0; q0] [qz 50; q0; q0; q0; q0; q0] [qz 60; q0; q0; q0; q0; q0] [qq 9 10; qq 1 10; q0; q0; q0; q0]]%string
    [] [] Column.
Example C54_witness : exists c', pind tiny = Ok c' /\ map (fun u => (u_name u, u_loc u)) (c_units c') = [(0, 0); (1, 1); (2, 0)]%nat /\
  map (fun l => (ln_id l, ln_from l, ln_to l)) (c_lines c') = [(0, 0%nat, 1%nat)].
Proof. eexists. split; [vm_compute; reflexivity|]. split; reflexivity. Qed.
Example C54_unknown_witness : pind (mkCards tiny_misc (c_areas tiny) [tiny_unit "U1" "A3" 0 0 0 0 0]%string [] [] [] Column) = Err KeyError.
Proof. reflexivity. Qed.

Section DATA.
Variable rest : Type.
Variables (loss : Qc -> Qc) (presched : list punit -> mst rest -> res (list Qc * list Z * mst rest))
          (block : nat -> nat -> nat -> mst rest -> res (mst rest)) (r0 : rest).
Notation prepare := (dataf1 rest loss presched block r0).

Theorem C54_program c leei : c_units c <> [] -> ~ known c -> prepare c leei = Err KeyError.
Proof. intros NU K. rewrite dataf1_pind by exact NU. rewrite pind_unknown by exact K. reflexivity. Qed.

(* ------------------------------------------------------------------ *)
(** ** C71: valid input is accepted and understood *)
Theorem C71_accepted n nu nl c bs : valid_cards n nu nl c -> Forall (full_block n) bs ->
  exists i SU, prepare c (load_file bs) = Ok (i, SU) /\ input_ok n nu nl i.
Proof. exact (dataf1_ok rest loss presched block r0 n nu nl c bs). Qed.

(** What the simulation then works with, unit by unit and line by line, with areas
    numbered in their order on the cards. *)
Theorem C71_contents n nu nl c bs i SU : valid_cards n nu nl c -> Forall (full_block n) bs -> prepare c (load_file bs) = Ok (i, SU) ->
  exists fa, numbering (map a_name (c_areas c)) fa /\
  (forall k u, nth_error (c_units c) k = Some u ->
     nth k (i_RATES i) [] = u_cap u /\ zget (x_CAPCON (i_h i)) k = Z.of_nat (fa (u_loc u)) /\
     (forall j, (j < n)%nat -> mget (x_CAPOWN (i_h i)) j k = if Nat.eqb (fa (u_loc u)) j then q1 else q0) /\
     nth k (x_DERATE (i_h i)) q0 = Qcminus q1 (Qcdiv (u_der u) (qz 100))) /\
  (forall k l, nth_error (c_lines c) k = Some l -> nth k (x_LP (i_h i)) (n, n) = (fa (ln_from l), fa (ln_to l))) /\
  i_years i = m_FINISH (c_misc c) /\ x_JSTEP (i_h i) = m_JSTEP (c_misc c) /\ x_JFREQ (i_h i) = m_JFREQ (c_misc c) /\
  (forall k a, nth_error (c_areas c) k = Some a -> nth k (i_BN i) [] = [qz (Z.of_nat k); q0; q0; a_flows a; a_flows a]) /\
  (x_NFCST (i_h i) = 1%nat <-> forall a, In a (c_areas c) -> a_lfu a = q0).
Proof.
  intros V F E. destruct (dataf1_form rest loss presched block r0 n nu nl c bs V F) as (fa & fu & d & H & S0 & NA & NU & EH & ED & E').
  rewrite E in E'. injection E' as -> ->.
  destruct (datax_form n nu nl c V fa fu NU) as (d' & ED' & EJ & EI & EC & EO & EG & ER & EL & EB & ELP & EID & EF & EBN & EN). rewrite ED in ED'. injection ED' as <-.
  exists fa. split; [exact NA|]. cbn [i_RATES i_h i_years i_BN x_CAPCON x_CAPOWN x_DERATE x_LP x_JSTEP x_JFREQ x_NFCST].
  split; [|split; [|split; [reflexivity|split; [reflexivity|split; [reflexivity|split]]]]].
  - intros k u EU. assert (HK : (k < nu)%nat) by (rewrite <- (proj1 (v_units _ _ _ _ V)); apply nth_error_Some; congruence).
    destruct (U_nth n nu nl c V fa fu NU k (mkUnit 0%nat 0%nat [] q0 q0 q0 0 0 0 0 0) HK) as (u' & EU' & _ & X). rewrite EU in EU'. injection EU' as <-.
    split; [erewrite nth_error_nth by (apply map_nth_error; exact EU); reflexivity|].
    split; [|split].
    + rewrite EC. unfold zget. rewrite (nth_indep _ 0 ((fun u => Z.of_nat (u_loc u)) (mkUnit 0%nat 0%nat [] q0 q0 q0 0 0 0 0 0))) by (rewrite map_length; rewrite (U_length n nu nl) by exact V; exact HK).
      rewrite (map_nth (fun u => Z.of_nat (u_loc u))), X. reflexivity.
    + intros j Hj. rewrite EO. apply (own0_spec n nu nl c V fa fu NA NU); assumption.
    + rewrite ER. rewrite (nth_indep _ q0 (derate_of (mkUnit 0%nat 0%nat [] q0 q0 q0 0 0 0 0 0))) by (rewrite map_length; rewrite (U_length n nu nl) by exact V; exact HK).
      rewrite map_nth, X. reflexivity.
  - intros k l EK. rewrite ELP. erewrite nth_error_nth by (apply map_nth_error; exact EK). reflexivity.
  - intros k a EK. rewrite EBN. rewrite (nth_mapi _ _ _ a) by (apply nth_error_Some; congruence). rewrite (nth_error_nth _ _ a EK). reflexivity.
  - assert (X : existsb (fun a => negb (qeqb (a_lfu a) q0)) (c_areas c) = false <-> forall a, In a (c_areas c) -> a_lfu a = q0).
    { split.
      - intros EX a HA. destruct (qeqb (a_lfu a) q0) eqn:Q; [apply qeqb_iff in Q; exact Q|]. exfalso.
        assert (C : existsb (fun a => negb (qeqb (a_lfu a) q0)) (c_areas c) = true) by (apply existsb_exists; exists a; rewrite Q; auto). congruence.
      - intros H0. apply not_true_is_false. intros C. apply existsb_exists in C. destruct C as (a & HA & C). rewrite (H0 a HA) in C. discriminate C. }
    rewrite <- X. destruct (existsb _ _); injection EN as A B; rewrite A; split; intros C; try discriminate C; reflexivity.
Qed.

(* ------------------------------------------------------------------ *)
(** ** C55 *)
Theorem C55_unit_thresholds n nu nl c bs i SU k u : valid_cards n nu nl c -> Forall (full_block n) bs -> prepare c (load_file bs) = Ok (i, SU) ->
  nth_error (c_units c) k = Some u -> (q0 <= u_for u)%Qc -> (q0 <= u_dfor u)%Qc -> (u_dfor u + u_for u <= q1)%Qc ->
  exists p0 p1, nth k (x_PROBG (i_h i)) [] = [p0; p1] /\ (q0 <= p0 /\ p0 <= p1 /\ p1 <= q1)%Qc /\
    (q1 - p1)%Qc = u_for u /\ (p1 - p0)%Qc = u_dfor u.
Proof.
  intros V F E EU F0 D0 T1. destruct (dataf1_form rest loss presched block r0 n nu nl c bs V F) as (fa & fu & d & H & S0 & NA & NU & EH & ED & E').
  rewrite E in E'. injection E' as -> ->.
  destruct (datax_form n nu nl c V fa fu NU) as (d' & ED' & _ & _ & _ & _ & EG & _). rewrite ED in ED'. injection ED' as <-.
  assert (HK : (k < nu)%nat) by (rewrite <- (proj1 (v_units _ _ _ _ V)); apply nth_error_Some; congruence).
  destruct (U_nth n nu nl c V fa fu NU k (mkUnit 0%nat 0%nat [] q0 q0 q0 0 0 0 0 0) HK) as (u' & EU' & _ & X). rewrite EU in EU'. injection EU' as <-.
  cbn [i_h x_PROBG]. rewrite EG.
  rewrite (nth_indep _ [] (probg_row (mkUnit 0%nat 0%nat [] q0 q0 q0 0 0 0 0 0))) by (rewrite map_length; rewrite (U_length n nu nl) by exact V; exact HK).
  rewrite map_nth, X. unfold probg_row. cbn [u_dfor u_for]. eexists _, _. split; [reflexivity|].
  change q0 with 0%Qc in *. change q1 with 1%Qc in *. split; [repeat split; qlra|]. split; ring.
Qed.

Lemma firstn_plus {A} : forall a b (l : list A), firstn (a + b) l = firstn a l ++ firstn b (skipn a l).
Proof. clear. induction a as [|a IH]; intros b [|x l]; cbn; try reflexivity; [destruct b; reflexivity|]. f_equal. apply IH. Qed.
Lemma cumulate_nth : forall l acc k, (k < length l)%nat -> nth k (cumulate acc l) q0 = Qcplus acc (qsum (firstn (S k) l)).
Proof.
  induction l as [|x l IH]; intros acc k Hk; [cbn in Hk; lia|]. cbn [cumulate]. destruct k as [|k].
  - cbn [nth firstn]. unfold qsum. cbn. change q0 with 0%Qc. ring.
  - cbn [nth]. rewrite IH by (cbn in Hk; lia). change (firstn (S (S k)) (x :: l)) with (x :: firstn (S k) l). rewrite qsum_cons. change q0 with 0%Qc. ring.
Qed.
Theorem C55_line_sums n nu nl c bs i SU k l : valid_cards n nu nl c -> Forall (full_block n) bs -> prepare c (load_file bs) = Ok (i, SU) ->
  nth_error (c_lines c) k = Some l -> let row := nth k (x_PROBL (i_h i)) [] in
  length row = length (ln_prob l) /\
  (forall s, (s < length (ln_prob l))%nat -> nth s row q0 = qsum (firstn (s + 1) (ln_prob l))) /\
  (Forall (fun p => (q0 <= p)%Qc) (ln_prob l) -> forall s t, (s <= t < length (ln_prob l))%nat -> (nth s row q0 <= nth t row q0)%Qc) /\
  ((0 < length (ln_prob l))%nat -> nth (length (ln_prob l) - 1) row q0 = qsum (ln_prob l)).
Proof.
  intros V F E EK. destruct (dataf1_form rest loss presched block r0 n nu nl c bs V F) as (fa & fu & d & H & S0 & NA & NU & EH & ED & E').
  rewrite E in E'. injection E' as -> ->.
  destruct (datax_form n nu nl c V fa fu NU) as (d' & ED' & _ & _ & _ & _ & _ & _ & EL & _). rewrite ED in ED'. injection ED' as <-.
  cbn [i_h x_PROBL]. rewrite EL. erewrite nth_error_nth by (apply map_nth_error; exact EK). cbv zeta.
  assert (V0 : forall s, (s < length (ln_prob l))%nat -> nth s (cumulate q0 (ln_prob l)) q0 = qsum (firstn (s + 1) (ln_prob l))).
  { intros s Hs. rewrite cumulate_nth by exact Hs. replace (s + 1)%nat with (S s) by lia. change q0 with 0%Qc. ring. }
  split; [|split; [exact V0|split]].
  - clear. generalize q0. induction (ln_prob l) as [|x r IH]; intros a; cbn; [reflexivity|]. f_equal. apply IH.
  - intros P s t Hst. rewrite !V0 by lia.
    replace (firstn (t + 1) (ln_prob l)) with (firstn (s + 1) (ln_prob l) ++ firstn (t - s) (skipn (s + 1) (ln_prob l))).
    + rewrite qsum_app. assert (Q : (q0 <= qsum (firstn (t - s) (skipn (s + 1) (ln_prob l))))%Qc).
      { assert (G : forall q, Forall (fun p => (q0 <= p)%Qc) q -> (q0 <= qsum q)%Qc).
        { clear. induction q as [|x q IH]; intros Q; [apply Qcle_refl|]. rewrite qsum_cons. specialize (IH (Forall_inv_tail Q)). pose proof (Forall_inv Q) as Q1. cbn beta in Q1. change q0 with 0%Qc in *. qlra. }
        apply G. apply Forall_forall. intros x Hx. apply (proj1 (Forall_forall _ _) P).
        rewrite <- (firstn_skipn (s + 1) (ln_prob l)). apply in_or_app. right. rewrite <- (firstn_skipn (t - s) (skipn (s + 1) (ln_prob l))). apply in_or_app. left. exact Hx. }
      change q0 with 0%Qc in *. qlra.
    + replace (t + 1)%nat with ((s + 1) + (t - s))%nat by lia. symmetry. apply firstn_plus.
  - intros L0. rewrite V0 by lia. rewrite firstn_all2 by lia. reflexivity.
Qed.

(* ------------------------------------------------------------------ *)
(** ** C56, C70: contracts and joint ownership *)
(** Any input with a contract is rejected. *)
Theorem C56_refuted c leei : c_units c <> [] -> known c -> c_fc c <> [] -> prepare c leei = Err ValueError.
Proof.
  intros NU K NF. rewrite dataf1_pind by exact NU. rewrite (pind_ok c K). cbn [bind]. unfold process. cbv zeta.
  unfold datax. cbn [renamed c_misc c_areas c_fc]. destruct (m_IW (c_misc c)) as [[w1 w2] w3].
  destruct (c_fc c); [congruence|]. reflexivity.
Qed.
(** Joint ownership read from a file is rejected. *)
Theorem C70_file_refuted c leei : c_units c <> [] -> c_areas c <> [] -> known c -> c_fc c = [] -> c_od c <> [] -> c_pct c = Column -> prepare c leei = Err IndexError.
Proof.
  intros NU NAR K NF NO P. rewrite dataf1_pind by exact NU. rewrite (pind_ok c K). cbn [bind]. unfold process. cbv zeta.
  unfold datax. cbn [renamed c_misc c_areas c_fc c_od c_pct]. destruct (m_IW (c_misc c)) as [[w1 w2] w3]. rewrite NF, P.
  destruct (c_od c); [congruence|]. destruct (c_areas c); [congruence|]. reflexivity.
Qed.
End DATA.

(** With a table of percentages (built by hand) the shares are the percentages, and the
    other units belong to the area of their location. *)
Lemma own_row n nu i r P : (r < nu)%nat -> forall js M, shape n nu M -> (forall j, In j js -> (j < n)%nat) ->
  let R := fold_left (fun M j => mupd M j r (Qcdiv (mget P i j) (qz 100))) js M in
  shape n nu R /\ forall a b, (a < n)%nat -> (b < nu)%nat -> mget R a b = if Nat.eqb b r && existsb (Nat.eqb a) js then Qcdiv (mget P i a) (qz 100) else mget M a b.
Proof.
  intros Hr. induction js as [|j js IH]; intros M SH H; cbn [fold_left existsb]; [split; [exact SH|intros; rewrite andb_false_r; reflexivity]|].
  assert (Hj : (j < n)%nat) by (apply H; left; reflexivity).
  destruct (IH (mupd M j r (Qcdiv (mget P i j) (qz 100)))) as (S2 & G); [apply mupd_shape; assumption|intros; apply H; right; assumption|].
  split; [exact S2|]. intros a b Ha Hb. cbv zeta in G. rewrite G by assumption. rewrite (mget_mupd n nu) by assumption.
  destruct (Nat.eqb_spec b r), (Nat.eqb_spec a j); subst; cbn [andb orb]; try reflexivity. destruct (existsb _ js); reflexivity.
Qed.
Lemma own_rows n nu P : forall irs M, shape n nu M -> (forall i r, In (i, r) irs -> (r < nu)%nat) -> NoDup (map snd irs) ->
  let R := fold_left (fun M ir => fold_left (fun M j => mupd M j (snd ir) (Qcdiv (mget P (fst ir) j) (qz 100))) (seq 0 n) M) irs M in
  shape n nu R /\ forall a b, (a < n)%nat -> (b < nu)%nat ->
    (forall i, In (i, b) irs -> mget R a b = Qcdiv (mget P i a) (qz 100)) /\ (~ In b (map snd irs) -> mget R a b = mget M a b).
Proof.
  induction irs as [|[i r] irs IH]; intros M SH H N; cbn [fold_left map snd fst] in *.
  - split; [exact SH|]. intros a b Ha Hb. split; [intros i []|reflexivity].
  - inversion N as [|x y N1 N2]; subst.
    destruct (own_row n nu i r P ltac:(apply (H i); left; reflexivity) (seq 0 n) M SH ltac:(intros j Hj; apply in_seq in Hj; lia)) as (S1 & G1). cbv zeta in S1, G1.
    destruct (IH _ S1 ltac:(intros i' r' H'; apply (H i'); right; exact H') N2) as (S2 & G2). cbv zeta in S2, G2.
    split; [exact S2|]. intros a b Ha Hb. destruct (G2 a b Ha Hb) as (A & B). split.
    + intros i' [E|E]; [|apply A; exact E]. injection E as -> ->. rewrite B by exact N1. rewrite G1 by assumption. rewrite Nat.eqb_refl.
      replace (existsb (Nat.eqb a) (seq 0 n)) with true; [reflexivity|]. symmetry. apply existsb_exists. exists a. split; [apply in_seq; lia|apply Nat.eqb_refl].
    + intros NB. cbn [In] in NB. rewrite B by tauto. rewrite G1 by assumption. destruct (Nat.eqb_spec b r) as [->|]; [tauto|reflexivity].
Qed.
Theorem C70_table_partial n nu P od (M : list (list Qc)) : (0 < n)%nat -> shape n nu M -> NoDup od -> (forall r, In r od -> (r < nu)%nat) ->
  exists R, ownership n od (Table P) M = Ok R /\ shape n nu R /\
    forall j u, (j < n)%nat -> (u < nu)%nat ->
      (forall i, nth_error od i = Some u -> mget R j u = Qcdiv (mget P i j) (qz 100)) /\ (~ In u od -> mget R j u = mget M j u).
Proof.
  intros N0 SH N H. unfold ownership. destruct od as [|x od]; [exists M; split; [reflexivity|]; split; [exact SH|]; intros j u Hj Hu; split; [intros [|i] E; discriminate E|reflexivity]|].
  set (l := x :: od) in *. set (irs := combine (seq 0 (length l)) l).
  assert (ES : map snd irs = l) by (unfold irs; assert (Z : forall (a : list nat) (b : list nat), length a = length b -> map snd (combine a b) = b) by (clear; induction a as [|p a IH]; intros [|q b] E; try discriminate E; cbn; [reflexivity|]; f_equal; apply IH; cbn in E; lia); apply Z; apply seq_length).
  destruct (own_rows n nu P irs M SH) as (S2 & G).
  { intros i r HI. apply H. unfold irs in HI. apply in_combine_r in HI. exact HI. }
  { rewrite ES. exact N. }
  eexists. split; [reflexivity|]. split; [exact S2|]. intros j u Hj Hu. cbv zeta in G. destruct (G j u Hj Hu) as (A & B). split.
  - intros i EI. apply A. unfold irs. clear -EI. revert i EI. generalize l as m. intros m. 
    assert (Z : forall m k i, nth_error m i = Some u -> In ((k + i)%nat, u) (combine (seq k (length m)) m)).
    { clear. induction m as [|y m IH]; intros k [|i] E; try discriminate E; cbn [length seq combine].
      - injection E as ->. left. f_equal. lia.
      - right. replace (k + S i)%nat with (S k + i)%nat by lia. apply IH. exact E. }
    intros i EI. apply (Z m 0%nat i EI).
  - intros NI. apply B. rewrite ES. exact NI.
Qed.

Section DATA2.
Variable rest : Type.
Variables (loss : Qc -> Qc) (presched : list punit -> mst rest -> res (list Qc * list Z * mst rest))
          (block : nat -> nat -> nat -> mst rest -> res (mst rest)) (r0 : rest).
Notation prepare := (dataf1 rest loss presched block r0).

(* ------------------------------------------------------------------ *)
(** ** C66, C67: planned outages *)
Lemma out_after n nu nl c fa fu k u w : valid_cards n nu nl c -> numbering (map a_name (c_areas c)) fa -> numbering (map u_name (c_units c)) fu ->
  nth_error (c_units c) k = Some u ->
  (In (Z.of_nat k) (out_in (after_scheduling (ID c fa fu)) w) <->
   (only_unit c u /\ (1 <= w < 1 + u_d1 u \/ 1 <= w < 1 + u_d2 u)) \/ (~ only_unit c u /\ planned u w)).
Proof.
  intros V NA NU EU. assert (HK : (k < nu)%nat) by (rewrite <- (proj1 (v_units _ _ _ _ V)); apply nth_error_Some; congruence).
  destruct (after_nth n nu nl c V fa fu NA NU k HK) as (u' & EU' & HU & C1 & C2). rewrite EU in EU'. injection EU' as <-.
  set (A := after_scheduling (ID c fa fu)) in *.
  assert (LA : length A = nu) by (apply (after_length n nu nl); exact V).
  assert (G : In (Z.of_nat k) (out_in A w) <-> covers w (Z.of_nat k, zget (nth k A []) 3, zget (nth k A []) 4) = true \/ covers w (Z.of_nat k, zget (nth k A []) 5, zget (nth k A []) 6) = true).
  { unfold out_in. rewrite in_map_iff. split.
    - intros (o & EO & H). apply filter_In in H. destruct H as (H & C). apply in_flat_map in H. destruct H as (r & HR & H).
      destruct (In_nth _ _ [] HR) as (j & Hj & EJ). rewrite LA in Hj. destruct (after_nth n nu nl c V fa fu NA NU j Hj) as (v & _ & HV & D1 & D2). fold A in D1, D2.
      assert (Z0 : zget r 0 = Z.of_nat j) by (rewrite <- EJ; destruct (only_dec n nu nl c V fa fu NA NU v HV) as [O|O]; [rewrite (D1 O)|rewrite (D2 O)]; reflexivity).
      destruct H as [H|[H|[]]]; subst o; cbn [fst] in EO; rewrite Z0 in EO; apply Nat2Z.inj in EO; subst j; rewrite EJ; rewrite Z0 in C; [left|right]; exact C.
    - assert (Z0 : zget (nth k A []) 0 = Z.of_nat k) by (destruct (only_dec n nu nl c V fa fu NA NU u HU) as [O|O]; [rewrite (C1 O)|rewrite (C2 O)]; reflexivity).
      assert (HA : In (nth k A []) A) by (apply nth_In; rewrite LA; exact HK).
      intros [C|C]; (eexists; split; [|apply filter_In; split; [apply in_flat_map; exists (nth k A []); split; [exact HA|]|exact C]]); [reflexivity| |reflexivity|].
      + unfold outages_of. rewrite Z0. left. reflexivity.
      + unfold outages_of. rewrite Z0. right. left. reflexivity. }
  rewrite G, !covers_one. pose proof (v_outages _ _ _ _ V u HU) as VO.
  destruct (only_dec n nu nl c V fa fu NA NU u HU) as [O|O].
  - rewrite (C1 O). cbn [zget nth]. split; [intros H; left; split; [exact O|lia]|]. intros [(_ & H)|(H & _)]; [lia|contradiction].
  - rewrite (C2 O). cbn [zget nth]. unfold planned, planned_first, planned_second.
    split; [intros H; right; split; [exact O|lia]|]. intros [(H & _)|(_ & H)]; [contradiction|lia].
Qed.
Lemma prepared_rows n nu nl c bs i SU : valid_cards n nu nl c -> Forall (full_block n) bs -> prepare c (load_file bs) = Ok (i, SU) ->
  exists fa fu, numbering (map a_name (c_areas c)) fa /\ numbering (map u_name (c_units c)) fu /\ i_JPLOUT i = rows nu c fa fu.
Proof.
  intros V F E. destruct (dataf1_form rest loss presched block r0 n nu nl c bs V F) as (fa & fu & d & H & S0 & NA & NU & EH & ED & E').
  rewrite E in E'. exists fa, fu. split; [exact NA|]. split; [exact NU|]. pose proof (f_equal (fun r => match r with Ok x => i_JPLOUT (fst x) | Err _ => [] end) E') as X. exact X.
Qed.
Lemma rows_nth nu c fa fu w : (w < 52)%nat -> nth w (rows nu c fa fu) [] = table_row nu (in_table (after_scheduling (ID c fa fu)) (Z.of_nat w)).
Proof. intros H. unfold rows. rewrite nth_map_seq by exact H. reflexivity. Qed.

(** A unit that shares its area with another unit is out in exactly the planned weeks
    (all but the last week of the year). *)
Theorem C66_kept_partial n nu nl c bs i SU k u w : valid_cards n nu nl c -> Forall (full_block n) bs -> prepare c (load_file bs) = Ok (i, SU) ->
  nth_error (c_units c) k = Some u -> ~ only_unit c u -> (w < 51)%nat ->
  (listed (nth w (i_JPLOUT i) []) k <-> planned u (Z.of_nat w)).
Proof.
  intros V F E EU O Hw. destruct (prepared_rows n nu nl c bs i SU V F E) as (fa & fu & NA & NU & ->). rewrite rows_nth by lia.
  rewrite in_table_early by lia. rewrite listed_row by (apply (table_fits n nu nl); assumption). rewrite (out_after n nu nl c fa fu k u _ V NA NU EU). tauto.
Qed.
(** A unit alone in its area is out from the second week on, whatever week was planned. *)
Theorem C66_moved_refuted n nu nl c bs i SU k u w : valid_cards n nu nl c -> Forall (full_block n) bs -> prepare c (load_file bs) = Ok (i, SU) ->
  nth_error (c_units c) k = Some u -> only_unit c u -> (w < 51)%nat ->
  (listed (nth w (i_JPLOUT i) []) k <-> 1 <= Z.of_nat w < 1 + Z.max (u_d1 u) (u_d2 u)).
Proof.
  intros V F E EU O Hw. destruct (prepared_rows n nu nl c bs i SU V F E) as (fa & fu & NA & NU & ->). rewrite rows_nth by lia.
  rewrite in_table_early by lia. rewrite listed_row by (apply (table_fits n nu nl); assumption). rewrite (out_after n nu nl c fa fu k u _ V NA NU EU).
  split; [intros [(_ & H)|(H & _)]; [lia|contradiction]|]. intros H. left. split; [exact O|lia].
Qed.
(** Nobody is out in the last week. *)
Theorem C66_last_week_refuted n nu nl c bs i SU k : valid_cards n nu nl c -> Forall (full_block n) bs -> prepare c (load_file bs) = Ok (i, SU) ->
  ~ listed (nth 51 (i_JPLOUT i) []) k.
Proof.
  intros V F E L. destruct (prepared_rows n nu nl c bs i SU V F E) as (fa & fu & NA & NU & X). rewrite X in L. rewrite rows_nth in L by lia.
  rewrite in_table_last in L by lia. apply listed_row in L; [destruct L|cbn; lia].
Qed.
(** A unit with outages to be scheduled (no week given) is never out: it keeps its
    status of a unit without maintenance, unless it is alone in its area. *)
Theorem C67_refuted n nu nl c bs i SU k u w : valid_cards n nu nl c -> Forall (full_block n) bs -> prepare c (load_file bs) = Ok (i, SU) ->
  nth_error (c_units c) k = Some u -> ~ only_unit c u -> u_b1 u = 0 -> u_b2 u = 0 -> (w < 52)%nat ->
  ~ listed (nth w (i_JPLOUT i) []) k.
Proof.
  intros V F E EU O B1 B2 Hw. destruct (Nat.eq_dec w 51) as [->|NE]; [apply (C66_last_week_refuted n nu nl c bs i SU k V F E)|].
  rewrite (C66_kept_partial n nu nl c bs i SU k u w V F E EU O) by lia. unfold planned, planned_first, planned_second. lia.
Qed.

(* ------------------------------------------------------------------ *)
(** ** C68, C12: options of the cards that have no effect *)
Definition with_seed (s : Z) (c : cards string) : cards string :=
  let m := c_misc c in
  mkCards (mkMisc s (m_NLS m) (m_IW m) (m_KWHERE m) (m_KVWHEN m) (m_KVSTAT m) (m_KVTYPE m) (m_KVL m) (m_CVTEST m) (m_FINISH m) (m_JSTEP m) (m_JFREQ m) (m_MAXEUE m) (m_IOJ m) (m_INTV m))
    (c_areas c) (c_units c) (c_lines c) (c_fc c) (c_od c) (c_pct c).
Definition with_seasons (iw : Z * Z * Z) (c : cards string) : cards string :=
  let m := c_misc c in
  mkCards (mkMisc (m_SEED m) (m_NLS m) iw (m_KWHERE m) (m_KVWHEN m) (m_KVSTAT m) (m_KVTYPE m) (m_KVL m) (m_CVTEST m) (m_FINISH m) (m_JSTEP m) (m_JFREQ m) (m_MAXEUE m) (m_IOJ m) (m_INTV m))
    (c_areas c) (c_units c) (c_lines c) (c_fc c) (c_od c) (c_pct c).
(** Two inputs that differ in the seed are prepared alike, hence simulated alike. *)
Theorem C68_refuted c leei s : prepare (with_seed s c) leei = prepare c leei.
Proof.
  unfold dataf1. cbn [with_seed c_units]. destruct (c_units c) eqn:EU; [reflexivity|]. unfold pind. cbn [with_seed c_areas c_units c_lines c_fc c_od c_pct c_misc].
  rewrite EU.
  repeat match goal with |- (do x <- ?a; _) = _ => destruct a as [?|?]; cbn [bind]; [|reflexivity] | |- bind (bind ?a _) _ = _ => destruct a as [?|?]; cbn [bind]; [|reflexivity] end.
  reflexivity.
Qed.
(** Two inputs that differ in the ends of the seasons give the same simulation: only
    the capacity at peak in the final summary differs. *)
Theorem C12_user_seasons_refuted c leei iw i SU : prepare c leei = Ok (i, SU) -> exists SU', prepare (with_seasons iw c) leei = Ok (i, SU').
Proof.
  unfold dataf1. cbn [with_seasons c_units]. destruct (c_units c) eqn:EU; [discriminate|]. unfold pind. cbn [with_seasons c_areas c_units c_lines c_fc c_od c_pct c_misc].
  rewrite EU.
  do 5 (match goal with |- context [bind (rmap ?f ?l) _] => destruct (rmap f l) as [?|?]; cbn [bind]; [|discriminate] end).
  unfold process, datax. cbn [c_misc c_areas c_units c_lines c_fc c_od c_pct m_IW m_SEED m_NLS m_KWHERE m_KVWHEN m_KVSTAT m_KVTYPE m_KVL m_CVTEST m_FINISH m_JSTEP m_JFREQ m_MAXEUE m_IOJ m_INTV].
  destruct (m_IW (c_misc c)) as [[w1 w2] w3], iw as [[v1 v2] v3]. cbv zeta.
  destruct (interchange _ _) as [ji|]; cbn [bind]; [|discriminate].
  destruct (ownership _ _ _ _) as [own|]; cbn [bind dx_QTR dx_NORR dx_NFCST dx_BN dx_FCTERR dx_CAPCON dx_CAPOWN dx_PROBG dx_DERATE dx_JENT dx_INTCH dx_LP dx_LINENO dx_PROBL dx_BLPA dx_ID]; [|discriminate].
  destruct (xldnew _ _) as [H|]; cbn [bind]; [|discriminate].
  destruct (xporta _ _ _) as [H1|]; cbn [bind]; [|discriminate].
  destruct (dpeak 24 H1) as [[MAXHR DYLOAD] MAXDAY].
  destruct (xports _ _ _) as [H2|]; cbn [bind]; [|discriminate].
  destruct (smaint _ _ _ _ _ _ _ _) as [jt|]; cbn [bind]; [|discriminate].
  intros E. eexists. assert (X : forall xa xb : input * list (list Qc), Ok xa = Ok xb -> fst xa = fst xb) by (intros xa xb Q; injection Q; congruence).
  apply X in E. cbn [fst] in E. rewrite <- E. reflexivity.
Qed.

(* ------------------------------------------------------------------ *)
(** ** C69: the loads of an area *)
(** The loads of area j (from 0) are those of the last block whose header has the digit
    j+1 in its seventh place, brought to the area's annual peak; 0 without such a
    block. *)
Theorem C69_digit_partial n nu nl c bs i SU j a : valid_cards n nu nl c -> Forall (full_block n) bs -> prepare c (load_file bs) = Ok (i, SU) ->
  nth_error (c_areas c) j = Some a ->
  (forall b m t, last_block bs (S j) b -> top (hours_of b) m -> (t < 365 * 24)%nat ->
     mget (x_HRLOAD (i_h i)) j t = Qcmult (Qcdiv (nth t (hours_of b) q0) m) (a_peak a)) /\
  ((forall b, In b bs -> ~ header_digit b (S j)) -> forall t, mget (x_HRLOAD (i_h i)) j t = q0).
Proof.
  intros V F E EA. destruct (dataf1_form rest loss presched block r0 n nu nl c bs V F) as (fa & fu & d & H & S0 & NA & NU & EH & ED & E').
  rewrite E in E'. assert (X : x_HRLOAD (i_h i) = H) by (pose proof (f_equal (fun r => match r with Ok x => x_HRLOAD (i_h (fst x)) | Err _ => [] end) E') as X; exact X). rewrite X.
  destruct (xldnew_spec n bs (map a_peak (c_areas c))) as (H' & EH' & _ & G); [rewrite map_length; apply V|exact F|].
  rewrite EH in EH'. injection EH' as <-. assert (HJ : (j < n)%nat) by (rewrite <- (proj1 (v_areas _ _ _ _ V)); apply nth_error_Some; congruence).
  destruct (G j HJ) as (G1 & G2). split; [|exact G2]. intros b m t LB T Ht. rewrite (G1 b m t LB T Ht).
  rewrite (nth_error_nth _ _ q0 (map_nth_error a_peak j _ EA)). reflexivity.
Qed.
(** The hours keep their proportions and the largest is the annual peak. *)
Theorem C69_peak_partial n nu nl c bs i SU j a b : valid_cards n nu nl c -> Forall (full_block n) bs -> prepare c (load_file bs) = Ok (i, SU) ->
  nth_error (c_areas c) j = Some a -> (q0 <= a_peak a)%Qc -> last_block bs (S j) b -> (exists v, In v (hours_of b) /\ (qq 1 1000 <= v)%Qc) ->
  (exists t, (t < 365 * 24)%nat /\ mget (x_HRLOAD (i_h i)) j t = a_peak a) /\
  (forall t, (t < 365 * 24)%nat -> (mget (x_HRLOAD (i_h i)) j t <= a_peak a)%Qc) /\
  (forall s t, (s < 365 * 24)%nat -> (t < 365 * 24)%nat ->
     Qcmult (mget (x_HRLOAD (i_h i)) j s) (nth t (hours_of b) q0) = Qcmult (mget (x_HRLOAD (i_h i)) j t) (nth s (hours_of b) q0)).
Proof.
  intros V F E EA P LB EX. destruct (C69_digit_partial n nu nl c bs i SU j a V F E EA) as (G & _).
  pose proof LB as (p & q & EB & HD & NQ).
  assert (FB : full_block n b) by (apply (proj1 (Forall_forall _ _) F); rewrite EB; apply in_or_app; right; left; reflexivity).
  assert (L : length (hours_of b) = (365 * 24)%nat) by (apply (hours_length n); exact FB).
  assert (EQ : forall t, (t < 365 * 24)%nat -> mget (x_HRLOAD (i_h i)) j t = nth t (rescale (hours_of b) (a_peak a)) q0).
  { intros t Ht. rewrite (G b _ t LB (amax_top _) Ht). unfold rescale.
    rewrite (nth_indep (map _ _) q0 (Qcmult (Qcdiv q0 (amax_init (hours_of b))) (a_peak a))) by (rewrite map_length, L; exact Ht).
    rewrite (map_nth (fun v => Qcmult (Qcdiv v (amax_init (hours_of b))) (a_peak a))). reflexivity. }
  destruct (rescale_spec (hours_of b) (a_peak a) EX P) as (_ & (t0 & T0 & E0) & LE & PR). rewrite L in *.
  split; [exists t0; split; [exact T0|rewrite EQ by exact T0; exact E0]|]. split; [intros t Ht; rewrite EQ by exact Ht; apply LE; exact Ht|].
  intros s t Hs Ht. rewrite !EQ by assumption. apply PR; assumption.
Qed.
End DATA2.

(* ------------------------------------------------------------------ *)
(** ** Witnesses *)
Lemma flt_le {A} (f : A -> bool) l : (length (filter f l) <= length l)%nat.
Proof. induction l as [|x l IH]; cbn; [lia|]. destruct (f x); cbn; lia. Qed.
Lemma tiny_valid : valid_cards 2 3 1 tiny.
Proof.
  constructor.
  - split; [reflexivity|]. split; [lia|]. repeat constructor; cbn; intuition discriminate.
  - split; [reflexivity|]. split; [lia|]. repeat constructor; cbn; intuition discriminate.
  - reflexivity.
  - split; [|split; [|split]]; cbn; intros ? H; intuition (subst; cbn; auto).
  - reflexivity.
  - reflexivity.
  - intros u H. cbn in H. destruct H as [<-|[<-|[<-|[]]]]; cbn; split; try reflexivity; repeat constructor; apply qleb_iff; vm_compute; reflexivity.
  - intros u H. cbn in H. destruct H as [<-|[<-|[<-|[]]]]; cbn; lia.
  - intros u H. unfold outages_apart. cbn in H. destruct H as [<-|[<-|[<-|[]]]]; cbn; lia.
  - intros u H _. cbn in H. destruct H as [<-|[<-|[<-|[]]]]; cbn; lia.
  - intros s. eapply Nat.le_trans; [apply flt_le|]. cbn. lia.
  - cbn. unfold step_ok. lia.
Qed.
(** "U2" is the only unit of "A2"; planned for week 20 like "U1". *)
Lemma tiny_only : only_unit tiny (tiny_unit "U2" "A2" 1 20 3 0 0)%string /\ ~ only_unit tiny (tiny_unit "U1" "A1" 1 20 3 0 0)%string /\ ~ only_unit tiny (tiny_unit "U3" "A1" 0 0 2 0 0)%string.
Proof.
  split; [|split].
  - intros v H. cbn in H. destruct H as [<-|[<-|[<-|[]]]]; cbn; intros E; try discriminate E; reflexivity.
  - intros H. specialize (H (tiny_unit "U3" "A1" 0 0 2 0 0)%string ltac:(cbn; auto) eq_refl). discriminate H.
  - intros H. specialize (H (tiny_unit "U1" "A1" 1 20 3 0 0)%string ltac:(cbn; auto) eq_refl). discriminate H.
Qed.
Definition flat_block (h : string) : load_block := mkBlock h (repeat (repeat q1 12) 730).
Definition peak_block (h : string) : load_block := mkBlock h ((qz 2 :: repeat q1 11) :: repeat (repeat q1 12) 729).
Definition tiny_loads : list load_block := [peak_block "AREA:A1"; flat_block "AREA:A2"]%string.
Lemma tiny_blocks : Forall (full_block 2) tiny_loads.
Proof.
  assert (R : forall k, Forall (fun v : list Qc => (12 <= length v)%nat) (repeat (repeat q1 12) k)).
  { intros k. apply Forall_forall. intros v H. apply repeat_spec in H. subst v. cbn. lia. }
  constructor; [|constructor; [|constructor]].
  - split; [exists 1%nat; split; [lia|]; split; [lia|reflexivity]|]. split; [cbn [b_lines peak_block length]; rewrite repeat_length; reflexivity|].
    unfold peak_block. cbn [b_lines]. constructor; [cbn; lia|]. apply R.
  - split; [exists 2%nat; split; [lia|]; split; [lia|reflexivity]|]. split; [unfold flat_block; cbn [b_lines]; rewrite repeat_length; reflexivity|]. apply R.
Qed.
(** The cards of [tiny] with the names of the two areas exchanged. *)
Definition swap (s : string) : string := (if String.eqb s "A1" then "A2" else if String.eqb s "A2" then "A1" else s)%string.
Definition swapped : cards string :=
  mkCards (c_misc tiny) (map (fun a => mkArea (swap (a_name a)) (a_peak a) (a_lfu a) (a_flows a)) (c_areas tiny))
    (map (fun u => mkUnit (u_name u) (swap (u_loc u)) (u_cap u) (u_dfor u) (u_for u) (u_der u) (u_pa u) (u_b1 u) (u_d1 u) (u_b2 u) (u_d2 u)) (c_units tiny))
    (map (fun l => mkLineC (ln_id l) (swap (ln_from l)) (swap (ln_to l)) (ln_adm l) (ln_cap l) (ln_capr l) (ln_prob l)) (c_lines tiny)) [] [] Column.
Lemma swapped_valid : valid_cards 2 3 1 swapped.
Proof.
  constructor.
  - split; [reflexivity|]. split; [lia|]. repeat constructor; cbn; intuition discriminate.
  - split; [reflexivity|]. split; [lia|]. repeat constructor; cbn; intuition discriminate.
  - reflexivity.
  - split; [|split; [|split]]; cbn; intros ? H; intuition (subst; cbn; auto).
  - reflexivity.
  - reflexivity.
  - intros u H. cbn in H. destruct H as [<-|[<-|[<-|[]]]]; cbn; split; try reflexivity; repeat constructor; apply qleb_iff; vm_compute; reflexivity.
  - intros u H. cbn in H. destruct H as [<-|[<-|[<-|[]]]]; cbn; lia.
  - intros u H. unfold outages_apart. cbn in H. destruct H as [<-|[<-|[<-|[]]]]; cbn; lia.
  - intros u H _. cbn in H. destruct H as [<-|[<-|[<-|[]]]]; cbn; lia.
  - intros s. eapply Nat.le_trans; [apply flt_le|]. cbn. lia.
  - cbn. unfold step_ok. lia.
Qed.
Lemma peak_top h : top (hours_of (peak_block h)) (qz 2).
Proof.
  assert (A : hours_of (peak_block h) = (qz 2 :: repeat q1 11) ++ flat_map (fun v => skipn (length v - 12) v) (repeat (repeat q1 12) 729)) by reflexivity.
  split.
  - intros x [<-|H]; [apply qleb_iff; vm_compute; reflexivity|]. rewrite A in H. apply in_app_or in H. destruct H as [[<-|H]|H].
    + apply Qcle_refl.
    + apply repeat_spec in H. subst x. apply qleb_iff; vm_compute; reflexivity.
    + apply in_flat_map in H. destruct H as (v & HV & H). apply repeat_spec in HV. subst v. cbn [length repeat skipn Nat.sub] in H.
      assert (x = q1) by (cbn in H; intuition congruence). subst x. apply qleb_iff; vm_compute; reflexivity.
  - rewrite A. right. left. reflexivity.
Qed.
(** The area called "A2", listed first, gets the loads of the block "AREA:A1": its own
    block is flat, its loads are not. *)
Theorem C69_names_refuted rest loss presched block r0 : exists i SU, dataf1 rest loss presched block r0 swapped (load_file tiny_loads) = Ok (i, SU) /\
  a_name (nth 0 (c_areas swapped) (mkArea EmptyString q0 q0 q0)) = "A2"%string /\
  In (flat_block "AREA:A2") tiny_loads /\ mget (x_HRLOAD (i_h i)) 0 0 <> mget (x_HRLOAD (i_h i)) 0 1.
Proof.
  destruct (C71_accepted rest loss presched block r0 2 3 1 swapped tiny_loads swapped_valid tiny_blocks) as (i & SU & E & _).
  exists i, SU. split; [exact E|]. split; [reflexivity|]. split; [right; left; reflexivity|].
  destruct (C69_digit_partial rest loss presched block r0 2 3 1 swapped tiny_loads i SU 0 _ swapped_valid tiny_blocks E eq_refl) as (G & _).
  assert (LB : last_block tiny_loads 1 (peak_block "AREA:A1")).
  { exists [], [flat_block "AREA:A2"]. split; [reflexivity|]. split; [split; [lia|reflexivity]|]. intros b' [<-|[]] (_ & C). discriminate C. }
  rewrite (G _ _ 0%nat LB (peak_top _)) by lia. rewrite (G _ _ 1%nat LB (peak_top _)) by lia.
  change (nth 0 (hours_of (peak_block "AREA:A1")) q0) with (qz 2). change (nth 1 (hours_of (peak_block "AREA:A1")) q0) with q1. cbn [a_peak].
  intros C. apply (f_equal this) in C. vm_compute in C. discriminate C.
Qed.
(** Ten areas: the header of the tenth area's block is read as the first area's. *)
Example C69_tenth_witness : area_digit "AREA:A10"%string = Ok 0 /\ area_digit "AREA:A1"%string = Ok 0 /\ area_digit "AREA:NY"%string = Err ValueError.
Proof. repeat split; reflexivity. Qed.
(** In [tiny], "U2", planned for week 20, is out in the second week instead; "U1" is out
    as planned; "U3", to be scheduled, never is. *)
Example C66_C67_witness rest loss presched block r0 : exists i SU, dataf1 rest loss presched block r0 tiny (load_file tiny_loads) = Ok (i, SU) /\
  listed (nth 1 (i_JPLOUT i) []) 1 /\ ~ listed (nth 19 (i_JPLOUT i) []) 1 /\ listed (nth 19 (i_JPLOUT i) []) 0 /\
  ~ listed (nth 1 (i_JPLOUT i) []) 0 /\ forall w, (w < 52)%nat -> ~ listed (nth w (i_JPLOUT i) []) 2.
Proof.
  destruct (C71_accepted rest loss presched block r0 2 3 1 tiny tiny_loads tiny_valid tiny_blocks) as (i & SU & E & _).
  exists i, SU. split; [exact E|]. destruct tiny_only as (O2 & O1 & O3).
  pose proof (fun w => C66_moved_refuted rest loss presched block r0 2 3 1 tiny tiny_loads i SU 1 _ w tiny_valid tiny_blocks E eq_refl O2) as M.
  pose proof (fun w => C66_kept_partial rest loss presched block r0 2 3 1 tiny tiny_loads i SU 0 _ w tiny_valid tiny_blocks E eq_refl O1) as K.
  split; [apply M; cbn; lia|]. split; [rewrite M; cbn; lia|]. split; [apply K; [lia|]; left; unfold planned_first; cbn; lia|].
  split; [rewrite K by lia; unfold planned, planned_first, planned_second; cbn; lia|].
  intros w Hw. apply (C67_refuted rest loss presched block r0 2 3 1 tiny tiny_loads i SU 2 _ w tiny_valid tiny_blocks E eq_refl O3 eq_refl eq_refl Hw).
Qed.
Example C56_witness rest loss presched block r0 :
  let c := mkCards tiny_misc (c_areas tiny) (c_units tiny) (c_lines tiny) [mkFc "A1" "A2" 1 365 (qz 50)]%string [] Column in
  c_units c <> [] /\ known c /\ c_fc c <> [] /\ dataf1 rest loss presched block r0 c (load_file tiny_loads) = Err ValueError.
Proof.
  intros c. assert (K : known c) by (split; [|split; [|split]]; cbn; intros ? H; intuition (subst; cbn; auto)).
  split; [discriminate|]. split; [exact K|]. split; [discriminate|]. apply C56_refuted; [discriminate|exact K|discriminate].
Qed.
Example C70_witness rest loss presched block r0 :
  let c := mkCards tiny_misc (c_areas tiny) (c_units tiny) (c_lines tiny) [] ["U1"]%string Column in
  known c /\ dataf1 rest loss presched block r0 c (load_file tiny_loads) = Err IndexError.
Proof.
  intros c. assert (K : known c) by (split; [|split; [|split]]; cbn; intros ? H; intuition (subst; cbn; auto)).
  split; [exact K|]. apply C70_file_refuted; try discriminate; try reflexivity. exact K.
Qed.
Example C70_table_witness : exists R, ownership 2 [1%nat] (Table [[qz 30; qz 70]]) (mzeros 2 3) = Ok R /\ mget R 0 1 = qq 30 100 /\ mget R 1 1 = qq 70 100.
Proof. eexists. split; [reflexivity|]. split; apply Qc_is_canon; vm_compute; reflexivity. Qed.

(* ------------------------------------------------------------------ *)
(** ** C72: line data *)
(** Line k in state s (0..5) has the admittance and the two limits of the cards, with -0.5
    and 1 MW for entries of zero. *)
Theorem C72_line_states rest loss presched block r0 n nu nl c bs i SU k l s : valid_cards n nu nl c -> Forall (full_block n) bs ->
  dataf1 rest loss presched block r0 c (load_file bs) = Ok (i, SU) -> nth_error (c_lines c) k = Some l -> (s < 6)%nat ->
  let entry d x := if qeqb x q0 then d else x in
  mget (x_BLPA (i_h i)) k (3 * s) = entry (qq (-1) 2) (nth s (ln_adm l) q0) /\
  mget (x_BLPA (i_h i)) k (3 * s + 1) = entry q1 (nth s (ln_cap l) q0) /\
  mget (x_BLPA (i_h i)) k (3 * s + 2) = entry q1 (nth s (ln_capr l) q0).
Proof.
  intros V F E EK Hs. destruct (dataf1_form rest loss presched block r0 n nu nl c bs V F) as (fa & fu & d & H & S0 & NA & NU & EH & ED & E').
  rewrite E in E'. assert (X : x_BLPA (i_h i) = dx_BLPA d) by (pose proof (f_equal (fun r => match r with Ok x => x_BLPA (i_h (fst x)) | Err _ => [] end) E') as X; exact X). rewrite X.
  destruct (datax_form n nu nl c V fa fu NU) as (d' & ED' & _ & _ & _ & _ & _ & _ & _ & EB & _). rewrite ED in ED'. injection ED' as <-.
  rewrite EB. cbn [renamed c_lines]. rewrite map_map. unfold mget.
  rewrite (nth_error_nth (map _ _) k [] (map_nth_error _ k _ EK)). unfold blpa_row. cbn [ln_adm ln_cap ln_capr].
  destruct s as [|[|[|[|[|[|s]]]]]]; [| | | | | |lia]; repeat split; reflexivity.
Qed.
(** A line out of service (capacity 0 entered) still carries 1 MW. *)
Example C72_witness rest loss presched block r0 : exists i SU, dataf1 rest loss presched block r0 tiny (load_file tiny_loads) = Ok (i, SU) /\
  mget (x_BLPA (i_h i)) 0 0 = qz (-10) /\ mget (x_BLPA (i_h i)) 0 1 = qz 50 /\ mget (x_BLPA (i_h i)) 0 4 = q1.
Proof.
  destruct (C71_accepted rest loss presched block r0 2 3 1 tiny tiny_loads tiny_valid tiny_blocks) as (i & SU & E & _).
  exists i, SU. split; [exact E|].
  pose proof (fun s => C72_line_states rest loss presched block r0 2 3 1 tiny tiny_loads i SU 0 _ s tiny_valid tiny_blocks E eq_refl) as G. cbv zeta in G.
  destruct (G 0%nat ltac:(lia)) as (A & B & _). destruct (G 1%nat ltac:(lia)) as (_ & C & _).
  split; [exact A|]. split; [exact B|]. exact C.
Qed.
Example C71_witness : valid_cards 2 3 1 tiny /\ Forall (full_block 2) tiny_loads.
Proof. split; [exact tiny_valid|exact tiny_blocks]. Qed.
Example C55_witness rest loss presched block r0 : exists i SU, dataf1 rest loss presched block r0 tiny (load_file tiny_loads) = Ok (i, SU) /\
  nth 0 (x_PROBG (i_h i)) [] = [qq 17 20; qq 9 10] /\ nth 1 (nth 0 (x_PROBL (i_h i)) []) q0 = q1.
Proof.
  destruct (C71_accepted rest loss presched block r0 2 3 1 tiny tiny_loads tiny_valid tiny_blocks) as (i & SU & E & _).
  exists i, SU. split; [exact E|].
  destruct (C55_unit_thresholds rest loss presched block r0 2 3 1 tiny tiny_loads i SU 0 _ tiny_valid tiny_blocks E eq_refl) as (p0 & p1 & EP & _ & A & B);
    try (apply qleb_iff; vm_compute; reflexivity).
  destruct (C55_line_sums rest loss presched block r0 2 3 1 tiny tiny_loads i SU 0 _ tiny_valid tiny_blocks E eq_refl) as (_ & L & _).
  split.
  - rewrite EP. cbn [u_for u_dfor] in A, B. assert (X1 : p1 = (q1 - qq 1 10)%Qc) by (unfold tiny_unit in A; cbn [u_for] in A; rewrite <- A; ring).
    assert (X0 : p0 = (p1 - qq 1 20)%Qc) by (unfold tiny_unit in B; cbn [u_dfor] in B; rewrite <- B; ring).
    assert (Y1 : p1 = qq 9 10) by (rewrite X1; apply Qc_is_canon; vm_compute; reflexivity).
    assert (Y0 : p0 = qq 17 20) by (rewrite X0, Y1; apply Qc_is_canon; vm_compute; reflexivity).
    rewrite Y0, Y1. reflexivity.
  - rewrite L by (cbn; lia). apply Qc_is_canon. vm_compute. reflexivity.
Qed.

(* ------------------------------------------------------------------ *)
(** ** C82: the installed capacities of the summary, and the table of lines *)
(** Day [d] (from 0) is the first day with the area's highest hourly load. *)
Definition annual_peak_day (H : list (list Qc)) (a d : nat) : Prop :=
  (d < 365)%nat /\
  exists t, (d * 24 <= t < (d + 1) * 24)%nat /\ (forall h, (h < 365 * 24)%nat -> (mget H a h <= mget H a t)%Qc) /\
            (forall h, (h < d * 24)%nat -> (mget H a h < mget H a t)%Qc).
Lemma summary_row rest loss presched block r0 n nu nl c bs i SU w1 w2 w3 : valid_cards n nu nl c -> Forall (full_block n) bs ->
  dataf1 rest loss presched block r0 c (load_file bs) = Ok (i, SU) -> m_IW (c_misc c) = (w1, w2, w3) ->
  length SU = S n /\ nth n SU [] = repeat q0 6 /\
  exists fa, numbering (map a_name (c_areas c)) fa /\
  forall k a, nth_error (c_areas c) k = Some a ->
  exists d s C, annual_peak_day (x_HRLOAD (i_h i)) k d /\ nth k SU [] = [a_peak a; C; q0; q0; q0; q0] /\
    C = qsum (map (fun u => if Nat.eqb (fa (u_loc u)) k then nth s (u_cap u) q0 else q0) (c_units c)) /\
    s = if Z.of_nat d <=? 7 * w1 then 0%nat else if Z.of_nat d <=? 7 * w2 then 1%nat else if Z.of_nat d <=? 7 * w3 then 2%nat else 0%nat.
Proof.
  intros V F E EW. destruct (dataf1_full rest loss presched block r0 n nu nl c bs V F) as (fa & fu & d & H & NA & NU & EH & ED & E').
  rewrite E in E'.
  assert (XS : SU = sustat (map a_peak (c_areas c)) (snd (dpeak 24 H)) d (map u_cap (c_units c))) by exact (f_equal (fun r => match r with Ok x => snd x | Err _ => [] end) E').
  assert (XH : x_HRLOAD (i_h i) = H) by exact (f_equal (fun r => match r with Ok x => x_HRLOAD (i_h (fst x)) | Err _ => [] end) E').
  rewrite XH, XS. clear E E' XH XS.
  destruct (datax_form n nu nl c V fa fu NU) as (d' & ED' & EJ & EI & _ & EO & _). rewrite ED in ED'. injection ED' as <-.
  destruct (datax_more n nu nl c V fa fu d w1 w2 w3 ED EW) as (EQ & _).
  destruct (xldnew_spec n bs (map a_peak (c_areas c))) as (H' & EH' & SH & _); [rewrite map_length; apply V|exact F|]. rewrite EH in EH'. injection EH' as <-.
  destruct (v_areas _ _ _ _ V) as (LA & N0 & _).
  unfold sustat.
  split; [rewrite app_length, mapi_length, map_length, LA; cbn [length]; lia|].
  split; [rewrite app_nth2 by (rewrite mapi_length, map_length; lia); rewrite mapi_length, map_length, LA, Nat.sub_diag; reflexivity|].
  exists fa. split; [exact NA|]. intros k a EK.
  assert (HK : (k < n)%nat) by (rewrite <- LA; apply nth_error_Some; congruence).
  destruct (dpeak 24 H) as [[MAXHR DYLOAD] MAXDAY] eqn:EDP. cbn [snd].
  destruct (dpeak_spec 24 n 365 H MAXHR DYLOAD MAXDAY ltac:(lia) ltac:(lia) SH EDP) as ((LD & RD) & _ & _ & G).
  destruct (G k HK) as (DAY & (FM1 & FM2 & FM3)). rewrite RD in FM1, FM2 by exact HK.
  set (pd := nth k MAXDAY 0%nat) in *.
  exists pd, (peak_season (dx_QTR d) (Z.of_nat pd)). eexists. split; [|split; [|split]].
  - split; [exact FM1|]. cbv zeta in DAY. destruct (DAY pd FM1) as (T1 & T2 & T3 & _).
    exists (nth pd (nth k MAXHR []) 0%nat). split; [exact T1|].
    assert (DV : forall h, (h < 365 * 24)%nat -> exists e, (e < 365)%nat /\ (e * 24 <= h < (e + 1) * 24)%nat).
    { intros h Hh. exists (h / 24)%nat. pose proof (Nat.div_mod h 24 ltac:(lia)) as DM. pose proof (Nat.mod_upper_bound h 24 ltac:(lia)) as MU. lia. }
    change (forall e, (e < 365)%nat -> (mget DYLOAD k e <= mget DYLOAD k pd)%Qc) in FM2.
    change (forall e, (e < pd)%nat -> (mget DYLOAD k e < mget DYLOAD k pd)%Qc) in FM3.
    split; intros h Hh.
    + destruct (DV h Hh) as (e & He & RE). destruct (DAY e He) as (_ & U2 & U3 & _). specialize (FM2 e He). rewrite U2, T2 in FM2.
      eapply Qcle_trans; [apply U3; exact RE|exact FM2].
    + destruct (DV h ltac:(lia)) as (e & He & RE). destruct (DAY e He) as (_ & U2 & U3 & _). specialize (FM3 e ltac:(lia)). rewrite U2, T2 in FM3.
      eapply Qcle_lt_trans; [apply U3; exact RE|exact FM3].
  - rewrite app_nth1 by (rewrite mapi_length, map_length; lia).
    rewrite (nth_mapi _ _ _ q0) by (rewrite map_length; lia). rewrite (nth_error_nth _ _ q0 (map_nth_error a_peak k _ EK)). reflexivity.
  - destruct (own0_spec n nu nl c V fa fu NA NU) as (SO & GO).
    assert (SJ : shape n n (dx_JENT d)).
    { rewrite EJ. split; [apply repeat_length|]. intros j Hj. rewrite nth_repeat_lt by exact Hj. apply repeat_length. }
    destruct (resca_value n nu MAXDAY (dx_QTR d) (dx_CAPOWN d) (map u_cap (c_units c)) (dx_JENT d) (dx_INTCH d) k SJ ltac:(rewrite EO; exact SO) HK) as (-> & _).
    fold pd.
    assert (Z0 : net_export n (dx_JENT d) (dx_INTCH d) k pd = q0).
    { assert (AM : forall x y, (x < n)%nat -> (y < n)%nat -> amount (dx_JENT d) (dx_INTCH d) x y pd = q0).
      { intros x y Hx Hy. unfold amount. rewrite EJ. unfold zmget. rewrite nth_repeat_lt by exact Hx. rewrite nth_repeat_lt by exact Hy. reflexivity. }
      unfold net_export. rewrite !qs_zero by (intros; apply AM; assumption). reflexivity. }
    rewrite Z0, EO. replace (qs nu _) with (qsum (map (fun u => if Nat.eqb (fa (u_loc u)) k then nth (peak_season (dx_QTR d) (Z.of_nat pd)) (u_cap u) q0 else q0) (c_units c))).
    { change q0 with 0%Qc. ring. }
    rewrite (qsum_map_qs _ _ (mkUnit EmptyString EmptyString [] q0 q0 q0 0 0 0 0 0)), (proj1 (v_units _ _ _ _ V)). apply qs_ext. intros j Hj.
    destruct (nth_error (c_units c) j) as [u|] eqn:EU; [|apply nth_error_None in EU; pose proof (proj1 (v_units _ _ _ _ V)); lia].
    rewrite (nth_error_nth _ _ _ EU). rewrite (GO k j u HK EU). unfold mget. rewrite (nth_error_nth _ _ _ (map_nth_error u_cap j _ EU)).
    destruct (Nat.eqb _ _); change q0 with 0%Qc; change q1 with 1%Qc; ring.
  - unfold peak_season. rewrite EQ. cbn [map length seq find nth].
    assert (TH : forall w, qltb (qz (Z.of_nat pd * 24)) (Qcplus (qz (w * 168)) (qq 1 2)) = (Z.of_nat pd <=? 7 * w)).
    { intros w. destruct (Z.leb_spec (Z.of_nat pd) (7 * w)) as [L|L].
      - apply qltb_iff. assert (A : (qz (Z.of_nat pd * 24) <= qz (w * 168))%Qc) by (apply qz_le; lia).
        assert (B : (q0 < qq 1 2)%Qc) by (apply qltb_iff; vm_compute; reflexivity). change q0 with 0%Qc in B. qlra.
      - apply qltb_false. assert (A : (qz (w * 168 + 1) <= qz (Z.of_nat pd * 24))%Qc) by (apply qz_le; lia). rewrite qz_plus in A.
        assert (B : (qq 1 2 <= qz 1)%Qc) by (apply qleb_iff; vm_compute; reflexivity). qlra. }
    rewrite !TH. destruct (_ <=? _); [reflexivity|]. destruct (_ <=? _); [reflexivity|]. destruct (_ <=? _); reflexivity.
Qed.

(** Before the third change of season the summary's capacity is that of the units placed
    in the area, at the ratings of the season of the area's peak day (season 0 up to
    day 7*w1, and so on, days from 0). *)
Theorem C82_capacity_partial rest loss presched block r0 n nu nl c bs i SU w1 w2 w3 k a : valid_cards n nu nl c -> Forall (full_block n) bs ->
  dataf1 rest loss presched block r0 c (load_file bs) = Ok (i, SU) -> m_IW (c_misc c) = (w1, w2, w3) -> w1 <= w2 <= w3 ->
  nth_error (c_areas c) k = Some a ->
  exists d C, annual_peak_day (x_HRLOAD (i_h i)) k d /\ nth k SU [] = [a_peak a; C; q0; q0; q0; q0] /\
    (Z.of_nat d <= 7 * w3 -> forall s, (s <= 2)%nat ->
       (forall j, (j < s)%nat -> 7 * nth j [w1; w2; w3] 0 < Z.of_nat d) -> Z.of_nat d <= 7 * nth s [w1; w2; w3] 0 ->
       C = qsum (map (fun u => if String.eqb (u_loc u) (a_name a) then nth s (u_cap u) q0 else q0) (c_units c))).
Proof.
  intros V F E EW OW EK. destruct (summary_row rest loss presched block r0 n nu nl c bs i SU w1 w2 w3 V F E EW) as (_ & _ & fa & NA & G).
  destruct (G k a EK) as (d & s0 & C & PD & R & EC & ES). exists d, C. split; [exact PD|]. split; [exact R|].
  intros D3 s Hs B U0. assert (X : s0 = s).
  { rewrite ES. destruct s as [|[|[|s]]]; [| | |lia]; cbn [nth] in U0.
    - destruct (Z.leb_spec (Z.of_nat d) (7 * w1)); [reflexivity|lia].
    - specialize (B 0%nat ltac:(lia)). cbn [nth] in B. destruct (Z.leb_spec (Z.of_nat d) (7 * w1)); [lia|]. destruct (Z.leb_spec (Z.of_nat d) (7 * w2)); [reflexivity|lia].
    - pose proof (B 0%nat ltac:(lia)) as B0. specialize (B 1%nat ltac:(lia)). cbn [nth] in B, B0. destruct (Z.leb_spec (Z.of_nat d) (7 * w1)); [lia|]. destruct (Z.leb_spec (Z.of_nat d) (7 * w2)); [lia|].
      destruct (Z.leb_spec (Z.of_nat d) (7 * w3)); [reflexivity|lia]. }
  rewrite EC, X. apply qsum_map_ext. intros u HU.
  destruct (v_areas _ _ _ _ V) as (LA & _ & ND).
  assert (FK : fa (a_name a) = k).
  { pose proof (numbering_nth _ fa k ND NA ltac:(rewrite map_length; apply nth_error_Some; congruence)) as Y.
    rewrite (nth_error_nth _ _ EmptyString (map_nth_error a_name k _ EK)) in Y. exact Y. }
  destruct (String.eqb_spec (u_loc u) (a_name a)) as [Q|Q].
  - rewrite Q, FK, Nat.eqb_refl. reflexivity.
  - destruct (Nat.eqb_spec (fa (u_loc u)) k) as [Y|Y]; [|reflexivity]. exfalso. apply Q.
    apply NA; [apply (loc_in n nu nl c V u HU)|apply in_map; apply nth_error_In in EK; exact EK|congruence].
Qed.
(** From the third change of season on, the ratings of season 0 are used, not those of
    the last season. *)
Theorem C82_last_season_refuted rest loss presched block r0 n nu nl c bs i SU w1 w2 w3 k a d : valid_cards n nu nl c -> Forall (full_block n) bs ->
  dataf1 rest loss presched block r0 c (load_file bs) = Ok (i, SU) -> m_IW (c_misc c) = (w1, w2, w3) -> w1 <= w2 <= w3 ->
  nth_error (c_areas c) k = Some a -> annual_peak_day (x_HRLOAD (i_h i)) k d -> 7 * w3 < Z.of_nat d ->
  nth k SU [] = [a_peak a; qsum (map (fun u => if String.eqb (u_loc u) (a_name a) then nth 0 (u_cap u) q0 else q0) (c_units c)); q0; q0; q0; q0].
Proof.
  intros V F E EW OW EK PD LT. destruct (summary_row rest loss presched block r0 n nu nl c bs i SU w1 w2 w3 V F E EW) as (_ & _ & fa & NA & G).
  destruct (G k a EK) as (d' & s0 & C & PD' & R & EC & ES).
  assert (D : d' = d).
  { destruct PD as (A1 & t & T1 & T2 & T3). destruct PD' as (B1 & u & U1 & U2 & U3).
    destruct (Nat.lt_trichotomy d d') as [L|[L|L]]; [exfalso|symmetry; exact L|exfalso].
    - specialize (U3 t ltac:(nia)). specialize (T2 u ltac:(nia)). apply (Qclt_not_le _ _ U3). exact T2.
    - specialize (T3 u ltac:(nia)). specialize (U2 t ltac:(nia)). apply (Qclt_not_le _ _ T3). exact U2. }
  subst d'. assert (X : s0 = 0%nat).
  { rewrite ES. destruct (Z.leb_spec (Z.of_nat d) (7 * w1)); [lia|]. destruct (Z.leb_spec (Z.of_nat d) (7 * w2)); [lia|]. destruct (Z.leb_spec (Z.of_nat d) (7 * w3)); [lia|reflexivity]. }
  rewrite R, EC, X. do 2 f_equal. apply qsum_map_ext. intros u HU.
  destruct (v_areas _ _ _ _ V) as (LA & _ & ND).
  assert (FK : fa (a_name a) = k).
  { pose proof (numbering_nth _ fa k ND NA ltac:(rewrite map_length; apply nth_error_Some; congruence)) as Y.
    rewrite (nth_error_nth _ _ EmptyString (map_nth_error a_name k _ EK)) in Y. exact Y. }
  destruct (String.eqb_spec (u_loc u) (a_name a)) as [Q|Q].
  - rewrite Q, FK, Nat.eqb_refl. reflexivity.
  - destruct (Nat.eqb_spec (fa (u_loc u)) k) as [Y|Y]; [|reflexivity]. exfalso. apply Q.
    apply NA; [apply (loc_in n nu nl c V u HU)|apply in_map; apply nth_error_In in EK; exact EK|congruence].
Qed.
(** The pool's row is left empty here. *)
Theorem C82_pool_row rest loss presched block r0 n nu nl c bs i SU w1 w2 w3 : valid_cards n nu nl c -> Forall (full_block n) bs ->
  dataf1 rest loss presched block r0 c (load_file bs) = Ok (i, SU) -> m_IW (c_misc c) = (w1, w2, w3) -> length SU = S n /\ nth n SU [] = repeat q0 6.
Proof.
  intros V F E EW. destruct (summary_row rest loss presched block r0 n nu nl c bs i SU w1 w2 w3 V F E EW) as (A & B & _). split; [exact A|exact B].
Qed.

(* ------------------------------------------------------------------ *)
(** ** C83: the table of lines between areas *)
Lemma lineno_from n : forall (L : list (line_card nat)) M, shape n n M -> (forall l, In l L -> (ln_from l < n)%nat /\ (ln_to l < n)%nat) ->
  let R := fold_left (fun M l => mupd M (ln_from l) (ln_to l) (ln_id l)) L M in
  shape n n R /\
  (forall p l q, L = p ++ l :: q -> (forall l', In l' q -> (ln_from l', ln_to l') <> (ln_from l, ln_to l)) -> zmget R (ln_from l) (ln_to l) = ln_id l) /\
  (forall x y, (x < n)%nat -> (y < n)%nat -> (forall l, In l L -> (ln_from l, ln_to l) <> (x, y)) -> zmget R x y = zmget M x y).
Proof.
  assert (ZU : forall (M : list (list Z)) a b v x y, shape n n M -> (a < n)%nat -> (b < n)%nat -> (x < n)%nat -> (y < n)%nat ->
     zmget (mupd M a b v) x y = if Nat.eqb x a && Nat.eqb y b then v else zmget M x y).
  { intros M a b v x y (L & R) Ha Hb Hx Hy. unfold mupd, zmget. destruct (Nat.eqb_spec x a) as [->|N]; cbn [andb].
    - rewrite nth_upd_same by lia. destruct (Nat.eqb_spec y b) as [->|N]; [apply nth_upd_same; rewrite R by exact Ha; exact Hb|apply nth_upd_other; congruence].
    - rewrite nth_upd_other by congruence. reflexivity. }
  assert (ZS : forall (M : list (list Z)) a b v, shape n n M -> (a < n)%nat -> shape n n (mupd M a b v)).
  { intros M a b v (L & R) Ha. unfold mupd. split; [rewrite upd_length; exact L|]. intros j Hj.
    destruct (Nat.eq_dec j a) as [->|N]; [rewrite nth_upd_same by lia; rewrite upd_length; apply R; exact Ha|rewrite nth_upd_other by congruence; apply R; exact Hj]. }
  induction L as [|l0 L IH]; intros M S B; cbn [fold_left].
  - split; [exact S|]. split; [intros [|? ?] ? ? C; discriminate C|]. reflexivity.
  - destruct (B l0 (or_introl eq_refl)) as (B1 & B2).
    destruct (IH (mupd M (ln_from l0) (ln_to l0) (ln_id l0)) (ZS _ _ _ _ S B1) (fun l H => B l (or_intror H))) as (S2 & G1 & G2). cbv zeta in *.
    split; [exact S2|]. split.
    + intros [|x p] l q E N; injection E as E1 E2.
      * subst l0 L. rewrite G2; try assumption. rewrite ZU by assumption. rewrite !Nat.eqb_refl. reflexivity.
      * apply (G1 p l q E2 N).
    + intros x y Hx Hy N. rewrite G2; try assumption; [|intros l H; apply N; right; exact H].
      rewrite ZU by assumption. destruct (Nat.eqb_spec x (ln_from l0)) as [->|Q]; [|reflexivity]. destruct (Nat.eqb_spec y (ln_to l0)) as [->|Q]; [|reflexivity].
      exfalso. apply (N l0 (or_introl eq_refl)). reflexivity.
Qed.
(** The table has one entry for each ordered pair of areas: the number (from 0) of the last
    line on the cards from the one to the other, -1 without such a line.  A line is not
    entered for the opposite direction. *)
Theorem C83_line_table rest loss presched block r0 n nu nl c bs i SU : valid_cards n nu nl c -> Forall (full_block n) bs ->
  dataf1 rest loss presched block r0 c (load_file bs) = Ok (i, SU) ->
  (forall l p q x y, c_lines c = p ++ l :: q -> (forall l', In l' q -> (ln_from l', ln_to l') <> (ln_from l, ln_to l)) ->
     option_map a_name (nth_error (c_areas c) x) = Some (ln_from l) -> option_map a_name (nth_error (c_areas c) y) = Some (ln_to l) ->
     zmget (x_LINENO (i_h i)) x y = ln_id l - 1) /\
  (forall x y a b, nth_error (c_areas c) x = Some a -> nth_error (c_areas c) y = Some b ->
     (forall l, In l (c_lines c) -> (ln_from l, ln_to l) <> (a_name a, a_name b)) -> zmget (x_LINENO (i_h i)) x y = -1).
Proof.
  intros V F E. destruct (dataf1_full rest loss presched block r0 n nu nl c bs V F) as (fa & fu & d & H & NA & NU & EH & ED & E').
  rewrite E in E'. assert (X : x_LINENO (i_h i) = dx_LINENO d) by exact (f_equal (fun r => match r with Ok x => x_LINENO (i_h (fst x)) | Err _ => [] end) E'). rewrite X. clear X E E'.
  destruct (m_IW (c_misc c)) as [[w1 w2] w3] eqn:EW. destruct (datax_more n nu nl c V fa fu d w1 w2 w3 ED EW) as (_ & EL). rewrite EL. clear EL.
  destruct (v_areas _ _ _ _ V) as (LA & N0 & ND). destruct (v_known _ _ _ _ V) as (_ & KL & _).
  assert (FK : forall x a, nth_error (c_areas c) x = Some a -> fa (a_name a) = x /\ (x < n)%nat).
  { intros x a EK. assert (HX : (x < length (c_areas c))%nat) by (apply nth_error_Some; congruence). split; [|lia].
    pose proof (numbering_nth _ fa x ND NA ltac:(rewrite map_length; exact HX)) as Y. rewrite (nth_error_nth _ _ EmptyString (map_nth_error a_name x _ EK)) in Y. exact Y. }
  assert (IN : forall l, In l (c_lines (renamed fa fu c)) -> (ln_from l < n)%nat /\ (ln_to l < n)%nat).
  { intros l HL. cbn [renamed c_lines] in HL. apply in_map_iff in HL. destruct HL as (l0 & <- & HL). cbn [ln_from ln_to]. split; apply (area_lt n nu nl c V fa NA); apply KL; exact HL. }
  assert (S0 : shape n n (repeat (repeat (-1) n) n)).
  { split; [apply repeat_length|]. intros j Hj. rewrite nth_repeat_lt by exact Hj. apply repeat_length. }
  destruct (lineno_from n _ _ S0 IN) as (_ & G1 & G2). cbv zeta in *. fold (lineno n (c_lines (renamed fa fu c))) in G1, G2.
  assert (INJ : forall s t, In s (map a_name (c_areas c)) -> In t (map a_name (c_areas c)) -> fa s = fa t -> s = t) by (intros; apply NA; assumption).
  split.
  - intros l p q x y EQ N EX EY.
    destruct (nth_error (c_areas c) x) as [a|] eqn:EA; [|discriminate EX]. destruct (nth_error (c_areas c) y) as [b|] eqn:EB; [|discriminate EY].
    cbn [option_map] in EX, EY. injection EX as EX. injection EY as EY. destruct (FK x a EA) as (XA & _). destruct (FK y b EB) as (YB & _).
    set (rn := fun l : line_card string => mkLineC (ln_id l - 1) (fa (ln_from l)) (fa (ln_to l)) (ln_adm l) (ln_cap l) (ln_capr l) (ln_prob l)) in *.
    specialize (G1 (map rn p) (rn l) (map rn q)). unfold rn at 4 5 6 7 8 in G1. cbn [ln_from ln_to ln_id] in G1. rewrite <- EX, <- EY, XA, YB in G1. apply G1.
    + cbn [renamed c_lines]. rewrite EQ, map_app. reflexivity.
    + intros l' HL. apply in_map_iff in HL. destruct HL as (l0 & <- & HL). cbn [rn ln_from ln_to]. intros C. injection C as C1 C2. apply (N l0 HL).
      assert (HL0 : In l0 (c_lines c)) by (rewrite EQ; apply in_or_app; right; right; exact HL). destruct (KL l0 HL0) as (K1 & K2).
      f_equal; apply INJ; try assumption; try (apply KL; rewrite EQ; apply in_or_app; right; left; reflexivity); congruence.
  - intros x y a b EA EB N. destruct (FK x a EA) as (XA & HX). destruct (FK y b EB) as (YB & HY).
    rewrite G2; try assumption.
    + unfold zmget. rewrite nth_repeat_lt by exact HX. rewrite nth_repeat_lt by exact HY. reflexivity.
    + intros l HL. cbn [renamed c_lines] in HL. apply in_map_iff in HL. destruct HL as (l0 & <- & HL). cbn [ln_from ln_to]. intros C. injection C as C1 C2. apply (N l0 HL).
      destruct (KL l0 HL) as (K1 & K2). f_equal; apply INJ; try assumption; try (apply in_map; eapply nth_error_In; eassumption); congruence.
Qed.

Definition late_block (h : string) : load_block := mkBlock h (repeat (repeat q1 12) 729 ++ [qz 2 :: repeat q1 11]).
Definition late_loads : list load_block := [late_block "AREA:A1"; flat_block "AREA:A2"]%string.
Lemma late_blocks : Forall (full_block 2) late_loads.
Proof.
  assert (R : forall k, Forall (fun v : list Qc => (12 <= length v)%nat) (repeat (repeat q1 12) k)).
  { intros k. apply Forall_forall. intros v H. apply repeat_spec in H. subst v. cbn. lia. }
  constructor; [|constructor; [|constructor]].
  - split; [exists 1%nat; split; [lia|]; split; [lia|reflexivity]|]. split; [unfold late_block; cbn [b_lines]; rewrite app_length, repeat_length; reflexivity|].
    unfold late_block. cbn [b_lines]. apply Forall_app. split; [apply R|]. constructor; [cbn; lia|constructor].
  - split; [exists 2%nat; split; [lia|]; split; [lia|reflexivity]|]. split; [unfold flat_block; cbn [b_lines]; rewrite repeat_length; reflexivity|]. apply R.
Qed.
Lemma late_hours t : nth t (hours_of (late_block "AREA:A1")) q0 = if Nat.eqb t (729 * 12) then qz 2 else if Nat.ltb t (730 * 12) then q1 else q0.
Proof.
  unfold hours_of, late_block. cbn [b_lines]. change (fun v : list Qc => skipn (length v - 12) v) with last12. rewrite flat_map_app.
  assert (X : flat_map last12 (repeat (repeat q1 12) 729) = repeat q1 (729 * 12)).
  { assert (G : forall k, flat_map last12 (repeat (repeat q1 12) k) = repeat q1 (k * 12)).
    { induction k as [|k IH]; [reflexivity|]. change (repeat (repeat q1 12) (S k)) with (repeat q1 12 :: repeat (repeat q1 12) k). cbn [flat_map]. rewrite IH.
      change (S k * 12)%nat with (12 + k * 12)%nat. rewrite repeat_app. reflexivity. }
    apply G. }
  rewrite X. change (flat_map last12 [qz 2 :: repeat q1 11]) with (qz 2 :: repeat q1 11).
  destruct (Nat.eqb_spec t (729 * 12)) as [->|N]; [rewrite app_nth2 by (rewrite repeat_length; lia); rewrite repeat_length, Nat.sub_diag; reflexivity|].
  destruct (Nat.ltb_spec t (730 * 12)) as [L|L].
  - destruct (Nat.lt_ge_cases t (729 * 12)) as [L2|L2]; [rewrite app_nth1 by (rewrite repeat_length; exact L2); apply nth_repeat_lt; exact L2|].
    rewrite app_nth2 by (rewrite repeat_length; exact L2). rewrite repeat_length. replace (t - 729 * 12)%nat with (S (t - 729 * 12 - 1)) by lia. cbn [nth]. apply nth_repeat_lt. lia.
  - apply nth_overflow. rewrite app_length, repeat_length. cbn [length]. rewrite repeat_length. lia.
Qed.
Lemma late_last : last_block late_loads 1 (late_block "AREA:A1").
Proof. exists [], [flat_block "AREA:A2"]%string. split; [reflexivity|]. split; [split; [lia|reflexivity]|]. intros b' [<-|[]] (_ & C). discriminate C. Qed.
(** Area A1 has its highest load on the last day; its units are rated 100 MW in every season
    but 110 and 90 in the second and third, so take A1's units rated 40 in the last season. *)
Definition rerated : cards string :=
  mkCards (c_misc tiny) (c_areas tiny) (map (fun u => mkUnit (u_name u) (u_loc u) [qz 100; qz 110; qz 90; qz 40] (u_dfor u) (u_for u) (u_der u) (u_pa u) (u_b1 u) (u_d1 u) (u_b2 u) (u_d2 u)) (c_units tiny))
    (c_lines tiny) [] [] Column.
Lemma rerated_valid : valid_cards 2 3 1 rerated.
Proof.
  constructor.
  - split; [reflexivity|]. split; [lia|]. repeat constructor; cbn; intuition discriminate.
  - split; [reflexivity|]. split; [lia|]. repeat constructor; cbn; intuition discriminate.
  - reflexivity.
  - split; [|split; [|split]]; cbn; intros ? H; intuition (subst; cbn; auto).
  - reflexivity.
  - reflexivity.
  - intros u H. cbn in H. destruct H as [<-|[<-|[<-|[]]]]; cbn; split; try reflexivity; repeat constructor; apply qleb_iff; vm_compute; reflexivity.
  - intros u H. cbn in H. destruct H as [<-|[<-|[<-|[]]]]; cbn; lia.
  - intros u H. unfold outages_apart. cbn in H. destruct H as [<-|[<-|[<-|[]]]]; cbn; lia.
  - intros u H _. cbn in H. destruct H as [<-|[<-|[<-|[]]]]; cbn; lia.
  - intros s. eapply Nat.le_trans; [apply flt_le|]. cbn. lia.
  - cbn. unfold step_ok. lia.
Qed.
(** 80 MW are installed on the peak day of A1 (season changes after weeks 13, 26, 39), the
    summary says 200. *)
Example C82_last_season_witness rest loss presched block r0 : exists i SU, dataf1 rest loss presched block r0 rerated (load_file late_loads) = Ok (i, SU) /\
  annual_peak_day (x_HRLOAD (i_h i)) 0 364 /\ nth 1 (nth 0 SU []) q0 = qz 200 /\
  qsum (map (fun u => if String.eqb (u_loc u) "A1" then nth 3 (u_cap u) q0 else q0) (c_units rerated)) = qz 80.
Proof.
  destruct (C71_accepted rest loss presched block r0 2 3 1 rerated late_loads rerated_valid late_blocks) as (i & SU & E & _).
  exists i, SU. split; [exact E|].
  assert (EX : exists v, In v (hours_of (late_block "AREA:A1")) /\ (qq 1 1000 <= v)%Qc).
  { exists (nth (729 * 12) (hours_of (late_block "AREA:A1")) q0). split.
    - apply nth_In. rewrite (hours_length 2) by (apply (Forall_inv late_blocks)). lia.
    - rewrite late_hours, Nat.eqb_refl. apply qleb_iff. vm_compute. reflexivity. }
  destruct (C69_peak_partial rest loss presched block r0 2 3 1 rerated late_loads i SU 0 _ _ rerated_valid late_blocks E eq_refl ltac:(apply qleb_iff; vm_compute; reflexivity) late_last EX) as ((t & Ht & TE) & LE & PR).
  cbn [a_peak] in TE, LE.
  assert (P : forall s, (s < 365 * 24)%nat -> s <> (729 * 12)%nat -> Qcmult (mget (x_HRLOAD (i_h i)) 0 s) (qz 2) = mget (x_HRLOAD (i_h i)) 0 (729 * 12)).
  { intros s Hs N. specialize (PR s (729 * 12)%nat Hs ltac:(lia)). rewrite !late_hours, Nat.eqb_refl in PR.
    destruct (Nat.eqb_spec s (729 * 12)); [contradiction|]. destruct (Nat.ltb_spec s (730 * 12)); [|lia]. rewrite PR. change q1 with 1%Qc. ring. }
  assert (TT : mget (x_HRLOAD (i_h i)) 0 (729 * 12) = qz 300).
  { destruct (Nat.eq_dec t (729 * 12)) as [->|N]; [exact TE|]. exfalso. specialize (P t Ht N). rewrite TE in P.
    specialize (LE (729 * 12)%nat ltac:(lia)). rewrite <- P in LE. apply qleb_iff in LE. vm_compute in LE. discriminate LE. }
  assert (PD : annual_peak_day (x_HRLOAD (i_h i)) 0 364).
  { split; [lia|]. exists (729 * 12)%nat. split; [lia|]. rewrite TT. split; [exact LE|].
    intros h Hh. specialize (P h ltac:(lia) ltac:(lia)). rewrite TT in P.
    assert (X : mget (x_HRLOAD (i_h i)) 0 h = qz 150).
    { assert (Q : (mget (x_HRLOAD (i_h i)) 0 h = mget (x_HRLOAD (i_h i)) 0 h * qz 2 * qq 1 2)%Qc).
      { rewrite <- Qcmult_assoc. replace (Qcmult (qz 2) (qq 1 2)) with 1%Qc by (apply Qc_is_canon; vm_compute; reflexivity). ring. }
      rewrite Q, P. apply Qc_is_canon. vm_compute. reflexivity. }
    rewrite X. apply qltb_iff. vm_compute. reflexivity. }
  split; [exact PD|]. split.
  - rewrite (C82_last_season_refuted rest loss presched block r0 2 3 1 rerated late_loads i SU 13 26 39 0 _ 364 rerated_valid late_blocks E eq_refl ltac:(lia) eq_refl PD ltac:(lia)).
    apply Qc_is_canon. vm_compute. reflexivity.
  - apply Qc_is_canon. vm_compute. reflexivity.
Qed.
(** With the peak of A1 on the first day the summary is right. *)
Example C82_capacity_witness rest loss presched block r0 : exists i SU, dataf1 rest loss presched block r0 rerated (load_file tiny_loads) = Ok (i, SU) /\
  nth 1 SU [] = [qz 200; qz 100; q0; q0; q0; q0] /\ nth 2 SU [] = repeat q0 6.
Proof.
  destruct (C71_accepted rest loss presched block r0 2 3 1 rerated tiny_loads rerated_valid tiny_blocks) as (i & SU & E & _).
  exists i, SU. split; [exact E|]. split; [|apply (C82_pool_row rest loss presched block r0 2 3 1 rerated tiny_loads i SU 13 26 39 rerated_valid tiny_blocks E eq_refl)].
  assert (LB : last_block tiny_loads 2 (flat_block "AREA:A2")).
  { exists [peak_block "AREA:A1"]%string, []. split; [reflexivity|]. split; [split; [lia|reflexivity]|]. intros b' []. }
  destruct (C82_capacity_partial rest loss presched block r0 2 3 1 rerated tiny_loads i SU 13 26 39 1 _ rerated_valid tiny_blocks E eq_refl ltac:(lia) eq_refl) as (d & C & (D & t & T1 & T2 & T3) & R & G).
  destruct (C69_digit_partial rest loss presched block r0 2 3 1 rerated tiny_loads i SU 1 _ rerated_valid tiny_blocks E eq_refl) as (L & _).
  assert (K : forall s, (s < 365 * 24)%nat -> mget (x_HRLOAD (i_h i)) 1 s = mget (x_HRLOAD (i_h i)) 1 0).
  { intros s Hs. rewrite (L _ _ s LB (amax_top _) Hs), (L _ _ 0%nat LB (amax_top _)) by lia.
    assert (X : forall s, (s < 365 * 24)%nat -> nth s (hours_of (flat_block "AREA:A2")) q0 = q1).
    { intros u Hu. unfold hours_of, flat_block. cbn [b_lines]. change (fun v : list Qc => skipn (length v - 12) v) with last12.
      assert (Y : forall k, flat_map last12 (repeat (repeat q1 12) k) = repeat q1 (k * 12)).
      { induction k as [|k IH]; [reflexivity|]. change (repeat (repeat q1 12) (S k)) with (repeat q1 12 :: repeat (repeat q1 12) k). cbn [flat_map]. rewrite IH.
        change (S k * 12)%nat with (12 + k * 12)%nat. rewrite repeat_app. reflexivity. }
      rewrite Y. apply nth_repeat_lt. lia. }
    rewrite !X by lia. reflexivity. }
  assert (D0 : d = 0%nat).
  { destruct d as [|d]; [reflexivity|]. exfalso. specialize (T3 0%nat ltac:(lia)). rewrite (K t) in T3 by lia. exact (Qclt_not_le _ _ T3 (Qcle_refl _)). }
  subst d. rewrite R. cbn [a_peak]. rewrite (G ltac:(lia) 0%nat ltac:(lia) ltac:(intros; lia) ltac:(cbn; lia)). do 2 f_equal.
Qed.
Example C83_witness rest loss presched block r0 : exists i SU, dataf1 rest loss presched block r0 tiny (load_file tiny_loads) = Ok (i, SU) /\
  zmget (x_LINENO (i_h i)) 0 1 = 0 /\ zmget (x_LINENO (i_h i)) 1 0 = -1.
Proof.
  destruct (C71_accepted rest loss presched block r0 2 3 1 tiny tiny_loads tiny_valid tiny_blocks) as (i & SU & E & _).
  exists i, SU. split; [exact E|].
  destruct (C83_line_table rest loss presched block r0 2 3 1 tiny tiny_loads i SU tiny_valid tiny_blocks E) as (A & B). split.
  - rewrite (A (hd (mkLineC 0 EmptyString EmptyString [] [] [] []) (c_lines tiny)) [] [] 0%nat 1%nat); try reflexivity. intros l' [].
  - eapply B; try reflexivity. intros l [<-|[]]. cbn. discriminate.
Qed.

Lemma nth_skipn_ {A} (d : A) : forall a l u, nth u (skipn a l) d = nth (a + u) l d.
Proof. induction a as [|a IH]; intros [|x l] u; cbn [skipn Nat.add nth]; auto. destruct u; reflexivity. Qed.
Lemma nth_firstn_ {A} (d : A) : forall a l u, (u < a)%nat -> nth u (firstn a l) d = nth u l d.
Proof. induction a as [|a IH]; intros [|x l] [|u] H; cbn [firstn nth]; auto; try lia. apply IH. lia. Qed.
(** ** C69, a data line of any length.  At hour t of the row of area k (a whole day half
    left): twelve or more numbers: the last twelve are the hours t .. t+11; a single number:
    it is the load of all twelve hours; any other count, also none: refused. *)
Theorem C69_data_line v r H k row t : (k < length H)%nat -> nth k H [] = row -> (t + 12 <= length row)%nat ->
  match length v with
  | 1%nat => exists row', length row' = length row /\
      (forall u, (u < length row)%nat -> nth u row' q0 = if (t <=? u)%nat && (u <? t + 12)%nat then nth 0 v q0 else nth u row q0) /\
      read_loads (Hours v :: r) (Some (Z.of_nat k, t)) H = read_loads r (Some (Z.of_nat k, (t + 12)%nat)) (upd H k row')
  | _ => if (length v <? 12)%nat then read_loads (Hours v :: r) (Some (Z.of_nat k, t)) H = Err ValueError else
      exists row', length row' = length row /\
      (forall u, (u < length row)%nat -> nth u row' q0 = if (t <=? u)%nat && (u <? t + 12)%nat then nth (u - t + (length v - 12)) v q0 else nth u row q0) /\
      read_loads (Hours v :: r) (Some (Z.of_nat k, t)) H = read_loads r (Some (Z.of_nat k, (t + 12)%nat)) (upd H k row')
  end.
Proof.
  intros HK E L.
  assert (W : forall mid, length mid = 12%nat -> length (firstn t row ++ mid ++ skipn (t + 12) row) = length row /\
    forall u, (u < length row)%nat -> nth u (firstn t row ++ mid ++ skipn (t + 12) row) q0 = if (t <=? u)%nat && (u <? t + 12)%nat then nth (u - t) mid q0 else nth u row q0).
  { intros mid LM. split; [rewrite !app_length, firstn_length, skipn_length; lia|]. intros u Hu.
    destruct (Nat.leb_spec t u) as [A|A]; cbn [andb].
    - rewrite app_nth2 by (rewrite firstn_length; lia). rewrite firstn_length. replace (Nat.min t (length row)) with t by lia.
      destruct (Nat.ltb_spec u (t + 12)) as [B|B]; [rewrite app_nth1 by lia; reflexivity|]. rewrite app_nth2 by lia. rewrite LM.
      rewrite nth_skipn_. f_equal. lia.
    - rewrite app_nth1 by (rewrite firstn_length; lia). apply nth_firstn_. exact A. }
  assert (G : read_loads (Hours v :: r) (Some (Z.of_nat k, t)) H =
    (do row' <- set_hours row t (last12 v); read_loads r (Some (Z.of_nat k, (t + 12)%nat)) (upd H k row'))).
  { cbn [read_loads]. rewrite (pyget_nonneg _ _ []) by lia. rewrite Nat2Z.id, E. cbn [bind]. destruct (set_hours _ _ _); cbn [bind]; [|reflexivity].
    rewrite pyset_nonneg by lia. rewrite Nat2Z.id. reflexivity. }
  rewrite G. unfold set_hours. replace (Nat.min 12 (length row - t)) with 12%nat by lia.
  assert (LL : length (last12 v) = Nat.min 12 (length v)) by (unfold last12; rewrite skipn_length; lia). rewrite LL.
  assert (NL : forall u, nth u (last12 v) q0 = nth (u + (length v - 12)) v q0).
  { intros u. unfold last12. rewrite nth_skipn_. f_equal. lia. }
  destruct (length v) as [|[|m]] eqn:EV.
  - reflexivity.
  - cbn [Nat.min Nat.eqb bind]. destruct (W (repeat (nth 0 (last12 v) q0) 12) (repeat_length _ _)) as (W1 & W2).
    eexists. split; [exact W1|]. split; [|reflexivity]. intros u Hu. rewrite W2 by exact Hu. destruct (Nat.leb_spec t u); cbn [andb]; [|reflexivity].
    destruct (Nat.ltb_spec u (t + 12)); [|reflexivity]. rewrite nth_repeat_lt by lia. rewrite NL. reflexivity.
  - destruct (Nat.ltb_spec (S (S m)) 12) as [A|A].
    + destruct (Nat.eqb_spec (Nat.min 12 (S (S m))) 12); [lia|]. destruct (Nat.eqb_spec (Nat.min 12 (S (S m))) 1); [lia|]. reflexivity.
    + replace (Nat.min 12 (S (S m))) with 12%nat by lia. cbn [Nat.eqb bind]. destruct (W (last12 v)) as (W1 & W2); [rewrite LL; lia|].
      eexists. split; [exact W1|]. split; [|reflexivity]. intros u Hu. rewrite W2 by exact Hu. now rewrite NL.
Qed.
Print Assumptions C69_data_line.
(** After 730 lines the row is full: a line with two or more numbers is refused, others are
    ignored. *)
Theorem C69_extra_line v r H k row t : (k < length H)%nat -> nth k H [] = row -> (length row <= t)%nat ->
  read_loads (Hours v :: r) (Some (Z.of_nat k, t)) H =
  if (2 <=? length v)%nat then Err ValueError else read_loads r (Some (Z.of_nat k, (t + 12)%nat)) H.
Proof.
  intros HK E L. cbn [read_loads]. rewrite (pyget_nonneg _ _ []) by lia. rewrite Nat2Z.id, E. cbn [bind]. unfold set_hours.
  replace (Nat.min 12 (length row - t)) with 0%nat by lia.
  assert (LL : length (last12 v) = Nat.min 12 (length v)) by (unfold last12; rewrite skipn_length; lia). rewrite LL.
  assert (X : firstn t row ++ [] ++ skipn (t + 0) row = row) by (rewrite firstn_all2, skipn_all2 by lia; now rewrite app_nil_r).
  destruct (Nat.leb_spec 2 (length v)) as [A|A].
  - destruct (Nat.eqb_spec (Nat.min 12 (length v)) 0); [lia|]. destruct (Nat.eqb_spec (Nat.min 12 (length v)) 1); [lia|]. reflexivity.
  - destruct v as [|x [|]]; cbn [length] in *; [| |lia]; cbn [Nat.min Nat.eqb].
    + change (last12 []) with (@nil Qc). rewrite X. cbn [bind]. rewrite pyset_nonneg by lia. cbn [bind]. rewrite Nat2Z.id, <- E, upd_self. reflexivity.
    + cbn [repeat]. rewrite X. cbn [bind]. rewrite pyset_nonneg by lia. cbn [bind]. rewrite Nat2Z.id, <- E, upd_self. reflexivity.
Qed.
Print Assumptions C69_extra_line.
(** A whole day at 5 MW in two lines of one number each. *)
Example C69_data_line_witness : read_loads [AreaLine "AREA:A1"; Hours [qz 5]; Hours [qz 5]]%string None [repeat q0 24] = Ok [repeat (qz 5) 24].
Proof. reflexivity. Qed.
