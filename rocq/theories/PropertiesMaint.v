(** C66, C67 for any table of units given to [smaint] (plants with several units, flags
    and windows of any kind), with the scheduling code of [pmsc] as it is. *)
From Verif Require Import Base BaseProofs ControlSpec MaintModel MaintSpec MaintProofs MaintAnyModel MaintAnySpec MaintAny PropertiesData.
Open Scope Z_scope.

Section TABLES.
Context {rest : Type}.
Variables (loss : Qc -> Qc) (presched : list punit -> mst rest -> res (list Qc * list Z * mst rest)) (r0 : rest).

(** Units other than the first of their area keep their planned weeks. *)
Theorem C66_any_table_partial : forall n ID ITAB RATES T ITAB' i w, numbered ID ->
  smaint loss presched block_py r0 n ID ITAB RATES = Ok (T, ITAB') -> (i < length ID)%nat -> follows ID i -> (w < 51)%nat ->
  (listed (nth w T []) i <-> planned_row (nth i ID []) (Z.of_nat w)).
Proof.
  intros n ID ITAB RATES T ITAB' i w NB E Hi F Hw. unfold smaint in E. destruct (pmsc_all _ _ _ _ _ ID ITAB RATES r0) as [(D, t)|] eqn:EP; [|discriminate]. cbn [bind fst snd] in E.
  destruct (outage_table D) as [T0|] eqn:ET; [|discriminate]. cbn [bind] in E. injection E as <- <-. destruct (pmsc_all_any loss presched r0 RATES _ _ _ _ _ NB EP) as (LD & SD & KD).
  assert (ND : forall k, (k < length D)%nat -> zget (nth k D []) 0 = Z.of_nat k) by (intros k Hk; rewrite LD in Hk; rewrite (SD k Hk 0%nat) by lia; now apply NB).
  assert (R : forall r, In r D -> 0 <= zget r 0 < Z.of_nat (length D)) by (intros r I0; destruct (In_nth _ _ [] I0) as (k & Hk & <-); rewrite ND by exact Hk; lia).
  destruct (C53_listed_partial D T0 ET R w Hw) as (_ & L). rewrite L. unfold planned_row. rewrite <- (KD i Hi F). split.
  - intros (r & b & d & [(I0 & E0 & EB & B0 & B1)|(I0 & E0 & EB & B0 & B1)]); destruct (In_nth _ _ [] I0) as (k & Hk & <-); rewrite ND in E0 by exact Hk; apply Nat2Z.inj in E0; subst k; injection EB as -> ->; [left|right]; lia.
  - intros [H|H].
    + exists (nth i D []), (zget (nth i D []) 3), (zget (nth i D []) 4). left. repeat split; try lia; [apply nth_In; lia|apply ND; lia].
    + exists (nth i D []), (zget (nth i D []) 5), (zget (nth i D []) 6). right. repeat split; try lia; [apply nth_In; lia|apply ND; lia].
Qed.

(** Such a unit without planned weeks (-1) is never scheduled. *)
Theorem C67_any_table_refuted : forall n ID ITAB RATES T ITAB' i w, numbered ID ->
  smaint loss presched block_py r0 n ID ITAB RATES = Ok (T, ITAB') -> (i < length ID)%nat -> follows ID i ->
  zget (nth i ID []) 3 < 0 -> zget (nth i ID []) 5 < 0 -> (w < 52)%nat -> ~ listed (nth w T []) i.
Proof.
  intros n ID ITAB RATES T ITAB' i w NB E Hi F B1 B2 Hw L. destruct (Nat.eq_dec w 51) as [-> |NE].
  - unfold smaint in E. destruct (pmsc_all _ _ _ _ _ ID ITAB RATES r0) as [(D, t)|]; [|discriminate]. cbn [bind fst snd] in E.
    destruct (outage_table D) as [T0|] eqn:ET; [|discriminate]. cbn [bind] in E. injection E as <- <-. exact (C53_last_week_refuted D T0 i ET L).
  - apply (C66_any_table_partial n ID ITAB RATES T ITAB' i w NB E Hi F ltac:(lia)) in L. unfold planned_row in L. lia.
Qed.
End TABLES.
Print Assumptions C66_any_table_partial.
Print Assumptions C67_any_table_refuted.

(** Witnesses: three units in two plants of one area; the second unit of plant 0 has no
    weeks given.  With two units to be maintained in the first plant the scheduler fails. *)
Definition three (p : Z) : list (list Z) := [[0; 0; 0; 4; 2; -1; 0; 1]; [1; p; 0; -1; 3; -1; 0; 0]; [2; 2; 0; 7; 1; -1; 0; 1]].
Example C67_any_table_witness : numbered (three 1) /\ follows (three 1) 1 /\
  exists T t, smaint (rest := unit) (fun _ => q0) (fun _ _ => Err TypeError) block_py tt 1 (three 1) 6 (repeat (repeat (qz 100) 4) 3) = Ok (T, t) /\
    nth 7 T [] = [1; 2; -1; -1] /\ nth 4 T [] = [1; 0; -1; -1].
Proof.
  split; [intros i Hi; do 3 (destruct i as [|i]; [reflexivity|]); cbn in Hi; lia|]. split; [exists 0%nat; split; [lia|reflexivity]|].
  eexists _, _. split; [vm_compute; reflexivity|]. split; reflexivity.
Qed.
Example C67_two_units_witness :
  smaint (rest := unit) (fun _ => q0) (fun _ _ => Err TypeError) block_py tt 1
    [[0; 0; 0; -1; 2; -1; 0; 0]; [1; 0; 0; -1; 3; -1; 0; 0]; [2; 1; 0; -1; 3; -1; 0; 0]; [3; 2; 0; -1; 1; -1; 0; 0]] 6 (repeat (repeat (qz 100) 4) 4) = Err TypeError.
Proof. vm_compute. reflexivity. Qed.
