(** Specification vocabulary for the capacity outage table. *)
From Verif Require Import Base OutageModel.
Open Scope Z_scope.

(** A unit with three states: the probabilities of full output, of the derated state
    and of the full outage, with the capacity lost in the latter two. *)
Record unit3 := mkUnit3 { pr_full : Qc; pr_der : Qc; pr_out : Qc; mw_der : Z; mw_out : Z }.
Definition unit3_ok (u : unit3) : Prop :=
  (q0 <= pr_full u)%Qc /\ (q0 <= pr_der u)%Qc /\ (q0 <= pr_out u)%Qc /\
  Qcplus (Qcplus (pr_full u) (pr_der u)) (pr_out u) = q1 /\ 0 <= mw_der u <= mw_out u.

(** All combinations of states of independent units: probability and lost capacity. *)
Fixpoint outcomes (us : list unit3) : list (Qc * Z) :=
  match us with
  | [] => [(q1, 0)]
  | u :: r => flat_map (fun s => map (fun o => (Qcmult (fst s) (fst o), snd s + snd o)) (outcomes r))
                [(pr_full u, 0); (pr_der u, mw_der u); (pr_out u, mw_out u)]
  end.
(** The probability that at least K MW are lost. *)
Definition P_outage (us : list unit3) (K : Z) : Qc :=
  qsum (map fst (filter (fun o => K <=? snd o) (outcomes us))).

(** What a table says about K: the probability of its first level at or above K, zero
    if there is none. *)
Definition rows (t : ctab) : list (Z * Qc) := firstn (ct_N t) (combine (ct_KA t) (ct_PA t)).
Fixpoint lookup (l : list (Z * Qc)) (K : Z) : Qc :=
  match l with [] => q0 | r :: l' => if K <=? fst r then snd r else lookup l' K end.
Definition listed (t : ctab) (K : Z) : Qc := lookup (rows t) K.

(** Levels never fall, probabilities never rise; no probability is negative. *)
Definition sorted_rows (l : list (Z * Qc)) : Prop :=
  forall i j, (i <= j < length l)%nat -> fst (nth i l (0, q0)) <= fst (nth j l (0, q0)) /\ Qcle (snd (nth j l (0, q0))) (snd (nth i l (0, q0))).
Definition strict_rows (l : list (Z * Qc)) : Prop :=
  forall i j, (i < j < length l)%nat -> fst (nth i l (0, q0)) < fst (nth j l (0, q0)).
(** A table of at most 4951 rows in arrays of 5000: the first row is level 0 with
    probability 1; no level is above [C]. *)
Record table_ok (C : Z) (t : ctab) : Prop := mkTableOk {
  tk_KA : length (ct_KA t) = INGS; tk_PA : length (ct_PA t) = INGS; tk_N : (1 <= ct_N t <= 4951)%nat;
  tk_first : nth 0 (rows t) (0, q0) = (0, q1);
  tk_sorted : sorted_rows (rows t);
  tk_nonneg : Forall (fun r => (q0 <= snd r)%Qc) (rows t);
  tk_below : Forall (fun r => fst r <= C) (rows t) }.

(** Adding a unit exactly: what the definition of probability says. *)
Definition added_prob (f : Z -> Qc) (u : unit3) (K : Z) : Qc :=
  Qcplus (Qcplus (Qcmult (pr_full u) (f K)) (Qcmult (pr_der u) (f (K - mw_der u)))) (Qcmult (pr_out u) (f (K - mw_out u))).

(** A unit as [pmlolp] is given it: capacity, probability of the derated state, of the
    full outage, share of the capacity lost when derated. *)
Definition ounit_ok (u : ounit) : Prop :=
  (q0 <= o_cap u)%Qc /\ (q0 <= o_pder u)%Qc /\ (q0 <= o_pout u)%Qc /\ (Qcplus (o_pder u) (o_pout u) <= q1)%Qc /\ (q0 <= o_share u)%Qc /\ (o_share u <= q1)%Qc.
(** The unit with its lost capacities rounded: KT, KP. *)
Definition rounded (u : ounit) (KT KP : Z) : unit3 :=
  mkUnit3 (Qcminus (Qcminus q1 (o_pder u)) (o_pout u)) (o_pder u) (o_pout u) KP KT.
(** [k] is x rounded to a multiple of 10 as the code does it: from 5.5 below to 4.5
    above (excluded). *)
Definition rounds10 (x : Qc) (k : Z) : Prop :=
  (exists m, k = 10 * m) /\ (Qcminus (qz k) (qq 11 2) <= x)%Qc /\ (x < Qcplus (qz k) (qq 9 2))%Qc.
Definition rounds_unit (u : ounit) (v : unit3) : Prop :=
  exists KT KP, rounds10 (o_cap u) KT /\ rounds10 (Qcmult (qz KT) (o_share u)) KP /\ v = rounded u KT KP.
