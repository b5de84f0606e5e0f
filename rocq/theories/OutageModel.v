(** Model of the capacity outage table: [gsm], [_gsm] (gsm.py), [pmlolp] (pmlolp.py)
    and the two readings of the table in [pmsc].  Probabilities are exact rationals
    (floats in the code); KA holds whole numbers (floats with integer values). *)
From Verif Require Import Base.
Open Scope Z_scope.

(** gsm.py 25-26: INGS, INGS1; 40: the level that is never reached; 49: the cut-off *)
Definition INGS : nat := 5000.
Definition INGS1 : nat := 4950.
Definition BIG : Z := 1000000.
Definition CUT : Qc := qq 1 1000000000.

(** N, KA, PA *)
Record ctab := mkCtab { ct_N : nat; ct_KA : list Z; ct_PA : list Qc }.

(** [a[N : N + 2] = v] of a one-dimensional array *)
Definition fill2 {A} (N : nat) (v : A) (l : list A) : list A := upd (upd l N v) (S N) v.
(** gsm.py 31-40: a column of KO *)
Definition ko (N : nat) (x : Z) (KA : list Z) : list Z := fill2 N BIG (map (fun k => k + x) KA).

(** gsm.py 48, 51, 53: an index that has the smallest level moves on *)
Definition step (k K : Z) (J : nat) : nat := if k =? K then S J else J.

(** gsm.py 49-53: the while loop; [fuel] is INGS1 - L, [last] is PA[L]; the result is
    the list of the pairs (KA[L], PA[L]) it stores. *)
Fixpoint gsm_loop (N : nat) (K1 K2 K3 : list Z) (P : list Qc) (P1 P2 P3 : Qc) (fuel J1 J2 J3 : nat) (last : Qc) : list (Z * Qc) :=
  match fuel with
  | O => []
  | S f =>
      if (Nat.min J1 (Nat.min J2 J3) <? N)%nat && qltb CUT last then
        let k1 := zget K1 J1 in let k2 := zget K2 J2 in let k3 := zget K3 J3 in
        let K := Z.min k1 (Z.min k2 k3) in
        let p := Qcplus (Qcplus (Qcmult (vget P J1) P1) (Qcmult (vget P J2) P2)) (Qcmult (vget P J3) P3) in
        (K, p) :: gsm_loop N K1 K2 K3 P P1 P2 P3 f (step k1 K J1) (step k2 K J2) (step k3 K J3) p
      else []
  end.
(** gsm.py 45-47, 55-63: entries 0 .. L are overwritten, and PA[L + 1] *)
Definition store (rows : list (Z * Qc)) (t : ctab) : ctab :=
  let N := List.length rows in
  mkCtab N (map fst rows ++ skipn N (ct_KA t)) (upd (map snd rows ++ skipn N (ct_PA t)) N q0).
(** gsm.py 4-65 *)
Definition gsm_rows (KT KP : Z) (P1 P2 P3 : Qc) (t : ctab) : list (Z * Qc) :=
  let N := ct_N t in
  (0, q1) :: gsm_loop N (ko N 0 (ct_KA t)) (ko N KP (ct_KA t)) (ko N KT (ct_KA t)) (fill2 N q0 (ct_PA t)) P1 P2 P3
               INGS1 1 (if KP =? 0 then 1 else 0) 0 q1.
Definition gsm (KT KP : Z) (P1 P2 P3 : Qc) (t : ctab) : ctab := store (gsm_rows KT KP P1 P2 P3 t) t.
(** 56-60: the message "to prevent array overflow": L >= INGS1 *)
Definition overflows (rows : list (Z * Qc)) : bool := (INGS1 <=? List.length rows - 1)%nat.

(** gsm.py 88-156, the other implementation: arrays of zeros of which the first N
    entries are copied, the next two set. *)
Definition ko_ (N : nat) (x : Z) (KA : list Z) : list Z :=
  map (fun k => k + x) (firstn N KA) ++ [BIG; BIG] ++ repeat 0 (INGS - N - 2).
Definition p_ (N : nat) (PA : list Qc) : list Qc := firstn N PA ++ [q0; q0] ++ repeat q0 (INGS - N - 2).
(** 122-143: the tests come after the body *)
Fixpoint gsm_loop_ (N : nat) (K1 K2 K3 : list Z) (P : list Qc) (P1 P2 P3 : Qc) (fuel J1 J2 J3 : nat) : list (Z * Qc) :=
  match fuel with
  | O => []
  | S f =>
      let k1 := zget K1 J1 in let k2 := zget K2 J2 in let k3 := zget K3 J3 in
      let KCH := Z.min k1 (Z.min k2 k3) in
      let p := Qcplus (Qcplus (Qcmult (vget P J1) P1) (Qcmult (vget P J2) P2)) (Qcmult (vget P J3) P3) in
      let J1' := if KCH =? k1 then S J1 else J1 in
      let J2' := if KCH =? k2 then S J2 else J2 in
      let J3' := if KCH =? k3 then S J3 else J3 in
      let JM := Nat.min J1' (Nat.min J2' J3') in
      (KCH, p) :: (if (N <=? JM)%nat then [] else if qleb p CUT then [] else gsm_loop_ N K1 K2 K3 P P1 P2 P3 f J1' J2' J3')
  end.
(** 67-156 *)
Definition gsm_ (KT KP : Z) (P1 P2 P3 : Qc) (t : ctab) : ctab :=
  let N := ct_N t in
  store ((0, q1) :: gsm_loop_ N (ko_ N 0 (ct_KA t)) (ko_ N KP (ct_KA t)) (ko_ N KT (ct_KA t)) (p_ N (ct_PA t)) P1 P2 P3
           INGS1 1 (if KP =? 0 then 1 else 0) 0) t.

(** A unit for [pmlolp]: CAPLOS[i], RD[i,0], RD[i,1], RD[i,2]: capacity, probability of
    the derated state, of the full outage, and the share lost when derated (pmsc.py
    126-129, where the docstring of [pmlolp] speaks of the derated capacity in MW). *)
Record ounit := mkOunit { o_cap : Qc; o_pder : Qc; o_pout : Qc; o_share : Qc }.
(** pmlolp.py 41-46 *)
Definition round10 (x : Qc) : Z := let k := qtrunc (Qcplus x (qq 11 2)) in k - k mod 10.
Definition unit_KT (u : ounit) : Z := round10 (o_cap u).
Definition unit_KP (u : ounit) : Z := round10 (Qcmult (qz (unit_KT u)) (o_share u)).
(** 48-49 *)
Definition unit_P1 (u : ounit) : Qc := Qcminus (Qcminus q1 (o_pder u)) (o_pout u).
(** 53 *)
Definition is_added (u : ounit) : bool := qltb (qq 1 1000000) (unit_P1 u).
(** 38-54 *)
Definition add_unit (t : ctab) (u : ounit) : ctab :=
  if is_added u then gsm (unit_KT u) (unit_KP u) (unit_P1 u) (o_pder u) (o_pout u) t else t.
Definition empty_table : ctab := mkCtab 1 (repeat 0 INGS) (q1 :: repeat q0 (INGS - 1)).
Definition pmlolp (us : list ounit) : ctab := fold_left add_unit us empty_table.

(** pmsc.py 191-203: the first entry at or above a capacity, else the last one *)
Fixpoint first_at (C : Qc) (K : list Z) (i : nat) : option nat :=
  match K with [] => None | k :: r => if qleb C (qz k) then Some i else first_at C r (S i) end.
Definition reading (t : ctab) (C : Qc) : Z * Qc :=
  let i := match first_at C (firstn (ct_N t) (ct_KA t)) 0 with Some i => i | None => (ct_N t - 1)%nat end in
  (zget (ct_KA t) i, vget (ct_PA t) i).
