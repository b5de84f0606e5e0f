(** Specification vocabulary of C127: the amounts the linear program looks at. *)
From Verif Require Import Base Sums NetModel LpModel.
Open Scope Z_scope.

(** linp.py takes amounts below 10^-13 for zero: an amount that is zero, or at least 10^-13 in size
    in both units, is not taken for something else in one of them. *)
Definition tiny_amount : Qc := qq 1 10000000000000.
Definition not_tiny (c x : Qc) : Prop := x = q0 \/ (tiny_amount <= qabs x /\ tiny_amount <= qabs (c * x))%Qc.
(** The column that enters the basis, if any. *)
Definition entering (M N1 : nat) (A : arr2) (s : sx) : option nat :=
  match scan M N1 A (rm M (s_CB s) (s_TAB s)) (s_XOB s) (s_IBASF s) with (CM, Some k) => if qltb CM q0 then Some k else None | _ => None end.
(** The amounts of the basic variables in a pass: those of the tableau or, when no column
    enters, those computed afresh. *)
Definition pass_amounts (M N1 : nat) (A : arr2) (BS1 : list Qc) (s : sx) : list Qc :=
  match entering M N1 A s with Some _ => s_BS s | None => if s_IR s then [] else s_BS (reinvert M A BS1 s) end.
Fixpoint run_amounts (fuel M N1 : nat) (A : arr2) (X : arr1) (BS1 : list Qc) (s : sx) : list Qc :=
  match fuel with
  | O => []
  | S f => pass_amounts M N1 A BS1 s ++ match linp_pass M N1 A X BS1 s with Ok (inl s') => run_amounts f M N1 A X BS1 s' | _ => [] end
  end.
(** All amounts one call of the linear program looks at. *)
Definition lp_amounts (fuel : nat) (LP : list (nat * nat)) (LT : list nat) (NR : nat) (BB BLP BN : list (list Qc)) : list Qc :=
  match connls BB (mcol BN 2) (length BN - 1) NR LT BLP LP BN with
  | Ok d => run_amounts fuel (d_M d) (d_N1 d) (d_A d) (d_XOBI1 d) (d_BS d) (linp_start (d_M d) (d_XOBI0 d) (d_IBAS d) (d_BS d))
  | Err _ => []
  end.
(** The linear program, stopping where one of these amounts is tiny but not zero. *)
Definition not_tinyb (c x : Qc) : bool := qeqb x q0 || (qleb tiny_amount (qabs x) && qleb tiny_amount (qabs (Qcmult c x))).
Definition careful (c : Qc) (fuel : nat) (LP : list (nat * nat)) (LT : list nat) (NR : nat) (BB BLP BN : list (list Qc)) : res (list Qc * list (list Qc)) :=
  if forallb (not_tinyb c) (lp_amounts fuel LP LT NR BB BLP BN) then lp_nls fuel LP LT NR BB BLP BN else Err OutOfFuel.
