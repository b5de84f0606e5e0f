(** The convergence test with binary64 numbers: cvchk.py with rounding.  [x ** 2] and
    [pow(x, 0.5)] are the C library's pow, which is not specified to round correctly: they are
    arguments of the model ([FloatConvSpec] says what is asked of them).  SUM is an element
    of a numpy array (year.py 655-717), so [pow] of a negative number is nan ([None]) and
    comparisons with it are false. *)
From Verif Require Import Base FloatModel.
Open Scope Z_scope.

Section FloatConv.
  Variable sq : Qc -> Qc.                  (** [x ** 2] *)
  Variable root : Qc -> option Qc.         (** [pow(x, 0.5)] *)

  (** cvchk.py 22-61: (RFLAG, SSQ, XLAST); line 41 ([XKCPXX]) is only printed *)
  Definition fcvchk (CLOCK FINISH : Qc) (IYEAR : Z) (CVTEST SUM XLAST SSQ : Qc) : Z * Qc * Qc :=
    let RFLAG := if qleb FINISH CLOCK then 1 else 0 in
    let DIFF := fsub SUM XLAST in
    let SSQ := fadd SSQ (sq DIFF) in
    if IYEAR <? 5 then (RFLAG, SSQ, SUM)
    else
      let y := qz IYEAR in
      let XMEAN := fdiv SUM y in
      let XX := if qeqb CVTEST q0 then fmul (fl (qq 25 1000)) XMEAN else fmul CVTEST XMEAN in
      let STDERR := root (fdiv (fsub (fdiv SSQ y) (sq XMEAN)) y) in
      if qeqb XMEAN q0 then (RFLAG, SSQ, SUM)
      else match STDERR with
           | Some s => if qltb s XX then (1, SSQ, SUM) else (RFLAG, SSQ, SUM)
           | None => (RFLAG, SSQ, SUM)
           end.

  (** The test as [year] uses it (year.py 719): after every year with the accumulated sum
      of the yearly values, at hours 8760, 2*8760, ...; the list of answers. *)
  Fixpoint fcv_run (fin cv : Qc) (y : Z) (sum XL SSQ : Qc) (xs : list Qc) : list Z * Qc * Qc :=
    match xs with
    | [] => ([], SSQ, XL)
    | x :: r =>
        let '(R, SSQ', XL') := fcvchk (qz (8760 * (y + 1))) fin (y + 1) cv (fadd sum x) XL SSQ in
        let '(Rs, s, l) := fcv_run fin cv (y + 1) (fadd sum x) XL' SSQ' r in
        (R :: Rs, s, l)
    end.
End FloatConv.
