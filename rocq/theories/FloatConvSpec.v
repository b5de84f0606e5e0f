(** Specification vocabulary of C122: what is asked of the C library's pow, and when a
    history of yearly values is clear of the limit of the convergence test. *)
From Verif Require Import Base Sums StatModel YearModel YearSpec FloatSpec.
Open Scope Z_scope.

(** [x ** 2] is off by at most one unit in the last place (unless it underflows), and exact
    if a binary64 number.  (Only binary64 arguments occur.) *)
Definition square_ok (sq : Qc -> Qc) : Prop :=
  forall x, ((p2 (-1022) <= qsq x)%Qc -> (qabs (sq x - qsq x) <= p2 (-52) * qsq x)%Qc) /\ (b64 (qsq x) -> sq x = qsq x).
(** [pow(x, 0.5)] is nan for negative x and else within one unit in the last place of the
    root: (1 - 2^-52) sqrt x <= s <= (1 + 2^-52) sqrt x, in squares. *)
Definition root_ok (root : Qc -> option Qc) : Prop :=
  forall x, match root x with
            | None => (x < q0)%Qc
            | Some s => (q0 <= x)%Qc /\ (q0 <= s)%Qc /\ (qsq (q1 - p2 (-52)) * x <= qsq s)%Qc /\ (qsq s <= qsq (q1 + p2 (-52)) * x)%Qc
            end.

(** The squared standard error is not within a relative 2^-30 of the squared limit. *)
Definition clear_of_limit (cv : Qc) (xs : list Qc) : Prop :=
  let L := qsq (tolerance cv * mean xs)%Qc in
  (sq_err xs <= (q1 - p2 (-30)) * L)%Qc \/ ((q1 + p2 (-30)) * L <= sq_err xs)%Qc.
(** A tolerance of zero (the default 0.025) or of 2^-11 (about 0.0005) or more. *)
Definition usual_tolerance (cv : Qc) : Prop := cv = q0 \/ (p2 (-11) <= cv)%Qc.

(** Sum of the squares of whole numbers. *)
Definition ssq (zs : list Z) : Z := zsum (map (fun z => z * z) zs).
(** The yearly value selected for the test, without forecast error: a whole number. *)
Definition whole_value (NO : nat) (pl : place) (wn : when) (wt : what) (a : annual) : Z :=
  let s := match wn with Hourly => fst a | Peak => snd a end in
  match pl, wt with
  | Area j, LOLE => zmget (lolT s) j NO + zmget (lolG s) j NO
  | Area j, EUE => zmget (mgnT s) j NO + zmget (mgnG s) j NO
  | Pool, LOLE => zget (plolT s) NO + zget (plolG s) NO
  | Pool, EUE => zget (pmgnT s) NO + zget (pmgnG s) NO
  end.
