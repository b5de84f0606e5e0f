(** Model of the three samplers of line_prob_sampling.py.  [R]: the numbers delivered by
    the generator, [rng.random(n)] being n calls of [rng.random()]. *)
From Verif Require Import Base LoadModel SampleModel.
Open Scope Z_scope.

(** line_prob_sampling.py 19-34 [lstate]: row i of PROBL_mat belongs to line i *)
Definition lstate_matrix (R : list Qc) (PROBL : list (list Qc)) : list Z := map2 line_state_alt R PROBL.

(** line_prob_sampling.py 67: [np.concatenate(([PROBL[0]], np.diff(PROBL)))] *)
Fixpoint diffs (x : Qc) (l : list Qc) : list Qc := match l with [] => [] | y :: r => Qcminus y x :: diffs y r end.
Definition to_prob (PROBL : list Qc) : list Qc := match PROBL with [] => [] | p :: r => p :: diffs p r end.
(** [math.isclose(x, 1)]: relative tolerance 1e-9 *)
Definition is_one (x : Qc) : bool := qleb (qabs (Qcminus x q1)) (Qcmult (qq 1 1000000000) (if qltb q1 (qabs x) then qabs x else q1)).
(** 51-58, 66-69 and 110-117, 119-122: the checks; the plain Exception of 69 is
    [AssertionError] here.  PROBL has six entries; types are as documented. *)
Definition checked (NLINES : Z) (PROBL : list Qc) : res unit :=
  if NLINES <=? 0 then Err ValueError
  else if is_one (qsum (to_prob PROBL)) then Ok tt else Err AssertionError.
(** 42-90 [lstate_original] *)
Definition lstate_original (NLINES : Z) (PROBL : list Qc) (R : list Qc) : res (list Z) :=
  do _ <- checked NLINES PROBL;
  Ok (map (fun r => line_state r PROBL) (firstn (Z.to_nat NLINES) R)).

(** numpy's [cumsum] *)
Fixpoint sums (x : Qc) (l : list Qc) : list Qc := match l with [] => [] | y :: r => Qcplus x y :: sums (Qcplus x y) r end.
(** numpy's [searchsorted(cdf, u, side="right")] on an increasing array: how many entries are <= u *)
Definition search_right (cdf : list Qc) (u : Qc) : nat := length (filter (fun c => qleb c u) cdf).
(** numpy's [Generator.choice(a, n, p=PROB)]: [p] must sum to 1 (up to 2^-26) and not be
    negative; then the uniform numbers are looked up in the normalised cumulative sums *)
Definition choice (a : list Z) (PROB : list Qc) (R : list Qc) : res (list Z) :=
  if qltb (qq 1 67108864) (qabs (Qcminus (qsum PROB) q1)) then Err ValueError
  else if existsb (fun p => qltb p q0) PROB then Err ValueError
  else let cdf := sums q0 PROB in
       let cdf := map (fun c => Qcdiv c (last cdf q0)) cdf in
       Ok (map (fun u => nth (search_right cdf u) a 0) R).
(** 93-133 [discrete_prob_gen] *)
Definition discrete_prob_gen (NLINES : Z) (PROBL : list Qc) (R : list Qc) : res (list Z) :=
  do _ <- checked NLINES PROBL;
  choice [1; 2; 3; 4; 5; 6] (to_prob PROBL) (firstn (Z.to_nat NLINES) R).
