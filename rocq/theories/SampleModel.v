(** Model of the random sampling: [seeder], [gstate], [_gstate], [lstate] and the
    vectorised [line_prob_sampling.lstate]. *)
From Verif Require Import Base.
Open Scope Z_scope.

(** numpy int32 arithmetic: the value stored for a mathematical integer. *)
Definition wrap32 (v : Z) : Z := (v + 2147483648) mod 4294967296 - 2147483648.

(** The idiom  [S = S * m; if S < 0: S += 2147483647; S += 1]  on an int32 cell
    (seeder.py 20-23 and 30-33, gstate.py 33-36, lstate.py 26-29).  The two
    additions cannot overflow; they are nevertheless stored through [wrap32]. *)
Definition next_seed (s m : Z) : Z :=
  let v := wrap32 (s * m) in
  if v <? 0 then wrap32 (wrap32 (v + 2147483647) + 1) else v.

(** seeder.py 19-25 / 29-35: the loop over [n] cells starting from the value in
    cell 0; the result has [n+1] cells, the last one a copy. *)
Fixpoint seed_chain (s : Z) (n : nat) : list Z :=
  match n with
  | O => [s]
  | S k => let s' := next_seed s 9649599 in
           match k with O => [s'; s'] | _ => s' :: seed_chain s' k end
  end.

(** seeder.py 4-36.  [IGSEED[NUNITS - 1]] follows Python's negative index when
    NUNITS = 0.  JSEED is assumed to fit an int32. *)
Definition seeder (JSEED : Z) (NUNITS NLINES : nat) : res (list Z * list Z) :=
  let IG := seed_chain JSEED NUNITS in
  do s <- pyget IG (Z.of_nat NUNITS - 1);
  Ok (IG, seed_chain s NLINES).

(** gstate.py 37-39 / lstate.py 30-32: [float(seed) * 0.4656613e-9]. *)
Definition rand_of (s : Z) : Qc := Qcmult (qz s) (qq 4656613 10000000000000000).

(** gstate.py 41-47: availability fraction from the random number. *)
Definition gen_fraction (r p0 p1 der : Qc) : Qc :=
  if qltb r p0 then q1 else if qltb r p1 then der else q0.

(** gstate.py 31-51 [gstate]: new seeds, PCTAVL, AVAIL.  IGSEED has one cell
    more than there are units; that cell is not touched. *)
Fixpoint gstate (IGSEED : list Z) (PROBG : list (list Qc)) (RATING DERATE PLNDST : list Qc)
  {struct PROBG} : list Z * list Qc * list Qc :=
  match PROBG, IGSEED, RATING, DERATE, PLNDST with
  | p :: ps, s :: ss, r :: rs, d :: ds, o :: os =>
      let s' := next_seed s 65539 in
      let f := gen_fraction (rand_of s') (nth 0 p q0) (nth 1 p q0) d in
      let '(ss', fs, av) := gstate ss ps rs ds os in
      (s' :: ss', f :: fs, Qcmult (Qcmult f r) o :: av)
  | _, ss, _, _, _ => (ss, [], [])
  end.

(** gstate.py 71-81 [_gstate], with the random numbers as an argument.  [bisect_left]
    on a two-element row, unfolded. *)
Definition bisect_left2 (p0 p1 x : Qc) : nat :=
  if qltb p1 x then 2%nat else if qltb p0 x then 1%nat else 0%nat.
Definition gen_fraction_alt (r p0 p1 der : Qc) : Qc :=
  match bisect_left2 p0 p1 r with O => q1 | 1%nat => der | _ => q0 end.

(** lstate.py 34-46: state of one line from its random number and its column of
    cumulative probabilities. *)
Definition line_state (r : Qc) (P : list Qc) : Z :=
  if qleb r (nth 0 P q0) then 1
  else if qleb r (nth 1 P q0) then 2
  else if qleb r (nth 2 P q0) then 3
  else if qleb r (nth 3 P q0) then 4
  else if qleb r (nth 4 P q0) then 5
  else 6.

(** lstate.py 21-48 [lstate]; PROBL is passed as its list of columns. *)
Fixpoint lstate (ILSEED : list Z) (PROBL : list (list Qc)) {struct PROBL} : list Z * list Z :=
  match PROBL, ILSEED with
  | p :: ps, s :: ss =>
      let s' := next_seed s 65539 in
      let '(ss', st) := lstate ss ps in (s' :: ss', line_state (rand_of s') p :: st)
  | _, ss => (ss, [])
  end.

(** line_prob_sampling.py 19-34 (vectorised): the masks of the loop over the six
    states, for one line; 0 when no mask ever applied. *)
Definition line_state_alt (r : Qc) (P : list Qc) : Z :=
  fold_left (fun st i => if (st =? 0) && qltb r (nth i P q0) then Z.of_nat i + 1 else st) (seq 0 6) 0.

(** Repeated draws: the seeds after a history of calls of [gstate], one call per
    element [(RATING, PLNDST)] of [hist] (hour.py 104-107: ratings and planned outages
    change between draws), and after [n] calls of [lstate]. *)
Fixpoint gseeds_after (hist : list (list Qc * list Qc)) (IG : list Z) (PROBG : list (list Qc)) (DERATE : list Qc) : list Z :=
  match hist with
  | [] => IG
  | (rt, pl) :: h => gseeds_after h (fst (fst (gstate IG PROBG rt DERATE pl))) PROBG DERATE
  end.
Fixpoint lseeds_after (n : nat) (IL : list Z) (PROBL : list (list Qc)) : list Z :=
  match n with
  | O => IL
  | S k => lseeds_after k (fst (lstate IL PROBL)) PROBL
  end.
