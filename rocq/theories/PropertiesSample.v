(** Property theorems C13-C16: random streams, generator and line states. *)
From Verif Require Import Base BaseProofs SampleModel SampleProofs.
Open Scope Z_scope.

(** C13.  For every seed, every number of units and lines, every history of draws
    (the ratings and planned outages may differ at each draw): the seed of unit [i]
    and of line [j] are the stated powers modulo 2^31. *)
Theorem C13_streams : forall JSEED NL PROBG DR hist PROBL m,
  length PROBL = NL -> length DR = length PROBG -> shapes (length PROBG) hist ->
  exists IG IL, seeder JSEED (length PROBG) NL = Ok (IG, IL) /\
   (forall i, (i < length PROBG)%nat ->
      nth i (gseeds_after hist IG PROBG DR) 0 =
        (JSEED * 9649599 ^ (Z.of_nat i + 1) * 65539 ^ Z.of_nat (length hist)) mod 2 ^ 31) /\
   (forall j, (j < NL)%nat ->
      nth j (lseeds_after m IL PROBL) 0 =
        (JSEED * 9649599 ^ (Z.of_nat (length PROBG + j) + 1) * 65539 ^ Z.of_nat m) mod 2 ^ 31).
Proof. exact streams. Qed.
Print Assumptions C13_streams.

(** C13, range: no seed ever leaves [0, 2^31) after the first draw. *)
Theorem C13_in_range : forall IG PROBG RT DR PL i,
  (length PROBG <= length IG)%nat -> length RT = length PROBG -> length DR = length PROBG ->
  length PL = length PROBG -> (i < length PROBG)%nat ->
  0 <= nth i (fst (fst (gstate IG PROBG RT DR PL))) 0 < 2 ^ 31.
Proof. exact gstate_range. Qed.
Print Assumptions C13_in_range.
Theorem C13_lines_in_range : forall IL PROBL i,
  (length PROBL <= length IL)%nat -> (i < length PROBL)%nat ->
  0 <= nth i (fst (lstate IL PROBL)) 0 < 2 ^ 31.
Proof. exact lstate_range. Qed.
Print Assumptions C13_lines_in_range.

Example C13_witness :
  shapes 2 [([qz 5; qz 6], [q1; q0]); ([qz 7; qz 6], [q1; q1])] /\
  exists IG IL, seeder 123456 2 1 = Ok (IG, IL) /\
    gseeds_after [([qz 5; qz 6], [q1; q0]); ([qz 7; qz 6], [q1; q1])] IG
      [[qq 1 2; q1]; [qq 1 2; q1]] [q0; q0] = [706313152; 180360256; 1665139264].
Proof. split; [repeat constructor|]. eexists; eexists; split; [vm_compute; reflexivity|]. vm_compute; reflexivity. Qed.

(** C14.  The outcome of a draw, unit by unit: [r] is the unit's new random number,
    [fraction_rule] the three cases, the capacity fraction*rating*status. *)
Theorem C14_outcome : forall IG PROBG RT DR PL i,
  (length PROBG <= length IG)%nat -> length RT = length PROBG -> length DR = length PROBG ->
  length PL = length PROBG -> (i < length PROBG)%nat ->
  let '(IG', PCTAVL, AVAIL) := gstate IG PROBG RT DR PL in
  let r := Qcmult (qz (nth i IG' 0)) (qq 4656613 10000000000000000) in
  length PCTAVL = length PROBG /\ length AVAIL = length PROBG /\
  ((r < mget PROBG i 0)%Qc -> vget PCTAVL i = q1) /\
  ((mget PROBG i 0 <= r)%Qc -> (r < mget PROBG i 1)%Qc -> vget PCTAVL i = vget DR i) /\
  ((mget PROBG i 0 <= r)%Qc -> (mget PROBG i 1 <= r)%Qc -> vget PCTAVL i = q0) /\
  vget AVAIL i = Qcmult (Qcmult (vget PCTAVL i) (vget RT i)) (vget PL i).
Proof. exact gstate_outcome. Qed.
Print Assumptions C14_outcome.

(** C14: nothing available on planned outage; never more than the rating. *)
Theorem C14_capacity_bounds : forall IG PROBG RT DR PL i,
  (length PROBG <= length IG)%nat -> length RT = length PROBG -> length DR = length PROBG ->
  length PL = length PROBG -> (i < length PROBG)%nat ->
  let AVAIL := snd (gstate IG PROBG RT DR PL) in
  (vget PL i = q0 -> vget AVAIL i = q0) /\
  ((q0 <= vget DR i)%Qc -> (vget DR i <= q1)%Qc -> (q0 <= vget RT i)%Qc ->
   vget PL i = q0 \/ vget PL i = q1 ->
   (q0 <= vget AVAIL i)%Qc /\ (vget AVAIL i <= vget RT i)%Qc).
Proof. exact gstate_bounds. Qed.
Print Assumptions C14_capacity_bounds.

(** C14: the bisection variant [_gstate] gives the same fraction, ties excluded. *)
Theorem C14_alternative_agrees : forall r p0 p1 der,
  (p0 <= p1)%Qc -> r <> p0 -> r <> p1 ->
  gen_fraction_alt r p0 p1 der = gen_fraction r p0 p1 der.
Proof. exact gen_fraction_alt_eq. Qed.
Print Assumptions C14_alternative_agrees.

Example C14_witness :
  map (fun r => gen_fraction r (qq 9 10) (qq 19 20) (qq 1 4)) [qq 1 2; qq 9 10; qq 19 20; q1]
    = [q1; qq 1 4; q0; q0] /\
  gen_fraction_alt (qq 9 10) (qq 9 10) (qq 19 20) (qq 1 4) = q1.
Proof. split; vm_compute; reflexivity. Qed.

(** C15.  If the initial seed is a multiple of 64, a unit with full-output threshold
    1 is fully available at every draw of every history. *)
Theorem C15_reliable_unit : forall JSEED NL PROBG DR hist RT PL i,
  (64 | JSEED) -> length DR = length PROBG -> shapes (length PROBG) hist ->
  length RT = length PROBG -> length PL = length PROBG ->
  (i < length PROBG)%nat -> mget PROBG i 0 = q1 ->
  exists IG IL, seeder JSEED (length PROBG) NL = Ok (IG, IL) /\
    nth i (snd (fst (gstate (gseeds_after hist IG PROBG DR) PROBG RT DR PL))) q0 = q1.
Proof. exact reliable_unit. Qed.
Print Assumptions C15_reliable_unit.

(** The seed the program uses (narpMain.py 91) is a multiple of 64. *)
Theorem C15_shipped_seed : (64 | 123456).
Proof. exists 1929. reflexivity. Qed.
Print Assumptions C15_shipped_seed.

(** The restriction is needed: with seed 98769387 the first draw of the first unit
    is a random number above 1 and the perfectly reliable unit is drawn as failed. *)
Theorem C15_other_seed_fails : exists IG IL,
  seeder 98769387 1 0 = Ok (IG, IL) /\
  snd (fst (gstate IG [[q1; q1]] [qz 100] [q0] [q1])) = [q0].
Proof. eexists; eexists; split; [vm_compute; reflexivity|]. vm_compute; reflexivity. Qed.
Print Assumptions C15_other_seed_fails.

(** C16.  Each line's state is the first k in 1..5 whose cumulative probability is
    not exceeded by the line's random number, else 6. *)
Theorem C16_line_states : forall IL PROBL j,
  (length PROBL <= length IL)%nat -> (j < length PROBL)%nat ->
  let '(IL', LNSTAT) := lstate IL PROBL in
  let r := Qcmult (qz (nth j IL' 0)) (qq 4656613 10000000000000000) in
  let P := nth j PROBL [] in
  length LNSTAT = length PROBL /\ 1 <= zget LNSTAT j <= 6 /\
  (forall k, 1 <= k <= 5 -> (zget LNSTAT j = k <->
     (r <= vget P (Z.to_nat (k - 1)))%Qc /\
     forall k', 1 <= k' < k -> (vget P (Z.to_nat (k' - 1)) < r)%Qc)) /\
  (zget LNSTAT j = 6 <-> forall k', 1 <= k' <= 5 -> (vget P (Z.to_nat (k' - 1)) < r)%Qc).
Proof. exact lstate_rule. Qed.
Print Assumptions C16_line_states.

(** C16: the vectorised sampler draws the same state from the same random number,
    ties excluded, if the number is below the last cumulative probability. *)
Theorem C16_alternative_agrees : forall r P,
  (r < vget P 5)%Qc -> (forall i, (i < 5)%nat -> r <> vget P i) ->
  line_state_alt r P = line_state r P.
Proof. exact line_state_alt_eq. Qed.
Print Assumptions C16_alternative_agrees.

Example C16_witness :
  let P := [qq 1 2; qq 6 10; qq 7 10; qq 8 10; qq 9 10; q1] in
  map (fun r => line_state r P) [qq 1 4; qq 65 100; qq 95 100] = [1; 3; 6] /\
  map (fun r => line_state_alt r P) [qq 1 4; qq 65 100; qq 95 100] = [1; 3; 6].
Proof. split; vm_compute; reflexivity. Qed.
