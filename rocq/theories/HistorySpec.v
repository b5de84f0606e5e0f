(** Specification vocabulary of C107: the network data kept between hours. *)
From Verif Require Import Base NetModel StatModel YearModel HourModel ProgramModel.
Open Scope Z_scope.

(** Two tables of areas agree in all columns but those in [cols]. *)
Definition agree_off (cols : list nat) (B B' : list (list Qc)) : Prop :=
  length B' = length B /\ forall i, length (nth i B' []) = length (nth i B []) /\ forall c, ~ In c cols -> mget B' i c = mget B i c.
(** Columns 1 and 2 (injection and load) are working space, written before they are read;
    column 0 is the number of the area, 3 the limit on imports, 4 the limit on exports. *)
Definition same_areas : list (list Qc) -> list (list Qc) -> Prop := agree_off [1; 2]%nat.
(** The linear-programming branch does not touch the limits. *)
Definition keeps_limits (lp : list (list Qc) -> list (list Qc) -> list (list Qc) -> res (list Qc * list (list Qc))) : Prop :=
  forall BB BLP BN F BN', lp BB BLP BN = Ok (F, BN') -> same_areas BN BN'.

(** The state of an hour with other network data. *)
Definition with_net (s : hst) (N : netst) : hst := mkHst (IGSEED s) (ILSEED s) N (LSFLG s) (hrs s) (pks s).
(** The same limit for both directions. *)
Definition equal_limits (B : list (list Qc)) : Prop := forall i, (i < length B)%nat -> mget B i 4 = mget B i 3.
(** Two hours with the same outcome: the same failure, or states that agree in seeds, loss
    flags and statistics, and in the limits of the areas. *)
Definition same_hour (r r' : res hst) : Prop := match r with
  | Err e => r' = Err e
  | Ok t => exists M, r' = Ok (with_net t M) /\ same_areas (n_BN (hnet t)) (n_BN M) end.
(** The network of the cards, and the same with each area's import limit also in the place
    of its export limit. *)
Definition cards_net (i : input) : netst := first_net i.
Definition exports_as_imports (i : input) : netst :=
  let N := first_net i in mkNet (map (fun r => upd r 4 (nth 3 r q0)) (n_BN N)) (n_BLP0 N) (n_BB N) (n_LT N) (n_ZB N).
(** Every area has the five columns. *)
Definition wide (B : list (list Qc)) : Prop := forall i, (i < length B)%nat -> (4 < length (nth i B []))%nat.
