(** Specification vocabulary for one simulated hour. *)
From Verif Require Import Base Sums LoadSpec StatModel StatSpec NetModel ControlModel ControlSpec HourModel.
Open Scope Z_scope.

(** A well-formed study: n areas, nu units, nl lines; one year of hourly loads, up to
    five forecast levels. *)
Record study (n nu nl : nat) (cf : hcfg) : Prop := mkStudy {
  st_areas : (0 < n)%nat;
  st_load : shape n (365 * 24) (x_HRLOAD cf);
  st_fct : shape n 5 (x_FCTERR cf);
  st_own : shape n nu (x_CAPOWN cf);
  st_con : length (x_CAPCON cf) = nu /\ forall i, (i < nu)%nat -> 0 <= zget (x_CAPCON cf) i < Z.of_nat n;
  st_units : length (x_PROBG cf) = nu /\ length (x_DERATE cf) = nu;
  st_lines : length (x_PROBL cf) = nl;
  st_ptr : shape n n (x_JENT cf) /\ pointers_ok n (x_JENT cf) (x_INTCH cf) /\ (forall r, In r (x_INTCH cf) -> length r = 365%nat);
  st_peak : length (x_MXPLHR cf) = 365%nat /\
    forall d, (d < 365)%nat -> 0 <= zget (x_MXPLHR cf) d < 8760;
  st_levels : (1 <= x_NFCST cf <= 5)%nat }.

(** The calendar: the hour ending at clock k (a whole number) is hour
    (k-1) mod 8760 of its year, on day hour/24. *)
Definition hour_of_year (k : Z) : nat := Z.to_nat ((k - 1) mod 8760).
Definition day_of_year (k : Z) : nat := (hour_of_year k / 24)%nat.
(** the hour whose loads are used: with a daily step the day's peak hour *)
Definition hour_used (cf : hcfg) (k : Z) : nat :=
  if x_JSTEP cf =? 24 then Z.to_nat (zget (x_MXPLHR cf) (day_of_year k)) else hour_of_year k.

(** available capacity located in area j, and its demand at forecast level l *)
Definition located (cf : hcfg) (AVAIL : list Qc) (j : nat) : Qc :=
  qs (length AVAIL) (fun i => if zget (x_CAPCON cf) i =? Z.of_nat j then vget AVAIL i else q0).
Definition demand (cf : hcfg) (k : Z) (l j : nat) : Qc :=
  Qcmult (mget (x_HRLOAD cf) j (hour_used cf k)) (mget (x_FCTERR cf) j l).
(** area j lacks at least a whole MW on its own *)
Definition short (cf : hcfg) (AVAIL : list Qc) (k : Z) (l j : nat) : Prop :=
  (located cf AVAIL j + q1 <= demand cf k l j)%Qc.
(** its margin: capacity minus demand, rounded towards zero *)
Definition own_margin (cf : hcfg) (AVAIL : list Qc) (k : Z) (l j : nat) : Z :=
  qtrunc (Qcminus (located cf AVAIL j) (demand cf k l j)).

(** The state between events: array sizes. *)
Record hst_ok (n nu nl : nat) (s : hst) : Prop := mkHstOk {
  ho_ig : (nu <= length (IGSEED s))%nat; ho_il : (nl <= length (ILSEED s))%nat;
  ho_bn : length (n_BN (hnet s)) = n; ho_flag : length (LSFLG s) = n;
  ho_h : stat_shape n 5 (hrs s); ho_p : stat_shape n 5 (pks s) }.

(** the linear-programming branch keeps the number of areas *)
Definition keeps_areas (lp : list (list Qc) -> list (list Qc) -> list (list Qc) -> res (list Qc * list (list Qc))) : Prop :=
  forall B L BN F BN', lp B L BN = Ok (F, BN') -> length BN' = length BN.

(** owned capacity of area j *)
Definition owned_cap (cf : hcfg) (AVAIL : list Qc) (j : nat) : Qc :=
  qs (length AVAIL) (fun i => Qcmult (mget (x_CAPOWN cf) j i) (vget AVAIL i)).

Section Levels.
  Variables (inv : list (list Qc) -> option (list (list Qc)))
            (lp : list (list Qc) -> list (list Qc) -> list (list Qc) -> res (list Qc * list (list Qc))).
  Variables (n : nat) (cf : hcfg) (k : Z) (AVAIL : list Qc) (LNSTAT : list Z).

  (** What the network solution answers at forecast level l for the drawn capacities
      AVAIL and line states LNSTAT: were emergency transfers needed, and the areas'
      adjustments.  Its inputs are the contracts of the day, the joint-ownership
      transfers, the located capacities and the demands. *)
  Definition network_answer (l : nat) (emergency : bool) (SADJ : list Qc) : Prop :=
    exists first net0 FLOW net1,
      transm inv lp first net0 (x_BLPA cf) (x_LP cf) (x_NR cf) (repeat [q1; q1] (length LNSTAT)) LNSTAT (x_NLS cf)
        (vtab n (fun j => net_export n (x_JENT cf) (x_INTCH cf) j (day_of_year k)))
        (vtab n (fun j => Qcminus (located cf AVAIL j) (owned_cap cf AVAIL j)))
        (vtab n (located cf AVAIL)) (vtab n (demand cf k l)) = Ok (emergency, FLOW, SADJ, net1).

  (** A record (level, margins): some area is short on its own; if all are, the
      margins are their own, otherwise they are the network's answer. *)
  Definition level_record (r : nat * list Z) : Prop :=
    let (l, M) := r in
    length M = n /\ (exists j, (j < n)%nat /\ zget M j < 0) /\ (exists j, (j < n)%nat /\ short cf AVAIL k l j) /\
    ((forall j, (j < n)%nat -> short cf AVAIL k l j) /\ (forall j, (j < n)%nat -> zget M j = own_margin cf AVAIL k l j) \/
     (exists j, (j < n)%nat /\ ~ short cf AVAIL k l j) /\
     exists SADJ, network_answer l true SADJ /\ M = map (fun x => qtrunc (Qcopp x)) SADJ).

  (** Some but not all areas are short on their own and the network covers it. *)
  Definition level_covered (l : nat) : Prop :=
    (exists j, (j < n)%nat /\ short cf AVAIL k l j) /\ (exists j, (j < n)%nat /\ ~ short cf AVAIL k l j) /\
    exists em SADJ, network_answer l em SADJ /\ (em = false \/ forall x, In x SADJ -> 0 <= qtrunc (Qcopp x)).
End Levels.
