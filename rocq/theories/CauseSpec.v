(** Specification vocabulary for C101: complete input data, and the situations in which
    a run stops with an exception. *)
From Verif Require Import Base Sums LoadSpec NetModel NetSpec ControlModel ControlSpec HourModel HourSpec ProgramModel ProgramSpec.
Open Scope Z_scope.

(** [np.linalg.inv]: it inverts what has an inverse. *)
Definition inverts (inv : list (list Qc) -> option (list (list Qc))) : Prop :=
  inv_ok inv /\ forall m M Z, shape m m M -> is_inverse m (mget Z) (mget M) -> is_inverse m (mget M) (mget Z) -> inv M <> None.

(** The lines: six states of three values each; the table of direct lines between areas
    holds line numbers or -1. *)
Record lines_ok (n nl : nat) (cf : hcfg) : Prop := mkLinesOk {
  lo_count : (0 < nl)%nat /\ length (x_LP cf) = nl;
  lo_rows : shape nl 18 (x_BLPA cf);
  lo_table : shape n n (x_LINENO cf);
  lo_direct : forall a b, (a < n)%nat -> (b < n)%nat -> -1 <= zmget (x_LINENO cf) a b < Z.of_nat nl }.

(** The network with every line in its first state: it connects all areas. *)
Record base_net (n : nat) (cf : hcfg) : Prop := mkBaseNet {
  bn_areas : lp_areas (x_LP cf) = n;
  bn_ends : distinct_ends (x_LP cf);
  bn_ref : (x_NR cf < n)%nat;
  bn_adm : forall k, (k < length (x_LP cf))%nat -> (mget (x_BLPA cf) k 0 < q0)%Qc;
  bn_conn : network_connected n (x_NR cf) (combine (x_LP cf) (mcol (x_BLPA cf) 0)) }.

(** The outage table: a row for each of the 52 weeks. *)
Definition outages_ok (nu : nat) (JPLOUT : list (list Z)) : Prop := length JPLOUT = 52%nat /\ Forall (row_ok nu) JPLOUT.

Section Stops.
  Variables (inv : list (list Qc) -> option (list (list Qc)))
            (lp : list (list Qc) -> list (list Qc) -> list (list Qc) -> res (list Qc * list (list Qc))).
  Variables (n : nat) (cf : hcfg) (k : Z) (AVAIL : list Qc) (LNSTAT : list Z).
  (** no fresh states are due in the hour ending at k (C51) *)
  Definition no_draw_due : Prop :=
    1 < x_JFREQ cf /\ (if x_JSTEP cf =? 24 then zget (x_MXPLHR cf) (day_of_year k) else k mod 8760 - 1) mod x_JFREQ cf <> 0.
  (** all levels before l have been recorded as shortages *)
  Definition reached (l : nat) : Prop :=
    exists recs, length recs = l /\ map fst recs = seq 0 l /\ Forall (level_record inv lp n cf k AVAIL LNSTAT) recs.
  (** the network solution of level l ends in the exception er *)
  Definition network_fails (l : nat) (er : pyerr) : Prop :=
    exists first net0, length (n_BN net0) = n /\
      transm inv lp first net0 (x_BLPA cf) (x_LP cf) (x_NR cf) (repeat [q1; q1] (length LNSTAT)) LNSTAT (x_NLS cf)
        (vtab n (fun j => net_export n (x_JENT cf) (x_INTCH cf) j (day_of_year k)))
        (vtab n (fun j => Qcminus (located cf AVAIL j) (owned_cap cf AVAIL j)))
        (vtab n (located cf AVAIL)) (vtab n (demand cf k l)) = Err er.
  (** the linear program fails, or it is the one for loss sharing (C80) *)
  Definition program_fails (er : pyerr) : Prop :=
    (exists B L BN, length BN = n /\ lp B L BN = Err er) \/ x_NLS cf = false /\ er = TypeError.

  (** Why the hour ending at k stops with er: no states; a level without shortage
      (C50); or a level at which some but not all areas are short and the network
      solution fails. *)
  Definition hour_stops (er : pyerr) : Prop :=
    no_draw_due /\ er = UnboundLocalError \/
    exists l, (l < x_NFCST cf)%nat /\ reached l /\
      ((forall j, (j < n)%nat -> ~ short cf AVAIL k l j) /\ er = IndexError \/
       (exists j, (j < n)%nat /\ short cf AVAIL k l j) /\ (exists j, (j < n)%nat /\ ~ short cf AVAIL k l j) /\ network_fails l er).
End Stops.
