(** Specification vocabulary of C124: limits so wide that the first solution of the network
    always respects them. *)
From Verif Require Import Base Sums LoadSpec SampleModel NetModel NetSpec StatModel StatSpec YearSpec ReportSpec HourModel HourSpec CauseSpec ControlModel ProgramModel ProgramSpec.
Open Scope Z_scope.

(** The transfers asked of the network at clock k and level l with available capacities AV:
    in each area the contracted net export with the ownership transfer, and the difference
    between located capacity and demand. *)
Definition asked_at (n : nat) (cf : hcfg) (k : Z) (l : nat) (AV : list Qc) : Qc :=
  qs n (fun j => Qcplus (qabs (Qcplus (net_export n (x_JENT cf) (x_INTCH cf) j (day_of_year k)) (Qcminus (located cf AV j) (owned_cap cf AV j))))
                        (qabs (Qcminus (located cf AV j) (demand cf k l j)))).

(** Capacities a draw can make available: each unit between nothing and one of its
    ratings. *)
Definition can_be_available (nu : nat) (i : input) (AV : list Qc) : Prop :=
  length AV = nu /\ forall u, (u < nu)%nat -> (q0 <= vget AV u)%Qc /\ (vget AV u = q0 \/ exists x, In x (nth u (i_RATES i) []) /\ (vget AV u <= x)%Qc).

(** In the line states LN the network still joins all areas; lines at the reference area
    are in service. *)
Record still_joined (n : nat) (cf : hcfg) (LN : list Z) : Prop := mkStillJoined {
  sj_adm : forall v, (v < length (x_LP cf))%nat -> (state_adm (x_BLPA cf) LN v <= q0)%Qc;
  sj_ref : forall v, (v < length (x_LP cf))%nat -> fst (nth v (x_LP cf) (0, 0)%nat) = x_NR cf \/ snd (nth v (x_LP cf) (0, 0)%nat) = x_NR cf -> state_adm (x_BLPA cf) LN v <> q0;
  sj_conn : network_connected n (x_NR cf) (combine (x_LP cf) (map (state_adm (x_BLPA cf) LN) (seq 0 (length (x_LP cf))))) }.

(** Every line, in every state drawn, and every area can take twice what may be asked. *)
Definition wide_limits (n : nat) (cf : hcfg) (BN : list (list Qc)) (LN : list Z) (W : Qc) : Prop :=
  (forall v, (v < length (x_LP cf))%nat -> (W + W <= mget (x_BLPA cf) v (state_base LN v + 1) /\ W + W <= mget (x_BLPA cf) v (state_base LN v + 2))%Qc) /\
  (forall j, (j < n)%nat -> (W + W <= mget BN j 3 /\ W + W <= mget BN j 4)%Qc).

Record ample (n nu nl : nat) (i : input) : Prop := mkAmple {
  am_derate : forall u, (u < nu)%nat -> (q0 <= vget (x_DERATE (i_h i)) u /\ vget (x_DERATE (i_h i)) u <= q1)%Qc;
  am_rates : forall u x, In x (nth u (i_RATES i) []) -> (q0 <= x)%Qc;
  am_lines : forall k LN, (1 <= k)%nat -> line_states nu nl i k LN -> still_joined n (i_h i) LN;
  am_limits : forall k l AV LN, (1 <= k)%nat -> (l < x_NFCST (i_h i))%nat -> can_be_available nu i AV -> line_states nu nl i k LN ->
    wide_limits n (i_h i) (i_BN i) LN (asked_at n (i_h i) (x_JSTEP (i_h i) * Z.of_nat k) l AV) }.
