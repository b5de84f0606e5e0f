(** Specification vocabulary for the event calendar: what it means for the flat
    array to hold a given list of pending events.  Nothing here mentions the
    algorithms of the model. *)
From Coq Require Import Sorted Permutation.
From Verif Require Import Base EventModel.
Open Scope Z_scope.

(** an event: (time, type) *)
Definition event : Type := Qc * Qc.

(** the number in cell [p] *)
Definition cell (ev : list Qc) (p : Z) : Qc := nth (Z.to_nat p) ev q0.

(** [slot ev p]: cells p .. p+3 exist and p is a slot address. *)
Definition slot (ev : list Qc) (p : Z) : Prop :=
  0 <= p /\ p mod 4 = 0 /\ p + 3 < Z.of_nat (length ev).

(** [linked ev p ss q]: following next-pointers from [p] visits exactly the
    slots [ss] and ends at pointer value [q]. *)
Fixpoint linked (ev : list Qc) (p : Z) (ss : list Z) (q : Z) : Prop :=
  match ss with
  | [] => p = q
  | s :: ss' => p = s /\ exists nx, cell ev s = qz nx /\ linked ev nx ss' q
  end.

Definition event_at (ev : list Qc) (s : Z) : event := (cell ev (s + 1), cell ev (s + 2)).

(** chronological: non-decreasing times *)
Definition chronological (l : list event) : Prop :=
  StronglySorted (fun a b => (fst a <= fst b)%Qc) l.

(** [holds c l n]: calendar [c] holds exactly the pending events [l], in this
    order of delivery, and has [n] usable free slots on its free list. *)
Definition holds (c : cal) (l : list event) (n : nat) : Prop :=
  exists ss fs,
    linked (EVNTS c) (IPOINT c) ss (-1) /\
    (exists q, linked (EVNTS c) (MFA c) fs q) /\
    NoDup (ss ++ fs) /\ (forall s, In s (ss ++ fs) -> slot (EVNTS c) s) /\
    l = map (event_at (EVNTS c)) ss /\
    chronological l /\
    NUMINQ c = Z.of_nat (length l) /\
    n = length fs.

(** A schedule of [e] into pending list [l] gives [l'] : the new event is placed
    after all strictly earlier ones and before all others; everything else keeps
    its place. *)
Definition scheduled (e : event) (l l' : list event) : Prop :=
  exists before after,
    l = before ++ after /\ l' = before ++ e :: after /\
    (forall x, In x before -> (fst x < fst e)%Qc) /\
    (forall x, In x after -> (fst e <= fst x)%Qc).

(** abstract calendar operations *)
Inductive op := Schedule (e : event) | Take.

(** [history l0 k0 ops taken l k]: the intended meaning of a history: starting
    with pending events [l0] and [k0] free slots, performing [ops] delivers the
    events [taken] (in order) and leaves [l].  A schedule needs a free slot and
    uses it up; a take makes the slot of the delivered event the only usable one. *)
Inductive history : list event -> nat -> list op -> list event -> list event -> nat -> Prop :=
| h_done l k : history l k [] [] l k
| h_sched l k e l' ops tk lf kf :
    scheduled e l l' -> history l' k ops tk lf kf ->
    history l (S k) (Schedule e :: ops) tk lf kf
| h_take e l k ops tk lf kf :
    history l 1 ops tk lf kf ->
    history (e :: l) k (Take :: ops) (e :: tk) lf kf.

(** running the operations on the concrete calendar *)
Fixpoint run_ops (c : cal) (ops : list op) : res (list event * cal) :=
  match ops with
  | [] => Ok ([], c)
  | Schedule e :: ops' => do c' <- filem c e; run_ops c' ops'
  | Take :: ops' =>
      do r <- remove c;
      match r with
      | None => Err TypeError
      | Some (e, c') => do tc <- run_ops c' ops'; Ok (e :: fst tc, snd tc)
      end
  end.

(** the events scheduled in a history *)
Fixpoint scheduled_in (ops : list op) : list event :=
  match ops with
  | [] => []
  | Schedule e :: r => e :: scheduled_in r
  | Take :: r => scheduled_in r
  end.

(** A history in which no schedule finds the free list empty: [k] free slots
    (as known after the last take) and [p] pending events. *)
Fixpoint room (p k : nat) (ops : list op) : Prop :=
  match ops with
  | [] => True
  | Schedule _ :: r => match k with O => False | S k' => room (S p) k' r end
  | Take :: r => match p with O => False | S p' => room p' 1 r end
  end.

(** the seven start events, in order of delivery *)
Definition start_events (JSTEP : Z) (Q1 Q2 Q3 : Qc) : list event :=
  [ (qq 1 2, qz 2); (qq 1 2, qz 3); (qz JSTEP, qz 1); (Q1, qz 3); (Q2, qz 3); (Q3, qz 3); (qz 8760, qz 4) ].

