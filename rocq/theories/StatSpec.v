(** Specification vocabulary for the statistics. *)
From Verif Require Import Base LoadModel LoadSpec StatModel.
Open Scope Z_scope.

(** All arrays have one row per area and one column per forecast level. *)
Record stat_shape (n w : nat) (s : stat) : Prop := mkShape {
  sh_lolG : shape n w (lolG s); sh_lolT : shape n w (lolT s); sh_mgnG : shape n w (mgnG s); sh_mgnT : shape n w (mgnT s);
  sh_plolG : length (plolG s) = w; sh_plolT : length (plolT s) = w; sh_pmgnG : length (pmgnG s) = w; sh_pmgnT : length (pmgnT s) = w }.

Definition zero_stat (n w : nat) : stat :=
  let M := repeat (repeat 0 w) n in let v := repeat 0 w in mkStat M M M M v v v v.

(** Sum of column k over the n areas. *)
Definition column_sum (n : nat) (M : list (list Z)) (k : nat) : Z := zsum (map (fun j => zmget M j k) (seq 0 n)).

(** margins that are whole numbers (hour.py passes [astype(int)] values) *)
Definition whole (M : list Qc) : Prop := forall X, In X M -> exists z, X = qz z.

(** [counter k NST c v v']: v' is v with c added at index NST *)
Definition bumped (w NST : nat) (c : Z) (v v' : list Z) : Prop :=
  forall k, (k < w)%nat -> zget v' k = zget v k + (if Nat.eqb k NST then c else 0).
Definition mbumped (n w NST : nat) (c : nat -> Z) (M M' : list (list Z)) : Prop :=
  forall j k, (j < n)%nat -> (k < w)%nat -> zmget M' j k = zmget M j k + (if Nat.eqb k NST then c j else 0).

(** [n] areas, [w] columns: a recorded hour is (forecast level, margins, is it the
    peak hour); the margins are whole numbers. *)
Definition hour_rec := (nat * list Qc * bool)%type.
Definition hour_ok (n w : nat) (h : hour_rec) : Prop :=
  let '(NST, M, _) := h in (NST < w)%nat /\ length M = n /\ whole M.
(** hour.py 219-246: every recorded hour goes to the hourly statistics, the peak
    hours also to the peak statistics. *)
Definition record_hour (st : list Z * stat * stat) (h : hour_rec) : list Z * stat * stat :=
  let '(LS, hs, ps) := st in let '(NST, M, pk) := h in
  let '(LS', hs') := hrstat NST M LS hs in
  (LS', hs', if pk then pkstat NST M ps else ps).

Definition mle (n w : nat) (A B : list (list Z)) : Prop := forall j k, (j < n)%nat -> (k < w)%nat -> zmget A j k <= zmget B j k.
Definition vle (w : nat) (a b : list Z) : Prop := forall k, (k < w)%nat -> zget a k <= zget b k.
Record stat_le (n w : nat) (a b : stat) : Prop := mkLe {
  le_lolG : mle n w (lolG a) (lolG b); le_lolT : mle n w (lolT a) (lolT b);
  le_mgnG : mle n w (mgnG a) (mgnG b); le_mgnT : mle n w (mgnT a) (mgnT b);
  le_plolG : vle w (plolG a) (plolG b); le_plolT : vle w (plolT a) (plolT b);
  le_pmgnG : vle w (pmgnG a) (pmgnG b); le_pmgnT : vle w (pmgnT a) (pmgnT b) }.

(** the pool's unserved energy is the sum over the areas, by cause and level *)
Definition energy_adds_up (n w : nat) (s : stat) : Prop :=
  forall k, (k < w)%nat -> zget (pmgnG s) k = column_sum n (mgnG s) k /\ zget (pmgnT s) k = column_sum n (mgnT s) k.
