(** Specification vocabulary of C114: a study in which nothing is left to chance. *)
From Verif Require Import Base Sums StatModel StatSpec YearModel YearSpec ReportSpec SampleModel NetModel ControlModel ControlSpec HourModel HourSpec ProgramModel ProgramSpec HistorySpec.
Open Scope Z_scope.

(** Units never fail, lines are always in their first state, no unit is on any week's
    list of planned outages, the ratings are the same in all seasons; each area has the
    same limit for imports and exports (C107), and a year is a whole number of steps. *)
Record certain (nu nl : nat) (i : input) : Prop := mkCertain {
  ce_units : forall u, (u < nu)%nat -> mget (x_PROBG (i_h i)) u 0 = q1;
  ce_lines : forall v, (v < nl)%nat -> mget (x_PROBL (i_h i)) v 0 = q1;
  ce_planned : forall w, (w < length (i_JPLOUT i))%nat -> zget (nth w (i_JPLOUT i) []) 0 = 0;
  ce_seasons : forall u q, (u < nu)%nat -> (q < 4)%nat -> mget (i_RATES i) u q = mget (i_RATES i) u 0;
  ce_wide : wide (i_BN i);
  ce_limits : equal_limits (i_BN i);
  ce_step : (x_JSTEP (i_h i) | 8760) }.

Section Loss.
  Variables (inv : list (list Qc) -> option (list (list Qc)))
            (lp : list (list Qc) -> list (list Qc) -> list (list Qc) -> res (list Qc * list (list Qc))).
  (** Everything as on the cards and nothing counted yet. *)
  Definition fresh (n nu nl : nat) (i : input) : hst :=
    mkHst (repeat 0 nu) (repeat 0 nl) (cards_net i) (repeat 0 n) (first_stat n) (first_stat n).
  Definition first_rating (i : input) : list Qc := map (fun r => nth 0 r q0) (i_RATES i).
  (** The statistics of the hour ending at clock t alone (hourly, at the peak), all units
      in service. *)
  Definition hour_loss (n nu nl : nat) (i : input) (t : Z) : annual :=
    match hour inv lp (i_h i) (on t) (repeat q1 nu) (first_rating i) (fresh n nu nl i) with
    | Ok h => (hrs h, pks h) | Err _ => (first_stat n, first_stat n) end.
  (** The statistics of one year: the sum over its hours (days). *)
  Definition year_loss (n nu nl : nat) (i : input) (pl : place) (wn : when) (wt : what) (c : cause) (k : nat) : Z :=
    zsum (map (fun m => part pl wn wt c k (hour_loss n nu nl i (x_JSTEP (i_h i) * Z.of_nat m))) (seq 1 (Z.to_nat (8760 / x_JSTEP (i_h i))))).
End Loss.

(** The total of a statistic over the years. *)
Definition summed (pl : place) (wn : when) (wt : what) (c : cause) (k : nat) (y : yst) : Z :=
  let cu := match wn with Hourly => y_ch y | Peak => y_cp y end in
  match pl with
  | Area j => let a := match wt with LOLE => c_lol cu | EUE => c_mgn cu end in
      zmget (match c with Gen => aG a | Trans => aT a | Both => aS a end) j k
  | Pool => let a := match wt with LOLE => c_plol cu | EUE => c_pmgn cu end in
      zget (match c with Gen => pG a | Trans => pT a | Both => pS a end) k
  end.
