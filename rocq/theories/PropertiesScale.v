(** Property theorems of C127: the unit in which power is written. *)
From Verif Require Import Base BaseProofs Sums LoadModel SampleModel NetModel NetSpec MatProofs NetProofs LpModel StatModel EventModel EventSpec ControlModel ControlSpec HourModel HourSpec CauseSpec ProgramModel LevelsProofs PropertiesNet PropertiesMono PropertiesTurn LpModel PropertiesLp ScaleSpec ScaleProofs ScaleLpSpec ScaleLp.
Open Scope Z_scope.

(** Balancing, flows and limit test of one solution are proportional. *)
Theorem C127_balanced : forall c INJ LOD LT NLS, (q0 < c)%Qc ->
  assign (in_unit c INJ) (in_unit c LOD) LT NLS = (in_unit c (fst (assign INJ LOD LT NLS)), in_unit c (snd (assign INJ LOD LT NLS))).
Proof. intros c INJ LOD LT NLS C0. exact (assign_u c C0 INJ LOD LT NLS). Qed.
Print Assumptions C127_balanced.

(** The two solutions of a level (schedule and emergency help), whatever the data, the
    inversion routine and the option: in another unit the same decision, the flows and
    shortages of each area in that unit, the same data for the next call in that unit, and
    the same failure if there is one; provided the linear program, where it is needed,
    gives the same answer in both units. *)
Theorem C127_any_program : forall c inv lp lp' IFLAG s BLPA LP NR STMULT LN NLS TR TJ SC CR, (q0 < c)%Qc -> same_program c lp lp' ->
  transm inv lp' IFLAG (net_in_unit c s) (lines_in_unit c BLPA) LP NR STMULT LN NLS (in_unit c TR) (in_unit c TJ) (in_unit c SC) (in_unit c CR) =
  match transm inv lp IFLAG s BLPA LP NR STMULT LN NLS TR TJ SC CR with
  | Ok (JFLAG, FLOW, SADJ, s1) => Ok (JFLAG, in_unit c FLOW, in_unit c SADJ, net_in_unit c s1)
  | Err e => Err e
  end.
Proof. intros c inv lp lp' IFLAG s BLPA LP NR STMULT LN NLS TR TJ SC CR C0 SP. exact (net_u c C0 inv lp lp' IFLAG s BLPA LP NR STMULT LN NLS TR TJ SC CR SP). Qed.
Print Assumptions C127_any_program.
Theorem C127_no_program : forall c er, same_program c (refuse er) (refuse er).
Proof. intros c er BB BLP BN. reflexivity. Qed.
Print Assumptions C127_no_program.

(** The linear program gives the same answer in both units, and fails alike, when no amount it
    looks at is smaller than 10^-13 in either unit without being zero. *)
Theorem C127_program : forall c fuel LP LT NR BB BLP BN, (q0 < c)%Qc ->
  (forall x, In x (lp_amounts fuel LP LT NR BB BLP BN) -> not_tiny c x) ->
  lp_nls fuel LP LT NR BB (lines_in_unit c BLP) (areas_in_unit c BN) =
  match lp_nls fuel LP LT NR BB BLP BN with
  | Ok (FLOW, BN1) => Ok (in_unit c FLOW, areas_in_unit c BN1)
  | Err e => Err e
  end.
Proof. intros c fuel LP LT NR BB BLP BN C0 NT. exact (lp_same c C0 fuel LP LT NR BB BLP BN NT). Qed.
Print Assumptions C127_program.

(** So the two solutions of a level with the program itself: if they are found without meeting
    such an amount, both units have the answer, one is the other in its unit. *)
Theorem C127_solved : forall c inv fuel LT IFLAG s BLPA LP NR STMULT LN NLS TR TJ SC CR JFLAG FLOW SADJ s1, (q0 < c)%Qc ->
  transm inv (careful c fuel LP LT NR) IFLAG s BLPA LP NR STMULT LN NLS TR TJ SC CR = Ok (JFLAG, FLOW, SADJ, s1) ->
  transm inv (lp_nls fuel LP LT NR) IFLAG s BLPA LP NR STMULT LN NLS TR TJ SC CR = Ok (JFLAG, FLOW, SADJ, s1) /\
  transm inv (lp_nls fuel LP LT NR) IFLAG (net_in_unit c s) (lines_in_unit c BLPA) LP NR STMULT LN NLS (in_unit c TR) (in_unit c TJ) (in_unit c SC) (in_unit c CR) =
    Ok (JFLAG, in_unit c FLOW, in_unit c SADJ, net_in_unit c s1).
Proof.
  intros c inv fuel LT IFLAG s BLPA LP NR STMULT LN NLS TR TJ SC CR JFLAG FLOW SADJ s1 C0 E. split; [exact (careful_same _ _ _ _ _ _ _ _ _ _ _ _ _ _ _ _ _ _ _ E)|].
  exact (net_le c C0 _ _ _ _ _ _ _ _ _ _ _ _ _ _ _ _ _ _ _ (careful_answers c C0 fuel LP LT NR) E).
Qed.
Print Assumptions C127_solved.
(** A congested hour solved by the program meets no such amount. *)
Example C127_solved_witness : seen (h_run (careful (qz 1000) 60 w_LP w_LT 2)) = Some (true, [Qmake (-5) 1; Qmake (-6) 1], [Qmake (-5) 1; Qmake 4 1; Qmake (-39) 1]).
Proof. vm_compute. reflexivity. Qed.

(** *** Refuted for an hour: the shortages are cut to whole units before they are counted
    (hour.py 208).  Three areas need 50 MW each, the third has 45.5 MW; with loss
    sharing each is 1.5 MW short and 1 MW is counted: 3 MW in all.  In units of 100 kW 15
    units are counted for each: 45 in all, that is 4.5 MW. *)
Definition cut_off : hcfg := let cf := t_study 0 in
  mkHcfg (x_JSTEP cf) (x_JFREQ cf) (x_NFCST cf) (x_MXPLHR cf) (x_PROBG cf) (x_DERATE cf) (x_CAPOWN cf) (x_CAPCON cf)
    (x_PROBL cf) (x_JENT cf) (x_INTCH cf) (x_HRLOAD cf) (x_FCTERR cf) (x_LINENO cf) (repeat (two_lines (-1) 90) 3) (x_LP cf) (x_NR cf) false.
Definition four_short (c : Qc) := hour t_inv (refuse KeyError) (study_in_unit c cut_off) (on 8) [q1; q1; q1] (in_unit c [qz 50; qz 50; qq 91 2]) (state_in_unit c t_state).
Theorem C127_hour_refuted : inv_ok t_inv /\ map (fun c => lost (four_short c)) [q1; qz 10] = [Ok (1, [1; 1; 1], 3); Ok (1, [15; 15; 15], 45)].
Proof. split; [apply checked_inv_ok|]. vm_compute. reflexivity. Qed.
Print Assumptions C127_hour_refuted.

(** *** Witness: one call with its flows and adjustments, in MW and in kW. *)
Definition help_call (c : Qc) := transm t_inv (refuse KeyError) false (net_in_unit c t_net) (lines_in_unit c (repeat (two_lines (-1) 90) 3)) t_LP 0 [[q1; q1]; [q1; q1]; [q1; q1]] [2; 2; 2] false
  (in_unit c [q0; q0; q0]) (in_unit c [q0; q0; q0]) (in_unit c [qz 80; qz 50; qz 40]) (in_unit c [qz 50; qz 50; qz 50]).
Definition answer (r : res (bool * list Qc * list Qc * netst)) := match r with Ok (J, FL, SA, _) => Ok (J, map this FL, map this SA) | Err e => Err e end.
Example C127_witness : (q0 < qz 1000)%Qc /\ same_program (qz 1000) (refuse KeyError) (refuse KeyError) /\
  answer (help_call q1) = Ok (true, [10 # 3; 20 # 3; 10 # 3]%Q, [-20; 0; 0]%Q) /\
  answer (help_call (qz 1000)) = Ok (true, [10000 # 3; 20000 # 3; 10000 # 3]%Q, [-20000; 0; 0]%Q).
Proof. split; [apply qltb_iff; reflexivity|]. split; [apply C127_no_program|]. split; vm_compute; reflexivity. Qed.
