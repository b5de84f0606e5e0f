(** Property theorems of C128: only the ratios of the admittances matter. *)
From Verif Require Import Base BaseProofs Sums LoadSpec LoadModel NetModel NetSpec MatProofs NetProofs LevelsProofs PropertiesNet PropertiesMono PropertiesTurn ScaleSpec ScaleProofs PropertiesScale AdmSpec AdmProofs.
Open Scope Z_scope.

(** The base matrices: the admittances times k, their inverse divided by k, the same order of
    the areas, the same failures. *)
Theorem C128_base : forall k inv inv' BN LP BLPA NR, same_routine k inv inv' ->
  tm1 inv' BN LP (map (firstn 3) (adm_times k BLPA)) NR =
  match tm1 inv BN LP (map (firstn 3) BLPA) NR with
  | Ok (BLP0, BB, LT, ZB) => Ok (in_unit k BLP0, every k BB, LT, every (Qcinv k) ZB)
  | Err e => Err e
  end.
Proof. intros k inv inv' BN LP BLPA NR SR. exact (tm1_e k inv inv' BN LP BLPA NR SR). Qed.
Print Assumptions C128_base.

(** The two solutions of a level that do not need the linear program: the same decision, flows,
    shortages, data of the areas and failures; the kept matrices in their unit. *)
Theorem C128_solved : forall k inv inv' er IFLAG s BLPA LP NR STMULT LN NLS TR TJ SC CR, k <> q0 -> same_routine k inv inv' ->
  transm inv' (refuse er) IFLAG (net_adm k s) (adm_times k BLPA) LP NR STMULT LN NLS TR TJ SC CR =
  match transm inv (refuse er) IFLAG s BLPA LP NR STMULT LN NLS TR TJ SC CR with
  | Ok (JFLAG, FLOW, SADJ, s1) => Ok (JFLAG, FLOW, SADJ, net_adm k s1)
  | Err e => Err e
  end.
Proof. intros k inv inv' er IFLAG s BLPA LP NR STMULT LN NLS TR TJ SC CR K0 SR. exact (net_e k K0 inv inv' er IFLAG s BLPA LP NR STMULT LN NLS TR TJ SC CR SR). Qed.
Print Assumptions C128_solved.

(** Every right routine has such a partner, and it is right. *)
Theorem C128_routine : forall k inv, k <> q0 -> inv_ok inv -> exists inv', same_routine k inv inv' /\ inv_ok inv'.
Proof.
  intros k inv K0 IO. exists (fun B => option_map (every (Qcinv k)) (inv (every (Qcinv k) B))). split.
  - intros B. f_equal. f_equal. rewrite !every_map, map_map. rewrite (map_ext _ (fun r => r)); [apply map_id|]. intros r. unfold in_unit. rewrite map_map.
    rewrite (map_ext _ (fun x => x)); [apply map_id|]. intros x. pose proof (kh k K0) as X. replace (/ k * (k * x))%Qc with (k * / k * x)%Qc by qring. rewrite X. qring.
  - intros m M Z SM EZ. destruct (inv (every (Qcinv k) M)) as [Y|] eqn:EY; cbn [option_map] in EZ; [|discriminate EZ]. injection EZ as <-.
    assert (SH : forall c A, shape m m A -> shape m m (every c A)).
    { intros c A (L & R). split; [now rewrite e_len|]. intros i Hi. rewrite every_map. rewrite (nth_map_in _ _ _ []) by lia. rewrite u_len. now apply R. }
    destruct (IO m _ Y (SH _ M SM) EY) as (SY & IY). split; [now apply SH|]. intros i j Hi Hj. rewrite <- (IY i j Hi Hj). apply qs_ext. intros a Ha. rewrite !e_get. qring.
Qed.
Print Assumptions C128_routine.

(** *** Witness: three areas, admittances five times as large, the same answer. *)
Definition five_inv := checked_inv [[qq (-2) 15; qq (-1) 15]; [qq (-1) 15; qq (-2) 15]].
Definition help_adm (inv : list (list Qc) -> option (list (list Qc))) (k : Qc) := transm inv (refuse KeyError) false (net_adm k t_net) (adm_times k (repeat (two_lines (-1) 90) 3)) t_LP 0 [[q1; q1]; [q1; q1]; [q1; q1]] [2; 2; 2] false
  [q0; q0; q0] [q0; q0; q0] [qz 80; qz 50; qz 40] [qz 50; qz 50; qz 50].
Example C128_witness : qz 5 <> q0 /\ inv_ok t_inv /\ inv_ok five_inv /\
  answer (help_adm t_inv q1) = Ok (true, [10 # 3; 20 # 3; 10 # 3]%Q, [-20; 0; 0]%Q) /\
  answer (help_adm five_inv (qz 5)) = Ok (true, [10 # 3; 20 # 3; 10 # 3]%Q, [-20; 0; 0]%Q).
Proof. split; [discriminate|]. split; [apply checked_inv_ok|]. split; [apply checked_inv_ok|]. split; vm_compute; reflexivity. Qed.
