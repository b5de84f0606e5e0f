(** The tests of hrstat and pkstat on data of actual runs: monte_carlo/tests/test_hrstat_new.py, test_pkstat_new.py.
    Generated by tools/mkvectors.py; do not edit. *)
From Verif Require Import Base Vec LoadModel StatModel.
Open Scope Z_scope.

Definition stat_eq (a b : stat) : bool := zmeq (lolG a) (lolG b) && zmeq (lolT a) (lolT b) && zmeq (mgnG a) (mgnG b) && zmeq (mgnT a) (mgnT b) &&
  zeq (plolG a) (plolG b) && zeq (plolT a) (plolT b) && zeq (pmgnG a) (pmgnG b) && zeq (pmgnT a) (pmgnT b).
Example hrstat_1 : let r := hrstat 0 (qs 1 [126; 486; (-281); 262; 506]) [0; 0; 0; 0; 0] (mkStat [[0; 0; 0; 0; 0];
    [0; 0; 0; 0; 0];
    [0; 0; 0; 0; 0];
    [0; 0; 0; 0; 0];
    [0; 0; 0; 0; 0]] [[0; 0; 0; 0; 0];
    [0; 0; 0; 0; 0];
    [0; 0; 0; 0; 0];
    [0; 0; 0; 0; 0];
    [0; 0; 0; 0; 0]] [[0; 0; 0; 0; 0];
    [0; 0; 0; 0; 0];
    [0; 0; 0; 0; 0];
    [0; 0; 0; 0; 0];
    [0; 0; 0; 0; 0]] [[0; 0; 0; 0; 0];
    [0; 0; 0; 0; 0];
    [0; 0; 0; 0; 0];
    [0; 0; 0; 0; 0];
    [0; 0; 0; 0; 0]] [0; 0; 0; 0; 0] [0; 0; 0; 0; 0] [0; 0; 0; 0; 0] [0; 0; 0; 0; 0]) in zeq (fst r) [0; 0; 1; 0; 0] && stat_eq (snd r) (mkStat [[0; 0; 0; 0; 0];
    [0; 0; 0; 0; 0];
    [0; 0; 0; 0; 0];
    [0; 0; 0; 0; 0];
    [0; 0; 0; 0; 0]] [[0; 0; 0; 0; 0];
    [0; 0; 0; 0; 0];
    [1; 0; 0; 0; 0];
    [0; 0; 0; 0; 0];
    [0; 0; 0; 0; 0]] [[0; 0; 0; 0; 0];
    [0; 0; 0; 0; 0];
    [0; 0; 0; 0; 0];
    [0; 0; 0; 0; 0];
    [0; 0; 0; 0; 0]] [[0; 0; 0; 0; 0];
    [0; 0; 0; 0; 0];
    [281; 0; 0; 0; 0];
    [0; 0; 0; 0; 0];
    [0; 0; 0; 0; 0]] [0; 0; 0; 0; 0] [1; 0; 0; 0; 0] [0; 0; 0; 0; 0] [281; 0; 0; 0; 0]) = true.
Proof. vm_compute; reflexivity. Qed.
Example hrstat_vec_1 : let r := hrstat_vec 0 (qs 1 [126; 486; (-281); 262; 506]) [0; 0; 0; 0; 0] (mkStat [[0; 0; 0; 0; 0];
    [0; 0; 0; 0; 0];
    [0; 0; 0; 0; 0];
    [0; 0; 0; 0; 0];
    [0; 0; 0; 0; 0]] [[0; 0; 0; 0; 0];
    [0; 0; 0; 0; 0];
    [0; 0; 0; 0; 0];
    [0; 0; 0; 0; 0];
    [0; 0; 0; 0; 0]] [[0; 0; 0; 0; 0];
    [0; 0; 0; 0; 0];
    [0; 0; 0; 0; 0];
    [0; 0; 0; 0; 0];
    [0; 0; 0; 0; 0]] [[0; 0; 0; 0; 0];
    [0; 0; 0; 0; 0];
    [0; 0; 0; 0; 0];
    [0; 0; 0; 0; 0];
    [0; 0; 0; 0; 0]] [0; 0; 0; 0; 0] [0; 0; 0; 0; 0] [0; 0; 0; 0; 0] [0; 0; 0; 0; 0]) in zeq (fst r) [0; 0; 1; 0; 0] && stat_eq (snd r) (mkStat [[0; 0; 0; 0; 0];
    [0; 0; 0; 0; 0];
    [0; 0; 0; 0; 0];
    [0; 0; 0; 0; 0];
    [0; 0; 0; 0; 0]] [[0; 0; 0; 0; 0];
    [0; 0; 0; 0; 0];
    [1; 0; 0; 0; 0];
    [0; 0; 0; 0; 0];
    [0; 0; 0; 0; 0]] [[0; 0; 0; 0; 0];
    [0; 0; 0; 0; 0];
    [0; 0; 0; 0; 0];
    [0; 0; 0; 0; 0];
    [0; 0; 0; 0; 0]] [[0; 0; 0; 0; 0];
    [0; 0; 0; 0; 0];
    [281; 0; 0; 0; 0];
    [0; 0; 0; 0; 0];
    [0; 0; 0; 0; 0]] [0; 0; 0; 0; 0] [1; 0; 0; 0; 0] [0; 0; 0; 0; 0] [281; 0; 0; 0; 0]) = true.
Proof. vm_compute; reflexivity. Qed.
Example pkstat_1 : stat_eq (pkstat 0 (qs 1 [126; 486; (-281); 262; 506]) (mkStat [[0; 0; 0; 0; 0];
    [0; 0; 0; 0; 0];
    [0; 0; 0; 0; 0];
    [0; 0; 0; 0; 0];
    [0; 0; 0; 0; 0]] [[0; 0; 0; 0; 0];
    [0; 0; 0; 0; 0];
    [0; 0; 0; 0; 0];
    [0; 0; 0; 0; 0];
    [0; 0; 0; 0; 0]] [[0; 0; 0; 0; 0];
    [0; 0; 0; 0; 0];
    [0; 0; 0; 0; 0];
    [0; 0; 0; 0; 0];
    [0; 0; 0; 0; 0]] [[0; 0; 0; 0; 0];
    [0; 0; 0; 0; 0];
    [0; 0; 0; 0; 0];
    [0; 0; 0; 0; 0];
    [0; 0; 0; 0; 0]] [0; 0; 0; 0; 0] [0; 0; 0; 0; 0] [0; 0; 0; 0; 0] [0; 0; 0; 0; 0])) (mkStat [[0; 0; 0; 0; 0];
    [0; 0; 0; 0; 0];
    [0; 0; 0; 0; 0];
    [0; 0; 0; 0; 0];
    [0; 0; 0; 0; 0]] [[0; 0; 0; 0; 0];
    [0; 0; 0; 0; 0];
    [1; 0; 0; 0; 0];
    [0; 0; 0; 0; 0];
    [0; 0; 0; 0; 0]] [[0; 0; 0; 0; 0];
    [0; 0; 0; 0; 0];
    [0; 0; 0; 0; 0];
    [0; 0; 0; 0; 0];
    [0; 0; 0; 0; 0]] [[0; 0; 0; 0; 0];
    [0; 0; 0; 0; 0];
    [281; 0; 0; 0; 0];
    [0; 0; 0; 0; 0];
    [0; 0; 0; 0; 0]] [0; 0; 0; 0; 0] [1; 0; 0; 0; 0] [0; 0; 0; 0; 0] [281; 0; 0; 0; 0]) = true.
Proof. vm_compute; reflexivity. Qed.
Example pkstat_loop_1 : stat_eq (pkstat_loop 0 (qs 1 [126; 486; (-281); 262; 506]) (mkStat [[0; 0; 0; 0; 0];
    [0; 0; 0; 0; 0];
    [0; 0; 0; 0; 0];
    [0; 0; 0; 0; 0];
    [0; 0; 0; 0; 0]] [[0; 0; 0; 0; 0];
    [0; 0; 0; 0; 0];
    [0; 0; 0; 0; 0];
    [0; 0; 0; 0; 0];
    [0; 0; 0; 0; 0]] [[0; 0; 0; 0; 0];
    [0; 0; 0; 0; 0];
    [0; 0; 0; 0; 0];
    [0; 0; 0; 0; 0];
    [0; 0; 0; 0; 0]] [[0; 0; 0; 0; 0];
    [0; 0; 0; 0; 0];
    [0; 0; 0; 0; 0];
    [0; 0; 0; 0; 0];
    [0; 0; 0; 0; 0]] [0; 0; 0; 0; 0] [0; 0; 0; 0; 0] [0; 0; 0; 0; 0] [0; 0; 0; 0; 0])) (mkStat [[0; 0; 0; 0; 0];
    [0; 0; 0; 0; 0];
    [0; 0; 0; 0; 0];
    [0; 0; 0; 0; 0];
    [0; 0; 0; 0; 0]] [[0; 0; 0; 0; 0];
    [0; 0; 0; 0; 0];
    [1; 0; 0; 0; 0];
    [0; 0; 0; 0; 0];
    [0; 0; 0; 0; 0]] [[0; 0; 0; 0; 0];
    [0; 0; 0; 0; 0];
    [0; 0; 0; 0; 0];
    [0; 0; 0; 0; 0];
    [0; 0; 0; 0; 0]] [[0; 0; 0; 0; 0];
    [0; 0; 0; 0; 0];
    [281; 0; 0; 0; 0];
    [0; 0; 0; 0; 0];
    [0; 0; 0; 0; 0]] [0; 0; 0; 0; 0] [1; 0; 0; 0; 0] [0; 0; 0; 0; 0] [281; 0; 0; 0; 0]) = true.
Proof. vm_compute; reflexivity. Qed.
Example hrstat_2 : let r := hrstat 0 (qs 1 [(-62); 0; 278; 525; 202]) [0; 0; 1; 0; 0] (mkStat [[0; 0; 0; 0; 0];
    [0; 0; 0; 0; 0];
    [0; 0; 0; 0; 0];
    [0; 0; 0; 0; 0];
    [0; 0; 0; 0; 0]] [[0; 0; 0; 0; 0];
    [0; 0; 0; 0; 0];
    [0; 0; 0; 0; 0];
    [0; 0; 0; 0; 0];
    [0; 0; 0; 0; 0]] [[0; 0; 0; 0; 0];
    [0; 0; 0; 0; 0];
    [0; 0; 0; 0; 0];
    [0; 0; 0; 0; 0];
    [0; 0; 0; 0; 0]] [[0; 0; 0; 0; 0];
    [0; 0; 0; 0; 0];
    [0; 0; 0; 0; 0];
    [0; 0; 0; 0; 0];
    [0; 0; 0; 0; 0]] [0; 0; 0; 0; 0] [0; 0; 0; 0; 0] [0; 0; 0; 0; 0] [0; 0; 0; 0; 0]) in zeq (fst r) [1; 0; 1; 0; 0] && stat_eq (snd r) (mkStat [[0; 0; 0; 0; 0];
    [0; 0; 0; 0; 0];
    [0; 0; 0; 0; 0];
    [0; 0; 0; 0; 0];
    [0; 0; 0; 0; 0]] [[1; 0; 0; 0; 0];
    [0; 0; 0; 0; 0];
    [0; 0; 0; 0; 0];
    [0; 0; 0; 0; 0];
    [0; 0; 0; 0; 0]] [[0; 0; 0; 0; 0];
    [0; 0; 0; 0; 0];
    [0; 0; 0; 0; 0];
    [0; 0; 0; 0; 0];
    [0; 0; 0; 0; 0]] [[62; 0; 0; 0; 0];
    [0; 0; 0; 0; 0];
    [0; 0; 0; 0; 0];
    [0; 0; 0; 0; 0];
    [0; 0; 0; 0; 0]] [0; 0; 0; 0; 0] [1; 0; 0; 0; 0] [0; 0; 0; 0; 0] [62; 0; 0; 0; 0]) = true.
Proof. vm_compute; reflexivity. Qed.
Example hrstat_vec_2 : let r := hrstat_vec 0 (qs 1 [(-62); 0; 278; 525; 202]) [0; 0; 1; 0; 0] (mkStat [[0; 0; 0; 0; 0];
    [0; 0; 0; 0; 0];
    [0; 0; 0; 0; 0];
    [0; 0; 0; 0; 0];
    [0; 0; 0; 0; 0]] [[0; 0; 0; 0; 0];
    [0; 0; 0; 0; 0];
    [0; 0; 0; 0; 0];
    [0; 0; 0; 0; 0];
    [0; 0; 0; 0; 0]] [[0; 0; 0; 0; 0];
    [0; 0; 0; 0; 0];
    [0; 0; 0; 0; 0];
    [0; 0; 0; 0; 0];
    [0; 0; 0; 0; 0]] [[0; 0; 0; 0; 0];
    [0; 0; 0; 0; 0];
    [0; 0; 0; 0; 0];
    [0; 0; 0; 0; 0];
    [0; 0; 0; 0; 0]] [0; 0; 0; 0; 0] [0; 0; 0; 0; 0] [0; 0; 0; 0; 0] [0; 0; 0; 0; 0]) in zeq (fst r) [1; 0; 1; 0; 0] && stat_eq (snd r) (mkStat [[0; 0; 0; 0; 0];
    [0; 0; 0; 0; 0];
    [0; 0; 0; 0; 0];
    [0; 0; 0; 0; 0];
    [0; 0; 0; 0; 0]] [[1; 0; 0; 0; 0];
    [0; 0; 0; 0; 0];
    [0; 0; 0; 0; 0];
    [0; 0; 0; 0; 0];
    [0; 0; 0; 0; 0]] [[0; 0; 0; 0; 0];
    [0; 0; 0; 0; 0];
    [0; 0; 0; 0; 0];
    [0; 0; 0; 0; 0];
    [0; 0; 0; 0; 0]] [[62; 0; 0; 0; 0];
    [0; 0; 0; 0; 0];
    [0; 0; 0; 0; 0];
    [0; 0; 0; 0; 0];
    [0; 0; 0; 0; 0]] [0; 0; 0; 0; 0] [1; 0; 0; 0; 0] [0; 0; 0; 0; 0] [62; 0; 0; 0; 0]) = true.
Proof. vm_compute; reflexivity. Qed.
Example pkstat_2 : stat_eq (pkstat 0 (qs 1 [(-135); 0; (-255); 0; 0]) (mkStat [[0; 0; 0; 0; 0];
    [0; 0; 0; 0; 0];
    [0; 0; 0; 0; 0];
    [0; 0; 0; 0; 0];
    [0; 0; 0; 0; 0]] [[0; 0; 0; 0; 0];
    [0; 0; 0; 0; 0];
    [0; 0; 0; 0; 0];
    [0; 0; 0; 0; 0];
    [0; 0; 0; 0; 0]] [[0; 0; 0; 0; 0];
    [0; 0; 0; 0; 0];
    [0; 0; 0; 0; 0];
    [0; 0; 0; 0; 0];
    [0; 0; 0; 0; 0]] [[0; 0; 0; 0; 0];
    [0; 0; 0; 0; 0];
    [0; 0; 0; 0; 0];
    [0; 0; 0; 0; 0];
    [0; 0; 0; 0; 0]] [0; 0; 0; 0; 0] [0; 0; 0; 0; 0] [0; 0; 0; 0; 0] [0; 0; 0; 0; 0])) (mkStat [[1; 0; 0; 0; 0];
    [0; 0; 0; 0; 0];
    [1; 0; 0; 0; 0];
    [0; 0; 0; 0; 0];
    [0; 0; 0; 0; 0]] [[0; 0; 0; 0; 0];
    [0; 0; 0; 0; 0];
    [0; 0; 0; 0; 0];
    [0; 0; 0; 0; 0];
    [0; 0; 0; 0; 0]] [[135; 0; 0; 0; 0];
    [0; 0; 0; 0; 0];
    [255; 0; 0; 0; 0];
    [0; 0; 0; 0; 0];
    [0; 0; 0; 0; 0]] [[0; 0; 0; 0; 0];
    [0; 0; 0; 0; 0];
    [0; 0; 0; 0; 0];
    [0; 0; 0; 0; 0];
    [0; 0; 0; 0; 0]] [1; 0; 0; 0; 0] [0; 0; 0; 0; 0] [390; 0; 0; 0; 0] [0; 0; 0; 0; 0]) = true.
Proof. vm_compute; reflexivity. Qed.
Example pkstat_loop_2 : stat_eq (pkstat_loop 0 (qs 1 [(-135); 0; (-255); 0; 0]) (mkStat [[0; 0; 0; 0; 0];
    [0; 0; 0; 0; 0];
    [0; 0; 0; 0; 0];
    [0; 0; 0; 0; 0];
    [0; 0; 0; 0; 0]] [[0; 0; 0; 0; 0];
    [0; 0; 0; 0; 0];
    [0; 0; 0; 0; 0];
    [0; 0; 0; 0; 0];
    [0; 0; 0; 0; 0]] [[0; 0; 0; 0; 0];
    [0; 0; 0; 0; 0];
    [0; 0; 0; 0; 0];
    [0; 0; 0; 0; 0];
    [0; 0; 0; 0; 0]] [[0; 0; 0; 0; 0];
    [0; 0; 0; 0; 0];
    [0; 0; 0; 0; 0];
    [0; 0; 0; 0; 0];
    [0; 0; 0; 0; 0]] [0; 0; 0; 0; 0] [0; 0; 0; 0; 0] [0; 0; 0; 0; 0] [0; 0; 0; 0; 0])) (mkStat [[1; 0; 0; 0; 0];
    [0; 0; 0; 0; 0];
    [1; 0; 0; 0; 0];
    [0; 0; 0; 0; 0];
    [0; 0; 0; 0; 0]] [[0; 0; 0; 0; 0];
    [0; 0; 0; 0; 0];
    [0; 0; 0; 0; 0];
    [0; 0; 0; 0; 0];
    [0; 0; 0; 0; 0]] [[135; 0; 0; 0; 0];
    [0; 0; 0; 0; 0];
    [255; 0; 0; 0; 0];
    [0; 0; 0; 0; 0];
    [0; 0; 0; 0; 0]] [[0; 0; 0; 0; 0];
    [0; 0; 0; 0; 0];
    [0; 0; 0; 0; 0];
    [0; 0; 0; 0; 0];
    [0; 0; 0; 0; 0]] [1; 0; 0; 0; 0] [0; 0; 0; 0; 0] [390; 0; 0; 0; 0] [0; 0; 0; 0; 0]) = true.
Proof. vm_compute; reflexivity. Qed.
Example hrstat_3 : let r := hrstat 0 (qs 1 [234; 0; 0; (-23); 0]) [1; 2; 2; 1; 2] (mkStat [[0; 0; 0; 0; 0];
    [0; 0; 0; 0; 0];
    [0; 0; 0; 0; 0];
    [0; 0; 0; 0; 0];
    [0; 0; 0; 0; 0]] [[0; 0; 0; 0; 0];
    [0; 0; 0; 0; 0];
    [0; 0; 0; 0; 0];
    [0; 0; 0; 0; 0];
    [0; 0; 0; 0; 0]] [[0; 0; 0; 0; 0];
    [0; 0; 0; 0; 0];
    [0; 0; 0; 0; 0];
    [0; 0; 0; 0; 0];
    [0; 0; 0; 0; 0]] [[0; 0; 0; 0; 0];
    [0; 0; 0; 0; 0];
    [0; 0; 0; 0; 0];
    [0; 0; 0; 0; 0];
    [0; 0; 0; 0; 0]] [0; 0; 0; 0; 0] [0; 0; 0; 0; 0] [0; 0; 0; 0; 0] [0; 0; 0; 0; 0]) in zeq (fst r) [1; 2; 2; 2; 2] && stat_eq (snd r) (mkStat [[0; 0; 0; 0; 0];
    [0; 0; 0; 0; 0];
    [0; 0; 0; 0; 0];
    [0; 0; 0; 0; 0];
    [0; 0; 0; 0; 0]] [[0; 0; 0; 0; 0];
    [0; 0; 0; 0; 0];
    [0; 0; 0; 0; 0];
    [1; 0; 0; 0; 0];
    [0; 0; 0; 0; 0]] [[0; 0; 0; 0; 0];
    [0; 0; 0; 0; 0];
    [0; 0; 0; 0; 0];
    [0; 0; 0; 0; 0];
    [0; 0; 0; 0; 0]] [[0; 0; 0; 0; 0];
    [0; 0; 0; 0; 0];
    [0; 0; 0; 0; 0];
    [23; 0; 0; 0; 0];
    [0; 0; 0; 0; 0]] [0; 0; 0; 0; 0] [1; 0; 0; 0; 0] [0; 0; 0; 0; 0] [23; 0; 0; 0; 0]) = true.
Proof. vm_compute; reflexivity. Qed.
Example hrstat_vec_3 : let r := hrstat_vec 0 (qs 1 [234; 0; 0; (-23); 0]) [1; 2; 2; 1; 2] (mkStat [[0; 0; 0; 0; 0];
    [0; 0; 0; 0; 0];
    [0; 0; 0; 0; 0];
    [0; 0; 0; 0; 0];
    [0; 0; 0; 0; 0]] [[0; 0; 0; 0; 0];
    [0; 0; 0; 0; 0];
    [0; 0; 0; 0; 0];
    [0; 0; 0; 0; 0];
    [0; 0; 0; 0; 0]] [[0; 0; 0; 0; 0];
    [0; 0; 0; 0; 0];
    [0; 0; 0; 0; 0];
    [0; 0; 0; 0; 0];
    [0; 0; 0; 0; 0]] [[0; 0; 0; 0; 0];
    [0; 0; 0; 0; 0];
    [0; 0; 0; 0; 0];
    [0; 0; 0; 0; 0];
    [0; 0; 0; 0; 0]] [0; 0; 0; 0; 0] [0; 0; 0; 0; 0] [0; 0; 0; 0; 0] [0; 0; 0; 0; 0]) in zeq (fst r) [1; 2; 2; 2; 2] && stat_eq (snd r) (mkStat [[0; 0; 0; 0; 0];
    [0; 0; 0; 0; 0];
    [0; 0; 0; 0; 0];
    [0; 0; 0; 0; 0];
    [0; 0; 0; 0; 0]] [[0; 0; 0; 0; 0];
    [0; 0; 0; 0; 0];
    [0; 0; 0; 0; 0];
    [1; 0; 0; 0; 0];
    [0; 0; 0; 0; 0]] [[0; 0; 0; 0; 0];
    [0; 0; 0; 0; 0];
    [0; 0; 0; 0; 0];
    [0; 0; 0; 0; 0];
    [0; 0; 0; 0; 0]] [[0; 0; 0; 0; 0];
    [0; 0; 0; 0; 0];
    [0; 0; 0; 0; 0];
    [23; 0; 0; 0; 0];
    [0; 0; 0; 0; 0]] [0; 0; 0; 0; 0] [1; 0; 0; 0; 0] [0; 0; 0; 0; 0] [23; 0; 0; 0; 0]) = true.
Proof. vm_compute; reflexivity. Qed.
Example pkstat_3 : stat_eq (pkstat 0 (qs 1 [(-3); 0; 0; (-181); 0]) (mkStat [[0; 0; 0; 0; 0];
    [0; 0; 0; 0; 0];
    [0; 0; 0; 0; 0];
    [0; 0; 0; 0; 0];
    [0; 0; 0; 0; 0]] [[0; 0; 0; 0; 0];
    [0; 0; 0; 0; 0];
    [0; 0; 0; 0; 0];
    [0; 0; 0; 0; 0];
    [0; 0; 0; 0; 0]] [[0; 0; 0; 0; 0];
    [0; 0; 0; 0; 0];
    [0; 0; 0; 0; 0];
    [0; 0; 0; 0; 0];
    [0; 0; 0; 0; 0]] [[0; 0; 0; 0; 0];
    [0; 0; 0; 0; 0];
    [0; 0; 0; 0; 0];
    [0; 0; 0; 0; 0];
    [0; 0; 0; 0; 0]] [0; 0; 0; 0; 0] [0; 0; 0; 0; 0] [0; 0; 0; 0; 0] [0; 0; 0; 0; 0])) (mkStat [[1; 0; 0; 0; 0];
    [0; 0; 0; 0; 0];
    [0; 0; 0; 0; 0];
    [1; 0; 0; 0; 0];
    [0; 0; 0; 0; 0]] [[0; 0; 0; 0; 0];
    [0; 0; 0; 0; 0];
    [0; 0; 0; 0; 0];
    [0; 0; 0; 0; 0];
    [0; 0; 0; 0; 0]] [[3; 0; 0; 0; 0];
    [0; 0; 0; 0; 0];
    [0; 0; 0; 0; 0];
    [181; 0; 0; 0; 0];
    [0; 0; 0; 0; 0]] [[0; 0; 0; 0; 0];
    [0; 0; 0; 0; 0];
    [0; 0; 0; 0; 0];
    [0; 0; 0; 0; 0];
    [0; 0; 0; 0; 0]] [1; 0; 0; 0; 0] [0; 0; 0; 0; 0] [184; 0; 0; 0; 0] [0; 0; 0; 0; 0]) = true.
Proof. vm_compute; reflexivity. Qed.
Example pkstat_loop_3 : stat_eq (pkstat_loop 0 (qs 1 [(-3); 0; 0; (-181); 0]) (mkStat [[0; 0; 0; 0; 0];
    [0; 0; 0; 0; 0];
    [0; 0; 0; 0; 0];
    [0; 0; 0; 0; 0];
    [0; 0; 0; 0; 0]] [[0; 0; 0; 0; 0];
    [0; 0; 0; 0; 0];
    [0; 0; 0; 0; 0];
    [0; 0; 0; 0; 0];
    [0; 0; 0; 0; 0]] [[0; 0; 0; 0; 0];
    [0; 0; 0; 0; 0];
    [0; 0; 0; 0; 0];
    [0; 0; 0; 0; 0];
    [0; 0; 0; 0; 0]] [[0; 0; 0; 0; 0];
    [0; 0; 0; 0; 0];
    [0; 0; 0; 0; 0];
    [0; 0; 0; 0; 0];
    [0; 0; 0; 0; 0]] [0; 0; 0; 0; 0] [0; 0; 0; 0; 0] [0; 0; 0; 0; 0] [0; 0; 0; 0; 0])) (mkStat [[1; 0; 0; 0; 0];
    [0; 0; 0; 0; 0];
    [0; 0; 0; 0; 0];
    [1; 0; 0; 0; 0];
    [0; 0; 0; 0; 0]] [[0; 0; 0; 0; 0];
    [0; 0; 0; 0; 0];
    [0; 0; 0; 0; 0];
    [0; 0; 0; 0; 0];
    [0; 0; 0; 0; 0]] [[3; 0; 0; 0; 0];
    [0; 0; 0; 0; 0];
    [0; 0; 0; 0; 0];
    [181; 0; 0; 0; 0];
    [0; 0; 0; 0; 0]] [[0; 0; 0; 0; 0];
    [0; 0; 0; 0; 0];
    [0; 0; 0; 0; 0];
    [0; 0; 0; 0; 0];
    [0; 0; 0; 0; 0]] [1; 0; 0; 0; 0] [0; 0; 0; 0; 0] [184; 0; 0; 0; 0] [0; 0; 0; 0; 0]) = true.
Proof. vm_compute; reflexivity. Qed.
