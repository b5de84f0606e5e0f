(** The tests of admitb, admitr, theta, thetac, ximpa, ximpar, flo, assign, tm1: monte_carlo/tests/test_*.py.
    Generated by tools/mkvectors.py; do not edit. *)
From Verif Require Import Base Vec NetModel LinpackModel.
Open Scope Z_scope.

Example admitb_1 : okd (admitb [(0, 1); (1, 2); (2, 0)]%nat (qm 1 [[(-120); 300; 300];
    [(-60); 150; 150];
    [(-80); 100; 100]])) (fun B => mnear 6 B (qm 1 [[(-200); 120; 80];
    [120; (-180); 60];
    [80; 60; (-140)]])) = true.
Proof. vm_compute; reflexivity. Qed.
Example theta_1 : veq (theta (qm 1 [[1; 2];
    [3; 4]]) (qs 10 [2; 5])) (qs 10 [12; 26]) = true.
Proof. vm_compute; reflexivity. Qed.
Example thetac_1 : veq (thetac (qs 10 [3; 5; 7]) (map Z.to_nat [2; 0; 1])) (qs 10 [5; 0; 3]) = true.
Proof. vm_compute; reflexivity. Qed.
Example admitr_1 : let r := admitr (qm 10 [[15; (-5); (-5)];
    [(-5); 25; (-10)];
    [(-5); (-10); 30]]) (qm 1 [[0; 50; 100; 100];
    [1; 50; 100; 100];
    [2; 50; 100; 100]]) 1 in meq (fst r) (qm 10 [[15; (-5); 0];
    [(-5); 30; 0];
    [0; 0; 0]]) && neq (snd r) (map Z.to_nat [0; 2; 1]) = true.
Proof. vm_compute; reflexivity. Qed.
Example admitr_loop_1 : let r := admitr_loop (qm 10 [[15; (-5); (-5)];
    [(-5); 25; (-10)];
    [(-5); (-10); 30]]) (qm 1 [[0; 50; 100; 100];
    [1; 50; 100; 100];
    [2; 50; 100; 100]]) 1 in meq (fst r) (qm 10 [[15; (-5); 0];
    [(-5); 30; 0];
    [0; 0; 0]]) && neq (snd r) (map Z.to_nat [0; 2; 1]) = true.
Proof. vm_compute; reflexivity. Qed.
Example ximpa_1 : mnear 6 (ximpa (qm 1000000 [[(-11111); (-8333); (-5556); (-2778); 0];
    [(-8333); (-12500); (-8333); (-4167); 0];
    [(-5556); (-8333); (-11111); (-5556); 0];
    [(-2778); (-4167); (-5556); (-6944); 0];
    [0; 0; 0; 0; 0]]) (qq 16667 1000000) 1 2) (qm 1000000 [[(-10784); (-7843); (-5882); (-2941); 0];
    [(-7843); (-11765); (-8824); (-4412); 0];
    [(-5882); (-8824); (-10784); (-5392); 0];
    [(-2941); (-4412); (-5392); (-6863); 0];
    [0; 0; 0; 0; 0]]) = true.
Proof. vm_compute; reflexivity. Qed.
Example ximpar_1 : mnear 6 (ximpar (qm 1000000 [[(-6667); (-5000); (-3333); (-1667); 0];
    [(-5000); (-10000); (-6667); (-3333); 0];
    [(-3333); (-6667); (-10000); (-5000); 0];
    [(-1667); (-3333); (-5000); (-6667); 0];
    [0; 0; 0; 0; 0]]) (qq 16667 1000000) 0) (qm 1000000 [[(-4762); (-3571); (-2381); (-1190); 0];
    [(-3571); (-8929); (-5952); (-2976); 0];
    [(-2381); (-5952); (-9524); (-4762); 0];
    [(-1190); (-2976); (-4762); (-6548); 0];
    [0; 0; 0; 0; 0]]) = true.
Proof. vm_compute; reflexivity. Qed.
Example flo_1 : let r := flo [(0, 1); (1, 2); (2, 0)]%nat (qm 1 [[(-120); 300; 300];
    [(-60); 150; 150];
    [(-80); 100; 100]]) (qs 10 [1; 2; 3]) in vnear 6 (snd r) (qs 1 [12; 6; (-16)]) && vnear 6 (fst r) (qs 1 [(-28); 6; 22]) = true.
Proof. vm_compute; reflexivity. Qed.
Example flo_2 : let r := flo [(0, 1); (2, 0)]%nat (qm 1 [[(-120); 300; 300];
    [(-80); 100; 100]]) (qs 10 [1; 2; 3]) in vnear 6 (snd r) (qs 1 [12; (-16)]) && vnear 6 (fst r) (qs 1 [(-28); 12; 16]) = true.
Proof. vm_compute; reflexivity. Qed.
Example flo_case1 : let r := flo [(0, 1); (1, 2); (2, 3); (3, 4); (4, 0)]%nat (qm 1 [[(-120); 300; 300];
    [(-120); 300; 300];
    [(-120); 300; 300];
    [(-120); 300; 300];
    [(-120); 300; 300]]) (qs 1 [0; 0; 0; 0; 0]) in vnear 6 (snd r) (qs 1 [0; 0; 0; 0; 0]) && vnear 6 (fst r) (qs 1 [0; 0; 0; 0; 0]) = true.
Proof. vm_compute; reflexivity. Qed.
Example flo_case2 : let r := flo [(0, 1); (1, 2); (2, 3); (3, 4); (4, 0)]%nat (qm 1 [[(-120); 300; 300];
    [(-120); 300; 300];
    [(-120); 300; 300];
    [(-120); 300; 300];
    [(-120); 300; 300]]) (qs 1000000 [0; 589787; (-170426); (-373951); (-294346)]) in vnear 4 (snd r) (qs 1000000 [70774475; (-91225540); (-24423101); 9552584; 35321579]) && vnear 4 (fst r) (qs 1000000 [(-35452896); 162000015; (-66802437); (-33975685); (-25768995)]) = true.
Proof. vm_compute; reflexivity. Qed.
Example flo_case3 : let r := flo [(0, 1); (1, 2); (2, 3); (3, 4); (4, 0)]%nat (qm 1 [[(-120); 300; 300];
    [(-120); 300; 300];
    [(-120); 300; 300];
    [(-120); 300; 300];
    [(-120); 300; 300]]) (qs 1000000 [0; 17167; 53677; 15186; (-2854)]) in vnear 4 (snd r) (qs 1000000 [2060030; 4381152; (-4618848); (-2164786); 342452]) && vnear 4 (fst r) (qs 1000000 [(-1717577); (-2321123); 9000000; (-2454062); (-2507238)]) = true.
Proof. vm_compute; reflexivity. Qed.
Example flo_case4 : let r := flo [(0, 1); (1, 2); (2, 3); (3, 4); (4, 0)]%nat (qm 1 [[(-120); 300; 300];
    [(-120); 300; 300];
    [(-120); 300; 300];
    [(-120); 300; 300];
    [(-120); 300; 300]]) (qs 1000000 [0; 90639; 259919; 95865; 16540]) in vnear 4 (snd r) (qs 1000000 [10876714; 20313547; (-19686455); (-9519026); (-1984780)]) && vnear 4 (fst r) (qs 1000000 [(-12861493); (-9436833); 40000000; (-10167429); (-7534246)]) = true.
Proof. vm_compute; reflexivity. Qed.
Example flo_case5 : let r := flo [(0, 1); (1, 2); (2, 3); (3, 4); (4, 0)]%nat (qm 1 [[(-120); 300; 300];
    [(-120); 300; 300];
    [(-120); 300; 300];
    [(-120); 300; 300];
    [(-120); 300; 300]]) (qs 1000000 [0; (-295146); (-414934); (-425915); (-271521)]) in vnear 4 (snd r) (qs 1000000 [(-35417500); (-14374630); (-1317676); 18527306; 32582504]) && vnear 4 (fst r) (qs 1000000 [68000000; (-21042870); (-13056953); (-19844982); (-14055199)]) = true.
Proof. vm_compute; reflexivity. Qed.
Example assign_1 : let r := assign (qs 1 [0; 0; 0; 0; 0]) (qs 1 [0; 0; 0; 0; 0]) (map Z.to_nat [1; 2; 3; 4; 0]) true in vnear 5 (fst r) (qs 1 [0; 0; 0; 0; 0]) && vnear 5 (snd r) (qs 1 [0; 0; 0; 0; 0]) = true.
Proof. vm_compute; reflexivity. Qed.
Example assign_loop_1 : let r := assign_loop (qs 1 [0; 0; 0; 0; 0]) (qs 1 [0; 0; 0; 0; 0]) (map Z.to_nat [1; 2; 3; 4; 0]) true in vnear 5 (fst r) (qs 1 [0; 0; 0; 0; 0]) && vnear 5 (snd r) (qs 1 [0; 0; 0; 0; 0]) = true.
Proof. vm_compute; reflexivity. Qed.
Example assign_2 : let r := assign (qs 1 [(-162); 814; 414; 314; 432]) (qs 1 [2591; 2591; 2591; 2591; 2591]) (map Z.to_nat [1; 2; 3; 4; 0]) true in vnear 5 (fst r) (qs 1000000 [(-162000000); 66802429; 33975685; 25768997; 35452888]) && vnear 5 (snd r) (qs 1 [0; 0; 0; 0; 0]) = true.
Proof. vm_compute; reflexivity. Qed.
Example assign_loop_2 : let r := assign_loop (qs 1 [(-162); 814; 414; 314; 432]) (qs 1 [2591; 2591; 2591; 2591; 2591]) (map Z.to_nat [1; 2; 3; 4; 0]) true in vnear 5 (fst r) (qs 1000000 [(-162000000); 66802429; 33975685; 25768997; 35452888]) && vnear 5 (snd r) (qs 1 [0; 0; 0; 0; 0]) = true.
Proof. vm_compute; reflexivity. Qed.
Example assign_3 : let r := assign (qs 1 [620; (-40); 668; 495; 845]) (qs 1 [2540; 2540; 2540; 2540; 2540]) (map Z.to_nat [1; 2; 3; 4; 0]) true in vnear 5 (fst r) (qs 1000000 [9436834; (-40000000); 10167428; 7534246; 12861491]) && vnear 5 (snd r) (qs 1 [0; 0; 0; 0; 0]) = true.
Proof. vm_compute; reflexivity. Qed.
Example assign_loop_3 : let r := assign_loop (qs 1 [620; (-40); 668; 495; 845]) (qs 1 [2540; 2540; 2540; 2540; 2540]) (map Z.to_nat [1; 2; 3; 4; 0]) true in vnear 5 (fst r) (qs 1000000 [9436834; (-40000000); 10167428; 7534246; 12861491]) && vnear 5 (snd r) (qs 1 [0; 0; 0; 0; 0]) = true.
Proof. vm_compute; reflexivity. Qed.
(** [np.linalg.inv], an argument of the model, is instantiated with the LU inverse of LinpackModel *)
Definition the_inv (M : list (list Qc)) : option (list (list Qc)) := Some (linpack_inv M (length M)).
Example tm1_1 : okd (tm1 the_inv (qm 1 [[0; 50; 100; 100; 0];
    [1; 50; 100; 100; 0];
    [2; 50; 100; 100; 0]]) [(0, 1); (1, 2); (2, 0)]%nat (qm 1 [[(-120); 300; 300];
    [(-60); 150; 150];
    [(-80); 100; 100]]) 0) (fun r => let '(b, B, L, Z) := r in vnear 6 b (qs 1 [(-120); (-60); (-80)]) && mnear 6 B (qm 1 [[(-180); 60; 0];
    [60; (-140); 0];
    [0; 0; 0]]) && neq L (map Z.to_nat [1; 2; 0]) && mnear 6 Z (qm 1000000 [[(-6481); (-2778); 0];
    [(-2778); (-8333); 0];
    [0; 0; 0]])) = true.
Proof. vm_compute; reflexivity. Qed.
Example tm1_2 : okd (tm1 the_inv (qm 1 [[0; 0; 0; 30000; 30000];
    [1; 0; 0; 30000; 30000];
    [2; 0; 0; 30000; 30000];
    [3; 0; 0; 30000; 30000];
    [4; 0; 0; 30000; 30000]]) [(0, 1); (1, 2); (2, 3); (3, 4); (4, 0)]%nat (qm 1 [[(-120); 300; 300];
    [(-120); 300; 300];
    [(-120); 300; 300];
    [(-120); 300; 300];
    [(-120); 300; 300]]) 0) (fun r => let '(b, B, L, Z) := r in vnear 6 b (qs 1 [(-120); (-120); (-120); (-120); (-120)]) && mnear 6 B (qm 1 [[(-240); 120; 0; 0; 0];
    [120; (-240); 120; 0; 0];
    [0; 120; (-240); 120; 0];
    [0; 0; 120; (-240); 0];
    [0; 0; 0; 0; 0]]) && neq L (map Z.to_nat [1; 2; 3; 4; 0]) && mnear 6 Z (qm 100000000 [[(-666667); (-500000); (-333333); (-166667); 0];
    [(-500000); (-1000000); (-666667); (-333333); 0];
    [(-333333); (-666667); (-1000000); (-500000); 0];
    [(-166667); (-333333); (-500000); (-666667); 0];
    [0; 0; 0; 0; 0]])) = true.
Proof. vm_compute; reflexivity. Qed.
