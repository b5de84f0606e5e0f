(** The ten cases of monte_carlo/tests/test_transm.py; linp gets fuel for 200 passes.
    Generated by tools/mkvectors.py; do not edit. *)
From Verif Require Import Base Vec NetModel LinpackModel LpModel VecNet.
Open Scope Z_scope.

Example transm_1 : okd (transm the_inv (lp_nls 200 [(0, 1); (1, 2); (2, 3); (3, 4); (4, 0)]%nat (map Z.to_nat [1; 2; 3; 4; 0]) 0) false (mkNet (qm 1 [[0; 0; 0; 30000; 30000];
    [1; 0; 0; 30000; 30000];
    [2; 0; 0; 30000; 30000];
    [3; 0; 0; 30000; 30000];
    [4; 0; 0; 30000; 30000]]) (qs 1 [0; 0; 0; 0; 0]) (qm 1 [[0; 0; 0; 0; 0];
    [0; 0; 0; 0; 0];
    [0; 0; 0; 0; 0];
    [0; 0; 0; 0; 0];
    [0; 0; 0; 0; 0]]) (map Z.to_nat [(-1); (-1); (-1); (-1); (-1)]) (qm 1 [[0; 0; 0; 0; 0];
    [0; 0; 0; 0; 0];
    [0; 0; 0; 0; 0];
    [0; 0; 0; 0; 0];
    [0; 0; 0; 0; 0]]))
  (qm 10 [[(-1200); 3000; 3000; (-600); 1500; 1500; (-5); 10; 10; (-800); 1500; 1500; (-400); 1000; 1000; (-200); 500; 500];
    [(-1200); 3000; 3000; (-600); 1500; 1500; (-5); 10; 10; (-800); 1500; 1500; (-400); 1000; 1000; (-200); 500; 500];
    [(-1200); 3000; 3000; (-600); 1500; 1500; (-5); 10; 10; (-800); 1500; 1500; (-400); 1000; 1000; (-200); 500; 500];
    [(-1200); 3000; 3000; (-600); 1500; 1500; (-5); 10; 10; (-800); 1500; 1500; (-400); 1000; 1000; (-200); 500; 500];
    [(-1200); 3000; 3000; (-600); 1500; 1500; (-5); 10; 10; (-800); 1500; 1500; (-400); 1000; 1000; (-200); 500; 500]]) [(0, 1); (1, 2); (2, 3); (3, 4); (4, 0)]%nat 0 (qm 1 [[1; 1];
    [1; 1];
    [1; 1];
    [1; 1];
    [1; 1]]) [1; 1; 1; 1; 1] true (qs 1 [0; 0; 0; 0; 0]) (qs 1 [0; 0; 0; 0; 0]) (qs 1 [3023; 2429; 3405; 3005; 2905]) (qs 1 [2591; 2591; 2591; 2591; 2591])) (fun r =>
  let '(J, FLOW, SADJ, s) := r in J && vnear 5 FLOW (qs 1000000 [70774475; (-91225540); (-24423101); 9552584; 35321579]) && vnear 5 SADJ (qs 1000000 [(-396547119); 0; (-747197571); (-380024323); (-288231018)]) && vnear 6 (n_BLP0 s) (qs 1 [(-120); (-120); (-120); (-120); (-120)]) &&
  mnear 6 (n_BB s) (qm 1 [[(-240); 120; 0; 0; 0];
    [120; (-240); 120; 0; 0];
    [0; 120; (-240); 120; 0];
    [0; 0; 120; (-240); 0];
    [0; 0; 0; 0; 0]]) && neq (n_LT s) (map Z.to_nat [1; 2; 3; 4; 0]) && mnear 6 (n_ZB s) (qm 100000000 [[(-666667); (-500000); (-333333); (-166667); 0];
    [(-500000); (-1000000); (-666667); (-333333); 0];
    [(-333333); (-666667); (-1000000); (-500000); 0];
    [(-166667); (-333333); (-500000); (-666667); 0];
    [0; 0; 0; 0; 0]]) && mnear 5 (n_BN s) (qm 1000000 [[0; 35452888; 0; 30000000000; 30000000000];
    [1000000; (-162000000); 0; 30000000000; 30000000000];
    [2000000; 66802429; 0; 30000000000; 30000000000];
    [3000000; 33975685; 0; 30000000000; 30000000000];
    [4000000; 25768997; 0; 30000000000; 30000000000]])) = true.
Proof. vm_compute; reflexivity. Qed.
Example transm_2 : okd (transm the_inv (lp_nls 200 [(0, 1); (1, 2); (2, 3); (3, 4); (4, 0)]%nat (map Z.to_nat [1; 2; 3; 4; 0]) 0) true (mkNet (qm 1000000 [[0; 35452888; 0; 30000000000; 30000000000];
    [1000000; (-162000000); 0; 30000000000; 30000000000];
    [2000000; 66802429; 0; 30000000000; 30000000000];
    [3000000; 33975685; 0; 30000000000; 30000000000];
    [4000000; 25768997; 0; 30000000000; 30000000000]]) (qs 1 [(-120); (-120); (-120); (-120); (-120)]) (qm 1 [[(-240); 120; 0; 0; 0];
    [120; (-240); 120; 0; 0];
    [0; 120; (-240); 120; 0];
    [0; 0; 120; (-240); 0];
    [0; 0; 0; 0; 0]]) (map Z.to_nat [1; 2; 3; 4; 0]) (qm 100000000 [[(-666667); (-500000); (-333333); (-166667); 0];
    [(-500000); (-1000000); (-666667); (-333333); 0];
    [(-333333); (-666667); (-1000000); (-500000); 0];
    [(-166667); (-333333); (-500000); (-666667); 0];
    [0; 0; 0; 0; 0]]))
  (qm 10 [[(-1200); 3000; 3000; (-600); 1500; 1500; (-5); 10; 10; (-800); 1500; 1500; (-400); 1000; 1000; (-200); 500; 500];
    [(-1200); 3000; 3000; (-600); 1500; 1500; (-5); 10; 10; (-800); 1500; 1500; (-400); 1000; 1000; (-200); 500; 500];
    [(-1200); 3000; 3000; (-600); 1500; 1500; (-5); 10; 10; (-800); 1500; 1500; (-400); 1000; 1000; (-200); 500; 500];
    [(-1200); 3000; 3000; (-600); 1500; 1500; (-5); 10; 10; (-800); 1500; 1500; (-400); 1000; 1000; (-200); 500; 500];
    [(-1200); 3000; 3000; (-600); 1500; 1500; (-5); 10; 10; (-800); 1500; 1500; (-400); 1000; 1000; (-200); 500; 500]]) [(0, 1); (1, 2); (2, 3); (3, 4); (4, 0)]%nat 0 (qm 1 [[1; 1];
    [1; 1];
    [1; 1];
    [1; 1];
    [1; 1]]) [1; 1; 1; 1; 1] true (qs 1 [0; 0; 0; 0; 0]) (qs 1 [0; 0; 0; 0; 0]) (qs 1 [3385; 3160; 2500; 3208; 3035]) (qs 1 [2540; 2540; 2540; 2540; 2540])) (fun r =>
  let '(J, FLOW, SADJ, s) := r in J && vnear 4 FLOW (qs 1000000 [10876714; 20313547; (-19686455); (-9519026); (-1984780)]) && vnear 4 SADJ (qs 1000000 [(-832138489); (-610563171); 0; (-657832581); (-487465759)]) && vnear 6 (n_BLP0 s) (qs 1 [(-120); (-120); (-120); (-120); (-120)]) &&
  mnear 6 (n_BB s) (qm 1 [[(-240); 120; 0; 0; 0];
    [120; (-240); 120; 0; 0];
    [0; 120; (-240); 120; 0];
    [0; 0; 120; (-240); 0];
    [0; 0; 0; 0; 0]]) && neq (n_LT s) (map Z.to_nat [1; 2; 3; 4; 0]) && mnear 6 (n_ZB s) (qm 100000000 [[(-666667); (-500000); (-333333); (-166667); 0];
    [(-500000); (-1000000); (-666667); (-333333); 0];
    [(-333333); (-666667); (-1000000); (-500000); 0];
    [(-166667); (-333333); (-500000); (-666667); 0];
    [0; 0; 0; 0; 0]]) && mnear 6 (n_BN s) (qm 1000000 [[0; 12861491; 0; 30000000000; 30000000000];
    [1000000; 9436834; 0; 30000000000; 30000000000];
    [2000000; (-40000000); 0; 30000000000; 30000000000];
    [3000000; 10167428; 0; 30000000000; 30000000000];
    [4000000; 7534246; 0; 30000000000; 30000000000]])) = true.
Proof. vm_compute; reflexivity. Qed.
Example transm_3 : okd (transm the_inv (lp_nls 200 [(0, 1); (1, 2); (2, 3); (3, 4); (4, 0)]%nat (map Z.to_nat [1; 2; 3; 4; 0]) 0) true (mkNet (qm 1000000 [[0; 12861491; 0; 30000000000; 30000000000];
    [1000000; 9436834; 0; 30000000000; 30000000000];
    [2000000; (-40000000); 0; 30000000000; 30000000000];
    [3000000; 10167428; 0; 30000000000; 30000000000];
    [4000000; 7534246; 0; 30000000000; 30000000000]]) (qs 1 [(-120); (-120); (-120); (-120); (-120)]) (qm 1 [[(-240); 120; 0; 0; 0];
    [120; (-240); 120; 0; 0];
    [0; 120; (-240); 120; 0];
    [0; 0; 120; (-240); 0];
    [0; 0; 0; 0; 0]]) (map Z.to_nat [1; 2; 3; 4; 0]) (qm 100000000 [[(-666667); (-500000); (-333333); (-166667); 0];
    [(-500000); (-1000000); (-666667); (-333333); 0];
    [(-333333); (-666667); (-1000000); (-500000); 0];
    [(-166667); (-333333); (-500000); (-666667); 0];
    [0; 0; 0; 0; 0]]))
  (qm 10 [[(-1200); 3000; 3000; (-600); 1500; 1500; (-5); 10; 10; (-800); 1500; 1500; (-400); 1000; 1000; (-200); 500; 500];
    [(-1200); 3000; 3000; (-600); 1500; 1500; (-5); 10; 10; (-800); 1500; 1500; (-400); 1000; 1000; (-200); 500; 500];
    [(-1200); 3000; 3000; (-600); 1500; 1500; (-5); 10; 10; (-800); 1500; 1500; (-400); 1000; 1000; (-200); 500; 500];
    [(-1200); 3000; 3000; (-600); 1500; 1500; (-5); 10; 10; (-800); 1500; 1500; (-400); 1000; 1000; (-200); 500; 500];
    [(-1200); 3000; 3000; (-600); 1500; 1500; (-5); 10; 10; (-800); 1500; 1500; (-400); 1000; 1000; (-200); 500; 500]]) [(0, 1); (1, 2); (2, 3); (3, 4); (4, 0)]%nat 0 (qm 1 [[1; 1];
    [1; 1];
    [1; 1];
    [1; 1];
    [1; 1]]) [2; 1; 2; 1; 1] true (qs 1 [0; 0; 0; 0; 0]) (qs 1 [0; 0; 0; 0; 0]) (qs 1 [3405; 3393; 2909; 2641; 3405]) (qs 1 [2645; 2645; 2645; 2645; 2645])) (fun r =>
  let '(J, FLOW, SADJ, s) := r in J && vnear 5 FLOW (qs 1000000 [(-111036); 1070639; 1487700; (-2512300); (-1311668)]) && vnear 4 SADJ (qs 1000000 [(-758799377); (-746818298); (-263582947); 0; (-758799377)]) && vnear 6 (n_BLP0 s) (qs 1 [(-120); (-120); (-120); (-120); (-120)]) &&
  mnear 6 (n_BB s) (qm 1 [[(-240); 120; 0; 0; 0];
    [120; (-240); 120; 0; 0];
    [0; 120; (-240); 120; 0];
    [0; 0; 120; (-240); 0];
    [0; 0; 0; 0; 0]]) && neq (n_LT s) (map Z.to_nat [1; 2; 3; 4; 0]) && mnear 6 (n_ZB s) (qm 100000000 [[(-666667); (-500000); (-333333); (-166667); 0];
    [(-500000); (-1000000); (-666667); (-333333); 0];
    [(-333333); (-666667); (-1000000); (-500000); 0];
    [(-166667); (-333333); (-500000); (-666667); 0];
    [0; 0; 0; 0; 0]]) && mnear 6 (n_BN s) (qm 1000000 [[0; 1200632; 0; 30000000000; 30000000000];
    [1000000; 1181675; 0; 30000000000; 30000000000];
    [2000000; 417062; 0; 30000000000; 30000000000];
    [3000000; (-4000000); 0; 30000000000; 30000000000];
    [4000000; 1200632; 0; 30000000000; 30000000000]])) = true.
Proof. vm_compute; reflexivity. Qed.
Example transm_4 : okd (transm the_inv (lp_nls 200 [(0, 1); (1, 2); (2, 3); (3, 4); (4, 0)]%nat (map Z.to_nat [1; 2; 3; 4; 0]) 0) true (mkNet (qm 1000000 [[0; 1200632; 0; 30000000000; 30000000000];
    [1000000; 1181675; 0; 30000000000; 30000000000];
    [2000000; 417062; 0; 30000000000; 30000000000];
    [3000000; (-4000000); 0; 30000000000; 30000000000];
    [4000000; 1200632; 0; 30000000000; 30000000000]]) (qs 1 [(-120); (-120); (-120); (-120); (-120)]) (qm 1 [[(-240); 120; 0; 0; 0];
    [120; (-240); 120; 0; 0];
    [0; 120; (-240); 120; 0];
    [0; 0; 120; (-240); 0];
    [0; 0; 0; 0; 0]]) (map Z.to_nat [1; 2; 3; 4; 0]) (qm 100000000 [[(-666667); (-500000); (-333333); (-166667); 0];
    [(-500000); (-1000000); (-666667); (-333333); 0];
    [(-333333); (-666667); (-1000000); (-500000); 0];
    [(-166667); (-333333); (-500000); (-666667); 0];
    [0; 0; 0; 0; 0]]))
  (qm 10 [[(-1200); 3000; 3000; (-600); 1500; 1500; (-5); 10; 10; (-800); 1500; 1500; (-400); 1000; 1000; (-200); 500; 500];
    [(-1200); 3000; 3000; (-600); 1500; 1500; (-5); 10; 10; (-800); 1500; 1500; (-400); 1000; 1000; (-200); 500; 500];
    [(-1200); 3000; 3000; (-600); 1500; 1500; (-5); 10; 10; (-800); 1500; 1500; (-400); 1000; 1000; (-200); 500; 500];
    [(-1200); 3000; 3000; (-600); 1500; 1500; (-5); 10; 10; (-800); 1500; 1500; (-400); 1000; 1000; (-200); 500; 500];
    [(-1200); 3000; 3000; (-600); 1500; 1500; (-5); 10; 10; (-800); 1500; 1500; (-400); 1000; 1000; (-200); 500; 500]]) [(0, 1); (1, 2); (2, 3); (3, 4); (4, 0)]%nat 0 (qm 1 [[1; 1];
    [1; 1];
    [1; 1];
    [1; 1];
    [1; 1]]) [1; 1; 1; 1; 1] true (qs 1 [0; 0; 0; 0; 0]) (qs 1 [0; 0; 0; 0; 0]) (qs 1 [3108; 3335; 2453; 3385; 3405]) (qs 1 [2462; 2462; 2462; 2462; 2462])) (fun r =>
  let '(J, FLOW, SADJ, s) := r in J && vnear 5 FLOW (qs 1000000 [2060030; 4381152; (-4618848); (-2164786); 342452]) && vnear 4 SADJ (qs 1000000 [(-644282410); (-870678894); 0; (-920545959); (-940492737)]) && vnear 6 (n_BLP0 s) (qs 1 [(-120); (-120); (-120); (-120); (-120)]) &&
  mnear 6 (n_BB s) (qm 1 [[(-240); 120; 0; 0; 0];
    [120; (-240); 120; 0; 0];
    [0; 120; (-240); 120; 0];
    [0; 0; 120; (-240); 0];
    [0; 0; 0; 0; 0]]) && neq (n_LT s) (map Z.to_nat [1; 2; 3; 4; 0]) && mnear 6 (n_ZB s) (qm 100000000 [[(-666667); (-500000); (-333333); (-166667); 0];
    [(-500000); (-1000000); (-666667); (-333333); 0];
    [(-333333); (-666667); (-1000000); (-500000); 0];
    [(-166667); (-333333); (-500000); (-666667); 0];
    [0; 0; 0; 0; 0]]) && mnear 6 (n_BN s) (qm 1000000 [[0; 1717578; 0; 30000000000; 30000000000];
    [1000000; 2321123; 0; 30000000000; 30000000000];
    [2000000; (-9000000); 0; 30000000000; 30000000000];
    [3000000; 2454062; 0; 30000000000; 30000000000];
    [4000000; 2507238; 0; 30000000000; 30000000000]])) = true.
Proof. vm_compute; reflexivity. Qed.
Example transm_5 : okd (transm the_inv (lp_nls 200 [(0, 1); (1, 2); (2, 3); (3, 4); (4, 0)]%nat (map Z.to_nat [1; 2; 3; 4; 0]) 0) true (mkNet (qm 1000000 [[0; 1717578; 0; 30000000000; 30000000000];
    [1000000; 2321123; 0; 30000000000; 30000000000];
    [2000000; (-9000000); 0; 30000000000; 30000000000];
    [3000000; 2454062; 0; 30000000000; 30000000000];
    [4000000; 2507238; 0; 30000000000; 30000000000]]) (qs 1 [(-120); (-120); (-120); (-120); (-120)]) (qm 1 [[(-240); 120; 0; 0; 0];
    [120; (-240); 120; 0; 0];
    [0; 120; (-240); 120; 0];
    [0; 0; 120; (-240); 0];
    [0; 0; 0; 0; 0]]) (map Z.to_nat [1; 2; 3; 4; 0]) (qm 100000000 [[(-666667); (-500000); (-333333); (-166667); 0];
    [(-500000); (-1000000); (-666667); (-333333); 0];
    [(-333333); (-666667); (-1000000); (-500000); 0];
    [(-166667); (-333333); (-500000); (-666667); 0];
    [0; 0; 0; 0; 0]]))
  (qm 10 [[(-1200); 3000; 3000; (-600); 1500; 1500; (-5); 10; 10; (-800); 1500; 1500; (-400); 1000; 1000; (-200); 500; 500];
    [(-1200); 3000; 3000; (-600); 1500; 1500; (-5); 10; 10; (-800); 1500; 1500; (-400); 1000; 1000; (-200); 500; 500];
    [(-1200); 3000; 3000; (-600); 1500; 1500; (-5); 10; 10; (-800); 1500; 1500; (-400); 1000; 1000; (-200); 500; 500];
    [(-1200); 3000; 3000; (-600); 1500; 1500; (-5); 10; 10; (-800); 1500; 1500; (-400); 1000; 1000; (-200); 500; 500];
    [(-1200); 3000; 3000; (-600); 1500; 1500; (-5); 10; 10; (-800); 1500; 1500; (-400); 1000; 1000; (-200); 500; 500]]) [(0, 1); (1, 2); (2, 3); (3, 4); (4, 0)]%nat 0 (qm 1 [[1; 1];
    [1; 1];
    [1; 1];
    [1; 1];
    [1; 1]]) [1; 1; 1; 1; 1] true (qs 1 [0; 0; 0; 0; 0]) (qs 1 [0; 0; 0; 0; 0]) (qs 1 [2283; 3405; 3005; 3345; 3055]) (qs 1 [2351; 2351; 2351; 2351; 2351])) (fun r =>
  let '(J, FLOW, SADJ, s) := r in J && vnear 5 FLOW (qs 1000000 [(-35417500); (-14374630); (-1317676); 18527306; 32582504]) && vnear 4 SADJ (qs 1000000 [0; (-1032957153); (-640943054); (-974155029); (-689944824)]) && vnear 6 (n_BLP0 s) (qs 1 [(-120); (-120); (-120); (-120); (-120)]) &&
  mnear 6 (n_BB s) (qm 1 [[(-240); 120; 0; 0; 0];
    [120; (-240); 120; 0; 0];
    [0; 120; (-240); 120; 0];
    [0; 0; 120; (-240); 0];
    [0; 0; 0; 0; 0]]) && neq (n_LT s) (map Z.to_nat [1; 2; 3; 4; 0]) && mnear 6 (n_ZB s) (qm 100000000 [[(-666667); (-500000); (-333333); (-166667); 0];
    [(-500000); (-1000000); (-666667); (-333333); 0];
    [(-333333); (-666667); (-1000000); (-500000); 0];
    [(-166667); (-333333); (-500000); (-666667); 0];
    [0; 0; 0; 0; 0]]) && mnear 6 (n_BN s) (qm 1000000 [[0; (-68000000); 0; 30000000000; 30000000000];
    [1000000; 21042866; 0; 30000000000; 30000000000];
    [2000000; 13056958; 0; 30000000000; 30000000000];
    [3000000; 19844980; 0; 30000000000; 30000000000];
    [4000000; 14055197; 0; 30000000000; 30000000000]])) = true.
Proof. vm_compute; reflexivity. Qed.
Example transm_6 : okd (transm the_inv (lp_nls 200 [(0, 1); (1, 2); (2, 3); (3, 4); (4, 0)]%nat (map Z.to_nat [1; 2; 3; 4; 0]) 0) true (mkNet (qm 1000000 [[0; (-16000000); 0; 30000000000; 30000000000];
    [1000000; 4839227; 0; 30000000000; 30000000000];
    [2000000; 2300802; 0; 30000000000; 30000000000];
    [3000000; 4020745; 0; 30000000000; 30000000000];
    [4000000; 4839227; 0; 30000000000; 30000000000]]) (qs 1 [(-120); (-120); (-120); (-120); (-120)]) (qm 1 [[(-240); 120; 0; 0; 0];
    [120; (-240); 120; 0; 0];
    [0; 120; (-240); 120; 0];
    [0; 0; 120; (-240); 0];
    [0; 0; 0; 0; 0]]) (map Z.to_nat [1; 2; 3; 4; 0]) (qm 100000000 [[(-666667); (-500000); (-333333); (-166667); 0];
    [(-500000); (-1000000); (-666667); (-333333); 0];
    [(-333333); (-666667); (-1000000); (-500000); 0];
    [(-166667); (-333333); (-500000); (-666667); 0];
    [0; 0; 0; 0; 0]]))
  (qm 10 [[(-1200); 3000; 3000; (-600); 1500; 1500; (-5); 10; 10; (-800); 1500; 1500; (-400); 1000; 1000; (-200); 500; 500];
    [(-1200); 3000; 3000; (-600); 1500; 1500; (-5); 10; 10; (-800); 1500; 1500; (-400); 1000; 1000; (-200); 500; 500];
    [(-1200); 3000; 3000; (-600); 1500; 1500; (-5); 10; 10; (-800); 1500; 1500; (-400); 1000; 1000; (-200); 500; 500];
    [(-1200); 3000; 3000; (-600); 1500; 1500; (-5); 10; 10; (-800); 1500; 1500; (-400); 1000; 1000; (-200); 500; 500];
    [(-1200); 3000; 3000; (-600); 1500; 1500; (-5); 10; 10; (-800); 1500; 1500; (-400); 1000; 1000; (-200); 500; 500]]) [(0, 1); (1, 2); (2, 3); (3, 4); (4, 0)]%nat 0 (qm 1 [[1; 1];
    [1; 1];
    [1; 1];
    [1; 1];
    [1; 1]]) [2; 1; 1; 1; 1] true (qs 1 [0; 0; 0; 0; 0]) (qs 1 [0; 0; 0; 0; 0]) (qs 1 [3405; 3365; 3365; 2879; 2058]) (qs 1 [2288; 2288; 2288; 2288; 2288])) (fun r =>
  let '(J, FLOW, SADJ, s) := r in J && vnear 3 FLOW (qs 1000000 [(-48229328); 15911015; 80051353; 115248146; (-114751854)]) && vnear 4 SADJ (qs 1000000 [(-1050477417); (-1012859680); (-1012859680); (-555803223); 0]) && vnear 6 (n_BLP0 s) (qs 1 [(-120); (-120); (-120); (-120); (-120)]) &&
  mnear 6 (n_BB s) (qm 1 [[(-240); 120; 0; 0; 0];
    [120; (-240); 120; 0; 0];
    [0; 120; (-240); 120; 0];
    [0; 0; 120; (-240); 0];
    [0; 0; 0; 0; 0]]) && neq (n_LT s) (map Z.to_nat [1; 2; 3; 4; 0]) && mnear 6 (n_ZB s) (qm 100000000 [[(-666667); (-500000); (-333333); (-166667); 0];
    [(-500000); (-1000000); (-666667); (-333333); 0];
    [(-333333); (-666667); (-1000000); (-500000); 0];
    [(-166667); (-333333); (-500000); (-666667); 0];
    [0; 0; 0; 0; 0]]) && mnear 5 (n_BN s) (qm 1000000 [[0; 66522530; 0; 30000000000; 30000000000];
    [1000000; 64140343; 0; 30000000000; 30000000000];
    [2000000; 64140343; 0; 30000000000; 30000000000];
    [3000000; 35196789; 0; 30000000000; 30000000000];
    [4000000; (-230000000); 0; 30000000000; 30000000000]])) = true.
Proof. vm_compute; reflexivity. Qed.
Example transm_7 : okd (transm the_inv (lp_nls 200 [(0, 1); (1, 2); (2, 3); (3, 4); (4, 0)]%nat (map Z.to_nat [1; 2; 3; 4; 0]) 0) true (mkNet (qm 1000000 [[0; (-246000000); 0; 30000000000; 30000000000];
    [1000000; 5614539; 0; 30000000000; 30000000000];
    [2000000; 93991547; 0; 30000000000; 30000000000];
    [3000000; 93991547; 0; 30000000000; 30000000000];
    [4000000; 52402367; 0; 30000000000; 30000000000]]) (qs 1 [(-120); (-120); (-120); (-120); (-120)]) (qm 1 [[(-240); 120; 0; 0; 0];
    [120; (-240); 120; 0; 0];
    [0; 120; (-240); 120; 0];
    [0; 0; 120; (-240); 0];
    [0; 0; 0; 0; 0]]) (map Z.to_nat [1; 2; 3; 4; 0]) (qm 100000000 [[(-666667); (-500000); (-333333); (-166667); 0];
    [(-500000); (-1000000); (-666667); (-333333); 0];
    [(-333333); (-666667); (-1000000); (-500000); 0];
    [(-166667); (-333333); (-500000); (-666667); 0];
    [0; 0; 0; 0; 0]]))
  (qm 10 [[(-1200); 3000; 3000; (-600); 1500; 1500; (-5); 10; 10; (-800); 1500; 1500; (-400); 1000; 1000; (-200); 500; 500];
    [(-1200); 3000; 3000; (-600); 1500; 1500; (-5); 10; 10; (-800); 1500; 1500; (-400); 1000; 1000; (-200); 500; 500];
    [(-1200); 3000; 3000; (-600); 1500; 1500; (-5); 10; 10; (-800); 1500; 1500; (-400); 1000; 1000; (-200); 500; 500];
    [(-1200); 3000; 3000; (-600); 1500; 1500; (-5); 10; 10; (-800); 1500; 1500; (-400); 1000; 1000; (-200); 500; 500];
    [(-1200); 3000; 3000; (-600); 1500; 1500; (-5); 10; 10; (-800); 1500; 1500; (-400); 1000; 1000; (-200); 500; 500]]) [(0, 1); (1, 2); (2, 3); (3, 4); (4, 0)]%nat 0 (qm 1 [[1; 1];
    [1; 1];
    [1; 1];
    [1; 1];
    [1; 1]]) [1; 1; 1; 1; 1] true (qs 1 [0; 0; 0; 0; 0]) (qs 1 [0; 0; 0; 0; 0]) (qs 1 [2253; 3208; 3405; 3055; 3405]) (qs 1 [2580; 2580; 2580; 2580; 2580])) (fun r =>
  let '(J, FLOW, SADJ, s) := r in J && vnear 4 FLOW (qs 1000000 [(-160637421); (-86043861); 11949220; 68369476; 166362595]) && vnear 4 SADJ (qs 1000000 [0; (-553406494); (-727006897); (-418579742); (-727006897)]) && vnear 6 (n_BLP0 s) (qs 1 [(-120); (-120); (-120); (-120); (-120)]) &&
  mnear 6 (n_BB s) (qm 1 [[(-240); 120; 0; 0; 0];
    [120; (-240); 120; 0; 0];
    [0; 120; (-240); 120; 0];
    [0; 0; 120; (-240); 0];
    [0; 0; 0; 0; 0]]) && neq (n_LT s) (map Z.to_nat [1; 2; 3; 4; 0]) && mnear 6 (n_ZB s) (qm 100000000 [[(-666667); (-500000); (-333333); (-166667); 0];
    [(-500000); (-1000000); (-666667); (-333333); 0];
    [(-333333); (-666667); (-1000000); (-500000); 0];
    [(-166667); (-333333); (-500000); (-666667); 0];
    [0; 0; 0; 0; 0]]) && mnear 5 (n_BN s) (qm 1000000 [[0; (-327000000); 0; 30000000000; 30000000000];
    [1000000; 74593536; 0; 30000000000; 30000000000];
    [2000000; 97993095; 0; 30000000000; 30000000000];
    [3000000; 56420269; 0; 30000000000; 30000000000];
    [4000000; 97993095; 0; 30000000000; 30000000000]])) = true.
Proof. vm_compute; reflexivity. Qed.
Example transm_8 : okd (transm the_inv (lp_nls 200 [(0, 1); (1, 2); (2, 3); (3, 4); (4, 0)]%nat (map Z.to_nat [1; 2; 3; 4; 0]) 0) true (mkNet (qm 1000000 [[0; (-32000000); 0; 30000000000; 30000000000];
    [1000000; 12425207; 0; 30000000000; 30000000000];
    [2000000; 3422024; 0; 30000000000; 30000000000];
    [3000000; 6619987; 0; 30000000000; 30000000000];
    [4000000; 9532782; 0; 30000000000; 30000000000]]) (qs 1 [(-120); (-120); (-120); (-120); (-120)]) (qm 1 [[(-240); 120; 0; 0; 0];
    [120; (-240); 120; 0; 0];
    [0; 120; (-240); 120; 0];
    [0; 0; 120; (-240); 0];
    [0; 0; 0; 0; 0]]) (map Z.to_nat [1; 2; 3; 4; 0]) (qm 100000000 [[(-666667); (-500000); (-333333); (-166667); 0];
    [(-500000); (-1000000); (-666667); (-333333); 0];
    [(-333333); (-666667); (-1000000); (-500000); 0];
    [(-166667); (-333333); (-500000); (-666667); 0];
    [0; 0; 0; 0; 0]]))
  (qm 10 [[(-1200); 3000; 3000; (-600); 1500; 1500; (-5); 10; 10; (-800); 1500; 1500; (-400); 1000; 1000; (-200); 500; 500];
    [(-1200); 3000; 3000; (-600); 1500; 1500; (-5); 10; 10; (-800); 1500; 1500; (-400); 1000; 1000; (-200); 500; 500];
    [(-1200); 3000; 3000; (-600); 1500; 1500; (-5); 10; 10; (-800); 1500; 1500; (-400); 1000; 1000; (-200); 500; 500];
    [(-1200); 3000; 3000; (-600); 1500; 1500; (-5); 10; 10; (-800); 1500; 1500; (-400); 1000; 1000; (-200); 500; 500];
    [(-1200); 3000; 3000; (-600); 1500; 1500; (-5); 10; 10; (-800); 1500; 1500; (-400); 1000; 1000; (-200); 500; 500]]) [(0, 1); (1, 2); (2, 3); (3, 4); (4, 0)]%nat 0 (qm 1 [[1; 1];
    [1; 1];
    [1; 1];
    [1; 1];
    [1; 1]]) [1; 1; 1; 1; 1] true (qs 1 [0; 0; 0; 0; 0]) (qs 1 [0; 0; 0; 0; 0]) (qs 1 [1877; 2505; 3405; 3005; 2880]) (qs 1 [1919; 1919; 1919; 1919; 1919])) (fun r =>
  let '(J, FLOW, SADJ, s) := r in J && vnear 5 FLOW (qs 1000000 [(-20260742); (-14285506); 866715; 11940275; 21739258]) && vnear 4 SADJ (qs 1000000 [0; (-580024780); (-1470847778); (-1074926392); (-951201050)]) && vnear 6 (n_BLP0 s) (qs 1 [(-120); (-120); (-120); (-120); (-120)]) &&
  mnear 6 (n_BB s) (qm 1 [[(-240); 120; 0; 0; 0];
    [120; (-240); 120; 0; 0];
    [0; 120; (-240); 120; 0];
    [0; 0; 120; (-240); 0];
    [0; 0; 0; 0; 0]]) && neq (n_LT s) (map Z.to_nat [1; 2; 3; 4; 0]) && mnear 6 (n_ZB s) (qm 100000000 [[(-666667); (-500000); (-333333); (-166667); 0];
    [(-500000); (-1000000); (-666667); (-333333); 0];
    [(-333333); (-666667); (-1000000); (-500000); 0];
    [(-166667); (-333333); (-500000); (-666667); 0];
    [0; 0; 0; 0; 0]]) && mnear 6 (n_BN s) (qm 1000000 [[0; (-42000000); 0; 30000000000; 30000000000];
    [1000000; 5975237; 0; 30000000000; 30000000000];
    [2000000; 15152222; 0; 30000000000; 30000000000];
    [3000000; 11073562; 0; 30000000000; 30000000000];
    [4000000; 9798981; 0; 30000000000; 30000000000]])) = true.
Proof. vm_compute; reflexivity. Qed.
Example transm_9 : okd (transm the_inv (lp_nls 200 [(0, 1); (1, 2); (2, 3); (3, 4); (4, 0)]%nat (map Z.to_nat [1; 2; 3; 4; 0]) 0) true (mkNet (qm 1000000 [[0; 52622665; 0; 30000000000; 30000000000];
    [1000000; (-297000000); 0; 30000000000; 30000000000];
    [2000000; 98884346; 0; 30000000000; 30000000000];
    [3000000; 80957947; 0; 30000000000; 30000000000];
    [4000000; 64535049; 0; 30000000000; 30000000000]]) (qs 1 [(-120); (-120); (-120); (-120); (-120)]) (qm 1 [[(-240); 120; 0; 0; 0];
    [120; (-240); 120; 0; 0];
    [0; 120; (-240); 120; 0];
    [0; 0; 120; (-240); 0];
    [0; 0; 0; 0; 0]]) (map Z.to_nat [1; 2; 3; 4; 0]) (qm 100000000 [[(-666667); (-500000); (-333333); (-166667); 0];
    [(-500000); (-1000000); (-666667); (-333333); 0];
    [(-333333); (-666667); (-1000000); (-500000); 0];
    [(-166667); (-333333); (-500000); (-666667); 0];
    [0; 0; 0; 0; 0]]))
  (qm 10 [[(-1200); 3000; 3000; (-600); 1500; 1500; (-5); 10; 10; (-800); 1500; 1500; (-400); 1000; 1000; (-200); 500; 500];
    [(-1200); 3000; 3000; (-600); 1500; 1500; (-5); 10; 10; (-800); 1500; 1500; (-400); 1000; 1000; (-200); 500; 500];
    [(-1200); 3000; 3000; (-600); 1500; 1500; (-5); 10; 10; (-800); 1500; 1500; (-400); 1000; 1000; (-200); 500; 500];
    [(-1200); 3000; 3000; (-600); 1500; 1500; (-5); 10; 10; (-800); 1500; 1500; (-400); 1000; 1000; (-200); 500; 500];
    [(-1200); 3000; 3000; (-600); 1500; 1500; (-5); 10; 10; (-800); 1500; 1500; (-400); 1000; 1000; (-200); 500; 500]]) [(0, 1); (1, 2); (2, 3); (3, 4); (4, 0)]%nat 0 (qm 1 [[1; 1];
    [1; 1];
    [1; 1];
    [1; 1];
    [1; 1]]) [1; 1; 1; 1; 1] true (qs 1 [0; 0; 0; 0; 0]) (qs 1 [0; 0; 0; 0; 0]) (qs 1 [2623; 2850; 2038; 3405; 3405]) (qs 1 [2141; 2141; 2141; 2141; 2141])) (fun r =>
  let '(J, FLOW, SADJ, s) := r in J && vnear 4 FLOW (qs 1000000 [25086687; 44722881; (-58277115); (-23269855); 11737403]) && vnear 4 SADJ (qs 1000000 [(-468650726); (-689363831); 0; (-1228992798); (-1228992798)]) && vnear 6 (n_BLP0 s) (qs 1 [(-120); (-120); (-120); (-120); (-120)]) &&
  mnear 6 (n_BB s) (qm 1 [[(-240); 120; 0; 0; 0];
    [120; (-240); 120; 0; 0];
    [0; 120; (-240); 120; 0];
    [0; 0; 120; (-240); 0];
    [0; 0; 0; 0; 0]]) && neq (n_LT s) (map Z.to_nat [1; 2; 3; 4; 0]) && mnear 6 (n_ZB s) (qm 100000000 [[(-666667); (-500000); (-333333); (-166667); 0];
    [(-500000); (-1000000); (-666667); (-333333); 0];
    [(-333333); (-666667); (-1000000); (-500000); 0];
    [(-166667); (-333333); (-500000); (-666667); 0];
    [0; 0; 0; 0; 0]]) && mnear 6 (n_BN s) (qm 1000000 [[0; 13349287; 0; 30000000000; 30000000000];
    [1000000; 19636192; 0; 30000000000; 30000000000];
    [2000000; (-103000000); 0; 30000000000; 30000000000];
    [3000000; 35007259; 0; 30000000000; 30000000000];
    [4000000; 35007259; 0; 30000000000; 30000000000]])) = true.
Proof. vm_compute; reflexivity. Qed.
Example transm_10 : okd (transm the_inv (lp_nls 200 [(0, 1); (1, 2); (2, 3); (3, 4); (4, 0)]%nat (map Z.to_nat [1; 2; 3; 4; 0]) 0) true (mkNet (qm 1000000 [[0; 13349287; 0; 30000000000; 30000000000];
    [1000000; 19636192; 0; 30000000000; 30000000000];
    [2000000; (-103000000); 0; 30000000000; 30000000000];
    [3000000; 35007259; 0; 30000000000; 30000000000];
    [4000000; 35007259; 0; 30000000000; 30000000000]]) (qs 1 [(-120); (-120); (-120); (-120); (-120)]) (qm 1 [[(-240); 120; 0; 0; 0];
    [120; (-240); 120; 0; 0];
    [0; 120; (-240); 120; 0];
    [0; 0; 120; (-240); 0];
    [0; 0; 0; 0; 0]]) (map Z.to_nat [1; 2; 3; 4; 0]) (qm 100000000 [[(-666667); (-500000); (-333333); (-166667); 0];
    [(-500000); (-1000000); (-666667); (-333333); 0];
    [(-333333); (-666667); (-1000000); (-500000); 0];
    [(-166667); (-333333); (-500000); (-666667); 0];
    [0; 0; 0; 0; 0]]))
  (qm 10 [[(-1200); 3000; 3000; (-600); 1500; 1500; (-5); 10; 10; (-800); 1500; 1500; (-400); 1000; 1000; (-200); 500; 500];
    [(-1200); 3000; 3000; (-600); 1500; 1500; (-5); 10; 10; (-800); 1500; 1500; (-400); 1000; 1000; (-200); 500; 500];
    [(-1200); 3000; 3000; (-600); 1500; 1500; (-5); 10; 10; (-800); 1500; 1500; (-400); 1000; 1000; (-200); 500; 500];
    [(-1200); 3000; 3000; (-600); 1500; 1500; (-5); 10; 10; (-800); 1500; 1500; (-400); 1000; 1000; (-200); 500; 500];
    [(-1200); 3000; 3000; (-600); 1500; 1500; (-5); 10; 10; (-800); 1500; 1500; (-400); 1000; 1000; (-200); 500; 500]]) [(0, 1); (1, 2); (2, 3); (3, 4); (4, 0)]%nat 0 (qm 1 [[1; 1];
    [1; 1];
    [1; 1];
    [1; 1];
    [1; 1]]) [1; 1; 1; 1; 1] true (qs 1 [0; 0; 0; 0; 0]) (qs 1 [0; 0; 0; 0; 0]) (qs 1 [3208; 3238; 3305; 3385; 2480]) (qs 1 [2510; 2510; 2510; 2510; 2510])) (fun r =>
  let '(J, FLOW, SADJ, s) := r in J && vnear 4 FLOW (qs 1000000 [(-7656977); (-602713); 7100775; 15579458; (-14420543)]) && vnear 4 SADJ (qs 1000000 [(-691236450); (-720945740); (-787296509); (-866521301); 0]) && vnear 6 (n_BLP0 s) (qs 1 [(-120); (-120); (-120); (-120); (-120)]) &&
  mnear 6 (n_BB s) (qm 1 [[(-240); 120; 0; 0; 0];
    [120; (-240); 120; 0; 0];
    [0; 120; (-240); 120; 0];
    [0; 0; 120; (-240); 0];
    [0; 0; 0; 0; 0]]) && neq (n_LT s) (map Z.to_nat [1; 2; 3; 4; 0]) && mnear 6 (n_ZB s) (qm 100000000 [[(-666667); (-500000); (-333333); (-166667); 0];
    [(-500000); (-1000000); (-666667); (-333333); 0];
    [(-333333); (-666667); (-1000000); (-500000); 0];
    [(-166667); (-333333); (-500000); (-666667); 0];
    [0; 0; 0; 0; 0]]) && mnear 6 (n_BN s) (qm 1000000 [[0; 6763566; 0; 30000000000; 30000000000];
    [1000000; 7054264; 0; 30000000000; 30000000000];
    [2000000; 7703488; 0; 30000000000; 30000000000];
    [3000000; 8478683; 0; 30000000000; 30000000000];
    [4000000; (-30000000); 0; 30000000000; 30000000000]])) = true.
Proof. vm_compute; reflexivity. Qed.
