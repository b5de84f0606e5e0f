(** The tests of cvchk, sumcap, findtn, wpeakf, dpeak, gsm and pmlolp: monte_carlo/tests/test_cvchk.py, test_sumcap.py, test_findtn.py, data_processing/tests/test_wpeakf.py, test_dpeak.py, test_gsm.py, test_pmlolp.py.
    Generated by tools/mkvectors.py; do not edit. *)
From Verif Require Import Base Vec LoadModel YearModel OutageModel.
Open Scope Z_scope.

Example cvchk_1 : True.
Proof. agrees (let '(r, s, x) := cvchk (qq 25 2) (qq 87591240 1) 4 (qq 1 20) (qq 3 1) (qq 2 1) (qq 3 1) in (r =? 0)%Z && qeqb s (qq 4 1) && qeqb x (qq 3 1)). exact I. Qed.
Example cvchk_loop_1 : True.
Proof. agrees (let '(r, s, x) := cvchk_loop (qq 25 2) (qq 87591240 1) 4 (qq 1 20) (qq 3 1) (qq 2 1) (qq 3 1) in (r =? 0)%Z && qeqb s (qq 4 1) && qeqb x (qq 3 1)). exact I. Qed.
Example cvchk_2 : True.
Proof. agrees (let '(r, s, x) := cvchk (qq 87591241 1) (qq 87591240 1) 4 (qq 1 20) (qq 3 1) (qq 2 1) (qq 3 1) in (r =? 1)%Z && qeqb s (qq 4 1) && qeqb x (qq 3 1)). exact I. Qed.
Example cvchk_loop_2 : True.
Proof. agrees (let '(r, s, x) := cvchk_loop (qq 87591241 1) (qq 87591240 1) 4 (qq 1 20) (qq 3 1) (qq 2 1) (qq 3 1) in (r =? 1)%Z && qeqb s (qq 4 1) && qeqb x (qq 3 1)). exact I. Qed.
Example cvchk_3 : True.
Proof. agrees (let '(r, s, x) := cvchk (qq 25 2) (qq 87591240 1) 5 (qq 1 20) (qq 3 1) (qq 2 1) (qq 3 1) in (r =? 0)%Z && qeqb s (qq 4 1) && qeqb x (qq 3 1)). exact I. Qed.
Example cvchk_loop_3 : True.
Proof. agrees (let '(r, s, x) := cvchk_loop (qq 25 2) (qq 87591240 1) 5 (qq 1 20) (qq 3 1) (qq 2 1) (qq 3 1) in (r =? 0)%Z && qeqb s (qq 4 1) && qeqb x (qq 3 1)). exact I. Qed.
Example cvchk_4 : True.
Proof. agrees (let '(r, s, x) := cvchk (qq 25 2) (qq 87591240 1) 5 (qq 1 2) (qq 1 1) (qq 1 1) (qq 3 10) in (r =? 1)%Z && qeqb s (qq 3 10) && qeqb x (qq 1 1)). exact I. Qed.
Example cvchk_loop_4 : True.
Proof. agrees (let '(r, s, x) := cvchk_loop (qq 25 2) (qq 87591240 1) 5 (qq 1 2) (qq 1 1) (qq 1 1) (qq 3 10) in (r =? 1)%Z && qeqb s (qq 3 10) && qeqb x (qq 1 1)). exact I. Qed.
Example sumcap_1 : True.
Proof. agrees (okd (sumcap (qs 1 [100; 50; 150]) (qm 10 [[10; 5; 0];
    [0; 5; 10]]) [0; 0; 1]) (fun r => let '(a, b, c, d) := r in meq a (qm 1 [[100; 25; 0];
    [0; 25; 150]]) && veq b (qs 1 [125; 175]) && veq c (qs 1 [150; 150]) && veq d (qs 1 [25; (-25)]))). exact I. Qed.
Definition jent : list (list Z) := [[-1; -1; -1]; [0; -1; -1]; [-1; 1; -1]].
Definition intchg : list (list Qc) := [repeat (qq 1105 10) 30 ++ repeat q0 335; repeat q0 20 ++ repeat (qq 1205 10) 60 ++ repeat q0 285].
Example findtn_5 : True.
Proof. agrees (okd (findtn jent intchg 5) (fun v => vnear 6 v (qs 10 [(-1105); 1105; 0]))). exact I. Qed.
Example findtn_25 : True.
Proof. agrees (okd (findtn jent intchg 25) (fun v => vnear 6 v (qs 10 [(-1105); (-100); 1205]))). exact I. Qed.
Example findtn_50 : True.
Proof. agrees (okd (findtn jent intchg 50) (fun v => vnear 6 v (qs 10 [0; (-1205); 1205]))). exact I. Qed.
Example findtn_100 : True.
Proof. agrees (okd (findtn jent intchg 100) (fun v => vnear 6 v (qs 1 [0; 0; 0]))). exact I. Qed.
Definition wk1 := (qs 100 [100; 85; 70; 55; 40; 25; 10]).
Definition dyload := [concat (repeat wk1 52) ++ [qz 101]; concat (repeat (rev wk1) 52) ++ [qz 101]].
Example wpeakf_1 : True.
Proof. agrees (meq (wpeakf dyload) (repeat (repeat q1 51 ++ [qz 101]) 2)). exact I. Qed.
Example wpeakf_loop_1 : True.
Proof. agrees (meq (wpeakf_loop dyload) (repeat (repeat q1 51 ++ [qz 101]) 2)). exact I. Qed.
Example dpeak_1 : True.
Proof. agrees (let '(h, d, m) := dpeak 3 (qm 10 [[15; 25; 35; 36; 26; 16];
    [45; 55; 65; 66; 56; 46];
    [75; 85; 95; 96; 86; 76];
    [105; 115; 125; 126; 116; 106]]) in all2 neq h (repeat [2; 3]%nat 4) && meq d (qm 10 [[35; 36];
    [65; 66];
    [95; 96];
    [125; 126]]) && neq m [1; 1; 1; 1]%nat). exact I. Qed.
Example dpeak_loop_1 : True.
Proof. agrees (let '(h, d, m) := dpeak_loop 3 (qm 10 [[15; 25; 35; 36; 26; 16];
    [45; 55; 65; 66; 56; 46];
    [75; 85; 95; 96; 86; 76];
    [105; 115; 125; 126; 116; 106]]) in all2 neq h (repeat [2; 3]%nat 4) && meq d (qm 10 [[35; 36];
    [65; 66];
    [95; 96];
    [125; 126]]) && neq m [1; 1; 1; 1]%nat). exact I. Qed.
Example gsm_1 : True.
Proof. agrees (let t := gsm 10 0 (qq 49 50) q0 (qq 1 50) (mkCtab 1 (repeat 0 5000) (q1 :: repeat q0 4999)) in Nat.eqb (ct_N t) 2 && zeq (firstn 2 (ct_KA t)) [0; 10] && vnear 6 (firstn 2 (ct_PA t)) (qs 100 [100; 2])). exact I. Qed.
Definition outages := pmlolp [mkOunit (qq 12 1) (qq 0 1) (qq 1 50) (qq 0 1); mkOunit (qq 12 1) (qq 0 1) (qq 1 50) (qq 0 1); mkOunit (qq 12 1) (qq 0 1) (qq 1 50) (qq 0 1); mkOunit (qq 12 1) (qq 0 1) (qq 1 50) (qq 0 1); mkOunit (qq 12 1) (qq 0 1) (qq 1 50) (qq 0 1); mkOunit (qq 20 1) (qq 0 1) (qq 1 10) (qq 0 1); mkOunit (qq 20 1) (qq 0 1) (qq 1 10) (qq 0 1); mkOunit (qq 20 1) (qq 0 1) (qq 1 10) (qq 0 1); mkOunit (qq 20 1) (qq 0 1) (qq 1 10) (qq 0 1); mkOunit (qq 50 1) (qq 0 1) (qq 1 100) (qq 0 1); mkOunit (qq 50 1) (qq 0 1) (qq 1 100) (qq 0 1); mkOunit (qq 50 1) (qq 0 1) (qq 1 100) (qq 0 1); mkOunit (qq 50 1) (qq 0 1) (qq 1 100) (qq 0 1); mkOunit (qq 50 1) (qq 0 1) (qq 1 100) (qq 0 1); mkOunit (qq 50 1) (qq 0 1) (qq 1 100) (qq 0 1); mkOunit (qq 76 1) (qq 0 1) (qq 1 50) (qq 0 1); mkOunit (qq 76 1) (qq 0 1) (qq 1 50) (qq 0 1); mkOunit (qq 76 1) (qq 0 1) (qq 1 50) (qq 0 1); mkOunit (qq 76 1) (qq 0 1) (qq 1 50) (qq 0 1); mkOunit (qq 100 1) (qq 0 1) (qq 1 25) (qq 0 1); mkOunit (qq 100 1) (qq 0 1) (qq 1 25) (qq 0 1); mkOunit (qq 100 1) (qq 0 1) (qq 1 25) (qq 0 1); mkOunit (qq 155 1) (qq 0 1) (qq 1 25) (qq 0 1); mkOunit (qq 155 1) (qq 0 1) (qq 1 25) (qq 0 1); mkOunit (qq 155 1) (qq 0 1) (qq 1 25) (qq 0 1); mkOunit (qq 155 1) (qq 0 1) (qq 1 25) (qq 0 1); mkOunit (qq 197 1) (qq 0 1) (qq 1 20) (qq 0 1); mkOunit (qq 197 1) (qq 0 1) (qq 1 20) (qq 0 1); mkOunit (qq 197 1) (qq 0 1) (qq 1 20) (qq 0 1); mkOunit (qq 350 1) (qq 0 1) (qq 2 25) (qq 0 1); mkOunit (qq 400 1) (qq 0 1) (qq 3 25) (qq 0 1); mkOunit (qq 400 1) (qq 0 1) (qq 3 25) (qq 0 1)].
Example pmlolp_1 : True.
Proof. agrees (Nat.eqb (ct_N outages) 213 && zeq (firstn 213 (ct_KA outages)) [0; 10; 20; 30; 40; 50; 60; 70; 80; 90; 100; 110; 120; 130; 140; 150; 160; 170; 180; 190; 200; 210; 220; 230; 240; 250; 260; 270; 280; 290; 300; 310; 320; 330; 340; 350; 360; 370; 380; 390; 400; 410; 420; 430; 440; 450; 460; 470; 480; 490; 500; 510; 520; 530; 540; 550; 560; 570; 580; 590; 600; 610; 620; 630; 640; 650; 660; 670; 680; 690; 700; 710; 720; 730; 740; 750; 760; 770; 780; 790; 800; 810; 820; 830; 840; 850; 860; 870; 880; 890; 900; 910; 920; 930; 940; 950; 960; 970; 980; 990; 1000; 1010; 1020; 1030; 1040; 1050; 1060; 1070; 1080; 1090; 1100; 1110; 1120; 1130; 1140; 1150; 1160; 1170; 1180; 1190; 1200; 1210; 1220; 1230; 1240; 1250; 1260; 1270; 1280; 1290; 1300; 1310; 1320; 1330; 1340; 1350; 1360; 1370; 1380; 1390; 1400; 1410; 1420; 1430; 1440; 1450; 1460; 1470; 1480; 1490; 1500; 1510; 1520; 1530; 1540; 1550; 1560; 1570; 1580; 1590; 1600; 1610; 1620; 1630; 1640; 1650; 1660; 1670; 1680; 1690; 1700; 1710; 1720; 1730; 1740; 1750; 1760; 1770; 1780; 1790; 1800; 1810; 1820; 1830; 1840; 1850; 1860; 1870; 1880; 1890; 1900; 1910; 1920; 1930; 1940; 1950; 1960; 1970; 1980; 1990; 2000; 2010; 2020; 2030; 2040; 2050; 2060; 2070; 2080; 2090; 2100; 2110; 2120] && vnear 4 (firstn 213 (ct_PA outages)) (qs 100000 [100000; 76360; 73948; 63343; 62269; 60474; 58862; 58579; 57923; 55924; 55618; 51750; 51349; 49860; 49592; 49342; 49086; 45046; 44546; 42499; 42278; 38003; 37324; 35526; 35223; 34593; 34271; 33572; 33396; 32818; 32723; 32063; 31956; 31456; 31372; 31175; 29060; 28153; 27130; 26697; 26495; 19603; 18847; 15748; 15246; 14643; 13840; 13618; 13290; 12655; 12538; 11415; 10943; 10436; 10176; 10060; 9613; 8409; 8108; 7503; 7384; 6178; 5928; 5413; 5278; 5092; 4945; 4739; 4647; 4478; 4434; 4247; 4156; 4008; 3955; 3896; 3293; 3038; 2745; 2624; 2561; 1997; 1916; 1660; 1578; 1512; 1379; 1333; 1275; 1212; 1195; 1104; 994; 938; 880; 862; 753; 650; 595; 544; 523; 433; 402; 362; 341; 326; 304; 286; 271; 257; 250; 236; 217; 204; 195; 189; 143; 124; 101; 92; 86; 77; 73; 68; 63; 60; 52; 50; 45; 43; 42; 41; 33; 31; 27; 26; 19; 17; 13; 12; 11; 10; 9; 9; 7; 7; 6; 6; 5; 5; 4; 4; 3; 3; 2; 2; 2; 1; 1; 1; 1; 1; 1; 1; 1; 0; 0; 0; 0; 0; 0; 0; 0; 0; 0; 0; 0; 0; 0; 0; 0; 0; 0; 0; 0; 0; 0; 0; 0; 0; 0; 0; 0; 0; 0; 0; 0; 0; 0; 0; 0; 0; 0; 0; 0; 0; 0; 0; 0; 0; 0; 0; 0])). exact I. Qed.
