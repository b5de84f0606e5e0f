(** The tests of filem, remove, initl, week: monte_carlo/tests/test_filem.py, test_filem_new.py, test_remove.py, test_remove_new.py, test_initl.py, test_week.py.
    Generated by tools/mkvectors.py; do not edit. *)
From Verif Require Import Base Vec EventModel ControlModel.
Open Scope Z_scope.

Definition cal_is (c : cal) (m n i : Z) (ev : list Qc) : bool := (MFA c =? m) && (NUMINQ c =? n) && (IPOINT c =? i) && vnear 6 (EVNTS c) ev.
Definition filem_is (m n i : Z) (ev : list Qc) (a : Qc * Qc) (m' n' i' : Z) (ev' : list Qc) : bool := okd (filem (mkCal m n i ev) a) (fun c => cal_is c m' n' i' ev').
Definition remove_is (m n i : Z) (ev : list Qc) (a : list Qc) (m' n' i' : Z) (ev' : list Qc) : bool := okd (remove (mkCal m n i ev)) (fun o => match o with Some ((t, ty), c) => vnear 6 [t; ty] a && cal_is c m' n' i' ev' | None => false end).
Example filem_1 : filem_is 0 0 (-1) (qs 1 [4; 0; 0; 0; 8; 0; 0; 0; 12; 0; 0; 0; 0; 0; 0; 0]) ((qq 3 2), (qq 3 1)) 4 1 0 (qs 10 [(-10); 15; 30; 0; 80; 0; 0; 0; 120; 0; 0; 0; 0; 0; 0; 0]) = true.
Proof. vm_compute; reflexivity. Qed.
Example filem_2 : filem_is 4 1 0 (qs 10 [(-10); 15; 30; 0; 80; 0; 0; 0; 120; 0; 0; 0; 0; 0; 0; 0]) ((qq 1 2), (qq 2 1)) 8 2 4 (qs 10 [(-10); 15; 30; 0; 0; 5; 20; 0; 120; 0; 0; 0; 0; 0; 0; 0]) = true.
Proof. vm_compute; reflexivity. Qed.
Example filem_3 : filem_is 8 2 4 (qs 10 [(-10); 15; 30; 0; 0; 5; 20; 0; 120; 0; 0; 0; 0; 0; 0; 0]) ((qq 5 2), (qq 1 1)) 12 3 4 (qs 10 [80; 15; 30; 0; 0; 5; 20; 0; (-10); 25; 10; 0; 0; 0; 0; 0]) = true.
Proof. vm_compute; reflexivity. Qed.
Example filem_4 : filem_is 8 2 4 (qs 10 [(-10); 15; 30; 0; 0; 5; 20; 0; 120; 0; 0; 0; 0; 0; 0; 0]) ((qq 1 1), (qq 1 1)) 12 3 4 (qs 10 [(-10); 15; 30; 0; 80; 5; 20; 0; 0; 10; 10; 0; 0; 0; 0; 0]) = true.
Proof. vm_compute; reflexivity. Qed.
Example filem_new_1 : filem_is 0 0 (-1) (qs 1 [4; 0; 0; 0; 8; 0; 0; 0; 12; 0; 0; 0; 16; 0; 0; 0; 20; 0; 0; 0; 24; 0; 0; 0; 28; 0; 0; 0; 32; 0; 0; 0; 36; 0; 0; 0; 40; 0; 0; 0; 44; 0; 0; 0; 48; 0; 0; 0; 52; 0; 0; 0; 56; 0; 0; 0; 60; 0; 0; 0; 64; 0; 0; 0; 68; 0; 0; 0; 72; 0; 0; 0; 76; 0; 0; 0; 80; 0; 0; 0; 84; 0; 0; 0; 88; 0; 0; 0; 92; 0; 0; 0; 96; 0; 0; 0; 0; 0; 0; 0]) ((qq 1 2), (qq 3 1)) 4 1 0 (qs 10 [(-10); 5; 30; 0; 80; 0; 0; 0; 120; 0; 0; 0; 160; 0; 0; 0; 200; 0; 0; 0; 240; 0; 0; 0; 280; 0; 0; 0; 320; 0; 0; 0; 360; 0; 0; 0; 400; 0; 0; 0; 440; 0; 0; 0; 480; 0; 0; 0; 520; 0; 0; 0; 560; 0; 0; 0; 600; 0; 0; 0; 640; 0; 0; 0; 680; 0; 0; 0; 720; 0; 0; 0; 760; 0; 0; 0; 800; 0; 0; 0; 840; 0; 0; 0; 880; 0; 0; 0; 920; 0; 0; 0; 960; 0; 0; 0; 0; 0; 0; 0]) = true.
Proof. vm_compute; reflexivity. Qed.
Example filem_new_2 : filem_is 4 1 0 (qs 10 [(-10); 5; 30; 0; 80; 0; 0; 0; 120; 0; 0; 0; 160; 0; 0; 0; 200; 0; 0; 0; 240; 0; 0; 0; 280; 0; 0; 0; 320; 0; 0; 0; 360; 0; 0; 0; 400; 0; 0; 0; 440; 0; 0; 0; 480; 0; 0; 0; 520; 0; 0; 0; 560; 0; 0; 0; 600; 0; 0; 0; 640; 0; 0; 0; 680; 0; 0; 0; 720; 0; 0; 0; 760; 0; 0; 0; 800; 0; 0; 0; 840; 0; 0; 0; 880; 0; 0; 0; 920; 0; 0; 0; 960; 0; 0; 0; 0; 0; 0; 0]) ((qq 4369 2), (qq 3 1)) 8 2 0 (qs 10 [40; 5; 30; 0; (-10); 21845; 30; 0; 120; 0; 0; 0; 160; 0; 0; 0; 200; 0; 0; 0; 240; 0; 0; 0; 280; 0; 0; 0; 320; 0; 0; 0; 360; 0; 0; 0; 400; 0; 0; 0; 440; 0; 0; 0; 480; 0; 0; 0; 520; 0; 0; 0; 560; 0; 0; 0; 600; 0; 0; 0; 640; 0; 0; 0; 680; 0; 0; 0; 720; 0; 0; 0; 760; 0; 0; 0; 800; 0; 0; 0; 840; 0; 0; 0; 880; 0; 0; 0; 920; 0; 0; 0; 960; 0; 0; 0; 0; 0; 0; 0]) = true.
Proof. vm_compute; reflexivity. Qed.
Example filem_new_3 : filem_is 8 2 0 (qs 10 [40; 5; 30; 0; (-10); 21845; 30; 0; 120; 0; 0; 0; 160; 0; 0; 0; 200; 0; 0; 0; 240; 0; 0; 0; 280; 0; 0; 0; 320; 0; 0; 0; 360; 0; 0; 0; 400; 0; 0; 0; 440; 0; 0; 0; 480; 0; 0; 0; 520; 0; 0; 0; 560; 0; 0; 0; 600; 0; 0; 0; 640; 0; 0; 0; 680; 0; 0; 0; 720; 0; 0; 0; 760; 0; 0; 0; 800; 0; 0; 0; 840; 0; 0; 0; 880; 0; 0; 0; 920; 0; 0; 0; 960; 0; 0; 0; 0; 0; 0; 0]) ((qq 8737 2), (qq 3 1)) 12 3 0 (qs 10 [40; 5; 30; 0; 80; 21845; 30; 0; (-10); 43685; 30; 0; 160; 0; 0; 0; 200; 0; 0; 0; 240; 0; 0; 0; 280; 0; 0; 0; 320; 0; 0; 0; 360; 0; 0; 0; 400; 0; 0; 0; 440; 0; 0; 0; 480; 0; 0; 0; 520; 0; 0; 0; 560; 0; 0; 0; 600; 0; 0; 0; 640; 0; 0; 0; 680; 0; 0; 0; 720; 0; 0; 0; 760; 0; 0; 0; 800; 0; 0; 0; 840; 0; 0; 0; 880; 0; 0; 0; 920; 0; 0; 0; 960; 0; 0; 0; 0; 0; 0; 0]) = true.
Proof. vm_compute; reflexivity. Qed.
Example filem_new_4 : filem_is 12 3 0 (qs 10 [40; 5; 30; 0; 80; 21845; 30; 0; (-10); 43685; 30; 0; 160; 0; 0; 0; 200; 0; 0; 0; 240; 0; 0; 0; 280; 0; 0; 0; 320; 0; 0; 0; 360; 0; 0; 0; 400; 0; 0; 0; 440; 0; 0; 0; 480; 0; 0; 0; 520; 0; 0; 0; 560; 0; 0; 0; 600; 0; 0; 0; 640; 0; 0; 0; 680; 0; 0; 0; 720; 0; 0; 0; 760; 0; 0; 0; 800; 0; 0; 0; 840; 0; 0; 0; 880; 0; 0; 0; 920; 0; 0; 0; 960; 0; 0; 0; 0; 0; 0; 0]) ((qq 13105 2), (qq 3 1)) 16 4 0 (qs 10 [40; 5; 30; 0; 80; 21845; 30; 0; 120; 43685; 30; 0; (-10); 65525; 30; 0; 200; 0; 0; 0; 240; 0; 0; 0; 280; 0; 0; 0; 320; 0; 0; 0; 360; 0; 0; 0; 400; 0; 0; 0; 440; 0; 0; 0; 480; 0; 0; 0; 520; 0; 0; 0; 560; 0; 0; 0; 600; 0; 0; 0; 640; 0; 0; 0; 680; 0; 0; 0; 720; 0; 0; 0; 760; 0; 0; 0; 800; 0; 0; 0; 840; 0; 0; 0; 880; 0; 0; 0; 920; 0; 0; 0; 960; 0; 0; 0; 0; 0; 0; 0]) = true.
Proof. vm_compute; reflexivity. Qed.
Example filem_new_5 : filem_is 16 4 0 (qs 10 [40; 5; 30; 0; 80; 21845; 30; 0; 120; 43685; 30; 0; (-10); 65525; 30; 0; 200; 0; 0; 0; 240; 0; 0; 0; 280; 0; 0; 0; 320; 0; 0; 0; 360; 0; 0; 0; 400; 0; 0; 0; 440; 0; 0; 0; 480; 0; 0; 0; 520; 0; 0; 0; 560; 0; 0; 0; 600; 0; 0; 0; 640; 0; 0; 0; 680; 0; 0; 0; 720; 0; 0; 0; 760; 0; 0; 0; 800; 0; 0; 0; 840; 0; 0; 0; 880; 0; 0; 0; 920; 0; 0; 0; 960; 0; 0; 0; 0; 0; 0; 0]) ((qq 8760 1), (qq 4 1)) 20 5 0 (qs 10 [40; 5; 30; 0; 80; 21845; 30; 0; 120; 43685; 30; 0; 160; 65525; 30; 0; (-10); 87600; 40; 0; 240; 0; 0; 0; 280; 0; 0; 0; 320; 0; 0; 0; 360; 0; 0; 0; 400; 0; 0; 0; 440; 0; 0; 0; 480; 0; 0; 0; 520; 0; 0; 0; 560; 0; 0; 0; 600; 0; 0; 0; 640; 0; 0; 0; 680; 0; 0; 0; 720; 0; 0; 0; 760; 0; 0; 0; 800; 0; 0; 0; 840; 0; 0; 0; 880; 0; 0; 0; 920; 0; 0; 0; 960; 0; 0; 0; 0; 0; 0; 0]) = true.
Proof. vm_compute; reflexivity. Qed.
Example filem_new_6 : filem_is 20 5 0 (qs 10 [40; 5; 30; 0; 80; 21845; 30; 0; 120; 43685; 30; 0; 160; 65525; 30; 0; (-10); 87600; 40; 0; 240; 0; 0; 0; 280; 0; 0; 0; 320; 0; 0; 0; 360; 0; 0; 0; 400; 0; 0; 0; 440; 0; 0; 0; 480; 0; 0; 0; 520; 0; 0; 0; 560; 0; 0; 0; 600; 0; 0; 0; 640; 0; 0; 0; 680; 0; 0; 0; 720; 0; 0; 0; 760; 0; 0; 0; 800; 0; 0; 0; 840; 0; 0; 0; 880; 0; 0; 0; 920; 0; 0; 0; 960; 0; 0; 0; 0; 0; 0; 0]) ((qq 1 2), (qq 2 1)) 24 6 20 (qs 10 [40; 5; 30; 0; 80; 21845; 30; 0; 120; 43685; 30; 0; 160; 65525; 30; 0; (-10); 87600; 40; 0; 0; 5; 20; 0; 280; 0; 0; 0; 320; 0; 0; 0; 360; 0; 0; 0; 400; 0; 0; 0; 440; 0; 0; 0; 480; 0; 0; 0; 520; 0; 0; 0; 560; 0; 0; 0; 600; 0; 0; 0; 640; 0; 0; 0; 680; 0; 0; 0; 720; 0; 0; 0; 760; 0; 0; 0; 800; 0; 0; 0; 840; 0; 0; 0; 880; 0; 0; 0; 920; 0; 0; 0; 960; 0; 0; 0; 0; 0; 0; 0]) = true.
Proof. vm_compute; reflexivity. Qed.
Example filem_new_7 : filem_is 24 6 20 (qs 10 [40; 5; 30; 0; 80; 21845; 30; 0; 120; 43685; 30; 0; 160; 65525; 30; 0; (-10); 87600; 40; 0; 0; 5; 20; 0; 280; 0; 0; 0; 320; 0; 0; 0; 360; 0; 0; 0; 400; 0; 0; 0; 440; 0; 0; 0; 480; 0; 0; 0; 520; 0; 0; 0; 560; 0; 0; 0; 600; 0; 0; 0; 640; 0; 0; 0; 680; 0; 0; 0; 720; 0; 0; 0; 760; 0; 0; 0; 800; 0; 0; 0; 840; 0; 0; 0; 880; 0; 0; 0; 920; 0; 0; 0; 960; 0; 0; 0; 0; 0; 0; 0]) ((qq 1 1), (qq 1 1)) 28 7 20 (qs 10 [240; 5; 30; 0; 80; 21845; 30; 0; 120; 43685; 30; 0; 160; 65525; 30; 0; (-10); 87600; 40; 0; 0; 5; 20; 0; 40; 10; 10; 0; 320; 0; 0; 0; 360; 0; 0; 0; 400; 0; 0; 0; 440; 0; 0; 0; 480; 0; 0; 0; 520; 0; 0; 0; 560; 0; 0; 0; 600; 0; 0; 0; 640; 0; 0; 0; 680; 0; 0; 0; 720; 0; 0; 0; 760; 0; 0; 0; 800; 0; 0; 0; 840; 0; 0; 0; 880; 0; 0; 0; 920; 0; 0; 0; 960; 0; 0; 0; 0; 0; 0; 0]) = true.
Proof. vm_compute; reflexivity. Qed.
Example remove_0 : remove_is 0 1 0 (qs 10 [40; 615; 20; 0; 0; 0; 0; 0]) (qs 10 [615; 20]) 0 0 4 (qs 1 [4; 0; 0; 0; 0; 0; 0; 0]) = true.
Proof. vm_compute; reflexivity. Qed.
Example remove_new_1 : remove_is 0 7 20 (qs 10 [240; 5; 30; 0; 80; 21845; 30; 0; 120; 43685; 30; 0; 160; 65525; 30; 0; (-10); 87600; 40; 0; 0; 5; 20; 0; 40; 10; 10; 0; 320; 0; 0; 0; 360; 0; 0; 0; 400; 0; 0; 0; 440; 0; 0; 0; 480; 0; 0; 0; 520; 0; 0; 0; 560; 0; 0; 0; 600; 0; 0; 0; 640; 0; 0; 0; 680; 0; 0; 0; 720; 0; 0; 0; 760; 0; 0; 0; 800; 0; 0; 0; 840; 0; 0; 0; 880; 0; 0; 0; 920; 0; 0; 0; 960; 0; 0; 0; 0; 0; 0; 0]) (qs 10 [5; 20]) 20 6 0 (qs 10 [240; 5; 30; 0; 80; 21845; 30; 0; 120; 43685; 30; 0; 160; 65525; 30; 0; (-10); 87600; 40; 0; 0; 0; 0; 0; 40; 10; 10; 0; 320; 0; 0; 0; 360; 0; 0; 0; 400; 0; 0; 0; 440; 0; 0; 0; 480; 0; 0; 0; 520; 0; 0; 0; 560; 0; 0; 0; 600; 0; 0; 0; 640; 0; 0; 0; 680; 0; 0; 0; 720; 0; 0; 0; 760; 0; 0; 0; 800; 0; 0; 0; 840; 0; 0; 0; 880; 0; 0; 0; 920; 0; 0; 0; 960; 0; 0; 0; 0; 0; 0; 0]) = true.
Proof. vm_compute; reflexivity. Qed.
Example remove_new_2 : remove_is 0 7 0 (qs 10 [240; 5; 30; 0; 80; 21845; 30; 0; 120; 43685; 30; 0; 160; 65525; 30; 0; (-10); 87600; 40; 0; 40; 1685; 20; 0; 200; 10; 10; 0; 320; 0; 0; 0; 360; 0; 0; 0; 400; 0; 0; 0; 440; 0; 0; 0; 480; 0; 0; 0; 520; 0; 0; 0; 560; 0; 0; 0; 600; 0; 0; 0; 640; 0; 0; 0; 680; 0; 0; 0; 720; 0; 0; 0; 760; 0; 0; 0; 800; 0; 0; 0; 840; 0; 0; 0; 880; 0; 0; 0; 920; 0; 0; 0; 960; 0; 0; 0; 0; 0; 0; 0]) (qs 10 [5; 30]) 0 6 24 (qs 10 [240; 0; 0; 0; 80; 21845; 30; 0; 120; 43685; 30; 0; 160; 65525; 30; 0; (-10); 87600; 40; 0; 40; 1685; 20; 0; 200; 10; 10; 0; 320; 0; 0; 0; 360; 0; 0; 0; 400; 0; 0; 0; 440; 0; 0; 0; 480; 0; 0; 0; 520; 0; 0; 0; 560; 0; 0; 0; 600; 0; 0; 0; 640; 0; 0; 0; 680; 0; 0; 0; 720; 0; 0; 0; 760; 0; 0; 0; 800; 0; 0; 0; 840; 0; 0; 0; 880; 0; 0; 0; 920; 0; 0; 0; 960; 0; 0; 0; 0; 0; 0; 0]) = true.
Proof. vm_compute; reflexivity. Qed.
Example remove_new_3 : remove_is 0 7 24 (qs 10 [(-10); 87605; 30; 0; 80; 21845; 30; 0; 120; 43685; 30; 0; 160; 65525; 30; 0; 0; 87600; 40; 0; 40; 1685; 20; 0; 200; 10; 10; 0; 320; 0; 0; 0; 360; 0; 0; 0; 400; 0; 0; 0; 440; 0; 0; 0; 480; 0; 0; 0; 520; 0; 0; 0; 560; 0; 0; 0; 600; 0; 0; 0; 640; 0; 0; 0; 680; 0; 0; 0; 720; 0; 0; 0; 760; 0; 0; 0; 800; 0; 0; 0; 840; 0; 0; 0; 880; 0; 0; 0; 920; 0; 0; 0; 960; 0; 0; 0; 0; 0; 0; 0]) (qs 1 [1; 1]) 24 6 20 (qs 10 [(-10); 87605; 30; 0; 80; 21845; 30; 0; 120; 43685; 30; 0; 160; 65525; 30; 0; 0; 87600; 40; 0; 40; 1685; 20; 0; 200; 0; 0; 0; 320; 0; 0; 0; 360; 0; 0; 0; 400; 0; 0; 0; 440; 0; 0; 0; 480; 0; 0; 0; 520; 0; 0; 0; 560; 0; 0; 0; 600; 0; 0; 0; 640; 0; 0; 0; 680; 0; 0; 0; 720; 0; 0; 0; 760; 0; 0; 0; 800; 0; 0; 0; 840; 0; 0; 0; 880; 0; 0; 0; 920; 0; 0; 0; 960; 0; 0; 0; 0; 0; 0; 0]) = true.
Proof. vm_compute; reflexivity. Qed.
Example initl_1 : okd (initl_alt 1 (mkCal 0 0 (-1) (qs 1 [4; 0; 0; 0; 8; 0; 0; 0; 12; 0; 0; 0; 16; 0; 0; 0; 20; 0; 0; 0; 24; 0; 0; 0; 28; 0; 0; 0; 0; 0; 0; 0])) ((qq 4369 2), (qq 8737 2), (qq 13105 2))) (fun c => cal_is c 28 7 20 (qs 10 [240; 5; 30; 0; 80; 21845; 30; 0; 120; 43685; 30; 0; 160; 65525; 30; 0; (-10); 87600; 40; 0; 0; 5; 20; 0; 40; 10; 10; 0; 0; 0; 0; 0])) = true.
Proof. vm_compute; reflexivity. Qed.
Example initl_2 : cal_is (initl 1 (qs 1 [4; 0; 0; 0; 8; 0; 0; 0; 12; 0; 0; 0; 16; 0; 0; 0; 20; 0; 0; 0; 24; 0; 0; 0; 28; 0; 0; 0; 0; 0; 0; 0])) 28 7 20 (qs 10 [240; 5; 30; 0; 80; 21845; 30; 0; 120; 43685; 30; 0; 160; 65525; 30; 0; (-10); 87600; 40; 0; 0; 5; 20; 0; 40; 10; 10; 0; 0; 0; 0; 0]) = true.
Proof. vm_compute; reflexivity. Qed.
Definition jplout : list (list Z) := [[2; 2; 1; 0]; [1; 2; 0; 0]; [2; 1; 0; 0]] ++ repeat [0; 0; 0; 0] 49.
Example week_1 : okd (week_status 12 jplout (qs 1 [1; 1; 1])) (fun v => vnear 6 v (qs 1 [1; 0; 0])) = true.
Proof. vm_compute; reflexivity. Qed.
Example week_2 : okd (week_status 1234 jplout (qs 1 [1; 1; 1])) (fun v => vnear 6 v (qs 1 [1; 1; 1])) = true.
Proof. vm_compute; reflexivity. Qed.
Example week_3 : okd (week_status 8760 jplout (qs 1 [1; 1; 1])) (fun v => vnear 6 v (qs 1 [1; 1; 1])) = true.
Proof. vm_compute; reflexivity. Qed.
