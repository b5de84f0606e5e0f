(** The tests of pmsc and smaint: data_processing/tests/test_pmsc.py, test_smaint_new.py.  The scheduling heuristics, arguments of the model, are replaced by failure where they would change anything: they are not reached.
    Generated by tools/mkvectors.py; do not edit. *)
From Verif Require Import Base Vec MaintModel.
Open Scope Z_scope.

Definition pmsc0 IA ID ITAB RATES := pmsc unit (fun c => c) (fun _ _ => Err ValueError) (fun _ _ _ _ => Err ValueError) IA ID ITAB RATES tt.
Example pmsc_1 : okd (pmsc0 0 [[0; 0; 0; (-1); 0; (-1); 0; 0];
    [1; 1; 0; (-1); 0; (-1); 0; 0];
    [2; 2; 0; (-1); 0; (-1); 0; 0];
    [3; 3; 0; (-1); 0; (-1); 0; 0];
    [4; 4; 0; (-1); 0; (-1); 0; 0];
    [5; 5; 0; (-1); 0; (-1); 0; 0];
    [6; 6; 0; (-1); 0; (-1); 0; 0];
    [7; 7; 0; (-1); 0; (-1); 0; 0];
    [8; 8; 0; (-1); 0; (-1); 0; 0];
    [9; 9; 0; (-1); 0; (-1); 0; 0];
    [10; 10; 0; (-1); 0; (-1); 0; 0];
    [11; 11; 0; (-1); 0; (-1); 0; 0];
    [12; 12; 0; (-1); 0; (-1); 0; 0];
    [13; 13; 0; (-1); 0; (-1); 0; 0];
    [14; 14; 0; (-1); 0; (-1); 0; 0];
    [15; 15; 0; (-1); 0; (-1); 0; 0];
    [16; 16; 0; (-1); 0; (-1); 0; 0];
    [17; 17; 0; (-1); 0; (-1); 0; 0];
    [18; 18; 0; (-1); 0; (-1); 0; 0];
    [19; 19; 0; (-1); 0; (-1); 0; 0];
    [20; 20; 0; (-1); 0; (-1); 0; 0];
    [21; 21; 0; (-1); 0; (-1); 0; 0];
    [22; 22; 0; (-1); 0; (-1); 0; 0];
    [23; 23; 0; (-1); 0; (-1); 0; 0];
    [24; 24; 0; (-1); 0; (-1); 0; 0];
    [25; 25; 0; (-1); 0; (-1); 0; 0];
    [26; 26; 0; (-1); 0; (-1); 0; 0];
    [27; 27; 0; (-1); 0; (-1); 0; 0];
    [28; 28; 0; (-1); 0; (-1); 0; 0];
    [29; 29; 0; (-1); 0; (-1); 0; 0];
    [30; 30; 0; (-1); 0; (-1); 0; 0];
    [31; 31; 0; (-1); 0; (-1); 0; 0];
    [32; 32; 1; (-1); 0; (-1); 0; 0];
    [33; 33; 1; (-1); 0; (-1); 0; 0];
    [34; 34; 1; (-1); 0; (-1); 0; 0];
    [35; 35; 1; (-1); 0; (-1); 0; 0];
    [36; 36; 1; (-1); 0; (-1); 0; 0];
    [37; 37; 1; (-1); 0; (-1); 0; 0];
    [38; 38; 1; (-1); 0; (-1); 0; 0];
    [39; 39; 1; (-1); 0; (-1); 0; 0];
    [40; 40; 1; (-1); 0; (-1); 0; 0];
    [41; 41; 1; (-1); 0; (-1); 0; 0];
    [42; 42; 1; (-1); 0; (-1); 0; 0];
    [43; 43; 1; (-1); 0; (-1); 0; 0];
    [44; 44; 1; (-1); 0; (-1); 0; 0];
    [45; 45; 1; (-1); 0; (-1); 0; 0];
    [46; 46; 1; (-1); 0; (-1); 0; 0];
    [47; 47; 1; (-1); 0; (-1); 0; 0];
    [48; 48; 1; (-1); 0; (-1); 0; 0];
    [49; 49; 1; (-1); 0; (-1); 0; 0];
    [50; 50; 1; (-1); 0; (-1); 0; 0];
    [51; 51; 1; (-1); 0; (-1); 0; 0];
    [52; 52; 1; (-1); 0; (-1); 0; 0];
    [53; 53; 1; (-1); 0; (-1); 0; 0];
    [54; 54; 1; (-1); 0; (-1); 0; 0];
    [55; 55; 1; (-1); 0; (-1); 0; 0];
    [56; 56; 1; (-1); 0; (-1); 0; 0];
    [57; 57; 1; (-1); 0; (-1); 0; 0];
    [58; 58; 1; (-1); 0; (-1); 0; 0];
    [59; 59; 1; (-1); 0; (-1); 0; 0];
    [60; 60; 1; (-1); 0; (-1); 0; 0];
    [61; 61; 1; (-1); 0; (-1); 0; 0];
    [62; 62; 1; (-1); 0; (-1); 0; 0];
    [63; 63; 1; (-1); 0; (-1); 0; 0];
    [64; 64; 2; (-1); 0; (-1); 0; 0];
    [65; 65; 2; (-1); 0; (-1); 0; 0];
    [66; 66; 2; (-1); 0; (-1); 0; 0];
    [67; 67; 2; (-1); 0; (-1); 0; 0];
    [68; 68; 2; (-1); 0; (-1); 0; 0];
    [69; 69; 2; (-1); 0; (-1); 0; 0];
    [70; 70; 2; (-1); 0; (-1); 0; 0];
    [71; 71; 2; (-1); 0; (-1); 0; 0];
    [72; 72; 2; (-1); 0; (-1); 0; 0];
    [73; 73; 2; (-1); 0; (-1); 0; 0];
    [74; 74; 2; (-1); 0; (-1); 0; 0];
    [75; 75; 2; (-1); 0; (-1); 0; 0];
    [76; 76; 2; (-1); 0; (-1); 0; 0];
    [77; 77; 2; (-1); 0; (-1); 0; 0];
    [78; 78; 2; (-1); 0; (-1); 0; 0];
    [79; 79; 2; (-1); 0; (-1); 0; 0];
    [80; 80; 2; (-1); 0; (-1); 0; 0];
    [81; 81; 2; (-1); 0; (-1); 0; 0];
    [82; 82; 2; (-1); 0; (-1); 0; 0];
    [83; 83; 2; (-1); 0; (-1); 0; 0];
    [84; 84; 2; (-1); 0; (-1); 0; 0];
    [85; 85; 2; (-1); 0; (-1); 0; 0];
    [86; 86; 2; (-1); 0; (-1); 0; 0];
    [87; 87; 2; (-1); 0; (-1); 0; 0];
    [88; 88; 2; (-1); 0; (-1); 0; 0];
    [89; 89; 2; (-1); 0; (-1); 0; 0];
    [90; 90; 2; (-1); 0; (-1); 0; 0];
    [91; 91; 2; (-1); 0; (-1); 0; 0];
    [92; 92; 2; (-1); 0; (-1); 0; 0];
    [93; 93; 2; (-1); 0; (-1); 0; 0];
    [94; 94; 2; (-1); 0; (-1); 0; 0];
    [95; 95; 2; (-1); 0; (-1); 0; 0];
    [96; 96; 3; (-1); 0; (-1); 0; 0];
    [97; 97; 3; (-1); 0; (-1); 0; 0];
    [98; 98; 3; (-1); 0; (-1); 0; 0];
    [99; 99; 3; (-1); 0; (-1); 0; 0];
    [100; 100; 3; (-1); 0; (-1); 0; 0];
    [101; 101; 3; (-1); 0; (-1); 0; 0];
    [102; 102; 3; (-1); 0; (-1); 0; 0];
    [103; 103; 3; (-1); 0; (-1); 0; 0];
    [104; 104; 3; (-1); 0; (-1); 0; 0];
    [105; 105; 3; (-1); 0; (-1); 0; 0];
    [106; 106; 3; (-1); 0; (-1); 0; 0];
    [107; 107; 3; (-1); 0; (-1); 0; 0];
    [108; 108; 3; (-1); 0; (-1); 0; 0];
    [109; 109; 3; (-1); 0; (-1); 0; 0];
    [110; 110; 3; (-1); 0; (-1); 0; 0];
    [111; 111; 3; (-1); 0; (-1); 0; 0];
    [112; 112; 3; (-1); 0; (-1); 0; 0];
    [113; 113; 3; (-1); 0; (-1); 0; 0];
    [114; 114; 3; (-1); 0; (-1); 0; 0];
    [115; 115; 3; (-1); 0; (-1); 0; 0];
    [116; 116; 3; (-1); 0; (-1); 0; 0];
    [117; 117; 3; (-1); 0; (-1); 0; 0];
    [118; 118; 3; (-1); 0; (-1); 0; 0];
    [119; 119; 3; (-1); 0; (-1); 0; 0];
    [120; 120; 3; (-1); 0; (-1); 0; 0];
    [121; 121; 3; (-1); 0; (-1); 0; 0];
    [122; 122; 3; (-1); 0; (-1); 0; 0];
    [123; 123; 3; (-1); 0; (-1); 0; 0];
    [124; 124; 3; (-1); 0; (-1); 0; 0];
    [125; 125; 3; (-1); 0; (-1); 0; 0];
    [126; 126; 3; (-1); 0; (-1); 0; 0];
    [127; 127; 3; (-1); 0; (-1); 0; 0];
    [128; 128; 4; (-1); 0; (-1); 0; 0];
    [129; 129; 4; (-1); 0; (-1); 0; 0];
    [130; 130; 4; (-1); 0; (-1); 0; 0];
    [131; 131; 4; (-1); 0; (-1); 0; 0];
    [132; 132; 4; (-1); 0; (-1); 0; 0];
    [133; 133; 4; (-1); 0; (-1); 0; 0];
    [134; 134; 4; (-1); 0; (-1); 0; 0];
    [135; 135; 4; (-1); 0; (-1); 0; 0];
    [136; 136; 4; (-1); 0; (-1); 0; 0];
    [137; 137; 4; (-1); 0; (-1); 0; 0];
    [138; 138; 4; (-1); 0; (-1); 0; 0];
    [139; 139; 4; (-1); 0; (-1); 0; 0];
    [140; 140; 4; (-1); 0; (-1); 0; 0];
    [141; 141; 4; (-1); 0; (-1); 0; 0];
    [142; 142; 4; (-1); 0; (-1); 0; 0];
    [143; 143; 4; (-1); 0; (-1); 0; 0];
    [144; 144; 4; (-1); 0; (-1); 0; 0];
    [145; 145; 4; (-1); 0; (-1); 0; 0];
    [146; 146; 4; (-1); 0; (-1); 0; 0];
    [147; 147; 4; (-1); 0; (-1); 0; 0];
    [148; 148; 4; (-1); 0; (-1); 0; 0];
    [149; 149; 4; (-1); 0; (-1); 0; 0];
    [150; 150; 4; (-1); 0; (-1); 0; 0];
    [151; 151; 4; (-1); 0; (-1); 0; 0];
    [152; 152; 4; (-1); 0; (-1); 0; 0];
    [153; 153; 4; (-1); 0; (-1); 0; 0];
    [154; 154; 4; (-1); 0; (-1); 0; 0];
    [155; 155; 4; (-1); 0; (-1); 0; 0];
    [156; 156; 4; (-1); 0; (-1); 0; 0];
    [157; 157; 4; (-1); 0; (-1); 0; 0];
    [158; 158; 4; (-1); 0; (-1); 0; 0];
    [159; 159; 4; (-1); 0; (-1); 0; 0]] 6 (qm 1 [[12; 12; 12; 12];
    [12; 12; 12; 12];
    [12; 12; 12; 12];
    [12; 12; 12; 12];
    [12; 12; 12; 12];
    [20; 20; 20; 20];
    [20; 20; 20; 20];
    [20; 20; 20; 20];
    [20; 20; 20; 20];
    [50; 50; 50; 50];
    [50; 50; 50; 50];
    [50; 50; 50; 50];
    [50; 50; 50; 50];
    [50; 50; 50; 50];
    [50; 50; 50; 50];
    [76; 76; 76; 76];
    [76; 76; 76; 76];
    [76; 76; 76; 76];
    [76; 76; 76; 76];
    [100; 100; 100; 100];
    [100; 100; 100; 100];
    [100; 100; 100; 100];
    [155; 155; 155; 155];
    [155; 155; 155; 155];
    [155; 155; 155; 155];
    [155; 155; 155; 155];
    [197; 197; 197; 197];
    [197; 197; 197; 197];
    [197; 197; 197; 197];
    [350; 350; 350; 350];
    [400; 400; 400; 400];
    [400; 400; 400; 400];
    [12; 12; 12; 12];
    [12; 12; 12; 12];
    [12; 12; 12; 12];
    [12; 12; 12; 12];
    [12; 12; 12; 12];
    [20; 20; 20; 20];
    [20; 20; 20; 20];
    [20; 20; 20; 20];
    [20; 20; 20; 20];
    [50; 50; 50; 50];
    [50; 50; 50; 50];
    [50; 50; 50; 50];
    [50; 50; 50; 50];
    [50; 50; 50; 50];
    [50; 50; 50; 50];
    [76; 76; 76; 76];
    [76; 76; 76; 76];
    [76; 76; 76; 76];
    [76; 76; 76; 76];
    [100; 100; 100; 100];
    [100; 100; 100; 100];
    [100; 100; 100; 100];
    [155; 155; 155; 155];
    [155; 155; 155; 155];
    [155; 155; 155; 155];
    [155; 155; 155; 155];
    [197; 197; 197; 197];
    [197; 197; 197; 197];
    [197; 197; 197; 197];
    [350; 350; 350; 350];
    [400; 400; 400; 400];
    [400; 400; 400; 400];
    [12; 12; 12; 12];
    [12; 12; 12; 12];
    [12; 12; 12; 12];
    [12; 12; 12; 12];
    [12; 12; 12; 12];
    [20; 20; 20; 20];
    [20; 20; 20; 20];
    [20; 20; 20; 20];
    [20; 20; 20; 20];
    [50; 50; 50; 50];
    [50; 50; 50; 50];
    [50; 50; 50; 50];
    [50; 50; 50; 50];
    [50; 50; 50; 50];
    [50; 50; 50; 50];
    [76; 76; 76; 76];
    [76; 76; 76; 76];
    [76; 76; 76; 76];
    [76; 76; 76; 76];
    [100; 100; 100; 100];
    [100; 100; 100; 100];
    [100; 100; 100; 100];
    [155; 155; 155; 155];
    [155; 155; 155; 155];
    [155; 155; 155; 155];
    [155; 155; 155; 155];
    [197; 197; 197; 197];
    [197; 197; 197; 197];
    [197; 197; 197; 197];
    [350; 350; 350; 350];
    [400; 400; 400; 400];
    [400; 400; 400; 400];
    [12; 12; 12; 12];
    [12; 12; 12; 12];
    [12; 12; 12; 12];
    [12; 12; 12; 12];
    [12; 12; 12; 12];
    [20; 20; 20; 20];
    [20; 20; 20; 20];
    [20; 20; 20; 20];
    [20; 20; 20; 20];
    [50; 50; 50; 50];
    [50; 50; 50; 50];
    [50; 50; 50; 50];
    [50; 50; 50; 50];
    [50; 50; 50; 50];
    [50; 50; 50; 50];
    [76; 76; 76; 76];
    [76; 76; 76; 76];
    [76; 76; 76; 76];
    [76; 76; 76; 76];
    [100; 100; 100; 100];
    [100; 100; 100; 100];
    [100; 100; 100; 100];
    [155; 155; 155; 155];
    [155; 155; 155; 155];
    [155; 155; 155; 155];
    [155; 155; 155; 155];
    [197; 197; 197; 197];
    [197; 197; 197; 197];
    [197; 197; 197; 197];
    [350; 350; 350; 350];
    [400; 400; 400; 400];
    [400; 400; 400; 400];
    [12; 12; 12; 12];
    [12; 12; 12; 12];
    [12; 12; 12; 12];
    [12; 12; 12; 12];
    [12; 12; 12; 12];
    [20; 20; 20; 20];
    [20; 20; 20; 20];
    [20; 20; 20; 20];
    [20; 20; 20; 20];
    [50; 50; 50; 50];
    [50; 50; 50; 50];
    [50; 50; 50; 50];
    [50; 50; 50; 50];
    [50; 50; 50; 50];
    [50; 50; 50; 50];
    [76; 76; 76; 76];
    [76; 76; 76; 76];
    [76; 76; 76; 76];
    [76; 76; 76; 76];
    [100; 100; 100; 100];
    [100; 100; 100; 100];
    [100; 100; 100; 100];
    [155; 155; 155; 155];
    [155; 155; 155; 155];
    [155; 155; 155; 155];
    [155; 155; 155; 155];
    [197; 197; 197; 197];
    [197; 197; 197; 197];
    [197; 197; 197; 197];
    [350; 350; 350; 350];
    [400; 400; 400; 400];
    [400; 400; 400; 400]])) (fun r => zmeq (fst r) [[0; 0; 0; (-1); 0; (-1); 0; 0];
    [1; 1; 0; (-1); 0; (-1); 0; 0];
    [2; 2; 0; (-1); 0; (-1); 0; 0];
    [3; 3; 0; (-1); 0; (-1); 0; 0];
    [4; 4; 0; (-1); 0; (-1); 0; 0];
    [5; 5; 0; (-1); 0; (-1); 0; 0];
    [6; 6; 0; (-1); 0; (-1); 0; 0];
    [7; 7; 0; (-1); 0; (-1); 0; 0];
    [8; 8; 0; (-1); 0; (-1); 0; 0];
    [9; 9; 0; (-1); 0; (-1); 0; 0];
    [10; 10; 0; (-1); 0; (-1); 0; 0];
    [11; 11; 0; (-1); 0; (-1); 0; 0];
    [12; 12; 0; (-1); 0; (-1); 0; 0];
    [13; 13; 0; (-1); 0; (-1); 0; 0];
    [14; 14; 0; (-1); 0; (-1); 0; 0];
    [15; 15; 0; (-1); 0; (-1); 0; 0];
    [16; 16; 0; (-1); 0; (-1); 0; 0];
    [17; 17; 0; (-1); 0; (-1); 0; 0];
    [18; 18; 0; (-1); 0; (-1); 0; 0];
    [19; 19; 0; (-1); 0; (-1); 0; 0];
    [20; 20; 0; (-1); 0; (-1); 0; 0];
    [21; 21; 0; (-1); 0; (-1); 0; 0];
    [22; 22; 0; (-1); 0; (-1); 0; 0];
    [23; 23; 0; (-1); 0; (-1); 0; 0];
    [24; 24; 0; (-1); 0; (-1); 0; 0];
    [25; 25; 0; (-1); 0; (-1); 0; 0];
    [26; 26; 0; (-1); 0; (-1); 0; 0];
    [27; 27; 0; (-1); 0; (-1); 0; 0];
    [28; 28; 0; (-1); 0; (-1); 0; 0];
    [29; 29; 0; (-1); 0; (-1); 0; 0];
    [30; 30; 0; (-1); 0; (-1); 0; 0];
    [31; 31; 0; (-1); 0; (-1); 0; 0];
    [32; 32; 1; (-1); 0; (-1); 0; 0];
    [33; 33; 1; (-1); 0; (-1); 0; 0];
    [34; 34; 1; (-1); 0; (-1); 0; 0];
    [35; 35; 1; (-1); 0; (-1); 0; 0];
    [36; 36; 1; (-1); 0; (-1); 0; 0];
    [37; 37; 1; (-1); 0; (-1); 0; 0];
    [38; 38; 1; (-1); 0; (-1); 0; 0];
    [39; 39; 1; (-1); 0; (-1); 0; 0];
    [40; 40; 1; (-1); 0; (-1); 0; 0];
    [41; 41; 1; (-1); 0; (-1); 0; 0];
    [42; 42; 1; (-1); 0; (-1); 0; 0];
    [43; 43; 1; (-1); 0; (-1); 0; 0];
    [44; 44; 1; (-1); 0; (-1); 0; 0];
    [45; 45; 1; (-1); 0; (-1); 0; 0];
    [46; 46; 1; (-1); 0; (-1); 0; 0];
    [47; 47; 1; (-1); 0; (-1); 0; 0];
    [48; 48; 1; (-1); 0; (-1); 0; 0];
    [49; 49; 1; (-1); 0; (-1); 0; 0];
    [50; 50; 1; (-1); 0; (-1); 0; 0];
    [51; 51; 1; (-1); 0; (-1); 0; 0];
    [52; 52; 1; (-1); 0; (-1); 0; 0];
    [53; 53; 1; (-1); 0; (-1); 0; 0];
    [54; 54; 1; (-1); 0; (-1); 0; 0];
    [55; 55; 1; (-1); 0; (-1); 0; 0];
    [56; 56; 1; (-1); 0; (-1); 0; 0];
    [57; 57; 1; (-1); 0; (-1); 0; 0];
    [58; 58; 1; (-1); 0; (-1); 0; 0];
    [59; 59; 1; (-1); 0; (-1); 0; 0];
    [60; 60; 1; (-1); 0; (-1); 0; 0];
    [61; 61; 1; (-1); 0; (-1); 0; 0];
    [62; 62; 1; (-1); 0; (-1); 0; 0];
    [63; 63; 1; (-1); 0; (-1); 0; 0];
    [64; 64; 2; (-1); 0; (-1); 0; 0];
    [65; 65; 2; (-1); 0; (-1); 0; 0];
    [66; 66; 2; (-1); 0; (-1); 0; 0];
    [67; 67; 2; (-1); 0; (-1); 0; 0];
    [68; 68; 2; (-1); 0; (-1); 0; 0];
    [69; 69; 2; (-1); 0; (-1); 0; 0];
    [70; 70; 2; (-1); 0; (-1); 0; 0];
    [71; 71; 2; (-1); 0; (-1); 0; 0];
    [72; 72; 2; (-1); 0; (-1); 0; 0];
    [73; 73; 2; (-1); 0; (-1); 0; 0];
    [74; 74; 2; (-1); 0; (-1); 0; 0];
    [75; 75; 2; (-1); 0; (-1); 0; 0];
    [76; 76; 2; (-1); 0; (-1); 0; 0];
    [77; 77; 2; (-1); 0; (-1); 0; 0];
    [78; 78; 2; (-1); 0; (-1); 0; 0];
    [79; 79; 2; (-1); 0; (-1); 0; 0];
    [80; 80; 2; (-1); 0; (-1); 0; 0];
    [81; 81; 2; (-1); 0; (-1); 0; 0];
    [82; 82; 2; (-1); 0; (-1); 0; 0];
    [83; 83; 2; (-1); 0; (-1); 0; 0];
    [84; 84; 2; (-1); 0; (-1); 0; 0];
    [85; 85; 2; (-1); 0; (-1); 0; 0];
    [86; 86; 2; (-1); 0; (-1); 0; 0];
    [87; 87; 2; (-1); 0; (-1); 0; 0];
    [88; 88; 2; (-1); 0; (-1); 0; 0];
    [89; 89; 2; (-1); 0; (-1); 0; 0];
    [90; 90; 2; (-1); 0; (-1); 0; 0];
    [91; 91; 2; (-1); 0; (-1); 0; 0];
    [92; 92; 2; (-1); 0; (-1); 0; 0];
    [93; 93; 2; (-1); 0; (-1); 0; 0];
    [94; 94; 2; (-1); 0; (-1); 0; 0];
    [95; 95; 2; (-1); 0; (-1); 0; 0];
    [96; 96; 3; (-1); 0; (-1); 0; 0];
    [97; 97; 3; (-1); 0; (-1); 0; 0];
    [98; 98; 3; (-1); 0; (-1); 0; 0];
    [99; 99; 3; (-1); 0; (-1); 0; 0];
    [100; 100; 3; (-1); 0; (-1); 0; 0];
    [101; 101; 3; (-1); 0; (-1); 0; 0];
    [102; 102; 3; (-1); 0; (-1); 0; 0];
    [103; 103; 3; (-1); 0; (-1); 0; 0];
    [104; 104; 3; (-1); 0; (-1); 0; 0];
    [105; 105; 3; (-1); 0; (-1); 0; 0];
    [106; 106; 3; (-1); 0; (-1); 0; 0];
    [107; 107; 3; (-1); 0; (-1); 0; 0];
    [108; 108; 3; (-1); 0; (-1); 0; 0];
    [109; 109; 3; (-1); 0; (-1); 0; 0];
    [110; 110; 3; (-1); 0; (-1); 0; 0];
    [111; 111; 3; (-1); 0; (-1); 0; 0];
    [112; 112; 3; (-1); 0; (-1); 0; 0];
    [113; 113; 3; (-1); 0; (-1); 0; 0];
    [114; 114; 3; (-1); 0; (-1); 0; 0];
    [115; 115; 3; (-1); 0; (-1); 0; 0];
    [116; 116; 3; (-1); 0; (-1); 0; 0];
    [117; 117; 3; (-1); 0; (-1); 0; 0];
    [118; 118; 3; (-1); 0; (-1); 0; 0];
    [119; 119; 3; (-1); 0; (-1); 0; 0];
    [120; 120; 3; (-1); 0; (-1); 0; 0];
    [121; 121; 3; (-1); 0; (-1); 0; 0];
    [122; 122; 3; (-1); 0; (-1); 0; 0];
    [123; 123; 3; (-1); 0; (-1); 0; 0];
    [124; 124; 3; (-1); 0; (-1); 0; 0];
    [125; 125; 3; (-1); 0; (-1); 0; 0];
    [126; 126; 3; (-1); 0; (-1); 0; 0];
    [127; 127; 3; (-1); 0; (-1); 0; 0];
    [128; 128; 4; (-1); 0; (-1); 0; 0];
    [129; 129; 4; (-1); 0; (-1); 0; 0];
    [130; 130; 4; (-1); 0; (-1); 0; 0];
    [131; 131; 4; (-1); 0; (-1); 0; 0];
    [132; 132; 4; (-1); 0; (-1); 0; 0];
    [133; 133; 4; (-1); 0; (-1); 0; 0];
    [134; 134; 4; (-1); 0; (-1); 0; 0];
    [135; 135; 4; (-1); 0; (-1); 0; 0];
    [136; 136; 4; (-1); 0; (-1); 0; 0];
    [137; 137; 4; (-1); 0; (-1); 0; 0];
    [138; 138; 4; (-1); 0; (-1); 0; 0];
    [139; 139; 4; (-1); 0; (-1); 0; 0];
    [140; 140; 4; (-1); 0; (-1); 0; 0];
    [141; 141; 4; (-1); 0; (-1); 0; 0];
    [142; 142; 4; (-1); 0; (-1); 0; 0];
    [143; 143; 4; (-1); 0; (-1); 0; 0];
    [144; 144; 4; (-1); 0; (-1); 0; 0];
    [145; 145; 4; (-1); 0; (-1); 0; 0];
    [146; 146; 4; (-1); 0; (-1); 0; 0];
    [147; 147; 4; (-1); 0; (-1); 0; 0];
    [148; 148; 4; (-1); 0; (-1); 0; 0];
    [149; 149; 4; (-1); 0; (-1); 0; 0];
    [150; 150; 4; (-1); 0; (-1); 0; 0];
    [151; 151; 4; (-1); 0; (-1); 0; 0];
    [152; 152; 4; (-1); 0; (-1); 0; 0];
    [153; 153; 4; (-1); 0; (-1); 0; 0];
    [154; 154; 4; (-1); 0; (-1); 0; 0];
    [155; 155; 4; (-1); 0; (-1); 0; 0];
    [156; 156; 4; (-1); 0; (-1); 0; 0];
    [157; 157; 4; (-1); 0; (-1); 0; 0];
    [158; 158; 4; (-1); 0; (-1); 0; 0];
    [159; 159; 4; (-1); 0; (-1); 0; 0]] && (snd r =? 7)) = true.
Proof. vm_compute; reflexivity. Qed.
Example pmsc_2 : okd (pmsc0 1 [[0; 0; 0; (-1); 0; (-1); 0; 0];
    [1; 1; 0; (-1); 0; (-1); 0; 0];
    [2; 2; 0; (-1); 0; (-1); 0; 0];
    [3; 3; 0; (-1); 0; (-1); 0; 0];
    [4; 4; 0; (-1); 0; (-1); 0; 0];
    [5; 5; 0; (-1); 0; (-1); 0; 0];
    [6; 6; 0; (-1); 0; (-1); 0; 0];
    [7; 7; 0; (-1); 0; (-1); 0; 0];
    [8; 8; 0; (-1); 0; (-1); 0; 0];
    [9; 9; 0; (-1); 0; (-1); 0; 0];
    [10; 10; 0; (-1); 0; (-1); 0; 0];
    [11; 11; 0; (-1); 0; (-1); 0; 0];
    [12; 12; 0; (-1); 0; (-1); 0; 0];
    [13; 13; 0; (-1); 0; (-1); 0; 0];
    [14; 14; 0; (-1); 0; (-1); 0; 0];
    [15; 15; 0; (-1); 0; (-1); 0; 0];
    [16; 16; 0; (-1); 0; (-1); 0; 0];
    [17; 17; 0; (-1); 0; (-1); 0; 0];
    [18; 18; 0; (-1); 0; (-1); 0; 0];
    [19; 19; 0; (-1); 0; (-1); 0; 0];
    [20; 20; 0; (-1); 0; (-1); 0; 0];
    [21; 21; 0; (-1); 0; (-1); 0; 0];
    [22; 22; 0; (-1); 0; (-1); 0; 0];
    [23; 23; 0; (-1); 0; (-1); 0; 0];
    [24; 24; 0; (-1); 0; (-1); 0; 0];
    [25; 25; 0; (-1); 0; (-1); 0; 0];
    [26; 26; 0; (-1); 0; (-1); 0; 0];
    [27; 27; 0; (-1); 0; (-1); 0; 0];
    [28; 28; 0; (-1); 0; (-1); 0; 0];
    [29; 29; 0; (-1); 0; (-1); 0; 0];
    [30; 30; 0; (-1); 0; (-1); 0; 0];
    [31; 31; 0; (-1); 0; (-1); 0; 0];
    [32; 32; 1; (-1); 0; (-1); 0; 0];
    [33; 33; 1; (-1); 0; (-1); 0; 0];
    [34; 34; 1; (-1); 0; (-1); 0; 0];
    [35; 35; 1; (-1); 0; (-1); 0; 0];
    [36; 36; 1; (-1); 0; (-1); 0; 0];
    [37; 37; 1; (-1); 0; (-1); 0; 0];
    [38; 38; 1; (-1); 0; (-1); 0; 0];
    [39; 39; 1; (-1); 0; (-1); 0; 0];
    [40; 40; 1; (-1); 0; (-1); 0; 0];
    [41; 41; 1; (-1); 0; (-1); 0; 0];
    [42; 42; 1; (-1); 0; (-1); 0; 0];
    [43; 43; 1; (-1); 0; (-1); 0; 0];
    [44; 44; 1; (-1); 0; (-1); 0; 0];
    [45; 45; 1; (-1); 0; (-1); 0; 0];
    [46; 46; 1; (-1); 0; (-1); 0; 0];
    [47; 47; 1; (-1); 0; (-1); 0; 0];
    [48; 48; 1; (-1); 0; (-1); 0; 0];
    [49; 49; 1; (-1); 0; (-1); 0; 0];
    [50; 50; 1; (-1); 0; (-1); 0; 0];
    [51; 51; 1; (-1); 0; (-1); 0; 0];
    [52; 52; 1; (-1); 0; (-1); 0; 0];
    [53; 53; 1; (-1); 0; (-1); 0; 0];
    [54; 54; 1; (-1); 0; (-1); 0; 0];
    [55; 55; 1; (-1); 0; (-1); 0; 0];
    [56; 56; 1; (-1); 0; (-1); 0; 0];
    [57; 57; 1; (-1); 0; (-1); 0; 0];
    [58; 58; 1; (-1); 0; (-1); 0; 0];
    [59; 59; 1; (-1); 0; (-1); 0; 0];
    [60; 60; 1; (-1); 0; (-1); 0; 0];
    [61; 61; 1; (-1); 0; (-1); 0; 0];
    [62; 62; 1; (-1); 0; (-1); 0; 0];
    [63; 63; 1; (-1); 0; (-1); 0; 0];
    [64; 64; 2; (-1); 0; (-1); 0; 0];
    [65; 65; 2; (-1); 0; (-1); 0; 0];
    [66; 66; 2; (-1); 0; (-1); 0; 0];
    [67; 67; 2; (-1); 0; (-1); 0; 0];
    [68; 68; 2; (-1); 0; (-1); 0; 0];
    [69; 69; 2; (-1); 0; (-1); 0; 0];
    [70; 70; 2; (-1); 0; (-1); 0; 0];
    [71; 71; 2; (-1); 0; (-1); 0; 0];
    [72; 72; 2; (-1); 0; (-1); 0; 0];
    [73; 73; 2; (-1); 0; (-1); 0; 0];
    [74; 74; 2; (-1); 0; (-1); 0; 0];
    [75; 75; 2; (-1); 0; (-1); 0; 0];
    [76; 76; 2; (-1); 0; (-1); 0; 0];
    [77; 77; 2; (-1); 0; (-1); 0; 0];
    [78; 78; 2; (-1); 0; (-1); 0; 0];
    [79; 79; 2; (-1); 0; (-1); 0; 0];
    [80; 80; 2; (-1); 0; (-1); 0; 0];
    [81; 81; 2; (-1); 0; (-1); 0; 0];
    [82; 82; 2; (-1); 0; (-1); 0; 0];
    [83; 83; 2; (-1); 0; (-1); 0; 0];
    [84; 84; 2; (-1); 0; (-1); 0; 0];
    [85; 85; 2; (-1); 0; (-1); 0; 0];
    [86; 86; 2; (-1); 0; (-1); 0; 0];
    [87; 87; 2; (-1); 0; (-1); 0; 0];
    [88; 88; 2; (-1); 0; (-1); 0; 0];
    [89; 89; 2; (-1); 0; (-1); 0; 0];
    [90; 90; 2; (-1); 0; (-1); 0; 0];
    [91; 91; 2; (-1); 0; (-1); 0; 0];
    [92; 92; 2; (-1); 0; (-1); 0; 0];
    [93; 93; 2; (-1); 0; (-1); 0; 0];
    [94; 94; 2; (-1); 0; (-1); 0; 0];
    [95; 95; 2; (-1); 0; (-1); 0; 0];
    [96; 96; 3; (-1); 0; (-1); 0; 0];
    [97; 97; 3; (-1); 0; (-1); 0; 0];
    [98; 98; 3; (-1); 0; (-1); 0; 0];
    [99; 99; 3; (-1); 0; (-1); 0; 0];
    [100; 100; 3; (-1); 0; (-1); 0; 0];
    [101; 101; 3; (-1); 0; (-1); 0; 0];
    [102; 102; 3; (-1); 0; (-1); 0; 0];
    [103; 103; 3; (-1); 0; (-1); 0; 0];
    [104; 104; 3; (-1); 0; (-1); 0; 0];
    [105; 105; 3; (-1); 0; (-1); 0; 0];
    [106; 106; 3; (-1); 0; (-1); 0; 0];
    [107; 107; 3; (-1); 0; (-1); 0; 0];
    [108; 108; 3; (-1); 0; (-1); 0; 0];
    [109; 109; 3; (-1); 0; (-1); 0; 0];
    [110; 110; 3; (-1); 0; (-1); 0; 0];
    [111; 111; 3; (-1); 0; (-1); 0; 0];
    [112; 112; 3; (-1); 0; (-1); 0; 0];
    [113; 113; 3; (-1); 0; (-1); 0; 0];
    [114; 114; 3; (-1); 0; (-1); 0; 0];
    [115; 115; 3; (-1); 0; (-1); 0; 0];
    [116; 116; 3; (-1); 0; (-1); 0; 0];
    [117; 117; 3; (-1); 0; (-1); 0; 0];
    [118; 118; 3; (-1); 0; (-1); 0; 0];
    [119; 119; 3; (-1); 0; (-1); 0; 0];
    [120; 120; 3; (-1); 0; (-1); 0; 0];
    [121; 121; 3; (-1); 0; (-1); 0; 0];
    [122; 122; 3; (-1); 0; (-1); 0; 0];
    [123; 123; 3; (-1); 0; (-1); 0; 0];
    [124; 124; 3; (-1); 0; (-1); 0; 0];
    [125; 125; 3; (-1); 0; (-1); 0; 0];
    [126; 126; 3; (-1); 0; (-1); 0; 0];
    [127; 127; 3; (-1); 0; (-1); 0; 0];
    [128; 128; 4; (-1); 0; (-1); 0; 0];
    [129; 129; 4; (-1); 0; (-1); 0; 0];
    [130; 130; 4; (-1); 0; (-1); 0; 0];
    [131; 131; 4; (-1); 0; (-1); 0; 0];
    [132; 132; 4; (-1); 0; (-1); 0; 0];
    [133; 133; 4; (-1); 0; (-1); 0; 0];
    [134; 134; 4; (-1); 0; (-1); 0; 0];
    [135; 135; 4; (-1); 0; (-1); 0; 0];
    [136; 136; 4; (-1); 0; (-1); 0; 0];
    [137; 137; 4; (-1); 0; (-1); 0; 0];
    [138; 138; 4; (-1); 0; (-1); 0; 0];
    [139; 139; 4; (-1); 0; (-1); 0; 0];
    [140; 140; 4; (-1); 0; (-1); 0; 0];
    [141; 141; 4; (-1); 0; (-1); 0; 0];
    [142; 142; 4; (-1); 0; (-1); 0; 0];
    [143; 143; 4; (-1); 0; (-1); 0; 0];
    [144; 144; 4; (-1); 0; (-1); 0; 0];
    [145; 145; 4; (-1); 0; (-1); 0; 0];
    [146; 146; 4; (-1); 0; (-1); 0; 0];
    [147; 147; 4; (-1); 0; (-1); 0; 0];
    [148; 148; 4; (-1); 0; (-1); 0; 0];
    [149; 149; 4; (-1); 0; (-1); 0; 0];
    [150; 150; 4; (-1); 0; (-1); 0; 0];
    [151; 151; 4; (-1); 0; (-1); 0; 0];
    [152; 152; 4; (-1); 0; (-1); 0; 0];
    [153; 153; 4; (-1); 0; (-1); 0; 0];
    [154; 154; 4; (-1); 0; (-1); 0; 0];
    [155; 155; 4; (-1); 0; (-1); 0; 0];
    [156; 156; 4; (-1); 0; (-1); 0; 0];
    [157; 157; 4; (-1); 0; (-1); 0; 0];
    [158; 158; 4; (-1); 0; (-1); 0; 0];
    [159; 159; 4; (-1); 0; (-1); 0; 0]] 7 (qm 1 [[12; 12; 12; 12];
    [12; 12; 12; 12];
    [12; 12; 12; 12];
    [12; 12; 12; 12];
    [12; 12; 12; 12];
    [20; 20; 20; 20];
    [20; 20; 20; 20];
    [20; 20; 20; 20];
    [20; 20; 20; 20];
    [50; 50; 50; 50];
    [50; 50; 50; 50];
    [50; 50; 50; 50];
    [50; 50; 50; 50];
    [50; 50; 50; 50];
    [50; 50; 50; 50];
    [76; 76; 76; 76];
    [76; 76; 76; 76];
    [76; 76; 76; 76];
    [76; 76; 76; 76];
    [100; 100; 100; 100];
    [100; 100; 100; 100];
    [100; 100; 100; 100];
    [155; 155; 155; 155];
    [155; 155; 155; 155];
    [155; 155; 155; 155];
    [155; 155; 155; 155];
    [197; 197; 197; 197];
    [197; 197; 197; 197];
    [197; 197; 197; 197];
    [350; 350; 350; 350];
    [400; 400; 400; 400];
    [400; 400; 400; 400];
    [12; 12; 12; 12];
    [12; 12; 12; 12];
    [12; 12; 12; 12];
    [12; 12; 12; 12];
    [12; 12; 12; 12];
    [20; 20; 20; 20];
    [20; 20; 20; 20];
    [20; 20; 20; 20];
    [20; 20; 20; 20];
    [50; 50; 50; 50];
    [50; 50; 50; 50];
    [50; 50; 50; 50];
    [50; 50; 50; 50];
    [50; 50; 50; 50];
    [50; 50; 50; 50];
    [76; 76; 76; 76];
    [76; 76; 76; 76];
    [76; 76; 76; 76];
    [76; 76; 76; 76];
    [100; 100; 100; 100];
    [100; 100; 100; 100];
    [100; 100; 100; 100];
    [155; 155; 155; 155];
    [155; 155; 155; 155];
    [155; 155; 155; 155];
    [155; 155; 155; 155];
    [197; 197; 197; 197];
    [197; 197; 197; 197];
    [197; 197; 197; 197];
    [350; 350; 350; 350];
    [400; 400; 400; 400];
    [400; 400; 400; 400];
    [12; 12; 12; 12];
    [12; 12; 12; 12];
    [12; 12; 12; 12];
    [12; 12; 12; 12];
    [12; 12; 12; 12];
    [20; 20; 20; 20];
    [20; 20; 20; 20];
    [20; 20; 20; 20];
    [20; 20; 20; 20];
    [50; 50; 50; 50];
    [50; 50; 50; 50];
    [50; 50; 50; 50];
    [50; 50; 50; 50];
    [50; 50; 50; 50];
    [50; 50; 50; 50];
    [76; 76; 76; 76];
    [76; 76; 76; 76];
    [76; 76; 76; 76];
    [76; 76; 76; 76];
    [100; 100; 100; 100];
    [100; 100; 100; 100];
    [100; 100; 100; 100];
    [155; 155; 155; 155];
    [155; 155; 155; 155];
    [155; 155; 155; 155];
    [155; 155; 155; 155];
    [197; 197; 197; 197];
    [197; 197; 197; 197];
    [197; 197; 197; 197];
    [350; 350; 350; 350];
    [400; 400; 400; 400];
    [400; 400; 400; 400];
    [12; 12; 12; 12];
    [12; 12; 12; 12];
    [12; 12; 12; 12];
    [12; 12; 12; 12];
    [12; 12; 12; 12];
    [20; 20; 20; 20];
    [20; 20; 20; 20];
    [20; 20; 20; 20];
    [20; 20; 20; 20];
    [50; 50; 50; 50];
    [50; 50; 50; 50];
    [50; 50; 50; 50];
    [50; 50; 50; 50];
    [50; 50; 50; 50];
    [50; 50; 50; 50];
    [76; 76; 76; 76];
    [76; 76; 76; 76];
    [76; 76; 76; 76];
    [76; 76; 76; 76];
    [100; 100; 100; 100];
    [100; 100; 100; 100];
    [100; 100; 100; 100];
    [155; 155; 155; 155];
    [155; 155; 155; 155];
    [155; 155; 155; 155];
    [155; 155; 155; 155];
    [197; 197; 197; 197];
    [197; 197; 197; 197];
    [197; 197; 197; 197];
    [350; 350; 350; 350];
    [400; 400; 400; 400];
    [400; 400; 400; 400];
    [12; 12; 12; 12];
    [12; 12; 12; 12];
    [12; 12; 12; 12];
    [12; 12; 12; 12];
    [12; 12; 12; 12];
    [20; 20; 20; 20];
    [20; 20; 20; 20];
    [20; 20; 20; 20];
    [20; 20; 20; 20];
    [50; 50; 50; 50];
    [50; 50; 50; 50];
    [50; 50; 50; 50];
    [50; 50; 50; 50];
    [50; 50; 50; 50];
    [50; 50; 50; 50];
    [76; 76; 76; 76];
    [76; 76; 76; 76];
    [76; 76; 76; 76];
    [76; 76; 76; 76];
    [100; 100; 100; 100];
    [100; 100; 100; 100];
    [100; 100; 100; 100];
    [155; 155; 155; 155];
    [155; 155; 155; 155];
    [155; 155; 155; 155];
    [155; 155; 155; 155];
    [197; 197; 197; 197];
    [197; 197; 197; 197];
    [197; 197; 197; 197];
    [350; 350; 350; 350];
    [400; 400; 400; 400];
    [400; 400; 400; 400]])) (fun r => zmeq (fst r) [[0; 0; 0; (-1); 0; (-1); 0; 0];
    [1; 1; 0; (-1); 0; (-1); 0; 0];
    [2; 2; 0; (-1); 0; (-1); 0; 0];
    [3; 3; 0; (-1); 0; (-1); 0; 0];
    [4; 4; 0; (-1); 0; (-1); 0; 0];
    [5; 5; 0; (-1); 0; (-1); 0; 0];
    [6; 6; 0; (-1); 0; (-1); 0; 0];
    [7; 7; 0; (-1); 0; (-1); 0; 0];
    [8; 8; 0; (-1); 0; (-1); 0; 0];
    [9; 9; 0; (-1); 0; (-1); 0; 0];
    [10; 10; 0; (-1); 0; (-1); 0; 0];
    [11; 11; 0; (-1); 0; (-1); 0; 0];
    [12; 12; 0; (-1); 0; (-1); 0; 0];
    [13; 13; 0; (-1); 0; (-1); 0; 0];
    [14; 14; 0; (-1); 0; (-1); 0; 0];
    [15; 15; 0; (-1); 0; (-1); 0; 0];
    [16; 16; 0; (-1); 0; (-1); 0; 0];
    [17; 17; 0; (-1); 0; (-1); 0; 0];
    [18; 18; 0; (-1); 0; (-1); 0; 0];
    [19; 19; 0; (-1); 0; (-1); 0; 0];
    [20; 20; 0; (-1); 0; (-1); 0; 0];
    [21; 21; 0; (-1); 0; (-1); 0; 0];
    [22; 22; 0; (-1); 0; (-1); 0; 0];
    [23; 23; 0; (-1); 0; (-1); 0; 0];
    [24; 24; 0; (-1); 0; (-1); 0; 0];
    [25; 25; 0; (-1); 0; (-1); 0; 0];
    [26; 26; 0; (-1); 0; (-1); 0; 0];
    [27; 27; 0; (-1); 0; (-1); 0; 0];
    [28; 28; 0; (-1); 0; (-1); 0; 0];
    [29; 29; 0; (-1); 0; (-1); 0; 0];
    [30; 30; 0; (-1); 0; (-1); 0; 0];
    [31; 31; 0; (-1); 0; (-1); 0; 0];
    [32; 32; 1; (-1); 0; (-1); 0; 0];
    [33; 33; 1; (-1); 0; (-1); 0; 0];
    [34; 34; 1; (-1); 0; (-1); 0; 0];
    [35; 35; 1; (-1); 0; (-1); 0; 0];
    [36; 36; 1; (-1); 0; (-1); 0; 0];
    [37; 37; 1; (-1); 0; (-1); 0; 0];
    [38; 38; 1; (-1); 0; (-1); 0; 0];
    [39; 39; 1; (-1); 0; (-1); 0; 0];
    [40; 40; 1; (-1); 0; (-1); 0; 0];
    [41; 41; 1; (-1); 0; (-1); 0; 0];
    [42; 42; 1; (-1); 0; (-1); 0; 0];
    [43; 43; 1; (-1); 0; (-1); 0; 0];
    [44; 44; 1; (-1); 0; (-1); 0; 0];
    [45; 45; 1; (-1); 0; (-1); 0; 0];
    [46; 46; 1; (-1); 0; (-1); 0; 0];
    [47; 47; 1; (-1); 0; (-1); 0; 0];
    [48; 48; 1; (-1); 0; (-1); 0; 0];
    [49; 49; 1; (-1); 0; (-1); 0; 0];
    [50; 50; 1; (-1); 0; (-1); 0; 0];
    [51; 51; 1; (-1); 0; (-1); 0; 0];
    [52; 52; 1; (-1); 0; (-1); 0; 0];
    [53; 53; 1; (-1); 0; (-1); 0; 0];
    [54; 54; 1; (-1); 0; (-1); 0; 0];
    [55; 55; 1; (-1); 0; (-1); 0; 0];
    [56; 56; 1; (-1); 0; (-1); 0; 0];
    [57; 57; 1; (-1); 0; (-1); 0; 0];
    [58; 58; 1; (-1); 0; (-1); 0; 0];
    [59; 59; 1; (-1); 0; (-1); 0; 0];
    [60; 60; 1; (-1); 0; (-1); 0; 0];
    [61; 61; 1; (-1); 0; (-1); 0; 0];
    [62; 62; 1; (-1); 0; (-1); 0; 0];
    [63; 63; 1; (-1); 0; (-1); 0; 0];
    [64; 64; 2; (-1); 0; (-1); 0; 0];
    [65; 65; 2; (-1); 0; (-1); 0; 0];
    [66; 66; 2; (-1); 0; (-1); 0; 0];
    [67; 67; 2; (-1); 0; (-1); 0; 0];
    [68; 68; 2; (-1); 0; (-1); 0; 0];
    [69; 69; 2; (-1); 0; (-1); 0; 0];
    [70; 70; 2; (-1); 0; (-1); 0; 0];
    [71; 71; 2; (-1); 0; (-1); 0; 0];
    [72; 72; 2; (-1); 0; (-1); 0; 0];
    [73; 73; 2; (-1); 0; (-1); 0; 0];
    [74; 74; 2; (-1); 0; (-1); 0; 0];
    [75; 75; 2; (-1); 0; (-1); 0; 0];
    [76; 76; 2; (-1); 0; (-1); 0; 0];
    [77; 77; 2; (-1); 0; (-1); 0; 0];
    [78; 78; 2; (-1); 0; (-1); 0; 0];
    [79; 79; 2; (-1); 0; (-1); 0; 0];
    [80; 80; 2; (-1); 0; (-1); 0; 0];
    [81; 81; 2; (-1); 0; (-1); 0; 0];
    [82; 82; 2; (-1); 0; (-1); 0; 0];
    [83; 83; 2; (-1); 0; (-1); 0; 0];
    [84; 84; 2; (-1); 0; (-1); 0; 0];
    [85; 85; 2; (-1); 0; (-1); 0; 0];
    [86; 86; 2; (-1); 0; (-1); 0; 0];
    [87; 87; 2; (-1); 0; (-1); 0; 0];
    [88; 88; 2; (-1); 0; (-1); 0; 0];
    [89; 89; 2; (-1); 0; (-1); 0; 0];
    [90; 90; 2; (-1); 0; (-1); 0; 0];
    [91; 91; 2; (-1); 0; (-1); 0; 0];
    [92; 92; 2; (-1); 0; (-1); 0; 0];
    [93; 93; 2; (-1); 0; (-1); 0; 0];
    [94; 94; 2; (-1); 0; (-1); 0; 0];
    [95; 95; 2; (-1); 0; (-1); 0; 0];
    [96; 96; 3; (-1); 0; (-1); 0; 0];
    [97; 97; 3; (-1); 0; (-1); 0; 0];
    [98; 98; 3; (-1); 0; (-1); 0; 0];
    [99; 99; 3; (-1); 0; (-1); 0; 0];
    [100; 100; 3; (-1); 0; (-1); 0; 0];
    [101; 101; 3; (-1); 0; (-1); 0; 0];
    [102; 102; 3; (-1); 0; (-1); 0; 0];
    [103; 103; 3; (-1); 0; (-1); 0; 0];
    [104; 104; 3; (-1); 0; (-1); 0; 0];
    [105; 105; 3; (-1); 0; (-1); 0; 0];
    [106; 106; 3; (-1); 0; (-1); 0; 0];
    [107; 107; 3; (-1); 0; (-1); 0; 0];
    [108; 108; 3; (-1); 0; (-1); 0; 0];
    [109; 109; 3; (-1); 0; (-1); 0; 0];
    [110; 110; 3; (-1); 0; (-1); 0; 0];
    [111; 111; 3; (-1); 0; (-1); 0; 0];
    [112; 112; 3; (-1); 0; (-1); 0; 0];
    [113; 113; 3; (-1); 0; (-1); 0; 0];
    [114; 114; 3; (-1); 0; (-1); 0; 0];
    [115; 115; 3; (-1); 0; (-1); 0; 0];
    [116; 116; 3; (-1); 0; (-1); 0; 0];
    [117; 117; 3; (-1); 0; (-1); 0; 0];
    [118; 118; 3; (-1); 0; (-1); 0; 0];
    [119; 119; 3; (-1); 0; (-1); 0; 0];
    [120; 120; 3; (-1); 0; (-1); 0; 0];
    [121; 121; 3; (-1); 0; (-1); 0; 0];
    [122; 122; 3; (-1); 0; (-1); 0; 0];
    [123; 123; 3; (-1); 0; (-1); 0; 0];
    [124; 124; 3; (-1); 0; (-1); 0; 0];
    [125; 125; 3; (-1); 0; (-1); 0; 0];
    [126; 126; 3; (-1); 0; (-1); 0; 0];
    [127; 127; 3; (-1); 0; (-1); 0; 0];
    [128; 128; 4; (-1); 0; (-1); 0; 0];
    [129; 129; 4; (-1); 0; (-1); 0; 0];
    [130; 130; 4; (-1); 0; (-1); 0; 0];
    [131; 131; 4; (-1); 0; (-1); 0; 0];
    [132; 132; 4; (-1); 0; (-1); 0; 0];
    [133; 133; 4; (-1); 0; (-1); 0; 0];
    [134; 134; 4; (-1); 0; (-1); 0; 0];
    [135; 135; 4; (-1); 0; (-1); 0; 0];
    [136; 136; 4; (-1); 0; (-1); 0; 0];
    [137; 137; 4; (-1); 0; (-1); 0; 0];
    [138; 138; 4; (-1); 0; (-1); 0; 0];
    [139; 139; 4; (-1); 0; (-1); 0; 0];
    [140; 140; 4; (-1); 0; (-1); 0; 0];
    [141; 141; 4; (-1); 0; (-1); 0; 0];
    [142; 142; 4; (-1); 0; (-1); 0; 0];
    [143; 143; 4; (-1); 0; (-1); 0; 0];
    [144; 144; 4; (-1); 0; (-1); 0; 0];
    [145; 145; 4; (-1); 0; (-1); 0; 0];
    [146; 146; 4; (-1); 0; (-1); 0; 0];
    [147; 147; 4; (-1); 0; (-1); 0; 0];
    [148; 148; 4; (-1); 0; (-1); 0; 0];
    [149; 149; 4; (-1); 0; (-1); 0; 0];
    [150; 150; 4; (-1); 0; (-1); 0; 0];
    [151; 151; 4; (-1); 0; (-1); 0; 0];
    [152; 152; 4; (-1); 0; (-1); 0; 0];
    [153; 153; 4; (-1); 0; (-1); 0; 0];
    [154; 154; 4; (-1); 0; (-1); 0; 0];
    [155; 155; 4; (-1); 0; (-1); 0; 0];
    [156; 156; 4; (-1); 0; (-1); 0; 0];
    [157; 157; 4; (-1); 0; (-1); 0; 0];
    [158; 158; 4; (-1); 0; (-1); 0; 0];
    [159; 159; 4; (-1); 0; (-1); 0; 0]] && (snd r =? 8)) = true.
Proof. vm_compute; reflexivity. Qed.
Example pmsc_3 : okd (pmsc0 2 [[0; 0; 0; (-1); 0; (-1); 0; 0];
    [1; 1; 0; (-1); 0; (-1); 0; 0];
    [2; 2; 0; (-1); 0; (-1); 0; 0];
    [3; 3; 0; (-1); 0; (-1); 0; 0];
    [4; 4; 0; (-1); 0; (-1); 0; 0];
    [5; 5; 0; (-1); 0; (-1); 0; 0];
    [6; 6; 0; (-1); 0; (-1); 0; 0];
    [7; 7; 0; (-1); 0; (-1); 0; 0];
    [8; 8; 0; (-1); 0; (-1); 0; 0];
    [9; 9; 0; (-1); 0; (-1); 0; 0];
    [10; 10; 0; (-1); 0; (-1); 0; 0];
    [11; 11; 0; (-1); 0; (-1); 0; 0];
    [12; 12; 0; (-1); 0; (-1); 0; 0];
    [13; 13; 0; (-1); 0; (-1); 0; 0];
    [14; 14; 0; (-1); 0; (-1); 0; 0];
    [15; 15; 0; (-1); 0; (-1); 0; 0];
    [16; 16; 0; (-1); 0; (-1); 0; 0];
    [17; 17; 0; (-1); 0; (-1); 0; 0];
    [18; 18; 0; (-1); 0; (-1); 0; 0];
    [19; 19; 0; (-1); 0; (-1); 0; 0];
    [20; 20; 0; (-1); 0; (-1); 0; 0];
    [21; 21; 0; (-1); 0; (-1); 0; 0];
    [22; 22; 0; (-1); 0; (-1); 0; 0];
    [23; 23; 0; (-1); 0; (-1); 0; 0];
    [24; 24; 0; (-1); 0; (-1); 0; 0];
    [25; 25; 0; (-1); 0; (-1); 0; 0];
    [26; 26; 0; (-1); 0; (-1); 0; 0];
    [27; 27; 0; (-1); 0; (-1); 0; 0];
    [28; 28; 0; (-1); 0; (-1); 0; 0];
    [29; 29; 0; (-1); 0; (-1); 0; 0];
    [30; 30; 0; (-1); 0; (-1); 0; 0];
    [31; 31; 0; (-1); 0; (-1); 0; 0];
    [32; 32; 1; (-1); 0; (-1); 0; 0];
    [33; 33; 1; (-1); 0; (-1); 0; 0];
    [34; 34; 1; (-1); 0; (-1); 0; 0];
    [35; 35; 1; (-1); 0; (-1); 0; 0];
    [36; 36; 1; (-1); 0; (-1); 0; 0];
    [37; 37; 1; (-1); 0; (-1); 0; 0];
    [38; 38; 1; (-1); 0; (-1); 0; 0];
    [39; 39; 1; (-1); 0; (-1); 0; 0];
    [40; 40; 1; (-1); 0; (-1); 0; 0];
    [41; 41; 1; (-1); 0; (-1); 0; 0];
    [42; 42; 1; (-1); 0; (-1); 0; 0];
    [43; 43; 1; (-1); 0; (-1); 0; 0];
    [44; 44; 1; (-1); 0; (-1); 0; 0];
    [45; 45; 1; (-1); 0; (-1); 0; 0];
    [46; 46; 1; (-1); 0; (-1); 0; 0];
    [47; 47; 1; (-1); 0; (-1); 0; 0];
    [48; 48; 1; (-1); 0; (-1); 0; 0];
    [49; 49; 1; (-1); 0; (-1); 0; 0];
    [50; 50; 1; (-1); 0; (-1); 0; 0];
    [51; 51; 1; (-1); 0; (-1); 0; 0];
    [52; 52; 1; (-1); 0; (-1); 0; 0];
    [53; 53; 1; (-1); 0; (-1); 0; 0];
    [54; 54; 1; (-1); 0; (-1); 0; 0];
    [55; 55; 1; (-1); 0; (-1); 0; 0];
    [56; 56; 1; (-1); 0; (-1); 0; 0];
    [57; 57; 1; (-1); 0; (-1); 0; 0];
    [58; 58; 1; (-1); 0; (-1); 0; 0];
    [59; 59; 1; (-1); 0; (-1); 0; 0];
    [60; 60; 1; (-1); 0; (-1); 0; 0];
    [61; 61; 1; (-1); 0; (-1); 0; 0];
    [62; 62; 1; (-1); 0; (-1); 0; 0];
    [63; 63; 1; (-1); 0; (-1); 0; 0];
    [64; 64; 2; (-1); 0; (-1); 0; 0];
    [65; 65; 2; (-1); 0; (-1); 0; 0];
    [66; 66; 2; (-1); 0; (-1); 0; 0];
    [67; 67; 2; (-1); 0; (-1); 0; 0];
    [68; 68; 2; (-1); 0; (-1); 0; 0];
    [69; 69; 2; (-1); 0; (-1); 0; 0];
    [70; 70; 2; (-1); 0; (-1); 0; 0];
    [71; 71; 2; (-1); 0; (-1); 0; 0];
    [72; 72; 2; (-1); 0; (-1); 0; 0];
    [73; 73; 2; (-1); 0; (-1); 0; 0];
    [74; 74; 2; (-1); 0; (-1); 0; 0];
    [75; 75; 2; (-1); 0; (-1); 0; 0];
    [76; 76; 2; (-1); 0; (-1); 0; 0];
    [77; 77; 2; (-1); 0; (-1); 0; 0];
    [78; 78; 2; (-1); 0; (-1); 0; 0];
    [79; 79; 2; (-1); 0; (-1); 0; 0];
    [80; 80; 2; (-1); 0; (-1); 0; 0];
    [81; 81; 2; (-1); 0; (-1); 0; 0];
    [82; 82; 2; (-1); 0; (-1); 0; 0];
    [83; 83; 2; (-1); 0; (-1); 0; 0];
    [84; 84; 2; (-1); 0; (-1); 0; 0];
    [85; 85; 2; (-1); 0; (-1); 0; 0];
    [86; 86; 2; (-1); 0; (-1); 0; 0];
    [87; 87; 2; (-1); 0; (-1); 0; 0];
    [88; 88; 2; (-1); 0; (-1); 0; 0];
    [89; 89; 2; (-1); 0; (-1); 0; 0];
    [90; 90; 2; (-1); 0; (-1); 0; 0];
    [91; 91; 2; (-1); 0; (-1); 0; 0];
    [92; 92; 2; (-1); 0; (-1); 0; 0];
    [93; 93; 2; (-1); 0; (-1); 0; 0];
    [94; 94; 2; (-1); 0; (-1); 0; 0];
    [95; 95; 2; (-1); 0; (-1); 0; 0];
    [96; 96; 3; (-1); 0; (-1); 0; 0];
    [97; 97; 3; (-1); 0; (-1); 0; 0];
    [98; 98; 3; (-1); 0; (-1); 0; 0];
    [99; 99; 3; (-1); 0; (-1); 0; 0];
    [100; 100; 3; (-1); 0; (-1); 0; 0];
    [101; 101; 3; (-1); 0; (-1); 0; 0];
    [102; 102; 3; (-1); 0; (-1); 0; 0];
    [103; 103; 3; (-1); 0; (-1); 0; 0];
    [104; 104; 3; (-1); 0; (-1); 0; 0];
    [105; 105; 3; (-1); 0; (-1); 0; 0];
    [106; 106; 3; (-1); 0; (-1); 0; 0];
    [107; 107; 3; (-1); 0; (-1); 0; 0];
    [108; 108; 3; (-1); 0; (-1); 0; 0];
    [109; 109; 3; (-1); 0; (-1); 0; 0];
    [110; 110; 3; (-1); 0; (-1); 0; 0];
    [111; 111; 3; (-1); 0; (-1); 0; 0];
    [112; 112; 3; (-1); 0; (-1); 0; 0];
    [113; 113; 3; (-1); 0; (-1); 0; 0];
    [114; 114; 3; (-1); 0; (-1); 0; 0];
    [115; 115; 3; (-1); 0; (-1); 0; 0];
    [116; 116; 3; (-1); 0; (-1); 0; 0];
    [117; 117; 3; (-1); 0; (-1); 0; 0];
    [118; 118; 3; (-1); 0; (-1); 0; 0];
    [119; 119; 3; (-1); 0; (-1); 0; 0];
    [120; 120; 3; (-1); 0; (-1); 0; 0];
    [121; 121; 3; (-1); 0; (-1); 0; 0];
    [122; 122; 3; (-1); 0; (-1); 0; 0];
    [123; 123; 3; (-1); 0; (-1); 0; 0];
    [124; 124; 3; (-1); 0; (-1); 0; 0];
    [125; 125; 3; (-1); 0; (-1); 0; 0];
    [126; 126; 3; (-1); 0; (-1); 0; 0];
    [127; 127; 3; (-1); 0; (-1); 0; 0];
    [128; 128; 4; (-1); 0; (-1); 0; 0];
    [129; 129; 4; (-1); 0; (-1); 0; 0];
    [130; 130; 4; (-1); 0; (-1); 0; 0];
    [131; 131; 4; (-1); 0; (-1); 0; 0];
    [132; 132; 4; (-1); 0; (-1); 0; 0];
    [133; 133; 4; (-1); 0; (-1); 0; 0];
    [134; 134; 4; (-1); 0; (-1); 0; 0];
    [135; 135; 4; (-1); 0; (-1); 0; 0];
    [136; 136; 4; (-1); 0; (-1); 0; 0];
    [137; 137; 4; (-1); 0; (-1); 0; 0];
    [138; 138; 4; (-1); 0; (-1); 0; 0];
    [139; 139; 4; (-1); 0; (-1); 0; 0];
    [140; 140; 4; (-1); 0; (-1); 0; 0];
    [141; 141; 4; (-1); 0; (-1); 0; 0];
    [142; 142; 4; (-1); 0; (-1); 0; 0];
    [143; 143; 4; (-1); 0; (-1); 0; 0];
    [144; 144; 4; (-1); 0; (-1); 0; 0];
    [145; 145; 4; (-1); 0; (-1); 0; 0];
    [146; 146; 4; (-1); 0; (-1); 0; 0];
    [147; 147; 4; (-1); 0; (-1); 0; 0];
    [148; 148; 4; (-1); 0; (-1); 0; 0];
    [149; 149; 4; (-1); 0; (-1); 0; 0];
    [150; 150; 4; (-1); 0; (-1); 0; 0];
    [151; 151; 4; (-1); 0; (-1); 0; 0];
    [152; 152; 4; (-1); 0; (-1); 0; 0];
    [153; 153; 4; (-1); 0; (-1); 0; 0];
    [154; 154; 4; (-1); 0; (-1); 0; 0];
    [155; 155; 4; (-1); 0; (-1); 0; 0];
    [156; 156; 4; (-1); 0; (-1); 0; 0];
    [157; 157; 4; (-1); 0; (-1); 0; 0];
    [158; 158; 4; (-1); 0; (-1); 0; 0];
    [159; 159; 4; (-1); 0; (-1); 0; 0]] 8 (qm 1 [[12; 12; 12; 12];
    [12; 12; 12; 12];
    [12; 12; 12; 12];
    [12; 12; 12; 12];
    [12; 12; 12; 12];
    [20; 20; 20; 20];
    [20; 20; 20; 20];
    [20; 20; 20; 20];
    [20; 20; 20; 20];
    [50; 50; 50; 50];
    [50; 50; 50; 50];
    [50; 50; 50; 50];
    [50; 50; 50; 50];
    [50; 50; 50; 50];
    [50; 50; 50; 50];
    [76; 76; 76; 76];
    [76; 76; 76; 76];
    [76; 76; 76; 76];
    [76; 76; 76; 76];
    [100; 100; 100; 100];
    [100; 100; 100; 100];
    [100; 100; 100; 100];
    [155; 155; 155; 155];
    [155; 155; 155; 155];
    [155; 155; 155; 155];
    [155; 155; 155; 155];
    [197; 197; 197; 197];
    [197; 197; 197; 197];
    [197; 197; 197; 197];
    [350; 350; 350; 350];
    [400; 400; 400; 400];
    [400; 400; 400; 400];
    [12; 12; 12; 12];
    [12; 12; 12; 12];
    [12; 12; 12; 12];
    [12; 12; 12; 12];
    [12; 12; 12; 12];
    [20; 20; 20; 20];
    [20; 20; 20; 20];
    [20; 20; 20; 20];
    [20; 20; 20; 20];
    [50; 50; 50; 50];
    [50; 50; 50; 50];
    [50; 50; 50; 50];
    [50; 50; 50; 50];
    [50; 50; 50; 50];
    [50; 50; 50; 50];
    [76; 76; 76; 76];
    [76; 76; 76; 76];
    [76; 76; 76; 76];
    [76; 76; 76; 76];
    [100; 100; 100; 100];
    [100; 100; 100; 100];
    [100; 100; 100; 100];
    [155; 155; 155; 155];
    [155; 155; 155; 155];
    [155; 155; 155; 155];
    [155; 155; 155; 155];
    [197; 197; 197; 197];
    [197; 197; 197; 197];
    [197; 197; 197; 197];
    [350; 350; 350; 350];
    [400; 400; 400; 400];
    [400; 400; 400; 400];
    [12; 12; 12; 12];
    [12; 12; 12; 12];
    [12; 12; 12; 12];
    [12; 12; 12; 12];
    [12; 12; 12; 12];
    [20; 20; 20; 20];
    [20; 20; 20; 20];
    [20; 20; 20; 20];
    [20; 20; 20; 20];
    [50; 50; 50; 50];
    [50; 50; 50; 50];
    [50; 50; 50; 50];
    [50; 50; 50; 50];
    [50; 50; 50; 50];
    [50; 50; 50; 50];
    [76; 76; 76; 76];
    [76; 76; 76; 76];
    [76; 76; 76; 76];
    [76; 76; 76; 76];
    [100; 100; 100; 100];
    [100; 100; 100; 100];
    [100; 100; 100; 100];
    [155; 155; 155; 155];
    [155; 155; 155; 155];
    [155; 155; 155; 155];
    [155; 155; 155; 155];
    [197; 197; 197; 197];
    [197; 197; 197; 197];
    [197; 197; 197; 197];
    [350; 350; 350; 350];
    [400; 400; 400; 400];
    [400; 400; 400; 400];
    [12; 12; 12; 12];
    [12; 12; 12; 12];
    [12; 12; 12; 12];
    [12; 12; 12; 12];
    [12; 12; 12; 12];
    [20; 20; 20; 20];
    [20; 20; 20; 20];
    [20; 20; 20; 20];
    [20; 20; 20; 20];
    [50; 50; 50; 50];
    [50; 50; 50; 50];
    [50; 50; 50; 50];
    [50; 50; 50; 50];
    [50; 50; 50; 50];
    [50; 50; 50; 50];
    [76; 76; 76; 76];
    [76; 76; 76; 76];
    [76; 76; 76; 76];
    [76; 76; 76; 76];
    [100; 100; 100; 100];
    [100; 100; 100; 100];
    [100; 100; 100; 100];
    [155; 155; 155; 155];
    [155; 155; 155; 155];
    [155; 155; 155; 155];
    [155; 155; 155; 155];
    [197; 197; 197; 197];
    [197; 197; 197; 197];
    [197; 197; 197; 197];
    [350; 350; 350; 350];
    [400; 400; 400; 400];
    [400; 400; 400; 400];
    [12; 12; 12; 12];
    [12; 12; 12; 12];
    [12; 12; 12; 12];
    [12; 12; 12; 12];
    [12; 12; 12; 12];
    [20; 20; 20; 20];
    [20; 20; 20; 20];
    [20; 20; 20; 20];
    [20; 20; 20; 20];
    [50; 50; 50; 50];
    [50; 50; 50; 50];
    [50; 50; 50; 50];
    [50; 50; 50; 50];
    [50; 50; 50; 50];
    [50; 50; 50; 50];
    [76; 76; 76; 76];
    [76; 76; 76; 76];
    [76; 76; 76; 76];
    [76; 76; 76; 76];
    [100; 100; 100; 100];
    [100; 100; 100; 100];
    [100; 100; 100; 100];
    [155; 155; 155; 155];
    [155; 155; 155; 155];
    [155; 155; 155; 155];
    [155; 155; 155; 155];
    [197; 197; 197; 197];
    [197; 197; 197; 197];
    [197; 197; 197; 197];
    [350; 350; 350; 350];
    [400; 400; 400; 400];
    [400; 400; 400; 400]])) (fun r => zmeq (fst r) [[0; 0; 0; (-1); 0; (-1); 0; 0];
    [1; 1; 0; (-1); 0; (-1); 0; 0];
    [2; 2; 0; (-1); 0; (-1); 0; 0];
    [3; 3; 0; (-1); 0; (-1); 0; 0];
    [4; 4; 0; (-1); 0; (-1); 0; 0];
    [5; 5; 0; (-1); 0; (-1); 0; 0];
    [6; 6; 0; (-1); 0; (-1); 0; 0];
    [7; 7; 0; (-1); 0; (-1); 0; 0];
    [8; 8; 0; (-1); 0; (-1); 0; 0];
    [9; 9; 0; (-1); 0; (-1); 0; 0];
    [10; 10; 0; (-1); 0; (-1); 0; 0];
    [11; 11; 0; (-1); 0; (-1); 0; 0];
    [12; 12; 0; (-1); 0; (-1); 0; 0];
    [13; 13; 0; (-1); 0; (-1); 0; 0];
    [14; 14; 0; (-1); 0; (-1); 0; 0];
    [15; 15; 0; (-1); 0; (-1); 0; 0];
    [16; 16; 0; (-1); 0; (-1); 0; 0];
    [17; 17; 0; (-1); 0; (-1); 0; 0];
    [18; 18; 0; (-1); 0; (-1); 0; 0];
    [19; 19; 0; (-1); 0; (-1); 0; 0];
    [20; 20; 0; (-1); 0; (-1); 0; 0];
    [21; 21; 0; (-1); 0; (-1); 0; 0];
    [22; 22; 0; (-1); 0; (-1); 0; 0];
    [23; 23; 0; (-1); 0; (-1); 0; 0];
    [24; 24; 0; (-1); 0; (-1); 0; 0];
    [25; 25; 0; (-1); 0; (-1); 0; 0];
    [26; 26; 0; (-1); 0; (-1); 0; 0];
    [27; 27; 0; (-1); 0; (-1); 0; 0];
    [28; 28; 0; (-1); 0; (-1); 0; 0];
    [29; 29; 0; (-1); 0; (-1); 0; 0];
    [30; 30; 0; (-1); 0; (-1); 0; 0];
    [31; 31; 0; (-1); 0; (-1); 0; 0];
    [32; 32; 1; (-1); 0; (-1); 0; 0];
    [33; 33; 1; (-1); 0; (-1); 0; 0];
    [34; 34; 1; (-1); 0; (-1); 0; 0];
    [35; 35; 1; (-1); 0; (-1); 0; 0];
    [36; 36; 1; (-1); 0; (-1); 0; 0];
    [37; 37; 1; (-1); 0; (-1); 0; 0];
    [38; 38; 1; (-1); 0; (-1); 0; 0];
    [39; 39; 1; (-1); 0; (-1); 0; 0];
    [40; 40; 1; (-1); 0; (-1); 0; 0];
    [41; 41; 1; (-1); 0; (-1); 0; 0];
    [42; 42; 1; (-1); 0; (-1); 0; 0];
    [43; 43; 1; (-1); 0; (-1); 0; 0];
    [44; 44; 1; (-1); 0; (-1); 0; 0];
    [45; 45; 1; (-1); 0; (-1); 0; 0];
    [46; 46; 1; (-1); 0; (-1); 0; 0];
    [47; 47; 1; (-1); 0; (-1); 0; 0];
    [48; 48; 1; (-1); 0; (-1); 0; 0];
    [49; 49; 1; (-1); 0; (-1); 0; 0];
    [50; 50; 1; (-1); 0; (-1); 0; 0];
    [51; 51; 1; (-1); 0; (-1); 0; 0];
    [52; 52; 1; (-1); 0; (-1); 0; 0];
    [53; 53; 1; (-1); 0; (-1); 0; 0];
    [54; 54; 1; (-1); 0; (-1); 0; 0];
    [55; 55; 1; (-1); 0; (-1); 0; 0];
    [56; 56; 1; (-1); 0; (-1); 0; 0];
    [57; 57; 1; (-1); 0; (-1); 0; 0];
    [58; 58; 1; (-1); 0; (-1); 0; 0];
    [59; 59; 1; (-1); 0; (-1); 0; 0];
    [60; 60; 1; (-1); 0; (-1); 0; 0];
    [61; 61; 1; (-1); 0; (-1); 0; 0];
    [62; 62; 1; (-1); 0; (-1); 0; 0];
    [63; 63; 1; (-1); 0; (-1); 0; 0];
    [64; 64; 2; (-1); 0; (-1); 0; 0];
    [65; 65; 2; (-1); 0; (-1); 0; 0];
    [66; 66; 2; (-1); 0; (-1); 0; 0];
    [67; 67; 2; (-1); 0; (-1); 0; 0];
    [68; 68; 2; (-1); 0; (-1); 0; 0];
    [69; 69; 2; (-1); 0; (-1); 0; 0];
    [70; 70; 2; (-1); 0; (-1); 0; 0];
    [71; 71; 2; (-1); 0; (-1); 0; 0];
    [72; 72; 2; (-1); 0; (-1); 0; 0];
    [73; 73; 2; (-1); 0; (-1); 0; 0];
    [74; 74; 2; (-1); 0; (-1); 0; 0];
    [75; 75; 2; (-1); 0; (-1); 0; 0];
    [76; 76; 2; (-1); 0; (-1); 0; 0];
    [77; 77; 2; (-1); 0; (-1); 0; 0];
    [78; 78; 2; (-1); 0; (-1); 0; 0];
    [79; 79; 2; (-1); 0; (-1); 0; 0];
    [80; 80; 2; (-1); 0; (-1); 0; 0];
    [81; 81; 2; (-1); 0; (-1); 0; 0];
    [82; 82; 2; (-1); 0; (-1); 0; 0];
    [83; 83; 2; (-1); 0; (-1); 0; 0];
    [84; 84; 2; (-1); 0; (-1); 0; 0];
    [85; 85; 2; (-1); 0; (-1); 0; 0];
    [86; 86; 2; (-1); 0; (-1); 0; 0];
    [87; 87; 2; (-1); 0; (-1); 0; 0];
    [88; 88; 2; (-1); 0; (-1); 0; 0];
    [89; 89; 2; (-1); 0; (-1); 0; 0];
    [90; 90; 2; (-1); 0; (-1); 0; 0];
    [91; 91; 2; (-1); 0; (-1); 0; 0];
    [92; 92; 2; (-1); 0; (-1); 0; 0];
    [93; 93; 2; (-1); 0; (-1); 0; 0];
    [94; 94; 2; (-1); 0; (-1); 0; 0];
    [95; 95; 2; (-1); 0; (-1); 0; 0];
    [96; 96; 3; (-1); 0; (-1); 0; 0];
    [97; 97; 3; (-1); 0; (-1); 0; 0];
    [98; 98; 3; (-1); 0; (-1); 0; 0];
    [99; 99; 3; (-1); 0; (-1); 0; 0];
    [100; 100; 3; (-1); 0; (-1); 0; 0];
    [101; 101; 3; (-1); 0; (-1); 0; 0];
    [102; 102; 3; (-1); 0; (-1); 0; 0];
    [103; 103; 3; (-1); 0; (-1); 0; 0];
    [104; 104; 3; (-1); 0; (-1); 0; 0];
    [105; 105; 3; (-1); 0; (-1); 0; 0];
    [106; 106; 3; (-1); 0; (-1); 0; 0];
    [107; 107; 3; (-1); 0; (-1); 0; 0];
    [108; 108; 3; (-1); 0; (-1); 0; 0];
    [109; 109; 3; (-1); 0; (-1); 0; 0];
    [110; 110; 3; (-1); 0; (-1); 0; 0];
    [111; 111; 3; (-1); 0; (-1); 0; 0];
    [112; 112; 3; (-1); 0; (-1); 0; 0];
    [113; 113; 3; (-1); 0; (-1); 0; 0];
    [114; 114; 3; (-1); 0; (-1); 0; 0];
    [115; 115; 3; (-1); 0; (-1); 0; 0];
    [116; 116; 3; (-1); 0; (-1); 0; 0];
    [117; 117; 3; (-1); 0; (-1); 0; 0];
    [118; 118; 3; (-1); 0; (-1); 0; 0];
    [119; 119; 3; (-1); 0; (-1); 0; 0];
    [120; 120; 3; (-1); 0; (-1); 0; 0];
    [121; 121; 3; (-1); 0; (-1); 0; 0];
    [122; 122; 3; (-1); 0; (-1); 0; 0];
    [123; 123; 3; (-1); 0; (-1); 0; 0];
    [124; 124; 3; (-1); 0; (-1); 0; 0];
    [125; 125; 3; (-1); 0; (-1); 0; 0];
    [126; 126; 3; (-1); 0; (-1); 0; 0];
    [127; 127; 3; (-1); 0; (-1); 0; 0];
    [128; 128; 4; (-1); 0; (-1); 0; 0];
    [129; 129; 4; (-1); 0; (-1); 0; 0];
    [130; 130; 4; (-1); 0; (-1); 0; 0];
    [131; 131; 4; (-1); 0; (-1); 0; 0];
    [132; 132; 4; (-1); 0; (-1); 0; 0];
    [133; 133; 4; (-1); 0; (-1); 0; 0];
    [134; 134; 4; (-1); 0; (-1); 0; 0];
    [135; 135; 4; (-1); 0; (-1); 0; 0];
    [136; 136; 4; (-1); 0; (-1); 0; 0];
    [137; 137; 4; (-1); 0; (-1); 0; 0];
    [138; 138; 4; (-1); 0; (-1); 0; 0];
    [139; 139; 4; (-1); 0; (-1); 0; 0];
    [140; 140; 4; (-1); 0; (-1); 0; 0];
    [141; 141; 4; (-1); 0; (-1); 0; 0];
    [142; 142; 4; (-1); 0; (-1); 0; 0];
    [143; 143; 4; (-1); 0; (-1); 0; 0];
    [144; 144; 4; (-1); 0; (-1); 0; 0];
    [145; 145; 4; (-1); 0; (-1); 0; 0];
    [146; 146; 4; (-1); 0; (-1); 0; 0];
    [147; 147; 4; (-1); 0; (-1); 0; 0];
    [148; 148; 4; (-1); 0; (-1); 0; 0];
    [149; 149; 4; (-1); 0; (-1); 0; 0];
    [150; 150; 4; (-1); 0; (-1); 0; 0];
    [151; 151; 4; (-1); 0; (-1); 0; 0];
    [152; 152; 4; (-1); 0; (-1); 0; 0];
    [153; 153; 4; (-1); 0; (-1); 0; 0];
    [154; 154; 4; (-1); 0; (-1); 0; 0];
    [155; 155; 4; (-1); 0; (-1); 0; 0];
    [156; 156; 4; (-1); 0; (-1); 0; 0];
    [157; 157; 4; (-1); 0; (-1); 0; 0];
    [158; 158; 4; (-1); 0; (-1); 0; 0];
    [159; 159; 4; (-1); 0; (-1); 0; 0]] && (snd r =? 9)) = true.
Proof. vm_compute; reflexivity. Qed.
Example pmsc_4 : okd (pmsc0 3 [[0; 0; 0; (-1); 0; (-1); 0; 0];
    [1; 1; 0; (-1); 0; (-1); 0; 0];
    [2; 2; 0; (-1); 0; (-1); 0; 0];
    [3; 3; 0; (-1); 0; (-1); 0; 0];
    [4; 4; 0; (-1); 0; (-1); 0; 0];
    [5; 5; 0; (-1); 0; (-1); 0; 0];
    [6; 6; 0; (-1); 0; (-1); 0; 0];
    [7; 7; 0; (-1); 0; (-1); 0; 0];
    [8; 8; 0; (-1); 0; (-1); 0; 0];
    [9; 9; 0; (-1); 0; (-1); 0; 0];
    [10; 10; 0; (-1); 0; (-1); 0; 0];
    [11; 11; 0; (-1); 0; (-1); 0; 0];
    [12; 12; 0; (-1); 0; (-1); 0; 0];
    [13; 13; 0; (-1); 0; (-1); 0; 0];
    [14; 14; 0; (-1); 0; (-1); 0; 0];
    [15; 15; 0; (-1); 0; (-1); 0; 0];
    [16; 16; 0; (-1); 0; (-1); 0; 0];
    [17; 17; 0; (-1); 0; (-1); 0; 0];
    [18; 18; 0; (-1); 0; (-1); 0; 0];
    [19; 19; 0; (-1); 0; (-1); 0; 0];
    [20; 20; 0; (-1); 0; (-1); 0; 0];
    [21; 21; 0; (-1); 0; (-1); 0; 0];
    [22; 22; 0; (-1); 0; (-1); 0; 0];
    [23; 23; 0; (-1); 0; (-1); 0; 0];
    [24; 24; 0; (-1); 0; (-1); 0; 0];
    [25; 25; 0; (-1); 0; (-1); 0; 0];
    [26; 26; 0; (-1); 0; (-1); 0; 0];
    [27; 27; 0; (-1); 0; (-1); 0; 0];
    [28; 28; 0; (-1); 0; (-1); 0; 0];
    [29; 29; 0; (-1); 0; (-1); 0; 0];
    [30; 30; 0; (-1); 0; (-1); 0; 0];
    [31; 31; 0; (-1); 0; (-1); 0; 0];
    [32; 32; 1; (-1); 0; (-1); 0; 0];
    [33; 33; 1; (-1); 0; (-1); 0; 0];
    [34; 34; 1; (-1); 0; (-1); 0; 0];
    [35; 35; 1; (-1); 0; (-1); 0; 0];
    [36; 36; 1; (-1); 0; (-1); 0; 0];
    [37; 37; 1; (-1); 0; (-1); 0; 0];
    [38; 38; 1; (-1); 0; (-1); 0; 0];
    [39; 39; 1; (-1); 0; (-1); 0; 0];
    [40; 40; 1; (-1); 0; (-1); 0; 0];
    [41; 41; 1; (-1); 0; (-1); 0; 0];
    [42; 42; 1; (-1); 0; (-1); 0; 0];
    [43; 43; 1; (-1); 0; (-1); 0; 0];
    [44; 44; 1; (-1); 0; (-1); 0; 0];
    [45; 45; 1; (-1); 0; (-1); 0; 0];
    [46; 46; 1; (-1); 0; (-1); 0; 0];
    [47; 47; 1; (-1); 0; (-1); 0; 0];
    [48; 48; 1; (-1); 0; (-1); 0; 0];
    [49; 49; 1; (-1); 0; (-1); 0; 0];
    [50; 50; 1; (-1); 0; (-1); 0; 0];
    [51; 51; 1; (-1); 0; (-1); 0; 0];
    [52; 52; 1; (-1); 0; (-1); 0; 0];
    [53; 53; 1; (-1); 0; (-1); 0; 0];
    [54; 54; 1; (-1); 0; (-1); 0; 0];
    [55; 55; 1; (-1); 0; (-1); 0; 0];
    [56; 56; 1; (-1); 0; (-1); 0; 0];
    [57; 57; 1; (-1); 0; (-1); 0; 0];
    [58; 58; 1; (-1); 0; (-1); 0; 0];
    [59; 59; 1; (-1); 0; (-1); 0; 0];
    [60; 60; 1; (-1); 0; (-1); 0; 0];
    [61; 61; 1; (-1); 0; (-1); 0; 0];
    [62; 62; 1; (-1); 0; (-1); 0; 0];
    [63; 63; 1; (-1); 0; (-1); 0; 0];
    [64; 64; 2; (-1); 0; (-1); 0; 0];
    [65; 65; 2; (-1); 0; (-1); 0; 0];
    [66; 66; 2; (-1); 0; (-1); 0; 0];
    [67; 67; 2; (-1); 0; (-1); 0; 0];
    [68; 68; 2; (-1); 0; (-1); 0; 0];
    [69; 69; 2; (-1); 0; (-1); 0; 0];
    [70; 70; 2; (-1); 0; (-1); 0; 0];
    [71; 71; 2; (-1); 0; (-1); 0; 0];
    [72; 72; 2; (-1); 0; (-1); 0; 0];
    [73; 73; 2; (-1); 0; (-1); 0; 0];
    [74; 74; 2; (-1); 0; (-1); 0; 0];
    [75; 75; 2; (-1); 0; (-1); 0; 0];
    [76; 76; 2; (-1); 0; (-1); 0; 0];
    [77; 77; 2; (-1); 0; (-1); 0; 0];
    [78; 78; 2; (-1); 0; (-1); 0; 0];
    [79; 79; 2; (-1); 0; (-1); 0; 0];
    [80; 80; 2; (-1); 0; (-1); 0; 0];
    [81; 81; 2; (-1); 0; (-1); 0; 0];
    [82; 82; 2; (-1); 0; (-1); 0; 0];
    [83; 83; 2; (-1); 0; (-1); 0; 0];
    [84; 84; 2; (-1); 0; (-1); 0; 0];
    [85; 85; 2; (-1); 0; (-1); 0; 0];
    [86; 86; 2; (-1); 0; (-1); 0; 0];
    [87; 87; 2; (-1); 0; (-1); 0; 0];
    [88; 88; 2; (-1); 0; (-1); 0; 0];
    [89; 89; 2; (-1); 0; (-1); 0; 0];
    [90; 90; 2; (-1); 0; (-1); 0; 0];
    [91; 91; 2; (-1); 0; (-1); 0; 0];
    [92; 92; 2; (-1); 0; (-1); 0; 0];
    [93; 93; 2; (-1); 0; (-1); 0; 0];
    [94; 94; 2; (-1); 0; (-1); 0; 0];
    [95; 95; 2; (-1); 0; (-1); 0; 0];
    [96; 96; 3; (-1); 0; (-1); 0; 0];
    [97; 97; 3; (-1); 0; (-1); 0; 0];
    [98; 98; 3; (-1); 0; (-1); 0; 0];
    [99; 99; 3; (-1); 0; (-1); 0; 0];
    [100; 100; 3; (-1); 0; (-1); 0; 0];
    [101; 101; 3; (-1); 0; (-1); 0; 0];
    [102; 102; 3; (-1); 0; (-1); 0; 0];
    [103; 103; 3; (-1); 0; (-1); 0; 0];
    [104; 104; 3; (-1); 0; (-1); 0; 0];
    [105; 105; 3; (-1); 0; (-1); 0; 0];
    [106; 106; 3; (-1); 0; (-1); 0; 0];
    [107; 107; 3; (-1); 0; (-1); 0; 0];
    [108; 108; 3; (-1); 0; (-1); 0; 0];
    [109; 109; 3; (-1); 0; (-1); 0; 0];
    [110; 110; 3; (-1); 0; (-1); 0; 0];
    [111; 111; 3; (-1); 0; (-1); 0; 0];
    [112; 112; 3; (-1); 0; (-1); 0; 0];
    [113; 113; 3; (-1); 0; (-1); 0; 0];
    [114; 114; 3; (-1); 0; (-1); 0; 0];
    [115; 115; 3; (-1); 0; (-1); 0; 0];
    [116; 116; 3; (-1); 0; (-1); 0; 0];
    [117; 117; 3; (-1); 0; (-1); 0; 0];
    [118; 118; 3; (-1); 0; (-1); 0; 0];
    [119; 119; 3; (-1); 0; (-1); 0; 0];
    [120; 120; 3; (-1); 0; (-1); 0; 0];
    [121; 121; 3; (-1); 0; (-1); 0; 0];
    [122; 122; 3; (-1); 0; (-1); 0; 0];
    [123; 123; 3; (-1); 0; (-1); 0; 0];
    [124; 124; 3; (-1); 0; (-1); 0; 0];
    [125; 125; 3; (-1); 0; (-1); 0; 0];
    [126; 126; 3; (-1); 0; (-1); 0; 0];
    [127; 127; 3; (-1); 0; (-1); 0; 0];
    [128; 128; 4; (-1); 0; (-1); 0; 0];
    [129; 129; 4; (-1); 0; (-1); 0; 0];
    [130; 130; 4; (-1); 0; (-1); 0; 0];
    [131; 131; 4; (-1); 0; (-1); 0; 0];
    [132; 132; 4; (-1); 0; (-1); 0; 0];
    [133; 133; 4; (-1); 0; (-1); 0; 0];
    [134; 134; 4; (-1); 0; (-1); 0; 0];
    [135; 135; 4; (-1); 0; (-1); 0; 0];
    [136; 136; 4; (-1); 0; (-1); 0; 0];
    [137; 137; 4; (-1); 0; (-1); 0; 0];
    [138; 138; 4; (-1); 0; (-1); 0; 0];
    [139; 139; 4; (-1); 0; (-1); 0; 0];
    [140; 140; 4; (-1); 0; (-1); 0; 0];
    [141; 141; 4; (-1); 0; (-1); 0; 0];
    [142; 142; 4; (-1); 0; (-1); 0; 0];
    [143; 143; 4; (-1); 0; (-1); 0; 0];
    [144; 144; 4; (-1); 0; (-1); 0; 0];
    [145; 145; 4; (-1); 0; (-1); 0; 0];
    [146; 146; 4; (-1); 0; (-1); 0; 0];
    [147; 147; 4; (-1); 0; (-1); 0; 0];
    [148; 148; 4; (-1); 0; (-1); 0; 0];
    [149; 149; 4; (-1); 0; (-1); 0; 0];
    [150; 150; 4; (-1); 0; (-1); 0; 0];
    [151; 151; 4; (-1); 0; (-1); 0; 0];
    [152; 152; 4; (-1); 0; (-1); 0; 0];
    [153; 153; 4; (-1); 0; (-1); 0; 0];
    [154; 154; 4; (-1); 0; (-1); 0; 0];
    [155; 155; 4; (-1); 0; (-1); 0; 0];
    [156; 156; 4; (-1); 0; (-1); 0; 0];
    [157; 157; 4; (-1); 0; (-1); 0; 0];
    [158; 158; 4; (-1); 0; (-1); 0; 0];
    [159; 159; 4; (-1); 0; (-1); 0; 0]] 9 (qm 1 [[12; 12; 12; 12];
    [12; 12; 12; 12];
    [12; 12; 12; 12];
    [12; 12; 12; 12];
    [12; 12; 12; 12];
    [20; 20; 20; 20];
    [20; 20; 20; 20];
    [20; 20; 20; 20];
    [20; 20; 20; 20];
    [50; 50; 50; 50];
    [50; 50; 50; 50];
    [50; 50; 50; 50];
    [50; 50; 50; 50];
    [50; 50; 50; 50];
    [50; 50; 50; 50];
    [76; 76; 76; 76];
    [76; 76; 76; 76];
    [76; 76; 76; 76];
    [76; 76; 76; 76];
    [100; 100; 100; 100];
    [100; 100; 100; 100];
    [100; 100; 100; 100];
    [155; 155; 155; 155];
    [155; 155; 155; 155];
    [155; 155; 155; 155];
    [155; 155; 155; 155];
    [197; 197; 197; 197];
    [197; 197; 197; 197];
    [197; 197; 197; 197];
    [350; 350; 350; 350];
    [400; 400; 400; 400];
    [400; 400; 400; 400];
    [12; 12; 12; 12];
    [12; 12; 12; 12];
    [12; 12; 12; 12];
    [12; 12; 12; 12];
    [12; 12; 12; 12];
    [20; 20; 20; 20];
    [20; 20; 20; 20];
    [20; 20; 20; 20];
    [20; 20; 20; 20];
    [50; 50; 50; 50];
    [50; 50; 50; 50];
    [50; 50; 50; 50];
    [50; 50; 50; 50];
    [50; 50; 50; 50];
    [50; 50; 50; 50];
    [76; 76; 76; 76];
    [76; 76; 76; 76];
    [76; 76; 76; 76];
    [76; 76; 76; 76];
    [100; 100; 100; 100];
    [100; 100; 100; 100];
    [100; 100; 100; 100];
    [155; 155; 155; 155];
    [155; 155; 155; 155];
    [155; 155; 155; 155];
    [155; 155; 155; 155];
    [197; 197; 197; 197];
    [197; 197; 197; 197];
    [197; 197; 197; 197];
    [350; 350; 350; 350];
    [400; 400; 400; 400];
    [400; 400; 400; 400];
    [12; 12; 12; 12];
    [12; 12; 12; 12];
    [12; 12; 12; 12];
    [12; 12; 12; 12];
    [12; 12; 12; 12];
    [20; 20; 20; 20];
    [20; 20; 20; 20];
    [20; 20; 20; 20];
    [20; 20; 20; 20];
    [50; 50; 50; 50];
    [50; 50; 50; 50];
    [50; 50; 50; 50];
    [50; 50; 50; 50];
    [50; 50; 50; 50];
    [50; 50; 50; 50];
    [76; 76; 76; 76];
    [76; 76; 76; 76];
    [76; 76; 76; 76];
    [76; 76; 76; 76];
    [100; 100; 100; 100];
    [100; 100; 100; 100];
    [100; 100; 100; 100];
    [155; 155; 155; 155];
    [155; 155; 155; 155];
    [155; 155; 155; 155];
    [155; 155; 155; 155];
    [197; 197; 197; 197];
    [197; 197; 197; 197];
    [197; 197; 197; 197];
    [350; 350; 350; 350];
    [400; 400; 400; 400];
    [400; 400; 400; 400];
    [12; 12; 12; 12];
    [12; 12; 12; 12];
    [12; 12; 12; 12];
    [12; 12; 12; 12];
    [12; 12; 12; 12];
    [20; 20; 20; 20];
    [20; 20; 20; 20];
    [20; 20; 20; 20];
    [20; 20; 20; 20];
    [50; 50; 50; 50];
    [50; 50; 50; 50];
    [50; 50; 50; 50];
    [50; 50; 50; 50];
    [50; 50; 50; 50];
    [50; 50; 50; 50];
    [76; 76; 76; 76];
    [76; 76; 76; 76];
    [76; 76; 76; 76];
    [76; 76; 76; 76];
    [100; 100; 100; 100];
    [100; 100; 100; 100];
    [100; 100; 100; 100];
    [155; 155; 155; 155];
    [155; 155; 155; 155];
    [155; 155; 155; 155];
    [155; 155; 155; 155];
    [197; 197; 197; 197];
    [197; 197; 197; 197];
    [197; 197; 197; 197];
    [350; 350; 350; 350];
    [400; 400; 400; 400];
    [400; 400; 400; 400];
    [12; 12; 12; 12];
    [12; 12; 12; 12];
    [12; 12; 12; 12];
    [12; 12; 12; 12];
    [12; 12; 12; 12];
    [20; 20; 20; 20];
    [20; 20; 20; 20];
    [20; 20; 20; 20];
    [20; 20; 20; 20];
    [50; 50; 50; 50];
    [50; 50; 50; 50];
    [50; 50; 50; 50];
    [50; 50; 50; 50];
    [50; 50; 50; 50];
    [50; 50; 50; 50];
    [76; 76; 76; 76];
    [76; 76; 76; 76];
    [76; 76; 76; 76];
    [76; 76; 76; 76];
    [100; 100; 100; 100];
    [100; 100; 100; 100];
    [100; 100; 100; 100];
    [155; 155; 155; 155];
    [155; 155; 155; 155];
    [155; 155; 155; 155];
    [155; 155; 155; 155];
    [197; 197; 197; 197];
    [197; 197; 197; 197];
    [197; 197; 197; 197];
    [350; 350; 350; 350];
    [400; 400; 400; 400];
    [400; 400; 400; 400]])) (fun r => zmeq (fst r) [[0; 0; 0; (-1); 0; (-1); 0; 0];
    [1; 1; 0; (-1); 0; (-1); 0; 0];
    [2; 2; 0; (-1); 0; (-1); 0; 0];
    [3; 3; 0; (-1); 0; (-1); 0; 0];
    [4; 4; 0; (-1); 0; (-1); 0; 0];
    [5; 5; 0; (-1); 0; (-1); 0; 0];
    [6; 6; 0; (-1); 0; (-1); 0; 0];
    [7; 7; 0; (-1); 0; (-1); 0; 0];
    [8; 8; 0; (-1); 0; (-1); 0; 0];
    [9; 9; 0; (-1); 0; (-1); 0; 0];
    [10; 10; 0; (-1); 0; (-1); 0; 0];
    [11; 11; 0; (-1); 0; (-1); 0; 0];
    [12; 12; 0; (-1); 0; (-1); 0; 0];
    [13; 13; 0; (-1); 0; (-1); 0; 0];
    [14; 14; 0; (-1); 0; (-1); 0; 0];
    [15; 15; 0; (-1); 0; (-1); 0; 0];
    [16; 16; 0; (-1); 0; (-1); 0; 0];
    [17; 17; 0; (-1); 0; (-1); 0; 0];
    [18; 18; 0; (-1); 0; (-1); 0; 0];
    [19; 19; 0; (-1); 0; (-1); 0; 0];
    [20; 20; 0; (-1); 0; (-1); 0; 0];
    [21; 21; 0; (-1); 0; (-1); 0; 0];
    [22; 22; 0; (-1); 0; (-1); 0; 0];
    [23; 23; 0; (-1); 0; (-1); 0; 0];
    [24; 24; 0; (-1); 0; (-1); 0; 0];
    [25; 25; 0; (-1); 0; (-1); 0; 0];
    [26; 26; 0; (-1); 0; (-1); 0; 0];
    [27; 27; 0; (-1); 0; (-1); 0; 0];
    [28; 28; 0; (-1); 0; (-1); 0; 0];
    [29; 29; 0; (-1); 0; (-1); 0; 0];
    [30; 30; 0; (-1); 0; (-1); 0; 0];
    [31; 31; 0; (-1); 0; (-1); 0; 0];
    [32; 32; 1; (-1); 0; (-1); 0; 0];
    [33; 33; 1; (-1); 0; (-1); 0; 0];
    [34; 34; 1; (-1); 0; (-1); 0; 0];
    [35; 35; 1; (-1); 0; (-1); 0; 0];
    [36; 36; 1; (-1); 0; (-1); 0; 0];
    [37; 37; 1; (-1); 0; (-1); 0; 0];
    [38; 38; 1; (-1); 0; (-1); 0; 0];
    [39; 39; 1; (-1); 0; (-1); 0; 0];
    [40; 40; 1; (-1); 0; (-1); 0; 0];
    [41; 41; 1; (-1); 0; (-1); 0; 0];
    [42; 42; 1; (-1); 0; (-1); 0; 0];
    [43; 43; 1; (-1); 0; (-1); 0; 0];
    [44; 44; 1; (-1); 0; (-1); 0; 0];
    [45; 45; 1; (-1); 0; (-1); 0; 0];
    [46; 46; 1; (-1); 0; (-1); 0; 0];
    [47; 47; 1; (-1); 0; (-1); 0; 0];
    [48; 48; 1; (-1); 0; (-1); 0; 0];
    [49; 49; 1; (-1); 0; (-1); 0; 0];
    [50; 50; 1; (-1); 0; (-1); 0; 0];
    [51; 51; 1; (-1); 0; (-1); 0; 0];
    [52; 52; 1; (-1); 0; (-1); 0; 0];
    [53; 53; 1; (-1); 0; (-1); 0; 0];
    [54; 54; 1; (-1); 0; (-1); 0; 0];
    [55; 55; 1; (-1); 0; (-1); 0; 0];
    [56; 56; 1; (-1); 0; (-1); 0; 0];
    [57; 57; 1; (-1); 0; (-1); 0; 0];
    [58; 58; 1; (-1); 0; (-1); 0; 0];
    [59; 59; 1; (-1); 0; (-1); 0; 0];
    [60; 60; 1; (-1); 0; (-1); 0; 0];
    [61; 61; 1; (-1); 0; (-1); 0; 0];
    [62; 62; 1; (-1); 0; (-1); 0; 0];
    [63; 63; 1; (-1); 0; (-1); 0; 0];
    [64; 64; 2; (-1); 0; (-1); 0; 0];
    [65; 65; 2; (-1); 0; (-1); 0; 0];
    [66; 66; 2; (-1); 0; (-1); 0; 0];
    [67; 67; 2; (-1); 0; (-1); 0; 0];
    [68; 68; 2; (-1); 0; (-1); 0; 0];
    [69; 69; 2; (-1); 0; (-1); 0; 0];
    [70; 70; 2; (-1); 0; (-1); 0; 0];
    [71; 71; 2; (-1); 0; (-1); 0; 0];
    [72; 72; 2; (-1); 0; (-1); 0; 0];
    [73; 73; 2; (-1); 0; (-1); 0; 0];
    [74; 74; 2; (-1); 0; (-1); 0; 0];
    [75; 75; 2; (-1); 0; (-1); 0; 0];
    [76; 76; 2; (-1); 0; (-1); 0; 0];
    [77; 77; 2; (-1); 0; (-1); 0; 0];
    [78; 78; 2; (-1); 0; (-1); 0; 0];
    [79; 79; 2; (-1); 0; (-1); 0; 0];
    [80; 80; 2; (-1); 0; (-1); 0; 0];
    [81; 81; 2; (-1); 0; (-1); 0; 0];
    [82; 82; 2; (-1); 0; (-1); 0; 0];
    [83; 83; 2; (-1); 0; (-1); 0; 0];
    [84; 84; 2; (-1); 0; (-1); 0; 0];
    [85; 85; 2; (-1); 0; (-1); 0; 0];
    [86; 86; 2; (-1); 0; (-1); 0; 0];
    [87; 87; 2; (-1); 0; (-1); 0; 0];
    [88; 88; 2; (-1); 0; (-1); 0; 0];
    [89; 89; 2; (-1); 0; (-1); 0; 0];
    [90; 90; 2; (-1); 0; (-1); 0; 0];
    [91; 91; 2; (-1); 0; (-1); 0; 0];
    [92; 92; 2; (-1); 0; (-1); 0; 0];
    [93; 93; 2; (-1); 0; (-1); 0; 0];
    [94; 94; 2; (-1); 0; (-1); 0; 0];
    [95; 95; 2; (-1); 0; (-1); 0; 0];
    [96; 96; 3; (-1); 0; (-1); 0; 0];
    [97; 97; 3; (-1); 0; (-1); 0; 0];
    [98; 98; 3; (-1); 0; (-1); 0; 0];
    [99; 99; 3; (-1); 0; (-1); 0; 0];
    [100; 100; 3; (-1); 0; (-1); 0; 0];
    [101; 101; 3; (-1); 0; (-1); 0; 0];
    [102; 102; 3; (-1); 0; (-1); 0; 0];
    [103; 103; 3; (-1); 0; (-1); 0; 0];
    [104; 104; 3; (-1); 0; (-1); 0; 0];
    [105; 105; 3; (-1); 0; (-1); 0; 0];
    [106; 106; 3; (-1); 0; (-1); 0; 0];
    [107; 107; 3; (-1); 0; (-1); 0; 0];
    [108; 108; 3; (-1); 0; (-1); 0; 0];
    [109; 109; 3; (-1); 0; (-1); 0; 0];
    [110; 110; 3; (-1); 0; (-1); 0; 0];
    [111; 111; 3; (-1); 0; (-1); 0; 0];
    [112; 112; 3; (-1); 0; (-1); 0; 0];
    [113; 113; 3; (-1); 0; (-1); 0; 0];
    [114; 114; 3; (-1); 0; (-1); 0; 0];
    [115; 115; 3; (-1); 0; (-1); 0; 0];
    [116; 116; 3; (-1); 0; (-1); 0; 0];
    [117; 117; 3; (-1); 0; (-1); 0; 0];
    [118; 118; 3; (-1); 0; (-1); 0; 0];
    [119; 119; 3; (-1); 0; (-1); 0; 0];
    [120; 120; 3; (-1); 0; (-1); 0; 0];
    [121; 121; 3; (-1); 0; (-1); 0; 0];
    [122; 122; 3; (-1); 0; (-1); 0; 0];
    [123; 123; 3; (-1); 0; (-1); 0; 0];
    [124; 124; 3; (-1); 0; (-1); 0; 0];
    [125; 125; 3; (-1); 0; (-1); 0; 0];
    [126; 126; 3; (-1); 0; (-1); 0; 0];
    [127; 127; 3; (-1); 0; (-1); 0; 0];
    [128; 128; 4; (-1); 0; (-1); 0; 0];
    [129; 129; 4; (-1); 0; (-1); 0; 0];
    [130; 130; 4; (-1); 0; (-1); 0; 0];
    [131; 131; 4; (-1); 0; (-1); 0; 0];
    [132; 132; 4; (-1); 0; (-1); 0; 0];
    [133; 133; 4; (-1); 0; (-1); 0; 0];
    [134; 134; 4; (-1); 0; (-1); 0; 0];
    [135; 135; 4; (-1); 0; (-1); 0; 0];
    [136; 136; 4; (-1); 0; (-1); 0; 0];
    [137; 137; 4; (-1); 0; (-1); 0; 0];
    [138; 138; 4; (-1); 0; (-1); 0; 0];
    [139; 139; 4; (-1); 0; (-1); 0; 0];
    [140; 140; 4; (-1); 0; (-1); 0; 0];
    [141; 141; 4; (-1); 0; (-1); 0; 0];
    [142; 142; 4; (-1); 0; (-1); 0; 0];
    [143; 143; 4; (-1); 0; (-1); 0; 0];
    [144; 144; 4; (-1); 0; (-1); 0; 0];
    [145; 145; 4; (-1); 0; (-1); 0; 0];
    [146; 146; 4; (-1); 0; (-1); 0; 0];
    [147; 147; 4; (-1); 0; (-1); 0; 0];
    [148; 148; 4; (-1); 0; (-1); 0; 0];
    [149; 149; 4; (-1); 0; (-1); 0; 0];
    [150; 150; 4; (-1); 0; (-1); 0; 0];
    [151; 151; 4; (-1); 0; (-1); 0; 0];
    [152; 152; 4; (-1); 0; (-1); 0; 0];
    [153; 153; 4; (-1); 0; (-1); 0; 0];
    [154; 154; 4; (-1); 0; (-1); 0; 0];
    [155; 155; 4; (-1); 0; (-1); 0; 0];
    [156; 156; 4; (-1); 0; (-1); 0; 0];
    [157; 157; 4; (-1); 0; (-1); 0; 0];
    [158; 158; 4; (-1); 0; (-1); 0; 0];
    [159; 159; 4; (-1); 0; (-1); 0; 0]] && (snd r =? 10)) = true.
Proof. vm_compute; reflexivity. Qed.
Example pmsc_5 : okd (pmsc0 4 [[0; 0; 0; (-1); 0; (-1); 0; 0];
    [1; 1; 0; (-1); 0; (-1); 0; 0];
    [2; 2; 0; (-1); 0; (-1); 0; 0];
    [3; 3; 0; (-1); 0; (-1); 0; 0];
    [4; 4; 0; (-1); 0; (-1); 0; 0];
    [5; 5; 0; (-1); 0; (-1); 0; 0];
    [6; 6; 0; (-1); 0; (-1); 0; 0];
    [7; 7; 0; (-1); 0; (-1); 0; 0];
    [8; 8; 0; (-1); 0; (-1); 0; 0];
    [9; 9; 0; (-1); 0; (-1); 0; 0];
    [10; 10; 0; (-1); 0; (-1); 0; 0];
    [11; 11; 0; (-1); 0; (-1); 0; 0];
    [12; 12; 0; (-1); 0; (-1); 0; 0];
    [13; 13; 0; (-1); 0; (-1); 0; 0];
    [14; 14; 0; (-1); 0; (-1); 0; 0];
    [15; 15; 0; (-1); 0; (-1); 0; 0];
    [16; 16; 0; (-1); 0; (-1); 0; 0];
    [17; 17; 0; (-1); 0; (-1); 0; 0];
    [18; 18; 0; (-1); 0; (-1); 0; 0];
    [19; 19; 0; (-1); 0; (-1); 0; 0];
    [20; 20; 0; (-1); 0; (-1); 0; 0];
    [21; 21; 0; (-1); 0; (-1); 0; 0];
    [22; 22; 0; (-1); 0; (-1); 0; 0];
    [23; 23; 0; (-1); 0; (-1); 0; 0];
    [24; 24; 0; (-1); 0; (-1); 0; 0];
    [25; 25; 0; (-1); 0; (-1); 0; 0];
    [26; 26; 0; (-1); 0; (-1); 0; 0];
    [27; 27; 0; (-1); 0; (-1); 0; 0];
    [28; 28; 0; (-1); 0; (-1); 0; 0];
    [29; 29; 0; (-1); 0; (-1); 0; 0];
    [30; 30; 0; (-1); 0; (-1); 0; 0];
    [31; 31; 0; (-1); 0; (-1); 0; 0];
    [32; 32; 1; (-1); 0; (-1); 0; 0];
    [33; 33; 1; (-1); 0; (-1); 0; 0];
    [34; 34; 1; (-1); 0; (-1); 0; 0];
    [35; 35; 1; (-1); 0; (-1); 0; 0];
    [36; 36; 1; (-1); 0; (-1); 0; 0];
    [37; 37; 1; (-1); 0; (-1); 0; 0];
    [38; 38; 1; (-1); 0; (-1); 0; 0];
    [39; 39; 1; (-1); 0; (-1); 0; 0];
    [40; 40; 1; (-1); 0; (-1); 0; 0];
    [41; 41; 1; (-1); 0; (-1); 0; 0];
    [42; 42; 1; (-1); 0; (-1); 0; 0];
    [43; 43; 1; (-1); 0; (-1); 0; 0];
    [44; 44; 1; (-1); 0; (-1); 0; 0];
    [45; 45; 1; (-1); 0; (-1); 0; 0];
    [46; 46; 1; (-1); 0; (-1); 0; 0];
    [47; 47; 1; (-1); 0; (-1); 0; 0];
    [48; 48; 1; (-1); 0; (-1); 0; 0];
    [49; 49; 1; (-1); 0; (-1); 0; 0];
    [50; 50; 1; (-1); 0; (-1); 0; 0];
    [51; 51; 1; (-1); 0; (-1); 0; 0];
    [52; 52; 1; (-1); 0; (-1); 0; 0];
    [53; 53; 1; (-1); 0; (-1); 0; 0];
    [54; 54; 1; (-1); 0; (-1); 0; 0];
    [55; 55; 1; (-1); 0; (-1); 0; 0];
    [56; 56; 1; (-1); 0; (-1); 0; 0];
    [57; 57; 1; (-1); 0; (-1); 0; 0];
    [58; 58; 1; (-1); 0; (-1); 0; 0];
    [59; 59; 1; (-1); 0; (-1); 0; 0];
    [60; 60; 1; (-1); 0; (-1); 0; 0];
    [61; 61; 1; (-1); 0; (-1); 0; 0];
    [62; 62; 1; (-1); 0; (-1); 0; 0];
    [63; 63; 1; (-1); 0; (-1); 0; 0];
    [64; 64; 2; (-1); 0; (-1); 0; 0];
    [65; 65; 2; (-1); 0; (-1); 0; 0];
    [66; 66; 2; (-1); 0; (-1); 0; 0];
    [67; 67; 2; (-1); 0; (-1); 0; 0];
    [68; 68; 2; (-1); 0; (-1); 0; 0];
    [69; 69; 2; (-1); 0; (-1); 0; 0];
    [70; 70; 2; (-1); 0; (-1); 0; 0];
    [71; 71; 2; (-1); 0; (-1); 0; 0];
    [72; 72; 2; (-1); 0; (-1); 0; 0];
    [73; 73; 2; (-1); 0; (-1); 0; 0];
    [74; 74; 2; (-1); 0; (-1); 0; 0];
    [75; 75; 2; (-1); 0; (-1); 0; 0];
    [76; 76; 2; (-1); 0; (-1); 0; 0];
    [77; 77; 2; (-1); 0; (-1); 0; 0];
    [78; 78; 2; (-1); 0; (-1); 0; 0];
    [79; 79; 2; (-1); 0; (-1); 0; 0];
    [80; 80; 2; (-1); 0; (-1); 0; 0];
    [81; 81; 2; (-1); 0; (-1); 0; 0];
    [82; 82; 2; (-1); 0; (-1); 0; 0];
    [83; 83; 2; (-1); 0; (-1); 0; 0];
    [84; 84; 2; (-1); 0; (-1); 0; 0];
    [85; 85; 2; (-1); 0; (-1); 0; 0];
    [86; 86; 2; (-1); 0; (-1); 0; 0];
    [87; 87; 2; (-1); 0; (-1); 0; 0];
    [88; 88; 2; (-1); 0; (-1); 0; 0];
    [89; 89; 2; (-1); 0; (-1); 0; 0];
    [90; 90; 2; (-1); 0; (-1); 0; 0];
    [91; 91; 2; (-1); 0; (-1); 0; 0];
    [92; 92; 2; (-1); 0; (-1); 0; 0];
    [93; 93; 2; (-1); 0; (-1); 0; 0];
    [94; 94; 2; (-1); 0; (-1); 0; 0];
    [95; 95; 2; (-1); 0; (-1); 0; 0];
    [96; 96; 3; (-1); 0; (-1); 0; 0];
    [97; 97; 3; (-1); 0; (-1); 0; 0];
    [98; 98; 3; (-1); 0; (-1); 0; 0];
    [99; 99; 3; (-1); 0; (-1); 0; 0];
    [100; 100; 3; (-1); 0; (-1); 0; 0];
    [101; 101; 3; (-1); 0; (-1); 0; 0];
    [102; 102; 3; (-1); 0; (-1); 0; 0];
    [103; 103; 3; (-1); 0; (-1); 0; 0];
    [104; 104; 3; (-1); 0; (-1); 0; 0];
    [105; 105; 3; (-1); 0; (-1); 0; 0];
    [106; 106; 3; (-1); 0; (-1); 0; 0];
    [107; 107; 3; (-1); 0; (-1); 0; 0];
    [108; 108; 3; (-1); 0; (-1); 0; 0];
    [109; 109; 3; (-1); 0; (-1); 0; 0];
    [110; 110; 3; (-1); 0; (-1); 0; 0];
    [111; 111; 3; (-1); 0; (-1); 0; 0];
    [112; 112; 3; (-1); 0; (-1); 0; 0];
    [113; 113; 3; (-1); 0; (-1); 0; 0];
    [114; 114; 3; (-1); 0; (-1); 0; 0];
    [115; 115; 3; (-1); 0; (-1); 0; 0];
    [116; 116; 3; (-1); 0; (-1); 0; 0];
    [117; 117; 3; (-1); 0; (-1); 0; 0];
    [118; 118; 3; (-1); 0; (-1); 0; 0];
    [119; 119; 3; (-1); 0; (-1); 0; 0];
    [120; 120; 3; (-1); 0; (-1); 0; 0];
    [121; 121; 3; (-1); 0; (-1); 0; 0];
    [122; 122; 3; (-1); 0; (-1); 0; 0];
    [123; 123; 3; (-1); 0; (-1); 0; 0];
    [124; 124; 3; (-1); 0; (-1); 0; 0];
    [125; 125; 3; (-1); 0; (-1); 0; 0];
    [126; 126; 3; (-1); 0; (-1); 0; 0];
    [127; 127; 3; (-1); 0; (-1); 0; 0];
    [128; 128; 4; (-1); 0; (-1); 0; 0];
    [129; 129; 4; (-1); 0; (-1); 0; 0];
    [130; 130; 4; (-1); 0; (-1); 0; 0];
    [131; 131; 4; (-1); 0; (-1); 0; 0];
    [132; 132; 4; (-1); 0; (-1); 0; 0];
    [133; 133; 4; (-1); 0; (-1); 0; 0];
    [134; 134; 4; (-1); 0; (-1); 0; 0];
    [135; 135; 4; (-1); 0; (-1); 0; 0];
    [136; 136; 4; (-1); 0; (-1); 0; 0];
    [137; 137; 4; (-1); 0; (-1); 0; 0];
    [138; 138; 4; (-1); 0; (-1); 0; 0];
    [139; 139; 4; (-1); 0; (-1); 0; 0];
    [140; 140; 4; (-1); 0; (-1); 0; 0];
    [141; 141; 4; (-1); 0; (-1); 0; 0];
    [142; 142; 4; (-1); 0; (-1); 0; 0];
    [143; 143; 4; (-1); 0; (-1); 0; 0];
    [144; 144; 4; (-1); 0; (-1); 0; 0];
    [145; 145; 4; (-1); 0; (-1); 0; 0];
    [146; 146; 4; (-1); 0; (-1); 0; 0];
    [147; 147; 4; (-1); 0; (-1); 0; 0];
    [148; 148; 4; (-1); 0; (-1); 0; 0];
    [149; 149; 4; (-1); 0; (-1); 0; 0];
    [150; 150; 4; (-1); 0; (-1); 0; 0];
    [151; 151; 4; (-1); 0; (-1); 0; 0];
    [152; 152; 4; (-1); 0; (-1); 0; 0];
    [153; 153; 4; (-1); 0; (-1); 0; 0];
    [154; 154; 4; (-1); 0; (-1); 0; 0];
    [155; 155; 4; (-1); 0; (-1); 0; 0];
    [156; 156; 4; (-1); 0; (-1); 0; 0];
    [157; 157; 4; (-1); 0; (-1); 0; 0];
    [158; 158; 4; (-1); 0; (-1); 0; 0];
    [159; 159; 4; (-1); 0; (-1); 0; 0]] 10 (qm 1 [[12; 12; 12; 12];
    [12; 12; 12; 12];
    [12; 12; 12; 12];
    [12; 12; 12; 12];
    [12; 12; 12; 12];
    [20; 20; 20; 20];
    [20; 20; 20; 20];
    [20; 20; 20; 20];
    [20; 20; 20; 20];
    [50; 50; 50; 50];
    [50; 50; 50; 50];
    [50; 50; 50; 50];
    [50; 50; 50; 50];
    [50; 50; 50; 50];
    [50; 50; 50; 50];
    [76; 76; 76; 76];
    [76; 76; 76; 76];
    [76; 76; 76; 76];
    [76; 76; 76; 76];
    [100; 100; 100; 100];
    [100; 100; 100; 100];
    [100; 100; 100; 100];
    [155; 155; 155; 155];
    [155; 155; 155; 155];
    [155; 155; 155; 155];
    [155; 155; 155; 155];
    [197; 197; 197; 197];
    [197; 197; 197; 197];
    [197; 197; 197; 197];
    [350; 350; 350; 350];
    [400; 400; 400; 400];
    [400; 400; 400; 400];
    [12; 12; 12; 12];
    [12; 12; 12; 12];
    [12; 12; 12; 12];
    [12; 12; 12; 12];
    [12; 12; 12; 12];
    [20; 20; 20; 20];
    [20; 20; 20; 20];
    [20; 20; 20; 20];
    [20; 20; 20; 20];
    [50; 50; 50; 50];
    [50; 50; 50; 50];
    [50; 50; 50; 50];
    [50; 50; 50; 50];
    [50; 50; 50; 50];
    [50; 50; 50; 50];
    [76; 76; 76; 76];
    [76; 76; 76; 76];
    [76; 76; 76; 76];
    [76; 76; 76; 76];
    [100; 100; 100; 100];
    [100; 100; 100; 100];
    [100; 100; 100; 100];
    [155; 155; 155; 155];
    [155; 155; 155; 155];
    [155; 155; 155; 155];
    [155; 155; 155; 155];
    [197; 197; 197; 197];
    [197; 197; 197; 197];
    [197; 197; 197; 197];
    [350; 350; 350; 350];
    [400; 400; 400; 400];
    [400; 400; 400; 400];
    [12; 12; 12; 12];
    [12; 12; 12; 12];
    [12; 12; 12; 12];
    [12; 12; 12; 12];
    [12; 12; 12; 12];
    [20; 20; 20; 20];
    [20; 20; 20; 20];
    [20; 20; 20; 20];
    [20; 20; 20; 20];
    [50; 50; 50; 50];
    [50; 50; 50; 50];
    [50; 50; 50; 50];
    [50; 50; 50; 50];
    [50; 50; 50; 50];
    [50; 50; 50; 50];
    [76; 76; 76; 76];
    [76; 76; 76; 76];
    [76; 76; 76; 76];
    [76; 76; 76; 76];
    [100; 100; 100; 100];
    [100; 100; 100; 100];
    [100; 100; 100; 100];
    [155; 155; 155; 155];
    [155; 155; 155; 155];
    [155; 155; 155; 155];
    [155; 155; 155; 155];
    [197; 197; 197; 197];
    [197; 197; 197; 197];
    [197; 197; 197; 197];
    [350; 350; 350; 350];
    [400; 400; 400; 400];
    [400; 400; 400; 400];
    [12; 12; 12; 12];
    [12; 12; 12; 12];
    [12; 12; 12; 12];
    [12; 12; 12; 12];
    [12; 12; 12; 12];
    [20; 20; 20; 20];
    [20; 20; 20; 20];
    [20; 20; 20; 20];
    [20; 20; 20; 20];
    [50; 50; 50; 50];
    [50; 50; 50; 50];
    [50; 50; 50; 50];
    [50; 50; 50; 50];
    [50; 50; 50; 50];
    [50; 50; 50; 50];
    [76; 76; 76; 76];
    [76; 76; 76; 76];
    [76; 76; 76; 76];
    [76; 76; 76; 76];
    [100; 100; 100; 100];
    [100; 100; 100; 100];
    [100; 100; 100; 100];
    [155; 155; 155; 155];
    [155; 155; 155; 155];
    [155; 155; 155; 155];
    [155; 155; 155; 155];
    [197; 197; 197; 197];
    [197; 197; 197; 197];
    [197; 197; 197; 197];
    [350; 350; 350; 350];
    [400; 400; 400; 400];
    [400; 400; 400; 400];
    [12; 12; 12; 12];
    [12; 12; 12; 12];
    [12; 12; 12; 12];
    [12; 12; 12; 12];
    [12; 12; 12; 12];
    [20; 20; 20; 20];
    [20; 20; 20; 20];
    [20; 20; 20; 20];
    [20; 20; 20; 20];
    [50; 50; 50; 50];
    [50; 50; 50; 50];
    [50; 50; 50; 50];
    [50; 50; 50; 50];
    [50; 50; 50; 50];
    [50; 50; 50; 50];
    [76; 76; 76; 76];
    [76; 76; 76; 76];
    [76; 76; 76; 76];
    [76; 76; 76; 76];
    [100; 100; 100; 100];
    [100; 100; 100; 100];
    [100; 100; 100; 100];
    [155; 155; 155; 155];
    [155; 155; 155; 155];
    [155; 155; 155; 155];
    [155; 155; 155; 155];
    [197; 197; 197; 197];
    [197; 197; 197; 197];
    [197; 197; 197; 197];
    [350; 350; 350; 350];
    [400; 400; 400; 400];
    [400; 400; 400; 400]])) (fun r => zmeq (fst r) [[0; 0; 0; (-1); 0; (-1); 0; 0];
    [1; 1; 0; (-1); 0; (-1); 0; 0];
    [2; 2; 0; (-1); 0; (-1); 0; 0];
    [3; 3; 0; (-1); 0; (-1); 0; 0];
    [4; 4; 0; (-1); 0; (-1); 0; 0];
    [5; 5; 0; (-1); 0; (-1); 0; 0];
    [6; 6; 0; (-1); 0; (-1); 0; 0];
    [7; 7; 0; (-1); 0; (-1); 0; 0];
    [8; 8; 0; (-1); 0; (-1); 0; 0];
    [9; 9; 0; (-1); 0; (-1); 0; 0];
    [10; 10; 0; (-1); 0; (-1); 0; 0];
    [11; 11; 0; (-1); 0; (-1); 0; 0];
    [12; 12; 0; (-1); 0; (-1); 0; 0];
    [13; 13; 0; (-1); 0; (-1); 0; 0];
    [14; 14; 0; (-1); 0; (-1); 0; 0];
    [15; 15; 0; (-1); 0; (-1); 0; 0];
    [16; 16; 0; (-1); 0; (-1); 0; 0];
    [17; 17; 0; (-1); 0; (-1); 0; 0];
    [18; 18; 0; (-1); 0; (-1); 0; 0];
    [19; 19; 0; (-1); 0; (-1); 0; 0];
    [20; 20; 0; (-1); 0; (-1); 0; 0];
    [21; 21; 0; (-1); 0; (-1); 0; 0];
    [22; 22; 0; (-1); 0; (-1); 0; 0];
    [23; 23; 0; (-1); 0; (-1); 0; 0];
    [24; 24; 0; (-1); 0; (-1); 0; 0];
    [25; 25; 0; (-1); 0; (-1); 0; 0];
    [26; 26; 0; (-1); 0; (-1); 0; 0];
    [27; 27; 0; (-1); 0; (-1); 0; 0];
    [28; 28; 0; (-1); 0; (-1); 0; 0];
    [29; 29; 0; (-1); 0; (-1); 0; 0];
    [30; 30; 0; (-1); 0; (-1); 0; 0];
    [31; 31; 0; (-1); 0; (-1); 0; 0];
    [32; 32; 1; (-1); 0; (-1); 0; 0];
    [33; 33; 1; (-1); 0; (-1); 0; 0];
    [34; 34; 1; (-1); 0; (-1); 0; 0];
    [35; 35; 1; (-1); 0; (-1); 0; 0];
    [36; 36; 1; (-1); 0; (-1); 0; 0];
    [37; 37; 1; (-1); 0; (-1); 0; 0];
    [38; 38; 1; (-1); 0; (-1); 0; 0];
    [39; 39; 1; (-1); 0; (-1); 0; 0];
    [40; 40; 1; (-1); 0; (-1); 0; 0];
    [41; 41; 1; (-1); 0; (-1); 0; 0];
    [42; 42; 1; (-1); 0; (-1); 0; 0];
    [43; 43; 1; (-1); 0; (-1); 0; 0];
    [44; 44; 1; (-1); 0; (-1); 0; 0];
    [45; 45; 1; (-1); 0; (-1); 0; 0];
    [46; 46; 1; (-1); 0; (-1); 0; 0];
    [47; 47; 1; (-1); 0; (-1); 0; 0];
    [48; 48; 1; (-1); 0; (-1); 0; 0];
    [49; 49; 1; (-1); 0; (-1); 0; 0];
    [50; 50; 1; (-1); 0; (-1); 0; 0];
    [51; 51; 1; (-1); 0; (-1); 0; 0];
    [52; 52; 1; (-1); 0; (-1); 0; 0];
    [53; 53; 1; (-1); 0; (-1); 0; 0];
    [54; 54; 1; (-1); 0; (-1); 0; 0];
    [55; 55; 1; (-1); 0; (-1); 0; 0];
    [56; 56; 1; (-1); 0; (-1); 0; 0];
    [57; 57; 1; (-1); 0; (-1); 0; 0];
    [58; 58; 1; (-1); 0; (-1); 0; 0];
    [59; 59; 1; (-1); 0; (-1); 0; 0];
    [60; 60; 1; (-1); 0; (-1); 0; 0];
    [61; 61; 1; (-1); 0; (-1); 0; 0];
    [62; 62; 1; (-1); 0; (-1); 0; 0];
    [63; 63; 1; (-1); 0; (-1); 0; 0];
    [64; 64; 2; (-1); 0; (-1); 0; 0];
    [65; 65; 2; (-1); 0; (-1); 0; 0];
    [66; 66; 2; (-1); 0; (-1); 0; 0];
    [67; 67; 2; (-1); 0; (-1); 0; 0];
    [68; 68; 2; (-1); 0; (-1); 0; 0];
    [69; 69; 2; (-1); 0; (-1); 0; 0];
    [70; 70; 2; (-1); 0; (-1); 0; 0];
    [71; 71; 2; (-1); 0; (-1); 0; 0];
    [72; 72; 2; (-1); 0; (-1); 0; 0];
    [73; 73; 2; (-1); 0; (-1); 0; 0];
    [74; 74; 2; (-1); 0; (-1); 0; 0];
    [75; 75; 2; (-1); 0; (-1); 0; 0];
    [76; 76; 2; (-1); 0; (-1); 0; 0];
    [77; 77; 2; (-1); 0; (-1); 0; 0];
    [78; 78; 2; (-1); 0; (-1); 0; 0];
    [79; 79; 2; (-1); 0; (-1); 0; 0];
    [80; 80; 2; (-1); 0; (-1); 0; 0];
    [81; 81; 2; (-1); 0; (-1); 0; 0];
    [82; 82; 2; (-1); 0; (-1); 0; 0];
    [83; 83; 2; (-1); 0; (-1); 0; 0];
    [84; 84; 2; (-1); 0; (-1); 0; 0];
    [85; 85; 2; (-1); 0; (-1); 0; 0];
    [86; 86; 2; (-1); 0; (-1); 0; 0];
    [87; 87; 2; (-1); 0; (-1); 0; 0];
    [88; 88; 2; (-1); 0; (-1); 0; 0];
    [89; 89; 2; (-1); 0; (-1); 0; 0];
    [90; 90; 2; (-1); 0; (-1); 0; 0];
    [91; 91; 2; (-1); 0; (-1); 0; 0];
    [92; 92; 2; (-1); 0; (-1); 0; 0];
    [93; 93; 2; (-1); 0; (-1); 0; 0];
    [94; 94; 2; (-1); 0; (-1); 0; 0];
    [95; 95; 2; (-1); 0; (-1); 0; 0];
    [96; 96; 3; (-1); 0; (-1); 0; 0];
    [97; 97; 3; (-1); 0; (-1); 0; 0];
    [98; 98; 3; (-1); 0; (-1); 0; 0];
    [99; 99; 3; (-1); 0; (-1); 0; 0];
    [100; 100; 3; (-1); 0; (-1); 0; 0];
    [101; 101; 3; (-1); 0; (-1); 0; 0];
    [102; 102; 3; (-1); 0; (-1); 0; 0];
    [103; 103; 3; (-1); 0; (-1); 0; 0];
    [104; 104; 3; (-1); 0; (-1); 0; 0];
    [105; 105; 3; (-1); 0; (-1); 0; 0];
    [106; 106; 3; (-1); 0; (-1); 0; 0];
    [107; 107; 3; (-1); 0; (-1); 0; 0];
    [108; 108; 3; (-1); 0; (-1); 0; 0];
    [109; 109; 3; (-1); 0; (-1); 0; 0];
    [110; 110; 3; (-1); 0; (-1); 0; 0];
    [111; 111; 3; (-1); 0; (-1); 0; 0];
    [112; 112; 3; (-1); 0; (-1); 0; 0];
    [113; 113; 3; (-1); 0; (-1); 0; 0];
    [114; 114; 3; (-1); 0; (-1); 0; 0];
    [115; 115; 3; (-1); 0; (-1); 0; 0];
    [116; 116; 3; (-1); 0; (-1); 0; 0];
    [117; 117; 3; (-1); 0; (-1); 0; 0];
    [118; 118; 3; (-1); 0; (-1); 0; 0];
    [119; 119; 3; (-1); 0; (-1); 0; 0];
    [120; 120; 3; (-1); 0; (-1); 0; 0];
    [121; 121; 3; (-1); 0; (-1); 0; 0];
    [122; 122; 3; (-1); 0; (-1); 0; 0];
    [123; 123; 3; (-1); 0; (-1); 0; 0];
    [124; 124; 3; (-1); 0; (-1); 0; 0];
    [125; 125; 3; (-1); 0; (-1); 0; 0];
    [126; 126; 3; (-1); 0; (-1); 0; 0];
    [127; 127; 3; (-1); 0; (-1); 0; 0];
    [128; 128; 4; (-1); 0; (-1); 0; 0];
    [129; 129; 4; (-1); 0; (-1); 0; 0];
    [130; 130; 4; (-1); 0; (-1); 0; 0];
    [131; 131; 4; (-1); 0; (-1); 0; 0];
    [132; 132; 4; (-1); 0; (-1); 0; 0];
    [133; 133; 4; (-1); 0; (-1); 0; 0];
    [134; 134; 4; (-1); 0; (-1); 0; 0];
    [135; 135; 4; (-1); 0; (-1); 0; 0];
    [136; 136; 4; (-1); 0; (-1); 0; 0];
    [137; 137; 4; (-1); 0; (-1); 0; 0];
    [138; 138; 4; (-1); 0; (-1); 0; 0];
    [139; 139; 4; (-1); 0; (-1); 0; 0];
    [140; 140; 4; (-1); 0; (-1); 0; 0];
    [141; 141; 4; (-1); 0; (-1); 0; 0];
    [142; 142; 4; (-1); 0; (-1); 0; 0];
    [143; 143; 4; (-1); 0; (-1); 0; 0];
    [144; 144; 4; (-1); 0; (-1); 0; 0];
    [145; 145; 4; (-1); 0; (-1); 0; 0];
    [146; 146; 4; (-1); 0; (-1); 0; 0];
    [147; 147; 4; (-1); 0; (-1); 0; 0];
    [148; 148; 4; (-1); 0; (-1); 0; 0];
    [149; 149; 4; (-1); 0; (-1); 0; 0];
    [150; 150; 4; (-1); 0; (-1); 0; 0];
    [151; 151; 4; (-1); 0; (-1); 0; 0];
    [152; 152; 4; (-1); 0; (-1); 0; 0];
    [153; 153; 4; (-1); 0; (-1); 0; 0];
    [154; 154; 4; (-1); 0; (-1); 0; 0];
    [155; 155; 4; (-1); 0; (-1); 0; 0];
    [156; 156; 4; (-1); 0; (-1); 0; 0];
    [157; 157; 4; (-1); 0; (-1); 0; 0];
    [158; 158; 4; (-1); 0; (-1); 0; 0];
    [159; 159; 4; (-1); 0; (-1); 0; 0]] && (snd r =? 11)) = true.
Proof. vm_compute; reflexivity. Qed.
Example smaint_1 : okd (smaint (fun c => c) (fun _ _ => Err ValueError) (fun _ _ _ _ => Err ValueError) tt 5 [[0; 0; 0; (-1); 0; (-1); 0; 0];
    [1; 1; 0; (-1); 0; (-1); 0; 0];
    [2; 2; 0; (-1); 0; (-1); 0; 0];
    [3; 3; 0; (-1); 0; (-1); 0; 0];
    [4; 4; 0; (-1); 0; (-1); 0; 0];
    [5; 5; 0; (-1); 0; (-1); 0; 0];
    [6; 6; 0; (-1); 0; (-1); 0; 0];
    [7; 7; 0; (-1); 0; (-1); 0; 0];
    [8; 8; 0; (-1); 0; (-1); 0; 0];
    [9; 9; 0; (-1); 0; (-1); 0; 0];
    [10; 10; 0; (-1); 0; (-1); 0; 0];
    [11; 11; 0; (-1); 0; (-1); 0; 0];
    [12; 12; 0; (-1); 0; (-1); 0; 0];
    [13; 13; 0; (-1); 0; (-1); 0; 0];
    [14; 14; 0; (-1); 0; (-1); 0; 0];
    [15; 15; 0; (-1); 0; (-1); 0; 0];
    [16; 16; 0; (-1); 0; (-1); 0; 0];
    [17; 17; 0; (-1); 0; (-1); 0; 0];
    [18; 18; 0; (-1); 0; (-1); 0; 0];
    [19; 19; 0; (-1); 0; (-1); 0; 0];
    [20; 20; 0; (-1); 0; (-1); 0; 0];
    [21; 21; 0; (-1); 0; (-1); 0; 0];
    [22; 22; 0; (-1); 0; (-1); 0; 0];
    [23; 23; 0; (-1); 0; (-1); 0; 0];
    [24; 24; 0; (-1); 0; (-1); 0; 0];
    [25; 25; 0; (-1); 0; (-1); 0; 0];
    [26; 26; 0; (-1); 0; (-1); 0; 0];
    [27; 27; 0; (-1); 0; (-1); 0; 0];
    [28; 28; 0; (-1); 0; (-1); 0; 0];
    [29; 29; 0; (-1); 0; (-1); 0; 0];
    [30; 30; 0; (-1); 0; (-1); 0; 0];
    [31; 31; 0; (-1); 0; (-1); 0; 0];
    [32; 32; 1; (-1); 0; (-1); 0; 0];
    [33; 33; 1; (-1); 0; (-1); 0; 0];
    [34; 34; 1; (-1); 0; (-1); 0; 0];
    [35; 35; 1; (-1); 0; (-1); 0; 0];
    [36; 36; 1; (-1); 0; (-1); 0; 0];
    [37; 37; 1; (-1); 0; (-1); 0; 0];
    [38; 38; 1; (-1); 0; (-1); 0; 0];
    [39; 39; 1; (-1); 0; (-1); 0; 0];
    [40; 40; 1; (-1); 0; (-1); 0; 0];
    [41; 41; 1; (-1); 0; (-1); 0; 0];
    [42; 42; 1; (-1); 0; (-1); 0; 0];
    [43; 43; 1; (-1); 0; (-1); 0; 0];
    [44; 44; 1; (-1); 0; (-1); 0; 0];
    [45; 45; 1; (-1); 0; (-1); 0; 0];
    [46; 46; 1; (-1); 0; (-1); 0; 0];
    [47; 47; 1; (-1); 0; (-1); 0; 0];
    [48; 48; 1; (-1); 0; (-1); 0; 0];
    [49; 49; 1; (-1); 0; (-1); 0; 0];
    [50; 50; 1; (-1); 0; (-1); 0; 0];
    [51; 51; 1; (-1); 0; (-1); 0; 0];
    [52; 52; 1; (-1); 0; (-1); 0; 0];
    [53; 53; 1; (-1); 0; (-1); 0; 0];
    [54; 54; 1; (-1); 0; (-1); 0; 0];
    [55; 55; 1; (-1); 0; (-1); 0; 0];
    [56; 56; 1; (-1); 0; (-1); 0; 0];
    [57; 57; 1; (-1); 0; (-1); 0; 0];
    [58; 58; 1; (-1); 0; (-1); 0; 0];
    [59; 59; 1; (-1); 0; (-1); 0; 0];
    [60; 60; 1; (-1); 0; (-1); 0; 0];
    [61; 61; 1; (-1); 0; (-1); 0; 0];
    [62; 62; 1; (-1); 0; (-1); 0; 0];
    [63; 63; 1; (-1); 0; (-1); 0; 0];
    [64; 64; 2; (-1); 0; (-1); 0; 0];
    [65; 65; 2; (-1); 0; (-1); 0; 0];
    [66; 66; 2; (-1); 0; (-1); 0; 0];
    [67; 67; 2; (-1); 0; (-1); 0; 0];
    [68; 68; 2; (-1); 0; (-1); 0; 0];
    [69; 69; 2; (-1); 0; (-1); 0; 0];
    [70; 70; 2; (-1); 0; (-1); 0; 0];
    [71; 71; 2; (-1); 0; (-1); 0; 0];
    [72; 72; 2; (-1); 0; (-1); 0; 0];
    [73; 73; 2; (-1); 0; (-1); 0; 0];
    [74; 74; 2; (-1); 0; (-1); 0; 0];
    [75; 75; 2; (-1); 0; (-1); 0; 0];
    [76; 76; 2; (-1); 0; (-1); 0; 0];
    [77; 77; 2; (-1); 0; (-1); 0; 0];
    [78; 78; 2; (-1); 0; (-1); 0; 0];
    [79; 79; 2; (-1); 0; (-1); 0; 0];
    [80; 80; 2; (-1); 0; (-1); 0; 0];
    [81; 81; 2; (-1); 0; (-1); 0; 0];
    [82; 82; 2; (-1); 0; (-1); 0; 0];
    [83; 83; 2; (-1); 0; (-1); 0; 0];
    [84; 84; 2; (-1); 0; (-1); 0; 0];
    [85; 85; 2; (-1); 0; (-1); 0; 0];
    [86; 86; 2; (-1); 0; (-1); 0; 0];
    [87; 87; 2; (-1); 0; (-1); 0; 0];
    [88; 88; 2; (-1); 0; (-1); 0; 0];
    [89; 89; 2; (-1); 0; (-1); 0; 0];
    [90; 90; 2; (-1); 0; (-1); 0; 0];
    [91; 91; 2; (-1); 0; (-1); 0; 0];
    [92; 92; 2; (-1); 0; (-1); 0; 0];
    [93; 93; 2; (-1); 0; (-1); 0; 0];
    [94; 94; 2; (-1); 0; (-1); 0; 0];
    [95; 95; 2; (-1); 0; (-1); 0; 0];
    [96; 96; 3; (-1); 0; (-1); 0; 0];
    [97; 97; 3; (-1); 0; (-1); 0; 0];
    [98; 98; 3; (-1); 0; (-1); 0; 0];
    [99; 99; 3; (-1); 0; (-1); 0; 0];
    [100; 100; 3; (-1); 0; (-1); 0; 0];
    [101; 101; 3; (-1); 0; (-1); 0; 0];
    [102; 102; 3; (-1); 0; (-1); 0; 0];
    [103; 103; 3; (-1); 0; (-1); 0; 0];
    [104; 104; 3; (-1); 0; (-1); 0; 0];
    [105; 105; 3; (-1); 0; (-1); 0; 0];
    [106; 106; 3; (-1); 0; (-1); 0; 0];
    [107; 107; 3; (-1); 0; (-1); 0; 0];
    [108; 108; 3; (-1); 0; (-1); 0; 0];
    [109; 109; 3; (-1); 0; (-1); 0; 0];
    [110; 110; 3; (-1); 0; (-1); 0; 0];
    [111; 111; 3; (-1); 0; (-1); 0; 0];
    [112; 112; 3; (-1); 0; (-1); 0; 0];
    [113; 113; 3; (-1); 0; (-1); 0; 0];
    [114; 114; 3; (-1); 0; (-1); 0; 0];
    [115; 115; 3; (-1); 0; (-1); 0; 0];
    [116; 116; 3; (-1); 0; (-1); 0; 0];
    [117; 117; 3; (-1); 0; (-1); 0; 0];
    [118; 118; 3; (-1); 0; (-1); 0; 0];
    [119; 119; 3; (-1); 0; (-1); 0; 0];
    [120; 120; 3; (-1); 0; (-1); 0; 0];
    [121; 121; 3; (-1); 0; (-1); 0; 0];
    [122; 122; 3; (-1); 0; (-1); 0; 0];
    [123; 123; 3; (-1); 0; (-1); 0; 0];
    [124; 124; 3; (-1); 0; (-1); 0; 0];
    [125; 125; 3; (-1); 0; (-1); 0; 0];
    [126; 126; 3; (-1); 0; (-1); 0; 0];
    [127; 127; 3; (-1); 0; (-1); 0; 0];
    [128; 128; 4; (-1); 0; (-1); 0; 0];
    [129; 129; 4; (-1); 0; (-1); 0; 0];
    [130; 130; 4; (-1); 0; (-1); 0; 0];
    [131; 131; 4; (-1); 0; (-1); 0; 0];
    [132; 132; 4; (-1); 0; (-1); 0; 0];
    [133; 133; 4; (-1); 0; (-1); 0; 0];
    [134; 134; 4; (-1); 0; (-1); 0; 0];
    [135; 135; 4; (-1); 0; (-1); 0; 0];
    [136; 136; 4; (-1); 0; (-1); 0; 0];
    [137; 137; 4; (-1); 0; (-1); 0; 0];
    [138; 138; 4; (-1); 0; (-1); 0; 0];
    [139; 139; 4; (-1); 0; (-1); 0; 0];
    [140; 140; 4; (-1); 0; (-1); 0; 0];
    [141; 141; 4; (-1); 0; (-1); 0; 0];
    [142; 142; 4; (-1); 0; (-1); 0; 0];
    [143; 143; 4; (-1); 0; (-1); 0; 0];
    [144; 144; 4; (-1); 0; (-1); 0; 0];
    [145; 145; 4; (-1); 0; (-1); 0; 0];
    [146; 146; 4; (-1); 0; (-1); 0; 0];
    [147; 147; 4; (-1); 0; (-1); 0; 0];
    [148; 148; 4; (-1); 0; (-1); 0; 0];
    [149; 149; 4; (-1); 0; (-1); 0; 0];
    [150; 150; 4; (-1); 0; (-1); 0; 0];
    [151; 151; 4; (-1); 0; (-1); 0; 0];
    [152; 152; 4; (-1); 0; (-1); 0; 0];
    [153; 153; 4; (-1); 0; (-1); 0; 0];
    [154; 154; 4; (-1); 0; (-1); 0; 0];
    [155; 155; 4; (-1); 0; (-1); 0; 0];
    [156; 156; 4; (-1); 0; (-1); 0; 0];
    [157; 157; 4; (-1); 0; (-1); 0; 0];
    [158; 158; 4; (-1); 0; (-1); 0; 0];
    [159; 159; 4; (-1); 0; (-1); 0; 0]] 6 (qm 1 [[12; 12; 12; 12];
    [12; 12; 12; 12];
    [12; 12; 12; 12];
    [12; 12; 12; 12];
    [12; 12; 12; 12];
    [20; 20; 20; 20];
    [20; 20; 20; 20];
    [20; 20; 20; 20];
    [20; 20; 20; 20];
    [50; 50; 50; 50];
    [50; 50; 50; 50];
    [50; 50; 50; 50];
    [50; 50; 50; 50];
    [50; 50; 50; 50];
    [50; 50; 50; 50];
    [76; 76; 76; 76];
    [76; 76; 76; 76];
    [76; 76; 76; 76];
    [76; 76; 76; 76];
    [100; 100; 100; 100];
    [100; 100; 100; 100];
    [100; 100; 100; 100];
    [155; 155; 155; 155];
    [155; 155; 155; 155];
    [155; 155; 155; 155];
    [155; 155; 155; 155];
    [197; 197; 197; 197];
    [197; 197; 197; 197];
    [197; 197; 197; 197];
    [350; 350; 350; 350];
    [400; 400; 400; 400];
    [400; 400; 400; 400];
    [12; 12; 12; 12];
    [12; 12; 12; 12];
    [12; 12; 12; 12];
    [12; 12; 12; 12];
    [12; 12; 12; 12];
    [20; 20; 20; 20];
    [20; 20; 20; 20];
    [20; 20; 20; 20];
    [20; 20; 20; 20];
    [50; 50; 50; 50];
    [50; 50; 50; 50];
    [50; 50; 50; 50];
    [50; 50; 50; 50];
    [50; 50; 50; 50];
    [50; 50; 50; 50];
    [76; 76; 76; 76];
    [76; 76; 76; 76];
    [76; 76; 76; 76];
    [76; 76; 76; 76];
    [100; 100; 100; 100];
    [100; 100; 100; 100];
    [100; 100; 100; 100];
    [155; 155; 155; 155];
    [155; 155; 155; 155];
    [155; 155; 155; 155];
    [155; 155; 155; 155];
    [197; 197; 197; 197];
    [197; 197; 197; 197];
    [197; 197; 197; 197];
    [350; 350; 350; 350];
    [400; 400; 400; 400];
    [400; 400; 400; 400];
    [12; 12; 12; 12];
    [12; 12; 12; 12];
    [12; 12; 12; 12];
    [12; 12; 12; 12];
    [12; 12; 12; 12];
    [20; 20; 20; 20];
    [20; 20; 20; 20];
    [20; 20; 20; 20];
    [20; 20; 20; 20];
    [50; 50; 50; 50];
    [50; 50; 50; 50];
    [50; 50; 50; 50];
    [50; 50; 50; 50];
    [50; 50; 50; 50];
    [50; 50; 50; 50];
    [76; 76; 76; 76];
    [76; 76; 76; 76];
    [76; 76; 76; 76];
    [76; 76; 76; 76];
    [100; 100; 100; 100];
    [100; 100; 100; 100];
    [100; 100; 100; 100];
    [155; 155; 155; 155];
    [155; 155; 155; 155];
    [155; 155; 155; 155];
    [155; 155; 155; 155];
    [197; 197; 197; 197];
    [197; 197; 197; 197];
    [197; 197; 197; 197];
    [350; 350; 350; 350];
    [400; 400; 400; 400];
    [400; 400; 400; 400];
    [12; 12; 12; 12];
    [12; 12; 12; 12];
    [12; 12; 12; 12];
    [12; 12; 12; 12];
    [12; 12; 12; 12];
    [20; 20; 20; 20];
    [20; 20; 20; 20];
    [20; 20; 20; 20];
    [20; 20; 20; 20];
    [50; 50; 50; 50];
    [50; 50; 50; 50];
    [50; 50; 50; 50];
    [50; 50; 50; 50];
    [50; 50; 50; 50];
    [50; 50; 50; 50];
    [76; 76; 76; 76];
    [76; 76; 76; 76];
    [76; 76; 76; 76];
    [76; 76; 76; 76];
    [100; 100; 100; 100];
    [100; 100; 100; 100];
    [100; 100; 100; 100];
    [155; 155; 155; 155];
    [155; 155; 155; 155];
    [155; 155; 155; 155];
    [155; 155; 155; 155];
    [197; 197; 197; 197];
    [197; 197; 197; 197];
    [197; 197; 197; 197];
    [350; 350; 350; 350];
    [400; 400; 400; 400];
    [400; 400; 400; 400];
    [12; 12; 12; 12];
    [12; 12; 12; 12];
    [12; 12; 12; 12];
    [12; 12; 12; 12];
    [12; 12; 12; 12];
    [20; 20; 20; 20];
    [20; 20; 20; 20];
    [20; 20; 20; 20];
    [20; 20; 20; 20];
    [50; 50; 50; 50];
    [50; 50; 50; 50];
    [50; 50; 50; 50];
    [50; 50; 50; 50];
    [50; 50; 50; 50];
    [50; 50; 50; 50];
    [76; 76; 76; 76];
    [76; 76; 76; 76];
    [76; 76; 76; 76];
    [76; 76; 76; 76];
    [100; 100; 100; 100];
    [100; 100; 100; 100];
    [100; 100; 100; 100];
    [155; 155; 155; 155];
    [155; 155; 155; 155];
    [155; 155; 155; 155];
    [155; 155; 155; 155];
    [197; 197; 197; 197];
    [197; 197; 197; 197];
    [197; 197; 197; 197];
    [350; 350; 350; 350];
    [400; 400; 400; 400];
    [400; 400; 400; 400]])) (fun r => zmeq (fst r) [[0; (-1); (-1); (-1); (-1); (-1); (-1); (-1); (-1); (-1); (-1); (-1); (-1); (-1); (-1); (-1); (-1); (-1); (-1); (-1); (-1); (-1); (-1); (-1); (-1); (-1); (-1); (-1); (-1); (-1); (-1); (-1); (-1); (-1); (-1); (-1); (-1); (-1); (-1); (-1); (-1); (-1); (-1); (-1); (-1); (-1); (-1); (-1); (-1); (-1); (-1); (-1); (-1); (-1); (-1); (-1); (-1); (-1); (-1); (-1); (-1); (-1); (-1); (-1); (-1); (-1); (-1); (-1); (-1); (-1); (-1); (-1); (-1); (-1); (-1); (-1); (-1); (-1); (-1); (-1); (-1); (-1); (-1); (-1); (-1); (-1); (-1); (-1); (-1); (-1); (-1); (-1); (-1); (-1); (-1); (-1); (-1); (-1); (-1); (-1); (-1); (-1); (-1); (-1); (-1); (-1); (-1); (-1); (-1); (-1); (-1); (-1); (-1); (-1); (-1); (-1); (-1); (-1); (-1); (-1); (-1); (-1); (-1); (-1); (-1); (-1); (-1); (-1); (-1); (-1); (-1); (-1); (-1); (-1); (-1); (-1); (-1); (-1); (-1); (-1); (-1); (-1); (-1); (-1); (-1); (-1); (-1); (-1); (-1); (-1); (-1); (-1); (-1); (-1); (-1); (-1); (-1); (-1); (-1); (-1); (-1)];
    [0; (-1); (-1); (-1); (-1); (-1); (-1); (-1); (-1); (-1); (-1); (-1); (-1); (-1); (-1); (-1); (-1); (-1); (-1); (-1); (-1); (-1); (-1); (-1); (-1); (-1); (-1); (-1); (-1); (-1); (-1); (-1); (-1); (-1); (-1); (-1); (-1); (-1); (-1); (-1); (-1); (-1); (-1); (-1); (-1); (-1); (-1); (-1); (-1); (-1); (-1); (-1); (-1); (-1); (-1); (-1); (-1); (-1); (-1); (-1); (-1); (-1); (-1); (-1); (-1); (-1); (-1); (-1); (-1); (-1); (-1); (-1); (-1); (-1); (-1); (-1); (-1); (-1); (-1); (-1); (-1); (-1); (-1); (-1); (-1); (-1); (-1); (-1); (-1); (-1); (-1); (-1); (-1); (-1); (-1); (-1); (-1); (-1); (-1); (-1); (-1); (-1); (-1); (-1); (-1); (-1); (-1); (-1); (-1); (-1); (-1); (-1); (-1); (-1); (-1); (-1); (-1); (-1); (-1); (-1); (-1); (-1); (-1); (-1); (-1); (-1); (-1); (-1); (-1); (-1); (-1); (-1); (-1); (-1); (-1); (-1); (-1); (-1); (-1); (-1); (-1); (-1); (-1); (-1); (-1); (-1); (-1); (-1); (-1); (-1); (-1); (-1); (-1); (-1); (-1); (-1); (-1); (-1); (-1); (-1); (-1)];
    [0; (-1); (-1); (-1); (-1); (-1); (-1); (-1); (-1); (-1); (-1); (-1); (-1); (-1); (-1); (-1); (-1); (-1); (-1); (-1); (-1); (-1); (-1); (-1); (-1); (-1); (-1); (-1); (-1); (-1); (-1); (-1); (-1); (-1); (-1); (-1); (-1); (-1); (-1); (-1); (-1); (-1); (-1); (-1); (-1); (-1); (-1); (-1); (-1); (-1); (-1); (-1); (-1); (-1); (-1); (-1); (-1); (-1); (-1); (-1); (-1); (-1); (-1); (-1); (-1); (-1); (-1); (-1); (-1); (-1); (-1); (-1); (-1); (-1); (-1); (-1); (-1); (-1); (-1); (-1); (-1); (-1); (-1); (-1); (-1); (-1); (-1); (-1); (-1); (-1); (-1); (-1); (-1); (-1); (-1); (-1); (-1); (-1); (-1); (-1); (-1); (-1); (-1); (-1); (-1); (-1); (-1); (-1); (-1); (-1); (-1); (-1); (-1); (-1); (-1); (-1); (-1); (-1); (-1); (-1); (-1); (-1); (-1); (-1); (-1); (-1); (-1); (-1); (-1); (-1); (-1); (-1); (-1); (-1); (-1); (-1); (-1); (-1); (-1); (-1); (-1); (-1); (-1); (-1); (-1); (-1); (-1); (-1); (-1); (-1); (-1); (-1); (-1); (-1); (-1); (-1); (-1); (-1); (-1); (-1); (-1)];
    [0; (-1); (-1); (-1); (-1); (-1); (-1); (-1); (-1); (-1); (-1); (-1); (-1); (-1); (-1); (-1); (-1); (-1); (-1); (-1); (-1); (-1); (-1); (-1); (-1); (-1); (-1); (-1); (-1); (-1); (-1); (-1); (-1); (-1); (-1); (-1); (-1); (-1); (-1); (-1); (-1); (-1); (-1); (-1); (-1); (-1); (-1); (-1); (-1); (-1); (-1); (-1); (-1); (-1); (-1); (-1); (-1); (-1); (-1); (-1); (-1); (-1); (-1); (-1); (-1); (-1); (-1); (-1); (-1); (-1); (-1); (-1); (-1); (-1); (-1); (-1); (-1); (-1); (-1); (-1); (-1); (-1); (-1); (-1); (-1); (-1); (-1); (-1); (-1); (-1); (-1); (-1); (-1); (-1); (-1); (-1); (-1); (-1); (-1); (-1); (-1); (-1); (-1); (-1); (-1); (-1); (-1); (-1); (-1); (-1); (-1); (-1); (-1); (-1); (-1); (-1); (-1); (-1); (-1); (-1); (-1); (-1); (-1); (-1); (-1); (-1); (-1); (-1); (-1); (-1); (-1); (-1); (-1); (-1); (-1); (-1); (-1); (-1); (-1); (-1); (-1); (-1); (-1); (-1); (-1); (-1); (-1); (-1); (-1); (-1); (-1); (-1); (-1); (-1); (-1); (-1); (-1); (-1); (-1); (-1); (-1)];
    [0; (-1); (-1); (-1); (-1); (-1); (-1); (-1); (-1); (-1); (-1); (-1); (-1); (-1); (-1); (-1); (-1); (-1); (-1); (-1); (-1); (-1); (-1); (-1); (-1); (-1); (-1); (-1); (-1); (-1); (-1); (-1); (-1); (-1); (-1); (-1); (-1); (-1); (-1); (-1); (-1); (-1); (-1); (-1); (-1); (-1); (-1); (-1); (-1); (-1); (-1); (-1); (-1); (-1); (-1); (-1); (-1); (-1); (-1); (-1); (-1); (-1); (-1); (-1); (-1); (-1); (-1); (-1); (-1); (-1); (-1); (-1); (-1); (-1); (-1); (-1); (-1); (-1); (-1); (-1); (-1); (-1); (-1); (-1); (-1); (-1); (-1); (-1); (-1); (-1); (-1); (-1); (-1); (-1); (-1); (-1); (-1); (-1); (-1); (-1); (-1); (-1); (-1); (-1); (-1); (-1); (-1); (-1); (-1); (-1); (-1); (-1); (-1); (-1); (-1); (-1); (-1); (-1); (-1); (-1); (-1); (-1); (-1); (-1); (-1); (-1); (-1); (-1); (-1); (-1); (-1); (-1); (-1); (-1); (-1); (-1); (-1); (-1); (-1); (-1); (-1); (-1); (-1); (-1); (-1); (-1); (-1); (-1); (-1); (-1); (-1); (-1); (-1); (-1); (-1); (-1); (-1); (-1); (-1); (-1); (-1)];
    [0; (-1); (-1); (-1); (-1); (-1); (-1); (-1); (-1); (-1); (-1); (-1); (-1); (-1); (-1); (-1); (-1); (-1); (-1); (-1); (-1); (-1); (-1); (-1); (-1); (-1); (-1); (-1); (-1); (-1); (-1); (-1); (-1); (-1); (-1); (-1); (-1); (-1); (-1); (-1); (-1); (-1); (-1); (-1); (-1); (-1); (-1); (-1); (-1); (-1); (-1); (-1); (-1); (-1); (-1); (-1); (-1); (-1); (-1); (-1); (-1); (-1); (-1); (-1); (-1); (-1); (-1); (-1); (-1); (-1); (-1); (-1); (-1); (-1); (-1); (-1); (-1); (-1); (-1); (-1); (-1); (-1); (-1); (-1); (-1); (-1); (-1); (-1); (-1); (-1); (-1); (-1); (-1); (-1); (-1); (-1); (-1); (-1); (-1); (-1); (-1); (-1); (-1); (-1); (-1); (-1); (-1); (-1); (-1); (-1); (-1); (-1); (-1); (-1); (-1); (-1); (-1); (-1); (-1); (-1); (-1); (-1); (-1); (-1); (-1); (-1); (-1); (-1); (-1); (-1); (-1); (-1); (-1); (-1); (-1); (-1); (-1); (-1); (-1); (-1); (-1); (-1); (-1); (-1); (-1); (-1); (-1); (-1); (-1); (-1); (-1); (-1); (-1); (-1); (-1); (-1); (-1); (-1); (-1); (-1); (-1)];
    [0; (-1); (-1); (-1); (-1); (-1); (-1); (-1); (-1); (-1); (-1); (-1); (-1); (-1); (-1); (-1); (-1); (-1); (-1); (-1); (-1); (-1); (-1); (-1); (-1); (-1); (-1); (-1); (-1); (-1); (-1); (-1); (-1); (-1); (-1); (-1); (-1); (-1); (-1); (-1); (-1); (-1); (-1); (-1); (-1); (-1); (-1); (-1); (-1); (-1); (-1); (-1); (-1); (-1); (-1); (-1); (-1); (-1); (-1); (-1); (-1); (-1); (-1); (-1); (-1); (-1); (-1); (-1); (-1); (-1); (-1); (-1); (-1); (-1); (-1); (-1); (-1); (-1); (-1); (-1); (-1); (-1); (-1); (-1); (-1); (-1); (-1); (-1); (-1); (-1); (-1); (-1); (-1); (-1); (-1); (-1); (-1); (-1); (-1); (-1); (-1); (-1); (-1); (-1); (-1); (-1); (-1); (-1); (-1); (-1); (-1); (-1); (-1); (-1); (-1); (-1); (-1); (-1); (-1); (-1); (-1); (-1); (-1); (-1); (-1); (-1); (-1); (-1); (-1); (-1); (-1); (-1); (-1); (-1); (-1); (-1); (-1); (-1); (-1); (-1); (-1); (-1); (-1); (-1); (-1); (-1); (-1); (-1); (-1); (-1); (-1); (-1); (-1); (-1); (-1); (-1); (-1); (-1); (-1); (-1); (-1)];
    [0; (-1); (-1); (-1); (-1); (-1); (-1); (-1); (-1); (-1); (-1); (-1); (-1); (-1); (-1); (-1); (-1); (-1); (-1); (-1); (-1); (-1); (-1); (-1); (-1); (-1); (-1); (-1); (-1); (-1); (-1); (-1); (-1); (-1); (-1); (-1); (-1); (-1); (-1); (-1); (-1); (-1); (-1); (-1); (-1); (-1); (-1); (-1); (-1); (-1); (-1); (-1); (-1); (-1); (-1); (-1); (-1); (-1); (-1); (-1); (-1); (-1); (-1); (-1); (-1); (-1); (-1); (-1); (-1); (-1); (-1); (-1); (-1); (-1); (-1); (-1); (-1); (-1); (-1); (-1); (-1); (-1); (-1); (-1); (-1); (-1); (-1); (-1); (-1); (-1); (-1); (-1); (-1); (-1); (-1); (-1); (-1); (-1); (-1); (-1); (-1); (-1); (-1); (-1); (-1); (-1); (-1); (-1); (-1); (-1); (-1); (-1); (-1); (-1); (-1); (-1); (-1); (-1); (-1); (-1); (-1); (-1); (-1); (-1); (-1); (-1); (-1); (-1); (-1); (-1); (-1); (-1); (-1); (-1); (-1); (-1); (-1); (-1); (-1); (-1); (-1); (-1); (-1); (-1); (-1); (-1); (-1); (-1); (-1); (-1); (-1); (-1); (-1); (-1); (-1); (-1); (-1); (-1); (-1); (-1); (-1)];
    [0; (-1); (-1); (-1); (-1); (-1); (-1); (-1); (-1); (-1); (-1); (-1); (-1); (-1); (-1); (-1); (-1); (-1); (-1); (-1); (-1); (-1); (-1); (-1); (-1); (-1); (-1); (-1); (-1); (-1); (-1); (-1); (-1); (-1); (-1); (-1); (-1); (-1); (-1); (-1); (-1); (-1); (-1); (-1); (-1); (-1); (-1); (-1); (-1); (-1); (-1); (-1); (-1); (-1); (-1); (-1); (-1); (-1); (-1); (-1); (-1); (-1); (-1); (-1); (-1); (-1); (-1); (-1); (-1); (-1); (-1); (-1); (-1); (-1); (-1); (-1); (-1); (-1); (-1); (-1); (-1); (-1); (-1); (-1); (-1); (-1); (-1); (-1); (-1); (-1); (-1); (-1); (-1); (-1); (-1); (-1); (-1); (-1); (-1); (-1); (-1); (-1); (-1); (-1); (-1); (-1); (-1); (-1); (-1); (-1); (-1); (-1); (-1); (-1); (-1); (-1); (-1); (-1); (-1); (-1); (-1); (-1); (-1); (-1); (-1); (-1); (-1); (-1); (-1); (-1); (-1); (-1); (-1); (-1); (-1); (-1); (-1); (-1); (-1); (-1); (-1); (-1); (-1); (-1); (-1); (-1); (-1); (-1); (-1); (-1); (-1); (-1); (-1); (-1); (-1); (-1); (-1); (-1); (-1); (-1); (-1)];
    [0; (-1); (-1); (-1); (-1); (-1); (-1); (-1); (-1); (-1); (-1); (-1); (-1); (-1); (-1); (-1); (-1); (-1); (-1); (-1); (-1); (-1); (-1); (-1); (-1); (-1); (-1); (-1); (-1); (-1); (-1); (-1); (-1); (-1); (-1); (-1); (-1); (-1); (-1); (-1); (-1); (-1); (-1); (-1); (-1); (-1); (-1); (-1); (-1); (-1); (-1); (-1); (-1); (-1); (-1); (-1); (-1); (-1); (-1); (-1); (-1); (-1); (-1); (-1); (-1); (-1); (-1); (-1); (-1); (-1); (-1); (-1); (-1); (-1); (-1); (-1); (-1); (-1); (-1); (-1); (-1); (-1); (-1); (-1); (-1); (-1); (-1); (-1); (-1); (-1); (-1); (-1); (-1); (-1); (-1); (-1); (-1); (-1); (-1); (-1); (-1); (-1); (-1); (-1); (-1); (-1); (-1); (-1); (-1); (-1); (-1); (-1); (-1); (-1); (-1); (-1); (-1); (-1); (-1); (-1); (-1); (-1); (-1); (-1); (-1); (-1); (-1); (-1); (-1); (-1); (-1); (-1); (-1); (-1); (-1); (-1); (-1); (-1); (-1); (-1); (-1); (-1); (-1); (-1); (-1); (-1); (-1); (-1); (-1); (-1); (-1); (-1); (-1); (-1); (-1); (-1); (-1); (-1); (-1); (-1); (-1)];
    [0; (-1); (-1); (-1); (-1); (-1); (-1); (-1); (-1); (-1); (-1); (-1); (-1); (-1); (-1); (-1); (-1); (-1); (-1); (-1); (-1); (-1); (-1); (-1); (-1); (-1); (-1); (-1); (-1); (-1); (-1); (-1); (-1); (-1); (-1); (-1); (-1); (-1); (-1); (-1); (-1); (-1); (-1); (-1); (-1); (-1); (-1); (-1); (-1); (-1); (-1); (-1); (-1); (-1); (-1); (-1); (-1); (-1); (-1); (-1); (-1); (-1); (-1); (-1); (-1); (-1); (-1); (-1); (-1); (-1); (-1); (-1); (-1); (-1); (-1); (-1); (-1); (-1); (-1); (-1); (-1); (-1); (-1); (-1); (-1); (-1); (-1); (-1); (-1); (-1); (-1); (-1); (-1); (-1); (-1); (-1); (-1); (-1); (-1); (-1); (-1); (-1); (-1); (-1); (-1); (-1); (-1); (-1); (-1); (-1); (-1); (-1); (-1); (-1); (-1); (-1); (-1); (-1); (-1); (-1); (-1); (-1); (-1); (-1); (-1); (-1); (-1); (-1); (-1); (-1); (-1); (-1); (-1); (-1); (-1); (-1); (-1); (-1); (-1); (-1); (-1); (-1); (-1); (-1); (-1); (-1); (-1); (-1); (-1); (-1); (-1); (-1); (-1); (-1); (-1); (-1); (-1); (-1); (-1); (-1); (-1)];
    [0; (-1); (-1); (-1); (-1); (-1); (-1); (-1); (-1); (-1); (-1); (-1); (-1); (-1); (-1); (-1); (-1); (-1); (-1); (-1); (-1); (-1); (-1); (-1); (-1); (-1); (-1); (-1); (-1); (-1); (-1); (-1); (-1); (-1); (-1); (-1); (-1); (-1); (-1); (-1); (-1); (-1); (-1); (-1); (-1); (-1); (-1); (-1); (-1); (-1); (-1); (-1); (-1); (-1); (-1); (-1); (-1); (-1); (-1); (-1); (-1); (-1); (-1); (-1); (-1); (-1); (-1); (-1); (-1); (-1); (-1); (-1); (-1); (-1); (-1); (-1); (-1); (-1); (-1); (-1); (-1); (-1); (-1); (-1); (-1); (-1); (-1); (-1); (-1); (-1); (-1); (-1); (-1); (-1); (-1); (-1); (-1); (-1); (-1); (-1); (-1); (-1); (-1); (-1); (-1); (-1); (-1); (-1); (-1); (-1); (-1); (-1); (-1); (-1); (-1); (-1); (-1); (-1); (-1); (-1); (-1); (-1); (-1); (-1); (-1); (-1); (-1); (-1); (-1); (-1); (-1); (-1); (-1); (-1); (-1); (-1); (-1); (-1); (-1); (-1); (-1); (-1); (-1); (-1); (-1); (-1); (-1); (-1); (-1); (-1); (-1); (-1); (-1); (-1); (-1); (-1); (-1); (-1); (-1); (-1); (-1)];
    [0; (-1); (-1); (-1); (-1); (-1); (-1); (-1); (-1); (-1); (-1); (-1); (-1); (-1); (-1); (-1); (-1); (-1); (-1); (-1); (-1); (-1); (-1); (-1); (-1); (-1); (-1); (-1); (-1); (-1); (-1); (-1); (-1); (-1); (-1); (-1); (-1); (-1); (-1); (-1); (-1); (-1); (-1); (-1); (-1); (-1); (-1); (-1); (-1); (-1); (-1); (-1); (-1); (-1); (-1); (-1); (-1); (-1); (-1); (-1); (-1); (-1); (-1); (-1); (-1); (-1); (-1); (-1); (-1); (-1); (-1); (-1); (-1); (-1); (-1); (-1); (-1); (-1); (-1); (-1); (-1); (-1); (-1); (-1); (-1); (-1); (-1); (-1); (-1); (-1); (-1); (-1); (-1); (-1); (-1); (-1); (-1); (-1); (-1); (-1); (-1); (-1); (-1); (-1); (-1); (-1); (-1); (-1); (-1); (-1); (-1); (-1); (-1); (-1); (-1); (-1); (-1); (-1); (-1); (-1); (-1); (-1); (-1); (-1); (-1); (-1); (-1); (-1); (-1); (-1); (-1); (-1); (-1); (-1); (-1); (-1); (-1); (-1); (-1); (-1); (-1); (-1); (-1); (-1); (-1); (-1); (-1); (-1); (-1); (-1); (-1); (-1); (-1); (-1); (-1); (-1); (-1); (-1); (-1); (-1); (-1)];
    [0; (-1); (-1); (-1); (-1); (-1); (-1); (-1); (-1); (-1); (-1); (-1); (-1); (-1); (-1); (-1); (-1); (-1); (-1); (-1); (-1); (-1); (-1); (-1); (-1); (-1); (-1); (-1); (-1); (-1); (-1); (-1); (-1); (-1); (-1); (-1); (-1); (-1); (-1); (-1); (-1); (-1); (-1); (-1); (-1); (-1); (-1); (-1); (-1); (-1); (-1); (-1); (-1); (-1); (-1); (-1); (-1); (-1); (-1); (-1); (-1); (-1); (-1); (-1); (-1); (-1); (-1); (-1); (-1); (-1); (-1); (-1); (-1); (-1); (-1); (-1); (-1); (-1); (-1); (-1); (-1); (-1); (-1); (-1); (-1); (-1); (-1); (-1); (-1); (-1); (-1); (-1); (-1); (-1); (-1); (-1); (-1); (-1); (-1); (-1); (-1); (-1); (-1); (-1); (-1); (-1); (-1); (-1); (-1); (-1); (-1); (-1); (-1); (-1); (-1); (-1); (-1); (-1); (-1); (-1); (-1); (-1); (-1); (-1); (-1); (-1); (-1); (-1); (-1); (-1); (-1); (-1); (-1); (-1); (-1); (-1); (-1); (-1); (-1); (-1); (-1); (-1); (-1); (-1); (-1); (-1); (-1); (-1); (-1); (-1); (-1); (-1); (-1); (-1); (-1); (-1); (-1); (-1); (-1); (-1); (-1)];
    [0; (-1); (-1); (-1); (-1); (-1); (-1); (-1); (-1); (-1); (-1); (-1); (-1); (-1); (-1); (-1); (-1); (-1); (-1); (-1); (-1); (-1); (-1); (-1); (-1); (-1); (-1); (-1); (-1); (-1); (-1); (-1); (-1); (-1); (-1); (-1); (-1); (-1); (-1); (-1); (-1); (-1); (-1); (-1); (-1); (-1); (-1); (-1); (-1); (-1); (-1); (-1); (-1); (-1); (-1); (-1); (-1); (-1); (-1); (-1); (-1); (-1); (-1); (-1); (-1); (-1); (-1); (-1); (-1); (-1); (-1); (-1); (-1); (-1); (-1); (-1); (-1); (-1); (-1); (-1); (-1); (-1); (-1); (-1); (-1); (-1); (-1); (-1); (-1); (-1); (-1); (-1); (-1); (-1); (-1); (-1); (-1); (-1); (-1); (-1); (-1); (-1); (-1); (-1); (-1); (-1); (-1); (-1); (-1); (-1); (-1); (-1); (-1); (-1); (-1); (-1); (-1); (-1); (-1); (-1); (-1); (-1); (-1); (-1); (-1); (-1); (-1); (-1); (-1); (-1); (-1); (-1); (-1); (-1); (-1); (-1); (-1); (-1); (-1); (-1); (-1); (-1); (-1); (-1); (-1); (-1); (-1); (-1); (-1); (-1); (-1); (-1); (-1); (-1); (-1); (-1); (-1); (-1); (-1); (-1); (-1)];
    [0; (-1); (-1); (-1); (-1); (-1); (-1); (-1); (-1); (-1); (-1); (-1); (-1); (-1); (-1); (-1); (-1); (-1); (-1); (-1); (-1); (-1); (-1); (-1); (-1); (-1); (-1); (-1); (-1); (-1); (-1); (-1); (-1); (-1); (-1); (-1); (-1); (-1); (-1); (-1); (-1); (-1); (-1); (-1); (-1); (-1); (-1); (-1); (-1); (-1); (-1); (-1); (-1); (-1); (-1); (-1); (-1); (-1); (-1); (-1); (-1); (-1); (-1); (-1); (-1); (-1); (-1); (-1); (-1); (-1); (-1); (-1); (-1); (-1); (-1); (-1); (-1); (-1); (-1); (-1); (-1); (-1); (-1); (-1); (-1); (-1); (-1); (-1); (-1); (-1); (-1); (-1); (-1); (-1); (-1); (-1); (-1); (-1); (-1); (-1); (-1); (-1); (-1); (-1); (-1); (-1); (-1); (-1); (-1); (-1); (-1); (-1); (-1); (-1); (-1); (-1); (-1); (-1); (-1); (-1); (-1); (-1); (-1); (-1); (-1); (-1); (-1); (-1); (-1); (-1); (-1); (-1); (-1); (-1); (-1); (-1); (-1); (-1); (-1); (-1); (-1); (-1); (-1); (-1); (-1); (-1); (-1); (-1); (-1); (-1); (-1); (-1); (-1); (-1); (-1); (-1); (-1); (-1); (-1); (-1); (-1)];
    [0; (-1); (-1); (-1); (-1); (-1); (-1); (-1); (-1); (-1); (-1); (-1); (-1); (-1); (-1); (-1); (-1); (-1); (-1); (-1); (-1); (-1); (-1); (-1); (-1); (-1); (-1); (-1); (-1); (-1); (-1); (-1); (-1); (-1); (-1); (-1); (-1); (-1); (-1); (-1); (-1); (-1); (-1); (-1); (-1); (-1); (-1); (-1); (-1); (-1); (-1); (-1); (-1); (-1); (-1); (-1); (-1); (-1); (-1); (-1); (-1); (-1); (-1); (-1); (-1); (-1); (-1); (-1); (-1); (-1); (-1); (-1); (-1); (-1); (-1); (-1); (-1); (-1); (-1); (-1); (-1); (-1); (-1); (-1); (-1); (-1); (-1); (-1); (-1); (-1); (-1); (-1); (-1); (-1); (-1); (-1); (-1); (-1); (-1); (-1); (-1); (-1); (-1); (-1); (-1); (-1); (-1); (-1); (-1); (-1); (-1); (-1); (-1); (-1); (-1); (-1); (-1); (-1); (-1); (-1); (-1); (-1); (-1); (-1); (-1); (-1); (-1); (-1); (-1); (-1); (-1); (-1); (-1); (-1); (-1); (-1); (-1); (-1); (-1); (-1); (-1); (-1); (-1); (-1); (-1); (-1); (-1); (-1); (-1); (-1); (-1); (-1); (-1); (-1); (-1); (-1); (-1); (-1); (-1); (-1); (-1)];
    [0; (-1); (-1); (-1); (-1); (-1); (-1); (-1); (-1); (-1); (-1); (-1); (-1); (-1); (-1); (-1); (-1); (-1); (-1); (-1); (-1); (-1); (-1); (-1); (-1); (-1); (-1); (-1); (-1); (-1); (-1); (-1); (-1); (-1); (-1); (-1); (-1); (-1); (-1); (-1); (-1); (-1); (-1); (-1); (-1); (-1); (-1); (-1); (-1); (-1); (-1); (-1); (-1); (-1); (-1); (-1); (-1); (-1); (-1); (-1); (-1); (-1); (-1); (-1); (-1); (-1); (-1); (-1); (-1); (-1); (-1); (-1); (-1); (-1); (-1); (-1); (-1); (-1); (-1); (-1); (-1); (-1); (-1); (-1); (-1); (-1); (-1); (-1); (-1); (-1); (-1); (-1); (-1); (-1); (-1); (-1); (-1); (-1); (-1); (-1); (-1); (-1); (-1); (-1); (-1); (-1); (-1); (-1); (-1); (-1); (-1); (-1); (-1); (-1); (-1); (-1); (-1); (-1); (-1); (-1); (-1); (-1); (-1); (-1); (-1); (-1); (-1); (-1); (-1); (-1); (-1); (-1); (-1); (-1); (-1); (-1); (-1); (-1); (-1); (-1); (-1); (-1); (-1); (-1); (-1); (-1); (-1); (-1); (-1); (-1); (-1); (-1); (-1); (-1); (-1); (-1); (-1); (-1); (-1); (-1); (-1)];
    [0; (-1); (-1); (-1); (-1); (-1); (-1); (-1); (-1); (-1); (-1); (-1); (-1); (-1); (-1); (-1); (-1); (-1); (-1); (-1); (-1); (-1); (-1); (-1); (-1); (-1); (-1); (-1); (-1); (-1); (-1); (-1); (-1); (-1); (-1); (-1); (-1); (-1); (-1); (-1); (-1); (-1); (-1); (-1); (-1); (-1); (-1); (-1); (-1); (-1); (-1); (-1); (-1); (-1); (-1); (-1); (-1); (-1); (-1); (-1); (-1); (-1); (-1); (-1); (-1); (-1); (-1); (-1); (-1); (-1); (-1); (-1); (-1); (-1); (-1); (-1); (-1); (-1); (-1); (-1); (-1); (-1); (-1); (-1); (-1); (-1); (-1); (-1); (-1); (-1); (-1); (-1); (-1); (-1); (-1); (-1); (-1); (-1); (-1); (-1); (-1); (-1); (-1); (-1); (-1); (-1); (-1); (-1); (-1); (-1); (-1); (-1); (-1); (-1); (-1); (-1); (-1); (-1); (-1); (-1); (-1); (-1); (-1); (-1); (-1); (-1); (-1); (-1); (-1); (-1); (-1); (-1); (-1); (-1); (-1); (-1); (-1); (-1); (-1); (-1); (-1); (-1); (-1); (-1); (-1); (-1); (-1); (-1); (-1); (-1); (-1); (-1); (-1); (-1); (-1); (-1); (-1); (-1); (-1); (-1); (-1)];
    [0; (-1); (-1); (-1); (-1); (-1); (-1); (-1); (-1); (-1); (-1); (-1); (-1); (-1); (-1); (-1); (-1); (-1); (-1); (-1); (-1); (-1); (-1); (-1); (-1); (-1); (-1); (-1); (-1); (-1); (-1); (-1); (-1); (-1); (-1); (-1); (-1); (-1); (-1); (-1); (-1); (-1); (-1); (-1); (-1); (-1); (-1); (-1); (-1); (-1); (-1); (-1); (-1); (-1); (-1); (-1); (-1); (-1); (-1); (-1); (-1); (-1); (-1); (-1); (-1); (-1); (-1); (-1); (-1); (-1); (-1); (-1); (-1); (-1); (-1); (-1); (-1); (-1); (-1); (-1); (-1); (-1); (-1); (-1); (-1); (-1); (-1); (-1); (-1); (-1); (-1); (-1); (-1); (-1); (-1); (-1); (-1); (-1); (-1); (-1); (-1); (-1); (-1); (-1); (-1); (-1); (-1); (-1); (-1); (-1); (-1); (-1); (-1); (-1); (-1); (-1); (-1); (-1); (-1); (-1); (-1); (-1); (-1); (-1); (-1); (-1); (-1); (-1); (-1); (-1); (-1); (-1); (-1); (-1); (-1); (-1); (-1); (-1); (-1); (-1); (-1); (-1); (-1); (-1); (-1); (-1); (-1); (-1); (-1); (-1); (-1); (-1); (-1); (-1); (-1); (-1); (-1); (-1); (-1); (-1); (-1)];
    [0; (-1); (-1); (-1); (-1); (-1); (-1); (-1); (-1); (-1); (-1); (-1); (-1); (-1); (-1); (-1); (-1); (-1); (-1); (-1); (-1); (-1); (-1); (-1); (-1); (-1); (-1); (-1); (-1); (-1); (-1); (-1); (-1); (-1); (-1); (-1); (-1); (-1); (-1); (-1); (-1); (-1); (-1); (-1); (-1); (-1); (-1); (-1); (-1); (-1); (-1); (-1); (-1); (-1); (-1); (-1); (-1); (-1); (-1); (-1); (-1); (-1); (-1); (-1); (-1); (-1); (-1); (-1); (-1); (-1); (-1); (-1); (-1); (-1); (-1); (-1); (-1); (-1); (-1); (-1); (-1); (-1); (-1); (-1); (-1); (-1); (-1); (-1); (-1); (-1); (-1); (-1); (-1); (-1); (-1); (-1); (-1); (-1); (-1); (-1); (-1); (-1); (-1); (-1); (-1); (-1); (-1); (-1); (-1); (-1); (-1); (-1); (-1); (-1); (-1); (-1); (-1); (-1); (-1); (-1); (-1); (-1); (-1); (-1); (-1); (-1); (-1); (-1); (-1); (-1); (-1); (-1); (-1); (-1); (-1); (-1); (-1); (-1); (-1); (-1); (-1); (-1); (-1); (-1); (-1); (-1); (-1); (-1); (-1); (-1); (-1); (-1); (-1); (-1); (-1); (-1); (-1); (-1); (-1); (-1); (-1)];
    [0; (-1); (-1); (-1); (-1); (-1); (-1); (-1); (-1); (-1); (-1); (-1); (-1); (-1); (-1); (-1); (-1); (-1); (-1); (-1); (-1); (-1); (-1); (-1); (-1); (-1); (-1); (-1); (-1); (-1); (-1); (-1); (-1); (-1); (-1); (-1); (-1); (-1); (-1); (-1); (-1); (-1); (-1); (-1); (-1); (-1); (-1); (-1); (-1); (-1); (-1); (-1); (-1); (-1); (-1); (-1); (-1); (-1); (-1); (-1); (-1); (-1); (-1); (-1); (-1); (-1); (-1); (-1); (-1); (-1); (-1); (-1); (-1); (-1); (-1); (-1); (-1); (-1); (-1); (-1); (-1); (-1); (-1); (-1); (-1); (-1); (-1); (-1); (-1); (-1); (-1); (-1); (-1); (-1); (-1); (-1); (-1); (-1); (-1); (-1); (-1); (-1); (-1); (-1); (-1); (-1); (-1); (-1); (-1); (-1); (-1); (-1); (-1); (-1); (-1); (-1); (-1); (-1); (-1); (-1); (-1); (-1); (-1); (-1); (-1); (-1); (-1); (-1); (-1); (-1); (-1); (-1); (-1); (-1); (-1); (-1); (-1); (-1); (-1); (-1); (-1); (-1); (-1); (-1); (-1); (-1); (-1); (-1); (-1); (-1); (-1); (-1); (-1); (-1); (-1); (-1); (-1); (-1); (-1); (-1); (-1)];
    [0; (-1); (-1); (-1); (-1); (-1); (-1); (-1); (-1); (-1); (-1); (-1); (-1); (-1); (-1); (-1); (-1); (-1); (-1); (-1); (-1); (-1); (-1); (-1); (-1); (-1); (-1); (-1); (-1); (-1); (-1); (-1); (-1); (-1); (-1); (-1); (-1); (-1); (-1); (-1); (-1); (-1); (-1); (-1); (-1); (-1); (-1); (-1); (-1); (-1); (-1); (-1); (-1); (-1); (-1); (-1); (-1); (-1); (-1); (-1); (-1); (-1); (-1); (-1); (-1); (-1); (-1); (-1); (-1); (-1); (-1); (-1); (-1); (-1); (-1); (-1); (-1); (-1); (-1); (-1); (-1); (-1); (-1); (-1); (-1); (-1); (-1); (-1); (-1); (-1); (-1); (-1); (-1); (-1); (-1); (-1); (-1); (-1); (-1); (-1); (-1); (-1); (-1); (-1); (-1); (-1); (-1); (-1); (-1); (-1); (-1); (-1); (-1); (-1); (-1); (-1); (-1); (-1); (-1); (-1); (-1); (-1); (-1); (-1); (-1); (-1); (-1); (-1); (-1); (-1); (-1); (-1); (-1); (-1); (-1); (-1); (-1); (-1); (-1); (-1); (-1); (-1); (-1); (-1); (-1); (-1); (-1); (-1); (-1); (-1); (-1); (-1); (-1); (-1); (-1); (-1); (-1); (-1); (-1); (-1); (-1)];
    [0; (-1); (-1); (-1); (-1); (-1); (-1); (-1); (-1); (-1); (-1); (-1); (-1); (-1); (-1); (-1); (-1); (-1); (-1); (-1); (-1); (-1); (-1); (-1); (-1); (-1); (-1); (-1); (-1); (-1); (-1); (-1); (-1); (-1); (-1); (-1); (-1); (-1); (-1); (-1); (-1); (-1); (-1); (-1); (-1); (-1); (-1); (-1); (-1); (-1); (-1); (-1); (-1); (-1); (-1); (-1); (-1); (-1); (-1); (-1); (-1); (-1); (-1); (-1); (-1); (-1); (-1); (-1); (-1); (-1); (-1); (-1); (-1); (-1); (-1); (-1); (-1); (-1); (-1); (-1); (-1); (-1); (-1); (-1); (-1); (-1); (-1); (-1); (-1); (-1); (-1); (-1); (-1); (-1); (-1); (-1); (-1); (-1); (-1); (-1); (-1); (-1); (-1); (-1); (-1); (-1); (-1); (-1); (-1); (-1); (-1); (-1); (-1); (-1); (-1); (-1); (-1); (-1); (-1); (-1); (-1); (-1); (-1); (-1); (-1); (-1); (-1); (-1); (-1); (-1); (-1); (-1); (-1); (-1); (-1); (-1); (-1); (-1); (-1); (-1); (-1); (-1); (-1); (-1); (-1); (-1); (-1); (-1); (-1); (-1); (-1); (-1); (-1); (-1); (-1); (-1); (-1); (-1); (-1); (-1); (-1)];
    [0; (-1); (-1); (-1); (-1); (-1); (-1); (-1); (-1); (-1); (-1); (-1); (-1); (-1); (-1); (-1); (-1); (-1); (-1); (-1); (-1); (-1); (-1); (-1); (-1); (-1); (-1); (-1); (-1); (-1); (-1); (-1); (-1); (-1); (-1); (-1); (-1); (-1); (-1); (-1); (-1); (-1); (-1); (-1); (-1); (-1); (-1); (-1); (-1); (-1); (-1); (-1); (-1); (-1); (-1); (-1); (-1); (-1); (-1); (-1); (-1); (-1); (-1); (-1); (-1); (-1); (-1); (-1); (-1); (-1); (-1); (-1); (-1); (-1); (-1); (-1); (-1); (-1); (-1); (-1); (-1); (-1); (-1); (-1); (-1); (-1); (-1); (-1); (-1); (-1); (-1); (-1); (-1); (-1); (-1); (-1); (-1); (-1); (-1); (-1); (-1); (-1); (-1); (-1); (-1); (-1); (-1); (-1); (-1); (-1); (-1); (-1); (-1); (-1); (-1); (-1); (-1); (-1); (-1); (-1); (-1); (-1); (-1); (-1); (-1); (-1); (-1); (-1); (-1); (-1); (-1); (-1); (-1); (-1); (-1); (-1); (-1); (-1); (-1); (-1); (-1); (-1); (-1); (-1); (-1); (-1); (-1); (-1); (-1); (-1); (-1); (-1); (-1); (-1); (-1); (-1); (-1); (-1); (-1); (-1); (-1)];
    [0; (-1); (-1); (-1); (-1); (-1); (-1); (-1); (-1); (-1); (-1); (-1); (-1); (-1); (-1); (-1); (-1); (-1); (-1); (-1); (-1); (-1); (-1); (-1); (-1); (-1); (-1); (-1); (-1); (-1); (-1); (-1); (-1); (-1); (-1); (-1); (-1); (-1); (-1); (-1); (-1); (-1); (-1); (-1); (-1); (-1); (-1); (-1); (-1); (-1); (-1); (-1); (-1); (-1); (-1); (-1); (-1); (-1); (-1); (-1); (-1); (-1); (-1); (-1); (-1); (-1); (-1); (-1); (-1); (-1); (-1); (-1); (-1); (-1); (-1); (-1); (-1); (-1); (-1); (-1); (-1); (-1); (-1); (-1); (-1); (-1); (-1); (-1); (-1); (-1); (-1); (-1); (-1); (-1); (-1); (-1); (-1); (-1); (-1); (-1); (-1); (-1); (-1); (-1); (-1); (-1); (-1); (-1); (-1); (-1); (-1); (-1); (-1); (-1); (-1); (-1); (-1); (-1); (-1); (-1); (-1); (-1); (-1); (-1); (-1); (-1); (-1); (-1); (-1); (-1); (-1); (-1); (-1); (-1); (-1); (-1); (-1); (-1); (-1); (-1); (-1); (-1); (-1); (-1); (-1); (-1); (-1); (-1); (-1); (-1); (-1); (-1); (-1); (-1); (-1); (-1); (-1); (-1); (-1); (-1); (-1)];
    [0; (-1); (-1); (-1); (-1); (-1); (-1); (-1); (-1); (-1); (-1); (-1); (-1); (-1); (-1); (-1); (-1); (-1); (-1); (-1); (-1); (-1); (-1); (-1); (-1); (-1); (-1); (-1); (-1); (-1); (-1); (-1); (-1); (-1); (-1); (-1); (-1); (-1); (-1); (-1); (-1); (-1); (-1); (-1); (-1); (-1); (-1); (-1); (-1); (-1); (-1); (-1); (-1); (-1); (-1); (-1); (-1); (-1); (-1); (-1); (-1); (-1); (-1); (-1); (-1); (-1); (-1); (-1); (-1); (-1); (-1); (-1); (-1); (-1); (-1); (-1); (-1); (-1); (-1); (-1); (-1); (-1); (-1); (-1); (-1); (-1); (-1); (-1); (-1); (-1); (-1); (-1); (-1); (-1); (-1); (-1); (-1); (-1); (-1); (-1); (-1); (-1); (-1); (-1); (-1); (-1); (-1); (-1); (-1); (-1); (-1); (-1); (-1); (-1); (-1); (-1); (-1); (-1); (-1); (-1); (-1); (-1); (-1); (-1); (-1); (-1); (-1); (-1); (-1); (-1); (-1); (-1); (-1); (-1); (-1); (-1); (-1); (-1); (-1); (-1); (-1); (-1); (-1); (-1); (-1); (-1); (-1); (-1); (-1); (-1); (-1); (-1); (-1); (-1); (-1); (-1); (-1); (-1); (-1); (-1); (-1)];
    [0; (-1); (-1); (-1); (-1); (-1); (-1); (-1); (-1); (-1); (-1); (-1); (-1); (-1); (-1); (-1); (-1); (-1); (-1); (-1); (-1); (-1); (-1); (-1); (-1); (-1); (-1); (-1); (-1); (-1); (-1); (-1); (-1); (-1); (-1); (-1); (-1); (-1); (-1); (-1); (-1); (-1); (-1); (-1); (-1); (-1); (-1); (-1); (-1); (-1); (-1); (-1); (-1); (-1); (-1); (-1); (-1); (-1); (-1); (-1); (-1); (-1); (-1); (-1); (-1); (-1); (-1); (-1); (-1); (-1); (-1); (-1); (-1); (-1); (-1); (-1); (-1); (-1); (-1); (-1); (-1); (-1); (-1); (-1); (-1); (-1); (-1); (-1); (-1); (-1); (-1); (-1); (-1); (-1); (-1); (-1); (-1); (-1); (-1); (-1); (-1); (-1); (-1); (-1); (-1); (-1); (-1); (-1); (-1); (-1); (-1); (-1); (-1); (-1); (-1); (-1); (-1); (-1); (-1); (-1); (-1); (-1); (-1); (-1); (-1); (-1); (-1); (-1); (-1); (-1); (-1); (-1); (-1); (-1); (-1); (-1); (-1); (-1); (-1); (-1); (-1); (-1); (-1); (-1); (-1); (-1); (-1); (-1); (-1); (-1); (-1); (-1); (-1); (-1); (-1); (-1); (-1); (-1); (-1); (-1); (-1)];
    [0; (-1); (-1); (-1); (-1); (-1); (-1); (-1); (-1); (-1); (-1); (-1); (-1); (-1); (-1); (-1); (-1); (-1); (-1); (-1); (-1); (-1); (-1); (-1); (-1); (-1); (-1); (-1); (-1); (-1); (-1); (-1); (-1); (-1); (-1); (-1); (-1); (-1); (-1); (-1); (-1); (-1); (-1); (-1); (-1); (-1); (-1); (-1); (-1); (-1); (-1); (-1); (-1); (-1); (-1); (-1); (-1); (-1); (-1); (-1); (-1); (-1); (-1); (-1); (-1); (-1); (-1); (-1); (-1); (-1); (-1); (-1); (-1); (-1); (-1); (-1); (-1); (-1); (-1); (-1); (-1); (-1); (-1); (-1); (-1); (-1); (-1); (-1); (-1); (-1); (-1); (-1); (-1); (-1); (-1); (-1); (-1); (-1); (-1); (-1); (-1); (-1); (-1); (-1); (-1); (-1); (-1); (-1); (-1); (-1); (-1); (-1); (-1); (-1); (-1); (-1); (-1); (-1); (-1); (-1); (-1); (-1); (-1); (-1); (-1); (-1); (-1); (-1); (-1); (-1); (-1); (-1); (-1); (-1); (-1); (-1); (-1); (-1); (-1); (-1); (-1); (-1); (-1); (-1); (-1); (-1); (-1); (-1); (-1); (-1); (-1); (-1); (-1); (-1); (-1); (-1); (-1); (-1); (-1); (-1); (-1)];
    [0; (-1); (-1); (-1); (-1); (-1); (-1); (-1); (-1); (-1); (-1); (-1); (-1); (-1); (-1); (-1); (-1); (-1); (-1); (-1); (-1); (-1); (-1); (-1); (-1); (-1); (-1); (-1); (-1); (-1); (-1); (-1); (-1); (-1); (-1); (-1); (-1); (-1); (-1); (-1); (-1); (-1); (-1); (-1); (-1); (-1); (-1); (-1); (-1); (-1); (-1); (-1); (-1); (-1); (-1); (-1); (-1); (-1); (-1); (-1); (-1); (-1); (-1); (-1); (-1); (-1); (-1); (-1); (-1); (-1); (-1); (-1); (-1); (-1); (-1); (-1); (-1); (-1); (-1); (-1); (-1); (-1); (-1); (-1); (-1); (-1); (-1); (-1); (-1); (-1); (-1); (-1); (-1); (-1); (-1); (-1); (-1); (-1); (-1); (-1); (-1); (-1); (-1); (-1); (-1); (-1); (-1); (-1); (-1); (-1); (-1); (-1); (-1); (-1); (-1); (-1); (-1); (-1); (-1); (-1); (-1); (-1); (-1); (-1); (-1); (-1); (-1); (-1); (-1); (-1); (-1); (-1); (-1); (-1); (-1); (-1); (-1); (-1); (-1); (-1); (-1); (-1); (-1); (-1); (-1); (-1); (-1); (-1); (-1); (-1); (-1); (-1); (-1); (-1); (-1); (-1); (-1); (-1); (-1); (-1); (-1)];
    [0; (-1); (-1); (-1); (-1); (-1); (-1); (-1); (-1); (-1); (-1); (-1); (-1); (-1); (-1); (-1); (-1); (-1); (-1); (-1); (-1); (-1); (-1); (-1); (-1); (-1); (-1); (-1); (-1); (-1); (-1); (-1); (-1); (-1); (-1); (-1); (-1); (-1); (-1); (-1); (-1); (-1); (-1); (-1); (-1); (-1); (-1); (-1); (-1); (-1); (-1); (-1); (-1); (-1); (-1); (-1); (-1); (-1); (-1); (-1); (-1); (-1); (-1); (-1); (-1); (-1); (-1); (-1); (-1); (-1); (-1); (-1); (-1); (-1); (-1); (-1); (-1); (-1); (-1); (-1); (-1); (-1); (-1); (-1); (-1); (-1); (-1); (-1); (-1); (-1); (-1); (-1); (-1); (-1); (-1); (-1); (-1); (-1); (-1); (-1); (-1); (-1); (-1); (-1); (-1); (-1); (-1); (-1); (-1); (-1); (-1); (-1); (-1); (-1); (-1); (-1); (-1); (-1); (-1); (-1); (-1); (-1); (-1); (-1); (-1); (-1); (-1); (-1); (-1); (-1); (-1); (-1); (-1); (-1); (-1); (-1); (-1); (-1); (-1); (-1); (-1); (-1); (-1); (-1); (-1); (-1); (-1); (-1); (-1); (-1); (-1); (-1); (-1); (-1); (-1); (-1); (-1); (-1); (-1); (-1); (-1)];
    [0; (-1); (-1); (-1); (-1); (-1); (-1); (-1); (-1); (-1); (-1); (-1); (-1); (-1); (-1); (-1); (-1); (-1); (-1); (-1); (-1); (-1); (-1); (-1); (-1); (-1); (-1); (-1); (-1); (-1); (-1); (-1); (-1); (-1); (-1); (-1); (-1); (-1); (-1); (-1); (-1); (-1); (-1); (-1); (-1); (-1); (-1); (-1); (-1); (-1); (-1); (-1); (-1); (-1); (-1); (-1); (-1); (-1); (-1); (-1); (-1); (-1); (-1); (-1); (-1); (-1); (-1); (-1); (-1); (-1); (-1); (-1); (-1); (-1); (-1); (-1); (-1); (-1); (-1); (-1); (-1); (-1); (-1); (-1); (-1); (-1); (-1); (-1); (-1); (-1); (-1); (-1); (-1); (-1); (-1); (-1); (-1); (-1); (-1); (-1); (-1); (-1); (-1); (-1); (-1); (-1); (-1); (-1); (-1); (-1); (-1); (-1); (-1); (-1); (-1); (-1); (-1); (-1); (-1); (-1); (-1); (-1); (-1); (-1); (-1); (-1); (-1); (-1); (-1); (-1); (-1); (-1); (-1); (-1); (-1); (-1); (-1); (-1); (-1); (-1); (-1); (-1); (-1); (-1); (-1); (-1); (-1); (-1); (-1); (-1); (-1); (-1); (-1); (-1); (-1); (-1); (-1); (-1); (-1); (-1); (-1)];
    [0; (-1); (-1); (-1); (-1); (-1); (-1); (-1); (-1); (-1); (-1); (-1); (-1); (-1); (-1); (-1); (-1); (-1); (-1); (-1); (-1); (-1); (-1); (-1); (-1); (-1); (-1); (-1); (-1); (-1); (-1); (-1); (-1); (-1); (-1); (-1); (-1); (-1); (-1); (-1); (-1); (-1); (-1); (-1); (-1); (-1); (-1); (-1); (-1); (-1); (-1); (-1); (-1); (-1); (-1); (-1); (-1); (-1); (-1); (-1); (-1); (-1); (-1); (-1); (-1); (-1); (-1); (-1); (-1); (-1); (-1); (-1); (-1); (-1); (-1); (-1); (-1); (-1); (-1); (-1); (-1); (-1); (-1); (-1); (-1); (-1); (-1); (-1); (-1); (-1); (-1); (-1); (-1); (-1); (-1); (-1); (-1); (-1); (-1); (-1); (-1); (-1); (-1); (-1); (-1); (-1); (-1); (-1); (-1); (-1); (-1); (-1); (-1); (-1); (-1); (-1); (-1); (-1); (-1); (-1); (-1); (-1); (-1); (-1); (-1); (-1); (-1); (-1); (-1); (-1); (-1); (-1); (-1); (-1); (-1); (-1); (-1); (-1); (-1); (-1); (-1); (-1); (-1); (-1); (-1); (-1); (-1); (-1); (-1); (-1); (-1); (-1); (-1); (-1); (-1); (-1); (-1); (-1); (-1); (-1); (-1)];
    [0; (-1); (-1); (-1); (-1); (-1); (-1); (-1); (-1); (-1); (-1); (-1); (-1); (-1); (-1); (-1); (-1); (-1); (-1); (-1); (-1); (-1); (-1); (-1); (-1); (-1); (-1); (-1); (-1); (-1); (-1); (-1); (-1); (-1); (-1); (-1); (-1); (-1); (-1); (-1); (-1); (-1); (-1); (-1); (-1); (-1); (-1); (-1); (-1); (-1); (-1); (-1); (-1); (-1); (-1); (-1); (-1); (-1); (-1); (-1); (-1); (-1); (-1); (-1); (-1); (-1); (-1); (-1); (-1); (-1); (-1); (-1); (-1); (-1); (-1); (-1); (-1); (-1); (-1); (-1); (-1); (-1); (-1); (-1); (-1); (-1); (-1); (-1); (-1); (-1); (-1); (-1); (-1); (-1); (-1); (-1); (-1); (-1); (-1); (-1); (-1); (-1); (-1); (-1); (-1); (-1); (-1); (-1); (-1); (-1); (-1); (-1); (-1); (-1); (-1); (-1); (-1); (-1); (-1); (-1); (-1); (-1); (-1); (-1); (-1); (-1); (-1); (-1); (-1); (-1); (-1); (-1); (-1); (-1); (-1); (-1); (-1); (-1); (-1); (-1); (-1); (-1); (-1); (-1); (-1); (-1); (-1); (-1); (-1); (-1); (-1); (-1); (-1); (-1); (-1); (-1); (-1); (-1); (-1); (-1); (-1)];
    [0; (-1); (-1); (-1); (-1); (-1); (-1); (-1); (-1); (-1); (-1); (-1); (-1); (-1); (-1); (-1); (-1); (-1); (-1); (-1); (-1); (-1); (-1); (-1); (-1); (-1); (-1); (-1); (-1); (-1); (-1); (-1); (-1); (-1); (-1); (-1); (-1); (-1); (-1); (-1); (-1); (-1); (-1); (-1); (-1); (-1); (-1); (-1); (-1); (-1); (-1); (-1); (-1); (-1); (-1); (-1); (-1); (-1); (-1); (-1); (-1); (-1); (-1); (-1); (-1); (-1); (-1); (-1); (-1); (-1); (-1); (-1); (-1); (-1); (-1); (-1); (-1); (-1); (-1); (-1); (-1); (-1); (-1); (-1); (-1); (-1); (-1); (-1); (-1); (-1); (-1); (-1); (-1); (-1); (-1); (-1); (-1); (-1); (-1); (-1); (-1); (-1); (-1); (-1); (-1); (-1); (-1); (-1); (-1); (-1); (-1); (-1); (-1); (-1); (-1); (-1); (-1); (-1); (-1); (-1); (-1); (-1); (-1); (-1); (-1); (-1); (-1); (-1); (-1); (-1); (-1); (-1); (-1); (-1); (-1); (-1); (-1); (-1); (-1); (-1); (-1); (-1); (-1); (-1); (-1); (-1); (-1); (-1); (-1); (-1); (-1); (-1); (-1); (-1); (-1); (-1); (-1); (-1); (-1); (-1); (-1)];
    [0; (-1); (-1); (-1); (-1); (-1); (-1); (-1); (-1); (-1); (-1); (-1); (-1); (-1); (-1); (-1); (-1); (-1); (-1); (-1); (-1); (-1); (-1); (-1); (-1); (-1); (-1); (-1); (-1); (-1); (-1); (-1); (-1); (-1); (-1); (-1); (-1); (-1); (-1); (-1); (-1); (-1); (-1); (-1); (-1); (-1); (-1); (-1); (-1); (-1); (-1); (-1); (-1); (-1); (-1); (-1); (-1); (-1); (-1); (-1); (-1); (-1); (-1); (-1); (-1); (-1); (-1); (-1); (-1); (-1); (-1); (-1); (-1); (-1); (-1); (-1); (-1); (-1); (-1); (-1); (-1); (-1); (-1); (-1); (-1); (-1); (-1); (-1); (-1); (-1); (-1); (-1); (-1); (-1); (-1); (-1); (-1); (-1); (-1); (-1); (-1); (-1); (-1); (-1); (-1); (-1); (-1); (-1); (-1); (-1); (-1); (-1); (-1); (-1); (-1); (-1); (-1); (-1); (-1); (-1); (-1); (-1); (-1); (-1); (-1); (-1); (-1); (-1); (-1); (-1); (-1); (-1); (-1); (-1); (-1); (-1); (-1); (-1); (-1); (-1); (-1); (-1); (-1); (-1); (-1); (-1); (-1); (-1); (-1); (-1); (-1); (-1); (-1); (-1); (-1); (-1); (-1); (-1); (-1); (-1); (-1)];
    [0; (-1); (-1); (-1); (-1); (-1); (-1); (-1); (-1); (-1); (-1); (-1); (-1); (-1); (-1); (-1); (-1); (-1); (-1); (-1); (-1); (-1); (-1); (-1); (-1); (-1); (-1); (-1); (-1); (-1); (-1); (-1); (-1); (-1); (-1); (-1); (-1); (-1); (-1); (-1); (-1); (-1); (-1); (-1); (-1); (-1); (-1); (-1); (-1); (-1); (-1); (-1); (-1); (-1); (-1); (-1); (-1); (-1); (-1); (-1); (-1); (-1); (-1); (-1); (-1); (-1); (-1); (-1); (-1); (-1); (-1); (-1); (-1); (-1); (-1); (-1); (-1); (-1); (-1); (-1); (-1); (-1); (-1); (-1); (-1); (-1); (-1); (-1); (-1); (-1); (-1); (-1); (-1); (-1); (-1); (-1); (-1); (-1); (-1); (-1); (-1); (-1); (-1); (-1); (-1); (-1); (-1); (-1); (-1); (-1); (-1); (-1); (-1); (-1); (-1); (-1); (-1); (-1); (-1); (-1); (-1); (-1); (-1); (-1); (-1); (-1); (-1); (-1); (-1); (-1); (-1); (-1); (-1); (-1); (-1); (-1); (-1); (-1); (-1); (-1); (-1); (-1); (-1); (-1); (-1); (-1); (-1); (-1); (-1); (-1); (-1); (-1); (-1); (-1); (-1); (-1); (-1); (-1); (-1); (-1); (-1)];
    [0; (-1); (-1); (-1); (-1); (-1); (-1); (-1); (-1); (-1); (-1); (-1); (-1); (-1); (-1); (-1); (-1); (-1); (-1); (-1); (-1); (-1); (-1); (-1); (-1); (-1); (-1); (-1); (-1); (-1); (-1); (-1); (-1); (-1); (-1); (-1); (-1); (-1); (-1); (-1); (-1); (-1); (-1); (-1); (-1); (-1); (-1); (-1); (-1); (-1); (-1); (-1); (-1); (-1); (-1); (-1); (-1); (-1); (-1); (-1); (-1); (-1); (-1); (-1); (-1); (-1); (-1); (-1); (-1); (-1); (-1); (-1); (-1); (-1); (-1); (-1); (-1); (-1); (-1); (-1); (-1); (-1); (-1); (-1); (-1); (-1); (-1); (-1); (-1); (-1); (-1); (-1); (-1); (-1); (-1); (-1); (-1); (-1); (-1); (-1); (-1); (-1); (-1); (-1); (-1); (-1); (-1); (-1); (-1); (-1); (-1); (-1); (-1); (-1); (-1); (-1); (-1); (-1); (-1); (-1); (-1); (-1); (-1); (-1); (-1); (-1); (-1); (-1); (-1); (-1); (-1); (-1); (-1); (-1); (-1); (-1); (-1); (-1); (-1); (-1); (-1); (-1); (-1); (-1); (-1); (-1); (-1); (-1); (-1); (-1); (-1); (-1); (-1); (-1); (-1); (-1); (-1); (-1); (-1); (-1); (-1)];
    [0; (-1); (-1); (-1); (-1); (-1); (-1); (-1); (-1); (-1); (-1); (-1); (-1); (-1); (-1); (-1); (-1); (-1); (-1); (-1); (-1); (-1); (-1); (-1); (-1); (-1); (-1); (-1); (-1); (-1); (-1); (-1); (-1); (-1); (-1); (-1); (-1); (-1); (-1); (-1); (-1); (-1); (-1); (-1); (-1); (-1); (-1); (-1); (-1); (-1); (-1); (-1); (-1); (-1); (-1); (-1); (-1); (-1); (-1); (-1); (-1); (-1); (-1); (-1); (-1); (-1); (-1); (-1); (-1); (-1); (-1); (-1); (-1); (-1); (-1); (-1); (-1); (-1); (-1); (-1); (-1); (-1); (-1); (-1); (-1); (-1); (-1); (-1); (-1); (-1); (-1); (-1); (-1); (-1); (-1); (-1); (-1); (-1); (-1); (-1); (-1); (-1); (-1); (-1); (-1); (-1); (-1); (-1); (-1); (-1); (-1); (-1); (-1); (-1); (-1); (-1); (-1); (-1); (-1); (-1); (-1); (-1); (-1); (-1); (-1); (-1); (-1); (-1); (-1); (-1); (-1); (-1); (-1); (-1); (-1); (-1); (-1); (-1); (-1); (-1); (-1); (-1); (-1); (-1); (-1); (-1); (-1); (-1); (-1); (-1); (-1); (-1); (-1); (-1); (-1); (-1); (-1); (-1); (-1); (-1); (-1)];
    [0; (-1); (-1); (-1); (-1); (-1); (-1); (-1); (-1); (-1); (-1); (-1); (-1); (-1); (-1); (-1); (-1); (-1); (-1); (-1); (-1); (-1); (-1); (-1); (-1); (-1); (-1); (-1); (-1); (-1); (-1); (-1); (-1); (-1); (-1); (-1); (-1); (-1); (-1); (-1); (-1); (-1); (-1); (-1); (-1); (-1); (-1); (-1); (-1); (-1); (-1); (-1); (-1); (-1); (-1); (-1); (-1); (-1); (-1); (-1); (-1); (-1); (-1); (-1); (-1); (-1); (-1); (-1); (-1); (-1); (-1); (-1); (-1); (-1); (-1); (-1); (-1); (-1); (-1); (-1); (-1); (-1); (-1); (-1); (-1); (-1); (-1); (-1); (-1); (-1); (-1); (-1); (-1); (-1); (-1); (-1); (-1); (-1); (-1); (-1); (-1); (-1); (-1); (-1); (-1); (-1); (-1); (-1); (-1); (-1); (-1); (-1); (-1); (-1); (-1); (-1); (-1); (-1); (-1); (-1); (-1); (-1); (-1); (-1); (-1); (-1); (-1); (-1); (-1); (-1); (-1); (-1); (-1); (-1); (-1); (-1); (-1); (-1); (-1); (-1); (-1); (-1); (-1); (-1); (-1); (-1); (-1); (-1); (-1); (-1); (-1); (-1); (-1); (-1); (-1); (-1); (-1); (-1); (-1); (-1); (-1)];
    [0; (-1); (-1); (-1); (-1); (-1); (-1); (-1); (-1); (-1); (-1); (-1); (-1); (-1); (-1); (-1); (-1); (-1); (-1); (-1); (-1); (-1); (-1); (-1); (-1); (-1); (-1); (-1); (-1); (-1); (-1); (-1); (-1); (-1); (-1); (-1); (-1); (-1); (-1); (-1); (-1); (-1); (-1); (-1); (-1); (-1); (-1); (-1); (-1); (-1); (-1); (-1); (-1); (-1); (-1); (-1); (-1); (-1); (-1); (-1); (-1); (-1); (-1); (-1); (-1); (-1); (-1); (-1); (-1); (-1); (-1); (-1); (-1); (-1); (-1); (-1); (-1); (-1); (-1); (-1); (-1); (-1); (-1); (-1); (-1); (-1); (-1); (-1); (-1); (-1); (-1); (-1); (-1); (-1); (-1); (-1); (-1); (-1); (-1); (-1); (-1); (-1); (-1); (-1); (-1); (-1); (-1); (-1); (-1); (-1); (-1); (-1); (-1); (-1); (-1); (-1); (-1); (-1); (-1); (-1); (-1); (-1); (-1); (-1); (-1); (-1); (-1); (-1); (-1); (-1); (-1); (-1); (-1); (-1); (-1); (-1); (-1); (-1); (-1); (-1); (-1); (-1); (-1); (-1); (-1); (-1); (-1); (-1); (-1); (-1); (-1); (-1); (-1); (-1); (-1); (-1); (-1); (-1); (-1); (-1); (-1)];
    [0; (-1); (-1); (-1); (-1); (-1); (-1); (-1); (-1); (-1); (-1); (-1); (-1); (-1); (-1); (-1); (-1); (-1); (-1); (-1); (-1); (-1); (-1); (-1); (-1); (-1); (-1); (-1); (-1); (-1); (-1); (-1); (-1); (-1); (-1); (-1); (-1); (-1); (-1); (-1); (-1); (-1); (-1); (-1); (-1); (-1); (-1); (-1); (-1); (-1); (-1); (-1); (-1); (-1); (-1); (-1); (-1); (-1); (-1); (-1); (-1); (-1); (-1); (-1); (-1); (-1); (-1); (-1); (-1); (-1); (-1); (-1); (-1); (-1); (-1); (-1); (-1); (-1); (-1); (-1); (-1); (-1); (-1); (-1); (-1); (-1); (-1); (-1); (-1); (-1); (-1); (-1); (-1); (-1); (-1); (-1); (-1); (-1); (-1); (-1); (-1); (-1); (-1); (-1); (-1); (-1); (-1); (-1); (-1); (-1); (-1); (-1); (-1); (-1); (-1); (-1); (-1); (-1); (-1); (-1); (-1); (-1); (-1); (-1); (-1); (-1); (-1); (-1); (-1); (-1); (-1); (-1); (-1); (-1); (-1); (-1); (-1); (-1); (-1); (-1); (-1); (-1); (-1); (-1); (-1); (-1); (-1); (-1); (-1); (-1); (-1); (-1); (-1); (-1); (-1); (-1); (-1); (-1); (-1); (-1); (-1)];
    [0; (-1); (-1); (-1); (-1); (-1); (-1); (-1); (-1); (-1); (-1); (-1); (-1); (-1); (-1); (-1); (-1); (-1); (-1); (-1); (-1); (-1); (-1); (-1); (-1); (-1); (-1); (-1); (-1); (-1); (-1); (-1); (-1); (-1); (-1); (-1); (-1); (-1); (-1); (-1); (-1); (-1); (-1); (-1); (-1); (-1); (-1); (-1); (-1); (-1); (-1); (-1); (-1); (-1); (-1); (-1); (-1); (-1); (-1); (-1); (-1); (-1); (-1); (-1); (-1); (-1); (-1); (-1); (-1); (-1); (-1); (-1); (-1); (-1); (-1); (-1); (-1); (-1); (-1); (-1); (-1); (-1); (-1); (-1); (-1); (-1); (-1); (-1); (-1); (-1); (-1); (-1); (-1); (-1); (-1); (-1); (-1); (-1); (-1); (-1); (-1); (-1); (-1); (-1); (-1); (-1); (-1); (-1); (-1); (-1); (-1); (-1); (-1); (-1); (-1); (-1); (-1); (-1); (-1); (-1); (-1); (-1); (-1); (-1); (-1); (-1); (-1); (-1); (-1); (-1); (-1); (-1); (-1); (-1); (-1); (-1); (-1); (-1); (-1); (-1); (-1); (-1); (-1); (-1); (-1); (-1); (-1); (-1); (-1); (-1); (-1); (-1); (-1); (-1); (-1); (-1); (-1); (-1); (-1); (-1); (-1)];
    [0; (-1); (-1); (-1); (-1); (-1); (-1); (-1); (-1); (-1); (-1); (-1); (-1); (-1); (-1); (-1); (-1); (-1); (-1); (-1); (-1); (-1); (-1); (-1); (-1); (-1); (-1); (-1); (-1); (-1); (-1); (-1); (-1); (-1); (-1); (-1); (-1); (-1); (-1); (-1); (-1); (-1); (-1); (-1); (-1); (-1); (-1); (-1); (-1); (-1); (-1); (-1); (-1); (-1); (-1); (-1); (-1); (-1); (-1); (-1); (-1); (-1); (-1); (-1); (-1); (-1); (-1); (-1); (-1); (-1); (-1); (-1); (-1); (-1); (-1); (-1); (-1); (-1); (-1); (-1); (-1); (-1); (-1); (-1); (-1); (-1); (-1); (-1); (-1); (-1); (-1); (-1); (-1); (-1); (-1); (-1); (-1); (-1); (-1); (-1); (-1); (-1); (-1); (-1); (-1); (-1); (-1); (-1); (-1); (-1); (-1); (-1); (-1); (-1); (-1); (-1); (-1); (-1); (-1); (-1); (-1); (-1); (-1); (-1); (-1); (-1); (-1); (-1); (-1); (-1); (-1); (-1); (-1); (-1); (-1); (-1); (-1); (-1); (-1); (-1); (-1); (-1); (-1); (-1); (-1); (-1); (-1); (-1); (-1); (-1); (-1); (-1); (-1); (-1); (-1); (-1); (-1); (-1); (-1); (-1); (-1)];
    [0; (-1); (-1); (-1); (-1); (-1); (-1); (-1); (-1); (-1); (-1); (-1); (-1); (-1); (-1); (-1); (-1); (-1); (-1); (-1); (-1); (-1); (-1); (-1); (-1); (-1); (-1); (-1); (-1); (-1); (-1); (-1); (-1); (-1); (-1); (-1); (-1); (-1); (-1); (-1); (-1); (-1); (-1); (-1); (-1); (-1); (-1); (-1); (-1); (-1); (-1); (-1); (-1); (-1); (-1); (-1); (-1); (-1); (-1); (-1); (-1); (-1); (-1); (-1); (-1); (-1); (-1); (-1); (-1); (-1); (-1); (-1); (-1); (-1); (-1); (-1); (-1); (-1); (-1); (-1); (-1); (-1); (-1); (-1); (-1); (-1); (-1); (-1); (-1); (-1); (-1); (-1); (-1); (-1); (-1); (-1); (-1); (-1); (-1); (-1); (-1); (-1); (-1); (-1); (-1); (-1); (-1); (-1); (-1); (-1); (-1); (-1); (-1); (-1); (-1); (-1); (-1); (-1); (-1); (-1); (-1); (-1); (-1); (-1); (-1); (-1); (-1); (-1); (-1); (-1); (-1); (-1); (-1); (-1); (-1); (-1); (-1); (-1); (-1); (-1); (-1); (-1); (-1); (-1); (-1); (-1); (-1); (-1); (-1); (-1); (-1); (-1); (-1); (-1); (-1); (-1); (-1); (-1); (-1); (-1); (-1)];
    [0; (-1); (-1); (-1); (-1); (-1); (-1); (-1); (-1); (-1); (-1); (-1); (-1); (-1); (-1); (-1); (-1); (-1); (-1); (-1); (-1); (-1); (-1); (-1); (-1); (-1); (-1); (-1); (-1); (-1); (-1); (-1); (-1); (-1); (-1); (-1); (-1); (-1); (-1); (-1); (-1); (-1); (-1); (-1); (-1); (-1); (-1); (-1); (-1); (-1); (-1); (-1); (-1); (-1); (-1); (-1); (-1); (-1); (-1); (-1); (-1); (-1); (-1); (-1); (-1); (-1); (-1); (-1); (-1); (-1); (-1); (-1); (-1); (-1); (-1); (-1); (-1); (-1); (-1); (-1); (-1); (-1); (-1); (-1); (-1); (-1); (-1); (-1); (-1); (-1); (-1); (-1); (-1); (-1); (-1); (-1); (-1); (-1); (-1); (-1); (-1); (-1); (-1); (-1); (-1); (-1); (-1); (-1); (-1); (-1); (-1); (-1); (-1); (-1); (-1); (-1); (-1); (-1); (-1); (-1); (-1); (-1); (-1); (-1); (-1); (-1); (-1); (-1); (-1); (-1); (-1); (-1); (-1); (-1); (-1); (-1); (-1); (-1); (-1); (-1); (-1); (-1); (-1); (-1); (-1); (-1); (-1); (-1); (-1); (-1); (-1); (-1); (-1); (-1); (-1); (-1); (-1); (-1); (-1); (-1); (-1)];
    [0; (-1); (-1); (-1); (-1); (-1); (-1); (-1); (-1); (-1); (-1); (-1); (-1); (-1); (-1); (-1); (-1); (-1); (-1); (-1); (-1); (-1); (-1); (-1); (-1); (-1); (-1); (-1); (-1); (-1); (-1); (-1); (-1); (-1); (-1); (-1); (-1); (-1); (-1); (-1); (-1); (-1); (-1); (-1); (-1); (-1); (-1); (-1); (-1); (-1); (-1); (-1); (-1); (-1); (-1); (-1); (-1); (-1); (-1); (-1); (-1); (-1); (-1); (-1); (-1); (-1); (-1); (-1); (-1); (-1); (-1); (-1); (-1); (-1); (-1); (-1); (-1); (-1); (-1); (-1); (-1); (-1); (-1); (-1); (-1); (-1); (-1); (-1); (-1); (-1); (-1); (-1); (-1); (-1); (-1); (-1); (-1); (-1); (-1); (-1); (-1); (-1); (-1); (-1); (-1); (-1); (-1); (-1); (-1); (-1); (-1); (-1); (-1); (-1); (-1); (-1); (-1); (-1); (-1); (-1); (-1); (-1); (-1); (-1); (-1); (-1); (-1); (-1); (-1); (-1); (-1); (-1); (-1); (-1); (-1); (-1); (-1); (-1); (-1); (-1); (-1); (-1); (-1); (-1); (-1); (-1); (-1); (-1); (-1); (-1); (-1); (-1); (-1); (-1); (-1); (-1); (-1); (-1); (-1); (-1); (-1)];
    [0; (-1); (-1); (-1); (-1); (-1); (-1); (-1); (-1); (-1); (-1); (-1); (-1); (-1); (-1); (-1); (-1); (-1); (-1); (-1); (-1); (-1); (-1); (-1); (-1); (-1); (-1); (-1); (-1); (-1); (-1); (-1); (-1); (-1); (-1); (-1); (-1); (-1); (-1); (-1); (-1); (-1); (-1); (-1); (-1); (-1); (-1); (-1); (-1); (-1); (-1); (-1); (-1); (-1); (-1); (-1); (-1); (-1); (-1); (-1); (-1); (-1); (-1); (-1); (-1); (-1); (-1); (-1); (-1); (-1); (-1); (-1); (-1); (-1); (-1); (-1); (-1); (-1); (-1); (-1); (-1); (-1); (-1); (-1); (-1); (-1); (-1); (-1); (-1); (-1); (-1); (-1); (-1); (-1); (-1); (-1); (-1); (-1); (-1); (-1); (-1); (-1); (-1); (-1); (-1); (-1); (-1); (-1); (-1); (-1); (-1); (-1); (-1); (-1); (-1); (-1); (-1); (-1); (-1); (-1); (-1); (-1); (-1); (-1); (-1); (-1); (-1); (-1); (-1); (-1); (-1); (-1); (-1); (-1); (-1); (-1); (-1); (-1); (-1); (-1); (-1); (-1); (-1); (-1); (-1); (-1); (-1); (-1); (-1); (-1); (-1); (-1); (-1); (-1); (-1); (-1); (-1); (-1); (-1); (-1); (-1)];
    [0; (-1); (-1); (-1); (-1); (-1); (-1); (-1); (-1); (-1); (-1); (-1); (-1); (-1); (-1); (-1); (-1); (-1); (-1); (-1); (-1); (-1); (-1); (-1); (-1); (-1); (-1); (-1); (-1); (-1); (-1); (-1); (-1); (-1); (-1); (-1); (-1); (-1); (-1); (-1); (-1); (-1); (-1); (-1); (-1); (-1); (-1); (-1); (-1); (-1); (-1); (-1); (-1); (-1); (-1); (-1); (-1); (-1); (-1); (-1); (-1); (-1); (-1); (-1); (-1); (-1); (-1); (-1); (-1); (-1); (-1); (-1); (-1); (-1); (-1); (-1); (-1); (-1); (-1); (-1); (-1); (-1); (-1); (-1); (-1); (-1); (-1); (-1); (-1); (-1); (-1); (-1); (-1); (-1); (-1); (-1); (-1); (-1); (-1); (-1); (-1); (-1); (-1); (-1); (-1); (-1); (-1); (-1); (-1); (-1); (-1); (-1); (-1); (-1); (-1); (-1); (-1); (-1); (-1); (-1); (-1); (-1); (-1); (-1); (-1); (-1); (-1); (-1); (-1); (-1); (-1); (-1); (-1); (-1); (-1); (-1); (-1); (-1); (-1); (-1); (-1); (-1); (-1); (-1); (-1); (-1); (-1); (-1); (-1); (-1); (-1); (-1); (-1); (-1); (-1); (-1); (-1); (-1); (-1); (-1); (-1)];
    [0; (-1); (-1); (-1); (-1); (-1); (-1); (-1); (-1); (-1); (-1); (-1); (-1); (-1); (-1); (-1); (-1); (-1); (-1); (-1); (-1); (-1); (-1); (-1); (-1); (-1); (-1); (-1); (-1); (-1); (-1); (-1); (-1); (-1); (-1); (-1); (-1); (-1); (-1); (-1); (-1); (-1); (-1); (-1); (-1); (-1); (-1); (-1); (-1); (-1); (-1); (-1); (-1); (-1); (-1); (-1); (-1); (-1); (-1); (-1); (-1); (-1); (-1); (-1); (-1); (-1); (-1); (-1); (-1); (-1); (-1); (-1); (-1); (-1); (-1); (-1); (-1); (-1); (-1); (-1); (-1); (-1); (-1); (-1); (-1); (-1); (-1); (-1); (-1); (-1); (-1); (-1); (-1); (-1); (-1); (-1); (-1); (-1); (-1); (-1); (-1); (-1); (-1); (-1); (-1); (-1); (-1); (-1); (-1); (-1); (-1); (-1); (-1); (-1); (-1); (-1); (-1); (-1); (-1); (-1); (-1); (-1); (-1); (-1); (-1); (-1); (-1); (-1); (-1); (-1); (-1); (-1); (-1); (-1); (-1); (-1); (-1); (-1); (-1); (-1); (-1); (-1); (-1); (-1); (-1); (-1); (-1); (-1); (-1); (-1); (-1); (-1); (-1); (-1); (-1); (-1); (-1); (-1); (-1); (-1); (-1)];
    [0; (-1); (-1); (-1); (-1); (-1); (-1); (-1); (-1); (-1); (-1); (-1); (-1); (-1); (-1); (-1); (-1); (-1); (-1); (-1); (-1); (-1); (-1); (-1); (-1); (-1); (-1); (-1); (-1); (-1); (-1); (-1); (-1); (-1); (-1); (-1); (-1); (-1); (-1); (-1); (-1); (-1); (-1); (-1); (-1); (-1); (-1); (-1); (-1); (-1); (-1); (-1); (-1); (-1); (-1); (-1); (-1); (-1); (-1); (-1); (-1); (-1); (-1); (-1); (-1); (-1); (-1); (-1); (-1); (-1); (-1); (-1); (-1); (-1); (-1); (-1); (-1); (-1); (-1); (-1); (-1); (-1); (-1); (-1); (-1); (-1); (-1); (-1); (-1); (-1); (-1); (-1); (-1); (-1); (-1); (-1); (-1); (-1); (-1); (-1); (-1); (-1); (-1); (-1); (-1); (-1); (-1); (-1); (-1); (-1); (-1); (-1); (-1); (-1); (-1); (-1); (-1); (-1); (-1); (-1); (-1); (-1); (-1); (-1); (-1); (-1); (-1); (-1); (-1); (-1); (-1); (-1); (-1); (-1); (-1); (-1); (-1); (-1); (-1); (-1); (-1); (-1); (-1); (-1); (-1); (-1); (-1); (-1); (-1); (-1); (-1); (-1); (-1); (-1); (-1); (-1); (-1); (-1); (-1); (-1); (-1)];
    [0; (-1); (-1); (-1); (-1); (-1); (-1); (-1); (-1); (-1); (-1); (-1); (-1); (-1); (-1); (-1); (-1); (-1); (-1); (-1); (-1); (-1); (-1); (-1); (-1); (-1); (-1); (-1); (-1); (-1); (-1); (-1); (-1); (-1); (-1); (-1); (-1); (-1); (-1); (-1); (-1); (-1); (-1); (-1); (-1); (-1); (-1); (-1); (-1); (-1); (-1); (-1); (-1); (-1); (-1); (-1); (-1); (-1); (-1); (-1); (-1); (-1); (-1); (-1); (-1); (-1); (-1); (-1); (-1); (-1); (-1); (-1); (-1); (-1); (-1); (-1); (-1); (-1); (-1); (-1); (-1); (-1); (-1); (-1); (-1); (-1); (-1); (-1); (-1); (-1); (-1); (-1); (-1); (-1); (-1); (-1); (-1); (-1); (-1); (-1); (-1); (-1); (-1); (-1); (-1); (-1); (-1); (-1); (-1); (-1); (-1); (-1); (-1); (-1); (-1); (-1); (-1); (-1); (-1); (-1); (-1); (-1); (-1); (-1); (-1); (-1); (-1); (-1); (-1); (-1); (-1); (-1); (-1); (-1); (-1); (-1); (-1); (-1); (-1); (-1); (-1); (-1); (-1); (-1); (-1); (-1); (-1); (-1); (-1); (-1); (-1); (-1); (-1); (-1); (-1); (-1); (-1); (-1); (-1); (-1); (-1)]] && (snd r =? 11)) = true.
Proof. vm_compute; reflexivity. Qed.
