(** The tests of readInputB, pind, datax, xldnew, dpeak, wpeakf, resca, dataf1 on files: data_processing/tests/test_datax.py, test_pind.py, test_dataf1_new.py.
    Generated by tools/mkvectors.py; do not edit. *)
From Coq Require Import String.
From Verif Require Import Base Vec LoadModel HourModel ProgramModel DataModel MaintModel PrepModel ReadModel.
Open Scope Z_scope.

Open Scope string_scope.
Open Scope list_scope.
Open Scope Z_scope.
Definition files2 := (mkFiles (mkTable ["SEED"; "LS"; "END WK1"; "END WK2"; "END WK3"; "WHERE"; "WHEN"; "KVS"; "KVT"; "KVL"; "CVT"; "FIN"; "STEP"; "FREQ"; "MAXE"; "II"; "IJ"; "IR"; "IN"; "D"; "M"] [[Num (qq 345237 1); Num (qq 1 1); Num (qq 13 1); Num (qq 26 1); Num (qq 39 1); Num (qq 1 1); Num (qq 1 1); Num (qq 1 1); Num (qq 2 1); Num (qq 1 1); Num (qq 1 40); Num (qq 9999 1); Num (qq 1 1); Num (qq 1 1); Num (qq 1000 1); Num (qq 0 1); Num (qq 0 1); Num (qq 1 1); Num (qq 5 1); Num (qq 1 1); Num (qq 1 1)]])
 (mkTable ["SN"; "AREA NAME"; "PEAK (MW)"; "LFU"; "OUTAGE BEG WK"; "OUTAGE END WK"; "FORBIDDEN BEG WK"; "FORBIDDEN END WK"; "SUM OF FLOWS CONSTRAINT"] [[Num (qq 1 1); Txt "'A1'"; Num (qq 3000 1); Num (qq 0 1); Num (qq 1 1); Num (qq 52 1); Num (qq 31 1); Num (qq 32 1); Num (qq 30000 1)];
   [Num (qq 2 1); Txt "'A2'"; Num (qq 3000 1); Num (qq 0 1); Num (qq 1 1); Num (qq 52 1); Num (qq 31 1); Num (qq 32 1); Num (qq 30000 1)]])
 (mkTable ["SN"; "NAME"; "LOC"; "CAP1"; "CAP2"; "CAP3"; "CAP4"; "DFOR"; "FOR"; "DER"; "P/A"; "B1"; "D1"; "B2"; "D2"] [[Num (qq 1 1); Txt "'A10101'"; Txt "'A1'"; Num (qq 12 1); Num (qq 12 1); Num (qq 12 1); Num (qq 12 1); Num (qq 0 1); Num (qq 1 50); Num (qq 0 1); Num (qq 0 1); Num (qq 0 1); Num (qq 0 1); Num (qq 0 1); Num (qq 0 1)];
   [Num (qq 2 1); Txt "'A20101'"; Txt "'A2'"; Num (qq 12 1); Num (qq 12 1); Num (qq 12 1); Num (qq 12 1); Num (qq 0 1); Num (qq 1 50); Num (qq 0 1); Num (qq 0 1); Num (qq 0 1); Num (qq 0 1); Num (qq 0 1); Num (qq 0 1)]])
 (mkTable ["SN"; "LINE NUMBER"; "FROM AREA"; "TO AREA"; "META DATA"] [[Num (qq 1 1); Num (qq 1 1); Txt "'A1'"; Txt "'A2'"; Txt "-120. ,300. ,300. ,0.9216,-60. ,150. ,150. ,0.0768, 0. ,0. ,0. ,0.0016,-80. ,150. ,150. ,0.0000,-40. ,100. ,100. ,0.0000,-20. ,50. ,50.,0.0000"]])
 (mkTable ["SN"; "FROM AREA"; "TO AREA"; "BEG DAY"; "END DAY"; "MW"] [])
 (mkTable ["SN"; "UNIT NAME"; "PERCENT OWNED BY AREA"] [])
 (mkTable ["SN"; "LINE NUMBER"; "UNIT1"; "UNIT2"; "UNIT3"; "UNIT4"; "FORWARD"; "BACKWARD"] []) EmptyString).
Example datax_2 : True.
Proof. agrees (okd (do c <- read_cards files2; do c' <- pind c; datax c') (fun d =>
  veq (dx_QTR d) (qs 10 [21845; 43685; 65525]) && Nat.eqb (dx_NORR d) 0 && Nat.eqb (dx_NFCST d) 1 && mnear 6 (dx_BN d) (qm 1 [[0; 0; 0; 30000; 30000];
    [1; 0; 0; 30000; 30000]]) && mnear 6 (dx_FCTERR d) (qm 1 [[1; 1; 1; 1; 1];
    [1; 1; 1; 1; 1]]) &&
  zeq (dx_CAPCON d) [0; 1] && mnear 6 (dx_CAPOWN d) (qm 1 [[1; 0];
    [0; 1]]) && mnear 6 (dx_PROBG d) (qm 100 [[98; 98];
    [98; 98]]) && vnear 6 (dx_DERATE d) (qs 1 [1; 1]) &&
  zmeq (dx_JENT d) [[(-1); (-1)];
    [(-1); (-1)]] && meq (dx_INTCH d) (repeat (repeat q0 365) 60) && all2 (fun a b => Nat.eqb (fst a) (fst b) && Nat.eqb (snd a) (snd b)) (dx_LP d) [(0, 1)]%nat &&
  zmeq (dx_LINENO d) [[(-1); 0];
    [(-1); (-1)]] && mnear 6 (dx_PROBL d) (qm 10000 [[9216; 9984; 10000; 10000; 10000; 10000]]) && mnear 6 (dx_BLPA d) (qm 10 [[(-1200); 3000; 3000; (-600); 1500; 1500; (-5); 10; 10; (-800); 1500; 1500; (-400); 1000; 1000; (-200); 500; 500]]) && zmeq (dx_ID d) [[0; 0; 0; (-1); 0; (-1); 0; 0];
    [1; 1; 1; (-1); 0; (-1); 0; 0]])). exact I. Qed.
Example misc_2 : True.
Proof. agrees (okd (read_cards files2) (fun c => let m := c_misc c in (m_NLS m =? 1) && (m_IOJ m =? 0) && (m_KVL m =? 1) && (m_KVSTAT m =? 1) && (m_KVTYPE m =? 2) && (m_KVWHEN m =? 1) && (m_KWHERE m =? 1) && qeqb (m_CVTEST m) (qq 25 1000) && qeqb (m_MAXEUE m) (qz 1000) && (m_JSTEP m =? 1) && (m_JFREQ m =? 1) && (m_FINISH m =? 9999) && (m_INTV m =? 5))). exact I. Qed.
Definition files5 := (mkFiles (mkTable ["SEED"; "LS"; "END WK1"; "END WK2"; "END WK3"; "WHERE"; "WHEN"; "KVS"; "KVT"; "KVL"; "CVT"; "FIN"; "STEP"; "FREQ"; "MAXE"; "II"; "IJ"; "IR"; "IN"; "D"; "M"] [[Num (qq 345237 1); Num (qq 1 1); Num (qq 13 1); Num (qq 26 1); Num (qq 39 1); Num (qq 1 1); Num (qq 1 1); Num (qq 1 1); Num (qq 2 1); Num (qq 1 1); Num (qq 1 40); Num (qq 9999 1); Num (qq 1 1); Num (qq 1 1); Num (qq 1000 1); Num (qq 0 1); Num (qq 0 1); Num (qq 1 1); Num (qq 5 1); Num (qq 1 1); Num (qq 1 1)]])
 (mkTable ["SN"; "AREA NAME"; "PEAK (MW)"; "LFU"; "OUTAGE BEG WK"; "OUTAGE END WK"; "FORBIDDEN BEG WK"; "FORBIDDEN END WK"; "SUM OF FLOWS CONSTRAINT"] [[Num (qq 1 1); Txt "'A1'"; Num (qq 3000 1); Num (qq 0 1); Num (qq 1 1); Num (qq 52 1); Num (qq 31 1); Num (qq 32 1); Num (qq 30000 1)];
   [Num (qq 2 1); Txt "'A2'"; Num (qq 3000 1); Num (qq 0 1); Num (qq 1 1); Num (qq 52 1); Num (qq 31 1); Num (qq 32 1); Num (qq 30000 1)];
   [Num (qq 3 1); Txt "'A3'"; Num (qq 3000 1); Num (qq 0 1); Num (qq 1 1); Num (qq 52 1); Num (qq 31 1); Num (qq 32 1); Num (qq 30000 1)];
   [Num (qq 4 1); Txt "'A4'"; Num (qq 3000 1); Num (qq 0 1); Num (qq 1 1); Num (qq 52 1); Num (qq 31 1); Num (qq 32 1); Num (qq 30000 1)];
   [Num (qq 5 1); Txt "'A5'"; Num (qq 3000 1); Num (qq 0 1); Num (qq 1 1); Num (qq 52 1); Num (qq 31 1); Num (qq 32 1); Num (qq 30000 1)]])
 (mkTable ["SN"; "NAME"; "LOC"; "CAP1"; "CAP2"; "CAP3"; "CAP4"; "DFOR"; "FOR"; "DER"; "P/A"; "B1"; "D1"; "B2"; "D2"] [[Num (qq 1 1); Txt "'A10101'"; Txt "'A1'"; Num (qq 12 1); Num (qq 12 1); Num (qq 12 1); Num (qq 12 1); Num (qq 0 1); Num (qq 1 50); Num (qq 0 1); Num (qq 0 1); Num (qq 0 1); Num (qq 0 1); Num (qq 0 1); Num (qq 0 1)];
   [Num (qq 2 1); Txt "'A10201'"; Txt "'A1'"; Num (qq 12 1); Num (qq 12 1); Num (qq 12 1); Num (qq 12 1); Num (qq 0 1); Num (qq 1 50); Num (qq 0 1); Num (qq 0 1); Num (qq 0 1); Num (qq 0 1); Num (qq 0 1); Num (qq 0 1)];
   [Num (qq 3 1); Txt "'A10301'"; Txt "'A1'"; Num (qq 12 1); Num (qq 12 1); Num (qq 12 1); Num (qq 12 1); Num (qq 0 1); Num (qq 1 50); Num (qq 0 1); Num (qq 0 1); Num (qq 0 1); Num (qq 0 1); Num (qq 0 1); Num (qq 0 1)];
   [Num (qq 4 1); Txt "'A10401'"; Txt "'A1'"; Num (qq 12 1); Num (qq 12 1); Num (qq 12 1); Num (qq 12 1); Num (qq 0 1); Num (qq 1 50); Num (qq 0 1); Num (qq 0 1); Num (qq 0 1); Num (qq 0 1); Num (qq 0 1); Num (qq 0 1)];
   [Num (qq 5 1); Txt "'A10501'"; Txt "'A1'"; Num (qq 12 1); Num (qq 12 1); Num (qq 12 1); Num (qq 12 1); Num (qq 0 1); Num (qq 1 50); Num (qq 0 1); Num (qq 0 1); Num (qq 0 1); Num (qq 0 1); Num (qq 0 1); Num (qq 0 1)];
   [Num (qq 6 1); Txt "'A10601'"; Txt "'A1'"; Num (qq 20 1); Num (qq 20 1); Num (qq 20 1); Num (qq 20 1); Num (qq 0 1); Num (qq 1 10); Num (qq 0 1); Num (qq 0 1); Num (qq 0 1); Num (qq 0 1); Num (qq 0 1); Num (qq 0 1)];
   [Num (qq 7 1); Txt "'A10701'"; Txt "'A1'"; Num (qq 20 1); Num (qq 20 1); Num (qq 20 1); Num (qq 20 1); Num (qq 0 1); Num (qq 1 10); Num (qq 0 1); Num (qq 0 1); Num (qq 0 1); Num (qq 0 1); Num (qq 0 1); Num (qq 0 1)];
   [Num (qq 8 1); Txt "'A10801'"; Txt "'A1'"; Num (qq 20 1); Num (qq 20 1); Num (qq 20 1); Num (qq 20 1); Num (qq 0 1); Num (qq 1 10); Num (qq 0 1); Num (qq 0 1); Num (qq 0 1); Num (qq 0 1); Num (qq 0 1); Num (qq 0 1)];
   [Num (qq 9 1); Txt "'A10901'"; Txt "'A1'"; Num (qq 20 1); Num (qq 20 1); Num (qq 20 1); Num (qq 20 1); Num (qq 0 1); Num (qq 1 10); Num (qq 0 1); Num (qq 0 1); Num (qq 0 1); Num (qq 0 1); Num (qq 0 1); Num (qq 0 1)];
   [Num (qq 10 1); Txt "'A11001'"; Txt "'A1'"; Num (qq 50 1); Num (qq 50 1); Num (qq 50 1); Num (qq 50 1); Num (qq 0 1); Num (qq 1 100); Num (qq 0 1); Num (qq 0 1); Num (qq 0 1); Num (qq 0 1); Num (qq 0 1); Num (qq 0 1)];
   [Num (qq 11 1); Txt "'A11101'"; Txt "'A1'"; Num (qq 50 1); Num (qq 50 1); Num (qq 50 1); Num (qq 50 1); Num (qq 0 1); Num (qq 1 100); Num (qq 0 1); Num (qq 0 1); Num (qq 0 1); Num (qq 0 1); Num (qq 0 1); Num (qq 0 1)];
   [Num (qq 12 1); Txt "'A11201'"; Txt "'A1'"; Num (qq 50 1); Num (qq 50 1); Num (qq 50 1); Num (qq 50 1); Num (qq 0 1); Num (qq 1 100); Num (qq 0 1); Num (qq 0 1); Num (qq 0 1); Num (qq 0 1); Num (qq 0 1); Num (qq 0 1)];
   [Num (qq 13 1); Txt "'A11301'"; Txt "'A1'"; Num (qq 50 1); Num (qq 50 1); Num (qq 50 1); Num (qq 50 1); Num (qq 0 1); Num (qq 1 100); Num (qq 0 1); Num (qq 0 1); Num (qq 0 1); Num (qq 0 1); Num (qq 0 1); Num (qq 0 1)];
   [Num (qq 14 1); Txt "'A11401'"; Txt "'A1'"; Num (qq 50 1); Num (qq 50 1); Num (qq 50 1); Num (qq 50 1); Num (qq 0 1); Num (qq 1 100); Num (qq 0 1); Num (qq 0 1); Num (qq 0 1); Num (qq 0 1); Num (qq 0 1); Num (qq 0 1)];
   [Num (qq 15 1); Txt "'A11501'"; Txt "'A1'"; Num (qq 50 1); Num (qq 50 1); Num (qq 50 1); Num (qq 50 1); Num (qq 0 1); Num (qq 1 100); Num (qq 0 1); Num (qq 0 1); Num (qq 0 1); Num (qq 0 1); Num (qq 0 1); Num (qq 0 1)];
   [Num (qq 16 1); Txt "'A11601'"; Txt "'A1'"; Num (qq 76 1); Num (qq 76 1); Num (qq 76 1); Num (qq 76 1); Num (qq 0 1); Num (qq 1 50); Num (qq 0 1); Num (qq 0 1); Num (qq 0 1); Num (qq 0 1); Num (qq 0 1); Num (qq 0 1)];
   [Num (qq 17 1); Txt "'A11701'"; Txt "'A1'"; Num (qq 76 1); Num (qq 76 1); Num (qq 76 1); Num (qq 76 1); Num (qq 0 1); Num (qq 1 50); Num (qq 0 1); Num (qq 0 1); Num (qq 0 1); Num (qq 0 1); Num (qq 0 1); Num (qq 0 1)];
   [Num (qq 18 1); Txt "'A11801'"; Txt "'A1'"; Num (qq 76 1); Num (qq 76 1); Num (qq 76 1); Num (qq 76 1); Num (qq 0 1); Num (qq 1 50); Num (qq 0 1); Num (qq 0 1); Num (qq 0 1); Num (qq 0 1); Num (qq 0 1); Num (qq 0 1)];
   [Num (qq 19 1); Txt "'A11901'"; Txt "'A1'"; Num (qq 76 1); Num (qq 76 1); Num (qq 76 1); Num (qq 76 1); Num (qq 0 1); Num (qq 1 50); Num (qq 0 1); Num (qq 0 1); Num (qq 0 1); Num (qq 0 1); Num (qq 0 1); Num (qq 0 1)];
   [Num (qq 20 1); Txt "'A12001'"; Txt "'A1'"; Num (qq 100 1); Num (qq 100 1); Num (qq 100 1); Num (qq 100 1); Num (qq 0 1); Num (qq 1 25); Num (qq 0 1); Num (qq 0 1); Num (qq 0 1); Num (qq 0 1); Num (qq 0 1); Num (qq 0 1)];
   [Num (qq 21 1); Txt "'A12101'"; Txt "'A1'"; Num (qq 100 1); Num (qq 100 1); Num (qq 100 1); Num (qq 100 1); Num (qq 0 1); Num (qq 1 25); Num (qq 0 1); Num (qq 0 1); Num (qq 0 1); Num (qq 0 1); Num (qq 0 1); Num (qq 0 1)];
   [Num (qq 22 1); Txt "'A12201'"; Txt "'A1'"; Num (qq 100 1); Num (qq 100 1); Num (qq 100 1); Num (qq 100 1); Num (qq 0 1); Num (qq 1 25); Num (qq 0 1); Num (qq 0 1); Num (qq 0 1); Num (qq 0 1); Num (qq 0 1); Num (qq 0 1)];
   [Num (qq 23 1); Txt "'A12301'"; Txt "'A1'"; Num (qq 155 1); Num (qq 155 1); Num (qq 155 1); Num (qq 155 1); Num (qq 0 1); Num (qq 1 25); Num (qq 0 1); Num (qq 0 1); Num (qq 0 1); Num (qq 0 1); Num (qq 0 1); Num (qq 0 1)];
   [Num (qq 24 1); Txt "'A12401'"; Txt "'A1'"; Num (qq 155 1); Num (qq 155 1); Num (qq 155 1); Num (qq 155 1); Num (qq 0 1); Num (qq 1 25); Num (qq 0 1); Num (qq 0 1); Num (qq 0 1); Num (qq 0 1); Num (qq 0 1); Num (qq 0 1)];
   [Num (qq 25 1); Txt "'A12501'"; Txt "'A1'"; Num (qq 155 1); Num (qq 155 1); Num (qq 155 1); Num (qq 155 1); Num (qq 0 1); Num (qq 1 25); Num (qq 0 1); Num (qq 0 1); Num (qq 0 1); Num (qq 0 1); Num (qq 0 1); Num (qq 0 1)];
   [Num (qq 26 1); Txt "'A12601'"; Txt "'A1'"; Num (qq 155 1); Num (qq 155 1); Num (qq 155 1); Num (qq 155 1); Num (qq 0 1); Num (qq 1 25); Num (qq 0 1); Num (qq 0 1); Num (qq 0 1); Num (qq 0 1); Num (qq 0 1); Num (qq 0 1)];
   [Num (qq 27 1); Txt "'A12701'"; Txt "'A1'"; Num (qq 197 1); Num (qq 197 1); Num (qq 197 1); Num (qq 197 1); Num (qq 0 1); Num (qq 1 20); Num (qq 0 1); Num (qq 0 1); Num (qq 0 1); Num (qq 0 1); Num (qq 0 1); Num (qq 0 1)];
   [Num (qq 28 1); Txt "'A12801'"; Txt "'A1'"; Num (qq 197 1); Num (qq 197 1); Num (qq 197 1); Num (qq 197 1); Num (qq 0 1); Num (qq 1 20); Num (qq 0 1); Num (qq 0 1); Num (qq 0 1); Num (qq 0 1); Num (qq 0 1); Num (qq 0 1)];
   [Num (qq 29 1); Txt "'A12901'"; Txt "'A1'"; Num (qq 197 1); Num (qq 197 1); Num (qq 197 1); Num (qq 197 1); Num (qq 0 1); Num (qq 1 20); Num (qq 0 1); Num (qq 0 1); Num (qq 0 1); Num (qq 0 1); Num (qq 0 1); Num (qq 0 1)];
   [Num (qq 30 1); Txt "'A13001'"; Txt "'A1'"; Num (qq 350 1); Num (qq 350 1); Num (qq 350 1); Num (qq 350 1); Num (qq 0 1); Num (qq 2 25); Num (qq 0 1); Num (qq 0 1); Num (qq 0 1); Num (qq 0 1); Num (qq 0 1); Num (qq 0 1)];
   [Num (qq 31 1); Txt "'A13101'"; Txt "'A1'"; Num (qq 400 1); Num (qq 400 1); Num (qq 400 1); Num (qq 400 1); Num (qq 0 1); Num (qq 3 25); Num (qq 0 1); Num (qq 0 1); Num (qq 0 1); Num (qq 0 1); Num (qq 0 1); Num (qq 0 1)];
   [Num (qq 32 1); Txt "'A13201'"; Txt "'A1'"; Num (qq 400 1); Num (qq 400 1); Num (qq 400 1); Num (qq 400 1); Num (qq 0 1); Num (qq 3 25); Num (qq 0 1); Num (qq 0 1); Num (qq 0 1); Num (qq 0 1); Num (qq 0 1); Num (qq 0 1)];
   [Num (qq 33 1); Txt "'A20101'"; Txt "'A2'"; Num (qq 12 1); Num (qq 12 1); Num (qq 12 1); Num (qq 12 1); Num (qq 0 1); Num (qq 1 50); Num (qq 0 1); Num (qq 0 1); Num (qq 0 1); Num (qq 0 1); Num (qq 0 1); Num (qq 0 1)];
   [Num (qq 34 1); Txt "'A20201'"; Txt "'A2'"; Num (qq 12 1); Num (qq 12 1); Num (qq 12 1); Num (qq 12 1); Num (qq 0 1); Num (qq 1 50); Num (qq 0 1); Num (qq 0 1); Num (qq 0 1); Num (qq 0 1); Num (qq 0 1); Num (qq 0 1)];
   [Num (qq 35 1); Txt "'A20301'"; Txt "'A2'"; Num (qq 12 1); Num (qq 12 1); Num (qq 12 1); Num (qq 12 1); Num (qq 0 1); Num (qq 1 50); Num (qq 0 1); Num (qq 0 1); Num (qq 0 1); Num (qq 0 1); Num (qq 0 1); Num (qq 0 1)];
   [Num (qq 36 1); Txt "'A20401'"; Txt "'A2'"; Num (qq 12 1); Num (qq 12 1); Num (qq 12 1); Num (qq 12 1); Num (qq 0 1); Num (qq 1 50); Num (qq 0 1); Num (qq 0 1); Num (qq 0 1); Num (qq 0 1); Num (qq 0 1); Num (qq 0 1)];
   [Num (qq 37 1); Txt "'A20501'"; Txt "'A2'"; Num (qq 12 1); Num (qq 12 1); Num (qq 12 1); Num (qq 12 1); Num (qq 0 1); Num (qq 1 50); Num (qq 0 1); Num (qq 0 1); Num (qq 0 1); Num (qq 0 1); Num (qq 0 1); Num (qq 0 1)];
   [Num (qq 38 1); Txt "'A20601'"; Txt "'A2'"; Num (qq 20 1); Num (qq 20 1); Num (qq 20 1); Num (qq 20 1); Num (qq 0 1); Num (qq 1 10); Num (qq 0 1); Num (qq 0 1); Num (qq 0 1); Num (qq 0 1); Num (qq 0 1); Num (qq 0 1)];
   [Num (qq 39 1); Txt "'A20701'"; Txt "'A2'"; Num (qq 20 1); Num (qq 20 1); Num (qq 20 1); Num (qq 20 1); Num (qq 0 1); Num (qq 1 10); Num (qq 0 1); Num (qq 0 1); Num (qq 0 1); Num (qq 0 1); Num (qq 0 1); Num (qq 0 1)];
   [Num (qq 40 1); Txt "'A20801'"; Txt "'A2'"; Num (qq 20 1); Num (qq 20 1); Num (qq 20 1); Num (qq 20 1); Num (qq 0 1); Num (qq 1 10); Num (qq 0 1); Num (qq 0 1); Num (qq 0 1); Num (qq 0 1); Num (qq 0 1); Num (qq 0 1)];
   [Num (qq 41 1); Txt "'A20901'"; Txt "'A2'"; Num (qq 20 1); Num (qq 20 1); Num (qq 20 1); Num (qq 20 1); Num (qq 0 1); Num (qq 1 10); Num (qq 0 1); Num (qq 0 1); Num (qq 0 1); Num (qq 0 1); Num (qq 0 1); Num (qq 0 1)];
   [Num (qq 42 1); Txt "'A21001'"; Txt "'A2'"; Num (qq 50 1); Num (qq 50 1); Num (qq 50 1); Num (qq 50 1); Num (qq 0 1); Num (qq 1 100); Num (qq 0 1); Num (qq 0 1); Num (qq 0 1); Num (qq 0 1); Num (qq 0 1); Num (qq 0 1)];
   [Num (qq 43 1); Txt "'A21101'"; Txt "'A2'"; Num (qq 50 1); Num (qq 50 1); Num (qq 50 1); Num (qq 50 1); Num (qq 0 1); Num (qq 1 100); Num (qq 0 1); Num (qq 0 1); Num (qq 0 1); Num (qq 0 1); Num (qq 0 1); Num (qq 0 1)];
   [Num (qq 44 1); Txt "'A21201'"; Txt "'A2'"; Num (qq 50 1); Num (qq 50 1); Num (qq 50 1); Num (qq 50 1); Num (qq 0 1); Num (qq 1 100); Num (qq 0 1); Num (qq 0 1); Num (qq 0 1); Num (qq 0 1); Num (qq 0 1); Num (qq 0 1)];
   [Num (qq 45 1); Txt "'A21301'"; Txt "'A2'"; Num (qq 50 1); Num (qq 50 1); Num (qq 50 1); Num (qq 50 1); Num (qq 0 1); Num (qq 1 100); Num (qq 0 1); Num (qq 0 1); Num (qq 0 1); Num (qq 0 1); Num (qq 0 1); Num (qq 0 1)];
   [Num (qq 46 1); Txt "'A21401'"; Txt "'A2'"; Num (qq 50 1); Num (qq 50 1); Num (qq 50 1); Num (qq 50 1); Num (qq 0 1); Num (qq 1 100); Num (qq 0 1); Num (qq 0 1); Num (qq 0 1); Num (qq 0 1); Num (qq 0 1); Num (qq 0 1)];
   [Num (qq 47 1); Txt "'A21501'"; Txt "'A2'"; Num (qq 50 1); Num (qq 50 1); Num (qq 50 1); Num (qq 50 1); Num (qq 0 1); Num (qq 1 100); Num (qq 0 1); Num (qq 0 1); Num (qq 0 1); Num (qq 0 1); Num (qq 0 1); Num (qq 0 1)];
   [Num (qq 48 1); Txt "'A21601'"; Txt "'A2'"; Num (qq 76 1); Num (qq 76 1); Num (qq 76 1); Num (qq 76 1); Num (qq 0 1); Num (qq 1 50); Num (qq 0 1); Num (qq 0 1); Num (qq 0 1); Num (qq 0 1); Num (qq 0 1); Num (qq 0 1)];
   [Num (qq 49 1); Txt "'A21701'"; Txt "'A2'"; Num (qq 76 1); Num (qq 76 1); Num (qq 76 1); Num (qq 76 1); Num (qq 0 1); Num (qq 1 50); Num (qq 0 1); Num (qq 0 1); Num (qq 0 1); Num (qq 0 1); Num (qq 0 1); Num (qq 0 1)];
   [Num (qq 50 1); Txt "'A21801'"; Txt "'A2'"; Num (qq 76 1); Num (qq 76 1); Num (qq 76 1); Num (qq 76 1); Num (qq 0 1); Num (qq 1 50); Num (qq 0 1); Num (qq 0 1); Num (qq 0 1); Num (qq 0 1); Num (qq 0 1); Num (qq 0 1)];
   [Num (qq 51 1); Txt "'A21901'"; Txt "'A2'"; Num (qq 76 1); Num (qq 76 1); Num (qq 76 1); Num (qq 76 1); Num (qq 0 1); Num (qq 1 50); Num (qq 0 1); Num (qq 0 1); Num (qq 0 1); Num (qq 0 1); Num (qq 0 1); Num (qq 0 1)];
   [Num (qq 52 1); Txt "'A22001'"; Txt "'A2'"; Num (qq 100 1); Num (qq 100 1); Num (qq 100 1); Num (qq 100 1); Num (qq 0 1); Num (qq 1 25); Num (qq 0 1); Num (qq 0 1); Num (qq 0 1); Num (qq 0 1); Num (qq 0 1); Num (qq 0 1)];
   [Num (qq 53 1); Txt "'A22101'"; Txt "'A2'"; Num (qq 100 1); Num (qq 100 1); Num (qq 100 1); Num (qq 100 1); Num (qq 0 1); Num (qq 1 25); Num (qq 0 1); Num (qq 0 1); Num (qq 0 1); Num (qq 0 1); Num (qq 0 1); Num (qq 0 1)];
   [Num (qq 54 1); Txt "'A22201'"; Txt "'A2'"; Num (qq 100 1); Num (qq 100 1); Num (qq 100 1); Num (qq 100 1); Num (qq 0 1); Num (qq 1 25); Num (qq 0 1); Num (qq 0 1); Num (qq 0 1); Num (qq 0 1); Num (qq 0 1); Num (qq 0 1)];
   [Num (qq 55 1); Txt "'A22301'"; Txt "'A2'"; Num (qq 155 1); Num (qq 155 1); Num (qq 155 1); Num (qq 155 1); Num (qq 0 1); Num (qq 1 25); Num (qq 0 1); Num (qq 0 1); Num (qq 0 1); Num (qq 0 1); Num (qq 0 1); Num (qq 0 1)];
   [Num (qq 56 1); Txt "'A22401'"; Txt "'A2'"; Num (qq 155 1); Num (qq 155 1); Num (qq 155 1); Num (qq 155 1); Num (qq 0 1); Num (qq 1 25); Num (qq 0 1); Num (qq 0 1); Num (qq 0 1); Num (qq 0 1); Num (qq 0 1); Num (qq 0 1)];
   [Num (qq 57 1); Txt "'A22501'"; Txt "'A2'"; Num (qq 155 1); Num (qq 155 1); Num (qq 155 1); Num (qq 155 1); Num (qq 0 1); Num (qq 1 25); Num (qq 0 1); Num (qq 0 1); Num (qq 0 1); Num (qq 0 1); Num (qq 0 1); Num (qq 0 1)];
   [Num (qq 58 1); Txt "'A22601'"; Txt "'A2'"; Num (qq 155 1); Num (qq 155 1); Num (qq 155 1); Num (qq 155 1); Num (qq 0 1); Num (qq 1 25); Num (qq 0 1); Num (qq 0 1); Num (qq 0 1); Num (qq 0 1); Num (qq 0 1); Num (qq 0 1)];
   [Num (qq 59 1); Txt "'A22701'"; Txt "'A2'"; Num (qq 197 1); Num (qq 197 1); Num (qq 197 1); Num (qq 197 1); Num (qq 0 1); Num (qq 1 20); Num (qq 0 1); Num (qq 0 1); Num (qq 0 1); Num (qq 0 1); Num (qq 0 1); Num (qq 0 1)];
   [Num (qq 60 1); Txt "'A22801'"; Txt "'A2'"; Num (qq 197 1); Num (qq 197 1); Num (qq 197 1); Num (qq 197 1); Num (qq 0 1); Num (qq 1 20); Num (qq 0 1); Num (qq 0 1); Num (qq 0 1); Num (qq 0 1); Num (qq 0 1); Num (qq 0 1)];
   [Num (qq 61 1); Txt "'A22901'"; Txt "'A2'"; Num (qq 197 1); Num (qq 197 1); Num (qq 197 1); Num (qq 197 1); Num (qq 0 1); Num (qq 1 20); Num (qq 0 1); Num (qq 0 1); Num (qq 0 1); Num (qq 0 1); Num (qq 0 1); Num (qq 0 1)];
   [Num (qq 62 1); Txt "'A23001'"; Txt "'A2'"; Num (qq 350 1); Num (qq 350 1); Num (qq 350 1); Num (qq 350 1); Num (qq 0 1); Num (qq 2 25); Num (qq 0 1); Num (qq 0 1); Num (qq 0 1); Num (qq 0 1); Num (qq 0 1); Num (qq 0 1)];
   [Num (qq 63 1); Txt "'A23101'"; Txt "'A2'"; Num (qq 400 1); Num (qq 400 1); Num (qq 400 1); Num (qq 400 1); Num (qq 0 1); Num (qq 3 25); Num (qq 0 1); Num (qq 0 1); Num (qq 0 1); Num (qq 0 1); Num (qq 0 1); Num (qq 0 1)];
   [Num (qq 64 1); Txt "'A23201'"; Txt "'A2'"; Num (qq 400 1); Num (qq 400 1); Num (qq 400 1); Num (qq 400 1); Num (qq 0 1); Num (qq 3 25); Num (qq 0 1); Num (qq 0 1); Num (qq 0 1); Num (qq 0 1); Num (qq 0 1); Num (qq 0 1)];
   [Num (qq 65 1); Txt "'A30101'"; Txt "'A3'"; Num (qq 12 1); Num (qq 12 1); Num (qq 12 1); Num (qq 12 1); Num (qq 0 1); Num (qq 1 50); Num (qq 0 1); Num (qq 0 1); Num (qq 0 1); Num (qq 0 1); Num (qq 0 1); Num (qq 0 1)];
   [Num (qq 66 1); Txt "'A30201'"; Txt "'A3'"; Num (qq 12 1); Num (qq 12 1); Num (qq 12 1); Num (qq 12 1); Num (qq 0 1); Num (qq 1 50); Num (qq 0 1); Num (qq 0 1); Num (qq 0 1); Num (qq 0 1); Num (qq 0 1); Num (qq 0 1)];
   [Num (qq 67 1); Txt "'A30301'"; Txt "'A3'"; Num (qq 12 1); Num (qq 12 1); Num (qq 12 1); Num (qq 12 1); Num (qq 0 1); Num (qq 1 50); Num (qq 0 1); Num (qq 0 1); Num (qq 0 1); Num (qq 0 1); Num (qq 0 1); Num (qq 0 1)];
   [Num (qq 68 1); Txt "'A30401'"; Txt "'A3'"; Num (qq 12 1); Num (qq 12 1); Num (qq 12 1); Num (qq 12 1); Num (qq 0 1); Num (qq 1 50); Num (qq 0 1); Num (qq 0 1); Num (qq 0 1); Num (qq 0 1); Num (qq 0 1); Num (qq 0 1)];
   [Num (qq 69 1); Txt "'A30501'"; Txt "'A3'"; Num (qq 12 1); Num (qq 12 1); Num (qq 12 1); Num (qq 12 1); Num (qq 0 1); Num (qq 1 50); Num (qq 0 1); Num (qq 0 1); Num (qq 0 1); Num (qq 0 1); Num (qq 0 1); Num (qq 0 1)];
   [Num (qq 70 1); Txt "'A30601'"; Txt "'A3'"; Num (qq 20 1); Num (qq 20 1); Num (qq 20 1); Num (qq 20 1); Num (qq 0 1); Num (qq 1 10); Num (qq 0 1); Num (qq 0 1); Num (qq 0 1); Num (qq 0 1); Num (qq 0 1); Num (qq 0 1)];
   [Num (qq 71 1); Txt "'A30701'"; Txt "'A3'"; Num (qq 20 1); Num (qq 20 1); Num (qq 20 1); Num (qq 20 1); Num (qq 0 1); Num (qq 1 10); Num (qq 0 1); Num (qq 0 1); Num (qq 0 1); Num (qq 0 1); Num (qq 0 1); Num (qq 0 1)];
   [Num (qq 72 1); Txt "'A30801'"; Txt "'A3'"; Num (qq 20 1); Num (qq 20 1); Num (qq 20 1); Num (qq 20 1); Num (qq 0 1); Num (qq 1 10); Num (qq 0 1); Num (qq 0 1); Num (qq 0 1); Num (qq 0 1); Num (qq 0 1); Num (qq 0 1)];
   [Num (qq 73 1); Txt "'A30901'"; Txt "'A3'"; Num (qq 20 1); Num (qq 20 1); Num (qq 20 1); Num (qq 20 1); Num (qq 0 1); Num (qq 1 10); Num (qq 0 1); Num (qq 0 1); Num (qq 0 1); Num (qq 0 1); Num (qq 0 1); Num (qq 0 1)];
   [Num (qq 74 1); Txt "'A31001'"; Txt "'A3'"; Num (qq 50 1); Num (qq 50 1); Num (qq 50 1); Num (qq 50 1); Num (qq 0 1); Num (qq 1 100); Num (qq 0 1); Num (qq 0 1); Num (qq 0 1); Num (qq 0 1); Num (qq 0 1); Num (qq 0 1)];
   [Num (qq 75 1); Txt "'A31101'"; Txt "'A3'"; Num (qq 50 1); Num (qq 50 1); Num (qq 50 1); Num (qq 50 1); Num (qq 0 1); Num (qq 1 100); Num (qq 0 1); Num (qq 0 1); Num (qq 0 1); Num (qq 0 1); Num (qq 0 1); Num (qq 0 1)];
   [Num (qq 76 1); Txt "'A31201'"; Txt "'A3'"; Num (qq 50 1); Num (qq 50 1); Num (qq 50 1); Num (qq 50 1); Num (qq 0 1); Num (qq 1 100); Num (qq 0 1); Num (qq 0 1); Num (qq 0 1); Num (qq 0 1); Num (qq 0 1); Num (qq 0 1)];
   [Num (qq 77 1); Txt "'A31301'"; Txt "'A3'"; Num (qq 50 1); Num (qq 50 1); Num (qq 50 1); Num (qq 50 1); Num (qq 0 1); Num (qq 1 100); Num (qq 0 1); Num (qq 0 1); Num (qq 0 1); Num (qq 0 1); Num (qq 0 1); Num (qq 0 1)];
   [Num (qq 78 1); Txt "'A31401'"; Txt "'A3'"; Num (qq 50 1); Num (qq 50 1); Num (qq 50 1); Num (qq 50 1); Num (qq 0 1); Num (qq 1 100); Num (qq 0 1); Num (qq 0 1); Num (qq 0 1); Num (qq 0 1); Num (qq 0 1); Num (qq 0 1)];
   [Num (qq 79 1); Txt "'A31501'"; Txt "'A3'"; Num (qq 50 1); Num (qq 50 1); Num (qq 50 1); Num (qq 50 1); Num (qq 0 1); Num (qq 1 100); Num (qq 0 1); Num (qq 0 1); Num (qq 0 1); Num (qq 0 1); Num (qq 0 1); Num (qq 0 1)];
   [Num (qq 80 1); Txt "'A31601'"; Txt "'A3'"; Num (qq 76 1); Num (qq 76 1); Num (qq 76 1); Num (qq 76 1); Num (qq 0 1); Num (qq 1 50); Num (qq 0 1); Num (qq 0 1); Num (qq 0 1); Num (qq 0 1); Num (qq 0 1); Num (qq 0 1)];
   [Num (qq 81 1); Txt "'A31701'"; Txt "'A3'"; Num (qq 76 1); Num (qq 76 1); Num (qq 76 1); Num (qq 76 1); Num (qq 0 1); Num (qq 1 50); Num (qq 0 1); Num (qq 0 1); Num (qq 0 1); Num (qq 0 1); Num (qq 0 1); Num (qq 0 1)];
   [Num (qq 82 1); Txt "'A31801'"; Txt "'A3'"; Num (qq 76 1); Num (qq 76 1); Num (qq 76 1); Num (qq 76 1); Num (qq 0 1); Num (qq 1 50); Num (qq 0 1); Num (qq 0 1); Num (qq 0 1); Num (qq 0 1); Num (qq 0 1); Num (qq 0 1)];
   [Num (qq 83 1); Txt "'A31901'"; Txt "'A3'"; Num (qq 76 1); Num (qq 76 1); Num (qq 76 1); Num (qq 76 1); Num (qq 0 1); Num (qq 1 50); Num (qq 0 1); Num (qq 0 1); Num (qq 0 1); Num (qq 0 1); Num (qq 0 1); Num (qq 0 1)];
   [Num (qq 84 1); Txt "'A32001'"; Txt "'A3'"; Num (qq 100 1); Num (qq 100 1); Num (qq 100 1); Num (qq 100 1); Num (qq 0 1); Num (qq 1 25); Num (qq 0 1); Num (qq 0 1); Num (qq 0 1); Num (qq 0 1); Num (qq 0 1); Num (qq 0 1)];
   [Num (qq 85 1); Txt "'A32101'"; Txt "'A3'"; Num (qq 100 1); Num (qq 100 1); Num (qq 100 1); Num (qq 100 1); Num (qq 0 1); Num (qq 1 25); Num (qq 0 1); Num (qq 0 1); Num (qq 0 1); Num (qq 0 1); Num (qq 0 1); Num (qq 0 1)];
   [Num (qq 86 1); Txt "'A32201'"; Txt "'A3'"; Num (qq 100 1); Num (qq 100 1); Num (qq 100 1); Num (qq 100 1); Num (qq 0 1); Num (qq 1 25); Num (qq 0 1); Num (qq 0 1); Num (qq 0 1); Num (qq 0 1); Num (qq 0 1); Num (qq 0 1)];
   [Num (qq 87 1); Txt "'A32301'"; Txt "'A3'"; Num (qq 155 1); Num (qq 155 1); Num (qq 155 1); Num (qq 155 1); Num (qq 0 1); Num (qq 1 25); Num (qq 0 1); Num (qq 0 1); Num (qq 0 1); Num (qq 0 1); Num (qq 0 1); Num (qq 0 1)];
   [Num (qq 88 1); Txt "'A32401'"; Txt "'A3'"; Num (qq 155 1); Num (qq 155 1); Num (qq 155 1); Num (qq 155 1); Num (qq 0 1); Num (qq 1 25); Num (qq 0 1); Num (qq 0 1); Num (qq 0 1); Num (qq 0 1); Num (qq 0 1); Num (qq 0 1)];
   [Num (qq 89 1); Txt "'A32501'"; Txt "'A3'"; Num (qq 155 1); Num (qq 155 1); Num (qq 155 1); Num (qq 155 1); Num (qq 0 1); Num (qq 1 25); Num (qq 0 1); Num (qq 0 1); Num (qq 0 1); Num (qq 0 1); Num (qq 0 1); Num (qq 0 1)];
   [Num (qq 90 1); Txt "'A32601'"; Txt "'A3'"; Num (qq 155 1); Num (qq 155 1); Num (qq 155 1); Num (qq 155 1); Num (qq 0 1); Num (qq 1 25); Num (qq 0 1); Num (qq 0 1); Num (qq 0 1); Num (qq 0 1); Num (qq 0 1); Num (qq 0 1)];
   [Num (qq 91 1); Txt "'A32701'"; Txt "'A3'"; Num (qq 197 1); Num (qq 197 1); Num (qq 197 1); Num (qq 197 1); Num (qq 0 1); Num (qq 1 20); Num (qq 0 1); Num (qq 0 1); Num (qq 0 1); Num (qq 0 1); Num (qq 0 1); Num (qq 0 1)];
   [Num (qq 92 1); Txt "'A32801'"; Txt "'A3'"; Num (qq 197 1); Num (qq 197 1); Num (qq 197 1); Num (qq 197 1); Num (qq 0 1); Num (qq 1 20); Num (qq 0 1); Num (qq 0 1); Num (qq 0 1); Num (qq 0 1); Num (qq 0 1); Num (qq 0 1)];
   [Num (qq 93 1); Txt "'A32901'"; Txt "'A3'"; Num (qq 197 1); Num (qq 197 1); Num (qq 197 1); Num (qq 197 1); Num (qq 0 1); Num (qq 1 20); Num (qq 0 1); Num (qq 0 1); Num (qq 0 1); Num (qq 0 1); Num (qq 0 1); Num (qq 0 1)];
   [Num (qq 94 1); Txt "'A33001'"; Txt "'A3'"; Num (qq 350 1); Num (qq 350 1); Num (qq 350 1); Num (qq 350 1); Num (qq 0 1); Num (qq 2 25); Num (qq 0 1); Num (qq 0 1); Num (qq 0 1); Num (qq 0 1); Num (qq 0 1); Num (qq 0 1)];
   [Num (qq 95 1); Txt "'A33101'"; Txt "'A3'"; Num (qq 400 1); Num (qq 400 1); Num (qq 400 1); Num (qq 400 1); Num (qq 0 1); Num (qq 3 25); Num (qq 0 1); Num (qq 0 1); Num (qq 0 1); Num (qq 0 1); Num (qq 0 1); Num (qq 0 1)];
   [Num (qq 96 1); Txt "'A33201'"; Txt "'A3'"; Num (qq 400 1); Num (qq 400 1); Num (qq 400 1); Num (qq 400 1); Num (qq 0 1); Num (qq 3 25); Num (qq 0 1); Num (qq 0 1); Num (qq 0 1); Num (qq 0 1); Num (qq 0 1); Num (qq 0 1)];
   [Num (qq 97 1); Txt "'A40101'"; Txt "'A4'"; Num (qq 12 1); Num (qq 12 1); Num (qq 12 1); Num (qq 12 1); Num (qq 0 1); Num (qq 1 50); Num (qq 0 1); Num (qq 0 1); Num (qq 0 1); Num (qq 0 1); Num (qq 0 1); Num (qq 0 1)];
   [Num (qq 98 1); Txt "'A40201'"; Txt "'A4'"; Num (qq 12 1); Num (qq 12 1); Num (qq 12 1); Num (qq 12 1); Num (qq 0 1); Num (qq 1 50); Num (qq 0 1); Num (qq 0 1); Num (qq 0 1); Num (qq 0 1); Num (qq 0 1); Num (qq 0 1)];
   [Num (qq 99 1); Txt "'A40301'"; Txt "'A4'"; Num (qq 12 1); Num (qq 12 1); Num (qq 12 1); Num (qq 12 1); Num (qq 0 1); Num (qq 1 50); Num (qq 0 1); Num (qq 0 1); Num (qq 0 1); Num (qq 0 1); Num (qq 0 1); Num (qq 0 1)];
   [Num (qq 100 1); Txt "'A40401'"; Txt "'A4'"; Num (qq 12 1); Num (qq 12 1); Num (qq 12 1); Num (qq 12 1); Num (qq 0 1); Num (qq 1 50); Num (qq 0 1); Num (qq 0 1); Num (qq 0 1); Num (qq 0 1); Num (qq 0 1); Num (qq 0 1)];
   [Num (qq 101 1); Txt "'A40501'"; Txt "'A4'"; Num (qq 12 1); Num (qq 12 1); Num (qq 12 1); Num (qq 12 1); Num (qq 0 1); Num (qq 1 50); Num (qq 0 1); Num (qq 0 1); Num (qq 0 1); Num (qq 0 1); Num (qq 0 1); Num (qq 0 1)];
   [Num (qq 102 1); Txt "'A40601'"; Txt "'A4'"; Num (qq 20 1); Num (qq 20 1); Num (qq 20 1); Num (qq 20 1); Num (qq 0 1); Num (qq 1 10); Num (qq 0 1); Num (qq 0 1); Num (qq 0 1); Num (qq 0 1); Num (qq 0 1); Num (qq 0 1)];
   [Num (qq 103 1); Txt "'A40701'"; Txt "'A4'"; Num (qq 20 1); Num (qq 20 1); Num (qq 20 1); Num (qq 20 1); Num (qq 0 1); Num (qq 1 10); Num (qq 0 1); Num (qq 0 1); Num (qq 0 1); Num (qq 0 1); Num (qq 0 1); Num (qq 0 1)];
   [Num (qq 104 1); Txt "'A40801'"; Txt "'A4'"; Num (qq 20 1); Num (qq 20 1); Num (qq 20 1); Num (qq 20 1); Num (qq 0 1); Num (qq 1 10); Num (qq 0 1); Num (qq 0 1); Num (qq 0 1); Num (qq 0 1); Num (qq 0 1); Num (qq 0 1)];
   [Num (qq 105 1); Txt "'A40901'"; Txt "'A4'"; Num (qq 20 1); Num (qq 20 1); Num (qq 20 1); Num (qq 20 1); Num (qq 0 1); Num (qq 1 10); Num (qq 0 1); Num (qq 0 1); Num (qq 0 1); Num (qq 0 1); Num (qq 0 1); Num (qq 0 1)];
   [Num (qq 106 1); Txt "'A41001'"; Txt "'A4'"; Num (qq 50 1); Num (qq 50 1); Num (qq 50 1); Num (qq 50 1); Num (qq 0 1); Num (qq 1 100); Num (qq 0 1); Num (qq 0 1); Num (qq 0 1); Num (qq 0 1); Num (qq 0 1); Num (qq 0 1)];
   [Num (qq 107 1); Txt "'A41101'"; Txt "'A4'"; Num (qq 50 1); Num (qq 50 1); Num (qq 50 1); Num (qq 50 1); Num (qq 0 1); Num (qq 1 100); Num (qq 0 1); Num (qq 0 1); Num (qq 0 1); Num (qq 0 1); Num (qq 0 1); Num (qq 0 1)];
   [Num (qq 108 1); Txt "'A41201'"; Txt "'A4'"; Num (qq 50 1); Num (qq 50 1); Num (qq 50 1); Num (qq 50 1); Num (qq 0 1); Num (qq 1 100); Num (qq 0 1); Num (qq 0 1); Num (qq 0 1); Num (qq 0 1); Num (qq 0 1); Num (qq 0 1)];
   [Num (qq 109 1); Txt "'A41301'"; Txt "'A4'"; Num (qq 50 1); Num (qq 50 1); Num (qq 50 1); Num (qq 50 1); Num (qq 0 1); Num (qq 1 100); Num (qq 0 1); Num (qq 0 1); Num (qq 0 1); Num (qq 0 1); Num (qq 0 1); Num (qq 0 1)];
   [Num (qq 110 1); Txt "'A41401'"; Txt "'A4'"; Num (qq 50 1); Num (qq 50 1); Num (qq 50 1); Num (qq 50 1); Num (qq 0 1); Num (qq 1 100); Num (qq 0 1); Num (qq 0 1); Num (qq 0 1); Num (qq 0 1); Num (qq 0 1); Num (qq 0 1)];
   [Num (qq 111 1); Txt "'A41501'"; Txt "'A4'"; Num (qq 50 1); Num (qq 50 1); Num (qq 50 1); Num (qq 50 1); Num (qq 0 1); Num (qq 1 100); Num (qq 0 1); Num (qq 0 1); Num (qq 0 1); Num (qq 0 1); Num (qq 0 1); Num (qq 0 1)];
   [Num (qq 112 1); Txt "'A41601'"; Txt "'A4'"; Num (qq 76 1); Num (qq 76 1); Num (qq 76 1); Num (qq 76 1); Num (qq 0 1); Num (qq 1 50); Num (qq 0 1); Num (qq 0 1); Num (qq 0 1); Num (qq 0 1); Num (qq 0 1); Num (qq 0 1)];
   [Num (qq 113 1); Txt "'A41701'"; Txt "'A4'"; Num (qq 76 1); Num (qq 76 1); Num (qq 76 1); Num (qq 76 1); Num (qq 0 1); Num (qq 1 50); Num (qq 0 1); Num (qq 0 1); Num (qq 0 1); Num (qq 0 1); Num (qq 0 1); Num (qq 0 1)];
   [Num (qq 114 1); Txt "'A41801'"; Txt "'A4'"; Num (qq 76 1); Num (qq 76 1); Num (qq 76 1); Num (qq 76 1); Num (qq 0 1); Num (qq 1 50); Num (qq 0 1); Num (qq 0 1); Num (qq 0 1); Num (qq 0 1); Num (qq 0 1); Num (qq 0 1)];
   [Num (qq 115 1); Txt "'A41901'"; Txt "'A4'"; Num (qq 76 1); Num (qq 76 1); Num (qq 76 1); Num (qq 76 1); Num (qq 0 1); Num (qq 1 50); Num (qq 0 1); Num (qq 0 1); Num (qq 0 1); Num (qq 0 1); Num (qq 0 1); Num (qq 0 1)];
   [Num (qq 116 1); Txt "'A42001'"; Txt "'A4'"; Num (qq 100 1); Num (qq 100 1); Num (qq 100 1); Num (qq 100 1); Num (qq 0 1); Num (qq 1 25); Num (qq 0 1); Num (qq 0 1); Num (qq 0 1); Num (qq 0 1); Num (qq 0 1); Num (qq 0 1)];
   [Num (qq 117 1); Txt "'A42101'"; Txt "'A4'"; Num (qq 100 1); Num (qq 100 1); Num (qq 100 1); Num (qq 100 1); Num (qq 0 1); Num (qq 1 25); Num (qq 0 1); Num (qq 0 1); Num (qq 0 1); Num (qq 0 1); Num (qq 0 1); Num (qq 0 1)];
   [Num (qq 118 1); Txt "'A42201'"; Txt "'A4'"; Num (qq 100 1); Num (qq 100 1); Num (qq 100 1); Num (qq 100 1); Num (qq 0 1); Num (qq 1 25); Num (qq 0 1); Num (qq 0 1); Num (qq 0 1); Num (qq 0 1); Num (qq 0 1); Num (qq 0 1)];
   [Num (qq 119 1); Txt "'A42301'"; Txt "'A4'"; Num (qq 155 1); Num (qq 155 1); Num (qq 155 1); Num (qq 155 1); Num (qq 0 1); Num (qq 1 25); Num (qq 0 1); Num (qq 0 1); Num (qq 0 1); Num (qq 0 1); Num (qq 0 1); Num (qq 0 1)];
   [Num (qq 120 1); Txt "'A42401'"; Txt "'A4'"; Num (qq 155 1); Num (qq 155 1); Num (qq 155 1); Num (qq 155 1); Num (qq 0 1); Num (qq 1 25); Num (qq 0 1); Num (qq 0 1); Num (qq 0 1); Num (qq 0 1); Num (qq 0 1); Num (qq 0 1)];
   [Num (qq 121 1); Txt "'A42501'"; Txt "'A4'"; Num (qq 155 1); Num (qq 155 1); Num (qq 155 1); Num (qq 155 1); Num (qq 0 1); Num (qq 1 25); Num (qq 0 1); Num (qq 0 1); Num (qq 0 1); Num (qq 0 1); Num (qq 0 1); Num (qq 0 1)];
   [Num (qq 122 1); Txt "'A42601'"; Txt "'A4'"; Num (qq 155 1); Num (qq 155 1); Num (qq 155 1); Num (qq 155 1); Num (qq 0 1); Num (qq 1 25); Num (qq 0 1); Num (qq 0 1); Num (qq 0 1); Num (qq 0 1); Num (qq 0 1); Num (qq 0 1)];
   [Num (qq 123 1); Txt "'A42701'"; Txt "'A4'"; Num (qq 197 1); Num (qq 197 1); Num (qq 197 1); Num (qq 197 1); Num (qq 0 1); Num (qq 1 20); Num (qq 0 1); Num (qq 0 1); Num (qq 0 1); Num (qq 0 1); Num (qq 0 1); Num (qq 0 1)];
   [Num (qq 124 1); Txt "'A42801'"; Txt "'A4'"; Num (qq 197 1); Num (qq 197 1); Num (qq 197 1); Num (qq 197 1); Num (qq 0 1); Num (qq 1 20); Num (qq 0 1); Num (qq 0 1); Num (qq 0 1); Num (qq 0 1); Num (qq 0 1); Num (qq 0 1)];
   [Num (qq 125 1); Txt "'A42901'"; Txt "'A4'"; Num (qq 197 1); Num (qq 197 1); Num (qq 197 1); Num (qq 197 1); Num (qq 0 1); Num (qq 1 20); Num (qq 0 1); Num (qq 0 1); Num (qq 0 1); Num (qq 0 1); Num (qq 0 1); Num (qq 0 1)];
   [Num (qq 126 1); Txt "'A43001'"; Txt "'A4'"; Num (qq 350 1); Num (qq 350 1); Num (qq 350 1); Num (qq 350 1); Num (qq 0 1); Num (qq 2 25); Num (qq 0 1); Num (qq 0 1); Num (qq 0 1); Num (qq 0 1); Num (qq 0 1); Num (qq 0 1)];
   [Num (qq 127 1); Txt "'A43101'"; Txt "'A4'"; Num (qq 400 1); Num (qq 400 1); Num (qq 400 1); Num (qq 400 1); Num (qq 0 1); Num (qq 3 25); Num (qq 0 1); Num (qq 0 1); Num (qq 0 1); Num (qq 0 1); Num (qq 0 1); Num (qq 0 1)];
   [Num (qq 128 1); Txt "'A43201'"; Txt "'A4'"; Num (qq 400 1); Num (qq 400 1); Num (qq 400 1); Num (qq 400 1); Num (qq 0 1); Num (qq 3 25); Num (qq 0 1); Num (qq 0 1); Num (qq 0 1); Num (qq 0 1); Num (qq 0 1); Num (qq 0 1)];
   [Num (qq 129 1); Txt "'A50101'"; Txt "'A5'"; Num (qq 12 1); Num (qq 12 1); Num (qq 12 1); Num (qq 12 1); Num (qq 0 1); Num (qq 1 50); Num (qq 0 1); Num (qq 0 1); Num (qq 0 1); Num (qq 0 1); Num (qq 0 1); Num (qq 0 1)];
   [Num (qq 130 1); Txt "'A50201'"; Txt "'A5'"; Num (qq 12 1); Num (qq 12 1); Num (qq 12 1); Num (qq 12 1); Num (qq 0 1); Num (qq 1 50); Num (qq 0 1); Num (qq 0 1); Num (qq 0 1); Num (qq 0 1); Num (qq 0 1); Num (qq 0 1)];
   [Num (qq 131 1); Txt "'A50301'"; Txt "'A5'"; Num (qq 12 1); Num (qq 12 1); Num (qq 12 1); Num (qq 12 1); Num (qq 0 1); Num (qq 1 50); Num (qq 0 1); Num (qq 0 1); Num (qq 0 1); Num (qq 0 1); Num (qq 0 1); Num (qq 0 1)];
   [Num (qq 132 1); Txt "'A50401'"; Txt "'A5'"; Num (qq 12 1); Num (qq 12 1); Num (qq 12 1); Num (qq 12 1); Num (qq 0 1); Num (qq 1 50); Num (qq 0 1); Num (qq 0 1); Num (qq 0 1); Num (qq 0 1); Num (qq 0 1); Num (qq 0 1)];
   [Num (qq 133 1); Txt "'A50501'"; Txt "'A5'"; Num (qq 12 1); Num (qq 12 1); Num (qq 12 1); Num (qq 12 1); Num (qq 0 1); Num (qq 1 50); Num (qq 0 1); Num (qq 0 1); Num (qq 0 1); Num (qq 0 1); Num (qq 0 1); Num (qq 0 1)];
   [Num (qq 134 1); Txt "'A50601'"; Txt "'A5'"; Num (qq 20 1); Num (qq 20 1); Num (qq 20 1); Num (qq 20 1); Num (qq 0 1); Num (qq 1 10); Num (qq 0 1); Num (qq 0 1); Num (qq 0 1); Num (qq 0 1); Num (qq 0 1); Num (qq 0 1)];
   [Num (qq 135 1); Txt "'A50701'"; Txt "'A5'"; Num (qq 20 1); Num (qq 20 1); Num (qq 20 1); Num (qq 20 1); Num (qq 0 1); Num (qq 1 10); Num (qq 0 1); Num (qq 0 1); Num (qq 0 1); Num (qq 0 1); Num (qq 0 1); Num (qq 0 1)];
   [Num (qq 136 1); Txt "'A50801'"; Txt "'A5'"; Num (qq 20 1); Num (qq 20 1); Num (qq 20 1); Num (qq 20 1); Num (qq 0 1); Num (qq 1 10); Num (qq 0 1); Num (qq 0 1); Num (qq 0 1); Num (qq 0 1); Num (qq 0 1); Num (qq 0 1)];
   [Num (qq 137 1); Txt "'A50901'"; Txt "'A5'"; Num (qq 20 1); Num (qq 20 1); Num (qq 20 1); Num (qq 20 1); Num (qq 0 1); Num (qq 1 10); Num (qq 0 1); Num (qq 0 1); Num (qq 0 1); Num (qq 0 1); Num (qq 0 1); Num (qq 0 1)];
   [Num (qq 138 1); Txt "'A51001'"; Txt "'A5'"; Num (qq 50 1); Num (qq 50 1); Num (qq 50 1); Num (qq 50 1); Num (qq 0 1); Num (qq 1 100); Num (qq 0 1); Num (qq 0 1); Num (qq 0 1); Num (qq 0 1); Num (qq 0 1); Num (qq 0 1)];
   [Num (qq 139 1); Txt "'A51101'"; Txt "'A5'"; Num (qq 50 1); Num (qq 50 1); Num (qq 50 1); Num (qq 50 1); Num (qq 0 1); Num (qq 1 100); Num (qq 0 1); Num (qq 0 1); Num (qq 0 1); Num (qq 0 1); Num (qq 0 1); Num (qq 0 1)];
   [Num (qq 140 1); Txt "'A51201'"; Txt "'A5'"; Num (qq 50 1); Num (qq 50 1); Num (qq 50 1); Num (qq 50 1); Num (qq 0 1); Num (qq 1 100); Num (qq 0 1); Num (qq 0 1); Num (qq 0 1); Num (qq 0 1); Num (qq 0 1); Num (qq 0 1)];
   [Num (qq 141 1); Txt "'A51301'"; Txt "'A5'"; Num (qq 50 1); Num (qq 50 1); Num (qq 50 1); Num (qq 50 1); Num (qq 0 1); Num (qq 1 100); Num (qq 0 1); Num (qq 0 1); Num (qq 0 1); Num (qq 0 1); Num (qq 0 1); Num (qq 0 1)];
   [Num (qq 142 1); Txt "'A51401'"; Txt "'A5'"; Num (qq 50 1); Num (qq 50 1); Num (qq 50 1); Num (qq 50 1); Num (qq 0 1); Num (qq 1 100); Num (qq 0 1); Num (qq 0 1); Num (qq 0 1); Num (qq 0 1); Num (qq 0 1); Num (qq 0 1)];
   [Num (qq 143 1); Txt "'A51501'"; Txt "'A5'"; Num (qq 50 1); Num (qq 50 1); Num (qq 50 1); Num (qq 50 1); Num (qq 0 1); Num (qq 1 100); Num (qq 0 1); Num (qq 0 1); Num (qq 0 1); Num (qq 0 1); Num (qq 0 1); Num (qq 0 1)];
   [Num (qq 144 1); Txt "'A51601'"; Txt "'A5'"; Num (qq 76 1); Num (qq 76 1); Num (qq 76 1); Num (qq 76 1); Num (qq 0 1); Num (qq 1 50); Num (qq 0 1); Num (qq 0 1); Num (qq 0 1); Num (qq 0 1); Num (qq 0 1); Num (qq 0 1)];
   [Num (qq 145 1); Txt "'A51701'"; Txt "'A5'"; Num (qq 76 1); Num (qq 76 1); Num (qq 76 1); Num (qq 76 1); Num (qq 0 1); Num (qq 1 50); Num (qq 0 1); Num (qq 0 1); Num (qq 0 1); Num (qq 0 1); Num (qq 0 1); Num (qq 0 1)];
   [Num (qq 146 1); Txt "'A51801'"; Txt "'A5'"; Num (qq 76 1); Num (qq 76 1); Num (qq 76 1); Num (qq 76 1); Num (qq 0 1); Num (qq 1 50); Num (qq 0 1); Num (qq 0 1); Num (qq 0 1); Num (qq 0 1); Num (qq 0 1); Num (qq 0 1)];
   [Num (qq 147 1); Txt "'A51901'"; Txt "'A5'"; Num (qq 76 1); Num (qq 76 1); Num (qq 76 1); Num (qq 76 1); Num (qq 0 1); Num (qq 1 50); Num (qq 0 1); Num (qq 0 1); Num (qq 0 1); Num (qq 0 1); Num (qq 0 1); Num (qq 0 1)];
   [Num (qq 148 1); Txt "'A52001'"; Txt "'A5'"; Num (qq 100 1); Num (qq 100 1); Num (qq 100 1); Num (qq 100 1); Num (qq 0 1); Num (qq 1 25); Num (qq 0 1); Num (qq 0 1); Num (qq 0 1); Num (qq 0 1); Num (qq 0 1); Num (qq 0 1)];
   [Num (qq 149 1); Txt "'A52101'"; Txt "'A5'"; Num (qq 100 1); Num (qq 100 1); Num (qq 100 1); Num (qq 100 1); Num (qq 0 1); Num (qq 1 25); Num (qq 0 1); Num (qq 0 1); Num (qq 0 1); Num (qq 0 1); Num (qq 0 1); Num (qq 0 1)];
   [Num (qq 150 1); Txt "'A52201'"; Txt "'A5'"; Num (qq 100 1); Num (qq 100 1); Num (qq 100 1); Num (qq 100 1); Num (qq 0 1); Num (qq 1 25); Num (qq 0 1); Num (qq 0 1); Num (qq 0 1); Num (qq 0 1); Num (qq 0 1); Num (qq 0 1)];
   [Num (qq 151 1); Txt "'A52301'"; Txt "'A5'"; Num (qq 155 1); Num (qq 155 1); Num (qq 155 1); Num (qq 155 1); Num (qq 0 1); Num (qq 1 25); Num (qq 0 1); Num (qq 0 1); Num (qq 0 1); Num (qq 0 1); Num (qq 0 1); Num (qq 0 1)];
   [Num (qq 152 1); Txt "'A52401'"; Txt "'A5'"; Num (qq 155 1); Num (qq 155 1); Num (qq 155 1); Num (qq 155 1); Num (qq 0 1); Num (qq 1 25); Num (qq 0 1); Num (qq 0 1); Num (qq 0 1); Num (qq 0 1); Num (qq 0 1); Num (qq 0 1)];
   [Num (qq 153 1); Txt "'A52501'"; Txt "'A5'"; Num (qq 155 1); Num (qq 155 1); Num (qq 155 1); Num (qq 155 1); Num (qq 0 1); Num (qq 1 25); Num (qq 0 1); Num (qq 0 1); Num (qq 0 1); Num (qq 0 1); Num (qq 0 1); Num (qq 0 1)];
   [Num (qq 154 1); Txt "'A52601'"; Txt "'A5'"; Num (qq 155 1); Num (qq 155 1); Num (qq 155 1); Num (qq 155 1); Num (qq 0 1); Num (qq 1 25); Num (qq 0 1); Num (qq 0 1); Num (qq 0 1); Num (qq 0 1); Num (qq 0 1); Num (qq 0 1)];
   [Num (qq 155 1); Txt "'A52701'"; Txt "'A5'"; Num (qq 197 1); Num (qq 197 1); Num (qq 197 1); Num (qq 197 1); Num (qq 0 1); Num (qq 1 20); Num (qq 0 1); Num (qq 0 1); Num (qq 0 1); Num (qq 0 1); Num (qq 0 1); Num (qq 0 1)];
   [Num (qq 156 1); Txt "'A52801'"; Txt "'A5'"; Num (qq 197 1); Num (qq 197 1); Num (qq 197 1); Num (qq 197 1); Num (qq 0 1); Num (qq 1 20); Num (qq 0 1); Num (qq 0 1); Num (qq 0 1); Num (qq 0 1); Num (qq 0 1); Num (qq 0 1)];
   [Num (qq 157 1); Txt "'A52901'"; Txt "'A5'"; Num (qq 197 1); Num (qq 197 1); Num (qq 197 1); Num (qq 197 1); Num (qq 0 1); Num (qq 1 20); Num (qq 0 1); Num (qq 0 1); Num (qq 0 1); Num (qq 0 1); Num (qq 0 1); Num (qq 0 1)];
   [Num (qq 158 1); Txt "'A53001'"; Txt "'A5'"; Num (qq 350 1); Num (qq 350 1); Num (qq 350 1); Num (qq 350 1); Num (qq 0 1); Num (qq 2 25); Num (qq 0 1); Num (qq 0 1); Num (qq 0 1); Num (qq 0 1); Num (qq 0 1); Num (qq 0 1)];
   [Num (qq 159 1); Txt "'A53101'"; Txt "'A5'"; Num (qq 400 1); Num (qq 400 1); Num (qq 400 1); Num (qq 400 1); Num (qq 0 1); Num (qq 3 25); Num (qq 0 1); Num (qq 0 1); Num (qq 0 1); Num (qq 0 1); Num (qq 0 1); Num (qq 0 1)];
   [Num (qq 160 1); Txt "'A53201'"; Txt "'A5'"; Num (qq 400 1); Num (qq 400 1); Num (qq 400 1); Num (qq 400 1); Num (qq 0 1); Num (qq 3 25); Num (qq 0 1); Num (qq 0 1); Num (qq 0 1); Num (qq 0 1); Num (qq 0 1); Num (qq 0 1)]])
 (mkTable ["SN"; "LINE NUMBER"; "FROM AREA"; "TO AREA"; "META DATA"] [[Num (qq 1 1); Num (qq 1 1); Txt "'A1'"; Txt "'A2'"; Txt "-120. ,300. ,300. ,0.9216,-60. ,150. ,150. ,0.0768, 0. ,0. ,0. ,0.0016,-80. ,150. ,150. ,0.0000,-40. ,100. ,100. ,0.0000,-20. ,50. ,50.,0.0000"];
   [Num (qq 2 1); Num (qq 2 1); Txt "'A2'"; Txt "'A3'"; Txt "-120. ,300. ,300. ,0.9216,-60. ,150. ,150. ,0.0768, 0. ,0. ,0. ,0.0016,-80. ,150. ,150. ,0.0000,-40. ,100. ,100. ,0.0000,-20. ,50. ,50.,0.0000"];
   [Num (qq 3 1); Num (qq 3 1); Txt "'A3'"; Txt "'A4'"; Txt "-120. ,300. ,300. ,0.9216,-60. ,150. ,150. ,0.0768, 0. ,0. ,0. ,0.0016,-80. ,150. ,150. ,0.0000,-40. ,100. ,100. ,0.0000,-20. ,50. ,50.,0.0000"];
   [Num (qq 4 1); Num (qq 4 1); Txt "'A4'"; Txt "'A5'"; Txt "-120. ,300. ,300. ,0.9216,-60. ,150. ,150. ,0.0768, 0. ,0. ,0. ,0.0016,-80. ,150. ,150. ,0.0000,-40. ,100. ,100. ,0.0000,-20. ,50. ,50.,0.0000"];
   [Num (qq 5 1); Num (qq 5 1); Txt "'A5'"; Txt "'A1'"; Txt "-120. ,300. ,300. ,0.9216,-60. ,150. ,150. ,0.0768, 0. ,0. ,0. ,0.0016,-80. ,150. ,150. ,0.0000,-40. ,100. ,100. ,0.0000,-20. ,50. ,50.,0.0000"]])
 (mkTable ["SN"; "FROM AREA"; "TO AREA"; "BEG DAY"; "END DAY"; "MW"] [])
 (mkTable ["SN"; "UNIT NAME"; "PERCENT OWNED BY AREA"] [])
 (mkTable ["SN"; "LINE NUMBER"; "UNIT1"; "UNIT2"; "UNIT3"; "UNIT4"; "FORWARD"; "BACKWARD"] []) EmptyString).
Example datax_5 : True.
Proof. agrees (okd (do c <- read_cards files5; do c' <- pind c; datax c') (fun d =>
  veq (dx_QTR d) (qs 10 [21845; 43685; 65525]) && Nat.eqb (dx_NORR d) 0 && Nat.eqb (dx_NFCST d) 1 && mnear 6 (dx_BN d) (qm 1 [[0; 0; 0; 30000; 30000];
    [1; 0; 0; 30000; 30000];
    [2; 0; 0; 30000; 30000];
    [3; 0; 0; 30000; 30000];
    [4; 0; 0; 30000; 30000]]) && mnear 6 (dx_FCTERR d) (qm 1 [[1; 1; 1; 1; 1];
    [1; 1; 1; 1; 1];
    [1; 1; 1; 1; 1];
    [1; 1; 1; 1; 1];
    [1; 1; 1; 1; 1]]) &&
  zeq (dx_CAPCON d) [0; 0; 0; 0; 0; 0; 0; 0; 0; 0; 0; 0; 0; 0; 0; 0; 0; 0; 0; 0; 0; 0; 0; 0; 0; 0; 0; 0; 0; 0; 0; 0; 1; 1; 1; 1; 1; 1; 1; 1; 1; 1; 1; 1; 1; 1; 1; 1; 1; 1; 1; 1; 1; 1; 1; 1; 1; 1; 1; 1; 1; 1; 1; 1; 2; 2; 2; 2; 2; 2; 2; 2; 2; 2; 2; 2; 2; 2; 2; 2; 2; 2; 2; 2; 2; 2; 2; 2; 2; 2; 2; 2; 2; 2; 2; 2; 3; 3; 3; 3; 3; 3; 3; 3; 3; 3; 3; 3; 3; 3; 3; 3; 3; 3; 3; 3; 3; 3; 3; 3; 3; 3; 3; 3; 3; 3; 3; 3; 4; 4; 4; 4; 4; 4; 4; 4; 4; 4; 4; 4; 4; 4; 4; 4; 4; 4; 4; 4; 4; 4; 4; 4; 4; 4; 4; 4; 4; 4; 4; 4] && mnear 6 (dx_CAPOWN d) (qm 1 [[1; 1; 1; 1; 1; 1; 1; 1; 1; 1; 1; 1; 1; 1; 1; 1; 1; 1; 1; 1; 1; 1; 1; 1; 1; 1; 1; 1; 1; 1; 1; 1; 0; 0; 0; 0; 0; 0; 0; 0; 0; 0; 0; 0; 0; 0; 0; 0; 0; 0; 0; 0; 0; 0; 0; 0; 0; 0; 0; 0; 0; 0; 0; 0; 0; 0; 0; 0; 0; 0; 0; 0; 0; 0; 0; 0; 0; 0; 0; 0; 0; 0; 0; 0; 0; 0; 0; 0; 0; 0; 0; 0; 0; 0; 0; 0; 0; 0; 0; 0; 0; 0; 0; 0; 0; 0; 0; 0; 0; 0; 0; 0; 0; 0; 0; 0; 0; 0; 0; 0; 0; 0; 0; 0; 0; 0; 0; 0; 0; 0; 0; 0; 0; 0; 0; 0; 0; 0; 0; 0; 0; 0; 0; 0; 0; 0; 0; 0; 0; 0; 0; 0; 0; 0; 0; 0; 0; 0; 0; 0];
    [0; 0; 0; 0; 0; 0; 0; 0; 0; 0; 0; 0; 0; 0; 0; 0; 0; 0; 0; 0; 0; 0; 0; 0; 0; 0; 0; 0; 0; 0; 0; 0; 1; 1; 1; 1; 1; 1; 1; 1; 1; 1; 1; 1; 1; 1; 1; 1; 1; 1; 1; 1; 1; 1; 1; 1; 1; 1; 1; 1; 1; 1; 1; 1; 0; 0; 0; 0; 0; 0; 0; 0; 0; 0; 0; 0; 0; 0; 0; 0; 0; 0; 0; 0; 0; 0; 0; 0; 0; 0; 0; 0; 0; 0; 0; 0; 0; 0; 0; 0; 0; 0; 0; 0; 0; 0; 0; 0; 0; 0; 0; 0; 0; 0; 0; 0; 0; 0; 0; 0; 0; 0; 0; 0; 0; 0; 0; 0; 0; 0; 0; 0; 0; 0; 0; 0; 0; 0; 0; 0; 0; 0; 0; 0; 0; 0; 0; 0; 0; 0; 0; 0; 0; 0; 0; 0; 0; 0; 0; 0];
    [0; 0; 0; 0; 0; 0; 0; 0; 0; 0; 0; 0; 0; 0; 0; 0; 0; 0; 0; 0; 0; 0; 0; 0; 0; 0; 0; 0; 0; 0; 0; 0; 0; 0; 0; 0; 0; 0; 0; 0; 0; 0; 0; 0; 0; 0; 0; 0; 0; 0; 0; 0; 0; 0; 0; 0; 0; 0; 0; 0; 0; 0; 0; 0; 1; 1; 1; 1; 1; 1; 1; 1; 1; 1; 1; 1; 1; 1; 1; 1; 1; 1; 1; 1; 1; 1; 1; 1; 1; 1; 1; 1; 1; 1; 1; 1; 0; 0; 0; 0; 0; 0; 0; 0; 0; 0; 0; 0; 0; 0; 0; 0; 0; 0; 0; 0; 0; 0; 0; 0; 0; 0; 0; 0; 0; 0; 0; 0; 0; 0; 0; 0; 0; 0; 0; 0; 0; 0; 0; 0; 0; 0; 0; 0; 0; 0; 0; 0; 0; 0; 0; 0; 0; 0; 0; 0; 0; 0; 0; 0];
    [0; 0; 0; 0; 0; 0; 0; 0; 0; 0; 0; 0; 0; 0; 0; 0; 0; 0; 0; 0; 0; 0; 0; 0; 0; 0; 0; 0; 0; 0; 0; 0; 0; 0; 0; 0; 0; 0; 0; 0; 0; 0; 0; 0; 0; 0; 0; 0; 0; 0; 0; 0; 0; 0; 0; 0; 0; 0; 0; 0; 0; 0; 0; 0; 0; 0; 0; 0; 0; 0; 0; 0; 0; 0; 0; 0; 0; 0; 0; 0; 0; 0; 0; 0; 0; 0; 0; 0; 0; 0; 0; 0; 0; 0; 0; 0; 1; 1; 1; 1; 1; 1; 1; 1; 1; 1; 1; 1; 1; 1; 1; 1; 1; 1; 1; 1; 1; 1; 1; 1; 1; 1; 1; 1; 1; 1; 1; 1; 0; 0; 0; 0; 0; 0; 0; 0; 0; 0; 0; 0; 0; 0; 0; 0; 0; 0; 0; 0; 0; 0; 0; 0; 0; 0; 0; 0; 0; 0; 0; 0];
    [0; 0; 0; 0; 0; 0; 0; 0; 0; 0; 0; 0; 0; 0; 0; 0; 0; 0; 0; 0; 0; 0; 0; 0; 0; 0; 0; 0; 0; 0; 0; 0; 0; 0; 0; 0; 0; 0; 0; 0; 0; 0; 0; 0; 0; 0; 0; 0; 0; 0; 0; 0; 0; 0; 0; 0; 0; 0; 0; 0; 0; 0; 0; 0; 0; 0; 0; 0; 0; 0; 0; 0; 0; 0; 0; 0; 0; 0; 0; 0; 0; 0; 0; 0; 0; 0; 0; 0; 0; 0; 0; 0; 0; 0; 0; 0; 0; 0; 0; 0; 0; 0; 0; 0; 0; 0; 0; 0; 0; 0; 0; 0; 0; 0; 0; 0; 0; 0; 0; 0; 0; 0; 0; 0; 0; 0; 0; 0; 1; 1; 1; 1; 1; 1; 1; 1; 1; 1; 1; 1; 1; 1; 1; 1; 1; 1; 1; 1; 1; 1; 1; 1; 1; 1; 1; 1; 1; 1; 1; 1]]) && mnear 6 (dx_PROBG d) (qm 100 [[98; 98];
    [98; 98];
    [98; 98];
    [98; 98];
    [98; 98];
    [90; 90];
    [90; 90];
    [90; 90];
    [90; 90];
    [99; 99];
    [99; 99];
    [99; 99];
    [99; 99];
    [99; 99];
    [99; 99];
    [98; 98];
    [98; 98];
    [98; 98];
    [98; 98];
    [96; 96];
    [96; 96];
    [96; 96];
    [96; 96];
    [96; 96];
    [96; 96];
    [96; 96];
    [95; 95];
    [95; 95];
    [95; 95];
    [92; 92];
    [88; 88];
    [88; 88];
    [98; 98];
    [98; 98];
    [98; 98];
    [98; 98];
    [98; 98];
    [90; 90];
    [90; 90];
    [90; 90];
    [90; 90];
    [99; 99];
    [99; 99];
    [99; 99];
    [99; 99];
    [99; 99];
    [99; 99];
    [98; 98];
    [98; 98];
    [98; 98];
    [98; 98];
    [96; 96];
    [96; 96];
    [96; 96];
    [96; 96];
    [96; 96];
    [96; 96];
    [96; 96];
    [95; 95];
    [95; 95];
    [95; 95];
    [92; 92];
    [88; 88];
    [88; 88];
    [98; 98];
    [98; 98];
    [98; 98];
    [98; 98];
    [98; 98];
    [90; 90];
    [90; 90];
    [90; 90];
    [90; 90];
    [99; 99];
    [99; 99];
    [99; 99];
    [99; 99];
    [99; 99];
    [99; 99];
    [98; 98];
    [98; 98];
    [98; 98];
    [98; 98];
    [96; 96];
    [96; 96];
    [96; 96];
    [96; 96];
    [96; 96];
    [96; 96];
    [96; 96];
    [95; 95];
    [95; 95];
    [95; 95];
    [92; 92];
    [88; 88];
    [88; 88];
    [98; 98];
    [98; 98];
    [98; 98];
    [98; 98];
    [98; 98];
    [90; 90];
    [90; 90];
    [90; 90];
    [90; 90];
    [99; 99];
    [99; 99];
    [99; 99];
    [99; 99];
    [99; 99];
    [99; 99];
    [98; 98];
    [98; 98];
    [98; 98];
    [98; 98];
    [96; 96];
    [96; 96];
    [96; 96];
    [96; 96];
    [96; 96];
    [96; 96];
    [96; 96];
    [95; 95];
    [95; 95];
    [95; 95];
    [92; 92];
    [88; 88];
    [88; 88];
    [98; 98];
    [98; 98];
    [98; 98];
    [98; 98];
    [98; 98];
    [90; 90];
    [90; 90];
    [90; 90];
    [90; 90];
    [99; 99];
    [99; 99];
    [99; 99];
    [99; 99];
    [99; 99];
    [99; 99];
    [98; 98];
    [98; 98];
    [98; 98];
    [98; 98];
    [96; 96];
    [96; 96];
    [96; 96];
    [96; 96];
    [96; 96];
    [96; 96];
    [96; 96];
    [95; 95];
    [95; 95];
    [95; 95];
    [92; 92];
    [88; 88];
    [88; 88]]) && vnear 6 (dx_DERATE d) (qs 1 [1; 1; 1; 1; 1; 1; 1; 1; 1; 1; 1; 1; 1; 1; 1; 1; 1; 1; 1; 1; 1; 1; 1; 1; 1; 1; 1; 1; 1; 1; 1; 1; 1; 1; 1; 1; 1; 1; 1; 1; 1; 1; 1; 1; 1; 1; 1; 1; 1; 1; 1; 1; 1; 1; 1; 1; 1; 1; 1; 1; 1; 1; 1; 1; 1; 1; 1; 1; 1; 1; 1; 1; 1; 1; 1; 1; 1; 1; 1; 1; 1; 1; 1; 1; 1; 1; 1; 1; 1; 1; 1; 1; 1; 1; 1; 1; 1; 1; 1; 1; 1; 1; 1; 1; 1; 1; 1; 1; 1; 1; 1; 1; 1; 1; 1; 1; 1; 1; 1; 1; 1; 1; 1; 1; 1; 1; 1; 1; 1; 1; 1; 1; 1; 1; 1; 1; 1; 1; 1; 1; 1; 1; 1; 1; 1; 1; 1; 1; 1; 1; 1; 1; 1; 1; 1; 1; 1; 1; 1; 1]) &&
  zmeq (dx_JENT d) [[(-1); (-1); (-1); (-1); (-1)];
    [(-1); (-1); (-1); (-1); (-1)];
    [(-1); (-1); (-1); (-1); (-1)];
    [(-1); (-1); (-1); (-1); (-1)];
    [(-1); (-1); (-1); (-1); (-1)]] && meq (dx_INTCH d) (repeat (repeat q0 365) 60) && all2 (fun a b => Nat.eqb (fst a) (fst b) && Nat.eqb (snd a) (snd b)) (dx_LP d) [(0, 1); (1, 2); (2, 3); (3, 4); (4, 0)]%nat &&
  zmeq (dx_LINENO d) [[(-1); 0; (-1); (-1); (-1)];
    [(-1); (-1); 1; (-1); (-1)];
    [(-1); (-1); (-1); 2; (-1)];
    [(-1); (-1); (-1); (-1); 3];
    [4; (-1); (-1); (-1); (-1)]] && mnear 6 (dx_PROBL d) (qm 100000000 [[92159998; 99839997; 100000000; 100000000; 100000000; 100000000];
    [92159998; 99839997; 100000000; 100000000; 100000000; 100000000];
    [92159998; 99839997; 100000000; 100000000; 100000000; 100000000];
    [92159998; 99839997; 100000000; 100000000; 100000000; 100000000];
    [92159998; 99839997; 100000000; 100000000; 100000000; 100000000]]) && mnear 6 (dx_BLPA d) (qm 10 [[(-1200); 3000; 3000; (-600); 1500; 1500; (-5); 10; 10; (-800); 1500; 1500; (-400); 1000; 1000; (-200); 500; 500];
    [(-1200); 3000; 3000; (-600); 1500; 1500; (-5); 10; 10; (-800); 1500; 1500; (-400); 1000; 1000; (-200); 500; 500];
    [(-1200); 3000; 3000; (-600); 1500; 1500; (-5); 10; 10; (-800); 1500; 1500; (-400); 1000; 1000; (-200); 500; 500];
    [(-1200); 3000; 3000; (-600); 1500; 1500; (-5); 10; 10; (-800); 1500; 1500; (-400); 1000; 1000; (-200); 500; 500];
    [(-1200); 3000; 3000; (-600); 1500; 1500; (-5); 10; 10; (-800); 1500; 1500; (-400); 1000; 1000; (-200); 500; 500]]) && zmeq (dx_ID d) [[0; 0; 0; (-1); 0; (-1); 0; 0];
    [1; 1; 0; (-1); 0; (-1); 0; 0];
    [2; 2; 0; (-1); 0; (-1); 0; 0];
    [3; 3; 0; (-1); 0; (-1); 0; 0];
    [4; 4; 0; (-1); 0; (-1); 0; 0];
    [5; 5; 0; (-1); 0; (-1); 0; 0];
    [6; 6; 0; (-1); 0; (-1); 0; 0];
    [7; 7; 0; (-1); 0; (-1); 0; 0];
    [8; 8; 0; (-1); 0; (-1); 0; 0];
    [9; 9; 0; (-1); 0; (-1); 0; 0];
    [10; 10; 0; (-1); 0; (-1); 0; 0];
    [11; 11; 0; (-1); 0; (-1); 0; 0];
    [12; 12; 0; (-1); 0; (-1); 0; 0];
    [13; 13; 0; (-1); 0; (-1); 0; 0];
    [14; 14; 0; (-1); 0; (-1); 0; 0];
    [15; 15; 0; (-1); 0; (-1); 0; 0];
    [16; 16; 0; (-1); 0; (-1); 0; 0];
    [17; 17; 0; (-1); 0; (-1); 0; 0];
    [18; 18; 0; (-1); 0; (-1); 0; 0];
    [19; 19; 0; (-1); 0; (-1); 0; 0];
    [20; 20; 0; (-1); 0; (-1); 0; 0];
    [21; 21; 0; (-1); 0; (-1); 0; 0];
    [22; 22; 0; (-1); 0; (-1); 0; 0];
    [23; 23; 0; (-1); 0; (-1); 0; 0];
    [24; 24; 0; (-1); 0; (-1); 0; 0];
    [25; 25; 0; (-1); 0; (-1); 0; 0];
    [26; 26; 0; (-1); 0; (-1); 0; 0];
    [27; 27; 0; (-1); 0; (-1); 0; 0];
    [28; 28; 0; (-1); 0; (-1); 0; 0];
    [29; 29; 0; (-1); 0; (-1); 0; 0];
    [30; 30; 0; (-1); 0; (-1); 0; 0];
    [31; 31; 0; (-1); 0; (-1); 0; 0];
    [32; 32; 1; (-1); 0; (-1); 0; 0];
    [33; 33; 1; (-1); 0; (-1); 0; 0];
    [34; 34; 1; (-1); 0; (-1); 0; 0];
    [35; 35; 1; (-1); 0; (-1); 0; 0];
    [36; 36; 1; (-1); 0; (-1); 0; 0];
    [37; 37; 1; (-1); 0; (-1); 0; 0];
    [38; 38; 1; (-1); 0; (-1); 0; 0];
    [39; 39; 1; (-1); 0; (-1); 0; 0];
    [40; 40; 1; (-1); 0; (-1); 0; 0];
    [41; 41; 1; (-1); 0; (-1); 0; 0];
    [42; 42; 1; (-1); 0; (-1); 0; 0];
    [43; 43; 1; (-1); 0; (-1); 0; 0];
    [44; 44; 1; (-1); 0; (-1); 0; 0];
    [45; 45; 1; (-1); 0; (-1); 0; 0];
    [46; 46; 1; (-1); 0; (-1); 0; 0];
    [47; 47; 1; (-1); 0; (-1); 0; 0];
    [48; 48; 1; (-1); 0; (-1); 0; 0];
    [49; 49; 1; (-1); 0; (-1); 0; 0];
    [50; 50; 1; (-1); 0; (-1); 0; 0];
    [51; 51; 1; (-1); 0; (-1); 0; 0];
    [52; 52; 1; (-1); 0; (-1); 0; 0];
    [53; 53; 1; (-1); 0; (-1); 0; 0];
    [54; 54; 1; (-1); 0; (-1); 0; 0];
    [55; 55; 1; (-1); 0; (-1); 0; 0];
    [56; 56; 1; (-1); 0; (-1); 0; 0];
    [57; 57; 1; (-1); 0; (-1); 0; 0];
    [58; 58; 1; (-1); 0; (-1); 0; 0];
    [59; 59; 1; (-1); 0; (-1); 0; 0];
    [60; 60; 1; (-1); 0; (-1); 0; 0];
    [61; 61; 1; (-1); 0; (-1); 0; 0];
    [62; 62; 1; (-1); 0; (-1); 0; 0];
    [63; 63; 1; (-1); 0; (-1); 0; 0];
    [64; 64; 2; (-1); 0; (-1); 0; 0];
    [65; 65; 2; (-1); 0; (-1); 0; 0];
    [66; 66; 2; (-1); 0; (-1); 0; 0];
    [67; 67; 2; (-1); 0; (-1); 0; 0];
    [68; 68; 2; (-1); 0; (-1); 0; 0];
    [69; 69; 2; (-1); 0; (-1); 0; 0];
    [70; 70; 2; (-1); 0; (-1); 0; 0];
    [71; 71; 2; (-1); 0; (-1); 0; 0];
    [72; 72; 2; (-1); 0; (-1); 0; 0];
    [73; 73; 2; (-1); 0; (-1); 0; 0];
    [74; 74; 2; (-1); 0; (-1); 0; 0];
    [75; 75; 2; (-1); 0; (-1); 0; 0];
    [76; 76; 2; (-1); 0; (-1); 0; 0];
    [77; 77; 2; (-1); 0; (-1); 0; 0];
    [78; 78; 2; (-1); 0; (-1); 0; 0];
    [79; 79; 2; (-1); 0; (-1); 0; 0];
    [80; 80; 2; (-1); 0; (-1); 0; 0];
    [81; 81; 2; (-1); 0; (-1); 0; 0];
    [82; 82; 2; (-1); 0; (-1); 0; 0];
    [83; 83; 2; (-1); 0; (-1); 0; 0];
    [84; 84; 2; (-1); 0; (-1); 0; 0];
    [85; 85; 2; (-1); 0; (-1); 0; 0];
    [86; 86; 2; (-1); 0; (-1); 0; 0];
    [87; 87; 2; (-1); 0; (-1); 0; 0];
    [88; 88; 2; (-1); 0; (-1); 0; 0];
    [89; 89; 2; (-1); 0; (-1); 0; 0];
    [90; 90; 2; (-1); 0; (-1); 0; 0];
    [91; 91; 2; (-1); 0; (-1); 0; 0];
    [92; 92; 2; (-1); 0; (-1); 0; 0];
    [93; 93; 2; (-1); 0; (-1); 0; 0];
    [94; 94; 2; (-1); 0; (-1); 0; 0];
    [95; 95; 2; (-1); 0; (-1); 0; 0];
    [96; 96; 3; (-1); 0; (-1); 0; 0];
    [97; 97; 3; (-1); 0; (-1); 0; 0];
    [98; 98; 3; (-1); 0; (-1); 0; 0];
    [99; 99; 3; (-1); 0; (-1); 0; 0];
    [100; 100; 3; (-1); 0; (-1); 0; 0];
    [101; 101; 3; (-1); 0; (-1); 0; 0];
    [102; 102; 3; (-1); 0; (-1); 0; 0];
    [103; 103; 3; (-1); 0; (-1); 0; 0];
    [104; 104; 3; (-1); 0; (-1); 0; 0];
    [105; 105; 3; (-1); 0; (-1); 0; 0];
    [106; 106; 3; (-1); 0; (-1); 0; 0];
    [107; 107; 3; (-1); 0; (-1); 0; 0];
    [108; 108; 3; (-1); 0; (-1); 0; 0];
    [109; 109; 3; (-1); 0; (-1); 0; 0];
    [110; 110; 3; (-1); 0; (-1); 0; 0];
    [111; 111; 3; (-1); 0; (-1); 0; 0];
    [112; 112; 3; (-1); 0; (-1); 0; 0];
    [113; 113; 3; (-1); 0; (-1); 0; 0];
    [114; 114; 3; (-1); 0; (-1); 0; 0];
    [115; 115; 3; (-1); 0; (-1); 0; 0];
    [116; 116; 3; (-1); 0; (-1); 0; 0];
    [117; 117; 3; (-1); 0; (-1); 0; 0];
    [118; 118; 3; (-1); 0; (-1); 0; 0];
    [119; 119; 3; (-1); 0; (-1); 0; 0];
    [120; 120; 3; (-1); 0; (-1); 0; 0];
    [121; 121; 3; (-1); 0; (-1); 0; 0];
    [122; 122; 3; (-1); 0; (-1); 0; 0];
    [123; 123; 3; (-1); 0; (-1); 0; 0];
    [124; 124; 3; (-1); 0; (-1); 0; 0];
    [125; 125; 3; (-1); 0; (-1); 0; 0];
    [126; 126; 3; (-1); 0; (-1); 0; 0];
    [127; 127; 3; (-1); 0; (-1); 0; 0];
    [128; 128; 4; (-1); 0; (-1); 0; 0];
    [129; 129; 4; (-1); 0; (-1); 0; 0];
    [130; 130; 4; (-1); 0; (-1); 0; 0];
    [131; 131; 4; (-1); 0; (-1); 0; 0];
    [132; 132; 4; (-1); 0; (-1); 0; 0];
    [133; 133; 4; (-1); 0; (-1); 0; 0];
    [134; 134; 4; (-1); 0; (-1); 0; 0];
    [135; 135; 4; (-1); 0; (-1); 0; 0];
    [136; 136; 4; (-1); 0; (-1); 0; 0];
    [137; 137; 4; (-1); 0; (-1); 0; 0];
    [138; 138; 4; (-1); 0; (-1); 0; 0];
    [139; 139; 4; (-1); 0; (-1); 0; 0];
    [140; 140; 4; (-1); 0; (-1); 0; 0];
    [141; 141; 4; (-1); 0; (-1); 0; 0];
    [142; 142; 4; (-1); 0; (-1); 0; 0];
    [143; 143; 4; (-1); 0; (-1); 0; 0];
    [144; 144; 4; (-1); 0; (-1); 0; 0];
    [145; 145; 4; (-1); 0; (-1); 0; 0];
    [146; 146; 4; (-1); 0; (-1); 0; 0];
    [147; 147; 4; (-1); 0; (-1); 0; 0];
    [148; 148; 4; (-1); 0; (-1); 0; 0];
    [149; 149; 4; (-1); 0; (-1); 0; 0];
    [150; 150; 4; (-1); 0; (-1); 0; 0];
    [151; 151; 4; (-1); 0; (-1); 0; 0];
    [152; 152; 4; (-1); 0; (-1); 0; 0];
    [153; 153; 4; (-1); 0; (-1); 0; 0];
    [154; 154; 4; (-1); 0; (-1); 0; 0];
    [155; 155; 4; (-1); 0; (-1); 0; 0];
    [156; 156; 4; (-1); 0; (-1); 0; 0];
    [157; 157; 4; (-1); 0; (-1); 0; 0];
    [158; 158; 4; (-1); 0; (-1); 0; 0];
    [159; 159; 4; (-1); 0; (-1); 0; 0]])). exact I. Qed.
(** the text of the first two days of the areas 1 and 2 *)
Example read_loads_5 : True.
Proof. agrees (okd (read_loads (leei_lines "AREA:A1
0101                 1611 1515 1442 1418 1418 1442 1779 2068 2284 2308 2308 2284
                     2284 2284 2236 2260 2380 2404 2404 2308 2188 1996 1755 1515
                     1732 1629 1551 1525 1525 1551 1913 2223 2456 2482 2482 2456
                     2456 2456 2404 2430 2560 2585 2585 2482 2353 2146 1887 1629
AREA:A2
0101                 1611 1515 1442 1418 1418 1442 1779 2068 2284 2308 2308 2284
                     2284 2284 2236 2260 2380 2404 2404 2308 2188 1996 1755 1515
                     1732 1629 1551 1525 1525 1551 1913 2223 2456 2482 2482 2456
                     2456 2456 2404 2430 2560 2585 2585 2482 2353 2146 1887 1629
") None (mzeros 5 48)) (fun H => meq H [(qs 1 [1611; 1515; 1442; 1418; 1418; 1442; 1779; 2068; 2284; 2308; 2308; 2284; 2284; 2284; 2236; 2260; 2380; 2404; 2404; 2308; 2188; 1996; 1755; 1515; 1732; 1629; 1551; 1525; 1525; 1551; 1913; 2223; 2456; 2482; 2482; 2456; 2456; 2456; 2404; 2430; 2560; 2585; 2585; 2482; 2353; 2146; 1887; 1629]); (qs 1 [1611; 1515; 1442; 1418; 1418; 1442; 1779; 2068; 2284; 2308; 2308; 2284; 2284; 2284; 2236; 2260; 2380; 2404; 2404; 2308; 2188; 1996; 1755; 1515; 1732; 1629; 1551; 1525; 1525; 1551; 1913; 2223; 2456; 2482; 2482; 2456; 2456; 2456; 2404; 2430; 2560; 2585; 2585; 2482; 2353; 2146; 1887; 1629]); vzeros 48; vzeros 48; vzeros 48])). exact I. Qed.
Definition raw1 := (qs 1 [1611; 1515; 1442; 1418; 1418; 1442; 1779; 2068; 2284; 2308; 2308; 2284; 2284; 2284; 2236; 2260; 2380; 2404; 2404; 2308; 2188; 1996; 1755; 1515; 1732; 1629; 1551; 1525; 1525; 1551; 1913; 2223; 2456; 2482; 2482; 2456; 2456; 2456; 2404; 2430; 2560; 2585; 2585; 2482; 2353; 2146; 1887; 1629; 1697; 1596; 1520; 1495; 1495; 1520; 1875; 2179; 2407; 2432; 2432; 2407; 2407; 2407; 2356; 2382; 2508; 2534; 2534; 2432; 2306; 2103; 1850; 1596; 1663; 1564; 1489; 1464; 1464; 1489; 1837; 2135; 2358; 2383; 2383; 2358; 2358; 2358; 2308; 2333; 2457; 2482; 2482; 2383; 2259; 2060; 1812; 1564; 1628; 1531; 1458; 1434; 1434; 1458; 1798; 2090; 2309; 2333; 2333; 2309; 2309; 2309; 2260; 2284; 2406; 2430; 2430; 2333; 2212; 2017; 1774; 1531; 1553; 1433; 1354; 1314; 1274; 1294; 1314; 1393; 1592; 1752; 1792; 1812; 1792; 1752; 1732; 1732; 1812; 1991; 1971; 1931; 1871; 1831; 1732; 1612; 1512; 1396; 1318; 1280; 1241; 1260; 1280; 1357; 1551; 1706; 1745; 1764; 1745; 1706; 1687; 1687; 1764; 1939; 1920; 1881; 1823; 1784; 1687; 1570; 1682; 1581; 1506; 1481; 1481; 1506; 1858; 2159; 2385; 2410; 2410; 2385; 2385; 2385; 2335; 2360; 2485; 2510; 2510; 2410; 2285; 2084; 1833; 1581; 1808; 1700; 1619; 1592; 1592; 1619; 1997; 2321; 2564; 2591; 2591; 2564; 2564; 2564; 2510; 2537; 2672; 2700; 2700; 2591; 2456; 2240; 1970; 1700; 1772; 1666; 1587; 1561; 1561; 1587; 1958; 2275; 2513; 2540; 2540; 2513; 2513; 2513; 2460; 2487; 2619; 2645; 2645; 2540; 2407; 2196; 1931; 1666; 1736; 1632; 1555; 1529; 1529; 1555; 1918; 2229; 2462; 2488; 2488; 2462; 2462; 2462; 2410; 2436; 2566; 2591; 2591; 2488; 2358; 2151; 1892; 1632; 1700; 1598; 1522; 1497; 1497; 1522; 1878; 2182; 2411; 2436; 2436; 2411; 2411; 2411; 2360; 2385; 2512; 2537; 2537; 2436; 2309; 2106; 1852; 1598; 1621; 1496; 1413; 1372; 1330; 1351; 1372; 1455; 1663; 1829; 1871; 1891; 1871; 1829; 1808; 1808; 1891; 2078; 2058; 2016; 1954; 1912; 1808; 1683; 1579; 1457; 1376; 1336; 1295; 1316; 1336; 1417; 1619; 1781; 1822; 1842; 1822; 1781; 1761; 1761; 1842; 2024; 2004; 1964; 1903; 1862; 1761; 1640; 1641; 1543; 1469; 1445; 1445; 1469; 1812; 2106; 2327; 2351; 2351; 2327; 2327; 2327; 2278; 2302; 2425; 2449; 2449; 2351; 2229; 2033; 1788; 1543; 1764; 1659; 1580; 1554; 1554; 1580; 1949; 2265; 2502; 2528; 2528; 2502; 2502; 2502; 2449; 2475; 2607; 2634; 2634; 2528; 2396; 2186; 1922; 1659; 1729; 1626; 1548; 1522; 1522; 1548; 1910; 2219; 2452; 2478; 2478; 2452; 2452; 2452; 2400; 2426; 2555; 2581; 2581; 2478; 2349; 2142; 1884; 1626; 1694; 1593; 1517; 1491; 1491; 1517; 1871; 2174; 2402; 2427; 2427; 2402; 2402; 2402; 2351; 2376; 2503; 2528; 2528; 2427; 2301; 2098; 1845; 1593; 1658; 1559; 1485; 1460; 1460; 1485; 1832; 2129; 2352; 2376; 2376; 2352; 2352; 2352; 2302; 2327; 2451; 2475; 2475; 2376; 2253; 2055; 1807; 1559; 1581; 1460; 1379; 1338; 1298; 1318; 1338; 1419; 1622; 1784; 1825; 1845; 1825; 1784; 1764; 1764; 1845; 2028; 2007; 1967; 1906; 1865; 1764; 1642; 1540; 1422; 1343; 1303; 1264; 1284; 1303; 1382; 1580; 1738; 1777; 1797; 1777; 1738; 1718; 1718; 1797; 1975; 1955; 1916; 1856; 1817; 1718; 1600; 1558; 1465; 1396; 1372; 1372; 1396; 1721; 2001; 2210; 2233; 2233; 2210; 2210; 2210; 2163; 2187; 2303; 2326; 2326; 2233; 2117; 1931; 1698; 1465; 1676; 1576; 1501; 1476; 1476; 1501; 1851; 2151; 2376; 2401; 2401; 2376; 2376; 2376; 2326; 2351; 2476; 2501; 2501; 2401; 2276; 2076; 1826; 1576; 1642; 1544; 1471; 1446; 1446; 1471; 1814; 2108; 2329; 2353; 2353; 2329; 2329; 2329; 2280; 2304; 2427; 2451; 2451; 2353; 2231; 2035; 1789; 1544; 1609; 1513; 1441; 1417; 1417; 1441; 1777; 2065; 2281; 2305; 2305; 2281; 2281; 2281; 2233; 2257; 2377; 2401; 2401; 2305; 2185; 1993; 1753; 1513; 1575; 1481; 1411; 1387; 1387; 1411; 1740; 2022; 2234; 2257; 2257; 2234; 2234; 2234; 2187; 2210; 2328; 2351; 2351; 2257; 2140; 1952; 1716; 1481; 1502; 1387; 1310; 1271; 1232; 1252; 1271; 1348; 1541; 1695; 1733; 1753; 1733; 1695; 1676; 1676; 1753; 1926; 1907; 1868; 1810; 1772; 1676; 1560; 1463; 1351; 1276; 1238; 1200; 1219; 1238; 1313; 1501; 1651; 1688; 1707; 1688; 1651; 1632; 1632; 1707; 1876; 1857; 1820; 1763; 1726; 1632; 1519; 1644; 1546; 1473; 1448; 1448; 1473; 1816; 2111; 2332; 2356; 2356; 2332; 2332; 2332; 2283; 2307; 2430; 2455; 2455; 2356; 2234; 2037; 1792; 1546; 1768; 1663; 1583; 1557; 1557; 1583; 1953; 2270; 2507; 2534; 2534; 2507; 2507; 2507; 2455; 2481; 2613; 2640; 2640; 2534; 2402; 2191; 1927; 1663; 1733; 1629; 1552; 1526; 1526; 1552; 1914; 2224; 2457; 2483; 2483; 2457; 2457; 2457; 2406; 2431; 2561; 2587; 2587; 2483; 2354; 2147; 1888; 1629; 1698; 1596; 1520; 1495; 1495; 1520; 1875; 2179; 2407; 2433; 2433; 2407; 2407; 2407; 2356; 2382; 2509; 2534; 2534; 2433; 2306; 2103; 1850; 1596; 1662; 1563; 1488; 1464; 1464; 1488; 1836; 2134; 2357; 2382; 2382; 2357; 2357; 2357; 2307; 2332; 2456; 2481; 2481; 2382; 2258; 2059; 1811; 1563; 1585; 1463; 1382; 1341; 1300; 1321; 1341; 1422; 1626; 1788; 1829; 1849; 1829; 1788; 1768; 1768; 1849; 2032; 2012; 1971; 1910; 1870; 1768; 1646; 1544; 1425; 1346; 1306; 1267; 1286; 1306; 1385; 1583; 1742; 1781; 1801; 1781; 1742; 1722; 1722; 1801; 1979; 1960; 1920; 1861; 1821; 1722; 1603; 1572; 1478; 1407; 1384; 1384; 1407; 1736; 2017; 2229; 2252; 2252; 2229; 2229; 2229; 2182; 2205; 2322; 2346; 2346; 2252; 2135; 1947; 1712; 1478; 1690; 1589; 1513; 1488; 1488; 1513; 1867; 2169; 2396; 2422; 2422; 2396; 2396; 2396; 2346; 2371; 2497; 2523; 2523; 2422; 2295; 2094; 1841; 1589; 1656; 1557; 1483; 1458; 1458; 1483; 1829; 2126; 2348; 2373; 2373; 2348; 2348; 2348; 2299; 2324; 2447; 2472; 2472; 2373; 2250; 2052; 1804; 1557; 1622; 1525; 1453; 1429; 1429; 1453; 1792; 2082; 2300; 2325; 2325; 2300; 2300; 2300; 2252; 2276; 2397; 2422; 2422; 2325; 2204; 2010; 1768; 1525; 1588; 1494; 1422; 1399; 1399; 1422; 1754; 2039; 2253; 2276; 2276; 2253; 2253; 2253; 2205; 2229; 2347; 2371; 2371; 2276; 2158; 1968; 1731; 1494; 1515; 1398; 1321; 1282; 1243; 1262; 1282; 1359; 1554; 1709; 1748; 1767; 1748; 1709; 1690; 1690; 1767; 1942; 1923; 1884; 1826; 1787; 1690; 1573; 1475; 1362; 1286; 1248; 1211; 1229; 1248; 1324; 1513; 1665; 1703; 1721; 1703; 1665; 1646; 1646; 1721; 1892; 1873; 1835; 1778; 1740; 1646; 1532; 1555; 1462; 1392; 1369; 1369; 1392; 1717; 1996; 2205; 2228; 2228; 2205; 2205; 2205; 2158; 2182; 2298; 2321; 2321; 2228; 2112; 1926; 1694; 1462; 1672; 1572; 1497; 1472; 1472; 1497; 1847; 2146; 2371; 2396; 2396; 2371; 2371; 2371; 2321; 2346; 2471; 2495; 2495; 2396; 2271; 2071; 1822; 1572; 1638; 1541; 1467; 1443; 1443; 1467; 1810; 2103; 2323; 2348; 2348; 2323; 2323; 2323; 2274; 2299; 2421; 2446; 2446; 2348; 2225; 2030; 1785; 1541; 1605; 1509; 1437; 1413; 1413; 1437; 1773; 2060; 2276; 2300; 2300; 2276; 2276; 2276; 2228; 2252; 2372; 2396; 2396; 2300; 2180; 1988; 1749; 1509; 1571; 1478; 1407; 1384; 1384; 1407; 1736; 2017; 2228; 2252; 2252; 2228; 2228; 2228; 2182; 2205; 2322; 2346; 2346; 2252; 2135; 1947; 1712; 1478; 1499; 1383; 1306; 1268; 1230; 1249; 1268; 1345; 1537; 1691; 1729; 1748; 1729; 1691; 1672; 1672; 1748; 1921; 1902; 1864; 1806; 1768; 1672; 1556; 1460; 1347; 1272; 1235; 1198; 1216; 1235; 1310; 1497; 1647; 1684; 1703; 1684; 1647; 1628; 1628; 1703; 1871; 1853; 1815; 1759; 1722; 1628; 1516; 1506; 1416; 1349; 1326; 1326; 1349; 1664; 1933; 2136; 2158; 2158; 2136; 2136; 2136; 2091; 2113; 2226; 2248; 2248; 2158; 2046; 1866; 1641; 1416; 1620; 1523; 1450; 1426; 1426; 1450; 1789; 2079; 2297; 2321; 2321; 2297; 2297; 2297; 2248; 2272; 2393; 2418; 2418; 2321; 2200; 2006; 1765; 1523; 1587; 1492; 1421; 1398; 1398; 1421; 1753; 2037; 2251; 2274; 2274; 2251; 2251; 2251; 2203; 2227; 2345; 2369; 2369; 2274; 2156; 1966; 1729; 1492; 1555; 1462; 1392; 1369; 1369; 1392; 1717; 1996; 2205; 2228; 2228; 2205; 2205; 2205; 2158; 2182; 2298; 2321; 2321; 2228; 2112; 1926; 1694; 1462; 1522; 1431; 1363; 1341; 1341; 1363; 1681; 1954; 2159; 2182; 2182; 2159; 2159; 2159; 2113; 2136; 2250; 2272; 2272; 2182; 2068; 1886; 1659; 1431; 1452; 1340; 1266; 1228; 1191; 1210; 1228; 1303; 1489; 1638; 1675; 1694; 1675; 1638; 1619; 1619; 1694; 1861; 1843; 1806; 1750; 1712; 1619; 1508; 1414; 1305; 1233; 1196; 1160; 1178; 1196; 1269; 1450; 1595; 1632; 1650; 1632; 1595; 1577; 1577; 1650; 1813; 1795; 1759; 1704; 1668; 1577; 1468; 1300; 1280; 1238; 1197; 1218; 1341; 1486; 1754; 1961; 2043; 2064; 2043; 1920; 1899; 1858; 1816; 1858; 1899; 1982; 2023; 1982; 1858; 1651; 1445; 1398; 1376; 1331; 1287; 1309; 1442; 1598; 1886; 2108; 2197; 2219; 2197; 2064; 2042; 1997; 1953; 1997; 2042; 2131; 2175; 2131; 1997; 1775; 1553; 1370; 1348; 1305; 1261; 1283; 1414; 1566; 1849; 2066; 2153; 2175; 2153; 2023; 2001; 1958; 1914; 1958; 2001; 2088; 2132; 2088; 1958; 1740; 1522; 1342; 1321; 1278; 1236; 1257; 1385; 1534; 1811; 2024; 2109; 2131; 2109; 1982; 1960; 1918; 1875; 1918; 1960; 2045; 2088; 2045; 1918; 1704; 1491; 1314; 1293; 1252; 1210; 1231; 1356; 1502; 1773; 1982; 2065; 2086; 2065; 1940; 1919; 1878; 1836; 1878; 1919; 2003; 2045; 2003; 1878; 1669; 1460; 1282; 1247; 1179; 1128; 1111; 1111; 1162; 1264; 1418; 1521; 1572; 1606; 1555; 1538; 1538; 1470; 1452; 1504; 1572; 1709; 1658; 1623; 1538; 1452; 1248; 1215; 1148; 1098; 1082; 1082; 1132; 1232; 1381; 1481; 1531; 1565; 1515; 1498; 1498; 1431; 1415; 1465; 1531; 1664; 1615; 1581; 1498; 1415; 1295; 1274; 1233; 1192; 1213; 1336; 1480; 1747; 1953; 2035; 2056; 2035; 1912; 1891; 1850; 1809; 1850; 1891; 1973; 2015; 1973; 1850; 1644; 1439; 1392; 1370; 1326; 1282; 1304; 1437; 1591; 1879; 2100; 2188; 2210; 2188; 2056; 2034; 1989; 1945; 1989; 2034; 2122; 2166; 2122; 1989; 1768; 1547; 1365; 1343; 1300; 1256; 1278; 1408; 1560; 1841; 2058; 2145; 2166; 2145; 2015; 1993; 1950; 1906; 1950; 1993; 2080; 2123; 2080; 1950; 1733; 1516; 1337; 1315; 1273; 1231; 1252; 1379; 1528; 1804; 2016; 2101; 2122; 2101; 1973; 1952; 1910; 1867; 1910; 1952; 2037; 2080; 2037; 1910; 1698; 1485; 1309; 1288; 1247; 1205; 1226; 1350; 1496; 1766; 1974; 2057; 2078; 2057; 1932; 1912; 1870; 1828; 1870; 1912; 1995; 2036; 1995; 1870; 1662; 1454; 1276; 1242; 1174; 1123; 1106; 1106; 1157; 1259; 1413; 1515; 1566; 1600; 1549; 1532; 1532; 1464; 1447; 1498; 1566; 1702; 1651; 1617; 1532; 1447; 1243; 1210; 1144; 1094; 1077; 1077; 1127; 1227; 1376; 1475; 1525; 1558; 1509; 1492; 1492; 1426; 1409; 1459; 1525; 1658; 1608; 1575; 1492; 1409; 1256; 1236; 1196; 1157; 1176; 1296; 1436; 1695; 1895; 1974; 1994; 1974; 1855; 1835; 1795; 1755; 1795; 1835; 1915; 1954; 1915; 1795; 1595; 1396; 1351; 1329; 1286; 1244; 1265; 1394; 1544; 1823; 2037; 2123; 2144; 2123; 1994; 1973; 1930; 1887; 1930; 1973; 2059; 2102; 2059; 1930; 1715; 1501; 1324; 1303; 1261; 1219; 1240; 1366; 1513; 1786; 1996; 2081; 2102; 2081; 1954; 1933; 1891; 1849; 1891; 1933; 2018; 2060; 2018; 1891; 1681; 1471; 1297; 1276; 1235; 1194; 1214; 1338; 1482; 1750; 1956; 2038; 2059; 2038; 1915; 1894; 1853; 1812; 1853; 1894; 1976; 2018; 1976; 1853; 1647; 1441; 1270; 1250; 1209; 1169; 1189; 1310; 1451; 1713; 1915; 1996; 2016; 1996; 1875; 1854; 1814; 1774; 1814; 1854; 1935; 1975; 1935; 1814; 1613; 1411; 1238; 1205; 1139; 1090; 1073; 1073; 1123; 1222; 1370; 1469; 1519; 1552; 1503; 1486; 1486; 1420; 1403; 1453; 1519; 1651; 1602; 1569; 1486; 1403; 1206; 1174; 1110; 1061; 1045; 1045; 1093; 1190; 1335; 1431; 1480; 1512; 1463; 1447; 1447; 1383; 1367; 1415; 1480; 1608; 1560; 1528; 1447; 1367; 1277; 1257; 1216; 1176; 1196; 1318; 1460; 1724; 1926; 2008; 2028; 2008; 1886; 1866; 1825; 1784; 1825; 1866; 1947; 1987; 1947; 1825; 1622; 1419; 1374; 1352; 1308; 1264; 1286; 1417; 1570; 1853; 2071; 2159; 2180; 2159; 2028; 2006; 1962; 1919; 1962; 2006; 2093; 2137; 2093; 1962; 1744; 1526; 1346; 1325; 1282; 1239; 1261; 1389; 1538; 1816; 2030; 2116; 2137; 2116; 1987; 1966; 1923; 1880; 1923; 1966; 2051; 2094; 2051; 1923; 1709; 1496; 1319; 1298; 1256; 1214; 1235; 1360; 1507; 1779; 1989; 2072; 2093; 2072; 1947; 1926; 1884; 1842; 1884; 1926; 2010; 2051; 2010; 1884; 1675; 1465; 1291; 1271; 1230; 1189; 1209; 1332; 1476; 1742; 1947; 2029; 2050; 2029; 1906; 1886; 1845; 1804; 1845; 1886; 1968; 2009; 1968; 1845; 1640; 1435; 1259; 1225; 1158; 1108; 1091; 1091; 1141; 1242; 1393; 1494; 1545; 1578; 1528; 1511; 1511; 1444; 1427; 1477; 1545; 1679; 1628; 1595; 1511; 1427; 1226; 1194; 1128; 1079; 1063; 1063; 1112; 1210; 1357; 1455; 1504; 1537; 1488; 1472; 1472; 1406; 1390; 1439; 1504; 1635; 1586; 1553; 1472; 1390; 1237; 1217; 1178; 1139; 1158; 1276; 1414; 1669; 1865; 1944; 1964; 1944; 1826; 1807; 1767; 1728; 1767; 1807; 1885; 1924; 1885; 1767; 1571; 1374; 1330; 1309; 1267; 1224; 1246; 1372; 1520; 1795; 2006; 2090; 2111; 2090; 1964; 1943; 1900; 1858; 1900; 1943; 2027; 2069; 2027; 1900; 1689; 1478; 1303; 1283; 1241; 1200; 1221; 1345; 1490; 1759; 1966; 2049; 2069; 2049; 1924; 1904; 1862; 1821; 1862; 1904; 1986; 2028; 1986; 1862; 1655; 1448; 1277; 1257; 1216; 1175; 1196; 1317; 1459; 1723; 1926; 2007; 2027; 2007; 1885; 1865; 1824; 1784; 1824; 1865; 1946; 1986; 1946; 1824; 1622; 1419; 1250; 1230; 1191; 1151; 1171; 1290; 1429; 1687; 1886; 1965; 1985; 1965; 1846; 1826; 1786; 1747; 1786; 1826; 1905; 1945; 1905; 1786; 1588; 1389; 1219; 1187; 1122; 1073; 1057; 1057; 1105; 1203; 1349; 1447; 1496; 1528; 1479; 1463; 1463; 1398; 1382; 1431; 1496; 1626; 1577; 1544; 1463; 1382; 1187; 1156; 1092; 1045; 1029; 1029; 1077; 1172; 1314; 1409; 1457; 1488; 1441; 1425; 1425; 1362; 1346; 1393; 1457; 1583; 1536; 1504; 1425; 1346; 1318; 1297; 1255; 1213; 1234; 1360; 1506; 1778; 1987; 2071; 2092; 2071; 1946; 1925; 1883; 1841; 1883; 1925; 2008; 2050; 2008; 1883; 1673; 1464; 1417; 1394; 1349; 1304; 1327; 1462; 1619; 1912; 2137; 2227; 2250; 2227; 2092; 2069; 2024; 1979; 2024; 2069; 2159; 2204; 2159; 2024; 1799; 1574; 1389; 1367; 1322; 1278; 1300; 1433; 1587; 1874; 2094; 2182; 2204; 2182; 2050; 2028; 1984; 1940; 1984; 2028; 2116; 2160; 2116; 1984; 1763; 1543; 1360; 1339; 1295; 1252; 1274; 1403; 1555; 1835; 2051; 2138; 2159; 2138; 2008; 1987; 1943; 1900; 1943; 1987; 2073; 2116; 2073; 1943; 1727; 1511; 1332; 1311; 1268; 1226; 1247; 1374; 1522; 1797; 2009; 2093; 2114; 2093; 1966; 1945; 1903; 1861; 1903; 1945; 2030; 2072; 2030; 1903; 1691; 1480; 1299; 1264; 1195; 1143; 1126; 1126; 1178; 1282; 1437; 1541; 1593; 1628; 1576; 1559; 1559; 1489; 1472; 1524; 1593; 1732; 1680; 1645; 1559; 1472; 1265; 1231; 1164; 1113; 1096; 1096; 1147; 1248; 1400; 1501; 1552; 1586; 1535; 1518; 1518; 1451; 1434; 1484; 1552; 1687; 1636; 1603; 1518; 1434; 1267; 1247; 1206; 1166; 1186; 1307; 1448; 1709; 1911; 1991; 2011; 1991; 1870; 1850; 1810; 1770; 1810; 1850; 1931; 1971; 1931; 1810; 1609; 1408; 1362; 1341; 1297; 1254; 1276; 1405; 1557; 1838; 2054; 2141; 2162; 2141; 2011; 1989; 1946; 1903; 1946; 1989; 2076; 2119; 2076; 1946; 1730; 1514; 1335; 1314; 1271; 1229; 1250; 1377; 1526; 1801; 2013; 2098; 2119; 2098; 1971; 1950; 1907; 1865; 1907; 1950; 2034; 2077; 2034; 1907; 1695; 1483; 1308; 1287; 1245; 1204; 1225; 1349; 1495; 1765; 1972; 2055; 2076; 2055; 1931; 1910; 1868; 1827; 1868; 1910; 1993; 2034; 1993; 1868; 1661; 1453; 1280; 1260; 1219; 1179; 1199; 1321; 1463; 1728; 1931; 2012; 2033; 2012; 1890; 1870; 1829; 1789; 1829; 1870; 1951; 1992; 1951; 1829; 1626; 1423; 1249; 1215; 1149; 1099; 1082; 1082; 1132; 1232; 1382; 1482; 1532; 1565; 1515; 1498; 1498; 1432; 1415; 1465; 1532; 1665; 1615; 1582; 1498; 1415; 1216; 1184; 1119; 1070; 1054; 1054; 1103; 1200; 1346; 1443; 1492; 1524; 1476; 1460; 1460; 1395; 1378; 1427; 1492; 1622; 1573; 1541; 1460; 1378; 1406; 1383; 1339; 1294; 1316; 1450; 1607; 1897; 2120; 2209; 2231; 2209; 2075; 2053; 2008; 1964; 2008; 2053; 2142; 2187; 2142; 2008; 1785; 1562; 1511; 1487; 1439; 1391; 1415; 1559; 1727; 2039; 2279; 2375; 2399; 2375; 2231; 2207; 2159; 2111; 2159; 2207; 2303; 2351; 2303; 2159; 1919; 1679; 1481; 1458; 1411; 1364; 1387; 1528; 1693; 1999; 2234; 2328; 2351; 2328; 2187; 2163; 2116; 2069; 2116; 2163; 2257; 2304; 2257; 2116; 1881; 1646; 1451; 1428; 1382; 1336; 1359; 1497; 1658; 1958; 2188; 2280; 2303; 2280; 2142; 2119; 2073; 2027; 2073; 2119; 2211; 2257; 2211; 2073; 1843; 1612; 1421; 1398; 1353; 1308; 1331; 1466; 1624; 1917; 2143; 2233; 2255; 2233; 2098; 2075; 2030; 1985; 2030; 2075; 2165; 2210; 2165; 2030; 1804; 1579; 1385; 1349; 1275; 1219; 1201; 1201; 1256; 1367; 1533; 1644; 1700; 1737; 1681; 1663; 1663; 1589; 1570; 1626; 1700; 1847; 1792; 1755; 1663; 1570; 1349; 1313; 1241; 1187; 1169; 1169; 1223; 1331; 1493; 1601; 1655; 1691; 1637; 1619; 1619; 1547; 1529; 1583; 1655; 1799; 1745; 1709; 1619; 1529; 1325; 1304; 1262; 1220; 1241; 1367; 1514; 1788; 1998; 2082; 2103; 2082; 1956; 1935; 1893; 1851; 1893; 1935; 2019; 2061; 2019; 1893; 1682; 1472; 1425; 1402; 1357; 1311; 1334; 1470; 1628; 1922; 2148; 2239; 2261; 2239; 2103; 2081; 2035; 1990; 2035; 2081; 2171; 2216; 2171; 2035; 1809; 1583; 1396; 1374; 1330; 1285; 1307; 1440; 1596; 1884; 2105; 2194; 2216; 2194; 2061; 2039; 1995; 1950; 1995; 2039; 2128; 2172; 2128; 1995; 1773; 1551; 1368; 1346; 1302; 1259; 1281; 1411; 1563; 1845; 2062; 2149; 2171; 2149; 2019; 1997; 1954; 1910; 1954; 1997; 2084; 2128; 2084; 1954; 1737; 1520; 1339; 1318; 1275; 1233; 1254; 1382; 1530; 1807; 2019; 2105; 2126; 2105; 1977; 1956; 1913; 1871; 1913; 1956; 2041; 2083; 2041; 1913; 1701; 1488; 1306; 1271; 1201; 1149; 1132; 1132; 1184; 1288; 1445; 1550; 1602; 1637; 1584; 1567; 1567; 1497; 1480; 1532; 1602; 1741; 1689; 1654; 1567; 1480; 1272; 1238; 1170; 1119; 1102; 1102; 1153; 1255; 1408; 1509; 1560; 1594; 1543; 1526; 1526; 1458; 1442; 1492; 1560; 1696; 1645; 1611; 1526; 1442; 1494; 1401; 1354; 1307; 1307; 1354; 1494; 1774; 2031; 2218; 2311; 2335; 2311; 2335; 2335; 2265; 2241; 2241; 2171; 2148; 2148; 2171; 2031; 1681; 1607; 1506; 1456; 1406; 1406; 1456; 1607; 1908; 2184; 2385; 2485; 2510; 2485; 2510; 2510; 2435; 2410; 2410; 2335; 2310; 2310; 2335; 2184; 1807; 1574; 1476; 1427; 1378; 1378; 1427; 1574; 1870; 2140; 2337; 2436; 2460; 2436; 2460; 2460; 2386; 2362; 2362; 2288; 2263; 2263; 2288; 2140; 1771; 1542; 1446; 1398; 1349; 1349; 1398; 1542; 1832; 2097; 2290; 2386; 2410; 2386; 2410; 2410; 2338; 2314; 2314; 2241; 2217; 2217; 2241; 2097; 1735; 1510; 1416; 1368; 1321; 1321; 1368; 1510; 1793; 2053; 2242; 2336; 2360; 2336; 2360; 2360; 2289; 2265; 2265; 2195; 2171; 2171; 2195; 2053; 1699; 1430; 1353; 1276; 1256; 1237; 1198; 1198; 1276; 1566; 1662; 1759; 1798; 1798; 1778; 1759; 1759; 1778; 1817; 1836; 1836; 1933; 1798; 1701; 1546; 1393; 1318; 1242; 1224; 1205; 1167; 1167; 1242; 1525; 1619; 1713; 1751; 1751; 1732; 1713; 1713; 1732; 1770; 1789; 1789; 1883; 1751; 1657; 1506; 1553; 1456; 1407; 1359; 1359; 1407; 1553; 1844; 2111; 2305; 2403; 2427; 2403; 2427; 2427; 2354; 2330; 2330; 2257; 2233; 2233; 2257; 2111; 1747; 1670; 1565; 1513; 1461; 1461; 1513; 1670; 1983; 2270; 2479; 2583; 2609; 2583; 2609; 2609; 2531; 2505; 2505; 2427; 2401; 2401; 2427; 2270; 1879; 1636; 1534; 1483; 1432; 1432; 1483; 1636; 1943; 2225; 2429; 2532; 2557; 2532; 2557; 2557; 2481; 2455; 2455; 2378; 2353; 2353; 2378; 2225; 1841; 1603; 1503; 1453; 1403; 1403; 1453; 1603; 1904; 2179; 2380; 2480; 2505; 2480; 2505; 2505; 2430; 2405; 2405; 2330; 2305; 2305; 2330; 2179; 1804; 1570; 1472; 1422; 1373; 1373; 1422; 1570; 1864; 2134; 2330; 2428; 2453; 2428; 2453; 2453; 2379; 2355; 2355; 2281; 2257; 2257; 2281; 2134; 1766; 1487; 1406; 1326; 1306; 1286; 1246; 1246; 1326; 1627; 1728; 1828; 1869; 1869; 1848; 1828; 1828; 1848; 1889; 1909; 1909; 2009; 1869; 1768; 1607; 1448; 1370; 1291; 1272; 1252; 1213; 1213; 1291; 1585; 1683; 1781; 1820; 1820; 1800; 1781; 1781; 1800; 1840; 1859; 1859; 1957; 1820; 1722; 1565; 1571; 1473; 1424; 1374; 1374; 1424; 1571; 1865; 2136; 2332; 2430; 2455; 2430; 2455; 2455; 2381; 2356; 2356; 2283; 2258; 2258; 2283; 2136; 1767; 1689; 1583; 1531; 1478; 1478; 1531; 1689; 2006; 2296; 2507; 2613; 2640; 2613; 2640; 2640; 2560; 2534; 2534; 2455; 2428; 2428; 2455; 2296; 1900; 1655; 1552; 1500; 1448; 1448; 1500; 1655; 1966; 2250; 2457; 2561; 2587; 2561; 2587; 2587; 2509; 2483; 2483; 2406; 2380; 2380; 2406; 2250; 1862; 1622; 1520; 1469; 1419; 1419; 1469; 1622; 1926; 2204; 2407; 2509; 2534; 2509; 2534; 2534; 2458; 2433; 2433; 2356; 2331; 2331; 2356; 2204; 1824; 1588; 1488; 1439; 1389; 1389; 1439; 1588; 1886; 2158; 2357; 2456; 2481; 2456; 2481; 2481; 2407; 2382; 2382; 2307; 2283; 2283; 2307; 2158; 1786; 1504; 1422; 1341; 1321; 1300; 1260; 1260; 1341; 1646; 1748; 1849; 1890; 1890; 1870; 1849; 1849; 1870; 1910; 1931; 1931; 2032; 1890; 1788; 1626; 1465; 1385; 1306; 1286; 1267; 1227; 1227; 1306; 1603; 1702; 1801; 1841; 1841; 1821; 1801; 1801; 1821; 1861; 1880; 1880; 1979; 1841; 1742; 1583; 1528; 1432; 1385; 1337; 1337; 1385; 1528; 1815; 2077; 2268; 2364; 2388; 2364; 2388; 2388; 2316; 2292; 2292; 2221; 2197; 2197; 2221; 2077; 1719; 1643; 1540; 1489; 1438; 1438; 1489; 1643; 1951; 2234; 2439; 2542; 2567; 2542; 2567; 2567; 2490; 2465; 2465; 2388; 2362; 2362; 2388; 2234; 1848; 1610; 1509; 1459; 1409; 1409; 1459; 1610; 1912; 2189; 2390; 2491; 2516; 2491; 2516; 2516; 2441; 2415; 2415; 2340; 2315; 2315; 2340; 2189; 1811; 1577; 1479; 1429; 1380; 1380; 1429; 1577; 1873; 2144; 2342; 2440; 2465; 2440; 2465; 2465; 2391; 2366; 2366; 2292; 2268; 2268; 2292; 2144; 1775; 1544; 1448; 1400; 1351; 1351; 1400; 1544; 1834; 2100; 2293; 2389; 2413; 2389; 2413; 2413; 2341; 2317; 2317; 2244; 2220; 2220; 2244; 2100; 1738; 1463; 1384; 1305; 1285; 1265; 1225; 1225; 1305; 1601; 1700; 1799; 1838; 1838; 1819; 1799; 1799; 1819; 1858; 1878; 1878; 1977; 1838; 1740; 1581; 1425; 1348; 1271; 1251; 1232; 1194; 1194; 1271; 1560; 1656; 1752; 1791; 1791; 1771; 1752; 1752; 1771; 1810; 1829; 1829; 1925; 1791; 1694; 1540; 1448; 1357; 1312; 1267; 1267; 1312; 1448; 1719; 1968; 2149; 2240; 2262; 2240; 2262; 2262; 2194; 2172; 2172; 2104; 2081; 2081; 2104; 1968; 1629; 1557; 1459; 1411; 1362; 1362; 1411; 1557; 1849; 2116; 2311; 2408; 2433; 2408; 2433; 2433; 2360; 2335; 2335; 2262; 2238; 2238; 2262; 2116; 1751; 1525; 1430; 1382; 1335; 1335; 1382; 1525; 1812; 2074; 2265; 2360; 2384; 2360; 2384; 2384; 2312; 2288; 2288; 2217; 2193; 2193; 2217; 2074; 1716; 1494; 1401; 1354; 1307; 1307; 1354; 1494; 1775; 2032; 2218; 2312; 2335; 2312; 2335; 2335; 2265; 2242; 2242; 2172; 2148; 2148; 2172; 2032; 1681; 1463; 1372; 1326; 1280; 1280; 1326; 1463; 1738; 1989; 2172; 2264; 2287; 2264; 2287; 2287; 2218; 2195; 2195; 2126; 2104; 2104; 2126; 1989; 1646; 1386; 1311; 1236; 1217; 1198; 1161; 1161; 1236; 1517; 1611; 1704; 1742; 1742; 1723; 1704; 1704; 1723; 1761; 1779; 1779; 1873; 1742; 1648; 1498; 1350; 1277; 1204; 1186; 1167; 1131; 1131; 1204; 1478; 1569; 1660; 1697; 1697; 1678; 1660; 1660; 1678; 1715; 1733; 1733; 1824; 1697; 1605; 1459; 1607; 1506; 1456; 1406; 1406; 1456; 1607; 1908; 2184; 2385; 2485; 2510; 2485; 2510; 2510; 2435; 2410; 2410; 2335; 2310; 2310; 2335; 2184; 1807; 1727; 1619; 1565; 1511; 1511; 1565; 1727; 2051; 2348; 2564; 2672; 2700; 2672; 2700; 2700; 2618; 2591; 2591; 2510; 2483; 2483; 2510; 2348; 1943; 1693; 1587; 1534; 1481; 1481; 1534; 1693; 2010; 2302; 2513; 2619; 2645; 2619; 2645; 2645; 2566; 2540; 2540; 2460; 2434; 2434; 2460; 2302; 1905; 1658; 1555; 1503; 1451; 1451; 1503; 1658; 1969; 2255; 2462; 2566; 2591; 2566; 2591; 2591; 2514; 2488; 2488; 2410; 2384; 2384; 2410; 2255; 1866; 1624; 1522; 1472; 1421; 1421; 1472; 1624; 1928; 2208; 2411; 2512; 2537; 2512; 2537; 2537; 2461; 2436; 2436; 2360; 2334; 2334; 2360; 2208; 1827; 1538; 1455; 1372; 1351; 1330; 1288; 1288; 1372; 1683; 1787; 1891; 1933; 1933; 1912; 1891; 1891; 1912; 1954; 1975; 1975; 2078; 1933; 1829; 1663; 1498; 1417; 1336; 1316; 1295; 1255; 1255; 1336; 1640; 1741; 1842; 1883; 1883; 1862; 1842; 1842; 1862; 1903; 1923; 1923; 2024; 1883; 1781; 1619; 1583; 1484; 1435; 1385; 1385; 1435; 1583; 1880; 2153; 2350; 2449; 2474; 2449; 2474; 2474; 2400; 2375; 2375; 2301; 2276; 2276; 2301; 2153; 1781; 1703; 1596; 1543; 1490; 1490; 1543; 1703; 2022; 2315; 2527; 2634; 2661; 2634; 2661; 2661; 2581; 2554; 2554; 2474; 2448; 2448; 2474; 2315; 1915; 1668; 1564; 1512; 1460; 1460; 1512; 1668; 1981; 2268; 2477; 2581; 2607; 2581; 2607; 2607; 2529; 2503; 2503; 2425; 2399; 2399; 2425; 2268; 1877; 1634; 1532; 1481; 1430; 1430; 1481; 1634; 1941; 2222; 2426; 2529; 2554; 2529; 2554; 2554; 2477; 2452; 2452; 2375; 2350; 2350; 2375; 2222; 1839; 1600; 1500; 1450; 1400; 1400; 1450; 1600; 1901; 2176; 2376; 2476; 2501; 2476; 2501; 2501; 2426; 2401; 2401; 2326; 2301; 2301; 2326; 2176; 1800; 1516; 1434; 1352; 1331; 1311; 1270; 1270; 1352; 1659; 1762; 1864; 1905; 1905; 1885; 1864; 1864; 1885; 1926; 1946; 1946; 2048; 1905; 1803; 1639; 1476; 1397; 1317; 1297; 1277; 1237; 1237; 1317; 1616; 1716; 1816; 1856; 1856; 1836; 1816; 1816; 1836; 1876; 1895; 1895; 1995; 1856; 1756; 1596; 1599; 1499; 1449; 1399; 1399; 1449; 1599; 1899; 2174; 2374; 2474; 2499; 2474; 2499; 2499; 2424; 2399; 2399; 2324; 2299; 2299; 2324; 2174; 1799; 1720; 1612; 1559; 1505; 1505; 1559; 1720; 2042; 2338; 2553; 2661; 2688; 2661; 2688; 2688; 2607; 2580; 2580; 2499; 2472; 2472; 2499; 2338; 1935; 1685; 1580; 1527; 1475; 1475; 1527; 1685; 2002; 2291; 2502; 2607; 2634; 2607; 2634; 2634; 2555; 2528; 2528; 2449; 2423; 2423; 2449; 2291; 1896; 1651; 1548; 1496; 1445; 1445; 1496; 1651; 1961; 2245; 2451; 2554; 2580; 2554; 2580; 2580; 2503; 2477; 2477; 2399; 2374; 2374; 2399; 2245; 1857; 1617; 1516; 1465; 1414; 1414; 1465; 1617; 1920; 2198; 2400; 2501; 2526; 2501; 2526; 2526; 2450; 2425; 2425; 2349; 2324; 2324; 2349; 2198; 1819; 1531; 1448; 1366; 1345; 1324; 1283; 1283; 1366; 1676; 1779; 1883; 1924; 1924; 1904; 1883; 1883; 1904; 1945; 1966; 1966; 2069; 1924; 1821; 1655; 1491; 1411; 1330; 1310; 1290; 1249; 1249; 1330; 1632; 1733; 1834; 1874; 1874; 1854; 1834; 1834; 1854; 1895; 1915; 1915; 2015; 1874; 1774; 1612; 1537; 1441; 1393; 1345; 1345; 1393; 1537; 1825; 2089; 2282; 2378; 2402; 2378; 2402; 2402; 2330; 2306; 2306; 2234; 2210; 2210; 2234; 2089; 1729; 1653; 1549; 1498; 1446; 1446; 1498; 1653; 1963; 2247; 2453; 2557; 2583; 2557; 2583; 2583; 2505; 2479; 2479; 2402; 2376; 2376; 2402; 2247; 1859; 1620; 1518; 1468; 1417; 1417; 1468; 1620; 1923; 2202; 2404; 2506; 2531; 2506; 2531; 2531; 2455; 2430; 2430; 2354; 2328; 2328; 2354; 2202; 1822; 1586; 1487; 1438; 1388; 1388; 1438; 1586; 1884; 2157; 2355; 2454; 2479; 2454; 2479; 2479; 2405; 2380; 2380; 2306; 2281; 2281; 2306; 2157; 1785; 1553; 1456; 1408; 1359; 1359; 1408; 1553; 1845; 2112; 2306; 2403; 2428; 2403; 2428; 2428; 2355; 2330; 2330; 2258; 2233; 2233; 2258; 2112; 1748; 1471; 1392; 1312; 1292; 1272; 1233; 1233; 1312; 1611; 1710; 1809; 1849; 1849; 1829; 1809; 1809; 1829; 1869; 1889; 1889; 1988; 1849; 1750; 1591; 1433; 1356; 1278; 1259; 1239; 1201; 1201; 1278; 1569; 1666; 1762; 1801; 1801; 1782; 1762; 1762; 1782; 1821; 1840; 1840; 1937; 1801; 1704; 1549; 1348; 1263; 1221; 1179; 1179; 1221; 1348; 1600; 1832; 2001; 2085; 2106; 2085; 2106; 2106; 2043; 2022; 2022; 1958; 1937; 1937; 1958; 1832; 1516; 1449; 1358; 1313; 1268; 1268; 1313; 1449; 1721; 1970; 2151; 2242; 2265; 2242; 2265; 2265; 2197; 2174; 2174; 2106; 2083; 2083; 2106; 1970; 1630; 1420; 1331; 1287; 1243; 1243; 1287; 1420; 1686; 1931; 2108; 2197; 2219; 2197; 2219; 2219; 2153; 2130; 2130; 2064; 2042; 2042; 2064; 1931; 1598; 1391; 1304; 1261; 1217; 1217; 1261; 1391; 1652; 1891; 2065; 2152; 2174; 2152; 2174; 2174; 2109; 2087; 2087; 2022; 2000; 2000; 2022; 1891; 1565; 1362; 1277; 1234; 1192; 1192; 1234; 1362; 1618; 1852; 2022; 2107; 2129; 2107; 2129; 2129; 2065; 2043; 2043; 1980; 1958; 1958; 1980; 1852; 1532; 1290; 1220; 1151; 1133; 1116; 1081; 1081; 1151; 1412; 1499; 1587; 1621; 1621; 1604; 1587; 1587; 1604; 1639; 1656; 1656; 1744; 1621; 1534; 1395; 1257; 1189; 1121; 1104; 1087; 1053; 1053; 1121; 1375; 1460; 1545; 1579; 1579; 1562; 1545; 1545; 1562; 1596; 1613; 1613; 1698; 1579; 1494; 1358; 1457; 1365; 1320; 1274; 1274; 1320; 1457; 1730; 1980; 2162; 2253; 2276; 2253; 2276; 2276; 2208; 2185; 2185; 2117; 2094; 2094; 2117; 1980; 1639; 1566; 1468; 1419; 1370; 1370; 1419; 1566; 1860; 2129; 2325; 2423; 2448; 2423; 2448; 2448; 2374; 2350; 2350; 2276; 2252; 2252; 2276; 2129; 1762; 1535; 1439; 1391; 1343; 1343; 1391; 1535; 1823; 2087; 2279; 2375; 2399; 2375; 2399; 2399; 2327; 2303; 2303; 2231; 2207; 2207; 2231; 2087; 1727; 1504; 1410; 1363; 1316; 1316; 1363; 1504; 1786; 2044; 2232; 2326; 2350; 2326; 2350; 2350; 2279; 2256; 2256; 2185; 2162; 2162; 2185; 2044; 1692; 1472; 1380; 1334; 1288; 1288; 1334; 1472; 1748; 2001; 2186; 2278; 2301; 2278; 2301; 2301; 2232; 2209; 2209; 2140; 2117; 2117; 2140; 2001; 1656; 1394; 1319; 1244; 1225; 1206; 1168; 1168; 1244; 1526; 1621; 1715; 1753; 1753; 1734; 1715; 1715; 1734; 1771; 1790; 1790; 1884; 1753; 1658; 1507; 1358; 1285; 1211; 1193; 1175; 1138; 1138; 1211; 1487; 1578; 1670; 1707; 1707; 1689; 1670; 1670; 1689; 1725; 1744; 1744; 1836; 1707; 1615; 1468; 1430; 1340; 1296; 1251; 1251; 1296; 1430; 1698; 1944; 2123; 2212; 2234; 2212; 2234; 2234; 2167; 2145; 2145; 2078; 2056; 2056; 2078; 1944; 1609; 1537; 1441; 1393; 1345; 1345; 1393; 1537; 1826; 2090; 2282; 2378; 2403; 2378; 2403; 2403; 2330; 2306; 2306; 2234; 2210; 2210; 2234; 2090; 1730; 1507; 1412; 1365; 1318; 1318; 1365; 1507; 1789; 2048; 2237; 2331; 2354; 2331; 2354; 2354; 2284; 2260; 2260; 2190; 2166; 2166; 2190; 2048; 1695; 1476; 1384; 1337; 1291; 1291; 1337; 1476; 1753; 2006; 2191; 2283; 2306; 2283; 2306; 2306; 2237; 2214; 2214; 2145; 2122; 2122; 2145; 2006; 1660; 1445; 1355; 1310; 1264; 1264; 1310; 1445; 1716; 1965; 2145; 2236; 2258; 2236; 2258; 2258; 2191; 2168; 2168; 2100; 2078; 2078; 2100; 1965; 1626; 1369; 1295; 1221; 1202; 1184; 1147; 1147; 1221; 1498; 1591; 1683; 1720; 1720; 1702; 1683; 1683; 1702; 1739; 1757; 1757; 1850; 1720; 1628; 1480; 1333; 1261; 1189; 1171; 1153; 1117; 1117; 1189; 1459; 1549; 1640; 1676; 1676; 1658; 1640; 1640; 1658; 1694; 1712; 1712; 1802; 1676; 1585; 1441; 1571; 1473; 1424; 1374; 1374; 1424; 1571; 1865; 2136; 2332; 2430; 2455; 2430; 2455; 2455; 2381; 2356; 2356; 2283; 2258; 2258; 2283; 2136; 1767; 1689; 1583; 1531; 1478; 1478; 1531; 1689; 2006; 2296; 2507; 2613; 2640; 2613; 2640; 2640; 2560; 2534; 2534; 2455; 2428; 2428; 2455; 2296; 1900; 1655; 1552; 1500; 1448; 1448; 1500; 1655; 1966; 2250; 2457; 2561; 2587; 2561; 2587; 2587; 2509; 2483; 2483; 2406; 2380; 2380; 2406; 2250; 1862; 1622; 1520; 1469; 1419; 1419; 1469; 1622; 1926; 2204; 2407; 2509; 2534; 2509; 2534; 2534; 2458; 2433; 2433; 2356; 2331; 2331; 2356; 2204; 1824; 1588; 1488; 1439; 1389; 1389; 1439; 1588; 1886; 2158; 2357; 2456; 2481; 2456; 2481; 2481; 2407; 2382; 2382; 2307; 2283; 2283; 2307; 2158; 1786; 1504; 1422; 1341; 1321; 1300; 1260; 1260; 1341; 1646; 1748; 1849; 1890; 1890; 1870; 1849; 1849; 1870; 1910; 1931; 1931; 2032; 1890; 1788; 1626; 1465; 1385; 1306; 1286; 1267; 1227; 1227; 1306; 1603; 1702; 1801; 1841; 1841; 1821; 1801; 1801; 1821; 1861; 1880; 1880; 1979; 1841; 1742; 1583; 1269; 1248; 1208; 1168; 1188; 1309; 1450; 1712; 1913; 1994; 2014; 1994; 1873; 1853; 1812; 1772; 1812; 1853; 1933; 1974; 1933; 1812; 1611; 1410; 1364; 1342; 1299; 1256; 1277; 1407; 1559; 1841; 2057; 2144; 2165; 2144; 2014; 1992; 1949; 1906; 1949; 1992; 2079; 2122; 2079; 1949; 1732; 1516; 1337; 1316; 1273; 1231; 1252; 1379; 1528; 1804; 2016; 2101; 2122; 2101; 1974; 1952; 1910; 1867; 1910; 1952; 2037; 2080; 2037; 1910; 1698; 1485; 1309; 1289; 1247; 1206; 1226; 1351; 1497; 1767; 1975; 2058; 2079; 2058; 1933; 1913; 1871; 1829; 1871; 1913; 1996; 2037; 1996; 1871; 1663; 1455; 1282; 1262; 1221; 1180; 1201; 1323; 1465; 1730; 1934; 2015; 2036; 2015; 1893; 1873; 1832; 1791; 1832; 1873; 1954; 1995; 1954; 1832; 1628; 1425; 1250; 1217; 1150; 1100; 1084; 1084; 1134; 1234; 1384; 1484; 1534; 1567; 1517; 1501; 1501; 1434; 1417; 1467; 1534; 1667; 1617; 1584; 1501; 1417; 1218; 1185; 1120; 1072; 1055; 1055; 1104; 1202; 1348; 1445; 1494; 1527; 1478; 1462; 1462; 1397; 1380; 1429; 1494; 1624; 1575; 1543; 1462; 1380; 1363; 1342; 1299; 1255; 1277; 1407; 1558; 1840; 2056; 2143; 2165; 2143; 2013; 1991; 1948; 1905; 1948; 1991; 2078; 2121; 2078; 1948; 1732; 1515; 1466; 1443; 1396; 1350; 1373; 1513; 1676; 1978; 2211; 2304; 2328; 2304; 2165; 2141; 2095; 2048; 2095; 2141; 2234; 2281; 2234; 2095; 1862; 1629; 1437; 1414; 1368; 1323; 1346; 1482; 1642; 1939; 2167; 2258; 2281; 2258; 2121; 2098; 2053; 2007; 2053; 2098; 2190; 2235; 2190; 2053; 1825; 1597; 1407; 1385; 1340; 1296; 1318; 1452; 1609; 1899; 2123; 2212; 2234; 2212; 2078; 2056; 2011; 1966; 2011; 2056; 2145; 2190; 2145; 2011; 1787; 1564; 1378; 1356; 1312; 1269; 1291; 1422; 1575; 1860; 2078; 2166; 2188; 2166; 2035; 2013; 1969; 1925; 1969; 2013; 2100; 2144; 2100; 1969; 1750; 1531; 1344; 1308; 1236; 1183; 1165; 1165; 1218; 1326; 1487; 1595; 1649; 1685; 1631; 1613; 1613; 1541; 1523; 1577; 1649; 1792; 1738; 1702; 1613; 1523; 1309; 1274; 1204; 1152; 1134; 1134; 1187; 1292; 1449; 1553; 1606; 1641; 1588; 1571; 1571; 1501; 1484; 1536; 1606; 1746; 1693; 1658; 1571; 1484; 1406; 1383; 1339; 1294; 1316; 1450; 1607; 1897; 2120; 2209; 2231; 2209; 2075; 2053; 2008; 1964; 2008; 2053; 2142; 2187; 2142; 2008; 1785; 1562; 1511; 1487; 1439; 1391; 1415; 1559; 1727; 2039; 2279; 2375; 2399; 2375; 2231; 2207; 2159; 2111; 2159; 2207; 2303; 2351; 2303; 2159; 1919; 1679; 1481; 1458; 1411; 1364; 1387; 1528; 1693; 1999; 2234; 2328; 2351; 2328; 2187; 2163; 2116; 2069; 2116; 2163; 2257; 2304; 2257; 2116; 1881; 1646; 1451; 1428; 1382; 1336; 1359; 1497; 1658; 1958; 2188; 2280; 2303; 2280; 2142; 2119; 2073; 2027; 2073; 2119; 2211; 2257; 2211; 2073; 1843; 1612; 1421; 1398; 1353; 1308; 1331; 1466; 1624; 1917; 2143; 2233; 2255; 2233; 2098; 2075; 2030; 1985; 2030; 2075; 2165; 2210; 2165; 2030; 1804; 1579; 1385; 1349; 1275; 1219; 1201; 1201; 1256; 1367; 1533; 1644; 1700; 1737; 1681; 1663; 1663; 1589; 1570; 1626; 1700; 1847; 1792; 1755; 1663; 1570; 1349; 1313; 1241; 1187; 1169; 1169; 1223; 1331; 1493; 1601; 1655; 1691; 1637; 1619; 1619; 1547; 1529; 1583; 1655; 1799; 1745; 1709; 1619; 1529; 1281; 1261; 1220; 1179; 1200; 1322; 1464; 1728; 1932; 2013; 2033; 2013; 1891; 1871; 1830; 1789; 1830; 1871; 1952; 1993; 1952; 1830; 1627; 1423; 1377; 1355; 1312; 1268; 1290; 1421; 1574; 1858; 2077; 2165; 2186; 2165; 2033; 2012; 1968; 1924; 1968; 2012; 2099; 2143; 2099; 1968; 1749; 1530; 1350; 1328; 1285; 1243; 1264; 1393; 1543; 1821; 2036; 2121; 2143; 2121; 1993; 1971; 1928; 1886; 1928; 1971; 2057; 2100; 2057; 1928; 1714; 1500; 1322; 1301; 1259; 1217; 1238; 1364; 1511; 1784; 1994; 2078; 2099; 2078; 1952; 1931; 1889; 1847; 1889; 1931; 2015; 2057; 2015; 1889; 1679; 1469; 1295; 1274; 1233; 1192; 1212; 1336; 1480; 1747; 1952; 2035; 2055; 2035; 1911; 1891; 1850; 1809; 1850; 1891; 1973; 2014; 1973; 1850; 1644; 1439; 1262; 1229; 1161; 1111; 1094; 1094; 1145; 1246; 1397; 1498; 1549; 1582; 1532; 1515; 1515; 1448; 1431; 1481; 1549; 1683; 1633; 1599; 1515; 1431; 1230; 1197; 1131; 1082; 1066; 1066; 1115; 1213; 1361; 1459; 1509; 1541; 1492; 1476; 1476; 1410; 1394; 1443; 1509; 1640; 1591; 1558; 1476; 1394; 1276; 1255; 1215; 1174; 1195; 1316; 1458; 1721; 1924; 2005; 2025; 2005; 1883; 1863; 1822; 1782; 1822; 1863; 1944; 1985; 1944; 1822; 1620; 1417; 1372; 1350; 1306; 1263; 1285; 1415; 1568; 1851; 2069; 2156; 2177; 2156; 2025; 2003; 1960; 1916; 1960; 2003; 2090; 2134; 2090; 1960; 1742; 1524; 1344; 1323; 1280; 1237; 1259; 1387; 1536; 1814; 2027; 2113; 2134; 2113; 1985; 1963; 1920; 1878; 1920; 1963; 2049; 2091; 2049; 1920; 1707; 1494; 1317; 1296; 1254; 1212; 1233; 1359; 1505; 1777; 1986; 2069; 2090; 2069; 1944; 1923; 1881; 1839; 1881; 1923; 2007; 2049; 2007; 1881; 1672; 1463; 1289; 1269; 1228; 1187; 1207; 1330; 1474; 1740; 1944; 2026; 2047; 2026; 1904; 1883; 1842; 1801; 1842; 1883; 1965; 2006; 1965; 1842; 1637; 1433; 1257; 1224; 1157; 1106; 1090; 1090; 1140; 1241; 1391; 1492; 1542; 1576; 1526; 1509; 1509; 1442; 1425; 1475; 1542; 1677; 1626; 1593; 1509; 1425; 1225; 1192; 1127; 1078; 1061; 1061; 1110; 1208; 1355; 1453; 1502; 1535; 1486; 1470; 1470; 1404; 1388; 1437; 1502; 1633; 1584; 1551; 1470; 1388; 1239; 1219; 1180; 1140; 1160; 1278; 1416; 1671; 1868; 1947; 1966; 1947; 1829; 1809; 1770; 1730; 1770; 1809; 1888; 1927; 1888; 1770; 1573; 1376; 1332; 1311; 1268; 1226; 1247; 1374; 1522; 1797; 2009; 2093; 2114; 2093; 1966; 1945; 1903; 1861; 1903; 1945; 2030; 2072; 2030; 1903; 1691; 1480; 1305; 1285; 1243; 1202; 1222; 1347; 1492; 1761; 1969; 2051; 2072; 2051; 1927; 1906; 1865; 1823; 1865; 1906; 1989; 2031; 1989; 1865; 1658; 1450; 1279; 1258; 1218; 1177; 1197; 1319; 1461; 1725; 1928; 2010; 2030; 2010; 1888; 1867; 1827; 1786; 1827; 1867; 1949; 1989; 1949; 1827; 1624; 1421; 1252; 1232; 1192; 1153; 1172; 1292; 1431; 1689; 1888; 1968; 1988; 1968; 1848; 1829; 1789; 1749; 1789; 1829; 1908; 1948; 1908; 1789; 1590; 1391; 1221; 1188; 1123; 1074; 1058; 1058; 1107; 1205; 1351; 1449; 1498; 1530; 1481; 1465; 1465; 1400; 1384; 1433; 1498; 1628; 1579; 1547; 1465; 1384; 1189; 1157; 1094; 1046; 1031; 1031; 1078; 1173; 1316; 1411; 1459; 1491; 1443; 1427; 1427; 1364; 1348; 1395; 1459; 1586; 1538; 1506; 1427; 1348; 1371; 1349; 1305; 1262; 1283; 1414; 1566; 1849; 2067; 2154; 2176; 2154; 2023; 2002; 1958; 1915; 1958; 2002; 2089; 2132; 2089; 1958; 1740; 1523; 1474; 1450; 1403; 1357; 1380; 1520; 1684; 1988; 2222; 2316; 2340; 2316; 2176; 2152; 2105; 2059; 2105; 2152; 2246; 2293; 2246; 2105; 1871; 1637; 1444; 1421; 1375; 1330; 1352; 1490; 1651; 1949; 2178; 2270; 2293; 2270; 2132; 2109; 2063; 2018; 2063; 2109; 2201; 2247; 2201; 2063; 1834; 1605; 1415; 1392; 1347; 1302; 1325; 1460; 1617; 1909; 2134; 2223; 2246; 2223; 2089; 2066; 2021; 1976; 2021; 2066; 2156; 2201; 2156; 2021; 1797; 1572; 1385; 1363; 1319; 1275; 1297; 1429; 1583; 1869; 2089; 2177; 2199; 2177; 2045; 2023; 1979; 1935; 1979; 2023; 2111; 2155; 2111; 1979; 1759; 1539; 1351; 1315; 1243; 1189; 1171; 1171; 1225; 1333; 1495; 1603; 1657; 1693; 1639; 1621; 1621; 1549; 1531; 1585; 1657; 1801; 1747; 1711; 1621; 1531; 1316; 1281; 1210; 1158; 1140; 1140; 1193; 1298; 1456; 1561; 1614; 1649; 1597; 1579; 1579; 1509; 1491; 1544; 1614; 1754; 1702; 1667; 1579; 1491; 1221; 1202; 1163; 1124; 1144; 1260; 1396; 1648; 1842; 1919; 1939; 1919; 1803; 1783; 1745; 1706; 1745; 1783; 1861; 1900; 1861; 1745; 1551; 1357; 1313; 1292; 1250; 1209; 1230; 1355; 1501; 1772; 1980; 2064; 2084; 2064; 1939; 1918; 1876; 1834; 1876; 1918; 2001; 2043; 2001; 1876; 1667; 1459; 1287; 1266; 1225; 1185; 1205; 1328; 1471; 1736; 1941; 2022; 2043; 2022; 1900; 1879; 1838; 1798; 1838; 1879; 1961; 2002; 1961; 1838; 1634; 1430; 1261; 1240; 1200; 1160; 1180; 1301; 1441; 1701; 1901; 1981; 2001; 1981; 1861; 1841; 1801; 1761; 1801; 1841; 1921; 1961; 1921; 1801; 1601; 1401; 1234; 1215; 1175; 1136; 1156; 1273; 1411; 1665; 1861; 1940; 1959; 1940; 1822; 1803; 1763; 1724; 1763; 1803; 1881; 1920; 1881; 1763; 1567; 1371; 1204; 1171; 1107; 1059; 1043; 1043; 1091; 1188; 1332; 1428; 1477; 1509; 1460; 1444; 1444; 1380; 1364; 1412; 1477; 1605; 1557; 1525; 1444; 1364; 1172; 1141; 1078; 1032; 1016; 1016; 1063; 1157; 1297; 1391; 1438; 1469; 1423; 1407; 1407; 1344; 1329; 1376; 1438; 1563; 1516; 1485; 1407; 1329; 1272; 1252; 1211; 1171; 1191; 1312; 1454; 1716; 1918; 1999; 2019; 1999; 1878; 1858; 1817; 1777; 1817; 1858; 1939; 1979; 1939; 1817; 1615; 1413; 1368; 1346; 1303; 1259; 1281; 1411; 1563; 1846; 2063; 2150; 2171; 2150; 2019; 1998; 1954; 1911; 1954; 1998; 2085; 2128; 2085; 1954; 1737; 1520; 1340; 1319; 1277; 1234; 1255; 1383; 1532; 1809; 2022; 2107; 2128; 2107; 1979; 1958; 1915; 1873; 1915; 1958; 2043; 2085; 2043; 1915; 1702; 1489; 1313; 1292; 1251; 1209; 1230; 1355; 1501; 1772; 1980; 2064; 2085; 2064; 1939; 1918; 1876; 1834; 1876; 1918; 2001; 2043; 2001; 1876; 1668; 1459; 1286; 1265; 1225; 1184; 1204; 1327; 1470; 1735; 1939; 2021; 2041; 2021; 1898; 1878; 1837; 1796; 1837; 1878; 1960; 2000; 1960; 1837; 1633; 1429; 1254; 1220; 1153; 1103; 1087; 1087; 1137; 1237; 1388; 1488; 1538; 1572; 1521; 1505; 1505; 1438; 1421; 1471; 1538; 1672; 1622; 1588; 1505; 1421; 1221; 1189; 1124; 1075; 1058; 1058; 1107; 1205; 1352; 1449; 1498; 1531; 1482; 1466; 1466; 1400; 1384; 1433; 1498; 1628; 1580; 1547; 1466; 1384; 1272; 1252; 1211; 1171; 1191; 1312; 1454; 1716; 1918; 1999; 2019; 1999; 1878; 1858; 1817; 1777; 1817; 1858; 1939; 1979; 1939; 1817; 1615; 1413; 1368; 1346; 1303; 1259; 1281; 1411; 1563; 1846; 2063; 2150; 2171; 2150; 2019; 1998; 1954; 1911; 1954; 1998; 2085; 2128; 2085; 1954; 1737; 1520; 1340; 1319; 1277; 1234; 1255; 1383; 1532; 1809; 2022; 2107; 2128; 2107; 1979; 1958; 1915; 1873; 1915; 1958; 2043; 2085; 2043; 1915; 1702; 1489; 1313; 1292; 1251; 1209; 1230; 1355; 1501; 1772; 1980; 2064; 2085; 2064; 1939; 1918; 1876; 1834; 1876; 1918; 2001; 2043; 2001; 1876; 1668; 1459; 1286; 1265; 1225; 1184; 1204; 1327; 1470; 1735; 1939; 2021; 2041; 2021; 1898; 1878; 1837; 1796; 1837; 1878; 1960; 2000; 1960; 1837; 1633; 1429; 1254; 1220; 1153; 1103; 1087; 1087; 1137; 1237; 1388; 1488; 1538; 1572; 1521; 1505; 1505; 1438; 1421; 1471; 1538; 1672; 1622; 1588; 1505; 1421; 1221; 1189; 1124; 1075; 1058; 1058; 1107; 1205; 1352; 1449; 1498; 1531; 1482; 1466; 1466; 1400; 1384; 1433; 1498; 1628; 1580; 1547; 1466; 1384; 1305; 1285; 1243; 1202; 1223; 1347; 1492; 1762; 1969; 2052; 2072; 2052; 1927; 1907; 1865; 1824; 1865; 1907; 1990; 2031; 1990; 1865; 1658; 1451; 1404; 1381; 1337; 1292; 1315; 1448; 1604; 1894; 2117; 2206; 2229; 2206; 2072; 2050; 2006; 1961; 2006; 2050; 2139; 2184; 2139; 2006; 1783; 1560; 1376; 1354; 1310; 1266; 1288; 1419; 1572; 1856; 2075; 2162; 2184; 2162; 2031; 2009; 1965; 1922; 1965; 2009; 2097; 2140; 2097; 1965; 1747; 1529; 1348; 1326; 1283; 1241; 1262; 1390; 1540; 1818; 2032; 2118; 2139; 2118; 1990; 1968; 1925; 1883; 1925; 1968; 2054; 2097; 2054; 1925; 1711; 1497; 1320; 1299; 1257; 1215; 1236; 1361; 1508; 1780; 1990; 2074; 2095; 2074; 1948; 1927; 1885; 1843; 1885; 1927; 2011; 2053; 2011; 1885; 1676; 1466; 1287; 1252; 1184; 1132; 1115; 1115; 1167; 1270; 1424; 1527; 1579; 1613; 1561; 1544; 1544; 1476; 1458; 1510; 1579; 1716; 1664; 1630; 1544; 1458; 1253; 1220; 1153; 1103; 1086; 1086; 1136; 1237; 1387; 1487; 1538; 1571; 1521; 1504; 1504; 1437; 1420; 1471; 1538; 1671; 1621; 1588; 1504; 1420; 1307; 1286; 1245; 1203; 1224; 1349; 1494; 1764; 1971; 2055; 2075; 2055; 1930; 1909; 1868; 1826; 1868; 1909; 1992; 2034; 1992; 1868; 1660; 1453; 1406; 1383; 1339; 1294; 1316; 1450; 1607; 1897; 2120; 2209; 2231; 2209; 2075; 2053; 2008; 1964; 2008; 2053; 2142; 2187; 2142; 2008; 1785; 1562; 1378; 1356; 1312; 1268; 1290; 1421; 1574; 1859; 2077; 2165; 2187; 2165; 2034; 2012; 1968; 1924; 1968; 2012; 2099; 2143; 2099; 1968; 1749; 1531; 1349; 1328; 1285; 1242; 1264; 1392; 1542; 1821; 2035; 2121; 2142; 2121; 1992; 1971; 1928; 1885; 1928; 1971; 2057; 2099; 2057; 1928; 1714; 1499; 1321; 1300; 1258; 1216; 1237; 1363; 1510; 1783; 1993; 2077; 2098; 2077; 1951; 1930; 1888; 1846; 1888; 1930; 2014; 2056; 2014; 1888; 1678; 1468; 1288; 1254; 1185; 1134; 1117; 1117; 1168; 1271; 1426; 1529; 1581; 1615; 1563; 1546; 1546; 1478; 1460; 1512; 1581; 1718; 1667; 1632; 1546; 1460; 1255; 1222; 1155; 1104; 1088; 1088; 1138; 1238; 1389; 1489; 1540; 1573; 1523; 1506; 1506; 1439; 1422; 1473; 1540; 1673; 1623; 1590; 1506; 1422; 1406; 1383; 1339; 1294; 1316; 1450; 1607; 1897; 2120; 2209; 2231; 2209; 2075; 2053; 2008; 1964; 2008; 2053; 2142; 2187; 2142; 2008; 1785; 1562; 1511; 1487; 1439; 1391; 1415; 1559; 1727; 2039; 2279; 2375; 2399; 2375; 2231; 2207; 2159; 2111; 2159; 2207; 2303; 2351; 2303; 2159; 1919; 1679; 1481; 1458; 1411; 1364; 1387; 1528; 1693; 1999; 2234; 2328; 2351; 2328; 2187; 2163; 2116; 2069; 2116; 2163; 2257; 2304; 2257; 2116; 1881; 1646; 1451; 1428; 1382; 1336; 1359; 1497; 1658; 1958; 2188; 2280; 2303; 2280; 2142; 2119; 2073; 2027; 2073; 2119; 2211; 2257; 2211; 2073; 1843; 1612; 1421; 1398; 1353; 1308; 1331; 1466; 1624; 1917; 2143; 2233; 2255; 2233; 2098; 2075; 2030; 1985; 2030; 2075; 2165; 2210; 2165; 2030; 1804; 1579; 1385; 1349; 1275; 1219; 1201; 1201; 1256; 1367; 1533; 1644; 1700; 1737; 1681; 1663; 1663; 1589; 1570; 1626; 1700; 1847; 1792; 1755; 1663; 1570; 1349; 1313; 1241; 1187; 1169; 1169; 1223; 1331; 1493; 1601; 1655; 1691; 1637; 1619; 1619; 1547; 1529; 1583; 1655; 1799; 1745; 1709; 1619; 1529; 1646; 1548; 1474; 1450; 1450; 1474; 1818; 2113; 2335; 2359; 2359; 2335; 2335; 2335; 2285; 2310; 2433; 2457; 2457; 2359; 2236; 2040; 1794; 1548; 1770; 1665; 1585; 1559; 1559; 1585; 1955; 2272; 2510; 2537; 2537; 2510; 2510; 2510; 2457; 2484; 2616; 2643; 2643; 2537; 2405; 2193; 1929; 1665; 1735; 1631; 1554; 1528; 1528; 1554; 1916; 2227; 2460; 2486; 2486; 2460; 2460; 2460; 2408; 2434; 2564; 2590; 2590; 2486; 2357; 2149; 1890; 1631; 1699; 1598; 1522; 1496; 1496; 1522; 1877; 2182; 2410; 2435; 2435; 2410; 2410; 2410; 2359; 2385; 2511; 2537; 2537; 2435; 2308; 2105; 1852; 1598; 1664; 1565; 1490; 1465; 1465; 1490; 1838; 2136; 2360; 2385; 2385; 2360; 2360; 2360; 2310; 2335; 2459; 2484; 2484; 2385; 2260; 2062; 1813; 1565; 1587; 1465; 1383; 1343; 1302; 1322; 1343; 1424; 1628; 1790; 1831; 1851; 1831; 1790; 1770; 1770; 1851; 2035; 2014; 1974; 1913; 1872; 1770; 1648; 1546; 1427; 1347; 1308; 1268; 1288; 1308; 1387; 1585; 1744; 1784; 1803; 1784; 1744; 1724; 1724; 1803; 1982; 1962; 1922; 1863; 1823; 1724; 1605; 1654; 1555; 1481; 1456; 1456; 1481; 1827; 2123; 2345; 2370; 2370; 2345; 2345; 2345; 2296; 2321; 2444; 2469; 2469; 2370; 2246; 2049; 1802; 1555; 1778; 1672; 1592; 1566; 1566; 1592; 1964; 2283; 2522; 2548; 2548; 2522; 2522; 2522; 2469; 2495; 2628; 2655; 2655; 2548; 2416; 2203; 1938; 1672; 1743; 1639; 1561; 1535; 1535; 1561; 1925; 2237; 2471; 2497; 2497; 2471; 2471; 2471; 2419; 2445; 2575; 2601; 2601; 2497; 2367; 2159; 1899; 1639; 1707; 1605; 1529; 1503; 1503; 1529; 1886; 2191; 2421; 2446; 2446; 2421; 2421; 2421; 2370; 2395; 2523; 2548; 2548; 2446; 2319; 2115; 1860; 1605; 1672; 1572; 1497; 1472; 1472; 1497; 1846; 2146; 2370; 2395; 2395; 2370; 2370; 2370; 2321; 2345; 2470; 2495; 2495; 2395; 2271; 2071; 1821; 1572; 1594; 1471; 1390; 1349; 1308; 1328; 1349; 1431; 1635; 1799; 1839; 1860; 1839; 1799; 1778; 1778; 1860; 2044; 2023; 1983; 1921; 1880; 1778; 1655; 1553; 1433; 1354; 1314; 1274; 1294; 1314; 1393; 1592; 1752; 1792; 1812; 1792; 1752; 1732; 1732; 1812; 1991; 1971; 1931; 1871; 1831; 1732; 1612; 1699; 1597; 1521; 1496; 1496; 1521; 1876; 2181; 2409; 2434; 2434; 2409; 2409; 2409; 2358; 2383; 2510; 2536; 2536; 2434; 2307; 2104; 1851; 1597; 1827; 1718; 1636; 1608; 1608; 1636; 2017; 2345; 2590; 2617; 2617; 2590; 2590; 2590; 2536; 2563; 2699; 2726; 2726; 2617; 2481; 2263; 1990; 1718; 1790; 1683; 1603; 1576; 1576; 1603; 1977; 2298; 2538; 2565; 2565; 2538; 2538; 2538; 2485; 2512; 2645; 2672; 2672; 2565; 2431; 2218; 1950; 1683; 1754; 1649; 1570; 1544; 1544; 1570; 1937; 2251; 2487; 2513; 2513; 2487; 2487; 2487; 2434; 2460; 2591; 2617; 2617; 2513; 2382; 2172; 1911; 1649; 1717; 1614; 1538; 1512; 1512; 1538; 1896; 2204; 2435; 2460; 2460; 2435; 2435; 2435; 2383; 2409; 2537; 2563; 2563; 2460; 2332; 2127; 1871; 1614; 1637; 1511; 1427; 1385; 1343; 1364; 1385; 1469; 1679; 1847; 1889; 1910; 1889; 1847; 1826; 1826; 1910; 2099; 2078; 2036; 1973; 1931; 1826; 1700; 1595; 1472; 1390; 1349; 1308; 1329; 1349; 1431; 1636; 1799; 1840; 1861; 1840; 1799; 1779; 1779; 1861; 2045; 2024; 1983; 1922; 1881; 1779; 1656; 1757; 1652; 1573; 1547; 1547; 1573; 1940; 2255; 2491; 2517; 2517; 2491; 2491; 2491; 2439; 2465; 2596; 2622; 2622; 2517; 2386; 2176; 1914; 1652; 1889; 1776; 1691; 1663; 1663; 1691; 2086; 2425; 2678; 2707; 2707; 2678; 2678; 2678; 2622; 2650; 2791; 2819; 2819; 2707; 2566; 2340; 2058; 1776; 1851; 1741; 1658; 1630; 1630; 1658; 2045; 2376; 2625; 2653; 2653; 2625; 2625; 2625; 2570; 2597; 2735; 2763; 2763; 2653; 2514; 2293; 2017; 1741; 1813; 1705; 1624; 1597; 1597; 1624; 2003; 2328; 2571; 2598; 2598; 2571; 2571; 2571; 2517; 2544; 2680; 2707; 2707; 2598; 2463; 2246; 1976; 1705; 1776; 1670; 1590; 1563; 1563; 1590; 1961; 2279; 2518; 2544; 2544; 2518; 2518; 2518; 2465; 2491; 2624; 2650; 2650; 2544; 2412; 2200; 1935; 1670; 1693; 1563; 1476; 1433; 1389; 1411; 1433; 1519; 1737; 1910; 1954; 1975; 1954; 1910; 1889; 1889; 1975; 2171; 2149; 2106; 2041; 1997; 1889; 1758; 1649; 1522; 1438; 1395; 1353; 1374; 1395; 1480; 1691; 1861; 1903; 1924; 1903; 1861; 1840; 1840; 1924; 2114; 2093; 2051; 1988; 1945; 1840; 1713; 1663; 1564; 1489; 1465; 1465; 1489; 1837; 2135; 2358; 2383; 2383; 2358; 2358; 2358; 2309; 2334; 2458; 2483; 2483; 2383; 2259; 2060; 1812; 1564; 1788; 1682; 1601; 1575; 1575; 1601; 1975; 2296; 2536; 2563; 2563; 2536; 2536; 2536; 2483; 2509; 2643; 2670; 2670; 2563; 2429; 2216; 1949; 1682; 1753; 1648; 1569; 1543; 1543; 1569; 1936; 2250; 2485; 2511; 2511; 2485; 2485; 2485; 2433; 2459; 2590; 2616; 2616; 2511; 2381; 2171; 1910; 1648; 1717; 1614; 1537; 1512; 1512; 1537; 1896; 2204; 2435; 2460; 2460; 2435; 2435; 2435; 2383; 2409; 2537; 2563; 2563; 2460; 2332; 2127; 1871; 1614; 1681; 1581; 1505; 1480; 1480; 1505; 1857; 2158; 2384; 2409; 2409; 2384; 2384; 2384; 2334; 2359; 2484; 2509; 2509; 2409; 2283; 2083; 1832; 1581; 1603; 1480; 1398; 1356; 1315; 1336; 1356; 1439; 1644; 1809; 1850; 1870; 1850; 1809; 1788; 1788; 1870; 2055; 2035; 1994; 1932; 1891; 1788; 1665; 1561; 1441; 1361; 1321; 1281; 1301; 1321; 1401; 1601; 1762; 1802; 1822; 1802; 1762; 1742; 1742; 1822; 2002; 1982; 1942; 1882; 1842; 1742; 1622; 1760; 1655; 1576; 1550; 1550; 1576; 1944; 2260; 2496; 2523; 2523; 2496; 2496; 2496; 2444; 2470; 2601; 2628; 2628; 2523; 2391; 2181; 1918; 1655; 1893; 1780; 1695; 1667; 1667; 1695; 2091; 2430; 2684; 2712; 2712; 2684; 2684; 2684; 2628; 2656; 2797; 2825; 2825; 2712; 2571; 2345; 2062; 1780; 1855; 1744; 1661; 1633; 1633; 1661; 2049; 2381; 2631; 2658; 2658; 2631; 2631; 2631; 2575; 2603; 2741; 2769; 2769; 2658; 2520; 2298; 2021; 1744; 1817; 1709; 1627; 1600; 1600; 1627; 2007; 2333; 2577; 2604; 2604; 2577; 2577; 2577; 2523; 2550; 2685; 2712; 2712; 2604; 2468; 2251; 1980; 1709; 1779; 1673; 1593; 1567; 1567; 1593; 1965; 2284; 2523; 2550; 2550; 2523; 2523; 2523; 2470; 2497; 2629; 2656; 2656; 2550; 2417; 2204; 1939; 1673; 1697; 1566; 1479; 1436; 1392; 1414; 1436; 1523; 1740; 1914; 1958; 1980; 1958; 1914; 1893; 1893; 1980; 2176; 2154; 2110; 2045; 2001; 1893; 1762; 1653; 1526; 1441; 1398; 1356; 1377; 1398; 1483; 1695; 1865; 1907; 1928; 1907; 1865; 1843; 1843; 1928; 2119; 2098; 2055; 1992; 1949; 1843; 1716; 1813; 1704; 1623; 1596; 1596; 1623; 2002; 2327; 2570; 2598; 2598; 2570; 2570; 2570; 2516; 2543; 2679; 2706; 2706; 2598; 2462; 2246; 1975; 1704; 1949; 1833; 1745; 1716; 1716; 1745; 2153; 2502; 2764; 2793; 2793; 2764; 2764; 2764; 2706; 2735; 2880; 2909; 2909; 2793; 2648; 2415; 2124; 1833; 1910; 1796; 1711; 1682; 1682; 1711; 2110; 2452; 2709; 2737; 2737; 2709; 2709; 2709; 2652; 2680; 2823; 2851; 2851; 2737; 2595; 2366; 2081; 1796; 1871; 1759; 1676; 1648; 1648; 1676; 2067; 2402; 2653; 2681; 2681; 2653; 2653; 2653; 2598; 2625; 2765; 2793; 2793; 2681; 2542; 2318; 2039; 1759; 1832; 1723; 1641; 1613; 1613; 1641; 2024; 2352; 2598; 2625; 2625; 2598; 2598; 2598; 2543; 2571; 2708; 2735; 2735; 2625; 2489; 2270; 1996; 1723; 1747; 1613; 1523; 1478; 1434; 1456; 1478; 1568; 1792; 1971; 2016; 2039; 2016; 1971; 1949; 1949; 2039; 2240; 2218; 2173; 2106; 2061; 1949; 1814; 1702; 1571; 1484; 1440; 1396; 1418; 1440; 1527; 1745; 1920; 1964; 1986; 1964; 1920; 1898; 1898; 1986; 2182; 2160; 2117; 2051; 2007; 1898; 1767; 1869; 1757; 1673; 1646; 1646; 1673; 2064; 2399; 2650; 2678; 2678; 2650; 2650; 2650; 2594; 2622; 2762; 2789; 2789; 2678; 2538; 2315; 2036; 1757; 2009; 1890; 1799; 1769; 1769; 1799; 2219; 2579; 2849; 2879; 2879; 2849; 2849; 2849; 2789; 2819; 2969; 3000; 3000; 2879; 2730; 2489; 2189; 1890; 1969; 1852; 1763; 1734; 1734; 1763; 2175; 2528; 2792; 2822; 2822; 2792; 2792; 2792; 2734; 2763; 2910; 2939; 2939; 2822; 2675; 2440; 2146; 1852; 1929; 1814; 1727; 1699; 1699; 1727; 2131; 2476; 2735; 2764; 2764; 2735; 2735; 2735; 2678; 2707; 2851; 2879; 2879; 2764; 2620; 2390; 2102; 1814; 1889; 1776; 1691; 1663; 1663; 1691; 2086; 2425; 2678; 2707; 2707; 2678; 2678; 2678; 2622; 2650; 2791; 2819; 2819; 2707; 2566; 2340; 2058; 1776; 1801; 1663; 1570; 1524; 1478; 1501; 1524; 1616; 1847; 2032; 2078; 2102; 2078; 2032; 2009; 2009; 2102; 2310; 2286; 2240; 2171; 2125; 2009; 1871; 1754; 1619; 1529; 1484; 1439; 1462; 1484; 1574; 1799; 1979; 2024; 2047; 2024; 1979; 1957; 1957; 2047; 2250; 2227; 2182; 2114; 2069; 1957; 1822; 1779; 1673; 1593; 1567; 1567; 1593; 1965; 2284; 2523; 2549; 2549; 2523; 2523; 2523; 2470; 2496; 2629; 2656; 2656; 2549; 2417; 2204; 1938; 1673; 1913; 1799; 1713; 1685; 1685; 1713; 2113; 2456; 2713; 2741; 2741; 2713; 2713; 2713; 2656; 2684; 2827; 2855; 2855; 2741; 2598; 2370; 2084; 1799; 1875; 1763; 1679; 1651; 1651; 1679; 2071; 2407; 2658; 2686; 2686; 2658; 2658; 2658; 2602; 2630; 2770; 2798; 2798; 2686; 2546; 2323; 2043; 1763; 1836; 1727; 1645; 1617; 1617; 1645; 2028; 2357; 2604; 2632; 2632; 2604; 2604; 2604; 2549; 2577; 2714; 2741; 2741; 2632; 2495; 2275; 2001; 1727; 1798; 1691; 1610; 1583; 1583; 1610; 1986; 2308; 2550; 2577; 2577; 2550; 2550; 2550; 2496; 2523; 2657; 2684; 2684; 2577; 2443; 2228; 1959; 1691; 1715; 1583; 1495; 1451; 1407; 1429; 1451; 1539; 1759; 1935; 1979; 2001; 1979; 1935; 1913; 1913; 2001; 2199; 2177; 2133; 2067; 2023; 1913; 1781; 1670; 1542; 1456; 1413; 1370; 1392; 1413; 1499; 1713; 1884; 1927; 1949; 1927; 1884; 1863; 1863; 1949; 2141; 2120; 2077; 2013; 1970; 1863; 1735; 1321; 1321; 1321; 1321; 1321; 1321; 1601; 1601; 1601; 1601; 1601; 1850; 1850; 1850; 1850; 2027; 2027; 2027; 2195; 2195; 2356; 2356; 2496; 2496]).
Definition loads1 := rescale raw1 (qz 3000).
(** one area: the five are alike in the test data; HRLOAD_XPOS without fixed contracts is the rescaled load *)
Example rescale_5 : True.
Proof. agrees (vnear 4 loads1 (qs 1000000 [1611000000; 1515000000; 1442000000; 1418000000; 1418000000; 1442000000; 1779000000; 2068000000; 2284000000; 2308000000; 2308000000; 2284000000; 2284000000; 2284000000; 2236000000; 2260000000; 2380000000; 2404000000; 2404000000; 2308000000; 2188000000; 1996000000; 1754999878; 1515000000; 1732000000; 1629000000; 1551000000; 1525000000; 1525000000; 1551000000; 1912999878; 2223000000; 2456000000; 2482000000; 2482000000; 2456000000; 2456000000; 2456000000; 2404000000; 2430000000; 2560000000; 2585000000; 2585000000; 2482000000; 2353000000; 2146000000; 1887000000; 1629000000; 1697000000; 1596000000; 1520000000; 1495000000; 1495000000; 1520000000; 1875000000; 2179000000; 2407000000; 2432000000; 2432000000; 2407000000; 2407000000; 2407000000; 2356000000; 2382000000; 2508000000; 2534000000; 2534000000; 2432000000; 2306000000; 2103000000; 1850000000; 1596000000; 1663000000; 1564000000; 1489000000; 1464000000; 1464000000; 1489000000; 1837000122; 2135000000; 2358000000; 2383000000; 2383000000; 2358000000; 2358000000; 2358000000; 2308000000; 2333000000; 2457000000; 2482000000; 2482000000; 2383000000; 2259000000; 2060000000; 1811999878; 1564000000; 1628000000; 1531000122; 1458000000; 1434000000; 1434000000; 1458000000; 1798000000; 2090000000; 2309000000; 2333000000; 2333000000; 2309000000; 2309000000; 2309000000; 2260000000; 2284000000; 2406000000; 2430000000; 2430000000; 2333000000; 2212000000; 2017000122; 1774000000; 1531000122; 1552999878; 1433000000; 1354000000; 1314000000; 1274000000; 1294000000; 1314000000; 1393000000; 1592000000; 1752000000; 1791999878; 1811999878; 1791999878; 1752000000; 1732000000; 1732000000; 1811999878; 1991000000; 1971000000; 1931000000; 1870999878; 1831000000; 1732000000; 1611999878; 1512000000; 1396000000; 1318000000; 1280000000; 1241000000; 1260000000; 1280000000; 1357000000; 1551000000; 1705999878; 1745000000; 1764000000; 1745000000; 1705999878; 1687000000; 1687000000; 1764000000; 1939000000; 1920000000; 1880999878; 1823000000; 1784000000; 1687000000; 1569999878; 1682000000; 1581000000; 1505999878; 1481000000; 1481000000; 1505999878; 1858000000; 2159000000; 2385000000; 2410000000; 2410000000; 2385000000; 2385000000; 2385000000; 2335000000; 2360000000; 2485000000; 2510000000; 2510000000; 2410000000; 2285000000; 2084000000; 1833000000; 1581000000; 1808000000; 1700000000; 1619000000; 1592000000; 1592000000; 1619000000; 1996999878; 2321000000; 2564000000; 2591000000; 2591000000; 2564000000; 2564000000; 2564000000; 2510000000; 2537000000; 2672000000; 2700000000; 2700000000; 2591000000; 2456000000; 2240000000; 1970000122; 1700000000; 1772000000; 1666000000; 1587000000; 1561000000; 1561000000; 1587000000; 1958000122; 2275000000; 2513000000; 2540000000; 2540000000; 2513000000; 2513000000; 2513000000; 2460000000; 2487000000; 2619000000; 2645000000; 2645000000; 2540000000; 2407000000; 2196000000; 1931000000; 1666000000; 1736000000; 1632000122; 1555000000; 1529000000; 1529000000; 1555000000; 1917999878; 2229000000; 2462000000; 2488000000; 2488000000; 2462000000; 2462000000; 2462000000; 2410000000; 2436000000; 2566000000; 2591000000; 2591000000; 2488000000; 2358000000; 2151000000; 1892000000; 1632000122; 1700000000; 1598000000; 1522000000; 1497000000; 1497000000; 1522000000; 1878000000; 2182000000; 2411000000; 2436000000; 2436000000; 2411000000; 2411000000; 2411000000; 2360000000; 2385000000; 2512000000; 2537000000; 2537000000; 2436000000; 2309000000; 2106000000; 1852000000; 1598000000; 1621000000; 1496000000; 1413000000; 1372000000; 1330000000; 1351000000; 1372000000; 1455000000; 1663000000; 1828999878; 1870999878; 1890999878; 1870999878; 1828999878; 1808000000; 1808000000; 1890999878; 2078000000; 2058000000; 2016000000; 1954000000; 1912000000; 1808000000; 1683000000; 1579000000; 1457000000; 1376000000; 1336000000; 1295000000; 1316000000; 1336000000; 1417000000; 1619000000; 1781000000; 1822000122; 1842000122; 1822000122; 1781000000; 1761000000; 1761000000; 1842000122; 2023999878; 2004000000; 1964000000; 1902999878; 1862000000; 1761000000; 1640000000; 1641000000; 1542999878; 1469000000; 1445000000; 1445000000; 1469000000; 1811999878; 2106000000; 2327000000; 2351000000; 2351000000; 2327000000; 2327000000; 2327000000; 2278000000; 2302000000; 2425000000; 2449000000; 2449000000; 2351000000; 2229000000; 2033000000; 1788000000; 1542999878; 1764000000; 1658999878; 1579999878; 1554000000; 1554000000; 1579999878; 1949000000; 2265000000; 2502000000; 2528000000; 2528000000; 2502000000; 2502000000; 2502000000; 2449000000; 2475000000; 2607000000; 2634000000; 2634000000; 2528000000; 2396000000; 2186000000; 1922000000; 1658999878; 1729000000; 1626000000; 1547999878; 1522000000; 1522000000; 1547999878; 1910000000; 2219000000; 2452000000; 2478000000; 2478000000; 2452000000; 2452000000; 2452000000; 2400000000; 2426000000; 2555000000; 2581000000; 2581000000; 2478000000; 2349000000; 2142000000; 1884000122; 1626000000; 1694000122; 1593000000; 1517000000; 1491000000; 1491000000; 1517000000; 1870999878; 2174000000; 2402000000; 2427000000; 2427000000; 2402000000; 2402000000; 2402000000; 2351000000; 2376000000; 2503000000; 2528000000; 2528000000; 2427000000; 2301000000; 2098000000; 1845000000; 1593000000; 1658000000; 1559000000; 1485000000; 1460000000; 1460000000; 1485000000; 1832000122; 2129000000; 2352000000; 2376000000; 2376000000; 2352000000; 2352000000; 2352000000; 2302000000; 2327000000; 2451000000; 2475000000; 2475000000; 2376000000; 2253000000; 2055000000; 1806999878; 1559000000; 1581000000; 1460000000; 1379000000; 1338000000; 1298000000; 1318000000; 1338000000; 1419000000; 1621999878; 1784000000; 1825000000; 1845000000; 1825000000; 1784000000; 1764000000; 1764000000; 1845000000; 2028000000; 2007000122; 1967000000; 1906000122; 1865000000; 1764000000; 1642000122; 1540000000; 1422000000; 1343000000; 1303000000; 1264000000; 1284000000; 1303000000; 1382000000; 1579999878; 1737999878; 1777000000; 1796999878; 1777000000; 1737999878; 1717999878; 1717999878; 1796999878; 1975000122; 1954999878; 1916000122; 1856000000; 1816999878; 1717999878; 1600000122; 1558000122; 1465000000; 1396000000; 1372000000; 1372000000; 1396000000; 1721000122; 2001000000; 2210000000; 2233000000; 2233000000; 2210000000; 2210000000; 2210000000; 2163000000; 2187000000; 2303000000; 2326000000; 2326000000; 2233000000; 2117000000; 1931000000; 1698000000; 1465000000; 1676000000; 1576000000; 1500999878; 1476000000; 1476000000; 1500999878; 1851000000; 2151000000; 2376000000; 2401000000; 2401000000; 2376000000; 2376000000; 2376000000; 2326000000; 2351000000; 2476000000; 2501000000; 2501000000; 2401000000; 2276000000; 2076000000; 1826000000; 1576000000; 1642000122; 1544000000; 1471000000; 1446000000; 1446000000; 1471000000; 1814000000; 2108000000; 2329000000; 2353000000; 2353000000; 2329000000; 2329000000; 2329000000; 2280000000; 2304000000; 2427000000; 2451000000; 2451000000; 2353000000; 2231000000; 2035000000; 1789000000; 1544000000; 1609000000; 1513000000; 1441000000; 1417000000; 1417000000; 1441000000; 1777000000; 2065000000; 2281000000; 2305000000; 2305000000; 2281000000; 2281000000; 2281000000; 2233000000; 2257000000; 2377000000; 2401000000; 2401000000; 2305000000; 2185000000; 1993000000; 1753000122; 1513000000; 1574999878; 1481000000; 1411000000; 1387000000; 1387000000; 1411000000; 1740000000; 2022000122; 2234000000; 2257000000; 2257000000; 2234000000; 2234000000; 2234000000; 2187000000; 2210000000; 2328000000; 2351000000; 2351000000; 2257000000; 2140000000; 1952000000; 1716000122; 1481000000; 1502000000; 1387000000; 1310000000; 1271000000; 1232000000; 1252000000; 1271000000; 1348000000; 1541000122; 1695000000; 1732999878; 1753000122; 1732999878; 1695000000; 1676000000; 1676000000; 1753000122; 1926000000; 1907000000; 1868000000; 1810000122; 1772000000; 1676000000; 1560000000; 1463000000; 1351000000; 1276000000; 1238000000; 1200000000; 1219000000; 1238000000; 1313000000; 1500999878; 1651000000; 1688000000; 1707000000; 1688000000; 1651000000; 1632000122; 1632000122; 1707000000; 1875999878; 1857000000; 1820000000; 1763000122; 1726000122; 1632000122; 1519000000; 1643999878; 1546000122; 1473000000; 1448000000; 1448000000; 1473000000; 1816000000; 2111000000; 2332000000; 2356000000; 2356000000; 2332000000; 2332000000; 2332000000; 2283000000; 2307000000; 2430000000; 2455000000; 2455000000; 2356000000; 2234000000; 2037000000; 1791999878; 1546000122; 1768000122; 1663000000; 1583000122; 1557000000; 1557000000; 1583000122; 1953000122; 2270000000; 2507000000; 2534000000; 2534000000; 2507000000; 2507000000; 2507000000; 2455000000; 2481000000; 2613000000; 2640000000; 2640000000; 2534000000; 2402000000; 2191000000; 1927000000; 1663000000; 1732999878; 1629000000; 1552000000; 1526000122; 1526000122; 1552000000; 1914000000; 2224000000; 2457000000; 2483000000; 2483000000; 2457000000; 2457000000; 2457000000; 2406000000; 2431000000; 2561000000; 2587000000; 2587000000; 2483000000; 2354000000; 2147000000; 1888000000; 1629000000; 1698000000; 1596000000; 1520000000; 1495000000; 1495000000; 1520000000; 1875000000; 2179000000; 2407000000; 2433000000; 2433000000; 2407000000; 2407000000; 2407000000; 2356000000; 2382000000; 2509000000; 2534000000; 2534000000; 2433000000; 2306000000; 2103000000; 1850000000; 1596000000; 1662000000; 1563000122; 1488000000; 1464000000; 1464000000; 1488000000; 1836000000; 2134000000; 2357000000; 2382000000; 2382000000; 2357000000; 2357000000; 2357000000; 2307000000; 2332000000; 2456000000; 2481000000; 2481000000; 2382000000; 2258000000; 2059000000; 1811000000; 1563000122; 1584999878; 1463000000; 1382000000; 1341000000; 1300000000; 1321000000; 1341000000; 1422000000; 1626000000; 1788000000; 1828999878; 1848999878; 1828999878; 1788000000; 1768000122; 1768000122; 1848999878; 2032000122; 2012000122; 1971000000; 1910000000; 1870000000; 1768000122; 1646000000; 1544000000; 1425000000; 1346000000; 1306000000; 1267000000; 1286000000; 1306000000; 1385000000; 1583000122; 1742000000; 1781000000; 1801000000; 1781000000; 1742000000; 1722000000; 1722000000; 1801000000; 1979000000; 1959999878; 1920000000; 1861000000; 1821000000; 1722000000; 1603000000; 1572000000; 1478000000; 1407000000; 1384000000; 1384000000; 1407000000; 1736000000; 2017000122; 2229000000; 2252000000; 2252000000; 2229000000; 2229000000; 2229000000; 2182000000; 2205000000; 2322000000; 2346000000; 2346000000; 2252000000; 2135000000; 1947000000; 1712000000; 1478000000; 1690000000; 1589000000; 1513000000; 1488000000; 1488000000; 1513000000; 1867000000; 2169000000; 2396000000; 2422000000; 2422000000; 2396000000; 2396000000; 2396000000; 2346000000; 2371000000; 2497000000; 2523000000; 2523000000; 2422000000; 2295000000; 2094000000; 1841000000; 1589000000; 1656000000; 1557000000; 1483000000; 1458000000; 1458000000; 1483000000; 1828999878; 2126000000; 2348000000; 2373000000; 2373000000; 2348000000; 2348000000; 2348000000; 2299000000; 2324000000; 2447000000; 2472000000; 2472000000; 2373000000; 2250000000; 2052000000; 1804000000; 1557000000; 1621999878; 1525000000; 1453000000; 1429000000; 1429000000; 1453000000; 1791999878; 2082000000; 2300000000; 2325000000; 2325000000; 2300000000; 2300000000; 2300000000; 2252000000; 2276000000; 2397000000; 2422000000; 2422000000; 2325000000; 2204000000; 2010000000; 1768000122; 1525000000; 1588000000; 1494000000; 1422000000; 1399000000; 1399000000; 1422000000; 1754000000; 2038999878; 2253000000; 2276000000; 2276000000; 2253000000; 2253000000; 2253000000; 2205000000; 2229000000; 2347000000; 2371000000; 2371000000; 2276000000; 2158000000; 1968000000; 1731000122; 1494000000; 1515000000; 1398000000; 1321000000; 1282000000; 1243000000; 1262000000; 1282000000; 1359000000; 1554000000; 1709000000; 1748000122; 1767000000; 1748000122; 1709000000; 1690000000; 1690000000; 1767000000; 1942000000; 1922999878; 1884000122; 1826000000; 1787000000; 1690000000; 1573000122; 1475000000; 1362000000; 1286000000; 1248000000; 1211000000; 1229000000; 1248000000; 1324000000; 1513000000; 1665000000; 1703000000; 1721000122; 1703000000; 1665000000; 1646000000; 1646000000; 1721000122; 1892000000; 1873000000; 1835000000; 1778000000; 1740000000; 1646000000; 1532000000; 1555000000; 1462000000; 1392000000; 1369000000; 1369000000; 1392000000; 1717000000; 1996000000; 2205000000; 2228000000; 2228000000; 2205000000; 2205000000; 2205000000; 2158000000; 2182000000; 2298000000; 2321000000; 2321000000; 2228000000; 2112000000; 1926000000; 1694000122; 1462000000; 1672000000; 1572000000; 1497000000; 1472000000; 1472000000; 1497000000; 1847000122; 2146000000; 2371000000; 2396000000; 2396000000; 2371000000; 2371000000; 2371000000; 2321000000; 2346000000; 2471000000; 2495000000; 2495000000; 2396000000; 2271000000; 2071000000; 1822000122; 1572000000; 1638000000; 1541000122; 1467000000; 1443000000; 1443000000; 1467000000; 1810000122; 2103000000; 2323000000; 2348000000; 2348000000; 2323000000; 2323000000; 2323000000; 2274000000; 2299000000; 2421000000; 2446000000; 2446000000; 2348000000; 2225000000; 2030000000; 1785000122; 1541000122; 1605000122; 1509000122; 1437000000; 1413000000; 1413000000; 1437000000; 1773000122; 2060000000; 2276000000; 2300000000; 2300000000; 2276000000; 2276000000; 2276000000; 2228000000; 2252000000; 2372000000; 2396000000; 2396000000; 2300000000; 2180000000; 1988000000; 1749000000; 1509000122; 1571000000; 1478000000; 1407000000; 1384000000; 1384000000; 1407000000; 1736000000; 2017000122; 2228000000; 2252000000; 2252000000; 2228000000; 2228000000; 2228000000; 2182000000; 2205000000; 2322000000; 2346000000; 2346000000; 2252000000; 2135000000; 1947000000; 1712000000; 1478000000; 1499000000; 1383000000; 1306000000; 1268000000; 1230000000; 1249000000; 1268000000; 1345000000; 1537000000; 1690999878; 1729000000; 1748000122; 1729000000; 1690999878; 1672000000; 1672000000; 1748000122; 1921000122; 1902000000; 1864000122; 1806000000; 1768000122; 1672000000; 1556000000; 1460000000; 1347000000; 1272000000; 1235000000; 1198000000; 1216000000; 1235000000; 1310000000; 1497000000; 1647000122; 1684000122; 1703000000; 1684000122; 1647000122; 1628000000; 1628000000; 1703000000; 1870999878; 1853000000; 1815000000; 1759000000; 1722000000; 1628000000; 1515999878; 1505999878; 1416000000; 1349000000; 1326000000; 1326000000; 1349000000; 1663999878; 1933000122; 2136000000; 2158000000; 2158000000; 2136000000; 2136000000; 2136000000; 2091000000; 2113000000; 2226000000; 2248000000; 2248000000; 2158000000; 2046000000; 1865999878; 1641000000; 1416000000; 1620000122; 1523000000; 1450000000; 1426000000; 1426000000; 1450000000; 1789000000; 2079000000; 2297000000; 2321000000; 2321000000; 2297000000; 2297000000; 2297000000; 2248000000; 2272000000; 2393000000; 2418000000; 2418000000; 2321000000; 2200000000; 2006000000; 1764999878; 1523000000; 1587000000; 1492000000; 1421000000; 1398000000; 1398000000; 1421000000; 1753000122; 2037000000; 2251000000; 2274000000; 2274000000; 2251000000; 2251000000; 2251000000; 2203000000; 2227000000; 2345000000; 2369000000; 2369000000; 2274000000; 2156000000; 1966000000; 1729000000; 1492000000; 1555000000; 1462000000; 1392000000; 1369000000; 1369000000; 1392000000; 1717000000; 1996000000; 2205000000; 2228000000; 2228000000; 2205000000; 2205000000; 2205000000; 2158000000; 2182000000; 2298000000; 2321000000; 2321000000; 2228000000; 2112000000; 1926000000; 1694000122; 1462000000; 1522000000; 1431000000; 1363000000; 1341000000; 1341000000; 1363000000; 1680999878; 1954000000; 2159000000; 2182000000; 2182000000; 2159000000; 2159000000; 2159000000; 2113000000; 2136000000; 2250000000; 2272000000; 2272000000; 2182000000; 2068000000; 1885999878; 1658999878; 1431000000; 1452000000; 1340000000; 1266000000; 1228000000; 1191000000; 1210000000; 1228000000; 1303000000; 1489000000; 1638000000; 1675000000; 1694000122; 1675000000; 1638000000; 1619000000; 1619000000; 1694000122; 1861000000; 1843000000; 1806000000; 1750000000; 1712000000; 1619000000; 1508000000; 1414000000; 1305000000; 1233000000; 1196000000; 1160000000; 1178000000; 1196000000; 1269000000; 1450000000; 1595000122; 1632000122; 1650000000; 1632000122; 1595000122; 1577000000; 1577000000; 1650000000; 1813000000; 1795000122; 1759000000; 1704000000; 1668000000; 1577000000; 1468000000; 1300000000; 1280000000; 1238000000; 1197000000; 1218000000; 1341000000; 1486000000; 1754000000; 1961000000; 2043000000; 2064000000; 2043000000; 1920000000; 1899000000; 1858000000; 1816000000; 1858000000; 1899000000; 1981999878; 2023000000; 1981999878; 1858000000; 1651000000; 1445000000; 1398000000; 1376000000; 1331000000; 1287000000; 1309000000; 1442000000; 1598000000; 1885999878; 2108000000; 2197000000; 2219000000; 2197000000; 2064000000; 2042000000; 1996999878; 1953000122; 1996999878; 2042000000; 2131000000; 2175000000; 2131000000; 1996999878; 1774999878; 1552999878; 1370000000; 1348000000; 1305000000; 1261000000; 1283000000; 1414000000; 1566000000; 1848999878; 2066000000; 2153000000; 2175000000; 2153000000; 2023000000; 2001000000; 1958000122; 1914000000; 1958000122; 2001000000; 2088000000; 2132000000; 2088000000; 1958000122; 1740000000; 1522000000; 1342000000; 1321000000; 1278000000; 1236000000; 1257000000; 1385000000; 1534000000; 1811000000; 2023999878; 2109000000; 2131000000; 2109000000; 1981999878; 1959999878; 1917999878; 1875000000; 1917999878; 1959999878; 2045000000; 2088000000; 2045000000; 1917999878; 1704000000; 1491000000; 1314000000; 1293000000; 1252000000; 1210000000; 1231000000; 1356000000; 1502000000; 1773000122; 1981999878; 2065000000; 2086000000; 2065000000; 1939999878; 1919000000; 1878000000; 1836000000; 1878000000; 1919000000; 2003000000; 2045000000; 2003000000; 1878000000; 1669000122; 1460000000; 1282000000; 1247000000; 1179000000; 1128000000; 1111000000; 1111000000; 1162000000; 1264000000; 1418000000; 1521000122; 1572000000; 1606000000; 1555000000; 1537999878; 1537999878; 1470000000; 1452000000; 1504000122; 1572000000; 1709000000; 1658000000; 1623000000; 1537999878; 1452000000; 1248000000; 1215000000; 1148000000; 1098000000; 1082000000; 1082000000; 1132000000; 1232000000; 1381000000; 1481000000; 1531000122; 1564999878; 1515000000; 1498000000; 1498000000; 1431000000; 1415000000; 1465000000; 1531000122; 1663999878; 1615000122; 1581000000; 1498000000; 1415000000; 1295000000; 1274000000; 1233000000; 1192000000; 1213000000; 1336000000; 1480000000; 1747000000; 1953000122; 2035000000; 2056000000; 2035000000; 1912000000; 1890999878; 1850000000; 1809000000; 1850000000; 1890999878; 1973000000; 2015000000; 1973000000; 1850000000; 1643999878; 1439000000; 1392000000; 1370000000; 1326000000; 1282000000; 1304000000; 1437000000; 1591000000; 1879000122; 2100000000; 2188000000; 2210000000; 2188000000; 2056000000; 2033999878; 1989000000; 1944999878; 1989000000; 2033999878; 2122000000; 2166000000; 2122000000; 1989000000; 1768000122; 1547000000; 1365000000; 1343000000; 1300000000; 1256000000; 1278000000; 1408000000; 1560000000; 1841000000; 2058000000; 2145000000; 2166000000; 2145000000; 2015000000; 1993000000; 1949999878; 1906000122; 1949999878; 1993000000; 2080000000; 2123000000; 2080000000; 1949999878; 1732999878; 1515999878; 1337000000; 1315000000; 1273000000; 1231000000; 1252000000; 1379000000; 1527999878; 1804000000; 2016000000; 2101000000; 2122000000; 2101000000; 1973000000; 1952000000; 1910000000; 1867000000; 1910000000; 1952000000; 2037000000; 2080000000; 2037000000; 1910000000; 1698000000; 1485000000; 1309000000; 1288000000; 1247000000; 1205000000; 1226000000; 1350000000; 1496000000; 1766000000; 1974000000; 2057000000; 2078000000; 2057000000; 1932000000; 1912000000; 1870000000; 1828000000; 1870000000; 1912000000; 1995000122; 2036000000; 1995000122; 1870000000; 1662000000; 1454000000; 1276000000; 1242000000; 1174000000; 1123000000; 1106000000; 1106000000; 1157000000; 1259000000; 1413000000; 1515000000; 1566000000; 1600000122; 1549000000; 1532000000; 1532000000; 1464000000; 1447000000; 1498000000; 1566000000; 1702000000; 1651000000; 1616999878; 1532000000; 1447000000; 1243000000; 1210000000; 1144000000; 1094000000; 1077000000; 1077000000; 1127000000; 1227000000; 1376000000; 1475000000; 1525000000; 1558000122; 1509000122; 1492000000; 1492000000; 1426000000; 1409000000; 1459000000; 1525000000; 1658000000; 1608000000; 1574999878; 1492000000; 1409000000; 1256000000; 1236000000; 1196000000; 1157000000; 1176000000; 1296000000; 1436000000; 1695000000; 1895000000; 1974000000; 1994000000; 1974000000; 1855000000; 1835000000; 1795000122; 1754999878; 1795000122; 1835000000; 1915000000; 1954000000; 1915000000; 1795000122; 1595000122; 1396000000; 1351000000; 1329000000; 1286000000; 1244000000; 1265000000; 1394000000; 1544000000; 1823000000; 2037000000; 2123000000; 2144000000; 2123000000; 1994000000; 1973000000; 1930000000; 1887000000; 1930000000; 1973000000; 2059000000; 2102000000; 2059000000; 1930000000; 1715000000; 1500999878; 1324000000; 1303000000; 1261000000; 1219000000; 1240000000; 1366000000; 1513000000; 1786000000; 1996000000; 2081000000; 2102000000; 2081000000; 1954000000; 1933000122; 1890999878; 1848999878; 1890999878; 1933000122; 2018000000; 2060000000; 2018000000; 1890999878; 1680999878; 1471000000; 1297000000; 1276000000; 1235000000; 1194000000; 1214000000; 1338000000; 1482000000; 1750000000; 1956000000; 2038000000; 2059000000; 2038000000; 1915000000; 1894000000; 1853000000; 1811999878; 1853000000; 1894000000; 1976000000; 2018000000; 1976000000; 1853000000; 1647000122; 1441000000; 1270000000; 1250000000; 1209000000; 1169000000; 1189000000; 1310000000; 1451000000; 1713000000; 1915000000; 1996000000; 2016000000; 1996000000; 1875000000; 1853999878; 1814000000; 1774000000; 1814000000; 1853999878; 1935000000; 1975000122; 1935000000; 1814000000; 1613000000; 1411000000; 1238000000; 1205000000; 1139000000; 1090000000; 1073000000; 1073000000; 1123000000; 1222000000; 1370000000; 1469000000; 1519000000; 1552000000; 1503000000; 1486000000; 1486000000; 1420000000; 1403000000; 1453000000; 1519000000; 1651000000; 1601999878; 1569000000; 1486000000; 1403000000; 1206000000; 1174000000; 1110000000; 1061000000; 1045000000; 1045000000; 1093000000; 1190000000; 1335000000; 1431000000; 1480000000; 1512000000; 1463000000; 1447000000; 1447000000; 1383000000; 1367000000; 1415000000; 1480000000; 1608000000; 1560000000; 1527999878; 1447000000; 1367000000; 1277000000; 1257000000; 1216000000; 1176000000; 1196000000; 1318000000; 1460000000; 1724000000; 1926000000; 2008000000; 2028000000; 2008000000; 1885999878; 1865999878; 1825000000; 1784000000; 1825000000; 1865999878; 1947000000; 1986999878; 1947000000; 1825000000; 1621999878; 1419000000; 1374000000; 1352000000; 1308000000; 1264000000; 1286000000; 1417000000; 1569999878; 1853000000; 2071000000; 2159000000; 2180000000; 2159000000; 2028000000; 2006000000; 1962000000; 1919000000; 1962000000; 2006000000; 2093000000; 2137000000; 2093000000; 1962000000; 1744000000; 1526000122; 1346000000; 1325000000; 1282000000; 1239000000; 1261000000; 1389000000; 1537999878; 1816000000; 2030000000; 2116000000; 2137000000; 2116000000; 1986999878; 1966000000; 1922999878; 1880000000; 1922999878; 1966000000; 2051000000; 2094000000; 2051000000; 1922999878; 1709000000; 1496000000; 1319000000; 1298000000; 1256000000; 1214000000; 1235000000; 1360000000; 1507000000; 1779000000; 1989000000; 2072000000; 2093000000; 2072000000; 1947000000; 1926000000; 1884000122; 1842000122; 1884000122; 1926000000; 2010000000; 2051000000; 2010000000; 1884000122; 1675000000; 1465000000; 1291000000; 1271000000; 1230000000; 1189000000; 1209000000; 1332000000; 1476000000; 1742000000; 1947000000; 2028999878; 2050000000; 2028999878; 1906000122; 1885999878; 1845000000; 1804000000; 1845000000; 1885999878; 1968000000; 2009000000; 1968000000; 1845000000; 1640000000; 1435000000; 1259000000; 1225000000; 1158000000; 1108000000; 1091000000; 1091000000; 1141000000; 1242000000; 1393000000; 1494000000; 1545000000; 1578000122; 1527999878; 1510999878; 1510999878; 1444000000; 1427000000; 1477000000; 1545000000; 1679000122; 1628000000; 1595000122; 1510999878; 1427000000; 1226000000; 1194000000; 1128000000; 1079000000; 1063000000; 1063000000; 1112000000; 1210000000; 1357000000; 1455000000; 1504000122; 1537000000; 1488000000; 1472000000; 1472000000; 1406000000; 1390000000; 1439000000; 1504000122; 1635000000; 1586000000; 1552999878; 1472000000; 1390000000; 1237000000; 1217000000; 1178000000; 1139000000; 1158000000; 1276000000; 1414000000; 1669000122; 1865000000; 1944000000; 1964000000; 1944000000; 1826000000; 1806999878; 1767000000; 1727999878; 1767000000; 1806999878; 1885000000; 1924000000; 1885000000; 1767000000; 1571000000; 1374000000; 1330000000; 1309000000; 1267000000; 1224000000; 1246000000; 1372000000; 1520000000; 1795000122; 2006000000; 2090000000; 2111000000; 2090000000; 1964000000; 1943000122; 1900000000; 1858000000; 1900000000; 1943000122; 2027000122; 2069000000; 2027000122; 1900000000; 1689000122; 1478000000; 1303000000; 1283000000; 1241000000; 1200000000; 1221000000; 1345000000; 1490000000; 1759000000; 1966000000; 2049000000; 2069000000; 2049000000; 1924000000; 1904000000; 1862000000; 1821000000; 1862000000; 1904000000; 1986000000; 2028000000; 1986000000; 1862000000; 1655000000; 1448000000; 1277000000; 1257000000; 1216000000; 1175000000; 1196000000; 1317000000; 1459000000; 1722999878; 1926000000; 2007000122; 2027000122; 2007000122; 1885000000; 1865000000; 1824000000; 1784000000; 1824000000; 1865000000; 1946000000; 1986000000; 1946000000; 1824000000; 1621999878; 1419000000; 1250000000; 1230000000; 1191000000; 1151000000; 1171000000; 1290000000; 1429000000; 1687000000; 1885999878; 1964999878; 1985000122; 1964999878; 1846000000; 1826000000; 1786000000; 1747000000; 1786000000; 1826000000; 1905000000; 1944999878; 1905000000; 1786000000; 1588000000; 1389000000; 1219000000; 1187000000; 1122000000; 1073000000; 1057000000; 1057000000; 1105000000; 1203000000; 1349000000; 1447000000; 1496000000; 1527999878; 1479000000; 1463000000; 1463000000; 1398000000; 1382000000; 1431000000; 1496000000; 1626000000; 1577000000; 1544000000; 1463000000; 1382000000; 1187000000; 1156000000; 1092000000; 1045000000; 1029000000; 1029000000; 1077000000; 1172000000; 1314000000; 1409000000; 1457000000; 1488000000; 1441000000; 1425000000; 1425000000; 1362000000; 1346000000; 1393000000; 1457000000; 1583000122; 1536000122; 1504000122; 1425000000; 1346000000; 1318000000; 1297000000; 1255000000; 1213000000; 1234000000; 1360000000; 1505999878; 1778000000; 1986999878; 2071000000; 2092000000; 2071000000; 1946000000; 1925000000; 1883000000; 1841000000; 1883000000; 1925000000; 2008000000; 2050000000; 2008000000; 1883000000; 1673000000; 1464000000; 1417000000; 1394000000; 1349000000; 1304000000; 1327000000; 1462000000; 1619000000; 1912000000; 2137000000; 2227000000; 2250000000; 2227000000; 2092000000; 2069000000; 2023999878; 1979000000; 2023999878; 2069000000; 2159000000; 2204000000; 2159000000; 2023999878; 1799000000; 1574000000; 1389000000; 1367000000; 1322000000; 1278000000; 1300000000; 1433000000; 1587000000; 1874000122; 2094000000; 2182000000; 2204000000; 2182000000; 2050000000; 2028000000; 1984000000; 1939999878; 1984000000; 2028000000; 2116000000; 2160000000; 2116000000; 1984000000; 1763000122; 1542999878; 1360000000; 1339000000; 1295000000; 1252000000; 1274000000; 1403000000; 1555000000; 1835000000; 2051000000; 2138000000; 2159000000; 2138000000; 2008000000; 1986999878; 1943000122; 1900000000; 1943000122; 1986999878; 2073000000; 2116000000; 2073000000; 1943000122; 1727000000; 1510999878; 1332000000; 1311000000; 1268000000; 1226000000; 1247000000; 1374000000; 1522000000; 1796999878; 2009000000; 2093000000; 2114000000; 2093000000; 1966000000; 1944999878; 1902999878; 1861000000; 1902999878; 1944999878; 2030000000; 2072000000; 2030000000; 1902999878; 1690999878; 1480000000; 1299000000; 1264000000; 1195000000; 1143000000; 1126000000; 1126000000; 1178000000; 1282000000; 1437000000; 1541000122; 1593000000; 1628000000; 1576000000; 1559000000; 1559000000; 1489000000; 1472000000; 1524000000; 1593000000; 1732000000; 1680000000; 1645000000; 1559000000; 1472000000; 1265000000; 1231000000; 1164000000; 1113000000; 1096000000; 1096000000; 1147000000; 1248000000; 1400000000; 1500999878; 1552000000; 1586000000; 1535000000; 1518000000; 1518000000; 1451000000; 1434000000; 1484000000; 1552000000; 1687000000; 1636000000; 1603000000; 1518000000; 1434000000; 1267000000; 1247000000; 1206000000; 1166000000; 1186000000; 1307000000; 1448000000; 1709000000; 1911000122; 1991000000; 2011000000; 1991000000; 1870000000; 1850000000; 1810000122; 1769999878; 1810000122; 1850000000; 1931000000; 1971000000; 1931000000; 1810000122; 1609000000; 1408000000; 1362000000; 1341000000; 1297000000; 1254000000; 1276000000; 1405000000; 1557000000; 1838000000; 2054000000; 2141000000; 2162000000; 2141000000; 2011000000; 1989000000; 1946000000; 1902999878; 1946000000; 1989000000; 2076000000; 2119000000; 2076000000; 1946000000; 1730000000; 1514000000; 1335000000; 1314000000; 1271000000; 1229000000; 1250000000; 1377000000; 1526000122; 1801000000; 2013000000; 2098000000; 2119000000; 2098000000; 1971000000; 1949999878; 1907000000; 1865000000; 1907000000; 1949999878; 2033999878; 2077000000; 2033999878; 1907000000; 1695000000; 1483000000; 1308000000; 1287000000; 1245000000; 1204000000; 1225000000; 1349000000; 1495000000; 1764999878; 1972000000; 2055000000; 2076000000; 2055000000; 1931000000; 1910000000; 1868000000; 1827000122; 1868000000; 1910000000; 1993000000; 2033999878; 1993000000; 1868000000; 1661000000; 1453000000; 1280000000; 1260000000; 1219000000; 1179000000; 1199000000; 1321000000; 1463000000; 1727999878; 1931000000; 2012000122; 2033000000; 2012000122; 1890000000; 1870000000; 1828999878; 1789000000; 1828999878; 1870000000; 1951000000; 1991999878; 1951000000; 1828999878; 1626000000; 1423000000; 1249000000; 1215000000; 1149000000; 1099000000; 1082000000; 1082000000; 1132000000; 1232000000; 1382000000; 1482000000; 1532000000; 1564999878; 1515000000; 1498000000; 1498000000; 1432000000; 1415000000; 1465000000; 1532000000; 1665000000; 1615000122; 1582000000; 1498000000; 1415000000; 1216000000; 1184000000; 1119000000; 1070000000; 1054000000; 1054000000; 1103000000; 1200000000; 1346000000; 1443000000; 1492000000; 1524000000; 1476000000; 1460000000; 1460000000; 1395000000; 1378000000; 1427000000; 1492000000; 1621999878; 1573000122; 1541000122; 1460000000; 1378000000; 1406000000; 1383000000; 1339000000; 1294000000; 1316000000; 1450000000; 1606999878; 1897000000; 2120000000; 2209000000; 2231000000; 2209000000; 2075000000; 2053000000; 2008000000; 1964000000; 2008000000; 2053000000; 2142000000; 2187000000; 2142000000; 2008000000; 1785000122; 1562000000; 1510999878; 1487000000; 1439000000; 1391000000; 1415000000; 1559000000; 1727000000; 2038999878; 2279000000; 2375000000; 2399000000; 2375000000; 2231000000; 2207000000; 2159000000; 2111000000; 2159000000; 2207000000; 2303000000; 2351000000; 2303000000; 2159000000; 1919000000; 1679000122; 1481000000; 1458000000; 1411000000; 1364000000; 1387000000; 1527999878; 1693000000; 1999000000; 2234000000; 2328000000; 2351000000; 2328000000; 2187000000; 2163000000; 2116000000; 2069000000; 2116000000; 2163000000; 2257000000; 2304000000; 2257000000; 2116000000; 1880999878; 1646000000; 1451000000; 1428000000; 1382000000; 1336000000; 1359000000; 1497000000; 1658000000; 1958000122; 2188000000; 2280000000; 2303000000; 2280000000; 2142000000; 2119000000; 2073000000; 2027000122; 2073000000; 2119000000; 2211000000; 2257000000; 2211000000; 2073000000; 1843000000; 1611999878; 1421000000; 1398000000; 1353000000; 1308000000; 1331000000; 1466000000; 1624000000; 1917000000; 2143000000; 2233000000; 2255000000; 2233000000; 2098000000; 2075000000; 2030000000; 1985000122; 2030000000; 2075000000; 2165000000; 2210000000; 2165000000; 2030000000; 1804000000; 1579000000; 1385000000; 1349000000; 1275000000; 1219000000; 1201000000; 1201000000; 1256000000; 1367000000; 1532999878; 1643999878; 1700000000; 1737000000; 1680999878; 1663000000; 1663000000; 1589000000; 1569999878; 1626000000; 1700000000; 1847000122; 1791999878; 1754999878; 1663000000; 1569999878; 1349000000; 1313000000; 1241000000; 1187000000; 1169000000; 1169000000; 1223000000; 1331000000; 1493000000; 1601000000; 1655000000; 1690999878; 1637000122; 1619000000; 1619000000; 1547000000; 1529000000; 1583000122; 1655000000; 1799000000; 1745000000; 1709000000; 1619000000; 1529000000; 1325000000; 1304000000; 1262000000; 1220000000; 1241000000; 1367000000; 1514000000; 1788000000; 1998000000; 2082000000; 2103000000; 2082000000; 1956000000; 1935000000; 1893000000; 1851000000; 1893000000; 1935000000; 2018999878; 2061000000; 2018999878; 1893000000; 1682000000; 1472000000; 1425000000; 1402000000; 1357000000; 1311000000; 1334000000; 1470000000; 1628000000; 1922000000; 2148000000; 2239000000; 2261000000; 2239000000; 2103000000; 2081000000; 2035000000; 1990000122; 2035000000; 2081000000; 2171000000; 2216000000; 2171000000; 2035000000; 1809000000; 1583000122; 1396000000; 1374000000; 1330000000; 1285000000; 1307000000; 1440000000; 1596000000; 1884000122; 2105000000; 2194000000; 2216000000; 2194000000; 2061000000; 2038999878; 1995000122; 1949999878; 1995000122; 2038999878; 2128000000; 2172000000; 2128000000; 1995000122; 1773000122; 1551000000; 1368000000; 1346000000; 1302000000; 1259000000; 1281000000; 1411000000; 1563000122; 1845000000; 2062000000; 2149000000; 2171000000; 2149000000; 2018999878; 1996999878; 1954000000; 1910000000; 1954000000; 1996999878; 2084000000; 2128000000; 2084000000; 1954000000; 1737000000; 1520000000; 1339000000; 1318000000; 1275000000; 1233000000; 1254000000; 1382000000; 1530000000; 1806999878; 2018999878; 2105000000; 2126000000; 2105000000; 1976999878; 1956000000; 1912999878; 1870999878; 1912999878; 1956000000; 2041000000; 2083000000; 2041000000; 1912999878; 1700999878; 1488000000; 1306000000; 1271000000; 1201000000; 1149000000; 1132000000; 1132000000; 1184000000; 1288000000; 1445000000; 1550000000; 1601999878; 1637000122; 1584000000; 1567000000; 1567000000; 1497000000; 1480000000; 1532000000; 1601999878; 1741000000; 1689000122; 1653999878; 1567000000; 1480000000; 1272000000; 1238000000; 1170000000; 1119000000; 1102000000; 1102000000; 1153000000; 1255000000; 1408000000; 1509000122; 1560000000; 1594000000; 1542999878; 1526000122; 1526000122; 1458000000; 1442000000; 1492000000; 1560000000; 1695999878; 1645000000; 1611000000; 1526000122; 1442000000; 1494000000; 1401000000; 1354000000; 1307000000; 1307000000; 1354000000; 1494000000; 1774000000; 2031000000; 2218000000; 2311000000; 2335000000; 2311000000; 2335000000; 2335000000; 2265000000; 2241000000; 2241000000; 2171000000; 2148000000; 2148000000; 2171000000; 2031000000; 1680999878; 1606999878; 1505999878; 1456000000; 1406000000; 1406000000; 1456000000; 1606999878; 1907999878; 2184000000; 2385000000; 2485000000; 2510000000; 2485000000; 2510000000; 2510000000; 2435000000; 2410000000; 2410000000; 2335000000; 2310000000; 2310000000; 2335000000; 2184000000; 1806999878; 1574000000; 1476000000; 1427000000; 1378000000; 1378000000; 1427000000; 1574000000; 1870000000; 2140000000; 2337000000; 2436000000; 2460000000; 2436000000; 2460000000; 2460000000; 2386000000; 2362000000; 2362000000; 2288000000; 2263000000; 2263000000; 2288000000; 2140000000; 1771000000; 1542000000; 1446000000; 1398000000; 1349000000; 1349000000; 1398000000; 1542000000; 1832000122; 2097000000; 2290000000; 2386000000; 2410000000; 2386000000; 2410000000; 2410000000; 2338000000; 2314000000; 2314000000; 2241000000; 2217000000; 2217000000; 2241000000; 2097000000; 1735000000; 1510000000; 1416000000; 1368000000; 1321000000; 1321000000; 1368000000; 1510000000; 1793000000; 2053000000; 2242000000; 2336000000; 2360000000; 2336000000; 2360000000; 2360000000; 2289000000; 2265000000; 2265000000; 2195000000; 2171000000; 2171000000; 2195000000; 2053000000; 1699000000; 1430000000; 1353000000; 1276000000; 1256000000; 1237000000; 1198000000; 1198000000; 1276000000; 1566000000; 1662000000; 1759000000; 1798000000; 1798000000; 1778000000; 1759000000; 1759000000; 1778000000; 1816999878; 1836000000; 1836000000; 1933000122; 1798000000; 1700999878; 1546000122; 1393000000; 1318000000; 1242000000; 1224000000; 1205000000; 1167000000; 1167000000; 1242000000; 1525000000; 1619000000; 1713000000; 1751000000; 1751000000; 1732000000; 1713000000; 1713000000; 1732000000; 1769999878; 1789000000; 1789000000; 1883000000; 1751000000; 1657000122; 1505999878; 1552999878; 1456000000; 1407000000; 1359000000; 1359000000; 1407000000; 1552999878; 1843999878; 2111000000; 2305000000; 2403000000; 2427000000; 2403000000; 2427000000; 2427000000; 2354000000; 2330000000; 2330000000; 2257000000; 2233000000; 2233000000; 2257000000; 2111000000; 1747000000; 1670000000; 1564999878; 1513000000; 1461000000; 1461000000; 1513000000; 1670000000; 1983000000; 2270000000; 2479000000; 2583000000; 2609000000; 2583000000; 2609000000; 2609000000; 2531000000; 2505000000; 2505000000; 2427000000; 2401000000; 2401000000; 2427000000; 2270000000; 1879000122; 1636000000; 1534000000; 1483000000; 1432000000; 1432000000; 1483000000; 1636000000; 1943000122; 2225000000; 2429000000; 2532000000; 2557000000; 2532000000; 2557000000; 2557000000; 2481000000; 2455000000; 2455000000; 2378000000; 2353000000; 2353000000; 2378000000; 2225000000; 1841000000; 1603000000; 1503000000; 1453000000; 1403000000; 1403000000; 1453000000; 1603000000; 1904000000; 2179000000; 2380000000; 2480000000; 2505000000; 2480000000; 2505000000; 2505000000; 2430000000; 2405000000; 2405000000; 2330000000; 2305000000; 2305000000; 2330000000; 2179000000; 1804000000; 1569999878; 1472000000; 1422000000; 1373000000; 1373000000; 1422000000; 1569999878; 1864000122; 2134000000; 2330000000; 2428000000; 2453000000; 2428000000; 2453000000; 2453000000; 2379000000; 2355000000; 2355000000; 2281000000; 2257000000; 2257000000; 2281000000; 2134000000; 1766000000; 1487000000; 1406000000; 1326000000; 1306000000; 1286000000; 1246000000; 1246000000; 1326000000; 1626999878; 1727999878; 1828000000; 1869000122; 1869000122; 1848000000; 1828000000; 1828000000; 1848000000; 1889000000; 1909000000; 1909000000; 2009000000; 1869000122; 1768000122; 1606999878; 1448000000; 1370000000; 1291000000; 1272000000; 1252000000; 1213000000; 1213000000; 1291000000; 1584999878; 1683000000; 1781000000; 1820000000; 1820000000; 1800000122; 1781000000; 1781000000; 1800000122; 1840000000; 1859000122; 1859000122; 1957000000; 1820000000; 1722000000; 1564999878; 1571000000; 1473000000; 1424000000; 1374000000; 1374000000; 1424000000; 1571000000; 1865000000; 2136000000; 2332000000; 2430000000; 2455000000; 2430000000; 2455000000; 2455000000; 2381000000; 2356000000; 2356000000; 2283000000; 2258000000; 2258000000; 2283000000; 2136000000; 1767000000; 1689000122; 1583000122; 1531000122; 1478000000; 1478000000; 1531000122; 1689000122; 2006000000; 2296000000; 2507000000; 2613000000; 2640000000; 2613000000; 2640000000; 2640000000; 2560000000; 2534000000; 2534000000; 2455000000; 2428000000; 2428000000; 2455000000; 2296000000; 1900000000; 1655000000; 1552000000; 1500000000; 1448000000; 1448000000; 1500000000; 1655000000; 1966000000; 2250000000; 2457000000; 2561000000; 2587000000; 2561000000; 2587000000; 2587000000; 2509000000; 2483000000; 2483000000; 2406000000; 2380000000; 2380000000; 2406000000; 2250000000; 1862000000; 1621999878; 1520000000; 1469000000; 1419000000; 1419000000; 1469000000; 1621999878; 1926000000; 2204000000; 2407000000; 2509000000; 2534000000; 2509000000; 2534000000; 2534000000; 2458000000; 2433000000; 2433000000; 2356000000; 2331000000; 2331000000; 2356000000; 2204000000; 1824000000; 1588000000; 1488000000; 1439000000; 1389000000; 1389000000; 1439000000; 1588000000; 1885999878; 2158000000; 2357000000; 2456000000; 2481000000; 2456000000; 2481000000; 2481000000; 2407000000; 2382000000; 2382000000; 2307000000; 2283000000; 2283000000; 2307000000; 2158000000; 1786000000; 1504000122; 1422000000; 1341000000; 1321000000; 1300000000; 1260000000; 1260000000; 1341000000; 1646000000; 1748000122; 1848999878; 1890000000; 1890000000; 1870000000; 1848999878; 1848999878; 1870000000; 1910000000; 1931000000; 1931000000; 2032000122; 1890000000; 1788000000; 1626000000; 1465000000; 1385000000; 1306000000; 1286000000; 1267000000; 1227000000; 1227000000; 1306000000; 1603000000; 1702000000; 1801000000; 1841000000; 1841000000; 1821000000; 1801000000; 1801000000; 1821000000; 1861000000; 1880000000; 1880000000; 1979000000; 1841000000; 1742000000; 1583000122; 1527999878; 1432000000; 1385000000; 1337000000; 1337000000; 1385000000; 1527999878; 1815000000; 2077000000; 2268000000; 2364000000; 2388000000; 2364000000; 2388000000; 2388000000; 2316000000; 2292000000; 2292000000; 2221000000; 2197000000; 2197000000; 2221000000; 2077000000; 1719000000; 1643000000; 1540000000; 1489000000; 1438000000; 1438000000; 1489000000; 1643000000; 1951000000; 2234000000; 2439000000; 2542000000; 2567000000; 2542000000; 2567000000; 2567000000; 2490000000; 2465000000; 2465000000; 2388000000; 2362000000; 2362000000; 2388000000; 2234000000; 1848000000; 1610000122; 1509000122; 1459000000; 1409000000; 1409000000; 1459000000; 1610000122; 1912000000; 2189000000; 2390000000; 2491000000; 2516000000; 2491000000; 2516000000; 2516000000; 2441000000; 2415000000; 2415000000; 2340000000; 2315000000; 2315000000; 2340000000; 2189000000; 1811000000; 1577000000; 1479000000; 1429000000; 1380000000; 1380000000; 1429000000; 1577000000; 1873000000; 2144000000; 2342000000; 2440000000; 2465000000; 2440000000; 2465000000; 2465000000; 2391000000; 2366000000; 2366000000; 2292000000; 2268000000; 2268000000; 2292000000; 2144000000; 1774999878; 1544000000; 1448000000; 1400000000; 1351000000; 1351000000; 1400000000; 1544000000; 1833999878; 2100000000; 2293000000; 2389000000; 2413000000; 2389000000; 2413000000; 2413000000; 2341000000; 2317000000; 2317000000; 2244000000; 2220000000; 2220000000; 2244000000; 2100000000; 1737999878; 1463000000; 1384000000; 1305000000; 1285000000; 1265000000; 1225000000; 1225000000; 1305000000; 1601000000; 1700000000; 1799000000; 1838000000; 1838000000; 1819000000; 1799000000; 1799000000; 1819000000; 1858000000; 1878000000; 1878000000; 1976999878; 1838000000; 1740000000; 1581000000; 1425000000; 1348000000; 1271000000; 1251000000; 1232000000; 1194000000; 1194000000; 1271000000; 1560000000; 1656000000; 1752000000; 1791000000; 1791000000; 1771000000; 1752000000; 1752000000; 1771000000; 1810000122; 1828999878; 1828999878; 1925000000; 1791000000; 1694000122; 1540000000; 1448000000; 1357000000; 1312000000; 1267000000; 1267000000; 1312000000; 1448000000; 1719000000; 1968000000; 2149000000; 2240000000; 2262000000; 2240000000; 2262000000; 2262000000; 2194000000; 2172000000; 2172000000; 2104000000; 2081000000; 2081000000; 2104000000; 1968000000; 1629000000; 1557000000; 1459000000; 1411000000; 1362000000; 1362000000; 1411000000; 1557000000; 1848999878; 2116000000; 2311000000; 2408000000; 2433000000; 2408000000; 2433000000; 2433000000; 2360000000; 2335000000; 2335000000; 2262000000; 2238000000; 2238000000; 2262000000; 2116000000; 1751000000; 1525000000; 1430000000; 1382000000; 1335000000; 1335000000; 1382000000; 1525000000; 1811999878; 2074000000; 2265000000; 2360000000; 2384000000; 2360000000; 2384000000; 2384000000; 2312000000; 2288000000; 2288000000; 2217000000; 2193000000; 2193000000; 2217000000; 2074000000; 1716000122; 1494000000; 1401000000; 1354000000; 1307000000; 1307000000; 1354000000; 1494000000; 1774999878; 2032000122; 2218000000; 2312000000; 2335000000; 2312000000; 2335000000; 2335000000; 2265000000; 2242000000; 2242000000; 2172000000; 2148000000; 2148000000; 2172000000; 2032000122; 1680999878; 1463000000; 1372000000; 1326000000; 1280000000; 1280000000; 1326000000; 1463000000; 1737999878; 1989000000; 2172000000; 2264000000; 2287000000; 2264000000; 2287000000; 2287000000; 2218000000; 2195000000; 2195000000; 2126000000; 2104000000; 2104000000; 2126000000; 1989000000; 1646000000; 1386000000; 1311000000; 1236000000; 1217000000; 1198000000; 1161000000; 1161000000; 1236000000; 1517000000; 1611000000; 1704000000; 1742000000; 1742000000; 1722999878; 1704000000; 1704000000; 1722999878; 1761000000; 1779000000; 1779000000; 1873000000; 1742000000; 1648000000; 1498000000; 1350000000; 1277000000; 1204000000; 1186000000; 1167000000; 1131000000; 1131000000; 1204000000; 1478000000; 1569000000; 1660000000; 1697000000; 1697000000; 1678000000; 1660000000; 1660000000; 1678000000; 1715000000; 1732999878; 1732999878; 1824000000; 1697000000; 1605000122; 1459000000; 1606999878; 1505999878; 1456000000; 1406000000; 1406000000; 1456000000; 1606999878; 1907999878; 2184000000; 2385000000; 2485000000; 2510000000; 2485000000; 2510000000; 2510000000; 2435000000; 2410000000; 2410000000; 2335000000; 2310000000; 2310000000; 2335000000; 2184000000; 1806999878; 1727000000; 1619000000; 1564999878; 1510999878; 1510999878; 1564999878; 1727000000; 2051000000; 2348000000; 2564000000; 2672000000; 2700000000; 2672000000; 2700000000; 2700000000; 2618000000; 2591000000; 2591000000; 2510000000; 2483000000; 2483000000; 2510000000; 2348000000; 1943000122; 1693000000; 1587000000; 1534000000; 1481000000; 1481000000; 1534000000; 1693000000; 2010000000; 2302000000; 2513000000; 2619000000; 2645000000; 2619000000; 2645000000; 2645000000; 2566000000; 2540000000; 2540000000; 2460000000; 2434000000; 2434000000; 2460000000; 2302000000; 1905000000; 1658000000; 1555000000; 1503000000; 1451000000; 1451000000; 1503000000; 1658000000; 1969000000; 2255000000; 2462000000; 2566000000; 2591000000; 2566000000; 2591000000; 2591000000; 2514000000; 2488000000; 2488000000; 2410000000; 2384000000; 2384000000; 2410000000; 2255000000; 1865999878; 1624000000; 1522000000; 1472000000; 1421000000; 1421000000; 1472000000; 1624000000; 1927999878; 2208000000; 2411000000; 2512000000; 2537000000; 2512000000; 2537000000; 2537000000; 2461000000; 2436000000; 2436000000; 2360000000; 2334000000; 2334000000; 2360000000; 2208000000; 1827000122; 1537999878; 1455000000; 1372000000; 1351000000; 1330000000; 1288000000; 1288000000; 1372000000; 1683000000; 1787000000; 1890999878; 1933000122; 1933000122; 1912000000; 1890999878; 1890999878; 1912000000; 1954000000; 1975000122; 1975000122; 2078000000; 1933000122; 1828999878; 1663000000; 1498000000; 1417000000; 1336000000; 1316000000; 1295000000; 1255000000; 1255000000; 1336000000; 1640000000; 1741000000; 1842000122; 1883000000; 1883000000; 1862000000; 1842000122; 1842000122; 1862000000; 1902999878; 1922999878; 1922999878; 2023999878; 1883000000; 1781000000; 1619000000; 1583000122; 1484000000; 1435000000; 1385000000; 1385000000; 1435000000; 1583000122; 1880000000; 2153000000; 2350000000; 2449000000; 2474000000; 2449000000; 2474000000; 2474000000; 2400000000; 2375000000; 2375000000; 2301000000; 2276000000; 2276000000; 2301000000; 2153000000; 1781000000; 1703000000; 1596000000; 1542999878; 1490000000; 1490000000; 1542999878; 1703000000; 2022000122; 2315000000; 2527000000; 2634000000; 2661000000; 2634000000; 2661000000; 2661000000; 2581000000; 2554000000; 2554000000; 2474000000; 2448000000; 2448000000; 2474000000; 2315000000; 1915000000; 1668000000; 1564000000; 1512000000; 1460000000; 1460000000; 1512000000; 1668000000; 1981000000; 2268000000; 2477000000; 2581000000; 2607000000; 2581000000; 2607000000; 2607000000; 2529000000; 2503000000; 2503000000; 2425000000; 2399000000; 2399000000; 2425000000; 2268000000; 1877000000; 1634000000; 1532000000; 1481000000; 1430000000; 1430000000; 1481000000; 1634000000; 1941000000; 2222000000; 2426000000; 2529000000; 2554000000; 2529000000; 2554000000; 2554000000; 2477000000; 2452000000; 2452000000; 2375000000; 2350000000; 2350000000; 2375000000; 2222000000; 1838999878; 1600000122; 1500000000; 1450000000; 1400000000; 1400000000; 1450000000; 1600000122; 1901000122; 2176000000; 2376000000; 2476000000; 2501000000; 2476000000; 2501000000; 2501000000; 2426000000; 2401000000; 2401000000; 2326000000; 2301000000; 2301000000; 2326000000; 2176000000; 1800000122; 1515999878; 1434000000; 1352000000; 1331000000; 1311000000; 1270000000; 1270000000; 1352000000; 1658999878; 1762000000; 1864000122; 1905000000; 1905000000; 1885000000; 1864000122; 1864000122; 1885000000; 1926000000; 1946000000; 1946000000; 2048000000; 1905000000; 1803000000; 1639000000; 1476000000; 1397000000; 1317000000; 1297000000; 1277000000; 1237000000; 1237000000; 1317000000; 1616000000; 1716000122; 1816000000; 1856000000; 1856000000; 1836000000; 1816000000; 1816000000; 1836000000; 1875999878; 1895000000; 1895000000; 1995000122; 1856000000; 1756000000; 1596000000; 1599000000; 1499000000; 1449000000; 1399000000; 1399000000; 1449000000; 1599000000; 1899000000; 2174000000; 2374000000; 2474000000; 2499000000; 2474000000; 2499000000; 2499000000; 2424000000; 2399000000; 2399000000; 2324000000; 2299000000; 2299000000; 2324000000; 2174000000; 1799000000; 1720000000; 1611999878; 1559000000; 1505000000; 1505000000; 1559000000; 1720000000; 2042000000; 2338000000; 2553000000; 2661000000; 2688000000; 2661000000; 2688000000; 2688000000; 2607000000; 2580000000; 2580000000; 2499000000; 2472000000; 2472000000; 2499000000; 2338000000; 1935000000; 1685000000; 1579999878; 1527000000; 1475000000; 1475000000; 1527000000; 1685000000; 2001999878; 2291000000; 2502000000; 2607000000; 2634000000; 2607000000; 2634000000; 2634000000; 2555000000; 2528000000; 2528000000; 2449000000; 2423000000; 2423000000; 2449000000; 2291000000; 1896000122; 1651000000; 1547999878; 1496000000; 1445000000; 1445000000; 1496000000; 1651000000; 1961000000; 2245000000; 2451000000; 2554000000; 2580000000; 2554000000; 2580000000; 2580000000; 2503000000; 2477000000; 2477000000; 2399000000; 2374000000; 2374000000; 2399000000; 2245000000; 1857000000; 1616999878; 1515999878; 1465000000; 1414000000; 1414000000; 1465000000; 1616999878; 1920000000; 2198000000; 2400000000; 2501000000; 2526000000; 2501000000; 2526000000; 2526000000; 2450000000; 2425000000; 2425000000; 2349000000; 2324000000; 2324000000; 2349000000; 2198000000; 1819000000; 1531000122; 1448000000; 1366000000; 1345000000; 1324000000; 1283000000; 1283000000; 1366000000; 1676000000; 1779000000; 1883000000; 1924000000; 1924000000; 1904000000; 1883000000; 1883000000; 1904000000; 1944999878; 1966000000; 1966000000; 2069000000; 1924000000; 1821000000; 1655000000; 1491000000; 1411000000; 1330000000; 1310000000; 1290000000; 1249000000; 1249000000; 1330000000; 1632000122; 1732999878; 1833999878; 1874000122; 1874000122; 1853999878; 1833999878; 1833999878; 1853999878; 1895000000; 1915000000; 1915000000; 2015000000; 1874000122; 1774000000; 1611999878; 1537000000; 1441000000; 1393000000; 1345000000; 1345000000; 1393000000; 1537000000; 1825000000; 2089000000; 2282000000; 2378000000; 2402000000; 2378000000; 2402000000; 2402000000; 2330000000; 2306000000; 2306000000; 2234000000; 2210000000; 2210000000; 2234000000; 2089000000; 1729000000; 1653000000; 1549000000; 1498000000; 1446000000; 1446000000; 1498000000; 1653000000; 1963000000; 2247000000; 2453000000; 2557000000; 2583000000; 2557000000; 2583000000; 2583000000; 2505000000; 2479000000; 2479000000; 2402000000; 2376000000; 2376000000; 2402000000; 2247000000; 1859000122; 1620000122; 1518000000; 1468000000; 1417000000; 1417000000; 1468000000; 1620000122; 1922999878; 2202000000; 2404000000; 2506000000; 2531000000; 2506000000; 2531000000; 2531000000; 2455000000; 2430000000; 2430000000; 2354000000; 2328000000; 2328000000; 2354000000; 2202000000; 1822000122; 1586000000; 1487000000; 1438000000; 1388000000; 1388000000; 1438000000; 1586000000; 1884000122; 2157000000; 2355000000; 2454000000; 2479000000; 2454000000; 2479000000; 2479000000; 2405000000; 2380000000; 2380000000; 2306000000; 2281000000; 2281000000; 2306000000; 2157000000; 1785000122; 1552999878; 1456000000; 1408000000; 1359000000; 1359000000; 1408000000; 1552999878; 1845000000; 2112000000; 2306000000; 2403000000; 2428000000; 2403000000; 2428000000; 2428000000; 2355000000; 2330000000; 2330000000; 2258000000; 2233000000; 2233000000; 2258000000; 2112000000; 1748000122; 1471000000; 1392000000; 1312000000; 1292000000; 1272000000; 1233000000; 1233000000; 1312000000; 1611000000; 1710000000; 1809000000; 1848999878; 1848999878; 1828999878; 1809000000; 1809000000; 1828999878; 1869000122; 1889000000; 1889000000; 1988000000; 1848999878; 1750000000; 1591000000; 1433000000; 1356000000; 1278000000; 1259000000; 1239000000; 1201000000; 1201000000; 1278000000; 1569000000; 1666000000; 1762000000; 1801000000; 1801000000; 1782000000; 1762000000; 1762000000; 1782000000; 1821000000; 1840000000; 1840000000; 1937000000; 1801000000; 1704000000; 1549000000; 1348000000; 1263000000; 1221000000; 1179000000; 1179000000; 1221000000; 1348000000; 1600000122; 1832000122; 2001000000; 2085000000; 2106000000; 2085000000; 2106000000; 2106000000; 2043000000; 2022000122; 2022000122; 1958000122; 1937000000; 1937000000; 1958000122; 1832000122; 1515999878; 1449000000; 1358000000; 1313000000; 1268000000; 1268000000; 1313000000; 1449000000; 1721000122; 1970000122; 2151000000; 2242000000; 2265000000; 2242000000; 2265000000; 2265000000; 2197000000; 2174000000; 2174000000; 2106000000; 2083000000; 2083000000; 2106000000; 1970000122; 1630000000; 1420000000; 1331000000; 1287000000; 1243000000; 1243000000; 1287000000; 1420000000; 1685999878; 1931000000; 2108000000; 2197000000; 2219000000; 2197000000; 2219000000; 2219000000; 2153000000; 2130000000; 2130000000; 2064000000; 2042000000; 2042000000; 2064000000; 1931000000; 1598000000; 1391000000; 1304000000; 1261000000; 1217000000; 1217000000; 1261000000; 1391000000; 1652000122; 1890999878; 2065000000; 2152000000; 2174000000; 2152000000; 2174000000; 2174000000; 2109000000; 2087000000; 2087000000; 2022000122; 2000000000; 2000000000; 2022000122; 1890999878; 1564999878; 1362000000; 1277000000; 1234000000; 1192000000; 1192000000; 1234000000; 1362000000; 1618000000; 1852000000; 2022000122; 2107000000; 2129000000; 2107000000; 2129000000; 2129000000; 2065000000; 2043000000; 2043000000; 1980000122; 1958000122; 1958000122; 1980000122; 1852000000; 1532000000; 1290000000; 1220000000; 1151000000; 1133000000; 1116000000; 1081000000; 1081000000; 1151000000; 1412000000; 1499000000; 1587000000; 1621000000; 1621000000; 1604000000; 1587000000; 1587000000; 1604000000; 1639000000; 1656000000; 1656000000; 1744000000; 1621000000; 1534000000; 1395000000; 1257000000; 1189000000; 1121000000; 1104000000; 1087000000; 1053000000; 1053000000; 1121000000; 1375000000; 1460000000; 1545000000; 1579000000; 1579000000; 1562000000; 1545000000; 1545000000; 1562000000; 1596000000; 1613000000; 1613000000; 1698000000; 1579000000; 1494000000; 1358000000; 1457000000; 1365000000; 1320000000; 1274000000; 1274000000; 1320000000; 1457000000; 1730000000; 1980000122; 2162000000; 2253000000; 2276000000; 2253000000; 2276000000; 2276000000; 2208000000; 2185000000; 2185000000; 2117000000; 2094000000; 2094000000; 2117000000; 1980000122; 1639000000; 1566000000; 1468000000; 1419000000; 1370000000; 1370000000; 1419000000; 1566000000; 1860000000; 2129000000; 2325000000; 2423000000; 2448000000; 2423000000; 2448000000; 2448000000; 2374000000; 2350000000; 2350000000; 2276000000; 2252000000; 2252000000; 2276000000; 2129000000; 1762000000; 1535000000; 1439000000; 1391000000; 1343000000; 1343000000; 1391000000; 1535000000; 1823000000; 2087000000; 2279000000; 2375000000; 2399000000; 2375000000; 2399000000; 2399000000; 2327000000; 2303000000; 2303000000; 2231000000; 2207000000; 2207000000; 2231000000; 2087000000; 1727000000; 1504000122; 1410000000; 1363000000; 1316000000; 1316000000; 1363000000; 1504000122; 1786000000; 2044000122; 2232000000; 2326000000; 2350000000; 2326000000; 2350000000; 2350000000; 2279000000; 2256000000; 2256000000; 2185000000; 2162000000; 2162000000; 2185000000; 2044000122; 1692000000; 1472000000; 1380000000; 1334000000; 1288000000; 1288000000; 1334000000; 1472000000; 1748000122; 2001000000; 2186000000; 2278000000; 2301000000; 2278000000; 2301000000; 2301000000; 2232000000; 2209000000; 2209000000; 2140000000; 2117000000; 2117000000; 2140000000; 2001000000; 1656000000; 1394000000; 1319000000; 1244000000; 1225000000; 1206000000; 1168000000; 1168000000; 1244000000; 1526000122; 1621000000; 1715000000; 1753000122; 1753000122; 1734000000; 1715000000; 1715000000; 1734000000; 1771000000; 1790000122; 1790000122; 1884000122; 1753000122; 1658000000; 1507000000; 1358000000; 1285000000; 1211000000; 1193000000; 1175000000; 1138000000; 1138000000; 1211000000; 1487000000; 1578000122; 1670000000; 1707000000; 1707000000; 1689000122; 1670000000; 1670000000; 1689000122; 1725000000; 1744000000; 1744000000; 1836000000; 1707000000; 1615000122; 1468000000; 1430000000; 1340000000; 1296000000; 1251000000; 1251000000; 1296000000; 1430000000; 1698000000; 1944000000; 2123000000; 2212000000; 2234000000; 2212000000; 2234000000; 2234000000; 2167000000; 2145000000; 2145000000; 2078000000; 2056000000; 2056000000; 2078000000; 1944000000; 1609000000; 1537000000; 1441000000; 1393000000; 1345000000; 1345000000; 1393000000; 1537000000; 1826000000; 2090000000; 2282000000; 2378000000; 2403000000; 2378000000; 2403000000; 2403000000; 2330000000; 2306000000; 2306000000; 2234000000; 2210000000; 2210000000; 2234000000; 2090000000; 1730000000; 1507000000; 1412000000; 1365000000; 1318000000; 1318000000; 1365000000; 1507000000; 1789000000; 2048000000; 2237000000; 2331000000; 2354000000; 2331000000; 2354000000; 2354000000; 2284000000; 2260000000; 2260000000; 2190000000; 2166000000; 2166000000; 2190000000; 2048000000; 1695000000; 1476000000; 1384000000; 1337000000; 1291000000; 1291000000; 1337000000; 1476000000; 1753000122; 2006000000; 2191000000; 2283000000; 2306000000; 2283000000; 2306000000; 2306000000; 2237000000; 2214000000; 2214000000; 2145000000; 2122000000; 2122000000; 2145000000; 2006000000; 1660000000; 1445000000; 1355000000; 1310000000; 1264000000; 1264000000; 1310000000; 1445000000; 1716000122; 1964999878; 2145000000; 2236000000; 2258000000; 2236000000; 2258000000; 2258000000; 2191000000; 2168000000; 2168000000; 2100000000; 2078000000; 2078000000; 2100000000; 1964999878; 1626000000; 1369000000; 1295000000; 1221000000; 1202000000; 1184000000; 1147000000; 1147000000; 1221000000; 1498000000; 1591000000; 1683000000; 1720000000; 1720000000; 1702000000; 1683000000; 1683000000; 1702000000; 1739000000; 1757000000; 1757000000; 1850000000; 1720000000; 1628000000; 1480000000; 1333000000; 1261000000; 1189000000; 1171000000; 1153000000; 1117000000; 1117000000; 1189000000; 1459000000; 1549000000; 1640000000; 1676000000; 1676000000; 1658000000; 1640000000; 1640000000; 1658000000; 1694000122; 1712000000; 1712000000; 1801999878; 1676000000; 1584999878; 1441000000; 1571000000; 1473000000; 1424000000; 1374000000; 1374000000; 1424000000; 1571000000; 1865000000; 2136000000; 2332000000; 2430000000; 2455000000; 2430000000; 2455000000; 2455000000; 2381000000; 2356000000; 2356000000; 2283000000; 2258000000; 2258000000; 2283000000; 2136000000; 1767000000; 1689000122; 1583000122; 1531000122; 1478000000; 1478000000; 1531000122; 1689000122; 2006000000; 2296000000; 2507000000; 2613000000; 2640000000; 2613000000; 2640000000; 2640000000; 2560000000; 2534000000; 2534000000; 2455000000; 2428000000; 2428000000; 2455000000; 2296000000; 1900000000; 1655000000; 1552000000; 1500000000; 1448000000; 1448000000; 1500000000; 1655000000; 1966000000; 2250000000; 2457000000; 2561000000; 2587000000; 2561000000; 2587000000; 2587000000; 2509000000; 2483000000; 2483000000; 2406000000; 2380000000; 2380000000; 2406000000; 2250000000; 1862000000; 1621999878; 1520000000; 1469000000; 1419000000; 1419000000; 1469000000; 1621999878; 1926000000; 2204000000; 2407000000; 2509000000; 2534000000; 2509000000; 2534000000; 2534000000; 2458000000; 2433000000; 2433000000; 2356000000; 2331000000; 2331000000; 2356000000; 2204000000; 1824000000; 1588000000; 1488000000; 1439000000; 1389000000; 1389000000; 1439000000; 1588000000; 1885999878; 2158000000; 2357000000; 2456000000; 2481000000; 2456000000; 2481000000; 2481000000; 2407000000; 2382000000; 2382000000; 2307000000; 2283000000; 2283000000; 2307000000; 2158000000; 1786000000; 1504000122; 1422000000; 1341000000; 1321000000; 1300000000; 1260000000; 1260000000; 1341000000; 1646000000; 1748000122; 1848999878; 1890000000; 1890000000; 1870000000; 1848999878; 1848999878; 1870000000; 1910000000; 1931000000; 1931000000; 2032000122; 1890000000; 1788000000; 1626000000; 1465000000; 1385000000; 1306000000; 1286000000; 1267000000; 1227000000; 1227000000; 1306000000; 1603000000; 1702000000; 1801000000; 1841000000; 1841000000; 1821000000; 1801000000; 1801000000; 1821000000; 1861000000; 1880000000; 1880000000; 1979000000; 1841000000; 1742000000; 1583000122; 1269000000; 1248000000; 1208000000; 1168000000; 1188000000; 1309000000; 1450000000; 1712000000; 1912999878; 1994000000; 2014000000; 1994000000; 1873000000; 1853000000; 1811999878; 1772000000; 1811999878; 1853000000; 1933000122; 1974000000; 1933000122; 1811999878; 1611000000; 1410000000; 1364000000; 1342000000; 1299000000; 1256000000; 1277000000; 1407000000; 1559000000; 1841000000; 2057000000; 2144000000; 2165000000; 2144000000; 2014000000; 1991999878; 1949000000; 1906000122; 1949000000; 1991999878; 2079000000; 2122000000; 2079000000; 1949000000; 1732000000; 1515999878; 1337000000; 1316000000; 1273000000; 1231000000; 1252000000; 1379000000; 1527999878; 1804000000; 2016000000; 2101000000; 2122000000; 2101000000; 1974000000; 1952000000; 1910000000; 1867000000; 1910000000; 1952000000; 2037000000; 2080000000; 2037000000; 1910000000; 1698000000; 1485000000; 1309000000; 1289000000; 1247000000; 1206000000; 1226000000; 1351000000; 1497000000; 1767000000; 1975000122; 2058000000; 2079000000; 2058000000; 1933000122; 1912999878; 1870999878; 1828999878; 1870999878; 1912999878; 1996000000; 2037000000; 1996000000; 1870999878; 1663000000; 1455000000; 1282000000; 1262000000; 1221000000; 1180000000; 1201000000; 1323000000; 1465000000; 1730000000; 1934000000; 2015000000; 2036000000; 2015000000; 1893000000; 1873000000; 1832000122; 1791000000; 1832000122; 1873000000; 1954000000; 1995000122; 1954000000; 1832000122; 1628000000; 1425000000; 1250000000; 1217000000; 1150000000; 1100000000; 1084000000; 1084000000; 1134000000; 1234000000; 1384000000; 1484000000; 1534000000; 1567000000; 1517000000; 1500999878; 1500999878; 1434000000; 1417000000; 1467000000; 1534000000; 1667000000; 1616999878; 1584000000; 1500999878; 1417000000; 1218000000; 1185000000; 1120000000; 1072000000; 1055000000; 1055000000; 1104000000; 1202000000; 1348000000; 1445000000; 1494000000; 1527000000; 1478000000; 1462000000; 1462000000; 1397000000; 1380000000; 1429000000; 1494000000; 1624000000; 1574999878; 1542999878; 1462000000; 1380000000; 1363000000; 1342000000; 1299000000; 1255000000; 1277000000; 1407000000; 1558000122; 1840000000; 2056000000; 2143000000; 2165000000; 2143000000; 2013000000; 1991000000; 1948000122; 1905000000; 1948000122; 1991000000; 2078000000; 2121000000; 2078000000; 1948000122; 1732000000; 1515000000; 1466000000; 1443000000; 1396000000; 1350000000; 1373000000; 1513000000; 1676000000; 1978000000; 2211000000; 2304000000; 2328000000; 2304000000; 2165000000; 2141000000; 2095000000; 2048000000; 2095000000; 2141000000; 2234000000; 2281000000; 2234000000; 2095000000; 1862000000; 1629000000; 1437000000; 1414000000; 1368000000; 1323000000; 1346000000; 1482000000; 1642000122; 1939000000; 2167000000; 2258000000; 2281000000; 2258000000; 2121000000; 2098000000; 2053000000; 2007000122; 2053000000; 2098000000; 2190000000; 2235000000; 2190000000; 2053000000; 1825000000; 1597000000; 1407000000; 1385000000; 1340000000; 1296000000; 1318000000; 1452000000; 1609000000; 1899000000; 2123000000; 2212000000; 2234000000; 2212000000; 2078000000; 2056000000; 2011000000; 1966000000; 2011000000; 2056000000; 2145000000; 2190000000; 2145000000; 2011000000; 1787000000; 1564000000; 1378000000; 1356000000; 1312000000; 1269000000; 1291000000; 1422000000; 1574999878; 1860000000; 2078000000; 2166000000; 2188000000; 2166000000; 2035000000; 2013000000; 1969000000; 1925000000; 1969000000; 2013000000; 2100000000; 2144000000; 2100000000; 1969000000; 1750000000; 1531000122; 1344000000; 1308000000; 1236000000; 1183000000; 1165000000; 1165000000; 1218000000; 1326000000; 1487000000; 1595000122; 1648999878; 1685000000; 1631000000; 1613000000; 1613000000; 1541000122; 1523000000; 1577000000; 1648999878; 1791999878; 1737999878; 1702000000; 1613000000; 1523000000; 1309000000; 1274000000; 1204000000; 1152000000; 1134000000; 1134000000; 1187000000; 1292000000; 1449000000; 1552999878; 1606000000; 1641000000; 1588000000; 1571000000; 1571000000; 1500999878; 1484000000; 1536000122; 1606000000; 1746000000; 1693000000; 1658000000; 1571000000; 1484000000; 1406000000; 1383000000; 1339000000; 1294000000; 1316000000; 1450000000; 1606999878; 1897000000; 2120000000; 2209000000; 2231000000; 2209000000; 2075000000; 2053000000; 2008000000; 1964000000; 2008000000; 2053000000; 2142000000; 2187000000; 2142000000; 2008000000; 1785000122; 1562000000; 1510999878; 1487000000; 1439000000; 1391000000; 1415000000; 1559000000; 1727000000; 2038999878; 2279000000; 2375000000; 2399000000; 2375000000; 2231000000; 2207000000; 2159000000; 2111000000; 2159000000; 2207000000; 2303000000; 2351000000; 2303000000; 2159000000; 1919000000; 1679000122; 1481000000; 1458000000; 1411000000; 1364000000; 1387000000; 1527999878; 1693000000; 1999000000; 2234000000; 2328000000; 2351000000; 2328000000; 2187000000; 2163000000; 2116000000; 2069000000; 2116000000; 2163000000; 2257000000; 2304000000; 2257000000; 2116000000; 1880999878; 1646000000; 1451000000; 1428000000; 1382000000; 1336000000; 1359000000; 1497000000; 1658000000; 1958000122; 2188000000; 2280000000; 2303000000; 2280000000; 2142000000; 2119000000; 2073000000; 2027000122; 2073000000; 2119000000; 2211000000; 2257000000; 2211000000; 2073000000; 1843000000; 1611999878; 1421000000; 1398000000; 1353000000; 1308000000; 1331000000; 1466000000; 1624000000; 1917000000; 2143000000; 2233000000; 2255000000; 2233000000; 2098000000; 2075000000; 2030000000; 1985000122; 2030000000; 2075000000; 2165000000; 2210000000; 2165000000; 2030000000; 1804000000; 1579000000; 1385000000; 1349000000; 1275000000; 1219000000; 1201000000; 1201000000; 1256000000; 1367000000; 1532999878; 1643999878; 1700000000; 1737000000; 1680999878; 1663000000; 1663000000; 1589000000; 1569999878; 1626000000; 1700000000; 1847000122; 1791999878; 1754999878; 1663000000; 1569999878; 1349000000; 1313000000; 1241000000; 1187000000; 1169000000; 1169000000; 1223000000; 1331000000; 1493000000; 1601000000; 1655000000; 1690999878; 1637000122; 1619000000; 1619000000; 1547000000; 1529000000; 1583000122; 1655000000; 1799000000; 1745000000; 1709000000; 1619000000; 1529000000; 1281000000; 1261000000; 1220000000; 1179000000; 1200000000; 1322000000; 1464000000; 1727999878; 1932000000; 2013000000; 2033000000; 2013000000; 1890999878; 1870999878; 1830000000; 1789000000; 1830000000; 1870999878; 1952000000; 1993000000; 1952000000; 1830000000; 1626999878; 1423000000; 1377000000; 1355000000; 1312000000; 1268000000; 1290000000; 1421000000; 1574000000; 1858000000; 2077000000; 2165000000; 2186000000; 2165000000; 2033000000; 2012000122; 1968000000; 1924000000; 1968000000; 2012000122; 2099000000; 2143000000; 2099000000; 1968000000; 1749000000; 1530000000; 1350000000; 1328000000; 1285000000; 1243000000; 1264000000; 1393000000; 1542999878; 1821000000; 2036000000; 2121000000; 2143000000; 2121000000; 1993000000; 1971000000; 1927999878; 1885999878; 1927999878; 1971000000; 2057000000; 2100000000; 2057000000; 1927999878; 1714000000; 1500000000; 1322000000; 1301000000; 1259000000; 1217000000; 1238000000; 1364000000; 1510999878; 1784000000; 1994000000; 2078000000; 2099000000; 2078000000; 1952000000; 1931000000; 1889000000; 1847000122; 1889000000; 1931000000; 2015000000; 2057000000; 2015000000; 1889000000; 1679000122; 1469000000; 1295000000; 1274000000; 1233000000; 1192000000; 1212000000; 1336000000; 1480000000; 1747000000; 1952000000; 2035000000; 2055000000; 2035000000; 1911000122; 1890999878; 1850000000; 1809000000; 1850000000; 1890999878; 1973000000; 2014000000; 1973000000; 1850000000; 1643999878; 1439000000; 1262000000; 1229000000; 1161000000; 1111000000; 1094000000; 1094000000; 1145000000; 1246000000; 1397000000; 1498000000; 1549000000; 1582000000; 1532000000; 1515000000; 1515000000; 1448000000; 1431000000; 1481000000; 1549000000; 1683000000; 1633000000; 1599000000; 1515000000; 1431000000; 1230000000; 1197000000; 1131000000; 1082000000; 1066000000; 1066000000; 1115000000; 1213000000; 1361000000; 1459000000; 1509000122; 1541000122; 1492000000; 1476000000; 1476000000; 1410000000; 1394000000; 1443000000; 1509000122; 1640000000; 1591000000; 1558000122; 1476000000; 1394000000; 1276000000; 1255000000; 1215000000; 1174000000; 1195000000; 1316000000; 1458000000; 1721000122; 1924000000; 2005000000; 2025000000; 2005000000; 1883000000; 1863000000; 1822000122; 1782000000; 1822000122; 1863000000; 1944000000; 1985000122; 1944000000; 1822000122; 1620000122; 1417000000; 1372000000; 1350000000; 1306000000; 1263000000; 1285000000; 1415000000; 1568000122; 1851000000; 2069000000; 2156000000; 2177000000; 2156000000; 2025000000; 2003000000; 1959999878; 1916000122; 1959999878; 2003000000; 2090000000; 2134000000; 2090000000; 1959999878; 1742000000; 1524000000; 1344000000; 1323000000; 1280000000; 1237000000; 1259000000; 1387000000; 1536000122; 1814000000; 2027000122; 2113000000; 2134000000; 2113000000; 1985000122; 1963000000; 1920000000; 1878000000; 1920000000; 1963000000; 2049000000; 2091000000; 2049000000; 1920000000; 1707000000; 1494000000; 1317000000; 1296000000; 1254000000; 1212000000; 1233000000; 1359000000; 1505000000; 1777000000; 1986000000; 2069000000; 2090000000; 2069000000; 1944000000; 1922999878; 1880999878; 1838999878; 1880999878; 1922999878; 2007000122; 2049000000; 2007000122; 1880999878; 1672000000; 1463000000; 1289000000; 1269000000; 1228000000; 1187000000; 1207000000; 1330000000; 1474000000; 1740000000; 1944000000; 2026000000; 2047000000; 2026000000; 1904000000; 1883000000; 1842000122; 1801000000; 1842000122; 1883000000; 1964999878; 2006000000; 1964999878; 1842000122; 1637000122; 1433000000; 1257000000; 1224000000; 1157000000; 1106000000; 1090000000; 1090000000; 1140000000; 1241000000; 1391000000; 1492000000; 1542000000; 1576000000; 1526000122; 1509000122; 1509000122; 1442000000; 1425000000; 1475000000; 1542000000; 1677000000; 1626000000; 1593000000; 1509000122; 1425000000; 1225000000; 1192000000; 1127000000; 1078000000; 1061000000; 1061000000; 1110000000; 1208000000; 1355000000; 1453000000; 1502000000; 1535000000; 1486000000; 1470000000; 1470000000; 1404000000; 1388000000; 1437000000; 1502000000; 1633000000; 1584000000; 1551000000; 1470000000; 1388000000; 1239000000; 1219000000; 1180000000; 1140000000; 1160000000; 1278000000; 1416000000; 1671000000; 1868000000; 1947000000; 1966000000; 1947000000; 1828999878; 1809000000; 1769999878; 1730000000; 1769999878; 1809000000; 1888000000; 1927000000; 1888000000; 1769999878; 1573000122; 1376000000; 1332000000; 1311000000; 1268000000; 1226000000; 1247000000; 1374000000; 1522000000; 1796999878; 2009000000; 2093000000; 2114000000; 2093000000; 1966000000; 1944999878; 1902999878; 1861000000; 1902999878; 1944999878; 2030000000; 2072000000; 2030000000; 1902999878; 1690999878; 1480000000; 1305000000; 1285000000; 1243000000; 1202000000; 1222000000; 1347000000; 1492000000; 1761000000; 1969000000; 2051000000; 2072000000; 2051000000; 1927000000; 1906000122; 1865000000; 1823000000; 1865000000; 1906000122; 1989000000; 2031000000; 1989000000; 1865000000; 1658000000; 1450000000; 1279000000; 1258000000; 1218000000; 1177000000; 1197000000; 1319000000; 1461000000; 1725000000; 1927999878; 2010000000; 2030000000; 2010000000; 1888000000; 1867000000; 1827000122; 1786000000; 1827000122; 1867000000; 1949000000; 1989000000; 1949000000; 1827000122; 1624000000; 1421000000; 1252000000; 1232000000; 1192000000; 1153000000; 1172000000; 1292000000; 1431000000; 1689000122; 1888000000; 1968000000; 1988000000; 1968000000; 1848000000; 1828999878; 1789000000; 1749000000; 1789000000; 1828999878; 1907999878; 1948000122; 1907999878; 1789000000; 1589999878; 1391000000; 1221000000; 1188000000; 1123000000; 1074000000; 1058000000; 1058000000; 1107000000; 1205000000; 1351000000; 1449000000; 1498000000; 1530000000; 1481000000; 1465000000; 1465000000; 1400000000; 1384000000; 1433000000; 1498000000; 1628000000; 1579000000; 1547000000; 1465000000; 1384000000; 1189000000; 1157000000; 1094000000; 1046000000; 1031000000; 1031000000; 1078000000; 1173000000; 1316000000; 1411000000; 1459000000; 1491000000; 1443000000; 1427000000; 1427000000; 1364000000; 1348000000; 1395000000; 1459000000; 1586000000; 1537999878; 1505999878; 1427000000; 1348000000; 1371000000; 1349000000; 1305000000; 1262000000; 1283000000; 1414000000; 1566000000; 1848999878; 2067000000; 2154000000; 2176000000; 2154000000; 2023000000; 2001999878; 1958000122; 1915000000; 1958000122; 2001999878; 2089000000; 2132000000; 2089000000; 1958000122; 1740000000; 1523000000; 1474000000; 1450000000; 1403000000; 1357000000; 1380000000; 1520000000; 1684000122; 1988000000; 2222000000; 2316000000; 2340000000; 2316000000; 2176000000; 2152000000; 2105000000; 2059000000; 2105000000; 2152000000; 2246000000; 2293000000; 2246000000; 2105000000; 1870999878; 1637000122; 1444000000; 1421000000; 1375000000; 1330000000; 1352000000; 1490000000; 1651000000; 1949000000; 2178000000; 2270000000; 2293000000; 2270000000; 2132000000; 2109000000; 2063000000; 2018000000; 2063000000; 2109000000; 2201000000; 2247000000; 2201000000; 2063000000; 1833999878; 1605000122; 1415000000; 1392000000; 1347000000; 1302000000; 1325000000; 1460000000; 1616999878; 1909000000; 2134000000; 2223000000; 2246000000; 2223000000; 2089000000; 2066000000; 2021000000; 1976000000; 2021000000; 2066000000; 2156000000; 2201000000; 2156000000; 2021000000; 1796999878; 1572000000; 1385000000; 1363000000; 1319000000; 1275000000; 1297000000; 1429000000; 1583000122; 1869000122; 2089000000; 2177000000; 2199000000; 2177000000; 2045000000; 2023000000; 1979000000; 1935000000; 1979000000; 2023000000; 2111000000; 2155000000; 2111000000; 1979000000; 1759000000; 1539000000; 1351000000; 1315000000; 1243000000; 1189000000; 1171000000; 1171000000; 1225000000; 1333000000; 1495000000; 1603000000; 1657000122; 1693000000; 1639000000; 1621000000; 1621000000; 1549000000; 1531000122; 1584999878; 1657000122; 1801000000; 1747000000; 1711000122; 1621000000; 1531000122; 1316000000; 1281000000; 1210000000; 1158000000; 1140000000; 1140000000; 1193000000; 1298000000; 1456000000; 1561000000; 1614000000; 1648999878; 1597000000; 1579000000; 1579000000; 1509000122; 1491000000; 1544000000; 1614000000; 1754000000; 1702000000; 1667000000; 1579000000; 1491000000; 1221000000; 1202000000; 1163000000; 1124000000; 1144000000; 1260000000; 1396000000; 1648000000; 1842000122; 1919000000; 1939000000; 1919000000; 1803000000; 1783000000; 1745000000; 1705999878; 1745000000; 1783000000; 1861000000; 1900000000; 1861000000; 1745000000; 1551000000; 1357000000; 1313000000; 1292000000; 1250000000; 1209000000; 1230000000; 1355000000; 1500999878; 1772000000; 1980000122; 2064000000; 2084000000; 2064000000; 1939000000; 1917999878; 1875999878; 1833999878; 1875999878; 1917999878; 2001000000; 2043000000; 2001000000; 1875999878; 1667000000; 1459000000; 1287000000; 1266000000; 1225000000; 1185000000; 1205000000; 1328000000; 1471000000; 1736000000; 1941000000; 2022000122; 2043000000; 2022000122; 1900000000; 1879000122; 1838000000; 1798000000; 1838000000; 1879000122; 1961000000; 2001999878; 1961000000; 1838000000; 1634000000; 1430000000; 1261000000; 1240000000; 1200000000; 1160000000; 1180000000; 1301000000; 1441000000; 1700999878; 1901000122; 1981000000; 2001000000; 1981000000; 1861000000; 1841000000; 1801000000; 1761000000; 1801000000; 1841000000; 1921000122; 1961000000; 1921000122; 1801000000; 1601000000; 1401000000; 1234000000; 1215000000; 1175000000; 1136000000; 1156000000; 1273000000; 1411000000; 1665000000; 1861000000; 1939999878; 1959000000; 1939999878; 1822000122; 1803000000; 1763000122; 1724000000; 1763000122; 1803000000; 1880999878; 1920000000; 1880999878; 1763000122; 1567000000; 1371000000; 1204000000; 1171000000; 1107000000; 1059000000; 1043000000; 1043000000; 1091000000; 1188000000; 1332000000; 1428000000; 1477000000; 1509000122; 1460000000; 1444000000; 1444000000; 1380000000; 1364000000; 1412000000; 1477000000; 1605000122; 1557000000; 1525000000; 1444000000; 1364000000; 1172000000; 1141000000; 1078000000; 1032000000; 1016000061; 1016000061; 1063000000; 1157000000; 1297000000; 1391000000; 1438000000; 1469000000; 1423000000; 1407000000; 1407000000; 1344000000; 1329000000; 1376000000; 1438000000; 1563000122; 1515999878; 1485000000; 1407000000; 1329000000; 1272000000; 1252000000; 1211000000; 1171000000; 1191000000; 1312000000; 1454000000; 1716000122; 1917999878; 1999000000; 2018999878; 1999000000; 1878000000; 1858000000; 1816999878; 1777000000; 1816999878; 1858000000; 1939000000; 1979000000; 1939000000; 1816999878; 1615000122; 1413000000; 1368000000; 1346000000; 1303000000; 1259000000; 1281000000; 1411000000; 1563000122; 1846000000; 2063000000; 2150000000; 2171000000; 2150000000; 2018999878; 1998000000; 1954000000; 1911000122; 1954000000; 1998000000; 2085000000; 2128000000; 2085000000; 1954000000; 1737000000; 1520000000; 1340000000; 1319000000; 1277000000; 1234000000; 1255000000; 1383000000; 1532000000; 1809000000; 2022000122; 2107000000; 2128000000; 2107000000; 1979000000; 1958000122; 1915000000; 1873000000; 1915000000; 1958000122; 2043000000; 2085000000; 2043000000; 1915000000; 1702000000; 1489000000; 1313000000; 1292000000; 1251000000; 1209000000; 1230000000; 1355000000; 1500999878; 1772000000; 1980000122; 2064000000; 2085000000; 2064000000; 1939000000; 1917999878; 1875999878; 1833999878; 1875999878; 1917999878; 2001000000; 2043000000; 2001000000; 1875999878; 1668000000; 1459000000; 1286000000; 1265000000; 1225000000; 1184000000; 1204000000; 1327000000; 1470000000; 1735000000; 1939000000; 2021000000; 2041000000; 2021000000; 1898000000; 1878000000; 1837000122; 1796000000; 1837000122; 1878000000; 1959999878; 2000000000; 1959999878; 1837000122; 1633000000; 1429000000; 1254000000; 1220000000; 1153000000; 1103000000; 1087000000; 1087000000; 1137000000; 1237000000; 1388000000; 1488000000; 1537999878; 1572000000; 1521000122; 1505000000; 1505000000; 1438000000; 1421000000; 1471000000; 1537999878; 1672000000; 1621999878; 1588000000; 1505000000; 1421000000; 1221000000; 1189000000; 1124000000; 1075000000; 1058000000; 1058000000; 1107000000; 1205000000; 1352000000; 1449000000; 1498000000; 1531000122; 1482000000; 1466000000; 1466000000; 1400000000; 1384000000; 1433000000; 1498000000; 1628000000; 1579999878; 1547000000; 1466000000; 1384000000; 1272000000; 1252000000; 1211000000; 1171000000; 1191000000; 1312000000; 1454000000; 1716000122; 1917999878; 1999000000; 2018999878; 1999000000; 1878000000; 1858000000; 1816999878; 1777000000; 1816999878; 1858000000; 1939000000; 1979000000; 1939000000; 1816999878; 1615000122; 1413000000; 1368000000; 1346000000; 1303000000; 1259000000; 1281000000; 1411000000; 1563000122; 1846000000; 2063000000; 2150000000; 2171000000; 2150000000; 2018999878; 1998000000; 1954000000; 1911000122; 1954000000; 1998000000; 2085000000; 2128000000; 2085000000; 1954000000; 1737000000; 1520000000; 1340000000; 1319000000; 1277000000; 1234000000; 1255000000; 1383000000; 1532000000; 1809000000; 2022000122; 2107000000; 2128000000; 2107000000; 1979000000; 1958000122; 1915000000; 1873000000; 1915000000; 1958000122; 2043000000; 2085000000; 2043000000; 1915000000; 1702000000; 1489000000; 1313000000; 1292000000; 1251000000; 1209000000; 1230000000; 1355000000; 1500999878; 1772000000; 1980000122; 2064000000; 2085000000; 2064000000; 1939000000; 1917999878; 1875999878; 1833999878; 1875999878; 1917999878; 2001000000; 2043000000; 2001000000; 1875999878; 1668000000; 1459000000; 1286000000; 1265000000; 1225000000; 1184000000; 1204000000; 1327000000; 1470000000; 1735000000; 1939000000; 2021000000; 2041000000; 2021000000; 1898000000; 1878000000; 1837000122; 1796000000; 1837000122; 1878000000; 1959999878; 2000000000; 1959999878; 1837000122; 1633000000; 1429000000; 1254000000; 1220000000; 1153000000; 1103000000; 1087000000; 1087000000; 1137000000; 1237000000; 1388000000; 1488000000; 1537999878; 1572000000; 1521000122; 1505000000; 1505000000; 1438000000; 1421000000; 1471000000; 1537999878; 1672000000; 1621999878; 1588000000; 1505000000; 1421000000; 1221000000; 1189000000; 1124000000; 1075000000; 1058000000; 1058000000; 1107000000; 1205000000; 1352000000; 1449000000; 1498000000; 1531000122; 1482000000; 1466000000; 1466000000; 1400000000; 1384000000; 1433000000; 1498000000; 1628000000; 1579999878; 1547000000; 1466000000; 1384000000; 1305000000; 1285000000; 1243000000; 1202000000; 1223000000; 1347000000; 1492000000; 1762000000; 1969000000; 2052000000; 2072000000; 2052000000; 1927000000; 1907000000; 1865000000; 1824000000; 1865000000; 1907000000; 1990000122; 2031000000; 1990000122; 1865000000; 1658000000; 1451000000; 1404000000; 1381000000; 1337000000; 1292000000; 1315000000; 1448000000; 1604000000; 1894000000; 2117000000; 2206000000; 2229000000; 2206000000; 2072000000; 2050000000; 2006000000; 1961000000; 2006000000; 2050000000; 2139000000; 2184000000; 2139000000; 2006000000; 1783000000; 1560000000; 1376000000; 1354000000; 1310000000; 1266000000; 1288000000; 1419000000; 1572000000; 1856000000; 2075000000; 2162000000; 2184000000; 2162000000; 2031000000; 2009000000; 1964999878; 1922000000; 1964999878; 2009000000; 2097000000; 2140000000; 2097000000; 1964999878; 1747000000; 1529000000; 1348000000; 1326000000; 1283000000; 1241000000; 1262000000; 1390000000; 1540000000; 1818000000; 2032000122; 2118000000; 2139000000; 2118000000; 1990000122; 1968000000; 1925000000; 1883000000; 1925000000; 1968000000; 2054000000; 2097000000; 2054000000; 1925000000; 1711000122; 1497000000; 1320000000; 1299000000; 1257000000; 1215000000; 1236000000; 1361000000; 1508000000; 1779999878; 1990000122; 2074000000; 2095000000; 2074000000; 1948000122; 1927000000; 1885000000; 1843000000; 1885000000; 1927000000; 2011000000; 2053000000; 2011000000; 1885000000; 1676000000; 1466000000; 1287000000; 1252000000; 1184000000; 1132000000; 1115000000; 1115000000; 1167000000; 1270000000; 1424000000; 1527000000; 1579000000; 1613000000; 1561000000; 1544000000; 1544000000; 1476000000; 1458000000; 1510000000; 1579000000; 1716000122; 1663999878; 1630000000; 1544000000; 1458000000; 1253000000; 1220000000; 1153000000; 1103000000; 1086000000; 1086000000; 1136000000; 1237000000; 1387000000; 1487000000; 1537999878; 1571000000; 1521000122; 1504000122; 1504000122; 1437000000; 1420000000; 1471000000; 1537999878; 1671000000; 1621000000; 1588000000; 1504000122; 1420000000; 1307000000; 1286000000; 1245000000; 1203000000; 1224000000; 1349000000; 1494000000; 1764000000; 1971000000; 2055000000; 2075000000; 2055000000; 1930000000; 1909000000; 1868000000; 1826000000; 1868000000; 1909000000; 1991999878; 2033999878; 1991999878; 1868000000; 1660000000; 1453000000; 1406000000; 1383000000; 1339000000; 1294000000; 1316000000; 1450000000; 1606999878; 1897000000; 2120000000; 2209000000; 2231000000; 2209000000; 2075000000; 2053000000; 2008000000; 1964000000; 2008000000; 2053000000; 2142000000; 2187000000; 2142000000; 2008000000; 1785000122; 1562000000; 1378000000; 1356000000; 1312000000; 1268000000; 1290000000; 1421000000; 1574000000; 1859000122; 2077000000; 2165000000; 2187000000; 2165000000; 2033999878; 2012000122; 1968000000; 1924000000; 1968000000; 2012000122; 2099000000; 2143000000; 2099000000; 1968000000; 1749000000; 1531000122; 1349000000; 1328000000; 1285000000; 1242000000; 1264000000; 1392000000; 1542000000; 1821000000; 2035000000; 2121000000; 2142000000; 2121000000; 1991999878; 1971000000; 1927999878; 1885000000; 1927999878; 1971000000; 2057000000; 2099000000; 2057000000; 1927999878; 1714000000; 1499000000; 1321000000; 1300000000; 1258000000; 1216000000; 1237000000; 1363000000; 1510000000; 1783000000; 1993000000; 2077000000; 2098000000; 2077000000; 1951000000; 1930000000; 1888000000; 1846000000; 1888000000; 1930000000; 2014000000; 2056000000; 2014000000; 1888000000; 1678000000; 1468000000; 1288000000; 1254000000; 1185000000; 1134000000; 1117000000; 1117000000; 1168000000; 1271000000; 1426000000; 1529000000; 1581000000; 1615000122; 1563000122; 1546000122; 1546000122; 1478000000; 1460000000; 1512000000; 1581000000; 1717999878; 1667000000; 1632000122; 1546000122; 1460000000; 1255000000; 1222000000; 1155000000; 1104000000; 1088000000; 1088000000; 1138000000; 1238000000; 1389000000; 1489000000; 1540000000; 1573000122; 1523000000; 1505999878; 1505999878; 1439000000; 1422000000; 1473000000; 1540000000; 1673000000; 1623000000; 1589999878; 1505999878; 1422000000; 1406000000; 1383000000; 1339000000; 1294000000; 1316000000; 1450000000; 1606999878; 1897000000; 2120000000; 2209000000; 2231000000; 2209000000; 2075000000; 2053000000; 2008000000; 1964000000; 2008000000; 2053000000; 2142000000; 2187000000; 2142000000; 2008000000; 1785000122; 1562000000; 1510999878; 1487000000; 1439000000; 1391000000; 1415000000; 1559000000; 1727000000; 2038999878; 2279000000; 2375000000; 2399000000; 2375000000; 2231000000; 2207000000; 2159000000; 2111000000; 2159000000; 2207000000; 2303000000; 2351000000; 2303000000; 2159000000; 1919000000; 1679000122; 1481000000; 1458000000; 1411000000; 1364000000; 1387000000; 1527999878; 1693000000; 1999000000; 2234000000; 2328000000; 2351000000; 2328000000; 2187000000; 2163000000; 2116000000; 2069000000; 2116000000; 2163000000; 2257000000; 2304000000; 2257000000; 2116000000; 1880999878; 1646000000; 1451000000; 1428000000; 1382000000; 1336000000; 1359000000; 1497000000; 1658000000; 1958000122; 2188000000; 2280000000; 2303000000; 2280000000; 2142000000; 2119000000; 2073000000; 2027000122; 2073000000; 2119000000; 2211000000; 2257000000; 2211000000; 2073000000; 1843000000; 1611999878; 1421000000; 1398000000; 1353000000; 1308000000; 1331000000; 1466000000; 1624000000; 1917000000; 2143000000; 2233000000; 2255000000; 2233000000; 2098000000; 2075000000; 2030000000; 1985000122; 2030000000; 2075000000; 2165000000; 2210000000; 2165000000; 2030000000; 1804000000; 1579000000; 1385000000; 1349000000; 1275000000; 1219000000; 1201000000; 1201000000; 1256000000; 1367000000; 1532999878; 1643999878; 1700000000; 1737000000; 1680999878; 1663000000; 1663000000; 1589000000; 1569999878; 1626000000; 1700000000; 1847000122; 1791999878; 1754999878; 1663000000; 1569999878; 1349000000; 1313000000; 1241000000; 1187000000; 1169000000; 1169000000; 1223000000; 1331000000; 1493000000; 1601000000; 1655000000; 1690999878; 1637000122; 1619000000; 1619000000; 1547000000; 1529000000; 1583000122; 1655000000; 1799000000; 1745000000; 1709000000; 1619000000; 1529000000; 1646000000; 1547999878; 1474000000; 1450000000; 1450000000; 1474000000; 1818000000; 2113000000; 2335000000; 2359000000; 2359000000; 2335000000; 2335000000; 2335000000; 2285000000; 2310000000; 2433000000; 2457000000; 2457000000; 2359000000; 2236000000; 2040000000; 1794000000; 1547999878; 1769999878; 1665000000; 1584999878; 1559000000; 1559000000; 1584999878; 1954999878; 2272000000; 2510000000; 2537000000; 2537000000; 2510000000; 2510000000; 2510000000; 2457000000; 2484000000; 2616000000; 2643000000; 2643000000; 2537000000; 2405000000; 2193000000; 1929000000; 1665000000; 1735000000; 1631000000; 1554000000; 1527999878; 1527999878; 1554000000; 1916000122; 2227000000; 2460000000; 2486000000; 2486000000; 2460000000; 2460000000; 2460000000; 2408000000; 2434000000; 2564000000; 2590000000; 2590000000; 2486000000; 2357000000; 2149000000; 1890000000; 1631000000; 1699000000; 1598000000; 1522000000; 1496000000; 1496000000; 1522000000; 1877000000; 2182000000; 2410000000; 2435000000; 2435000000; 2410000000; 2410000000; 2410000000; 2359000000; 2385000000; 2511000000; 2537000000; 2537000000; 2435000000; 2308000000; 2105000000; 1852000000; 1598000000; 1663999878; 1564999878; 1490000000; 1465000000; 1465000000; 1490000000; 1838000000; 2136000000; 2360000000; 2385000000; 2385000000; 2360000000; 2360000000; 2360000000; 2310000000; 2335000000; 2459000000; 2484000000; 2484000000; 2385000000; 2260000000; 2062000000; 1813000000; 1564999878; 1587000000; 1465000000; 1383000000; 1343000000; 1302000000; 1322000000; 1343000000; 1424000000; 1628000000; 1790000122; 1831000000; 1851000000; 1831000000; 1790000122; 1769999878; 1769999878; 1851000000; 2035000000; 2014000000; 1974000000; 1912999878; 1872000000; 1769999878; 1648000000; 1546000122; 1427000000; 1347000000; 1308000000; 1268000000; 1288000000; 1308000000; 1387000000; 1584999878; 1744000000; 1784000000; 1803000000; 1784000000; 1744000000; 1724000000; 1724000000; 1803000000; 1981999878; 1962000000; 1922000000; 1863000000; 1823000000; 1724000000; 1605000122; 1653999878; 1555000000; 1481000000; 1456000000; 1456000000; 1481000000; 1827000122; 2123000000; 2345000000; 2370000000; 2370000000; 2345000000; 2345000000; 2345000000; 2296000000; 2321000000; 2444000000; 2469000000; 2469000000; 2370000000; 2246000000; 2049000000; 1801999878; 1555000000; 1778000000; 1672000000; 1592000000; 1566000000; 1566000000; 1592000000; 1964000000; 2283000000; 2522000000; 2548000000; 2548000000; 2522000000; 2522000000; 2522000000; 2469000000; 2495000000; 2628000000; 2655000000; 2655000000; 2548000000; 2416000000; 2203000000; 1938000122; 1672000000; 1742999878; 1639000000; 1561000000; 1535000000; 1535000000; 1561000000; 1925000000; 2237000000; 2471000000; 2497000000; 2497000000; 2471000000; 2471000000; 2471000000; 2419000000; 2445000000; 2575000000; 2601000000; 2601000000; 2497000000; 2367000000; 2159000000; 1899000000; 1639000000; 1707000000; 1605000122; 1529000000; 1503000000; 1503000000; 1529000000; 1885999878; 2191000000; 2421000000; 2446000000; 2446000000; 2421000000; 2421000000; 2421000000; 2370000000; 2395000000; 2523000000; 2548000000; 2548000000; 2446000000; 2319000000; 2115000000; 1860000000; 1605000122; 1672000000; 1572000000; 1497000000; 1472000000; 1472000000; 1497000000; 1846000000; 2146000000; 2370000000; 2395000000; 2395000000; 2370000000; 2370000000; 2370000000; 2321000000; 2345000000; 2470000000; 2495000000; 2495000000; 2395000000; 2271000000; 2071000000; 1821000000; 1572000000; 1594000000; 1471000000; 1390000000; 1349000000; 1308000000; 1328000000; 1349000000; 1431000000; 1635000000; 1799000000; 1838999878; 1860000000; 1838999878; 1799000000; 1778000000; 1778000000; 1860000000; 2044000122; 2023000000; 1983000000; 1921000122; 1880000000; 1778000000; 1655000000; 1552999878; 1433000000; 1354000000; 1314000000; 1274000000; 1294000000; 1314000000; 1393000000; 1592000000; 1752000000; 1791999878; 1811999878; 1791999878; 1752000000; 1732000000; 1732000000; 1811999878; 1991000000; 1971000000; 1931000000; 1870999878; 1831000000; 1732000000; 1611999878; 1699000000; 1597000000; 1521000122; 1496000000; 1496000000; 1521000122; 1875999878; 2181000000; 2409000000; 2434000000; 2434000000; 2409000000; 2409000000; 2409000000; 2358000000; 2383000000; 2510000000; 2536000000; 2536000000; 2434000000; 2307000000; 2104000000; 1851000000; 1597000000; 1827000122; 1717999878; 1636000000; 1608000000; 1608000000; 1636000000; 2017000122; 2345000000; 2590000000; 2617000000; 2617000000; 2590000000; 2590000000; 2590000000; 2536000000; 2563000000; 2699000000; 2726000000; 2726000000; 2617000000; 2481000000; 2263000000; 1990000122; 1717999878; 1790000122; 1683000000; 1603000000; 1576000000; 1576000000; 1603000000; 1976999878; 2298000000; 2538000000; 2565000000; 2565000000; 2538000000; 2538000000; 2538000000; 2485000000; 2512000000; 2645000000; 2672000000; 2672000000; 2565000000; 2431000000; 2218000000; 1949999878; 1683000000; 1754000000; 1648999878; 1569999878; 1544000000; 1544000000; 1569999878; 1937000000; 2251000000; 2487000000; 2513000000; 2513000000; 2487000000; 2487000000; 2487000000; 2434000000; 2460000000; 2591000000; 2617000000; 2617000000; 2513000000; 2382000000; 2172000000; 1911000122; 1648999878; 1717000000; 1614000000; 1537999878; 1512000000; 1512000000; 1537999878; 1896000122; 2204000000; 2435000000; 2460000000; 2460000000; 2435000000; 2435000000; 2435000000; 2383000000; 2409000000; 2537000000; 2563000000; 2563000000; 2460000000; 2332000000; 2127000000; 1870999878; 1614000000; 1637000122; 1510999878; 1427000000; 1385000000; 1343000000; 1364000000; 1385000000; 1469000000; 1679000122; 1847000122; 1889000000; 1910000000; 1889000000; 1847000122; 1826000000; 1826000000; 1910000000; 2099000000; 2078000000; 2036000000; 1973000000; 1931000000; 1826000000; 1700000000; 1595000122; 1472000000; 1390000000; 1349000000; 1308000000; 1329000000; 1349000000; 1431000000; 1636000000; 1799000000; 1840000000; 1861000000; 1840000000; 1799000000; 1779000000; 1779000000; 1861000000; 2045000000; 2023999878; 1983000000; 1922000000; 1880999878; 1779000000; 1656000000; 1757000000; 1652000122; 1573000122; 1547000000; 1547000000; 1573000122; 1939999878; 2255000000; 2491000000; 2517000000; 2517000000; 2491000000; 2491000000; 2491000000; 2439000000; 2465000000; 2596000000; 2622000000; 2622000000; 2517000000; 2386000000; 2176000000; 1914000000; 1652000122; 1889000000; 1776000000; 1690999878; 1663000000; 1663000000; 1690999878; 2086000000; 2425000000; 2678000000; 2707000000; 2707000000; 2678000000; 2678000000; 2678000000; 2622000000; 2650000000; 2791000000; 2819000000; 2819000000; 2707000000; 2566000000; 2340000000; 2058000000; 1776000000; 1851000000; 1741000000; 1658000000; 1630000000; 1630000000; 1658000000; 2045000000; 2376000000; 2625000000; 2653000000; 2653000000; 2625000000; 2625000000; 2625000000; 2570000000; 2597000000; 2735000000; 2763000000; 2763000000; 2653000000; 2514000000; 2293000000; 2017000122; 1741000000; 1813000000; 1705000000; 1624000000; 1597000000; 1597000000; 1624000000; 2003000000; 2328000000; 2571000000; 2598000000; 2598000000; 2571000000; 2571000000; 2571000000; 2517000000; 2544000000; 2680000000; 2707000000; 2707000000; 2598000000; 2463000000; 2246000000; 1976000000; 1705000000; 1776000000; 1670000000; 1589999878; 1563000122; 1563000122; 1589999878; 1961000000; 2279000000; 2518000000; 2544000000; 2544000000; 2518000000; 2518000000; 2518000000; 2465000000; 2491000000; 2624000000; 2650000000; 2650000000; 2544000000; 2412000000; 2200000000; 1935000000; 1670000000; 1693000000; 1563000122; 1476000000; 1433000000; 1389000000; 1411000000; 1433000000; 1519000000; 1737000000; 1910000000; 1954000000; 1975000122; 1954000000; 1910000000; 1889000000; 1889000000; 1975000122; 2171000000; 2149000000; 2106000000; 2041000000; 1996999878; 1889000000; 1758000122; 1648999878; 1522000000; 1438000000; 1395000000; 1353000000; 1374000000; 1395000000; 1480000000; 1690999878; 1861000000; 1902999878; 1924000000; 1902999878; 1861000000; 1840000000; 1840000000; 1924000000; 2114000000; 2093000000; 2051000000; 1988000000; 1944999878; 1840000000; 1713000000; 1663000000; 1564000000; 1489000000; 1465000000; 1465000000; 1489000000; 1837000122; 2135000000; 2358000000; 2383000000; 2383000000; 2358000000; 2358000000; 2358000000; 2309000000; 2334000000; 2458000000; 2483000000; 2483000000; 2383000000; 2259000000; 2060000000; 1811999878; 1564000000; 1788000000; 1682000000; 1601000000; 1574999878; 1574999878; 1601000000; 1975000122; 2296000000; 2536000000; 2563000000; 2563000000; 2536000000; 2536000000; 2536000000; 2483000000; 2509000000; 2643000000; 2670000000; 2670000000; 2563000000; 2429000000; 2216000000; 1949000000; 1682000000; 1753000122; 1648000000; 1569000000; 1542999878; 1542999878; 1569000000; 1936000000; 2250000000; 2485000000; 2511000000; 2511000000; 2485000000; 2485000000; 2485000000; 2433000000; 2459000000; 2590000000; 2616000000; 2616000000; 2511000000; 2381000000; 2171000000; 1910000000; 1648000000; 1717000000; 1614000000; 1537000000; 1512000000; 1512000000; 1537000000; 1896000122; 2204000000; 2435000000; 2460000000; 2460000000; 2435000000; 2435000000; 2435000000; 2383000000; 2409000000; 2537000000; 2563000000; 2563000000; 2460000000; 2332000000; 2127000000; 1870999878; 1614000000; 1680999878; 1581000000; 1505000000; 1480000000; 1480000000; 1505000000; 1857000000; 2158000000; 2384000000; 2409000000; 2409000000; 2384000000; 2384000000; 2384000000; 2334000000; 2359000000; 2484000000; 2509000000; 2509000000; 2409000000; 2283000000; 2083000000; 1832000122; 1581000000; 1603000000; 1480000000; 1398000000; 1356000000; 1315000000; 1336000000; 1356000000; 1439000000; 1643999878; 1809000000; 1850000000; 1870000000; 1850000000; 1809000000; 1788000000; 1788000000; 1870000000; 2055000000; 2035000000; 1994000000; 1932000000; 1890999878; 1788000000; 1665000000; 1561000000; 1441000000; 1361000000; 1321000000; 1281000000; 1301000000; 1321000000; 1401000000; 1601000000; 1762000000; 1801999878; 1822000122; 1801999878; 1762000000; 1742000000; 1742000000; 1822000122; 2001999878; 1981999878; 1942000000; 1882000000; 1842000122; 1742000000; 1621999878; 1759999878; 1655000000; 1576000000; 1550000000; 1550000000; 1576000000; 1944000000; 2260000000; 2496000000; 2523000000; 2523000000; 2496000000; 2496000000; 2496000000; 2444000000; 2470000000; 2601000000; 2628000000; 2628000000; 2523000000; 2391000000; 2181000000; 1917999878; 1655000000; 1893000000; 1779999878; 1695000000; 1667000000; 1667000000; 1695000000; 2091000000; 2430000000; 2684000000; 2712000000; 2712000000; 2684000000; 2684000000; 2684000000; 2628000000; 2656000000; 2797000000; 2825000000; 2825000000; 2712000000; 2571000000; 2345000000; 2062000000; 1779999878; 1855000000; 1744000000; 1661000000; 1633000000; 1633000000; 1661000000; 2049000000; 2381000000; 2631000000; 2658000000; 2658000000; 2631000000; 2631000000; 2631000000; 2575000000; 2603000000; 2741000000; 2769000000; 2769000000; 2658000000; 2520000000; 2298000000; 2021000000; 1744000000; 1816999878; 1709000000; 1626999878; 1600000122; 1600000122; 1626999878; 2007000122; 2333000000; 2577000000; 2604000000; 2604000000; 2577000000; 2577000000; 2577000000; 2523000000; 2550000000; 2685000000; 2712000000; 2712000000; 2604000000; 2468000000; 2251000000; 1980000122; 1709000000; 1779000000; 1673000000; 1593000000; 1567000000; 1567000000; 1593000000; 1964999878; 2284000000; 2523000000; 2550000000; 2550000000; 2523000000; 2523000000; 2523000000; 2470000000; 2497000000; 2629000000; 2656000000; 2656000000; 2550000000; 2417000000; 2204000000; 1939000000; 1673000000; 1697000000; 1566000000; 1479000000; 1436000000; 1392000000; 1414000000; 1436000000; 1523000000; 1740000000; 1914000000; 1958000122; 1980000122; 1958000122; 1914000000; 1893000000; 1893000000; 1980000122; 2176000000; 2154000000; 2110000000; 2045000000; 2001000000; 1893000000; 1762000000; 1653000000; 1526000122; 1441000000; 1398000000; 1356000000; 1377000000; 1398000000; 1483000000; 1695000000; 1865000000; 1907000000; 1927999878; 1907000000; 1865000000; 1843000000; 1843000000; 1927999878; 2119000000; 2098000000; 2055000000; 1991999878; 1949000000; 1843000000; 1716000122; 1813000000; 1704000000; 1623000000; 1596000000; 1596000000; 1623000000; 2001999878; 2327000000; 2570000000; 2598000000; 2598000000; 2570000000; 2570000000; 2570000000; 2516000000; 2543000000; 2679000000; 2706000000; 2706000000; 2598000000; 2462000000; 2246000000; 1975000122; 1704000000; 1949000000; 1833000000; 1745000000; 1716000122; 1716000122; 1745000000; 2153000000; 2502000000; 2764000000; 2793000000; 2793000000; 2764000000; 2764000000; 2764000000; 2706000000; 2735000000; 2880000000; 2909000000; 2909000000; 2793000000; 2648000000; 2415000000; 2124000000; 1833000000; 1910000000; 1796000000; 1711000122; 1682000000; 1682000000; 1711000122; 2110000000; 2452000000; 2709000000; 2737000000; 2737000000; 2709000000; 2709000000; 2709000000; 2652000000; 2680000000; 2823000000; 2851000000; 2851000000; 2737000000; 2595000000; 2366000000; 2081000000; 1796000000; 1870999878; 1759000000; 1676000000; 1648000000; 1648000000; 1676000000; 2067000000; 2402000000; 2653000000; 2681000000; 2681000000; 2653000000; 2653000000; 2653000000; 2598000000; 2625000000; 2765000000; 2793000000; 2793000000; 2681000000; 2542000000; 2318000000; 2038999878; 1759000000; 1832000122; 1722999878; 1641000000; 1613000000; 1613000000; 1641000000; 2023999878; 2352000000; 2598000000; 2625000000; 2625000000; 2598000000; 2598000000; 2598000000; 2543000000; 2571000000; 2708000000; 2735000000; 2735000000; 2625000000; 2489000000; 2270000000; 1996000000; 1722999878; 1747000000; 1613000000; 1523000000; 1478000000; 1434000000; 1456000000; 1478000000; 1568000122; 1791999878; 1971000000; 2016000000; 2038999878; 2016000000; 1971000000; 1949000000; 1949000000; 2038999878; 2240000000; 2218000000; 2173000000; 2106000000; 2061000000; 1949000000; 1814000000; 1702000000; 1571000000; 1484000000; 1440000000; 1396000000; 1418000000; 1440000000; 1527000000; 1745000000; 1920000000; 1964000000; 1986000000; 1964000000; 1920000000; 1898000000; 1898000000; 1986000000; 2182000000; 2160000000; 2117000000; 2051000000; 2007000122; 1898000000; 1767000000; 1869000122; 1757000000; 1673000000; 1646000000; 1646000000; 1673000000; 2064000000; 2399000000; 2650000000; 2678000000; 2678000000; 2650000000; 2650000000; 2650000000; 2594000000; 2622000000; 2762000000; 2789000000; 2789000000; 2678000000; 2538000000; 2315000000; 2036000000; 1757000000; 2009000000; 1890000000; 1799000000; 1769000000; 1769000000; 1799000000; 2219000000; 2579000000; 2849000000; 2879000000; 2879000000; 2849000000; 2849000000; 2849000000; 2789000000; 2819000000; 2969000000; 3000000000; 3000000000; 2879000000; 2730000000; 2489000000; 2189000000; 1890000000; 1969000000; 1852000000; 1763000122; 1734000000; 1734000000; 1763000122; 2175000000; 2528000000; 2792000000; 2822000000; 2822000000; 2792000000; 2792000000; 2792000000; 2734000000; 2763000000; 2910000000; 2939000000; 2939000000; 2822000000; 2675000000; 2440000000; 2146000000; 1852000000; 1929000000; 1814000000; 1727000000; 1699000000; 1699000000; 1727000000; 2131000000; 2476000000; 2735000000; 2764000000; 2764000000; 2735000000; 2735000000; 2735000000; 2678000000; 2707000000; 2851000000; 2879000000; 2879000000; 2764000000; 2620000000; 2390000000; 2102000000; 1814000000; 1889000000; 1776000000; 1690999878; 1663000000; 1663000000; 1690999878; 2086000000; 2425000000; 2678000000; 2707000000; 2707000000; 2678000000; 2678000000; 2678000000; 2622000000; 2650000000; 2791000000; 2819000000; 2819000000; 2707000000; 2566000000; 2340000000; 2058000000; 1776000000; 1801000000; 1663000000; 1569999878; 1524000000; 1478000000; 1500999878; 1524000000; 1616000000; 1847000122; 2032000122; 2078000000; 2102000000; 2078000000; 2032000122; 2009000000; 2009000000; 2102000000; 2310000000; 2286000000; 2240000000; 2171000000; 2125000000; 2009000000; 1870999878; 1754000000; 1619000000; 1529000000; 1484000000; 1439000000; 1462000000; 1484000000; 1574000000; 1799000000; 1979000000; 2023999878; 2047000000; 2023999878; 1979000000; 1957000000; 1957000000; 2047000000; 2250000000; 2227000000; 2182000000; 2114000000; 2069000000; 1957000000; 1822000122; 1779000000; 1673000000; 1593000000; 1567000000; 1567000000; 1593000000; 1964999878; 2284000000; 2523000000; 2549000000; 2549000000; 2523000000; 2523000000; 2523000000; 2470000000; 2496000000; 2629000000; 2656000000; 2656000000; 2549000000; 2417000000; 2204000000; 1938000122; 1673000000; 1912999878; 1799000000; 1713000000; 1685000000; 1685000000; 1713000000; 2113000000; 2456000000; 2713000000; 2741000000; 2741000000; 2713000000; 2713000000; 2713000000; 2656000000; 2684000000; 2827000000; 2855000000; 2855000000; 2741000000; 2598000000; 2370000000; 2084000000; 1799000000; 1875000000; 1763000122; 1679000122; 1651000000; 1651000000; 1679000122; 2071000000; 2407000000; 2658000000; 2686000000; 2686000000; 2658000000; 2658000000; 2658000000; 2602000000; 2630000000; 2770000000; 2798000000; 2798000000; 2686000000; 2546000000; 2323000000; 2043000000; 1763000122; 1836000000; 1727000000; 1645000000; 1616999878; 1616999878; 1645000000; 2028000000; 2357000000; 2604000000; 2632000000; 2632000000; 2604000000; 2604000000; 2604000000; 2549000000; 2577000000; 2714000000; 2741000000; 2741000000; 2632000000; 2495000000; 2275000000; 2001000000; 1727000000; 1798000000; 1690999878; 1610000122; 1583000122; 1583000122; 1610000122; 1986000000; 2308000000; 2550000000; 2577000000; 2577000000; 2550000000; 2550000000; 2550000000; 2496000000; 2523000000; 2657000000; 2684000000; 2684000000; 2577000000; 2443000000; 2228000000; 1959000000; 1690999878; 1715000000; 1583000122; 1495000000; 1451000000; 1407000000; 1429000000; 1451000000; 1539000000; 1759000000; 1935000000; 1979000000; 2001000000; 1979000000; 1935000000; 1912999878; 1912999878; 2001000000; 2199000000; 2177000000; 2133000000; 2067000000; 2023000000; 1912999878; 1781000000; 1670000000; 1542000000; 1456000000; 1413000000; 1370000000; 1392000000; 1413000000; 1499000000; 1713000000; 1884000122; 1927000000; 1949000000; 1927000000; 1884000122; 1863000000; 1863000000; 1949000000; 2141000000; 2120000000; 2077000000; 2013000000; 1970000122; 1863000000; 1735000000; 1321000000; 1321000000; 1321000000; 1321000000; 1321000000; 1321000000; 1601000000; 1601000000; 1601000000; 1601000000; 1601000000; 1850000000; 1850000000; 1850000000; 1850000000; 2027000122; 2027000122; 2027000122; 2195000000; 2195000000; 2356000000; 2356000000; 2496000000; 2496000000])). exact I. Qed.
Example dpeak_5 : True.
Proof. agrees (let '(h, d, m) := dpeak 24 [loads1] in neq (hd [] h) (map Z.to_nat [17; 41; 65; 89; 113; 137; 161; 185; 209; 233; 257; 281; 305; 329; 353; 377; 401; 425; 449; 473; 497; 521; 545; 569; 593; 617; 641; 665; 689; 713; 737; 761; 785; 809; 833; 857; 881; 905; 929; 953; 977; 1001; 1025; 1049; 1073; 1097; 1121; 1145; 1169; 1193; 1217; 1241; 1265; 1289; 1313; 1337; 1354; 1378; 1402; 1426; 1450; 1483; 1507; 1522; 1546; 1570; 1594; 1618; 1651; 1675; 1690; 1714; 1738; 1762; 1786; 1819; 1843; 1858; 1882; 1906; 1930; 1954; 1987; 2011; 2026; 2050; 2074; 2098; 2122; 2155; 2179; 2194; 2218; 2242; 2266; 2290; 2323; 2347; 2362; 2386; 2410; 2434; 2458; 2491; 2515; 2530; 2554; 2578; 2602; 2626; 2659; 2683; 2698; 2722; 2746; 2770; 2794; 2827; 2851; 2867; 2891; 2915; 2939; 2963; 2996; 3020; 3035; 3059; 3083; 3107; 3131; 3164; 3188; 3203; 3227; 3251; 3275; 3299; 3332; 3356; 3371; 3395; 3419; 3443; 3467; 3500; 3524; 3539; 3563; 3587; 3611; 3635; 3668; 3692; 3707; 3731; 3755; 3779; 3803; 3836; 3860; 3875; 3899; 3923; 3947; 3971; 4004; 4028; 4043; 4067; 4091; 4115; 4139; 4172; 4196; 4211; 4235; 4259; 4283; 4307; 4340; 4364; 4379; 4403; 4427; 4451; 4475; 4508; 4532; 4547; 4571; 4595; 4619; 4643; 4676; 4700; 4715; 4739; 4763; 4787; 4811; 4844; 4868; 4883; 4907; 4931; 4955; 4979; 5012; 5036; 5050; 5074; 5098; 5122; 5146; 5179; 5203; 5218; 5242; 5266; 5290; 5314; 5347; 5371; 5386; 5410; 5434; 5458; 5482; 5515; 5539; 5554; 5578; 5602; 5626; 5650; 5683; 5707; 5722; 5746; 5770; 5794; 5818; 5851; 5875; 5890; 5914; 5938; 5962; 5986; 6019; 6043; 6058; 6082; 6106; 6130; 6154; 6187; 6211; 6226; 6250; 6274; 6298; 6322; 6355; 6379; 6394; 6418; 6442; 6466; 6490; 6523; 6547; 6562; 6586; 6610; 6634; 6658; 6691; 6715; 6730; 6754; 6778; 6802; 6826; 6859; 6883; 6898; 6922; 6946; 6970; 6994; 7027; 7051; 7066; 7090; 7114; 7138; 7162; 7195; 7219; 7241; 7265; 7289; 7313; 7337; 7361; 7385; 7409; 7433; 7457; 7481; 7505; 7529; 7553; 7577; 7601; 7625; 7649; 7673; 7697; 7721; 7745; 7769; 7793; 7817; 7841; 7865; 7889; 7913; 7937; 7961; 7985; 8009; 8033; 8057; 8081; 8105; 8129; 8153; 8177; 8201; 8225; 8249; 8273; 8297; 8321; 8345; 8369; 8393; 8417; 8441; 8465; 8489; 8513; 8537; 8561; 8585; 8609; 8633; 8657; 8681; 8705; 8729; 8758]) && vnear 4 (hd [] d) (qs 100000000 [240400000000; 258500000000; 253400000000; 248200000000; 243000000000; 199100000000; 193900000000; 251000000000; 270000000000; 264500000000; 259100000000; 253700000000; 207800000000; 202399987793; 244900000000; 263400000000; 258100000000; 252800000000; 247500000000; 202800000000; 197500012207; 232600000000; 250100000000; 245100000000; 240100000000; 235100000000; 192600000000; 187599987793; 245500000000; 264000000000; 258700000000; 253400000000; 248100000000; 203200012207; 197900000000; 234600000000; 252300000000; 247200000000; 242200000000; 237100000000; 194200000000; 189200000000; 232100000000; 249500000000; 244600000000; 239600000000; 234600000000; 192100012207; 187099987793; 224800000000; 241800000000; 236900000000; 232100000000; 227200000000; 186100000000; 181300000000; 206400000000; 221900000000; 217500000000; 213100000000; 208600000000; 170900000000; 166399987793; 205600000000; 221000000000; 216600000000; 212200000000; 207800000000; 170200000000; 165800000000; 199400000000; 214400000000; 210200000000; 205900000000; 201600000000; 165100000000; 160800000000; 202800000000; 218000000000; 213700000000; 209300000000; 205000000000; 167900012207; 163500000000; 196400000000; 211100000000; 206900000000; 202700012207; 198500012207; 162600000000; 158300012207; 209200000000; 225000000000; 220400000000; 215900000000; 211400000000; 173200000000; 168700000000; 201100000000; 216200000000; 211900000000; 207600000000; 203300000000; 166500000000; 162199987793; 223100000000; 239900000000; 235100000000; 230300000000; 225500000000; 184700012207; 179900000000; 210300000000; 226100000000; 221600000000; 217100000000; 212600000000; 174100000000; 169599987793; 233500000000; 251000000000; 246000000000; 241000000000; 236000000000; 193300012207; 188300000000; 242700000000; 260900000000; 255700000000; 250500000000; 245300000000; 200900000000; 195700000000; 245500000000; 264000000000; 258700000000; 253400000000; 248100000000; 203200012207; 197900000000; 238800000000; 256700000000; 251600000000; 246500000000; 241300000000; 197699987793; 192500000000; 226200000000; 243300000000; 238400000000; 233500000000; 228700000000; 187300000000; 182400000000; 251000000000; 270000000000; 264500000000; 259100000000; 253700000000; 207800000000; 202399987793; 247400000000; 266100000000; 260700000000; 255400000000; 250100000000; 204800000000; 199500012207; 249900000000; 268800000000; 263400000000; 258000000000; 252600000000; 206900000000; 201500000000; 240200000000; 258300000000; 253100000000; 247900000000; 242800000000; 198800000000; 193700000000; 210600000000; 226500000000; 221900000000; 217400000000; 212900000000; 174400000000; 169800000000; 227600000000; 244800000000; 239900000000; 235000000000; 230100000000; 188400012207; 183600000000; 223400000000; 240300000000; 235400000000; 230600000000; 225800000000; 185000000000; 180199987793; 245500000000; 264000000000; 258700000000; 253400000000; 248100000000; 203200012207; 197900000000; 201400000000; 216500000000; 212200000000; 207900000000; 203600000000; 166700000000; 162400000000; 216500000000; 232800000000; 228100000000; 223400000000; 218800000000; 179199987793; 174600000000; 223100000000; 239900000000; 235100000000; 230300000000; 225500000000; 184700012207; 179900000000; 203300000000; 218600000000; 214300000000; 209900000000; 205500000000; 168300000000; 164000000000; 202500000000; 217700000000; 213400000000; 209000000000; 204700000000; 167700000000; 163300000000; 196600000000; 211400000000; 207200000000; 203000000000; 198800000000; 162800000000; 158600000000; 217600000000; 234000000000; 229300000000; 224600000000; 219900000000; 180100000000; 175400000000; 193900000000; 208400000000; 204300000000; 200100000000; 195900000000; 160500012207; 156300012207; 201899987793; 217100000000; 212800000000; 208500000000; 204100000000; 167200000000; 162800000000; 201899987793; 217100000000; 212800000000; 208500000000; 204100000000; 167200000000; 162800000000; 207200000000; 222900000000; 218400000000; 213900000000; 209500000000; 171600012207; 167100000000; 207500000000; 223100000000; 218700000000; 214200000000; 209800000000; 171799987793; 167300000000; 223100000000; 239900000000; 235100000000; 230300000000; 225500000000; 184700012207; 179900000000; 245700000000; 264300000000; 259000000000; 253700000000; 248400000000; 203500000000; 198199987793; 246900000000; 265500000000; 260100000000; 254800000000; 249500000000; 204400012207; 199100000000; 253600000000; 272600000000; 267200000000; 261700000000; 256300000000; 209900000000; 204500000000; 262200000000; 281900000000; 276300000000; 270700000000; 265000000000; 217100000000; 211400000000; 248300000000; 267000000000; 261600000000; 256300000000; 250900000000; 205500000000; 200199987793; 262800000000; 282500000000; 276900000000; 271200000000; 265600000000; 217600000000; 211900000000; 270600000000; 290900000000; 285100000000; 279300000000; 273500000000; 224000000000; 218200000000; 278900000000; 300000000000; 293900000000; 287900000000; 281900000000; 231000000000; 225000000000; 265600000000; 285500000000; 279800000000; 274100000000; 268400000000; 219900000000; 214100000000; 249600000000]) && neq m (map Z.to_nat [351]) && mnear 6 (wpeakf d) (qm 1 [[2585; 2700; 2634; 2501; 2640; 2523; 2495; 2418; 2219; 2210; 2144; 2180; 2111; 2250; 2162; 2399; 2261; 2510; 2609; 2640; 2567; 2433; 2700; 2661; 2688; 2583; 2265; 2448; 2403; 2640; 2165; 2328; 2399; 2186; 2177; 2114; 2340; 2084; 2171; 2171; 2229; 2231; 2399; 2643; 2655; 2726; 2819; 2670; 2825; 2909; 3000; 2855]])). exact I. Qed.
Example plhr_5 : True.
Proof. agrees (neq (plhr [loads1]) (map Z.to_nat [17; 41; 65; 89; 113; 137; 161; 185; 209; 233; 257; 281; 305; 329; 353; 377; 401; 425; 449; 473; 497; 521; 545; 569; 593; 617; 641; 665; 689; 713; 737; 761; 785; 809; 833; 857; 881; 905; 929; 953; 977; 1001; 1025; 1049; 1073; 1097; 1121; 1145; 1169; 1193; 1217; 1241; 1265; 1289; 1313; 1337; 1354; 1378; 1402; 1426; 1450; 1483; 1507; 1522; 1546; 1570; 1594; 1618; 1651; 1675; 1690; 1714; 1738; 1762; 1786; 1819; 1843; 1858; 1882; 1906; 1930; 1954; 1987; 2011; 2026; 2050; 2074; 2098; 2122; 2155; 2179; 2194; 2218; 2242; 2266; 2290; 2323; 2347; 2362; 2386; 2410; 2434; 2458; 2491; 2515; 2530; 2554; 2578; 2602; 2626; 2659; 2683; 2698; 2722; 2746; 2770; 2794; 2827; 2851; 2867; 2891; 2915; 2939; 2963; 2996; 3020; 3035; 3059; 3083; 3107; 3131; 3164; 3188; 3203; 3227; 3251; 3275; 3299; 3332; 3356; 3371; 3395; 3419; 3443; 3467; 3500; 3524; 3539; 3563; 3587; 3611; 3635; 3668; 3692; 3707; 3731; 3755; 3779; 3803; 3836; 3860; 3875; 3899; 3923; 3947; 3971; 4004; 4028; 4043; 4067; 4091; 4115; 4139; 4172; 4196; 4211; 4235; 4259; 4283; 4307; 4340; 4364; 4379; 4403; 4427; 4451; 4475; 4508; 4532; 4547; 4571; 4595; 4619; 4643; 4676; 4700; 4715; 4739; 4763; 4787; 4811; 4844; 4868; 4883; 4907; 4931; 4955; 4979; 5012; 5036; 5050; 5074; 5098; 5122; 5146; 5179; 5203; 5218; 5242; 5266; 5290; 5314; 5347; 5371; 5386; 5410; 5434; 5458; 5482; 5515; 5539; 5554; 5578; 5602; 5626; 5650; 5683; 5707; 5722; 5746; 5770; 5794; 5818; 5851; 5875; 5890; 5914; 5938; 5962; 5986; 6019; 6043; 6058; 6082; 6106; 6130; 6154; 6187; 6211; 6226; 6250; 6274; 6298; 6322; 6355; 6379; 6394; 6418; 6442; 6466; 6490; 6523; 6547; 6562; 6586; 6610; 6634; 6658; 6691; 6715; 6730; 6754; 6778; 6802; 6826; 6859; 6883; 6898; 6922; 6946; 6970; 6994; 7027; 7051; 7066; 7090; 7114; 7138; 7162; 7195; 7219; 7241; 7265; 7289; 7313; 7337; 7361; 7385; 7409; 7433; 7457; 7481; 7505; 7529; 7553; 7577; 7601; 7625; 7649; 7673; 7697; 7721; 7745; 7769; 7793; 7817; 7841; 7865; 7889; 7913; 7937; 7961; 7985; 8009; 8033; 8057; 8081; 8105; 8129; 8153; 8177; 8201; 8225; 8249; 8273; 8297; 8321; 8345; 8369; 8393; 8417; 8441; 8465; 8489; 8513; 8537; 8561; 8585; 8609; 8633; 8657; 8681; 8705; 8729; 8758])). exact I. Qed.
Example resca_5 : True.
Proof. agrees (okd (do c <- read_cards files5; do c' <- pind c; do x <- datax c'; Ok (sustat (qs 1 [3000; 3000; 3000; 3000; 3000]) (map Z.to_nat [351; 351; 351; 351; 351]) x (map u_cap (c_units c')))) (fun t => mnear 6 t (qm 1 [[3000; 3405; 0; 0; 0; 0];
    [3000; 3405; 0; 0; 0; 0];
    [3000; 3405; 0; 0; 0; 0];
    [3000; 3405; 0; 0; 0; 0];
    [3000; 3405; 0; 0; 0; 0];
    [0; 0; 0; 0; 0; 0]]))). exact I. Qed.
