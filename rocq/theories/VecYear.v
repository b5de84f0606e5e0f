(** The tests of cvchk, year and report: monte_carlo/tests/test_cvchk.py, test_year.py, test_report.py.
    Generated by tools/mkvectors.py; do not edit. *)
From Verif Require Import Base Vec LoadModel StatModel YearModel ReportModel VecStat.
Open Scope Z_scope.

Definition acc_eq (a b : acc) : bool := zmeq (aG a) (aG b) && zmeq (aT a) (aT b) && zmeq (aS a) (aS b) && vnear 6 (wG a) (wG b) && vnear 6 (wT a) (wT b) && vnear 6 (wS a) (wS b).
Definition pacc_eq (a b : pacc) : bool := zeq (pG a) (pG b) && zeq (pT a) (pT b) && zeq (pS a) (pS b) && near 6 (vG a) (vG b) && near 6 (vT a) (vT b) && near 6 (vS a) (vS b).
Definition cumul_eq (a b : cumul) : bool := acc_eq (c_lol a) (c_lol b) && acc_eq (c_mgn a) (c_mgn b) && pacc_eq (c_plol a) (c_plol b) && pacc_eq (c_pmgn a) (c_pmgn b).
Definition cf : ycfg := mkYcfg 1 0 50 (qq 25 1000) (qz 87591240) 5 0 0 1 1 1 2 0.
Definition before1 := (mkYst (mkStat [[0; 0; 0; 0; 0];
    [0; 0; 0; 0; 0];
    [0; 0; 0; 0; 0];
    [0; 0; 0; 0; 0];
    [0; 0; 0; 0; 0]] [[0; 0; 0; 0; 0];
    [0; 0; 0; 0; 0];
    [1; 0; 0; 0; 0];
    [0; 0; 0; 0; 0];
    [0; 0; 0; 0; 0]] [[0; 0; 0; 0; 0];
    [0; 0; 0; 0; 0];
    [0; 0; 0; 0; 0];
    [0; 0; 0; 0; 0];
    [0; 0; 0; 0; 0]] [[0; 0; 0; 0; 0];
    [0; 0; 0; 0; 0];
    [281; 0; 0; 0; 0];
    [0; 0; 0; 0; 0];
    [0; 0; 0; 0; 0]] [0; 0; 0; 0; 0] [1; 0; 0; 0; 0] [0; 0; 0; 0; 0] [281; 0; 0; 0; 0])
   (mkStat [[0; 0; 0; 0; 0];
    [0; 0; 0; 0; 0];
    [0; 0; 0; 0; 0];
    [0; 0; 0; 0; 0];
    [0; 0; 0; 0; 0]] [[0; 0; 0; 0; 0];
    [0; 0; 0; 0; 0];
    [1; 0; 0; 0; 0];
    [0; 0; 0; 0; 0];
    [0; 0; 0; 0; 0]] [[0; 0; 0; 0; 0];
    [0; 0; 0; 0; 0];
    [0; 0; 0; 0; 0];
    [0; 0; 0; 0; 0];
    [0; 0; 0; 0; 0]] [[0; 0; 0; 0; 0];
    [0; 0; 0; 0; 0];
    [281; 0; 0; 0; 0];
    [0; 0; 0; 0; 0];
    [0; 0; 0; 0; 0]] [0; 0; 0; 0; 0] [1; 0; 0; 0; 0] [0; 0; 0; 0; 0] [281; 0; 0; 0; 0])
   (mkCumul (mkAcc [[0; 0; 0; 0; 0];
    [0; 0; 0; 0; 0];
    [0; 0; 0; 0; 0];
    [0; 0; 0; 0; 0];
    [0; 0; 0; 0; 0]] [[0; 0; 0; 0; 0];
    [0; 0; 0; 0; 0];
    [0; 0; 0; 0; 0];
    [0; 0; 0; 0; 0];
    [0; 0; 0; 0; 0]] [[0; 0; 0; 0; 0];
    [0; 0; 0; 0; 0];
    [0; 0; 0; 0; 0];
    [0; 0; 0; 0; 0];
    [0; 0; 0; 0; 0]] (qs 1 [0; 0; 0; 0; 0]) (qs 1 [0; 0; 0; 0; 0]) (qs 1 [0; 0; 0; 0; 0])) (mkAcc [[0; 0; 0; 0; 0];
    [0; 0; 0; 0; 0];
    [0; 0; 0; 0; 0];
    [0; 0; 0; 0; 0];
    [0; 0; 0; 0; 0]] [[0; 0; 0; 0; 0];
    [0; 0; 0; 0; 0];
    [0; 0; 0; 0; 0];
    [0; 0; 0; 0; 0];
    [0; 0; 0; 0; 0]] [[0; 0; 0; 0; 0];
    [0; 0; 0; 0; 0];
    [0; 0; 0; 0; 0];
    [0; 0; 0; 0; 0];
    [0; 0; 0; 0; 0]] (qs 1 [0; 0; 0; 0; 0]) (qs 1 [0; 0; 0; 0; 0]) (qs 1 [0; 0; 0; 0; 0]))
    (mkPacc [0; 0; 0; 0; 0] [0; 0; 0; 0; 0] [0; 0; 0; 0; 0] (qq 0 1) (qq 0 1) (qq 0 1)) (mkPacc [0; 0; 0; 0; 0] [0; 0; 0; 0; 0] [0; 0; 0; 0; 0] (qq 0 1) (qq 0 1) (qq 0 1)))
   (mkCumul (mkAcc [[0; 0; 0; 0; 0];
    [0; 0; 0; 0; 0];
    [0; 0; 0; 0; 0];
    [0; 0; 0; 0; 0];
    [0; 0; 0; 0; 0]] [[0; 0; 0; 0; 0];
    [0; 0; 0; 0; 0];
    [0; 0; 0; 0; 0];
    [0; 0; 0; 0; 0];
    [0; 0; 0; 0; 0]] [[0; 0; 0; 0; 0];
    [0; 0; 0; 0; 0];
    [0; 0; 0; 0; 0];
    [0; 0; 0; 0; 0];
    [0; 0; 0; 0; 0]] (qs 1 [0; 0; 0; 0; 0]) (qs 1 [0; 0; 0; 0; 0]) (qs 1 [0; 0; 0; 0; 0])) (mkAcc [[0; 0; 0; 0; 0];
    [0; 0; 0; 0; 0];
    [0; 0; 0; 0; 0];
    [0; 0; 0; 0; 0];
    [0; 0; 0; 0; 0]] [[0; 0; 0; 0; 0];
    [0; 0; 0; 0; 0];
    [0; 0; 0; 0; 0];
    [0; 0; 0; 0; 0];
    [0; 0; 0; 0; 0]] [[0; 0; 0; 0; 0];
    [0; 0; 0; 0; 0];
    [0; 0; 0; 0; 0];
    [0; 0; 0; 0; 0];
    [0; 0; 0; 0; 0]] (qs 1 [0; 0; 0; 0; 0]) (qs 1 [0; 0; 0; 0; 0]) (qs 1 [0; 0; 0; 0; 0]))
    (mkPacc [0; 0; 0; 0; 0] [0; 0; 0; 0; 0] [0; 0; 0; 0; 0] (qq 0 1) (qq 0 1) (qq 0 1)) (mkPacc [0; 0; 0; 0; 0] [0; 0; 0; 0; 0] [0; 0; 0; 0; 0] (qq 0 1) (qq 0 1) (qq 0 1)))
   [[0; 0; 0; 0; 0; 0; 0; 0; 0; 0; 0; 0; 0; 0; 0; 0; 0; 0; 0; 0; 0; 0];
    [0; 0; 0; 0; 0; 0; 0; 0; 0; 0; 0; 0; 0; 0; 0; 0; 0; 0; 0; 0; 0; 0];
    [0; 0; 0; 0; 0; 0; 0; 0; 0; 0; 0; 0; 0; 0; 0; 0; 0; 0; 0; 0; 0; 0];
    [0; 0; 0; 0; 0; 0; 0; 0; 0; 0; 0; 0; 0; 0; 0; 0; 0; 0; 0; 0; 0; 0];
    [0; 0; 0; 0; 0; 0; 0; 0; 0; 0; 0; 0; 0; 0; 0; 0; 0; 0; 0; 0; 0; 0]] [[0; 0; 0; 0; 0; 0; 0; 0; 0; 0; 0; 0; 0; 0; 0; 0; 0; 0; 0; 0; 0; 0];
    [0; 0; 0; 0; 0; 0; 0; 0; 0; 0; 0; 0; 0; 0; 0; 0; 0; 0; 0; 0; 0; 0];
    [0; 0; 0; 0; 0; 0; 0; 0; 0; 0; 0; 0; 0; 0; 0; 0; 0; 0; 0; 0; 0; 0];
    [0; 0; 0; 0; 0; 0; 0; 0; 0; 0; 0; 0; 0; 0; 0; 0; 0; 0; 0; 0; 0; 0];
    [0; 0; 0; 0; 0; 0; 0; 0; 0; 0; 0; 0; 0; 0; 0; 0; 0; 0; 0; 0; 0; 0]] [[0; 0; 0; 0; 0; 0; 0; 0; 0; 0; 0; 0; 0; 0; 0; 0; 0; 0; 0; 0; 0; 0];
    [0; 0; 0; 0; 0; 0; 0; 0; 0; 0; 0; 0; 0; 0; 0; 0; 0; 0; 0; 0; 0; 0];
    [0; 0; 0; 0; 0; 0; 0; 0; 0; 0; 0; 0; 0; 0; 0; 0; 0; 0; 0; 0; 0; 0];
    [0; 0; 0; 0; 0; 0; 0; 0; 0; 0; 0; 0; 0; 0; 0; 0; 0; 0; 0; 0; 0; 0];
    [0; 0; 0; 0; 0; 0; 0; 0; 0; 0; 0; 0; 0; 0; 0; 0; 0; 0; 0; 0; 0; 0]]
   (qm 1 [[0; 0; 0];
    [0; 0; 0];
    [0; 0; 0];
    [0; 0; 0];
    [0; 0; 0]]) (qs 1 [0; 0; 0]) (qz 0) (qz 0) 5 11).
Definition after1 := (mkYst (mkStat [[0; 0; 0; 0; 0];
    [0; 0; 0; 0; 0];
    [0; 0; 0; 0; 0];
    [0; 0; 0; 0; 0];
    [0; 0; 0; 0; 0]] [[0; 0; 0; 0; 0];
    [0; 0; 0; 0; 0];
    [0; 0; 0; 0; 0];
    [0; 0; 0; 0; 0];
    [0; 0; 0; 0; 0]] [[0; 0; 0; 0; 0];
    [0; 0; 0; 0; 0];
    [0; 0; 0; 0; 0];
    [0; 0; 0; 0; 0];
    [0; 0; 0; 0; 0]] [[0; 0; 0; 0; 0];
    [0; 0; 0; 0; 0];
    [0; 0; 0; 0; 0];
    [0; 0; 0; 0; 0];
    [0; 0; 0; 0; 0]] [0; 0; 0; 0; 0] [0; 0; 0; 0; 0] [0; 0; 0; 0; 0] [0; 0; 0; 0; 0])
   (mkStat [[0; 0; 0; 0; 0];
    [0; 0; 0; 0; 0];
    [0; 0; 0; 0; 0];
    [0; 0; 0; 0; 0];
    [0; 0; 0; 0; 0]] [[0; 0; 0; 0; 0];
    [0; 0; 0; 0; 0];
    [0; 0; 0; 0; 0];
    [0; 0; 0; 0; 0];
    [0; 0; 0; 0; 0]] [[0; 0; 0; 0; 0];
    [0; 0; 0; 0; 0];
    [0; 0; 0; 0; 0];
    [0; 0; 0; 0; 0];
    [0; 0; 0; 0; 0]] [[0; 0; 0; 0; 0];
    [0; 0; 0; 0; 0];
    [0; 0; 0; 0; 0];
    [0; 0; 0; 0; 0];
    [0; 0; 0; 0; 0]] [0; 0; 0; 0; 0] [0; 0; 0; 0; 0] [0; 0; 0; 0; 0] [0; 0; 0; 0; 0])
   (mkCumul (mkAcc [[0; 0; 0; 0; 0];
    [0; 0; 0; 0; 0];
    [0; 0; 0; 0; 0];
    [0; 0; 0; 0; 0];
    [0; 0; 0; 0; 0]] [[0; 0; 0; 0; 0];
    [0; 0; 0; 0; 0];
    [1; 0; 0; 0; 0];
    [0; 0; 0; 0; 0];
    [0; 0; 0; 0; 0]] [[0; 0; 0; 0; 0];
    [0; 0; 0; 0; 0];
    [1; 0; 0; 0; 0];
    [0; 0; 0; 0; 0];
    [0; 0; 0; 0; 0]] (qs 1 [0; 0; 0; 0; 0]) (qs 1 [0; 0; 1; 0; 0]) (qs 1 [0; 0; 1; 0; 0])) (mkAcc [[0; 0; 0; 0; 0];
    [0; 0; 0; 0; 0];
    [0; 0; 0; 0; 0];
    [0; 0; 0; 0; 0];
    [0; 0; 0; 0; 0]] [[0; 0; 0; 0; 0];
    [0; 0; 0; 0; 0];
    [281; 0; 0; 0; 0];
    [0; 0; 0; 0; 0];
    [0; 0; 0; 0; 0]] [[0; 0; 0; 0; 0];
    [0; 0; 0; 0; 0];
    [281; 0; 0; 0; 0];
    [0; 0; 0; 0; 0];
    [0; 0; 0; 0; 0]] (qs 1 [0; 0; 0; 0; 0]) (qs 1 [0; 0; 281; 0; 0]) (qs 1 [0; 0; 281; 0; 0]))
    (mkPacc [0; 0; 0; 0; 0] [1; 0; 0; 0; 0] [1; 0; 0; 0; 0] (qq 0 1) (qq 1 1) (qq 1 1)) (mkPacc [0; 0; 0; 0; 0] [281; 0; 0; 0; 0] [281; 0; 0; 0; 0] (qq 0 1) (qq 281 1) (qq 281 1)))
   (mkCumul (mkAcc [[0; 0; 0; 0; 0];
    [0; 0; 0; 0; 0];
    [0; 0; 0; 0; 0];
    [0; 0; 0; 0; 0];
    [0; 0; 0; 0; 0]] [[0; 0; 0; 0; 0];
    [0; 0; 0; 0; 0];
    [1; 0; 0; 0; 0];
    [0; 0; 0; 0; 0];
    [0; 0; 0; 0; 0]] [[0; 0; 0; 0; 0];
    [0; 0; 0; 0; 0];
    [1; 0; 0; 0; 0];
    [0; 0; 0; 0; 0];
    [0; 0; 0; 0; 0]] (qs 1 [0; 0; 0; 0; 0]) (qs 1 [0; 0; 1; 0; 0]) (qs 1 [0; 0; 1; 0; 0])) (mkAcc [[0; 0; 0; 0; 0];
    [0; 0; 0; 0; 0];
    [0; 0; 0; 0; 0];
    [0; 0; 0; 0; 0];
    [0; 0; 0; 0; 0]] [[0; 0; 0; 0; 0];
    [0; 0; 0; 0; 0];
    [281; 0; 0; 0; 0];
    [0; 0; 0; 0; 0];
    [0; 0; 0; 0; 0]] [[0; 0; 0; 0; 0];
    [0; 0; 0; 0; 0];
    [281; 0; 0; 0; 0];
    [0; 0; 0; 0; 0];
    [0; 0; 0; 0; 0]] (qs 1 [0; 0; 0; 0; 0]) (qs 1 [0; 0; 281; 0; 0]) (qs 1 [0; 0; 281; 0; 0]))
    (mkPacc [0; 0; 0; 0; 0] [1; 0; 0; 0; 0] [1; 0; 0; 0; 0] (qq 0 1) (qq 1 1) (qq 1 1)) (mkPacc [0; 0; 0; 0; 0] [281; 0; 0; 0; 0] [281; 0; 0; 0; 0] (qq 0 1) (qq 281 1) (qq 281 1)))
   [[1; 0; 0; 0; 0; 0; 0; 0; 0; 0; 0; 0; 0; 0; 0; 0; 0; 0; 0; 0; 0; 0];
    [1; 0; 0; 0; 0; 0; 0; 0; 0; 0; 0; 0; 0; 0; 0; 0; 0; 0; 0; 0; 0; 0];
    [0; 1; 0; 0; 0; 0; 0; 0; 0; 0; 0; 0; 0; 0; 0; 0; 0; 0; 0; 0; 0; 0];
    [1; 0; 0; 0; 0; 0; 0; 0; 0; 0; 0; 0; 0; 0; 0; 0; 0; 0; 0; 0; 0; 0];
    [1; 0; 0; 0; 0; 0; 0; 0; 0; 0; 0; 0; 0; 0; 0; 0; 0; 0; 0; 0; 0; 0]] [[1; 0; 0; 0; 0; 0; 0; 0; 0; 0; 0; 0; 0; 0; 0; 0; 0; 0; 0; 0; 0; 0];
    [1; 0; 0; 0; 0; 0; 0; 0; 0; 0; 0; 0; 0; 0; 0; 0; 0; 0; 0; 0; 0; 0];
    [0; 1; 0; 0; 0; 0; 0; 0; 0; 0; 0; 0; 0; 0; 0; 0; 0; 0; 0; 0; 0; 0];
    [1; 0; 0; 0; 0; 0; 0; 0; 0; 0; 0; 0; 0; 0; 0; 0; 0; 0; 0; 0; 0; 0];
    [1; 0; 0; 0; 0; 0; 0; 0; 0; 0; 0; 0; 0; 0; 0; 0; 0; 0; 0; 0; 0; 0]] [[1; 0; 0; 0; 0; 0; 0; 0; 0; 0; 0; 0; 0; 0; 0; 0; 0; 0; 0; 0; 0; 0];
    [1; 0; 0; 0; 0; 0; 0; 0; 0; 0; 0; 0; 0; 0; 0; 0; 0; 0; 0; 0; 0; 0];
    [0; 0; 0; 0; 0; 1; 0; 0; 0; 0; 0; 0; 0; 0; 0; 0; 0; 0; 0; 0; 0; 0];
    [1; 0; 0; 0; 0; 0; 0; 0; 0; 0; 0; 0; 0; 0; 0; 0; 0; 0; 0; 0; 0; 0];
    [1; 0; 0; 0; 0; 0; 0; 0; 0; 0; 0; 0; 0; 0; 0; 0; 0; 0; 0; 0; 0; 0]]
   (qm 1 [[0; 0; 0];
    [0; 0; 0];
    [1; 78961; 1];
    [0; 0; 0];
    [0; 0; 0]]) (qs 1 [1; 78961; 1]) (qz 0) (qz 0) 5 11).
Definition table1 := (qm 1 [[3000; 3405; 0; 0; 0; 0];
    [3000; 3405; 0; 0; 0; 0];
    [3000; 3405; 0; 0; 0; 0];
    [3000; 3405; 0; 0; 0; 0];
    [3000; 3405; 0; 0; 0; 0];
    [0; 0; 0; 0; 0; 0]]).
Definition table1_after := (qm 1 [[3000; 3405; 0; 0; 0; 0];
    [3000; 3405; 0; 0; 0; 0];
    [3000; 3405; 0; 0; 0; 0];
    [3000; 3405; 0; 0; 0; 0];
    [3000; 3405; 0; 0; 0; 0];
    [0; 0; 0; 0; 0; 0]]).
(** the pool's weighted values are 0-d arrays in the test, so it sees them updated; compared with what [year] uses *)
Example year_1 : okd (year cf 5 (qz 8760) before1) (fun r => let (s, o) := r in let t := after1 in
  cumul_eq (o_h o) (y_ch t) && cumul_eq (o_p o) (y_cp t) &&
  zmeq (y_HL s) (y_HL t) && zmeq (y_DP s) (y_DP t) && zmeq (y_EU s) (y_EU t) && mnear 6 (y_XA s) (y_XA t) && vnear 6 (y_XP s) (y_XP t) &&
  qeqb (y_SSQ s) (y_SSQ t) && qeqb (y_XLAST s) (y_XLAST t) && (y_INTVT s =? y_INTVT t)%Z && (y_ITAB s =? y_ITAB t)%Z && (o_rflag o =? 0)%Z &&
  match year_report cf 5 table1 before1 s o with None => mnear 5 table1 table1_after | Some (Ok rep) => mnear 5 (r_sustat rep) table1_after && (r_ITAB rep =? y_ITAB t)%Z | _ => false end) = true.
Proof. vm_compute; reflexivity. Qed.
Definition before2 := (mkYst (mkStat [[0; 0; 0; 0; 0];
    [0; 0; 0; 0; 0];
    [0; 0; 0; 0; 0];
    [0; 0; 0; 0; 0];
    [0; 0; 0; 0; 0]] [[1; 0; 0; 0; 0];
    [0; 0; 0; 0; 0];
    [0; 0; 0; 0; 0];
    [0; 0; 0; 0; 0];
    [1; 0; 0; 0; 0]] [[0; 0; 0; 0; 0];
    [0; 0; 0; 0; 0];
    [0; 0; 0; 0; 0];
    [0; 0; 0; 0; 0];
    [0; 0; 0; 0; 0]] [[62; 0; 0; 0; 0];
    [0; 0; 0; 0; 0];
    [0; 0; 0; 0; 0];
    [0; 0; 0; 0; 0];
    [124; 0; 0; 0; 0]] [0; 0; 0; 0; 0] [2; 0; 0; 0; 0] [0; 0; 0; 0; 0] [186; 0; 0; 0; 0])
   (mkStat [[0; 0; 0; 0; 0];
    [0; 0; 0; 0; 0];
    [0; 0; 0; 0; 0];
    [0; 0; 0; 0; 0];
    [0; 0; 0; 0; 0]] [[0; 0; 0; 0; 0];
    [0; 0; 0; 0; 0];
    [0; 0; 0; 0; 0];
    [0; 0; 0; 0; 0];
    [0; 0; 0; 0; 0]] [[0; 0; 0; 0; 0];
    [0; 0; 0; 0; 0];
    [0; 0; 0; 0; 0];
    [0; 0; 0; 0; 0];
    [0; 0; 0; 0; 0]] [[0; 0; 0; 0; 0];
    [0; 0; 0; 0; 0];
    [0; 0; 0; 0; 0];
    [0; 0; 0; 0; 0];
    [0; 0; 0; 0; 0]] [0; 0; 0; 0; 0] [0; 0; 0; 0; 0] [0; 0; 0; 0; 0] [0; 0; 0; 0; 0])
   (mkCumul (mkAcc [[0; 0; 0; 0; 0];
    [0; 0; 0; 0; 0];
    [0; 0; 0; 0; 0];
    [0; 0; 0; 0; 0];
    [0; 0; 0; 0; 0]] [[0; 0; 0; 0; 0];
    [0; 0; 0; 0; 0];
    [1; 0; 0; 0; 0];
    [0; 0; 0; 0; 0];
    [0; 0; 0; 0; 0]] [[0; 0; 0; 0; 0];
    [0; 0; 0; 0; 0];
    [1; 0; 0; 0; 0];
    [0; 0; 0; 0; 0];
    [0; 0; 0; 0; 0]] (qs 1 [0; 0; 0; 0; 0]) (qs 1 [0; 0; 1; 0; 0]) (qs 1 [0; 0; 1; 0; 0])) (mkAcc [[0; 0; 0; 0; 0];
    [0; 0; 0; 0; 0];
    [0; 0; 0; 0; 0];
    [0; 0; 0; 0; 0];
    [0; 0; 0; 0; 0]] [[0; 0; 0; 0; 0];
    [0; 0; 0; 0; 0];
    [281; 0; 0; 0; 0];
    [0; 0; 0; 0; 0];
    [0; 0; 0; 0; 0]] [[0; 0; 0; 0; 0];
    [0; 0; 0; 0; 0];
    [281; 0; 0; 0; 0];
    [0; 0; 0; 0; 0];
    [0; 0; 0; 0; 0]] (qs 1 [0; 0; 0; 0; 0]) (qs 1 [0; 0; 281; 0; 0]) (qs 1 [0; 0; 281; 0; 0]))
    (mkPacc [0; 0; 0; 0; 0] [1; 0; 0; 0; 0] [1; 0; 0; 0; 0] (qq 0 1) (qq 1 1) (qq 1 1)) (mkPacc [0; 0; 0; 0; 0] [281; 0; 0; 0; 0] [281; 0; 0; 0; 0] (qq 0 1) (qq 281 1) (qq 281 1)))
   (mkCumul (mkAcc [[0; 0; 0; 0; 0];
    [0; 0; 0; 0; 0];
    [0; 0; 0; 0; 0];
    [0; 0; 0; 0; 0];
    [0; 0; 0; 0; 0]] [[0; 0; 0; 0; 0];
    [0; 0; 0; 0; 0];
    [1; 0; 0; 0; 0];
    [0; 0; 0; 0; 0];
    [0; 0; 0; 0; 0]] [[0; 0; 0; 0; 0];
    [0; 0; 0; 0; 0];
    [1; 0; 0; 0; 0];
    [0; 0; 0; 0; 0];
    [0; 0; 0; 0; 0]] (qs 1 [0; 0; 0; 0; 0]) (qs 1 [0; 0; 1; 0; 0]) (qs 1 [0; 0; 1; 0; 0])) (mkAcc [[0; 0; 0; 0; 0];
    [0; 0; 0; 0; 0];
    [0; 0; 0; 0; 0];
    [0; 0; 0; 0; 0];
    [0; 0; 0; 0; 0]] [[0; 0; 0; 0; 0];
    [0; 0; 0; 0; 0];
    [281; 0; 0; 0; 0];
    [0; 0; 0; 0; 0];
    [0; 0; 0; 0; 0]] [[0; 0; 0; 0; 0];
    [0; 0; 0; 0; 0];
    [281; 0; 0; 0; 0];
    [0; 0; 0; 0; 0];
    [0; 0; 0; 0; 0]] (qs 1 [0; 0; 0; 0; 0]) (qs 1 [0; 0; 281; 0; 0]) (qs 1 [0; 0; 281; 0; 0]))
    (mkPacc [0; 0; 0; 0; 0] [1; 0; 0; 0; 0] [1; 0; 0; 0; 0] (qq 0 1) (qq 1 1) (qq 1 1)) (mkPacc [0; 0; 0; 0; 0] [281; 0; 0; 0; 0] [281; 0; 0; 0; 0] (qq 0 1) (qq 281 1) (qq 281 1)))
   [[1; 0; 0; 0; 0; 0; 0; 0; 0; 0; 0; 0; 0; 0; 0; 0; 0; 0; 0; 0; 0; 0];
    [1; 0; 0; 0; 0; 0; 0; 0; 0; 0; 0; 0; 0; 0; 0; 0; 0; 0; 0; 0; 0; 0];
    [0; 1; 0; 0; 0; 0; 0; 0; 0; 0; 0; 0; 0; 0; 0; 0; 0; 0; 0; 0; 0; 0];
    [1; 0; 0; 0; 0; 0; 0; 0; 0; 0; 0; 0; 0; 0; 0; 0; 0; 0; 0; 0; 0; 0];
    [1; 0; 0; 0; 0; 0; 0; 0; 0; 0; 0; 0; 0; 0; 0; 0; 0; 0; 0; 0; 0; 0]] [[1; 0; 0; 0; 0; 0; 0; 0; 0; 0; 0; 0; 0; 0; 0; 0; 0; 0; 0; 0; 0; 0];
    [1; 0; 0; 0; 0; 0; 0; 0; 0; 0; 0; 0; 0; 0; 0; 0; 0; 0; 0; 0; 0; 0];
    [0; 1; 0; 0; 0; 0; 0; 0; 0; 0; 0; 0; 0; 0; 0; 0; 0; 0; 0; 0; 0; 0];
    [1; 0; 0; 0; 0; 0; 0; 0; 0; 0; 0; 0; 0; 0; 0; 0; 0; 0; 0; 0; 0; 0];
    [1; 0; 0; 0; 0; 0; 0; 0; 0; 0; 0; 0; 0; 0; 0; 0; 0; 0; 0; 0; 0; 0]] [[1; 0; 0; 0; 0; 0; 0; 0; 0; 0; 0; 0; 0; 0; 0; 0; 0; 0; 0; 0; 0; 0];
    [1; 0; 0; 0; 0; 0; 0; 0; 0; 0; 0; 0; 0; 0; 0; 0; 0; 0; 0; 0; 0; 0];
    [0; 0; 0; 0; 0; 1; 0; 0; 0; 0; 0; 0; 0; 0; 0; 0; 0; 0; 0; 0; 0; 0];
    [1; 0; 0; 0; 0; 0; 0; 0; 0; 0; 0; 0; 0; 0; 0; 0; 0; 0; 0; 0; 0; 0];
    [1; 0; 0; 0; 0; 0; 0; 0; 0; 0; 0; 0; 0; 0; 0; 0; 0; 0; 0; 0; 0; 0]]
   (qm 1 [[0; 0; 0];
    [0; 0; 0];
    [1; 78961; 1];
    [0; 0; 0];
    [0; 0; 0]]) (qs 1 [1; 78961; 1]) (qz 0) (qz 0) 5 11).
Definition after2 := (mkYst (mkStat [[0; 0; 0; 0; 0];
    [0; 0; 0; 0; 0];
    [0; 0; 0; 0; 0];
    [0; 0; 0; 0; 0];
    [0; 0; 0; 0; 0]] [[0; 0; 0; 0; 0];
    [0; 0; 0; 0; 0];
    [0; 0; 0; 0; 0];
    [0; 0; 0; 0; 0];
    [0; 0; 0; 0; 0]] [[0; 0; 0; 0; 0];
    [0; 0; 0; 0; 0];
    [0; 0; 0; 0; 0];
    [0; 0; 0; 0; 0];
    [0; 0; 0; 0; 0]] [[0; 0; 0; 0; 0];
    [0; 0; 0; 0; 0];
    [0; 0; 0; 0; 0];
    [0; 0; 0; 0; 0];
    [0; 0; 0; 0; 0]] [0; 0; 0; 0; 0] [0; 0; 0; 0; 0] [0; 0; 0; 0; 0] [0; 0; 0; 0; 0])
   (mkStat [[0; 0; 0; 0; 0];
    [0; 0; 0; 0; 0];
    [0; 0; 0; 0; 0];
    [0; 0; 0; 0; 0];
    [0; 0; 0; 0; 0]] [[0; 0; 0; 0; 0];
    [0; 0; 0; 0; 0];
    [0; 0; 0; 0; 0];
    [0; 0; 0; 0; 0];
    [0; 0; 0; 0; 0]] [[0; 0; 0; 0; 0];
    [0; 0; 0; 0; 0];
    [0; 0; 0; 0; 0];
    [0; 0; 0; 0; 0];
    [0; 0; 0; 0; 0]] [[0; 0; 0; 0; 0];
    [0; 0; 0; 0; 0];
    [0; 0; 0; 0; 0];
    [0; 0; 0; 0; 0];
    [0; 0; 0; 0; 0]] [0; 0; 0; 0; 0] [0; 0; 0; 0; 0] [0; 0; 0; 0; 0] [0; 0; 0; 0; 0])
   (mkCumul (mkAcc [[0; 0; 0; 0; 0];
    [0; 0; 0; 0; 0];
    [0; 0; 0; 0; 0];
    [0; 0; 0; 0; 0];
    [0; 0; 0; 0; 0]] [[1; 0; 0; 0; 0];
    [0; 0; 0; 0; 0];
    [1; 0; 0; 0; 0];
    [0; 0; 0; 0; 0];
    [1; 0; 0; 0; 0]] [[1; 0; 0; 0; 0];
    [0; 0; 0; 0; 0];
    [1; 0; 0; 0; 0];
    [0; 0; 0; 0; 0];
    [1; 0; 0; 0; 0]] (qs 1 [0; 0; 0; 0; 0]) (qs 1 [1; 0; 1; 0; 1]) (qs 1 [1; 0; 1; 0; 1])) (mkAcc [[0; 0; 0; 0; 0];
    [0; 0; 0; 0; 0];
    [0; 0; 0; 0; 0];
    [0; 0; 0; 0; 0];
    [0; 0; 0; 0; 0]] [[62; 0; 0; 0; 0];
    [0; 0; 0; 0; 0];
    [281; 0; 0; 0; 0];
    [0; 0; 0; 0; 0];
    [124; 0; 0; 0; 0]] [[62; 0; 0; 0; 0];
    [0; 0; 0; 0; 0];
    [281; 0; 0; 0; 0];
    [0; 0; 0; 0; 0];
    [124; 0; 0; 0; 0]] (qs 1 [0; 0; 0; 0; 0]) (qs 1 [62; 0; 281; 0; 124]) (qs 1 [62; 0; 281; 0; 124]))
    (mkPacc [0; 0; 0; 0; 0] [3; 0; 0; 0; 0] [3; 0; 0; 0; 0] (qq 0 1) (qq 3 1) (qq 3 1)) (mkPacc [0; 0; 0; 0; 0] [467; 0; 0; 0; 0] [467; 0; 0; 0; 0] (qq 0 1) (qq 467 1) (qq 467 1)))
   (mkCumul (mkAcc [[0; 0; 0; 0; 0];
    [0; 0; 0; 0; 0];
    [0; 0; 0; 0; 0];
    [0; 0; 0; 0; 0];
    [0; 0; 0; 0; 0]] [[0; 0; 0; 0; 0];
    [0; 0; 0; 0; 0];
    [1; 0; 0; 0; 0];
    [0; 0; 0; 0; 0];
    [0; 0; 0; 0; 0]] [[0; 0; 0; 0; 0];
    [0; 0; 0; 0; 0];
    [1; 0; 0; 0; 0];
    [0; 0; 0; 0; 0];
    [0; 0; 0; 0; 0]] (qs 1 [0; 0; 0; 0; 0]) (qs 1 [0; 0; 1; 0; 0]) (qs 1 [0; 0; 1; 0; 0])) (mkAcc [[0; 0; 0; 0; 0];
    [0; 0; 0; 0; 0];
    [0; 0; 0; 0; 0];
    [0; 0; 0; 0; 0];
    [0; 0; 0; 0; 0]] [[0; 0; 0; 0; 0];
    [0; 0; 0; 0; 0];
    [281; 0; 0; 0; 0];
    [0; 0; 0; 0; 0];
    [0; 0; 0; 0; 0]] [[0; 0; 0; 0; 0];
    [0; 0; 0; 0; 0];
    [281; 0; 0; 0; 0];
    [0; 0; 0; 0; 0];
    [0; 0; 0; 0; 0]] (qs 1 [0; 0; 0; 0; 0]) (qs 1 [0; 0; 281; 0; 0]) (qs 1 [0; 0; 281; 0; 0]))
    (mkPacc [0; 0; 0; 0; 0] [1; 0; 0; 0; 0] [1; 0; 0; 0; 0] (qq 0 1) (qq 1 1) (qq 1 1)) (mkPacc [0; 0; 0; 0; 0] [281; 0; 0; 0; 0] [281; 0; 0; 0; 0] (qq 0 1) (qq 281 1) (qq 281 1)))
   [[1; 1; 0; 0; 0; 0; 0; 0; 0; 0; 0; 0; 0; 0; 0; 0; 0; 0; 0; 0; 0; 0];
    [2; 0; 0; 0; 0; 0; 0; 0; 0; 0; 0; 0; 0; 0; 0; 0; 0; 0; 0; 0; 0; 0];
    [1; 1; 0; 0; 0; 0; 0; 0; 0; 0; 0; 0; 0; 0; 0; 0; 0; 0; 0; 0; 0; 0];
    [2; 0; 0; 0; 0; 0; 0; 0; 0; 0; 0; 0; 0; 0; 0; 0; 0; 0; 0; 0; 0; 0];
    [1; 1; 0; 0; 0; 0; 0; 0; 0; 0; 0; 0; 0; 0; 0; 0; 0; 0; 0; 0; 0; 0]] [[2; 0; 0; 0; 0; 0; 0; 0; 0; 0; 0; 0; 0; 0; 0; 0; 0; 0; 0; 0; 0; 0];
    [2; 0; 0; 0; 0; 0; 0; 0; 0; 0; 0; 0; 0; 0; 0; 0; 0; 0; 0; 0; 0; 0];
    [1; 1; 0; 0; 0; 0; 0; 0; 0; 0; 0; 0; 0; 0; 0; 0; 0; 0; 0; 0; 0; 0];
    [2; 0; 0; 0; 0; 0; 0; 0; 0; 0; 0; 0; 0; 0; 0; 0; 0; 0; 0; 0; 0; 0];
    [2; 0; 0; 0; 0; 0; 0; 0; 0; 0; 0; 0; 0; 0; 0; 0; 0; 0; 0; 0; 0; 0]] [[1; 1; 0; 0; 0; 0; 0; 0; 0; 0; 0; 0; 0; 0; 0; 0; 0; 0; 0; 0; 0; 0];
    [2; 0; 0; 0; 0; 0; 0; 0; 0; 0; 0; 0; 0; 0; 0; 0; 0; 0; 0; 0; 0; 0];
    [1; 0; 0; 0; 0; 1; 0; 0; 0; 0; 0; 0; 0; 0; 0; 0; 0; 0; 0; 0; 0; 0];
    [2; 0; 0; 0; 0; 0; 0; 0; 0; 0; 0; 0; 0; 0; 0; 0; 0; 0; 0; 0; 0; 0];
    [1; 0; 1; 0; 0; 0; 0; 0; 0; 0; 0; 0; 0; 0; 0; 0; 0; 0; 0; 0; 0; 0]]
   (qm 1 [[1; 3844; 0];
    [0; 0; 0];
    [1; 78961; 1];
    [0; 0; 0];
    [1; 15376; 0]]) (qs 1 [5; 113557; 1]) (qz 1) (qz 1) 5 11).
Definition table2 := (qm 1 [[3000; 3405; 0; 0; 0; 0];
    [3000; 3405; 0; 0; 0; 0];
    [3000; 3405; 0; 0; 0; 0];
    [3000; 3405; 0; 0; 0; 0];
    [3000; 3405; 0; 0; 0; 0];
    [0; 0; 0; 0; 0; 0]]).
Definition table2_after := (qm 1 [[3000; 3405; 0; 0; 0; 0];
    [3000; 3405; 0; 0; 0; 0];
    [3000; 3405; 0; 0; 0; 0];
    [3000; 3405; 0; 0; 0; 0];
    [3000; 3405; 0; 0; 0; 0];
    [0; 0; 0; 0; 0; 0]]).
Example year_2 : okd (year cf 5 (qz 17520) before2) (fun r => let (s, o) := r in let t := after2 in
  cumul_eq (o_h o) (y_ch t) && cumul_eq (o_p o) (y_cp t) &&
  zmeq (y_HL s) (y_HL t) && zmeq (y_DP s) (y_DP t) && zmeq (y_EU s) (y_EU t) && mnear 6 (y_XA s) (y_XA t) && vnear 6 (y_XP s) (y_XP t) &&
  qeqb (y_SSQ s) (y_SSQ t) && qeqb (y_XLAST s) (y_XLAST t) && (y_INTVT s =? y_INTVT t)%Z && (y_ITAB s =? y_ITAB t)%Z && (o_rflag o =? 0)%Z &&
  match year_report cf 5 table2 before2 s o with None => mnear 5 table2 table2_after | Some (Ok rep) => mnear 5 (r_sustat rep) table2_after && (r_ITAB rep =? y_ITAB t)%Z | _ => false end) = true.
Proof. vm_compute; reflexivity. Qed.
Definition before3 := (mkYst (mkStat [[0; 0; 0; 0; 0];
    [0; 0; 0; 0; 0];
    [0; 0; 0; 0; 0];
    [0; 0; 0; 0; 0];
    [0; 0; 0; 0; 0]] [[0; 0; 0; 0; 0];
    [2; 0; 0; 0; 0];
    [1; 0; 0; 0; 0];
    [1; 0; 0; 0; 0];
    [1; 0; 0; 0; 0]] [[0; 0; 0; 0; 0];
    [0; 0; 0; 0; 0];
    [0; 0; 0; 0; 0];
    [0; 0; 0; 0; 0];
    [0; 0; 0; 0; 0]] [[0; 0; 0; 0; 0];
    [152; 0; 0; 0; 0];
    [51; 0; 0; 0; 0];
    [94; 0; 0; 0; 0];
    [1; 0; 0; 0; 0]] [0; 0; 0; 0; 0] [5; 0; 0; 0; 0] [0; 0; 0; 0; 0] [298; 0; 0; 0; 0])
   (mkStat [[0; 0; 0; 0; 0];
    [0; 0; 0; 0; 0];
    [0; 0; 0; 0; 0];
    [0; 0; 0; 0; 0];
    [0; 0; 0; 0; 0]] [[0; 0; 0; 0; 0];
    [0; 0; 0; 0; 0];
    [0; 0; 0; 0; 0];
    [0; 0; 0; 0; 0];
    [0; 0; 0; 0; 0]] [[0; 0; 0; 0; 0];
    [0; 0; 0; 0; 0];
    [0; 0; 0; 0; 0];
    [0; 0; 0; 0; 0];
    [0; 0; 0; 0; 0]] [[0; 0; 0; 0; 0];
    [0; 0; 0; 0; 0];
    [0; 0; 0; 0; 0];
    [0; 0; 0; 0; 0];
    [0; 0; 0; 0; 0]] [0; 0; 0; 0; 0] [0; 0; 0; 0; 0] [0; 0; 0; 0; 0] [0; 0; 0; 0; 0])
   (mkCumul (mkAcc [[0; 0; 0; 0; 0];
    [0; 0; 0; 0; 0];
    [0; 0; 0; 0; 0];
    [0; 0; 0; 0; 0];
    [0; 0; 0; 0; 0]] [[1; 0; 0; 0; 0];
    [0; 0; 0; 0; 0];
    [1; 0; 0; 0; 0];
    [0; 0; 0; 0; 0];
    [1; 0; 0; 0; 0]] [[1; 0; 0; 0; 0];
    [0; 0; 0; 0; 0];
    [1; 0; 0; 0; 0];
    [0; 0; 0; 0; 0];
    [1; 0; 0; 0; 0]] (qs 1 [0; 0; 0; 0; 0]) (qs 1 [1; 0; 1; 0; 1]) (qs 1 [1; 0; 1; 0; 1])) (mkAcc [[0; 0; 0; 0; 0];
    [0; 0; 0; 0; 0];
    [0; 0; 0; 0; 0];
    [0; 0; 0; 0; 0];
    [0; 0; 0; 0; 0]] [[62; 0; 0; 0; 0];
    [0; 0; 0; 0; 0];
    [281; 0; 0; 0; 0];
    [0; 0; 0; 0; 0];
    [124; 0; 0; 0; 0]] [[62; 0; 0; 0; 0];
    [0; 0; 0; 0; 0];
    [281; 0; 0; 0; 0];
    [0; 0; 0; 0; 0];
    [124; 0; 0; 0; 0]] (qs 1 [0; 0; 0; 0; 0]) (qs 1 [62; 0; 281; 0; 124]) (qs 1 [62; 0; 281; 0; 124]))
    (mkPacc [0; 0; 0; 0; 0] [3; 0; 0; 0; 0] [3; 0; 0; 0; 0] (qq 0 1) (qq 3 1) (qq 3 1)) (mkPacc [0; 0; 0; 0; 0] [467; 0; 0; 0; 0] [467; 0; 0; 0; 0] (qq 0 1) (qq 467 1) (qq 467 1)))
   (mkCumul (mkAcc [[0; 0; 0; 0; 0];
    [0; 0; 0; 0; 0];
    [0; 0; 0; 0; 0];
    [0; 0; 0; 0; 0];
    [0; 0; 0; 0; 0]] [[0; 0; 0; 0; 0];
    [0; 0; 0; 0; 0];
    [1; 0; 0; 0; 0];
    [0; 0; 0; 0; 0];
    [0; 0; 0; 0; 0]] [[0; 0; 0; 0; 0];
    [0; 0; 0; 0; 0];
    [1; 0; 0; 0; 0];
    [0; 0; 0; 0; 0];
    [0; 0; 0; 0; 0]] (qs 1 [0; 0; 0; 0; 0]) (qs 1 [0; 0; 1; 0; 0]) (qs 1 [0; 0; 1; 0; 0])) (mkAcc [[0; 0; 0; 0; 0];
    [0; 0; 0; 0; 0];
    [0; 0; 0; 0; 0];
    [0; 0; 0; 0; 0];
    [0; 0; 0; 0; 0]] [[0; 0; 0; 0; 0];
    [0; 0; 0; 0; 0];
    [281; 0; 0; 0; 0];
    [0; 0; 0; 0; 0];
    [0; 0; 0; 0; 0]] [[0; 0; 0; 0; 0];
    [0; 0; 0; 0; 0];
    [281; 0; 0; 0; 0];
    [0; 0; 0; 0; 0];
    [0; 0; 0; 0; 0]] (qs 1 [0; 0; 0; 0; 0]) (qs 1 [0; 0; 281; 0; 0]) (qs 1 [0; 0; 281; 0; 0]))
    (mkPacc [0; 0; 0; 0; 0] [1; 0; 0; 0; 0] [1; 0; 0; 0; 0] (qq 0 1) (qq 1 1) (qq 1 1)) (mkPacc [0; 0; 0; 0; 0] [281; 0; 0; 0; 0] [281; 0; 0; 0; 0] (qq 0 1) (qq 281 1) (qq 281 1)))
   [[1; 1; 0; 0; 0; 0; 0; 0; 0; 0; 0; 0; 0; 0; 0; 0; 0; 0; 0; 0; 0; 0];
    [2; 0; 0; 0; 0; 0; 0; 0; 0; 0; 0; 0; 0; 0; 0; 0; 0; 0; 0; 0; 0; 0];
    [1; 1; 0; 0; 0; 0; 0; 0; 0; 0; 0; 0; 0; 0; 0; 0; 0; 0; 0; 0; 0; 0];
    [2; 0; 0; 0; 0; 0; 0; 0; 0; 0; 0; 0; 0; 0; 0; 0; 0; 0; 0; 0; 0; 0];
    [1; 1; 0; 0; 0; 0; 0; 0; 0; 0; 0; 0; 0; 0; 0; 0; 0; 0; 0; 0; 0; 0]] [[2; 0; 0; 0; 0; 0; 0; 0; 0; 0; 0; 0; 0; 0; 0; 0; 0; 0; 0; 0; 0; 0];
    [2; 0; 0; 0; 0; 0; 0; 0; 0; 0; 0; 0; 0; 0; 0; 0; 0; 0; 0; 0; 0; 0];
    [1; 1; 0; 0; 0; 0; 0; 0; 0; 0; 0; 0; 0; 0; 0; 0; 0; 0; 0; 0; 0; 0];
    [2; 0; 0; 0; 0; 0; 0; 0; 0; 0; 0; 0; 0; 0; 0; 0; 0; 0; 0; 0; 0; 0];
    [2; 0; 0; 0; 0; 0; 0; 0; 0; 0; 0; 0; 0; 0; 0; 0; 0; 0; 0; 0; 0; 0]] [[1; 1; 0; 0; 0; 0; 0; 0; 0; 0; 0; 0; 0; 0; 0; 0; 0; 0; 0; 0; 0; 0];
    [2; 0; 0; 0; 0; 0; 0; 0; 0; 0; 0; 0; 0; 0; 0; 0; 0; 0; 0; 0; 0; 0];
    [1; 0; 0; 0; 0; 1; 0; 0; 0; 0; 0; 0; 0; 0; 0; 0; 0; 0; 0; 0; 0; 0];
    [2; 0; 0; 0; 0; 0; 0; 0; 0; 0; 0; 0; 0; 0; 0; 0; 0; 0; 0; 0; 0; 0];
    [1; 0; 1; 0; 0; 0; 0; 0; 0; 0; 0; 0; 0; 0; 0; 0; 0; 0; 0; 0; 0; 0]]
   (qm 1 [[1; 3844; 0];
    [0; 0; 0];
    [1; 78961; 1];
    [0; 0; 0];
    [1; 15376; 0]]) (qs 1 [5; 113557; 1]) (qz 1) (qz 1) 5 11).
Definition after3 := (mkYst (mkStat [[0; 0; 0; 0; 0];
    [0; 0; 0; 0; 0];
    [0; 0; 0; 0; 0];
    [0; 0; 0; 0; 0];
    [0; 0; 0; 0; 0]] [[0; 0; 0; 0; 0];
    [0; 0; 0; 0; 0];
    [0; 0; 0; 0; 0];
    [0; 0; 0; 0; 0];
    [0; 0; 0; 0; 0]] [[0; 0; 0; 0; 0];
    [0; 0; 0; 0; 0];
    [0; 0; 0; 0; 0];
    [0; 0; 0; 0; 0];
    [0; 0; 0; 0; 0]] [[0; 0; 0; 0; 0];
    [0; 0; 0; 0; 0];
    [0; 0; 0; 0; 0];
    [0; 0; 0; 0; 0];
    [0; 0; 0; 0; 0]] [0; 0; 0; 0; 0] [0; 0; 0; 0; 0] [0; 0; 0; 0; 0] [0; 0; 0; 0; 0])
   (mkStat [[0; 0; 0; 0; 0];
    [0; 0; 0; 0; 0];
    [0; 0; 0; 0; 0];
    [0; 0; 0; 0; 0];
    [0; 0; 0; 0; 0]] [[0; 0; 0; 0; 0];
    [0; 0; 0; 0; 0];
    [0; 0; 0; 0; 0];
    [0; 0; 0; 0; 0];
    [0; 0; 0; 0; 0]] [[0; 0; 0; 0; 0];
    [0; 0; 0; 0; 0];
    [0; 0; 0; 0; 0];
    [0; 0; 0; 0; 0];
    [0; 0; 0; 0; 0]] [[0; 0; 0; 0; 0];
    [0; 0; 0; 0; 0];
    [0; 0; 0; 0; 0];
    [0; 0; 0; 0; 0];
    [0; 0; 0; 0; 0]] [0; 0; 0; 0; 0] [0; 0; 0; 0; 0] [0; 0; 0; 0; 0] [0; 0; 0; 0; 0])
   (mkCumul (mkAcc [[0; 0; 0; 0; 0];
    [0; 0; 0; 0; 0];
    [0; 0; 0; 0; 0];
    [0; 0; 0; 0; 0];
    [0; 0; 0; 0; 0]] [[1; 0; 0; 0; 0];
    [2; 0; 0; 0; 0];
    [2; 0; 0; 0; 0];
    [1; 0; 0; 0; 0];
    [2; 0; 0; 0; 0]] [[1; 0; 0; 0; 0];
    [2; 0; 0; 0; 0];
    [2; 0; 0; 0; 0];
    [1; 0; 0; 0; 0];
    [2; 0; 0; 0; 0]] (qs 1 [0; 0; 0; 0; 0]) (qs 1 [1; 2; 2; 1; 2]) (qs 1 [1; 2; 2; 1; 2])) (mkAcc [[0; 0; 0; 0; 0];
    [0; 0; 0; 0; 0];
    [0; 0; 0; 0; 0];
    [0; 0; 0; 0; 0];
    [0; 0; 0; 0; 0]] [[62; 0; 0; 0; 0];
    [152; 0; 0; 0; 0];
    [332; 0; 0; 0; 0];
    [94; 0; 0; 0; 0];
    [125; 0; 0; 0; 0]] [[62; 0; 0; 0; 0];
    [152; 0; 0; 0; 0];
    [332; 0; 0; 0; 0];
    [94; 0; 0; 0; 0];
    [125; 0; 0; 0; 0]] (qs 1 [0; 0; 0; 0; 0]) (qs 1 [62; 152; 332; 94; 125]) (qs 1 [62; 152; 332; 94; 125]))
    (mkPacc [0; 0; 0; 0; 0] [8; 0; 0; 0; 0] [8; 0; 0; 0; 0] (qq 0 1) (qq 8 1) (qq 8 1)) (mkPacc [0; 0; 0; 0; 0] [765; 0; 0; 0; 0] [765; 0; 0; 0; 0] (qq 0 1) (qq 765 1) (qq 765 1)))
   (mkCumul (mkAcc [[0; 0; 0; 0; 0];
    [0; 0; 0; 0; 0];
    [0; 0; 0; 0; 0];
    [0; 0; 0; 0; 0];
    [0; 0; 0; 0; 0]] [[0; 0; 0; 0; 0];
    [0; 0; 0; 0; 0];
    [1; 0; 0; 0; 0];
    [0; 0; 0; 0; 0];
    [0; 0; 0; 0; 0]] [[0; 0; 0; 0; 0];
    [0; 0; 0; 0; 0];
    [1; 0; 0; 0; 0];
    [0; 0; 0; 0; 0];
    [0; 0; 0; 0; 0]] (qs 1 [0; 0; 0; 0; 0]) (qs 1 [0; 0; 1; 0; 0]) (qs 1 [0; 0; 1; 0; 0])) (mkAcc [[0; 0; 0; 0; 0];
    [0; 0; 0; 0; 0];
    [0; 0; 0; 0; 0];
    [0; 0; 0; 0; 0];
    [0; 0; 0; 0; 0]] [[0; 0; 0; 0; 0];
    [0; 0; 0; 0; 0];
    [281; 0; 0; 0; 0];
    [0; 0; 0; 0; 0];
    [0; 0; 0; 0; 0]] [[0; 0; 0; 0; 0];
    [0; 0; 0; 0; 0];
    [281; 0; 0; 0; 0];
    [0; 0; 0; 0; 0];
    [0; 0; 0; 0; 0]] (qs 1 [0; 0; 0; 0; 0]) (qs 1 [0; 0; 281; 0; 0]) (qs 1 [0; 0; 281; 0; 0]))
    (mkPacc [0; 0; 0; 0; 0] [1; 0; 0; 0; 0] [1; 0; 0; 0; 0] (qq 0 1) (qq 1 1) (qq 1 1)) (mkPacc [0; 0; 0; 0; 0] [281; 0; 0; 0; 0] [281; 0; 0; 0; 0] (qq 0 1) (qq 281 1) (qq 281 1)))
   [[2; 1; 0; 0; 0; 0; 0; 0; 0; 0; 0; 0; 0; 0; 0; 0; 0; 0; 0; 0; 0; 0];
    [2; 0; 1; 0; 0; 0; 0; 0; 0; 0; 0; 0; 0; 0; 0; 0; 0; 0; 0; 0; 0; 0];
    [1; 2; 0; 0; 0; 0; 0; 0; 0; 0; 0; 0; 0; 0; 0; 0; 0; 0; 0; 0; 0; 0];
    [2; 1; 0; 0; 0; 0; 0; 0; 0; 0; 0; 0; 0; 0; 0; 0; 0; 0; 0; 0; 0; 0];
    [1; 2; 0; 0; 0; 0; 0; 0; 0; 0; 0; 0; 0; 0; 0; 0; 0; 0; 0; 0; 0; 0]] [[3; 0; 0; 0; 0; 0; 0; 0; 0; 0; 0; 0; 0; 0; 0; 0; 0; 0; 0; 0; 0; 0];
    [3; 0; 0; 0; 0; 0; 0; 0; 0; 0; 0; 0; 0; 0; 0; 0; 0; 0; 0; 0; 0; 0];
    [2; 1; 0; 0; 0; 0; 0; 0; 0; 0; 0; 0; 0; 0; 0; 0; 0; 0; 0; 0; 0; 0];
    [3; 0; 0; 0; 0; 0; 0; 0; 0; 0; 0; 0; 0; 0; 0; 0; 0; 0; 0; 0; 0; 0];
    [3; 0; 0; 0; 0; 0; 0; 0; 0; 0; 0; 0; 0; 0; 0; 0; 0; 0; 0; 0; 0; 0]] [[2; 1; 0; 0; 0; 0; 0; 0; 0; 0; 0; 0; 0; 0; 0; 0; 0; 0; 0; 0; 0; 0];
    [2; 0; 0; 1; 0; 0; 0; 0; 0; 0; 0; 0; 0; 0; 0; 0; 0; 0; 0; 0; 0; 0];
    [1; 1; 0; 0; 0; 1; 0; 0; 0; 0; 0; 0; 0; 0; 0; 0; 0; 0; 0; 0; 0; 0];
    [2; 1; 0; 0; 0; 0; 0; 0; 0; 0; 0; 0; 0; 0; 0; 0; 0; 0; 0; 0; 0; 0];
    [2; 0; 1; 0; 0; 0; 0; 0; 0; 0; 0; 0; 0; 0; 0; 0; 0; 0; 0; 0; 0; 0]]
   (qm 1 [[1; 3844; 0];
    [4; 23104; 0];
    [2; 81562; 1];
    [1; 8836; 0];
    [2; 15377; 0]]) (qs 1 [30; 202361; 1]) (qz 1) (qz 1) 5 11).
Definition table3 := (qm 1 [[3000; 3405; 0; 0; 0; 0];
    [3000; 3405; 0; 0; 0; 0];
    [3000; 3405; 0; 0; 0; 0];
    [3000; 3405; 0; 0; 0; 0];
    [3000; 3405; 0; 0; 0; 0];
    [0; 0; 0; 0; 0; 0]]).
Definition table3_after := (qm 1 [[3000; 3405; 0; 0; 0; 0];
    [3000; 3405; 0; 0; 0; 0];
    [3000; 3405; 0; 0; 0; 0];
    [3000; 3405; 0; 0; 0; 0];
    [3000; 3405; 0; 0; 0; 0];
    [0; 0; 0; 0; 0; 0]]).
Example year_3 : okd (year cf 5 (qz 26280) before3) (fun r => let (s, o) := r in let t := after3 in
  cumul_eq (o_h o) (y_ch t) && cumul_eq (o_p o) (y_cp t) &&
  zmeq (y_HL s) (y_HL t) && zmeq (y_DP s) (y_DP t) && zmeq (y_EU s) (y_EU t) && mnear 6 (y_XA s) (y_XA t) && vnear 6 (y_XP s) (y_XP t) &&
  qeqb (y_SSQ s) (y_SSQ t) && qeqb (y_XLAST s) (y_XLAST t) && (y_INTVT s =? y_INTVT t)%Z && (y_ITAB s =? y_ITAB t)%Z && (o_rflag o =? 0)%Z &&
  match year_report cf 5 table3 before3 s o with None => mnear 5 table3 table3_after | Some (Ok rep) => mnear 5 (r_sustat rep) table3_after && (r_ITAB rep =? y_ITAB t)%Z | _ => false end) = true.
Proof. vm_compute; reflexivity. Qed.
Definition before4 := (mkYst (mkStat [[0; 0; 0; 0; 0];
    [0; 0; 0; 0; 0];
    [0; 0; 0; 0; 0];
    [0; 0; 0; 0; 0];
    [0; 0; 0; 0; 0]] [[0; 0; 0; 0; 0];
    [0; 0; 0; 0; 0];
    [0; 0; 0; 0; 0];
    [1; 0; 0; 0; 0];
    [0; 0; 0; 0; 0]] [[0; 0; 0; 0; 0];
    [0; 0; 0; 0; 0];
    [0; 0; 0; 0; 0];
    [0; 0; 0; 0; 0];
    [0; 0; 0; 0; 0]] [[0; 0; 0; 0; 0];
    [0; 0; 0; 0; 0];
    [0; 0; 0; 0; 0];
    [23; 0; 0; 0; 0];
    [0; 0; 0; 0; 0]] [0; 0; 0; 0; 0] [1; 0; 0; 0; 0] [0; 0; 0; 0; 0] [23; 0; 0; 0; 0])
   (mkStat [[0; 0; 0; 0; 0];
    [0; 0; 0; 0; 0];
    [0; 0; 0; 0; 0];
    [0; 0; 0; 0; 0];
    [0; 0; 0; 0; 0]] [[0; 0; 0; 0; 0];
    [0; 0; 0; 0; 0];
    [0; 0; 0; 0; 0];
    [0; 0; 0; 0; 0];
    [0; 0; 0; 0; 0]] [[0; 0; 0; 0; 0];
    [0; 0; 0; 0; 0];
    [0; 0; 0; 0; 0];
    [0; 0; 0; 0; 0];
    [0; 0; 0; 0; 0]] [[0; 0; 0; 0; 0];
    [0; 0; 0; 0; 0];
    [0; 0; 0; 0; 0];
    [0; 0; 0; 0; 0];
    [0; 0; 0; 0; 0]] [0; 0; 0; 0; 0] [0; 0; 0; 0; 0] [0; 0; 0; 0; 0] [0; 0; 0; 0; 0])
   (mkCumul (mkAcc [[0; 0; 0; 0; 0];
    [0; 0; 0; 0; 0];
    [0; 0; 0; 0; 0];
    [0; 0; 0; 0; 0];
    [0; 0; 0; 0; 0]] [[1; 0; 0; 0; 0];
    [2; 0; 0; 0; 0];
    [2; 0; 0; 0; 0];
    [1; 0; 0; 0; 0];
    [2; 0; 0; 0; 0]] [[1; 0; 0; 0; 0];
    [2; 0; 0; 0; 0];
    [2; 0; 0; 0; 0];
    [1; 0; 0; 0; 0];
    [2; 0; 0; 0; 0]] (qs 1 [0; 0; 0; 0; 0]) (qs 1 [1; 2; 2; 1; 2]) (qs 1 [1; 2; 2; 1; 2])) (mkAcc [[0; 0; 0; 0; 0];
    [0; 0; 0; 0; 0];
    [0; 0; 0; 0; 0];
    [0; 0; 0; 0; 0];
    [0; 0; 0; 0; 0]] [[62; 0; 0; 0; 0];
    [152; 0; 0; 0; 0];
    [332; 0; 0; 0; 0];
    [94; 0; 0; 0; 0];
    [125; 0; 0; 0; 0]] [[62; 0; 0; 0; 0];
    [152; 0; 0; 0; 0];
    [332; 0; 0; 0; 0];
    [94; 0; 0; 0; 0];
    [125; 0; 0; 0; 0]] (qs 1 [0; 0; 0; 0; 0]) (qs 1 [62; 152; 332; 94; 125]) (qs 1 [62; 152; 332; 94; 125]))
    (mkPacc [0; 0; 0; 0; 0] [8; 0; 0; 0; 0] [8; 0; 0; 0; 0] (qq 0 1) (qq 8 1) (qq 8 1)) (mkPacc [0; 0; 0; 0; 0] [765; 0; 0; 0; 0] [765; 0; 0; 0; 0] (qq 0 1) (qq 765 1) (qq 765 1)))
   (mkCumul (mkAcc [[0; 0; 0; 0; 0];
    [0; 0; 0; 0; 0];
    [0; 0; 0; 0; 0];
    [0; 0; 0; 0; 0];
    [0; 0; 0; 0; 0]] [[0; 0; 0; 0; 0];
    [0; 0; 0; 0; 0];
    [1; 0; 0; 0; 0];
    [0; 0; 0; 0; 0];
    [0; 0; 0; 0; 0]] [[0; 0; 0; 0; 0];
    [0; 0; 0; 0; 0];
    [1; 0; 0; 0; 0];
    [0; 0; 0; 0; 0];
    [0; 0; 0; 0; 0]] (qs 1 [0; 0; 0; 0; 0]) (qs 1 [0; 0; 1; 0; 0]) (qs 1 [0; 0; 1; 0; 0])) (mkAcc [[0; 0; 0; 0; 0];
    [0; 0; 0; 0; 0];
    [0; 0; 0; 0; 0];
    [0; 0; 0; 0; 0];
    [0; 0; 0; 0; 0]] [[0; 0; 0; 0; 0];
    [0; 0; 0; 0; 0];
    [281; 0; 0; 0; 0];
    [0; 0; 0; 0; 0];
    [0; 0; 0; 0; 0]] [[0; 0; 0; 0; 0];
    [0; 0; 0; 0; 0];
    [281; 0; 0; 0; 0];
    [0; 0; 0; 0; 0];
    [0; 0; 0; 0; 0]] (qs 1 [0; 0; 0; 0; 0]) (qs 1 [0; 0; 281; 0; 0]) (qs 1 [0; 0; 281; 0; 0]))
    (mkPacc [0; 0; 0; 0; 0] [1; 0; 0; 0; 0] [1; 0; 0; 0; 0] (qq 0 1) (qq 1 1) (qq 1 1)) (mkPacc [0; 0; 0; 0; 0] [281; 0; 0; 0; 0] [281; 0; 0; 0; 0] (qq 0 1) (qq 281 1) (qq 281 1)))
   [[2; 1; 0; 0; 0; 0; 0; 0; 0; 0; 0; 0; 0; 0; 0; 0; 0; 0; 0; 0; 0; 0];
    [2; 0; 1; 0; 0; 0; 0; 0; 0; 0; 0; 0; 0; 0; 0; 0; 0; 0; 0; 0; 0; 0];
    [1; 2; 0; 0; 0; 0; 0; 0; 0; 0; 0; 0; 0; 0; 0; 0; 0; 0; 0; 0; 0; 0];
    [2; 1; 0; 0; 0; 0; 0; 0; 0; 0; 0; 0; 0; 0; 0; 0; 0; 0; 0; 0; 0; 0];
    [1; 2; 0; 0; 0; 0; 0; 0; 0; 0; 0; 0; 0; 0; 0; 0; 0; 0; 0; 0; 0; 0]] [[3; 0; 0; 0; 0; 0; 0; 0; 0; 0; 0; 0; 0; 0; 0; 0; 0; 0; 0; 0; 0; 0];
    [3; 0; 0; 0; 0; 0; 0; 0; 0; 0; 0; 0; 0; 0; 0; 0; 0; 0; 0; 0; 0; 0];
    [2; 1; 0; 0; 0; 0; 0; 0; 0; 0; 0; 0; 0; 0; 0; 0; 0; 0; 0; 0; 0; 0];
    [3; 0; 0; 0; 0; 0; 0; 0; 0; 0; 0; 0; 0; 0; 0; 0; 0; 0; 0; 0; 0; 0];
    [3; 0; 0; 0; 0; 0; 0; 0; 0; 0; 0; 0; 0; 0; 0; 0; 0; 0; 0; 0; 0; 0]] [[2; 1; 0; 0; 0; 0; 0; 0; 0; 0; 0; 0; 0; 0; 0; 0; 0; 0; 0; 0; 0; 0];
    [2; 0; 0; 1; 0; 0; 0; 0; 0; 0; 0; 0; 0; 0; 0; 0; 0; 0; 0; 0; 0; 0];
    [1; 1; 0; 0; 0; 1; 0; 0; 0; 0; 0; 0; 0; 0; 0; 0; 0; 0; 0; 0; 0; 0];
    [2; 1; 0; 0; 0; 0; 0; 0; 0; 0; 0; 0; 0; 0; 0; 0; 0; 0; 0; 0; 0; 0];
    [2; 0; 1; 0; 0; 0; 0; 0; 0; 0; 0; 0; 0; 0; 0; 0; 0; 0; 0; 0; 0; 0]]
   (qm 1 [[1; 3844; 0];
    [4; 23104; 0];
    [2; 81562; 1];
    [1; 8836; 0];
    [2; 15377; 0]]) (qs 1 [30; 202361; 1]) (qz 1) (qz 1) 5 11).
Definition after4 := (mkYst (mkStat [[0; 0; 0; 0; 0];
    [0; 0; 0; 0; 0];
    [0; 0; 0; 0; 0];
    [0; 0; 0; 0; 0];
    [0; 0; 0; 0; 0]] [[0; 0; 0; 0; 0];
    [0; 0; 0; 0; 0];
    [0; 0; 0; 0; 0];
    [0; 0; 0; 0; 0];
    [0; 0; 0; 0; 0]] [[0; 0; 0; 0; 0];
    [0; 0; 0; 0; 0];
    [0; 0; 0; 0; 0];
    [0; 0; 0; 0; 0];
    [0; 0; 0; 0; 0]] [[0; 0; 0; 0; 0];
    [0; 0; 0; 0; 0];
    [0; 0; 0; 0; 0];
    [0; 0; 0; 0; 0];
    [0; 0; 0; 0; 0]] [0; 0; 0; 0; 0] [0; 0; 0; 0; 0] [0; 0; 0; 0; 0] [0; 0; 0; 0; 0])
   (mkStat [[0; 0; 0; 0; 0];
    [0; 0; 0; 0; 0];
    [0; 0; 0; 0; 0];
    [0; 0; 0; 0; 0];
    [0; 0; 0; 0; 0]] [[0; 0; 0; 0; 0];
    [0; 0; 0; 0; 0];
    [0; 0; 0; 0; 0];
    [0; 0; 0; 0; 0];
    [0; 0; 0; 0; 0]] [[0; 0; 0; 0; 0];
    [0; 0; 0; 0; 0];
    [0; 0; 0; 0; 0];
    [0; 0; 0; 0; 0];
    [0; 0; 0; 0; 0]] [[0; 0; 0; 0; 0];
    [0; 0; 0; 0; 0];
    [0; 0; 0; 0; 0];
    [0; 0; 0; 0; 0];
    [0; 0; 0; 0; 0]] [0; 0; 0; 0; 0] [0; 0; 0; 0; 0] [0; 0; 0; 0; 0] [0; 0; 0; 0; 0])
   (mkCumul (mkAcc [[0; 0; 0; 0; 0];
    [0; 0; 0; 0; 0];
    [0; 0; 0; 0; 0];
    [0; 0; 0; 0; 0];
    [0; 0; 0; 0; 0]] [[1; 0; 0; 0; 0];
    [2; 0; 0; 0; 0];
    [2; 0; 0; 0; 0];
    [2; 0; 0; 0; 0];
    [2; 0; 0; 0; 0]] [[1; 0; 0; 0; 0];
    [2; 0; 0; 0; 0];
    [2; 0; 0; 0; 0];
    [2; 0; 0; 0; 0];
    [2; 0; 0; 0; 0]] (qs 1 [0; 0; 0; 0; 0]) (qs 1 [1; 2; 2; 2; 2]) (qs 1 [1; 2; 2; 2; 2])) (mkAcc [[0; 0; 0; 0; 0];
    [0; 0; 0; 0; 0];
    [0; 0; 0; 0; 0];
    [0; 0; 0; 0; 0];
    [0; 0; 0; 0; 0]] [[62; 0; 0; 0; 0];
    [152; 0; 0; 0; 0];
    [332; 0; 0; 0; 0];
    [117; 0; 0; 0; 0];
    [125; 0; 0; 0; 0]] [[62; 0; 0; 0; 0];
    [152; 0; 0; 0; 0];
    [332; 0; 0; 0; 0];
    [117; 0; 0; 0; 0];
    [125; 0; 0; 0; 0]] (qs 1 [0; 0; 0; 0; 0]) (qs 1 [62; 152; 332; 117; 125]) (qs 1 [62; 152; 332; 117; 125]))
    (mkPacc [0; 0; 0; 0; 0] [9; 0; 0; 0; 0] [9; 0; 0; 0; 0] (qq 0 1) (qq 9 1) (qq 9 1)) (mkPacc [0; 0; 0; 0; 0] [788; 0; 0; 0; 0] [788; 0; 0; 0; 0] (qq 0 1) (qq 788 1) (qq 788 1)))
   (mkCumul (mkAcc [[0; 0; 0; 0; 0];
    [0; 0; 0; 0; 0];
    [0; 0; 0; 0; 0];
    [0; 0; 0; 0; 0];
    [0; 0; 0; 0; 0]] [[0; 0; 0; 0; 0];
    [0; 0; 0; 0; 0];
    [1; 0; 0; 0; 0];
    [0; 0; 0; 0; 0];
    [0; 0; 0; 0; 0]] [[0; 0; 0; 0; 0];
    [0; 0; 0; 0; 0];
    [1; 0; 0; 0; 0];
    [0; 0; 0; 0; 0];
    [0; 0; 0; 0; 0]] (qs 1 [0; 0; 0; 0; 0]) (qs 1 [0; 0; 1; 0; 0]) (qs 1 [0; 0; 1; 0; 0])) (mkAcc [[0; 0; 0; 0; 0];
    [0; 0; 0; 0; 0];
    [0; 0; 0; 0; 0];
    [0; 0; 0; 0; 0];
    [0; 0; 0; 0; 0]] [[0; 0; 0; 0; 0];
    [0; 0; 0; 0; 0];
    [281; 0; 0; 0; 0];
    [0; 0; 0; 0; 0];
    [0; 0; 0; 0; 0]] [[0; 0; 0; 0; 0];
    [0; 0; 0; 0; 0];
    [281; 0; 0; 0; 0];
    [0; 0; 0; 0; 0];
    [0; 0; 0; 0; 0]] (qs 1 [0; 0; 0; 0; 0]) (qs 1 [0; 0; 281; 0; 0]) (qs 1 [0; 0; 281; 0; 0]))
    (mkPacc [0; 0; 0; 0; 0] [1; 0; 0; 0; 0] [1; 0; 0; 0; 0] (qq 0 1) (qq 1 1) (qq 1 1)) (mkPacc [0; 0; 0; 0; 0] [281; 0; 0; 0; 0] [281; 0; 0; 0; 0] (qq 0 1) (qq 281 1) (qq 281 1)))
   [[3; 1; 0; 0; 0; 0; 0; 0; 0; 0; 0; 0; 0; 0; 0; 0; 0; 0; 0; 0; 0; 0];
    [3; 0; 1; 0; 0; 0; 0; 0; 0; 0; 0; 0; 0; 0; 0; 0; 0; 0; 0; 0; 0; 0];
    [2; 2; 0; 0; 0; 0; 0; 0; 0; 0; 0; 0; 0; 0; 0; 0; 0; 0; 0; 0; 0; 0];
    [2; 2; 0; 0; 0; 0; 0; 0; 0; 0; 0; 0; 0; 0; 0; 0; 0; 0; 0; 0; 0; 0];
    [2; 2; 0; 0; 0; 0; 0; 0; 0; 0; 0; 0; 0; 0; 0; 0; 0; 0; 0; 0; 0; 0]] [[4; 0; 0; 0; 0; 0; 0; 0; 0; 0; 0; 0; 0; 0; 0; 0; 0; 0; 0; 0; 0; 0];
    [4; 0; 0; 0; 0; 0; 0; 0; 0; 0; 0; 0; 0; 0; 0; 0; 0; 0; 0; 0; 0; 0];
    [3; 1; 0; 0; 0; 0; 0; 0; 0; 0; 0; 0; 0; 0; 0; 0; 0; 0; 0; 0; 0; 0];
    [4; 0; 0; 0; 0; 0; 0; 0; 0; 0; 0; 0; 0; 0; 0; 0; 0; 0; 0; 0; 0; 0];
    [4; 0; 0; 0; 0; 0; 0; 0; 0; 0; 0; 0; 0; 0; 0; 0; 0; 0; 0; 0; 0; 0]] [[3; 1; 0; 0; 0; 0; 0; 0; 0; 0; 0; 0; 0; 0; 0; 0; 0; 0; 0; 0; 0; 0];
    [3; 0; 0; 1; 0; 0; 0; 0; 0; 0; 0; 0; 0; 0; 0; 0; 0; 0; 0; 0; 0; 0];
    [2; 1; 0; 0; 0; 1; 0; 0; 0; 0; 0; 0; 0; 0; 0; 0; 0; 0; 0; 0; 0; 0];
    [3; 1; 0; 0; 0; 0; 0; 0; 0; 0; 0; 0; 0; 0; 0; 0; 0; 0; 0; 0; 0; 0];
    [3; 0; 1; 0; 0; 0; 0; 0; 0; 0; 0; 0; 0; 0; 0; 0; 0; 0; 0; 0; 0; 0]]
   (qm 1 [[1; 3844; 0];
    [4; 23104; 0];
    [2; 81562; 1];
    [2; 9365; 0];
    [2; 15377; 0]]) (qs 1 [31; 202890; 1]) (qz 1) (qz 1) 5 11).
Definition table4 := (qm 1 [[3000; 3405; 0; 0; 0; 0];
    [3000; 3405; 0; 0; 0; 0];
    [3000; 3405; 0; 0; 0; 0];
    [3000; 3405; 0; 0; 0; 0];
    [3000; 3405; 0; 0; 0; 0];
    [0; 0; 0; 0; 0; 0]]).
Definition table4_after := (qm 1 [[3000; 3405; 0; 0; 0; 0];
    [3000; 3405; 0; 0; 0; 0];
    [3000; 3405; 0; 0; 0; 0];
    [3000; 3405; 0; 0; 0; 0];
    [3000; 3405; 0; 0; 0; 0];
    [0; 0; 0; 0; 0; 0]]).
Example year_4 : okd (year cf 5 (qz 35040) before4) (fun r => let (s, o) := r in let t := after4 in
  cumul_eq (o_h o) (y_ch t) && cumul_eq (o_p o) (y_cp t) &&
  zmeq (y_HL s) (y_HL t) && zmeq (y_DP s) (y_DP t) && zmeq (y_EU s) (y_EU t) && mnear 6 (y_XA s) (y_XA t) && vnear 6 (y_XP s) (y_XP t) &&
  qeqb (y_SSQ s) (y_SSQ t) && qeqb (y_XLAST s) (y_XLAST t) && (y_INTVT s =? y_INTVT t)%Z && (y_ITAB s =? y_ITAB t)%Z && (o_rflag o =? 0)%Z &&
  match year_report cf 5 table4 before4 s o with None => mnear 5 table4 table4_after | Some (Ok rep) => mnear 5 (r_sustat rep) table4_after && (r_ITAB rep =? y_ITAB t)%Z | _ => false end) = true.
Proof. vm_compute; reflexivity. Qed.
Definition before5 := (mkYst (mkStat [[0; 0; 0; 0; 0];
    [0; 0; 0; 0; 0];
    [0; 0; 0; 0; 0];
    [0; 0; 0; 0; 0];
    [0; 0; 0; 0; 0]] [[0; 0; 0; 0; 0];
    [1; 0; 0; 0; 0];
    [0; 0; 0; 0; 0];
    [0; 0; 0; 0; 0];
    [0; 0; 0; 0; 0]] [[0; 0; 0; 0; 0];
    [0; 0; 0; 0; 0];
    [0; 0; 0; 0; 0];
    [0; 0; 0; 0; 0];
    [0; 0; 0; 0; 0]] [[0; 0; 0; 0; 0];
    [278; 0; 0; 0; 0];
    [0; 0; 0; 0; 0];
    [0; 0; 0; 0; 0];
    [0; 0; 0; 0; 0]] [0; 0; 0; 0; 0] [1; 0; 0; 0; 0] [0; 0; 0; 0; 0] [278; 0; 0; 0; 0])
   (mkStat [[0; 0; 0; 0; 0];
    [0; 0; 0; 0; 0];
    [0; 0; 0; 0; 0];
    [0; 0; 0; 0; 0];
    [0; 0; 0; 0; 0]] [[0; 0; 0; 0; 0];
    [0; 0; 0; 0; 0];
    [0; 0; 0; 0; 0];
    [0; 0; 0; 0; 0];
    [0; 0; 0; 0; 0]] [[0; 0; 0; 0; 0];
    [0; 0; 0; 0; 0];
    [0; 0; 0; 0; 0];
    [0; 0; 0; 0; 0];
    [0; 0; 0; 0; 0]] [[0; 0; 0; 0; 0];
    [0; 0; 0; 0; 0];
    [0; 0; 0; 0; 0];
    [0; 0; 0; 0; 0];
    [0; 0; 0; 0; 0]] [0; 0; 0; 0; 0] [0; 0; 0; 0; 0] [0; 0; 0; 0; 0] [0; 0; 0; 0; 0])
   (mkCumul (mkAcc [[2; 0; 0; 0; 0];
    [0; 0; 0; 0; 0];
    [2; 0; 0; 0; 0];
    [1; 0; 0; 0; 0];
    [1; 0; 0; 0; 0]] [[5; 0; 0; 0; 0];
    [2; 0; 0; 0; 0];
    [4; 0; 0; 0; 0];
    [6; 0; 0; 0; 0];
    [6; 0; 0; 0; 0]] [[7; 0; 0; 0; 0];
    [2; 0; 0; 0; 0];
    [6; 0; 0; 0; 0];
    [7; 0; 0; 0; 0];
    [7; 0; 0; 0; 0]] (qs 1 [2; 0; 2; 1; 1]) (qs 1 [5; 2; 4; 6; 6]) (qs 1 [7; 2; 6; 7; 7])) (mkAcc [[157; 0; 0; 0; 0];
    [0; 0; 0; 0; 0];
    [495; 0; 0; 0; 0];
    [113; 0; 0; 0; 0];
    [107; 0; 0; 0; 0]] [[393; 0; 0; 0; 0];
    [152; 0; 0; 0; 0];
    [599; 0; 0; 0; 0];
    [639; 0; 0; 0; 0];
    [722; 0; 0; 0; 0]] [[550; 0; 0; 0; 0];
    [152; 0; 0; 0; 0];
    [1094; 0; 0; 0; 0];
    [752; 0; 0; 0; 0];
    [829; 0; 0; 0; 0]] (qs 1 [157; 0; 495; 113; 107]) (qs 1 [393; 152; 599; 639; 722]) (qs 1 [550; 152; 1094; 752; 829]))
    (mkPacc [2; 0; 0; 0; 0] [22; 0; 0; 0; 0] [24; 0; 0; 0; 0] (qq 2 1) (qq 22 1) (qq 24 1)) (mkPacc [872; 0; 0; 0; 0] [2505; 0; 0; 0; 0] [3377; 0; 0; 0; 0] (qq 872 1) (qq 2505 1) (qq 3377 1)))
   (mkCumul (mkAcc [[1; 0; 0; 0; 0];
    [0; 0; 0; 0; 0];
    [1; 0; 0; 0; 0];
    [0; 0; 0; 0; 0];
    [0; 0; 0; 0; 0]] [[0; 0; 0; 0; 0];
    [0; 0; 0; 0; 0];
    [1; 0; 0; 0; 0];
    [0; 0; 0; 0; 0];
    [0; 0; 0; 0; 0]] [[1; 0; 0; 0; 0];
    [0; 0; 0; 0; 0];
    [2; 0; 0; 0; 0];
    [0; 0; 0; 0; 0];
    [0; 0; 0; 0; 0]] (qs 1 [1; 0; 1; 0; 0]) (qs 1 [0; 0; 1; 0; 0]) (qs 1 [1; 0; 2; 0; 0])) (mkAcc [[135; 0; 0; 0; 0];
    [0; 0; 0; 0; 0];
    [255; 0; 0; 0; 0];
    [0; 0; 0; 0; 0];
    [0; 0; 0; 0; 0]] [[0; 0; 0; 0; 0];
    [0; 0; 0; 0; 0];
    [281; 0; 0; 0; 0];
    [0; 0; 0; 0; 0];
    [0; 0; 0; 0; 0]] [[135; 0; 0; 0; 0];
    [0; 0; 0; 0; 0];
    [536; 0; 0; 0; 0];
    [0; 0; 0; 0; 0];
    [0; 0; 0; 0; 0]] (qs 1 [135; 0; 255; 0; 0]) (qs 1 [0; 0; 281; 0; 0]) (qs 1 [135; 0; 536; 0; 0]))
    (mkPacc [1; 0; 0; 0; 0] [1; 0; 0; 0; 0] [2; 0; 0; 0; 0] (qq 1 1) (qq 1 1) (qq 2 1)) (mkPacc [390; 0; 0; 0; 0] [281; 0; 0; 0; 0] [671; 0; 0; 0; 0] (qq 390 1) (qq 281 1) (qq 671 1)))
   [[7; 5; 1; 0; 0; 0; 0; 0; 0; 0; 0; 0; 0; 0; 0; 0; 0; 0; 0; 0; 0; 0];
    [12; 0; 1; 0; 0; 0; 0; 0; 0; 0; 0; 0; 0; 0; 0; 0; 0; 0; 0; 0; 0; 0];
    [7; 6; 0; 0; 0; 0; 0; 0; 0; 0; 0; 0; 0; 0; 0; 0; 0; 0; 0; 0; 0; 0];
    [8; 4; 0; 1; 0; 0; 0; 0; 0; 0; 0; 0; 0; 0; 0; 0; 0; 0; 0; 0; 0; 0];
    [7; 5; 1; 0; 0; 0; 0; 0; 0; 0; 0; 0; 0; 0; 0; 0; 0; 0; 0; 0; 0; 0]] [[12; 1; 0; 0; 0; 0; 0; 0; 0; 0; 0; 0; 0; 0; 0; 0; 0; 0; 0; 0; 0; 0];
    [13; 0; 0; 0; 0; 0; 0; 0; 0; 0; 0; 0; 0; 0; 0; 0; 0; 0; 0; 0; 0; 0];
    [11; 2; 0; 0; 0; 0; 0; 0; 0; 0; 0; 0; 0; 0; 0; 0; 0; 0; 0; 0; 0; 0];
    [13; 0; 0; 0; 0; 0; 0; 0; 0; 0; 0; 0; 0; 0; 0; 0; 0; 0; 0; 0; 0; 0];
    [13; 0; 0; 0; 0; 0; 0; 0; 0; 0; 0; 0; 0; 0; 0; 0; 0; 0; 0; 0; 0; 0]] [[9; 2; 1; 0; 1; 0; 0; 0; 0; 0; 0; 0; 0; 0; 0; 0; 0; 0; 0; 0; 0; 0];
    [12; 0; 0; 1; 0; 0; 0; 0; 0; 0; 0; 0; 0; 0; 0; 0; 0; 0; 0; 0; 0; 0];
    [8; 1; 0; 0; 2; 2; 0; 0; 0; 0; 0; 0; 0; 0; 0; 0; 0; 0; 0; 0; 0; 0];
    [9; 2; 0; 0; 1; 0; 1; 0; 0; 0; 0; 0; 0; 0; 0; 0; 0; 0; 0; 0; 0; 0];
    [9; 0; 2; 0; 0; 1; 1; 0; 0; 0; 0; 0; 0; 0; 0; 0; 0; 0; 0; 0; 0; 0]]
   (qm 1 [[9; 78506; 1];
    [4; 23104; 0];
    [6; 254452; 2];
    [13; 183232; 0];
    [9; 203381; 0]]) (qs 1 [80; 1577125; 2]) (qz 9) (qz 7) 15 11).
Definition after5 := (mkYst (mkStat [[0; 0; 0; 0; 0];
    [0; 0; 0; 0; 0];
    [0; 0; 0; 0; 0];
    [0; 0; 0; 0; 0];
    [0; 0; 0; 0; 0]] [[0; 0; 0; 0; 0];
    [0; 0; 0; 0; 0];
    [0; 0; 0; 0; 0];
    [0; 0; 0; 0; 0];
    [0; 0; 0; 0; 0]] [[0; 0; 0; 0; 0];
    [0; 0; 0; 0; 0];
    [0; 0; 0; 0; 0];
    [0; 0; 0; 0; 0];
    [0; 0; 0; 0; 0]] [[0; 0; 0; 0; 0];
    [0; 0; 0; 0; 0];
    [0; 0; 0; 0; 0];
    [0; 0; 0; 0; 0];
    [0; 0; 0; 0; 0]] [0; 0; 0; 0; 0] [0; 0; 0; 0; 0] [0; 0; 0; 0; 0] [0; 0; 0; 0; 0])
   (mkStat [[0; 0; 0; 0; 0];
    [0; 0; 0; 0; 0];
    [0; 0; 0; 0; 0];
    [0; 0; 0; 0; 0];
    [0; 0; 0; 0; 0]] [[0; 0; 0; 0; 0];
    [0; 0; 0; 0; 0];
    [0; 0; 0; 0; 0];
    [0; 0; 0; 0; 0];
    [0; 0; 0; 0; 0]] [[0; 0; 0; 0; 0];
    [0; 0; 0; 0; 0];
    [0; 0; 0; 0; 0];
    [0; 0; 0; 0; 0];
    [0; 0; 0; 0; 0]] [[0; 0; 0; 0; 0];
    [0; 0; 0; 0; 0];
    [0; 0; 0; 0; 0];
    [0; 0; 0; 0; 0];
    [0; 0; 0; 0; 0]] [0; 0; 0; 0; 0] [0; 0; 0; 0; 0] [0; 0; 0; 0; 0] [0; 0; 0; 0; 0])
   (mkCumul (mkAcc [[2; 0; 0; 0; 0];
    [0; 0; 0; 0; 0];
    [2; 0; 0; 0; 0];
    [1; 0; 0; 0; 0];
    [1; 0; 0; 0; 0]] [[5; 0; 0; 0; 0];
    [3; 0; 0; 0; 0];
    [4; 0; 0; 0; 0];
    [6; 0; 0; 0; 0];
    [6; 0; 0; 0; 0]] [[7; 0; 0; 0; 0];
    [3; 0; 0; 0; 0];
    [6; 0; 0; 0; 0];
    [7; 0; 0; 0; 0];
    [7; 0; 0; 0; 0]] (qs 1 [2; 0; 2; 1; 1]) (qs 1 [5; 3; 4; 6; 6]) (qs 1 [7; 3; 6; 7; 7])) (mkAcc [[157; 0; 0; 0; 0];
    [0; 0; 0; 0; 0];
    [495; 0; 0; 0; 0];
    [113; 0; 0; 0; 0];
    [107; 0; 0; 0; 0]] [[393; 0; 0; 0; 0];
    [430; 0; 0; 0; 0];
    [599; 0; 0; 0; 0];
    [639; 0; 0; 0; 0];
    [722; 0; 0; 0; 0]] [[550; 0; 0; 0; 0];
    [430; 0; 0; 0; 0];
    [1094; 0; 0; 0; 0];
    [752; 0; 0; 0; 0];
    [829; 0; 0; 0; 0]] (qs 1 [157; 0; 495; 113; 107]) (qs 1 [393; 430; 599; 639; 722]) (qs 1 [550; 430; 1094; 752; 829]))
    (mkPacc [2; 0; 0; 0; 0] [23; 0; 0; 0; 0] [25; 0; 0; 0; 0] (qq 2 1) (qq 23 1) (qq 25 1)) (mkPacc [872; 0; 0; 0; 0] [2783; 0; 0; 0; 0] [3655; 0; 0; 0; 0] (qq 872 1) (qq 2783 1) (qq 3655 1)))
   (mkCumul (mkAcc [[1; 0; 0; 0; 0];
    [0; 0; 0; 0; 0];
    [1; 0; 0; 0; 0];
    [0; 0; 0; 0; 0];
    [0; 0; 0; 0; 0]] [[0; 0; 0; 0; 0];
    [0; 0; 0; 0; 0];
    [1; 0; 0; 0; 0];
    [0; 0; 0; 0; 0];
    [0; 0; 0; 0; 0]] [[1; 0; 0; 0; 0];
    [0; 0; 0; 0; 0];
    [2; 0; 0; 0; 0];
    [0; 0; 0; 0; 0];
    [0; 0; 0; 0; 0]] (qs 1 [1; 0; 1; 0; 0]) (qs 1 [0; 0; 1; 0; 0]) (qs 1 [1; 0; 2; 0; 0])) (mkAcc [[135; 0; 0; 0; 0];
    [0; 0; 0; 0; 0];
    [255; 0; 0; 0; 0];
    [0; 0; 0; 0; 0];
    [0; 0; 0; 0; 0]] [[0; 0; 0; 0; 0];
    [0; 0; 0; 0; 0];
    [281; 0; 0; 0; 0];
    [0; 0; 0; 0; 0];
    [0; 0; 0; 0; 0]] [[135; 0; 0; 0; 0];
    [0; 0; 0; 0; 0];
    [536; 0; 0; 0; 0];
    [0; 0; 0; 0; 0];
    [0; 0; 0; 0; 0]] (qs 1 [135; 0; 255; 0; 0]) (qs 1 [0; 0; 281; 0; 0]) (qs 1 [135; 0; 536; 0; 0]))
    (mkPacc [1; 0; 0; 0; 0] [1; 0; 0; 0; 0] [2; 0; 0; 0; 0] (qq 1 1) (qq 1 1) (qq 2 1)) (mkPacc [390; 0; 0; 0; 0] [281; 0; 0; 0; 0] [671; 0; 0; 0; 0] (qq 390 1) (qq 281 1) (qq 671 1)))
   [[8; 5; 1; 0; 0; 0; 0; 0; 0; 0; 0; 0; 0; 0; 0; 0; 0; 0; 0; 0; 0; 0];
    [12; 1; 1; 0; 0; 0; 0; 0; 0; 0; 0; 0; 0; 0; 0; 0; 0; 0; 0; 0; 0; 0];
    [8; 6; 0; 0; 0; 0; 0; 0; 0; 0; 0; 0; 0; 0; 0; 0; 0; 0; 0; 0; 0; 0];
    [9; 4; 0; 1; 0; 0; 0; 0; 0; 0; 0; 0; 0; 0; 0; 0; 0; 0; 0; 0; 0; 0];
    [8; 5; 1; 0; 0; 0; 0; 0; 0; 0; 0; 0; 0; 0; 0; 0; 0; 0; 0; 0; 0; 0]] [[13; 1; 0; 0; 0; 0; 0; 0; 0; 0; 0; 0; 0; 0; 0; 0; 0; 0; 0; 0; 0; 0];
    [14; 0; 0; 0; 0; 0; 0; 0; 0; 0; 0; 0; 0; 0; 0; 0; 0; 0; 0; 0; 0; 0];
    [12; 2; 0; 0; 0; 0; 0; 0; 0; 0; 0; 0; 0; 0; 0; 0; 0; 0; 0; 0; 0; 0];
    [14; 0; 0; 0; 0; 0; 0; 0; 0; 0; 0; 0; 0; 0; 0; 0; 0; 0; 0; 0; 0; 0];
    [14; 0; 0; 0; 0; 0; 0; 0; 0; 0; 0; 0; 0; 0; 0; 0; 0; 0; 0; 0; 0; 0]] [[10; 2; 1; 0; 1; 0; 0; 0; 0; 0; 0; 0; 0; 0; 0; 0; 0; 0; 0; 0; 0; 0];
    [12; 0; 0; 1; 0; 1; 0; 0; 0; 0; 0; 0; 0; 0; 0; 0; 0; 0; 0; 0; 0; 0];
    [9; 1; 0; 0; 2; 2; 0; 0; 0; 0; 0; 0; 0; 0; 0; 0; 0; 0; 0; 0; 0; 0];
    [10; 2; 0; 0; 1; 0; 1; 0; 0; 0; 0; 0; 0; 0; 0; 0; 0; 0; 0; 0; 0; 0];
    [10; 0; 2; 0; 0; 1; 1; 0; 0; 0; 0; 0; 0; 0; 0; 0; 0; 0; 0; 0; 0; 0]]
   (qm 1 [[9; 78506; 1];
    [5; 100388; 0];
    [6; 254452; 2];
    [13; 183232; 0];
    [9; 203381; 0]]) (qs 1 [81; 1654409; 2]) (qz 9) (qz 7) 15 11).
Definition table5 := (qm 1 [[3000; 3405; 0; 0; 0; 0];
    [3000; 3405; 0; 0; 0; 0];
    [3000; 3405; 0; 0; 0; 0];
    [3000; 3405; 0; 0; 0; 0];
    [3000; 3405; 0; 0; 0; 0];
    [0; 0; 0; 0; 0; 0]]).
Definition table5_after := (qm 1 [[3000; 3405; 0; 0; 0; 0];
    [3000; 3405; 0; 0; 0; 0];
    [3000; 3405; 0; 0; 0; 0];
    [3000; 3405; 0; 0; 0; 0];
    [3000; 3405; 0; 0; 0; 0];
    [0; 0; 0; 0; 0; 0]]).
Example year_5 : okd (year cf 5 (qz 122640) before5) (fun r => let (s, o) := r in let t := after5 in
  cumul_eq (o_h o) (y_ch t) && cumul_eq (o_p o) (y_cp t) &&
  zmeq (y_HL s) (y_HL t) && zmeq (y_DP s) (y_DP t) && zmeq (y_EU s) (y_EU t) && mnear 6 (y_XA s) (y_XA t) && vnear 6 (y_XP s) (y_XP t) &&
  qeqb (y_SSQ s) (y_SSQ t) && qeqb (y_XLAST s) (y_XLAST t) && (y_INTVT s =? y_INTVT t)%Z && (y_ITAB s =? y_ITAB t)%Z && (o_rflag o =? 0)%Z &&
  match year_report cf 5 table5 before5 s o with None => mnear 5 table5 table5_after | Some (Ok rep) => mnear 5 (r_sustat rep) table5_after && (r_ITAB rep =? y_ITAB t)%Z | _ => false end) = true.
Proof. vm_compute; reflexivity. Qed.
Definition before6 := (mkYst (mkStat [[0; 0; 0; 0; 0];
    [0; 0; 0; 0; 0];
    [0; 0; 0; 0; 0];
    [0; 0; 0; 0; 0];
    [0; 0; 0; 0; 0]] [[1; 0; 0; 0; 0];
    [2; 0; 0; 0; 0];
    [0; 0; 0; 0; 0];
    [2; 0; 0; 0; 0];
    [0; 0; 0; 0; 0]] [[0; 0; 0; 0; 0];
    [0; 0; 0; 0; 0];
    [0; 0; 0; 0; 0];
    [0; 0; 0; 0; 0];
    [0; 0; 0; 0; 0]] [[164; 0; 0; 0; 0];
    [150; 0; 0; 0; 0];
    [0; 0; 0; 0; 0];
    [151; 0; 0; 0; 0];
    [0; 0; 0; 0; 0]] [0; 0; 0; 0; 0] [5; 0; 0; 0; 0] [0; 0; 0; 0; 0] [465; 0; 0; 0; 0])
   (mkStat [[0; 0; 0; 0; 0];
    [0; 0; 0; 0; 0];
    [0; 0; 0; 0; 0];
    [0; 0; 0; 0; 0];
    [0; 0; 0; 0; 0]] [[0; 0; 0; 0; 0];
    [0; 0; 0; 0; 0];
    [0; 0; 0; 0; 0];
    [1; 0; 0; 0; 0];
    [0; 0; 0; 0; 0]] [[0; 0; 0; 0; 0];
    [0; 0; 0; 0; 0];
    [0; 0; 0; 0; 0];
    [0; 0; 0; 0; 0];
    [0; 0; 0; 0; 0]] [[0; 0; 0; 0; 0];
    [0; 0; 0; 0; 0];
    [0; 0; 0; 0; 0];
    [123; 0; 0; 0; 0];
    [0; 0; 0; 0; 0]] [0; 0; 0; 0; 0] [1; 0; 0; 0; 0] [0; 0; 0; 0; 0] [123; 0; 0; 0; 0])
   (mkCumul (mkAcc [[375; 0; 0; 0; 0];
    [390; 0; 0; 0; 0];
    [388; 0; 0; 0; 0];
    [375; 0; 0; 0; 0];
    [373; 0; 0; 0; 0]] [[1242; 0; 0; 0; 0];
    [1172; 0; 0; 0; 0];
    [1405; 0; 0; 0; 0];
    [1209; 0; 0; 0; 0];
    [1109; 0; 0; 0; 0]] [[1617; 0; 0; 0; 0];
    [1562; 0; 0; 0; 0];
    [1793; 0; 0; 0; 0];
    [1584; 0; 0; 0; 0];
    [1482; 0; 0; 0; 0]] (qs 1 [375; 390; 388; 375; 373]) (qs 1 [1242; 1172; 1405; 1209; 1109]) (qs 1 [1617; 1562; 1793; 1584; 1482])) (mkAcc [[49872; 0; 0; 0; 0];
    [52519; 0; 0; 0; 0];
    [57038; 0; 0; 0; 0];
    [56026; 0; 0; 0; 0];
    [47489; 0; 0; 0; 0]] [[128012; 0; 0; 0; 0];
    [120315; 0; 0; 0; 0];
    [145253; 0; 0; 0; 0];
    [119156; 0; 0; 0; 0];
    [106680; 0; 0; 0; 0]] [[177884; 0; 0; 0; 0];
    [172834; 0; 0; 0; 0];
    [202291; 0; 0; 0; 0];
    [175182; 0; 0; 0; 0];
    [154169; 0; 0; 0; 0]] (qs 1 [49872; 52519; 57038; 56026; 47489]) (qs 1 [128012; 120315; 145253; 119156; 106680]) (qs 1 [177884; 172834; 202291; 175182; 154169]))
    (mkPacc [876; 0; 0; 0; 0] [5837; 0; 0; 0; 0] [6713; 0; 0; 0; 0] (qq 876 1) (qq 5837 1) (qq 6713 1)) (mkPacc [262944; 0; 0; 0; 0] [619416; 0; 0; 0; 0] [882360; 0; 0; 0; 0] (qq 262944 1) (qq 619416 1) (qq 882360 1)))
   (mkCumul (mkAcc [[131; 0; 0; 0; 0];
    [118; 0; 0; 0; 0];
    [139; 0; 0; 0; 0];
    [126; 0; 0; 0; 0];
    [124; 0; 0; 0; 0]] [[240; 0; 0; 0; 0];
    [213; 0; 0; 0; 0];
    [276; 0; 0; 0; 0];
    [221; 0; 0; 0; 0];
    [205; 0; 0; 0; 0]] [[371; 0; 0; 0; 0];
    [331; 0; 0; 0; 0];
    [415; 0; 0; 0; 0];
    [347; 0; 0; 0; 0];
    [329; 0; 0; 0; 0]] (qs 1 [131; 118; 139; 126; 124]) (qs 1 [240; 213; 276; 221; 205]) (qs 1 [371; 331; 415; 347; 329])) (mkAcc [[17058; 0; 0; 0; 0];
    [14722; 0; 0; 0; 0];
    [21995; 0; 0; 0; 0];
    [17887; 0; 0; 0; 0];
    [17191; 0; 0; 0; 0]] [[26709; 0; 0; 0; 0];
    [23153; 0; 0; 0; 0];
    [30423; 0; 0; 0; 0];
    [22435; 0; 0; 0; 0];
    [21866; 0; 0; 0; 0]] [[43767; 0; 0; 0; 0];
    [37875; 0; 0; 0; 0];
    [52418; 0; 0; 0; 0];
    [40322; 0; 0; 0; 0];
    [39057; 0; 0; 0; 0]] (qs 1 [17058; 14722; 21995; 17887; 17191]) (qs 1 [26709; 23153; 30423; 22435; 21866]) (qs 1 [43767; 37875; 52418; 40322; 39057]))
    (mkPacc [287; 0; 0; 0; 0] [1088; 0; 0; 0; 0] [1375; 0; 0; 0; 0] (qq 287 1) (qq 1088 1) (qq 1375 1)) (mkPacc [88853; 0; 0; 0; 0] [124586; 0; 0; 0; 0] [213439; 0; 0; 0; 0] (qq 88853 1) (qq 124586 1) (qq 213439 1)))
   [[2281; 1017; 236; 37; 3; 1; 0; 0; 0; 0; 0; 0; 0; 0; 0; 0; 0; 0; 0; 0; 0; 0];
    [2299; 1025; 220; 27; 4; 0; 0; 0; 0; 0; 0; 0; 0; 0; 0; 0; 0; 0; 0; 0; 0; 0];
    [2165; 1084; 274; 47; 5; 0; 0; 0; 0; 0; 0; 0; 0; 0; 0; 0; 0; 0; 0; 0; 0; 0];
    [2298; 1020; 209; 46; 2; 0; 0; 0; 0; 0; 0; 0; 0; 0; 0; 0; 0; 0; 0; 0; 0; 0];
    [2358; 987; 200; 25; 5; 0; 0; 0; 0; 0; 0; 0; 0; 0; 0; 0; 0; 0; 0; 0; 0; 0]] [[3226; 327; 22; 0; 0; 0; 0; 0; 0; 0; 0; 0; 0; 0; 0; 0; 0; 0; 0; 0; 0; 0];
    [3255; 309; 11; 0; 0; 0; 0; 0; 0; 0; 0; 0; 0; 0; 0; 0; 0; 0; 0; 0; 0; 0];
    [3172; 391; 12; 0; 0; 0; 0; 0; 0; 0; 0; 0; 0; 0; 0; 0; 0; 0; 0; 0; 0; 0];
    [3250; 304; 20; 1; 0; 0; 0; 0; 0; 0; 0; 0; 0; 0; 0; 0; 0; 0; 0; 0; 0; 0];
    [3250; 321; 4; 0; 0; 0; 0; 0; 0; 0; 0; 0; 0; 0; 0; 0; 0; 0; 0; 0; 0; 0]] [[2678; 266; 166; 138; 112; 72; 51; 32; 20; 11; 12; 3; 5; 4; 2; 1; 0; 2; 0; 0; 0; 0];
    [2674; 284; 183; 139; 97; 57; 40; 30; 28; 17; 11; 7; 5; 0; 1; 1; 0; 0; 1; 0; 0; 0];
    [2548; 294; 204; 162; 127; 73; 50; 35; 30; 15; 19; 10; 0; 4; 1; 1; 1; 1; 0; 0; 0; 0];
    [2696; 259; 176; 135; 89; 71; 48; 39; 19; 14; 10; 4; 3; 6; 1; 1; 2; 1; 0; 0; 1; 0];
    [2742; 260; 173; 156; 80; 58; 43; 19; 14; 10; 2; 8; 4; 3; 1; 1; 1; 0; 0; 0; 0; 0]]
   (qm 1 [[2367; 46744832; 415];
    [2212; 44441248; 353];
    [2683; 53512080; 439];
    [2302; 47576520; 393];
    [2092; 37098336; 337]]) (qs 1 [19115; 464762624; 1875]) (qz 2367) (qz 1617) 3580 11).
Definition after6 := (mkYst (mkStat [[0; 0; 0; 0; 0];
    [0; 0; 0; 0; 0];
    [0; 0; 0; 0; 0];
    [0; 0; 0; 0; 0];
    [0; 0; 0; 0; 0]] [[0; 0; 0; 0; 0];
    [0; 0; 0; 0; 0];
    [0; 0; 0; 0; 0];
    [0; 0; 0; 0; 0];
    [0; 0; 0; 0; 0]] [[0; 0; 0; 0; 0];
    [0; 0; 0; 0; 0];
    [0; 0; 0; 0; 0];
    [0; 0; 0; 0; 0];
    [0; 0; 0; 0; 0]] [[0; 0; 0; 0; 0];
    [0; 0; 0; 0; 0];
    [0; 0; 0; 0; 0];
    [0; 0; 0; 0; 0];
    [0; 0; 0; 0; 0]] [0; 0; 0; 0; 0] [0; 0; 0; 0; 0] [0; 0; 0; 0; 0] [0; 0; 0; 0; 0])
   (mkStat [[0; 0; 0; 0; 0];
    [0; 0; 0; 0; 0];
    [0; 0; 0; 0; 0];
    [0; 0; 0; 0; 0];
    [0; 0; 0; 0; 0]] [[0; 0; 0; 0; 0];
    [0; 0; 0; 0; 0];
    [0; 0; 0; 0; 0];
    [0; 0; 0; 0; 0];
    [0; 0; 0; 0; 0]] [[0; 0; 0; 0; 0];
    [0; 0; 0; 0; 0];
    [0; 0; 0; 0; 0];
    [0; 0; 0; 0; 0];
    [0; 0; 0; 0; 0]] [[0; 0; 0; 0; 0];
    [0; 0; 0; 0; 0];
    [0; 0; 0; 0; 0];
    [0; 0; 0; 0; 0];
    [0; 0; 0; 0; 0]] [0; 0; 0; 0; 0] [0; 0; 0; 0; 0] [0; 0; 0; 0; 0] [0; 0; 0; 0; 0])
   (mkCumul (mkAcc [[375; 0; 0; 0; 0];
    [390; 0; 0; 0; 0];
    [388; 0; 0; 0; 0];
    [375; 0; 0; 0; 0];
    [373; 0; 0; 0; 0]] [[1243; 0; 0; 0; 0];
    [1174; 0; 0; 0; 0];
    [1405; 0; 0; 0; 0];
    [1211; 0; 0; 0; 0];
    [1109; 0; 0; 0; 0]] [[1618; 0; 0; 0; 0];
    [1564; 0; 0; 0; 0];
    [1793; 0; 0; 0; 0];
    [1586; 0; 0; 0; 0];
    [1482; 0; 0; 0; 0]] (qs 1 [375; 390; 388; 375; 373]) (qs 1 [1243; 1174; 1405; 1211; 1109]) (qs 1 [1618; 1564; 1793; 1586; 1482])) (mkAcc [[49872; 0; 0; 0; 0];
    [52519; 0; 0; 0; 0];
    [57038; 0; 0; 0; 0];
    [56026; 0; 0; 0; 0];
    [47489; 0; 0; 0; 0]] [[128176; 0; 0; 0; 0];
    [120465; 0; 0; 0; 0];
    [145253; 0; 0; 0; 0];
    [119307; 0; 0; 0; 0];
    [106680; 0; 0; 0; 0]] [[178048; 0; 0; 0; 0];
    [172984; 0; 0; 0; 0];
    [202291; 0; 0; 0; 0];
    [175333; 0; 0; 0; 0];
    [154169; 0; 0; 0; 0]] (qs 1 [49872; 52519; 57038; 56026; 47489]) (qs 1 [128176; 120465; 145253; 119307; 106680]) (qs 1 [178048; 172984; 202291; 175333; 154169]))
    (mkPacc [876; 0; 0; 0; 0] [5842; 0; 0; 0; 0] [6718; 0; 0; 0; 0] (qq 876 1) (qq 5842 1) (qq 6718 1)) (mkPacc [262944; 0; 0; 0; 0] [619881; 0; 0; 0; 0] [882825; 0; 0; 0; 0] (qq 262944 1) (qq 619881 1) (qq 882825 1)))
   (mkCumul (mkAcc [[131; 0; 0; 0; 0];
    [118; 0; 0; 0; 0];
    [139; 0; 0; 0; 0];
    [126; 0; 0; 0; 0];
    [124; 0; 0; 0; 0]] [[240; 0; 0; 0; 0];
    [213; 0; 0; 0; 0];
    [276; 0; 0; 0; 0];
    [222; 0; 0; 0; 0];
    [205; 0; 0; 0; 0]] [[371; 0; 0; 0; 0];
    [331; 0; 0; 0; 0];
    [415; 0; 0; 0; 0];
    [348; 0; 0; 0; 0];
    [329; 0; 0; 0; 0]] (qs 1 [131; 118; 139; 126; 124]) (qs 1 [240; 213; 276; 222; 205]) (qs 1 [371; 331; 415; 348; 329])) (mkAcc [[17058; 0; 0; 0; 0];
    [14722; 0; 0; 0; 0];
    [21995; 0; 0; 0; 0];
    [17887; 0; 0; 0; 0];
    [17191; 0; 0; 0; 0]] [[26709; 0; 0; 0; 0];
    [23153; 0; 0; 0; 0];
    [30423; 0; 0; 0; 0];
    [22558; 0; 0; 0; 0];
    [21866; 0; 0; 0; 0]] [[43767; 0; 0; 0; 0];
    [37875; 0; 0; 0; 0];
    [52418; 0; 0; 0; 0];
    [40445; 0; 0; 0; 0];
    [39057; 0; 0; 0; 0]] (qs 1 [17058; 14722; 21995; 17887; 17191]) (qs 1 [26709; 23153; 30423; 22558; 21866]) (qs 1 [43767; 37875; 52418; 40445; 39057]))
    (mkPacc [287; 0; 0; 0; 0] [1089; 0; 0; 0; 0] [1376; 0; 0; 0; 0] (qq 287 1) (qq 1089 1) (qq 1376 1)) (mkPacc [88853; 0; 0; 0; 0] [124709; 0; 0; 0; 0] [213562; 0; 0; 0; 0] (qq 88853 1) (qq 124709 1) (qq 213562 1)))
   [[2281; 1018; 236; 37; 3; 1; 0; 0; 0; 0; 0; 0; 0; 0; 0; 0; 0; 0; 0; 0; 0; 0];
    [2299; 1025; 221; 27; 4; 0; 0; 0; 0; 0; 0; 0; 0; 0; 0; 0; 0; 0; 0; 0; 0; 0];
    [2166; 1084; 274; 47; 5; 0; 0; 0; 0; 0; 0; 0; 0; 0; 0; 0; 0; 0; 0; 0; 0; 0];
    [2298; 1020; 210; 46; 2; 0; 0; 0; 0; 0; 0; 0; 0; 0; 0; 0; 0; 0; 0; 0; 0; 0];
    [2359; 987; 200; 25; 5; 0; 0; 0; 0; 0; 0; 0; 0; 0; 0; 0; 0; 0; 0; 0; 0; 0]] [[3227; 327; 22; 0; 0; 0; 0; 0; 0; 0; 0; 0; 0; 0; 0; 0; 0; 0; 0; 0; 0; 0];
    [3256; 309; 11; 0; 0; 0; 0; 0; 0; 0; 0; 0; 0; 0; 0; 0; 0; 0; 0; 0; 0; 0];
    [3173; 391; 12; 0; 0; 0; 0; 0; 0; 0; 0; 0; 0; 0; 0; 0; 0; 0; 0; 0; 0; 0];
    [3250; 305; 20; 1; 0; 0; 0; 0; 0; 0; 0; 0; 0; 0; 0; 0; 0; 0; 0; 0; 0; 0];
    [3251; 321; 4; 0; 0; 0; 0; 0; 0; 0; 0; 0; 0; 0; 0; 0; 0; 0; 0; 0; 0; 0]] [[2678; 266; 166; 139; 112; 72; 51; 32; 20; 11; 12; 3; 5; 4; 2; 1; 0; 2; 0; 0; 0; 0];
    [2674; 284; 183; 140; 97; 57; 40; 30; 28; 17; 11; 7; 5; 0; 1; 1; 0; 0; 1; 0; 0; 0];
    [2549; 294; 204; 162; 127; 73; 50; 35; 30; 15; 19; 10; 0; 4; 1; 1; 1; 1; 0; 0; 0; 0];
    [2696; 259; 176; 136; 89; 71; 48; 39; 19; 14; 10; 4; 3; 6; 1; 1; 2; 1; 0; 0; 1; 0];
    [2743; 260; 173; 156; 80; 58; 43; 19; 14; 10; 2; 8; 4; 3; 1; 1; 1; 0; 0; 0; 0; 0]]
   (qm 1 [[2368; 46771728; 415];
    [2216; 44463748; 353];
    [2683; 53512080; 439];
    [2306; 47599321; 394];
    [2092; 37098336; 337]]) (qs 1 [19140; 464978849; 1876]) (qz 2368) (qz 1618) 3580 18).
Definition table6 := (qm 1 [[3000; 3405; 0; 0; 0; 0];
    [3000; 3405; 0; 0; 0; 0];
    [3000; 3405; 0; 0; 0; 0];
    [3000; 3405; 0; 0; 0; 0];
    [3000; 3405; 0; 0; 0; 0];
    [0; 0; 0; 0; 0; 0]]).
Definition table6_after := (qm 1000000 [[3000000000; 3405000000; 13500000; 452461; 103747; 49789711];
    [3000000000; 3405000000; 13500000; 437360; 92562; 48373600];
    [3000000000; 3405000000; 13500000; 501398; 116051; 56569073];
    [3000000000; 3405000000; 13500000; 443512; 97315; 49030479];
    [3000000000; 3405000000; 13500000; 414430; 92002; 43112137];
    [15000000000; 17025000000; 13500000; 1878635; 384787; 246875000]]).
Example year_6 : okd (year cf 5 (qz 31325760) before6) (fun r => let (s, o) := r in let t := after6 in
  cumul_eq (o_h o) (y_ch t) && cumul_eq (o_p o) (y_cp t) &&
  zmeq (y_HL s) (y_HL t) && zmeq (y_DP s) (y_DP t) && zmeq (y_EU s) (y_EU t) && mnear 6 (y_XA s) (y_XA t) && vnear 6 (y_XP s) (y_XP t) &&
  qeqb (y_SSQ s) (y_SSQ t) && qeqb (y_XLAST s) (y_XLAST t) && (y_INTVT s =? y_INTVT t)%Z && (y_ITAB s =? y_ITAB t)%Z && (o_rflag o =? 1)%Z &&
  match year_report cf 5 table6 before6 s o with None => mnear 5 table6 table6_after | Some (Ok rep) => mnear 5 (r_sustat rep) table6_after && (r_ITAB rep =? y_ITAB t)%Z | _ => false end) = true.
Proof. vm_compute; reflexivity. Qed.
(** The data files hold what the original program left in the counters of the year (all zero); the unit
    test does not compare them.  The Python code, hence the model, leaves the count of the third area in place
    (year.py 637-644 have the indices the wrong way round). *)
Example year_1_reset : okd (year cf 5 (qz 8760) before1) (fun r => negb (stat_eq (y_h (fst r)) (y_h after1)) && zmeq (lolT (y_h after1)) (repeat (repeat 0 5) 5) && (zmget (lolT (y_h (fst r))) 2 0 =? 1)) = true.
Proof. vm_compute; reflexivity. Qed.
