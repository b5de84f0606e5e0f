(** Property theorems C17-C25: capacity, contracts, peaks, load scaling, forecast
    levels. *)
From Verif Require Import Base BaseProofs Sums LoadModel LoadSpec LoadProofs ContractProofs PeakProofs.
Open Scope Z_scope.

(** C17.  Located capacity, owned capacity and joint-ownership transfer of every
    area, and their pool totals. *)
Theorem C17_capacity_conserved : forall AVAIL CAPOWN CAPCON na,
  shape na (length AVAIL) CAPOWN -> length CAPCON = length AVAIL -> in_areas na CAPCON ->
  exists CAPAVL SYSOWN SYSCON TRNSFJ, sumcap AVAIL CAPOWN CAPCON = Ok (CAPAVL, SYSOWN, SYSCON, TRNSFJ) /\
    length SYSOWN = na /\ length SYSCON = na /\ length TRNSFJ = na /\
    (forall k, (k < na)%nat ->
      vget SYSCON k = qs (length AVAIL) (fun i => if zget CAPCON i =? Z.of_nat k then vget AVAIL i else q0) /\
      vget SYSOWN k = qs (length AVAIL) (fun i => Qcmult (mget CAPOWN k i) (vget AVAIL i)) /\
      vget TRNSFJ k = Qcminus (vget SYSCON k) (vget SYSOWN k)) /\
    qsum SYSCON = qsum AVAIL /\
    ((forall i, (i < length AVAIL)%nat -> qs na (fun k => mget CAPOWN k i) = q1) ->
      qsum SYSOWN = qsum AVAIL /\ qsum TRNSFJ = q0).
Proof. exact sumcap_spec. Qed.
Print Assumptions C17_capacity_conserved.

Example C17_witness :
  let CAPOWN := [[q1; qq 1 4]; [q0; qq 3 4]] in
  shape 2 2 CAPOWN /\ in_areas 2 [0; 1] /\
  (forall i, (i < 2)%nat -> qs 2 (fun k => mget CAPOWN k i) = q1) /\
  match sumcap [qz 100; qz 80] CAPOWN [0; 1] with
  | Ok (_, own, con, tr) => (own, con, tr) = ([qz 120; qz 60], [qz 100; qz 80], [qz (-20); qz 20])
  | _ => False end.
Proof.
  cbv zeta. split. { split; [reflexivity|]. intros [|[|j]] H; [reflexivity|reflexivity|lia]. }
  split. { repeat constructor; lia. }
  split. { intros [|[|i]] H; [qcheck|qcheck|lia]. }
  qcheck.
Qed.

(** C18.  For every day index Python accepts ([ND] days, negative ones count from
    the end), the transfers are exports minus imports and net to zero. *)
Theorem C18_transfers_net_to_zero : forall n JENT INTCH ND JDAY d,
  shape n n JENT -> pointers_ok n JENT INTCH -> (forall r, In r INTCH -> length r = ND) ->
  pyidx ND JDAY = Some d ->
  exists T, findtn JENT INTCH JDAY = Ok T /\ length T = n /\
    (forall k, (k < n)%nat -> vget T k = net_export n JENT INTCH k d) /\ qsum T = q0.
Proof. exact findtn_spec. Qed.
Print Assumptions C18_transfers_net_to_zero.

Definition demo_jent : list (list Z) := [[-1; -1; 1]; [0; -1; -1]; [-1; -1; -1]].
Definition demo_intch : list (list Qc) := [[qz 10; qz 0]; [qz 5; qz 7]].
Example demo_contracts_ok : shape 3 3 demo_jent /\ pointers_ok 3 demo_jent demo_intch /\ shape 2 2 demo_intch.
Proof.
  split. { split; [reflexivity|]. intros [|[|[|j]]] H; try reflexivity; lia. }
  split. { intros [|[|[|i]]] [|[|[|j]]] Hi Hj; try lia; vm_compute; intuition congruence. }
  split; [reflexivity|]. intros [|[|j]] H; try reflexivity; lia.
Qed.
Example C18_witness : findtn demo_jent demo_intch 0 = Ok [qz (-5); qz 10; qz (-5)] /\
  findtn demo_jent demo_intch (-1) = Ok [qz 7; q0; qz (-7)].
Proof. split; qcheck. Qed.

(** C19.  Adding contracts changes each hour of each area by that day's net export
    and leaves the pool load of each hour unchanged; *)
Theorem C19_adding_contracts : forall n w JENT INTCH H,
  shape n n JENT -> pointers_ok n JENT INTCH -> shape n w H ->
  exists H', xporta JENT INTCH H = Ok H' /\ shape n w H' /\
    (forall j h, (j < n)%nat -> (h < w)%nat ->
       mget H' j h = Qcplus (mget H j h) (net_export n JENT INTCH j (h / 24))) /\
    (forall h, (h < w)%nat -> qs n (fun j => mget H' j h) = qs n (fun j => mget H j h)).
Proof. exact xporta_spec. Qed.
Print Assumptions C19_adding_contracts.

(** removing them again restores every load; *)
Theorem C19_restored : forall n w JENT INTCH H,
  shape n n JENT -> pointers_ok n JENT INTCH -> shape n w H ->
  exists H', xporta JENT INTCH H = Ok H' /\ xports JENT INTCH H' = Ok H.
Proof. exact contracts_restored. Qed.
Print Assumptions C19_restored.

(** the loop version computes the same. *)
Theorem C19_versions_agree : forall n w ND JENT INTCH H,
  shape n n JENT -> pointers_ok n JENT INTCH -> shape (length INTCH) ND INTCH ->
  shape n w H -> xporta JENT INTCH H = Ok (xporta_loop ND JENT INTCH H).
Proof. exact xporta_agree. Qed.
Print Assumptions C19_versions_agree.

Example C19_witness :
  match xporta demo_jent demo_intch (repeat (repeat (qz 100) 48) 3) with
  | Ok H => map (fun h => (mget H 0 h, mget H 1 h, mget H 2 h)) [0; 23; 24; 47]%nat
            = [(qz 95, qz 110, qz 95); (qz 95, qz 110, qz 95); (qz 107, qz 100, qz 93); (qz 107, qz 100, qz 93)]
  | _ => False end.
Proof. qcheck. Qed.

(** C20.  Daily peaks ([w] days of [hwd] hours): the reported hour lies in the day,
    attains the reported peak, which is the day's maximum, and is the earliest such
    hour; the annual peak day is the first maximum of the daily peaks. *)
Theorem C20_daily_peaks : forall hwd n w HRLOAD MAXHR DYLOAD MAXDAY,
  (0 < hwd)%nat -> (0 < w)%nat -> shape n (w * hwd) HRLOAD ->
  dpeak hwd HRLOAD = (MAXHR, DYLOAD, MAXDAY) ->
  shape n w DYLOAD /\ shape n w MAXHR /\ length MAXDAY = n /\
  forall a, (a < n)%nat ->
    (forall d, (d < w)%nat ->
       let t := nth d (nth a MAXHR []) 0%nat in
       (d * hwd <= t < (d + 1) * hwd)%nat /\
       mget DYLOAD a d = mget HRLOAD a t /\
       (forall h, (d * hwd <= h < (d + 1) * hwd)%nat -> (mget HRLOAD a h <= mget HRLOAD a t)%Qc) /\
       (forall h, (d * hwd <= h < t)%nat -> (mget HRLOAD a h < mget HRLOAD a t)%Qc)) /\
    first_max (nth a DYLOAD []) (nth a MAXDAY 0%nat).
Proof. exact dpeak_spec. Qed.
Print Assumptions C20_daily_peaks.
Theorem C20_versions_agree : forall hwd n w HRLOAD,
  (0 < hwd)%nat -> (0 < w)%nat -> shape n (w * hwd) HRLOAD ->
  dpeak hwd HRLOAD = dpeak_loop hwd HRLOAD.
Proof. exact dpeak_agree. Qed.
Print Assumptions C20_versions_agree.
Example C20_witness : dpeak 3 [map qz [1; 5; 5; 2; 0; 2; 5; 4; 1]]
  = ([[1; 3; 6]%nat], [map qz [5; 2; 5]], [0%nat]) /\
  dpeak_loop 3 [map qz [-1; -5; -5; -2; -9; -2]] = ([[0; 3]%nat], [map qz [-1; -2]], [0%nat]).
Proof. split; qcheck. Qed.

(** C21.  Weekly peaks over days [7w, 7w+7), the last week over [357, 365). *)
Theorem C21_weekly_peaks : forall n DYLOAD, shape n 365 DYLOAD ->
  shape n 52 (wpeakf DYLOAD) /\ forall a w, (a < n)%nat -> (w < 52)%nat ->
    max_over (nth a DYLOAD []) (7 * w) (if w =? 51 then 365 else 7 * w + 7)%nat (mget (wpeakf DYLOAD) a w).
Proof. exact wpeakf_spec. Qed.
Print Assumptions C21_weekly_peaks.
Theorem C21_every_day_in_one_week : forall d, (d < 365)%nat ->
  exists w, (w < 52)%nat /\ (7 * w <= d < if w =? 51 then 365 else 7 * w + 7)%nat /\
   forall w', (w' < 52)%nat -> (7 * w' <= d < if w' =? 51 then 365 else 7 * w' + 7)%nat -> w' = w.
Proof. exact every_day_one_week. Qed.
Print Assumptions C21_every_day_in_one_week.
Theorem C21_versions_agree : forall n DYLOAD, shape n 365 DYLOAD -> wpeakf DYLOAD = wpeakf_loop DYLOAD.
Proof. exact wpeakf_agree. Qed.
Print Assumptions C21_versions_agree.
Example C21_witness :
  let D := [map (fun d => qz (Z.of_nat d)) (seq 0 365)] in
  shape 1 365 D /\ map (mget (wpeakf D) 0) [0; 1; 51]%nat = map qz [6; 13; 364].
Proof. cbv zeta. split; [split; [reflexivity|intros [|j] H; [reflexivity|lia]]|]. qcheck. Qed.

(** C22.  The pool peak hour of each day. *)
Theorem C22_pool_peak_hour : forall n w HRLOAD, (0 < n)%nat -> shape n (w * 24) HRLOAD ->
  length (plhr HRLOAD) = w /\
  forall d, (d < w)%nat ->
    let t := nth d (plhr HRLOAD) 0%nat in
    let pool h := qs n (fun j => mget HRLOAD j h) in
    (d * 24 <= t < (d + 1) * 24)%nat /\
    (forall h, (d * 24 <= h < (d + 1) * 24)%nat -> (pool h <= pool t)%Qc) /\
    (forall h, (d * 24 <= h < t)%nat -> (pool h < pool t)%Qc).
Proof. exact plhr_spec. Qed.
Print Assumptions C22_pool_peak_hour.
Example C22_witness :
  plhr [map (fun h => qz (if Z.of_nat h =? 30 then 9 else 1)) (seq 0 48);
        map (fun h => qz (if Z.of_nat h =? 7 then 3 else 1)) (seq 0 48)] = [7; 30]%nat.
Proof. qcheck. Qed.

(** C23.  Scaling of one area's profile: the maximum is exactly the user's peak, and
    ratios between hours are preserved. *)
Theorem C23_scaled_to_peak : forall row pk,
  (exists v, In v row /\ (qq 1 1000 <= v)%Qc) -> (q0 <= pk)%Qc ->
  length (rescale row pk) = length row /\
  (exists t, (t < length row)%nat /\ nth t (rescale row pk) q0 = pk) /\
  (forall t, (t < length row)%nat -> (nth t (rescale row pk) q0 <= pk)%Qc) /\
  (forall s t, (s < length row)%nat -> (t < length row)%nat ->
     Qcmult (nth s (rescale row pk) q0) (nth t row q0) = Qcmult (nth t (rescale row pk) q0) (nth s row q0)).
Proof. exact rescale_spec. Qed.
Print Assumptions C23_scaled_to_peak.
(** The 0.001 floor matters: a profile below it is scaled to less than the peak. *)
Example C23_witness : rescale [qz 2; qz 4; qz 1] (qz 100) = [qz 50; qz 100; qz 25] /\
  rescale [qq 1 2000] (qz 100) = [qz 50].
Proof. split; qcheck. Qed.

(** C24.  The loop version reports owned capacity at the ratings of the season
    containing the peak day, less net exports of that day, *)
Theorem C24_loop_version : forall n nu MAXDAY QTR CAPOWN RATES JENT INTCH i,
  shape n n JENT -> shape n nu CAPOWN -> (i < n)%nat -> length QTR = 3%nat ->
  (nth 0 QTR q0 <= nth 1 QTR q0)%Qc -> (nth 1 QTR q0 <= nth 2 QTR q0)%Qc ->
  let d := nth i MAXDAY 0%nat in
  exists s, season_of QTR (qz (Z.of_nat d * 24)) s /\
  resca_area_loop MAXDAY QTR CAPOWN RATES JENT INTCH i =
    Qcminus (qs nu (fun j => Qcmult (mget CAPOWN i j) (mget RATES j s))) (net_export n JENT INTCH i d).
Proof. exact resca_loop_season. Qed.
Print Assumptions C24_loop_version.
(** and the version the program runs does so if the peak day is before the third
    season change (missing: the last season, where it is false). *)
Theorem C24_capacity_partial : forall n nu MAXDAY QTR CAPOWN RATES JENT INTCH i,
  shape n n JENT -> shape n nu CAPOWN -> (i < n)%nat -> length QTR = 3%nat ->
  (nth 0 QTR q0 <= nth 1 QTR q0)%Qc -> (nth 1 QTR q0 <= nth 2 QTR q0)%Qc ->
  let d := nth i MAXDAY 0%nat in
  (qz (Z.of_nat d * 24) < nth 2 QTR q0)%Qc ->
  qz (Z.of_nat d * 24) <> nth 0 QTR q0 -> qz (Z.of_nat d * 24) <> nth 1 QTR q0 ->
  exists s, season_of QTR (qz (Z.of_nat d * 24)) s /\
  resca_area MAXDAY QTR CAPOWN RATES JENT INTCH i =
    Qcminus (qs nu (fun j => Qcmult (mget CAPOWN i j) (mget RATES j s))) (net_export n JENT INTCH i d) /\
  resca_area MAXDAY QTR CAPOWN RATES JENT INTCH i = resca_area_loop MAXDAY QTR CAPOWN RATES JENT INTCH i.
Proof. exact resca_season. Qed.
Print Assumptions C24_capacity_partial.
(** In the last season the first season's ratings are used (peak on day 340, default
    season boundaries), and the two versions differ. *)
Definition default_qtr : list Qc := [qq 4369 2; qq 8737 2; qq 13105 2].
Theorem C24_refuted :
  season_of default_qtr (qz (340 * 24)) 3 /\
  resca_area [340%nat] default_qtr [[q1]] [[qz 10; qz 20; qz 30; qz 40]] [[-1]] [] 0 = qz 10 /\
  resca_area_loop [340%nat] default_qtr [[q1]] [[qz 10; qz 20; qz 30; qz 40]] [[-1]] [] 0 = qz 40.
Proof.
  split; [|split; qcheck]. split; [lia|]. split; intros k H1 H2; [|lia].
  destruct k as [|[|[|k]]]; try lia; apply qltb_iff; vm_compute; reflexivity.
Qed.
Print Assumptions C24_refuted.
Example C24_witness :
  season_of default_qtr (qz (200 * 24)) 2 /\
  resca_area [200%nat] default_qtr [[q1]] [[qz 10; qz 20; qz 30; qz 40]] [[-1]] [] 0 = qz 30.
Proof.
  split; [|qcheck]. split; [lia|]. split; intros k H1 H2;
  destruct k as [|[|[|k]]]; try lia; first [apply qltb_iff; vm_compute; reflexivity | apply qleb_iff; vm_compute; reflexivity].
Qed.

(** C25.  Demands at forecast levels k <= l, and the integer margins the loss test
    uses: no area short at level k implies none short at any later level. *)
Theorem C25_levels_ordered : forall n w FU H JHOUR t k l,
  shape n w H -> length FU = n -> pyidx w JHOUR = Some t ->
  (forall j, (j < n)%nat -> (q0 <= mget H j t)%Qc) -> (forall j, (j < n)%nat -> (q0 <= vget FU j)%Qc) ->
  (k <= l <= 4)%nat ->
  exists dk dl, findld k JHOUR H (map fcterr_row FU) = Ok dk /\ findld l JHOUR H (map fcterr_row FU) = Ok dl /\
    length dk = n /\ length dl = n /\
    (forall j, (j < n)%nat -> (vget dl j <= vget dk j)%Qc) /\
    (forall SYSCON, length SYSCON = n ->
       (forall m, In m (margins SYSCON dk) -> 0 <= m) -> forall m, In m (margins SYSCON dl) -> 0 <= m).
Proof. exact levels_ordered. Qed.
Print Assumptions C25_levels_ordered.
Example C25_witness : map (fun k => findld k (-1) [[qz 1; qz 100]; [qz 2; qz 200]] (map fcterr_row [qz 4; q0])) (seq 0 5)
  = map (fun v => Ok [qz v; qz 200]) [110; 104; 100; 96; 90].
Proof. qcheck. Qed.
