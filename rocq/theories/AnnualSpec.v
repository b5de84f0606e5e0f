(** What a reader expects of the annual table. *)
From Verif Require Import Base LoadModel StatModel YearModel YearSpec AnnualModel.
Open Scope Z_scope.

(** The remark says which losses a line is about: generation, transmission, or both. *)
Definition part (r : remark) (g t : Z) : Z := match r with GC => g | TC => t | GT => t + g end.
(** MW lost on average per hour (day) of loss; 0 when nothing was lost. *)
Definition mean (mw count : Qc) : Qc := if Qclt_le_dec q0 count then Qcdiv mw count else q0.
(** A line about the hourly count and energy [lh mh] and the peak count and energy [lp mp]. *)
Definition about (INDX : Z) (a k : option Z) (lh mh lp mp : Qc) (shown : remark) : tline :=
  mkTline a k (if INDX =? 1 then None else Some (lh, mean mh lh, mh)) lp (mean mp lp) shown.

(** The three remarks, in the order of the table. *)
Definition remarks : list remark := [GC; TC; GT].
(** The year's value of a statistic for area j, at level k or forecast-weighted. *)
Definition of_area (G T : list (list Z)) (r : remark) (j k : nat) : Qc := qz (part r (zmget G j k) (zmget T j k)).
Definition area_mean (NF : nat) (G T : list (list Z)) (r : remark) (j : nat) : Qc := expected NF (fun k => part r (zmget G j k) (zmget T j k)).
(** The same for the pool. *)
Definition of_pool (G T : list Z) (r : remark) (k : nat) : Qc := qz (part r (zget G k) (zget T k)).
Definition pool_mean (NF : nat) (G T : list Z) (r : remark) : Qc := expected NF (fun k => part r (zget G k) (zget T k)).

(** The lines about area j at level k, about its forecast-weighted values, and the
    same for the pool; [no] the number printed, [shown] the remark printed. *)
Definition area_line (INDX : Z) (h p : stat) (no lev : Z) (j k : nat) (r shown : remark) : tline :=
  about INDX (Some no) (Some lev) (of_area (lolG h) (lolT h) r j k) (of_area (mgnG h) (mgnT h) r j k)
        (of_area (lolG p) (lolT p) r j k) (of_area (mgnG p) (mgnT p) r j k) shown.
Definition area_mean_line (INDX : Z) (NF : nat) (h p : stat) (no : Z) (j : nat) (r : remark) : tline :=
  about INDX (Some no) None (area_mean NF (lolG h) (lolT h) r j) (area_mean NF (mgnG h) (mgnT h) r j)
        (area_mean NF (lolG p) (lolT p) r j) (area_mean NF (mgnG p) (mgnT p) r j) r.
Definition pool_line (INDX : Z) (h p : stat) (lev : Z) (k : nat) (r : remark) : tline :=
  about INDX None (Some lev) (of_pool (plolG h) (plolT h) r k) (of_pool (pmgnG h) (pmgnT h) r k)
        (of_pool (plolG p) (plolT p) r k) (of_pool (pmgnG p) (pmgnT p) r k) r.
Definition pool_mean_line (INDX : Z) (NF : nat) (h p : stat) (r : remark) : tline :=
  about INDX None None (pool_mean NF (plolG h) (plolT h) r) (pool_mean NF (pmgnG h) (pmgnT h) r)
        (pool_mean NF (plolG p) (plolT p) r) (pool_mean NF (pmgnG p) (pmgnT p) r) r.
(** A pool line about generation losses with the two averages [xh xp] printed, whatever
    they are. *)
Definition pool_gc_line (INDX : Z) (h p : stat) (lev : Z) (k : nat) (xh xp : Qc) : tline :=
  mkTline None (Some lev) (if INDX =? 1 then None else Some (of_pool (plolG h) (plolT h) GC k, xh, of_pool (pmgnG h) (pmgnT h) GC k))
          (of_pool (plolG p) (plolT p) GC k) xp GC.
(** The averages of the losses of both kinds at level k of the pool. *)
Definition both_mean (s : stat) (k : nat) : Qc := mean (of_pool (pmgnG s) (pmgnT s) GT k) (of_pool (plolG s) (plolT s) GT k).
(** The lines about area j; [no] and [lev] say how areas and levels are numbered,
    [shown] which remark is printed on the line of each level. *)
Definition lines_of_area (INDX : Z) (NF : nat) (h p : stat) (no lev : nat -> Z) (shown : remark -> remark) (j : nat) : list tline :=
  flat_map (fun k => map (fun r => area_line INDX h p (no j) (lev k) j k r (shown r)) remarks) (seq 0 NF) ++
  map (area_mean_line INDX NF h p (no j) j) remarks.
(** The remarks actually printed: with the daily layout the third line of a level says TC. *)
Definition printed_remark (INDX : Z) (r : remark) : remark := match r with GT => if INDX =? 1 then TC else GT | _ => r end.
