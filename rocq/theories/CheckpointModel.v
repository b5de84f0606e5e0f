(** Model of the checkpoint written by [intm] at a year end. *)
From Verif Require Import Base EventModel StatModel YearModel.
Open Scope Z_scope.

(** The accumulated statistics of one kind that are saved: all of the areas', and the
    pool's arrays by level; the pool's weighted totals SW???P are not arguments of
    [intm] (intm.py 4-62). *)
Record saved_pool := mkSavedPool { sp_G : list Z; sp_T : list Z; sp_S : list Z }.
Record saved := mkSaved { sv_lol : acc; sv_mgn : acc; sv_plol : saved_pool; sv_pmgn : saved_pool }.
Definition save_pool (p : pacc) : saved_pool := mkSavedPool (pG p) (pT p) (pS p).
Definition save (c : cumul) : saved := mkSaved (c_lol c) (c_mgn c) (save_pool (c_plol c)) (save_pool (c_pmgn c)).

(** intm.py 82-141: the dictionary.  LT, BB, ZB (network work arrays, rebuilt in
    every hour that uses them) are left out. *)
Record snapshot := mkSnap {
  k_ATRIB : Qc; k_CLOCK : Qc; k_IPOINT : Z; k_XLAST : Qc; k_SSQ : Qc; k_MFA : Z; k_NUMINQ : Z; k_ITAB : Z; k_INTVT : Z;
  k_EVNTS : list Qc; k_IGSEED : Z; k_ILSEED : Z; k_hourly : saved; k_peak : saved;
  k_HLOLE : list (list Z); k_DPLOLE : list (list Z); k_EUES : list (list Z); k_XNEWA : list (list Qc); k_XNEWP : list Qc;
  k_WOLSHA : list Qc; k_LSFLG : list Z }.

(** Everything that decides how the run goes on after the year end. *)
Record program := mkProg {
  g_clock : Qc; g_cal : cal; g_IGSEED : list Z; g_ILSEED : list Z; g_JHOUR : Z; g_IQ : Z;
  g_PLNDST : list Qc; g_RATING : list Qc; g_LSFLG : list Z; g_year : yst }.

(** year.py 722-855: the checkpoint of a year end, if one is written.  The calendar is
    the one after [filem] (year.py 150-156), with ATRIB[1] = 4; both seed arguments
    are the literal 123 (734-735, 801-802); WOLSHA has been zeroed (610); ITAB counts
    the annual table, INTVT is the value before it is advanced. *)
Definition checkpoint (cf : ycfg) (n : nat) (p : program) : option snapshot :=
  match year cf n (g_clock p) (g_year p) with
  | Ok (s', o) =>
      if o_ckpt o then
        Some (mkSnap (qz 4) (g_clock p) (IPOINT (g_cal p)) (y_XLAST s') (y_SSQ s') (MFA (g_cal p)) (NUMINQ (g_cal p))
                (if IOJ cf =? 0 then y_ITAB (g_year p) else y_ITAB (g_year p) + 1) (y_INTVT (g_year p)) (EVNTS (g_cal p))
                123 123 (save (o_h o)) (save (o_p o)) (y_HL s') (y_DP s') (y_EU s') (y_XA s') (y_XP s') (vzeros n) (g_LSFLG p))
      else None
  | Err _ => None
  end.
