(** The loss statistics and their accumulation over the years with binary64 arrays: every
    [+=] on a cell is rounded.  The margins are whole numbers (hour.py 139 and 197, .astype(int))
    and so are their sums (numpy integers), which are exact. *)
From Verif Require Import Base LoadModel StatModel YearModel FloatModel.
Open Scope Z_scope.

(** narpMain.py 118-133: the eight arrays of one kind, as floats *)
Record fstat := mkFstat { f_lolG : list (list Qc); f_lolT : list (list Qc); f_mgnG : list (list Qc); f_mgnT : list (list Qc);
  f_plolG : list Qc; f_plolT : list Qc; f_pmgnG : list Qc; f_pmgnT : list Qc }.

(** [v[i] += x], [M[i,j] += x] for a float array and a whole number *)
Definition faddz (v : list Qc) (i : nat) (x : Z) : list Qc := upd v i (fadd (vget v i) (qz x)).
Definition fmaddz (M : list (list Qc)) (i j : nat) (x : Z) : list (list Qc) := upd M i (faddz (nth i M []) j x).

(** hrstat.py 51-54, pkstat.py 112-115 *)
Definition fpool_count (NST : nat) (SUM : Z) (s : fstat) : fstat :=
  if 0 <=? SUM
  then mkFstat (f_lolG s) (f_lolT s) (f_mgnG s) (f_mgnT s) (f_plolG s) (faddz (f_plolT s) NST 1) (f_pmgnG s) (f_pmgnT s)
  else mkFstat (f_lolG s) (f_lolT s) (f_mgnG s) (f_mgnT s) (faddz (f_plolG s) NST 1) (f_plolT s) (f_pmgnG s) (f_pmgnT s).
(** hrstat.py 56-66 *)
Definition farea_loss (NST : nat) (SUM : Z) (j : nat) (X : Z) (s : fstat) : fstat :=
  if 0 <? SUM
  then mkFstat (f_lolG s) (fmaddz (f_lolT s) j NST 1) (f_mgnG s) (fmaddz (f_mgnT s) j NST (- X)) (f_plolG s) (f_plolT s) (f_pmgnG s) (faddz (f_pmgnT s) NST (- X))
  else mkFstat (fmaddz (f_lolG s) j NST 1) (f_lolT s) (fmaddz (f_mgnG s) j NST (- X)) (f_mgnT s) (f_plolG s) (f_plolT s) (faddz (f_pmgnG s) NST (- X)) (f_pmgnT s).
(** hrstat.py 1-66: (LSFLG, statistics) *)
Definition fhrstat (NST : nat) (MARGIN : list Z) (LSFLG : list Qc) (s : fstat) : list Qc * fstat :=
  let SUM := zsum MARGIN in
  fold_left (fun st p => let '(j, X) := p in
               if X <? 0 then (faddz (fst st) j 1, farea_loss NST SUM j X (snd st)) else st)
            (enumerate MARGIN) (LSFLG, fpool_count NST SUM s).
(** pkstat.py 105-124 [pkstat]: [M[:, NST][MARGIN < 0] += f(MARGIN[MARGIN < 0])] *)
Definition fmask_add (NST : nat) (MARGIN : list Z) (f : Z -> Z) (M : list (list Qc)) : list (list Qc) :=
  map2 (fun X r => if X <? 0 then faddz r NST (f X) else r) MARGIN M.
Definition fpkstat (NST : nat) (MARGIN : list Z) (s0 : fstat) : fstat :=
  let SUM := zsum MARGIN in
  let s := fpool_count NST SUM s0 in
  let one := fmask_add NST MARGIN (fun _ => 1) in
  let mag := fmask_add NST MARGIN Z.opp in
  let tot v := faddz v NST (- zsum (filter (fun X => X <? 0) MARGIN)) in
  if 0 <? SUM
  then mkFstat (f_lolG s) (one (f_lolT s)) (f_mgnG s) (mag (f_mgnT s)) (f_plolG s) (f_plolT s) (f_pmgnG s) (tot (f_pmgnT s))
  else mkFstat (one (f_lolG s)) (f_lolT s) (mag (f_mgnG s)) (f_mgnT s) (f_plolG s) (f_plolT s) (tot (f_pmgnG s)) (f_pmgnT s).

(** year.py 186-295: the accumulated counts and energies SOL and SGN; the weighted values SWL, SWN are
    left out (they are sums of products with 0.0668 and the like, which are rounded). *)
Record facc := mkFacc { f_aG : list (list Qc); f_aT : list (list Qc); f_aS : list (list Qc) }.
Record fpacc := mkFpacc { f_pG : list Qc; f_pT : list Qc; f_pS : list Qc }.
Record fcumul := mkFcumul { f_c_lol : facc; f_c_mgn : facc; f_c_plol : fpacc; f_c_pmgn : fpacc }.
Definition faddfirst (k : nat) (v d : list Qc) : list Qc := map2 fadd (firstn k v) (firstn k d) ++ skipn k v.
Definition fmaddfirst (k : nat) (M D : list (list Qc)) : list (list Qc) := map2 (faddfirst k) M D.
Definition fsumfirst (k : nat) (t g : list Qc) : list Qc := map2 fadd (firstn k t) (firstn k g).
Definition facc_step (NF : nat) (G T : list (list Qc)) (a : facc) : facc :=
  mkFacc (fmaddfirst NF (f_aG a) G) (fmaddfirst NF (f_aT a) T) (fmaddfirst NF (f_aS a) (map2 (fsumfirst NF) T G)).
Definition fpacc_step (NF : nat) (G T : list Qc) (a : fpacc) : fpacc :=
  mkFpacc (faddfirst NF (f_pG a) G) (faddfirst NF (f_pT a) T) (faddfirst NF (f_pS a) (fsumfirst NF T G)).
Definition faccumulate (NF : nat) (s : fstat) (c : fcumul) : fcumul :=
  mkFcumul (facc_step NF (f_lolG s) (f_lolT s) (f_c_lol c)) (facc_step NF (f_mgnG s) (f_mgnT s) (f_c_mgn c))
           (fpacc_step NF (f_plolG s) (f_plolT s) (f_c_plol c)) (fpacc_step NF (f_pmgnG s) (f_pmgnT s) (f_c_pmgn c)).
(** year.py 637-653 *)
Definition fzfirst (k : nat) (r : list Qc) : list Qc := repeat q0 (Nat.min k (length r)) ++ skipn k r.
Definition freset_area (NF n : nat) (M : list (list Qc)) : list (list Qc) := map (fzfirst n) (firstn NF M) ++ skipn NF M.
Definition freset (NF n : nat) (s : fstat) : fstat :=
  mkFstat (freset_area NF n (f_lolG s)) (freset_area NF n (f_lolT s)) (freset_area NF n (f_mgnG s)) (freset_area NF n (f_mgnT s))
          (fzfirst NF (f_plolG s)) (fzfirst NF (f_plolT s)) (fzfirst NF (f_pmgnG s)) (fzfirst NF (f_pmgnT s)).

(** The calls of a run in their order: [hrstat] and [pkstat] with a level and whole margins
    (hour.py 206-231), year ends.  [stats] and [fstats] are the tables after them. *)
Inductive call := Hourly_loss (NST : nat) (M : list Z) | Peak_loss (NST : nat) (M : list Z) | Year_end.
Record tables := mkTables { t_LS : list Z; t_h : stat; t_p : stat; t_ch : cumul; t_cp : cumul }.
Record ftables := mkFtables { ft_LS : list Qc; ft_h : fstat; ft_p : fstat; ft_ch : fcumul; ft_cp : fcumul }.
Definition do_call (NF n : nat) (t : tables) (c : call) : tables :=
  match c with
  | Hourly_loss NST M => let r := hrstat NST (map qz M) (t_LS t) (t_h t) in mkTables (fst r) (snd r) (t_p t) (t_ch t) (t_cp t)
  | Peak_loss NST M => mkTables (t_LS t) (t_h t) (pkstat NST (map qz M) (t_p t)) (t_ch t) (t_cp t)
  | Year_end => mkTables (t_LS t) (reset NF n (t_h t)) (reset NF n (t_p t)) (keep_scalars (t_ch t) (accumulate NF (t_h t) (t_ch t))) (keep_scalars (t_cp t) (accumulate NF (t_p t) (t_cp t)))
  end.
Definition fdo_call (NF n : nat) (t : ftables) (c : call) : ftables :=
  match c with
  | Hourly_loss NST M => let r := fhrstat NST M (ft_LS t) (ft_h t) in mkFtables (fst r) (snd r) (ft_p t) (ft_ch t) (ft_cp t)
  | Peak_loss NST M => mkFtables (ft_LS t) (ft_h t) (fpkstat NST M (ft_p t)) (ft_ch t) (ft_cp t)
  | Year_end => mkFtables (ft_LS t) (freset NF n (ft_h t)) (freset NF n (ft_p t)) (faccumulate NF (ft_h t) (ft_ch t)) (faccumulate NF (ft_p t) (ft_cp t))
  end.
Definition stats (NF n : nat) (t : tables) (cs : list call) : tables := fold_left (do_call NF n) cs t.
Definition fstats (NF n : nat) (t : ftables) (cs : list call) : ftables := fold_left (fdo_call NF n) cs t.

(** narpMain.py 113-186: all arrays zero at the start *)
Definition no_stats (n : nat) : tables := mkTables (repeat 0 n) (first_stat n) (first_stat n) (zero_cumul n) (zero_cumul n).
