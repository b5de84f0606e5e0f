(** What a run of the simulation does not depend on: if the linear-programming branch and
    the inversion routine are replaced by others that answer the same where they answer,
    the run is the same.  Then a network whose first hour never ends. *)
From Verif Require Import Base BaseProofs Sums LoadModel LoadSpec EventModel ControlModel SampleModel NetModel NetSpec LpModel StatModel HourModel YearModel ReportModel ProgramModel LpNet.
Open Scope Z_scope.

Definition unknown {A} (r : res A) : Prop := r = Err TypeError \/ r = Err ValueError.
Definition rel {A} (r r' : res A) : Prop := unknown r \/ r = r'.
Lemma rel_refl {A} (r : res A) : rel r r. Proof. now right. Qed.
Lemma rel_bind {A B} (m m' : res A) (f f' : A -> res B) : rel m m' -> (forall x, m = Ok x -> rel (f x) (f' x)) -> rel (bind m f) (bind m' f').
Proof.
  intros [[-> | ->]|<-] H; [left; now left|left; now right|]. destruct m as [x|er]; cbn [bind]; [now apply H|now right].
Qed.

Section SAME.
Variables (inv0 inv : list (list Qc) -> option (list (list Qc))).
Variables (lp0 lp : list (list Qc) -> list (list Qc) -> list (list Qc) -> res (list Qc * list (list Qc))).
Hypothesis INV : forall M, inv0 M = None \/ inv0 M = inv M.
Hypothesis LPS : forall BB BLP BN, rel (lp0 BB BLP BN) (lp BB BLP BN).

Lemma tm1_rel BN LP BLP NR : rel (tm1 inv0 BN LP BLP NR) (tm1 inv BN LP BLP NR).
Proof.
  unfold tm1. apply rel_bind; [apply rel_refl|]. intros B _. destruct (admitr B BN NR) as [BB LT].
  destruct (INV (block (length BN - 1) BB)) as [E|E]; [rewrite E; left; now right|rewrite E; apply rel_refl].
Qed.
Lemma tm2_rel BN LP BLP BLP0 BB ZB LT NR NLS : rel (tm2 lp0 BN LP BLP BLP0 BB ZB LT NR NLS) (tm2 lp BN LP BLP BLP0 BB ZB LT NR NLS).
Proof.
  unfold tm2. cbv zeta. destruct (tm2_update _ _ _ _ _ _ _ _) as [BB1 ZB1]. destruct (tm2_solve _ _ _ _ _ _) as [[[INJ1 LODC] SFLOW] FLOW].
  destruct (tm2_accepts _ _ _ _); [apply rel_refl|]. destruct NLS; [|apply rel_refl]. apply rel_bind; [apply LPS|intros; apply rel_refl].
Qed.
Lemma transm_rel IFLAG s BLPA LP NR STMULT LNSTAT NLS TR TJ SC CR :
  rel (transm inv0 lp0 IFLAG s BLPA LP NR STMULT LNSTAT NLS TR TJ SC CR) (transm inv lp IFLAG s BLPA LP NR STMULT LNSTAT NLS TR TJ SC CR).
Proof.
  unfold transm. cbv zeta. apply rel_bind. { destruct IFLAG; [apply rel_refl|apply tm1_rel]. }
  intros [[[BLP0 BB] LT] ZB] _. apply rel_bind; [apply tm2_rel|]. intros o1 _. destruct (forallb _ _); [apply rel_refl|].
  apply rel_bind; [apply tm2_rel|intros; apply rel_refl].
Qed.
Lemma levels_rel cf CLOCK JHOUR d : forall nsts IFLAG s, rel (levels inv0 lp0 cf CLOCK JHOUR d nsts IFLAG s) (levels inv lp cf CLOCK JHOUR d nsts IFLAG s).
Proof.
  induction nsts as [|k rest IH]; intros IFLAG s; [apply rel_refl|]. cbn [levels]. apply rel_bind; [apply rel_refl|]. intros CR _.
  apply rel_bind; [apply rel_refl|]. intros IT _. destruct (Nat.eqb _ 0); [apply rel_refl|]. destruct (Nat.eqb _ _); [apply rel_bind; [apply rel_refl|intros; apply IH]|].
  apply rel_bind; [apply rel_refl|]. intros NEED _. apply rel_bind; [apply transm_rel|]. intros [[[J F] SA] net] _.
  destruct (negb J); [apply rel_refl|]. destruct (negb _); [apply rel_refl|]. apply rel_bind; [apply rel_refl|]. intros; apply IH.
Qed.
Lemma hour_rel cf CLOCK P R s : rel (hour inv0 lp0 cf CLOCK P R s) (hour inv lp cf CLOCK P R s).
Proof.
  unfold hour. apply rel_bind; [apply rel_refl|]. intros JH _. apply rel_bind; [apply rel_refl|]. intros [|] _; [|apply rel_refl].
  apply rel_bind; [apply rel_refl|]. intros d _. apply levels_rel.
Qed.
Definition fails_unknown {W} (o : outcome W) : Prop := o = Failed TypeError \/ o = Failed ValueError.
Lemma events_rel i cf N s ty : rel (events (program inv0 lp0 i) cf N s ty) (events (program inv lp i) cf N s ty).
Proof.
  unfold events. destruct (N =? 1).
  - apply rel_bind; [apply rel_refl|]. intros c _. apply rel_bind; [|intros; apply rel_refl]. unfold program. cbn [h_hour]. unfold do_hour. apply rel_bind; [apply hour_rel|intros; apply rel_refl].
  - destruct (N =? 2); [apply rel_refl|]. destruct (N =? 3); [apply rel_refl|]. destruct (N =? 4); apply rel_refl.
Qed.
Lemma step_rel i cf s : fails_unknown (contrl_step (program inv0 lp0 i) cf s) \/ contrl_step (program inv0 lp0 i) cf s = contrl_step (program inv lp i) cf s.
Proof.
  unfold contrl_step. cbv zeta. destruct (IPOINT (s_cal s) =? -1); [now right|]. destruct (pyget _ _) as [t|]; cbn [of_res]; [|now right].
  destruct (qltb _ _); [now right|]. destruct (s_rflag s =? 1); [now right|]. destruct (qltb _ _); [now right|].
  destruct (remove (s_cal s)) as [[[[t' ty] c']|]|er]; cbn [of_res]; [|right; reflexivity|right; reflexivity].
  destruct (events_rel i cf (qtrunc ty) (mkSt c' t' (s_rflag s) (s_jhour s) (s_iq s) (s_plndst s) (s_rating s) (s_w s)) ty) as [[E|E]|E]; rewrite E; cbn [of_res]; [left; left; reflexivity|left; right; reflexivity|right; reflexivity].
Qed.
Lemma contrl_rel i cf : forall fuel s lg o, contrl fuel (program inv0 lp0 i) cf s = (lg, Some o) -> ~ fails_unknown o -> forall more, contrl (fuel + more) (program inv lp i) cf s = (lg, Some o).
Proof.
  induction fuel as [|fuel IH]; intros s lg o E NU more; cbn [contrl] in E; [discriminate|]. cbn [Nat.add contrl].
  destruct (step_rel i cf s) as [U|<-].
  - exfalso. apply NU. destruct U as [U|U]; rewrite U in E; injection E as _ <-; [now left|now right].
  - destruct (contrl_step (program inv0 lp0 i) cf s); try exact E.
    destruct (contrl fuel (program inv0 lp0 i) cf s0) as [lg1 o1] eqn:E1. injection E as <- ->. rewrite (IH s0 lg1 o E1 NU more). reflexivity.
Qed.
Lemma narp_rel i fuel lg o : narp inv0 lp0 fuel i = Ok (lg, Some o) -> ~ fails_unknown o -> forall more, narp inv lp (fuel + more) i = Ok (lg, Some o).
Proof.
  unfold narp. intros E NU more. destruct (seeder JSEED (i_units i) (i_lines i)) as [sd|]; cbn [bind] in *; [|discriminate]. apply ok_inj in E. f_equal.
  now apply (contrl_rel i _ fuel).
Qed.
End SAME.
