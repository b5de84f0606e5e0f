(** Proofs for C103: the drawn capacities stay within the ratings; an area that is short
    whatever is drawn. *)
From Coq Require Import String List.
From Verif Require Import Base BaseProofs Sums LoadModel LoadSpec SampleModel SampleProofs NetModel NetSpec StatSpec HourModel HourSpec HourProofs YearModel YearSpec EventModel ControlModel ControlSpec ControlProofs RunProofs
  ProgramModel ProgramSpec ProgramProofs DataModel DataSpec DataProofs MaintModel MaintSpec PrepModel PrepProofs PropertiesProgram PropertiesData CauseSpec EndSpec.
Import ListNotations.
Open Scope Z_scope.

Definition binary (v : list Qc) : Prop := forall u, vget v u = q0 \/ vget v u = q1.
Lemma upd_binary v i x : binary v -> x = q0 \/ x = q1 -> binary (upd v i x).
Proof.
  intros B X u. unfold vget. destruct (Nat.eq_dec i u) as [->|N]; [|rewrite nth_upd_other by exact N; apply B].
  destruct (Nat.lt_ge_cases u (length v)) as [H|H]; [rewrite nth_upd_same by exact H; exact X|]. left. apply nth_overflow. now rewrite upd_length.
Qed.
Lemma fancy_binary x idx : x = q0 \/ x = q1 -> forall v v', binary v -> fancy_set v idx x = Ok v' -> binary v'.
Proof.
  intros X. induction idx as [|i idx IH]; intros v v' B E; cbn [fancy_set] in E; [injection E as <-; exact B|].
  destruct (pyset v i x) as [w|] eqn:P; cbn [bind] in E; [|discriminate E]. eapply IH; [|exact E].
  unfold pyset in P. destruct (pyidx (length v) i); [|discriminate P]. injection P as <-. apply upd_binary; assumption.
Qed.
Lemma ones_binary k : binary (repeat q1 k).
Proof. intros u. unfold vget. destruct (Nat.lt_ge_cases u k) as [H|H]; [right; apply nth_repeat_lt; exact H|left; apply nth_overflow; now rewrite repeat_length]. Qed.
Lemma week_binary J T p p' : week_status J T p = Ok p' -> binary p'.
Proof.
  unfold week_status. cbv zeta. destruct (51 <? J / 168); [intros E; injection E as <-; apply ones_binary|].
  destruct (pyget T (J / 168)) as [row|]; cbn [bind]; [|discriminate]. destruct (pyget row 0) as [M|]; cbn [bind]; [|discriminate].
  apply fancy_binary; [now left|apply ones_binary].
Qed.

Lemma trace_binary {W} (h : handlers W) cf nu (w : W) lg s a b c d :
  trace h cf (start cf nu w) 0 0 0 0 lg s a b c d -> binary (s_plndst s).
Proof.
  remember (start cf nu w) as s00 eqn:ES0.
  intros T. remember 0%nat as z0 eqn:Z0 in T at 1. remember 0%nat as z1 eqn:Z1 in T at 1.
  remember 0%nat as z2 eqn:Z2 in T at 1. remember 0%nat as z3 eqn:Z3 in T at 1.
  induction T as [|s0 a0 b0 c0 d0 lg s1 a1 b1 c1 d1 e s2 a2 b2 c2 d2 T IH I ES RF LF LC EC FA ST].
  { subst. intros u. left. cbn [start s_plndst]. unfold vget, vzeros. apply nth_repeat. }
  specialize (IH ES0 Z0 Z1 Z2 Z3).
  destruct ST as [s2 S1 S2 S3 S4 S5 S6 | s2 S1 S2 S3 S4 S5 S6 | s2 S1 S2 S3 S4 S5 S6 | s2 S0 S1 S2 S3 S4 S5].
  - rewrite S4. exact IH.
  - eapply week_binary. exact S1.
  - rewrite S4. exact IH.
  - rewrite S4. exact IH.
Qed.
Lemma pyget_In {A} (l : list A) z x : pyget l z = Ok x -> In x l.
Proof. unfold pyget. destruct (pyidx (length l) z) as [k|]; [|discriminate]. destruct (nth_error l k) as [y|] eqn:E; [|discriminate]. intros X. injection X as <-. eapply nth_error_In. exact E. Qed.
Lemma rates_of_In q : forall RATES l u, rates_of RATES q = Ok l -> (u < length RATES)%nat -> In (vget l u) (nth u RATES []).
Proof.
  induction RATES as [|r RS IH]; intros l u E Hu; [cbn in Hu; lia|]. unfold rates_of in E. cbn [fold_right] in E. fold (rates_of RS q) in E.
  destruct (pyget r q) as [x|] eqn:P; cbn [bind] in E; [|discriminate E]. destruct (rates_of RS q) as [l'|]; cbn [bind] in E; [|discriminate E]. injection E as <-.
  destruct u as [|u]; [exact (pyget_In _ _ _ P)|]. cbn [length] in Hu. exact (IH l' u eq_refl ltac:(lia)).
Qed.
Lemma trace_rating {W} (h : handlers W) cf nu (w : W) lg s a b c d :
  trace h cf (start cf nu w) 0 0 0 0 lg s a b c d -> forall u, (u < length (c_RATES cf))%nat -> vget (s_rating s) u = q0 \/ In (vget (s_rating s) u) (nth u (c_RATES cf) []).
Proof.
  remember (start cf nu w) as s00 eqn:ES0.
  intros T. remember 0%nat as z0 eqn:Z0 in T at 1. remember 0%nat as z1 eqn:Z1 in T at 1.
  remember 0%nat as z2 eqn:Z2 in T at 1. remember 0%nat as z3 eqn:Z3 in T at 1.
  induction T as [|s0 a0 b0 c0 d0 lg s1 a1 b1 c1 d1 e s2 a2 b2 c2 d2 T IH I ES RF LF LC EC FA ST].
  { subst. intros u Hu. left. cbn [start s_rating]. unfold vget, vzeros. apply nth_repeat. }
  specialize (IH ES0 Z0 Z1 Z2 Z3). intros u Hu.
  destruct ST as [s2 S1 S2 S3 S4 S5 S6 | s2 S1 S2 S3 S4 S5 S6 | s2 S1 S2 S3 S4 S5 S6 | s2 S0 S1 S2 S3 S4 S5].
  - rewrite S5. apply IH; exact Hu.
  - rewrite S4. apply IH; exact Hu.
  - right. eapply rates_of_In; [exact S2|exact Hu].
  - rewrite S5. apply IH; exact Hu.
Qed.

(** Capacities drawn in any state of a run *)
Section CAPS.
  Variables (inv : list (list Qc) -> option (list (list Qc)))
            (lp : list (list Qc) -> list (list Qc) -> list (list Qc) -> res (list Qc * list (list Qc))).
  Hypothesis KA : keeps_areas lp.
  Variables (n nu nl : nat) (i : input). Hypothesis IN : input_ok n nu nl i.
  Hypothesis DER : forall u, (u < nu)%nat -> (q0 <= vget (x_DERATE (i_h i)) u)%Qc /\ (vget (x_DERATE (i_h i)) u <= q1)%Qc.
  Variable tp : nat -> Qc.
  Hypothesis TP : forall u, (u < nu)%nat -> (q0 <= tp u)%Qc /\ forall x, In x (nth u (i_RATES i) []) -> (q0 <= x)%Qc /\ (x <= tp u)%Qc.

  Lemma capacities_bounds fuel pre e s post o k AVAIL : narp inv lp fuel i = Ok (pre ++ (e, s) :: post, o) -> capacities nu i k s AVAIL ->
    length AVAIL = nu /\ forall u, (u < nu)%nat -> (q0 <= vget AVAIL u)%Qc /\ (vget AVAIL u <= tp u)%Qc.
  Proof.
    intros E (IG & LG & _ & ->). change (pre ++ (e, s) :: post) with (pre ++ [(e, s)] ++ post) in E. rewrite app_assoc in E.
    destruct (narp_at inv lp KA n nu nl i IN fuel _ post _ E) as (IG0 & IL & s' & a & b & c & d & R & l & f1 & SD & T & I & P & A & D & FS & C).
    assert (ES : s' = s) by (rewrite FS; unfold final_state; rewrite map_app; cbn [map]; apply last_last). clear FS. subst s'.
    pose proof (in_study _ _ _ _ IN) as ST. destruct (st_units _ _ _ _ ST) as (U1 & U2).
    pose proof (pi_pl _ _ _ _ _ _ _ _ _ _ _ _ P) as L1. pose proof (pi_rt _ _ _ _ _ _ _ _ _ _ _ _ P) as L2.
    assert (LA : length (snd (gstate IG (x_PROBG (i_h i)) (s_rating s) (x_DERATE (i_h i)) (s_plndst s))) = nu).
    { pose proof (gstate_spec (x_PROBG (i_h i)) IG (s_rating s) (x_DERATE (i_h i)) (s_plndst s)) as X.
      destruct (gstate _ _ _ _ _) as [[X1 X2] X3]. cbn [snd]. rewrite U1 in X. destruct X as (_ & _ & X & _); try lia; congruence. }
    split; [exact LA|]. intros u Hu.
    destruct (gstate_bounds IG (x_PROBG (i_h i)) (s_rating s) (x_DERATE (i_h i)) (s_plndst s) u) as (_ & G); try (rewrite ?U1; congruence || lia).
    destruct (DER u Hu) as (D1 & D2). destruct (TP u Hu) as (T0 & T1).
    assert (LR : length (c_RATES (loop_cfg i)) = nu) by exact (in_rates _ _ _ _ IN).
    assert (B : (q0 <= vget (s_rating s) u)%Qc /\ (vget (s_rating s) u <= tp u)%Qc).
    { destruct (trace_rating _ _ _ _ _ _ _ _ _ _ T u ltac:(lia)) as [Z0|M]; [rewrite Z0; split; [apply Qcle_refl|exact T0]|]. apply T1. exact M. }
    destruct B as (B1 & B2). destruct (G D1 D2 B1 (trace_binary _ _ _ _ _ _ _ _ _ _ T u)) as (A1 & A2). split; [exact A1|]. exact (Qcle_trans _ _ _ A2 B2).
  Qed.
End CAPS.
