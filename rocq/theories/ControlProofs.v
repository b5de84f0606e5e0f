(** Invariant of the simulation loop and its consequences. *)
From Coq Require Import Sorted Permutation.
From Verif Require Import Base BaseProofs EventModel EventSpec EventProofs ControlModel ControlSpec.
Open Scope Z_scope.

(* ------------------------------------------------------------------ *)
(** ** Times as whole numbers of half hours *)

Definition hh (z : Z) : Qc := qq z 2.
Lemma hh_le a b : (hh a <= hh b)%Qc <-> a <= b.
Proof. unfold hh, Qcle. rewrite !this_qq. unfold Qle. cbn. lia. Qed.
Lemma hh_lt a b : (hh a < hh b)%Qc <-> a < b.
Proof. unfold hh, Qclt. rewrite !this_qq. unfold Qlt. cbn. lia. Qed.
Lemma hh_inj a b : hh a = hh b -> a = b.
Proof. intros H. assert (hh a <= hh b)%Qc by (rewrite H; apply Qcle_refl).
  assert (hh b <= hh a)%Qc by (rewrite H; apply Qcle_refl). rewrite hh_le in *. lia. Qed.
Lemma hh_plus a k : Qcplus (hh a) (qz k) = hh (a + 2 * k).
Proof. unfold hh. apply Qc_is_canon. rewrite this_plus, !this_qq, this_qz.
  unfold inject_Z, Qeq, Qplus. cbn [Qnum Qden]. rewrite ?Pos2Z.inj_mul. lia. Qed.
Lemma hh_on t : on t = hh (2 * t).
Proof. unfold on, hh. apply Qc_is_canon. rewrite this_qq, this_qz. unfold inject_Z, Qeq. cbn [Qnum Qden]. lia. Qed.
Lemma hh_half t : half_past t = hh (2 * t + 1).
Proof. unfold half_past, hh. apply Qc_is_canon. rewrite this_plus, !this_qq, this_qz.
  unfold inject_Z, Qeq, Qplus. cbn [Qnum Qden]. rewrite ?Pos2Z.inj_mul. lia. Qed.

Definition inj (p : Z * Z) : event := (hh (fst p), qz (snd p)).
Lemma inj_inj p q : inj p = inj q -> p = q.
Proof. intros H. pose proof (f_equal fst H) as H1. pose proof (f_equal snd H) as H2.
  cbn [inj fst snd] in H1, H2. apply hh_inj in H1. apply qz_inj in H2.
  destruct p, q. cbn in *. congruence. Qed.

(* the timetable in half hours *)
Definition zdraw (J : Z) (n : nat) : Z * Z := (2 * (J * Z.of_nat n), 1).
Definition zweek (n : nat) : Z * Z := (2 * (168 * Z.of_nat n) + 1, 2).
Definition zseason (k : nat) : Z * Z :=
  (2 * (2184 * Z.of_nat (k mod 4) + 8760 * Z.of_nat (k / 4)) + 1, 3).
Definition zyear (n : nat) : Z * Z := (2 * (8760 * Z.of_nat n), 4).

Lemma inj_draw J n : inj (zdraw J n) = draw_event J n.
Proof. unfold inj, zdraw, draw_event. cbn [fst snd]. now rewrite (hh_on (J * Z.of_nat n)). Qed.
Lemma inj_week n : inj (zweek n) = week_event n.
Proof. unfold inj, zweek, week_event. cbn [fst snd]. now rewrite hh_half. Qed.
Lemma inj_season n : inj (zseason n) = season_event n.
Proof. unfold inj, zseason, season_event. cbn [fst snd]. now rewrite hh_half. Qed.
Lemma inj_year n : inj (zyear n) = year_event n.
Proof. unfold inj, zyear, year_event. cbn [fst snd]. now rewrite (hh_on (8760 * Z.of_nat n)). Qed.

Lemma season_next k : zseason (k + 4) = (fst (zseason k) + 2 * 8760, 3).
Proof.
  unfold zseason. cbn [fst].
  replace (k + 4)%nat with (k + 1 * 4)%nat by lia. rewrite Nat.mod_add, Nat.div_add by lia. f_equal. lia.
Qed.
Lemma season_lt k : fst (zseason k) < fst (zseason (S k)).
Proof.
  unfold zseason. cbn [fst]. pose proof (Nat.div_mod k 4 ltac:(lia)). pose proof (Nat.mod_upper_bound k 4 ltac:(lia)).
  pose proof (Nat.div_mod (S k) 4 ltac:(lia)). pose proof (Nat.mod_upper_bound (S k) 4 ltac:(lia)). lia.
Qed.

Definition agenda (J : Z) (nh nw nq ny : nat) : list (Z * Z) :=
  [zdraw J (S nh); zweek nw; zseason nq; zseason (nq + 1); zseason (nq + 2); zseason (nq + 3); zyear (S ny)].

(** the loop invariant *)
Record inv {W} (J : Z) (s : lst W) (nh nw nq ny : nat) : Prop := mkInv {
  i_list : exists lz n, holds (s_cal s) (map inj lz) n /\ Permutation lz (agenda J nh nw nq ny) /\
     (* a draw due together with a year end comes first *)
     (fst (zdraw J (S nh)) = fst (zyear (S ny)) ->
        exists a b c, lz = a ++ zdraw J (S nh) :: b ++ zyear (S ny) :: c);
  i_clock : exists ck, s_clock s = hh ck /\ 2 * (J * Z.of_nat nh) <= ck /\
     Forall (fun p => ck <= fst p) (agenda J nh nw nq ny) }.

(* ------------------------------------------------------------------ *)
(** ** Scheduling in half hours *)

Lemma scheduled_z t ty lz l' :
  scheduled (hh t, qz ty) (map inj lz) l' ->
  exists a b, lz = a ++ b /\ l' = map inj (a ++ (t, ty) :: b) /\
    Forall (fun p => fst p < t) a /\ Forall (fun p => t <= fst p) b.
Proof.
  intros (b & a & E & -> & B & A).
  apply map_eq_app in E. destruct E as (za & zb & -> & <- & <-).
  exists za, zb. split; auto. split. { rewrite map_app. reflexivity. }
  split; apply Forall_forall; intros p Hp.
  - specialize (B (inj p) (in_map inj _ _ Hp)). apply hh_lt. exact B.
  - specialize (A (inj p) (in_map inj _ _ Hp)). apply hh_le. exact A.
Qed.

Lemma scheduled_z_perm (t ty : Z) a b : Permutation (a ++ (t, ty) :: b) ((t, ty) :: a ++ b).
Proof. symmetry. apply Permutation_middle. Qed.

Lemma chrono_head_min p lz :
  chronological (map inj (p :: lz)) -> Forall (fun x => fst p <= fst x) (p :: lz).
Proof.
  cbn [map]. intros S. inversion S as [|? ? _ F]; subst. constructor; [lia|].
  apply Forall_forall. intros x Hx. rewrite Forall_forall in F.
  specialize (F (inj x) (in_map inj _ _ Hx)). apply hh_le. exact F.
Qed.

Lemma perm_cons_split {A} (x : A) l l2 :
  Permutation (x :: l) l2 -> exists a b, l2 = a ++ x :: b /\ Permutation l (a ++ b).
Proof.
  intros P. assert (In x l2) by (eapply Permutation_in; [exact P|now left]).
  apply in_split in H. destruct H as (a & b & ->). exists a, b. split; auto.
  eapply Permutation_cons_app_inv; exact P.
Qed.

Lemma forall_perm {A} (P : A -> Prop) l l' : Permutation l l' -> Forall P l -> Forall P l'.
Proof. intros PM F. rewrite Forall_forall in *. intros x Hx. apply F.
  eapply Permutation_in; [symmetry; exact PM|exact Hx]. Qed.

Lemma cons_inv {A} (x y : A) l l' : x :: l = y :: l' -> x = y /\ l = l'.
Proof. intros H. injection H. auto. Qed.

(** which event of the agenda is the head *)
Lemma agenda_head J nh nw nq ny p lz :
  chronological (map inj (p :: lz)) ->
  Permutation (p :: lz) (agenda J nh nw nq ny) ->
  (p = zdraw J (S nh) /\ Permutation lz [zweek nw; zseason nq; zseason (nq + 1); zseason (nq + 2); zseason (nq + 3); zyear (S ny)]) \/
  (p = zweek nw /\ Permutation lz [zdraw J (S nh); zseason nq; zseason (nq + 1); zseason (nq + 2); zseason (nq + 3); zyear (S ny)]) \/
  (p = zseason nq /\ Permutation lz [zdraw J (S nh); zweek nw; zseason (nq + 1); zseason (nq + 2); zseason (nq + 3); zyear (S ny)]) \/
  (p = zyear (S ny) /\ Permutation lz [zdraw J (S nh); zweek nw; zseason nq; zseason (nq + 1); zseason (nq + 2); zseason (nq + 3)]).
Proof.
  intros C P. pose proof (chrono_head_min _ _ C) as M. apply (forall_perm _ _ _ P) in M.
  pose proof (season_lt nq) as L0. pose proof (season_lt (nq + 1)) as L1. pose proof (season_lt (nq + 2)) as L2.
  replace (S nq) with (nq + 1)%nat in L0 by lia. replace (S (nq + 1)) with (nq + 2)%nat in L1 by lia.
  replace (S (nq + 2)) with (nq + 3)%nat in L2 by lia.
  assert (In p (agenda J nh nw nq ny)) as I by (eapply Permutation_in; [exact P|now left]).
  unfold agenda in *.
  repeat match goal with H : Forall _ (_ :: _) |- _ => inversion H; clear H; subst end.
  cbn [In] in I.
  destruct I as [<-|[<-|[<-|[<-|[<-|[<-|[<-|[]]]]]]]]; try lia.
  - left. split; auto. eapply Permutation_cons_inv. exact P.
  - right; left. split; auto. eapply (Permutation_cons_app_inv [_]). exact P.
  - right; right; left. split; auto. eapply (Permutation_cons_app_inv [_; _]). exact P.
  - right; right; right. split; auto. eapply (Permutation_cons_app_inv [_; _; _; _; _; _]) in P. exact P.
Qed.

(** taking the head and scheduling its successor *)
Lemma reschedule c p lz n :
  holds c (map inj (p :: lz)) n ->
  exists c1, remove c = Ok (Some (inj p, c1)) /\
  forall period ty, exists c2 a b,
    filem c1 (Qcplus (hh (fst p)) (qz period), qz ty) = Ok c2 /\ lz = a ++ b /\
    holds c2 (map inj (a ++ (fst p + 2 * period, ty) :: b)) 0 /\
    Forall (fun x => fst x < fst p + 2 * period) a /\ Forall (fun x => fst p + 2 * period <= fst x) b.
Proof.
  intros H. cbn [map] in H. destruct (remove_refines _ _ _ _ H) as (c1 & R & H1).
  exists c1. split; [exact R|]. intros period ty.
  destruct (filem_refines c1 _ 0 (Qcplus (hh (fst p)) (qz period), qz ty) H1) as (c2 & l' & F & S & H2).
  rewrite hh_plus in S. apply scheduled_z in S. destruct S as (a & b & -> & -> & A & B).
  exists c2, a, b. auto.
Qed.

Lemma holds_head c p lz n :
  holds c (map inj (p :: lz)) n ->
  (IPOINT c =? -1) = false /\ pyget (EVNTS c) (IPOINT c + 1) = Ok (hh (fst p)).
Proof.
  intros (ss & fs & L & _ & ND & SL & E & _). destruct ss as [|x ss]; [discriminate|].
  cbn in L. destruct L as (EI & _). rewrite EI.
  assert (slot (EVNTS c) x) as (S0 & _ & S3) by (apply SL; now left).
  split. { apply Z.eqb_neq. lia. }
  rewrite cell_get by lia. cbn [map] in E.
  assert (inj p = event_at (EVNTS c) x) as E2 by congruence.
  apply (f_equal fst) in E2. cbn [inj event_at fst] in E2. now rewrite E2.
Qed.

Lemma perm_mid (x : Z * Z) a b l l' :
  Permutation (a ++ b) l -> Permutation (x :: l) l' -> Permutation (a ++ x :: b) l'.
Proof. intros H1 H2. rewrite <- H2, <- H1. symmetry. apply Permutation_middle. Qed.

(** in the list with x inserted, x and an element y placed after it *)
Lemma inserted_before (x y : Z * Z) a b :
  In y (a ++ b) -> Forall (fun q => fst q < fst x) a -> fst x <= fst y ->
  exists u v w, a ++ x :: b = u ++ x :: v ++ y :: w.
Proof.
  intros H F L. apply in_app_or in H. destruct H as [H|H].
  - rewrite Forall_forall in F. specialize (F _ H). lia.
  - apply in_split in H. destruct H as (u & v & ->). exists a, u, v. reflexivity.
Qed.

(** insertion between keeps the relative order of two others *)
Lemma order_kept {A} (x y z : A) u v w a b :
  u ++ x :: v ++ y :: w = a ++ b -> exists u' v' w', a ++ z :: b = u' ++ x :: v' ++ y :: w'.
Proof.
  revert a. induction u as [|q u IH]; intros a E; cbn in E.
  - destruct a as [|x' a]; cbn in E.
    + subst b. exists [z], v, w. reflexivity.
    + injection E as <- E. cbn. 
      assert (exists v' w', a ++ z :: b = v' ++ y :: w') as (v' & w' & Q).
      { revert a E. induction v as [|q v IHv]; intros a E; cbn in E.
        - destruct a as [|y' a]; cbn in E.
          + subst b. exists [z], w. reflexivity.
          + injection E as <- E. exists [], (a ++ z :: b). reflexivity.
        - destruct a as [|q' a]; cbn in E.
          + subst b. exists (z :: q :: v), w. reflexivity.
          + injection E as <- E. destruct (IHv _ E) as (v' & w' & Q). exists (q :: v'), w'. cbn. now rewrite Q. }
      exists [], v', w'. cbn. now rewrite Q.
  - destruct a as [|q' a]; cbn in E.
    + subst b. exists (z :: q :: u), v, w. reflexivity.
    + injection E as <- E. destruct (IH _ E) as (u' & v' & w' & Q). exists (q :: u'), v', w'. cbn. now rewrite Q.
Qed.

Lemma tail_order {A} (p x y : A) lz u v w :
  p :: lz = u ++ x :: v ++ y :: w -> p <> x -> exists u', lz = u' ++ x :: v ++ y :: w.
Proof. intros E N. destruct u as [|q u]; cbn in E; injection E as -> E; [congruence|]. exists u. auto. Qed.

(* ------------------------------------------------------------------ *)
(** ** One iteration *)

Inductive stepped {W} (h : handlers W) (cf : rcfg) (s : lst W) (nh nw nq ny : nat)
  : event -> lst W -> nat -> nat -> nat -> nat -> Prop :=
| st_draw s' :
    h_hour h (fst (draw_event (c_JSTEP cf) (S nh))) (s_plndst s) (s_rating s) (s_w s) = Ok (s_w s') ->
    s_jhour s' = hour_index (on (c_JSTEP cf * Z.of_nat (S nh))) ->
    s_iq s' = s_iq s -> s_plndst s' = s_plndst s -> s_rating s' = s_rating s -> s_rflag s' = s_rflag s ->
    stepped h cf s nh nw nq ny (draw_event (c_JSTEP cf) (S nh)) s' (S nh) nw nq ny
| st_week s' :
    week_status (s_jhour s) (c_JPLOUT cf) (s_plndst s) = Ok (s_plndst s') ->
    s_jhour s' = s_jhour s -> s_iq s' = s_iq s -> s_rating s' = s_rating s -> s_rflag s' = s_rflag s ->
    s_w s' = s_w s ->
    stepped h cf s nh nw nq ny (week_event nw) s' nh (S nw) nq ny
| st_season s' :
    s_iq s' = next_IQ (s_iq s) -> rates_of (c_RATES cf) (s_iq s') = Ok (s_rating s') ->
    s_jhour s' = s_jhour s -> s_plndst s' = s_plndst s -> s_rflag s' = s_rflag s -> s_w s' = s_w s ->
    stepped h cf s nh nw nq ny (season_event nq) s' nh nw (S nq) ny
| st_year s' :
    (* the draw due by then is already done *)
    8760 * Z.of_nat (S ny) < c_JSTEP cf * Z.of_nat (S nh) ->
    h_year h (fst (year_event (S ny))) (s_w s) = Ok (s_w s', s_rflag s') ->
    s_jhour s' = s_jhour s -> s_iq s' = s_iq s -> s_plndst s' = s_plndst s -> s_rating s' = s_rating s ->
    stepped h cf s nh nw nq ny (year_event (S ny)) s' nh nw nq (S ny).

Definition handler_failed {W} (h : handlers W) (cf : rcfg) (s : lst W) (e : pyerr) : Prop :=
  (exists n, h_hour h n (s_plndst s) (s_rating s) (s_w s) = Err e) \/
  week_status (s_jhour s) (c_JPLOUT cf) (s_plndst s) = Err e \/
  rates_of (c_RATES cf) (next_IQ (s_iq s)) = Err e \/
  (exists n, h_year h n (s_w s) = Err e).

(** The same with the event whose handler failed: the next draw, a week, a season or the
    next year end (whose draws are all done). *)
Definition failed_at {W} (h : handlers W) (cf : rcfg) (s : lst W) (nh nw nq ny : nat) (e : pyerr) : Prop :=
  Forall (fun p => (fst (draw_event (c_JSTEP cf) (S nh)) <= fst (inj p))%Qc) (agenda (c_JSTEP cf) nh nw nq ny) /\
    h_hour h (fst (draw_event (c_JSTEP cf) (S nh))) (s_plndst s) (s_rating s) (s_w s) = Err e \/
  week_status (s_jhour s) (c_JPLOUT cf) (s_plndst s) = Err e \/
  rates_of (c_RATES cf) (next_IQ (s_iq s)) = Err e \/
  8760 * Z.of_nat (S ny) < c_JSTEP cf * Z.of_nat (S nh) /\ h_year h (fst (year_event (S ny))) (s_w s) = Err e.
Lemma failed_at_handler {W} (h : handlers W) cf s nh nw nq ny e : failed_at h cf s nh nw nq ny e -> handler_failed h cf s e.
Proof. intros [(_ & H)|[H|[H|(_ & H)]]]; unfold handler_failed; eauto 6. Qed.

Lemma season_perm nq (l : list (Z * Z)) p :
  p = (fst (zseason nq) + 2 * 8760, 3) -> p = zseason (nq + 4).
Proof. intros ->. now rewrite season_next. Qed.

Lemma step_spec {W} (h : handlers W) cf s nh nw nq ny :
  step_ok (c_JSTEP cf) -> inv (c_JSTEP cf) s nh nw nq ny ->
  match contrl_step h cf s with
  | PtrError | PastError => False
  | Converged => s_rflag s = 1
  | EndTime y => s_rflag s <> 1 /\ y = qfloor (Qcdiv (s_clock s) (qz 8760)) /\
      Forall (fun p => (Qcplus (c_FINISH cf) q1 < fst (inj p))%Qc) (agenda (c_JSTEP cf) nh nw nq ny)
  | Continue e s' => s_rflag s <> 1 /\ (fst e <= Qcplus (c_FINISH cf) q1)%Qc /\
      (s_clock s <= fst e)%Qc /\ s_clock s' = fst e /\
      Forall (fun p => (fst e <= fst (inj p))%Qc) (agenda (c_JSTEP cf) nh nw nq ny) /\
      exists nh' nw' nq' ny', stepped h cf s nh nw nq ny e s' nh' nw' nq' ny' /\
         inv (c_JSTEP cf) s' nh' nw' nq' ny'
  | Failed e => s_rflag s <> 1 /\ failed_at h cf s nh nw nq ny e
  end.
Proof.
  intros SO [(lz & n & H & P & T) (ck & EC & HC & FC)]. set (J := c_JSTEP cf) in *. unfold step_ok in SO.
  destruct lz as [|p lz]. { apply Permutation_nil in P. discriminate. }
  pose proof (holds_chrono _ _ _ H) as CH.
  destruct (holds_head _ _ _ _ H) as [HP HT].
  pose proof (chrono_head_min _ _ CH) as MIN. apply (forall_perm _ _ _ P) in MIN.
  assert (PC : ck <= fst p).
  { eapply Forall_forall in FC; [exact FC|]. eapply Permutation_in; [exact P|now left]. }
  unfold contrl_step. rewrite HP, HT. cbn [of_res].
  assert (qltb (hh (fst p)) (s_clock s) = false) as ->.
  { rewrite EC. apply qltb_false. now apply hh_le. }
  destruct (Z.eqb_spec (s_rflag s) 1) as [RF|RF]; [exact RF|].
  destruct (qltb (Qcplus (c_FINISH cf) q1) (hh (fst p))) eqn:EF.
  { split; auto. split; auto. apply qltb_iff in EF. eapply Forall_impl; [|exact MIN].
    intros q Hq. cbn beta in Hq. apply (proj2 (hh_le _ _)) in Hq. eapply Qclt_le_trans; [exact EF|exact Hq]. }
  apply qltb_false in EF.
  destruct (reschedule _ _ _ _ H) as (c1 & R & RS). rewrite R. cbn [of_res].
  unfold inj at 1. cbn beta iota.
  assert (MINQ : Forall (fun q => (hh (fst p) <= fst (inj q))%Qc) (agenda J nh nw nq ny)).
  { eapply Forall_impl; [|exact MIN]. intros q Hq. now apply hh_le. }
  assert (COMMON : s_rflag s <> 1 /\ (fst (inj p) <= Qcplus (c_FINISH cf) q1)%Qc /\
      (s_clock s <= fst (inj p))%Qc).
  { split; auto. split; auto. rewrite EC. now apply hh_le. }
  clear HP HT R.
  destruct (agenda_head _ _ _ _ _ _ _ CH P) as [[EP PL]|[[EP PL]|[[EP PL]|[EP PL]]]].
  - (* draw *)
    rewrite EP in *. cbn [zdraw snd]. rewrite qtrunc_qz. unfold events. cbv zeta. cbn [Z.eqb Pos.eqb s_clock s_cal s_iq s_plndst s_rating s_w s_jhour].
    destruct (RS J 1) as (c2 & a & b & F & -> & H2 & FA & FB).
    cbn [s_cal]. fold J. rewrite F. cbn [bind].
    cbn [s_plndst s_rating s_w].
    destruct (h_hour h _ _ _ _) as [w'|e] eqn:HH; cbn [bind of_res].
    2:{ split; [exact RF|]. left. rewrite <- inj_draw. split; [exact MINQ|exact HH]. }
    destruct COMMON as (C1 & C2 & C3).
    split; auto. split; auto. split; auto. split; auto. split; auto.
    exists (S nh), nw, nq, ny. 
    assert (EN : (fst (zdraw J (S nh)) + 2 * J, 1) = zdraw J (S (S nh))).
    { unfold zdraw. cbn [fst]. f_equal. lia. }
    rewrite EN in *.
    change (hh (fst (zdraw J (S nh))), qz 1) with (inj (zdraw J (S nh))). rewrite inj_draw.
    split.
    { apply st_draw; cbn [s_plndst s_jhour s_iq s_rating s_w s_rflag]; auto.
      - rewrite <- HH. rewrite <- inj_draw. reflexivity.
      - rewrite hh_on. reflexivity. }
    constructor.
    + exists (a ++ zdraw J (S (S nh)) :: b), 0%nat. cbn [s_cal]. split; [exact H2|].
      split. { eapply perm_mid; [exact PL|]. reflexivity. }
      intros EQ. apply inserted_before; [|rewrite <- EN; exact FA|lia].
      eapply Permutation_in; [symmetry; exact PL|]. cbn; auto 10.
    + exists (2 * (J * Z.of_nat (S nh))). cbn [s_clock]. split; auto. split; [lia|].
      unfold agenda in *. inversion MIN as [|? ? M1 M2]; subst. constructor; [|exact M2].
      unfold zdraw. cbn [fst]. lia.
  - (* week *)
    rewrite EP in *. cbn [zweek snd]. rewrite qtrunc_qz. unfold events. cbv zeta. cbn [Z.eqb Pos.eqb s_clock s_cal s_iq s_plndst s_rating s_w s_jhour].
    destruct (RS 168 2) as (c2 & a & b & F & -> & H2 & FA & FB).
    cbn [s_cal]. rewrite F. cbn [bind].
    cbn [s_plndst s_rating s_w s_jhour].
    destruct (week_status _ _ _) as [pl|e] eqn:HH; cbn [bind of_res].
    2:{ split; [exact RF|]. right; left. exact HH. }
    destruct COMMON as (C1 & C2 & C3).
    split; auto. split; auto. split; auto. split; auto. split; auto.
    exists nh, (S nw), nq, ny.
    assert (EN : (fst (zweek nw) + 2 * 168, 2) = zweek (S nw)).
    { unfold zweek. cbn [fst]. f_equal. lia. }
    rewrite EN in *.
    change (hh (fst (zweek nw)), qz 2) with (inj (zweek nw)). rewrite inj_week.
    split.
    { apply st_week; cbn [s_plndst s_jhour s_iq s_rating s_w s_rflag]; auto. }
    constructor.
    + exists (a ++ zweek (S nw) :: b), 0%nat. cbn [s_cal]. split; [exact H2|].
      split. { eapply perm_mid; [exact PL|]. unfold agenda. apply perm_swap. }
      intros EQ. destruct (T EQ) as (u & v & w & E).
      apply tail_order in E. 2:{ unfold zweek, zdraw. intros C. apply (f_equal snd) in C. discriminate. }
      destruct E as (u' & E). eapply order_kept. symmetry. exact E.
    + exists (2 * (168 * Z.of_nat nw) + 1). cbn [s_clock]. split; auto.
      unfold agenda in *. inversion MIN as [|? ? M1 M2]; subst. inversion M2 as [|? ? M3 M4]; subst.
      cbn [zweek fst] in *. split; [lia|].
      constructor; [exact M1|]. constructor; [unfold zweek; cbn [fst]; lia|exact M4].
  - (* season *)
    rewrite EP in *. cbn [zseason snd]. rewrite qtrunc_qz. unfold events. cbv zeta. cbn [Z.eqb Pos.eqb s_clock s_cal s_iq s_plndst s_rating s_w s_jhour].
    cbn [s_iq].
    destruct (rates_of _ _) as [rt|e] eqn:HH; cbn [bind of_res].
    2:{ split; [exact RF|]. right; right; left. exact HH. }
    destruct (RS 8760 3) as (c2 & a & b & F & -> & H2 & FA & FB).
    cbn [s_cal]. rewrite F. cbn [bind of_res].
    cbn [s_plndst s_rating s_w s_jhour].
    destruct COMMON as (C1 & C2 & C3).
    split; auto. split; auto. split; auto. split; auto. split; auto.
    exists nh, nw, (S nq), ny.
    rewrite <- season_next in H2.
    change (hh (fst (zseason nq)), qz 3) with (inj (zseason nq)).
    rewrite inj_season.
    split.
    { apply st_season; cbn [s_plndst s_jhour s_iq s_rating s_w s_rflag]; auto. }
    constructor.
    + exists (a ++ zseason (nq + 4) :: b), 0%nat. cbn [s_cal]. split; [exact H2|].
      split. { eapply perm_mid; [exact PL|]. unfold agenda.
               replace (S nq) with (nq + 1)%nat by lia. replace (nq + 1 + 1)%nat with (nq + 2)%nat by lia.
               replace (nq + 1 + 2)%nat with (nq + 3)%nat by lia. replace (nq + 1 + 3)%nat with (nq + 4)%nat by lia.
               apply (Permutation_middle [_;_;_;_;_] [_]). }
      intros EQ. destruct (T EQ) as (u & v & w & E).
      apply tail_order in E. 2:{ unfold zseason, zdraw. intros C. apply (f_equal snd) in C. discriminate. }
      destruct E as (u' & E). eapply order_kept. symmetry. exact E.
    + exists (fst (zseason nq)). cbn [s_clock]. split; auto.
      unfold agenda in *.
      inversion MIN as [|? ? M1 M2]; subst. inversion M2 as [|? ? M3 M4]; subst.
      inversion M4 as [|? ? M5 M6]; subst. inversion M6 as [|? ? M7 M8]; subst.
      inversion M8 as [|? ? M9 M10]; subst. inversion M10 as [|? ? M11 M12]; subst.
      split; [lia|].
      replace (S nq) with (nq + 1)%nat by lia. replace (nq + 1 + 1)%nat with (nq + 2)%nat by lia.
      replace (nq + 1 + 2)%nat with (nq + 3)%nat by lia. replace (nq + 1 + 3)%nat with (nq + 4)%nat by lia.
      repeat (constructor; [assumption|]). constructor; [rewrite season_next; cbn [fst]; lia|]. exact M12.
  - (* year *)
    rewrite EP in *. cbn [zyear snd]. rewrite qtrunc_qz. unfold events. cbv zeta. cbn [Z.eqb Pos.eqb s_clock s_cal s_iq s_plndst s_rating s_w s_jhour].
    destruct (RS 8760 4) as (c2 & a & b & F & -> & H2 & FA & FB).
    cbn [s_cal]. rewrite F. cbn [bind].
    cbn [s_plndst s_rating s_w s_jhour].
    assert (STRICT : fst (zyear (S ny)) < fst (zdraw J (S nh))).
    { unfold agenda in MIN. inversion MIN as [|? ? M1 M2]; subst.
      destruct (Z.eq_dec (fst (zdraw J (S nh))) (fst (zyear (S ny)))) as [EQ|NE]; [|lia].
      exfalso. destruct (T EQ) as (u & v & w & E). destruct u as [|q u].
      - apply (f_equal (hd (0, 0))) in E. apply (f_equal snd) in E. cbn in E. discriminate.
      - cbn [app] in E. apply cons_inv in E. destruct E as [<- E].
        assert (NoDup (agenda J nh nw nq ny)).
        { unfold agenda. assert (forall k k', (k < k')%nat -> fst (zseason k) < fst (zseason k')) as ML.
          { intros k k' L. induction L; [apply season_lt|]. pose proof (season_lt m). lia. }
          assert (forall k k', (k < k')%nat -> zseason k <> zseason k') as NN.
          { intros k k' L C. specialize (ML _ _ L). rewrite C in ML. lia. }
          repeat constructor; cbn [In]; intros C;
          repeat (destruct C as [C|C]; [first [ now (apply (f_equal snd) in C; cbv in C; discriminate)
                  | revert C; apply not_eq_sym; apply NN; lia] |]); exact C. }
        apply (Permutation_NoDup (Permutation_sym P)) in H0. inversion H0; subst. apply H4. rewrite E.
        apply in_or_app. right. right. apply in_or_app. right. now left. }
    destruct (h_year h _ _) as [[w' rf']|e] eqn:HH; cbn [bind of_res].
    2:{ split; [exact RF|]. right; right; right. split; [unfold zyear, zdraw in STRICT; cbn [fst] in STRICT; fold J; lia|]. rewrite <- inj_year. exact HH. }
    destruct COMMON as (C1 & C2 & C3).
    split; auto. split; auto. split; auto. split; auto. split; auto.
    exists nh, nw, nq, (S ny).
    assert (EN : (fst (zyear (S ny)) + 2 * 8760, 4) = zyear (S (S ny))).
    { unfold zyear. cbn [fst]. f_equal. lia. }
    rewrite EN in *.
    change (hh (fst (zyear (S ny))), qz 4) with (inj (zyear (S ny))). rewrite inj_year.
    split.
    { apply st_year; cbn [s_plndst s_jhour s_iq s_rating s_w s_rflag fst snd]; auto.
      - unfold zyear, zdraw in STRICT. cbn [fst] in STRICT. fold J. lia.
      - rewrite <- HH. rewrite <- inj_year. reflexivity. }
    constructor.
    + exists (a ++ zyear (S (S ny)) :: b), 0%nat. cbn [s_cal]. split; [exact H2|].
      split. { eapply perm_mid; [exact PL|]. unfold agenda.
               apply (Permutation_middle [_;_;_;_;_;_] []). }
      intros EQ. exfalso. unfold zyear, zdraw in *. cbn [fst] in *.
      lia.
    + exists (fst (zyear (S ny))). cbn [s_clock]. split; auto. split; [cbn [zyear fst] in *; lia|].
      unfold agenda in *. 
      inversion MIN as [|? ? M1 M2]; subst. inversion M2 as [|? ? M3 M4]; subst.
      inversion M4 as [|? ? M5 M6]; subst. inversion M6 as [|? ? M7 M8]; subst.
      inversion M8 as [|? ? M9 M10]; subst. inversion M10 as [|? ? M11 M12]; subst.
      repeat (constructor; [assumption|]). constructor; [unfold zyear; cbn [fst]; lia|constructor].
Qed.

(* ------------------------------------------------------------------ *)
(** ** The start state *)

Lemma start_inv {W} cf nu (w : W) : step_ok (c_JSTEP cf) -> inv (c_JSTEP cf) (start cf nu w) 0 0 0 0.
Proof.
  intros SO. unfold step_ok in SO. set (J := c_JSTEP cf) in *.
  constructor.
  - exists [zweek 0; zseason 0; zdraw J 1; zseason 1; zseason 2; zseason 3; zyear 1], 0%nat.
    unfold start. cbn [s_cal]. fold J. split.
    + replace (map inj _) with (start_events J (qq 4369 2) (qq 8737 2) (qq 13105 2)).
      * apply initl_holds; [reflexivity|lia].
      * unfold start_events. cbn [map].
        replace (inj (zdraw J 1)) with (qz J, qz 1); [rewrite (inj_year 1); reflexivity|].
        rewrite inj_draw. unfold draw_event, on. replace (J * Z.of_nat 1) with J by lia. reflexivity.
    + split.
      * unfold agenda. cbn [Nat.add].
        change (Permutation ([zweek 0; zseason 0] ++ zdraw J 1 :: [zseason 1; zseason 2; zseason 3; zyear 1])
          (zdraw J 1 :: [zweek 0; zseason 0] ++ [zseason 1; zseason 2; zseason 3; zyear 1])).
        symmetry. apply Permutation_middle.
      * intros E. exfalso. unfold zdraw, zyear in E. cbn [fst] in E. lia.
  - exists 0. cbn [s_clock start]. split; [exact (hh_on 0)|]. split; [lia|].
    unfold agenda. repeat constructor; unfold zdraw; cbn [fst]; try lia; vm_compute; discriminate.
Qed.

(* ------------------------------------------------------------------ *)
(** ** Traces *)

Inductive trace {W} (h : handlers W) (cf : rcfg) :
  lst W -> nat -> nat -> nat -> nat -> log W -> lst W -> nat -> nat -> nat -> nat -> Prop :=
| tr_nil s a b c d : trace h cf s a b c d [] s a b c d
| tr_snoc s a b c d lg s1 a1 b1 c1 d1 e s2 a2 b2 c2 d2 :
    trace h cf s a b c d lg s1 a1 b1 c1 d1 ->
    inv (c_JSTEP cf) s1 a1 b1 c1 d1 ->
    contrl_step h cf s1 = Continue e s2 ->
    s_rflag s1 <> 1 -> (fst e <= Qcplus (c_FINISH cf) q1)%Qc ->
    (s_clock s1 <= fst e)%Qc -> s_clock s2 = fst e ->
    Forall (fun p => (fst e <= fst (inj p))%Qc) (agenda (c_JSTEP cf) a1 b1 c1 d1) ->
    stepped h cf s1 a1 b1 c1 d1 e s2 a2 b2 c2 d2 ->
    trace h cf s a b c d (lg ++ [(e, s2)]) s2 a2 b2 c2 d2.

Lemma contrl_trace {W} (h : handlers W) cf : step_ok (c_JSTEP cf) ->
  forall pre0 s0 a0 b0 c0 d0 fuel s a b c d pre post o,
  trace h cf s0 a0 b0 c0 d0 pre0 s a b c d -> inv (c_JSTEP cf) s a b c d ->
  contrl fuel h cf s = (pre ++ post, o) ->
  exists s1 a1 b1 c1 d1 fuel1,
    trace h cf s0 a0 b0 c0 d0 (pre0 ++ pre) s1 a1 b1 c1 d1 /\ inv (c_JSTEP cf) s1 a1 b1 c1 d1 /\
    contrl fuel1 h cf s1 = (post, o) /\ (fuel = length pre + fuel1)%nat.
Proof.
  intros SO pre0 s0 a0 b0 c0 d0 fuel s a b c d pre. revert pre0 fuel s a b c d.
  induction pre as [|[e s'] pre IH]; intros pre0 fuel s a b c d post o T I R.
  - exists s, a, b, c, d, fuel. rewrite app_nil_r. cbn in *. auto.
  - destruct fuel as [|fuel]; [cbn in R; discriminate|]. cbn [contrl app] in R.
    pose proof (step_spec h cf s a b c d SO I) as SP.
    destruct (contrl_step h cf s) as [| | |y|e1 s1|er] eqn:ES; try discriminate.
    destruct (contrl fuel h cf s1) as [lg1 o1] eqn:ER.
    assert (e1 = e /\ s1 = s' /\ lg1 = pre ++ post /\ o1 = o) as (-> & -> & -> & ->).
    { apply pair_equal_spec in R. destruct R as [R ->]. apply cons_inv in R. destruct R as [R1 ->].
      apply pair_equal_spec in R1. destruct R1 as [-> ->]. auto. }
    destruct SP as (RF & LF & LC & EC & FA & a2 & b2 & c2 & d2 & ST & I2).
    destruct (IH (pre0 ++ [(e, s')]) fuel s' a2 b2 c2 d2 post o) as (s3 & a3 & b3 & c3 & d3 & f3 & T3 & I3 & R3 & FE); auto.
    { eapply tr_snoc; eauto. }
    exists s3, a3, b3, c3, d3, f3. rewrite <- app_assoc in T3. cbn [app length] in T3 |- *.
    split; [exact T3|]. split; [exact I3|]. split; [exact R3|]. lia.
Qed.

(** the trace of a run from the start *)
Lemma run_trace {W} (h : handlers W) cf nu (w : W) fuel pre post o :
  step_ok (c_JSTEP cf) ->
  contrl fuel h cf (start cf nu w) = (pre ++ post, o) ->
  exists s1 a1 b1 c1 d1 fuel1,
    trace h cf (start cf nu w) 0 0 0 0 pre s1 a1 b1 c1 d1 /\ inv (c_JSTEP cf) s1 a1 b1 c1 d1 /\
    contrl fuel1 h cf s1 = (post, o) /\ (fuel = length pre + fuel1)%nat.
Proof.
  intros SO R. eapply (contrl_trace h cf SO [] _ _ _ _ _ fuel _ _ _ _ _ pre post o (tr_nil h cf _ _ _ _ _)) in R; [exact R |].
  now apply start_inv.
Qed.

Lemma of_kind_snoc {W} k (lg : log W) x :
  of_kind k (lg ++ [x]) = of_kind k lg ++ (if qeqb (snd (fst x)) (qz k) then [fst x] else []).
Proof. unfold of_kind. rewrite map_app, filter_app. cbn [map filter]. reflexivity. Qed.

Lemma map_seq_snoc {A} (f : nat -> A) a n : map f (seq a (S n)) = map f (seq a n) ++ [f (a + n)%nat].
Proof. rewrite seq_S, map_app. reflexivity. Qed.

(** counting: what a trace from the start delivers *)
Lemma trace_kinds {W} (h : handlers W) cf s lg s1 a b c d :
  trace h cf s 0 0 0 0 lg s1 a b c d ->
  of_kind 1 lg = map (draw_event (c_JSTEP cf)) (seq 1 a) /\
  of_kind 2 lg = map week_event (seq 0 b) /\
  of_kind 3 lg = map season_event (seq 0 c) /\
  of_kind 4 lg = map year_event (seq 1 d) /\
  length lg = (a + b + c + d)%nat.
Proof.
  intros T. remember 0%nat as z0 eqn:Z0 in T at 1. remember 0%nat as z1 eqn:Z1 in T at 1.
  remember 0%nat as z2 eqn:Z2 in T at 1. remember 0%nat as z3 eqn:Z3 in T at 1.
  induction T as [|s a0 b0 c0 d0 lg s1 a1 b1 c1 d1 e s2 a2 b2 c2 d2 T IH I ES RF LF LC EC FA ST].
  { subst. repeat split. }
  destruct IH as (K1 & K2 & K3 & K4 & KL); auto.
  rewrite !of_kind_snoc, app_length, K1, K2, K3, K4, KL. cbn [fst length].
  destruct ST; cbn [snd draw_event week_event season_event year_event];
  rewrite ?map_seq_snoc; cbn [Nat.add];
  repeat match goal with |- context [qeqb (qz ?u) (qz ?v)] =>
    let r := eval vm_compute in (qeqb (qz u) (qz v)) in change (qeqb (qz u) (qz v)) with r end;
  rewrite ?app_nil_r; repeat split; try lia; reflexivity.
Qed.
