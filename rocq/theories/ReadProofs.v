(** Proofs about the reading of texts and tables. *)
From Coq Require Import String Ascii List Decimal DecimalString.
From Verif Require Import Base BaseProofs DataModel DataSpec DataProofs ReadModel ReadSpec.
Import ListNotations.
Open Scope Z_scope.

(* ------------------------------------------------------------------ *)
(** ** Characters *)
Lemma all_ascii (P : ascii -> Prop) : (forall n, (n < 256)%nat -> P (ascii_of_nat n)) -> forall c, P c.
Proof. intros H c. rewrite <- (ascii_nat_embedding c). apply H. apply nat_ascii_bounded. Qed.
Lemma is_space_iff c : is_space c = true <-> blank c.
Proof.
  unfold is_space, blank. pose proof (nat_ascii_bounded c) as B. set (k := nat_of_ascii c) in *. clearbody k.
  rewrite !orb_true_iff, !andb_true_iff, !Z.leb_le, !Z.eqb_eq. cbn [In]. split; [intros H|intros H]; lia.
Qed.
Lemma is_space_false c : is_space c = false <-> ~ blank c.
Proof. rewrite <- is_space_iff. destruct (is_space c); split; intros H; try discriminate; try reflexivity; try (exfalso; apply H; reflexivity); intros C; discriminate. Qed.
Lemma digit_not_blank c d : digit c = Some d -> ~ blank c.
Proof. unfold digit, blank. destruct (_ && _) eqn:E; [|discriminate]. apply andb_true_iff in E. rewrite !Z.leb_le in E. cbn [In]. intros _ H. lia. Qed.

(* ------------------------------------------------------------------ *)
(** ** Digits *)
Fixpoint horner (u : uint) (acc : Z) : Z :=
  match u with
  | Nil => acc
  | D0 u => horner u (10 * acc + 0) | D1 u => horner u (10 * acc + 1) | D2 u => horner u (10 * acc + 2) | D3 u => horner u (10 * acc + 3)
  | D4 u => horner u (10 * acc + 4) | D5 u => horner u (10 * acc + 5) | D6 u => horner u (10 * acc + 6) | D7 u => horner u (10 * acc + 7)
  | D8 u => horner u (10 * acc + 8) | D9 u => horner u (10 * acc + 9)
  end.
Lemma of_uint_acc_horner u : forall p, Zpos (Pos.of_uint_acc u p) = horner u (Zpos p).
Proof.
  induction u; intros p; [reflexivity|..]; cbn [Pos.of_uint_acc horner]; rewrite IHu; f_equal; lia.
Qed.
Lemma of_uint_horner u : Z.of_uint u = horner u 0.
Proof.
  unfold Z.of_uint. induction u; [reflexivity|..]; cbn [Pos.of_uint horner]; [exact IHu|..]; cbn [Z.of_N]; rewrite of_uint_acc_horner; reflexivity.
Qed.
Lemma horner_acc u : forall acc, horner u acc = 10 ^ Z.of_nat (nb_digits u) * acc + horner u 0.
Proof.
  induction u; intros acc; cbn [horner nb_digits]; [change (10 ^ Z.of_nat 0) with 1; lia|..]; rewrite IHu; rewrite (IHu (10 * 0 + _));
    rewrite Nat2Z.inj_succ, Z.pow_succ_r by lia; ring.
Qed.
Definition not_digit (l : list ascii) : Prop := match l with [] => True | c :: _ => digit c = None end.
Lemma digits_stop l acc n : not_digit l -> digits l acc n = (acc, n, l).
Proof. destruct l as [|c l]; cbn; [reflexivity|]. intros ->. reflexivity. Qed.
Lemma dtext_cons (D : uint -> uint) (ch : ascii) u : NilEmpty.string_of_uint (D u) = String ch (NilEmpty.string_of_uint u) -> dtext (D u) = ch :: dtext u.
Proof. intros H. unfold dtext. rewrite H. reflexivity. Qed.
Lemma digits_dtext u : forall r acc n, not_digit r -> digits (dtext u ++ r) acc n = (horner u acc, (n + nb_digits u)%nat, r).
Proof.
  induction u; intros r acc n ND; [cbn; rewrite Nat.add_0_r; apply digits_stop; exact ND|..];
    (erewrite dtext_cons by reflexivity; cbn [app digits horner nb_digits]; 
     match goal with |- context [digit ?c] => let x := eval vm_compute in (digit c) in change (digit c) with x end; cbv iota beta;
     rewrite IHu by exact ND; f_equal; f_equal; lia).
Qed.
Lemma dtext_head u : u <> Nil -> exists c r d, dtext u = c :: r /\ digit c = Some d.
Proof. intros N. destruct u; [congruence|..]; (erewrite dtext_cons by reflexivity; do 3 eexists; split; reflexivity). Qed.
Lemma nb_pos u : u <> Nil -> (0 < nb_digits u)%nat.
Proof. destruct u; [congruence|..]; cbn; lia. Qed.
(** every run of digits is such a text *)
Lemma digits_inv (l : list ascii) : forall (acc : Z) (n : nat), exists u r, l = dtext u ++ r /\ not_digit r.
Proof.
  induction l as [|c l IH]; intros acc n; [exists Nil, []; split; [reflexivity|exact I]|].
  destruct (digit c) as [d|] eqn:E; [|exists Nil, (c :: l); split; [reflexivity|exact E]].
  destruct (IH 0 0%nat) as (u & r & -> & ND).
  unfold digit in E. destruct (_ && _) eqn:B; [|discriminate]. apply andb_true_iff in B. rewrite !Z.leb_le in B.
  assert (C : exists D : uint -> uint, dtext (D u) = c :: dtext u).
  { rewrite <- (ascii_nat_embedding c). set (k := nat_of_ascii c) in *. clearbody k.
    assert (K : In k [48; 49; 50; 51; 52; 53; 54; 55; 56; 57]%nat) by (cbn [In]; lia).
    cbn [In] in K. repeat (destruct K as [<-|K]); [exists D0|exists D1|exists D2|exists D3|exists D4|exists D5|exists D6|exists D7|exists D8|exists D9|destruct K]; reflexivity. }
  destruct C as (D & C). exists (D u), r. rewrite C. split; [reflexivity|exact ND].
Qed.

(* ------------------------------------------------------------------ *)
(** ** Stripping *)
Lemma lstrip_blanks a l : blanks a -> lstrip (a ++ l) = lstrip l.
Proof. induction 1 as [|c a H _ IH]; [reflexivity|]. cbn. apply is_space_iff in H. rewrite H. exact IH. Qed.
Definition solid (w : list ascii) : Prop := match w with [] => True | c :: _ => ~ blank c end.
Lemma lstrip_solid w : solid w -> lstrip w = w.
Proof. destruct w as [|c w]; [reflexivity|]. cbn. intros H. apply is_space_false in H. rewrite H. reflexivity. Qed.
Lemma solid_app w r : w <> [] -> solid w -> solid (w ++ r).
Proof. destruct w as [|c w]; [congruence|]. intros _ H. exact H. Qed.
Lemma blanks_rev a : blanks a -> blanks (rev a).
Proof. unfold blanks. intros H. apply Forall_rev. exact H. Qed.
Lemma strip_padded a w b : blanks a -> blanks b -> solid w -> solid (rev w) -> w <> [] -> strip (a ++ w ++ b) = w.
Proof.
  intros A B S1 S2 N. unfold strip. rewrite lstrip_blanks by exact A. rewrite (lstrip_solid (w ++ b)) by (apply solid_app; assumption).
  rewrite rev_app_distr, lstrip_blanks by (apply blanks_rev; exact B). rewrite lstrip_solid by exact S2. apply rev_involutive.
Qed.
Lemma lstrip_form l : exists a, l = a ++ lstrip l /\ blanks a.
Proof.
  induction l as [|c l (a & E & B)]; [exists []; split; [reflexivity|constructor]|]. cbn. destruct (is_space c) eqn:S0.
  - exists (c :: a). split; [cbn; f_equal; exact E|]. constructor; [apply is_space_iff; exact S0|exact B].
  - exists []. split; [reflexivity|constructor].
Qed.
Lemma strip_form l : exists a b, l = a ++ strip l ++ b /\ blanks a /\ blanks b.
Proof.
  destruct (lstrip_form l) as (a & E & A). destruct (lstrip_form (rev (lstrip l))) as (b & F & B).
  exists a, (rev b). split; [|split; [exact A|apply blanks_rev; exact B]].
  unfold strip. rewrite E at 1. f_equal. rewrite <- (rev_involutive (lstrip l)) at 1. rewrite F at 1. apply rev_app_distr.
Qed.

(* ------------------------------------------------------------------ *)
(** ** Numbers *)
Lemma qz_one : qz 1 = 1%Qc. Proof. reflexivity. Qed.
Lemma pow10_pos k : 0 < 10 ^ Z.of_nat k. Proof. apply Z.pow_pos_nonneg; lia. Qed.
Lemma qz_neq0 z : z <> 0 -> qz z <> 0%Qc.
Proof. intros N C. apply N. apply (qz_inj z 0). exact C. Qed.
Lemma sign_stext s r : (match r with [] => True | c :: _ => c <> "-"%char /\ c <> "+"%char end) -> sign (stext s ++ r) = (svalue s, r).
Proof.
  intros H. destruct s as [[]|]; [reflexivity|reflexivity|]. cbn [stext app]. destruct r as [|c r]; [reflexivity|]. destruct H as (A & B).
  cbn [sign svalue]. apply Ascii.eqb_neq in A, B. rewrite A, B. reflexivity.
Qed.
Lemma digit_char c d : digit c = Some d -> c <> "-"%char /\ c <> "+"%char /\ c <> "."%char /\ c <> "e"%char /\ c <> "E"%char.
Proof. intros E. repeat split; intros ->; discriminate E. Qed.

(** [pyfloat] on the stripped text *)
Definition tail_value (x : Qc) (l : list ascii) : option Qc :=
  match l with
  | [] => Some x
  | c :: r =>
      if Ascii.eqb c "e" || Ascii.eqb c "E" then
        let '(es, r) := sign r in
        let '(e, ne, r) := digits r 0 0 in
        if Nat.eqb ne 0 then None
        else match r with
             | [] => Some (if es =? 1 then Qcmult x (qz (10 ^ e)) else Qcdiv x (qz (10 ^ e)))
             | _ => None
             end
      else None
  end.
Definition float_of (s : list ascii) : option Qc :=
  let '(sg, l) := sign s in
  let '(ip, ni, l) := digits l 0 0 in
  let '(m, nf, l) := match l with c :: r => if Ascii.eqb c "." then digits r ip 0 else (ip, 0%nat, l) | [] => (ip, 0%nat, l) end in
  if Nat.eqb (ni + nf) 0 then None else tail_value (Qcdiv (qz (sg * m)) (qz (10 ^ Z.of_nat nf))) l.
Lemma pyfloat_strip s : pyfloat s = float_of (strip s).
Proof. reflexivity. Qed.

Definition no_more (r : list ascii) : Prop := match r with [] => True | c :: _ => digit c = None /\ c <> "."%char end.
Lemma float_plain t x r : plain t x -> no_more r -> float_of (t ++ r) = tail_value x r.
Proof.
  intros P NM. assert (ND : not_digit r) by (destruct r; [exact I|apply NM]). destruct P as [s u N|s u v N].
  - destruct (dtext_head u N) as (c & q & d & E & DC). unfold float_of. rewrite <- app_assoc.
    rewrite sign_stext by (rewrite E; cbn [app]; destruct (digit_char c d DC) as (A & B & _); split; assumption).
    rewrite digits_dtext by exact ND. rewrite Nat.add_0_l.
    assert (X : (match r with c :: r0 => if Ascii.eqb c "." then digits r0 (horner u 0) 0 else (horner u 0, 0%nat, r) | [] => (horner u 0, 0%nat, r) end) = (horner u 0, 0%nat, r)).
    { destruct r as [|c0 r]; [reflexivity|]. destruct NM as (_ & NP). apply Ascii.eqb_neq in NP. rewrite NP. reflexivity. }
    rewrite X. rewrite Nat.add_0_r. pose proof (nb_pos u N) as NB. destruct (Nat.eqb_spec (nb_digits u) 0); [lia|].
    f_equal. rewrite <- of_uint_horner, qz_mult. change (qz (10 ^ Z.of_nat 0)) with 1%Qc. field. discriminate.
  - unfold float_of. rewrite <- !app_assoc. cbn [app].
    rewrite sign_stext.
    2:{ destruct u as [|u|u|u|u|u|u|u|u|u|u]; [split; discriminate|..]; (erewrite dtext_cons by reflexivity; split; discriminate). }
    rewrite digits_dtext by reflexivity. rewrite Ascii.eqb_refl. rewrite digits_dtext by exact ND. rewrite !Nat.add_0_l.
    assert (NB : (nb_digits u + nb_digits v)%nat <> 0%nat) by (destruct N as [N|N]; pose proof (nb_pos _ N); lia).
    destruct (Nat.eqb_spec (nb_digits u + nb_digits v) 0); [contradiction|]. f_equal.
    rewrite horner_acc, <- !of_uint_horner, qz_mult, qz_plus, qz_mult. pose proof (pow10_pos (nb_digits v)) as PP.
    assert (NZ : qz (10 ^ Z.of_nat (nb_digits v)) <> 0%Qc) by (apply qz_neq0; lia). field. exact NZ.
Qed.
Theorem float_numeral t x : numeral t x -> float_of t = Some x.
Proof.
  intros [t' x' P|t' x' c s u P HC N].
  - rewrite <- (app_nil_r t'). rewrite (float_plain t' x' [] P I). reflexivity.
  - rewrite (float_plain t' x' _ P).
    2:{ destruct HC as [-> | ->]; split; (reflexivity || discriminate). }
    cbn [tail_value]. assert (E : (Ascii.eqb c "e" || Ascii.eqb c "E") = true) by (destruct HC as [-> | ->]; reflexivity). rewrite E.
    destruct (dtext_head u N) as (ch & q & d & EU & DC).
    rewrite sign_stext by (rewrite EU; destruct (digit_char ch d DC) as (A & B & _); split; assumption).
    rewrite <- (app_nil_r (dtext u)). rewrite digits_dtext by exact I. rewrite Nat.add_0_l.
    pose proof (nb_pos u N). destruct (Nat.eqb_spec (nb_digits u) 0); [lia|]. rewrite of_uint_horner. reflexivity.
Qed.
Lemma sign_inv l : exists s r, l = stext s ++ r /\ sign l = (svalue s, r).
Proof.
  destruct l as [|c l]; [exists None, []; split; reflexivity|]. cbn [sign].
  destruct (Ascii.eqb_spec c "-"); [subst; exists (Some false), l; split; reflexivity|].
  destruct (Ascii.eqb_spec c "+"); [subst; exists (Some true), l; split; reflexivity|]. exists None, (c :: l). split; reflexivity.
Qed.
Lemma tail_value_inv t x r y : plain t x -> tail_value x r = Some y -> numeral (t ++ r) y.
Proof.
  intros P E. destruct r as [|c r]; [cbn in E; injection E as <-; rewrite app_nil_r; apply numeral_plain; exact P|].
  cbn [tail_value] in E. destruct (Ascii.eqb c "e" || Ascii.eqb c "E") eqn:C; [|discriminate].
  assert (HC : c = "e"%char \/ c = "E"%char) by (apply orb_true_iff in C; destruct C as [C|C]; apply Ascii.eqb_eq in C; auto).
  destruct (sign_inv r) as (s & r1 & -> & ES). rewrite ES in E.
  destruct (digits_inv r1 0 0%nat) as (u & r2 & -> & ND). rewrite digits_dtext in E by exact ND. rewrite Nat.add_0_l in E.
  destruct (Nat.eqb_spec (nb_digits u) 0) as [Z0|NZ]; [discriminate|]. destruct r2 as [|? ?]; [|discriminate]. rewrite app_nil_r.
  injection E as <-. rewrite <- of_uint_horner. apply numeral_exp; [exact P|exact HC|]. intros ->. apply NZ. reflexivity.
Qed.
Theorem float_inv t x : float_of t = Some x -> numeral t x.
Proof.
  intros E. unfold float_of in E. destruct (sign_inv t) as (s & l & -> & ES). rewrite ES in E. clear ES.
  destruct (digits_inv l 0 0%nat) as (u & r & -> & ND). rewrite digits_dtext in E by exact ND. rewrite Nat.add_0_l in E.
  destruct r as [|c r].
  - rewrite Nat.add_0_r in E. destruct (Nat.eqb_spec (nb_digits u) 0) as [Z0|NZ]; [discriminate|].
    assert (N : u <> Nil) by (intros ->; apply NZ; reflexivity). pose proof (plain_whole s u N) as P.
    rewrite app_assoc. apply (tail_value_inv _ _ _ _ P). rewrite <- E. f_equal.
    rewrite of_uint_horner, qz_mult. change (qz (10 ^ Z.of_nat 0)) with 1%Qc. field. discriminate.
  - destruct (Ascii.eqb_spec c ".") as [->|NP].
    + destruct (digits_inv r 0 0%nat) as (v & r' & -> & ND'). rewrite digits_dtext in E by exact ND'. rewrite Nat.add_0_l in E.
      destruct (Nat.eqb_spec (nb_digits u + nb_digits v) 0) as [Z0|NZ]; [discriminate|].
      assert (N : u <> Nil \/ v <> Nil) by (destruct u; [right; intros ->; apply NZ; reflexivity|left; discriminate..]).
      pose proof (plain_point s u v N) as P. replace (stext s ++ dtext u ++ "."%char :: dtext v ++ r') with ((stext s ++ dtext u ++ "."%char :: dtext v) ++ r') by (rewrite <- !app_assoc; reflexivity).
      apply (tail_value_inv _ _ _ _ P). rewrite <- E. f_equal.
      rewrite horner_acc, <- !of_uint_horner, qz_mult, qz_plus, qz_mult. pose proof (pow10_pos (nb_digits v)) as PP.
      assert (NQ : qz (10 ^ Z.of_nat (nb_digits v)) <> 0%Qc) by (apply qz_neq0; lia). field. exact NQ.
    + rewrite Nat.add_0_r in E. destruct (Nat.eqb_spec (nb_digits u) 0) as [Z0|NZ]; [discriminate|].
      assert (N : u <> Nil) by (intros ->; apply NZ; reflexivity). pose proof (plain_whole s u N) as P.
      rewrite app_assoc. apply (tail_value_inv _ _ _ _ P). rewrite <- E. f_equal.
      rewrite of_uint_horner, qz_mult. change (qz (10 ^ Z.of_nat 0)) with 1%Qc. field. discriminate.
Qed.

(* ------------------------------------------------------------------ *)
(** ** The characters of a number *)
Definition numchar (c : ascii) : Prop := In c (list_ascii_of_string "+-.0123456789eE").
Lemma dtext_chars u : Forall numchar (dtext u).
Proof. induction u; [constructor|..]; (erewrite dtext_cons by reflexivity; constructor; [vm_compute; tauto|exact IHu]). Qed.
Lemma stext_chars s : Forall numchar (stext s).
Proof. destruct s as [[]|]; repeat constructor; vm_compute; tauto. Qed.
Lemma plain_chars t x : plain t x -> Forall numchar t.
Proof.
  intros [s u _|s u v _]; repeat (apply Forall_app; split); try apply stext_chars; try apply dtext_chars.
  constructor; [vm_compute; tauto|apply dtext_chars].
Qed.
Lemma numeral_chars t x : numeral t x -> Forall numchar t.
Proof.
  intros [t' x' P|t' x' c s u P HC N]; [apply (plain_chars _ _ P)|].
  apply Forall_app. split; [apply (plain_chars _ _ P)|]. constructor; [destruct HC as [-> | ->]; vm_compute; tauto|].
  apply Forall_app. split; [apply stext_chars|apply dtext_chars].
Qed.
Lemma numeral_nonempty t x : numeral t x -> t <> [].
Proof.
  assert (A : forall t x, plain t x -> t <> []).
  { intros t0 x0 [s u N|s u v N] C; apply app_eq_nil in C; destruct C as (_ & C).
    - destruct (dtext_head u N) as (c & r & d & E & _). rewrite E in C. discriminate C.
    - apply app_eq_nil in C. destruct C as (_ & C). discriminate C. }
  intros [t' x' P|t' x' c s u P HC N]; [apply (A _ _ P)|]. intros C. apply app_eq_nil in C. destruct C as (C & _). exact (A _ _ P C).
Qed.
Lemma numchar_not_blank c : numchar c -> ~ blank c.
Proof. unfold numchar. cbn [list_ascii_of_string In]. intros H B. unfold blank in B. cbn [In] in B. repeat (destruct H as [<-|H]; [vm_compute in B; intuition discriminate|]). exact H. Qed.
Lemma numchar_no c : numchar c -> c <> ","%char /\ c <> "A"%char.
Proof. unfold numchar. cbn [list_ascii_of_string In]. intros H. split; intros ->; repeat (destruct H as [H|H]; [discriminate H|]); exact H. Qed.
Lemma solid_of l : Forall (fun c => ~ blank c) l -> solid l.
Proof. intros [|c r H _]; [exact I|exact H]. Qed.
Lemma strip_numeral a w b x : blanks a -> blanks b -> numeral w x -> strip (a ++ w ++ b) = w.
Proof.
  intros A B N. assert (F : Forall (fun c => ~ blank c) w) by (eapply Forall_impl; [|apply (numeral_chars _ _ N)]; apply numchar_not_blank).
  apply strip_padded; try assumption; [apply solid_of; exact F|apply solid_of; apply Forall_rev; exact F|apply (numeral_nonempty _ _ N)].
Qed.
Theorem pyfloat_iff s x : pyfloat s = Some x <-> exists w, padded w s /\ numeral w x.
Proof.
  rewrite pyfloat_strip. split.
  - intros E. exists (strip s). split; [|apply float_inv; exact E]. destruct (strip_form s) as (a & b & E2 & A & B). exists a, b. auto.
  - intros (w & (a & b & -> & A & B) & N). rewrite (strip_numeral a w b x A B N). apply float_numeral. exact N.
Qed.

(* ------------------------------------------------------------------ *)
(** ** Pieces *)
Lemma split_on_nonempty p l : split_on p l <> [].
Proof. destruct l as [|c l]; cbn; [discriminate|]. destruct (p c); [discriminate|]. destruct (split_on p l); discriminate. Qed.
Lemma split_on_head p w l : Forall (fun c => p c = false) w -> split_on p (w ++ l) = match split_on p l with h :: t => (w ++ h) :: t | [] => [w] end.
Proof.
  induction 1 as [|c w H _ IH]; cbn [app]; [destruct (split_on p l) eqn:E; [exfalso; apply (split_on_nonempty p l E)|reflexivity]|].
  cbn [split_on]. rewrite H, IH. destruct (split_on p l); reflexivity.
Qed.
Lemma split_on_alone p w : Forall (fun c => p c = false) w -> split_on p w = [w].
Proof. intros H. rewrite <- (app_nil_r w) at 1. rewrite split_on_head by exact H. cbn. rewrite app_nil_r. reflexivity. Qed.
Lemma split_on_sep p w c l : Forall (fun c => p c = false) w -> p c = true -> split_on p (w ++ c :: l) = w :: split_on p l.
Proof. intros H E. rewrite split_on_head by exact H. cbn [split_on]. rewrite E, app_nil_r. reflexivity. Qed.
Definition comma_free (w : list ascii) : Prop := ~ In ","%char w.
Lemma comma_free_spec w : comma_free w -> Forall (fun c => Ascii.eqb "," c = false) w.
Proof. intros H. apply Forall_forall. intros c HC. apply Ascii.eqb_neq. intros <-. apply H. exact HC. Qed.
Lemma split_commas ps : ps <> [] -> Forall comma_free ps -> split_on (Ascii.eqb ",") (commas ps) = ps.
Proof.
  intros N F. induction F as [|w ps H F IH]; [congruence|]. destruct ps as [|w2 ps]; [apply split_on_alone; apply comma_free_spec; exact H|].
  change (commas (w :: w2 :: ps)) with (w ++ ","%char :: commas (w2 :: ps)). rewrite split_on_sep; [|apply comma_free_spec; exact H|reflexivity].
  rewrite IH by discriminate. reflexivity.
Qed.

(** removing blanks at the ends of the text changes the pieces by blanks only *)
Definition rstrip (l : list ascii) : list ascii := rev (lstrip (rev l)).
Lemma lstrip_app_blank l c : blank c -> lstrip (l ++ [c]) = match lstrip l with [] => [] | m => m ++ [c] end.
Proof.
  intros B. apply is_space_iff in B. induction l as [|d l IH]; cbn; [rewrite B; reflexivity|]. destruct (is_space d); [exact IH|reflexivity].
Qed.
Lemma lstrip_app_solid l c : ~ blank c -> lstrip (l ++ [c]) = lstrip l ++ [c].
Proof.
  intros B. apply is_space_false in B. induction l as [|d l IH]; cbn; [rewrite B; reflexivity|]. destruct (is_space d); [exact IH|reflexivity].
Qed.
Lemma rstrip_cons c l : rstrip (c :: l) = match rstrip l with [] => if is_space c then [] else [c] | m => c :: m end.
Proof.
  unfold rstrip. cbn [rev]. destruct (is_space c) eqn:E.
  - rewrite lstrip_app_blank by (apply is_space_iff; exact E). destruct (lstrip (rev l)) as [|d m]; [reflexivity|].
    rewrite rev_app_distr. cbn [rev app]. destruct (rev m ++ [d]) eqn:F; [destruct (rev m); discriminate F|reflexivity].
  - rewrite lstrip_app_solid by (apply is_space_false; exact E). rewrite rev_app_distr. cbn [rev app]. destruct (rev (lstrip (rev l))); reflexivity.
Qed.
Lemma strip_rstrip l : strip l = lstrip (rstrip l).
Proof.
  change (strip l) with (rstrip (lstrip l)). induction l as [|c l IH]; [reflexivity|]. rewrite rstrip_cons. cbn [lstrip]. destruct (is_space c) eqn:E.
  - rewrite IH. destruct (rstrip l) as [|d m]; [reflexivity|]. cbn [lstrip]. rewrite E. reflexivity.
  - rewrite rstrip_cons, E. destruct (rstrip l) as [|d m]; cbn [lstrip]; rewrite E; reflexivity.
Qed.
Lemma comma_not_space : is_space "," = false. Proof. reflexivity. Qed.
Lemma pieces_left l : map strip (split_on (Ascii.eqb ",") (lstrip l)) = map strip (split_on (Ascii.eqb ",") l).
Proof.
  induction l as [|c l IH]; [reflexivity|]. cbn [lstrip]. destruct (is_space c) eqn:E; [|reflexivity]. rewrite IH. cbn [split_on].
  assert (NC : Ascii.eqb "," c = false) by (apply Ascii.eqb_neq; intros <-; discriminate E). rewrite NC.
  destruct (split_on (Ascii.eqb ",") l) as [|w ws] eqn:S0; [exfalso; apply (split_on_nonempty _ _ S0)|]. cbn [map]. f_equal.
  unfold strip at 2. cbn [lstrip]. rewrite E. reflexivity.
Qed.
Lemma rstrip_blanks b : blanks b -> rstrip b = [].
Proof. induction 1 as [|c b H _ IH]; [reflexivity|]. rewrite rstrip_cons, IH. apply is_space_iff in H. rewrite H. reflexivity. Qed.
Lemma pieces_right l b : blanks b -> map rstrip (split_on (Ascii.eqb ",") (l ++ b)) = map rstrip (split_on (Ascii.eqb ",") l).
Proof.
  intros B. induction l as [|c l IH]; cbn [app].
  - rewrite split_on_alone. { cbn [map]. rewrite rstrip_blanks by exact B. reflexivity. }
    eapply Forall_impl; [|exact B]. intros c HC. apply Ascii.eqb_neq. intros <-. apply is_space_iff in HC. discriminate HC.
  - cbn [split_on]. destruct (Ascii.eqb "," c); [cbn [map]; f_equal; exact IH|].
    destruct (split_on (Ascii.eqb ",") (l ++ b)) as [|w ws] eqn:S1; [exfalso; apply (split_on_nonempty _ _ S1)|].
    destruct (split_on (Ascii.eqb ",") l) as [|w' ws'] eqn:S2; [exfalso; apply (split_on_nonempty _ _ S2)|]. cbn [map] in IH |- *. injection IH as I1 I2.
    rewrite !rstrip_cons, I1, I2. reflexivity.
Qed.
Lemma pieces_strip l : map strip (split_on (Ascii.eqb ",") (strip l)) = map strip (split_on (Ascii.eqb ",") l).
Proof.
  destruct (strip_form l) as (a & b & E & A & B). rewrite E at 2.
  assert (L : map strip (split_on (Ascii.eqb ",") (a ++ strip l ++ b)) = map strip (split_on (Ascii.eqb ",") (strip l ++ b))).
  { rewrite <- pieces_left. rewrite lstrip_blanks by exact A. apply pieces_left. }
  rewrite L.
  assert (R : forall x, map strip x = map lstrip (map rstrip x)) by (intros x; rewrite map_map; apply map_ext; intros; apply strip_rstrip).
  rewrite (R (split_on _ (_ ++ b))), pieces_right by exact B. apply R.
Qed.

(** the words of a line *)
Lemma words_blank c l : blank c -> words (c :: l) = words l.
Proof. intros B. apply is_space_iff in B. unfold words. cbn [split_on]. rewrite B. reflexivity. Qed.
Lemma words_blanks s l : blanks s -> words (s ++ l) = words l.
Proof. induction 1 as [|c s H _ IH]; [reflexivity|]. cbn [app]. rewrite words_blank by exact H. exact IH. Qed.
Lemma nospace w : Forall (fun c => ~ blank c) w -> Forall (fun c => is_space c = false) w.
Proof. apply Forall_impl. intros c H. apply is_space_false. exact H. Qed.
Lemma words_word w b l : w <> [] -> Forall (fun c => ~ blank c) w -> blank b -> words (w ++ b :: l) = w :: words (b :: l).
Proof.
  intros N F B. rewrite words_blank by exact B. unfold words. rewrite split_on_sep; [|apply nospace; exact F|apply is_space_iff; exact B].
  cbn [filter]. destruct w; [congruence|reflexivity].
Qed.
Lemma words_none s : blanks s -> words s = [].
Proof. intros B. rewrite <- (app_nil_r s). rewrite words_blanks by exact B. reflexivity. Qed.
Lemma words_last w e : w <> [] -> Forall (fun c => ~ blank c) w -> blanks e -> words (w ++ e) = [w].
Proof.
  intros N F [|b r B BE].
  - rewrite app_nil_r. unfold words. rewrite split_on_alone by (apply nospace; exact F). destruct w; [congruence|reflexivity].
  - rewrite words_word by assumption. rewrite words_none; [reflexivity|constructor; assumption].
Qed.
Lemma spaced_words ws l : spaced ws l -> words l = ws.
Proof.
  induction 1 as [s B|s w e B N F E|s w b ws r B N F BB S0 IH].
  - apply words_none. exact B.
  - rewrite words_blanks by exact B. apply words_last; assumption.
  - rewrite words_blanks by exact B. rewrite words_word by assumption. rewrite IH. reflexivity.
Qed.
Lemma words_snoc m b : blank b -> words (m ++ [b]) = words m.
Proof.
  intros BB. unfold words.
  assert (G : split_on is_space (m ++ [b]) = split_on is_space m ++ [[]]).
  { induction m as [|c m IH]; [cbn; apply is_space_iff in BB; rewrite BB; reflexivity|].
    cbn [app split_on]. rewrite IH. destruct (is_space c); [reflexivity|].
    destruct (split_on is_space m) as [|w x] eqn:E; [exfalso; apply (split_on_nonempty is_space m E)|]. reflexivity. }
  rewrite G, filter_app. cbn. apply app_nil_r.
Qed.
Lemma words_right l e : blanks e -> words (l ++ e) = words l.
Proof.
  revert l. induction e as [|b r IH]; intros l E; [rewrite app_nil_r; reflexivity|]. inversion_clear E.
  replace (l ++ b :: r) with ((l ++ [b]) ++ r) by (rewrite <- app_assoc; reflexivity). rewrite IH by assumption. apply words_snoc. assumption.
Qed.
Lemma words_strip l : words (strip l) = words l.
Proof.
  destruct (strip_form l) as (a & b & E & A & B). rewrite E at 2. rewrite words_blanks by exact A. rewrite words_right by exact B. reflexivity.
Qed.
Lemma spaced_chars ws l : spaced ws l -> Forall (fun c => blank c \/ exists w, In w ws /\ In c w) l.
Proof.
  assert (BL : forall ws s, blanks s -> Forall (fun c => blank c \/ exists w : list ascii, In w ws /\ In c w) s) by (intros ? ? H; eapply Forall_impl; [|exact H]; auto).
  induction 1 as [s B|s w e B N F E|s w b ws r B N F BB S0 IH].
  - apply BL. exact B.
  - apply Forall_app. split; [apply BL; exact B|]. apply Forall_app. split; [|apply BL; exact E]. apply Forall_forall. intros c HC. right. exists w. split; [left; reflexivity|exact HC].
  - apply Forall_app. split; [apply BL; exact B|]. apply Forall_app. split.
    + apply Forall_forall. intros c HC. right. exists w. split; [left; reflexivity|exact HC].
    + eapply Forall_impl; [|exact IH]. intros c [H|(w' & H1 & H2)]; [left; exact H|right; exists w'; split; [right; exact H1|exact H2]].
Qed.

(* ------------------------------------------------------------------ *)
(** ** The load file *)
Lemma rmap_forall2 {A B} (f : A -> res B) l v : Forall2 (fun a b => f a = Ok b) l v -> rmap f l = Ok v.
Proof. induction 1 as [|a b l v H _ IH]; [reflexivity|]. cbn. rewrite H. cbn [bind]. rewrite IH. reflexivity. Qed.
Lemma numeral_pyfloat w x : numeral w x -> pyfloat w = Some x.
Proof. intros N. apply pyfloat_iff. exists w. split; [|exact N]. exists [], []. split; [rewrite app_nil_r; reflexivity|]. split; constructor. Qed.
Lemma floats_numerals ws v : Forall2 numeral ws v -> floats ws = Ok v.
Proof. intros H. apply rmap_forall2. induction H as [|w x ws v N _ IH]; constructor; [rewrite (numeral_pyfloat _ _ N); reflexivity|exact IH]. Qed.
Lemma newline_blank : blank line_feed. Proof. unfold blank. vm_compute. tauto. Qed.
Lemma parse_data v l : data_text v l -> parse_line (l ++ [line_feed]) = Hours v.
Proof.
  intros (NN & ws & S0 & F). unfold parse_line.
  assert (W : floats (words (strip (l ++ [line_feed]))) = Ok v).
  { rewrite words_strip, words_right by (constructor; [apply newline_blank|constructor]). rewrite (spaced_words _ _ S0). apply floats_numerals. exact F. }
  rewrite W. destruct (String.eqb_spec (string_of_list_ascii (firstn 4 (l ++ [line_feed]))) "AREA") as [E|_]; [|reflexivity]. exfalso.
  assert (HA : In "A"%char (l ++ [line_feed])).
  { destruct (l ++ [line_feed]) as [|c q]; [discriminate E|]. cbn in E. injection E as E0 _. left. exact E0. }
  apply in_app_or in HA. destruct HA as [HA|[HA|[]]]; [|discriminate HA].
  pose proof (proj1 (Forall_forall _ _) (spaced_chars _ _ S0) _ HA) as [B|(w & HW & HC)].
  - apply is_space_iff in B. discriminate B.
  - assert (NC : Forall numchar w).
    { clear - F HW. induction F as [|w0 x ws v N _ IH]; [destruct HW|]. destruct HW as [->|HW]; [apply (numeral_chars _ _ N)|apply IH; exact HW]. }
    pose proof (proj1 (Forall_forall _ _) NC _ HC) as X. apply numchar_no in X. destruct X as (_ & X). apply X. reflexivity.
Qed.
Lemma lines_of_line l r : no_newline l -> lines_of (l ++ line_feed :: r) = (l ++ [line_feed]) :: lines_of r.
Proof.
  intros N. induction l as [|c l IH]; cbn [app lines_of]; change newline with line_feed.
  - rewrite Ascii.eqb_refl. reflexivity.
  - destruct (Ascii.eqb_spec c line_feed) as [->|NE]; [exfalso; apply N; left; reflexivity|]. rewrite IH by (intros C; apply N; right; exact C). reflexivity.
Qed.
Lemma lines_of_concat ls r : Forall no_newline ls -> lines_of (concat (map (fun l => l ++ [line_feed]) ls) ++ r) = map (fun l => l ++ [line_feed]) ls ++ lines_of r.
Proof.
  induction 1 as [|l ls H _ IH]; [reflexivity|]. cbn [map concat]. rewrite <- !app_assoc. cbn [app]. rewrite lines_of_line by exact H. rewrite IH. reflexivity.
Qed.
Lemma string_of_list_of s : string_of_list_ascii (list_ascii_of_string s) = s.
Proof. apply string_of_list_ascii_of_string. Qed.
Lemma parse_block b t r : block_text b t ->
  map parse_line (lines_of (t ++ r)) = (AreaLine (b_header b) :: map Hours (b_lines b)) ++ map parse_line (lines_of r).
Proof.
  intros (h & ls & -> & NH & HA & HB & F).
  assert (FN : Forall no_newline (h :: ls)).
  { constructor; [exact NH|]. clear - F. induction F as [|v l vs ls (N & _) _ IH]; constructor; assumption. }
  rewrite lines_of_concat by exact FN. rewrite map_app. f_equal. cbn [map]. f_equal.
  - unfold parse_line. assert (E : firstn 4 (h ++ [line_feed]) = firstn 4 h).
    { destruct h as [|c1 [|c2 [|c3 [|c4 h]]]]; try discriminate HA. reflexivity. }
    rewrite E, HA. cbn [string_of_list_ascii]. rewrite <- HB, string_of_list_of. reflexivity.
  - rewrite map_map. clear - F. induction F as [|v l vs ls D _ IH]; [reflexivity|]. cbn [map]. rewrite (parse_data _ _ D), IH. reflexivity.
Qed.
Theorem leei_lines_spec bs s : loads_text bs s -> leei_lines s = load_file bs.
Proof.
  intros (ts & E & F). unfold leei_lines. rewrite E. clear E. unfold load_file. induction F as [|b t bs ts B _ IH]; [reflexivity|].
  cbn [concat flat_map]. rewrite (parse_block b t _ B), IH. reflexivity.
Qed.
