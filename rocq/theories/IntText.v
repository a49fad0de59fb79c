(** Decimal integers as texts: the grammar of Python's [int(...)] for ASCII (base 10), and that
    [py_int] accepts exactly it. *)
From Verif Require Import Py PyFacts PyText.
From Coq Require Import ZifyBool.
Set Implicit Arguments. Unset Strict Implicit.

Definition digit (c d : Z) : Prop := 0 <= d <= 9 /\ c = 48 + d.
(** Digits with single underscores between them, and the number they stand for. *)
Inductive digits_text : str -> Z -> Prop :=
| dt_one c d : digit c d -> digits_text [c] d
| dt_next t n c d : digits_text t n -> digit c d -> digits_text (t ++ [c]) (10 * n + d)
| dt_under t n c d : digits_text t n -> digit c d -> digits_text (t ++ [95; c]) (10 * n + d).
(** Tab, line feed, vertical tab, form feed, carriage return, space. *)
Definition blank (t : str) : Prop := forall c, In c t -> In c [9; 10; 11; 12; 13; 32].
Definition int_text (t : str) (n : Z) : Prop :=
  exists a sign body b m, t = a ++ sign ++ body ++ b /\ blank a /\ blank b /\ digits_text body m /\
    (sign = [] /\ n = m \/ sign = [43] /\ n = m \/ sign = [45] /\ n = - m).

(** *** Proofs *)
Inductive tail : Z -> str -> Z -> Prop :=
| tl_nil a : tail a [] a
| tl_digit a c d r n : digit c d -> tail (10 * a + d) r n -> tail a (c :: r) n
| tl_under a c d r n : digit c d -> tail (10 * a + d) r n -> tail a (95 :: c :: r) n.
Lemma digit_iff c : is_digit c = true <-> digit c (c - 48).
Proof. unfold is_digit, digit. lia. Qed.
Lemma digit_val c d : digit c d -> is_digit c = true /\ d = c - 48.
Proof. unfold is_digit, digit. lia. Qed.
Lemma int_tail : forall k t a n, (List.length t <= k)%nat -> (int_digits true a t = Some n <-> tail a t n).
Proof.
  induction k as [|k IH]; intros [|c r] a n L; cbn [List.length] in L; try lia.
  1, 2: cbn [int_digits]; split; [intros [= <-]; constructor|now inversion 1].
  cbn [int_digits]. destruct (is_digit c) eqn:D.
  - rewrite IH by lia. replace (a * 10 + (c - 48)) with (10 * a + (c - 48)) by lia. split.
    + intro H. apply digit_iff in D. exact (tl_digit D H).
    + intro H. inversion H as [|a' c' d r' n' Dd T|a' c' d r' n' Dd T]; subst; [apply digit_val in Dd as [_ ->]; exact T|]. discriminate D.
  - destruct (c =? 95) eqn:U; cbn [andb].
    + assert (c = 95) as -> by lia. destruct r as [|c r]; cbn [int_digits]; [split; [discriminate|]; intro H; inversion H as [|a' c' d r' n' Dd T|]; subst; apply digit_val in Dd as [Dd _]; discriminate|].
      destruct (is_digit c) eqn:D'.
      * cbn [List.length] in L. rewrite IH by lia. replace (a * 10 + (c - 48)) with (10 * a + (c - 48)) by lia. split.
        -- intro H. apply digit_iff in D'. exact (tl_under D' H).
        -- intro H. inversion H as [|a' c' d r' n' Dd T|a' c' d r' n' Dd T]; subst; apply digit_val in Dd as [Dd E]; [discriminate|]. now subst d.
      * rewrite andb_false_r. split; [discriminate|]. intro H. inversion H as [|a' c' d r' n' Dd T|a' c' d r' n' Dd T]; subst; apply digit_val in Dd as [Dd _]; [discriminate|congruence].
    + split; [discriminate|]. intro H. inversion H as [|a' c' d r' n' Dd T|]; subst; [apply digit_val in Dd as [Dd _]; congruence|discriminate].
Qed.
Lemma tail_snoc a t n c d : tail a t n -> digit c d -> tail a (t ++ [c]) (10 * n + d) /\ tail a (t ++ [95; c]) (10 * n + d).
Proof.
  intros H D. induction H as [a|a c' d' r n D' T [I1 I2]|a c' d' r n D' T [I1 I2]]; cbn [app].
  - split; [apply (tl_digit D); constructor|apply (tl_under D); constructor].
  - split; [exact (tl_digit D' I1)|exact (tl_digit D' I2)].
  - split; [exact (tl_under D' I1)|exact (tl_under D' I2)].
Qed.
Lemma digits_tail t n : digits_text t n <-> exists c d r, t = c :: r /\ digit c d /\ tail d r n.
Proof.
  split.
  - induction 1 as [c d D|t n c d H (c0 & d0 & r & -> & D0 & T) D|t n c d H (c0 & d0 & r & -> & D0 & T) D].
    + exists c, d, []. split; [reflexivity|]. split; [exact D|constructor].
    + exists c0, d0, (r ++ [c]). split; [reflexivity|]. split; [exact D0|]. now apply tail_snoc.
    + exists c0, d0, (r ++ [95; c]). split; [reflexivity|]. split; [exact D0|]. now apply tail_snoc.
  - intros (c & d & r & -> & D & T). change (c :: r) with ([c] ++ r). assert (P : digits_text [c] d) by now constructor. revert P. generalize [c]. clear c D.
    induction T as [a|a c d r n D T IH|a c d r n D T IH]; intros p P; [now rewrite app_nil_r| |].
    + change (c :: r) with ([c] ++ r). rewrite app_assoc. apply IH. now apply dt_next.
    + change (95 :: c :: r) with ([95; c] ++ r). rewrite app_assoc. apply IH. now apply dt_under.
Qed.
Lemma int_digits_text t n : int_digits false 0 t = Some n <-> digits_text t n.
Proof.
  rewrite digits_tail. destruct t as [|c r]; cbn [int_digits]; [split; [discriminate|intros (c & d & r & E & _); discriminate]|]. rewrite andb_false_r. destruct (is_digit c) eqn:D.
  - replace (0 * 10 + (c - 48)) with (c - 48) by lia. rewrite (@int_tail _ r _ n (le_n _)). split.
    + intro T. apply digit_iff in D. now exists c, (c - 48), r.
    + intros (c' & d & r' & [= <- <-] & Dd & T). apply digit_val in Dd as [_ ->]. exact T.
  - split; [discriminate|]. intros (c' & d & r' & [= <- <-] & Dd & T). apply digit_val in Dd as [Dd _]. congruence.
Qed.
Lemma blank_iff c : is_aspace c = true <-> In c [9; 10; 11; 12; 13; 32].
Proof. unfold is_aspace. cbn [In]. lia. Qed.
Lemma askip_split t : exists a, t = a ++ askip t /\ blank a.
Proof.
  induction t as [|c t (a & E & B)]; cbn [askip]; [now exists []|]. destruct (is_aspace c) eqn:S; [|now exists []].
  exists (c :: a). split; [cbn [app]; now rewrite <- E|]. intros x [<-|I]; [now apply blank_iff|now apply B].
Qed.
Lemma askip_app a t : blank a -> askip (a ++ t) = askip t.
Proof. induction a as [|c a IH]; intro B; [reflexivity|]. cbn [app askip]. rewrite (proj2 (blank_iff c) (B c (or_introl eq_refl))). apply IH. intros x I. apply B. now right. Qed.
Lemma strip_split t : exists a b, t = a ++ rev (askip (rev (askip t))) ++ b /\ blank a /\ blank b.
Proof.
  destruct (askip_split t) as (a & E & A). destruct (askip_split (rev (askip t))) as (b & F & B). exists a, (rev b). split; [|split; [exact A|]].
  - rewrite E at 1. f_equal. rewrite <- rev_app_distr, <- F. symmetry. apply rev_involutive.
  - intros c I. apply B. now apply in_rev in I.
Qed.
Definition firm (c : Z) : Prop := ~ In c [9; 10; 11; 12; 13; 32].
Lemma strip_firm a x u y b : blank a -> blank b -> firm x -> firm y -> (exists v w, u = x :: v /\ u = w ++ [y]) -> rev (askip (rev (askip (a ++ u ++ b)))) = u.
Proof.
  intros A B X Y (v & w & E1 & E2). rewrite askip_app by exact A. rewrite E1. cbn [app askip]. destruct (is_aspace x) eqn:S; [apply blank_iff in S; contradiction|].
  change (x :: v ++ b) with ((x :: v) ++ b). rewrite <- E1, rev_app_distr, askip_app.
  - rewrite E2, rev_app_distr. cbn [rev app askip]. destruct (is_aspace y) eqn:Q; [apply blank_iff in Q; contradiction|]. cbn [rev]. now rewrite rev_involutive.
  - intros c I. apply B. now apply in_rev.
Qed.
Lemma digit_firm c d : digit c d -> firm c.
Proof. unfold digit, firm. cbn [In]. lia. Qed.
Lemma digits_ends t n : digits_text t n -> exists x y, firm x /\ firm y /\ x <> 43 /\ x <> 45 /\ exists v w, t = x :: v /\ t = w ++ [y].
Proof.
  intro H. assert (L : exists w c d, t = w ++ [c] /\ digit c d).
  { destruct H as [c d D|t n c d H D|t n c d H D]; [exists [], c, d|exists t, c, d|exists (t ++ [95]), c, d]; (split; [|exact D]); [reflexivity..|]. now rewrite <- app_assoc. }
  apply digits_tail in H as (x & d & v & E & D & _). destruct L as (w & y & e & F & G). exists x, y. split; [exact (digit_firm D)|]. split; [exact (digit_firm G)|].
  unfold digit in D. split; [lia|]. split; [lia|]. now exists v, w.
Qed.
Theorem py_int_text t n : py_int t = Ok n <-> int_text t n.
Proof.
  unfold py_int, int_text. split.
  - destruct (strip_split t) as (a & b & E & A & B). destruct (rev (askip (rev (askip t)))) as [|c r]; [cbn; discriminate|]. intro H.
    destruct (Z.eq_dec c 45) as [->|N5]; [|destruct (Z.eq_dec c 43) as [->|N3]].
    + destruct (int_digits false 0 r) as [m|] eqn:D; [|discriminate]. cbn [option_map] in H. injection H as <-. apply int_digits_text in D. exists a, [45], r, b, m. rewrite E at 1. now repeat split; auto.
    + destruct (int_digits false 0 r) as [m|] eqn:D; [|discriminate]. injection H as <-. apply int_digits_text in D. exists a, [43], r, b, m. rewrite E at 1. now repeat split; auto.
    + assert (H' : match int_digits false 0 (c :: r) with Some n => Ok n | None => Err ValueError end = Ok n).
      { revert H. destruct c as [|p|p]; try (intro H; exact H). do 6 (destruct p as [p|p|]; try (intro H; exact H)); congruence. }
      destruct (int_digits false 0 (c :: r)) as [m|] eqn:D; [|discriminate]. injection H' as <-. apply int_digits_text in D. exists a, [], (c :: r), b, m. rewrite E at 1. now repeat split; auto.
  - intros (a & sg & body & b & m & -> & A & B & D & S). destruct (digits_ends D) as (x & y & X & Y & N3 & N5 & v & w & E1 & E2). apply int_digits_text in D.
    destruct S as [[-> ->]|[[-> ->]|[-> ->]]].
    + cbn [app]. rewrite (@strip_firm a x body y b A B X Y) by now exists v, w. rewrite E1 in *. destruct x as [|p|p]; try now rewrite D. do 6 (destruct p as [p|p|]; try now rewrite D); congruence.
    + rewrite (app_assoc [43]). rewrite (@strip_firm a 43 ([43] ++ body) y b A B); [cbn [app]; now rewrite D|unfold firm; cbn [In]; lia|exact Y|]. exists body, (43 :: w). split; [reflexivity|]. rewrite E2 at 1. reflexivity.
    + rewrite (app_assoc [45]). rewrite (@strip_firm a 45 ([45] ++ body) y b A B); [cbn [app]; now rewrite D|unfold firm; cbn [In]; lia|exact Y|]. exists body, (45 :: w). split; [reflexivity|]. rewrite E2 at 1. reflexivity.
Qed.
Lemma py_int_error t e : py_int t = Err e <-> e = ValueError /\ ~ exists n, int_text t n.
Proof.
  split.
  - intro H. split.
    + unfold py_int in H. destruct (match rev _ with [] => _ | _ => _ end) in H; [discriminate|]. congruence.
    + intros [n N]. apply py_int_text in N. congruence.
  - intros [-> N]. destruct (py_int t) as [n|e] eqn:E; [exfalso; apply N; exists n; now apply py_int_text|]. unfold py_int in E. destruct (match rev _ with [] => _ | _ => _ end) in E; [discriminate|]. congruence.
Qed.
