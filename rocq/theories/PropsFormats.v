(** C110: the formats tried when none are given (rxls/chunk/casts.py:610, 639-687, 725-731). *)
From Verif Require Import Py PyFacts PyText Casts CastsSpec PropsCasts.
Set Implicit Arguments. Unset Strict Implicit.

(** *** Specification: the layouts *)
(** ISO 8601, or day, month and year (of four or of two digits) with one separator. *)
Inductive date_form : str -> Prop :=
| df_iso : date_form (s "%Y-%m-%d")
| df_day sep y : In sep [s "/"; s "."; s "-"] -> In y [s "%Y"; s "%y"] -> date_form (s "%d" ++ sep ++ s "%m" ++ sep ++ y).
(** Hours and minutes, with or without seconds; with polars also on a 12 hour clock and with
    fractions of seconds. *)
Inductive time_form (polars : bool) : str -> Prop :=
| tf_24 t : In t [s "%T"; s "%R"] -> time_form polars t
| tf_more t : polars = true -> In t [s "%r"; s "%I:%M %p"; s "%T%.f"] -> time_form polars t.
Inductive both_form (polars : bool) : str -> Prop :=
| bf d sep t : date_form d -> In sep [s " "; s "T"] -> time_form polars t -> both_form polars (d ++ sep ++ t).
Definition default_form (polars : bool) (f : str) : Prop := date_form f \/ time_form polars f \/ both_form polars f.
(** [a] is tried before [b]. *)
Definition sooner (l : list str) (a b : str) : Prop := exists p q, l = p ++ a :: q /\ ~ In b (p ++ [a]).

(** *** Proofs *)
Lemma date_in d : date_form d <-> In d DATE_FORMATS.
Proof.
  split.
  - intros [|sep y [<-|[<-|[<-|[]]]] [<-|[<-|[]]]]; vm_compute; tauto.
  - intro H. cbn [DATE_FORMATS In] in H. destruct H as [<-|H]; [exact df_iso|].
    repeat (destruct H as [<-|H]; [first
      [exact (@df_day (s "/") (s "%Y") ltac:(cbn; tauto) ltac:(cbn; tauto))|exact (@df_day (s "/") (s "%y") ltac:(cbn; tauto) ltac:(cbn; tauto))
      |exact (@df_day (s ".") (s "%Y") ltac:(cbn; tauto) ltac:(cbn; tauto))|exact (@df_day (s ".") (s "%y") ltac:(cbn; tauto) ltac:(cbn; tauto))
      |exact (@df_day (s "-") (s "%Y") ltac:(cbn; tauto) ltac:(cbn; tauto))|exact (@df_day (s "-") (s "%y") ltac:(cbn; tauto) ltac:(cbn; tauto))]|]). destruct H.
Qed.
Lemma time_in p t : time_form p t <-> In t (TIME_FORMATS p).
Proof.
  split.
  - intros [t' H|t' -> H]; [|cbn in H; unfold TIME_FORMATS; cbn [In]; tauto]. destruct p; cbn [TIME_FORMATS In] in *; tauto.
  - intro H. destruct p; cbn [TIME_FORMATS In] in H; repeat (destruct H as [<-|H]; [first [apply tf_24; cbn; tauto|apply tf_more; [reflexivity|cbn; tauto]]|]); destruct H.
Qed.
Theorem C110_which polars f : In f (default_formats polars) <-> default_form polars f.
Proof.
  unfold default_formats, DATETIME_FORMATS, default_form. rewrite !in_app_iff, in_flat_map, <- date_in, <- time_in. split.
  - intros [(d & D & H)|[H|H]]; [|now left|now right; left]. apply date_in in D. rewrite in_app_iff, in_flat_map in H. destruct H as [(t & T & H)|[<-|[]]]; [|now left].
    apply time_in in T. right. right. destruct H as [<-|[<-|[]]]; apply bf; try assumption; cbn; tauto.
  - intros [H|[H|H]]; [tauto|tauto|]. left. destruct H as [d sep t D S T]. exists d. split; [now apply date_in|]. rewrite in_app_iff, in_flat_map. left. exists t. split; [now apply time_in|].
    destruct S as [<-|[<-|[]]]; cbn; tauto.
Qed.
Print Assumptions C110_which.
(** A decision procedure for the finite lists. *)
Fixpoint soonerb (l : list str) (a b : str) : bool :=
  match l with [] => false | x :: l => if str_eqb x b then false else if str_eqb x a then negb (str_eqb a b) else soonerb l a b end.
Lemma soonerb_ok l a b : soonerb l a b = true -> sooner l a b.
Proof.
  induction l as [|x l IH]; cbn [soonerb]; [discriminate|]. destruct (str_eqb x b) eqn:B; [discriminate|]. destruct (str_eqb x a) eqn:A.
  - intro N. apply str_eqb_eq in A as ->. exists [], l. split; [reflexivity|]. intros [->|[]]. rewrite (proj2 (str_eqb_eq b b) eq_refl) in N. discriminate.
  - intro H. destruct (IH H) as (p & q & -> & N). exists (x :: p), q. split; [reflexivity|]. intros [->|I]; [|now apply N]. rewrite (proj2 (str_eqb_eq b b) eq_refl) in B. discriminate.
Qed.
Ltac forms := repeat match goal with H : date_form _ |- _ => apply date_in in H; cbn [DATE_FORMATS In] in H | H : time_form _ _ |- _ => apply time_in in H; cbn [TIME_FORMATS In] in H | H : In _ _ |- _ => cbn [In] in H end;
  repeat match goal with H : _ \/ _ |- _ => destruct H as [H|H] end; subst; try contradiction; try (apply soonerb_ok; vm_compute; reflexivity).
(** A date with a time before the date alone; any date before a time alone; the year of four digits
    before that of two, whatever follows; and ISO 8601 before the other dates. *)
Theorem C110_order polars : let l := default_formats polars in
  (forall d sep t, date_form d -> In sep [s " "; s "T"] -> time_form polars t -> sooner l (d ++ sep ++ t) d) /\
  (forall d t, date_form d -> time_form polars t -> sooner l d t) /\
  (forall sep x, In sep [s "/"; s "."; s "-"] -> (x = [] \/ exists b t, In b [s " "; s "T"] /\ time_form polars t /\ x = b ++ t) ->
     sooner l (s "%d" ++ sep ++ s "%m" ++ sep ++ s "%Y" ++ x) (s "%d" ++ sep ++ s "%m" ++ sep ++ s "%y" ++ x)) /\
  (forall d, date_form d -> d <> s "%Y-%m-%d" -> sooner l (s "%Y-%m-%d") d).
Proof.
  cbv zeta. split; [|split; [|split]].
  - intros d sep t D S T. destruct polars; forms.
  - intros d t D T. destruct polars; forms.
  - intros sep x S [->|(b & t & B & T & ->)]; destruct polars; forms.
  - intros d D N. destruct polars; forms; now destruct N.
Qed.
Print Assumptions C110_order.
(** What this means for values, for every parser: each value is that of some default layout, no layout
    tried before it has a usable value, and an error means that some text fits none. *)
Lemma all_some_in A (l : list (option A)) vs i x : all_some l = Some vs -> nth_error l i = Some x -> exists v, x = Some v /\ nth_error vs i = Some v.
Proof.
  revert vs i. induction l as [|y l IH]; intros vs i H N; [now destruct i|]. cbn [all_some] in H. destruct y as [y|]; [|discriminate]. destruct (all_some l) as [ws|] eqn:E; [|discriminate]. injection H as <-.
  destruct i as [|i]; cbn [nth_error] in *; [injection N as <-; now exists y|exact (IH ws i eq_refl N)].
Qed.
Lemma all_some_none A (l : list (option A)) : all_some l = None -> In None l.
Proof. induction l as [|[y|] l IH]; cbn [all_some]; [discriminate| |now left]. destruct (all_some l); [discriminate|]. intros _. right. now apply IH. Qed.
Lemma find_split A (p : A -> bool) l x : find p l = Some x -> exists a b, l = a ++ x :: b /\ p x = true /\ forall y, In y a -> p y = false.
Proof.
  induction l as [|y l IH]; cbn [find]; [discriminate|]. destruct (p y) eqn:P.
  - intros [= ->]. exists [], l. split; [reflexivity|]. split; [exact P|]. intros y' [].
  - intro H. destruct (IH H) as (a & b & -> & Q & N). exists (y :: a), b. split; [reflexivity|]. split; [exact Q|]. intros z [<-|I]; [exact P|now apply N].
Qed.
Lemma sooner_before l a b f x : l = a ++ f :: b -> ~ In f a -> sooner l x f -> In x a.
Proof.
  intros -> N (p & q & E & M). revert a N E M. induction p as [|y p IH]; intros [|z a] N E M; injection E as E1 E2; subst.
  - exfalso. apply M. now left.
  - now left.
  - exfalso. apply M. now left.
  - right. apply (IH a); [intro I; apply N; now right|exact E2|intro I; apply M; now right].
Qed.
Theorem C110_chosen parse polars arr :
  match mf_strptime parse 0 polars None arr with
  | Ok vs => forall i t, nth_error arr i = Some (Some t) -> exists v f, nth_error vs i = Some v /\ default_form polars f /\ usable parse f t = Some v /\
      forall g, sooner (default_formats polars) g f -> usable parse g t = None
  | Err e => e = ArrowInvalid /\ (In None arr \/ exists t, In (Some t) arr /\ forall f, default_form polars f -> usable parse f t = None)
  end.
Proof.
  rewrite C49_exact. cbv zeta. destruct (all_some _) as [vs|] eqn:E.
  - intros i t I. assert (N : nth_error (map (first_usable parse (default_formats polars)) arr) i = Some (first_usable parse (default_formats polars) (Some t))) by now apply map_nth_error.
    destruct (all_some_in E N) as (v & F & V). cbn [first_usable] in F. unfold first_match in F. destruct (find _ _) as [f|] eqn:Q; [|discriminate]. apply find_split in Q as (a & b & L & P & B).
    exists v, f. split; [exact V|]. split; [apply C110_which; rewrite L; apply in_or_app; right; now left|]. split; [exact F|]. intros g S.
    assert (Na : ~ In f a) by (intro J; apply B in J; now rewrite F in J). pose proof (B g (sooner_before L Na S)) as G. cbn beta in G. now destruct (usable parse g t).
  - split; [reflexivity|]. apply all_some_none, in_map_iff in E as ([t|] & F & I); [right|now left]. exists t. split; [exact I|]. intros f D. apply C110_which in D. cbn [first_usable] in F. unfold first_match in F.
    destruct (find _ _) as [g|] eqn:Q; [apply find_some in Q as [_ Q]; rewrite F in Q; discriminate|]. pose proof (find_none _ _ Q f D) as G. cbn beta in G. now destruct (usable parse f t).
Qed.
Print Assumptions C110_chosen.
(** The dates that are listed a second time, after all dates with and without times, are never
    needed: leaving them out changes nothing. *)
Lemma find_app_dup A (p : A -> bool) a b c : (forall x, In x b -> In x a) -> find p (a ++ b ++ c) = find p (a ++ c).
Proof.
  intro H. induction a as [|x a IH].
  - destruct b as [|y b]; [reflexivity|]. destruct (H y (or_introl eq_refl)).
  - clear IH. assert (G : forall l r, find p (l ++ r) = match find p l with Some y => Some y | None => find p r end).
    { intros l r. induction l as [|y l IH]; [reflexivity|]. cbn [app find]. now destruct (p y). }
    rewrite !(G (x :: a)). destruct (find p (x :: a)) as [y|] eqn:F; [reflexivity|]. rewrite G. destruct (find p b) as [y|] eqn:Fb; [|reflexivity].
    apply find_some in Fb as [I P]. pose proof (find_none _ _ F y (H y I)). congruence.
Qed.
Theorem C110_repeated parse polars arr : mf_strptime parse 0 polars None arr = mf_strptime parse 0 polars (Some (DATETIME_FORMATS polars ++ TIME_FORMATS polars)) arr.
Proof.
  rewrite !C49_exact. cbv zeta.
  assert (E : map (first_usable parse (default_formats polars)) arr = map (first_usable parse (DATETIME_FORMATS polars ++ TIME_FORMATS polars)) arr).
  { apply map_ext. intros [t|]; [|reflexivity]. cbn [first_usable]. unfold first_match, default_formats. rewrite find_app_dup; [reflexivity|].
    intros d D. unfold DATETIME_FORMATS. apply in_flat_map. exists d. split; [exact D|]. apply in_or_app. right. now left. }
  rewrite E. destruct (DATETIME_FORMATS polars ++ TIME_FORMATS polars) as [|f r] eqn:L; [now destruct polars|reflexivity].
Qed.
Print Assumptions C110_repeated.
(** "02/03/20" under a parser that knows both layouts of the year: the four digits win where they
    fit; a text that fits none raises. *)
Definition ex_years (f t : str) : option Z :=
  if str_eqb f (s "%d/%m/%y") then Some 1583107200000
  else if str_eqb f (s "%d/%m/%Y") && str_eqb t (s "02/03/0020") then Some 7
  else if str_eqb f (s "%R") && str_eqb t (s "nothing") then Some 0 else None.
Example C110_example :
  mf_strptime ex_years 0 false None [Some (s "02/03/20"); Some (s "02/03/0020")] = Ok [1583107200000; 7] /\
  mf_strptime (fun f t => if str_eqb t (s "nothing") then None else ex_years f t) 0 true None [Some (s "nothing")] = Err ArrowInvalid /\
  default_form true (s "%d.%m.%yT%I:%M %p") /\ ~ default_form false (s "%d.%m.%yT%I:%M %p") /\ ~ default_form true (s "%m/%d/%Y") /\
  sooner (default_formats true) (s "%d/%m/%Y %T") (s "%d/%m/%y %T").
Proof.
  split; [vm_compute; reflexivity|]. split; [vm_compute; reflexivity|]. rewrite <- !C110_which.
  assert (Y : forall f l, mem_str f l = true -> In f l) by (intros f l; apply mem_str_In).
  assert (N : forall f l, mem_str f l = false -> ~ In f l) by (intros f l H I; apply mem_str_In in I; congruence).
  split; [apply Y; vm_compute; reflexivity|]. split; [apply N; vm_compute; reflexivity|]. split; [apply N; vm_compute; reflexivity|]. apply soonerb_ok. vm_compute. reflexivity.
Qed.
