(** Earlier reads of a sheet matter only where dates meet shared strings. *)
From Coq Require Import Sorted ZifyBool ZifyNat.
From Verif Require Import Py PyFacts PyText Cell Casts Chunk ChunkSpec ChunkProofs ChunkWindow ChunkRun ChunkClosed ChunkConcat ReadSpec ReadProofs ReadState
  PropsChunk Utf8 Series SeriesSpec SeriesProofs PropsSeries Reader ReaderSpec ReaderProofs ReaderSteps ReaderRead PropsRead TableSpec TableProofs TableSteps TableRead.
Set Implicit Arguments. Unset Strict Implicit.

(** [y] is [x], or [x] looked up. *)
Definition newer (x y : tag) : Prop := looked_up x = looked_up y /\ (t_raw y = true -> t_raw x = true).
Definition newers := Forall2 (Forall2 newer).
Lemma newer_refl x : newer x x. Proof. now split. Qed.
Lemma newer_trans x y z : newer x y -> newer y z -> newer x z.
Proof. intros [A B] [C D]. split; [congruence|auto]. Qed.
Lemma F2_refl A (R : A -> A -> Prop) (H : forall x, R x x) l : Forall2 R l l.
Proof. induction l; constructor; auto. Qed.
Lemma F2_len A B (R : A -> B -> Prop) l m : Forall2 R l m -> List.length l = List.length m.
Proof. induction 1; cbn; congruence. Qed.
Lemma F2_trans A (R : A -> A -> Prop) (H : forall x y z, R x y -> R y z -> R x z) l m : Forall2 R l m -> forall n, Forall2 R m n -> Forall2 R l n.
Proof. induction 1; intros n N; inversion N; subst; constructor; eauto. Qed.
Lemma keep_newer A (R : A -> A -> Prop) f l m : Forall2 R l m -> forall row, Forall2 R (keep_rows row l f) (keep_rows row m f).
Proof. induction 1; intro row; cbn [keep_rows]; [constructor|]. destruct (f row); [constructor|]; auto. Qed.
Lemma pieces_newer A (R : A -> A -> Prop) f rs rs' : Forall2 (Forall2 R) rs rs' -> forall row, Forall2 (Forall2 R) (pieces row rs f) (pieces row rs' f).
Proof.
  induction 1 as [|r r' rs rs' H F IH]; intro row; cbn [pieces]; [constructor|]. rewrite (F2_len H). pose proof (keep_newer f H row) as K.
  destruct K; [apply IH|]. constructor; [now constructor|apply IH].
Qed.
Lemma skipn_newer A (R : A -> A -> Prop) l m : Forall2 R l m -> forall n, Forall2 R (skipn n l) (skipn n m).
Proof. induction 1; intros [|n]; cbn [skipn]; try constructor; auto. Qed.
Lemma firstn_newer A (R : A -> A -> Prop) l m : Forall2 R l m -> forall n, Forall2 R (firstn n l) (firstn n m).
Proof. induction 1; intros [|n]; cbn [firstn]; constructor; auto. Qed.
Lemma rest_newer A (R : A -> A -> Prop) rs rs' : Forall2 (Forall2 R) rs rs' -> forall row, Forall2 R (rest_of_run row rs) (rest_of_run row rs').
Proof.
  induction 1 as [|r r' rs rs' H F IH]; intro row; cbn [rest_of_run]; [constructor|]. rewrite (F2_len H). destruct (row <? List.length r')%nat; [now apply skipn_newer|apply IH].
Qed.
Lemma chosen_newer rs rs' off len idx : newers rs rs' -> newers (chosen_runs rs off len idx) (chosen_runs rs' off len idx).
Proof.
  intro H. unfold chosen_runs. destruct (odd_request off len idx); cbv zeta.
  - pose proof (rest_newer H (Z.to_nat (Z.max 0 off))) as R. rewrite (Forall2_zlen R). pose proof (firstn_newer R (Z.to_nat (zlen (rest_of_run (Z.to_nat (Z.max 0 off)) rs') + len))) as F.
    unfold newers, some_run. destruct F; constructor; [now constructor|constructor].
  - apply pieces_newer. apply Forall2_app; [exact H|]. constructor; [|constructor]. apply F2_refl, newer_refl.
Qed.
Lemma after_newer rs off len : forall row, newers rs (runs_after row rs off len).
Proof.
  induction rs as [|r rs IH]; intro row; cbn [runs_after]; [constructor|]. constructor; [|apply IH]. destruct (covered off len row (row + zlen r)); [|apply F2_refl, newer_refl].
  induction r as [|x r IHr]; cbn [map]; [constructor|]. constructor; [|exact IHr]. split; [reflexivity|easy].
Qed.
Lemma newer_map A (f : tag -> A) l m : (forall x y, newer x y -> f x = f y) -> Forall2 newer l m -> map f l = map f m.
Proof. intro H. induction 1 as [|x y l m A1 A2 IH]; [reflexivity|]. cbn [map]. now rewrite (H x y A1), IH. Qed.
Lemma newer_all (f : tag -> bool) l m : (forall x y, newer x y -> f x = f y) -> Forall2 newer l m -> forallb f l = forallb f m.
Proof. intro H. induction 1 as [|x y l m A1 A2 IH]; [reflexivity|]. cbn [forallb]. now rewrite (H x y A1), IH. Qed.
Lemma newer_some (f : tag -> bool) l m : (forall x y, newer x y -> f x = f y) -> Forall2 newer l m -> existsb f l = existsb f m.
Proof. intro H. induction 1 as [|x y l m A1 A2 IH]; [reflexivity|]. cbn [existsb]. now rewrite (H x y A1), IH. Qed.
Lemma newer_val x y : newer x y -> t_val x = t_val y.
Proof. intros [H _]. now injection H. Qed.
Lemma newer_kind x y : newer x y -> t_kind x = t_kind y.
Proof. intros [H _]. now injection H. Qed.
Lemma newer_concat rs rs' : newers rs rs' -> Forall2 newer (List.concat rs) (List.concat rs').
Proof. induction 1; cbn [List.concat]; [constructor|]. now apply Forall2_app. Qed.
Lemma newers_all (f : list tag -> bool) rs rs' : (forall r r', Forall2 newer r r' -> f r = f r') -> newers rs rs' -> forallb f rs = forallb f rs'.
Proof. intro H. induction 1 as [|x y l m A1 A2 IH]; [reflexivity|]. cbn [forallb]. now rewrite (H x y A1), IH. Qed.
Lemma newers_flat A (f : list tag -> list A) rs rs' : (forall r r', Forall2 newer r r' -> f r = f r') -> newers rs rs' -> flat_map f rs = flat_map f rs'.
Proof. intro H. induction 1 as [|x y l m A1 A2 IH]; [reflexivity|]. cbn [flat_map]. now rewrite (H x y A1), IH. Qed.

Section Values.
  Context (o : oracle) (cf : conf).
  Lemma kind_newer k l m : Forall2 newer l m -> some_kind k l = some_kind k m.
  Proof. apply newer_some. intros x y H. now rewrite (newer_kind H). Qed.
  Lemma numeric_newer l m : Forall2 newer l m -> numeric o l = numeric o m.
  Proof. apply newer_all. intros x y H. unfold has_number. now rewrite (newer_val H). Qed.
  Lemma dated_newer l m : Forall2 newer l m -> dated o cf l = dated o cf m.
  Proof. apply newer_all. intros x y H. now rewrite (newer_val H). Qed.
  Lemma vals_newer l m : Forall2 newer l m -> map (@t_val) l = map (@t_val) m.
  Proof. apply newer_map. intros x y H. exact (newer_val H). Qed.
  Lemma dates_newer r r' : Forall2 newer r r' -> to_dates o cf r = to_dates o cf r'.
  Proof.
    intro H. unfold to_dates, is_str. rewrite (kind_newer _ H), (dated_newer H), (numeric_newer H), (vals_newer H).
    destruct (some_kind KStr r'); [destruct (dated o cf r'); [|destruct (cf_numerics cf && numeric o r'); [|reflexivity]]|]; apply (newer_map (m := r')); try exact H;
      intros x y X; unfold number_in; now rewrite (newer_val X).
  Qed.
  Lemma numbers_newer rs rs' : newers rs rs' -> to_numbers o rs = to_numbers o rs'.
  Proof.
    induction 1 as [|r r' rs rs' H F IH]; [reflexivity|]. cbn [to_numbers]. unfold is_str. rewrite (kind_newer _ H), (numeric_newer H), IH, (vals_newer H).
    assert (E : map (ReadSpec.number_in o) r = map (ReadSpec.number_in o) r') by (apply newer_map; [|exact H]; intros x y X; unfold ReadSpec.number_in; now rewrite (newer_val X)). rewrite E.
    cbn [flat_map]. rewrite (vals_newer H), (@newers_flat _ (map (@t_val)) rs rs'); [reflexivity|intros; now apply vals_newer|exact F].
  Qed.
  Lemma cells_newer rs rs' : newers rs rs' -> expected_cells o cf rs = expected_cells o cf rs'.
  Proof.
    intro H. pose proof (newer_concat H) as C. unfold expected_cells, number_type. rewrite !(kind_newer _ C), (vals_newer C), (numbers_newer H).
    rewrite (@newers_flat _ (to_dates o cf) rs rs') by (try exact H; intros; now apply dates_newer).
    rewrite (@newers_all (datable o cf) rs rs') by (try exact H; intros r r' R; unfold datable, is_str; now rewrite (kind_newer _ R), (dated_newer R), (numeric_newer R)).
    rewrite (@newers_all (fun r => negb (is_str r) || numeric o r) rs rs') by (try exact H; intros r r' R; unfold is_str; now rewrite (kind_newer _ R), (numeric_newer R)).
    assert (I : integral o cf (List.concat rs) = integral o cf (List.concat rs')).
    { apply newer_all; [|exact C]. intros x y X. unfold num_of. now rewrite (newer_kind X), (newer_val X). }
    now rewrite I.
  Qed.
  Lemma raw_newer l m : Forall2 newer l m -> some_raw m = true -> some_raw l = true.
  Proof. induction 1 as [|x y l m [_ A] F IH]; [easy|]. cbn. destruct (t_raw y); [now rewrite A|]. destruct (t_raw x); [reflexivity|exact IH]. Qed.
  Lemma expected_newer rs rs' : newers rs rs' -> (cf_datetime cf = true /\ expected o cf rs = Err ArrowNotImplemented) \/ expected o cf rs' = expected o cf rs.
  Proof.
    intro H. pose proof (newer_concat H) as C. pose proof (cells_newer H) as E. unfold expected. destruct H as [|r r' rs rs' R H]; [now right|].
    rewrite <- (kind_newer KTemp C), <- E. destruct (cf_datetime cf); [|now right]. destruct (some_kind KTemp _); [|now right]. cbn [andb].
    destruct (some_raw (List.concat (r :: rs))) eqn:S; [now left|]. right. destruct (some_raw (List.concat (r' :: rs'))) eqn:S'; [|reflexivity]. apply (raw_newer C) in S'. congruence.
  Qed.
End Values.

Section Fresh.
  Context (ro : roracle) (sc : sconf) (l : list cell).
  Local Notation o := (ro_o ro).
  Local Notation cf := (sc_conf sc).
  Lemma now_newer h k : newers (sheet_runs ro sc l k) (now ro sc l h k).
  Proof.
    unfold now. generalize (sheet_runs ro sc l k) as rs. induction h as [|w h IH]; intro rs; cbn [fold_left]; [apply F2_refl; intro; apply F2_refl, newer_refl|].
    destruct (mem_Z k (fst w)); [|apply IH]. eapply F2_trans; [|apply after_newer|apply IH]. intros x y z X Y. exact (F2_trans newer_trans X Y).
  Qed.
  Lemma array_fresh h k off len idx : (cf_datetime cf = true /\ array_at ro sc l [] k off len idx = Err ArrowNotImplemented) \/ array_at ro sc l h k off len idx = array_at ro sc l [] k off len idx.
  Proof. unfold array_at. apply expected_newer. apply chosen_newer, now_newer. Qed.
  (** [b] is [a], unless [a] is that error. *)
  Definition or_same {A} (a b : res A) : Prop := (cf_datetime cf = true /\ a = Err ArrowNotImplemented) \/ b = a.
  Lemma same_bind A B (a b : res A) (f g : A -> res B) : or_same a b -> (forall x, or_same (f x) (g x)) -> or_same (bind a f) (bind b g).
  Proof. intros [[D ->]| ->] H; [left; now split|]. destruct a as [x|e]; [apply H|now right]. Qed.
  Lemma same_refl A (a : res A) : or_same a a. Proof. now right. Qed.
  Lemma same_mapM A B (f g : A -> res B) l0 : (forall x, or_same (f x) (g x)) -> or_same (mapM f l0) (mapM g l0).
  Proof. intro H. induction l0 as [|x l0 IH]; [apply same_refl|]. cbn [mapM]. apply same_bind; [apply H|]. intro y. apply same_bind; [exact IH|]. intro; apply same_refl. Qed.
  Lemma text_fresh h k off len : or_same (text_at ro sc l [] k off len) (text_at ro sc l h k off len).
  Proof. unfold text_at. apply same_bind; [apply array_fresh|intro; apply same_refl]. Qed.
  Definition forget {A B C} (r : res (A * B * C)) : res (A * B) := match r with Ok (a, b, _) => Ok (a, b) | Err e => Err e end.
  Theorem table_fresh op ks n : or_same (fresh_table ro sc l op ks n) (expected_table ro sc l op ks n).
  Proof.
    unfold fresh_table, expected_table. apply same_bind; [apply same_refl|]. intros [top h].
    assert (H : or_same (forget (heading ro sc l op ks top [])) (forget (heading ro sc l op ks top h))).
    { unfold heading. destruct (r_header op) as [z|given]; [|destruct (Nat.eqb _ _); apply same_refl]. destruct (z =? 0); [apply same_refl|].
      destruct (same_mapM ks (fun k => text_fresh h k top z)) as [[D ->]| ->]; [left; now split|]. right. now destruct (mapM _ ks). }
    destruct (heading ro sc l op ks top []) as [[[z1 n1] h1]|e1], (heading ro sc l op ks top h) as [[[z2 n2] h2]|e2]; cbn [bind forget] in *.
    - destruct H as [[_ H]|H]; [discriminate|]. injection H as -> ->.
      apply same_bind; [apply same_refl|]. intro fs. cbv zeta. set (off := z1 + top + r_skip_after op).
      apply same_bind.
      + unfold rows_kept. destruct fs as [|k fs]; [apply same_refl|]. apply same_bind; [|intro; apply same_refl]. apply same_mapM. intro j. apply array_fresh.
      + intro m. apply same_bind; [|intro; apply same_refl]. apply same_mapM. intro j. apply array_fresh.
    - now destruct H as [[_ H]|H].
    - destruct H as [[D H]|H]; [left; split; [exact D|congruence]|discriminate].
    - destruct H as [[D H]|H]; [left; split; [exact D|congruence]|right; congruence].
  Qed.
End Fresh.
