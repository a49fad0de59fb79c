(** Closed forms of [run] over the cells of its runs. *)
From Verif Require Import Py PyFacts PyText Cell Casts Chunk ChunkSpec ChunkProofs ChunkWindow ChunkRun.
From Coq Require Import ZifyBool ZifyNat.
Set Implicit Arguments. Unset Strict Implicit.

Section Closed.
  Context (o : oracle) (cf : conf).
  Local Notation render := (ChunkSpec.render o).
  Local Notation time_of := (ChunkSpec.time_of o cf).
  Local Notation converts := (ChunkSpec.converts o cf).

  (** *** Formats, elementwise *)
  Lemma mf_loop_map fmts : forall (g : option str -> Z) arr,
    let h := fun t => fold_left (fun acc f => if acc =? 0 then strptime1 (o_strptime o) (o_junk o) f t else acc) fmts (g t) in
    mf_loop (o_strptime o) (o_junk o) fmts arr (map g arr)
    = if existsb (fun v => v =? 0) (map h arr) then Err ArrowInvalid else Ok (map h arr).
  Proof.
    assert (K : forall fmts t v, v <> 0 ->
      fold_left (fun acc f => if acc =? 0 then strptime1 (o_strptime o) (o_junk o) f t else acc) fmts v = v).
    { clear. induction fmts as [|f r IH]; intros t v H; [reflexivity|]. cbn. replace (v =? 0) with false by lia. now apply IH. }
    induction fmts as [|f r IH]; intros g arr h.
    - reflexivity.
    - cbn [mf_loop].
      assert (E : map (fun p => if snd p =? 0 then strptime1 (o_strptime o) (o_junk o) f (fst p) else snd p) (combine arr (map g arr))
        = map (fun t => if g t =? 0 then strptime1 (o_strptime o) (o_junk o) f t else g t) arr).
      { clear. induction arr as [|t arr IH]; [reflexivity|]. cbn. now rewrite IH. }
      rewrite E. clear E.
      set (g' := fun t => if g t =? 0 then strptime1 (o_strptime o) (o_junk o) f t else g t).
      assert (Hh : forall t, h t = fold_left (fun acc f => if acc =? 0 then strptime1 (o_strptime o) (o_junk o) f t else acc) r (g' t)) by reflexivity.
      destruct (forallb (fun v => 0 <? v) (map g' arr)) eqn:F.
      + assert (M : map h arr = map g' arr).
        { clear -F K Hh. induction arr as [|t arr IH]; [reflexivity|]. cbn [map forallb] in *. apply andb_prop in F. destruct F as [F1 F2].
          rewrite (IH F2). f_equal. rewrite Hh. apply K. lia. }
        rewrite M. replace (existsb (fun v => v =? 0) (map g' arr)) with false; [reflexivity|].
        symmetry. clear -F. induction (map g' arr) as [|v l IH]; [reflexivity|]. cbn [forallb existsb] in *.
        apply andb_prop in F. destruct F as [F1 F2]. rewrite (IH F2). lia.
      + specialize (IH g' arr). cbn zeta in IH. rewrite IH. 
        reflexivity.
  Qed.
  Lemma strptime_vals_eq l :
    strptime_vals o cf l = if existsb (fun v => time_of v =? 0) l then Err ArrowInvalid else Ok (map time_of l).
  Proof.
    unfold strptime_vals, mf_strptime.
    pose proof (mf_loop_map (formats o cf) (fun _ => 0) (map text_of l)) as H. cbn zeta in H.
    unfold formats in H at 1. rewrite H. rewrite !map_map. unfold time_of.
    assert (E : existsb (fun v => v =? 0) (map (fun v => fold_left (fun acc f => if acc =? 0 then strptime1 (o_strptime o) (o_junk o) f (text_of v) else acc) (formats o cf) 0) l)
      = existsb (fun v => fold_left (fun acc f => if acc =? 0 then strptime1 (o_strptime o) (o_junk o) f (text_of v) else acc) (formats o cf) 0 =? 0) l).
    { clear. induction l as [|v l IH]; [reflexivity|]. cbn [map existsb]. now rewrite IH. }
    now rewrite E.
  Qed.
  Definition isSome {A} (x : option A) : bool := match x with Some _ => true | None => false end.
  Definition num0 (v : cellv) : f8 := match number_of o v with Some x => x | None => o_null_f o end.
  Lemma floats_eq l : floats o l = if forallb (fun v => isSome (number_of o v)) l then Some (map num0 l) else None.
  Proof.
    induction l as [|v l IH]; [reflexivity|]. cbn [floats forallb map]. rewrite IH.
    destruct v as [|t|x|m]; cbn [number_of isSome andb].
    - destruct (forallb _ l); reflexivity.
    - assert (E : forall x, o_parse o t = Some x -> num0 (CText t) = x) by (intros x Hx; unfold num0; cbn; now rewrite Hx).
      destruct (o_parse o t) as [x|]; cbn [isSome andb]; [|reflexivity]. rewrite (E x eq_refl). destruct (forallb _ l); reflexivity.
    - destruct (forallb _ l); reflexivity.
    - destruct (forallb _ l); reflexivity.
  Qed.

  (** *** Runs *)
  Definition wf (d : desc) : Prop :=
    d_kind d = d_cur d /\ forallb (typed (d_cur d)) (d_vals d) = true /\
    (d_raw d = true -> d_cur d = KStr) /\ d_vals d <> [].
  Definition tags (d : desc) : list tag := map (pair (d_kind d, d_raw d)) (d_vals d).
  Definition all_tags (l : list desc) : list tag := flat_map tags l.

  Lemma p_has_tags k l : (forall d, In d l -> wf d) -> p_has k l = some_kind k (all_tags l).
  Proof.
    induction l as [|d l IH]; intro H; [reflexivity|]. unfold all_tags. cbn [p_has existsb flat_map].
    unfold some_kind. rewrite existsb_app. fold (p_has k l). rewrite IH by (intros; apply H; now right).
    destruct (H d) as (_ & _ & _ & H4); [now left|]. f_equal. unfold tags.
    destruct (d_vals d) as [|v r]; [easy|]. clear. cbn [map existsb]. unfold t_kind at 1. cbn [fst].
    destruct (kind_eqb (d_kind d) k) eqn:E; [reflexivity|]. cbn [orb].
    induction r as [|w r IH]; [reflexivity|]. cbn [map existsb]. unfold t_kind at 1. cbn [fst]. rewrite E. exact IH.
  Qed.
  Lemma some_raw_tags l : (forall d, In d l -> wf d) -> existsb d_raw l = some_raw (all_tags l).
  Proof.
    induction l as [|d l IH]; intro H; [reflexivity|]. unfold all_tags. cbn [existsb flat_map].
    unfold some_raw. rewrite existsb_app. rewrite IH by (intros; apply H; now right).
    destruct (H d) as (_ & _ & _ & H4); [now left|]. f_equal. unfold tags.
    destruct (d_vals d) as [|v r]; [easy|]. clear. cbn [map existsb]. unfold t_raw at 1. cbn [fst snd].
    destruct (d_raw d) eqn:E; [reflexivity|]. cbn [orb].
    induction r as [|w r IH]; [reflexivity|]. cbn [map existsb]. unfold t_raw at 1. cbn [fst snd]. exact IH.
  Qed.

  (** Replaced runs. *)
  Definition conv_nums (d : desc) : desc :=
    if kind_eqb (d_kind d) KNum then mkD (d_kind d) KTemp false (map (to_time o) (d_vals d)) else d.
  Definition parses (d : desc) : bool := forallb (fun v => isSome (number_of o v)) (d_vals d).
  Definition by_format (d : desc) : bool := negb (existsb (fun v => time_of v =? 0) (d_vals d)).
  Definition conv_numeric (d : desc) : desc :=
    if kind_eqb (d_kind d) KStr then mkD (d_kind d) KNum false (map CNum (map num0 (d_vals d))) else d.
  Definition conv_temporal (d : desc) : desc :=
    if kind_eqb (d_kind d) KStr then
      if by_format d then mkD (d_kind d) KTemp false (map CTime (map time_of (d_vals d)))
      else if cf_numerics cf then
        if parses d then mkD (d_kind d) KTemp false (map (fun x => CTime (ms_of o x)) (map num0 (d_vals d)))
        else mkD (d_kind d) KStr false (d_vals d)
      else d
    else d.
  Definition fails (d : desc) : bool :=
    kind_eqb (d_kind d) KStr && negb (by_format d) && negb (cf_numerics cf && parses d).

  Lemma pwalk_nums l : pwalk false (p_nums o) l = Ok (map conv_nums l, false).
  Proof.
    induction l as [|d l IH]; [reflexivity|]. cbn [pwalk map]. unfold p_nums at 1, conv_nums at 1.
    destruct (kind_eqb (d_kind d) KNum); cbn [bind andb]; rewrite IH; reflexivity.
  Qed.
  Lemma p_temporal_eq d : p_temporal o cf d
    = if kind_eqb (d_kind d) KStr && d_raw d then Err ArrowNotImplemented else Ok (conv_temporal d, fails d).
  Proof.
    unfold p_temporal, conv_temporal, fails. destruct (kind_eqb (d_kind d) KStr); [|reflexivity]. cbn [andb].
    destruct (d_raw d) eqn:Er; [reflexivity|]. rewrite strptime_vals_eq. unfold by_format.
    destruct (existsb (fun v => time_of v =? 0) (d_vals d)); cbn [negb andb]; [|reflexivity].
    destruct (cf_numerics cf); cbn [andb]; [|reflexivity].
    rewrite floats_eq. fold (parses d). destruct (parses d); reflexivity.
  Qed.
  Lemma pwalk_temporal l : pwalk false (p_temporal o cf) l
    = if existsb (fun d => kind_eqb (d_kind d) KStr && d_raw d) l then Err ArrowNotImplemented
      else Ok (map conv_temporal l, existsb fails l).
  Proof.
    induction l as [|d l IH]; [reflexivity|]. cbn [pwalk map existsb]. rewrite p_temporal_eq.
    destruct (kind_eqb (d_kind d) KStr && d_raw d); cbn [bind orb]; [reflexivity|].
    rewrite andb_false_r, IH. destruct (existsb _ l); reflexivity.
  Qed.
  Lemma p_numeric_eq d : p_numeric o d
    = if kind_eqb (d_kind d) KStr && negb (parses d) then Ok (mkD (d_kind d) KStr false (d_vals d), true) else Ok (conv_numeric d, false).
  Proof.
    unfold p_numeric, conv_numeric. destruct (kind_eqb (d_kind d) KStr); [|reflexivity]. cbn [andb].
    rewrite floats_eq. fold (parses d). destruct (parses d); reflexivity.
  Qed.
  Definition texts_parse (l : list desc) : bool := forallb (fun d => negb (kind_eqb (d_kind d) KStr && negb (parses d))) l.
  Lemma pwalk_numeric l :
    if texts_parse l then pwalk true (p_numeric o) l = Ok (map conv_numeric l, false)
    else exists a d b, l = a ++ d :: b /\ texts_parse a = true /\ kind_eqb (d_kind d) KStr && negb (parses d) = true /\
      pwalk true (p_numeric o) l = Ok (map conv_numeric a ++ mkD (d_kind d) KStr false (d_vals d) :: b, true).
  Proof.
    induction l as [|d l IH]; [reflexivity|]. cbn [texts_parse forallb]. fold (texts_parse l).
    cbn [pwalk map]. rewrite p_numeric_eq.
    destruct (kind_eqb (d_kind d) KStr && negb (parses d)) eqn:E; cbn [negb andb bind].
    - exists [], d, l. repeat split. exact E.
    - destruct (texts_parse l) eqn:T.
      + rewrite IH. reflexivity.
      + destruct IH as (a & d' & b & -> & A2 & A3 & A4). exists (d :: a), d', b. rewrite A4. repeat split; [|exact A3].
        cbn [texts_parse forallb]. fold (texts_parse a). now rewrite E, A2.
  Qed.
  Lemma f8_is_i8_eq l p : f8_is_i8 l p = forallb (fun x => feqb (ftrunc x) (np_round p x)) l.
  Proof.
    unfold f8_is_i8. induction l as [|x l IH]; [reflexivity|]. cbn [existsb forallb]. rewrite negb_orb, negb_involutive. now rewrite IH.
  Qed.
  (** Only numbers left. *)
  Definition only_nums (d : desc) : bool := match d_cur d with KNull | KNum => true | _ => false end.
  Lemma pwalk_integer l : forallb only_nums l = true ->
    exists l', pwalk true (p_integer cf) l
      = Ok (l', negb (forallb (fun d => match d_cur d with KNum => f8_is_i8 (nums_of (d_vals d)) (cf_prec cf) | _ => true end) l)).
  Proof.
    induction l as [|d l IH]; intro H; [exists []; reflexivity|]. cbn [forallb] in H. apply andb_prop in H. destruct H as [H1 H2].
    destruct (IH H2) as (l' & IHe). cbn [pwalk forallb]. unfold p_integer at 1. unfold only_nums in H1.
    destruct (d_cur d); try discriminate H1; cbn [bind andb].
    - rewrite IHe. cbn [bind orb]. eexists. reflexivity.
    - destruct (f8_is_i8 (nums_of (d_vals d)) (cf_prec cf)); cbn [negb andb].
      + rewrite IHe. cbn [bind orb]. eexists. reflexivity.
      + eexists. reflexivity.
  Qed.

  (** *** Delivered values *)
  Lemma mapM_all A B (f : A -> res B) l : (forall x, In x l -> exists y, f x = Ok y) ->
    exists vs, mapM f l = Ok vs /\ Forall2 (fun x y => f x = Ok y) l vs.
  Proof.
    induction l as [|x l IH]; intro H; [exists []; split; [reflexivity|constructor]|].
    destruct (H x) as [y Hy]; [now left|]. destruct IH as (vs & I1 & I2); [intros; apply H; now right|].
    exists (y :: vs). cbn. rewrite Hy, I1. split; [reflexivity|]. now constructor.
  Qed.
  Lemma render_utf8 v : exists a, render TUtf8 v = Ok a.
  Proof. destruct v; eexists; reflexivity. Qed.
  Definition conv_rel (d d' : desc) : Prop := Forall2 converts (tags d) (d_vals d') /\ d_kind d' = d_kind d.
  Lemma conv_rel_flat l l' : Forall2 conv_rel l l' -> Forall2 converts (all_tags l) (flat_map d_vals l').
  Proof.
    induction 1 as [|d d' l l' R F IH]; [constructor|]. unfold all_tags. cbn [flat_map]. apply Forall2_app; [apply R|exact IH].
  Qed.
  Lemma Forall2_map2 A B C (P : A -> B -> Prop) (f : C -> A) (g : C -> B) l :
    (forall x, In x l -> P (f x) (g x)) -> Forall2 P (map f l) (map g l).
  Proof. induction l as [|x l IH]; intro H; constructor; [apply H; now left|apply IH; intros; apply H; now right]. Qed.
  Lemma conv_same d d' : d_kind d' = d_kind d -> d_vals d' = d_vals d -> conv_rel d d'.
  Proof.
    intros K V. split; [|exact K]. rewrite V. unfold tags. rewrite <- (map_id (d_vals d)) at 2.
    apply Forall2_map2. intros v _. apply (@cv_same o cf (d_kind d, d_raw d, v)).
  Qed.
  Lemma kind_ok a b : kind_eqb a b = true -> a = b.
  Proof. now destruct a, b. Qed.
  Lemma typed_in k l v : forallb (typed k) l = true -> In v l -> typed k v = true.
  Proof. intros H I. rewrite forallb_forall in H. now apply H. Qed.
  Lemma conv_nums_rel d : wf d -> cf_datetime cf = true -> conv_rel d (conv_nums d).
  Proof.
    intros (W1 & W2 & _ & _) C. unfold conv_nums. destruct (kind_eqb (d_kind d) KNum) eqn:E; [|now apply conv_same].
    apply kind_ok in E. split; [|reflexivity]. cbn [d_vals]. unfold tags. apply Forall2_map2. intros v Hv.
    rewrite <- W1, E in W2. pose proof (typed_in W2 Hv) as T. destruct v; try discriminate T. rewrite E. now apply cv_num_time.
  Qed.
  Lemma num0_some v : isSome (number_of o v) = true -> number_of o v = Some (num0 v).
  Proof. unfold num0. now destruct (number_of o v). Qed.
  Lemma conv_numeric_rel d : cf_numerics cf = true -> kind_eqb (d_kind d) KStr && negb (parses d) = false ->
    conv_rel d (conv_numeric d).
  Proof.
    intros C P. unfold conv_numeric. destruct (kind_eqb (d_kind d) KStr) eqn:E; [|now apply conv_same].
    apply kind_ok in E. cbn [andb] in P. apply negb_false_iff in P. split; [|reflexivity]. cbn [d_vals].
    unfold tags. rewrite map_map. apply Forall2_map2. intros v Hv. rewrite E. apply cv_text_num; [exact C|].
    apply num0_some. unfold parses in P. rewrite forallb_forall in P. now apply P.
  Qed.
  Lemma conv_temporal_rel d : cf_datetime cf = true -> d_raw d = d_raw d -> conv_rel d (conv_temporal d).
  Proof.
    intros C _. unfold conv_temporal. destruct (kind_eqb (d_kind d) KStr) eqn:E; [|now apply conv_same].
    apply kind_ok in E. destruct (by_format d) eqn:B.
    - split; [|reflexivity]. cbn [d_vals]. unfold tags. rewrite map_map. apply Forall2_map2. intros v Hv. rewrite E.
      apply cv_text_time; [exact C|]. unfold by_format in B. apply negb_true_iff in B.
      intro Z0. assert (existsb (fun v => time_of v =? 0) (d_vals d) = true); [|congruence].
      apply existsb_exists. exists v. split; [exact Hv|lia].
    - destruct (cf_numerics cf) eqn:Cn; [|now apply conv_same]. destruct (parses d) eqn:P; [|now apply conv_same].
      split; [|reflexivity]. cbn [d_vals]. unfold tags. rewrite map_map. apply Forall2_map2. intros v Hv. rewrite E.
      apply cv_text_num_time; [exact C|exact Cn|].
      apply num0_some. unfold parses in P. rewrite forallb_forall in P. now apply P.
  Qed.
  Lemma conv_both_rel d : wf d -> cf_datetime cf = true -> conv_rel d (conv_temporal (conv_nums d)).
  Proof.
    intros W C. unfold conv_nums. destruct (kind_eqb (d_kind d) KNum) eqn:E.
    - unfold conv_temporal. cbn [d_kind]. apply kind_ok in E. rewrite E. cbn [kind_eqb].
      pose proof (conv_nums_rel W C) as R. unfold conv_nums in R. rewrite E in R. exact R.
    - now apply conv_temporal_rel.
  Qed.
  Lemma p_has_conv k l l' : Forall2 conv_rel l l' -> p_has k l' = p_has k l.
  Proof. unfold p_has. induction 1 as [|d d' l l' R F IH]; [reflexivity|]. cbn. destruct R as [_ ->]. now rewrite IH. Qed.
  Lemma conv_nil l l' : Forall2 conv_rel l l' -> l <> [] -> l' <> [].
  Proof. destruct 1; [easy|discriminate]. Qed.
  Lemma Forall2_comp A B C (P : A -> B -> Prop) (Q : B -> C -> Prop) l1 l2 l3 :
    Forall2 P l1 l2 -> Forall2 Q l2 l3 -> Forall2 (fun a c => exists b, P a b /\ Q b c) l1 l3.
  Proof.
    intro H. revert l3. induction H as [|a b l1 l2 R F IH]; intros l3 G; inversion G; subst; constructor.
    - now exists b.
    - now apply IH.
  Qed.
  (** Given a type that suits all converted values, the run succeeds. *)
  Lemma finish_with l l' fb t : l <> [] -> Forall2 conv_rel l l' -> p_type cf l' fb = Ok t ->
    (forall v, In v (flat_map d_vals l') -> exists a, render t v = Ok a) ->
    exists vs, p_finish o cf l' fb = Ok (mkA t vs) /\ Forall2 (delivers o cf t) (all_tags l) vs /\
      mapM (render t) (flat_map d_vals l') = Ok vs.
  Proof.
    intros N R T V. destruct (mapM_all V) as (vs & M1 & M2). exists vs. unfold p_finish. rewrite T. cbn [bind].
    pose proof (conv_nil R N) as N'. split; [|split; [|exact M1]].
    - destruct l' as [|d l']; [easy|]. now rewrite M1.
    - unfold delivers. apply (Forall2_comp (conv_rel_flat R) M2).
  Qed.
  Lemma Forall2_map_r A B (P : A -> B -> Prop) (f : A -> B) l : (forall x, In x l -> P x (f x)) -> Forall2 P l (map f l).
  Proof. intro H. rewrite <- (map_id l) at 1. now apply Forall2_map2. Qed.
  Lemma Forall2_refl_ A (P : A -> A -> Prop) l : (forall x, P x x) -> Forall2 P l l.
  Proof. intro H. induction l; constructor; auto. Qed.

  (** No conversion takes place. *)
  Definition has_T l := some_kind KTemp l.
  Definition has_N l := some_kind KNum l.
  Definition has_S l := some_kind KStr l.
  Definition conflict (l : list tag) : bool :=
    if has_T l then has_N l || has_S l else has_N l && has_S l.
  Definition resolving (l : list tag) : bool :=
    if has_T l then cf_datetime cf && (has_N l || has_S l) else cf_numerics cf && (has_N l && has_S l).
  Definition type_of (l : list tag) : dtype :=
    if conflict l then TUtf8 else if has_T l then TMs
    else if has_N l then (if integral o cf l then TI8 else TF8) else TUtf8.

  Lemma p_has_false k l d : p_has k l = false -> In d l -> kind_eqb (d_kind d) k = false.
  Proof.
    intros H I. unfold p_has in H. destruct (kind_eqb (d_kind d) k) eqn:E; [|reflexivity].
    assert (existsb (fun d => kind_eqb (d_kind d) k) l = true); [|congruence]. apply existsb_exists. now exists d.
  Qed.
  Lemma map_id_in A (f : A -> A) l : (forall x, In x l -> f x = x) -> map f l = l.
  Proof. intro H. induction l as [|x l IH]; [reflexivity|]. cbn. rewrite H by now left. rewrite IH; [reflexivity|]. intros; apply H; now right. Qed.
  Lemma existsb_none A (f : A -> bool) l : (forall x, In x l -> f x = false) -> existsb f l = false.
  Proof. intro H. induction l as [|x l IH]; [reflexivity|]. cbn. rewrite H by now left. apply IH. intros; apply H; now right. Qed.
  Lemma plain_resolve l : (forall d, In d l -> wf d) -> resolving (all_tags l) = false ->
    p_resolve o cf l = Ok (l, conflict (all_tags l)).
  Proof.
    intros W R. unfold p_resolve, conflict. unfold resolving in R. unfold has_T, has_N, has_S in *.
    rewrite <- !p_has_tags in * by exact W. destruct (p_has KTemp l).
    - destruct (cf_datetime cf); [|reflexivity]. cbn [andb] in R. apply orb_false_iff in R. destruct R as [R1 R2].
      rewrite R1, R2. rewrite pwalk_nums. cbn [bind].
      assert (E : map conv_nums l = l).
      { apply map_id_in. intros d Hd. unfold conv_nums. now rewrite (p_has_false R1 Hd). }
      rewrite E, pwalk_temporal.
      rewrite existsb_none by (intros d Hd; now rewrite (p_has_false R2 Hd)).
      rewrite existsb_none by (intros d Hd; unfold fails; now rewrite (p_has_false R2 Hd)).
      rewrite map_id_in; [reflexivity|]. intros d Hd. unfold conv_temporal. now rewrite (p_has_false R2 Hd).
    - destruct (p_has KNum l && p_has KStr l); [|reflexivity]. rewrite andb_true_r in R. now rewrite R.
  Qed.
  Lemma vals_tags l : flat_map d_vals l = map t_val (all_tags l).
  Proof.
    induction l as [|d l IH]; [reflexivity|]. unfold all_tags. cbn [flat_map]. rewrite map_app, IH. f_equal.
    unfold tags. rewrite map_map. symmetry. apply map_id.
  Qed.
  Lemma forallb_flat A B (p : B -> bool) (f : A -> list B) l : forallb p (flat_map f l) = forallb (fun x => forallb p (f x)) l.
  Proof. induction l as [|x l IH]; [reflexivity|]. cbn. now rewrite forallb_app, IH. Qed.
  Lemma forallb_ext_in A (p q : A -> bool) l : (forall x, In x l -> p x = q x) -> forallb p l = forallb q l.
  Proof. intro H. induction l as [|x l IH]; [reflexivity|]. cbn. rewrite H by now left. rewrite IH; [reflexivity|]. intros; apply H; now right. Qed.
  (** A run of numbers is integral. *)
  Lemma integral_nums d : wf d -> d_kind d = KNum ->
    forallb (fun x => match num_of o x with Some x => feqb (ftrunc x) (np_round (cf_prec cf) x) | None => true end) (tags d)
    = f8_is_i8 (nums_of (d_vals d)) (cf_prec cf).
  Proof.
    intros (W1 & W2 & _ & _) K. rewrite f8_is_i8_eq. unfold tags. rewrite forallb_map, K. rewrite <- W1, K in W2. clear -W2.
    induction (d_vals d) as [|v l IH]; [reflexivity|]. cbn [forallb] in *. apply andb_prop in W2. destruct W2 as [W1 W2].
    destruct v; try discriminate W1. change (nums_of (CNum x :: l)) with (x :: nums_of l).
    cbn [forallb]. f_equal. exact (IH W2).
  Qed.
  Lemma integral_nulls d : wf d -> d_kind d = KNull ->
    forallb (fun x => match num_of o x with Some x => feqb (ftrunc x) (np_round (cf_prec cf) x) | None => true end) (tags d) = true.
  Proof.
    intros (W1 & W2 & _ & _) K. unfold tags. rewrite forallb_map, K. rewrite forallb_forall. intros v Hv. reflexivity.
  Qed.
  Lemma renderable_typed k t v : typed k v = true ->
    match k, t with KNull, _ | _, TUtf8 | KTemp, TMs | KNum, (TF8 | TI8) => exists a, render t v = Ok a | _, _ => True end.
  Proof. destruct k, v; try discriminate; intros _; destruct t; try exact I; eexists; reflexivity. Qed.

  Theorem run_plain l : (forall d, In d l -> wf d) -> l <> [] -> resolving (all_tags l) = false ->
    exists vs, p_run o cf l = Ok (mkA (type_of (all_tags l)) vs) /\
      mapM (render (type_of (all_tags l))) (map t_val (all_tags l)) = Ok vs.
  Proof.
    intros W N R. unfold p_run. rewrite plain_resolve by assumption. cbn [bind].
    assert (Ty : p_type cf l (conflict (all_tags l)) = Ok (type_of (all_tags l)) /\
      forall v, In v (flat_map d_vals l) -> exists a, render (type_of (all_tags l)) v = Ok a).
    { unfold p_type, type_of. destruct (conflict (all_tags l)) eqn:C; [split; [reflexivity|intros; apply render_utf8]|].
      unfold conflict, has_T, has_N, has_S in *. rewrite <- !p_has_tags in * by exact W.
      assert (V : forall v, In v (flat_map d_vals l) -> exists d, In d l /\ typed (d_kind d) v = true).
      { intros v Hv. apply in_flat_map in Hv. destruct Hv as (d & D1 & D2). exists d. split; [exact D1|].
        destruct (W d D1) as (W1 & W2 & _). rewrite W1. now apply (typed_in W2). }
      destruct (p_has KTemp l) eqn:T.
      - split; [reflexivity|]. apply orb_false_iff in C. destruct C as [C1 C2]. intros v Hv.
        destruct (V v Hv) as (d & D1 & D2). pose proof (@renderable_typed (d_kind d) TMs v D2) as Rn.
        pose proof (p_has_false C1 D1). pose proof (p_has_false C2 D1). destruct (d_kind d); try discriminate; exact Rn.
      - destruct (p_has KNum l) eqn:Nn; [|split; [reflexivity|intros; apply render_utf8]].
        cbn [andb] in C.
        assert (On : forallb only_nums l = true).
        { apply forallb_forall. intros d Hd. unfold only_nums. destruct (W d Hd) as (<- & _).
          pose proof (p_has_false T Hd). pose proof (p_has_false C Hd). now destruct (d_kind d). }
        destruct (pwalk_integer On) as (l' & ->). cbn [bind].
        assert (I : integral o cf (all_tags l) = forallb (fun d => match d_cur d with KNum => f8_is_i8 (nums_of (d_vals d)) (cf_prec cf) | _ => true end) l).
        { unfold integral, all_tags. rewrite forallb_flat. apply forallb_ext_in. intros d Hd.
          pose proof (p_has_false T Hd) as K1. pose proof (p_has_false C Hd) as K2. pose proof (W d Hd) as Wd.
          destruct (Wd) as (W1 & _). rewrite <- W1. destruct (d_kind d) eqn:K; try discriminate.
          - now apply integral_nulls.
          - now apply integral_nums. }
        rewrite I. match goal with |- context [negb ?b] => clear I; set (ii := b); clearbody ii end. split; [now destruct ii|]. intros v Hv.
        destruct (V v Hv) as (d & D1 & D2). pose proof (p_has_false T D1). pose proof (p_has_false C D1).
        destruct ii; [pose proof (@renderable_typed (d_kind d) TI8 v D2) as Rn|pose proof (@renderable_typed (d_kind d) TF8 v D2) as Rn];
          destruct (d_kind d); try discriminate; exact Rn. }
    destruct Ty as [Ty1 Ty2].
    destruct (@finish_with l l (conflict (all_tags l)) (type_of (all_tags l)) N) as (vs & F1 & F2 & F3); try assumption.
    { apply Forall2_refl_. intro d. now apply conv_same. }
    exists vs. split; [exact F1|]. now rewrite <- vals_tags.
  Qed.

  (** Conversions to numbers. *)
  Definition all_parse (l : list tag) : bool :=
    forallb (fun x => if kind_eqb (t_kind x) KStr then isSome (number_of o (t_val x)) else true) l.
  Lemma all_parse_tags l : texts_parse l = all_parse (all_tags l).
  Proof.
    unfold texts_parse, all_parse, all_tags. rewrite forallb_flat. apply forallb_ext_in. intros d _.
    unfold tags. rewrite forallb_map. unfold t_kind, t_val. cbn [fst snd]. rewrite negb_andb, negb_involutive. unfold parses.
    destruct (kind_eqb (d_kind d) KStr); cbn [negb orb]; [reflexivity|]. symmetry. now apply forallb_true.
  Qed.
  Theorem run_numeric l : (forall d, In d l -> wf d) -> l <> [] ->
    has_T (all_tags l) = false -> has_N (all_tags l) = true -> has_S (all_tags l) = true -> cf_numerics cf = true ->
    exists vs, let t := if all_parse (all_tags l) then (if integral o cf (all_tags l) then TI8 else TF8) else TUtf8 in
      p_run o cf l = Ok (mkA t vs) /\ Forall2 (delivers o cf t) (all_tags l) vs.
  Proof.
    intros W Ne T N S C. unfold has_T, has_N, has_S in *. rewrite <- !p_has_tags in T, N, S by exact W.
    unfold p_run, p_resolve. rewrite T, N, S, C. cbn [andb]. rewrite <- all_parse_tags. pose proof (pwalk_numeric l) as P.
    destruct (texts_parse l) eqn:Tp.
    - rewrite P. cbn [bind].
      assert (R : Forall2 conv_rel l (map conv_numeric l)).
      { apply Forall2_map_r. intros d Hd. apply conv_numeric_rel; [exact C|]. unfold texts_parse in Tp. rewrite forallb_forall in Tp.
        specialize (Tp d Hd). now apply negb_true_iff in Tp. }
      assert (On : forallb only_nums (map conv_numeric l) = true).
      { rewrite forallb_map. apply forallb_forall. intros d Hd. unfold only_nums, conv_numeric.
        pose proof (p_has_false T Hd) as K. destruct (W d Hd) as (W1 & _).
        destruct (kind_eqb (d_kind d) KStr) eqn:E; [reflexivity|]. rewrite <- W1. now destruct (d_kind d). }
      assert (Ty : p_type cf (map conv_numeric l) false = Ok (if integral o cf (all_tags l) then TI8 else TF8)).
      { unfold p_type. rewrite !(p_has_conv _ R), T, N. destruct (pwalk_integer On) as (l' & ->). cbn [bind]. f_equal.
        assert (I : forallb (fun d => match d_cur d with KNum => f8_is_i8 (nums_of (d_vals d)) (cf_prec cf) | _ => true end) (map conv_numeric l)
          = integral o cf (all_tags l)).
        { unfold integral, all_tags. rewrite forallb_flat, forallb_map. apply forallb_ext_in. intros d Hd.
          pose proof (W d Hd) as Wd. pose proof (p_has_false T Hd) as K1. unfold conv_numeric.
          destruct (kind_eqb (d_kind d) KStr) eqn:E.
          - apply kind_ok in E. cbn [d_cur d_vals]. rewrite nums_of_map, f8_is_i8_eq, forallb_map. unfold tags. rewrite forallb_map, E.
            apply forallb_ext_in. intros v Hv. unfold num_of, t_kind, t_val. cbn [fst snd].
            unfold texts_parse in Tp. rewrite forallb_forall in Tp. specialize (Tp d Hd). rewrite E in Tp. cbn [kind_eqb andb] in Tp.
            rewrite negb_involutive in Tp. unfold parses in Tp. rewrite forallb_forall in Tp. now rewrite (num0_some (Tp v Hv)).
          - destruct Wd as (W1 & W2). rewrite <- W1. destruct (d_kind d) eqn:K; try discriminate; symmetry.
            + apply integral_nulls; [exact (W d Hd)|exact K].
            + apply integral_nums; [exact (W d Hd)|exact K]. }
        rewrite I. now destruct (integral o cf (all_tags l)). }
      set (t := if integral o cf (all_tags l) then TI8 else TF8) in *.
      destruct (@finish_with l (map conv_numeric l) false t Ne R Ty) as (vs & F1 & F2 & _).
      { intros v Hv. apply in_flat_map in Hv. destruct Hv as (d' & D1 & D2). apply in_map_iff in D1. destruct D1 as (d & <- & Hd).
        assert (Q : v = CNull \/ exists x, v = CNum x).
        { pose proof (W d Hd) as (W1 & W2 & _). pose proof (p_has_false T Hd) as K. unfold conv_numeric in D2.
          destruct (kind_eqb (d_kind d) KStr) eqn:E.
          - cbn [d_vals] in D2. apply in_map_iff in D2. destruct D2 as (x & <- & _). right. now exists x.
          - pose proof (typed_in W2 D2) as Tv. rewrite <- W1 in Tv. destruct (d_kind d); try discriminate; destruct v; try discriminate Tv; eauto. }
        unfold t. destruct Q as [-> | [x ->]]; destruct (integral o cf (all_tags l)); eexists; reflexivity. }
      exists vs. now split.
    - destruct P as (a & d & b & El & P2 & P3 & P4). rewrite P4. cbn [bind].
      assert (R : Forall2 conv_rel l (map conv_numeric a ++ mkD (d_kind d) KStr false (d_vals d) :: b)).
      { rewrite El. apply Forall2_app.
        - apply Forall2_map_r. intros e He. apply conv_numeric_rel; [exact C|]. unfold texts_parse in P2. rewrite forallb_forall in P2.
          specialize (P2 e He). now apply negb_true_iff in P2.
        - constructor; [now apply conv_same|]. apply Forall2_refl_. intro. now apply conv_same. }
      destruct (@finish_with l _ true TUtf8 Ne R eq_refl) as (vs & F1 & F2 & _); [intros; apply render_utf8|].
      exists vs. now split.
  Qed.

  (** Conversions to times. *)
  Lemma fails_conv l : (forall d, In d l -> wf d) -> existsb fails (map conv_nums l) = existsb fails l.
  Proof.
    intro W. induction l as [|d l IH]; [reflexivity|]. cbn [map existsb]. rewrite IH by (intros; apply W; now right). f_equal.
    unfold fails, conv_nums. destruct (kind_eqb (d_kind d) KNum) eqn:E; [|reflexivity]. cbn [d_kind]. apply kind_ok in E. now rewrite E.
  Qed.
  Theorem run_temporal l : (forall d, In d l -> wf d) -> l <> [] -> has_T (all_tags l) = true -> cf_datetime cf = true ->
    if some_raw (all_tags l) then p_run o cf l = Err ArrowNotImplemented
    else exists vs, let t := if existsb fails l then TUtf8 else TMs in
      p_run o cf l = Ok (mkA t vs) /\ Forall2 (delivers o cf t) (all_tags l) vs.
  Proof.
    intros W Ne T C. unfold has_T in T. rewrite <- p_has_tags in T by exact W.
    unfold p_run, p_resolve. rewrite T, C, pwalk_nums. cbn [bind]. rewrite pwalk_temporal, fails_conv by exact W.
    assert (Er : existsb (fun d => kind_eqb (d_kind d) KStr && d_raw d) (map conv_nums l) = some_raw (all_tags l)).
    { rewrite <- some_raw_tags by exact W. clear Ne T. induction l as [|d l IH]; [reflexivity|]. cbn [map existsb].
      rewrite IH by (intros; apply W; now right). f_equal. destruct (W d) as (W1 & _ & W3 & _); [now left|].
      unfold conv_nums. destruct (kind_eqb (d_kind d) KNum) eqn:E.
      - cbn [d_kind d_raw]. rewrite andb_false_r. destruct (d_raw d); [|reflexivity]. apply kind_ok in E. rewrite <- W1 in W3. rewrite (W3 eq_refl) in E. discriminate.
      - destruct (d_raw d); [|apply andb_false_r]. rewrite W1, (W3 eq_refl). reflexivity. }
    rewrite Er. destruct (some_raw (all_tags l)); [reflexivity|]. cbn [bind].
    rewrite map_map.
    assert (R : Forall2 conv_rel l (map (fun d => conv_temporal (conv_nums d)) l)).
    { apply Forall2_map_r. intros d Hd. apply conv_both_rel; [now apply W|exact C]. }
    destruct (existsb fails l) eqn:F.
    - destruct (@finish_with l _ true TUtf8 Ne R eq_refl) as (vs & F1 & F2 & _); [intros; apply render_utf8|].
      exists vs. now split.
    - destruct (@finish_with l _ false TMs Ne R) as (vs & F1 & F2 & _).
      + unfold p_type. now rewrite (p_has_conv _ R), T.
      + intros v Hv. apply in_flat_map in Hv. destruct Hv as (d' & D1 & D2). apply in_map_iff in D1. destruct D1 as (d & <- & Hd).
        assert (Q : v = CNull \/ exists m, v = CTime m).
        { pose proof (W d Hd) as (W1 & W2 & _).
          assert (Fd : fails d = false).
          { destruct (fails d) eqn:Fd; [|reflexivity]. assert (existsb fails l = true); [|congruence]. apply existsb_exists. now exists d. }
          unfold conv_nums in D2. destruct (kind_eqb (d_kind d) KNum) eqn:E.
          - apply kind_ok in E. unfold conv_temporal in D2. cbn [d_kind] in D2. rewrite E in D2. cbn [kind_eqb d_vals] in D2.
            apply in_map_iff in D2. destruct D2 as (w & <- & Hw). pose proof (typed_in W2 Hw) as Tv. rewrite <- W1, E in Tv.
            destruct w; try discriminate Tv. right. cbn. eauto.
          - unfold conv_temporal in D2. unfold fails in Fd. destruct (kind_eqb (d_kind d) KStr) eqn:E2.
            + cbn [andb] in Fd. destruct (by_format d).
              * cbn [d_vals] in D2. apply in_map_iff in D2. destruct D2 as (x & <- & _). eauto.
              * cbn [negb andb] in Fd. apply negb_false_iff, andb_prop in Fd. destruct Fd as [Fd1 Fd2]. rewrite Fd1, Fd2 in D2.
                cbn [d_vals] in D2. apply in_map_iff in D2. destruct D2 as (x & <- & _). eauto.
            + pose proof (typed_in W2 D2) as Tv. rewrite <- W1 in Tv. destruct (d_kind d); try discriminate; destruct v; try discriminate Tv; eauto. }
        destruct Q as [-> | [x ->]]; eexists; reflexivity.
      + exists vs. now split.
  Qed.
  (** A run of texts converts if all texts match a format, and fails if one text matches
      neither a format nor a number. *)
  Lemma fails_sufficient l : (forall d, In d l -> wf d) ->
    (forallb (fun x => if kind_eqb (t_kind x) KStr then negb (time_of (t_val x) =? 0) else true) (all_tags l) = true ->
     existsb fails l = false) /\
    (existsb (fun x => kind_eqb (t_kind x) KStr && (time_of (t_val x) =? 0) &&
                       negb (cf_numerics cf && isSome (number_of o (t_val x)))) (all_tags l) = true ->
     existsb fails l = true).
  Proof.
    intro W. split.
    - intro H. apply existsb_none. intros d Hd. unfold fails. destruct (kind_eqb (d_kind d) KStr) eqn:E; [|reflexivity]. cbn [andb].
      assert (B : by_format d = true); [|now rewrite B]. unfold by_format. apply negb_true_iff, existsb_none. intros v Hv.
      rewrite forallb_forall in H. specialize (H (d_kind d, d_raw d, v)). unfold t_kind, t_val in H. cbn [fst snd] in H. rewrite E in H.
      apply negb_true_iff, H. unfold all_tags. apply in_flat_map. exists d. split; [exact Hd|]. unfold tags. now apply in_map.
    - intro H. apply existsb_exists in H. destruct H as (x & H1 & H2). unfold all_tags in H1. apply in_flat_map in H1.
      destruct H1 as (d & Hd & H1). unfold tags in H1. apply in_map_iff in H1. destruct H1 as (v & <- & Hv).
      unfold t_kind, t_val in H2. cbn [fst snd] in H2. apply andb_prop in H2. destruct H2 as [H2 H3]. apply andb_prop in H2. destruct H2 as [H2 H4].
      apply existsb_exists. exists d. split; [exact Hd|]. unfold fails. rewrite H2. cbn [andb].
      assert (B : by_format d = false).
      { unfold by_format. apply negb_false_iff, existsb_exists. exists v. now split. }
      rewrite B. cbn [negb andb]. destruct (cf_numerics cf); [|reflexivity]. cbn [andb] in *.
      unfold parses. apply negb_true_iff. apply negb_true_iff in H3.
      destruct (forallb (fun v => isSome (number_of o v)) (d_vals d)) eqn:F; [|reflexivity].
      rewrite forallb_forall in F. rewrite (F v Hv) in H3. discriminate.
  Qed.
End Closed.
