(** Where [Undefined] can come from: only a shared string index outside the table. *)
From Verif Require Import Py PyFacts PyText Cell Casts Chunk ChunkSpec ChunkProofs ChunkRun ChunkClosed Series Reader.
From Coq Require Import ZifyBool ZifyNat.
Set Implicit Arguments. Unset Strict Implicit.

Definition defined {A} (r : res A) : Prop := r <> Err Undefined.
Lemma defined_ok A (a : A) : defined (Ok a).
Proof. discriminate. Qed.
Lemma defined_err A e : e <> Undefined -> @defined A (Err e).
Proof. intros H E. now injection E. Qed.
Lemma defined_bind A B (r : res A) (f : A -> res B) : defined r -> (forall a, r = Ok a -> defined (f a)) -> defined (bind r f).
Proof. unfold defined. destruct r as [a|e]; cbn; [intros _ H; now apply H|]. intros H _ E. apply H. injection E as ->. reflexivity. Qed.
Lemma defined_mapM A B (f : A -> res B) l : (forall x, In x l -> defined (f x)) -> defined (mapM f l).
Proof.
  induction l as [|x l IH]; intro H; cbn [mapM]; [apply defined_ok|].
  apply defined_bind; [apply H; now left|]. intros y _. apply defined_bind; [apply IH; intros; apply H; now right|]. intros; apply defined_ok.
Qed.

(** *** Reads of chunks *)
Section Runs.
  Context (o : oracle) (cf : conf).
  Local Notation render := (ChunkSpec.render o).

  Definition sane (d : desc) : Prop := d_cur d = d_kind d /\ forallb (typed (d_kind d)) (d_vals d) = true.
  Lemma desc_sane c : shape c = true -> sane (desc_of o c).
  Proof. intro H. split; [reflexivity|]. now apply den_typed. Qed.

  (** Values after the conversions that ended without a fallback. *)
  Definition fits_kind (k : kind) (d : desc) : Prop :=
    (d_cur d = KNull \/ d_cur d = k) /\ forall v, In v (d_vals d) -> v = CNull \/ typed k v = true.
  Lemma typed_null_ v : typed KNull v = true -> v = CNull.
  Proof. now destruct v. Qed.
  Lemma sane_fits d k : sane d -> d_kind d = KNull \/ d_kind d = k -> fits_kind k d.
  Proof.
    intros [C T] H. split; [now rewrite C|]. intros v I. pose proof (typed_in T I) as E.
    destruct H as [H|H]; rewrite H in E; [left; now apply typed_null_|now right].
  Qed.
  Definition type_for (k : kind) (t : dtype) : Prop :=
    match k with KStr => t = TUtf8 | KTemp => t = TMs | KNum => t = TF8 \/ t = TI8 | KNull => True end.
  Lemma render_fits k t v : k <> KNull -> type_for k t -> v = CNull \/ typed k v = true -> defined (render t v).
  Proof.
    intros N T [->|E]; [destruct t; apply defined_ok|].
    destruct k; [easy| | |]; destruct v; try discriminate; cbn in T.
    all: try (subst t); try destruct T as [-> | ->]; apply defined_ok.
  Qed.
  Lemma render_text v : defined (render TUtf8 v).
  Proof. destruct v; apply defined_ok. Qed.

  Lemma pwalk_all stop g l l' b (P : desc -> Prop) : pwalk stop g l = Ok (l', b) -> stop && b = false ->
    (forall d d' c, In d l -> g d = Ok (d', c) -> (c = true -> b = true) -> P d') -> forall d, In d l' -> P d.
  Proof.
    revert l' b. induction l as [|d r IH]; intros l' b; cbn [pwalk]; [intros [= <- <-] _ _ x []|].
    destruct (g d) as [[d' c]|e] eqn:G; cbn [bind]; [|discriminate].
    destruct (c && stop) eqn:S.
    - intros [= <- <-] H. destruct stop; [discriminate|now rewrite andb_false_r in S].
    - destruct (pwalk stop g r) as [[r' c']|e] eqn:W; cbn [bind]; [|discriminate]. intros [= <- <-] H K x [<-|I].
      + apply (K d d' c); [now left|exact G|]. intros ->. reflexivity.
      + apply (IH r' c' eq_refl); [destruct stop; [|reflexivity]; destruct c'; [now rewrite orb_true_r in H|reflexivity]| |exact I].
        intros y y' cy Iy Gy Hy. apply (K y y' cy); [now right|exact Gy|]. intro E. rewrite (Hy E). apply orb_true_r.
  Qed.
  Lemma pwalk_has k stop g l l' b : (forall d d' c, g d = Ok (d', c) -> d_kind d' = d_kind d) ->
    pwalk stop g l = Ok (l', b) -> p_has k l' = p_has k l.
  Proof.
    intro K. revert l' b. induction l as [|d r IH]; intros l' b; cbn [pwalk]; [now intros [= <- <-]|].
    destruct (g d) as [[d' c]|e] eqn:G; cbn [bind]; [|discriminate]. apply K in G.
    destruct (c && stop); [intros [= <- <-]; cbn; now rewrite G|].
    destruct (pwalk stop g r) as [[r' c']|e]; cbn [bind]; [|discriminate]. intros [= <- <-].
    unfold p_has in *. cbn [existsb]. rewrite G. f_equal. now apply (IH r' c').
  Qed.
  Lemma pwalk_err stop g l e : pwalk stop g l = Err e -> exists d, In d l /\ g d = Err e.
  Proof.
    induction l as [|d r IH]; cbn [pwalk]; [discriminate|].
    destruct (g d) as [[d' c]|e'] eqn:G; cbn [bind]; [|intros [= <-]; exists d; split; [now left|exact G]].
    destruct (c && stop); [discriminate|].
    destruct (pwalk stop g r) as [[r' c']|e'] eqn:W; cbn [bind]; [discriminate|]. intros [= <-].
    destruct (IH eq_refl) as (x & I & E). exists x. split; [now right|exact E].
  Qed.
  Lemma p_has_not k l d : p_has k l = false -> In d l -> d_kind d <> k.
  Proof. intros H I E. apply (p_has_false H) in I. rewrite E in I. now destruct k. Qed.
  Lemma nums_kind d d' c : p_nums o d = Ok (d', c) -> d_kind d' = d_kind d.
  Proof. unfold p_nums. destruct (kind_eqb _ _); now intros [= <- <-]. Qed.
  Lemma temporal_kind d d' c : p_temporal o cf d = Ok (d', c) -> d_kind d' = d_kind d.
  Proof.
    unfold p_temporal. destruct (kind_eqb _ _); [|now intros [= <- <-]]. destruct (d_raw d); [discriminate|].
    destruct (strptime_vals _ _ _); [now intros [= <- <-]|]. destruct (cf_numerics cf); [|now intros [= <- <-]].
    destruct (floats _ _); now intros [= <- <-].
  Qed.
  Lemma numeric_kind d d' c : p_numeric o d = Ok (d', c) -> d_kind d' = d_kind d.
  Proof. unfold p_numeric. destruct (kind_eqb _ _); [|now intros [= <- <-]]. destruct (floats _ _); now intros [= <- <-]. Qed.

  (** What the conversions leave when they report no fallback: runs of one kind. *)
  Definition settled (l : list desc) : Prop :=
    exists k, k <> KNull /\ (forall d, In d l -> fits_kind k d) /\
      (p_has KTemp l = true -> k = KTemp) /\ (p_has KTemp l = false -> p_has KNum l = true -> k = KNum) /\
      (p_has KTemp l = false -> p_has KNum l = false -> k = KStr).
  Lemma temp_of_num d : sane d -> fits_kind KTemp (conv_nums o d) \/ (d_kind d = KStr /\ conv_nums o d = d).
  Proof.
    intros [C T]. unfold conv_nums. destruct (d_kind d) eqn:K; cbn [kind_eqb].
    - left. apply sane_fits; [split; [congruence|now rewrite K]|now left].
    - now right.
    - left. apply sane_fits; [split; [congruence|now rewrite K]|now right].
    - left. split; [now right|]. cbn [d_vals]. intros v I. apply in_map_iff in I. destruct I as (w & <- & I).
      pose proof (typed_in T I) as E. right. now destruct w.
  Qed.
  Lemma resolve_settled l l' : (forall d, In d l -> sane d) -> p_resolve o cf l = Ok (l', false) -> settled l'.
  Proof.
    intros W. unfold p_resolve. destruct (p_has KTemp l) eqn:HT.
    - destruct (cf_datetime cf).
      + rewrite pwalk_nums. cbn [bind]. intro E. exists KTemp. split; [easy|].
        assert (HT' : p_has KTemp l' = true).
        { rewrite (@pwalk_has KTemp false _ _ _ _ temporal_kind E).
          rewrite <- HT. apply (@pwalk_has KTemp false (p_nums o) l _ false nums_kind). apply pwalk_nums. }
        split; [|split; [easy|split; congruence]].
        apply (@pwalk_all false _ _ _ _ _ E eq_refl). intros d d' c I G NC. apply in_map_iff in I. destruct I as (x & <- & I).
        assert (c = false) as -> by (destruct c; [now specialize (NC eq_refl)|reflexivity]). clear NC.
        destruct (temp_of_num (W x I)) as [F|[K E']].
        * assert (NS : d_kind (conv_nums o x) <> KStr \/ d' = conv_nums o x).
          { left. destruct F as [[F|F] _]; intro Ek; unfold conv_nums in F, Ek; destruct (W x I) as [C T];
              destruct (d_kind x) eqn:K; cbn [kind_eqb d_cur d_kind] in F, Ek; congruence. }
          destruct NS as [NS|NS]; [|now rewrite NS]. unfold p_temporal in G.
          destruct (kind_eqb (d_kind (conv_nums o x)) KStr) eqn:Ek; [apply kind_ok in Ek; congruence|]. injection G as <-. exact F.
        * rewrite E' in G. unfold p_temporal in G. rewrite K in G. cbn [kind_eqb] in G. destruct (d_raw x); [discriminate|].
          destruct (strptime_vals o cf (d_vals x)) as [v|e].
          -- injection G as <-. split; [now right|]. cbn [d_vals]. intros w Iw. apply in_map_iff in Iw. destruct Iw as (z & <- & _). now right.
          -- destruct (cf_numerics cf); [|discriminate]. destruct (floats o (d_vals x)); [|discriminate]. injection G as <-.
             split; [now right|]. cbn [d_vals]. intros w Iw. apply in_map_iff in Iw. destruct Iw as (z & <- & _). now right.
      + intros [= <- E]. apply orb_false_iff in E. destruct E as [EN ES]. exists KTemp. split; [easy|]. split; [|split; [easy|split; congruence]].
        intros d I. apply sane_fits; [now apply W|]. pose proof (p_has_not EN I). pose proof (p_has_not ES I). destruct (d_kind d); auto; congruence.
    - destruct (p_has KNum l) eqn:HN; cbn [andb].
      + destruct (p_has KStr l) eqn:HS; cbn [andb].
        * destruct (cf_numerics cf); [|discriminate]. intro E. exists KNum. split; [easy|].
          pose proof (@pwalk_has KTemp true _ _ _ _ numeric_kind E) as HT'. pose proof (@pwalk_has KNum true _ _ _ _ numeric_kind E) as HN'.
          split; [|split; [congruence|split; [easy|congruence]]].
          apply (@pwalk_all true _ _ _ _ _ E eq_refl). intros d d' c I G NC.
          assert (c = false) as -> by (destruct c; [now specialize (NC eq_refl)|reflexivity]). clear NC.
          unfold p_numeric in G. destruct (kind_eqb (d_kind d) KStr) eqn:K.
          -- destruct (floats o (d_vals d)); [|discriminate]. injection G as <-. split; [now right|]. cbn [d_vals].
             intros w Iw. apply in_map_iff in Iw. destruct Iw as (z & <- & _). now right.
          -- injection G as <-. apply sane_fits; [now apply W|]. pose proof (p_has_not HT I). destruct (d_kind d); auto; (discriminate || congruence).
        * intros [= <-]. exists KNum. split; [easy|]. split; [|split; [congruence|split; [easy|congruence]]].
          intros d I. apply sane_fits; [now apply W|]. pose proof (p_has_not HT I). pose proof (p_has_not HS I). destruct (d_kind d); auto; congruence.
      + intros [= <-]. exists KStr. split; [easy|]. split; [|split; [congruence|split; [congruence|easy]]].
        intros d I. apply sane_fits; [now apply W|]. pose proof (p_has_not HT I). pose proof (p_has_not HN I). destruct (d_kind d); auto; congruence.
  Qed.
  Lemma resolve_err l e : p_resolve o cf l = Err e -> e = ArrowNotImplemented.
  Proof.
    unfold p_resolve. destruct (p_has KTemp l).
    - destruct (cf_datetime cf); [|discriminate]. rewrite pwalk_nums. cbn [bind]. rewrite pwalk_temporal.
      destruct (existsb _ _); [now intros [= <-]|discriminate].
    - destruct (_ && _); [|discriminate]. destruct (cf_numerics cf); [|discriminate]. intro E. apply pwalk_err in E.
      destruct E as (d & _ & E). unfold p_numeric in E. destruct (kind_eqb _ _); [|discriminate]. destruct (floats _ _); discriminate.
  Qed.
  Lemma integer_ok l : (forall d, In d l -> fits_kind KNum d) -> exists r, pwalk true (p_integer cf) l = Ok r.
  Proof.
    intro F. destruct (pwalk true (p_integer cf) l) as [r|e] eqn:E; [now exists r|]. exfalso. apply pwalk_err in E.
    destruct E as (d & I & E). unfold p_integer in E. destruct (F d I) as [[C|C] _]; rewrite C in E; discriminate.
  Qed.
  (** The exceptions of a read over runs whose data and flags agree. *)
  Theorem run_errors l e : (forall d, In d l -> sane d) -> p_run o cf l = Err e -> e = ArrowNotImplemented \/ (l = [] /\ e = ValueError).
  Proof.
    intros W. unfold p_run. destruct (p_resolve o cf l) as [[l' fb]|e'] eqn:R; cbn [bind].
    2:{ intros [= <-]. left. now apply resolve_err in R. }
    assert (NL : l' = [] -> l = []).
    { intros ->. revert R. unfold p_resolve. destruct l as [|d r]; [easy|]. intro R. exfalso.
      assert (N : forall stop g x, pwalk stop g (d :: r) = Ok ([], x) -> False).
      { intros stop g x. cbn [pwalk]. destruct (g d) as [[d' c]|]; cbn [bind]; [|discriminate]. destruct (c && stop); [discriminate|].
        destruct (pwalk stop g r) as [[]|]; cbn [bind]; discriminate. }
      destruct (p_has KTemp (d :: r)); [destruct (cf_datetime cf); [|discriminate]|].
      - rewrite pwalk_nums in R. cbn [bind map] in R. revert R. cbn [pwalk].
        destruct (p_temporal o cf (conv_nums o d)) as [[d' c]|]; cbn [bind]; [|discriminate]. rewrite andb_false_r.
        destruct (pwalk false (p_temporal o cf) (map (conv_nums o) r)) as [[]|]; cbn [bind]; discriminate.
      - destruct (_ && _); [|discriminate]. destruct (cf_numerics cf); [|discriminate]. now apply N in R. }
    unfold p_finish. destruct (p_type cf l' fb) as [t|e'] eqn:T; cbn [bind].
    2:{ exfalso. unfold p_type in T. destruct fb; [discriminate|]. destruct (p_has KTemp l') eqn:HT; [discriminate|].
        destruct (p_has KNum l') eqn:HN; [|discriminate]. destruct (resolve_settled W R) as (k & _ & F & _ & F2 & _).
        rewrite (F2 HT HN) in F. destruct (integer_ok F) as [[? ?] E]. rewrite E in T. discriminate. }
    destruct l' as [|d' r']; [intros [= <-]; right; now split; [apply NL|]|]. remember (d' :: r') as l' eqn:Hl. clear Hl NL.
    assert (M : exists v, mapM (render t) (flat_map d_vals l') = Ok v).
    { assert (A : forall v, In v (flat_map d_vals l') -> exists a, render t v = Ok a).
      { unfold p_type in T. destruct fb; [injection T as <-; intros v _; apply render_utf8|].
        destruct (resolve_settled W R) as (k & N & F & F1 & F2 & F3).
        assert (TF : type_for k t).
        { destruct (p_has KTemp l') eqn:HT; [rewrite (F1 eq_refl); now injection T as <-|].
          destruct (p_has KNum l') eqn:HN.
          - rewrite (F2 eq_refl eq_refl). destruct (pwalk true (p_integer cf) l') as [[? b]|]; cbn [bind] in T; [|discriminate].
            injection T as <-. destruct b; [now left|now right].
          - rewrite (F3 eq_refl eq_refl). now injection T as <-. }
        intros v I. apply in_flat_map in I. destruct I as (d & I & Iv). destruct (F d I) as [_ Fv].
        destruct (Fv v Iv) as [->|E]; [now exists None|]. destruct k; [easy| | |]; destruct v; try discriminate; cbn in TF.
        all: try (subst t); try destruct TF as [-> | ->]; eexists; reflexivity. }
      destruct (mapM_all A) as (vs & E & _). now exists vs. }
    destruct M as [v ->]. cbn [bind]. discriminate.
  Qed.
End Runs.

(** *** Slices and windows keep data and flags in agreement *)
Section Windows.
  Context (o : oracle) (cf : conf).
  Lemma pick_in A (l : list A) is x : In x (pick l is) -> In x l.
  Proof.
    induction is as [|i r IH]; cbn [pick]; [easy|]. destruct (nth_error l (Z.to_nat i)) as [y|] eqn:E; [|exact IH].
    intros [<-|I]; [now apply nth_error_In in E|now apply IH].
  Qed.
  Lemma mask_in A (l : list A) m x : In x (mask_list l m) -> In x l.
  Proof.
    revert m. induction l as [|y l IH]; intros [|b m]; cbn [mask_list]; try easy.
    destruct b; [intros [<-|I]; [now left|right; now apply IH in I]|intro I; right; now apply IH in I].
  Qed.
  Lemma slice_list_in A (l v : list A) x y : slice_list l x = Ok v -> In y v -> In y l.
  Proof.
    unfold slice_list. destruct (slice_indices _ _); cbn [bind]; [|discriminate]. intros [= <-]. apply pick_in.
  Qed.
  Lemma take_list_in A mm (l v : list A) ix y : take_list mm l ix = Ok v -> In y v -> In y l.
  Proof.
    destruct ix; cbn [take_list]; [apply slice_list_in|apply slice_list_in|].
    destruct (_ =? _); [|discriminate]. intros [= <-]. apply mask_in.
  Qed.
  Lemma slice_list_err A (l : list A) x e : slice_list l x = Err e -> e = ValueError.
  Proof. unfold slice_list, slice_indices. destruct (_ =? 0); cbn [bind]; [now intros [= <-]|discriminate]. Qed.
  Lemma take_list_err A mm (l : list A) ix e : take_list mm l ix = Err e -> e = ValueError \/ e = mm.
  Proof.
    destruct ix; cbn [take_list]; [intro H; apply slice_list_err in H; now left|intro H; apply slice_list_err in H; now left|].
    destruct (_ =? _); [discriminate|]. intros [= <-]. now right.
  Qed.
  Lemma null_slice_nonneg n x : 0 <= null_slice n x.
  Proof.
    unfold null_slice. destruct (n =? 0); [lia|]. cbv zeta.
    set (st := if or_ (sl_start x) 0 <? 0 then _ else _). set (sp := if or_ (sl_stop x) n <? 0 then _ else _).
    assert (N0 : or_ (sl_step x) 1 <> 0) by (destruct (sl_step x) as [[| |]|]; cbn; lia).
    assert (P : forall a b s, 0 < s -> 0 <= if a <=? b then 0 else (a - b) / s + (if (a - b) mod s =? 0 then 0 else 1)).
    { intros a b q Q. destruct (a <=? b) eqn:E; [lia|]. pose proof (Z.div_pos (a - b) q). destruct (_ =? 0); lia. }
    destruct (or_ (sl_step x) 1 <? 0) eqn:E; apply P; lia.
  Qed.
  Definition chunk_safe (r : res chunk) : Prop := match r with Ok c => shape c = true | Err e => e <> Undefined end.
  Lemma take_safe c ix : shape c = true -> chunk_safe (take_chunk c ix).
  Proof.
    intros S. unfold take_chunk. destruct (k_type c =? 0) eqn:T.
    - destruct ix as [i|x|m]; cbn [bind chunk_safe].
      + destruct (i <? k_size c); reflexivity.
      + unfold shape. cbn [k_data k_type]. pose proof (@null_slice_nonneg (k_size c) x). lia.
      + destruct (k_size c <? zlen m); cbn [bind chunk_safe]; [easy|]. unfold shape, true_count. cbn [k_data k_type]. pose proof (@zlen_pos _ (filter (fun b => b) m)). lia.
    - unfold shape in S. destruct (k_data c) as [n|l|l|l|l|l] eqn:D; cbn [take_data].
      1: cbn; easy.
      all: match goal with |- context [take_list ?mm ?l ?ix] => destruct (take_list mm l ix) as [v|e] eqn:E end; cbn [bind chunk_safe];
        [|apply take_list_err in E; destruct E; now subst e].
      all: unfold shape; cbn [k_data k_type k_sref]; try exact S.
      apply andb_prop in S. destruct S as [S1 S2]. rewrite S1. cbn [andb]. rewrite forallb_forall in *. intros x I. apply S2.
      now apply (take_list_in E).
  Qed.
  Definition entry_ok (e : entry) : Prop := shape (snd e) = true.
  Definition entries_safe {B} (r : res (list entry * B)) : Prop :=
    match r with Ok (l, _) => forall e, In e l -> entry_ok e | Err e => e <> Undefined end.
  Lemma entry_take src src' c ix c' : entry_ok (src, c) -> take_chunk c ix = Ok c' -> entry_ok (src', c').
  Proof.
    intros S E. pose proof (@take_safe c ix S) as H. rewrite E in H. exact H.
  Qed.
  Lemma take_err src c ix e : entry_ok (src, c) -> take_chunk c ix = Err e -> e <> Undefined.
  Proof. intros S E. pose proof (@take_safe c ix S) as H. now rewrite E in H. Qed.
  Lemma over_mask_safe l : forall off io cum m, (forall e, In e l -> entry_ok e) -> entries_safe (over_mask l off io cum m).
  Proof.
    induction l as [|[src c] r IH]; intros off io cum m H; cbn [over_mask entries_safe]; [easy|].
    assert (Hr : forall e, In e r -> entry_ok e) by (intros; apply H; now right).
    assert (Hc : entry_ok (src, c)) by (apply H; now left).
    destruct ((0 <? off) && (k_size c <=? off)); [now apply IH|].
    assert (A : match (if 0 <? off then take_chunk c (from off) else Ok c) with Ok c' => entry_ok (src, c') | Err e => e <> Undefined end).
    { destruct (0 <? off); [|exact Hc]. destruct (take_chunk c (from off)) as [c'|e] eqn:E; [now apply (entry_take src Hc E)|now apply (take_err Hc E)]. }
    destruct (if 0 <? off then take_chunk c (from off) else Ok c) as [c1|e]; cbn [bind]; [|exact A]. cbv zeta.
    destruct (true_count _ =? 0); [now apply IH|].
    match goal with |- context [take_chunk c1 ?ix] => destruct (take_chunk c1 ix) as [c2|e] eqn:E2 end; cbn [bind]; [|now apply (take_err A E2)].
    apply (entry_take src A) in E2.
    match goal with |- context [take_chunk c2 ?ix] => destruct (take_chunk c2 ix) as [c3|e] eqn:E3 end; cbn [bind]; [|now apply (take_err E2 E3)].
    apply (entry_take None E2) in E3. destruct (k_size c3 =? 0); [now apply IH|].
    match goal with |- context [over_mask r ?a ?b ?c ?d] => pose proof (IH a b c d Hr) as K; destruct (over_mask r a b c d) as [[l' cum']|e] end; cbn [bind entries_safe] in *; [|exact K].
    intros e [<-|I]; [exact E3|now apply K].
  Qed.
  Lemma over_len_safe l : forall off len cum, (forall e, In e l -> entry_ok e) -> entries_safe (over_len l off len cum).
  Proof.
    induction l as [|[src c] r IH]; intros off len cum H; cbn [over_len entries_safe]; [easy|].
    assert (Hr : forall e, In e r -> entry_ok e) by (intros; apply H; now right).
    assert (Hc : entry_ok (src, c)) by (apply H; now left).
    destruct ((0 <? off) && (k_size c <=? off)); [now apply IH|].
    match goal with |- entries_safe (bind ?x _) => assert (A : match x with Ok e => entry_ok e | Err e => e <> Undefined end);
      [|destruct x as [[s1 c1]|e]; cbn [bind]; [|exact A]] end.
    { destruct (0 <? off); [|exact Hc]. destruct (take_chunk c (from off)) as [c'|e] eqn:E; cbn [bind]; [now apply (entry_take None Hc E)|now apply (take_err Hc E)]. }
    cbv zeta.
    match goal with |- entries_safe (bind ?x _) => assert (B : match x with Ok e => entry_ok e | Err e => e <> Undefined end);
      [|destruct x as [[s2 c2]|e]; cbn [bind]; [|exact B]] end.
    { destruct (_ && _); [|exact A]. match goal with |- context [take_chunk c1 ?ix] => destruct (take_chunk c1 ix) as [c'|e] eqn:E end; cbn [bind]; [now apply (entry_take None A E)|now apply (take_err A E)]. }
    cbv zeta.
    assert (O : forall e, In e (if k_size c2 =? 0 then [] else [(s2, c2)]) -> entry_ok e) by (destruct (_ =? 0); [easy|]; intros e [<-|[]]; exact B).
    destruct (_ <=? _); [exact O|].
    match goal with |- context [over_len r ?a ?b ?c] => pose proof (IH a b c Hr) as K; destruct (over_len r a b c) as [[l' cum']|e] end; cbn [bind entries_safe] in *; [|exact K].
    intros e I. apply in_app_or in I. destruct I as [I|I]; [now apply O|now apply K].
  Qed.
  Lemma number_in A (l : list A) : forall n e, In e (number n l) -> In (snd e) l.
  Proof. induction l as [|x l IH]; intros n e; cbn [number]; [easy|]. intros [<-|I]; [now left|right; now apply IH in I]. Qed.
  Lemma nulls_ok n : 0 <= n -> entry_ok (None, nulls n).
  Proof. intro H. unfold entry_ok, shape, nulls. cbn. lia. Qed.
  Lemma take_over_safe store off len idx : (forall c, In c store -> shape c = true) ->
    match take_over (number 0 store) off len idx with Ok l => forall e, In e l -> entry_ok e | Err e => e <> Undefined end.
  Proof.
    intro H. assert (N : forall e, In e (number 0 store) -> entry_ok e) by (intros e I; apply H; now apply number_in in I).
    unfold take_over. destruct idx as [m|].
    - destruct (true_count m =? 0); [easy|]. pose proof (@over_mask_safe (number 0 store) off 0 0 m N) as K.
      destruct (over_mask _ _ _ _ _) as [[l cum]|e]; cbn [bind entries_safe] in *; [|exact K].
      destruct (_ && _) eqn:E; [|exact K]. intros e I. apply in_app_or in I. destruct I as [I|[<-|[]]]; [now apply K|apply nulls_ok; lia].
    - pose proof (@over_len_safe (number 0 store) off len 0 N) as K.
      destruct (over_len _ _ _ _) as [[l cum]|e]; cbn [bind entries_safe] in *; [|exact K].
      destruct (_ && _) eqn:E; [|exact K]. intros e I. apply in_app_or in I. destruct I as [I|[<-|[]]]; [now apply K|apply nulls_ok; lia].
  Qed.
  Lemma set_nth_in A n (x : A) l y : In y (set_nth n x l) -> y = x \/ In y l.
  Proof.
    revert n. induction l as [|z l IH]; intros [|n]; cbn [set_nth]; try easy.
    - intros [<-|I]; [now left|right; now right].
    - intros [<-|I]; [right; now left|]. destruct (IH _ I); [now left|right; now right].
  Qed.
  Lemma write_back_in l : forall store c, In c (write_back store l) -> In c store \/ exists x, In x l /\ c = sl_obj x.
  Proof.
    unfold write_back. induction l as [|x l IH]; intros store c; cbn [fold_left]; [now left|]. intro I. apply IH in I.
    destruct I as [I|(y & I & ->)]; [|right; exists y; split; [now right|reflexivity]].
    destruct (sl_src x); [|now left]. apply set_nth_in in I. destruct I as [->|I]; [right; exists x; split; [now left|reflexivity]|now left].
  Qed.
End Windows.

(** *** Columns *)
Section Columns.
  Context (o : oracle) (sc : sconf).
  Local Notation cf := (sc_conf sc).
  Definition all_shape (l : list chunk) : Prop := forall c, In c l -> shape c = true.
  Lemma F2_in A B (P : A -> B -> Prop) l l' y : Forall2 P l l' -> In y l' -> exists x, In x l /\ P x y.
  Proof. induction 1 as [|a b l l' H _ IH]; [easy|]. intros [<-|I]; [exists a; split; [now left|exact H]|]. destruct (IH I) as (x & Ix & Px). exists x. split; [now right|exact Px]. Qed.
  Lemma concatenate_safe store off len idx : all_shape store ->
    all_shape (fst (concatenate o cf store off len idx)) /\ defined (snd (concatenate o cf store off len idx)).
  Proof.
    intro H. unfold concatenate.
    assert (R : forall es, (forall e, In e es -> entry_ok e) ->
      Forall2 (rel o) (map new_slot es) (fst (run o cf (map new_slot es))) /\ defined (snd (run o cf (map new_slot es)))).
    { intros es E. destruct (@run_new o cf es E) as [F S]. split; [exact F|]. rewrite S. intro K. apply run_errors in K.
      - destruct K as [K|[_ K]]; discriminate.
      - intros d I. apply in_map_iff in I. destruct I as (e & <- & I). apply desc_sane. now apply E. }
    destruct (windowed off len idx).
    - pose proof (@take_over_safe store off len idx H) as T. destruct (take_over _ _ _ _) as [es|e]; [|split; [exact H|apply defined_err; exact T]].
      specialize (R es T). destruct (run o cf (map new_slot es)) as [l r]. cbn [fst snd] in *. destruct R as [F D]. split; [|exact D].
      intros c I. apply write_back_in in I. destruct I as [I|(x & I & ->)]; [now apply H|].
      destruct (F2_in F I) as (y & _ & (_ & _ & _ & S & _)). exact S.
    - assert (N : forall e, In e (number 0 store) -> entry_ok e) by (intros e I; apply H; now apply number_in in I).
      specialize (R _ N). destruct (run o cf (map new_slot (number 0 store))) as [l r]. cbn [fst snd] in *. destruct R as [F D]. split; [|exact D].
      intros c I. apply in_map_iff in I. destruct I as (x & <- & I). destruct (F2_in F I) as (y & _ & (_ & _ & _ & _ & S & _)). exact S.
  Qed.

  (** A value that may be pending under type flags [xdt]: a shared string index is in the table. *)
  Definition value_ok (xdt : Z) (v : cval) : Prop :=
    flag xdt TYPE_STRING = true -> flag xdt REPR_SHARED = true -> forall b, v = VBytes b ->
    if sc_binary sc then zlen b <= 4 /\ (forall i, unpack_I b = Ok i -> in_table (sc_shared sc) i = true)
    else forall i, py_int b = Ok i -> 0 <= i < zlen (sc_shared sc) /\ i < 2 ^ 32.

  Lemma py_int_err b : defined (py_int b).
  Proof. unfold py_int. match goal with |- defined (match ?x with _ => _ end) => destruct x end; [apply defined_ok|now apply defined_err]. Qed.
  Lemma val_text_def v : defined (val_text v).
  Proof. destruct v; cbn; [|apply defined_ok]. destruct (Utf8.decode8 b); [apply defined_ok|now apply defined_err]. Qed.
  Lemma val_bytes_def v : defined (val_bytes v).
  Proof. destruct v; [apply defined_ok|now apply defined_err]. Qed.
  Lemma join_def l : defined (join l).
  Proof. unfold join. apply defined_bind; [apply defined_mapM; intros; apply val_bytes_def|intros; apply defined_ok]. Qed.
  Lemma frombuffer_def k b : defined (frombuffer k b).
  Proof. unfold frombuffer. destruct (Nat.eqb _ _); [apply defined_ok|now apply defined_err]. Qed.
  Lemma defined_safe (r : res chunk) : defined r -> (forall c, r = Ok c -> shape c = true) -> chunk_safe r.
  Proof. destruct r as [c|e]; cbn; intros H K; [now apply K|]. intros ->. now apply H. Qed.
  Lemma mapM_in A B (f : A -> res B) l : forall v, mapM f l = Ok v -> forall y, In y v -> exists x, In x l /\ f x = Ok y.
  Proof.
    induction l as [|x l IH]; intros v; cbn [mapM]; [now intros [= <-] y|]. destruct (f x) as [y|] eqn:F; cbn [bind]; [|discriminate].
    destruct (mapM f l) as [w|]; cbn [bind]; [|discriminate]. intros [= <-] z [<-|I]; [exists x; split; [now left|exact F]|].
    destruct (IH w eq_refl z I) as (a & Ia & Fa). exists a. split; [now right|exact Fa].
  Qed.

  Lemma strings_safe data : chunk_safe (l <- mapM val_text data ;; Ok (mkC (DStr (map Some l)) (Z.lor TYPE_STRING REPR_PREPARED) (zlen data) [])).
  Proof.
    apply defined_safe.
    - apply defined_bind; [apply defined_mapM; intros; apply val_text_def|intros; apply defined_ok].
    - intros c. destruct (mapM val_text data); cbn [bind]; [|discriminate]. now intros [= <-].
  Qed.
  Lemma xlsx_shared_safe xdt data : sc_binary sc = false -> flag xdt TYPE_STRING = true -> flag xdt REPR_SHARED = true ->
    (forall v, In v data -> value_ok xdt v) -> chunk_safe (xlsx_strings (sc_shared sc) data true).
  Proof.
    intros B F1 F2 H. unfold xlsx_strings. apply defined_safe.
    - apply defined_bind; [|intros; apply defined_ok]. apply defined_mapM. intros v I.
      destruct v as [b|t]; cbn [val_bytes bind]; [|now apply defined_err]. apply defined_bind; [apply py_int_err|]. intros i E.
      pose proof (H _ I F1 F2 b eq_refl) as K. rewrite B in K. destruct (K i E) as [K1 K2]. replace ((0 <=? i) && (i <? 2 ^ 32)) with true by lia. apply defined_ok.
    - intros c. destruct (mapM _ data) as [l|] eqn:E; cbn [bind]; [|discriminate]. intros [= <-]. unfold shape. cbn [k_data k_type k_sref].
      change (Z.lor TYPE_STRING REPR_SHARED =? 17) with true. cbn [andb]. apply forallb_forall. intros i I.
      destruct (mapM_in E I) as (v & Iv & Ev). destruct v as [b|t]; cbn [val_bytes bind] in Ev; [|discriminate].
      destruct (py_int b) as [j|] eqn:P; cbn [bind] in Ev; [|discriminate]. destruct (_ && _) in Ev; [|discriminate]. injection Ev as ->.
      pose proof (H _ Iv F1 F2 b eq_refl) as K. rewrite B in K. destruct (K i P) as [K1 _]. unfold in_table. lia.
  Qed.
  (** Pieces of at most four bytes that together hold four per piece have four each. *)
  Lemma pieces (l : list bytes) : (forall b, In b l -> zlen b <= 4) -> zlen (List.concat l) <= 4 * zlen l /\
    (4 * zlen l <= zlen (List.concat l) -> forall b, In b l -> zlen b = 4).
  Proof.
    induction l as [|b l IH]; intro H; [split; [cbn; lia|now intros _ b]|]. destruct IH as [I1 I2]; [intros; apply H; now right|].
    cbn [List.concat]. unfold zlen in *. rewrite app_length. cbn [List.length]. pose proof (H b (or_introl eq_refl)) as Hb. split; [lia|].
    intros K x [<-|Ix]; [lia|]. apply I2; [lia|exact Ix].
  Qed.
  Lemma groups_pieces (l : list bytes) : (forall b, In b l -> zlen b = 4) -> groups (List.length l) 4 (List.concat l) = l.
  Proof.
    induction l as [|b l IH]; intro H; [reflexivity|]. pose proof (H b (or_introl eq_refl)) as Hb. unfold zlen in Hb.
    destruct b as [|x0 [|x1 [|x2 [|x3 [|x4 b]]]]]; cbn [List.length] in Hb; try lia. cbn [List.concat List.length groups app firstn skipn].
    rewrite IH; [reflexivity|]. intros; apply H; now right.
  Qed.
  Lemma val_bytes_all data l : mapM val_bytes data = Ok l -> zlen l = zlen data /\ forall b, In b l -> In (VBytes b) data.
  Proof.
    revert l. induction data as [|v data IH]; intros l; cbn [mapM]; [now intros [= <-]|]. destruct v as [b|t]; cbn [val_bytes bind]; [|discriminate].
    destruct (mapM val_bytes data) as [w|]; cbn [bind]; [|discriminate]. intros [= <-]. destruct (IH w eq_refl) as [I1 I2].
    split; [unfold zlen in *; cbn [List.length]; lia|]. intros x [<-|I]; [now left|right; now apply I2].
  Qed.
  Lemma xlsb_shared_safe xdt data : sc_binary sc = true -> flag xdt TYPE_STRING = true -> flag xdt REPR_SHARED = true ->
    (forall v, In v data -> value_ok xdt v) -> chunk_safe (xlsb_strings (sc_shared sc) data true).
  Proof.
    intros B F1 F2 H. unfold xlsb_strings, join. destruct (mapM val_bytes data) as [l|e] eqn:E; cbn [bind].
    2:{ intros ->. revert E. apply defined_mapM. intros; apply val_bytes_def. }
    destruct (zlen (List.concat l) <? 4 * zlen data) eqn:Q; [easy|]. cbn [chunk_safe].
    destruct (val_bytes_all E) as [L I].
    assert (S : forall b, In b l -> zlen b <= 4).
    { intros b Ib. pose proof (H _ (I b Ib) F1 F2 b eq_refl) as K. rewrite B in K. apply K. }
    destruct (pieces S) as [_ P]. specialize (P ltac:(lia)). 
    assert (Ln : List.length data = List.length l) by (unfold zlen in L; lia). rewrite Ln, (groups_pieces P).
    unfold shape. cbn [k_data k_type k_sref]. change (Z.lor TYPE_STRING REPR_SHARED =? 17) with true. cbn [andb].
    apply forallb_forall. intros i Ii. apply in_map_iff in Ii. destruct Ii as (b & <- & Ib).
    pose proof (H _ (I b Ib) F1 F2 b eq_refl) as K. rewrite B in K. destruct K as [_ K]. pose proof (P b Ib) as Lb. unfold zlen in Lb.
    destruct b as [|x0 [|x1 [|x2 [|x3 [|x4 b]]]]]; cbn [List.length] in Lb; try lia. specialize (K _ eq_refl).
    replace (le_int [x0; x1; x2; x3]) with (x0 + 2 ^ 8 * x1 + 2 ^ 16 * x2 + 2 ^ 24 * x3) by (cbn [le_int fold_right]; lia). exact K.
  Qed.
  Lemma xlsb_numeric_safe data b1 b2 b3 : chunk_safe (xlsb_numeric data b1 b2 b3).
  Proof.
    unfold xlsb_numeric. apply defined_safe.
    - apply defined_bind; [apply join_def|]. intros b _. apply defined_bind; [|intros; apply defined_ok].
      destruct b3; [apply defined_bind; [apply frombuffer_def|intros; apply defined_ok]|].
      destruct b1; [apply defined_ok|apply defined_bind; [apply frombuffer_def|intros; apply defined_ok]].
    - intros c. destruct (join data) as [b|]; cbn [bind]; [|discriminate].
      destruct b3; [destruct (frombuffer 4 b); cbn [bind]; [|discriminate]; intros [= <-]; now destruct b2|].
      destruct b1; cbn [bind]; [intros [= <-]; now destruct b2|].
      destruct (frombuffer 8 b); cbn [bind]; [|discriminate]. intros [= <-]. now destruct b2.
  Qed.
  Lemma xlsx_numeric_safe data b : chunk_safe (xlsx_numeric o (sc_shared sc) data b).
  Proof.
    unfold xlsx_numeric. destruct (mapM _ data) as [l|e] eqn:E; [now destruct b|].
    assert (D : e <> Undefined).
    { intros ->. revert E. apply defined_mapM. intros v _. apply defined_bind; [apply val_bytes_def|]. intros x _. destruct (o_float o x); [apply defined_ok|now apply defined_err]. }
    destruct e; try exact D. apply strings_safe.
  Qed.
  Lemma make_safe xdt data : (forall v, In v data -> value_ok xdt v) -> chunk_safe (make_chunk o sc xdt data).
  Proof.
    intro H. unfold make_chunk. destruct (flag xdt TYPE_STRING) eqn:F1.
    - destruct (flag xdt REPR_SHARED) eqn:F2; destruct (sc_binary sc) eqn:B.
      + now apply (@xlsb_shared_safe xdt).
      + now apply (@xlsx_shared_safe xdt).
      + apply strings_safe.
      + apply strings_safe.
    - destruct (sc_binary sc); [apply xlsb_numeric_safe|apply xlsx_numeric_safe].
  Qed.

  Definition SInv (x : series) : Prop :=
    all_shape (se_chunks x) /\ (forall v, In v (se_chunk x) -> value_ok (se_xdtr x) v) /\ 0 <= se_choff x.
  Lemma new_inv : SInv se_new.
  Proof. split; [|split]; cbn; easy. Qed.
  Definition series_safe (r : res series) : Prop := match r with Ok x => SInv x | Err e => e <> Undefined end.
  Lemma pull_some_safe x : SInv x -> series_safe (pull_some o sc x) /\ (forall y, pull_some o sc x = Ok y -> se_chunk y = [] /\ se_erow y = se_erow x /\ (se_chunk x = [] -> y = x)).
  Proof.
    intros (S & V & N). unfold pull_some. destruct (se_chunk x) as [|v r] eqn:E.
    - split; [|intros y [= <-]; repeat split; auto]. split; [exact S|]. split; [now rewrite E|exact N].
    - unfold pull. rewrite <- E in V. pose proof (make_safe V) as M. destruct (make_chunk o sc (se_xdtr x) (se_chunk x)) as [c|e]; cbn [bind series_safe].
      2:{ split; [exact M|discriminate]. }
      split; [|intros y [= <-]; repeat split; discriminate]. split; [|split; cbn; [easy|lia]]. cbn [se_chunks]. intros k I. apply in_app_or in I. destruct I as [I|I]; [now apply S|].
      apply in_app_or in I. destruct I as [I|[<-|[]]]; [|exact M]. destruct (se_choff x =? 0); [easy|]. destruct I as [<-|[]]. unfold shape. cbn. lia.
  Qed.
  Lemma add_safe x c : SInv x -> value_ok (c_xdt c) (c_val c) -> series_safe (add o sc x c).
  Proof.
    intros H V. unfold add. destruct (c_row c <=? se_erow x) eqn:R; [exact H|].
    match goal with |- series_safe (bind ?r _) => assert (A : series_safe r); [|destruct r as [y|e]; cbn [bind]; [|exact A]] end.
    { destruct (se_erow x + 1 <? c_row c) eqn:G; [|exact H]. destruct (pull_some_safe H) as [P Pe].
      destruct (pull_some o sc x) as [y|e]; cbn [bind]; [|exact P]. destruct P as (P1 & P2 & P3). destruct (Pe y eq_refl) as (Pc & Pr & _).
      split; [exact P1|]. split; [cbn; now rewrite Pc|]. cbn. lia. }
    match goal with |- series_safe (bind ?r _) => assert (B : series_safe r /\ forall z, r = Ok z -> se_xdtr z = c_xdt c); [|destruct r as [z|e]; cbn [bind]; [|apply B]] end.
    { destruct (c_xdt c =? se_xdtr y) eqn:Q; [split; [exact A|intros z [= <-]; lia]|]. destruct (pull_some_safe A) as [P Pe].
      destruct (pull_some o sc y) as [w|e]; cbn [bind]; [|split; [exact P|discriminate]]. destruct P as (P1 & P2 & P3). destruct (Pe w eq_refl) as (Pc & _ & _).
      split; [|now intros z [= <-]]. split; [exact P1|]. split; [cbn; now rewrite Pc|exact P3]. }
    destruct B as [(B1 & B2 & B3) Bx]. specialize (Bx z eq_refl). split; [exact B1|]. split; [|exact B3]. cbn. intros v I. apply in_app_or in I.
    destruct I as [I|[<-|[]]]; [now apply B2|]. now rewrite Bx.
  Qed.
  Lemma to_arrow_safe x off len idx : SInv x ->
    SInv (fst (to_arrow o sc x off len idx)) /\ defined (snd (to_arrow o sc x off len idx)).
  Proof.
    intro H. unfold to_arrow. destruct (pull_some_safe H) as [P _]. destruct (pull_some o sc x) as [y|e]; [|split; [exact H|now apply defined_err]].
    destruct P as (P1 & P2 & P3). destruct (se_chunks y) as [|c l] eqn:E.
    - split; [cbn; split; [now rewrite E|now split]|]. cbn. unfold null_array. destruct (len <? 0); [now apply defined_err|apply defined_ok].
    - destruct (@concatenate_safe (c :: l) off len idx P1) as [C D]. destruct (concatenate o cf (c :: l) off len idx) as [l' r]. cbn [fst snd] in *.
      split; [|exact D]. split; [exact C|]. split; [exact P2|exact P3].
  Qed.
  Lemma utf8_total a : defined (unsafe_cast o a TUtf8).
  Proof.
    unfold unsafe_cast. apply defined_bind; [|intros; apply defined_ok]. apply defined_mapM. intros v _. destruct v as [v|]; [|apply defined_ok].
    destruct v; apply defined_ok.
  Qed.
  Lemma to_utf8_safe x off len idx : SInv x ->
    SInv (fst (to_utf8 o sc x off len idx)) /\ defined (snd (to_utf8 o sc x off len idx)).
  Proof.
    intro H. unfold to_utf8. destruct (pull_some_safe H) as [P _]. destruct (pull_some o sc x) as [y|e]; [|split; [exact H|now apply defined_err]].
    destruct P as (P1 & P2 & P3). destruct (se_chunks y) as [|c l] eqn:E.
    - split; [cbn; split; [now rewrite E|now split]|]. cbn. unfold null_array. destruct (len <? 0); [now apply defined_err|apply defined_ok].
    - destruct (@concatenate_safe (c :: l) off len idx P1) as [C D]. destruct (concatenate o cf (c :: l) off len idx) as [l' r]. cbn [fst snd] in *.
      split; [split; [exact C|now split]|]. apply defined_bind; [exact D|]. intros a _. destruct (dtype_eqb _ _); [apply defined_ok|apply utf8_total].
  Qed.
End Columns.

(** *** The reader *)
Section Reads.
  Context (ro : roracle) (sc : sconf).
  Local Notation o := (ro_o ro).
  Definition CI (d : cols) : Prop := forall k x, In (k, x) d -> SInv sc x.
  Lemma dget_in (d : cols) k x : dget Z.eqb d k = Some x -> exists j, In (j, x) d.
  Proof. induction d as [|[j y] d IH]; cbn; [discriminate|]. destruct (k =? j); [intros [= ->]; exists j; now left|]. intro H. destruct (IH H) as [i I]. exists i. now right. Qed.
  Lemma dset_in (d : cols) k y j x : In (j, x) (dset Z.eqb d k y) -> x = y \/ In (j, x) d.
  Proof.
    induction d as [|[i z] d IH]; cbn; [intros [[= <- <-]|[]]; now left|]. destruct (k =? i).
    - intros [[= <- <-]|I]; [now left|right; now right].
    - intros [E|I]; [right; now left|]. destruct (IH I); [now left|right; now right].
  Qed.
  Lemma CI_get d k x : CI d -> dget Z.eqb d k = Some x -> SInv sc x.
  Proof. intros H E. apply dget_in in E. destruct E as [j I]. now apply (H j). Qed.
  Lemma CI_set d k x : CI d -> SInv sc x -> CI (dset Z.eqb d k x).
  Proof. intros H S j y I. apply dset_in in I. destruct I as [->|I]; [exact S|now apply (H j)]. Qed.
  (** A result that keeps the columns sound and is no undefined behaviour. *)
  Definition good {A} (r : res (cols * A)) : Prop := match r with Ok (d, _) => CI d | Err e => e <> Undefined end.
  Lemma good_bind A B (r : res (cols * A)) (f : cols * A -> res (cols * B)) : good r -> (forall d a, CI d -> good (f (d, a))) -> good (bind r f).
  Proof. destruct r as [[d a]|e]; cbn; [intros H K; now apply K|now intros H _]. Qed.
  Lemma good_defined A B (r : res (cols * A)) (f : cols * A -> res B) : good r -> (forall d a, CI d -> defined (f (d, a))) -> defined (bind r f).
  Proof. destruct r as [[d a]|e]; cbn; [intros H K; now apply K|]. intros H _. now apply defined_err. Qed.

  Lemma arrow_of_good d k off len idx : CI d -> good (arrow_of ro sc d k off len idx).
  Proof.
    intro H. unfold arrow_of. destruct (dget Z.eqb d k) as [x|] eqn:E; [|easy]. apply (CI_get H) in E.
    destruct (@to_arrow_safe o sc x off len idx E) as [S D]. destruct (to_arrow o sc x off len idx) as [y [a|e]]; cbn [fst snd bind good] in *.
    - now apply CI_set.
    - intros ->. now apply D.
  Qed.
  Lemma texts_good d k off len : CI d -> good (texts ro sc d k off len).
  Proof.
    intro H. unfold texts, ask. destruct (dget Z.eqb d k) as [x|] eqn:E; [|easy]. apply (CI_get H) in E.
    destruct (@to_utf8_safe o sc x off len None E) as [S D]. destruct (to_utf8 o sc x off len None) as [y [a|e]]; cbn [fst snd bind good] in *.
    - now apply CI_set.
    - intros ->. now apply D.
  Qed.
  Lemma each_good A (f : cols -> Z -> res (cols * A)) : (forall d k, CI d -> good (f d k)) -> forall ks d, CI d -> good (each f d ks).
  Proof.
    intro F. induction ks as [|k ks IH]; intros d H; cbn [each]; [exact H|]. apply good_bind; [now apply F|]. intros d1 a H1.
    apply good_bind; [now apply IH|]. intros d2 l H2. exact H2.
  Qed.
  Lemma make_header_good d first n : CI d -> good (make_header ro sc d first n).
  Proof.
    intro H. unfold make_header. destruct (n =? 1).
    - apply each_good; [|exact H]. intros d1 k H1. apply good_bind; [now apply texts_good|]. intros d2 l H2. destruct l; [easy|exact H2].
    - apply good_bind; [|intros d1 b H1; exact H1]. apply each_good; [|exact H]. intros; now apply texts_good.
  Qed.
  Lemma find_text_good p size : forall ks d, CI d -> good (find_text ro sc p d ks size).
  Proof.
    induction ks as [|k ks IH]; intros d H; cbn [find_text]; [exact H|]. apply good_bind; [now apply texts_good|]. intros d1 l H1.
    destruct (index_of _ l); [exact H1|now apply IH].
  Qed.
  Lemma find_header_good d pat size : CI d -> good (find_header ro sc d pat size).
  Proof.
    intro H. unfold find_header. destruct pat as [k|t].
    - apply good_bind; [now apply texts_good|]. intros d1 l H1. exact H1.
    - destruct (ro_search ro t); [now apply find_text_good|]. destruct d as [|[k x] d]; [exact H|]. apply good_bind; [now apply texts_good|]. easy.
  Qed.
  Lemma locate_good op d : CI d -> good (locate ro sc op d).
  Proof.
    intro H. unfold locate. destruct (r_lookup op) as [pat|]; [|exact H]. apply good_bind; [now apply find_header_good|]. intros d1 r H1.
    destruct (r =? -1); [easy|exact H1].
  Qed.
  Lemma name_columns_good op d first : CI d -> good (name_columns ro sc op d first).
  Proof.
    intro H. unfold name_columns. destruct (r_header op) as [n|l].
    - destruct (n =? 0); [exact H|]. apply good_bind; [now apply make_header_good|]. intros d1 l H1. exact H1.
    - destruct (Nat.eqb _ _); [exact H|easy].
  Qed.
  Lemma any_match_def pats n : defined (any_match ro pats n).
  Proof. induction pats as [|t r IH]; cbn; [apply defined_ok|]. destruct (ro_match ro t) as [m|]; [|now apply defined_err]. destruct (m n); [apply defined_ok|exact IH]. Qed.
  Lemma named_def pats : forall names ks, defined (named ro pats names ks).
  Proof.
    induction names as [|n names IH]; intros [|k ks]; cbn [named]; try apply defined_ok.
    apply defined_bind; [apply any_match_def|]. intros b _. apply defined_bind; [apply IH|]. intros; apply defined_ok.
  Qed.
  Lemma filter_keys_def fa names ks : defined (filter_keys ro fa names ks).
  Proof.
    destruct fa as [|[|c t]|[|i is]|[|t l]|]; cbn [filter_keys]; try apply defined_ok; try apply named_def. now apply defined_err.
  Qed.
  Lemma zip_bool_def f a b : defined (zip_bool f a b).
  Proof. unfold zip_bool. destruct (Nat.eqb _ _); [apply defined_ok|now apply defined_err]. Qed.
  Lemma fold_bool_def : forall ops acc l, defined (fold_bool ops acc l).
  Proof.
    induction ops as [|op ops IH]; intros acc [|x l]; cbn [fold_bool]; try apply defined_ok. apply defined_bind; [apply zip_bool_def|]. intros; apply IH.
  Qed.
  Lemma combine_filters_def st l : l <> [] -> defined (combine_filters st l).
  Proof.
    destruct l as [|m [|m' r]]; [easy|intros _; apply defined_ok|]. intros _. cbn [combine_filters]. destruct st as [| |ops|].
    - apply fold_bool_def.
    - apply fold_bool_def.
    - destruct (negb _); [now apply defined_err|]. destruct (existsb _ _); [now apply defined_err|apply fold_bool_def].
    - now apply defined_err.
  Qed.
  Lemma row_mask_good st d ks off len : CI d -> good (row_mask ro sc st d ks off len).
  Proof.
    intro H. unfold row_mask. destruct ks as [|k ks]; [exact H|].
    match goal with |- good (bind (each ?f d (k :: ks)) _) => set (g := f) end.
    assert (G : forall d k, CI d -> good (g d k)).
    { intros d1 j H1. apply good_bind; [now apply arrow_of_good|]. intros d2 a H2. exact H2. }
    pose proof (each_good G (k :: ks) H) as E.
    assert (N : forall d l, each g d (k :: ks) = Ok l -> snd l <> []).
    { intros d1 l. cbn [each]. destruct (g d1 k) as [[d2 a]|]; cbn [bind]; [|discriminate]. destruct (each g d2 ks) as [[d3 l']|]; cbn [bind]; [|discriminate]. now intros [= <-]. }
    destruct (each g d (k :: ks)) as [[d1 l]|e] eqn:El; cbn [bind good] in *; [|exact E]. pose proof (@combine_filters_def st l (N _ _ El)) as C.
    destruct (combine_filters st l) as [m|e]; cbn [bind].
    - destruct (true_count m =? 0); [easy|exact E].
    - intros ->. now apply C.
  Qed.
  Lemma cast_col_def a d : defined (cast_col ro a d).
  Proof.
    unfold cast_col. destruct (_ =? _); [apply defined_ok|]. destruct (ro_castable _ _ _); [|now apply defined_err].
    apply defined_bind; [|intros; apply defined_ok]. apply defined_mapM. intros v _. destruct v as [v|]; cbn; [|apply defined_ok]. destruct (ro_cast ro d v); [apply defined_ok|now apply defined_err].
  Qed.
  Lemma cast_all_def dt names arrays : defined (cast_all ro dt names arrays).
  Proof.
    destruct dt as [|d|l|ds]; cbn [cast_all].
    - apply defined_ok.
    - apply defined_mapM. intros; apply cast_col_def.
    - revert arrays. induction names as [|n names IH]; intros [|a arrays]; cbn [cast_dict]; try apply defined_ok.
      apply defined_bind; [destruct (dget _ _ _); [apply cast_col_def|apply defined_ok]|]. intros c _. apply defined_bind; [apply IH|intros; apply defined_ok].
    - destruct (Nat.eqb _ _); [|now apply defined_err]. clear names. revert ds. induction arrays as [|a arrays IH]; intros [|d ds]; cbn [cast_seq]; try apply defined_ok.
      apply defined_bind; [apply cast_col_def|]. intros c _. apply defined_bind; [apply IH|intros; apply defined_ok].
  Qed.
  Lemma mk_table_def names cs : defined (@mk_table ro names cs).
  Proof.
    unfold mk_table. destruct (negb _); [now apply defined_err|]. destruct cs as [|c r]; [apply defined_ok|]. destruct (forallb _ r); [apply defined_ok|now apply defined_err].
  Qed.
  Lemma max_len_def d : defined (max_len d).
  Proof. unfold max_len. destruct (map _ d); [now apply defined_err|apply defined_ok]. Qed.
  Theorem read_columns_safe op d : CI d -> defined (read_columns ro sc op d).
  Proof.
    intro H. unfold read_columns. apply defined_bind; [apply max_len_def|]. intros n _.
    apply good_defined; [now apply locate_good|]. intros d1 first H1. apply good_defined; [now apply name_columns_good|]. intros d2 [h names] H2.
    apply defined_bind; [apply filter_keys_def|]. intros fs _. cbv zeta. apply good_defined; [now apply row_mask_good|]. intros d3 idx H3.
    apply good_defined; [apply each_good; [intros; now apply arrow_of_good|exact H3]|]. intros d4 arrays _.
    apply defined_bind; [apply cast_all_def|]. intros l _. apply mk_table_def.
  Qed.
  Lemma collect_safe outs : forall d, CI d -> (forall c, In c (Cell.cells_of outs) -> value_ok sc (c_xdt c) (c_val c)) ->
    match collect ro sc d outs with Ok d' => CI d' | Err e => e <> Undefined end.
  Proof.
    induction outs as [|[c|] outs IH]; intros d H V; cbn [collect]; [exact H| |now apply IH].
    unfold add_cell. assert (S : SInv sc match dget Z.eqb d (c_col c) with Some x => x | None => se_new end).
    { destruct (dget Z.eqb d (c_col c)) as [x|] eqn:E; [now apply (CI_get H) in E|apply new_inv]. }
    pose proof (@add_safe o sc _ c S (V c (or_introl eq_refl))) as A.
    destruct (add o sc _ c) as [x|e]; cbn [bind]; [|exact A]. apply IH; [now apply CI_set|]. intros; apply V. now right.
  Qed.
  Theorem read_trace_safe op outs e : e <> Some Undefined ->
    (forall c, In c (Cell.cells_of outs) -> value_ok sc (c_xdt c) (c_val c)) -> defined (read_trace ro sc op (outs, e)).
  Proof.
    intros E V. unfold read_trace. cbn [fst snd]. pose proof (@collect_safe outs [] ltac:(easy) V) as C.
    destruct (collect ro sc [] outs) as [d|e']; cbn [bind]; [|now apply defined_err].
    destruct e as [e|]; [apply defined_err; congruence|now apply read_columns_safe].
  Qed.
End Reads.
