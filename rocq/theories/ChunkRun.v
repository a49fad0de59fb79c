(** [concatenate] as a function of the values of its runs. *)
From Verif Require Import Py PyFacts PyText Cell Casts Chunk ChunkSpec ChunkProofs ChunkWindow.
From Coq Require Import ZifyBool ZifyNat.
Set Implicit Arguments. Unset Strict Implicit.

(** A run: kind at the start, kind now, still shared indices, values. *)
Record desc := mkD { d_kind : kind; d_cur : kind; d_raw : bool; d_vals : list cellv }.

Section Run.
  Context (o : oracle) (cf : conf).
  Local Notation den := (ChunkSpec.den o).
  Local Notation prepare := (prepare o).

  (** *** The same passes on values. *)
  Definition to_time (v : cellv) : cellv := match v with CNum x => CTime (ms_of o x) | v => v end.
  Fixpoint floats (l : list cellv) : option (list f8) :=
    match l with
    | [] => Some []
    | v :: r =>
      match v with
      | CText t => match o_parse o t with Some x => match floats r with Some l => Some (x :: l) | None => None end | None => None end
      | _ => match floats r with Some l => Some (o_null_f o :: l) | None => None end
      end
    end.
  Definition strptime_vals (l : list cellv) : res (list Z) :=
    mf_strptime (o_strptime o) (o_junk o) (o_polars o) (cf_formats cf) (map text_of l).
  Definition nums_of (l : list cellv) : list f8 := flat_map (fun v => match v with CNum x => [x] | _ => [] end) l.

  Definition p_nums (d : desc) : res (desc * bool) :=
    if kind_eqb (d_kind d) KNum then Ok (mkD (d_kind d) KTemp false (map to_time (d_vals d)), false) else Ok (d, false).
  Definition p_temporal (d : desc) : res (desc * bool) :=
    if kind_eqb (d_kind d) KStr then
      if d_raw d then Err ArrowNotImplemented
      else match strptime_vals (d_vals d) with
           | Ok l => Ok (mkD (d_kind d) KTemp false (map CTime l), false)
           | Err _ =>
             if cf_numerics cf then
               match floats (d_vals d) with
               | Some l => Ok (mkD (d_kind d) KTemp false (map (fun x => CTime (ms_of o x)) l), false)
               | None => Ok (mkD (d_kind d) KStr false (d_vals d), true)
               end
             else Ok (d, true)
           end
    else Ok (d, false).
  Definition p_numeric (d : desc) : res (desc * bool) :=
    if kind_eqb (d_kind d) KStr then
      match floats (d_vals d) with
      | Some l => Ok (mkD (d_kind d) KNum false (map CNum l), false)
      | None => Ok (mkD (d_kind d) KStr false (d_vals d), true)
      end
    else Ok (d, false).
  Definition p_integer (d : desc) : res (desc * bool) :=
    match d_cur d with
    | KNull => Ok (d, false)
    | KNum => Ok (d, negb (f8_is_i8 (nums_of (d_vals d)) (cf_prec cf)))
    | _ => Err TypeError
    end.
  Fixpoint pwalk (stop : bool) (g : desc -> res (desc * bool)) (l : list desc) : res (list desc * bool) :=
    match l with
    | [] => Ok ([], false)
    | d :: r =>
      ' (d, b) <- g d ;;
      if b && stop then Ok (d :: r, true)
      else ' (r, c) <- pwalk stop g r ;; Ok (d :: r, b || c)
    end.
  Local Notation render := (ChunkSpec.render o).
  Definition p_has (k : kind) (l : list desc) : bool := existsb (fun d => kind_eqb (d_kind d) k) l.
  Definition p_resolve (l : list desc) : res (list desc * bool) :=
    if p_has KTemp l then
      if cf_datetime cf then
        ' (l, _) <- pwalk false p_nums l ;; pwalk false p_temporal l
      else Ok (l, p_has KNum l || p_has KStr l)
    else if p_has KNum l && p_has KStr l then
      if cf_numerics cf then pwalk true p_numeric l else Ok (l, true)
    else Ok (l, false).
  Definition p_type (l : list desc) (fallback : bool) : res dtype :=
    if fallback then Ok TUtf8
    else if p_has KTemp l then Ok TMs
    else if p_has KNum l then ' (_, b) <- pwalk true p_integer l ;; Ok (if b then TF8 else TI8)
    else Ok TUtf8.
  Definition p_finish (l : list desc) (fallback : bool) : res array :=
    t <- p_type l fallback ;;
    match l with
    | [] => Err ValueError
    | _ => v <- mapM (render t) (flat_map d_vals l) ;; Ok (mkA t v)
    end.
  Definition p_run (l : list desc) : res array :=
    ' (l, fallback) <- p_resolve l ;; p_finish l fallback.

  (** *** Single steps *)
  Definition desc_of (c : chunk) : desc := mkD (kind_of c) (kind_of c) (raw c) (den c).
  Definition D (x : slot) : desc := mkD (sl_kind x) (kind_of (cur x)) (raw (cur x)) (den (cur x)).

  (** Values of a chunk of each kind. *)
  Definition typed (k : kind) (v : cellv) : bool :=
    match k, v with
    | KNull, CNull => true | KStr, (CText _ | CNull) => true | KNum, CNum _ => true | KTemp, CTime _ => true
    | _, _ => false
    end.
  Lemma forallb_map A B (f : A -> B) p l : forallb p (map f l) = forallb (fun x => p (f x)) l.
  Proof. induction l as [|x l IH]; [reflexivity|]. cbn. now rewrite IH. Qed.
  Lemma forallb_true A (p : A -> bool) l : (forall x, p x = true) -> forallb p l = true.
  Proof. intro H. induction l as [|x l IH]; [reflexivity|]. cbn. now rewrite H. Qed.
  Lemma forallb_repeat A (p : A -> bool) x n : p x = true -> forallb p (repeat x n) = true.
  Proof. intro H. induction n as [|n IH]; [reflexivity|]. cbn. now rewrite H. Qed.
  Lemma den_typed c : shape c = true -> forallb (typed (kind_of c)) (den c) = true.
  Proof.
    intro S. unfold shape in S. unfold ChunkSpec.den, kind_of. destruct c as [d t z sr]. cbn [k_data k_type k_sref] in *.
    destruct d as [n|l|l|l|l|l].
    - assert (t = 0) as -> by lia. cbn. now apply forallb_repeat.
    - assert (t = 0x18) as -> by lia. cbn. rewrite forallb_map. apply forallb_true. now intros [|].
    - assert (t = 0x11) as -> by lia. cbn. rewrite forallb_map. apply forallb_true. intro i. unfold shared_at.
      destruct (if i <? 0 then None else nth_error sr (Z.to_nat i)) as [[|]|]; reflexivity.
    - assert (E : t = 0x21 \/ t = 0x25) by lia. destruct E as [-> | ->]; cbn; rewrite forallb_map; now apply forallb_true.
    - assert (E : t = 0x28 \/ t = 0x29 \/ t = 0x24) by lia. destruct E as [-> | [-> | ->]]; cbn; rewrite forallb_map; now apply forallb_true.
    - assert (E : t = 0x2C \/ t = 0x2D) by lia. destruct E as [-> | ->]; cbn; rewrite forallb_map; now apply forallb_true.
  Qed.

  Lemma as_temporal_num c : shape c = true -> kind_of c = KNum ->
    exists c', as_temporal o None c = Ok c' /\ shape c' = true /\ kind_of c' = KTemp /\ raw c' = false /\
      den c' = map to_time (den c).
  Proof.
    intros S K. unfold shape in S. unfold kind_of in K. unfold as_temporal. destruct c as [d t z sr]. cbn [k_data k_type k_sref] in *.
    destruct d as [n|l|l|l|l|l].
    - assert (t = 0) as -> by lia. discriminate.
    - assert (t = 0x18) as -> by lia. discriminate.
    - assert (t = 0x11) as -> by lia. discriminate.
    - assert (E : t = 0x21 \/ t = 0x25) by lia. destruct E as [-> | ->]; [|discriminate]. cbn.
      eexists. split; [reflexivity|]. unfold ChunkSpec.den. cbn. rewrite map_map. repeat split.
    - assert (E : t = 0x28 \/ t = 0x29 \/ t = 0x24) by lia. destruct E as [-> | [-> | ->]]; [| |discriminate]; cbn;
        (eexists; split; [reflexivity|]; unfold ChunkSpec.den; cbn; rewrite map_map; repeat split).
    - assert (E : t = 0x2C \/ t = 0x2D) by lia. destruct E as [-> | ->]; discriminate.
  Qed.

  Lemma mapM_ext A B (f g : A -> res B) l : (forall x, In x l -> f x = g x) -> mapM f l = mapM g l.
  Proof.
    induction l as [|x l IH]; intro H; [reflexivity|]. cbn. rewrite H by now left. rewrite IH; [reflexivity|].
    intros y Hy. apply H. now right.
  Qed.
  Lemma mapM_map A B C (f : A -> B) (g : B -> res C) l : mapM g (map f l) = mapM (fun x => g (f x)) l.
  Proof. induction l as [|x l IH]; [reflexivity|]. cbn. now rewrite IH. Qed.
  Lemma mapM_pure A B (f : A -> B) l : mapM (fun x => Ok (f x)) l = Ok (map f l).
  Proof. induction l as [|x l IH]; [reflexivity|]. cbn. now rewrite IH. Qed.
  Lemma mapM_app A B (f : A -> res B) l1 l2 :
    mapM f (l1 ++ l2) = (a <- mapM f l1 ;; b <- mapM f l2 ;; Ok (a ++ b)).
  Proof.
    induction l1 as [|x l1 IH]; cbn.
    - now destruct (mapM f l2).
    - destruct (f x) as [y|e]; cbn; [|reflexivity]. rewrite IH. destruct (mapM f l1) as [a|e]; cbn; [|reflexivity].
      now destruct (mapM f l2).
  Qed.

  (** The array of a chunk is the rendering of its values. *)
  Lemma chunk_arrow_ok c t : shape c = true -> exists c',
    chunk_arrow o c (Some t) = ((v <- mapM (render t) (den c) ;; Ok (mkA t v)), c') /\
    same o c c' /\ (k_type c <> 0 -> raw c' = false) /\ (k_type c = 0 -> c' = c).
  Proof.
    intro S. unfold chunk_arrow. destruct (k_type c =? 0) eqn:T.
    - exists c. pose proof S as S0. unfold shape in S0. destruct c as [d ty z sr]. cbn [k_data k_type k_sref] in *.
      assert (ty = 0) as -> by lia. destruct d as [n|l|l|l|l|l]; cbn in S0; try discriminate.
      replace (n <? 0) with false by lia. split; [|split; [now apply same_refl|split; [intro H; cbn in H; lia|reflexivity]]].
      f_equal. unfold ChunkSpec.den. cbn [k_data].
      assert (E : mapM (render t) (repeat CNull (Z.to_nat n)) = Ok (repeat None (Z.to_nat n))).
      { induction (Z.to_nat n) as [|k IH]; [reflexivity|]. cbn. now rewrite IH. }
      now rewrite E.
    - destruct (@prepare_ok o c S) as (c' & P1 & P2 & P3 & P4); [lia|]. rewrite P1. exists c'.
      split; [|split; [exact P2|split; [now intros _|intro; lia]]]. f_equal.
      destruct P2 as (Q1 & Q2 & _). rewrite <- Q2. clear -Q1 P3 P4. unfold shape in Q1. unfold raw_array, ChunkSpec.den.
      destruct c' as [d ty z sr]. unfold raw in P4. cbn [k_data k_type k_sref] in *.
      destruct d as [n|l|l|l|l|l].
      + assert (ty = 0) as -> by lia. discriminate.
      + assert (ty = 0x18) as -> by lia. change (flag 24 TYPE_STRING) with true. cbv iota. cbn [bind a_type].
        rewrite mapM_map. destruct (dtype_eqb t TUtf8) eqn:E.
        * destruct t; try discriminate. erewrite mapM_ext; [|intros x _; instantiate (1 := fun x => Ok (option_map AS x)); now destruct x].
          now rewrite mapM_pure.
        * unfold unsafe_cast. cbn [a_vals a_type]. rewrite mapM_map. f_equal. apply mapM_ext. intros [x|] _; [|reflexivity].
          cbn. destruct t; try discriminate; try reflexivity. now destruct (o_parse o x).
      + discriminate.
      + assert (E : ty = 0x21 \/ ty = 0x25) by lia. destruct E as [-> | ->]; discriminate.
      + assert (E : ty = 0x28 \/ ty = 0x29 \/ ty = 0x24) by lia. destruct E as [-> | [-> | ->]]; [| |discriminate];
          change (flag _ TYPE_STRING) with false; change (flag _ REPR_TEMPORAL) with false; cbv iota; cbn [bind a_type];
          rewrite mapM_map; (destruct (dtype_eqb t TF8) eqn:E;
            [destruct t; try discriminate; cbn [render]; now rewrite mapM_pure
            |unfold unsafe_cast; cbn [a_vals a_type]; rewrite mapM_map; f_equal; apply mapM_ext; intros x _;
             cbn; destruct t; try discriminate; reflexivity]).
      + assert (E : ty = 0x2C \/ ty = 0x2D) by lia. destruct E as [-> | ->];
          change (flag _ TYPE_STRING) with false; change (flag _ REPR_TEMPORAL) with true; cbv iota; cbn [bind a_type];
          rewrite mapM_map; (destruct (dtype_eqb t TMs) eqn:E;
            [destruct t; try discriminate; cbn [render]; now rewrite mapM_pure
            |unfold unsafe_cast; cbn [a_vals a_type]; rewrite mapM_map; f_equal; apply mapM_ext; intros x _;
             cbn; destruct t; try discriminate; reflexivity]).
  Qed.

  Lemma floats_render l : forallb (typed KStr) l = true ->
    match floats l with
    | Some xs => exists v, mapM (render TF8) l = Ok v /\ map (fun v => match v with Some (AF x) => x | _ => o_null_f o end) v = xs
    | None => mapM (render TF8) l = Err ArrowInvalid
    end.
  Proof.
    induction l as [|v l IH]; intro H; [exists []; now split|]. cbn [forallb] in H. apply andb_prop in H. destruct H as [H1 H2].
    specialize (IH H2). cbn [floats mapM]. destruct v as [|t|x|m]; try discriminate H1.
    - cbn [render bind]. destruct (floats l) as [xs|].
      + destruct IH as (v & -> & E). exists (None :: v). cbn. now rewrite E.
      + now rewrite IH.
    - cbn [render]. destruct (o_parse o t) as [x|]; cbn [bind]; [|reflexivity].
      destruct (floats l) as [xs|].
      + destruct IH as (v & -> & E). exists (Some (AF x) :: v). cbn. now rewrite E.
      + now rewrite IH.
  Qed.
  Lemma as_numeric_str c : shape c = true -> kind_of c = KStr -> exists c',
    as_numeric o c = (match floats (den c) with
                      | Some xs => Ok (mkC (DF xs) 0x28 0 []) | None => Err ArrowInvalid end, c') /\
    same o c c' /\ raw c' = false.
  Proof.
    intros S K. unfold as_numeric.
    assert (T : k_type c <> 0) by (intro T; apply (@kind_null c S) in T; congruence).
    assert (N : flag (k_type c) TYPE_NUMERIC = false).
    { clear T. unfold shape in S. unfold kind_of in K. destruct c as [d t z sr]. cbn [k_data k_type k_sref] in *. destruct d.
      - assert (t = 0) as -> by lia. reflexivity.
      - assert (t = 0x18) as -> by lia. reflexivity.
      - assert (t = 0x11) as -> by lia. reflexivity.
      - assert (E : t = 0x21 \/ t = 0x25) by lia. destruct E as [-> | ->]; discriminate.
      - assert (E : t = 0x28 \/ t = 0x29 \/ t = 0x24) by lia. destruct E as [-> | [-> | ->]]; discriminate.
      - assert (E : t = 0x2C \/ t = 0x2D) by lia. destruct E as [-> | ->]; discriminate. }
    rewrite N. replace (k_type c =? 0) with false by lia. cbn [orb].
    destruct (@chunk_arrow_ok c TF8 S) as (c' & E1 & E2 & E3 & _). rewrite E1. exists c'. split; [|now split; [|apply E3]].
    f_equal. pose proof (@den_typed c S) as Ty. rewrite K in Ty. pose proof (@floats_render (den c) Ty) as F.
    destruct (floats (den c)) as [xs|].
    - destruct F as (v & -> & E). cbn [bind a_vals]. now rewrite E.
    - now rewrite F.
  Qed.
  Lemma mf_loop_err parse junk fmts : forall arr l e, mf_loop parse junk fmts arr l = Err e -> e = ArrowInvalid.
  Proof.
    induction fmts as [|f r IH]; intros arr l e; cbn [mf_loop].
    - destruct (existsb _ l); congruence.
    - destruct (forallb _ _); [discriminate|]. apply IH.
  Qed.
  Lemma as_temporal_str c : shape c = true -> kind_of c = KStr ->
    if raw c then as_temporal o (cf_formats cf) c = Err ArrowNotImplemented
    else match strptime_vals (den c) with
         | Ok l => as_temporal o (cf_formats cf) c = Ok (mkC (DMs l) 0x2C 0 [])
         | Err _ => as_temporal o (cf_formats cf) c = Err ArrowInvalid
         end.
  Proof.
    intros S K. unfold as_temporal, strptime_vals. unfold shape in S. unfold kind_of in K. unfold ChunkSpec.den, raw.
    destruct c as [d t z sr]. cbn [k_data k_type k_sref] in *. destruct d as [n|l|l|l|l|l].
    - assert (t = 0) as -> by lia. discriminate.
    - assert (t = 0x18) as -> by lia. change (flag 24 TYPE_NUMERIC) with false. cbv iota.
      rewrite map_map. assert (E : map (fun x => text_of (ctext x)) l = l).
      { rewrite <- (map_id l) at 2. apply map_ext. now intros [|]. }
      rewrite E. unfold mf_strptime. destruct (mf_loop _ _ _ _ _) as [v|e] eqn:M; [reflexivity|].
      apply mf_loop_err in M. now subst e.
    - assert (t = 0x11) as -> by lia. reflexivity.
    - assert (E : t = 0x21 \/ t = 0x25) by lia. destruct E as [-> | ->]; discriminate.
    - assert (E : t = 0x28 \/ t = 0x29 \/ t = 0x24) by lia. destruct E as [-> | [-> | ->]]; discriminate.
    - assert (E : t = 0x2C \/ t = 0x2D) by lia. destruct E as [-> | ->]; discriminate.
  Qed.
  Lemma raw_kind c : shape c = true -> raw c = true -> kind_of c = KStr.
  Proof.
    unfold shape, raw, kind_of. destruct c as [d t z sr]. cbn [k_data k_type]. destruct d; try discriminate.
    intros S _. assert (t = 0x11) as -> by lia. reflexivity.
  Qed.

  (** *** Passes *)
  Definition ok (x : slot) : Prop :=
    shape (sl_obj x) = true /\ shape (cur x) = true /\ kind_of (sl_obj x) = sl_kind x.
  (** Not replaced yet. *)
  Definition fresh (x : slot) : Prop := sl_new x = None.
  Definition rel (x x' : slot) : Prop :=
    sl_kind x' = sl_kind x /\ sl_src x' = sl_src x /\ same o (sl_obj x) (sl_obj x') /\ ok x'.
  Lemma rel_refl x : ok x -> rel x x.
  Proof. intro H. split; [reflexivity|]. split; [reflexivity|]. split; [apply same_refl, H|exact H]. Qed.
  Lemma rel_trans a b c : rel a b -> rel b c -> rel a c.
  Proof.
    intros (A1 & A2 & A3 & A4) (B1 & B2 & B3 & B4). split; [congruence|]. split; [congruence|].
    split; [now apply same_trans with (sl_obj b)|exact B4].
  Qed.
  Definition agrees (g : res (desc * bool)) (p : slot * res bool) : Prop :=
    match g with Ok (d, b) => snd p = Ok b /\ D (fst p) = d | Err e => snd p = Err e end.
  Definition agrees_l (g : res (list desc * bool)) (p : list slot * res bool) : Prop :=
    match g with Ok (d, b) => snd p = Ok b /\ map D (fst p) = d | Err e => snd p = Err e end.
  Lemma walk_ok (I : slot -> Prop) stop f g l :
    (forall x, ok x -> I x -> rel x (fst (f x)) /\ agrees (g (D x)) (f x)) ->
    (forall x, In x l -> ok x /\ I x) ->
    Forall2 rel l (fst (walk stop f l)) /\ agrees_l (pwalk stop g (map D l)) (walk stop f l).
  Proof.
    intro F. induction l as [|x l IH]; intro H.
    - split; [constructor|]. now split.
    - destruct (H x) as [Hx Ix]; [now left|]. destruct (F x Hx Ix) as [F1 F2].
      assert (Hl : forall y, In y l -> ok y /\ I y) by (intros y Hy; apply H; now right).
      destruct (IH Hl) as [IH1 IH2]. cbn [walk map pwalk]. destruct (f x) as [x' rb] eqn:E.
      cbn [fst snd] in F1, F2. unfold agrees in F2. cbn [fst snd] in F2.
      assert (Rl : Forall2 rel l l) by (clear -Hl; induction l as [|y l IH]; constructor; [apply rel_refl, Hl; now left|apply IH; intros z Hz; apply Hl; now right]).
      destruct (g (D x)) as [[d b]|e]; cbn [bind].
      + destruct F2 as [-> F2]. destruct (b && stop) eqn:Eb.
        * split; [constructor; assumption|]. split; [reflexivity|]. cbn [fst map]. now rewrite F2.
        * destruct (walk stop f l) as [l' rb']. cbn [fst snd] in *. unfold agrees_l in IH2. cbn [fst snd] in IH2.
          split; [now constructor|]. destruct (pwalk stop g (map D l)) as [[ds b2]|e]; cbn [bind].
          -- destruct IH2 as [-> IH2]. split; [reflexivity|]. cbn [fst map]. now rewrite F2, IH2.
          -- now rewrite IH2.
      + rewrite F2. split; [now constructor|]. reflexivity.
  Qed.
  Lemma kind_eqb_true a b : kind_eqb a b = true -> a = b.
  Proof. now destruct a, b. Qed.

  Lemma step_nums_ok x : ok x -> fresh x -> rel x (fst (step_nums o x)) /\ agrees (p_nums (D x)) (step_nums o x).
  Proof.
    intros (H1 & H2 & H3) N. unfold step_nums, p_nums. cbn [d_kind D]. destruct (kind_eqb (sl_kind x) KNum) eqn:E.
    - apply kind_eqb_true in E. assert (Ec : cur x = sl_obj x) by (unfold cur, fresh in *; now rewrite N). rewrite Ec in *.
      destruct (@as_temporal_num (sl_obj x) H1) as (c' & T1 & T2 & T3 & T4 & T5); [congruence|]. rewrite T1.
      split.
      + split; [reflexivity|]. split; [reflexivity|]. split; [now apply same_refl|]. repeat split; assumption.
      + split; [reflexivity|]. cbn [d_vals D]. rewrite <- Ec in T5. unfold D. cbn. now rewrite T3, T4, T5.
    - split; [apply rel_refl; now split|]. now split.
  Qed.
  Lemma set_cur_fresh x c : fresh x -> set_cur x c = mkSlot (sl_kind x) (sl_src x) c None.
  Proof. unfold fresh, set_cur. now intros ->. Qed.

  Lemma step_temporal_ok x : ok x -> (sl_kind x = KStr -> fresh x) ->
    rel x (fst (step_utf8_temporal o cf x)) /\ agrees (p_temporal (D x)) (step_utf8_temporal o cf x).
  Proof.
    intros (H1 & H2 & H3) N. unfold step_utf8_temporal, p_temporal. cbn [d_kind d_raw d_vals D].
    destruct (kind_eqb (sl_kind x) KStr) eqn:E.
    2: { split; [apply rel_refl; now split|]. now split. }
    apply kind_eqb_true in E. specialize (N E).
    assert (Ec : cur x = sl_obj x) by (unfold cur, fresh in *; now rewrite N). rewrite Ec in *.
    pose proof (@as_temporal_str (sl_obj x) H1) as T. rewrite H3 in T. specialize (T E).
    destruct (raw (sl_obj x)) eqn:Er.
    { rewrite T. split; [cbn [fst]; apply rel_refl; unfold ok; rewrite Ec; now repeat split|]. reflexivity. }
    destruct (strptime_vals (den (sl_obj x))) as [l|e].
    { rewrite T. split.
      - split; [reflexivity|]. split; [reflexivity|]. split; [now apply same_refl|]. repeat split; assumption.
      - split; reflexivity. }
    rewrite T. destruct (cf_numerics cf).
    - destruct (@as_numeric_str (sl_obj x) H1) as (c' & A1 & A2 & A3); [congruence|]. rewrite A1, set_cur_fresh by exact N.
      destruct (floats (den (sl_obj x))) as [xs|]; cbn [bind].
      + split.
        * split; [reflexivity|]. split; [reflexivity|]. split; [exact A2|]. destruct A2 as (A4 & A5 & A6 & _).
          repeat split; [exact A4|]. cbn. congruence.
        * split; [reflexivity|]. unfold D. cbn. unfold ChunkSpec.den. cbn. reflexivity.
      + split.
        * split; [reflexivity|]. split; [reflexivity|]. split; [exact A2|]. destruct A2 as (A4 & A5 & A6 & _).
          repeat split; [exact A4|exact A4|]. cbn. congruence.
        * split; [reflexivity|]. destruct A2 as (A4 & A5 & A6 & _). unfold D. cbn. rewrite A5, A6, A3, H3, E. reflexivity.
    - split; [cbn [fst]; apply rel_refl; unfold ok; rewrite Ec; now repeat split|]. now split.
  Qed.
  Lemma step_numeric_ok x : ok x -> (sl_kind x = KStr -> fresh x) ->
    rel x (fst (step_utf8_numeric o x)) /\ agrees (p_numeric (D x)) (step_utf8_numeric o x).
  Proof.
    intros (H1 & H2 & H3) N. unfold step_utf8_numeric, p_numeric. cbn [d_kind d_raw d_vals D].
    destruct (kind_eqb (sl_kind x) KStr) eqn:E.
    2: { split; [apply rel_refl; now split|]. now split. }
    apply kind_eqb_true in E. specialize (N E).
    assert (Ec : cur x = sl_obj x) by (unfold cur, fresh in *; now rewrite N). rewrite Ec in *.
    destruct (@as_numeric_str (sl_obj x) H1) as (c' & A1 & A2 & A3); [congruence|]. rewrite A1, set_cur_fresh by exact N.
    destruct (floats (den (sl_obj x))) as [xs|].
    - split.
      + split; [reflexivity|]. split; [reflexivity|]. split; [exact A2|]. destruct A2 as (A4 & A5 & A6 & _).
        repeat split; [exact A4|]. cbn. congruence.
      + split; [reflexivity|]. unfold D. cbn. reflexivity.
    - split.
      + split; [reflexivity|]. split; [reflexivity|]. split; [exact A2|]. destruct A2 as (A4 & A5 & A6 & _).
        repeat split; [exact A4|exact A4|]. cbn. congruence.
      + split; [reflexivity|]. destruct A2 as (A4 & A5 & A6 & _). unfold D. cbn. rewrite A5, A6, A3, H3, E. reflexivity.
  Qed.
  Lemma nums_of_map l : nums_of (map CNum l) = l.
  Proof. induction l as [|x l IH]; [reflexivity|]. change (x :: nums_of (map CNum l) = x :: l). now rewrite IH. Qed.
  Lemma set_cur_ok x c : ok x -> same o (cur x) c -> rel x (set_cur x c) /\ cur (set_cur x c) = c /\ sl_kind (set_cur x c) = sl_kind x.
  Proof.
    intros (H1 & H2 & H3) S. unfold set_cur, cur in *. destruct (sl_new x) as [n|] eqn:N.
    - split; [|now split]. split; [reflexivity|]. split; [reflexivity|]. split; [now apply same_refl|].
      repeat split; [exact H1|apply S|exact H3].
    - split; [|now split]. split; [reflexivity|]. split; [reflexivity|]. split; [exact S|].
      destruct S as (S1 & S2 & S3 & _). repeat split; [exact S1|exact S1|]. cbn. congruence.
  Qed.
  Lemma step_integer_ok x : ok x ->
    rel x (fst (step_integer o cf x)) /\ agrees (p_integer (D x)) (step_integer o cf x).
  Proof.
    intro O. pose proof O as (H1 & H2 & H3). unfold step_integer, p_integer. cbn [d_cur d_vals D].
    destruct (k_type (cur x) =? 0) eqn:T.
    - assert (K : kind_of (cur x) = KNull) by (apply (@kind_null (cur x) H2); lia). rewrite K.
      split; [now apply rel_refl|]. now split.
    - assert (K : kind_of (cur x) <> KNull) by (intro K; apply (@kind_null (cur x) H2) in K; lia).
      destruct (@prepare_ok o (cur x) H2) as (c & P1 & P2 & P3 & P4); [lia|]. rewrite P1.
      destruct (set_cur_ok O P2) as (S1 & S2 & S3). pose proof P2 as (Q1 & Q2 & Q3 & _).
      assert (DD : kind_of (cur x) = KNum -> D (set_cur x c) = D x).
      { intro KN. assert (R : raw (cur x) = false).
        { destruct (raw (cur x)) eqn:R; [|reflexivity]. pose proof (@raw_kind (cur x) H2 R). congruence. }
        unfold D. rewrite S2, S3, Q2, Q3, P4, R. reflexivity. }
      clear P1. unfold shape in Q1. rewrite <- Q3 in *. unfold kind_of in *. unfold raw in P4.
      assert (DC : den c = den (cur x)) by exact Q2. unfold ChunkSpec.den at 1 in DC.
      destruct c as [d ty z sr]. cbn [k_data k_type k_sref] in *.
      destruct d as [n|l|l|l|l|l].
      + assert (ty = 0) as -> by lia. now destruct K.
      + assert (ty = 0x18) as -> by lia. split; [exact S1|]. reflexivity.
      + discriminate.
      + assert (E : ty = 0x21 \/ ty = 0x25) by lia. destruct E as [-> | ->]; discriminate.
      + assert (E : ty = 0x28 \/ ty = 0x29 \/ ty = 0x24) by lia. destruct E as [-> | [-> | ->]]; [| |discriminate].
        * split; [exact S1|]. cbn [agrees fst snd]. cbn. cbn in DC. rewrite <- DC, nums_of_map. split; [reflexivity|now apply DD].
        * split; [exact S1|]. cbn [agrees fst snd]. cbn. cbn in DC. rewrite <- DC, nums_of_map. split; [reflexivity|now apply DD].
      + assert (E : ty = 0x2C \/ ty = 0x2D) by lia. destruct E as [-> | ->]; (split; [exact S1|reflexivity]).
  Qed.

  (** *** The whole of [run] *)
  Lemma arrows_ok t l : (forall x, In x l -> ok x) ->
    Forall2 rel l (fst (arrows o t l)) /\
    snd (arrows o t l) = mapM (render t) (flat_map d_vals (map D l)).
  Proof.
    induction l as [|x l IH]; intro H; [split; [constructor|reflexivity]|].
    assert (Ox : ok x) by (apply H; now left).
    assert (Hl : forall y, In y l -> ok y) by (intros y Hy; apply H; now right). destruct (IH Hl) as [IH1 IH2]. clear IH.
    cbn [arrows map flat_map]. destruct (@chunk_arrow_ok (cur x) t) as (c & C1 & C2 & _); [apply Ox|]. rewrite C1.
    destruct (set_cur_ok Ox C2) as (S1 & _ & _). rewrite mapM_app. cbn [d_vals D].
    assert (Rl : Forall2 rel l l) by (clear -Hl; induction l as [|y l IH]; constructor; [apply rel_refl, Hl; now left|apply IH; intros z Hz; apply Hl; now right]).
    destruct (mapM (render t) (den (cur x))) as [v|e]; cbn [bind].
    - destruct (arrows o t l) as [l' rv]. cbn [fst snd a_vals] in *. split; [now constructor|]. now rewrite IH2.
    - split; [now constructor|reflexivity].
  Qed.
  Lemma Forall2_rel_refl l : (forall y, In y l -> ok y) -> Forall2 rel l l.
  Proof.
    induction l as [|y l IH]; intro H; constructor; [apply rel_refl, H; now left|apply IH; intros z Hz; apply H; now right].
  Qed.
  Lemma Forall2_rel_trans l1 l2 l3 : Forall2 rel l1 l2 -> Forall2 rel l2 l3 -> Forall2 rel l1 l3.
  Proof.
    intro H. revert l3. induction H as [|a b l1 l2 R F IH]; intros l3 G; inversion G; subst; constructor.
    - now apply rel_trans with b.
    - now apply IH.
  Qed.
  Lemma Forall2_rel_ok l l' : Forall2 rel l l' -> forall x, In x l' -> ok x.
  Proof.
    induction 1 as [|a b l l' R F IH]; [easy|]. intros x [<-|Hx]; [apply R|now apply IH].
  Qed.
  Lemma has_D k l : has k l = p_has k (map D l).
  Proof. unfold has, p_has. induction l as [|x l IH]; [reflexivity|]. cbn. now rewrite IH. Qed.
  Lemma step_nums_fresh l : (forall x, In x l -> fresh x) ->
    forall x, In x (fst (walk false (step_nums o) l)) -> sl_kind x = KStr -> fresh x.
  Proof.
    induction l as [|y l IH]; intro H; [easy|]. cbn [walk].
    assert (Hl : forall z, In z l -> fresh z) by (intros z Hz; apply H; now right).
    assert (Hy : fresh y) by (apply H; now left). specialize (IH Hl).
    assert (S : sl_kind (fst (step_nums o y)) = KStr -> fresh (fst (step_nums o y))).
    { unfold step_nums. destruct (kind_eqb (sl_kind y) KNum) eqn:E; [|now intros _].
      apply kind_eqb_true in E. destruct (as_temporal o None (cur y)); cbn; intro K; [congruence|exact Hy]. }
    destruct (step_nums o y) as [y' [b|e]]; cbn [fst] in *.
    - rewrite andb_false_r. destruct (walk false (step_nums o) l) as [l' rb]. cbn [fst] in *.
      intros x [<-|Hx]; [exact S|now apply IH].
    - intros x [<-|Hx]; [exact S|intros _; now apply Hl].
  Qed.

  Lemma resolve_ok l : (forall x, In x l -> ok x /\ fresh x) ->
    Forall2 rel l (fst (resolve o cf l)) /\ agrees_l (p_resolve (map D l)) (resolve o cf l).
  Proof.
    intro H. assert (Ho : forall x, In x l -> ok x) by (intros; now apply H). unfold resolve, p_resolve. rewrite !has_D.
    destruct (p_has KTemp (map D l)).
    - destruct (cf_datetime cf); [|split; [now apply Forall2_rel_refl|now split]].
      destruct (@walk_ok fresh false (step_nums o) p_nums l step_nums_ok H) as [W1 W2].
      pose proof (@step_nums_fresh l (fun x Hx => proj2 (H x Hx))) as W3.
      destruct (walk false (step_nums o) l) as [l1 r1]. cbn [fst snd] in *. unfold agrees_l in W2. cbn [fst snd] in W2.
      destruct (pwalk false p_nums (map D l)) as [[ds b]|e]; cbn [bind].
      + destruct W2 as [-> <-]. 
        destruct (@walk_ok (fun x => sl_kind x = KStr -> fresh x) false (step_utf8_temporal o cf) p_temporal l1 step_temporal_ok) as [V1 V2].
        { intros x Hx. split; [exact (Forall2_rel_ok W1 Hx)|now apply W3]. }
        split; [now apply Forall2_rel_trans with l1|exact V2].
      + subst r1. split; [exact W1|reflexivity].
    - destruct (p_has KNum (map D l) && p_has KStr (map D l)); [|split; [now apply Forall2_rel_refl|now split]].
      destruct (cf_numerics cf); [|split; [now apply Forall2_rel_refl|now split]].
      apply (@walk_ok (fun x => sl_kind x = KStr -> fresh x) true (step_utf8_numeric o) p_numeric l step_numeric_ok).
      intros x Hx. split; [now apply H|]. intros _. now apply H.
  Qed.
  Lemma map_nil A B (f : A -> B) l : map f l = [] -> l = [].
  Proof. now destruct l. Qed.
  Lemma finish_ok l b : (forall x, In x l -> ok x) ->
    Forall2 rel l (fst (finish o cf l b)) /\ snd (finish o cf l b) = p_finish (map D l) b.
  Proof.
    intro H. unfold finish, p_finish, p_type. rewrite !has_D.
    assert (G : forall t l2, Forall2 rel l l2 -> map D l2 = map D l ->
      Forall2 rel l (fst (match l2 with [] => ([], Err ValueError) | _ => let '(l, v) := arrows o t l2 in (l, v <- v ;; Ok (mkA t v)) end)) /\
      snd (match l2 with [] => ([], Err ValueError) | _ => let '(l, v) := arrows o t l2 in (l, v <- v ;; Ok (mkA t v)) end)
      = match map D l with [] => Err ValueError | _ => v <- mapM (render t) (flat_map d_vals (map D l)) ;; Ok (mkA t v) end).
    { intros t l2 R E. destruct (@arrows_ok t l2 (Forall2_rel_ok R)) as [A1 A2].
      destruct l2 as [|x l2].
      - cbn in E. symmetry in E. rewrite E. split; [|reflexivity]. inversion R; subst. constructor.
      - rewrite E in A2. destruct (arrows o t (x :: l2)) as [l3 rv]. cbn [fst snd] in *.
        split; [now apply Forall2_rel_trans with (x :: l2)|]. rewrite A2.
        destruct (map D l) as [|d ds] eqn:E2; [discriminate|]. reflexivity. }
    destruct b; [apply (G TUtf8 l); [now apply Forall2_rel_refl|reflexivity]|].
    destruct (p_has KTemp (map D l)); [apply (G TMs l); [now apply Forall2_rel_refl|reflexivity]|].
    destruct (p_has KNum (map D l)); [|apply (G TUtf8 l); [now apply Forall2_rel_refl|reflexivity]].
    destruct (@walk_ok (fun _ => True) true (step_integer o cf) p_integer l (fun x Ox _ => step_integer_ok Ox)) as [W1 W2].
    { intros x Hx. split; [now apply H|exact I]. }
    destruct (walk true (step_integer o cf) l) as [l1 r1]. cbn [fst snd] in *. unfold agrees_l in W2. cbn [fst snd] in W2.
    destruct (pwalk true p_integer (map D l)) as [[ds b]|e] eqn:P; cbn [bind].
    - destruct W2 as [-> W2]. cbn [bind].
      assert (Ed : ds = map D l).
      { clear -P. revert ds b P. induction (map D l) as [|d r IH]; intros ds b P; cbn in P; [now inversion P|].
        unfold p_integer in P at 1. destruct (d_cur d); cbn [bind] in P; try discriminate.
        - destruct (pwalk true p_integer r) as [[r' c]|e] eqn:Er; cbn [bind] in P; [|discriminate].
          inversion P; subst. f_equal. eapply IH; reflexivity.
        - destruct (negb _ && true).
          + now inversion P.
          + destruct (pwalk true p_integer r) as [[r' c]|e] eqn:Er; cbn [bind] in P; [|discriminate].
            inversion P; subst. f_equal. eapply IH; reflexivity. }
      apply (G (if b then TF8 else TI8) l1); [exact W1|congruence].
    - subst r1. cbn [bind]. split; [exact W1|reflexivity].
  Qed.
  Theorem run_ok l : (forall x, In x l -> ok x /\ fresh x) ->
    Forall2 rel l (fst (run o cf l)) /\ snd (run o cf l) = p_run (map D l).
  Proof.
    intro H. unfold run, p_run. destruct (@resolve_ok l H) as [R1 R2].
    destruct (resolve o cf l) as [l1 r1]. cbn [fst snd] in *. unfold agrees_l in R2. cbn [fst snd] in R2.
    destruct (p_resolve (map D l)) as [[ds b]|e]; cbn [bind].
    - destruct R2 as [-> <-]. destruct (@finish_ok l1 b (Forall2_rel_ok R1)) as [F1 F2].
      split; [now apply Forall2_rel_trans with l1|exact F2].
    - subst r1. split; [exact R1|reflexivity].
  Qed.
  Theorem run_new es : (forall e, In e es -> shape (snd e) = true) ->
    Forall2 rel (map new_slot es) (fst (run o cf (map new_slot es))) /\
    snd (run o cf (map new_slot es)) = p_run (map (fun e => desc_of (snd e)) es).
  Proof.
    intro H. destruct (@run_ok (map new_slot es)) as [R1 R2].
    - intros x Hx. apply in_map_iff in Hx. destruct Hx as (e & <- & He). specialize (H e He).
      split; [|reflexivity]. repeat split; assumption.
    - split; [exact R1|]. rewrite R2. f_equal. rewrite map_map. apply map_ext. intro e. reflexivity.
  Qed.
End Run.
