(** Which exceptions the reading of arbitrary cells can raise at all. *)
From Verif Require Import Py PyFacts PyText Cell Casts Chunk Series Reader ReaderSpec TableSpec.
Set Implicit Arguments. Unset Strict Implicit.

Section Only.
  (** The exceptions allowed. *)
  Context (P : exn -> Prop).
  Definition only {A} (r : res A) : Prop := match r with Ok _ => True | Err e => P e end.
  Lemma only_bind A B (r : res A) (f : A -> res B) : only r -> (forall a, only (f a)) -> only (bind r f).
  Proof. destruct r; cbn; auto. Qed.
  Lemma only_mapM A B (f : A -> res B) l : (forall x, only (f x)) -> only (mapM f l).
  Proof. intro H. induction l as [|x l IH]; cbn [mapM]; [exact I|]. apply only_bind; [apply H|]. intro y. apply only_bind; [exact IH|]. intros; exact I. Qed.

  Context (PI : P IndexError) (PV : P ValueError) (PT : P TypeError) (PA : P ArrowInvalid) (PU : P Undefined).
  Context (o : oracle).
  Ltac only_step :=
    match goal with
    | |- only (Ok _) => exact I
    | |- only (Err _) => assumption
    | |- only (bind _ _) => apply only_bind
    | |- only (mapM _ _) => apply only_mapM
    | |- forall _, _ => intro
    | |- only (if ?b then _ else _) => destruct b
    | |- only (match ?x with _ => _ end) => destruct x
    | |- only (let '(_, _) := ?x in _) => destruct x
    end.
  Ltac onlys := repeat (cbv zeta; first [assumption | exact I | solve [auto] | only_step]).

  Lemma take_shared_only sref l : only (take_shared sref l).
  Proof. induction l as [|i r IH]; cbn [take_shared]; onlys. Qed.
  Lemma prepare_only c : only (prepare o c).
  Proof. pose proof take_shared_only. unfold prepare. onlys. Qed.
  Lemma cast_opt_only a b v : only (cast_opt o a b v).
  Proof. unfold cast_opt, cast_val. destruct v as [v|]; [|exact I]. destruct v, b; cbn; onlys. Qed.
  Lemma unsafe_cast_only a t : only (unsafe_cast o a t).
  Proof. pose proof cast_opt_only. unfold unsafe_cast. onlys. Qed.
  Lemma chunk_arrow_only c d : only (fst (chunk_arrow o c d)).
  Proof.
    pose proof (prepare_only c). pose proof unsafe_cast_only. unfold chunk_arrow. destruct (k_type c =? 0); [destruct (k_data c); cbn [fst]; onlys|].
    destruct (prepare o c) as [c'|e]; cbn [fst]; [|assumption]. unfold raw_array. onlys.
  Qed.
  Lemma as_numeric_only c : only (fst (as_numeric o c)).
  Proof.
    unfold as_numeric. destruct (_ || _); [exact I|]. pose proof (chunk_arrow_only c (Some TF8)). destruct (chunk_arrow o c (Some TF8)) as [a c']. cbn [fst] in *. onlys.
  Qed.
  Lemma mf_loop_only parse junk fmts arr : forall acc, only (mf_loop parse junk fmts arr acc).
  Proof. induction fmts as [|f r IH]; intro acc; cbn [mf_loop]; onlys. Qed.
  Lemma slice_list_only A (l : list A) x : only (slice_list l x).
  Proof. unfold slice_list, slice_indices. onlys. Qed.
  Lemma take_list_only A m (l : list A) ix : P m -> only (take_list m l ix).
  Proof. intro. pose proof (@slice_list_only A). unfold take_list. onlys. Qed.
  Lemma take_chunk_only c ix : only (take_chunk c ix).
  Proof.
    unfold take_chunk, take_data. destruct (k_type c =? 0); [onlys|]. apply only_bind; [|intros; exact I].
    destruct (k_data c); try assumption; (apply only_bind; [now apply take_list_only|intros; exact I]).
  Qed.
  Lemma over_mask_only l : forall off io cum m, only (over_mask l off io cum m).
  Proof.
    pose proof take_chunk_only. induction l as [|[src c] r IH]; intros; cbn [over_mask]; [exact I|]. onlys.
  Qed.
  Lemma over_len_only l : forall off len cum, only (over_len l off len cum).
  Proof.
    pose proof take_chunk_only. induction l as [|[src c] r IH]; intros; cbn [over_len]; [exact I|]. onlys.
  Qed.
  Lemma take_over_only l off len idx : only (take_over l off len idx).
  Proof. pose proof over_mask_only. pose proof over_len_only. unfold take_over. onlys. Qed.

  Context (cf : conf) (PN : cf_datetime cf = true -> P ArrowNotImplemented).
  Lemma as_temporal_only fmts c : cf_datetime cf = true -> only (as_temporal o fmts c).
  Proof.
    intro D. pose proof (PN D) as PN'. pose proof mf_loop_only as M. unfold as_temporal, mf_strptime.
    destruct (flag _ _); [onlys|]. destruct (k_data c); try assumption. apply only_bind; [|intros; exact I]. onlys.
  Qed.
  Lemma walk_only stop f l : (forall x, only (snd (f x))) -> only (snd (walk stop f l)).
  Proof.
    intro F. induction l as [|x r IH]; cbn [walk]; [exact I|]. specialize (F x). destruct (f x) as [x' [b|e]]; cbn [snd] in *; [|exact F].
    destruct (b && stop); [exact I|]. destruct (walk stop f r) as [r' b']. cbn [snd] in *. onlys.
  Qed.
  Lemma step_nums_only x : cf_datetime cf = true -> only (snd (step_nums o x)).
  Proof.
    intro D. unfold step_nums. destruct (kind_eqb _ _); [|exact I]. pose proof (@as_temporal_only None (cur x) D) as H. now destruct (as_temporal o None (cur x)).
  Qed.
  Lemma step_utf8_temporal_only x : cf_datetime cf = true -> only (snd (step_utf8_temporal o cf x)).
  Proof.
    intro D. unfold step_utf8_temporal. destruct (kind_eqb _ _); [|exact I]. pose proof (@as_temporal_only (cf_formats cf) (cur x) D) as H.
    destruct (as_temporal o (cf_formats cf) (cur x)) as [c|e]; [exact I|]. destruct e; try exact H.
    destruct (cf_numerics cf); [|exact I]. pose proof (as_numeric_only (cur x)) as N. destruct (as_numeric o (cur x)) as [n obj]. cbn [fst] in N.
    assert (B : only (n <- n ;; as_temporal o None n)) by (apply only_bind; [exact N|intro; now apply as_temporal_only]).
    destruct (n <- n ;; as_temporal o None n) as [c|e]; [exact I|]. destruct e; try exact B. exact I.
  Qed.
  Lemma step_utf8_numeric_only x : only (snd (step_utf8_numeric o x)).
  Proof.
    unfold step_utf8_numeric. destruct (kind_eqb _ _); [|exact I]. pose proof (as_numeric_only (cur x)) as N. destruct (as_numeric o (cur x)) as [n obj]. cbn [fst] in N.
    destruct n as [c|e]; [exact I|]. destruct e; try exact N. exact I.
  Qed.
  Lemma step_integer_only x : only (snd (step_integer o cf x)).
  Proof.
    unfold step_integer. destruct (_ =? _); [exact I|]. pose proof (prepare_only (cur x)) as H. destruct (prepare o (cur x)) as [c|e]; [|exact H].
    destruct (k_data c); cbn [snd]; onlys.
  Qed.
  Lemma arrows_only d l : only (snd (arrows o d l)).
  Proof.
    induction l as [|x r IH]; cbn [arrows]; [exact I|]. pose proof (chunk_arrow_only (cur x) (Some d)) as H. destruct (chunk_arrow o (cur x) (Some d)) as [[a|e] c]; cbn [fst] in H; [|exact H].
    destruct (arrows o d r) as [r' v]. cbn [snd] in *. onlys.
  Qed.
  Lemma resolve_only l : only (snd (resolve o cf l)).
  Proof.
    unfold resolve. destruct (has KTemp l).
    - case_eq (cf_datetime cf); intro D; [|exact I]. pose proof (@walk_only false (step_nums o) l (fun x => step_nums_only x D)) as H.
      destruct (walk false (step_nums o) l) as [l' [b|e]]; [|exact H]. apply walk_only. intro x. now apply step_utf8_temporal_only.
    - destruct (_ && _); [|exact I]. destruct (cf_numerics cf); [|exact I]. apply walk_only, step_utf8_numeric_only.
  Qed.
  Lemma finish_only l fb : only (snd (finish o cf l fb)).
  Proof.
    unfold finish. pose proof (@walk_only true (step_integer o cf) l step_integer_only) as W. destruct (walk true (step_integer o cf) l) as [lw bw]. cbn [snd] in W.
    assert (G : forall (l : list slot) (d : res dtype), only d -> only (snd (match d with Err e => (l, Err e) | Ok d => match l with [] => ([], Err ValueError)
      | _ => let '(l, v) := arrows o d l in (l, v <- v ;; Ok (mkA d v)) end end))).
    { intros l0 [d|e] D; [|exact D]. destruct l0 as [|x r]; [exact PV|]. pose proof (arrows_only d (x :: r)) as A. destruct (arrows o d (x :: r)) as [l' v]. cbn [snd] in *. onlys. }
    destruct fb; [exact (G l (Ok TUtf8) I)|]. destruct (has KTemp l); [exact (G l (Ok TMs) I)|]. destruct (has KNum l); [|exact (G l (Ok TUtf8) I)].
    refine (G lw (b <- bw ;; Ok (if b then TF8 else TI8)) _). onlys.
  Qed.
  Lemma run_only l : only (snd (run o cf l)).
  Proof. unfold run. pose proof (resolve_only l) as R. destruct (resolve o cf l) as [l' [b|e]]; [apply finish_only|exact R]. Qed.
  Lemma concatenate_only st off len idx : only (snd (concatenate o cf st off len idx)).
  Proof.
    unfold concatenate. destruct (windowed off len idx).
    - pose proof (take_over_only (number 0 st) off len idx) as T. destruct (take_over _ _ _ _) as [es|e]; [|exact T].
      pose proof (run_only (map new_slot es)) as R. now destruct (run o cf (map new_slot es)).
    - pose proof (run_only (map new_slot (number 0 st))) as R. now destruct (run o cf (map new_slot (number 0 st))).
  Qed.
End Only.

Section Columns.
  Context (P : exn -> Prop) (PI : P IndexError) (PV : P ValueError) (PT : P TypeError) (PA : P ArrowInvalid) (PU : P Undefined).
  Context (ro : roracle) (sc : sconf) (PN : cf_datetime (sc_conf sc) = true -> P ArrowNotImplemented).
  Local Notation o := (ro_o ro).
  Local Notation only := (only P).
  Lemma val_text_only v : only (val_text v).
  Proof. destruct v; cbn [val_text]; [|exact I]. match goal with |- only (match ?x with _ => _ end) => now destruct x end. Qed.
  Lemma val_bytes_only v : only (val_bytes v).
  Proof. now destruct v. Qed.
  Lemma py_int_only b : only (py_int b).
  Proof. unfold py_int. match goal with |- only (match ?x with _ => _ end) => destruct x end; [exact I|exact PV]. Qed.
  Lemma make_only xdt data : only (make_chunk o sc xdt data).
  Proof.
    assert (S : forall d, only (l <- mapM val_text d ;; Ok (mkC (DStr (map Some l)) (Z.lor TYPE_STRING REPR_PREPARED) (zlen d) []))).
    { intro d. apply only_bind; [apply only_mapM, val_text_only|]. intros; exact I. }
    unfold make_chunk. destruct (flag xdt TYPE_STRING); [|destruct (sc_binary sc)].
    - destruct (sc_binary sc); unfold xlsb_strings, xlsx_strings; (destruct (flag xdt REPR_SHARED); [|apply S]).
      + apply only_bind; [apply only_bind; [apply only_mapM, val_bytes_only|intros; exact I]|]. intro b. now destruct (_ <? _).
      + apply only_bind; [|intros; exact I]. apply only_mapM. intro v. apply only_bind; [apply val_bytes_only|]. intro b. apply only_bind; [apply py_int_only|]. intro i. now destruct (_ && _).
    - unfold xlsb_numeric. apply only_bind; [apply only_bind; [apply only_mapM, val_bytes_only|intros; exact I]|]. intro b. apply only_bind; [|intros; exact I].
      unfold frombuffer. destruct (flag xdt REPR_RKNUMBER); [|destruct (flag xdt REPR_BOOLEAN)]; [|exact I|]; (apply only_bind; [now destruct (Nat.eqb _ _)|intros; exact I]).
    - unfold xlsx_numeric. match goal with |- only (match ?m with _ => _ end) => assert (M : only m) end.
      { apply only_mapM. intro v. apply only_bind; [apply val_bytes_only|]. intro b. now destruct (o_float o b). }
      destruct (mapM _ data) as [l|e]; [exact I|]. destruct e; try exact M. apply S.
  Qed.
  Lemma pull_some_only x : only (pull_some o sc x).
  Proof. unfold pull_some, pull. destruct (se_chunk x); [exact I|]. apply only_bind; [apply make_only|]. intros; exact I. Qed.
  Lemma add_only x c : only (add o sc x c).
  Proof.
    unfold add. destruct (_ <=? _); [exact I|]. apply only_bind; [destruct (_ <? _); [|exact I]; apply only_bind; [apply pull_some_only|intros; exact I]|].
    intro y. apply only_bind; [destruct (_ =? _); [exact I|]; apply only_bind; [apply pull_some_only|intros; exact I]|]. intros; exact I.
  Qed.
  Lemma to_arrow_only x off len idx : only (snd (to_arrow o sc x off len idx)).
  Proof.
    unfold to_arrow. pose proof (pull_some_only x) as H. destruct (pull_some o sc x) as [y|e]; [|exact H].
    destruct (se_chunks y) as [|c r]; [cbn [snd]; unfold null_array; now destruct (_ <? _)|].
    pose proof (concatenate_only PI PV PT PA PU o PN (c :: r) off len idx) as C. now destruct (concatenate _ _ _ _ _ _).
  Qed.
  Lemma to_utf8_only x off len idx : only (snd (to_utf8 o sc x off len idx)).
  Proof.
    unfold to_utf8. pose proof (pull_some_only x) as H. destruct (pull_some o sc x) as [y|e]; [|exact H].
    destruct (se_chunks y) as [|c r]; [cbn [snd]; unfold null_array; now destruct (_ <? _)|].
    pose proof (concatenate_only PI PV PT PA PU o PN (c :: r) off len idx) as C. destruct (concatenate _ _ _ _ _ _) as [l a]. cbn [snd] in *.
    apply only_bind; [exact C|]. intro b. destruct (dtype_eqb _ _); [exact I|]. now apply unsafe_cast_only.
  Qed.

  (** Columns keep their places in the dictionary. *)
  Lemma dset_keys (d : cols) k x y : dget Z.eqb d k = Some y -> keys (dset Z.eqb d k x) = keys d.
  Proof. unfold keys. induction d as [|[j z] d IH]; cbn; [discriminate|]. destruct (k =? j); [reflexivity|]. intro H. cbn. f_equal. now apply IH. Qed.
  Lemma dget_key (d : cols) k : In k (keys d) -> dget Z.eqb d k <> None.
  Proof.
    unfold keys. induction d as [|[j z] d IH]; cbn; [easy|]. destruct (Z.eqb_spec k j); [easy|]. intros [E|I]; [congruence|now apply IH].
  Qed.
  Context (K : list Z).
  Definition stays {A} (r : res (cols * A)) : Prop := match r with Ok (d, _) => keys d = K | Err e => P e end.
  Lemma stays_bind A B (r : res (cols * A)) (f : cols * A -> res (cols * B)) : stays r -> (forall d a, keys d = K -> stays (f (d, a))) -> stays (bind r f).
  Proof. destruct r as [[d a]|e]; cbn; [intros H G; now apply G|now intros H _]. Qed.
  Lemma stays_only A B (r : res (cols * A)) (f : cols * A -> res B) : stays r -> (forall d a, keys d = K -> only (f (d, a))) -> only (bind r f).
  Proof. destruct r as [[d a]|e]; cbn; [intros H G; now apply G|now intros H _]. Qed.
  Lemma only_stays A B (r : res A) (f : A -> res (cols * B)) : only r -> (forall a, stays (f a)) -> stays (bind r f).
  Proof. destruct r as [a|e]; cbn; [intros H G; now apply G|now intros H _]. Qed.
  Lemma arrow_of_stays d k off len idx : keys d = K -> In k K -> stays (arrow_of ro sc d k off len idx).
  Proof.
    intros H N. unfold arrow_of. destruct (dget Z.eqb d k) as [x|] eqn:E; [|exfalso; apply (@dget_key d k); congruence].
    pose proof (to_arrow_only x off len idx) as T. destruct (to_arrow o sc x off len idx) as [y [a|e]]; cbn [snd bind stays] in *; [|exact T]. now rewrite (dset_keys y E).
  Qed.
  Lemma texts_stays d k off len : keys d = K -> (In k K \/ P KeyError) -> stays (texts ro sc d k off len).
  Proof.
    intros H N. unfold texts, ask. destruct (dget Z.eqb d k) as [x|] eqn:E.
    - pose proof (to_utf8_only x off len None) as T. destruct (to_utf8 o sc x off len None) as [y [a|e]]; cbn [snd bind stays] in *; [|exact T]. now rewrite (dset_keys y E).
    - destruct N as [N|N]; [exfalso; apply (@dget_key d k); congruence|exact N].
  Qed.
  Lemma each_stays A (f : cols -> Z -> res (cols * A)) ks : (forall d k, keys d = K -> In k ks -> stays (f d k)) -> forall d, keys d = K -> stays (each f d ks).
  Proof.
    induction ks as [|k ks IH]; intros F d H; cbn [each]; [exact H|]. apply stays_bind; [apply F; [exact H|now left]|]. intros d1 a H1.
    apply stays_bind; [apply IH; [intros; apply F; [assumption|now right]|exact H1]|]. intros d2 l H2. exact H2.
  Qed.
  Lemma sorted_incl l k : In k (sorted l) -> In k l.
  Proof.
    assert (G : forall x l, In k (insert x l) -> k = x \/ In k l).
    { intros x m. induction m as [|y m IH]; cbn; [intuition|]. destruct (x <=? y); cbn; [intuition|]. intros [E|I]; [intuition|]. destruct (IH I); intuition. }
    induction l as [|x l IH]; [easy|]. intro H. cbn in H. apply G in H as [->|H]; [now left|right; now apply IH].
  Qed.

  Lemma make_header_stays d first n : keys d = K -> stays (make_header ro sc d first n).
  Proof.
    intro H. unfold make_header. assert (S : forall k, In k (sorted (keys d)) -> In k K) by (intros k I; rewrite <- H; now apply sorted_incl).
    destruct (n =? 1).
    - apply each_stays; [|exact H]. intros d1 k H1 I. apply stays_bind; [apply texts_stays; [exact H1|left; now apply S]|]. intros d2 l H2. destruct l; [exact PI|exact H2].
    - apply stays_bind; [|intros d1 b H1; exact H1]. apply each_stays; [|exact H]. intros d1 k H1 I. apply texts_stays; [exact H1|left; now apply S].
  Qed.
  Lemma find_text_stays p size : forall ks d, incl ks K -> keys d = K -> stays (find_text ro sc p d ks size).
  Proof.
    induction ks as [|k ks IH]; intros d S H; cbn [find_text]; [exact H|]. apply stays_bind; [apply texts_stays; [exact H|left; apply S; now left]|]. intros d1 l H1.
    destruct (index_of _ l); [exact H1|]. apply IH; [intros j J; apply S; now right|exact H1].
  Qed.
  Lemma locate_stays op d : keys d = K -> (forall k, r_lookup op = Some (LCol k) -> In k K \/ P KeyError) -> stays (locate ro sc op d).
  Proof.
    intros H L. unfold locate. destruct (r_lookup op) as [pat|]; [|exact H]. apply stays_bind; [|intros d1 r H1; destruct (r =? -1); [exact PV|exact H1]].
    unfold find_header. destruct pat as [k|t].
    - apply stays_bind; [apply texts_stays; [exact H|now apply L]|]. intros d1 l H1. exact H1.
    - destruct (ro_search ro t) as [p|]; [apply find_text_stays; [rewrite H; apply incl_refl|exact H]|].
      destruct d as [|[k x] d]; [exact H|]. apply stays_bind; [|intros; exact PA]. apply texts_stays; [exact H|]. left. rewrite <- H. now left.
  Qed.
  Lemma name_columns_stays op d first : keys d = K -> stays (name_columns ro sc op d first).
  Proof.
    intro H. unfold name_columns. destruct (r_header op) as [n|l].
    - destruct (n =? 0); [exact H|]. apply stays_bind; [now apply make_header_stays|]. intros d1 l H1. exact H1.
    - destruct (Nat.eqb _ _); [exact H|exact PV].
  Qed.
  Lemma any_match_only pats n : (forall t, In t pats -> ro_match ro t = None -> P ReError) -> only (any_match ro pats n).
  Proof.
    induction pats as [|t r IH]; intro R; cbn [any_match]; [exact I|]. pose proof (R t (or_introl eq_refl)) as Rt.
    destruct (ro_match ro t) as [m|]; [|now apply Rt]. destruct (m n); [exact I|]. apply IH. intros u U. apply R. now right.
  Qed.
  Lemma named_only pats : (forall t, In t pats -> ro_match ro t = None -> P ReError) -> forall names ks, only (named ro pats names ks).
  Proof.
    intro R. induction names as [|n names IH]; intros [|k ks]; cbn [named]; try exact I.
    apply only_bind; [now apply any_match_only|]. intro b. apply only_bind; [apply IH|]. intros; exact I.
  Qed.
  Lemma filter_keys_only fa names ks : (forall t, In t (patterns fa) -> ro_match ro t = None -> P ReError) -> only (filter_keys ro fa names ks).
  Proof.
    intro R. destruct fa as [|[|c t]|[|i is]|[|t l]|]; cbn [filter_keys patterns] in *; try exact I; try (now apply named_only). exact PV.
  Qed.
  Lemma named_in pats k : forall names ks l, named ro pats names ks = Ok l -> In k l -> In k ks.
  Proof.
    induction names as [|n names IH]; intros [|j ks] l; cbn [named]; try (intros [= <-]; easy).
    destruct (any_match ro pats n) as [b|]; cbn [bind]; [|discriminate]. destruct (named ro pats names ks) as [l'|] eqn:E; cbn [bind]; [|discriminate].
    intros [= <-]. destruct b; [intros [->|I]; [now left|]|intro I]; right; exact (IH _ _ E I).
  Qed.
  Lemma placed_in is k : forall ks i, In k (placed is i ks) -> In k ks.
  Proof.
    induction ks as [|j ks IH]; intro i; cbn [placed]; [easy|]. destruct (mem_Z i is); [intros [->|J]; [now left|]|intro J]; right; exact (IH _ J).
  Qed.
  Lemma filter_keys_in fa names ks l k : filter_keys ro fa names ks = Ok l -> In k l -> In k ks.
  Proof.
    destruct fa as [|[|c t]|[|i is]|[|t l']|]; cbn [filter_keys]; try (intros [= <-]; easy); try (now apply named_in). intros [= <-]. apply placed_in.
  Qed.
  Lemma fold_bool_only : forall ops acc l, only (fold_bool ops acc l).
  Proof.
    induction ops as [|op ops IH]; intros acc [|x l]; cbn [fold_bool]; try exact I. apply only_bind; [unfold zip_bool; now destruct (Nat.eqb _ _)|]. intros; apply IH.
  Qed.
  Lemma combine_filters_only st l : only (combine_filters st l).
  Proof.
    destruct l as [|m [|m' r]]; [exact PU|exact I|]. cbn [combine_filters]. destruct st as [| |ops|]; try apply fold_bool_only; [|exact PT].
    destruct (negb _); [exact PV|]. destruct (existsb _ _); [exact PV|apply fold_bool_only].
  Qed.
  Lemma row_mask_stays st d ks off len : keys d = K -> incl ks K -> stays (row_mask ro sc st d ks off len).
  Proof.
    intros H S. unfold row_mask. destruct ks as [|k ks]; [exact H|]. apply stays_bind.
    - apply each_stays; [|exact H]. intros d1 j H1 J. apply stays_bind; [apply arrow_of_stays; [exact H1|now apply S]|]. intros d2 a H2. exact H2.
    - intros d1 l H1. apply only_stays; [apply combine_filters_only|]. intro m. destruct (_ =? _); [exact PV|exact H1].
  Qed.
  Lemma cast_col_only a d : only (cast_col ro a d).
  Proof.
    unfold cast_col. destruct (_ =? _); [exact I|]. destruct (ro_castable _ _ _); [|exact PV].
    apply only_bind; [|intros; exact I]. apply only_mapM. intros [v|]; cbn; [|exact I]. now destruct (ro_cast ro d v).
  Qed.
  Lemma cast_all_only dt names arrays : only (cast_all ro dt names arrays).
  Proof.
    destruct dt as [|d|l|ds]; cbn [cast_all].
    - exact I.
    - apply only_mapM. intros; apply cast_col_only.
    - revert arrays. induction names as [|n names IH]; intros [|a arrays]; cbn [cast_dict]; try exact I.
      apply only_bind; [destruct (dget _ _ _); [apply cast_col_only|exact I]|]. intro c. apply only_bind; [apply IH|intros; exact I].
    - destruct (Nat.eqb _ _); [|exact PV]. clear names. revert ds. induction arrays as [|a arrays IH]; intros [|d ds]; cbn [cast_seq]; try exact I.
      apply only_bind; [apply cast_col_only|]. intro c. apply only_bind; [apply IH|intros; exact I].
  Qed.
  Theorem read_columns_only op d : keys d = K ->
    (forall k, r_lookup op = Some (LCol k) -> In k K \/ P KeyError) -> (forall t, In t (patterns (r_filters op)) -> ro_match ro t = None -> P ReError) ->
    only (read_columns ro sc op d).
  Proof.
    intros H L R. unfold read_columns. apply only_bind; [unfold max_len; now destruct (map _ d)|]. intro n.
    apply stays_only; [now apply locate_stays|]. intros d1 first H1. apply stays_only; [now apply name_columns_stays|]. intros d2 [h names] H2.
    pose proof (@filter_keys_only (r_filters op) names (sorted (keys d2)) R) as F. destruct (filter_keys ro (r_filters op) names (sorted (keys d2))) as [fs|e] eqn:E; [|exact F]. cbn [bind].
    cbv zeta. apply stays_only.
    - apply row_mask_stays; [exact H2|]. intros k J. rewrite <- H2. apply sorted_incl. exact (filter_keys_in E J).
    - intros d3 idx H3. apply stays_only; [apply each_stays; [|exact H3]|].
      + intros d4 k H4 J. apply arrow_of_stays; [exact H4|]. rewrite <- H3. now apply sorted_incl.
      + intros d4 arrays _. apply only_bind; [apply cast_all_only|]. intro l. unfold mk_table. destruct (negb _); [exact PV|]. destruct l as [|c r]; [exact I|]. now destruct (forallb _ r).
  Qed.
End Columns.

Section Cells.
  Context (P : exn -> Prop) (PI : P IndexError) (PV : P ValueError) (PT : P TypeError) (PA : P ArrowInvalid) (PU : P Undefined).
  Context (ro : roracle) (sc : sconf) (PN : cf_datetime (sc_conf sc) = true -> P ArrowNotImplemented).
  Lemma dset_key_in (d : cols) k x j : In j (keys (dset Z.eqb d k x)) <-> j = k \/ In j (keys d).
  Proof.
    unfold keys. induction d as [|[i z] d IH]; cbn; [intuition|]. destruct (Z.eqb_spec k i); cbn; [subst; intuition|]. rewrite IH. intuition.
  Qed.
  Lemma collect_only outs : forall d, match collect ro sc d outs with
    | Ok d' => forall k, In k (keys d') <-> In k (keys d) \/ exists c, In c (Cell.cells_of outs) /\ c_col c = k
    | Err e => P e end.
  Proof.
    induction outs as [|[c|] outs IH]; intro d; cbn [collect].
    - intro k. split; [now left|]. intros [H|(c & [] & _)]. exact H.
    - unfold add_cell. pose proof (add_only PV PT PA PU ro sc match dget Z.eqb d (c_col c) with Some x => x | None => se_new end c) as A.
      destruct (add _ _ _ c) as [x|e]; cbn [bind]; [|exact A]. specialize (IH (dset Z.eqb d (c_col c) x)). destruct (collect ro sc _ outs) as [d'|e]; [|exact IH].
      intro k. rewrite IH, dset_key_in. split.
      + intros [[->|H]|(b & B & E)]; [right; exists c; split; [now left|reflexivity]|now left|right; exists b; split; [now right|exact E]].
      + intros [H|(b & [<-|B] & E)]; [left; now right|left; now left|right; exists b; now split].
    - apply IH.
  Qed.
  Theorem read_trace_only op outs f :
    (forall k, r_lookup op = Some (LCol k) -> (forall c, In c (Cell.cells_of outs) -> c_col c <> k) -> P KeyError) ->
    (forall t, In t (patterns (r_filters op)) -> ro_match ro t = None -> P ReError) ->
    forall e, read_trace ro sc op (outs, f) = Err e -> f = Some e \/ P e.
  Proof.
    intros L R e. unfold read_trace. cbn [fst snd]. pose proof (collect_only outs []) as C. destruct (collect ro sc [] outs) as [d|x]; cbn [bind]; [|intros [= <-]; now right].
    destruct f as [x|]; [intros [= <-]; now left|]. intro H. right.
    assert (O : only P (read_columns ro sc op d)).
    { apply (read_columns_only PI PV PT PA PU PN (K := keys d)); [reflexivity| |exact R]. intros k E. destruct (in_dec Z.eq_dec k (keys d)) as [I|N]; [now left|].
      right. apply (L k E). intros c J B. apply N. apply C. right. now exists c. }
    rewrite H in O. exact O.
  Qed.
End Cells.
