(** The columns collected from a sheet, and what reading them gives. *)
From Coq Require Import Sorted ZifyBool ZifyNat.
From Verif Require Import Py PyFacts PyText Cell Casts Chunk ChunkSpec ChunkProofs ChunkWindow ChunkRun ChunkClosed ChunkConcat PropsChunk
  Utf8 Series SeriesSpec SeriesProofs PropsSeries Reader ReaderSpec.
Set Implicit Arguments. Unset Strict Implicit.

(** *** Dictionaries with integer keys *)
Lemma dget_dset_Z V (d : list (Z * V)) k v k' : dget Z.eqb (dset Z.eqb d k v) k' = if k' =? k then Some v else dget Z.eqb d k'.
Proof.
  induction d as [|[j w] d IH]; cbn; [reflexivity|]. destruct (k =? j) eqn:E; cbn.
  - assert (k = j) by lia. subst j. now destruct (k' =? k).
  - rewrite IH. destruct (k' =? j) eqn:F; [|reflexivity]. now replace (k' =? k) with false by lia.
Qed.
Lemma dset_keys_Z V (d : list (Z * V)) k v : map fst (dset Z.eqb d k v) = if mem_Z k (map fst d) then map fst d else map fst d ++ [k].
Proof.
  induction d as [|[j w] d IH]; cbn; [reflexivity|]. destruct (k =? j) eqn:E; cbn; [reflexivity|].
  rewrite IH. unfold mem_Z. now destruct (existsb (Z.eqb k) (map fst d)).
Qed.
Lemma dget_In_Z V (d : list (Z * V)) k : dget Z.eqb d k <> None <-> In k (map fst d).
Proof.
  induction d as [|[j w] d IH]; cbn; [intuition congruence|]. destruct (k =? j) eqn:E.
  - assert (k = j) by lia. subst. split; [now left|congruence].
  - rewrite IH. split; [now right|]. intros [->|H]; [lia|exact H].
Qed.

(** *** Contents *)
Definition final (n : Z) (l : list cell) : Z := fold_left (fun m c => Z.max m (c_row c)) l n.
Lemma final_le n l : n <= final n l.
Proof. unfold final. revert n. induction l as [|c l IH]; intro n; cbn; [lia|]. specialize (IH (Z.max n (c_row c))). lia. Qed.
Lemma firsts_snoc l c : forall n, firsts n (l ++ [c]) = firsts n l ++ (if final n l <? c_row c then [c] else []).
Proof.
  induction l as [|a l IH]; intro n; cbn; [reflexivity|]. destruct (n <? c_row a) eqn:E.
  - cbn [app]. rewrite IH. unfold final. cbn [fold_left]. now replace (Z.max n (c_row a)) with (c_row a) by lia.
  - rewrite IH. unfold final. cbn [fold_left]. now replace (Z.max n (c_row a)) with n by lia.
Qed.
Lemma firsts_increasing l : forall n, increasing n (firsts n l) = true.
Proof.
  induction l as [|a l IH]; intro n; cbn; [reflexivity|]. destruct (n <? c_row a) eqn:E; [|apply IH]. cbn. now rewrite E, IH.
Qed.
Lemma firsts_in l c : forall n, In c (firsts n l) -> In c l.
Proof.
  induction l as [|a l IH]; intro n; cbn; [easy|]. destruct (n <? c_row a); [|now right; apply (IH n)].
  intros [->|H]; [now left|right; now apply (IH (c_row a))].
Qed.
Lemma last_row_snoc l c : last_row (l ++ [c]) = c_row c.
Proof. unfold last_row. rewrite rev_app_distr. reflexivity. Qed.
Lemma firsts_last l : last_row (firsts (-1) l) = final (-1) l.
Proof.
  induction l as [|c l IH] using rev_ind; [reflexivity|]. rewrite firsts_snoc. unfold final in *. rewrite fold_left_app. cbn [fold_left].
  destruct (fold_left (fun m c => Z.max m (c_row c)) l (-1) <? c_row c) eqn:E; [rewrite last_row_snoc; lia|]. rewrite app_nil_r, IH. lia.
Qed.
Lemma content_snoc l c k : content (l ++ [c]) k =
  if c_col c =? k then (if last_row (content l k) <? c_row c then content l k ++ [c] else content l k) else content l k.
Proof.
  unfold content, column_cells. rewrite filter_app. cbn [filter]. destruct (c_col c =? k); [|now rewrite app_nil_r].
  rewrite firsts_snoc, firsts_last. destruct (_ <? c_row c); [reflexivity|apply app_nil_r].
Qed.
Lemma content_increasing l k : increasing (-1) (content l k) = true.
Proof. apply firsts_increasing. Qed.
Lemma content_in l k c : In c (content l k) -> In c l /\ c_col c = k.
Proof. intro H. apply firsts_in in H. apply filter_In in H. split; [easy|]. destruct H. lia. Qed.
Lemma content_nil l k : ~ In k (map c_col l) -> content l k = [].
Proof.
  intro H. unfold content. enough (column_cells l k = []) as -> by reflexivity. unfold column_cells. induction l as [|c l IH]; [reflexivity|].
  cbn in *. replace (c_col c =? k) with false by (apply eq_sym; apply Z.eqb_neq; intuition). apply IH. intuition.
Qed.
Lemma content_some l k : (forall c, In c l -> 0 <= c_row c) -> In k (map c_col l) -> content l k <> [].
Proof.
  intros R H. unfold content. induction l as [|c l IH]; [easy|]. unfold column_cells in *. cbn [filter]. destruct (c_col c =? k) eqn:E.
  - cbn. pose proof (R c (or_introl eq_refl)). now replace (-1 <? c_row c) with true by lia.
  - apply IH; [intros; apply R; now right|]. destruct H as [H|H]; [lia|exact H].
Qed.

(** *** Sorting *)
Lemma insert_in k l j : In j (insert k l) <-> j = k \/ In j l.
Proof.
  induction l as [|a l IH]; cbn; [intuition|]. destruct (k <=? a); cbn; [intuition|]. rewrite IH. intuition.
Qed.
Lemma insert_sorted k l : ~ In k l -> StronglySorted Z.lt l -> StronglySorted Z.lt (insert k l).
Proof.
  intros N S. induction S as [|a l S IH F]; cbn; [constructor; [constructor|constructor]|].
  destruct (k <=? a) eqn:E.
  - constructor; [now constructor|]. constructor; [cbn in N; lia|]. rewrite Forall_forall in *. intros x Hx. specialize (F x Hx). lia.
  - constructor; [apply IH; cbn in N; intuition|]. rewrite Forall_forall in *. intros x Hx. apply insert_in in Hx. destruct Hx as [->|Hx]; [lia|now apply F].
Qed.
Lemma sorted_in l k : In k (sorted l) <-> In k l.
Proof. induction l as [|a l IH]; cbn; [easy|]. rewrite insert_in, IH. intuition. Qed.
Lemma sorted_sorted l : NoDup l -> StronglySorted Z.lt (sorted l).
Proof.
  induction 1 as [|a l N D IH]; cbn; [constructor|]. apply insert_sorted; [now rewrite sorted_in|exact IH].
Qed.
Lemma sorted_unique a b : StronglySorted Z.lt a -> StronglySorted Z.lt b -> (forall k, In k a <-> In k b) -> a = b.
Proof.
  intro S. revert b. induction S as [|x a S IH F]; intros b S' H.
  - destruct b as [|y b]; [reflexivity|]. exfalso. apply (H y). now left.
  - destruct S' as [|y b S' F']; [exfalso; apply (H x); now left|]. rewrite Forall_forall in F, F'.
    assert (x = y).
    { assert (A : In x (y :: b)) by (apply H; now left). assert (B : In y (x :: a)) by (apply H; now left).
      destruct A as [A|A]; [easy|]. destruct B as [B|B]; [easy|]. specialize (F y B). specialize (F' x A). lia. }
    subst y. f_equal. apply IH; [exact S'|]. intro k. split; intro K.
    + assert (A : In k (x :: b)) by (apply H; now right). destruct A as [<-|A]; [specialize (F x K); lia|exact A].
    + assert (A : In k (x :: a)) by (apply H; now right). destruct A as [<-|A]; [specialize (F' x K); lia|exact A].
Qed.

(** *** Order of columns *)
Lemma order_snoc l c : forall seen, order_from seen (l ++ [c]) =
  let ks := order_from seen l in if mem_Z (c_col c) ks then ks else ks ++ [c_col c].
Proof. induction l as [|a l IH]; intro seen; cbn; [reflexivity|]. apply IH. Qed.
Lemma order_in l k : In k (order l) <-> In k (map c_col l).
Proof.
  unfold order. enough (G : forall seen, In k (order_from seen l) <-> In k seen \/ In k (map c_col l)) by (rewrite G; cbn; intuition).
  induction l as [|c l IH]; intro seen; cbn; [intuition|]. rewrite IH. destruct (mem_Z (c_col c) seen) eqn:E.
  - apply mem_Z_In in E. intuition congruence.
  - rewrite in_app_iff. cbn. intuition.
Qed.
Lemma order_nodup l : NoDup (order l).
Proof.
  unfold order. enough (G : forall seen, NoDup seen -> NoDup (order_from seen l)) by (apply G; constructor).
  induction l as [|c l IH]; intros seen N; cbn; [exact N|]. apply IH. destruct (mem_Z (c_col c) seen) eqn:E; [exact N|].
  apply NoDup_rev in N. rewrite <- (rev_involutive seen). change ([c_col c]) with (rev [c_col c]). rewrite <- rev_app_distr. apply NoDup_rev.
  constructor; [|exact N]. rewrite <- in_rev. intro H. apply mem_Z_In in H. congruence.
Qed.
Lemma listing_order l ks : listing l ks -> sorted (order l) = ks.
Proof.
  intros [S H]. apply sorted_unique; [apply sorted_sorted, order_nodup|exact S|]. intro k. rewrite sorted_in, order_in, H, in_map_iff.
  split; intros (c & A & B); exists c; now split.
Qed.

Section Cols.
  Context (ro : roracle) (sc : sconf).
  Local Notation o := (ro_o ro).
  Local Notation cf := (sc_conf sc).
  Local Notation Inv := (SeriesProofs.Inv o sc).

  Definition CInv (l : list cell) (d : cols) : Prop :=
    keys d = order l /\ forall k x, dget Z.eqb d k = Some x -> Inv (content l k) x.
  Lemma cinv_nil : CInv [] [].
  Proof. split; [reflexivity|discriminate]. Qed.
  Lemma cinv_get l d k : CInv l d -> In k (order l) -> exists x, dget Z.eqb d k = Some x /\ Inv (content l k) x.
  Proof.
    intros [K H] I. rewrite <- K in I. apply dget_In_Z in I. destruct (dget Z.eqb d k) as [x|] eqn:E; [|easy]. exists x. split; [reflexivity|now apply H].
  Qed.
  Lemma cinv_set l d k x : CInv l d -> In k (order l) -> Inv (content l k) x -> CInv l (dset Z.eqb d k x).
  Proof.
    intros [K H] I X. split.
    - unfold keys in *. rewrite dset_keys_Z, K. apply mem_Z_In in I. now rewrite I.
    - intros j y. rewrite dget_dset_Z. destruct (j =? k) eqn:E; [|apply H]. intro G. inversion G; subst. now replace j with k by lia.
  Qed.
  Lemma add_cell_inv l d c : CInv l d -> good o sc c = true -> 0 <= c_row c -> exists d', add_cell ro sc d c = Ok d' /\ CInv (l ++ [c]) d'.
  Proof.
    intros C G R. unfold add_cell. set (k := c_col c).
    set (x := match dget Z.eqb d k with Some x => x | None => se_new end).
    assert (X : Inv (content l k) x).
    { unfold x. destruct (dget Z.eqb d k) as [y|] eqn:E; [now apply C|]. rewrite content_nil; [apply inv_new|].
      rewrite <- order_in, <- (proj1 C). intro H. now apply dget_In_Z in H. }
    assert (A : exists x', add o sc x c = Ok x' /\ Inv (content (l ++ [c]) k) x').
    { rewrite content_snoc. replace (c_col c =? k) with true by (unfold k; lia). destruct (last_row (content l k) <? c_row c) eqn:E.
      - apply add_inv; [exact X|apply content_increasing|exact G|lia|lia].
      - exists x. split; [|exact X]. unfold add. destruct X as (run & _ & _ & _ & _ & _ & _ & -> & _). now replace (c_row c <=? last_row (content l k)) with true by lia. }
    destruct A as (x' & -> & X'). cbn [bind]. eexists. split; [reflexivity|]. split.
    - unfold keys. rewrite dset_keys_Z. unfold order. rewrite order_snoc. cbv zeta. fold (order l). now rewrite <- (proj1 C).
    - intros j y. rewrite dget_dset_Z. destruct (j =? k) eqn:E.
      + intro H. inversion H; subst. now replace j with k by lia.
      + intro H. rewrite content_snoc. replace (c_col c =? j) with false by lia. now apply C.
  Qed.
  Lemma collect_inv outs : forall l d, CInv l d -> sheet_ok o sc (Cell.cells_of outs) = true ->
    exists d', collect ro sc d outs = Ok d' /\ CInv (l ++ Cell.cells_of outs) d'.
  Proof.
    induction outs as [|[c|] outs IH]; intros l d C S; cbn [collect].
    - exists d. cbn. rewrite app_nil_r. now split.
    - cbn in S. apply andb_prop in S. destruct S as [S1 S2]. apply andb_prop in S1. destruct S1 as [G R].
      destruct (@add_cell_inv l d c C G) as (d' & -> & C'); [lia|]. cbn [bind]. destruct (IH _ _ C' S2) as (d2 & -> & C2).
      exists d2. split; [reflexivity|]. cbn. now rewrite <- app_assoc in C2.
    - exact (IH l d C S).
  Qed.

  (** *** Reads of one column *)
  Lemma read_blocked st off len idx : column st = true -> request off len idx = true ->
    blocked cf (selection o st off len idx) = true -> read o cf st off len idx = Err ArrowNotImplemented.
  Proof.
    intros C R B. destruct (concatenate_run o cf C R) as (ds & W & Ne & E & P). unfold read. rewrite P, <- E in *.
    unfold blocked in B. apply andb_prop in B. destruct B as [B1 B2]. apply andb_prop in B1. destruct B1 as [D T].
    pose proof (@run_temporal o cf ds W Ne T D) as Q. now rewrite B2 in Q.
  Qed.
  Definition answers (l : list cell) (k off len : Z) (idx : option (list bool)) (x : series) : Prop :=
    (exists a, snd (to_arrow o sc x off len idx) = Ok a /\ holds o sc l k off len idx a /\
      exists b, snd (to_utf8 o sc x off len idx) = Ok b /\ map text_of_val (a_vals b) = map (text_form o) (a_vals a)) \/
    (blocked cf (wanted o sc (content l k) off len idx) = true /\
     snd (to_arrow o sc x off len idx) = Err ArrowNotImplemented /\ snd (to_utf8 o sc x off len idx) = Err ArrowNotImplemented).
  Lemma cast_text t sel vs : Forall2 (delivers o cf t) sel vs ->
    exists b, (if dtype_eqb t TUtf8 then Ok (mkA t vs) else unsafe_cast o (mkA t vs) TUtf8) = Ok b /\ map text_of_val (a_vals b) = map (text_form o) vs.
  Proof.
    intro D. destruct (dtype_eqb t TUtf8) eqn:T.
    - assert (t = TUtf8) by (destruct t; easy). subst t. exists (mkA TUtf8 vs). split; [reflexivity|]. cbn [a_vals].
      induction D as [|y a l vs (v & _ & Rv) D IH]; [reflexivity|]. cbn [map]. rewrite IH. f_equal. destruct v; inversion Rv; reflexivity.
    - exists (mkA TUtf8 (map (shown o) vs)). split.
      + unfold unsafe_cast. cbn [a_vals a_type]. assert (M : mapM (cast_opt o t TUtf8) vs = Ok (map (shown o) vs)); [|now rewrite M].
        clear. induction vs as [|a vs IH]; [reflexivity|]. cbn [mapM map]. rewrite IH. now destruct a as [[]|].
      + cbn [a_vals]. rewrite map_map. apply map_ext. now intros [[]|].
  Qed.
  Lemma inv_answers l k x off len idx : Inv (content l k) x -> content l k <> [] -> request off len idx = true -> answers l k off len idx x.
  Proof.
    intros I Ne R. destruct (pull_inv I) as (x' & P & I' & E & _). destruct (inv_column I' E Ne) as [C F].
    assert (Ho : 0 <= off) by (unfold request in R; destruct idx; lia).
    pose proof (tles_selection len idx (content_increasing l k) F Ho) as S. unfold answers. rewrite (to_arrow_read off len idx P C), (to_utf8_read off len idx P C).
    destruct (blocked cf (selection o (se_chunks x') off len idx)) eqn:B.
    - right. rewrite (read_blocked C R B). repeat split. destruct (blocked cf (wanted o sc (content l k) off len idx)) eqn:B'; [reflexivity|].
      rewrite (blocked_tle S B') in B. discriminate.
    - left. destruct (read_delivers C R B) as (t & vs & E0 & D). rewrite E0. exists (mkA t vs). cbn [bind a_type a_vals].
      assert (D' : Forall2 (delivers o cf t) (wanted o sc (content l k) off len idx) vs).
      { revert S D. apply Forall2_tle_l. intros a b v. apply delivers_tle. }
      split; [reflexivity|]. split; [|apply (cast_text D')]. split; [exact D'|]. cbv zeta. set (w := wanted o sc (content l k) off len idx) in *. intro At.
      destruct (tles_kinds o sc S) as [Ks Is].
      assert (Rs : resolving cf (selection o (se_chunks x') off len idx) = false).
      { unfold resolving, has_T, has_N, has_S. rewrite !Ks. exact At. }
      destruct (read_plain C R Rs) as (vs' & E1 & E2). rewrite E0 in E1. inversion E1; subst vs'. cbn [a_type a_vals]. split.
      + unfold type_of, conflict, has_T, has_N, has_S, natural. rewrite !Ks, Is. now destruct (some_kind KTemp w), (some_kind KNum w), (some_kind KStr w).
      + revert S E2. apply Forall2_tle_l. intros a b v (_ & -> & _). easy.
  Qed.

  Context (l : list cell) (Rows : forall c, In c l -> 0 <= c_row c).
  Lemma arrow_of_ok d k off len idx : CInv l d -> In k (order l) -> calm cf off len idx = true ->
    (exists d' a, arrow_of ro sc d k off len idx = Ok (d', a) /\ CInv l d' /\ holds o sc l k off len idx a) \/
    (blocked cf (wanted o sc (content l k) off len idx) = true /\ arrow_of ro sc d k off len idx = Err ArrowNotImplemented).
  Proof.
    intros C K Ca. destruct (cinv_get C K) as (x & G & I). unfold arrow_of. rewrite G.
    assert (R : request off len idx = true) by (unfold calm in Ca; apply andb_prop in Ca; easy).
    assert (Ne : content l k <> []) by (apply content_some; [exact Rows|now apply order_in]).
    pose proof (proj1 (read_inv I Ca)) as I'. pose proof (inv_answers I Ne R) as A. unfold answers in A.
    destruct (to_arrow o sc x off len idx) as [x' r]. cbn [fst snd] in *. destruct A as [(a & -> & H & _)|(B & -> & _)].
    - left. cbn [bind]. eexists. exists a. split; [reflexivity|]. split; [now apply cinv_set|exact H].
    - right. now split.
  Qed.
  Lemma texts_ok d k off len : CInv l d -> In k (order l) -> calm cf off len None = true ->
    (exists d' ts, texts ro sc d k off len = Ok (d', ts) /\ CInv l d' /\ holds_text o sc l k off len ts) \/
    (blocked cf (wanted o sc (content l k) off len None) = true /\ texts ro sc d k off len = Err ArrowNotImplemented).
  Proof.
    intros C K Ca. destruct (cinv_get C K) as (x & G & I). unfold texts, ask. rewrite G.
    assert (R : request off len None = true) by (unfold calm in Ca; apply andb_prop in Ca; easy).
    assert (Ne : content l k <> []) by (apply content_some; [exact Rows|now apply order_in]).
    pose proof (proj2 (read_inv I Ca)) as I'. pose proof (inv_answers I Ne R) as A. unfold answers in A.
    destruct (to_utf8 o sc x off len None) as [x' r]. cbn [fst snd] in *. destruct A as [(a & _ & H & b & -> & T)|(B & _ & ->)].
    - left. cbn [bind]. eexists. eexists. split; [reflexivity|]. split; [now apply cinv_set|]. exists a. split; [exact H|exact T].
    - right. now split.
  Qed.

  (** Comprehensions. *)
  Lemma each_ok A (f : cols -> Z -> res (cols * A)) (P : Z -> A -> Prop) (B : Z -> Prop) :
    (forall d k, CInv l d -> In k (order l) ->
      (exists d' a, f d k = Ok (d', a) /\ CInv l d' /\ P k a) \/ (B k /\ exists e, f d k = Err e)) ->
    forall ks d, CInv l d -> (forall k, In k ks -> In k (order l)) ->
      (exists d' v, each f d ks = Ok (d', v) /\ CInv l d' /\ Forall2 P ks v) \/ ((exists k, In k ks /\ B k) /\ exists e, each f d ks = Err e).
  Proof.
    intros H ks. induction ks as [|k ks IH]; intros d C K; cbn [each].
    - left. exists d, []. repeat split; [now apply C|now apply C|constructor].
    - destruct (H d k C (K k (or_introl eq_refl))) as [(d' & a & -> & C' & Pa)|(Bk & e & ->)]; cbn [bind].
      + destruct (IH d' C') as [(d2 & v & -> & C2 & F)|((j & J & Bj) & e & ->)]; [intros; apply K; now right| |]; cbn [bind].
        * left. exists d2, (a :: v). split; [reflexivity|]. split; [exact C2|now constructor].
        * right. split; [exists j; split; [now right|exact Bj]|eauto].
      + right. split; [exists k; split; [now left|exact Bk]|eauto].
  Qed.
End Cols.
