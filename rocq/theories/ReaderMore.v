(** Further facts on the reader: shape for all inputs, when it returns, windows past the end,
    unique names. *)
From Coq Require Import Sorted FinFun.
From Verif Require Import Py PyFacts PyText Cell Casts Chunk ChunkSpec Utf8 Series SeriesSpec Reader ReaderSpec.
From Verif Require Import ChunkProofs ChunkWindow ChunkConcat ChunkRun ChunkClosed PropsChunk SeriesProofs PropsSeries ReaderProofs ReaderSteps ReaderRead.
From Verif Require Import XlsxParts.
Set Implicit Arguments. Unset Strict Implicit.

(** *** Columns are kept, whatever the cells and options *)
Section Keys.
  Context (ro : roracle) (sc : sconf).
  Lemma collect_keys outs : forall l d d', keys d = order l -> collect ro sc d outs = Ok d' -> keys d' = order (l ++ Cell.cells_of outs).
  Proof.
    induction outs as [|[c|] outs IH]; intros l d d' K; cbn [collect].
    - intro H. inversion H; subst. cbn. now rewrite app_nil_r.
    - destruct (add_cell ro sc d c) as [d1|] eqn:A; cbn [bind]; [|discriminate]. intro H.
      change (Cell.cells_of (OCell c :: outs)) with (c :: Cell.cells_of outs).
      replace (l ++ c :: Cell.cells_of outs) with ((l ++ [c]) ++ Cell.cells_of outs) by now rewrite <- app_assoc.
      apply (IH (l ++ [c]) d1 d'); [|exact H]. clear H. unfold add_cell in A. destruct (add _ _ _ _); cbn [bind] in A; [|discriminate]. inversion A; subst.
      unfold keys in *. rewrite dset_keys_Z, K. unfold order. rewrite order_snoc. reflexivity.
    - exact (IH l d d' K).
  Qed.
  Lemma texts_keys d k off len d' ts : texts ro sc d k off len = Ok (d', ts) -> keys d' = keys d.
  Proof.
    unfold texts, ask. destruct (dget Z.eqb d k) as [x|] eqn:G; [|discriminate]. destruct (to_utf8 _ _ _ _ _ _) as [y [b|]]; cbn [bind]; [|discriminate].
    intro H. inversion H. exact (keys_dset y G).
  Qed.
  Lemma find_text_keys p size ks : forall d d' r, find_text ro sc p d ks size = Ok (d', r) -> keys d' = keys d.
  Proof.
    induction ks as [|k ks IH]; intros d d' r; cbn [find_text]; [intro H; now inversion H|].
    destruct (texts ro sc d k 0 size) as [[d1 ts]|] eqn:T; cbn [bind]; [|discriminate]. apply texts_keys in T.
    destruct (index_of _ ts); [intro H; inversion H; subst; exact T|]. intro H. apply IH in H. congruence.
  Qed.
  Lemma locate_keys op d d' r : locate ro sc op d = Ok (d', r) -> keys d' = keys d.
  Proof.
    unfold locate. destruct (r_lookup op) as [pat|]; [|intro H; now inversion H].
    destruct (find_header ro sc d pat (r_size op)) as [[d1 i]|] eqn:F; cbn [bind]; [|discriminate]. destruct (i =? -1); [discriminate|].
    intro H. inversion H; subst. destruct pat as [k|t]; cbn [find_header] in F.
    - destruct (texts ro sc d k 0 (r_size op)) as [[d1 ts]|] eqn:T; cbn [bind] in F; [|discriminate]. apply texts_keys in T. inversion F; subst. exact T.
    - destruct (ro_search ro t) as [p|]; [now apply find_text_keys in F|]. destruct d as [|[k x] d]; [now inversion F|].
      destruct (texts _ _ _ _ _ _) as [[d1 ts]|]; discriminate.
  Qed.
  Lemma merge_length blocks : forall prev, List.length (merge prev blocks) = List.length blocks.
  Proof. induction blocks as [|b r IH]; intro prev; cbn [merge]; [reflexivity|]. destruct (top_index b); cbn [List.length]; now rewrite IH. Qed.
  Lemma name_columns_keys op d first d' h names : name_columns ro sc op d first = Ok (d', (h, names)) ->
    keys d' = keys d /\ List.length names = List.length (keys d).
  Proof.
    unfold name_columns. unfold keys at 3. rewrite map_length. destruct (r_header op) as [n|given].
    2: { destruct (Nat.eqb _ _) eqn:E; [|discriminate]. intro H. inversion H; subst. split; [reflexivity|now apply Nat.eqb_eq]. }
    destruct (n =? 0); [intro H; inversion H; unfold unnamed_names; now rewrite map_length, seq_length|].
    destruct (make_header ro sc d first n) as [[d1 ns]|] eqn:M; cbn [bind]; [|discriminate].
    intro H. inversion H; subst. unfold make_header in M.
    assert (Lk : List.length (sorted (keys d)) = List.length d) by (rewrite sorted_length; unfold keys; apply map_length). destruct (h =? 1).
    - rewrite <- Lk. apply each_keys in M; [exact M|]. intros d0 k d1 a. destruct (texts _ _ _ _ _ _) as [[d2 ts]|] eqn:T; cbn [bind]; [|discriminate]. apply texts_keys in T.
      destruct ts; [discriminate|]. intro G. inversion G; subst. exact T.
    - destruct (each _ d (sorted (keys d))) as [[d1 bs]|] eqn:E; cbn [bind] in M; [|discriminate]. inversion M; subst. rewrite merge_length, <- Lk. apply each_keys in E; [exact E|].
      intros ? ? ? ?. apply texts_keys.
  Qed.
  Lemma cast_all_length dt names arrays cs : List.length names = List.length arrays -> cast_all ro dt names arrays = Ok cs -> List.length cs = List.length arrays.
  Proof.
    intros L Ca. destruct dt as [|dd|ds|ds]; cbn [cast_all] in Ca.
    - inversion Ca. apply map_length.
    - now apply mapM_length in Ca.
    - revert arrays cs L Ca. induction names as [|m names IH]; intros [|a arrays] cs L Ca; try discriminate; cbn [cast_dict] in Ca; [now inversion Ca|].
      destruct (match dget str_eqb ds m with Some d => cast_col ro a d | None => Ok (Plain ro a) end); cbn [bind] in Ca; [|discriminate].
      destruct (cast_dict ro names arrays ds) as [r|] eqn:E; cbn [bind] in Ca; [|discriminate]. inversion Ca. cbn. f_equal. apply IH; [cbn in L; lia|exact E].
    - destruct (Nat.eqb _ _) eqn:E; [|discriminate]. apply Nat.eqb_eq in E. rewrite L in E. clear L names. revert ds cs E Ca.
      induction arrays as [|a arrays IH]; intros [|d0 ds] cs E Ca; try discriminate; cbn [cast_seq] in Ca; [now inversion Ca|].
      destruct (cast_col ro a d0); cbn [bind] in Ca; [|discriminate]. destruct (cast_seq ro arrays ds) as [r|] eqn:F; cbn [bind] in Ca; [|discriminate].
      inversion Ca. cbn. f_equal. apply (IH ds); [cbn in E; lia|exact F].
  Qed.
  Theorem read_shape op outs e tbl ks : listing (Cell.cells_of outs) ks -> read_trace ro sc op (outs, e) = Ok tbl ->
    List.length tbl = List.length ks /\ exists n, forall c, In c (map snd tbl) -> col_len c = n.
  Proof.
    intros Ls. unfold read_trace. cbn [fst snd]. destruct (collect ro sc [] outs) as [d|] eqn:C; cbn [bind]; [|discriminate].
    apply (@collect_keys outs [] []) in C; [|reflexivity]. cbn [app] in C. destruct e; [discriminate|]. unfold read_columns.
    destruct (max_len d) as [n|]; cbn [bind]; [|discriminate].
    destruct (locate ro sc op d) as [[d1 first]|] eqn:L1; cbn [bind]; [|discriminate]. apply locate_keys in L1.
    destruct (name_columns ro sc op d1 first) as [[d2 [h names]]|] eqn:L2; cbn [bind]; [|discriminate]. apply name_columns_keys in L2. destruct L2 as [L2 L2'].
    destruct (filter_keys _ _ _ _) as [fs|]; cbn [bind]; [|discriminate].
    destruct (row_mask _ _ _ _ _ _ _) as [[d3 idx]|] eqn:Rm; cbn [bind]; [|discriminate]. apply row_mask_keys in Rm.
    destruct (each _ d3 _) as [[d4 arrays]|] eqn:Ea; cbn [bind]; [|discriminate]. apply each_keys in Ea; [|intros ? ? ? ?; apply arrow_of_keys].
    destruct Ea as [_ La]. rewrite Rm, L2, L1, C, (listing_order Ls) in La.
    destruct (cast_all ro (r_dtypes op) names arrays) as [cs|] eqn:Ca; cbn [bind]; [|discriminate]. intro Mt. apply mk_table_spec in Mt.
    destruct Mt as (-> & Lc & n' & Hn). rewrite combine_length.
    assert (Lx : List.length cs = List.length ks).
    { rewrite <- La. apply (@cast_all_length (r_dtypes op) names); [|exact Ca]. rewrite La, L2', L1, C, <- (listing_order Ls). symmetry. apply sorted_length. }
    split; [lia|]. exists n'. intros c Hc. apply Hn. apply in_map_iff in Hc. destruct Hc as ([m c'] & <- & Hc). now apply in_combine_r in Hc.
  Qed.
End Keys.

(** *** When a read returns *)
Lemma F2_length A B (P : A -> B -> Prop) l l' : Forall2 P l l' -> List.length l = List.length l'.
Proof. induction 1; cbn; congruence. Qed.
Section Returns.
  Context (ro : roracle) (sc : sconf).
  Local Notation o := (ro_o ro).
  Local Notation cf := (sc_conf sc).
  Definition plain (op : ropts) : Prop := r_lookup op = None /\ r_filters op = FNone /\ r_dtypes op = DTNone.
  Theorem read_returns op n outs ks tall : sheet_ok o sc (Cell.cells_of outs) = true -> Cell.cells_of outs <> [] -> listing (Cell.cells_of outs) ks -> plain op ->
    r_header op = HInt n -> 0 <= n -> 0 <= r_skip_after op -> tallest (Cell.cells_of outs) ks tall -> n + r_skip_after op < tall ->
    (forall k, In k ks -> blocked cf (wanted o sc (content (Cell.cells_of outs) k) 0 n None) = false /\
       blocked cf (wanted o sc (content (Cell.cells_of outs) k) (n + r_skip_after op) (tall - n - r_skip_after op) None) = false) ->
    exists tbl, read_trace ro sc op (outs, None) = Ok tbl.
  Proof.
    set (l := Cell.cells_of outs). intros S Ne Ls (P1 & P2 & P3) Hd Hn Hs T Hr B.
    assert (Rows : forall c, In c l -> 0 <= c_row c).
    { intros c Hc. unfold sheet_ok in S. rewrite forallb_forall in S. specialize (S c Hc). lia. }
    pose proof (listing_order Ls) as Ek. unfold read_trace. cbn [fst snd].
    destruct (@collect_inv ro sc outs [] [] (cinv_nil ro sc) S) as (d & -> & C). cbn [bind app] in *. fold l in C.
    unfold read_columns, locate, name_columns. rewrite P1, P2, P3, Hd. destruct (tallest_max_len Rows C Ne) as (m & -> & T'). cbn [bind].
    assert (m = tall).
    { destruct T as [(k & K & E) T], T' as [(k' & K' & E') T']. assert (K2 : In k (order l)) by (apply sorted_in; now rewrite Ek).
      assert (K3 : In k' ks) by (rewrite <- Ek; now apply sorted_in). specialize (T _ K3). specialize (T' _ K2). lia. }
    subst m. cbn [bind].
    assert (N : exists d' names, (if n =? 0 then Ok (d, (0, unnamed_names (List.length d))) else ' (d, l) <- make_header ro sc d 0 n ;; Ok (d, (n, l))) = Ok (d', (n, names))
      /\ CInv ro sc l d' /\ List.length names = List.length ks).
    { assert (Lk : List.length ks = List.length d) by (rewrite <- Ek, sorted_length, <- (proj1 C); unfold keys; apply map_length).
      destruct (n =? 0) eqn:Z0.
      - exists d, (unnamed_names (List.length d)). assert (n = 0) as -> by lia. split; [reflexivity|]. split; [exact C|]. unfold unnamed_names. now rewrite map_length, seq_length.
      - destruct (@make_header_ok ro sc l Rows d 0 n ltac:(lia) ltac:(lia) C) as [(d' & names & -> & C' & bs & F & ->)|((k & K & Bk) & _)].
        + cbn [bind]. eexists. eexists. split; [reflexivity|]. split; [exact C'|]. rewrite Ek in F. apply F2_length in F. unfold titles. now rewrite map_length, seq_length.
        + exfalso. rewrite Ek in K. destruct (B k K) as [B1 _]. unfold is_blocked in Bk. congruence. }
    destruct N as (d' & names & -> & C' & Ln). cbn [bind filter_keys row_mask].
    rewrite (proj1 C'), Ek.
    destruct (@each_ok ro sc l array (fun d k => arrow_of ro sc d k (n + 0 + r_skip_after op) (tall - 0 - n - r_skip_after op) None)
      (fun k a => holds o sc l k (n + 0 + r_skip_after op) (tall - 0 - n - r_skip_after op) None a)
      (fun k => blocked cf (wanted o sc (content l k) (n + 0 + r_skip_after op) (tall - 0 - n - r_skip_after op) None) = true)) with (ks := ks) (d := d')
      as [(d2 & arrays & -> & _ & F)|((k & K & Bk) & _)].
    - intros d1 k C1 K1. destruct (@arrow_of_ok ro sc l Rows d1 k (n + 0 + r_skip_after op) (tall - 0 - n - r_skip_after op) None C1 K1) as [(d2 & a & E & C2 & H)|(Bk & E)].
      + apply calm_window; lia.
      + left. eauto.
      + right. eauto.
    - exact C'.
    - intros k K. apply sorted_in. now rewrite Ek.
    - cbn [bind cast_all]. unfold mk_table. pose proof (F2_length F) as Lf. rewrite map_length.
      replace (Nat.eqb (List.length names) (List.length arrays)) with true by (symmetry; apply Nat.eqb_eq; congruence). cbn [negb].
      destruct arrays as [|a arrays]; cbn [map]; [eauto|].
      assert (Le : forall x, In x (a :: arrays) -> zlen (a_vals x) = tall - 0 - n - r_skip_after op).
      { intros x Hx. destruct (Forall2_in_r F Hx) as (k & _ & H). apply holds_len in H; [exact H|lia]. }
      replace (forallb _ _) with true; [eauto|]. symmetry. apply forallb_forall. intros c Hc. apply in_map_iff in Hc. destruct Hc as (x & <- & Hx).
      cbn [col_len]. rewrite (Le x), (Le a); [lia|now left|now right].
    - exfalso. destruct (B k K) as [_ B2]. rewrite Z.add_0_r, Z.sub_0_r in Bk. congruence.
  Qed.
End Returns.

(** *** Windows of no rows past the end *)
Section Past.
  Context (o : oracle) (cf : conf).
  Lemma over_len_past store : forall n off len, (forall c, In c store -> stored c = true /\ 0 < k_size c) ->
    fold_right (fun c s => k_size c + s) 0 store <= off -> 0 < off -> over_len (number n store) off len 0 = Ok ([], 0).
  Proof.
    induction store as [|c r IH]; intros n off len S H Ho; [reflexivity|]. cbn [number over_len]. cbn [fold_right] in H.
    assert (R : 0 <= fold_right (fun c s => k_size c + s) 0 r).
    { clear -S. induction r as [|b r IH]; cbn; [lia|]. destruct (S b) as [_ Hb]; [now right; left|]. assert (0 <= fold_right (fun c s => k_size c + s) 0 r); [|lia].
      apply IH. intros x [->|Hx]; apply S; [now left|now right; right]. }
    replace ((0 <? off) && (k_size c <=? off)) with true by lia. destruct r as [|b r].
    - reflexivity.
    - apply IH; [intros x Hx; apply S; now right|lia|]. cbn [fold_right] in H. destruct (S b) as [_ Hb]; [now right; left|].
      cbn [fold_right] in R. assert (0 <= fold_right (fun c s => k_size c + s) 0 r); [|lia]. clear -S. induction r as [|x r IH]; cbn; [lia|].
      destruct (S x) as [_ Hx]; [now right; right; left|]. assert (0 <= fold_right (fun c s => k_size c + s) 0 r); [|lia]. apply IH. intros y [->|[->|Hy]]; apply S; [now left|now right; left|now right; right; right].
  Qed.
  Lemma read_past store off len : column store = true -> zlen (cells o store) <= off -> 0 < off -> len <= 0 -> read o cf store off len None = Err ValueError.
  Proof.
    intros C H Ho Hl. unfold column in C. apply andb_prop in C. destruct C as [_ C]. rewrite forallb_forall in C.
    assert (S : forall c, In c store -> stored c = true /\ 0 < k_size c) by (intros c Hc; specialize (C c Hc); apply andb_prop in C; split; [easy|lia]).
    unfold read, concatenate. replace (windowed off len None) with true by (unfold windowed; lia). unfold take_over.
    rewrite over_len_past; [|exact S| |exact Ho].
    - cbn [bind]. replace (negb (len =? 0) && (0 <? len)) with false by lia. reflexivity.
    - enough (E : zlen (cells o store) = fold_right (fun c s => k_size c + s) 0 store) by lia. clear -S. induction store as [|c r IH]; [reflexivity|].
      cbn [fold_right]. unfold cells in *. cbn [flat_map]. rewrite zlen_app, IH by (intros x Hx; apply S; now right).
      unfold cells_of. rewrite zlen_map. rewrite (@ChunkProofs.stored_len o c); [reflexivity|]. apply S. now left.
  Qed.
End Past.

(** *** Headers that leave no rows *)
Section Bare.
  Context (ro : roracle) (sc : sconf).
  Local Notation o := (ro_o ro).
  Local Notation cf := (sc_conf sc).
  Context (l : list cell) (Rows : forall c, In c l -> 0 <= c_row c).
  Lemma content_last k r : (forall c, In c l -> c_row c < r) -> 0 <= r -> last_row (content l k) < r.
  Proof.
    intros H Hr. unfold last_row. destruct (rev (content l k)) as [|c t] eqn:E; [lia|]. apply H. apply (@content_in l k). apply in_rev. rewrite E. now left.
  Qed.
  Lemma arrow_of_past d k off len : CInv ro sc l d -> In k (order l) -> (forall c, In c l -> c_row c < off) -> len <= 0 ->
    arrow_of ro sc d k off len None = Err ValueError.
  Proof.
    intros C K H Hl. destruct (cinv_get C K) as (x & G & I). unfold arrow_of. rewrite G.
    assert (Ne : content l k <> []) by (apply content_some; [exact Rows|now apply order_in]).
    assert (Ho : 0 < off). { destruct (content l k) as [|c t] eqn:E; [easy|]. destruct (@content_in l k c) as [Hc _]; [rewrite E; now left|]. specialize (H c Hc). specialize (Rows Hc). lia. }
    destruct (pull_inv I) as (x' & P & I' & E & _). destruct (inv_column I' E Ne) as [Cl F].
    pose proof (to_arrow_read off len None P Cl) as R. destruct (to_arrow o sc x off len None) as [y r]. cbn [snd] in R. subst r.
    rewrite read_past; [reflexivity|exact Cl| |exact Ho|exact Hl].
    pose proof (Forall2_zlen F) as L. rewrite layout_length, next_row_last in L by apply content_increasing.
    pose proof (@content_last k off H ltac:(lia)). lia.
  Qed.
End Bare.

Lemma filter_keys_in ro fa names ks fs : filter_keys ro fa names ks = Ok fs -> forall k, In k fs -> In k ks.
Proof.
  assert (N : forall pats names ks fs, named ro pats names ks = Ok fs -> forall k, In k fs -> In k ks).
  { clear. intro pats. induction names as [|n names IH]; intros [|k ks] fs; cbn; try (intro H; inversion H; subst; now intros).
    destruct (any_match ro pats n) as [b|]; cbn [bind]; [|discriminate]. destruct (named ro pats names ks) as [r|] eqn:E; cbn [bind]; [|discriminate].
    intro H. inversion H; subst. intros j J. destruct b; [destruct J as [->|J]; [now left|]|]; right; exact (IH _ _ E j J). }
  assert (P : forall is ks i k, In k (placed is i ks) -> In k ks).
  { clear. intro is. induction ks as [|k ks IH]; intros i j; cbn [placed]; [easy|]. destruct (mem_Z i is); [intros [->|J]; [now left|]|intro J]; right; exact (IH _ _ J). }
  destruct fa as [|[|c t]|[|i is]|[|t ts]|]; cbn [filter_keys]; try discriminate; try (intro H; inversion H; subst; now intros); try exact (N _ _ _ _).
  intro H. inversion H; subst. apply P.
Qed.
(** *** The unique names that are computed and dropped *)
Lemma firstn_In_ A (l : list A) n x : In x (firstn n l) -> In x l.
Proof. revert n. induction l as [|y l IH]; intros [|n]; cbn; try easy. intros [->|H]; [now left|right; now apply (IH n)]. Qed.
Lemma NoDup_firstn_ A (l : list A) n : NoDup l -> NoDup (firstn n l).
Proof.
  intro N. revert n. induction N as [|x l H N IH]; intros [|n]; cbn; try constructor; [|apply IH]. intro K. apply H. now apply firstn_In_ in K.
Qed.
Definition suffixed (h n : str) : Prop := n = h \/ exists i, 1 <= i /\ n = h ++ s "." ++ dec i.
Lemma fresh_fails fuel h seen : forall n i, 0 <= i -> Reader.fresh fuel h n i seen = None ->
  forall x, In x (firstn fuel (n :: map (fun j => h ++ s "." ++ dec (i + Z.of_nat j)) (seq 0 fuel))) -> In x seen.
Proof.
  induction fuel as [|f IH]; intros n i Hi H x; [easy|]. cbn [Reader.fresh] in H. destruct (mem_str n seen) eqn:M; [|discriminate].
  cbn [firstn seq map]. intros [<-|Hx]; [now apply mem_str_In|]. apply (IH (h ++ s "." ++ dec i) (i + 1) ltac:(lia) H).
  rewrite Z.add_0_r in Hx. rewrite <- seq_shift, map_map in Hx.
  replace (map (fun j => h ++ s "." ++ dec (i + 1 + Z.of_nat j)) (seq 0 f)) with (map (fun x : nat => h ++ s "." ++ dec (i + Z.of_nat (S x))) (seq 0 f)); [exact Hx|].
  apply map_ext. intro j. do 2 f_equal. f_equal. lia.
Qed.
Lemma fresh_total h seen : exists n, Reader.fresh (S (List.length seen)) h h 1 seen = Some n /\ ~ In n seen /\ suffixed h n.
Proof.
  destruct (Reader.fresh (S (List.length seen)) h h 1 seen) as [n|] eqn:E.
  - exists n. split; [reflexivity|]. assert (G : forall fuel m i, 1 <= i -> suffixed h m -> Reader.fresh fuel h m i seen = Some n -> ~ In n seen /\ suffixed h n).
    { induction fuel as [|f IH]; intros m i Hi Hm H; [discriminate|]. cbn [Reader.fresh] in H. destruct (mem_str m seen) eqn:M.
      - apply IH in H; [exact H|lia|]. right. exists i. now split.
      - inversion H; subst. split; [|exact Hm]. intro K. apply mem_str_In in K. congruence. }
    apply G in E; [exact E|lia|now left].
  - exfalso. pose proof (@fresh_fails _ _ _ _ 1 ltac:(lia) E) as F. set (cands := firstn _ _) in F.
    assert (N : NoDup cands).
    { unfold cands. cbn [firstn]. constructor.
      - intro K. apply firstn_In_ in K. apply in_map_iff in K. destruct K as (j & K & _). apply (f_equal (@List.length Z)) in K. rewrite !app_length in K. cbn in K. lia.
      - apply NoDup_firstn_. apply FinFun.Injective_map_NoDup; [|apply seq_NoDup]. intros a b K. apply app_inv_head in K. apply app_inv_head in K. apply dec_inj in K; lia. }
    assert (Lc : List.length cands = S (List.length seen)).
    { unfold cands. rewrite firstn_length. cbn [List.length]. rewrite map_length, seq_length. lia. }
    pose proof (NoDup_incl_length N F). lia.
Qed.
Theorem uniq_total hdrs : exists names, uniq [] hdrs = Some names /\ NoDup names /\ Forall2 suffixed hdrs names.
Proof.
  enough (G : forall hdrs seen, NoDup seen -> exists names, uniq seen hdrs = Some (seen ++ names) /\ NoDup (seen ++ names) /\ Forall2 suffixed hdrs names).
  { destruct (G hdrs [] (NoDup_nil _)) as (names & U). now exists names. }
  clear. induction hdrs as [|h r IH]; intros seen N; cbn [uniq].
  - exists []. rewrite app_nil_r. now repeat split.
  - destruct (fresh_total h seen) as (n & -> & Hn & Sn). destruct (IH (seen ++ [n])) as (names & U & N' & F).
    { apply NoDup_rev in N. rewrite <- (rev_involutive (seen ++ [n])). apply NoDup_rev. rewrite rev_app_distr. cbn. constructor; [now rewrite <- in_rev|exact N]. }
    exists (n :: names). rewrite <- app_assoc in U, N'. cbn [app] in U, N'. repeat split; [exact U|exact N'|now constructor].
Qed.
