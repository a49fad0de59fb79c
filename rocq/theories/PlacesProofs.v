(** From the cells of a sheet to its places; the rows a read delivers under all row options. *)
From Coq Require Import Sorted.
From Verif Require Import Py PyFacts PyText Biff BiffSpec BiffRecs Utf16 Utf16Spec NumFmt NumFmtSpec Cell Xlsb Xlsx XlsbSpec XlsbProofs XlsbParts PropsXlsb
  XlsxSpec XlsxProofs XlsxParts XlsxNorm PropsXlsx Sheets SheetsSpec SheetsProofs PropsSheets Casts Chunk ChunkSpec Utf8 Series SeriesSpec
  Reader ReaderSpec ReaderProofs ReaderSteps ReaderRead ReaderMore PropsReader Workbook WorkbookSpec WorkbookProofs PropsWorkbook PlacesSpec.
From Coq Require Import ZifyBool ZifyNat.
Set Implicit Arguments. Unset Strict Implicit.

(** ** Windows of rows *)
Section Window.
  Context (A : Type) (g : Z -> A -> list cell).
  Lemma laid_shift (h : Z -> A -> list cell) rows : forall i j, (forall k x, h (i + Z.of_nat k) x = g (j + Z.of_nat k) x) ->
    flat_map (fun p => h (fst p) (snd p)) (enum_from i rows) = laid_from g j rows.
  Proof.
    unfold laid_from. induction rows as [|x rows IH]; intros i j H; [reflexivity|]. cbn [enum_from flat_map fst snd]. f_equal.
    - specialize (H 0%nat x). now rewrite !Z.add_0_r in H.
    - apply IH. intros k y. specialize (H (S k) y). replace (i + 1 + Z.of_nat k) with (i + Z.of_nat (S k)) by lia. rewrite H. f_equal. lia.
  Qed.
  Lemma laid_none (h : Z -> A -> list cell) rows : forall i, (forall k x, i <= k -> h k x = []) ->
    flat_map (fun p => h (fst p) (snd p)) (enum_from i rows) = [].
  Proof.
    induction rows as [|x rows IH]; intros i H; [reflexivity|]. cbn [enum_from flat_map fst snd]. rewrite H by lia. cbn. apply IH. intros; apply H; lia.
  Qed.
  Lemma window_upto m rows : forall i, 0 <= m -> flat_map (fun p => if fst p <? i + m then g (fst p) (snd p) else []) (enum_from i rows) = laid_from g i (firstn (Z.to_nat m) rows).
  Proof.
    unfold laid_from. intros i Hm. destruct (Z_of_nat_complete m Hm) as (k & ->). rewrite Nat2Z.id. clear Hm. revert i k.
    induction rows as [|x rows IH]; intros i k; [now destruct k|]. destruct k as [|k].
    - cbn [firstn]. apply (@laid_none (fun j y => if j <? i + Z.of_nat 0 then g j y else [])). intros j y Hj. now replace (j <? i + Z.of_nat 0) with false by lia.
    - cbn [firstn enum_from flat_map fst snd]. replace (i <? i + Z.of_nat (S k)) with true by lia. f_equal. rewrite <- IH. apply flat_map_ext. intros [j y]. cbn [fst snd].
      now replace (i + Z.of_nat (S k)) with (i + 1 + Z.of_nat k) by lia.
  Qed.
  Lemma enum_skip (h : Z -> A -> list cell) s rows : forall i, (forall k x, k < i + Z.of_nat s -> h k x = []) ->
    flat_map (fun p => h (fst p) (snd p)) (enum_from i rows) = flat_map (fun p => h (fst p) (snd p)) (enum_from (i + Z.of_nat s) (skipn s rows)).
  Proof.
    revert rows. induction s as [|s IH]; intros rows i H; [now rewrite Z.add_0_r|]. destruct rows as [|x rows]; [reflexivity|]. cbn [skipn enum_from flat_map fst snd].
    rewrite H by lia. cbn [app]. rewrite IH by (intros; apply H; lia). now replace (i + 1 + Z.of_nat s) with (i + Z.of_nat (S s)) by lia.
  Qed.
  Lemma window_laid skip take rows : 0 <= skip -> 0 <= take ->
    flat_map (fun p => if (skip <=? fst p) && ((skip + take =? 0) || (fst p <=? skip + take)) then g (fst p - skip) (snd p) else []) (enum_from 0 rows)
    = laid g (rows_from skip take rows).
  Proof.
    intros Hs Ht. set (h := fun j y => if (skip <=? j) && ((skip + take =? 0) || (j <=? skip + take)) then g (j - skip) y else []).
    change (flat_map (fun p => h (fst p) (snd p)) (enum_from 0 rows) = laid g (rows_from skip take rows)).
    rewrite (@enum_skip h (Z.to_nat skip)) by (intros k x Hk; unfold h; now replace (skip <=? k) with false by lia). unfold rows_from, laid.
    destruct (skip + take =? 0) eqn:E.
    - assert (skip = 0) as -> by lia. apply laid_shift. intros k x. unfold h. replace (0 <=? 0 + Z.of_nat (Z.to_nat 0) + Z.of_nat k) with true by lia. cbn. f_equal. lia.
    - rewrite <- window_upto by lia. transitivity (flat_map (fun p => (fun j y => if j - skip <? take + 1 then g (j - skip) y else []) (fst p) (snd p)) (enum_from (0 + Z.of_nat (Z.to_nat skip)) (skipn (Z.to_nat skip) rows))).
      + generalize (skipn (Z.to_nat skip) rows) as l. assert (G : forall l i, skip <= i -> flat_map (fun p => h (fst p) (snd p)) (enum_from i l)
          = flat_map (fun p => (fun j y => if j - skip <? take + 1 then g (j - skip) y else []) (fst p) (snd p)) (enum_from i l)).
        { induction l as [|x l IH]; intros i Hi; [reflexivity|]. cbn [enum_from flat_map fst snd]. rewrite IH by lia. f_equal. unfold h.
          replace (skip <=? i) with true by lia. cbn [andb orb]. now replace (i - skip <? take + 1) with (i <=? skip + take) by lia. }
        intro l. apply G. lia.
      + set (l := skipn (Z.to_nat skip) rows). clearbody l. replace (0 + Z.of_nat (Z.to_nat skip)) with skip by lia.
        assert (G : forall l i j, i = skip + j -> flat_map (fun p => (fun j y => if j - skip <? take + 1 then g (j - skip) y else []) (fst p) (snd p)) (enum_from i l)
          = flat_map (fun p => if fst p <? 0 + (take + 1) then g (fst p) (snd p) else []) (enum_from j l)).
        { clear l. induction l as [|x l IH]; intros i j ->; [reflexivity|]. cbn [enum_from flat_map fst snd]. rewrite (IH (skip + j + 1) (j + 1)) by lia.
          replace (skip + j - skip) with j by lia. reflexivity. }
        apply G. lia.
  Qed.
  Lemma filter_laid n rows : (forall i x c, In c (g i x) -> c_row c = i) -> 0 <= n ->
    filter (fun c => c_row c <=? n) (laid g rows) = laid g (firstn (Z.to_nat (n + 1)) rows).
  Proof.
    intros Hg Hn. unfold laid. rewrite <- window_upto by lia. unfold laid_from. generalize 0 at 1 3 as i. intro i.
    enough (E : forall j, filter (fun c => c_row c <=? n) (flat_map (fun p => g (fst p) (snd p)) (enum_from j rows))
      = flat_map (fun p => if fst p <? 0 + (n + 1) then g (fst p) (snd p) else []) (enum_from j rows)) by apply E.
    induction rows as [|x rs IH]; intro j; [reflexivity|]. cbn [enum_from flat_map fst snd]. rewrite filter_app, IH. f_equal. specialize (Hg j x).
    assert (G : forall l, (forall c, In c l -> c_row c = j) -> filter (fun c => c_row c <=? n) l = if j <? 0 + (n + 1) then l else []).
    { clear -Hn. induction l as [|c l IHl]; intro H; [now destruct (_ <? _)|]. cbn [filter]. rewrite (H c) by now left. rewrite IHl by (intros; apply H; now right).
      destruct (j <? 0 + (n + 1)) eqn:E; [now replace (j <=? n) with true by lia|now replace (j <=? n) with false by lia]. }
    now apply G.
  Qed.
End Window.

(** ** The order of the columns *)
Definition before (c d : cell) : Prop := c_row c < c_row d \/ c_row c = c_row d /\ c_col c <= c_col d.
Definition first_cell (l : list cell) (k : Z) : option cell := find (fun c => c_col c =? k) l.
Lemma first_cell_app l r k : first_cell (l ++ r) k = match first_cell l k with Some c => Some c | None => first_cell r k end.
Proof. unfold first_cell. induction l as [|c l IH]; [reflexivity|]. cbn. destruct (c_col c =? k); [reflexivity|exact IH]. Qed.
Lemma first_cell_none l k : first_cell l k = None <-> ~ In k (map c_col l).
Proof.
  unfold first_cell. induction l as [|c l IH]; [easy|]. cbn. destruct (c_col c =? k) eqn:E.
  - split; [discriminate|]. intro H. exfalso. apply H. left. lia.
  - rewrite IH. split; [intros H [D|D]; [lia|easy]|intros H D; apply H; now right].
Qed.
Lemma sorted_snoc A (R : A -> A -> Prop) l x : StronglySorted R l -> (forall y, In y l -> R y x) -> StronglySorted R (l ++ [x]).
Proof.
  induction 1 as [|a l S IH F]; intro H; [repeat constructor|]. cbn. constructor; [apply IH; intros; apply H; now right|].
  apply Forall_app. split; [exact F|]. repeat constructor. apply H. now left.
Qed.
Lemma sorted_impl A (R Q : A -> A -> Prop) l : (forall x y, In x l -> In y l -> R x y -> Q x y) -> StronglySorted R l -> StronglySorted Q l.
Proof.
  intros H S. induction S as [|a l S IH F]; [constructor|]. constructor; [apply IH; intros u v Hu Hv; apply H; now right|].
  rewrite Forall_forall in *. intros y Hy. apply H; [now left|now right|now apply F].
Qed.
Lemma sorted_app A (R : A -> A -> Prop) l r : StronglySorted R l -> StronglySorted R r -> (forall x y, In x l -> In y r -> R x y) -> StronglySorted R (l ++ r).
Proof.
  induction 1 as [|a l S IH F]; intros Sr H; [exact Sr|]. cbn. constructor; [apply IH; [exact Sr|]; intros; apply H; [now right|assumption]|].
  apply Forall_app. split; [exact F|]. rewrite Forall_forall. intros y Hy. apply H; [now left|exact Hy].
Qed.
Lemma sorted_pair A (R : A -> A -> Prop) l r x y : StronglySorted R (l ++ r) -> In x l -> In y r -> R x y.
Proof.
  induction l as [|a l IH]; intros S Hx Hy; [easy|]. cbn in S. inversion S as [|? ? S' F]; subst. destruct Hx as [->|Hx]; [|now apply IH].
  rewrite Forall_forall in F. apply F. apply in_or_app. now right.
Qed.
(** Cells ordered by row, then column: their columns come by first cell. *)
Definition earlier (l : list cell) (j k : Z) : Prop :=
  exists c d, first_cell l j = Some c /\ first_cell l k = Some d /\ (c_row c < c_row d \/ c_row c = c_row d /\ j < k).
Lemma order_earlier l : StronglySorted before l -> StronglySorted (earlier l) (order l).
Proof.
  pattern l. apply rev_ind; [constructor|]. clear l. intros c l IH S.
  assert (Sl : StronglySorted before l).
  { clear -S. induction l as [|a l IH]; [constructor|]. cbn in S. inversion S as [|? ? S' F]; subst. constructor; [now apply IH|]. apply Forall_app in F. apply F. }
  specialize (IH Sl). unfold order. rewrite order_snoc. cbv zeta. fold (order l).
  assert (Old : forall j, In j (order l) -> exists d, first_cell l j = Some d /\ first_cell (l ++ [c]) j = Some d /\ In d l /\ c_col d = j).
  { intros j Hj. apply order_in in Hj. destruct (first_cell l j) as [d|] eqn:E; [|now apply first_cell_none in E]. exists d. split; [reflexivity|].
    rewrite first_cell_app, E. split; [reflexivity|]. apply find_some in E. split; [apply E|lia]. }
  assert (I : StronglySorted (earlier (l ++ [c])) (order l)).
  { revert IH. apply sorted_impl. intros j k Hj Hk (x & y & Ex & Ey & H). destruct (Old j Hj) as (x' & E1 & E2 & _). destruct (Old k Hk) as (y' & E3 & E4 & _).
    exists x', y'. rewrite E2, E4. split; [reflexivity|]. split; [reflexivity|]. assert (x' = x) by congruence. assert (y' = y) by congruence. now subst. }
  destruct (mem_Z (c_col c) (order l)) eqn:M; [exact I|]. apply sorted_snoc; [exact I|]. intros j Hj. destruct (Old j Hj) as (d & _ & E & Hd & Ec).
  exists d, c. split; [exact E|]. assert (N : ~ In (c_col c) (order l)).
  { intro Q. apply mem_Z_In in Q. congruence. }
  split.
  - rewrite first_cell_app. destruct (first_cell l (c_col c)) as [x|] eqn:F.
    + exfalso. apply N. apply order_in. apply find_some in F. apply in_map_iff. exists x. split; [lia|apply F].
    + unfold first_cell. cbn. now rewrite Z.eqb_refl.
  - assert (B : before d c) by (apply (sorted_pair S Hd); now left). destruct B as [B|[B1 B2]]; [now left|right]. split; [exact B1|].
    assert (j <> c_col c) by (intros ->; now apply N). lia.
Qed.
Lemma laid_sorted A (f : Z -> A -> list cell) rows : (forall i x c, In c (f i x) -> c_row c = i) ->
  (forall i x, In x rows -> StronglySorted Z.le (map c_col (f i x))) -> StronglySorted before (laid f rows).
Proof.
  intros Hf H. unfold laid. generalize 0 as i. induction rows as [|x rows IH]; intro i; [constructor|].
  unfold laid_from. cbn [enum_from flat_map fst snd]. change (flat_map _ (enum_from (i + 1) rows)) with (laid_from f (i + 1) rows). apply sorted_app.
  - specialize (H i x (or_introl eq_refl)). specialize (Hf i x). induction (f i x) as [|c l IHl]; [constructor|]. cbn [map] in H. inversion H as [|? ? S' F]; subst.
    constructor; [apply IHl; [intros; apply Hf; now right|exact S']|]. rewrite Forall_forall in *. intros d Hd. right. rewrite (Hf c) by now left. rewrite (Hf d) by now right.
    split; [reflexivity|]. apply F. now apply in_map.
  - apply IH. intros; apply H; now right.
  - intros c d Hc Hd. left. apply (laid_rows Hf) in Hd. apply Hf in Hc. lia.
Qed.

(** ** Places *)
Section Table.
  Context (A : Type) (f : Z -> A -> list cell) (Hf : forall i x c, In c (f i x) -> c_row c = i).
  Context (ro : roracle) (sc : sconf) (rows : list A) (P : Z -> Z -> tag) (ks : list Z).
  Local Notation o := (ro_o ro).
  Local Notation cf := (sc_conf sc).
  Local Notation l := (laid f rows).
  Local Notation n := (zlen rows).
  Context (S : sheet_ok o sc l = true) (HP : forall r k, 0 <= r -> at_row o sc (content l k) r = P r k) (K : has_columns P n ks).

  Lemma p_listing : listing l ks.
  Proof. exact (places_listing Hf S HP K). Qed.
  Lemma p_empty r k : n <= r -> P r k = tnull.
  Proof.
    intro Hr. pose proof (zlen_nonneg rows). rewrite <- HP by lia. rewrite (laid_at Hf) by lia. unfold zlen in Hr. now rewrite (proj2 (nth_error_None rows (Z.to_nat r))) by lia.
  Qed.
  Lemma p_ends k : In k ks -> exists c r, content l k = c :: r /\ starts P n k (c_row c) /\ ends P n k (last_row (content l k)) /\ first_cell l k = Some c.
  Proof.
    intro Hk. pose proof Hk as Hk'. apply p_listing in Hk. destruct Hk as (c0 & Hc0 & E0). destruct (laid_in_row Hf Hc0) as (_ & _ & _ & Hr0).
    assert (Ne : content l k <> []).
    { destruct (@filled_place _ f ro sc rows P HP (c_row c0) k ltac:(lia)) as (d & Hd & _); [rewrite <- E0; now apply (place_filled Hf S HP)|]. now destruct (content l k). }
    pose proof (content_increasing l k) as I. destruct (content l k) as [|c r] eqn:E; [easy|]. exists c, r. split; [reflexivity|].
    assert (In_ : forall d, In d (c :: r) -> In d l /\ c_col d = k) by (intros d Hd; rewrite <- E in Hd; now apply content_cell in Hd).
    assert (Fl : forall d, In d (c :: r) -> 0 <= c_row d < n /\ P (c_row d) k <> tnull).
    { intros d Hd. destruct (In_ d Hd) as [H1 H2]. destruct (laid_in_row Hf H1) as (_ & _ & _ & Hr). split; [exact Hr|]. rewrite <- H2. now apply (place_filled Hf S HP). }
    split; [|split].
    - destruct (Fl c (or_introl eq_refl)) as [F1 F2]. split; [exact F1|]. split; [exact F2|]. intros q Hq.
      assert (D : P q k = tnull \/ P q k <> tnull) by (rewrite <- HP by lia; unfold at_row; destruct (find _ (content l k)) as [d|] eqn:Fd; [right|now left];
        apply tag_not_null; apply find_some in Fd; destruct Fd as [Fd _]; rewrite E in Fd; destruct (In_ d Fd) as [H1 _]; unfold sheet_ok in S; rewrite forallb_forall in S; specialize (S d H1); lia).
      destruct D as [D|D]; [exact D|]. destruct (@filled_place _ f ro sc rows P HP q k ltac:(lia) D) as (d & Hd & Ed). rewrite E in Hd. pose proof (increasing_first I Hd). lia.
    - destruct (@last_row_in (c :: r) c r eq_refl) as (d & Hd & Ed). destruct (Fl d Hd) as [F1 F2]. rewrite Ed in F1, F2. split; [exact F1|]. split; [exact F2|]. intros q Hq.
      assert (D : P q k = tnull \/ P q k <> tnull) by (rewrite <- HP by lia; unfold at_row; destruct (find _ (content l k)) as [x|] eqn:Fd; [right|now left];
        apply tag_not_null; apply find_some in Fd; destruct Fd as [Fd _]; rewrite E in Fd; destruct (In_ x Fd) as [H1 _]; unfold sheet_ok in S; rewrite forallb_forall in S; specialize (S x H1); lia).
      destruct D as [D|D]; [exact D|]. destruct (@filled_place _ f ro sc rows P HP q k ltac:(lia) D) as (x & Hx & Ex). rewrite E in Hx. pose proof (increasing_last I Hx). lia.
    - unfold content in E. unfold first_cell. clear -E S. unfold column_cells in E. unfold sheet_ok in S. rewrite forallb_forall in S.
      assert (S' : forall x, In x l -> 0 <= c_row x) by (intros x Hx; specialize (S x Hx); lia). clear S.
      induction (laid f rows) as [|x t IH]; [discriminate|]. cbn [filter find] in *. destruct (c_col x =? k) eqn:Ek.
      + cbn [firsts] in E. specialize (S' x (or_introl eq_refl)). replace (-1 <? c_row x) with true in E by lia. congruence.
      + apply IH; [exact E|]. intros; apply S'; now right.
  Qed.
  Lemma starts_unique k a b : starts P n k a -> starts P n k b -> a = b.
  Proof. clear. intros (A1 & A2 & A3) (B1 & B2 & B3). destruct (Z.lt_trichotomy a b) as [H|[H|H]]; [specialize (B3 a)|exact H|specialize (A3 b)]; exfalso; intuition lia. Qed.
  Lemma ends_unique k a b : ends P n k a -> ends P n k b -> a = b.
  Proof. clear. intros (A1 & A2 & A3) (B1 & B2 & B3). destruct (Z.lt_trichotomy a b) as [H|[H|H]]; [specialize (A3 b)|exact H|specialize (B3 a)]; exfalso; intuition lia. Qed.
  Lemma p_longest t : tallest l ks t -> longest P n ks t.
  Proof.
    intros [(k & Hk & E) M]. split.
    - destruct (p_ends Hk) as (c & r & Ec & H1 & H2 & _). exists k, (c_row c), (last_row (content l k)). split; [exact Hk|]. split; [exact H1|]. split; [exact H2|].
      rewrite E. unfold span. now rewrite Ec.
    - intros j a b Hj Ha Hb. specialize (M j Hj). destruct (p_ends Hj) as (c & r & Ec & H1 & H2 & _). unfold span in M. rewrite Ec in *.
      rewrite (starts_unique Ha H1), (ends_unique Hb H2). exact M.
  Qed.
  Lemma p_order : (forall i x, In x rows -> StronglySorted Z.le (map c_col (f i x))) -> by_first_cell P n ks (order l).
  Proof.
    intro Srt. assert (O : forall k, In k (order l) <-> In k ks).
    { intro k. rewrite order_in. rewrite (proj2 p_listing k), in_map_iff. split; intros (c & H1 & H2); now exists c. }
    split; [exact O|]. generalize (order_earlier (laid_sorted Hf Srt)). apply sorted_impl. intros j k Hj Hk (c & d & Ec & Ed & H).
    apply O in Hj, Hk. destruct (p_ends Hj) as (c' & _ & _ & Sj & _ & Ej). destruct (p_ends Hk) as (d' & _ & _ & Sk & _ & Ek).
    exists (c_row c'), (c_row d'). split; [exact Sj|]. split; [exact Sk|]. assert (c' = c) by congruence. assert (d' = d) by congruence. subst. exact H.
  Qed.
  Lemma p_wanted k off len : 0 <= off -> 0 < len -> wanted o sc (content l k) off len None = rows_of P k off len.
  Proof. clear -HP. intros H H'. unfold wanted. replace ((off =? 0) && (len =? 0)) with false by lia. unfold at_rows, rows_of. apply map_ext_in. intros i _. apply HP. lia. Qed.
  Lemma p_holds k off len a : 0 <= off -> 0 < len -> holds o sc l k off len None a -> showing ro cf (rows_of P k off len) a.
  Proof. intros H H' [H1 H2]. rewrite p_wanted in H1, H2 by assumption. split; [exact H1|exact H2]. Qed.
  Lemma p_holds_text k off len ts : 0 <= off -> 0 < len -> holds_text o sc l k off len ts -> showing_text ro cf (rows_of P k off len) ts.
  Proof. intros H H' (a & Ha & E). exists a. split; [now apply p_holds|exact E]. Qed.

  Lemma p_table op outs tbl : Cell.cells_of outs = l -> sizes_ok op ->
    (forall t, r_lookup op = Some (LText t) -> forall i x, In x rows -> StronglySorted Z.le (map c_col (f i x))) ->
    read_trace ro sc op (outs, None) = Ok tbl -> table_of cf P n op ks tbl.
  Proof.
    intros El Sz Srt R. pose proof p_listing as Ls. assert (S' : sheet_ok o sc (Cell.cells_of outs) = true) by now rewrite El. rewrite <- El in Ls.
    split; [apply (C52_shape Ls R)|]. destruct (C52_content S' Ls Sz R) as (tall & first & height & idx & T & L & N & C). rewrite El in T, L, N, C.
    exists tall, first, height, idx. split; [now apply p_longest|].
    assert (F0 : 0 <= first /\ header_at ro cf P n op ks first).
    { unfold header_at. unfold located in L. pose proof (proj1 Sz) as Z1. destruct (r_lookup op) as [[k|t]|] eqn:Lk.
      - destruct L as (ts & Ht & Ff). split; [destruct Ff as (b & x & e & _ & -> & _); apply zlen_nonneg|]. split.
        + destruct (C56_found S' Ls Sz R) as (r & j & ts' & _ & _ & Hj & _ & Q); [now rewrite Lk|]. rewrite Lk in Q. destruct Q as (-> & _). exact Hj.
        + exists ts. split; [|exact Ff]. apply p_holds_text; [lia|apply Z1; discriminate|exact Ht].
      - destruct L as (p & Hp & bs & k & es & ts & Ho & Ht & Ff & Hb). split; [destruct Ff as (b & x & e & _ & -> & _); apply zlen_nonneg|].
        exists p, bs, k, es, ts. split; [exact Hp|]. split; [rewrite <- Ho; apply p_order; now apply (Srt t)|]. assert (0 < r_size op) by (apply Z1; discriminate).
        split; [apply p_holds_text; [lia|assumption|exact Ht]|]. split; [exact Ff|]. intros j Hj. destruct (Hb j Hj) as (ts' & H1 & H2). exists ts'. split; [|exact H2]. apply p_holds_text; [lia|assumption|exact H1].
      - split; [lia|exact L]. }
    destruct F0 as [F0 Hd]. split; [exact Hd|].
    assert (N0 : 0 <= height /\ names_at ro cf P op ks first height (map fst tbl)).
    { unfold names_at. unfold titled in N. destruct Sz as (_ & Z2 & _). destruct (r_header op) as [h|given] eqn:Hh; [|split; [lia|exact N]].
      specialize (Z2 h eq_refl). destruct N as [-> N]. split; [exact Z2|]. split; [reflexivity|]. destruct (h =? 0) eqn:E0; [exact N|]. destruct N as (bs & F & E). exists bs. split; [|exact E].
      clear -F HP F0 E0 Z2. induction F as [|k b ks0 bs Hb F IH]; constructor; [|exact IH]. apply p_holds_text; [exact F0|lia|exact Hb]. }
    destruct N0 as [H0 Nm]. split; [exact Nm|]. cbv zeta. set (off := height + first + r_skip_after op) in *. set (len := tall - off) in *. intro Hl.
    assert (O0 : 0 <= off) by (destruct Sz as (_ & _ & Z3); unfold off; lia).
    cbv zeta in C. specialize (C Hl). destruct C as [Kr C]. split.
    { revert Kr. unfold kept_rows, kept_at. generalize (chosen_columns ro (r_filters op) (map fst tbl) ks) as fs. intros [|k0 fs]; destruct idx as [m|]; try easy.
      intros (arrays & F & E & It). exists arrays. split; [|now split]. clear -F HP O0 Hl. induction F as [|k a fs' as' Ha F IH]; constructor; [|exact IH]. now apply p_holds. }
    intros i k Hk. destruct (C i k Hk) as (name & c & a & H1 & H2 & H3). exists name, c, a. split; [exact H1|]. split; [|exact H3].
    destruct idx as [m|]; [|now apply p_holds]. assert (Lm : zlen m = len).
    { unfold kept_rows in Kr. destruct (chosen_columns ro (r_filters op) (map fst tbl) ks); [easy|]. destruct Kr as (arrays & _ & -> & _). unfold zlen. rewrite map_length, seq_length. lia. }
    destruct H2 as [G1 G2]. unfold wanted in G1, G2. rewrite Lm in G1, G2. assert (W : at_rows o sc (content l k) off len = rows_of P k off len) by (unfold at_rows, rows_of; apply map_ext_in; intros q _; apply HP; lia).
    rewrite W in G1, G2. split; [exact G1|exact G2].
  Qed.
End Table.

(** ** The rows delivered *)
Lemma hd_filter_rows n m A (f : Z -> A -> list cell) (ps : list (Z * A)) c :
  (forall i x c, In c (f i x) -> c_row c = i) -> StronglySorted (fun p q => fst p <= fst q) ps -> m = flat_map (fun p => f (fst p) (snd p)) ps ->
  hd_error (filter (fun c => c_row c <=? n) m) = Some c -> hd_error m = Some c.
Proof.
  intros Hf Srt -> H. induction ps as [|[i x] ps IH]; [exact H|]. cbn [flat_map fst snd] in *. inversion Srt as [|? ? Srt' F]; subst. rewrite filter_app in H.
  destruct (f i x) as [|d ds] eqn:E; [now apply IH|]. cbn [app hd_error filter] in *. assert (Rd : c_row d = i) by (apply (Hf i x); rewrite E; now left).
  destruct (c_row d <=? n) eqn:L; [exact H|exfalso].
  assert (Q : forall y, In y (ds ++ flat_map (fun p => f (fst p) (snd p)) ps) -> (c_row y <=? n) = false).
  { intros y Hy. apply in_app_iff in Hy. destruct Hy as [Hy|Hy].
    - assert (c_row y = i) by (apply (Hf i x); rewrite E; now right). lia.
    - apply in_flat_map in Hy as ([j z] & Hp & Hy). cbn [fst snd] in Hy. apply Hf in Hy. rewrite Forall_forall in F. specialize (F _ Hp). cbn in F. lia. }
  rewrite <- filter_app in H. destruct (filter _ _) as [|y r] eqn:Ef in H; [discriminate|]. assert (In y (y :: r)) by now left. rewrite <- Ef in H0. apply filter_In in H0. destruct H0 as [H0 H1]. rewrite (Q y H0) in H1. discriminate.
Qed.
Lemma count_before_sorted A (p : A -> bool) rows : forall i, StronglySorted (fun p q => fst p <= fst q) (count_before p i rows).
Proof.
  induction rows as [|x rows IH]; intro i; [constructor|]. cbn [count_before]. constructor; [apply IH|]. rewrite Forall_forall. intros [j y] H. apply count_before_ge in H. cbn. destruct (p x); lia.
Qed.

Lemma enum_in A (l : list A) : forall i j x, In (j, x) (enum_from i l) -> In x l.
Proof. induction l as [|y l IH]; intros i j x H; [easy|]. destruct H as [H|H]; [inversion H; now left|right; eauto]. Qed.
Lemma enum_snd A (l : list A) : forall i, map snd (enum_from i l) = l.
Proof. induction l as [|y l IH]; intro i; [reflexivity|]. cbn. now rewrite IH. Qed.
Lemma count_snd A (p : A -> bool) i (l : list A) : map snd (count_before p i l) = l.
Proof. revert i. induction l as [|y l IH]; intro i; [reflexivity|]. cbn. now rewrite IH. Qed.

Section BBook.
  Context (expat : bytes -> list event * option exn) (z : archive) (w : wopts) (sl : list sitem) (yl : list yitem) (rows : list brow).
  Local Notation nv := (xlsb_null (wo_nulls w)).
  Local Notation texts := (sitem_texts sl).
  Local Notation cols := (wo_cols w).
  Local Notation shown := (b_shown texts nv cols).
  Context (F : xlsb_file expat z (wo_sheet w) sl yl rows).
  Lemma first_ok keys (ps : list (Z * brow)) c v : (forall p, In p ps -> In (snd p) rows) -> starts_well texts nv cols (map snd ps) ->
    hd_error (flat_map (fun p => expected_row keys nv (fun _ => false) cols (fst p) (snd p)) ps) = Some c -> c_xdt c = 0x11 -> c_val c = VBytes v ->
    mem_str v (null_keys nv 0 texts) = false.
  Proof.
    intros Hps Sw I X V. assert (Hn : zlen texts <= 2 ^ 32) by (destruct F as [_ _ (sst & _ & _ & Hn) _ _]; exact Hn).
    assert (Ok : forall p c, In p ps -> In c (row_cells (snd p)) -> bcell_ok c = true) by (intros p d Hp Hd; apply (bfile_cells_ok F (Hps p Hp) Hd)). clear Hps.
    unfold starts_well in Sw. revert Ok Sw I. induction ps as [|[i x] ps IH]; intros Ok Sw I; [discriminate|]. cbn [flat_map map fst snd] in *. rewrite filter_app in Sw.
    unfold expected_row in I at 1.
    assert (Ok' : forall c, In c (row_cells x) -> bcell_ok c = true) by (intros; apply (Ok (i, x)); [now left|assumption]).
    revert I Sw Ok'. induction (row_cells x) as [|b bs IHb]; intros I Sw Ok'.
    - apply (IH (fun p c Hp Hc => Ok p c (or_intror Hp) Hc) Sw I).
    - cbn [flat_map filter] in *. unfold expected in I at 1. destruct (existsb (Z.eqb (b_col b)) cols) eqn:Ec; cbn [negb andb app] in *.
      + apply IHb; [exact I|exact Sw|intros; apply Ok'; now right].
      + unfold b_null in Sw. destruct (b_val b) as [u|f u|f u|f t|j] eqn:Eb; cbn [negb app hd_error] in *.
        * inversion I; subst c. cbn in X; destruct (keys (b_style b)); discriminate.
        * inversion I; subst c. cbn in X; destruct (keys (b_style b)); discriminate.
        * inversion I; subst c. discriminate.
        * destruct (nv t) eqn:Et; cbn [negb app hd_error] in *; [apply IHb; [exact I|exact Sw|intros; apply Ok'; now right]|].
          inversion I; subst c. discriminate.
        * inversion I; subst c. cbn in V. inversion V; subst v. rewrite Eb in Sw. specialize (Ok' b (or_introl eq_refl)). unfold bcell_ok in Ok'. rewrite Eb in Ok'.
          rewrite null_keys_mem by lia. exact Sw.
  Qed.
  Lemma rows_from_in A skip take (l : list A) x : In x (rows_from skip take l) -> In x l.
  Proof.
    unfold rows_from. destruct (_ =? 0); [easy|]. intro H. rewrite <- (firstn_skipn (Z.to_nat skip) l). apply in_or_app. right.
    rewrite <- (firstn_skipn (Z.to_nat (take + 1))). apply in_or_app. now left.
  Qed.
  Lemma bbook_iter_rows st : bbook_styles z = Ok st -> 0 <= wo_skip w -> 0 <= wo_take w ->
    starts_well texts nv cols (if wo_tne w then rows_from (wo_skip w) (wo_take w) rows else rows) ->
    exists outs, bbook_iter expat z w = (outs, None) /\
      Cell.cells_of outs = laid (expected_row (fun k => mem_str k st) nv (null_entry nv texts) cols)
        (b_delivered texts nv cols (wo_tne w) (wo_skip w) (wo_take w) rows).
  Proof.
    intros St Sk Tk Sw. destruct (bbook_sheet F) as (path & pre & e & post & part & P & Op & d & Hd & Sel).
    unfold bbook_iter. cbv zeta. rewrite (bbook_shared_ok F), Hd. cbn [bind]. rewrite Sel. cbn [bind].
    replace (wo_skip w <? 0) with false by lia. replace (wo_take w <? 0) with false by lia. rewrite Op, St. cbn [bind].
    set (skip := wo_skip w) in *. set (take := wo_take w) in *. set (tne := wo_tne w) in *.
    set (keys := fun k => mem_str k st). set (nul := fun k => mem_str k (null_keys nv 0 texts)).
    assert (Row : forall nl i x c, In c (expected_row keys nv nl cols i x) -> c_row c = i).
    { intros nl i x c Hc. unfold expected_row in Hc. apply in_flat_map in Hc as (b & _ & Hc). unfold expected in Hc. destruct (existsb _ cols); [easy|].
      destruct (b_val b) as [u|g u|g u|g t|j]; [| | |destruct (nv t)|destruct (nl j)]; try (now destruct Hc); destruct Hc as [<-|[]]; reflexivity. }
    (* the cells for a fixed null set *)
    assert (G : forall nl, snd (xlsb_iter (Ok st) nv (fun _ => nl) skip take tne cols part) = None /\
      Cell.cells_of (fst (xlsb_iter (Ok st) nv (fun _ => nl) skip take tne cols part)) =
      let f := expected_row keys nv (fun i => nl (le4 i)) cols in
      if tne then laid f (rows_from skip take rows)
      else if 0 <? skip then []
      else filter (fun c => (take =? 0) || (c_row c <=? take))
             (flat_map (fun p => f (fst p) (snd p)) (count_before (row_nonempty keys nv (fun i => nl (le4 i)) cols) 0 rows))).
    { intro nl. cbv zeta. destruct tne eqn:Et.
      - destruct (@xlsb_skip_keep st nv nl pre rows e post part skip take cols P Sk Tk) as [G1 G2]. split; [exact G1|]. rewrite G2. now apply window_laid.
      - destruct (0 <? skip) eqn:E0.
        + rewrite (@xlsb_skip_collapse st nv nl pre rows e post part skip take cols P ltac:(lia) Tk). split; reflexivity.
        + assert (skip = 0) as Es by lia. rewrite Es. destruct (@xlsb_all_rows st nv nl pre rows e post part false cols P) as [A1 A2].
          destruct (take =? 0) eqn:E1; [assert (take = 0) as Etk by lia; rewrite Etk; split; [exact A1|]; rewrite A2; clear; cbn [orb]; symmetry; induction (flat_map _ _) as [|c r IH]; [reflexivity|]; cbn; now f_equal|].
          destruct (@xlsb_take_rows st nv nl pre rows e post part take false cols P ltac:(lia)) as [B1 B2]. split; [exact B1|]. rewrite B2, A2. reflexivity. }
    assert (T : xlsb_iter (Ok st) nv (filled_after_first nul) skip take tne cols part = xlsb_iter (Ok st) nv (fun _ => nul) skip take tne cols part).
    { destruct (@xlsb_iter_timed st nv nul skip take tne cols part) as [T|(c & rest & v & L & X & V & N)]; [exact T|exfalso].
      pose proof (@iter_first (Ok st) nv skip take tne cols (filled_after_first nul) (fun _ _ => false) part eq_refl) as I. rewrite L in I. cbn [hd_error] in I.
      symmetry in I. rewrite (proj2 (G (fun _ => false))) in I. cbv zeta in I. unfold nul in N. destruct tne.
      - enough (mem_str v (null_keys nv 0 texts) = false) by congruence.
        apply (@first_ok keys (enum_from 0 (rows_from skip take rows)) c v); [| |exact I|exact X|exact V].
        + intros [j y] Hp. cbn. apply enum_in in Hp. now apply rows_from_in in Hp.
        + now rewrite enum_snd.
      - destruct (0 <? skip); [discriminate|]. assert (Hh : hd_error (flat_map (fun p => expected_row keys nv (fun _ => false) cols (fst p) (snd p))
          (count_before (row_nonempty keys nv (fun _ => false) cols) 0 rows)) = Some c).
        { destruct (take =? 0) eqn:E1.
          - cbn [orb] in I. rewrite <- I. clear. induction (flat_map _ _) as [|c r IH]; reflexivity.
          - cbn [orb] in I. revert I. apply (@hd_filter_rows take _ _ (expected_row keys nv (fun _ => false) cols) _ c (Row _) (count_before_sorted _ _ 0) eq_refl). }
        enough (mem_str v (null_keys nv 0 texts) = false) by congruence.
        apply (@first_ok keys (count_before (row_nonempty keys nv (fun _ => false) cols) 0 rows) c v); [| |exact Hh|exact X|exact V].
        + intros [j y] Hp. cbn. rewrite <- (@count_snd _ (row_nonempty keys nv (fun _ => false) cols) 0 rows). apply in_map_iff. now exists (j, y).
        + now rewrite count_snd. }
    rewrite T. destruct (G nul) as [G1 G2]. destruct (xlsb_iter (Ok st) nv (fun _ => nul) skip take tne cols part) as [outs e'] eqn:Eo. cbn [fst snd] in *. subst e'. exists outs. split; [reflexivity|].
    rewrite G2. cbv zeta. clear G2 G T Eo. set (f := expected_row keys nv (null_entry nv texts) cols).
    assert (Ef : forall r i, In r rows -> expected_row keys nv (fun i => nul (le4 i)) cols i r = f i r).
    { intros r i Hr. unfold f, expected_row. apply flat_map_ext_in. intros c Hc. apply expected_null_ext; [now apply (bfile_cells_ok F Hr)|].
      intros j Hj. now apply (null_keys_entry F). }
    assert (Er : forall r, In r rows -> row_nonempty keys nv (fun i => nul (le4 i)) cols r = existsb shown (row_cells r)).
    { intros r Hr. unfold row_nonempty. rewrite (Ef r 0 Hr). unfold f, expected_row. clear. induction (row_cells r) as [|c l IH]; [reflexivity|]. cbn [flat_map existsb].
      rewrite expected_shown. destruct (shown c); [reflexivity|exact IH]. }
    unfold b_delivered. destruct tne.
    { unfold laid, laid_from. apply flat_map_ext_in. intros [j y] Hp. cbn [fst snd]. apply Ef. apply enum_in in Hp. now apply rows_from_in in Hp. }
    destruct (0 <? skip); [reflexivity|].
    assert (E : flat_map (fun p => expected_row keys nv (fun i => nul (le4 i)) cols (fst p) (snd p)) (count_before (row_nonempty keys nv (fun i => nul (le4 i)) cols) 0 rows)
      = laid f (b_rows texts nv cols false rows)).
    { transitivity (flat_map (fun q => f (fst q) (snd q)) (count_before (fun r => false || existsb shown (row_cells r)) 0 rows)).
      - clear -Ef Er. generalize 0. revert Ef Er. induction rows as [|x rs IH]; intros Ef Er i; [reflexivity|]. cbn [count_before flat_map fst snd].
        rewrite (Ef x) by now left. rewrite (Er x) by now left. cbn [orb]. f_equal. apply IH; intros; [apply Ef|apply Er]; now right.
      - apply (@laid_counted _ f). intros i x H. cbn [orb] in H. unfold f, expected_row.
        clear -H. induction (row_cells x) as [|c l IH]; [reflexivity|]. cbn [flat_map existsb] in *. apply orb_false_elim in H as [H1 H2]. rewrite expected_shown, H1. now apply IH. }
    rewrite E. unfold rows_from. rewrite Z.add_0_l. destruct (take =? 0); cbn [orb].
    - clear. induction (laid _ _) as [|c r IH]; [reflexivity|]. cbn. now f_equal.
    - cbn [Z.to_nat skipn]. apply filter_laid; [|exact Tk]. intros i x c. apply Row.
  Qed.
End BBook.

Section XBook.
  Context (expat : bytes -> list event * option exn) (z : archive) (w : wopts) (sl : list xsi) (yl : list ystyle) (rows : list xrow).
  Local Notation nv := (xlsx_null (wo_nulls w)).
  Local Notation cols := (wo_cols w).
  Context (F : xlsx_file expat z (wo_sheet w) sl yl rows).
  Lemma xbook_iter_rows st : xbook_styles expat z = Ok st -> 0 <= wo_skip w -> 0 <= wo_take w ->
    exists outs, xbook_iter expat z w = (outs, None) /\
      Cell.cells_of outs = laid (xexpected_row (style_get st) nv cols) (x_delivered nv cols (wo_tne w) (wo_skip w) (wo_take w) rows).
  Proof.
    intros St Sk Tk. destruct (xbook_sheet F) as (path & b & es & Eb & S & Op & d & Hs & Sel).
    unfold xbook_iter. rewrite Hs. cbn [bind]. rewrite Sel. cbn [bind]. replace (wo_skip w <? 0) with false by lia. replace (wo_take w <? 0) with false by lia. rewrite Op, St. cbn [bind]. rewrite Eb.
    set (skip := wo_skip w) in *. set (take := wo_take w) in *. eexists. split; [reflexivity|].
    assert (L : forall l, leading (xrow_nonempty (style_get st) nv cols) l = leading (x_row_shown nv cols) l).
    { clear. induction l as [|r rs IH]; [reflexivity|]. cbn [leading]. now rewrite xrow_nonempty_shown, IH. }
    unfold x_delivered. destruct (wo_tne w).
    - rewrite (@C24_xlsx_exact_kept_rows (style_get st) nv rows es skip take cols None S Sk Tk). cbv zeta. rewrite L.
      set (q := Z.min (zlen rows) skip + _). assert (Q : 0 <= q). { pose proof (zlen_nonneg rows). pose proof (@leading_ge0 _ (x_row_shown nv cols) (skipn (Z.to_nat skip) rows)). lia. }
      rewrite <- (@window_laid _ (xexpected_row (style_get st) nv cols) skip (take + 2 * q) rows Sk ltac:(lia)). apply flat_map_ext. intros [i r]. cbn [fst snd].
      replace (take + skip + 2 * q) with (skip + (take + 2 * q)) by lia. now rewrite andb_comm.
    - destruct (0 <? skip) eqn:E0; [now rewrite (@C16_xlsx_collapsed_skip_refuted (style_get st) nv rows es skip take cols None S) by lia|].
      assert (Es : skip = 0) by lia. rewrite Es. rewrite (@C17_xlsx_take_collapsed_partial (style_get st) nv rows es take cols None S Tk).
      assert (G : Cell.cells_of (fst (xlsx_iter (style_get st) nv 0 0 false cols es None)) = laid (xexpected_row (style_get st) nv cols) (x_rows nv cols false rows)).
      { rewrite (@C24_xlsx_exact_collapsed_rows (style_get st) nv rows es cols None S). cbv zeta. rewrite L. unfold x_rows.
        apply (@laid_leading _ (xexpected_row (style_get st) nv cols) (x_row_shown nv cols)). intros i x H. rewrite <- (xrow_nonempty_shown nv cols (style_get st)) in H.
        unfold xrow_nonempty in H. clear -H. unfold xexpected_row in *. induction (xrow_cells x) as [|c l IH]; [reflexivity|]. cbn [flat_map] in *.
        pose proof (xexpected_head nv cols (style_get st) i c) as H1. pose proof (xexpected_head nv cols (style_get st) 0 c) as H0.
        destruct (xexpected (style_get st) nv cols 0 c); [|discriminate]. cbn [app hd_error] in *. rewrite IH by exact H.
        destruct (xexpected (style_get st) nv cols i c); [reflexivity|]. exfalso. cbn in H1. destruct (x_shown nv cols c); [|discriminate]. destruct (x_text nv c); discriminate. }
      rewrite G. unfold rows_from. rewrite Z.add_0_l. destruct (take =? 0); cbn [orb].
      + clear. induction (laid _ _) as [|c r IH]; [reflexivity|]. cbn. now f_equal.
      + cbn [Z.to_nat skipn]. apply filter_laid; [|exact Tk]. intros i x c Hc. apply in_flat_map in Hc as (b' & _ & Hc). now apply xexpected_col in Hc.
  Qed.
End XBook.
