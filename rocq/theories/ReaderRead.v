(** Filters, casts and the whole of [read] against their specifications. *)
From Coq Require Import Sorted ZifyBool ZifyNat.
From Verif Require Import Py PyFacts PyText Cell Casts Chunk ChunkSpec ChunkProofs ChunkWindow ChunkRun ChunkClosed ChunkConcat PropsChunk
  Utf8 Series SeriesSpec SeriesProofs PropsSeries Reader ReaderSpec ReaderProofs ReaderSteps.
Set Implicit Arguments. Unset Strict Implicit.

Section Filters.
  Context (ro : roracle).
  (** *** Choosing the filter columns *)
  Fixpoint choose (t : nat -> str -> bool) (i : nat) (names : list str) (ks : list Z) : list Z :=
    match names, ks with
    | n :: names, k :: ks => if t i n then k :: choose t (S i) names ks else choose t (S i) names ks
    | _, _ => []
    end.
  Lemma choose_nth t ks : forall i names, List.length names = List.length ks ->
    choose t i names ks = flat_map (fun j => if t (i + j)%nat (nth j names []) then [nth j ks 0] else []) (seq 0 (List.length ks)).
  Proof.
    induction ks as [|k ks IH]; intros i [|n names] L; try discriminate; [reflexivity|]. cbn [choose List.length seq flat_map nth].
    rewrite Nat.add_0_r. assert (E : flat_map (fun j => if t (i + j)%nat (nth j (n :: names) []) then [nth j (k :: ks) 0] else []) (seq 1 (List.length ks)) = choose t (S i) names ks).
    { rewrite <- seq_shift, flat_map_concat_map, map_map, <- flat_map_concat_map. rewrite IH by (cbn in L; lia). apply flat_map_ext. intro j. cbn [nth].
      now replace (i + S j)%nat with (S i + j)%nat by lia. }
    destruct (t i n); cbn [app]; [f_equal|]; symmetry; exact E.
  Qed.
  Lemma any_match_spec pats n b : any_match ro pats n = Ok b -> existsb (fun t => matches ro t n) pats = b.
  Proof.
    induction pats as [|t r IH]; cbn; [congruence|]. unfold matches at 1. destruct (ro_match ro t) as [m|]; [|discriminate].
    destruct (m n); [cbn; congruence|]. cbn. exact IH.
  Qed.
  Lemma named_spec pats t : (forall i n, t i n = existsb (fun p => matches ro p n) pats) -> forall names ks fs i,
    named ro pats names ks = Ok fs -> fs = choose t i names ks.
  Proof.
    intro T. induction names as [|n names IH]; intros [|k ks] fs i; cbn; try congruence.
    destruct (any_match ro pats n) as [b|] eqn:E; cbn [bind]; [|discriminate]. apply any_match_spec in E.
    destruct (named ro pats names ks) as [l|] eqn:N; cbn [bind]; [|discriminate]. intro H. inversion H; subst fs.
    rewrite T, E. rewrite <- (IH ks l (S i) N). now destruct b.
  Qed.
  Lemma placed_spec is t : (forall i n, t i n = existsb (Z.eqb (Z.of_nat i)) is) -> forall names ks i, List.length names = List.length ks ->
    placed is (Z.of_nat i) ks = choose t i names ks.
  Proof.
    intro T. induction names as [|n names IH]; intros [|k ks] i L; try discriminate; [reflexivity|]. cbn [placed choose].
    rewrite T. unfold mem_Z. replace (Z.of_nat i + 1) with (Z.of_nat (S i)) by lia. rewrite IH by (cbn in L; lia). reflexivity.
  Qed.
  Lemma choose_none t ks : (forall i n, t i n = false) -> forall i names, choose t i names ks = [].
  Proof. intro T. induction ks as [|k ks IH]; intros i [|n names]; cbn; try reflexivity. rewrite T. apply IH. Qed.
  Lemma filter_keys_spec fa names ks fs : List.length names = List.length ks -> filter_keys ro fa names ks = Ok fs -> fs = chosen_columns ro fa names ks.
  Proof.
    intros L H. assert (G : fs = choose (chosen ro fa) 0 names ks).
    { destruct fa as [|[|c t]|[|i is]|[|t ts]|]; cbn [filter_keys] in H;
        try (inversion H; subst; symmetry; apply choose_none; reflexivity); try discriminate.
      - apply named_spec with (pats := [c :: t]); [|exact H]. intros i n. cbn. now rewrite orb_false_r.
      - inversion H. apply (@placed_spec (i :: is) (chosen ro (FInts (i :: is)))) with (i := 0%nat); [reflexivity|exact L].
      - apply named_spec with (pats := t :: ts); [|exact H]. reflexivity. }
    rewrite G. rewrite choose_nth by exact L. reflexivity.
  Qed.

  (** *** Masks *)
  Definition row (ls : list (list bool)) (i : nat) : list bool := map (fun x => nth i x false) ls.
  Lemma zip_bool_spec f a b n : List.length a = n -> List.length b = n ->
    zip_bool f a b = Ok (map (fun i => f (nth i a false) (nth i b false)) (seq 0 n)).
  Proof.
    intros A B. unfold zip_bool. replace (Nat.eqb (List.length a) (List.length b)) with true by (symmetry; apply Nat.eqb_eq; congruence). f_equal.
    subst n. revert b B. induction a as [|x a IH]; intros [|y b] B; try discriminate; [reflexivity|]. cbn [combine map List.length seq nth fst snd]. f_equal.
    rewrite <- seq_shift, map_map. apply IH. cbn in B. lia.
  Qed.
  Lemma nth_map_seq0 (g : nat -> bool) n i : (i < n)%nat -> nth i (map g (seq 0 n)) false = g i.
  Proof. intro H. rewrite nth_indep with (d' := g 0%nat) by (rewrite map_length, seq_length; lia). rewrite map_nth, seq_nth by lia. reflexivity. Qed.
  Lemma fold_bool_spec n ls : (forall x, In x ls -> List.length x = n) -> forall ops acc m, List.length acc = n -> List.length ops = List.length ls ->
    fold_bool ops acc ls = Ok m -> m = map (fun i => left_to_right (nth i acc false) ops (row ls i)) (seq 0 n).
  Proof.
    intro L. induction ls as [|x ls IH]; intros [|op ops] acc m A O; try discriminate.
    - cbn. intro H. inversion H; subst m. subst n. symmetry. apply nth_map_seq.
    - cbn [fold_bool]. rewrite (@zip_bool_spec _ acc x n A (L x (or_introl eq_refl))). cbn [bind]. intro H.
      apply IH in H; [|intros; apply L; now right|now rewrite map_length, seq_length|cbn in O; lia]. rewrite H. apply map_ext_in. intros i Hi. apply in_seq in Hi.
      rewrite nth_map_seq0 by lia. cbn [row map]. fold (row ls i). now destruct op.
  Qed.
  Lemma ltr_or bs : forall b, left_to_right b (repeat BOr (List.length bs)) bs = b || existsb (fun x => x) bs.
  Proof. induction bs as [|c bs IH]; intro b; cbn; [now rewrite orb_false_r|]. rewrite IH. now destruct b, c. Qed.
  Lemma ltr_and bs : forall b, left_to_right b (repeat BAnd (List.length bs)) bs = b && forallb (fun x => x) bs.
  Proof. induction bs as [|c bs IH]; intro b; cbn; [now rewrite andb_true_r|]. rewrite IH. now destruct b, c. Qed.
  Lemma combine_filters_spec st ls n m : ls <> [] -> (forall x, In x ls -> List.length x = n) -> combine_filters st ls = Ok m ->
    m = map (fun i => keep st (row ls i)) (seq 0 n).
  Proof.
    intros Ne L. destruct ls as [|x [|y r]]; [easy| |].
    - cbn. intro H. inversion H; subst. rewrite <- (L m (or_introl eq_refl)). symmetry. apply nth_map_seq.
    - assert (Lx : List.length x = n) by (apply L; now left). assert (Lr : forall z, In z (y :: r) -> List.length z = n) by (intros; apply L; now right).
      assert (Rw : forall i, row (x :: y :: r) i = nth i x false :: nth i y false :: row r i) by reflexivity.
      assert (Rl : forall i, List.length (row (y :: r) i) = List.length (y :: r)) by (intro; apply map_length).
      cbn [combine_filters]. destruct st as [| |ops|]; [| | |discriminate].
      + intro H. apply (@fold_bool_spec n) in H; [|exact Lr|exact Lx|apply repeat_length]. rewrite H. apply map_ext. intro i. rewrite <- (Rl i), ltr_or. reflexivity.
      + intro H. apply (@fold_bool_spec n) in H; [|exact Lr|exact Lx|apply repeat_length]. rewrite H. apply map_ext. intro i. rewrite <- (Rl i), ltr_and. reflexivity.
      + destruct (Nat.eqb _ _) eqn:E; cbn [negb]; [|discriminate]. apply Nat.eqb_eq in E. destruct (existsb _ ops); [discriminate|].
        intro H. apply (@fold_bool_spec n) in H; [|exact Lr|exact Lx|exact E]. rewrite H. apply map_ext. intro i. reflexivity.
  Qed.

  (** *** Casts *)
  Lemma cast_col_spec a d c : cast_col ro a d = Ok c -> converted (Some d) a c.
  Proof.
    unfold cast_col, converted. rewrite arrow_id_eq, Z.eqb_sym. destruct (u_id d =? arrow_id (a_type a)); [congruence|].
    destruct (ro_castable ro (a_type a) d); [|discriminate]. destruct (mapM (cast_cell ro d) (a_vals a)) as [l|] eqn:M; cbn [bind]; [|discriminate].
    intro H. inversion H. split; [reflexivity|]. exists l. split; [reflexivity|]. apply mapM_Forall2 in M. eapply Forall2_impl_in; [|exact M].
    cbn. intros x y _ _ E. unfold cast_cell in E. destruct x as [v|]; [|now inversion E]. destruct (ro_cast ro d v) eqn:Q; inversion E; subst; now rewrite ?Q.
  Qed.
  Definition all_converted (dt : dtypes_arg) (names : list str) (arrays : list array) (cs : list (tcol ro)) : Prop :=
    List.length cs = List.length arrays /\
    forall i a, nth_error arrays i = Some a -> exists c, nth_error cs i = Some c /\ converted (type_wanted dt i (nth i names [])) a c.
  Lemma dget_find (l : list (str * udt)) n : dget str_eqb l n = match find (fun p => str_eqb n (fst p)) l with Some (_, d) => Some d | None => None end.
  Proof. induction l as [|[k d] l IH]; cbn; [reflexivity|]. now destruct (str_eqb n k). Qed.
  Lemma cast_all_spec dt names arrays cs : List.length names = List.length arrays -> cast_all ro dt names arrays = Ok cs -> all_converted dt names arrays cs.
  Proof.
    intros L H. unfold all_converted. destruct dt as [|d|ds|ds]; cbn [cast_all] in H.
    - inversion H. rewrite map_length. split; [reflexivity|]. intros i a E. rewrite nth_error_map, E. cbn. eauto.
    - clear L. split; [now apply mapM_length in H|]. apply mapM_Forall2 in H. cbn [type_wanted]. intros i a E. revert i E.
      induction H as [|x y xs ys R F IH]; intros [|i] E; try discriminate; cbn in *; [|now apply IH]. inversion E; subst. exists y. split; [reflexivity|]. exact (cast_col_spec R).
    - revert arrays cs L H. induction names as [|n names IH]; intros [|a arrays] cs L H; try discriminate; cbn [cast_dict] in H.
      + inversion H. split; [reflexivity|]. now intros [|i].
      + rewrite dget_find in H.
        assert (C : exists c, match match find (fun p => str_eqb n (fst p)) ds with Some (_, d) => Some d | None => None end with Some d => cast_col ro a d | None => Ok (Plain ro a) end = Ok c /\
          converted (type_wanted (DTDict ds) 0 n) a c).
        { cbn [type_wanted]. destruct (find _ ds) as [[k d]|]; [|exists (Plain ro a); now split]. destruct (cast_col ro a d) as [c|] eqn:E; [|discriminate]. exists c. split; [reflexivity|]. exact (cast_col_spec E). }
        destruct C as (c & E & C). rewrite E in H. cbn [bind] in H. destruct (cast_dict ro names arrays ds) as [l|] eqn:D; cbn [bind] in H; [|discriminate].
        inversion H; subst cs. destruct (IH arrays l ltac:(cbn in L; lia) D) as [I1 I2]. split; [cbn; lia|]. intros [|i] b B; cbn in B |- *; [|now apply I2].
        inversion B; subst. eauto.
    - destruct (Nat.eqb _ _) eqn:E; [|discriminate]. apply Nat.eqb_eq in E. rewrite L in E. cbn [type_wanted]. clear L names.
      revert arrays cs E H. induction ds as [|d ds IH]; intros [|a arrays] cs E H; try discriminate; cbn [cast_seq] in H.
      + inversion H. split; [reflexivity|]. now intros [|i].
      + destruct (cast_col ro a d) as [c|] eqn:C; cbn [bind] in H; [|discriminate]. destruct (cast_seq ro arrays ds) as [l|] eqn:D; cbn [bind] in H; [|discriminate].
        inversion H; subst cs. destruct (IH arrays l ltac:(cbn in E; lia) D) as [I1 I2]. split; [cbn; lia|]. intros [|i] b B; cbn in B |- *; [|now apply I2].
        inversion B; subst. exists c. split; [reflexivity|]. exact (cast_col_spec C).
  Qed.
  Lemma mk_table_spec names cs tbl : mk_table names cs = Ok tbl ->
    tbl = combine names cs /\ List.length names = List.length cs /\ exists n, forall c, In c cs -> @col_len ro c = n.
  Proof.
    unfold mk_table. destruct (Nat.eqb _ _) eqn:E; cbn [negb]; [|discriminate]. apply Nat.eqb_eq in E. destruct cs as [|c r].
    - intro H. inversion H. destruct names; [|discriminate]. split; [reflexivity|]. split; [reflexivity|]. now exists 0.
    - destruct (forallb _ r) eqn:F; [|discriminate]. intro H. inversion H. split; [reflexivity|]. split; [exact E|]. exists (col_len c).
      intros x [->|Hx]; [reflexivity|]. rewrite forallb_forall in F. specialize (F x Hx). lia.
  Qed.
End Filters.

Section Whole.
  Context (ro : roracle) (sc : sconf).
  Local Notation o := (ro_o ro).
  Local Notation cf := (sc_conf sc).
  Local Notation CInv := (CInv ro sc).
  Context (l : list cell) (Rows : forall c, In c l -> 0 <= c_row c).

  Lemma true_count_in m : true_count m <> 0 -> In true m.
  Proof. unfold true_count. induction m as [|[|] m IH]; cbn; [easy|now left|right; now apply IH]. Qed.
  Lemma in_true_count m : In true m -> 0 < true_count m.
  Proof.
    unfold true_count. induction m as [|[|] m IH]; [easy| |].
    - intros _. cbn [filter]. rewrite zlen_cons. pose proof (zlen_nonneg (filter (fun b : bool => b) m)). lia.
    - intros [H|H]; [discriminate|]. now apply IH.
  Qed.
  Lemma row_mask_ok op d fs off len d' idx : 0 <= off -> 0 < len -> CInv l d -> (forall k, In k fs -> In k (order l)) ->
    row_mask ro sc (r_strategy op) d fs off len = Ok (d', idx) -> CInv l d' /\ kept_rows ro sc op l fs off len idx.
  Proof.
    intros Ho Hl C K. unfold row_mask, kept_rows. destruct fs as [|f fs]; [intro H; inversion H; subst; now split|].
    destruct (@each_ok ro sc l (list bool) (fun d k => ' (d, a) <- arrow_of ro sc d k off len None ;; Ok (d, map non_null (a_vals a)))
      (fun k m => exists a, holds o sc l k off len None a /\ m = map present (a_vals a)) (fun _ => True)) with (ks := f :: fs) (d := d) as [(d1 & v & -> & C1 & F)|(_ & e & ->)].
    - intros d1 k C1 K1. destruct (@arrow_of_ok ro sc l Rows d1 k off len None C1 K1) as [(d2 & a & -> & C2 & H)|(_ & ->)]; [now apply calm_window| |]; cbn [bind]; [|right; eauto].
      left. eexists. eexists. split; [reflexivity|]. split; [exact C2|]. exists a. now split.
    - exact C.
    - exact K.
    - cbn [bind]. destruct (combine_filters (r_strategy op) v) as [m|] eqn:M; cbn [bind]; [|discriminate].
      destruct (true_count m =? 0) eqn:T; [discriminate|]. intro H. inversion H; subst. split; [exact C1|].
      assert (A : exists arrays, Forall2 (fun k a => holds o sc l k off len None a) (f :: fs) arrays /\ v = map (fun a => map present (a_vals a)) arrays).
      { clear -F. induction F as [|k x ks v (a & H & ->) F (arrays & IH & ->)]; [exists []; now split|]. exists (a :: arrays). split; [now constructor|reflexivity]. }
      destruct A as (arrays & A & ->). exists arrays. split; [exact A|]. split; [|apply true_count_in; lia].
      apply (@combine_filters_spec _ _ (Z.to_nat len)) in M.
      + rewrite M. apply map_ext. intro i. f_equal. unfold row. rewrite map_map. apply map_ext. intro a. exact (map_nth present (a_vals a) None i).
      + destruct arrays; [inversion A|discriminate].
      + intros x Hx. apply in_map_iff in Hx. destruct Hx as (a & <- & Ha). rewrite map_length. destruct (Forall2_in_r A Ha) as (k & _ & G).
        pose proof (holds_len Hl G) as L. unfold zlen in L. lia.
    - cbn [bind]. discriminate.
  Qed.
  Lemma arrays_ok d off len idx d' arrays : 0 <= off -> 0 < len -> match idx with Some m => In true m | None => True end -> CInv l d ->
    each (fun d k => arrow_of ro sc d k off len idx) d (sorted (order l)) = Ok (d', arrays) ->
    Forall2 (fun k a => holds o sc l k off len idx a) (sorted (order l)) arrays.
  Proof.
    intros Ho Hl T C. destruct (@each_ok ro sc l array (fun d k => arrow_of ro sc d k off len idx) (fun k a => holds o sc l k off len idx a) (fun _ => True))
      with (ks := sorted (order l)) (d := d) as [(d1 & v & -> & C1 & F)|(_ & e & ->)].
    - intros d1 k C1 K1. destruct (@arrow_of_ok ro sc l Rows d1 k off len idx C1 K1) as [(d2 & a & -> & C2 & H)|(_ & ->)]; [|left; eauto|right; eauto].
      destruct idx as [m|]; [apply calm_mask; [exact Ho|now apply in_true_count]|now apply calm_window].
    - exact C.
    - intro k. now rewrite sorted_in.
    - intro H. inversion H; subst. exact F.
    - discriminate.
  Qed.
End Whole.

(** *** Everything a returned table says *)
Record described (ro : roracle) (sc : sconf) (op : ropts) (l : list cell) (ks : list Z) (tbl : table ro)
  (tall first height : Z) (names : list str) (idx : option (list bool)) (arrays : list array) : Prop := mkDescribed {
  ds_tall : tallest l ks tall;
  ds_first : located ro sc op l first;
  ds_names : titled ro sc op l ks first height names;
  ds_width : List.length names = List.length ks;
  ds_nonneg : 0 <= height + first + r_skip_after op;
  ds_rows : let off := height + first + r_skip_after op in let len := tall - first - height - r_skip_after op in
    0 < len ->
    kept_rows ro sc op l (chosen_columns ro (r_filters op) names ks) off len idx /\
    Forall2 (fun k a => holds (ro_o ro) sc l k off len idx a) ks arrays;
  ds_types : exists cs, all_converted (r_dtypes op) names arrays cs /\ tbl = combine names cs /\ List.length cs = List.length ks
}.
Lemma each_keys A (f : cols -> Z -> res (cols * A)) : (forall d k d' a, f d k = Ok (d', a) -> keys d' = keys d) ->
  forall ks d d' v, each f d ks = Ok (d', v) -> keys d' = keys d /\ List.length v = List.length ks.
Proof.
  intro H. induction ks as [|k ks IH]; intros d d' v; cbn [each]; [intro E; inversion E; now split|].
  destruct (f d k) as [[d1 a]|] eqn:F; cbn [bind]; [|discriminate]. destruct (each f d1 ks) as [[d2 w]|] eqn:G; cbn [bind]; [|discriminate].
  intro E. inversion E; subst. destruct (IH _ _ _ G) as [K L]. split; [rewrite K; now apply (H _ _ _ _ F)|cbn; now rewrite L].
Qed.
Lemma keys_dset (d : cols) k x y : dget Z.eqb d k = Some x -> keys (dset Z.eqb d k y) = keys d.
Proof.
  intro H. unfold keys. rewrite dset_keys_Z. replace (mem_Z k (map fst d)) with true; [reflexivity|]. symmetry. apply mem_Z_In. apply dget_In_Z. congruence.
Qed.
Lemma arrow_of_keys ro sc d k off len idx d' a : arrow_of ro sc d k off len idx = Ok (d', a) -> keys d' = keys d.
Proof.
  unfold arrow_of. destruct (dget Z.eqb d k) as [x|] eqn:G; [|discriminate]. destruct (to_arrow _ _ _ _ _ _) as [y [b|]]; cbn [bind]; [|discriminate].
  intro H. inversion H. exact (keys_dset y G).
Qed.
Lemma row_mask_keys ro sc st d fs off len d' idx : row_mask ro sc st d fs off len = Ok (d', idx) -> keys d' = keys d.
Proof.
  unfold row_mask. destruct fs as [|f fs]; [intro H; now inversion H|]. destruct (each _ d (f :: fs)) as [[d1 v]|] eqn:E; cbn [bind]; [|discriminate].
  destruct (combine_filters st v); cbn [bind]; [|discriminate]. destruct (true_count _ =? 0); [discriminate|]. intro H. inversion H; subst.
  apply each_keys in E; [easy|]. intros d1 k d2 b. destruct (arrow_of _ _ _ _ _ _ _) as [[d3 c]|] eqn:A; cbn [bind]; [|discriminate].
  intro G. inversion G; subst. now apply arrow_of_keys in A.
Qed.
Lemma sorted_length l : List.length (sorted l) = List.length l.
Proof.
  assert (I : forall k ks, List.length (insert k ks) = Datatypes.S (List.length ks)) by (intros k ks; induction ks as [|j ks IH]; cbn; [reflexivity|]; destruct (k <=? j); cbn; lia).
  induction l as [|k ks IH]; [reflexivity|]. change (sorted (k :: ks)) with (insert k (sorted ks)). rewrite I, IH. reflexivity.
Qed.
Theorem read_described ro sc op outs ks tbl : sheet_ok (ro_o ro) sc (Cell.cells_of outs) = true -> listing (Cell.cells_of outs) ks -> sizes_ok op ->
  read_trace ro sc op (outs, None) = Ok tbl ->
  exists tall first height names idx arrays, described sc op (Cell.cells_of outs) ks tbl tall first height names idx arrays.
Proof.
  intros S Ls Sz. set (l := Cell.cells_of outs) in *.
  assert (Rows : forall c, In c l -> 0 <= c_row c).
  { intros c Hc. unfold sheet_ok in S. rewrite forallb_forall in S. specialize (S c Hc). lia. }
  pose proof (listing_order Ls) as Ek. unfold read_trace. cbn [fst snd].
  destruct (@collect_inv ro sc outs [] [] (cinv_nil ro sc) S) as (d & -> & C). cbn [bind app] in *. fold l in C.
  unfold read_columns. destruct (max_len d) as [n|] eqn:M; cbn [bind]; [|discriminate].
  assert (Ne : l <> []).
  { intro E. rewrite E in C. destruct d as [|p d]; [discriminate M|]. pose proof (proj1 C) as K. discriminate K. }
  destruct (tallest_max_len Rows C Ne) as (n' & M' & T). rewrite M in M'. inversion M'; subst n'. clear M'.
  destruct (locate ro sc op d) as [[d1 first]|] eqn:L1; cbn [bind]; [|discriminate]. destruct (locate_ok Rows Sz C L1) as (C1 & Hf & Lo).
  destruct (name_columns ro sc op d1 first) as [[d2 [h names]]|] eqn:L2; cbn [bind]; [|discriminate].
  destruct (name_columns_ok Rows Sz Hf C1 L2) as (C2 & Ti & Hh & Ln).
  rewrite (proj1 C2). rewrite Ek in *.
  assert (Lk : List.length ks = List.length (order l)).
  { rewrite <- Ek. apply sorted_length. }
  destruct (filter_keys ro (r_filters op) names ks) as [fs|] eqn:Fk; cbn [bind]; [|discriminate].
  apply filter_keys_spec in Fk; [|congruence].
  set (off := h + first + r_skip_after op). set (len := n - first - h - r_skip_after op).
  destruct (row_mask ro sc (r_strategy op) d2 fs off len) as [[d3 idx]|] eqn:Rm; cbn [bind]; [|discriminate].
  destruct (each (fun d k => arrow_of ro sc d k off len idx) d3 (sorted (keys d3))) as [[d4 arrays]|] eqn:Ea; cbn [bind]; [|discriminate].
  destruct (cast_all ro (r_dtypes op) names arrays) as [cs|] eqn:Ca; cbn [bind]; [|discriminate]. intro Mt.
  apply mk_table_spec in Mt. destruct Mt as (Mt & Lc & _).
  assert (Ho : 0 <= off) by (unfold off; destruct Sz as (_ & _ & Sz); lia).
  exists n, first, h, names, idx, arrays.
  assert (Kd : keys d3 = order l).
  { rewrite (row_mask_keys Rm). apply C2. }
  rewrite Kd, Ek in Ea.
  assert (La : List.length arrays = List.length ks).
  { apply each_keys in Ea; [easy|]. intros ? ? ? ?. apply arrow_of_keys. }
  split; try assumption.
  - destruct T as [(k & K & E) T]. split; [exists k; split; [rewrite <- Ek; now apply sorted_in|exact E]|]. intros j J. apply T. apply sorted_in. now rewrite Ek.
  - congruence.
  - cbv zeta. fold off len. intros Hl. assert (Kf : forall k, In k fs -> In k (order l)).
    { intros k K. rewrite Fk in K. apply sorted_in. rewrite Ek. unfold chosen_columns in K. apply in_flat_map in K. destruct K as (i & Hi & K). apply in_seq in Hi.
      destruct (chosen _ _ _ _); [|easy]. destruct K as [<-|[]]. apply nth_In. lia. }
    destruct (@row_mask_ok ro sc l Rows op d2 fs off len d3 idx Ho Hl C2 Kf Rm) as (C3 & Kr). rewrite Fk in Kr. split; [exact Kr|].
    rewrite <- Ek in Ea |- *. apply (arrays_ok Rows Ho Hl) in Ea; [exact Ea| |exact C3].
    unfold kept_rows in Kr. destruct idx as [m|]; [|exact I]. destruct (chosen_columns _ _ _ _); [easy|]. destruct Kr as (_ & _ & _ & Kr). exact Kr.
  - exists cs. split; [|split; [exact Mt|congruence]]. apply cast_all_spec; [congruence|exact Ca].
Qed.
