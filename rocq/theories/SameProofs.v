(** Sheets that show the same cells. *)
From Coq Require Import Sorted ZifyBool ZifyNat.
From Verif Require Import Py PyFacts PyText Cell Casts Chunk ChunkSpec ChunkProofs ReadSpec ReadProofs ReadState
  Utf8 Series SeriesSpec SeriesProofs Reader ReaderSpec ReaderProofs PropsRead TableSpec TableProofs TableSteps TableRead TableFresh TableErrors PlacesProofs SameSpec.
Set Implicit Arguments. Unset Strict Implicit.

(** *** Tags of a column, row by row *)
Section Flat.
  Context (o : oracle) (sc : sconf).
  Fixpoint flat (row : Z) (l : list cell) : list tag :=
    match l with [] => [] | c :: r => repeat tnull (Z.to_nat (c_row c - row)) ++ tag_of o sc c :: flat (c_row c + 1) r end.
  Lemma concat_some A (r : list A) : List.concat (some_run r) = r.
  Proof. destruct r; [reflexivity|]. cbn. now rewrite app_nil_r. Qed.
  Lemma run_good g : forallb (good o sc) g = true -> run_tags o sc g = map (tag_of o sc) g.
  Proof. unfold run_tags. now intros ->. Qed.
  Lemma flat_from l : forall c g d row, forallb (good o sc) (c :: g) = true -> forallb (good o sc) l = true -> c_row d + 1 = c_row c + zlen (c :: g) ->
    List.concat (column_runs o sc row (grouped_from (c :: g) d l)) = repeat tnull (Z.to_nat (c_row c - row)) ++ map (tag_of o sc) (c :: g) ++ flat (c_row d + 1) l.
  Proof.
    induction l as [|e l IH]; intros c g d row G Gl E; cbn [grouped_from].
    - cbn [column_runs]. rewrite concat_app, concat_some, (run_good G). cbn [List.concat flat]. now rewrite app_nil_r.
    - cbn [forallb] in Gl. apply andb_prop in Gl. destruct Gl as [Ge Gl]. destruct (follows d e) eqn:Fo.
      + unfold follows in Fo. change ((c :: g) ++ [e]) with (c :: (g ++ [e])). rewrite IH; [|change (c :: (g ++ [e])) with ((c :: g) ++ [e]); rewrite forallb_app, G; cbn; now rewrite Ge|exact Gl|].
        * cbn [flat]. replace (c_row e - (c_row d + 1)) with 0 by lia. cbn [Z.to_nat repeat app]. f_equal. change (c :: (g ++ [e])) with ((c :: g) ++ [e]). rewrite map_app. cbn [map app]. now rewrite <- app_assoc.
        * rewrite zlen_cons in *. change (c :: (g ++ [e])) with ((c :: g) ++ [e]) in *. rewrite zlen_app. change (zlen [e]) with 1. lia.
      + cbn [column_runs]. rewrite concat_app, concat_some, (run_good G). cbn [List.concat]. f_equal. f_equal. rewrite IH; [|cbn; now rewrite Ge|exact Gl|change (zlen [e]) with 1; lia].
        cbn [flat map app]. now rewrite E.
  Qed.
  Lemma flat_runs l : forallb (good o sc) l = true -> List.concat (column_runs o sc 0 (grouped l)) = flat 0 l.
  Proof.
    destruct l as [|c l]; [reflexivity|]. intro G. cbn [forallb] in G. apply andb_prop in G. destruct G as [G Gl]. cbn [grouped].
    rewrite flat_from; [reflexivity|cbn; now rewrite G|exact Gl|change (zlen [c]) with 1; lia].
  Qed.
  Lemma raw_str c : t_raw (tag_of o sc c) = true -> t_kind (tag_of o sc c) = KStr.
  Proof.
    assert (S : forall i t, shared_text sc i = Some t -> t_kind t = KStr) by (intros i t; unfold shared_text; destruct (_ && _); [intro H; now injection H as <-|discriminate]).
    unfold tag_of, cell_tag. destruct (sc_binary sc).
    - unfold bin_tag. destruct (c_val c) as [b|t]; [|destruct (c_xdt c =? 24); discriminate].
      destruct b as [|b0 [|b1 [|b2 [|b3 [|b4 [|b5 [|b6 [|b7 [|]]]]]]]]]; try discriminate; cbv zeta; repeat (destruct (_ =? _); try discriminate).
      destruct (shared_text sc _) as [t|] eqn:E; [|discriminate]. intros _. exact (S _ _ E).
    - unfold txt_tag. destruct (c_val c) as [b|t]; [|discriminate]. destruct (_ =? 24); [destruct (decode8 b); discriminate|]. destruct (_ =? 17).
      + destruct (py_int b) as [i|e]; [|discriminate]. destruct (shared_text sc _) as [t|] eqn:E; [|discriminate]. intros _. exact (S _ _ E).
      + destruct (_ =? 32); [destruct (o_float o b); discriminate|]. destruct (_ =? 36); [destruct (o_float o b); discriminate|discriminate].
  Qed.
  Lemma flat_raw l x : forall row, In x (flat row l) -> t_raw x = true -> t_kind x = KStr.
  Proof.
    induction l as [|c l IH]; intros row H R; [easy|]. cbn [flat] in H. apply in_app_or in H. destruct H as [H|[<-|H]]; [apply repeat_spec in H; now subst|exact (raw_str R)|exact (IH _ H R)].
  Qed.
End Flat.

(** *** Unmixed cells: the runs do not matter *)
Section Plain.
  Context (o : oracle) (cf : conf).
  Definition raw_strings (w : list tag) : Prop := forall x, In x w -> t_raw x = true -> t_kind x = KStr.
  Definition plain_cells (w : list tag) : list cellv * dtype :=
    if some_kind KTemp w then
      if cf_datetime cf then (map (fun x => as_time o (t_val x)) w, TMs) else (map (@t_val) w, if some_kind KNum w || some_kind KStr w then TUtf8 else TMs)
    else if some_kind KNum w then if some_kind KStr w then (map (@t_val) w, TUtf8) else (map (@t_val) w, if integral o cf w then TI8 else TF8)
    else (map (@t_val) w, TUtf8).
  Definition plain_array (w : list tag) : res array :=
    match w with [] => Err ValueError | _ => let '(vals, t) := plain_cells w in vs <- mapM (render o t) vals ;; Ok (mkA t vs) end.
  Lemma no_str rs : some_kind KStr (List.concat rs) = false -> forall r, In r rs -> is_str r = false.
  Proof.
    intros H r Hr. unfold is_str. destruct (some_kind KStr r) eqn:E; [|reflexivity]. apply existsb_exists in E. destruct E as (x & Hx & K). rewrite <- H. symmetry.
    apply existsb_exists. exists x. split; [|exact K]. apply in_concat. eauto.
  Qed.
  Lemma flat_dates rs : some_kind KStr (List.concat rs) = false -> flat_map (to_dates o cf) rs = map (fun x => as_time o (t_val x)) (List.concat rs) /\ forallb (datable o cf) rs = true.
  Proof.
    intro H. pose proof (no_str H) as N. clear H. induction rs as [|r rs IH]; [now split|]. cbn [flat_map List.concat forallb]. destruct IH as [A B]; [intros; apply N; now right|].
    assert (E : is_str r = false) by (apply N; now left). split; [|unfold datable at 1; now rewrite E]. rewrite map_app, A. f_equal. unfold to_dates. now rewrite E.
  Qed.
  Lemma plain_expected rs : Forall (fun r => r <> []) rs -> raw_strings (List.concat rs) -> unmixed cf (List.concat rs) = true -> expected o cf rs = plain_array (List.concat rs).
  Proof.
    intros Ne Rs U. unfold expected, plain_array. destruct rs as [|r rs]; [reflexivity|]. destruct (List.concat (r :: rs)) as [|x w] eqn:E.
    { inversion Ne as [|? ? N0 _]; subst. cbn [List.concat] in E. destruct r; [congruence|discriminate]. } rewrite <- E in *. clear x w E.
    assert (NR : cf_datetime cf && some_kind KTemp (List.concat (r :: rs)) && some_raw (List.concat (r :: rs)) = false).
    { destruct (cf_datetime cf && some_kind KTemp (List.concat (r :: rs))) eqn:D; [|reflexivity]. destruct (some_raw _) eqn:R; [|reflexivity]. exfalso. unfold unmixed in U. rewrite D in U.
      apply existsb_exists in R. destruct R as (x & Hx & Hr). assert (K : some_kind KStr (List.concat (r :: rs)) = true). { apply existsb_exists. exists x. split; [exact Hx|]. now rewrite (Rs x Hx Hr). }
      rewrite K, orb_true_r in U. discriminate. }
    rewrite NR. unfold unmixed in U. apply andb_prop in U. destruct U as [U1 U2].
    assert (C : expected_cells o cf (r :: rs) = plain_cells (List.concat (r :: rs))).
    { unfold expected_cells, plain_cells. cbv zeta. destruct (some_kind KTemp _) eqn:T.
      - destruct (cf_datetime cf); [|reflexivity]. cbn [andb] in U1. destruct (some_kind KStr (List.concat (r :: rs))) eqn:S; [rewrite orb_true_r in U1; discriminate|].
        destruct (flat_dates S) as [-> ->]. reflexivity.
      - destruct (some_kind KNum _); [|reflexivity]. destruct (some_kind KStr _); [|reflexivity]. destruct (cf_numerics cf); [discriminate|reflexivity]. }
    rewrite C. reflexivity.
  Qed.
  Lemma newer_looked w : Forall2 newer w (map looked_up w).
  Proof. induction w as [|x w IH]; cbn [map]; constructor; [now split|exact IH]. Qed.
  Lemma plain_newer w w' : Forall2 newer w w' -> plain_array w = plain_array w'.
  Proof.
    intro H. assert (C : plain_cells w = plain_cells w').
    { unfold plain_cells. rewrite !(kind_newer _ H), (vals_newer H).
      rewrite (@newer_map _ (fun x => as_time o (t_val x)) w w') by (try exact H; intros x y X; now rewrite (newer_val X)).
      assert (I : integral o cf w = integral o cf w') by (apply newer_all; [|exact H]; intros x y X; unfold num_of; now rewrite (newer_kind X), (newer_val X)).
      now rewrite I. }
    unfold plain_array. rewrite C. now destruct H.
  Qed.
  Lemma plain_looked w w' : map looked_up w = map looked_up w' -> plain_array w = plain_array w'.
  Proof. intro H. rewrite (plain_newer (newer_looked w)), (plain_newer (newer_looked w')). now rewrite H. Qed.
  Lemma unmixed_newer w w' : Forall2 newer w w' -> unmixed cf w = unmixed cf w'.
  Proof. intro H. unfold unmixed. now rewrite !(kind_newer _ H). Qed.
  Lemma unmixed_looked w w' : map looked_up w = map looked_up w' -> unmixed cf w = unmixed cf w'.
  Proof. intro H. rewrite (unmixed_newer (newer_looked w)), (unmixed_newer (newer_looked w')). now rewrite H. Qed.
  Lemma unmixed_some w w' : (forall x, In x w' -> In x w \/ x = tnull) -> unmixed cf w = true -> unmixed cf w' = true.
  Proof.
    intros H U. assert (K : forall k, k <> KNull -> some_kind k w' = true -> some_kind k w = true).
    { intros k N E. apply existsb_exists in E. destruct E as (x & Hx & E). apply H in Hx. destruct Hx as [Hx| ->]; [apply existsb_exists; eauto|]. now destruct k. }
    pose proof (K KTemp ltac:(discriminate)) as K1. pose proof (K KNum ltac:(discriminate)) as K2. pose proof (K KStr ltac:(discriminate)) as K3. unfold unmixed in *.
    destruct (some_kind KTemp w'), (some_kind KNum w'), (some_kind KStr w'), (cf_datetime cf), (cf_numerics cf); try reflexivity;
      try (rewrite K1 in U by reflexivity); try (rewrite K2 in U by reflexivity); try (rewrite K3 in U by reflexivity); cbn in U |- *;
      repeat match goal with H : context [some_kind ?k w] |- _ => destruct (some_kind k w) end; cbn in U; congruence.
  Qed.
End Plain.

(** *** Reads of a sheet *)
Lemma keep_map A B (f : A -> B) g l : forall row, keep_rows row (map f l) g = map f (keep_rows row l g).
Proof. induction l as [|x l IH]; intro row; [reflexivity|]. cbn [map keep_rows]. rewrite IH. now destruct (g row). Qed.
Lemma pieces_nonempty A (rs : list (list A)) f : forall row, Forall (fun r => r <> []) (pieces row rs f).
Proof. induction rs as [|r rs IH]; intro row; cbn [pieces]; [constructor|]. destruct (keep_rows row r f) eqn:E; [apply IH|]. constructor; [discriminate|apply IH]. Qed.
Lemma newers_looked rs rs' : newers rs rs' -> map looked_up (List.concat rs) = map looked_up (List.concat rs').
Proof. intro H. apply newer_concat in H. apply newer_map; [|exact H]. now intros x y []. Qed.
Section Reads.
  Context (ro : roracle) (sc : sconf) (l : list cell) (Ok0 : sheet_ok (ro_o ro) sc l = true).
  Local Notation o := (ro_o ro).
  Lemma content_good k : forallb (good o sc) (content l k) = true.
  Proof.
    unfold content, column_cells. unfold sheet_ok in Ok0. revert Ok0. generalize (-1). induction l as [|c r IH]; intros n H; [reflexivity|]. cbn [forallb] in H. apply andb_prop in H. destruct H as [H Hr].
    cbn [filter]. destruct (c_col c =? k); [|now apply IH]. cbn [firsts]. destruct (n <? c_row c); [|now apply IH]. cbn [forallb]. rewrite (IH _ Hr), andb_true_r. now apply andb_prop in H.
  Qed.
  Definition tags (k : Z) : list tag := flat o sc 0 (content l k).
  Lemma tags_now h k : map looked_up (List.concat (now ro sc l h k)) = map looked_up (tags k).
  Proof. rewrite <- (newers_looked (now_newer ro sc l h k)). unfold sheet_runs, tags. now rewrite flat_runs by apply content_good. Qed.
  Lemma raw_now h k : raw_strings (List.concat (now ro sc l h k)).
  Proof.
    intros x Hx Hr. pose proof (newer_concat (now_newer ro sc l h k)) as N. unfold sheet_runs in N. rewrite flat_runs in N by apply content_good.
    assert (G : exists y, In y (flat o sc 0 (content l k)) /\ newer y x).
    { clear Hr. induction N as [|a b w w' A B IH]; [easy|]. destruct Hx as [<-|Hx]; [exists a; split; [now left|exact A]|]. destruct (IH Hx) as (y & Hy & Y). exists y. split; [now right|exact Y]. }
    destruct G as (y & Hy & Y). rewrite <- (newer_kind Y). destruct Y as [_ Y]. exact (flat_raw Hy (Y Hr)).
  Qed.
  (** The rows asked for. *)
  Definition asked (k off len : Z) (idx : option (list bool)) : list tag :=
    keep_rows 0 (tags k ++ past_end (Z.max 0 off) len idx) (ReadSpec.chosen (Z.max 0 off) len idx).
  Lemma plain_runs h k off len idx : unmixed (sc_conf sc) (tags k) = true -> odd_request off len idx = false ->
    array_at ro sc l h k off len idx = plain_array o (sc_conf sc) (List.concat (chosen_runs (now ro sc l h k) off len idx)).
  Proof.
    intros U Odd. unfold array_at. assert (S : forall x, In x (List.concat (chosen_runs (now ro sc l h k) off len idx)) -> In x (List.concat (now ro sc l h k)) \/ x = tnull) by (intros x H; now apply (@chosen_in _ off len idx)).
    apply plain_expected.
    - unfold chosen_runs. rewrite Odd. apply pieces_nonempty.
    - intros x Hx Hr. destruct (S x Hx) as [H| ->]; [exact (raw_now H Hr)|discriminate].
    - apply (unmixed_some S). rewrite (@unmixed_looked _ _ (tags k)); [exact U|apply tags_now].
  Qed.
  Lemma plain_at h k off len idx : unmixed (sc_conf sc) (tags k) = true -> odd_request off len idx = false ->
    array_at ro sc l h k off len idx = plain_array o (sc_conf sc) (map looked_up (asked k off len idx)).
  Proof.
    intros U Odd. rewrite (plain_runs h U Odd).
    assert (E : map looked_up (List.concat (chosen_runs (now ro sc l h k) off len idx)) = map looked_up (asked k off len idx)).
    { unfold chosen_runs, asked. rewrite Odd. rewrite concat_pieces, concat_app. cbn [List.concat]. rewrite app_nil_r, <- !keep_map, !map_app. now rewrite tags_now. }
    rewrite <- E. exact (plain_newer o (sc_conf sc) (newer_looked _)).
  Qed.
  Lemma mapM_length A B (f : A -> res B) m r : mapM f m = Ok r -> List.length r = List.length m.
  Proof.
    revert r. induction m as [|x m IH]; cbn [mapM]; intros r H; [now injection H as <-|]. destruct (f x); [|discriminate]. cbn [bind] in H. destruct (mapM f m); [|discriminate]. injection H as <-. cbn. now rewrite (IH _ eq_refl).
  Qed.
  Lemma plain_length w a : plain_array o (sc_conf sc) w = Ok a -> List.length (a_vals a) = List.length w.
  Proof.
    unfold plain_array. destruct w as [|x w]; [discriminate|]. set (u := x :: w). assert (L : List.length (fst (plain_cells o (sc_conf sc) u)) = List.length u).
    { unfold plain_cells. repeat match goal with |- context [if ?b then _ else _] => destruct b end; cbn [fst]; apply map_length. }
    destruct (plain_cells o (sc_conf sc) u) as [vals t]. cbn [fst] in L. destruct (mapM (render o t) vals) as [vs|e] eqn:E; [|discriminate]. intro H. injection H as <-. cbn [a_vals]. now rewrite (mapM_length E).
  Qed.
  Lemma text_length h k off len ts : unmixed (sc_conf sc) (tags k) = true -> 0 < len -> text_at ro sc l h k off len = Ok ts -> List.length ts = Z.to_nat len.
  Proof.
    intros U P H. unfold text_at in H. rewrite plain_runs in H; [|exact U|unfold odd_request; lia]. destruct (plain_array _ _ _) as [a|] eqn:E; [|discriminate]. injection H as <-.
    rewrite map_length, (plain_length E). now apply chosen_len.
  Qed.
End Reads.

(** *** Two sheets *)
Lemma flat_same o sc sc' l l' : Forall2 (same_cell o sc sc') l l' -> forall row, map looked_up (flat o sc row l) = map looked_up (flat o sc' row l').
Proof.
  induction 1 as [|c c' l l' [R S] F IH]; intro row; [reflexivity|]. cbn [flat]. rewrite !map_app. cbn [map]. rewrite R, IH. f_equal. f_equal.
  unfold looked_up, shown in *. now injection S as -> ->.
Qed.
Lemma bind_same A B (a a' : res A) (f f' : A -> res B) : a = a' -> (forall x, a = Ok x -> f x = f' x) -> bind a f = bind a' f'.
Proof. intros <- H. destruct a as [x|e]; [now apply H|reflexivity]. Qed.
Lemma mapM_same A B (f g : A -> res B) l : (forall x, In x l -> f x = g x) -> mapM f l = mapM g l.
Proof. intro H. induction l as [|x l IH]; [reflexivity|]. cbn [mapM]. rewrite H by now left. now rewrite IH by (intros; apply H; now right). Qed.
Lemma content_none l k : (forall c, In c l -> 0 <= c_row c) -> (content l k = [] <-> forall c, In c l -> c_col c <> k).
Proof.
  intro H. unfold content, column_cells. induction l as [|c l IH]; [easy|]. cbn [filter]. destruct (Z.eqb_spec (c_col c) k) as [E|E].
  - cbn [firsts]. replace (-1 <? c_row c) with true by (specialize (H c (or_introl eq_refl)); lia). split; [discriminate|]. intro G. exfalso. exact (G c (or_introl eq_refl) E).
  - rewrite IH by (intros; apply H; now right). split; [|intros G d Hd; apply G; now right]. intros G d [<-|Hd]; [exact E|now apply G].
Qed.
Lemma ok_rows o sc l : sheet_ok o sc l = true -> forall c, In c l -> 0 <= c_row c.
Proof. intros H c Hc. apply (proj1 (forallb_forall _ _) H) in Hc. lia. Qed.
Lemma members_same ro sc sc' l l' (S1 : sheet_ok (ro_o ro) sc l = true) (S2 : sheet_ok (ro_o ro) sc' l' = true)
  (Same : forall k, Forall2 (same_cell (ro_o ro) sc sc') (content l k) (content l' k)) k : mem_Z k (order l) = mem_Z k (order l').
  Proof.
    assert (G : In k (order l) <-> In k (order l')).
    { rewrite !order_in. rewrite !in_map_iff. pose proof (content_none k (ok_rows S1)) as A. pose proof (content_none k (ok_rows S2)) as B. pose proof (Same k) as F.
      split; intros (c & Ec & Hc); destruct F as [|x y r r' _ _]; try (exfalso; exact (proj1 A eq_refl c Hc Ec)); try (exfalso; exact (proj1 B eq_refl c Hc Ec)).
      - destruct (existsb (fun c => c_col c =? k) l') eqn:X; [apply existsb_exists in X; destruct X as (d & Hd & Ed); exists d; split; [lia|exact Hd]|].
        exfalso. assert (N : y :: r' = []); [|discriminate]. apply B. intros d Hd Ed. assert (existsb (fun c => c_col c =? k) l' = true) by (apply existsb_exists; exists d; split; [exact Hd|lia]). congruence.
      - destruct (existsb (fun c => c_col c =? k) l) eqn:X; [apply existsb_exists in X; destruct X as (d & Hd & Ed); exists d; split; [lia|exact Hd]|].
        exfalso. assert (N : x :: r = []); [|discriminate]. apply A. intros d Hd Ed. assert (existsb (fun c => c_col c =? k) l = true) by (apply existsb_exists; exists d; split; [exact Hd|lia]). congruence. }
    destruct (mem_Z k (order l)) eqn:M, (mem_Z k (order l')) eqn:M'; try reflexivity.
    - apply mem_Z_In in M. apply G in M. apply mem_Z_In in M. congruence.
    - apply mem_Z_In in M'. apply G in M'. apply mem_Z_In in M'. congruence.
  Qed.
Lemma place_bound A (p : A -> bool) m d i : place p m d = Some i -> (i < List.length m)%nat.
Proof. intro H. apply find_some in H. destruct H as [H _]. apply in_seq in H. lia. Qed.
Section Same.
  Context (ro : roracle) (sc sc' : sconf) (l l' : list cell).
  Local Notation o := (ro_o ro).
  Context (Ecf : sc_conf sc = sc_conf sc') (S1 : sheet_ok o sc l = true) (S2 : sheet_ok o sc' l' = true)
          (Same : forall k, Forall2 (same_cell o sc sc') (content l k) (content l' k)) (U : forall k, unmixed (sc_conf sc) (map (tag_of o sc) (content l k)) = true).
  Lemma tags_unmixed k : unmixed (sc_conf sc) (tags ro sc l k) = true.
  Proof.
    apply (@unmixed_some _ (map (tag_of o sc) (content l k))); [|apply U]. unfold tags. generalize 0. induction (content l k) as [|c r IH]; intros row x H; [easy|].
    cbn [flat map] in *. apply in_app_or in H. destruct H as [H|[<-|H]]; [right; now apply repeat_spec in H|left; now left|]. destruct (IH _ _ H) as [G|G]; [left; now right|now right].
  Qed.
  Lemma array_same h k off len idx : odd_request off len idx = false -> array_at ro sc l h k off len idx = array_at ro sc' l' h k off len idx.
  Proof.
    intro Odd. assert (E : map looked_up (tags ro sc l k) = map looked_up (tags ro sc' l' k)) by exact (flat_same (Same k) 0).
    rewrite (plain_at S1 h (tags_unmixed k) Odd). rewrite (plain_at S2 h) by (try exact Odd; rewrite <- Ecf, <- (unmixed_looked (sc_conf sc) E); apply tags_unmixed).
    rewrite <- Ecf. f_equal. unfold asked. rewrite <- !keep_map, !map_app. now rewrite E.
  Qed.
  Lemma text_same h k off len : 0 < len -> text_at ro sc l h k off len = text_at ro sc' l' h k off len.
  Proof. intro H. unfold text_at. rewrite array_same; [reflexivity|]. unfold odd_request. lia. Qed.
  Context (op : ropts) (ks : list Z) (n : Z) (Hh : forall h, r_header op = HInt h -> 0 <= h) (Hs : r_lookup op <> None -> 0 < r_size op).
  Lemma search_bound p q : forall bs top h, search ro sc l p (r_size op) bs q = Ok (top, h) -> 0 < r_size op -> top < r_size op.
  Proof.
    induction q as [|k r IH]; intros bs top h H P; [discriminate|]. cbn [search] in H. destruct (text_at ro sc l [] k 0 (r_size op)) as [ts|] eqn:T; [|discriminate]. cbn [bind] in H.
    destruct (place (fits p) ts None) as [i|] eqn:E; [|exact (IH _ _ _ H P)]. injection H as <- _. apply place_bound in E. rewrite (text_length S1 (tags_unmixed k) P T) in E. lia.
  Qed.
  Lemma top_bound top h : top_row ro sc l op = Ok (top, h) -> match r_lookup op with None => top = 0 | Some _ => top < r_size op end.
  Proof.
    unfold top_row. destruct (r_lookup op) as [[k|t]|] eqn:L; [| |intro H; now injection H as <- _]; assert (P : 0 < r_size op) by (apply Hs; discriminate).
    - destruct (mem_Z k (order l)); [|discriminate]. destruct (text_at ro sc l [] k 0 (r_size op)) as [ts|] eqn:T; [|discriminate]. cbn [bind]. destruct (place ReaderSpec.filled ts None) as [i|] eqn:E; [|discriminate].
      intro H. injection H as <- _. apply place_bound in E. rewrite (text_length S1 (tags_unmixed k) P T) in E. lia.
    - destruct (ro_search ro t) as [p|]; [|destruct (order l) as [|k r]; [discriminate|]; destruct (text_at ro sc l [] k 0 (r_size op)); discriminate]. intro H. exact (search_bound H P).
  Qed.
  Lemma heading_height top h height names h' : heading ro sc l op ks top h = Ok (height, names, h') -> height = match r_header op with HInt z => z | HList _ => 0 end.
  Proof.
    unfold heading. destruct (r_header op) as [z|given].
    - destruct (z =? 0) eqn:Z0; [intro H; injection H as <- _ _; lia|]. destruct (mapM _ ks); [|discriminate]. cbn [bind]. intro H. now injection H as <- _ _.
    - destruct (Nat.eqb _ _); [|discriminate]. intro H. now injection H as <- _ _.
  Qed.
  Context (Eo : forall t, r_lookup op = Some (LText t) -> order l = order l').
  Lemma top_same : top_row ro sc l op = top_row ro sc' l' op.
  Proof.
    unfold top_row. destruct (r_lookup op) as [[k|t]|] eqn:L; [| |reflexivity]; assert (P : 0 < r_size op) by (apply Hs; discriminate).
    - rewrite (members_same S1 S2 Same). now rewrite text_same.
    - rewrite (Eo eq_refl). destruct (ro_search ro t) as [p|].
      + generalize (@nil Z) as bs. generalize (order l') as q. induction q as [|k r IH]; intro bs; [reflexivity|]. cbn [search]. rewrite text_same by exact P.
        apply bind_same; [reflexivity|]. intros ts _. destruct (place (fits p) ts None); [reflexivity|apply IH].
      + destruct (order l') as [|k r]; [reflexivity|]. now rewrite text_same.
  Qed.
  Lemma heading_same top h : heading ro sc l op ks top h = heading ro sc' l' op ks top h.
  Proof.
    unfold heading. destruct (r_header op) as [z|given] eqn:E; [|reflexivity]. destruct (z =? 0) eqn:Z0; [reflexivity|]. apply bind_same; [|reflexivity].
    apply mapM_same. intros k _. apply text_same. specialize (Hh eq_refl). lia.
  Qed.
  Lemma table_same : ~ nothing_left ro sc l op ks n -> expected_table ro sc l op ks n = expected_table ro sc' l' op ks n.
  Proof.
    intro NL. unfold expected_table. apply bind_same; [apply top_same|]. intros [top h] Et. apply bind_same; [apply heading_same|]. intros [[height names] h'] Eh.
    assert (P : 0 < n - (height + top + r_skip_after op)).
    { destruct (Z.lt_ge_cases 0 (n - (height + top + r_skip_after op))) as [H|H]; [exact H|]. exfalso. apply NL. exists top, h, height, names, h'. split; [exact Et|]. split; [exact Eh|lia]. }
    apply bind_same; [reflexivity|]. intros fs _. cbv zeta. apply bind_same.
    - unfold rows_kept. destruct fs as [|k fs]; [reflexivity|]. apply bind_same; [|reflexivity]. apply mapM_same. intros j _. apply array_same. unfold odd_request. lia.
    - intros m _. apply bind_same; [|reflexivity]. apply mapM_same. intros j _. apply array_same. unfold odd_request. destruct m; [reflexivity|lia].
  Qed.
End Same.
Lemma listing_same o sc sc' l l' ks : sheet_ok o sc l = true -> sheet_ok o sc' l' = true -> (forall k, Forall2 (same_cell o sc sc') (content l k) (content l' k)) -> listing l ks -> listing l' ks.
Proof.
  intros A B S [L1 L2]. split; [exact L1|]. intro k. rewrite L2.
  assert (G : forall m, (forall c, In c m -> 0 <= c_row c) -> (exists c, In c m /\ c_col c = k) <-> content m k <> []).
  { intros m Hm. rewrite (content_none k Hm). split; [intros (c & Hc & E) N; exact (N c Hc E)|]. intro N. destruct (existsb (fun c => c_col c =? k) m) eqn:X.
    - apply existsb_exists in X. destruct X as (c & Hc & E). exists c. split; [exact Hc|lia].
    - exfalso. apply N. intros c Hc E. assert (existsb (fun c => c_col c =? k) m = true) by (apply existsb_exists; exists c; split; [exact Hc|lia]). congruence. }
  rewrite (G l (ok_rows A)), (G l' (ok_rows B)). pose proof (S k) as F. destruct F; split; try easy; congruence.
Qed.
Lemma last_same o sc sc' m m' : Forall2 (same_cell o sc sc') m m' -> last_row m = last_row m'.
Proof.
  intro F. unfold last_row. assert (R : Forall2 (same_cell o sc sc') (rev m) (rev m')). { induction F; cbn [rev]; [constructor|]. apply Forall2_app; [assumption|]. now constructor. }
  destruct R as [|c c' ? ? [R _] _]; [reflexivity|exact R].
Qed.
Lemma tallest_same o sc sc' l l' ks n : (forall k, Forall2 (same_cell o sc sc') (content l k) (content l' k)) -> tallest l ks n -> tallest l' ks n.
Proof.
  intros S. assert (E : forall k, span l k = span l' k).
  { intro k. unfold span. pose proof (last_same (S k)) as L. pose proof (S k) as F. destruct F as [|c c' r r' [R _] _]; [reflexivity|]. now rewrite L, R. }
  intros [(k & Hk & ->) H]. split; [exists k; split; [exact Hk|apply E]|]. intros j Hj. rewrite <- E. now apply H.
Qed.

(** *** From the places of a sheet *)
Lemma good_kind o sc c : good o sc c = true -> t_kind (tag_of o sc c) <> KNull.
Proof.
  assert (S : forall i t, shared_text sc i = Some t -> t_kind t <> KNull) by (intros i t; unfold shared_text; destruct (_ && _); [intro H; now injection H as <-|discriminate]).
  unfold good, tag_of. destruct (cell_tag o sc c) as [t|] eqn:E; [intros _|discriminate]. revert E. unfold cell_tag. destruct (sc_binary sc).
  - unfold bin_tag. destruct (c_val c) as [b|u]; [|destruct (c_xdt c =? 24); [intro H; now injection H as <-|discriminate]].
    destruct b as [|b0 [|b1 [|b2 [|b3 [|b4 [|b5 [|b6 [|b7 [|]]]]]]]]]; try discriminate; cbv zeta; repeat (destruct (_ =? _); try discriminate); try (intro H; now injection H as <-).
    apply S.
  - unfold txt_tag. destruct (c_val c) as [b|u]; [|discriminate]. destruct (_ =? 24); [destruct (decode8 b); [intro H; now injection H as <-|discriminate]|]. destruct (_ =? 17).
    + destruct (py_int b) as [i|e]; [apply S|discriminate].
    + destruct (_ =? 32); [destruct (o_float o b); [intro H; now injection H as <-|discriminate]|].
      destruct (_ =? 36); [destruct (o_float o b); [intro H; now injection H as <-|discriminate]|discriminate].
Qed.
Lemma at_row_none o sc m r : (forall c, In c m -> c_row c <> r) -> at_row o sc m r = tnull.
Proof.
  intro H. unfold at_row. destruct (find _ m) as [c|] eqn:E; [|reflexivity]. apply find_some in E. exfalso. apply (H c); [apply E|lia].
Qed.
Lemma increasing_all m : forall last, increasing last m = true -> forall c, In c m -> last < c_row c.
Proof.
  induction m as [|d m IH]; intros last H c Hc; [easy|]. cbn [increasing] in H. apply andb_prop in H. destruct H as [H1 H2]. destruct Hc as [<-|Hc]; [lia|]. specialize (IH _ H2 _ Hc). lia.
Qed.
Lemma content_places o sc sc' m m' : forall last, increasing last m = true -> increasing last m' = true -> forallb (good o sc) m = true -> forallb (good o sc') m' = true ->
  (forall r, last < r -> looked_up (at_row o sc m r) = looked_up (at_row o sc' m' r)) -> Forall2 (same_cell o sc sc') m m'.
Proof.
  revert m'. induction m as [|c m IH]; intros m' last I I' G G' H.
  - destruct m' as [|c' m']; [constructor|]. exfalso. cbn [increasing forallb] in *. apply andb_prop in I', G'. destruct I' as [I1 _], G' as [G1 _]. specialize (H (c_row c') ltac:(lia)).
    unfold at_row in H. cbn [find] in H. rewrite Z.eqb_refl in H. apply (good_kind G1). now injection H.
  - cbn [increasing forallb] in I, G. apply andb_prop in I, G. destruct I as [I1 I2], G as [G1 G2]. pose proof (increasing_all I2) as A.
    destruct m' as [|c' m'].
    { exfalso. specialize (H (c_row c) ltac:(lia)). unfold at_row in H. cbn [find] in H. rewrite Z.eqb_refl in H. apply (good_kind G1). now injection H. }
    cbn [increasing forallb] in I', G'. apply andb_prop in I', G'. destruct I' as [I1' I2'], G' as [G1' G2']. pose proof (increasing_all I2') as A'.
    assert (E : c_row c = c_row c').
    { destruct (Z.lt_trichotomy (c_row c) (c_row c')) as [L|[L|L]]; [|exact L|]; exfalso.
      - specialize (H (c_row c) ltac:(lia)). rewrite (@at_row_none o sc' (c' :: m') (c_row c)) in H by (intros d [<-|Hd]; [lia|specialize (A' d Hd); lia]).
        unfold at_row in H. cbn [find] in H. rewrite Z.eqb_refl in H. apply (good_kind G1). now injection H.
      - specialize (H (c_row c') ltac:(lia)). rewrite (@at_row_none o sc (c :: m) (c_row c')) in H by (intros d [<-|Hd]; [lia|specialize (A d Hd); lia]).
        unfold at_row in H. cbn [find] in H. rewrite Z.eqb_refl in H. apply (good_kind G1'). now injection H. }
    constructor.
    + split; [exact E|]. specialize (H (c_row c) ltac:(lia)). unfold at_row in H. cbn [find] in H. rewrite Z.eqb_refl in H. rewrite <- E, Z.eqb_refl in H. unfold shown. now injection H as -> ->.
    + apply (IH m' (c_row c)); [exact I2|rewrite E; exact I2'|exact G2|exact G2'|]. intros r Hr. specialize (H r ltac:(lia)). unfold at_row in H |- *. cbn [find] in H.
      replace (c_row c =? r) with false in H by lia. replace (c_row c' =? r) with false in H by lia. exact H.
Qed.

(** *** The order of the columns *)
Lemma sorted_same A (R : A -> A -> Prop) l l' : (forall x y, R x y -> R y x -> False) -> StronglySorted R l -> StronglySorted R l' -> (forall x, In x l <-> In x l') -> l = l'.
Proof.
  intros As S. revert l'. induction S as [|x l S IH F]; intros l' S' H.
  - destruct l' as [|y l']; [reflexivity|]. exfalso. apply (proj2 (H y)). now left.
  - destruct S' as [|y l' S' F']; [exfalso; apply (proj1 (H x)); now left|]. rewrite Forall_forall in F, F'.
    assert (x = y) as <-. { destruct (proj1 (H x) (or_introl eq_refl)) as [->|Hx]; [reflexivity|]. destruct (proj2 (H y) (or_introl eq_refl)) as [->|Hy]; [reflexivity|]. exfalso. exact (As _ _ (F _ Hy) (F' _ Hx)). }
    f_equal. apply IH; [exact S'|]. intro z. split; intro Hz.
    + destruct (proj1 (H z) (or_intror Hz)) as [<-|G]; [|exact G]. exfalso. exact (As _ _ (F _ Hz) (F _ Hz)).
    + destruct (proj2 (H z) (or_intror Hz)) as [<-|G]; [|exact G]. exfalso. exact (As _ _ (F' _ Hz) (F' _ Hz)).
Qed.
Lemma first_content l k : (forall c, In c l -> 0 <= c_row c) -> first_cell l k = hd_error (content l k).
Proof.
  intro H. unfold first_cell, content, column_cells. induction l as [|c l IH]; [reflexivity|]. cbn [find filter]. destruct (c_col c =? k).
  - cbn [firsts]. specialize (H c (or_introl eq_refl)). now replace (-1 <? c_row c) with true by lia.
  - apply IH. intros; apply H; now right.
Qed.
Lemma order_same ro sc sc' l l' : sheet_ok (ro_o ro) sc l = true -> sheet_ok (ro_o ro) sc' l' = true -> (forall k, Forall2 (same_cell (ro_o ro) sc sc') (content l k) (content l' k)) ->
  StronglySorted before l -> StronglySorted before l' -> order l = order l'.
Proof.
  intros A B Same S S'. set (fr := fun k => match content l k with c :: _ => c_row c | [] => 0 end).
  set (R := fun j k : Z => fr j < fr k \/ fr j = fr k /\ j < k).
  assert (E1 : forall j k, earlier l j k -> R j k).
  { intros j k (c & d & Ec & Ed & H). rewrite (first_content j (ok_rows A)) in Ec. rewrite (first_content k (ok_rows A)) in Ed. unfold R, fr. destruct (content l j); [discriminate|]. destruct (content l k); [discriminate|]. injection Ec as ->. now injection Ed as ->. }
  assert (E2 : forall j k, earlier l' j k -> R j k).
  { intros j k (c & d & Ec & Ed & H). rewrite (first_content j (ok_rows B)) in Ec. rewrite (first_content k (ok_rows B)) in Ed. unfold R, fr. pose proof (Same j) as F. pose proof (Same k) as G.
    destruct F as [|x x' ? ? [Fx _] _]; [discriminate|]. destruct G as [|y y' ? ? [Gy _] _]; [discriminate|]. injection Ec as ->. injection Ed as ->. now rewrite Fx, Gy. }
  apply (@sorted_same _ R).
  - unfold R. intros x y. lia.
  - apply (sorted_impl (fun j k _ _ H => E1 j k H)). now apply order_earlier.
  - apply (sorted_impl (fun j k _ _ H => E2 j k H)). now apply order_earlier.
  - intro k. rewrite <- (mem_Z_In k (order l)), <- (mem_Z_In k (order l')). rewrite (members_same A B Same). reflexivity.
Qed.

(** *** The same runs *)
Section Aligned.
  Context (ro : roracle) (sc sc' : sconf) (l l' : list cell).
  Local Notation o := (ro_o ro).
  Context (Ecf : sc_conf sc = sc_conf sc') (Dt : cf_datetime (sc_conf sc) = false) (S1 : sheet_ok o sc l = true) (S2 : sheet_ok o sc' l' = true)
          (Gr : forall k, Forall2 (Forall2 (same_cell o sc sc')) (grouped (content l k)) (grouped (content l' k))).
  Lemma grouped_from_concat m : forall g d, List.concat (grouped_from g d m) = g ++ m.
  Proof. induction m as [|c m IH]; intros g d; cbn [grouped_from]; [cbn; now rewrite !app_nil_r|]. destruct (follows d c); [rewrite IH; now rewrite <- app_assoc|]. cbn [List.concat]. now rewrite IH. Qed.
  Lemma grouped_concat m : List.concat (grouped m) = m.
  Proof. destruct m as [|c m]; [reflexivity|]. cbn [grouped]. now rewrite grouped_from_concat. Qed.
  Lemma groups_same k : Forall2 (same_cell o sc sc') (content l k) (content l' k).
  Proof. rewrite <- (grouped_concat (content l k)), <- (grouped_concat (content l' k)). induction (Gr k); cbn [List.concat]; [constructor|]. now apply Forall2_app. Qed.
  Lemma groups_good (sc0 : sconf) (m : list (list cell)) : forallb (good o sc0) (List.concat m) = true -> forall g, In g m -> forallb (good o sc0) g = true.
  Proof. clear. intros H g Hg. rewrite forallb_forall in *. intros c Hc. apply H. apply in_concat. eauto. Qed.
  Lemma runs_aligned k : map (map looked_up) (sheet_runs ro sc l k) = map (map looked_up) (sheet_runs ro sc' l' k).
  Proof.
    unfold sheet_runs. pose proof (groups_good (m := grouped (content l k)) (sc0 := sc)) as G. rewrite grouped_concat in G. specialize (G (content_good S1 k)).
    pose proof (groups_good (m := grouped (content l' k)) (sc0 := sc')) as G'. rewrite grouped_concat in G'. specialize (G' (content_good S2 k)).
    revert G G'. generalize 0. induction (Gr k) as [|g g' gs gs' F Fs IH]; intros row G G'; [reflexivity|].
    destruct F as [|c c' g g' [R Sh] F]; [apply IH; intros; [apply G|apply G']; now right|]. cbn [column_runs]. rewrite !map_app. cbn [map].
    assert (Len : zlen (c :: g) = zlen (c' :: g')) by (unfold zlen; cbn [List.length]; now rewrite (F2_len F)). rewrite Len, <- R. f_equal.
    rewrite !run_good by (try apply G; try apply G'; now left). f_equal; [|apply IH; intros; [apply G|apply G']; now right].
    cbn [map]. f_equal; [unfold looked_up, shown in *; now injection Sh as -> ->|]. clear -F. induction F as [|x y g g' [_ Sh] F IH]; [reflexivity|]. cbn [map]. rewrite IH. f_equal.
    unfold looked_up, shown in *. now injection Sh as -> ->.
  Qed.
  Lemma newers_map rs : newers rs (map (map looked_up) rs).
  Proof. induction rs as [|r rs IH]; cbn [map]; constructor; [apply newer_looked|exact IH]. Qed.
  Lemma array_aligned h k off len idx : array_at ro sc l h k off len idx = array_at ro sc' l' h k off len idx.
  Proof.
    assert (D' : cf_datetime (sc_conf sc') = false) by now rewrite <- Ecf. 
    assert (F1 : array_at ro sc l h k off len idx = array_at ro sc l [] k off len idx) by (destruct (array_fresh ro sc l h k off len idx) as [[X _]|X]; [congruence|exact X]).
    assert (F2 : array_at ro sc' l' h k off len idx = array_at ro sc' l' [] k off len idx) by (destruct (array_fresh ro sc' l' h k off len idx) as [[X _]|X]; [congruence|exact X]).
    rewrite F1, F2. unfold array_at. cbn [now fold_left]. unfold now. cbn [fold_left].
    destruct (expected_newer o (sc_conf sc) (chosen_newer off len idx (newers_map (sheet_runs ro sc l k)))) as [[X _]|X]; [congruence|].
    destruct (expected_newer o (sc_conf sc') (chosen_newer off len idx (newers_map (sheet_runs ro sc' l' k)))) as [[Y _]|Y]; [congruence|].
    rewrite <- X, <- Y, runs_aligned. now rewrite Ecf.
  Qed.
  Context (op : ropts) (ks : list Z) (n : Z) (Eo : forall t, r_lookup op = Some (LText t) -> order l = order l').
  Lemma text_aligned h k off len : text_at ro sc l h k off len = text_at ro sc' l' h k off len.
  Proof. unfold text_at. now rewrite array_aligned. Qed.
  Lemma table_aligned : expected_table ro sc l op ks n = expected_table ro sc' l' op ks n.
  Proof.
    unfold expected_table. apply bind_same.
    { unfold top_row. destruct (r_lookup op) as [[k|t]|] eqn:L; [| |reflexivity].
      - rewrite (members_same S1 S2 groups_same). now rewrite text_aligned.
      - rewrite (Eo eq_refl). destruct (ro_search ro t) as [p|].
        + generalize (@nil Z) as bs. generalize (order l') as q. induction q as [|k r IH]; intro bs; [reflexivity|]. cbn [search]. rewrite text_aligned.
          apply bind_same; [reflexivity|]. intros ts _. destruct (place (fits p) ts None); [reflexivity|apply IH].
        + destruct (order l') as [|k r]; [reflexivity|]. now rewrite text_aligned. }
    intros [top h] _. apply bind_same.
    { unfold heading. destruct (r_header op) as [z|given]; [|reflexivity]. destruct (z =? 0); [reflexivity|]. apply bind_same; [|reflexivity]. apply mapM_same. intros; apply text_aligned. }
    intros [[height names] h'] _. apply bind_same; [reflexivity|]. intros fs _. cbv zeta. apply bind_same.
    - unfold rows_kept. destruct fs as [|k fs]; [reflexivity|]. apply bind_same; [|reflexivity]. apply mapM_same. intros; apply array_aligned.
    - intros m _. apply bind_same; [|reflexivity]. apply mapM_same. intros; apply array_aligned.
  Qed.
End Aligned.
