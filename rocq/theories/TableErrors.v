(** When reading a sheet raises. *)
From Coq Require Import Sorted ZifyBool ZifyNat.
From Verif Require Import Py PyFacts PyText Cell Casts Chunk ChunkSpec ChunkProofs ChunkWindow ChunkRun ChunkClosed ChunkConcat ReadSpec ReadProofs ReadState
  PropsChunk Utf8 Series SeriesSpec SeriesProofs PropsSeries Reader ReaderSpec ReaderProofs ReaderSteps ReaderRead PropsRead TableSpec TableProofs TableSteps TableRead TableFresh.
Set Implicit Arguments. Unset Strict Implicit.

(** *** Lengths of answers *)
Lemma keep_mask A (m : list bool) : forall (l : list A) n, (n + List.length m <= List.length l)%nat ->
  List.length (keep_rows 0 l (fun i => (n <=? i)%nat && nth (i - n) m false)) = List.length (filter (fun b => b) m).
Proof.
  intros l n. revert l. induction n as [|n IH]; intros l.
  - revert l. induction m as [|b m IH]; intros l H.
    + rewrite keep_none; [reflexivity|]. intros i _. now destruct (i - 0)%nat; destruct (0 <=? i)%nat.
    + destruct l as [|x l]; [cbn in H; lia|]. cbn [keep_rows filter]. change (1%nat) with (1 + 0)%nat. rewrite keep_shift.
      rewrite (@keep_ext _ _ _ (fun i => (0 <=? i)%nat && nth (i - 0) m false)); [|intros i _; now rewrite !Nat.sub_0_r].
      cbn [Nat.leb Nat.sub nth andb]. cbn [List.length] in H. destruct b; cbn [List.length]; rewrite IH by lia; reflexivity.
  - intro H. destruct l as [|x l]; [cbn in H; lia|]. cbn [keep_rows]. change (1%nat) with (1 + 0)%nat. rewrite keep_shift. cbn [Nat.leb andb].
    rewrite (@keep_ext _ _ _ (fun i => (n <=? i)%nat && nth (i - n) m false)); [|reflexivity]. apply IH. cbn in H. lia.
Qed.
Lemma chosen_count rs off len m : List.length (List.concat (chosen_runs rs off len (Some m))) = List.length (filter (fun b => b) m).
Proof.
  unfold chosen_runs, odd_request. cbv zeta. rewrite concat_pieces. set (from := Z.max 0 off).
  rewrite (@keep_ext _ _ _ (fun i => (Z.to_nat from <=? i)%nat && nth (i - Z.to_nat from) m false)).
  2:{ intros i _. unfold ReadSpec.chosen. f_equal. destruct (Nat.leb_spec (Z.to_nat from) i); lia. }
  apply keep_mask. rewrite concat_app, app_length. cbn [List.concat]. rewrite app_nil_r. unfold past_end. rewrite repeat_length. unfold zlen. lia.
Qed.
Lemma chosen_len rs off len : 0 < len -> List.length (List.concat (chosen_runs rs off len None)) = Z.to_nat len.
Proof.
  intro H. destruct (Z.le_gt_cases 0 off) as [Ho|Ho]; [now apply chosen_length|]. rewrite <- (@chosen_length rs 0 len) by lia. f_equal. f_equal. unfold chosen_runs, odd_request.
  replace (Z.max 0 off) with 0 by lia. replace (Z.max 0 0) with 0 by lia. now replace ((len <? 0) || (len =? 0) && negb (off =? 0)) with ((len <? 0) || (len =? 0) && negb (0 =? 0)) by lia.
Qed.
(** *** Chosen cells are cells of the column, or null *)
Lemma keep_in A (l : list A) f x : forall row, In x (keep_rows row l f) -> In x l.
Proof. induction l as [|y l IH]; intros row; [easy|]. cbn [keep_rows]. destruct (f row); [intros [<-|H]; [now left|]|intro H]; right; now apply (IH (S row)). Qed.
Lemma rest_in A (rs : list (list A)) x : forall row, In x (rest_of_run row rs) -> In x (List.concat rs).
Proof.
  induction rs as [|r rs IH]; intro row; [easy|]. cbn [rest_of_run List.concat]. destruct (row <? List.length r)%nat; intro H; apply in_or_app; [left|right; exact (IH _ H)].
  rewrite <- (firstn_skipn row r). apply in_or_app. now right.
Qed.
Lemma chosen_in rs off len idx x : In x (List.concat (chosen_runs rs off len idx)) -> In x (List.concat rs) \/ x = tnull.
Proof.
  unfold chosen_runs. cbv zeta. destruct (odd_request off len idx).
  - intro H. left. apply (@rest_in _ rs x (Z.to_nat (Z.max 0 off))). unfold some_run in H. set (r := rest_of_run _ rs) in *.
    rewrite <- (firstn_skipn (Z.to_nat (zlen r + len)) r). apply in_or_app. left. destruct (firstn _ r) as [|y q]; [easy|]. cbn [List.concat] in H. now rewrite app_nil_r in H.
  - rewrite concat_pieces. intro H. apply keep_in in H. rewrite concat_app in H. apply in_app_or in H. destruct H as [H|H]; [now left|right].
    cbn [List.concat] in H. rewrite app_nil_r in H. now apply repeat_spec in H.
Qed.
Lemma chosen_kind k rs off len idx : k <> KNull -> some_kind k (List.concat (chosen_runs rs off len idx)) = true -> some_kind k (List.concat rs) = true.
Proof.
  intros N H. apply existsb_exists in H. destruct H as (x & H & K). apply chosen_in in H. destruct H as [H| ->]; [apply existsb_exists; now exists x|]. now destruct k.
Qed.
Lemma chosen_raw rs off len idx : some_raw (List.concat (chosen_runs rs off len idx)) = true -> some_raw (List.concat rs) = true.
Proof. intro H. apply existsb_exists in H. destruct H as (x & H & K). apply chosen_in in H. destruct H as [H| ->]; [apply existsb_exists; now exists x|easy]. Qed.

(** *** Errors of a read *)
Lemma after_all len rs : forall row, 0 <= row -> 0 < len -> row + zlen (List.concat rs) <= len -> runs_after row rs 0 len = map (map looked_up) rs.
Proof.
  induction rs as [|r rs IH]; intros row R P H; [reflexivity|]. cbn [runs_after map List.concat] in *. unfold zlen in H. rewrite app_length in H. 
  unfold covered. replace (len =? 0) with false by lia. replace ((Z.max 0 0 <=? row) && (row + zlen r <=? Z.max 0 0 + len)) with true by (unfold zlen; lia).
  f_equal. apply IH; unfold zlen in *; lia.
Qed.
Lemma all_looked_newer rs rs' : newers rs rs' -> newers rs' (map (map looked_up) rs).
Proof.
  induction 1 as [|r r' rs rs' H F IH]; cbn [map]; [constructor|]. constructor; [|exact IH]. clear F IH. induction H as [|x y r r' [A B] F IH]; cbn [map]; constructor; [|exact IH].
  split; [|easy]. rewrite <- A. reflexivity.
Qed.
Definition no_mode : conf := mkConf false false None 0.
Lemma looked_up_store o store : column store = true -> exists st, column st = true /\ map (cells_of o) st = map (map looked_up) (map (cells_of o) store).
Proof.
  intro C. set (rs := map (cells_of o) store). set (n := zlen (List.concat rs) + 1).
  assert (Hn : 0 < n) by (unfold n; pose proof (zlen_nonneg (List.concat rs)); lia).
  destruct (read o no_mode store 0 n None) as [a|e] eqn:R.
  - pose proof (@C88_after o no_mode store 0 n None a C ltac:(unfold windowed; lia) R) as (C' & E). eexists. split; [exact C'|]. rewrite E. apply after_all; unfold n; lia.
  - exfalso. assert (X : exists e, read o no_mode store 0 n None = Err e) by eauto. apply C88_raises in X; [|exact C]. destruct X as [X|(X & _)]; [|discriminate].
    pose proof (@chosen_len rs 0 n Hn) as L. fold rs in X. rewrite X in L. cbn in L. lia.
Qed.
Section Errors.
  Context (o : oracle) (cf : conf) (store : list chunk) (C : column store = true).
  Local Notation rs := (map (cells_of o) store).
  Lemma expected_errors rs' off len idx e : newers rs rs' -> expected o cf (chosen_runs rs' off len idx) = Err e ->
    e = ValueError /\ chosen_runs rs' off len idx = [] \/
    e = ArrowNotImplemented /\ cf_datetime cf = true /\ some_kind KTemp (List.concat rs) = true /\ some_raw (List.concat rs) = true.
  Proof.
    intros N E. destruct (chosen_runs rs' off len idx) as [|r0 q] eqn:Ch; [left; split; [now injection E|reflexivity]|right]. rewrite <- Ch in E.
    destruct (looked_up_store o C) as (st & Cs & Es).
    assert (N2 : newers rs' (map (cells_of o) st)) by (rewrite Es; now apply all_looked_newer).
    pose proof (chosen_newer off len idx N2) as Nx.
    assert (Ne : chosen_runs (map (cells_of o) st) off len idx <> []) by (intro Z0; rewrite Z0, Ch in Nx; inversion Nx).
    assert (Rw : some_raw (List.concat (chosen_runs (map (cells_of o) st) off len idx)) = false).
    { destruct (some_raw _) eqn:R; [|reflexivity]. apply chosen_raw in R. rewrite Es in R. exfalso. clear -R. apply existsb_exists in R. destruct R as (x & H & R). apply in_concat in H.
      destruct H as (r & H & Hx). apply in_map_iff in H. destruct H as (r1 & <- & _). apply in_map_iff in Hx. destruct Hx as (y & <- & _). discriminate. }
    destruct (@C88_returns o cf st off len idx Cs Ne) as (vs & Q & _ & _); [rewrite Rw; apply andb_false_r|]. rewrite C88_complete in Q by exact Cs.
    destruct (@expected_newer o cf _ _ Nx) as [[D X]|X]; [|congruence].
    rewrite X in E. injection E as <-. split; [reflexivity|]. split; [exact D|].
    destruct (cf_datetime cf && some_kind KTemp (List.concat (chosen_runs rs' off len idx)) && some_raw (List.concat (chosen_runs rs' off len idx))) eqn:B.
    - apply andb_prop in B. destruct B as [B B3]. apply andb_prop in B. destruct B as [_ B2]. apply chosen_kind in B2; [|discriminate]. apply chosen_raw in B3.
      pose proof (newer_concat N) as Nc. split; [now rewrite (kind_newer KTemp Nc)|exact (raw_newer Nc B3)].
    - exfalso. unfold expected in Q, X. rewrite B in X. rewrite Rw, andb_false_r in Q. rewrite <- (cells_newer o cf Nx) in Q.
      rewrite Ch in X, Q. destruct (chosen_runs (map (cells_of o) st) off len idx) as [|s0 q']; [easy|]. destruct (expected_cells o cf (r0 :: q)) as [vals t]. destruct (mapM _ vals); discriminate.
  Qed.
End Errors.

(** *** Errors of a sheet *)
Lemma mapM_err A B (f : A -> res B) l e : mapM f l = Err e -> exists x, In x l /\ f x = Err e.
Proof.
  induction l as [|x l IH]; cbn [mapM]; [discriminate|]. destruct (f x) as [b|e'] eqn:E; cbn [bind].
  - destruct (mapM f l) as [v|e']; [discriminate|]. cbn [bind]. intro H. destruct (IH H) as (y & Y & F). exists y. split; [now right|exact F].
  - intro H. injection H as ->. exists x. split; [now left|exact E].
Qed.
Lemma chosen_none rs off len idx : chosen_runs rs off len idx = [] -> match idx with None => len <= 0 | Some m => existsb (fun b => b) m = false end.
Proof.
  intro H. destruct idx as [m|].
  - pose proof (@chosen_count rs off len m) as L. rewrite H in L. cbn in L. destruct (existsb _ m) eqn:E; [|reflexivity]. exfalso. apply existsb_exists in E. destruct E as (b & E & ->).
    assert (In true (filter (fun b => b) m)) by (apply filter_In; now split). destruct (filter (fun b => b) m); [easy|discriminate].
  - destruct (Z.le_gt_cases len 0) as [|P]; [assumption|]. pose proof (@chosen_len rs off len P) as L. rewrite H in L. cbn in L. lia.
Qed.
Lemma equal_lengths_intro A (ls : list (list A)) n : (forall x, In x ls -> List.length x = n) -> equal_lengths ls = true.
Proof.
  destruct ls as [|x r]; [reflexivity|]. intro H. cbn. apply forallb_forall. intros y Hy. apply Nat.eqb_eq. rewrite (H y (or_intror Hy)). symmetry. apply H. now left.
Qed.
Section Sheet.
  Context (ro : roracle) (sc : sconf) (l : list cell) (S : readable ro sc l = true).
  Local Notation o := (ro_o ro).
  Local Notation cf := (sc_conf sc).
  Lemma sheet_store k : In k (order l) -> exists store, column store = true /\ map (cells_of o) store = sheet_runs ro sc l k.
  Proof.
    intro K. assert (E : Cell.cells_of (map OCell l) = l) by (clear S K; induction l as [|c r IH]; [reflexivity|]; cbn [map]; change (c :: Cell.cells_of (map OCell r) = c :: r); now rewrite IH).
    assert (Rows : forall c, In c l -> 0 <= c_row c). { intros c Hc. unfold readable in S. rewrite forallb_forall in S. specialize (S c Hc). lia. }
    assert (C0 : TC ro sc [] []) by (split; [reflexivity|easy]). rewrite <- E in S. destruct (collect_tc C0 S) as (d & _ & C). cbn [app] in C. rewrite E in C.
    pose proof (rc_start Rows C) as R. destruct (rc_get R K) as (x & _ & x' & _ & Cs & M & _). exists (se_chunks x'). split; [exact Cs|exact M].
  Qed.
  Definition blocks (k : Z) : Prop := some_kind KTemp (List.concat (sheet_runs ro sc l k)) = true /\ some_raw (List.concat (sheet_runs ro sc l k)) = true.
  Lemma array_errors h k off len idx e : In k (order l) -> array_at ro sc l h k off len idx = Err e ->
    e = ValueError /\ match idx with None => len <= 0 | Some m => existsb (fun b => b) m = false end \/ e = ArrowNotImplemented /\ cf_datetime cf = true /\ blocks k.
  Proof.
    intros K E. destruct (sheet_store K) as (store & C & M). pose proof (now_newer ro sc l h k) as N. rewrite <- M in N.
    destruct (expected_errors C N E) as [(-> & X)|(-> & D & X)]; [left; split; [reflexivity|now apply chosen_none in X]|right]. unfold blocks. rewrite <- M. tauto.
  Qed.
  Lemma text_errors h k off len e : In k (order l) -> text_at ro sc l h k off len = Err e ->
    e = ValueError /\ len <= 0 \/ e = ArrowNotImplemented /\ cf_datetime cf = true /\ blocks k.
  Proof.
    intros K E. unfold text_at in E. destruct (array_at ro sc l h k off len None) as [a|e'] eqn:A; [discriminate|]. injection E as ->. exact (array_errors K A).
  Qed.
  Context (op : ropts) (ks : list Z) (n : Z) (Ls : listing l ks).
  Lemma in_order k : In k (order l) <-> In k ks.
  Proof. rewrite <- (listing_order Ls). symmetry. apply sorted_in. Qed.
  Local Notation cause := (cause ro sc l op ks n).
  Lemma not_implemented k : cf_datetime cf = true -> blocks k -> In k (order l) -> cause ArrowNotImplemented.
  Proof. intros D B K. split; [exact D|]. exists k. split; [now apply in_order|exact B]. Qed.
  Lemma top_errors e : top_row ro sc l op = Err e -> cause e.
  Proof.
    unfold top_row. destruct (r_lookup op) as [[k|t]|] eqn:L; [| |discriminate].
    - destruct (mem_Z k (order l)) eqn:M.
      + apply mem_Z_In in M. destruct (text_at ro sc l [] k 0 (r_size op)) as [ts|e'] eqn:T; cbn [bind].
        * destruct (place filled ts None); [discriminate|]. intro H. injection H as <-. left. rewrite L. discriminate.
        * intro H. injection H as <-. destruct (text_errors M T) as [(-> & _)|(-> & D & B)]; [left; rewrite L; discriminate|now apply (not_implemented D B)].
      + intro H. injection H as <-. exists k. split; [exact L|]. rewrite <- in_order, <- mem_Z_In. congruence.
    - assert (Se : forall p, (forall before ks0 e0, (forall k, In k ks0 -> In k (order l)) -> search ro sc l p (r_size op) before ks0 = Err e0 -> cause e0)).
      { intro p. clear e. intros before ks0. revert before. induction ks0 as [|k ks0 IH]; intros before e0 Sub; cbn [search]; [intro H; injection H as <-; left; rewrite L; discriminate|].
        destruct (text_at ro sc l [] k 0 (r_size op)) as [ts|e'] eqn:T; cbn [bind].
        - destruct (place (fits p) ts None); [discriminate|]. apply IH. intros; apply Sub; now right.
        - intro H. injection H as <-. destruct (text_errors (Sub k (or_introl eq_refl)) T) as [(-> & _)|(-> & D & B)]; [left; rewrite L; discriminate|]. apply (not_implemented D B). apply Sub. now left. }
      destruct (ro_search ro t) as [p|] eqn:P; [apply Se; tauto|]. destruct (order l) as [|k q] eqn:O; [intro H; injection H as <-; left; rewrite L; discriminate|].
      assert (K : In k (order l)) by (rewrite O; now left). destruct (text_at ro sc l [] k 0 (r_size op)) as [ts|e'] eqn:T; cbn [bind].
      + intro H. injection H as <-. left. exists t. now split.
      + intro H. injection H as <-. destruct (text_errors K T) as [(-> & _)|(-> & D & B)]; [left; rewrite L; discriminate|now apply (not_implemented D B)].
  Qed.
  Lemma head_errors top h e : (forall z, r_header op = HInt z -> 0 <= z) -> heading ro sc l op ks top h = Err e -> cause e.
  Proof.
    intro Hh. unfold heading. destruct (r_header op) as [z|given] eqn:R.
    - specialize (Hh z eq_refl). destruct (z =? 0) eqn:Z0; [discriminate|]. destruct (mapM _ ks) as [v|e'] eqn:M; [discriminate|]. cbn [bind]. intro H. injection H as <-.
      apply mapM_err in M. destruct M as (k & K & T). apply in_order in K. destruct (text_errors K T) as [(-> & Q)|(-> & D & B)]; [lia|now apply (not_implemented D B)].
    - destruct (Nat.eqb _ _) eqn:E; [discriminate|]. intro H. injection H as <-. right. left. exists given. split; [exact R|]. now apply Nat.eqb_neq.
  Qed.
  Lemma select_errors pats names e : mapM (selects ro pats) names = Err e -> e = ReError /\ exists t, In t pats /\ ro_match ro t = None.
  Proof.
    intro M. apply mapM_err in M. destruct M as (x & _ & M). unfold selects in M. destruct (find _ pats) as [t|] eqn:F; [|discriminate].
    destruct (ro_match ro t) eqn:R; [discriminate|]. injection M as <-. split; [reflexivity|]. exists t. split; [now apply find_some in F|exact R].
  Qed.
  Lemma filter_errors names e : filter_columns ro (r_filters op) names ks = Err e -> cause e.
  Proof.
    unfold filter_columns. destruct (r_filters op) as [|[|c t]|is|ts|] eqn:R; try discriminate.
    - destruct (mapM _ names) as [v|e'] eqn:M; [discriminate|]. cbn [bind]. intro H. injection H as <-. apply select_errors in M. destruct M as (-> & M). cbn [TableSpec.cause]. now rewrite R.
    - destruct (mapM _ names) as [v|e'] eqn:M; [discriminate|]. cbn [bind]. intro H. injection H as <-. apply select_errors in M. destruct M as (-> & M). cbn [TableSpec.cause]. now rewrite R.
    - intro H. injection H as <-. right. right. left. rewrite R. discriminate.
  Qed.
  Theorem table_errors e : (forall z, r_header op = HInt z -> 0 <= z) -> expected_table ro sc l op ks n = Err e -> cause e.
  Proof.
    intros Hh. unfold expected_table. destruct (top_row ro sc l op) as [[top h]|e'] eqn:T; cbn [bind]; [|intro H; injection H as <-; now apply top_errors].
    destruct (heading ro sc l op ks top h) as [[[height names] h']|e'] eqn:Hd; cbn [bind]; [|intro H; injection H as <-; now apply (head_errors Hh) in Hd].
    destruct (filter_columns ro (r_filters op) names ks) as [fs|e'] eqn:F; cbn [bind]; [|intro H; injection H as <-; now apply filter_errors in F].
    cbv zeta. set (off := height + top + r_skip_after op).
    assert (Nl : n - off <= 0 -> nothing_left ro sc l op ks n) by (intro H; exists top, h, height, names, h'; repeat split; try assumption; unfold off in H; lia).
    assert (Ff : fs <> [] -> r_filters op <> FNone) by (intros H E; rewrite E in F; injection F as <-; now apply H).
    assert (Sub : forall k, In k fs -> In k (order l)).
    { intros k K. apply in_order. rewrite <- (listing_order Ls) in *. now apply (filter_sub F (sorted_nodup l)). }
    destruct (rows_kept ro sc l (r_strategy op) h' fs off (n - off)) as [m|e'] eqn:M; cbn [bind].
    - assert (Hm : match m with None => True | Some m => existsb (fun b => b) m = true end).
      { unfold rows_kept in M. destruct fs as [|k fs]; [injection M as <-; exact I|]. destruct (mapM _ _) as [as'|]; [|discriminate]. cbn [bind] in M. cbv zeta in M.
        destruct (if _ : bool then _ else _); [discriminate|]. destruct (equal_lengths _); [|discriminate]. destruct (existsb _ _) eqn:E; [|discriminate]. injection M as <-. exact E. }
      destruct (mapM _ ks) as [arrays|e'] eqn:A; cbn [bind].
      + destruct (typed ro (r_dtypes op) names arrays) as [cs|e'] eqn:Ty; cbn [bind].
        * destruct (equal_lengths _) eqn:Eq; [discriminate|]. intro H. injection H as <-. right. apply Nl. destruct (Z.le_gt_cases (n - off) 0) as [|P]; [assumption|]. exfalso.
          rewrite (@equal_lengths_intro _ _ (match m with None => Z.to_nat (n - off) | Some m => List.length (filter (fun b => b) m) end)) in Eq; [discriminate|].
          intros x Hx. apply in_map_iff in Hx. destruct Hx as (a & <- & Ha). destruct (mapM_in A Ha) as (k & _ & E). apply expected_length in E. rewrite E. destruct m as [m|]; [apply chosen_count|now apply chosen_len].
        * intro H. injection H as <-.
          assert (X : e' = ValueError /\ r_dtypes op <> DTNone).
          { unfold typed in Ty. destruct (r_dtypes op) as [|d|ds|ds] eqn:Dt.
            - exfalso. cbv beta iota in Ty. apply mapM_err in Ty. destruct Ty as (p & _ & Ty). discriminate.
            - split; [|discriminate]. cbv beta iota in Ty. apply mapM_err in Ty. destruct Ty as (p & _ & Ty). unfold convert in Ty. destruct (type_wanted _ _ _); [|discriminate].
              destruct (_ =? _); [discriminate|]. destruct (_ && _); congruence.
            - split; [|discriminate]. cbv beta iota in Ty. apply mapM_err in Ty. destruct Ty as (p & _ & Ty). unfold convert in Ty. destruct (type_wanted _ _ _); [|discriminate].
              destruct (_ =? _); [discriminate|]. destruct (_ && _); congruence.
            - split; [|discriminate]. destruct (Nat.eqb _ _); [|congruence]. apply mapM_err in Ty. destruct Ty as (p & _ & Ty). unfold convert in Ty. destruct (type_wanted _ _ _); [|discriminate].
              destruct (_ =? _); [discriminate|]. destruct (_ && _); congruence. }
          destruct X as (-> & X). right. right. right. now left.
      + intro H. injection H as <-. apply mapM_err in A. destruct A as (k & K & A). apply in_order in K. destruct (array_errors K A) as [(-> & Q)|(-> & D & B)]; [|now apply (not_implemented D B)].
        right. right. right. right. apply Nl. destruct m as [m|]; [congruence|lia].
    - intro H. injection H as <-. unfold rows_kept in M. destruct fs as [|k0 fs0]; [discriminate|]. set (fs := k0 :: fs0) in *. assert (Fn : r_filters op <> FNone) by (apply Ff; discriminate).
      destruct (mapM _ fs) as [arrays|e2] eqn:A; cbn [bind] in M.
      + cbv zeta in M. destruct (if Nat.eqb (List.length fs0) 0 then None else strategy_error (r_strategy op) (List.length fs0)) as [e2|] eqn:St.
        * injection M as <-. destruct (Nat.eqb _ 0); [discriminate|]. unfold strategy_error in St. destruct (r_strategy op) as [| |ops|] eqn:Rs; try discriminate.
          -- destruct (_ && _); [discriminate|]. injection St as <-. right. right. now left.
          -- injection St as <-. now split.
        * destruct (equal_lengths _) eqn:Eq.
          -- destruct (existsb _ _); [discriminate|]. injection M as <-. right. right. now left.
          -- injection M as <-. right. apply Nl. destruct (Z.le_gt_cases (n - off) 0) as [|P]; [assumption|]. exfalso.
             rewrite (@equal_lengths_intro _ _ (Z.to_nat (n - off))) in Eq; [discriminate|].
             intros x Hx. apply in_map_iff in Hx. destruct Hx as (a & <- & Ha). destruct (mapM_in A Ha) as (k & _ & E). apply expected_length in E. rewrite E. now apply chosen_len.
      + injection M as <-. apply mapM_err in A. destruct A as (k & K & A). apply Sub in K. destruct (array_errors K A) as [(-> & Q)|(-> & D & B)]; [|now apply (not_implemented D B)].
        right. right. now left.
  Qed.
End Sheet.
