(** The columns collected from a sheet, run by run. *)
From Coq Require Import Sorted ZifyBool ZifyNat.
From Verif Require Import Py PyFacts PyText Cell Casts Chunk ChunkSpec ChunkProofs ChunkWindow ChunkRun ChunkClosed ChunkConcat ReadSpec ReadProofs ReadState
  PropsChunk Utf8 Series SeriesSpec SeriesProofs PropsSeries Reader ReaderSpec ReaderProofs ReaderSteps ReaderRead PropsRead TableSpec.
Set Implicit Arguments. Unset Strict Implicit.

(** *** Groups *)
Lemma grouped_from_snoc r : forall g d, exists gs g', grouped_from g d r = gs ++ [g'] /\
  forall c, grouped_from g d (r ++ [c]) = if follows (last r d) c then gs ++ [g' ++ [c]] else (gs ++ [g']) ++ [[c]].
Proof.
  induction r as [|e r IH]; intros g d.
  - exists [], g. split; [reflexivity|]. intro c. cbn. now destruct (follows d c).
  - assert (L : last (e :: r) d = last r e).
    { clear. revert e. induction r as [|f r IH]; intro e; [reflexivity|]. change (last (e :: f :: r) d) with (last (f :: r) d). rewrite IH. revert f IH. clear. destruct r as [|g r]; [reflexivity|]. intros f IH. 
      change (last (f :: g :: r) e) with (last (g :: r) e). generalize g. clear. intros g. revert g. induction r as [|h r IH]; intro g; [reflexivity|]. change (last (h :: r) f = last (h :: r) e). apply IH. }
    rewrite L. cbn [grouped_from app]. destruct (follows d e).
    + apply IH.
    + destruct (IH [e] e) as (gs & g' & E1 & E2). exists (g :: gs), g'. split; [now rewrite E1|]. intro c. rewrite E2. now destruct (follows (last r e) c).
Qed.
Lemma grouped_snoc l d : exists gs g, grouped (l ++ [d]) = gs ++ [g] /\
  forall c, grouped ((l ++ [d]) ++ [c]) = if follows d c then gs ++ [g ++ [c]] else (gs ++ [g]) ++ [[c]].
Proof.
  destruct l as [|a l].
  - destruct (grouped_from_snoc [] [d] d) as (gs & g & E1 & E2). exists gs, g. split; [exact E1|exact E2].
  - destruct (grouped_from_snoc (l ++ [d]) [a] a) as (gs & g & E1 & E2). exists gs, g. split; [exact E1|].
    intro c. cbn [app grouped]. rewrite E2. now rewrite last_last.
Qed.

Section Columns.
  Context (o : oracle) (sc : sconf).
  Local Notation legible := (legible o sc).
  Definition end_of (row : Z) (gs : list (list cell)) : Z :=
    fold_left (fun r g => match g with [] => r | c :: _ => c_row c + zlen g end) gs row.
  Lemma column_runs_snoc gs c g : forall row,
    column_runs o sc row (gs ++ [c :: g]) = column_runs o sc row gs ++ some_run (repeat tnull (Z.to_nat (c_row c - end_of row gs))) ++ [run_tags o sc (c :: g)].
  Proof.
    induction gs as [|[|b h] gs IH]; intro row; [reflexivity|apply IH|].
    cbn [app column_runs]. rewrite IH. rewrite <- app_assoc. reflexivity.
  Qed.
  Lemma legible_xdt c : legible c = true -> c_xdt c <> 0.
  Proof.
    unfold TableSpec.legible, textual. destruct (sc_binary sc) eqn:B; cbn [negb andb].
    - unfold good, cell_tag. rewrite B. intros H E. destruct (bin_tag o sc (c_xdt c) (c_val c)) as [t|] eqn:T; [|discriminate]. apply bin_inv in T. rewrite E in T.
      clear - T. destruct T as [[T _]|(b & _ & T)]; [discriminate|]. decompose [or and] T; discriminate.
    - destruct ((c_xdt c =? 32) || (c_xdt c =? 36)) eqn:E; [lia|]. unfold good, cell_tag. rewrite B. intros H E0. rewrite E0 in H. now destruct (c_val c).
  Qed.
  Lemma made_group g d : g <> [] -> (forall c, In c g -> c_xdt c = c_xdt d /\ legible c = true) ->
    exists ch, make_chunk o sc (c_xdt d) (map c_val g) = Ok ch /\ made o ch (run_tags o sc g).
  Proof.
    intros Ne H. unfold run_tags. destruct (forallb (good o sc) g) eqn:G.
    - apply made_run; [exact Ne|]. intros c Hc. split; [now apply H|]. rewrite forallb_forall in G. now apply G.
    - assert (T : sc_binary sc = false /\ (c_xdt d = 0x20 \/ c_xdt d = 0x24) /\ forall c, In c g -> exists b t, c_val c = VBytes b /\ decode8 b = Some t).
      { assert (Tx : exists c, In c g /\ good o sc c = false).
        { clear -G. induction g as [|c g IH]; [discriminate|]. cbn in G. destruct (good o sc c) eqn:E; [destruct (IH G) as (x & X1 & X2); exists x; split; [now right|exact X2]|]. exists c. split; [now left|exact E]. }
        destruct Tx as (c & Hc & Gc). destruct (H c Hc) as [K L]. unfold TableSpec.legible in L. destruct (textual sc c) eqn:T; [|congruence]. unfold textual in T. rewrite K in T.
        split; [destruct (sc_binary sc); [discriminate|reflexivity]|]. split; [lia|]. intros e He. destruct (H e He) as [K2 L2]. unfold TableSpec.legible, textual in L2. rewrite K2, T in L2.
        unfold written in L2. destruct (c_val e) as [b|]; [|discriminate]. destruct (decode8 b) as [t|] eqn:D; [|discriminate]. now exists b, t. }
      destruct T as (B & K & V). unfold make_chunk. rewrite B. replace (flag (c_xdt d) TYPE_STRING) with false by now destruct K as [-> | ->]. unfold xlsx_numeric.
      assert (M : mapM (fun v => b <- val_bytes v ;; match o_float o b with Some x => Ok x | None => Err ValueError end) (map c_val g) = Err ValueError).
      { clear Ne. revert V G. assert (Hx : forall c, In c g -> c_xdt c = c_xdt d) by (intros; now apply H). clear H. revert Hx. induction g as [|c g IH]; intros Hx V G; [discriminate|]. cbn [map mapM].
        destruct (V c (or_introl eq_refl)) as (b & t & Eb & Et). rewrite Eb. cbn [val_bytes bind]. destruct (o_float o b) as [x|] eqn:F; [|reflexivity]. cbn [bind].
        rewrite IH; [reflexivity| | |]; [intros; apply Hx; now right|intros; apply V; now right|]. cbn in G. replace (good o sc c) with true in G; [exact G|].
        unfold good, cell_tag. rewrite B, Eb, (Hx c (or_introl eq_refl)). unfold txt_tag. rewrite F. now destruct K as [-> | ->]. }
      rewrite M. unfold xlsx_strings. apply made_str. clear -V. induction g as [|c g IH]; [constructor|]. cbn [map]. constructor; [|apply IH; intros; apply V; now right].
      destruct (V c (or_introl eq_refl)) as (b & t & Eb & Et). exists t. rewrite Eb. cbn [val_text]. rewrite Et. split; [reflexivity|]. unfold as_text, written. now rewrite Eb, Et.
  Qed.

  (** A column while cells are added. *)
  Definition TInv (l : list cell) (x : series) : Prop :=
    (l = [] /\ x = se_new) \/
    exists l0 d gs c g, l = l0 ++ [d] /\ grouped l = gs ++ [c :: g] /\
      (forall e, grouped (l ++ [e]) = if follows d e then gs ++ [(c :: g) ++ [e]] else (gs ++ [c :: g]) ++ [[e]]) /\
      se_chunk x = map c_val (c :: g) /\ se_xdtr x = c_xdt d /\ (forall e, In e (c :: g) -> c_xdt e = c_xdt d /\ legible e = true) /\
      map (cells_of o) (se_chunks x) = column_runs o sc 0 gs /\ solid (se_chunks x) = true /\
      se_choff x = c_row c - end_of 0 gs /\ 0 <= se_choff x /\ c_row c + zlen (c :: g) = c_row d + 1 /\ se_erow x = c_row d /\ se_srow x = first_row l /\ 0 <= first_row l.
  Lemma pulled l x : TInv l x -> l <> [] -> exists x', pull o sc x = Ok x' /\ map (cells_of o) (se_chunks x') = column_runs o sc 0 (grouped l) /\
    solid (se_chunks x') = true /\ se_chunks x' <> [] /\ se_chunk x' = [] /\ se_choff x' = 0 /\ se_xdtr x' = se_xdtr x /\ se_erow x' = se_erow x /\ se_srow x' = se_srow x.
  Proof.
    intros [[-> _]|(l0 & d & gs & c & g & I0 & I1 & I2 & I3 & I4 & I5 & I6 & I7 & I8 & I9 & I10 & I11 & I12 & I13)] Ne; [congruence|].
    destruct (@made_group (c :: g) d ltac:(discriminate) I5) as (ch & M1 & M2 & M3 & M4). unfold pull. rewrite I3, I4, M1. cbn [bind].
    eexists. split; [reflexivity|]. cbn [se_chunks se_chunk se_choff se_xdtr se_erow se_srow]. rewrite I1, column_runs_snoc, <- I6, <- I8.
    assert (Z1 : 0 < k_size ch) by (rewrite M3; unfold run_tags; destruct (forallb _ _); cbn [map]; rewrite zlen_cons; pose proof (zlen_nonneg (map (tag_of o sc) g)); pose proof (zlen_nonneg (map as_text g)); lia).
    split; [|split].
    - rewrite !map_app. f_equal. cbn [map]. rewrite M4. f_equal. destruct (se_choff x =? 0) eqn:E.
      + replace (se_choff x) with 0 by lia. reflexivity.
      + cbn [map]. rewrite cells_nulls by lia. destruct (Z.to_nat (se_choff x)) eqn:Ez; [lia|]. reflexivity.
    - rewrite !solid_app, I7. cbn [andb solid forallb]. rewrite M2. replace (0 <? k_size ch) with true by lia. cbn [andb]. rewrite andb_true_r.
      destruct (se_choff x =? 0) eqn:E; [reflexivity|]. cbn [solid forallb]. unfold stored, shape, nulls. cbn. lia.
    - split; [destruct (se_chunks x), (se_choff x =? 0); discriminate|]. repeat split.
  Qed.
  Lemma add_tinv l x e : TInv l x -> legible e = true -> last_row l < c_row e -> -1 < c_row e -> exists x', add o sc x e = Ok x' /\ TInv (l ++ [e]) x'.
  Proof.
    intros I L Hr H0. pose proof (legible_xdt L) as Kx. unfold add. destruct I as [[-> ->]|I].
    - cbn [se_erow se_new]. replace (c_row e <=? -1) with false by lia.
      assert (Hend : forall x', se_chunk x' = [c_val e] -> se_xdtr x' = c_xdt e -> se_chunks x' = [] -> se_choff x' = c_row e -> se_erow x' = c_row e -> se_srow x' = c_row e -> TInv ([] ++ [e]) x').
      { intros x' H1 H2 H3 H4 H5 H6. right. exists [], e, [], e, []. repeat (apply conj); try assumption; try reflexivity.
        - intros c [<-|[]]. now split.
        - now rewrite H3.
        - now rewrite H3.
        - cbn. lia.
        - lia.
        - cbn. lia. }
      destruct (-1 + 1 <? c_row e) eqn:E; cbn [bind pull_some se_chunk se_new se_chunks se_srow se_erow se_xdtr se_choff].
      + replace (c_xdt e =? 0) with false by lia. cbn [bind pull_some se_chunk se_chunks se_srow se_erow se_xdtr se_choff]. eexists. split; [reflexivity|].
        apply Hend; try reflexivity. cbn. lia.
      + replace (c_xdt e =? 0) with false by lia. cbn [bind pull_some se_chunk se_chunks se_srow se_erow se_xdtr se_choff]. eexists. split; [reflexivity|].
        apply Hend; try reflexivity. cbn. lia.
    - assert (Ne : l <> []) by (destruct I as (l0 & d & gs & c & g & -> & _); now destruct l0).
      destruct (pulled (or_intror I) Ne) as (x' & P1 & P2 & P3 & P4 & P5 & P6 & P7 & P8 & P9).
      destruct I as (l0 & d & gs & c & g & I0 & I1 & I2 & I3 & I4 & I5 & I6 & I7 & I8 & I9 & I10 & I11 & I12 & I13).
      assert (Lr : last_row l = c_row d) by (rewrite I0; apply last_row_snoc). rewrite I11. replace (c_row e <=? c_row d) with false by lia.
      assert (Ps : pull_some o sc x = Ok x') by (unfold pull_some; now rewrite I3).
      assert (Fl : first_row (l ++ [e]) = first_row l) by (rewrite first_row_snoc; now destruct l).
      assert (Hs : forall y, se_srow y = se_srow x -> (if se_srow y <? 0 then c_row e else se_srow y) = first_row (l ++ [e])).
      { intros y ->. rewrite I12, Fl. now replace (first_row l <? 0) with false by lia. }
      assert (Hnew : follows d e = false -> forall x2, se_chunk x2 = [c_val e] -> se_xdtr x2 = c_xdt e -> se_chunks x2 = se_chunks x' -> se_choff x2 = c_row e - (c_row d + 1) ->
        se_erow x2 = c_row e -> se_srow x2 = first_row (l ++ [e]) -> TInv (l ++ [e]) x2).
      { intros F x2 H1 H2 H3 H4 H5 H6. right. destruct (grouped_snoc l e) as (gs2 & g2 & G1 & G2). pose proof (I2 e) as G3. rewrite F in G3. rewrite G1 in G3.
        apply app_inj_tail in G3. destruct G3 as [-> ->].
        exists l, e, (gs ++ [c :: g]), e, []. repeat (apply conj); try assumption; try reflexivity.
        - intros y [<-|[]]. now split.
        - rewrite H3, P2. now rewrite I1.
        - now rewrite H3.
        - rewrite H4. unfold end_of. rewrite fold_left_app. cbn [fold_left]. lia.
        - rewrite H4. lia.
        - rewrite Fl. exact I13. }
      destruct (c_row d + 1 <? c_row e) eqn:E.
      + rewrite Ps. cbn [bind se_chunks se_chunk se_srow se_erow se_xdtr se_choff]. replace (c_xdt e =? 0) with false by lia. rewrite P5.
        cbn [bind pull_some se_chunks se_chunk se_srow se_erow se_xdtr se_choff]. eexists. split; [reflexivity|]. apply Hnew; try reflexivity.
        * unfold follows. lia.
        * cbn [se_choff]. rewrite P8. lia.
        * cbn [se_srow]. exact (Hs x' P9).
      + cbn [bind]. rewrite I4. destruct (c_xdt e =? c_xdt d) eqn:Ex.
        * cbn [bind se_chunks se_chunk se_srow se_erow se_xdtr se_choff]. eexists. split; [reflexivity|]. right.
          assert (F : follows d e = true) by (unfold follows; lia). pose proof (I2 e) as G3. rewrite F in G3.
          destruct (grouped_snoc l e) as (gs2 & g2 & G1 & G2). rewrite G1 in G3. apply app_inj_tail in G3. destruct G3 as [-> ->].
          exists l, e, gs, c, (g ++ [e]). repeat (apply conj); cbn [se_chunks se_chunk se_srow se_erow se_xdtr se_choff]; try assumption; try reflexivity.
          -- rewrite I3. cbn [map app]. now rewrite map_app.
          -- lia.
          -- intros y Hy. change (c :: g ++ [e]) with ((c :: g) ++ [e]) in Hy. apply in_app_or in Hy. destruct Hy as [Hy|[<-|[]]]; [|now split]. destruct (I5 y Hy). split; [lia|assumption].
          -- change (c :: g ++ [e]) with ((c :: g) ++ [e]). rewrite zlen_app. change (zlen [e]) with 1. lia.
          -- exact (Hs x eq_refl).
          -- rewrite Fl. exact I13.
        * rewrite Ps. cbn [bind se_chunks se_chunk se_srow se_erow se_xdtr se_choff]. rewrite P5. eexists. split; [reflexivity|]. apply Hnew; try reflexivity.
          -- unfold follows. lia.
          -- cbn [se_choff]. rewrite P6. lia.
          -- cbn [se_srow]. exact (Hs x' P9).
  Qed.
End Columns.

(** *** Reads of a column *)
Section Ready.
  Context (o : oracle) (sc : sconf).
  Local Notation cf := (sc_conf sc).
  Definition ready (x : series) (rs : list (list tag)) : Prop :=
    exists x', pull_some o sc x = Ok x' /\ column (se_chunks x') = true /\ map (cells_of o) (se_chunks x') = rs /\ se_chunk x' = [].
  Lemma tinv_ready l x : TInv o sc l x -> l <> [] -> ready x (column_runs o sc 0 (grouped l)).
  Proof.
    intros I Ne. destruct (pulled I Ne) as (x' & P1 & P2 & P3 & P4 & P5 & _). exists x'. unfold pull_some.
    destruct I as [[-> _]|(l0 & d & gs & c & g & _ & _ & _ & I3 & _)]; [congruence|]. rewrite I3. split; [exact P1|]. split; [|split; assumption].
    unfold column, solid in *. rewrite P3, andb_true_r. destruct (se_chunks x') as [|y r]; [congruence|]. rewrite zlen_cons. pose proof (zlen_nonneg r). lia.
  Qed.
  Context (off len : Z) (idx : option (list bool)) (W : windowed off len idx = true).
  Definition after (rs : list (list tag)) : list (list tag) := match idx with None => runs_after 0 rs off len | Some _ => rs end.
  Lemma read_ready x x' a : pull_some o sc x = Ok x' -> column (se_chunks x') = true -> se_chunk x' = [] -> read o cf (se_chunks x') off len idx = Ok a ->
    ready (with_chunks x' (fst (concatenate o cf (se_chunks x') off len idx))) (after (map (cells_of o) (se_chunks x'))).
  Proof.
    intros P C E R. destruct (@read_state o cf (se_chunks x') off len idx a C W R) as [C' M]. eexists. split; [unfold pull_some, with_chunks; cbn [se_chunk]; rewrite E; reflexivity|].
    split; [exact C'|]. split; [exact M|]. reflexivity.
  Qed.
  Lemma arrow_ready x rs : ready x rs ->
    snd (to_arrow o sc x off len idx) = expected o cf (chosen_runs rs off len idx) /\
    forall a, snd (to_arrow o sc x off len idx) = Ok a -> ready (fst (to_arrow o sc x off len idx)) (after rs).
  Proof.
    intros (x' & P & C & M & E). rewrite (to_arrow_read off len idx P C). split.
    - unfold read. rewrite concatenate_expected by exact C. now rewrite M.
    - intros a R. pose proof (read_ready P C E R) as Q. rewrite M in Q. unfold to_arrow. rewrite P. destruct (se_chunks x') as [|c l] eqn:Ec; [discriminate|].
      destruct (concatenate o cf (c :: l) off len idx). exact Q.
  Qed.
  Lemma expected_text rs a : expected o cf rs = Ok a -> exists b, (if dtype_eqb (a_type a) TUtf8 then Ok a else unsafe_cast o a TUtf8) = Ok b /\
    map text_of_val (a_vals b) = map (text_form o) (a_vals a).
  Proof.
    intro E. assert (U : a_type a = TUtf8 -> Forall (fun v => match v with None | Some (AS _) => True | _ => False end) (a_vals a)).
    { unfold expected in E. destruct rs; [discriminate|]. destruct (_ && _ && _); [discriminate|]. destruct (expected_cells o cf _) as [vals t].
      destruct (mapM (render o t) vals) as [vs|] eqn:M; [|discriminate]. cbn [bind] in E. injection E as <-. cbn [a_type a_vals]. intros ->. apply mapM_Forall2 in M.
      clear -M. induction M as [|v w vals vs R M IH]; constructor; [|exact IH]. destruct v; inversion R; exact I. }
    destruct a as [t vs]. cbn [a_type a_vals] in *. destruct (dtype_eqb t TUtf8) eqn:T.
    - assert (t = TUtf8) by (destruct t; easy). specialize (U H). clear E. exists (mkA t vs). split; [reflexivity|]. cbn [a_vals].
      induction U as [|v vs Hv U IH]; [reflexivity|]. cbn [map]. f_equal; [now destruct v as [[]|]|]. exact IH.
    - exists (mkA TUtf8 (map (shown o) vs)). split.
      + unfold unsafe_cast. cbn [a_vals a_type]. assert (M : mapM (cast_opt o t TUtf8) vs = Ok (map (shown o) vs)); [|now rewrite M].
        clear. induction vs as [|a vs IH]; [reflexivity|]. cbn [mapM map]. rewrite IH. now destruct a as [[]|].
      + cbn [a_vals]. rewrite map_map. apply map_ext. now intros [[]|].
  Qed.
  Lemma utf8_ready x rs : ready x rs ->
    match expected o cf (chosen_runs rs off len idx) with
    | Ok a => exists b, snd (to_utf8 o sc x off len idx) = Ok b /\ map text_of_val (a_vals b) = map (text_form o) (a_vals a) /\
                ready (fst (to_utf8 o sc x off len idx)) (after rs)
    | Err e => snd (to_utf8 o sc x off len idx) = Err e
    end.
  Proof.
    intros (x' & P & C & M & E). rewrite (to_utf8_read off len idx P C). unfold read at 1 2. rewrite concatenate_expected by exact C. rewrite M.
    destruct (expected o cf (chosen_runs rs off len idx)) as [a|e] eqn:X; [|reflexivity]. cbn [bind]. destruct (expected_text X) as (b & B1 & B2). rewrite B1. exists b.
    split; [reflexivity|]. split; [exact B2|].
    assert (R : read o cf (se_chunks x') off len idx = Ok a) by (unfold read; rewrite concatenate_expected by exact C; now rewrite M).
    pose proof (read_ready P C E R) as Q. rewrite M in Q. unfold to_utf8. rewrite P. destruct (se_chunks x') as [|c l] eqn:Ec; [discriminate|].
    destruct (concatenate o cf (c :: l) off len idx). exact Q.
  Qed.
End Ready.
