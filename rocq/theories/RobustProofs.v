(** What the two worksheet iterators do on arbitrary input: any bytes, any events. *)
From Verif Require Import Py PyText PyFacts Biff BiffProofs Utf16 Utf16Spec Utf16Proofs NumFmt Cell Xlsb Xlsx RobustSpec.
From Coq Require Import ZifyBool Sorted.

Lemma extends_refl a : extends a a.
Proof. split; [exists []; now rewrite app_nil_r|reflexivity]. Qed.
Lemma extends_app o a b : extends a b -> extends (o ++ fst a, snd a) (o ++ fst b, snd b).
Proof.
  intros [(r & H) E]. split; cbn [fst snd].
  - exists r. now rewrite H, app_assoc.
  - intro N. now rewrite (E N).
Qed.
Lemma pair_eta {A B} (p : A * B) : p = (fst p, snd p).
Proof. now destruct p. Qed.

(** ** Row limits *)
Section XlsbLimit.
  Context (styles : res (list bytes)) (nv : str -> bool) (ns : nat -> bytes -> bool) (skip t t' : Z) (tne : bool) (cols : list Z).
  Lemma xlsb_loop_limit rs : 0 < t + skip -> t <= t' \/ t' + skip <= 0 -> forall row e n,
    extends (xlsb_loop styles nv ns skip t tne cols rs row e n) (xlsb_loop styles nv ns skip t' tne cols rs row e n).
  Proof.
    intros P L. induction rs as [|r rs IH]; intros row e n; cbn [xlsb_loop]; [apply extends_refl|].
    destruct (rec_id r =? 0).
    - cbv zeta. unfold xlsb_take. set (row' := if _ : bool then row + 1 else row).
      destruct ((0 <? t + skip) && (t + skip <? row')) eqn:A.
      + split; [eexists; reflexivity|intro N; now elim N].
      + replace ((0 <? t' + skip) && (t' + skip <? row')) with false by lia.
        specialize (IH row' true n). rewrite (pair_eta (xlsb_loop styles nv ns skip t tne cols rs row' true n)),
          (pair_eta (xlsb_loop styles nv ns skip t' tne cols rs row' true n)).
        destruct (skip <=? row'); [exact (extends_app [OCall] _ _ IH)|exact (extends_app [] _ _ IH)].
    - destruct (row <? skip); [apply IH|]. destruct (rec_id r =? 402); [apply extends_refl|].
      destruct (xlsb_cell _ _ _ _ _ _ _ _) as [[c|]|x]; [|apply IH|apply extends_refl].
      specialize (IH row false (S n)). rewrite (pair_eta (xlsb_loop styles nv ns skip t tne cols rs row false (S n))),
        (pair_eta (xlsb_loop styles nv ns skip t' tne cols rs row false (S n))). exact (extends_app [OCell c] _ _ IH).
  Qed.
End XlsbLimit.

Section XlsxLimit.
  Context (styles : str -> option Z) (nv : str -> bool) (skip : Z) (tne : bool) (cols : list Z).
  Definition with_take (w : wst) (k : Z) : wst := mkW (w_row w) (w_empty w) k (w_crow w) (w_ctyp w) (w_col w) (w_tag w).
  Lemma sh_take w k tag a : cell_sh styles skip (with_take w k) tag a =
    match cell_sh styles skip w tag a with Ok w' => Ok (with_take w' k) | Err x => Err x end.
  Proof.
    unfold cell_sh, with_take. cbn [w_tag w_row w_empty w_take w_crow w_ctyp w_col]. destruct (w_tag w) eqn:G; [reflexivity|].
    destruct (_ && _); [|cbn [w_tag w_row w_empty w_take w_crow w_ctyp w_col]; now rewrite ?G].
    destruct (attr_req a (s "r")); reflexivity.
  Qed.
  Lemma sh_take_same w tag a w' : cell_sh styles skip w tag a = Ok w' -> w_take w' = w_take w.
  Proof.
    unfold cell_sh. destruct (w_tag w); [now intros [= <-]|]. destruct (_ && _); [|now intros [= <-]].
    destruct (attr_req a (s "r")); [now intros [= <-]|discriminate].
  Qed.
  Lemma th_take w k t : cell_th nv skip cols (with_take w k) t =
    (with_take (fst (cell_th nv skip cols w t)) k, snd (cell_th nv skip cols w t)).
  Proof.
    unfold cell_th, with_take. cbn [w_tag w_row w_empty w_take w_crow w_ctyp w_col]. destruct (w_row w <? skip); [reflexivity|].
    cbv zeta. destruct (_ && _); [|reflexivity]. destruct (nv _); [reflexivity|]. destruct (mem_Z _ _); reflexivity.
  Qed.
  Lemma th_take_same w t : w_take (fst (cell_th nv skip cols w t)) = w_take w.
  Proof.
    unfold cell_th. destruct (w_row w <? skip); [reflexivity|].
    cbv zeta. destruct (_ && _); [|reflexivity]. destruct (nv _); [reflexivity|]. destruct (mem_Z _ _); reflexivity.
  Qed.
  Definition limit_le (k k' : Z) : Prop := 0 < k /\ (k <= k' \/ tne = false /\ k' <= 0).
  Lemma worker_limit es fail : forall w k', limit_le (w_take w) k' ->
    extends (worker_loop styles nv skip tne cols es fail w) (worker_loop styles nv skip tne cols es fail (with_take w k')).
  Proof.
    induction es as [|[tag a|t|tag] es IH]; intros w k' L; cbn [worker_loop]; [apply extends_refl| | |].
    - rewrite sh_take. destruct (cell_sh styles skip w tag a) as [w'|x] eqn:E; [|apply extends_refl].
      apply IH. now rewrite (sh_take_same _ _ _ _ E).
    - rewrite th_take. pose proof (th_take_same w t) as T. destruct (cell_th nv skip cols w t) as [w' o] eqn:E. cbn [fst snd] in *.
      assert (L' : limit_le (w_take w') k') by now rewrite T.
      specialize (IH w' k' L'). rewrite (pair_eta (worker_loop styles nv skip tne cols es fail w')),
        (pair_eta (worker_loop styles nv skip tne cols es fail (with_take w' k'))). apply extends_app, IH.
    - unfold cell_eh. cbn [w_tag w_row w_empty w_take w_crow w_ctyp w_col with_take]. unfold limit_le in L.
      destruct (str_eqb tag (s "row")).
      + cbv zeta. set (row := if _ : bool then w_row w + 1 else w_row w).
        set (k1 := if w_empty w && tne then w_take w + 2 else w_take w). set (k2 := if w_empty w && tne then k' + 2 else k').
        assert (L2 : limit_le k1 k2) by (unfold limit_le, k1, k2; destruct (w_empty w), tne; cbn; lia).
        destruct ((0 <? k1) && (k1 <? row)) eqn:A.
        * destruct ((0 <? k2) && (k2 <? row)); [apply extends_refl|].
          rewrite (pair_eta (worker_loop _ _ _ _ _ _ _ (mkW row _ k2 _ _ _ _))). split; [eexists; reflexivity|intro N; now elim N].
        * replace ((0 <? k2) && (k2 <? row)) with false by (unfold limit_le in L2; lia).
          specialize (IH (mkW row (w_empty w) k1 (w_crow w) (w_ctyp w) (w_col w) (w_tag w)) k2 L2).
          unfold with_take in IH. cbn [w_tag w_row w_empty w_take w_crow w_ctyp w_col] in IH.
          rewrite (pair_eta (worker_loop _ _ _ _ _ _ _ (mkW row _ k1 _ _ _ _))), (pair_eta (worker_loop _ _ _ _ _ _ _ (mkW row _ k2 _ _ _ _))).
          apply extends_app, IH.
      + destruct (str_eqb tag (s "c")).
        * specialize (IH (mkW (w_row w) (w_empty w) (w_take w) (w_crow w) 0 (w_col w) None) k' L).
          unfold with_take in IH. cbn [w_tag w_row w_empty w_take w_crow w_ctyp w_col] in IH.
          rewrite (pair_eta (worker_loop _ _ _ _ _ _ _ (mkW _ _ (w_take w) _ _ _ _))), (pair_eta (worker_loop _ _ _ _ _ _ _ (mkW _ _ k' _ _ _ _))).
          apply extends_app, IH.
        * specialize (IH w k' L). fold (with_take w k').
          rewrite (pair_eta (worker_loop _ _ _ _ _ _ _ w)), (pair_eta (worker_loop _ _ _ _ _ _ _ (with_take w k'))). apply extends_app, IH.
  Qed.
End XlsxLimit.

(** ** What a delivered cell looks like *)
Section XlsbCells.
  Context (styles : res (list bytes)) (nv : str -> bool) (ns : nat -> bytes -> bool) (skip t : Z) (tne : bool) (cols : list Z).
  Local Notation loop := (xlsb_loop styles nv ns skip t tne cols).
  Definition text_visible (n : nat) (c : cell) : Prop :=
    match c_val c with
    | VStr x => nv x = false
    | VBytes b => c_xdt c = Z.lor TYPE_STRING REPR_SHARED -> ns n b = false
    end.
  Lemma xlsb_cell_props n row r c : xlsb_cell styles nv ns skip cols n row r = Ok (Some c) ->
    c_row c = row - skip /\ mem_Z (c_col c) cols = false /\ unpack_I (sub (rec_data r) 0 4) = Ok (c_col c) /\ payload r (c_val c) /\ text_visible n c.
  Proof.
    unfold xlsb_cell. cbv zeta. destruct (unpack_I (sub (rec_data r) 0 4)) as [col|]; cbn [bind]; [|discriminate].
    destruct (mem_Z col cols) eqn:M; [discriminate|]. destruct styles as [st|]; cbn [bind]; [|discriminate].
    set (adv := if _ : bool then REPR_TEMPORAL else 0). assert (A : adv = 4 \/ adv = 0) by (unfold adv; destruct (mem_str _ _); auto).
    clearbody adv. unfold text_visible, payload.
    destruct (_ || _).
    { destruct (unpack_I (sub (rec_data r) 8 12)) as [k|]; cbn [bind]; [|discriminate].
      destruct (decode16 _) as [x|] eqn:D; cbn [bind]; [|discriminate]. destruct (nv x) eqn:V; [discriminate|].
      intros [= <-]. cbn [c_row c_col c_val]. repeat split; eauto. }
    destruct (_ || _).
    { intros [= <-]. cbn [c_row c_col c_val c_xdt]. repeat split; auto; [eexists; split; [|reflexivity]; cbn; auto|]. destruct A as [-> | ->]; discriminate. }
    destruct (_ || _).
    { intros [= <-]. cbn [c_row c_col c_val c_xdt]. repeat split; auto; [eexists; split; [|reflexivity]; cbn; auto|]. discriminate. }
    destruct (_ =? 7).
    { destruct (ns n _) eqn:V; [discriminate|]. intros [= <-]. cbn [c_row c_col c_val c_xdt]. repeat split; auto. eexists; split; [|reflexivity]; cbn; auto. }
    intros [= <-]. cbn [c_row c_col c_val c_xdt]. repeat split; auto; [eexists; split; [|reflexivity]; cbn; auto|]. destruct A as [-> | ->]; discriminate.
  Qed.

  Lemma cells_cons_call o : Cell.cells_of (OCall :: o) = Cell.cells_of o.
  Proof. reflexivity. Qed.
  Lemma cells_cons_cell c o : Cell.cells_of (OCell c :: o) = c :: Cell.cells_of o.
  Proof. reflexivity. Qed.

  (** Rows never decrease. *)
  Lemma xlsb_rows_sorted rs : forall row e n, Sorted Z.le (row - skip :: map c_row (Cell.cells_of (fst (loop rs row e n)))).
  Proof.
    assert (W : forall a b l, a <= b -> Sorted Z.le (b :: l) -> Sorted Z.le (a :: l)).
    { intros a b l L S. inversion S as [|? ? S' H]; subst. constructor; [exact S'|]. destruct H; constructor. lia. }
    assert (one : forall a, Sorted Z.le [a]) by (intro; constructor; constructor).
    induction rs as [|r rs IH]; intros row e n; cbn [xlsb_loop]; [apply one|].
    destruct (rec_id r =? 0).
    - cbv zeta. set (row' := if _ : bool then row + 1 else row).
      assert (R : row - skip <= row' - skip) by (unfold row'; destruct (_ || _); lia).
      destruct (_ && _); [apply one|]. specialize (IH row' true n).
      destruct (loop rs row' true n) as [o x]. cbn [fst] in *. apply W with (1 := R).
      destruct (skip <=? row'); exact IH.
    - destruct (row <? skip); [apply IH|]. destruct (rec_id r =? 402); [apply one|].
      destruct (xlsb_cell _ _ _ _ _ _ _ _) as [[c|]|x] eqn:C; [|apply IH|apply one].
      specialize (IH row false (S n)). destruct (loop rs row false (S n)) as [o x]. cbn [fst] in *.
      rewrite cells_cons_cell. cbn [map]. destruct (xlsb_cell_props _ _ _ _ C) as (-> & _). constructor; [exact IH|constructor; lia].
  Qed.

  Lemma xlsb_cells_all rs : 0 <= skip -> forall row e n i c,
    (0 < t -> row <= t + skip) ->
    nth_error (Cell.cells_of (fst (loop rs row e n))) i = Some c ->
    0 <= c_row c /\ (0 < t -> c_row c <= t) /\ mem_Z (c_col c) cols = false /\
    (exists r, (In r rs /\ rec_id r <> 0 /\ rec_id r <> 402) /\ unpack_I (sub (rec_data r) 0 4) = Ok (c_col c) /\ payload r (c_val c)) /\ text_visible (n + i) c.
  Proof.
    intro K0. induction rs as [|r rs IH]; intros row e n i c B H; cbn [xlsb_loop] in H; [now destruct i|].
    assert (IH' : forall row e n i, (0 < t -> row <= t + skip) -> nth_error (Cell.cells_of (fst (loop rs row e n))) i = Some c ->
      0 <= c_row c /\ (0 < t -> c_row c <= t) /\ mem_Z (c_col c) cols = false /\
      (exists r0, (In r0 (r :: rs) /\ rec_id r0 <> 0 /\ rec_id r0 <> 402) /\ unpack_I (sub (rec_data r0) 0 4) = Ok (c_col c) /\ payload r0 (c_val c)) /\ text_visible (n + i) c).
    { intros row0 e0 n0 i0 B0 H0. destruct (IH row0 e0 n0 i0 c B0 H0) as (H1 & H2 & H3 & (r0 & I0 & H4) & H5).
      repeat split; auto. exists r0. split; [|assumption]. destruct I0 as (I0 & I1). split; [now right|exact I1]. }
    clear IH. destruct (rec_id r =? 0) eqn:Z0.
    - cbv zeta in H. set (row' := if _ : bool then row + 1 else row) in H.
      destruct ((0 <? _) && _) eqn:A; [now destruct i|]. unfold xlsb_take in A.
      destruct (loop rs row' true n) as [o x] eqn:E. cbn [fst] in H.
      apply (IH' row' true n i); [|rewrite E; cbn [fst]; destruct (skip <=? row'); exact H].
      lia.
    - destruct (row <? skip) eqn:K; [now apply (IH' row e n i)|]. destruct (rec_id r =? 402) eqn:Z4; [now destruct i|].
      destruct (xlsb_cell _ _ _ _ _ _ _ _) as [[d|]|x] eqn:C; [|now apply (IH' row e n i)|now destruct i].
      destruct (loop rs row false (S n)) as [o x] eqn:E. cbn [fst] in H. rewrite cells_cons_cell in H.
      destruct i as [|i].
      + cbn in H. injection H as ->. destruct (xlsb_cell_props _ _ _ _ C) as (R & M & U & Y & V). rewrite Nat.add_0_r.
        repeat split; auto; [lia| |exists r; split; [repeat split; [now left|lia|lia]|now split]]. lia.
      + cbn in H. replace (n + S i)%nat with (S n + i)%nat by lia. apply (IH' row false (S n) i); [assumption|now rewrite E].
  Qed.
End XlsbCells.

(** Every scanned record's data stands in the part. *)
Definition suffix (r b : bytes) : Prop := exists p, b = p ++ r.
Lemma suffix_trans a b c : suffix a b -> suffix b c -> suffix a c.
Proof. intros (p & ->) (q & ->). exists (q ++ p). now rewrite app_assoc. Qed.
Lemma read1_suffix b x r : read1 b = Ok (x, r) -> suffix r b.
Proof. destruct b; [discriminate|]. intros [= <- <-]. now exists [z]. Qed.
Ltac reads := repeat match goal with
  | H : Ok _ = Ok _ |- _ => injection H; clear H; intros; subst
  | H : Err _ = Ok _ |- _ => discriminate H
  | H : context [read1 ?b] |- _ => let E := fresh "E" in destruct (read1 b) as [[? ?]|] eqn:E; cbn [bind] in H; [apply read1_suffix in E|discriminate H]
  | H : context [if ?c then _ else _] |- _ => destruct c
  end; eauto using suffix_trans.
Lemma scan_id_suffix b i r : scan_id b = Ok (i, r) -> suffix r b.
Proof. unfold scan_id. intro H. reads. Qed.
Lemma scan_sz_suffix b i r : scan_sz b = Ok (i, r) -> suffix r b.
Proof. unfold scan_sz. intro H. cbv zeta in H. reads. Qed.
Lemma scan_hdr_suffix b i z r : scan_hdr b = Ok (i, z, r) -> suffix r b.
Proof.
  unfold scan_hdr. destruct (scan_id b) as [[? r1]|] eqn:E1; cbn [bind]; [|discriminate].
  destruct (scan_sz r1) as [[? r2]|] eqn:E2; cbn [bind]; [|discriminate]. intros [= <- <- <-].
  eauto using suffix_trans, scan_id_suffix, scan_sz_suffix.
Qed.
Lemma scan_fuel_inside only : forall f b rs r, scan_fuel f only b = Some rs -> In r rs ->
  wanted only (rec_id r) = true /\ exists p q, b = p ++ rec_data r ++ q.
Proof.
  induction f as [|f IH]; intros b rs r H I; cbn [scan_fuel] in H; [discriminate|].
  destruct (scan_hdr b) as [[[i z] b']|] eqn:E; [|injection H as <-; destruct I].
  apply scan_hdr_suffix in E as (p & ->).
  assert (S : forall k rs, scan_fuel f only (skipn k b') = Some rs -> In r rs ->
    wanted only (rec_id r) = true /\ exists p0 q, p ++ b' = p0 ++ rec_data r ++ q).
  { intros k l Hl Il. destruct (IH _ _ _ Hl Il) as (W & p0 & q & Q). split; [exact W|].
    exists (p ++ firstn k b' ++ p0), q. rewrite <- !app_assoc, <- Q. now rewrite firstn_skipn. }
  destruct (wanted only i) eqn:W.
  - destruct (z =? 0).
    + destruct (scan_fuel f only b') eqn:G; [|discriminate]. injection H as <-. destruct I as [<-|I].
      * split; [exact W|]. exists (p ++ b'), []. now rewrite app_nil_r.
      * exact (S 0%nat l G I).
    + cbv zeta in H. destruct (_ =? z); [|injection H as <-; destruct I].
      destruct (scan_fuel f only (skipn _ b')) eqn:G; [|discriminate]. injection H as <-. destruct I as [<-|I].
      * split; [exact W|]. cbn [rec_data]. exists p, (skipn (Z.to_nat z) b'). now rewrite firstn_skipn.
      * exact (S _ l G I).
  - exact (S _ rs H I).
Qed.
Lemma scan_part_inside ids b r : ids <> [] -> In r (scan_part ids b) -> In (rec_id r) ids /\ exists p q, b = p ++ rec_data r ++ q.
Proof.
  intro NE. unfold scan_part, scan_biff. destruct (scan_fuel _ _ b) as [rs|] eqn:E; [|intros []]. intro I.
  destruct (scan_fuel_inside _ _ _ _ _ E I) as (W & H). split; [|exact H].
  unfold wanted in W. destruct ids; [now elim NE|]. now apply mem_Z_In.
Qed.

Section XlsxCells.
  Context (styles : str -> option Z) (nv : str -> bool) (skip : Z) (tne : bool) (cols : list Z).
  Local Notation loop := (worker_loop styles nv skip tne cols).
  Definition winv (w : wst) : Prop :=
    w_crow w <= w_row w /\ (w_tag w <> None -> skip <= w_crow w).
  Definition wlimit (t : Z) (w : wst) : Prop := tne = false -> 0 < t -> w_take w = t + skip /\ w_row w <= t + skip.
  Lemma winv_sh w tag a w' : winv w -> cell_sh styles skip w tag a = Ok w' -> winv w' /\ w_crow w <= w_crow w' /\ w_row w' = w_row w.
  Proof.
    intros (H1 & H2). unfold cell_sh, winv. destruct (w_tag w) eqn:G.
    { intros [= <-]. cbn. repeat split; try lia. intros _. now apply H2. }
    destruct (_ && _) eqn:S; [|intros [= <-]; rewrite G; repeat split; [lia|intro N; now elim N|lia]].
    destruct (attr_req a (s "r")); [|discriminate]. intros [= <-]. cbn. lia.
  Qed.
  Lemma winv_th w t : winv w -> winv (fst (cell_th nv skip cols w t)) /\ w_crow (fst (cell_th nv skip cols w t)) = w_crow w
    /\ w_row (fst (cell_th nv skip cols w t)) = w_row w /\ w_take (fst (cell_th nv skip cols w t)) = w_take w
    /\ w_col (fst (cell_th nv skip cols w t)) = w_col w.
  Proof.
    intro H. unfold cell_th. destruct (w_row w <? skip); [auto|]. cbv zeta. destruct (_ && _); [|auto].
    destruct (nv _); [auto|]. destruct (mem_Z _ _); auto.
  Qed.
  Lemma winv_eh w tag : winv w -> let w' := fst (fst (cell_eh tne w tag)) in
    winv w' /\ w_crow w' = w_crow w /\ w_row w <= w_row w' /\ w_col w' = w_col w.
  Proof.
    intros (H1 & H2). unfold cell_eh. destruct (str_eqb tag (s "row")).
    - cbn. unfold winv. cbn. destruct (_ || _); repeat split; auto; lia.
    - destruct (str_eqb tag (s "c")); cbn; unfold winv; cbn; repeat split; auto; try lia; try (intro N; now elim N).
  Qed.
  Lemma th_cells w t : Cell.cells_of (snd (cell_th nv skip cols w t)) = [] \/
    exists ty, Cell.cells_of (snd (cell_th nv skip cols w t)) =
      [mkCell (w_crow w - skip) (col_idx (utf8 (w_col w))) ty (VBytes (utf8 (strip t)))] /\
    w_tag w = Some (s "v") /\ strip t <> [] /\ nv (strip t) = false /\ mem_Z (col_idx (utf8 (w_col w))) cols = false.
  Proof.
    unfold cell_th. destruct (w_row w <? skip); [now left|]. cbv zeta.
    destruct (_ && _) eqn:A; [|now left]. destruct (nv (strip t)) eqn:N; [now left|]. destruct (mem_Z _ cols) eqn:M; [now left|].
    right. exists (w_ctyp w). split; [reflexivity|]. apply andb_prop in A as (A & B).
    destruct (w_tag w) as [g|]; [|discriminate]. apply str_eqb_eq in A as ->.
    repeat split; auto. intro Z0. now rewrite Z0 in B.
  Qed.
  Lemma eh_cells w tag : Cell.cells_of (snd (fst (cell_eh tne w tag))) = [].
  Proof. unfold cell_eh. destruct (str_eqb _ _); [reflexivity|]. destruct (str_eqb _ _); reflexivity. Qed.
  Lemma cells_app a b : Cell.cells_of (a ++ b) = Cell.cells_of a ++ Cell.cells_of b.
  Proof. unfold Cell.cells_of. apply flat_map_app. Qed.

  Lemma sorted_weaken a b l : a <= b -> Sorted Z.le (b :: l) -> Sorted Z.le (a :: l).
  Proof. intros L S. inversion S as [|? ? S' H]; subst. constructor; [exact S'|]. destruct H; constructor. lia. Qed.
  Lemma xlsx_rows_sorted fail es : forall w, winv w -> Sorted Z.le (w_crow w - skip :: map c_row (Cell.cells_of (fst (loop es fail w)))).
  Proof.
    induction es as [|[tag a|t|tag] es IH]; intros w H; cbn [worker_loop]; [repeat constructor| | |].
    - destruct (cell_sh styles skip w tag a) as [w'|x] eqn:E; [|repeat constructor].
      destruct (winv_sh _ _ _ _ H E) as (H' & L & _). apply sorted_weaken with (2 := IH w' H'). lia.
    - destruct (winv_th w t H) as (H' & L & _). pose proof (th_cells w t) as T. destruct (cell_th nv skip cols w t) as [w' o]. cbn [fst snd] in *.
      specialize (IH w' H'). destruct (loop es fail w') as [o' e]. cbn [fst] in *. rewrite cells_app, L in *.
      destruct T as [->|(ty & -> & _)]; [exact IH|]. cbn [app map c_row]. constructor; [exact IH|constructor; lia].
    - destruct (winv_eh w tag H) as (H' & L & _). pose proof (eh_cells w tag) as T. destruct (cell_eh tne w tag) as [[w' o] st]. cbn [fst snd] in *.
      destruct st; [cbn [fst]; rewrite T; repeat constructor|].
      specialize (IH w' H'). destruct (loop es fail w') as [o' e]. cbn [fst] in *. rewrite cells_app, T, L in *. exact IH.
  Qed.

  (** The reference a state holds was read from the part. *)
  Definition from (all : list event) (r : str) : Prop := exists a, In (EStart (s "c") a) all /\ attr a (s "r") = Some r.
  Definition wfrom (all : list event) (w : wst) : Prop := w_tag w <> None -> from all (w_col w).
  Lemma sh_from all tag a w w' : In (EStart tag a) all -> wfrom all w -> cell_sh styles skip w tag a = Ok w' -> wfrom all w'.
  Proof.
    intros I F E. unfold cell_sh in E. destruct (w_tag w) eqn:G; [injection E as <-; intros _; apply F; congruence|].
    destruct (str_eqb tag (s "c")) eqn:T; cbn [andb] in E; [|injection E as <-; exact F].
    destruct (_ <=? _); [|injection E as <-; exact F]. apply str_eqb_eq in T as ->.
    unfold attr_req in E. destruct (attr a (s "r")) as [r|] eqn:R; [|discriminate]. injection E as <-. intros _. exists a. now split.
  Qed.
  Lemma th_from all w t : wfrom all w -> wfrom all (fst (cell_th nv skip cols w t)).
  Proof.
    intro H. unfold cell_th. destruct (w_row w <? skip); [exact H|]. cbv zeta. destruct (_ && _); [|exact H].
    destruct (nv _); [exact H|]. destruct (mem_Z _ _); exact H.
  Qed.
  Lemma eh_from all w tag : wfrom all w -> wfrom all (fst (fst (cell_eh tne w tag))).
  Proof.
    intro H. unfold cell_eh. destruct (str_eqb _ _); [exact H|]. destruct (str_eqb _ _); [|exact H]. intro N. now elim N.
  Qed.
  Lemma xlsx_cells_all fail t all es : 0 <= skip -> incl es all -> forall w c, winv w -> wlimit t w -> wfrom all w ->
    In c (Cell.cells_of (fst (loop es fail w))) ->
    0 <= c_row c /\ (tne = false -> 0 < t -> c_row c <= t) /\ mem_Z (c_col c) cols = false /\
    (exists r, from all r /\ c_col c = col_idx (utf8 r)) /\
    (exists x, In (EText x) all /\ c_val c = VBytes (utf8 (strip x)) /\ strip x <> [] /\ nv (strip x) = false).
  Proof.
    intro K0. induction es as [|ev es IH]; intros A w c H L F I; [destruct I|].
    specialize (IH (fun x Hx => A x (or_intror Hx))). assert (A0 : In ev all) by (apply A; now left).
    destruct ev as [tag a|x|tag]; cbn [worker_loop] in I.
    - destruct (cell_sh styles skip w tag a) as [w'|y] eqn:E; [|destruct I].
      destruct (winv_sh _ _ _ _ H E) as (H' & _ & L'). apply (IH w' c H'); [|exact (sh_from _ _ _ _ _ A0 F E)|exact I].
      intros T P. rewrite (sh_take_same _ _ _ _ _ _ E), L'. now apply L.
    - destruct (winv_th w x H) as (H' & L1 & L2 & L3 & L4). pose proof (th_cells w x) as T. pose proof (th_from all w x F) as F'.
      destruct (cell_th nv skip cols w x) as [w' o]. cbn [fst snd] in *.
      destruct (loop es fail w') as [o' e] eqn:E. cbn [fst] in I. rewrite cells_app in I. apply in_app_or in I as [I|I].
      + destruct T as [T|(ty & T & G & S & N & M)]; rewrite T in I; [destruct I|]. destruct I as [<-|[]]. cbn [c_row c_col c_val].
        destruct H as (H1 & H2). assert (G' : w_tag w <> None) by (rewrite G; discriminate). specialize (H2 G').
        repeat split; auto; [lia| |exists (w_col w); split; [now apply F|reflexivity]|exists x; repeat split; auto].
        intros T0 P. destruct (L T0 P). lia.
      + apply (IH w' c H'); [intros T0 P; rewrite L2, L3; now apply L|exact F'|now rewrite E].
    - destruct (winv_eh w tag H) as (H' & L1 & L2 & L4). pose proof (eh_cells w tag) as T. pose proof (eh_from all w tag F) as F'.
      assert (L' : wlimit t w -> snd (cell_eh tne w tag) = false -> wlimit t (fst (fst (cell_eh tne w tag)))).
      { clear -K0. unfold wlimit, cell_eh. intros L. destruct (str_eqb tag (s "row")).
        - cbn. intros S T P. destruct (L T P) as (L1 & L2). rewrite T in *. rewrite andb_false_r in *. split; [exact L1|lia].
        - destruct (str_eqb tag (s "c")); cbn; auto. }
      destruct (cell_eh tne w tag) as [[w' o] st]. cbn [fst snd] in *. destruct st; [cbn [fst] in I; rewrite T in I; destruct I|].
      destruct (loop es fail w') as [o' e] eqn:E. cbn [fst] in I. rewrite cells_app, T in I. cbn [app] in I.
      apply (IH w' c H'); [now apply L'|exact F'|now rewrite E].
  Qed.
End XlsxCells.

(** ** Exclusions only remove cells *)
Section XlsbFilter.
  Context (styles : res (list bytes)) (nv0 nv : str -> bool) (nul0 nul : bytes -> bool) (cols0 cols : list Z).
  Local Notation visible := (visible nv nul cols).
  Context (Hn : forall x, nv0 x = true -> nv x = true) (Hs : forall b, nul0 b = true -> nul b = true)
    (Hc : forall k, mem_Z k cols0 = true -> mem_Z k cols = true).
  Lemma cell_filter skip n n' row row' r oc : xlsb_cell styles nv0 (fun _ => nul0) skip cols0 n row r = Ok oc ->
    exists od, xlsb_cell styles nv (fun _ => nul) skip cols n' row' r = Ok od /\
      match oc with
      | None => od = None
      | Some c => od = if visible c then Some (mkCell (row' - skip) (c_col c) (c_xdt c) (c_val c)) else None
      end.
  Proof.
    unfold xlsb_cell. cbv zeta. destruct (unpack_I (sub (rec_data r) 0 4)) as [col|]; cbn [bind]; [|discriminate].
    destruct (mem_Z col cols0) eqn:M0.
    { intros [= <-]. rewrite (Hc _ M0). eauto. }
    destruct styles as [st|]; cbn [bind]; [|discriminate].
    set (adv := if _ : bool then REPR_TEMPORAL else 0). assert (A : adv = 4 \/ adv = 0) by (unfold adv; destruct (mem_str _ _); auto).
    clearbody adv. unfold RobustSpec.visible.
    destruct (_ || _).
    { destruct (unpack_I (sub (rec_data r) 8 12)) as [k|]; cbn [bind]; [|discriminate].
      destruct (decode16 _) as [x|] eqn:D; cbn [bind]; [|discriminate]. destruct (nv0 x) eqn:V0; intros [= <-].
      - rewrite (Hn _ V0). destruct (mem_Z col cols); eauto.
      - cbn [c_col c_val c_xdt]. destruct (mem_Z col cols) eqn:M; cbn [negb andb]; [eauto|]. destruct (nv x); cbn [negb]; [eauto|].
        eexists. split; reflexivity. }
    destruct (_ || _).
    { intros [= <-]. cbn [c_col c_val c_xdt]. destruct (mem_Z col cols) eqn:M; cbn [negb andb]; [eauto|].
      replace (negb _) with true by (destruct A as [-> | ->]; reflexivity).
      eexists. split; reflexivity. }
    destruct (_ || _).
    { intros [= <-]. cbn [c_col c_val c_xdt]. destruct (mem_Z col cols) eqn:M; cbn [negb andb]; [eauto|].
      eexists. split; reflexivity. }
    destruct (_ =? 7).
    { destruct (nul0 _) eqn:V0; intros [= <-].
      - rewrite (Hs _ V0). destruct (mem_Z col cols); eauto.
      - cbn [c_col c_val c_xdt]. destruct (mem_Z col cols) eqn:M; cbn [negb andb]; [eauto|].
        rewrite Z.eqb_refl. cbn [andb]. destruct (nul _); cbn [negb]; [eauto|].
        eexists. split; reflexivity. }
    intros [= <-]. cbn [c_col c_val c_xdt]. destruct (mem_Z col cols) eqn:M; cbn [negb andb]; [eauto|].
    replace (negb _) with true by (destruct A as [-> | ->]; reflexivity).
    eexists. split; reflexivity.
  Qed.

  (** Rows kept: the numbering does not depend on what is excluded. *)
  Lemma kept_filter skip t rs : forall row e e' n n',
    snd (xlsb_loop styles nv0 (fun _ => nul0) skip t true cols0 rs row e n) = None ->
    let a := xlsb_loop styles nv0 (fun _ => nul0) skip t true cols0 rs row e n in
    let b := xlsb_loop styles nv (fun _ => nul) skip t true cols rs row e' n' in
    snd b = None /\ Cell.cells_of (fst b) = filter visible (Cell.cells_of (fst a)) /\ calls_of (fst b) = calls_of (fst a).
  Proof.
    induction rs as [|r rs IH]; intros row e e' n n' H; cbn [xlsb_loop] in *; [auto|]. cbv zeta.
    destruct (rec_id r =? 0).
    - rewrite !orb_true_r in *. cbv zeta in H |- *. destruct (_ && _); [auto|].
      specialize (IH (row + 1) true true n n').
      destruct (xlsb_loop styles nv0 _ _ _ _ _ rs (row + 1) true n) as [o x]. destruct (xlsb_loop styles nv _ _ _ _ _ rs (row + 1) true n') as [o' x'].
      cbn [fst snd] in *. destruct (IH H) as (I1 & I2 & I3). destruct (skip <=? row + 1); [|auto].
      rewrite !cells_cons_call. repeat split; auto.
      unfold calls_of in *. cbn [filter]. rewrite !zlen_cons. lia.
    - destruct (row <? skip); [apply IH, H|]. destruct (rec_id r =? 402); [auto|].
      destruct (xlsb_cell styles nv0 _ _ _ n row r) as [oc|x] eqn:C; [|discriminate H].
      destruct (cell_filter _ _ n' _ row _ _ C) as (od & D & E). rewrite D. destruct oc as [c|].
      + specialize (IH row false (if visible c then false else e') (S n) (if visible c then S n' else n')).
        destruct (xlsb_loop styles nv0 _ _ _ _ _ rs row false (S n)) as [o x] eqn:Q. cbn [fst snd] in *.
        assert (K : mkCell (row - skip) (c_col c) (c_xdt c) (c_val c) = c).
        { destruct (xlsb_cell_props _ _ _ _ _ _ _ _ _ C) as (K & _). rewrite <- K. now destruct c. }
        rewrite K in E. subst od. destruct (visible c) eqn:V.
        *
          destruct (xlsb_loop styles nv _ _ _ _ _ rs row false (S n')) as [o' x']. cbn [fst snd] in *.
          destruct (IH H) as (I1 & I2 & I3). rewrite !cells_cons_cell. cbn [filter]. rewrite V. repeat split; [exact I1|now f_equal|exact I3].
        * destruct (IH H) as (I1 & I2 & I3).
          rewrite !cells_cons_cell. cbn [filter]. rewrite V. auto.
      + subst od. apply IH, H.
  Qed.

  (** Any mode, no row options: the contents are the same up to row numbers. *)
  Definition rows_ok (row row' : Z) (e e' : bool) : Prop := 0 <= row /\ 0 <= row' \/ row = -1 /\ row' = -1 /\ e = false /\ e' = false.
  Lemma contents_filter tne rs : forall row row' e e' n n', rows_ok row row' e e' ->
    snd (xlsb_loop styles nv0 (fun _ => nul0) 0 0 tne cols0 rs row e n) = None ->
    let a := xlsb_loop styles nv0 (fun _ => nul0) 0 0 tne cols0 rs row e n in
    let b := xlsb_loop styles nv (fun _ => nul) 0 0 tne cols rs row' e' n' in
    snd b = None /\ map no_row (Cell.cells_of (fst b)) = filter visible (map no_row (Cell.cells_of (fst a))).
  Proof.
    induction rs as [|r rs IH]; intros row row' e e' n n' R H; cbn [xlsb_loop] in *; [auto|]. cbv zeta.
    destruct (rec_id r =? 0).
    - cbv zeta in H |- *. unfold xlsb_take in *. cbn [Z.add Z.ltb Z.compare andb] in *.
      set (q := if _ : bool then row + 1 else row) in *. set (q' := if _ : bool then row' + 1 else row').
      assert (R' : rows_ok q q' true true).
      { left. unfold q, q'. destruct R as [R|(-> & -> & -> & ->)]; cbn; [|lia]. destruct (_ || _), (_ || _); lia. }
      specialize (IH q q' true true n n' R').
      destruct (xlsb_loop styles nv0 _ _ _ _ _ rs q true n) as [o x]. destruct (xlsb_loop styles nv _ _ _ _ _ rs q' true n') as [o' x'].
      cbn [fst snd] in *. destruct (IH H) as (I1 & I2).
      destruct (0 <=? q), (0 <=? q'); rewrite ?cells_cons_call; auto.
    - assert (Q : (row <? 0) = (row' <? 0)) by (unfold rows_ok in R; lia). rewrite <- Q.
      destruct (row <? 0) eqn:Q0; [apply IH; assumption|]. destruct (rec_id r =? 402); [auto|].
      assert (R' : forall b b', rows_ok row row' b b') by (intros; left; unfold rows_ok in R; lia).
      destruct (xlsb_cell styles nv0 _ _ _ n row r) as [oc|x] eqn:C; [|discriminate H].
      destruct (cell_filter _ _ n' _ row' _ _ C) as (od & D & E). rewrite D. destruct oc as [c|].
      + specialize (IH row row' false (if visible c then false else e') (S n) (if visible c then S n' else n') (R' _ _)).
        destruct (xlsb_loop styles nv0 _ _ _ _ _ rs row false (S n)) as [o x] eqn:Q1. cbn [fst snd] in *. subst od.
        rewrite cells_cons_cell. cbn [map filter]. change (visible (no_row c)) with (visible c).
        destruct (visible c) eqn:V.
        * destruct (xlsb_loop styles nv _ _ _ _ _ rs row' false (S n')) as [o' x']. cbn [fst snd] in *.
          destruct (IH H) as (I1 & I2). rewrite cells_cons_cell. cbn [map]. split; [exact I1|]. now rewrite I2.
        * exact (IH H).
      + subst od. apply IH; auto.
  Qed.
End XlsbFilter.

Section XlsxFilter.
  Context (styles : str -> option Z) (p0 p : bytes -> bool) (cols0 cols : list Z).
  Local Notation nv0 := (fun x => p0 (utf8 x)).
  Local Notation nv := (fun x => p (utf8 x)).
  Local Notation xvisible := (xvisible p cols).
  Context (Hn : forall x, p0 x = true -> p x = true) (Hc : forall k, mem_Z k cols0 = true -> mem_Z k cols = true).
  Definition wsim (w w' : wst) : Prop :=
    0 <= w_row w /\ 0 <= w_row w' /\ w_take w = 0 /\ w_take w' = 0 /\ w_ctyp w = w_ctyp w' /\ w_col w = w_col w' /\ w_tag w = w_tag w'.
  Lemma worker_filter fail es : forall w w', wsim w w' ->
    let a := worker_loop styles nv0 0 false cols0 es fail w in
    let b := worker_loop styles nv 0 false cols es fail w' in
    snd b = snd a /\ calls_of (fst b) = calls_of (fst a) /\
    map no_row (Cell.cells_of (fst b)) = filter xvisible (map no_row (Cell.cells_of (fst a))).
  Proof.
    induction es as [|[tag a|t|tag] es IH]; intros w w' S; cbn [worker_loop]; cbv zeta; [auto| | |].
    - unfold cell_sh. destruct S as (S1 & S2 & S3 & S4 & S5 & S6 & S7). rewrite <- S7.
      destruct (w_tag w) eqn:G.
      { apply IH. repeat split; cbn; auto. }
      replace (0 <=? w_row w) with true by lia. replace (0 <=? w_row w') with true by lia.
      destruct (_ && _); [|apply IH; repeat split; auto; congruence].
      destruct (attr_req a (s "r")); [|cbn; auto]. apply IH. repeat split; cbn; auto.
    - unfold cell_th. destruct S as (S1 & S2 & S3 & S4 & S5 & S6 & S7).
      replace (w_row w <? 0) with false by lia. replace (w_row w' <? 0) with false by lia. cbv zeta. rewrite <- S7, <- S6.
      assert (SW : wsim w w') by (repeat split; auto).
      assert (skip0 : forall w1 w1', wsim w1 w1' ->
        let a := let '(o', e) := worker_loop styles nv0 0 false cols0 es fail w1 in ([] ++ o', e) in
        let b := let '(o', e) := worker_loop styles nv 0 false cols es fail w1' in ([] ++ o', e) in
        snd b = snd a /\ calls_of (fst b) = calls_of (fst a) /\
        map no_row (Cell.cells_of (fst b)) = filter xvisible (map no_row (Cell.cells_of (fst a)))).
      { intros w1 w1' S'. specialize (IH w1 w1' S'). cbv zeta in *. destruct (worker_loop _ _ _ _ _ _ _ w1), (worker_loop _ _ _ _ _ _ _ w1'). exact IH. }
      destruct (_ && _); [|apply skip0, SW].
      destruct (p0 (utf8 (strip t))) eqn:P0; [rewrite (Hn _ P0); apply skip0, SW|].
      set (k := col_idx (utf8 (w_col w))). set (w1 := mkW (w_row w) false _ _ _ _ _). set (w1' := mkW (w_row w') false _ _ _ _ _).
      assert (S1' : wsim w1 w1') by (unfold w1, w1'; repeat split; cbn; auto; congruence).
      assert (S2' : wsim w1 w') by (unfold w1; repeat split; cbn; auto; congruence).
      destruct (mem_Z k cols0) eqn:M0; [rewrite (Hc _ M0); destruct (p _); apply skip0, SW|].
      assert (VC : xvisible (no_row (mkCell (w_crow w - 0) k (w_ctyp w) (VBytes (utf8 (strip t))))) = negb (p (utf8 (strip t))) && negb (mem_Z k cols)).
      { unfold RobustSpec.xvisible, no_row. cbn [c_col c_val]. apply andb_comm. }
      destruct (p (utf8 (strip t))) eqn:P1; [|destruct (mem_Z k cols) eqn:M1].
      + specialize (IH w1 w' S2'). cbv zeta in IH. destruct (worker_loop _ _ _ _ _ _ _ w1) as [o1 e1], (worker_loop _ _ _ _ _ _ _ w') as [o2 e2].
        cbn [app fst snd] in *. rewrite cells_cons_cell. cbn [map filter]. rewrite VC. exact IH.
      + specialize (IH w1 w' S2'). cbv zeta in IH. destruct (worker_loop _ _ _ _ _ _ _ w1) as [o1 e1], (worker_loop _ _ _ _ _ _ _ w') as [o2 e2].
        cbn [app fst snd] in *. rewrite cells_cons_cell. cbn [map filter]. rewrite VC. exact IH.
      + specialize (IH w1 w1' S1'). cbv zeta in IH. destruct (worker_loop _ _ _ _ _ _ _ w1) as [o1 e1], (worker_loop _ _ _ _ _ _ _ w1') as [o2 e2].
        cbn [app fst snd] in *. rewrite !cells_cons_cell. cbn [map filter]. rewrite VC. cbn [negb andb].
        destruct IH as (I1 & I2 & I3). repeat split; [exact I1|exact I2|]. rewrite I3. unfold no_row. cbn [c_col c_xdt c_val]. now rewrite S5.
    - unfold cell_eh. destruct S as (S1 & S2 & S3 & S4 & S5 & S6 & S7). rewrite !andb_false_r, !orb_false_r, S3, S4.
      assert (glue : forall o w1 w1', Cell.cells_of o = [] -> wsim w1 w1' ->
        let a := let '(o', e) := worker_loop styles nv0 0 false cols0 es fail w1 in (o ++ o', e) in
        let b := let '(o', e) := worker_loop styles nv 0 false cols es fail w1' in (o ++ o', e) in
        snd b = snd a /\ calls_of (fst b) = calls_of (fst a) /\
        map no_row (Cell.cells_of (fst b)) = filter xvisible (map no_row (Cell.cells_of (fst a)))).
      { intros o w1 w1' O S'. specialize (IH w1 w1' S'). cbv zeta in *. destruct (worker_loop _ _ _ _ _ _ _ w1), (worker_loop _ _ _ _ _ _ _ w1').
        cbn [fst snd] in *. rewrite !cells_app, O. destruct IH as (I1 & I2 & I3). repeat split; [exact I1| |exact I3].
        unfold calls_of in *. rewrite !filter_app, !zlen_app. lia. }
      destruct (str_eqb tag (s "row")).
      + apply glue; [reflexivity|]. repeat split; cbn; auto; destruct (negb _); lia.
      + destruct (str_eqb tag (s "c")); apply glue; try reflexivity; repeat split; cbn; auto.
  Qed.
End XlsxFilter.

(** ** Failures *)
Lemma units_le_err b : forall e, units_le b = Err e -> e = UnicodeError.
Proof.
  induction b as [| |x y r IH] using pair_ind; intros e H; cbn in H; [discriminate|congruence|].
  destruct (units_le r); cbn in H; [discriminate|]. injection H as <-. now apply IH.
Qed.
Lemma units_be_err b : forall e, units_be b = Err e -> e = UnicodeError.
Proof.
  induction b as [| |x y r IH] using pair_ind; intros e H; cbn in H; [discriminate|congruence|].
  destruct (units_be r); cbn in H; [discriminate|]. injection H as <-. now apply IH.
Qed.
Lemma decode_units_err us : forall e, decode_units us = Err e -> e = UnicodeError.
Proof.
  assert (G : forall n us e, (List.length us <= n)%nat -> decode_units us = Err e -> e = UnicodeError).
  { clear us. induction n as [|n IH]; intros [|u us] e L H; cbn in L; try discriminate; try lia.
    cbn [decode_units] in H. destruct (is_high u).
    - destruct us as [|v us]; [congruence|]. destruct (is_low v); [|congruence].
      destruct (decode_units us) eqn:E; cbn in H; [discriminate|]. injection H as <-. apply (IH us); [cbn in L; lia|exact E].
    - destruct (is_low u); [congruence|]. destruct (decode_units us) eqn:E; cbn in H; [discriminate|]. injection H as <-. apply (IH us); [lia|exact E]. }
  intros e. apply (G (List.length us)). lia.
Qed.
Lemma decode16_err b e : decode16 b = Err e -> e = UnicodeError.
Proof.
  assert (L : forall r, (us <- units_le r ;; decode_units us) = Err e -> e = UnicodeError).
  { intros r H. destruct (units_le r) eqn:E; cbn in H; [eapply decode_units_err, H|]. injection H as <-. eapply units_le_err, E. }
  assert (B : forall r, (us <- units_be r ;; decode_units us) = Err e -> e = UnicodeError).
  { intros r H. destruct (units_be r) eqn:E; cbn in H; [eapply decode_units_err, H|]. injection H as <-. eapply units_be_err, E. }
  unfold decode16. intro H.
  repeat match type of H with context [match ?x with _ => _ end] => destruct x end; eauto.
Qed.
Lemma unpack_sub4 b : 4 <= zlen b -> exists k, unpack_I (sub b 0 4) = Ok k.
Proof.
  intro L. rewrite sub_spec by lia. unfold zlen in L. change (Z.to_nat 0) with 0%nat. cbn [skipn].
  destruct b as [|b0 [|b1 [|b2 [|b3 r]]]]; cbn [List.length] in L; try lia. eexists. reflexivity.
Qed.
Lemma unpack_err b e : unpack_I b = Err e -> e = StructError.
Proof. unfold unpack_I. intro H. repeat match type of H with context [match ?x with _ => _ end] => destruct x end; congruence. Qed.

Section XlsbErrors.
  Context (styles : res (list bytes)) (nv : str -> bool) (ns : nat -> bytes -> bool) (skip t : Z) (tne : bool) (cols : list Z).
  Lemma xlsb_cell_err n row r e : xlsb_cell styles nv ns skip cols n row r = Err e ->
    styles = Err e \/ (e = StructError \/ e = UnicodeError) /\ ~ good_cell r.
  Proof.
    unfold xlsb_cell. cbv zeta. destruct (unpack_I (sub (rec_data r) 0 4)) as [col|x] eqn:U; cbn [bind].
    2: { intros [= <-]. right. split; [left; now apply unpack_err in U|]. intros (G & _). destruct (unpack_sub4 _ G) as (k & K). congruence. }
    destruct (mem_Z col cols); [discriminate|]. destruct styles as [st|x]; cbn [bind]; [|intros [= <-]; now left].
    destruct (_ || _) eqn:I.
    2: { intro H. exfalso. repeat match type of H with context [if ?x then _ else _] => destruct x end; discriminate. }
    assert (T : rec_id r = 6 \/ rec_id r = 8) by lia.
    intro H. right. split.
    - destruct (unpack_I (sub (rec_data r) 8 12)) as [k|x] eqn:K; cbn [bind] in H; [|injection H as <-; left; now apply unpack_err in K].
      destruct (decode16 _) as [x|x] eqn:D; cbn [bind] in H; [destruct (nv x); discriminate|]. injection H as <-. right. exact (decode16_err _ _ D).
    - intros (_ & G). destruct (G T) as (h & x & rest & L & W & Q). rewrite Q in H.
      destruct (wide_ok_inv W) as (W1 & W2 & W3).
      unfold wide_string in H. rewrite <- app_assoc in H. 
      replace (sub (h ++ le4 (n_units x) ++ utf16le x ++ rest) 8 12) with (le4 (n_units x)) in H
        by (symmetry; apply sub_app_mid; rewrite ?zlen_le4; lia).
      rewrite unpack_le4 in H by lia. cbn [bind] in H.
      fold (sub (h ++ le4 (n_units x) ++ utf16le x ++ rest) 12 (n_units x * 2 + 12)) in H.
      rewrite app_assoc in H.
      replace (sub ((h ++ le4 (n_units x)) ++ utf16le x ++ rest) 12 (n_units x * 2 + 12)) with (utf16le x) in H
        by (symmetry; apply sub_app_mid; rewrite ?zlen_app, ?zlen_le4, ?utf16le_length; lia).
      rewrite decode16_utf16le in H by assumption. cbn [bind] in H. destruct (nv x); discriminate.
  Qed.
  Lemma xlsb_loop_err rs : forall row e n x, snd (xlsb_loop styles nv ns skip t tne cols rs row e n) = Some x ->
    styles = Err x \/ (x = StructError \/ x = UnicodeError) /\ exists r, In r rs /\ rec_id r <> 0 /\ rec_id r <> 402 /\ ~ good_cell r.
  Proof.
    induction rs as [|r rs IH]; intros row e n x H; cbn [xlsb_loop] in H; [discriminate|].
    assert (IH' : forall row e n, snd (xlsb_loop styles nv ns skip t tne cols rs row e n) = Some x ->
      styles = Err x \/ (x = StructError \/ x = UnicodeError) /\ exists r0, In r0 (r :: rs) /\ rec_id r0 <> 0 /\ rec_id r0 <> 402 /\ ~ good_cell r0).
    { intros row0 e0 n0 H0. destruct (IH _ _ _ _ H0) as [?|(E & r0 & I & G)]; [now left|]. right. split; [exact E|]. exists r0. split; [now right|exact G]. }
    destruct (rec_id r =? 0) eqn:Z0.
    - cbv zeta in H. destruct (_ && _); [discriminate|].
      destruct (xlsb_loop _ _ _ _ _ _ _ rs _ true n) as [o y] eqn:E. cbn [snd] in H. eapply IH'. rewrite E. exact H.
    - destruct (row <? skip); [eapply IH', H|]. destruct (rec_id r =? 402) eqn:Z4; [discriminate|].
      destruct (xlsb_cell _ _ _ _ _ _ _ _) as [[c|]|y] eqn:C.
      + destruct (xlsb_loop _ _ _ _ _ _ _ rs row false (S n)) as [o y] eqn:E. cbn [snd] in H. eapply IH'. rewrite E. exact H.
      + eapply IH', H.
      + cbn [snd] in H. injection H as ->. destruct (xlsb_cell_err _ _ _ _ C) as [?|(E & G)]; [now left|].
        right. split; [exact E|]. exists r. split; [now left|]. repeat split; [lia|lia|exact G].
  Qed.
End XlsbErrors.

Section XlsxErrors.
  Context (styles : str -> option Z) (nv : str -> bool) (skip : Z) (tne : bool) (cols : list Z).
  Lemma worker_err fail es : forall w x, snd (worker_loop styles nv skip tne cols es fail w) = Some x ->
    fail = Some x \/ x = KeyError /\ exists a, In (EStart (s "c") a) es /\ attr a (s "r") = None.
  Proof.
    induction es as [|ev es IH]; intros w x H; cbn [worker_loop] in H; [now left|].
    assert (IH' : forall w, snd (worker_loop styles nv skip tne cols es fail w) = Some x ->
      fail = Some x \/ x = KeyError /\ exists a, In (EStart (s "c") a) (ev :: es) /\ attr a (s "r") = None).
    { intros w0 H0. destruct (IH _ _ H0) as [?|(E & a & I & G)]; [now left|]. right. split; [exact E|]. exists a. split; [now right|exact G]. }
    destruct ev as [tag a|y|tag].
    - destruct (cell_sh styles skip w tag a) as [w'|z] eqn:E; [eapply IH', H|]. cbn [snd] in H. injection H as ->.
      unfold cell_sh in E. destruct (w_tag w); [discriminate|]. destruct (str_eqb tag (s "c")) eqn:T; cbn [andb] in E; [|discriminate].
      destruct (_ <=? _); [|discriminate]. apply str_eqb_eq in T as ->. unfold attr_req in E. destruct (attr a (s "r")) eqn:R; [discriminate|].
      injection E as <-. right. split; [reflexivity|]. exists a. split; [now left|exact R].
    - destruct (cell_th nv skip cols w y) as [w' o]. destruct (worker_loop _ _ _ _ _ es fail w') as [o' z] eqn:E.
      cbn [snd] in H. eapply IH'. rewrite E. exact H.
    - destruct (cell_eh tne w tag) as [[w' o] st]. destruct st; [discriminate|].
      destruct (worker_loop _ _ _ _ _ es fail w') as [o' z] eqn:E. cbn [snd] in H. eapply IH'. rewrite E. exact H.
  Qed.
End XlsxErrors.
