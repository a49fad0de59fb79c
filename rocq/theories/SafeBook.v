(** The readers raise no [Undefined] of their own, and deliver short shared indices. *)
From Verif Require Import Py PyFacts PyText Biff BiffRecs Utf16 NumFmt Cell Xlsb Xlsx Sheets Casts Chunk ChunkSpec Series Reader
  Workbook SafeProofs.
From Coq Require Import ZifyBool ZifyNat.
Set Implicit Arguments. Unset Strict Implicit.

Lemma zopen_def z n : defined (zopen z n).
Proof. unfold zopen. destruct (dget _ _ _); [apply defined_ok|now apply defined_err]. Qed.
Lemma attr_req_def a k : defined (attr_req a k).
Proof. unfold attr_req. destruct (attr a k); [apply defined_ok|now apply defined_err]. Qed.
Ltac step := first [apply defined_ok | now apply defined_err | apply attr_req_def | apply zopen_def | apply py_int_err].
Lemma scan_rels_def es : defined (scan_rels es).
Proof.
  induction es as [|[tag a|t|tag] r IH]; cbn [scan_rels]; try step; try exact IH. destruct (str_eqb _ _); [|exact IH].
  do 3 (apply defined_bind; [step|intros ? _]). apply defined_bind; [exact IH|intros; step].
Qed.
Lemma xlsx_names_def es : forall d, defined (xlsx_names es d).
Proof.
  induction es as [|[tag a|t|tag] r IH]; intro d; cbn [xlsx_names]; try step; try apply IH. destruct (str_eqb _ _); [|apply IH].
  do 2 (apply defined_bind; [step|intros ? _]). apply IH.
Qed.
Lemma xlsx_join_def files names : forall d, defined (xlsx_join files names d).
Proof. induction names as [|[i n] r IH]; intro d; cbn [xlsx_join]; [step|]. destruct (dget _ _ _); [apply IH|step]. Qed.
Lemma scan_styles_def es : forall xfs fms, defined (xlsx_scan_styles es xfs fms).
Proof.
  induction es as [|[tag a|t|tag] r IH]; intros xfs fms; cbn [xlsx_scan_styles]; try step; try apply IH.
  destruct (str_eqb _ _); [do 2 (apply defined_bind; [step|intros ? _]); apply IH|].
  destruct (_ && _); [|apply IH]. apply defined_bind; [step|intros ? _]. apply IH.
Qed.
Lemma builtin_keys_def ids xfs : defined (builtin_keys ids xfs).
Proof.
  induction xfs as [|[x y] r IH]; cbn [builtin_keys]; [step|]. apply defined_bind; [step|intros ? _]. apply defined_bind; [exact IH|intros; step].
Qed.
Lemma styles_of_def xl fms : defined (xlsx_styles_of xl fms).
Proof. unfold xlsx_styles_of. do 2 (apply defined_bind; [apply builtin_keys_def|intros ? _]). step. Qed.
Lemma select_sheet_def d a : defined (select_sheet d a).
Proof.
  destruct a as [i|n]; cbn [select_sheet]; [|destruct (dget _ _ _); step]. destruct (_ && _); [|step]. destruct (nth_error _ _) as [[? ?]|]; step.
Qed.
Lemma unpack_I_def b : defined (unpack_I b).
Proof. destruct b as [|x0 [|x1 [|x2 [|x3 [|x4 b]]]]]; cbn; step. Qed.
Lemma units_le_def n : forall b, (List.length b < n)%nat -> defined (units_le b) /\ defined (units_be b).
Proof.
  induction n as [|n IH]; intros b H; [lia|]. destruct b as [|x [|y r]]; [split; cbn; step|split; cbn; step|]. cbn [List.length] in H.
  destruct (IH r ltac:(lia)) as [A B]. cbn [units_le units_be]. split; (apply defined_bind; [assumption|intros; step]).
Qed.
Lemma decode_units_def n : forall us, (List.length us < n)%nat -> defined (decode_units us).
Proof.
  induction n as [|n IH]; intros us H; [lia|]. destruct us as [|u r]; [cbn; step|]. cbn [List.length] in H. cbn [decode_units].
  destruct (is_high u); [destruct r as [|v r]; [step|]; destruct (is_low v); [|step]; cbn [List.length] in H|destruct (is_low u); [step|]].
  - apply defined_bind; [apply IH; lia|intros; step].
  - apply defined_bind; [apply IH; lia|intros; step].
Qed.
Lemma decode16_def b : defined (decode16 b).
Proof.
  assert (A : forall us, defined (decode_units us)) by (intro us; apply (@decode_units_def (S (List.length us))); lia).
  assert (L : forall b, defined (units_le b)) by (intro x; apply (@units_le_def (S (List.length x))); lia).
  assert (B : forall b, defined (units_be b)) by (intro x; apply (@units_le_def (S (List.length x))); lia).
  unfold decode16.
  repeat match goal with |- defined (match ?x with _ => _ end) => destruct x end.
  all: apply defined_bind; [apply L || apply B|intros; apply A].
Qed.
Lemma bundle_def r : defined (bundle_loadr r).
Proof.
  assert (X : forall b, defined (xstr_load b)).
  { intro b. unfold xstr_load. destruct (read_n 4 b) as [h b1]. apply defined_bind; [apply unpack_I_def|]. intros sz _. destruct (sz =? _); [step|].
    destruct (read_n (sz * 2) b1) as [d b2]. apply defined_bind; [apply decode16_def|intros; step]. }
  unfold bundle_loadr. cbv zeta. apply defined_bind.
  - generalize (py_slice (rec_data r) None (Some 8)). intro b. unfold unpack_II.
    destruct b as [|x0 [|x1 [|x2 [|x3 [|x4 [|x5 [|x6 [|x7 [|x8 b]]]]]]]]]; try step.
  - intros [st tab] _. apply defined_bind; [apply X|]. intros [rel io] _. apply defined_bind; [apply X|]. intros [name io'] _. step.
Qed.
Lemma xlsb_sheets_from_def rels rs : forall d, defined (xlsb_sheets_from rels rs d).
Proof. induction rs as [|r rs IH]; intro d; cbn [xlsb_sheets_from]; [step|]. apply defined_bind; [apply bundle_def|]. intros b _. destruct (find _ _); [apply IH|step]. Qed.
Lemma pack_def i : defined (pack_I i) /\ defined (pack_H i).
Proof. unfold pack_I, pack_H. split; destruct (_ && _); step. Qed.
Lemma xlsb_shared_def nv rs : forall i, defined (xlsb_shared_from nv i rs).
Proof.
  induction rs as [|r rs IH]; intro i; cbn [xlsb_shared_from]; [step|]. apply defined_bind.
  - unfold sst_text. apply defined_bind; [apply unpack_I_def|intros; apply decode16_def].
  - intros y _. apply defined_bind; [destruct (nv y); [apply defined_bind; [apply pack_def|intros; step]|step]|].
    intros k _. apply defined_bind; [apply IH|]. intros [t n] _. step.
Qed.
Lemma xlsb_styles_def b : defined (xlsb_styles b).
Proof.
  unfold xlsb_styles. apply defined_bind.
  - unfold xlsb_xfs. generalize 0. induction (xlsb_xf_fmts _) as [|f r IH]; intro i; cbn [xlsb_xfs_from]; [step|]. apply defined_bind; [apply pack_def|]. intros k _. apply defined_bind; [apply IH|intros; step].
  - intros xfs _. apply defined_bind.
    + generalize (@nil (bytes * str)). induction (scan_part [44] b) as [|r rs IH]; intro d; cbn [xlsb_fms_from]; [step|]. apply defined_bind; [apply decode16_def|]. intros t _. apply IH.
    + intros fms _. apply defined_bind; [|intros; step]. induction xfs as [|[k y] r IH]; cbn [xlsb_builtin_keys]; [step|]. destruct y; [step|]. apply defined_bind; [exact IH|intros; step].
Qed.
Lemma xlsb_cell_def st nv ns skip cols n row r : defined st -> defined (xlsb_cell st nv ns skip cols n row r).
Proof.
  intro S. unfold xlsb_cell. cbv zeta. apply defined_bind; [apply unpack_I_def|]. intros col _. destruct (mem_Z _ _); [step|]. apply defined_bind; [exact S|]. intros s1 _.
  destruct (_ || _); [apply defined_bind; [apply unpack_I_def|]; intros m _; apply defined_bind; [apply decode16_def|]; intros t _; destruct (nv t); step|].
  destruct (_ || _); [step|]. destruct (_ || _); [step|]. destruct (_ =? _); [|step]. destruct (ns _ _); step.
Qed.
Lemma sub_4 (d : bytes) : zlen (sub d 8 12) <= 4.
Proof.
  unfold sub, py_slice, slice_bounds, clamp. change (8 <? 0) with false. change (12 <? 0) with false. cbv iota beta.
  unfold zlen at 1. pose proof (firstn_le_length (Z.to_nat (Z.min (zlen d) 12 - Z.min (zlen d) 8)) (skipn (Z.to_nat (Z.min (zlen d) 8)) d)) as F. lia.
Qed.
Definition short (c : cell) : Prop := flag (c_xdt c) TYPE_STRING = true -> flag (c_xdt c) REPR_SHARED = true -> forall b, c_val c = VBytes b -> zlen b <= 4.
Lemma xlsb_cell_short st nv ns skip cols n row r c : xlsb_cell st nv ns skip cols n row r = Ok (Some c) -> short c.
Proof.
  unfold xlsb_cell. cbv zeta. destruct (unpack_I (sub (rec_data r) 0 4)) as [col|]; cbn [bind]; [|discriminate]. destruct (mem_Z _ _); [discriminate|].
  destruct st as [st|]; cbn [bind]; [|discriminate].
  destruct (_ || _).
  { destruct (unpack_I _) as [m|]; cbn [bind]; [|discriminate]. destruct (decode16 _) as [t|]; cbn [bind]; [|discriminate]. destruct (nv t); [discriminate|]. intros [= <-] F1 F2 b E. discriminate. }
  destruct (_ || _); [destruct (mem_str _ _); intros [= <-] F1 F2 b E; discriminate|].
  destruct (_ || _); [intros [= <-] F1 F2 b E; discriminate|].
  destruct (_ =? _); [|destruct (mem_str _ _); intros [= <-] F1 F2 b E; discriminate].
  destruct (ns _ _); [discriminate|]. intros [= <-] F1 F2 b [= <-]. apply sub_4.
Qed.
Lemma xlsb_loop_safe st nv ns skip take tne cols rs : defined st -> forall row empty n,
  let t := xlsb_loop st nv ns skip take tne cols rs row empty n in snd t <> Some Undefined /\ forall c, In c (Cell.cells_of (fst t)) -> short c.
Proof.
  intro S. cbv zeta. induction rs as [|r rs IH]; intros row empty n; cbn [xlsb_loop]; [now split|].
  destruct (rec_id r =? 0).
  - cbv zeta. destruct (_ && _); [now split|]. match goal with |- context [xlsb_loop st nv ns skip take tne cols rs ?a ?b ?c] => specialize (IH a b c); destruct (xlsb_loop st nv ns skip take tne cols rs a b c) as [o e] end.
    cbn [fst snd] in *. destruct (_ <=? _); exact IH.
  - destruct (_ <? _); [apply IH|]. destruct (_ =? _); [now split|]. pose proof (@xlsb_cell_def st nv ns skip cols n row r S) as D.
    destruct (xlsb_cell st nv ns skip cols n row r) as [[c|]|e] eqn:E.
    + match goal with |- context [xlsb_loop st nv ns skip take tne cols rs ?a ?b ?c] => specialize (IH a b c); destruct (xlsb_loop st nv ns skip take tne cols rs a b c) as [o e] end.
      cbn [fst snd] in *. destruct IH as [I1 I2]. split; [exact I1|]. intros x [<-|I]; [now apply xlsb_cell_short in E|now apply I2].
    + apply IH.
    + split; [cbn; intros [= ->]; now apply D|easy].
Qed.

Section Book.
  Context (expat : bytes -> list event * option exn).
  Lemma parse_def A (f : list event -> res A) b : (forall b, snd (expat b) <> Some Undefined) -> (forall es, defined (f es)) -> defined (parse expat f b).
  Proof.
    intros X F. unfold parse. specialize (X b). destruct (expat b) as [es e]. cbn [snd] in X. apply defined_bind; [apply F|]. intros a _. destruct e as [e|]; [apply defined_err; congruence|step].
  Qed.
  Context (X : forall b, snd (expat b) <> Some Undefined).
  Lemma xbook_sheets_def z : defined (xbook_sheets expat z).
  Proof.
    unfold xbook_sheets. apply defined_bind; [step|intros ? _]. apply defined_bind; [apply parse_def; [exact X|apply scan_rels_def]|intros ? _].
    apply defined_bind; [step|intros ? _]. apply defined_bind; [apply parse_def; [exact X|intro; apply xlsx_names_def]|intros ? _]. apply xlsx_join_def.
  Qed.
  Lemma xbook_shared_def z nv : defined (xbook_shared expat z nv).
  Proof. unfold xbook_shared. apply defined_bind; [step|intros ? _]. apply defined_bind; [apply parse_def; [exact X|intros; step]|intros; step]. Qed.
  Lemma xbook_styles_def z : defined (xbook_styles expat z).
  Proof.
    unfold xbook_styles. apply defined_bind; [step|intros ? _]. apply defined_bind; [apply parse_def; [exact X|intro; apply scan_styles_def]|]. intros [xl fms] _. apply styles_of_def.
  Qed.
  Lemma xbook_iter_def z w : snd (xbook_iter expat z w) <> Some Undefined.
  Proof.
    unfold xbook_iter. cbv zeta. match goal with |- context [match ?x with Err _ => _ | _ => _ end] => assert (D : defined x); [|destruct x as [[b st]|e]] end.
    - apply defined_bind; [apply xbook_sheets_def|intros ? _]. apply defined_bind; [apply select_sheet_def|intros ? _].
      destruct (_ <? _); [step|]. destruct (_ <? _); [step|]. apply defined_bind; [step|intros ? _]. apply defined_bind; [apply xbook_styles_def|intros; step].
    - destruct (expat b) as [es e]. easy.
    - cbn. intros [= ->]. now apply D.
  Qed.
  Lemma bbook_sheets_def z : defined (bbook_sheets expat z).
  Proof.
    unfold bbook_sheets. apply defined_bind; [step|intros ? _]. apply defined_bind; [apply parse_def; [exact X|apply scan_rels_def]|intros rels _].
    apply defined_bind; [step|intros b _]. pose proof (@xlsb_sheets_from_def rels (scan_part [412] b) []) as D. destruct (xlsb_sheets_from _ _ _) as [d|e]; [step|].
    destruct e; try step.
  Qed.
  Lemma bbook_shared_def z nv : defined (bbook_shared z nv).
  Proof. unfold bbook_shared. apply defined_bind; [step|intros ? _]. apply xlsb_shared_def. Qed.
  Lemma bbook_styles_def z : defined (bbook_styles z).
  Proof. unfold bbook_styles. apply defined_bind; [step|intros ? _]. apply xlsb_styles_def. Qed.
  Lemma bbook_iter_safe z w : snd (bbook_iter expat z w) <> Some Undefined /\ forall c, In c (Cell.cells_of (fst (bbook_iter expat z w))) -> short c.
  Proof.
    unfold bbook_iter. cbv zeta.
    match goal with |- context [match bind ?x ?y with Err _ => _ | _ => _ end] => assert (D : defined (bind x y)); [|destruct (bind x y) as [b|e]] end.
    - apply defined_bind; [apply bbook_sheets_def|intros ? _]. apply defined_bind; [apply select_sheet_def|intros ? _].
      destruct (_ <? _); [step|]. destruct (_ <? _); [step|]. step.
    - unfold xlsb_iter. destruct (_ <? _); [now split|]. destruct (_ <? _); [now split|]. apply xlsb_loop_safe. apply bbook_styles_def.
    - split; [|easy]. cbn. intros [= ->]. now apply D.
  Qed.
End Book.
