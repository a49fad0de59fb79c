(** Claim C85: undefined behaviour has one source. *)
From Verif Require Import Py PyFacts PyText Biff BiffSpec BiffRecs Utf16 Utf16Spec NumFmt NumFmtSpec Cell Xlsb Xlsx XlsbSpec XlsbParts PropsXlsb
  XlsxSpec XlsxParts PropsXlsx Sheets SheetsSpec Casts Chunk ChunkSpec Utf8 Series SeriesSpec
  Reader ReaderSpec PropsReader Workbook WorkbookSpec PropsWorkbook PropsFile SafeProofs SafeBook.
From Coq Require Import ZifyBool ZifyNat.
Set Implicit Arguments. Unset Strict Implicit.

(** ** C85: no read outside the shared string table unless an index points there *)
(** A cell refers to an entry of a shared string table of [n] entries, if it is a shared string
    at all: its text (.xlsx) as Python's [int] reads it, its four bytes (.xlsb) are a number in
    [0 .. n).  Cells whose text or bytes are no number refer to nothing. *)
Definition refers_inside (binary : bool) (n : Z) (c : cell) : Prop :=
  c_xdt c = Z.lor TYPE_STRING REPR_SHARED ->
  match c_val c with
  | VBytes [b0; b1; b2; b3] => binary = true -> 0 <= b0 + 256 * (b1 + 256 * (b2 + 256 * b3)) < n
  | _ => True
  end /\
  (binary = false -> forall b i, c_val c = VBytes b -> py_int b = Ok i -> 0 <= i < Z.min n (2 ^ 32)).

(** The table the cells refer to. *)
Definition table_size (expat : bytes -> list event * option exn) (z : archive) (w : wopts) : Z :=
  if has_member z (s "xl/workbook.xml")
  then match xbook_shared expat z (xlsx_null (wo_nulls w)) with Ok l => zlen l | Err _ => 0 end
  else match bbook_shared z (xlsb_null (wo_nulls w)) with Ok p => zlen (fst p) | Err _ => 0 end.
Definition delivered (expat : bytes -> list event * option exn) (z : archive) (w : wopts) : list cell :=
  Cell.cells_of (fst (if has_member z (s "xl/workbook.xml") then xbook_iter expat z w else bbook_iter expat z w)).

(** The two flags together occur with no other type. *)
Definition known_type (c : cell) : Prop :=
  flag (c_xdt c) TYPE_STRING = true -> flag (c_xdt c) REPR_SHARED = true -> c_xdt c = Z.lor TYPE_STRING REPR_SHARED.
Lemma style_known st k t : style_get st k = Some t -> flag t TYPE_STRING = false.
Proof. unfold style_get. destruct (mem_str _ _); [now intros [= <-]|]. destruct (mem_str _ _); [now intros [= <-]|discriminate]. Qed.
Lemma worker_known st nv skip tne cols fail es : forall w, (flag (w_ctyp w) TYPE_STRING = true -> flag (w_ctyp w) REPR_SHARED = true -> w_ctyp w = Z.lor TYPE_STRING REPR_SHARED) ->
  forall c, In c (Cell.cells_of (fst (worker_loop (style_get st) nv skip tne cols es fail w))) -> known_type c.
Proof.
  induction es as [|[tag a|t|tag] r IH]; intros w H c; cbn [worker_loop]; [easy| | |].
  - destruct (cell_sh _ _ w tag a) as [w'|e] eqn:E; [|easy]. apply IH. revert E. unfold cell_sh. destruct (w_tag w); [intros [= <-]; exact H|].
    destruct (_ && _); [|intros [= <-]; exact H]. destruct (attr_req a (s "r")) as [v|]; cbn [bind]; [|discriminate]. intros [= <-]. cbn [w_ctyp].
    destruct (match attr a (s "t") with Some t => _ | None => _ end); [easy|].
    match goal with |- context [style_get st ?k] => destruct (style_get st k) as [ty|] eqn:E end; [|easy]. apply style_known in E. congruence.
  - destruct (cell_th nv skip cols w t) as [w' o] eqn:E. specialize (IH w'). destruct (worker_loop _ _ _ _ _ r fail w') as [o' e]. cbn [fst] in *.
    assert (P : w_ctyp w' = w_ctyp w /\ forall x, In (OCell x) o -> c_xdt x = w_ctyp w).
    { revert E. unfold cell_th. destruct (_ <? _); [now intros [= <- <-]|]. cbv zeta. destruct (_ && _); [|now intros [= <- <-]]. destruct (nv _); [now intros [= <- <-]|].
      destruct (mem_Z _ _); [now intros [= <- <-]|]. intros [= <- <-]. split; [reflexivity|]. intros x [[= <-]|[]]. reflexivity. }
    destruct P as [P1 P2]. rewrite P1 in IH. unfold Cell.cells_of. rewrite flat_map_app. intro I. apply in_app_or in I. destruct I as [I|I]; [|now apply IH].
    apply in_flat_map in I. destruct I as ([x|] & Ix & Ic); [|easy]. destruct Ic as [->|[]]. unfold known_type. rewrite (P2 c Ix). exact H.
  - destruct (cell_eh tne w tag) as [[w' o] stop] eqn:E.
    assert (P : (w_ctyp w' = w_ctyp w \/ w_ctyp w' = 0) /\ forall x, ~ In (OCell x) o).
    { revert E. unfold cell_eh. destruct (str_eqb _ _); [cbv zeta; intros [= <- <- <-]; split; [now left|intros x [E|[]]; discriminate]|].
      destruct (str_eqb _ _); intros [= <- <- <-]; (split; [first [left; reflexivity|right; reflexivity]|intros x []]). }
    destruct P as [P1 P2]. assert (N : forall c, In c (Cell.cells_of o) -> False).
    { intros x I. apply in_flat_map in I. destruct I as ([y|] & Iy & Ic); [now apply P2 in Iy|easy]. }
    destruct stop; [intro I; now apply N in I|]. specialize (IH w'). destruct (worker_loop _ _ _ _ _ r fail w') as [o' e]. cbn [fst] in *.
    unfold Cell.cells_of. rewrite flat_map_app. intro I. apply in_app_or in I. destruct I as [I|I]; [now apply N in I|]. apply IH; [|exact I].
    destruct P1 as [-> | ->]; [exact H|discriminate].
Qed.
Lemma bin_known st nv ns skip cols n row r c : xlsb_cell st nv ns skip cols n row r = Ok (Some c) -> known_type c.
Proof.
  unfold xlsb_cell. cbv zeta. destruct (unpack_I (sub (rec_data r) 0 4)) as [col|]; cbn [bind]; [|discriminate]. destruct (mem_Z _ _); [discriminate|].
  destruct st as [st|]; cbn [bind]; [|discriminate].
  destruct (_ || _).
  { destruct (unpack_I _) as [m|]; cbn [bind]; [|discriminate]. destruct (decode16 _) as [t|]; cbn [bind]; [|discriminate]. destruct (nv t); [discriminate|]. intros [= <-] F1 F2; discriminate. }
  destruct (_ || _); [destruct (mem_str _ _); intros [= <-] F1 F2; discriminate|].
  destruct (_ || _); [intros [= <-] F1 F2; discriminate|].
  destruct (_ =? _); [|destruct (mem_str _ _); intros [= <-] F1 F2; discriminate].
  destruct (ns _ _); [discriminate|]. now intros [= <-] F1 F2.
Qed.
Lemma bin_loop_known st nv ns skip take tne cols rs : forall row empty n c,
  In c (Cell.cells_of (fst (xlsb_loop st nv ns skip take tne cols rs row empty n))) -> known_type c.
Proof.
  induction rs as [|r rs IH]; intros row empty n c; cbn [xlsb_loop]; [easy|].
  destruct (rec_id r =? 0).
  - cbv zeta. destruct (_ && _); [easy|]. match goal with |- context [xlsb_loop st nv ns skip take tne cols rs ?a ?b ?c] => specialize (IH a b c); destruct (xlsb_loop st nv ns skip take tne cols rs a b c) as [o e] end.
    cbn [fst] in *. destruct (_ <=? _); apply IH.
  - destruct (_ <? _); [apply IH|]. destruct (_ =? _); [easy|].
    destruct (xlsb_cell st nv ns skip cols n row r) as [[x|]|e] eqn:E; [|apply IH|easy].
    match goal with |- context [xlsb_loop st nv ns skip take tne cols rs ?a ?b ?c] => specialize (IH a b c); destruct (xlsb_loop st nv ns skip take tne cols rs a b c) as [o e] end.
    cbn [fst] in *. intros [<-|I]; [now apply bin_known in E|now apply IH].
Qed.

Theorem C85_safe expat ro z w op :
  (forall b, snd (expat b) <> Some Undefined) ->
  (forall c, In c (delivered expat z w) -> refers_inside (negb (has_member z (s "xl/workbook.xml"))) (table_size expat z w) c) ->
  read_book expat ro z w op <> Err Undefined.
Proof.
  intros X R. unfold read_book. unfold delivered, table_size in R. destruct (has_member z (s "xl/workbook.xml")) eqn:M; cbn [negb] in R.
  - pose proof (@xbook_iter_def expat X z w) as D. unfold read_cells.
    assert (K : forall c, In c (Cell.cells_of (fst (xbook_iter expat z w))) -> known_type c).
    { unfold xbook_iter. cbv zeta. destruct (bind (xbook_sheets expat z) _) as [[b st]|e]; [|easy]. destruct (expat b) as [es e]. cbn [fst]. unfold xlsx_iter.
      destruct (_ <? _); [easy|]. destruct (_ <? _); [easy|]. unfold worker. intro c.
      pose proof (@worker_known st (xlsx_null (wo_nulls w)) (wo_skip w) (wo_tne w) (wo_cols w) e es (mkW 0 true (wo_take w + wo_skip w) 0 0 [] None) ltac:(discriminate) c) as L.
      destruct (worker_loop _ _ _ _ _ es e _) as [o e']. exact L. }
    destruct (xbook_iter expat z w) as [outs e]. cbn [fst snd] in *. destruct (Cell.cells_of outs) as [|c0 cs] eqn:Ec.
    { apply read_trace_safe; [exact D|]. rewrite Ec. easy. }
    rewrite <- Ec in *. apply defined_bind; [now apply xbook_shared_def|]. intros l El. rewrite El in R. apply read_trace_safe; [exact D|].
    intros c I F1 F2 b Eb. cbn [sc_binary sc_shared]. intros i Pi. destruct (R c I (K c I F1 F2)) as [_ R2]. specialize (R2 eq_refl b i Eb Pi). lia.
  - destruct (has_member z (s "xl/workbook.bin")); [|discriminate].
    destruct (@bbook_iter_safe expat X z w) as [D Sh]. unfold read_cells.
    assert (K : forall c, In c (Cell.cells_of (fst (bbook_iter expat z w))) -> known_type c).
    { unfold bbook_iter. cbv zeta. destruct (bind (bbook_sheets expat z) _) as [b|e]; [|easy]. unfold xlsb_iter. destruct (_ <? _); [easy|]. destruct (_ <? _); [easy|]. apply bin_loop_known. }
    destruct (bbook_iter expat z w) as [outs e]. cbn [fst snd] in *. destruct (Cell.cells_of outs) as [|c0 cs] eqn:Ec.
    { apply read_trace_safe; [exact D|]. rewrite Ec. easy. }
    rewrite <- Ec in *. apply defined_bind; [apply defined_bind; [apply bbook_shared_def|intros; apply defined_ok]|]. intros l El.
    destruct (bbook_shared z (xlsb_null (wo_nulls w))) as [p|]; cbn [bind] in El; [|discriminate]. injection El as <-. apply read_trace_safe; [exact D|].
    intros c I F1 F2 b Eb. cbn [sc_binary sc_shared]. split; [now apply (Sh c I F1 F2)|]. intros i Ei. destruct (R c I (K c I F1 F2)) as [R1 _]. rewrite Eb in R1.
    destruct b as [|b0 [|b1 [|b2 [|b3 [|b4 b]]]]]; try discriminate. assert (i = b0 + 2 ^ 8 * b1 + 2 ^ 16 * b2 + 2 ^ 24 * b3) as -> by (unfold unpack_I in Ei; congruence). specialize (R1 eq_refl).
    unfold in_table. unfold zlen in *. rewrite map_length. lia.
Qed.
Print Assumptions C85_safe.

(** The condition is needed: an index past the end of the table is undefined behaviour, in both
    formats, for a file that is otherwise in order. *)
Definition exb_past : list brow := [row_of 0 [bc 0 (BShared 0)]; row_of 1 [bc 0 (BShared 2)]].
Definition exx_past : list xrow := [map PC [xc 0 (s "1") (Some (s "s")) None (s "0")]; map PC [xc 0 (s "2") (Some (s "s")) None (s "2")]].
Lemma shown_error r e : show_table r = Err e -> r = Err e.
Proof. destruct r; cbn; congruence. Qed.
Theorem C85_past_the_end :
  table_size exb_expat (exb_files exb_past exb_sl) (ex_w true) = 2 /\ table_size (exx_expat exx_past) exx_files (ex_w true) = 2 /\
  read_book exb_expat ex_ro (exb_files exb_past exb_sl) (ex_w true) opts1 = Err Undefined /\
  read_book (exx_expat exx_past) ex_ro exx_files (ex_w true) opts1 = Err Undefined.
Proof. split; [vm_compute; reflexivity|]. split; [vm_compute; reflexivity|]. split; apply shown_error; vm_compute; reflexivity. Qed.
Print Assumptions C85_past_the_end.
(** Files that meet the condition and do use the table. *)
Ltac evaluated I := match type of I with In _ ?x => let l := eval vm_compute in x in let E := fresh in
  assert (E : x = l) by (vm_compute; reflexivity); rewrite E in I; clear E; cbn [In] in I end.
Example C85_example :
  (forall b, snd (exb_expat b) <> Some Undefined) /\
  (forall c, In c (delivered exb_expat (exb_files exb_rows exb_sl) (ex_w true)) -> refers_inside true 2 c) /\
  existsb (fun c => c_xdt c =? 0x11) (delivered exb_expat (exb_files exb_rows exb_sl) (ex_w true)) = true /\
  (forall c, In c (delivered (exx_expat exx_rows) exx_files (ex_w true)) -> refers_inside false 2 c) /\
  existsb (fun c => c_xdt c =? 0x11) (delivered (exx_expat exx_rows) exx_files (ex_w true)) = true.
Proof.
  split; [|split; [|split; [|split]]].
  - intro b. unfold exb_expat, ex_expat. destruct b as [|k [|]]; [discriminate| |discriminate]. destruct (find _ _); discriminate.
  - intros c I. evaluated I. repeat (destruct I as [<-|I]; [intros E; first [discriminate E|split; [cbn; lia|discriminate]]|]). destruct I.
  - vm_compute. reflexivity.
  - intros c I. evaluated I. repeat (destruct I as [<-|I]; [intros E; first [discriminate E|split; [exact Logic.I|intros _ b i [= <-]; vm_compute; intros [= <-]; split; [discriminate|reflexivity]]]|]). destruct I.
  - vm_compute. reflexivity.
Qed.
