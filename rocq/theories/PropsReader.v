(** Claims C52-C57: columns, rows and names of the table made from the cells of a sheet. *)
From Coq Require Import Sorted.
From Verif Require Import Py PyFacts PyText Cell Casts Chunk ChunkSpec Utf8 Series SeriesSpec Reader ReaderSpec.
From Verif Require Import PropsChunk SeriesProofs PropsSeries ReaderProofs ReaderSteps ReaderRead ReaderMore.
From Verif Require Import ChunkConcat XlsxParts.
From Flocq Require Import IEEE754.Binary.
Set Implicit Arguments. Unset Strict Implicit.

(** ** Example sheets *)
Definition ex_contains (t x : str) : bool := str_eqb t x.
Definition ex_ro : roracle :=
  @mkRO ex_o2 aval (fun t => Some (ex_contains t)) (fun t => Some (ex_contains t)) (fun a d => negb (u_id d =? 99)) (fun _ v => Some v).
Definition show_col (c : tcol ex_ro) : (Z * option Z * list (option (str + Z))) :=
  match c with
  | Plain _ a => (type_id (a_type a), None, map (option_map show_aval) (a_vals a))
  | Cast d l => (u_id d, Some (u_par d), map (option_map show_aval) l)
  end.
Definition show_table (r : res (table ex_ro)) : res (list (str * (Z * option Z * list (option (str + Z))))) :=
  t <- r ;; Ok (map (fun p => (fst p, show_col (snd p))) t).
Definition words (r c : Z) (t : str) : out := OCell (mkCell r c 0x18 (VStr t)).
Definition rk (r c n : Z) : out := OCell (mkCell r c 0x21 (VBytes [4 * n + 2; 0; 0; 0])).
Definition opts0 : ropts := mkR (HInt 0) DTNone 0 None 30 FNone SOr.
Definition opts1 : ropts := mkR (HInt 1) DTNone 0 None 30 FNone SOr.
(** Columns 1 and 4; the cells of column 4 come first. *)
Definition ex_sheet : list out :=
  [words 0 4 (s "age"); words 0 1 (s "name"); words 1 1 (s "x"); rk 1 4 7; OCall; rk 2 4 8; rk 3 4 9; words 3 1 (s "z")].
Example ex_sheet_ok : sheet_ok ex_o2 ex_binary (Cell.cells_of ex_sheet) = true /\ listing (Cell.cells_of ex_sheet) [1; 4].
Proof.
  split; [vm_compute; reflexivity|]. split.
  - repeat constructor.
  - intro k. cbn. split.
    + intros [<-|[<-|[]]]; eexists; split; [now right; left|reflexivity|now left|reflexivity].
    + intros (c & [<-|[<-|[<-|[<-|[<-|[<-|[<-|[]]]]]]]] & <-); cbn; tauto.
Qed.

(** ** C52: one column per sheet column, in order, of one length *)
Theorem C52_shape ro sc op outs e tbl ks : listing (Cell.cells_of outs) ks -> read_trace ro sc op (outs, e) = Ok tbl ->
  List.length tbl = List.length ks /\ exists n, forall c, In c (map snd tbl) -> col_len c = n.
Proof. apply read_shape. Qed.
Print Assumptions C52_shape.

Lemma nth_error_combine A B (l : list A) (r : list B) i a b : nth_error l i = Some a -> nth_error r i = Some b -> nth_error (combine l r) i = Some (a, b).
Proof. revert r i. induction l as [|x l IH]; intros [|y r] [|i]; cbn; try discriminate; [congruence|apply IH]. Qed.
Lemma Forall2_nth_error A B (P : A -> B -> Prop) l r i a : Forall2 P l r -> nth_error l i = Some a -> exists b, nth_error r i = Some b /\ P a b.
Proof. intro F. revert i. induction F as [|x y l r H F IH]; intros [|i] E; try discriminate; cbn in *; [inversion E; subst; eauto|now apply IH]. Qed.

(** The whole table: names, rows and values, by the cells of the sheet and the options. *)
Theorem C52_content ro sc op outs ks tbl : sheet_ok (ro_o ro) sc (Cell.cells_of outs) = true -> listing (Cell.cells_of outs) ks -> sizes_ok op ->
  read_trace ro sc op (outs, None) = Ok tbl ->
  let l := Cell.cells_of outs in
  exists tall first height idx,
    tallest l ks tall /\ located ro sc op l first /\ titled ro sc op l ks first height (map fst tbl) /\
    let off := height + first + r_skip_after op in let len := tall - off in
    0 < len ->
    kept_rows ro sc op l (chosen_columns ro (r_filters op) (map fst tbl) ks) off len idx /\
    forall i k, nth_error ks i = Some k ->
      exists name c a, nth_error tbl i = Some (name, c) /\ holds (ro_o ro) sc l k off len idx a /\
        converted (type_wanted (r_dtypes op) i name) a c.
Proof.
  intros S Ls Sz R l. destruct (read_described S Ls Sz R) as (tall & first & h & names & idx & arrays & D).
  destruct D as [D1 D2 D3 D4 D5 D6 (cs & D7 & E & Lc)]. cbv zeta in D6.
  assert (En : map fst tbl = names).
  { rewrite E. assert (L : List.length names = List.length cs) by congruence. clear -L. revert cs L. induction names as [|n names IH]; intros [|c cs] L; try discriminate; [reflexivity|]. cbn. now rewrite IH by (cbn in L; lia). }
  exists tall, first, h, idx. rewrite En. split; [exact D1|]. split; [exact D2|]. split; [exact D3|]. cbv zeta. intros Hl.
  replace (tall - (h + first + r_skip_after op)) with (tall - first - h - r_skip_after op) in * by lia. destruct (D6 Hl) as [K F]. split; [exact K|].
  intros i k Hi. destruct (Forall2_nth_error F Hi) as (a & Ha & H). destruct D7 as [_ D7]. destruct (D7 i a Ha) as (c & Hc & Cv).
  assert (Hn : exists n, nth_error names i = Some n).
  { destruct (nth_error names i) eqn:G; [eauto|]. apply nth_error_None in G. assert (Hi' : (i < List.length ks)%nat) by (apply nth_error_Some; congruence). lia. }
  destruct Hn as (n & Hn). exists n, c, a. split; [rewrite E; now apply nth_error_combine|]. split; [exact H|]. now rewrite (nth_error_nth _ _ _ Hn) in Cv.
Qed.
Print Assumptions C52_content.
(** The read returns: with a header of [n] rows and no further options whenever rows are left
    and no column is of the kind that always raises (C41). *)
Theorem C52_returns ro sc op n outs ks tall : sheet_ok (ro_o ro) sc (Cell.cells_of outs) = true -> Cell.cells_of outs <> [] ->
  listing (Cell.cells_of outs) ks -> plain op -> r_header op = HInt n -> 0 <= n -> 0 <= r_skip_after op ->
  tallest (Cell.cells_of outs) ks tall -> n + r_skip_after op < tall -> cf_datetime (sc_conf sc) = false ->
  exists tbl, read_trace ro sc op (outs, None) = Ok tbl.
Proof.
  intros S Ne Ls P H Hn Hs T Hr D. apply (read_returns S Ne Ls P H Hn Hs T Hr). intros k _. unfold blocked. now rewrite D.
Qed.
Print Assumptions C52_returns.
Example C52_example :
  show_table (read_trace ex_ro ex_binary opts1 (ex_sheet, None)) =
  Ok [(s "name", (34, None, [Some (inl (s "x")); None; Some (inl (s "z"))])); (s "age", (9, None, [Some (inr 7); Some (inr 8); Some (inr 9)]))].
Proof. vm_compute. reflexivity. Qed.
Example C52_sizes : sizes_ok opts1 /\ plain opts1 /\ tallest (Cell.cells_of ex_sheet) [1; 4] 4.
Proof.
  split; [split; [easy|split; [intros n H; inversion H; lia|cbn; lia]]|]. split; [now repeat split|].
  split; [exists 1; split; [now left|reflexivity]|]. intros k [<-|[<-|[]]]; vm_compute; discriminate.
Qed.

(** ** C53: rows *)
(** Each column is delivered from top to bottom. *)
Definition ordered (l : list cell) : Prop := forall k, increasing (-1) (column_cells l k) = true.
(** Some column has cells in row 0 and in row [last]. *)
Definition covers (l : list cell) (last : Z) : Prop :=
  exists c c', In c l /\ In c' l /\ c_col c = c_col c' /\ c_row c = 0 /\ c_row c' = last.

Lemma firsts_all l : forall n, increasing n l = true -> firsts n l = l.
Proof. induction l as [|c l IH]; intros n H; [reflexivity|]. cbn in *. apply andb_prop in H. destruct H as [-> H]. now rewrite IH. Qed.
Lemma ordered_content l k : ordered l -> content l k = column_cells l k.
Proof. intro O. apply firsts_all, O. Qed.
Lemma increasing_ends l : forall n, increasing n l = true -> forall c d r, l = d :: r -> In c l -> c_row d <= c_row c <= last_row l.
Proof.
  intros n H c d r -> Hc. split.
  - cbn in H. apply andb_prop in H. destruct H as [_ H]. destruct Hc as [->|Hc]; [lia|]. clear n. revert d H. induction r as [|b r IH]; intros d H; [easy|]. cbn in H. apply andb_prop in H.
    destruct H as [H1 H2]. destruct Hc as [->|Hc]; [lia|]. specialize (IH Hc b H2). lia.
  - revert n H Hc. generalize (d :: r) as l. clear d r. induction l as [|b l IH] using rev_ind; intros n H Hc; [easy|]. rewrite last_row_snoc.
    assert (G : increasing n l = true /\ last_row l < c_row b \/ l = []).
    { clear -H. revert n H. induction l as [|a l IH]; intros n H; [now right|]. left. cbn in *. apply andb_prop in H. destruct H as [H1 H2]. rewrite H1. cbn [andb].
      destruct (IH _ H2) as [[G1 G2]| ->].
      - split; [exact G1|]. unfold last_row in *. cbn [rev]. destruct (rev l) as [|x t] eqn:E; [|exact G2]. cbn.
        assert (l = []) as -> by (rewrite <- (rev_involutive l), E; reflexivity). cbn in H2. lia.
      - split; [reflexivity|]. cbn in *. lia. }
    apply in_app_iff in Hc. destruct Hc as [Hc|[->|[]]]; [|lia]. destruct G as [[G1 G2]| ->]; [|easy]. specialize (IH n G1 Hc). lia.
Qed.
Lemma last_row_in l c r : l = c :: r -> exists d, In d l /\ c_row d = last_row l.
Proof.
  intros ->. unfold last_row. destruct (rev (c :: r)) as [|d t] eqn:E.
  - apply (f_equal (@List.length cell)) in E. rewrite rev_length in E. discriminate.
  - exists d. split; [|reflexivity]. apply in_rev. rewrite E. now left.
Qed.
Lemma span_bound l k last : ordered l -> (forall c, In c l -> 0 <= c_row c) -> last_of_sheet l last -> In k (map c_col l) ->
  span l k <= last + 1 /\ (span l k = last + 1 <-> exists c c', In c l /\ In c' l /\ c_col c = k /\ c_col c' = k /\ c_row c = 0 /\ c_row c' = last).
Proof.
  intros O Rows [_ Hl] K. pose proof (content_some Rows K) as Ne. unfold span. rewrite (ordered_content k O) in *.
  destruct (column_cells l k) as [|c r] eqn:E; [easy|]. rewrite <- E in *.
  assert (I : forall x, In x (column_cells l k) <-> In x l /\ c_col x = k).
  { intro x. unfold column_cells. rewrite filter_In. now rewrite Z.eqb_eq. }
  destruct (last_row_in E) as (d & Hd & Ed). assert (Hc : In c (column_cells l k)) by (rewrite E; now left).
  pose proof (proj1 (I d) Hd) as [D1 D2]. pose proof (proj1 (I c) Hc) as [C1 C2]. pose proof (Rows c C1). pose proof (Hl d D1). split; [lia|]. split.
  - intro G. exists c, d. repeat split; try assumption; lia.
  - intros (x & y & X & Y & Kx & Ky & Rx & Ry). pose proof (increasing_ends (O k) E (proj2 (I x) (conj X Kx))). pose proof (increasing_ends (O k) E (proj2 (I y) (conj Y Ky))). lia.
Qed.
Lemma tallest_bound l ks last tall : ordered l -> (forall c, In c l -> 0 <= c_row c) -> listing l ks -> last_of_sheet l last -> tallest l ks tall ->
  tall <= last + 1 /\ (tall = last + 1 <-> covers l last).
Proof.
  intros O Rows [_ Ls] La [(k & K & ->) T].
  assert (M : forall k, In k ks -> In k (map c_col l)) by (intros j J; apply Ls in J; destruct J as (c & Hc & <-); now apply in_map).
  destruct (span_bound O Rows La (M k K)) as [B1 B2]. split; [exact B1|]. split.
  - intro E. apply B2 in E. destruct E as (c & c' & C & C' & K1 & K2 & R1 & R2). exists c, c'. repeat split; try assumption. congruence.
  - intros (c & c' & C & C' & Ec & R1 & R2). assert (J : In (c_col c) ks) by (apply Ls; eauto). specialize (T _ J).
    destruct (span_bound O Rows La (M _ J)) as [_ B3]. assert (span l (c_col c) = last + 1); [|lia]. apply B3. exists c, c'. repeat split; try assumption. congruence.
Qed.
Lemma sheet_rows o sc l : sheet_ok o sc l = true -> forall c, In c l -> 0 <= c_row c.
Proof. intros S c Hc. unfold sheet_ok in S. rewrite forallb_forall in S. specialize (S c Hc). lia. Qed.
Lemma converted_len ro w a (c : tcol ro) : converted w a c -> col_len c = zlen (a_vals a).
Proof.
  unfold converted. destruct w as [d|]; [|now intros ->]. destruct (u_id d =? _); [now intros ->|]. intros (_ & l & -> & F). cbn [col_len]. symmetry. apply (Forall2_zlen F).
Qed.

(** The number of rows for every sheet read without row filters: they are counted from the
    first cell of the tallest column, so all rows are there exactly when some column reaches
    from row 0 to the last row. *)
Theorem C53_exact ro sc op outs ks tbl last : let l := Cell.cells_of outs in
  sheet_ok (ro_o ro) sc l = true -> listing l ks -> sizes_ok op -> ordered l -> last_of_sheet l last -> r_filters op = FNone ->
  read_trace ro sc op (outs, None) = Ok tbl ->
  exists first height tall, located ro sc op l first /\ titled ro sc op l ks first height (map fst tbl) /\
    (height + first + r_skip_after op < tall -> forall c, In c (map snd tbl) -> col_len c = tall - (height + first + r_skip_after op)) /\
    tall <= last + 1 /\ (tall = last + 1 <-> covers l last).
Proof.
  intros l S Ls Sz O La Fn R. destruct (read_described S Ls Sz R) as (tall & first & h & names & idx & arrays & D).
  destruct (C52_content S Ls Sz R) as (tall' & first' & h' & idx' & T' & L' & N' & C). exists first', h', tall'.
  split; [exact L'|]. split; [exact N'|]. split; [|exact (tallest_bound O (sheet_rows S) Ls La T')].
  intros Hl c Hc. destruct C as [K C]; [lia|]. rewrite Fn in K. unfold chosen_columns in K.
  assert (E : flat_map (fun i => if chosen ro FNone i (nth i (map fst tbl) []) then [nth i ks 0] else []) (seq 0 (List.length ks)) = []).
  { clear. induction (seq 0 (List.length ks)) as [|i r IH]; [reflexivity|exact IH]. }
  rewrite E in K. cbn in K. destruct idx'; [easy|]. apply in_map_iff in Hc. destruct Hc as ([n c'] & <- & Hc). apply In_nth_error in Hc. destruct Hc as (i & Hi).
  destruct (C52_shape Ls R) as [Lt _]. assert (Hk : exists k, nth_error ks i = Some k).
  { destruct (nth_error ks i) eqn:G; [eauto|]. apply nth_error_None in G. assert ((i < List.length tbl)%nat) by (apply nth_error_Some; congruence). lia. }
  destruct Hk as (k & Hk). destruct (C i k Hk) as (n' & c & a & Hi' & H & Cv). rewrite Hi in Hi'. inversion Hi'; subst. cbn [snd].
  rewrite (converted_len Cv). apply holds_len in H; [exact H|lia].
Qed.
Print Assumptions C53_exact.
(** Full claim: without the hypothesis [covers]. *)
Theorem C53_partial ro sc op outs ks tbl last : let l := Cell.cells_of outs in
  sheet_ok (ro_o ro) sc l = true -> listing l ks -> sizes_ok op -> ordered l -> last_of_sheet l last -> r_filters op = FNone ->
  covers l last -> read_trace ro sc op (outs, None) = Ok tbl ->
  exists first height, located ro sc op l first /\ titled ro sc op l ks first height (map fst tbl) /\
    (height + first + r_skip_after op <= last -> forall c, In c (map snd tbl) -> col_len c = last + 1 - (height + first + r_skip_after op)).
Proof.
  intros l S Ls Sz O La Fn Co R. destruct (C53_exact S Ls Sz O La Fn R) as (first & h & tall & L & N & E & _ & B). apply B in Co. subst tall.
  exists first, h. split; [exact L|]. split; [exact N|]. intros H. apply E. lia.
Qed.
Print Assumptions C53_partial.
(** A column that starts below the first row and ends below all others loses its end. *)
Theorem C53_refuted :
  let outs := [words 0 0 (s "a"); rk 1 0 1; rk 2 0 2; words 1 1 (s "b"); rk 2 1 5; rk 3 1 6; rk 4 1 7] in
  sheet_ok ex_o2 ex_binary (Cell.cells_of outs) = true /\ last_of_sheet (Cell.cells_of outs) 4 /\
  show_table (read_trace ex_ro ex_binary opts1 (outs, None)) =
  Ok [(s "a", (9, None, [Some (inr 1); Some (inr 2); None])); (s "Unnamed", (34, None, [Some (inl (s "b")); Some (inl (s "5")); Some (inl (s "6"))]))].
Proof.
  cbv zeta. split; [vm_compute; reflexivity|]. split; [|vm_compute; reflexivity]. split.
  - eexists. split; [now do 6 right; left|reflexivity].
  - intros c Hc. cbn in Hc. repeat (destruct Hc as [<-|Hc]; [vm_compute; discriminate|]). easy.
Qed.
Print Assumptions C53_refuted.
Example C53_example : ordered (Cell.cells_of ex_sheet) /\ last_of_sheet (Cell.cells_of ex_sheet) 3 /\ covers (Cell.cells_of ex_sheet) 3.
Proof.
  split.
  - intro k. destruct (Z.eq_dec k 4) as [->|A]; [reflexivity|]. destruct (Z.eq_dec k 1) as [->|B]; [reflexivity|]. unfold column_cells. cbn -[Z.eqb].
    replace (4 =? k) with false by lia. replace (1 =? k) with false by lia. reflexivity.
  - split; [split|].
    + eexists. split; [now do 6 right; left|reflexivity].
    + intros c Hc. cbn in Hc. repeat (destruct Hc as [<-|Hc]; [vm_compute; discriminate|]). easy.
    + exists (mkCell 0 1 0x18 (VStr (s "name"))), (mkCell 3 1 0x18 (VStr (s "z"))). cbn. tauto.
Qed.

(** ** C54: multi-row headers *)
Theorem C54_titles ro sc op outs ks tbl n : sheet_ok (ro_o ro) sc (Cell.cells_of outs) = true -> listing (Cell.cells_of outs) ks -> sizes_ok op ->
  read_trace ro sc op (outs, None) = Ok tbl -> r_header op = HInt n -> 0 < n ->
  exists first blocks, located ro sc op (Cell.cells_of outs) first /\
    Forall2 (fun k b => holds_text (ro_o ro) sc (Cell.cells_of outs) k first n b) ks blocks /\ map fst tbl = titles blocks.
Proof.
  intros S Ls Sz R H Hn. destruct (C52_content S Ls Sz R) as (tall & first & h & idx & _ & L & N & _). unfold titled in N. rewrite H in N.
  destruct N as [_ N]. replace (n =? 0) with false in N by lia. destruct N as (bs & B1 & B2). exists first, bs. now repeat split.
Qed.
Print Assumptions C54_titles.
(** Column 0 spans two title rows, column 1 only the lower, column 2 none, column 3 the lower. *)
Example C54_example :
  let outs := [words 0 0 (s "A"); words 1 0 (s "x"); words 1 1 (s "y"); words 1 3 (s "z"); rk 2 0 1; rk 2 1 2; rk 2 2 3; rk 2 3 4] in
  show_table (read_trace ex_ro ex_binary (mkR (HInt 2) DTNone 0 None 30 FNone SOr) (outs, None)) =
  Ok [(s "A, x", (9, None, [Some (inr 1)])); (s "A, y", (9, None, [Some (inr 2)])); (s "Unnamed", (9, None, [Some (inr 3)])); (s "A, z", (9, None, [Some (inr 4)]))].
Proof. vm_compute. reflexivity. Qed.

(** ** C55: unique names *)
(** The names of a one-row header are the header cells, repeated where the cells are. *)
Theorem C55_refuted ro sc op outs ks tbl : sheet_ok (ro_o ro) sc (Cell.cells_of outs) = true -> listing (Cell.cells_of outs) ks -> sizes_ok op ->
  read_trace ro sc op (outs, None) = Ok tbl -> r_header op = HInt 1 -> r_lookup op = None ->
  exists cells, Forall2 (fun k x => holds_text (ro_o ro) sc (Cell.cells_of outs) k 0 1 [x]) ks cells /\
    map fst tbl = map (fun x => match x with Some (c :: r) => c :: r | _ => s "Unnamed" end) cells.
Proof.
  intros S Ls Sz R H Lk. destruct (C54_titles S Ls Sz R H ltac:(lia)) as (first & bs & L & F & E). unfold located in L. rewrite Lk in L. subst first.
  assert (G : exists cells, bs = map (fun x => [x]) cells).
  { clear -F. induction F as [|k b ks bs Hb F (cells & ->)]; [now exists []|]. apply holds_text_len in Hb; [|lia].
    destruct b as [|x [|y b]]; [discriminate| |rewrite !zlen_cons in Hb; pose proof (zlen_nonneg b); lia]. now exists (x :: cells). }
  destruct G as (cells & ->). exists cells. split.
  - clear -F. remember (map (fun x => [x]) cells) as bs eqn:E. revert cells E. induction F as [|k b ks bs Hb F IH]; intros [|x cells] E; try discriminate; [constructor|].
    inversion E; subst. constructor; [exact Hb|now apply IH].
  - rewrite E. apply (@titles_one _ cells eq_refl).
Qed.
Print Assumptions C55_refuted.
Example C55_counterexample :
  let outs := [words 0 0 (s "a"); words 0 1 (s "a"); rk 1 0 1; rk 1 1 2] in
  show_table (read_trace ex_ro ex_binary opts1 (outs, None)) = Ok [(s "a", (9, None, [Some (inr 1)])); (s "a", (9, None, [Some (inr 2)]))].
Proof. vm_compute. reflexivity. Qed.
(** The list [result_hdrs] that is computed and not returned: the loop ends for every header,
    its names differ and extend the header cells by a number. *)
Theorem C55_dropped hdrs : exists names, uniq [] hdrs = Some names /\ NoDup names /\ Forall2 suffixed hdrs names.
Proof. apply uniq_total. Qed.
Print Assumptions C55_dropped.
(** "a", "a", "a.1": the third needs a second suffix. *)
Example C55_dropped_example : uniq [] [s "a"; s "a"; s "a.1"; s "a"] = Some [s "a"; s "a.1"; s "a.1.1"; s "a.2"].
Proof. reflexivity. Qed.
(** Without a header the names are unique. Full claim: for every header. *)
Theorem C55_unnamed_partial ro sc op outs ks tbl : sheet_ok (ro_o ro) sc (Cell.cells_of outs) = true -> listing (Cell.cells_of outs) ks -> sizes_ok op ->
  read_trace ro sc op (outs, None) = Ok tbl -> r_header op = HInt 0 -> NoDup (map fst tbl).
Proof.
  intros S Ls Sz R H. destruct (C52_content S Ls Sz R) as (tall & first & h & idx & _ & L & N & _). unfold titled in N. rewrite H in N.
  destruct N as [_ ->]. apply FinFun.Injective_map_NoDup; [|apply seq_NoDup]. intros a b E. apply app_inv_head in E. apply dec_inj in E; lia.
Qed.
Print Assumptions C55_unnamed_partial.
Example C55_unnamed_example : option_map (map fst) (match read_trace ex_ro ex_binary opts0 (ex_sheet, None) with Ok tbl => Some tbl | Err _ => None end) = Some [s "Unnamed. 0"; s "Unnamed. 1"].
Proof. vm_compute. reflexivity. Qed.

(** ** C56: header lookup *)
(** The row found holds a match (a filled cell, for a column number) within the first rows. *)
Theorem C56_found ro sc op outs ks tbl : sheet_ok (ro_o ro) sc (Cell.cells_of outs) = true -> listing (Cell.cells_of outs) ks -> sizes_ok op ->
  read_trace ro sc op (outs, None) = Ok tbl -> r_lookup op <> None ->
  exists r k ts, located ro sc op (Cell.cells_of outs) r /\ 0 <= r < r_size op /\ In k ks /\
    holds_text (ro_o ro) sc (Cell.cells_of outs) k 0 (r_size op) ts /\
    match r_lookup op with
    | Some (LCol j) => k = j /\ (exists t, nth_error ts (Z.to_nat r) = Some (Some t)) /\
                       forall i, 0 <= i < r -> nth_error ts (Z.to_nat i) = Some None
    | Some (LText t) => exists p u, ro_search ro t = Some p /\ nth_error ts (Z.to_nat r) = Some (Some u) /\ p u = true
    | None => False
    end.
Proof.
  intros S Ls Sz R Hl. destruct (C52_content S Ls Sz R) as (tall & first & h & idx & _ & L & _). exists first.
  pose proof (proj1 Sz Hl) as Hs. pose proof (listing_order Ls) as Ek.
  assert (At : forall p (ts : list (option str)) r, first_at p r ts -> 0 <= r < zlen ts /\ exists x, nth_error ts (Z.to_nat r) = Some x /\ p x = true /\
    forall i, 0 <= i < r -> exists y, nth_error ts (Z.to_nat i) = Some y /\ p y = false).
  { clear. intros p ts r (b & x & a & -> & -> & P & F). rewrite zlen_app, zlen_cons. pose proof (zlen_nonneg b). pose proof (zlen_nonneg a). split; [lia|].
    exists x. split; [|split; [exact P|]].
    - unfold zlen. rewrite Nat2Z.id, nth_error_app2 by lia. now rewrite Nat.sub_diag.
    - intros i Hi. unfold zlen in Hi. rewrite nth_error_app1 by lia. destruct (nth_error b (Z.to_nat i)) as [y|] eqn:E; [|apply nth_error_None in E; lia].
      exists y. split; [reflexivity|]. rewrite forallb_forall in F. specialize (F y (nth_error_In _ _ E)). now destruct (p y). }
  pose proof L as L0. unfold located in L. destruct (r_lookup op) as [[k|t]|] eqn:El; [| |easy].
  - destruct L as (ts & T & F). exists k, ts. split; [exact L0|]. destruct (At _ _ _ F) as (B & x & X1 & X2 & X3). rewrite (holds_text_len Hs T) in B.
    split; [exact B|]. split.
    + destruct (mem_Z k ks) eqn:M; [now apply mem_Z_In|]. exfalso. assert (Nk : ~ In k (map c_col (Cell.cells_of outs))).
      { intro K. apply in_map_iff in K. destruct K as (c & Ec & Hc). assert (In k ks) by (apply (proj2 Ls); eauto). apply mem_Z_In in H. congruence. }
      destruct T as (a & (D & _) & ->). unfold wanted in D. rewrite (content_nil Nk) in D. replace (r_size op =? 0) with false in D by lia. cbn [andb Z.eqb] in D.
      assert (G : forall y, In y (a_vals a) -> y = None).
      { intros y Hy. destruct (Forall2_in_r D Hy) as (w & Hw & v & Cv & Rv). unfold at_rows in Hw. apply in_map_iff in Hw. destruct Hw as (i & <- & _).
        unfold at_row in Cv. cbn in Cv. inversion Cv; subst. cbn in Rv. congruence. }
      rewrite nth_error_map in X1. destruct (nth_error (a_vals a) (Z.to_nat first)) as [y|] eqn:Ey; [|discriminate]. rewrite (G y (nth_error_In _ _ Ey)) in X1. cbn in X1. inversion X1; subst. discriminate.
    + split; [exact T|]. split; [reflexivity|]. split; [destruct x as [u|]; [eauto|discriminate]|]. intros i Hi. destruct (X3 i Hi) as (y & Y1 & Y2). destruct y; [discriminate|exact Y1].
  - destruct L as (p & Sp & before & k & after & ts & Eo & T & F & _). exists k, ts. split; [exact L0|]. destruct (At _ _ _ F) as (B & x & X1 & X2 & _).
    rewrite (holds_text_len Hs T) in B. split; [exact B|]. split; [rewrite <- Ek; apply sorted_in; rewrite Eo; apply in_app_iff; right; now left|]. split; [exact T|].
    exists p. destruct x as [u|]; [|discriminate]. exists u. now repeat split.
Qed.
Print Assumptions C56_found.
(** Without a match in the first rows the read raises ValueError; with one the lookup succeeds. *)
Definition unblocked (o : oracle) (sc : sconf) (l : list cell) (size : Z) : Prop :=
  forall k, In k (map c_col l) -> blocked (sc_conf sc) (wanted o sc (content l k) 0 size None) = false.
Theorem C56_missing ro sc op outs t p : sheet_ok (ro_o ro) sc (Cell.cells_of outs) = true -> Cell.cells_of outs <> [] -> sizes_ok op ->
  r_lookup op = Some (LText t) -> ro_search ro t = Some p -> unblocked (ro_o ro) sc (Cell.cells_of outs) (r_size op) ->
  (forall k ts, In k (map c_col (Cell.cells_of outs)) -> holds_text (ro_o ro) sc (Cell.cells_of outs) k 0 (r_size op) ts -> existsb (fits p) ts = false) ->
  read_trace ro sc op (outs, None) = Err ValueError.
Proof.
  intros S Ne Sz El Sp U M. pose proof (sheet_rows S) as Rows. unfold read_trace. cbn [fst snd].
  destruct (@collect_inv ro sc outs [] [] (cinv_nil ro sc) S) as (d & -> & C). cbn [bind app] in *.
  unfold read_columns. destruct (tallest_max_len Rows C Ne) as (n & -> & _). cbn [bind]. unfold locate. rewrite El. cbn [find_header]. rewrite Sp.
  pose proof (proj1 Sz ltac:(congruence)) as Hs. rewrite (proj1 C).
  destruct (@find_text_ok ro sc _ Rows p (r_size op) Hs (order (Cell.cells_of outs)) [] d C eq_refl) as [(d' & r & E & _ & Hr & F)|[(d' & E & _)|((k & K & B) & _)]]; [easy| | |].
  - exfalso. destruct F as (b & k & a & ts & Eo & T & F & _). destruct F as (tb & x & ta & Et & _ & P & _).
    assert (K : In k (map c_col (Cell.cells_of outs))) by (apply order_in; rewrite Eo; apply in_app_iff; right; now left).
    specialize (M k ts K T). rewrite Et, existsb_app in M. cbn [existsb] in M. rewrite P in M. now rewrite orb_true_r in M.
  - rewrite E. reflexivity.
  - exfalso. apply order_in in K. specialize (U k K). unfold is_blocked in B. congruence.
Qed.
Print Assumptions C56_missing.
Theorem C56_present ro sc op outs d t p : sheet_ok (ro_o ro) sc (Cell.cells_of outs) = true -> sizes_ok op ->
  r_lookup op = Some (LText t) -> ro_search ro t = Some p -> unblocked (ro_o ro) sc (Cell.cells_of outs) (r_size op) ->
  (exists k, In k (map c_col (Cell.cells_of outs)) /\
     forall ts, holds_text (ro_o ro) sc (Cell.cells_of outs) k 0 (r_size op) ts -> existsb (fits p) ts = true) ->
  collect ro sc [] outs = Ok d -> exists d' r, locate ro sc op d = Ok (d', r).
Proof.
  intros S Sz El Sp U (k & K & M). pose proof (sheet_rows S) as Rows.
  destruct (@collect_inv ro sc outs [] [] (cinv_nil ro sc) S) as (d0 & -> & C). cbn [bind app] in *. intro E. inversion E; subst d0. clear E.
  unfold locate. rewrite El. cbn [find_header]. rewrite Sp. pose proof (proj1 Sz ltac:(congruence)) as Hs. rewrite (proj1 C).
  destruct (@find_text_ok ro sc _ Rows p (r_size op) Hs (order (Cell.cells_of outs)) [] d C eq_refl) as [(d' & r & -> & _ & Hr & F)|[(d' & E & _ & G)|((j & J & B) & _)]]; [easy| | |].
  - cbn [bind]. replace (r =? -1) with false by lia. eauto.
  - exfalso. destruct (G k ltac:(now apply order_in)) as (ts & T & Fa). rewrite (M ts T) in Fa. discriminate.
  - exfalso. apply order_in in J. specialize (U j J). unfold is_blocked in B. congruence.
Qed.
Print Assumptions C56_present.
Definition ex_lookup : list out :=
  [words 0 0 (s "report"); words 2 0 (s "id"); words 2 1 (s "age"); rk 3 0 1; rk 3 1 2; words 1 1 (s "id")].
Example C56_example :
  show_table (read_trace ex_ro ex_binary (mkR (HInt 1) DTNone 0 (Some (LText (s "age"))) 5 FNone SOr) (ex_lookup, None)) =
    Ok [(s "id", (9, None, [Some (inr 1)])); (s "age", (9, None, [Some (inr 2)]))] /\
  show_table (read_trace ex_ro ex_binary (mkR (HInt 1) DTNone 0 (Some (LCol 1)) 5 FNone SOr) (ex_lookup, None)) =
    Ok [(s "id", (9, None, [Some (inr 1)])); (s "age", (9, None, [Some (inr 2)]))] /\
  show_table (read_trace ex_ro ex_binary (mkR (HInt 1) DTNone 0 (Some (LText (s "nowhere"))) 5 FNone SOr) (ex_lookup, None)) = Err ValueError.
Proof. repeat (apply conj); vm_compute; reflexivity. Qed.

(** ** C57: the topmost match *)
Lemma mode_attempted o sc l k off len idx : cf_datetime (sc_conf sc) = false -> cf_numerics (sc_conf sc) = false ->
  attempted sc (wanted o sc (content l k) off len idx) = false.
Proof. intros D N. unfold attempted. rewrite D, N. now destruct (some_kind KTemp _). Qed.
Lemma render_unique o t w : forall a b, Forall2 (fun x v => render o t (t_val x) = Ok v) w a -> Forall2 (fun x v => render o t (t_val x) = Ok v) w b -> a = b.
Proof.
  induction w as [|x w IH]; intros a b A B; inversion A; inversion B; subst; [reflexivity|]. f_equal; [congruence|now apply IH].
Qed.
Lemma holds_unique o sc l k off len idx a b : cf_datetime (sc_conf sc) = false -> cf_numerics (sc_conf sc) = false ->
  holds o sc l k off len idx a -> holds o sc l k off len idx b -> a = b.
Proof.
  intros D N [_ A] [_ B]. pose proof (mode_attempted o l k off len idx D N) as M. destruct (A M) as [A1 A2], (B M) as [B1 B2].
  destruct a as [ta va], b as [tb vb]. cbn in *. subst ta tb. f_equal. exact (render_unique A2 B2).
Qed.
Lemma holds_text_unique o sc l k off len a b : cf_datetime (sc_conf sc) = false -> cf_numerics (sc_conf sc) = false ->
  holds_text o sc l k off len a -> holds_text o sc l k off len b -> a = b.
Proof. intros D N (x & X & ->) (y & Y & ->). now rewrite (holds_unique D N X Y). Qed.

(** Full claim: for every sheet and mode.  Here: at most one column has a match in the first
    rows. *)
Theorem C57_partial ro sc op outs ks tbl t p k0 : sheet_ok (ro_o ro) sc (Cell.cells_of outs) = true -> listing (Cell.cells_of outs) ks -> sizes_ok op ->
  cf_datetime (sc_conf sc) = false -> cf_numerics (sc_conf sc) = false ->
  r_lookup op = Some (LText t) -> ro_search ro t = Some p ->
  (forall k ts, In k ks -> k <> k0 -> holds_text (ro_o ro) sc (Cell.cells_of outs) k 0 (r_size op) ts -> existsb (fits p) ts = false) ->
  read_trace ro sc op (outs, None) = Ok tbl ->
  exists r, located ro sc op (Cell.cells_of outs) r /\
    forall k ts, In k ks -> holds_text (ro_o ro) sc (Cell.cells_of outs) k 0 (r_size op) ts ->
      forall i x, 0 <= i < r -> nth_error ts (Z.to_nat i) = Some x -> fits p x = false.
Proof.
  intros S Ls Sz D N El Sp U R. destruct (C52_content S Ls Sz R) as (tall & first & h & idx & _ & L & _). exists first. split; [exact L|].
  intros k ts K T i x Hi X.
  assert (Nf : forall ts, existsb (fits p) ts = false -> forall j y, nth_error ts j = Some y -> fits p y = false).
  { clear. intros ts E j y Y. destruct (fits p y) eqn:F; [|reflexivity]. assert (existsb (fits p) ts = true); [|congruence]. apply existsb_exists. exists y. split; [exact (nth_error_In _ _ Y)|exact F]. }
  destruct (Z.eq_dec k k0) as [->|Hk]; [|exact (Nf ts (U k ts K Hk T) _ _ X)].
  unfold located in L. rewrite El in L. destruct L as (p' & Sp' & b & j & a & us & Eo & Tj & F & _). rewrite Sp in Sp'. inversion Sp'; subst p'.
  assert (J : In j ks) by (rewrite <- (listing_order Ls); apply sorted_in; rewrite Eo; apply in_app_iff; right; now left).
  destruct F as (tb & y & ta & Et & -> & P & Q). destruct (Z.eq_dec j k0) as [->|Hj].
  - rewrite (holds_text_unique D N Tj T) in Et. rewrite Et in X. unfold zlen in Hi. rewrite nth_error_app1 in X by lia.
    rewrite forallb_forall in Q. specialize (Q x (nth_error_In _ _ X)). now destruct (fits p x).
  - exfalso. specialize (U j us J Hj Tj). rewrite Et, existsb_app in U. cbn [existsb] in U. rewrite P, orb_true_r in U. discriminate.
Qed.
Print Assumptions C57_partial.
(** Otherwise the first column of the sheet decides: here row 2, though row 1 matches. *)
Definition ex_two : list out :=
  [words 0 0 (s "report"); words 0 1 (s "x"); words 1 1 (s "id"); words 2 0 (s "id"); words 2 1 (s "age"); rk 3 0 1; rk 3 1 2].
Theorem C57_refuted :
  sheet_ok ex_o2 ex_binary (Cell.cells_of ex_two) = true /\
  show_table (read_trace ex_ro ex_binary (mkR (HInt 1) DTNone 0 (Some (LText (s "id"))) 5 FNone SOr) (ex_two, None)) =
    Ok [(s "id", (9, None, [Some (inr 1)])); (s "age", (9, None, [Some (inr 2)]))].
Proof. split; vm_compute; reflexivity. Qed.
Print Assumptions C57_refuted.

