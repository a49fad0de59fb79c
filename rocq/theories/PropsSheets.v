(** C30, C62, C63, C64: the sheet table, sheet selection, relationships. *)
From Verif Require Import Utf8 Py PyFacts PyText Biff BiffRecs BiffSpec Utf16 Utf16Spec Utf16Proofs Xlsx Xlsb XlsbSpec XlsbProofs XlsbParts
  XlsxSpec Sheets SheetsSpec SheetsProofs.
From Coq Require Import ZifyBool ZifyNat.

(** ** C30 *)
(** The xlsx table lists the sheets in workbook order, each with the part its relationship
    names, wherever the elements stand and whatever else the parts contain. *)
Theorem C30_xlsx_table rl wl : forallb ritem_ok rl = true -> forallb witem_ok wl = true ->
  NoDup (map fst (rel_list rl)) -> NoDup (map fst (sheet_list wl)) -> NoDup (map snd (sheet_list wl)) ->
  (forall n i, In (n, i) (sheet_list wl) -> exists t, rel_of (rel_list rl) i = Some (s "worksheet", t)) ->
  xlsx_sheets (flat_map ritem_events rl) (flat_map witem_events wl)
  = Ok (sheet_table (rel_list rl) (sheet_list wl)).
Proof. apply xlsx_sheets_ok. Qed.

Theorem C30_xlsb_table rl bl part : forallb ritem_ok rl = true -> forallb bitem_ok bl = true ->
  forallb rec_ok (map bitem_record bl) = true -> dump_all (map bitem_record bl) = Ok part ->
  NoDup (map fst (bsheet_list bl)) ->
  (forall n i, In (n, i) (bsheet_list bl) -> rel_of (rel_list rl) i <> None) ->
  xlsb_sheets (flat_map ritem_events rl) part = Ok (sheet_table (rel_list rl) (bsheet_list bl)).
Proof. apply xlsb_sheets_ok. Qed.

(** The table has one entry per sheet, in order, with the part of its relationship. *)
Theorem C30_table_entries rels l : (forall n i, In (n, i) l -> rel_of rels i <> None) ->
  map fst (sheet_table rels l) = map fst l /\
  forall k n i, nth_error l k = Some (n, i) ->
    exists g t, In (i, (g, t)) rels /\ nth_error (sheet_table rels l) k = Some (n, s "xl/" ++ t).
Proof.
  intro H. split; [now apply sheet_table_names|]. intros k n i E.
  destruct (sheet_table_nth H E) as (g & t & H1 & H2). exists g, t. split; [|exact H2].
  unfold rel_of in H1. clear -H1. induction rels as [|[a b] rels IH]; [discriminate|]. cbn [dget] in H1.
  destruct (str_eqb i a) eqn:E; [apply str_eqb_eq in E; subst; left; congruence|right; now apply IH].
Qed.

(** Selecting by index and by name, for every table with distinct names. *)
Theorem C30_index_is_name d : NoDup (map fst d) -> forall k n p,
  nth_error d k = Some (n, p) ->
  select_sheet d (SIdx (Z.of_nat k)) = Ok p /\ select_sheet d (SName n) = Ok p.
Proof.
  intros H k n p E. assert (k < List.length d)%nat by (apply nth_error_Some; congruence). split.
  - cbn [select_sheet]. replace ((0 <=? Z.of_nat k) && (Z.of_nat k <? zlen d)) with true by (unfold zlen; lia).
    now rewrite Nat2Z.id, E.
  - cbn [select_sheet]. now rewrite (dget_nth H E).
Qed.
Theorem C30_bad_index d i : i < 0 \/ Z.of_nat (List.length d) <= i -> select_sheet d (SIdx i) = Err IndexError.
Proof. intro H. cbn [select_sheet]. replace ((0 <=? i) && (i <? zlen d)) with false by (unfold zlen; lia). reflexivity. Qed.
Theorem C30_good_index d i : 0 <= i < Z.of_nat (List.length d) -> exists n p,
  nth_error d (Z.to_nat i) = Some (n, p) /\ select_sheet d (SIdx i) = Ok p.
Proof.
  intro H. cbn [select_sheet]. replace ((0 <=? i) && (i <? zlen d)) with true by (unfold zlen; lia).
  destruct (nth_error d (Z.to_nat i)) as [[n p]|] eqn:E; [now exists n, p|]. apply nth_error_None in E. lia.
Qed.
Theorem C30_unknown_name d n : ~ In n (map fst d) -> select_sheet d (SName n) = Err KeyError.
Proof. intro H. cbn [select_sheet]. now rewrite dget_none_str. Qed.

(** The same workbook stored both ways gives the same table. *)
Theorem C30_formats_agree rl wl bl part : forallb ritem_ok rl = true -> forallb witem_ok wl = true ->
  forallb bitem_ok bl = true -> forallb rec_ok (map bitem_record bl) = true ->
  dump_all (map bitem_record bl) = Ok part -> sheet_list wl = bsheet_list bl ->
  NoDup (map fst (rel_list rl)) -> NoDup (map fst (sheet_list wl)) -> NoDup (map snd (sheet_list wl)) ->
  (forall n i, In (n, i) (sheet_list wl) -> exists t, rel_of (rel_list rl) i = Some (s "worksheet", t)) ->
  xlsx_sheets (flat_map ritem_events rl) (flat_map witem_events wl)
  = xlsb_sheets (flat_map ritem_events rl) part.
Proof.
  intros H1 H2 H3 H4 H5 E N1 N2 N3 Hr. rewrite xlsx_sheets_ok by assumption.
  rewrite (xlsb_sheets_ok (rl := rl) H1 H3 H4 H5).
  - now rewrite E.
  - now rewrite <- E.
  - intros n i H. rewrite <- E in H. destruct (Hr n i H) as [t Ht]. congruence.
Qed.

Definition ex_rl : list ritem :=
  [RO (EStart (s "Relationships") []);
   RI (s "rId3") (s "http://x") (s "styles") (s "styles.xml") [];
   RI (s "rId2") (s "http://x") (s "worksheet") (s "worksheets/sheet2.xml") [];
   RI (s "rId1") (s "http://x") (s "worksheet") (s "worksheets/sheet1.xml") [];
   RO (EEnd (s "Relationships"))].
Definition ex_wl : list witem :=
  [WO (EStart (s "workbook") []); WI (s "B") (s "rId1") [(s "sheetId", s "7")]; WI (s "A") (s "rId2") []].
Definition ex_bl : list bitem :=
  [BX (mkRec 131 []); BI 0 7 (s "rId1") (s "B") []; BI 2 1 (s "rId2") (s "A") []; BX (mkRec 132 [])].
Definition ex_part : bytes := match dump_all (map bitem_record ex_bl) with Ok b => b | Err _ => [] end.
Example C30_example :
  forallb ritem_ok ex_rl = true /\ forallb witem_ok ex_wl = true /\ forallb bitem_ok ex_bl = true /\
  forallb rec_ok (map bitem_record ex_bl) = true /\ dump_all (map bitem_record ex_bl) = Ok ex_part /\
  sheet_list ex_wl = bsheet_list ex_bl /\
  xlsx_sheets (flat_map ritem_events ex_rl) (flat_map witem_events ex_wl)
    = Ok [(s "B", s "xl/worksheets/sheet1.xml"); (s "A", s "xl/worksheets/sheet2.xml")] /\
  xlsb_sheets (flat_map ritem_events ex_rl) ex_part
    = Ok [(s "B", s "xl/worksheets/sheet1.xml"); (s "A", s "xl/worksheets/sheet2.xml")].
Proof. repeat split; vm_compute; reflexivity. Qed.
Example C30_example_hyps :
  NoDup (map fst (rel_list ex_rl)) /\ NoDup (map fst (sheet_list ex_wl)) /\ NoDup (map snd (sheet_list ex_wl)) /\
  (forall n i, In (n, i) (sheet_list ex_wl) -> exists t, rel_of (rel_list ex_rl) i = Some (s "worksheet", t)).
Proof.
  assert (ND : forall l : list str, (fix nd (l : list str) := match l with [] => true | x :: r => negb (mem_str x r) && nd r end) l = true -> NoDup l).
  { induction l as [|x l IH]; intro H; constructor; apply andb_prop in H as [H1 H2].
    - intro G. apply negb_true_iff in H1. assert (mem_str x l = true); [|congruence].
      clear -G. induction l as [|y l IH]; [destruct G|]. unfold mem_str in *. cbn [existsb].
      destruct G as [->|G]; [now rewrite str_eqb_refl|]. rewrite IH by exact G. apply orb_true_r.
    - now apply IH. }
  repeat split; try (apply ND; vm_compute; reflexivity).
  intros n i H. cbn in H. destruct H as [H|[H|[]]]; injection H as <- <-; eexists; vm_compute; reflexivity.
Qed.

(** ** C62 *)
(** Missing from the partial statement: fields holding an ampersand, "<", a double quote or a
    tab/newline, and types holding a slash; for those the round trip fails (below). *)
Theorem C62_round_trip_partial r :
  forallb plain_char (r_id r) = true -> forallb plain_char (r_type r) = true ->
  forallb plain_char (r_target r) = true -> existsb (Z.eqb 47) (r_type r) = false ->
  (es <- parse_empty_element (dump_rel r) ;; scan_rels es) = Ok [r].
Proof.
  intros H1 H2 H3 H4. rewrite rel_parse by assumption. cbn [bind scan_rels].
  change (str_eqb (s "Relationship") (s "Relationship")) with true. cbv iota.
  match goal with |- context [attr_req ?a (s "Id")] =>
    change (attr_req a (s "Id")) with (@Ok str (r_id r));
    change (attr_req a (s "Type")) with (@Ok str (RELS_NS ++ 47 :: r_type r));
    change (attr_req a (s "Target")) with (@Ok str (r_target r)) end.
  cbn [bind]. unfold last_segment. rewrite last_segment_app by exact H4. now destruct r.
Qed.
Theorem C62_round_trip_refuted :
  exists r1 r2 r3,
  (es <- parse_empty_element (dump_rel r1) ;; scan_rels es) = Err XmlError /\
  (exists r2', (es <- parse_empty_element (dump_rel r2) ;; scan_rels es) = Ok [r2'] /\ r_target r2' <> r_target r2) /\
  (exists r3', (es <- parse_empty_element (dump_rel r3) ;; scan_rels es) = Ok [r3'] /\ r_type r3' <> r_type r3).
Proof.
  exists (mkRel (s "rId1") (s "worksheet") (s "a&b.xml")), (mkRel (s "rId1") (s "worksheet") (s "a&amp;b.xml")),
    (mkRel (s "rId1") (s "a/b") (s "x.xml")).
  split; [vm_compute; reflexivity|]. split.
  - exists (mkRel (s "rId1") (s "worksheet") (s "a&b.xml")). split; [vm_compute; reflexivity|discriminate].
  - exists (mkRel (s "rId1") (s "b") (s "x.xml")). split; [vm_compute; reflexivity|discriminate].
Qed.
Example C62_example :
  (es <- parse_empty_element (dump_rel (mkRel (s "rId1") (s "worksheet") (s "worksheets/sheet 1.xml"))) ;; scan_rels es)
  = Ok [mkRel (s "rId1") (s "worksheet") (s "worksheets/sheet 1.xml")].
Proof. vm_compute. reflexivity. Qed.

(** The bytes written are the UTF-8 form of the element; they exist exactly if no field holds a
    surrogate. *)
Theorem C62_bytes r b : dump_xml r = Ok b <-> scalars (r_id r) = true /\ scalars (r_type r) = true /\ scalars (r_target r) = true /\ decode8 b = Some (dump_rel r).
Proof.
  assert (E : scalars (dump_rel r) = scalars (r_id r) && scalars (r_type r) && scalars (r_target r)).
  { unfold dump_rel, scalars. rewrite !forallb_app. change (forallb scalar (s "<Relationship Id=""")) with true. change (forallb scalar (s """ Type=""")) with true.
    change (forallb scalar RELS_NS) with true. change (forallb scalar (s "/")) with true. change (forallb scalar (s """ Target=""")) with true. change (forallb scalar (s """/>")) with true.
    cbn [andb]. rewrite andb_true_r. now rewrite andb_assoc. }
  unfold dump_xml. destruct (scalars (dump_rel r)) eqn:S.
  - symmetry in E. apply andb_prop in E as [E E3]. apply andb_prop in E as [E1 E2]. split.
    + intro H. assert (utf8 (dump_rel r) = b) as <- by congruence. split; [exact E1|]. split; [exact E2|]. split; [exact E3|]. now apply decode8_utf8.
    + intros (_ & _ & _ & D). apply decode8_inv in D as [D _]. now rewrite D.
  - split; [discriminate|]. intros (E1 & E2 & E3 & _). rewrite E1, E2, E3 in E. discriminate.
Qed.
Print Assumptions C62_bytes.
Theorem C62_bytes_round_trip_partial r :
  forallb plain_char (r_id r) = true -> forallb plain_char (r_type r) = true -> forallb plain_char (r_target r) = true -> existsb (Z.eqb 47) (r_type r) = false ->
  scalars (r_id r) = true -> scalars (r_type r) = true -> scalars (r_target r) = true ->
  exists b t, dump_xml r = Ok b /\ decode8 b = Some t /\ (es <- parse_empty_element t ;; scan_rels es) = Ok [r].
Proof.
  intros H1 H2 H3 H4 S1 S2 S3. assert (B : exists b, dump_xml r = Ok b).
  { unfold dump_xml. destruct (scalars (dump_rel r)) eqn:S; [now eexists|]. exfalso.
    destruct (decode8 (utf8 (dump_rel r))) eqn:D; unfold dump_rel, scalars in *; rewrite !forallb_app, S1, S2, S3 in S; vm_compute in S; discriminate S. }
  destruct B as [b B]. exists b, (dump_rel r). split; [exact B|]. split; [now apply C62_bytes in B|]. now apply C62_round_trip_partial.
Qed.
Print Assumptions C62_bytes_round_trip_partial.
Example C62_bytes_example : dump_xml (mkRel (s "rId1") (s "worksheet") [0x442; 0x1F600]) <> Err UnicodeError /\ dump_xml (mkRel (s "rId1") (s "worksheet") [0xD800]) = Err UnicodeError.
Proof. split; vm_compute; [discriminate|reflexivity]. Qed.

(** ** C63 *)
Definition resolve (t : str) : str := match t with 47 :: r => r | _ => s "xl/" ++ t end.
(** Missing: targets starting with a slash (refuted below). *)
Theorem C63_relative_partial rl wl : forallb ritem_ok rl = true -> forallb witem_ok wl = true ->
  NoDup (map fst (rel_list rl)) -> NoDup (map fst (sheet_list wl)) -> NoDup (map snd (sheet_list wl)) ->
  (forall n i, In (n, i) (sheet_list wl) ->
     exists t, rel_of (rel_list rl) i = Some (s "worksheet", t) /\ forall r, t <> 47 :: r) ->
  exists d, xlsx_sheets (flat_map ritem_events rl) (flat_map witem_events wl) = Ok d /\
  forall k n i, nth_error (sheet_list wl) k = Some (n, i) ->
    exists g t, rel_of (rel_list rl) i = Some (g, t) /\ nth_error d k = Some (n, resolve t).
Proof.
  intros H1 H2 N1 N2 N3 Hr. exists (sheet_table (rel_list rl) (sheet_list wl)). split.
  - apply xlsx_sheets_ok; try assumption. intros n i H. destruct (Hr n i H) as (t & Ht & _). now exists t.
  - intros k n i E.
    assert (Hr' : forall n i, In (n, i) (sheet_list wl) -> rel_of (rel_list rl) i <> None)
      by (intros n' i' H; destruct (Hr n' i' H) as (t & Ht & _); congruence).
    destruct (sheet_table_nth Hr' E) as (g & t & E1 & E2). exists g, t. split; [exact E1|]. rewrite E2.
    destruct (Hr n i (nth_error_In _ _ E)) as (t' & Ht & Hs). assert (t' = t) by congruence. subst t'.
    unfold resolve. destruct t as [|c t]; [reflexivity|]. destruct (Z.eq_dec c 47) as [->|Hc]; [now destruct (Hs t)|].
    destruct c as [|p|p]; try reflexivity. repeat (destruct p as [p|p|]; try reflexivity). congruence.
Qed.
Definition ex_abs_rl : list ritem := [RI (s "rId1") (s "http://x") (s "worksheet") (s "/xl/worksheets/sheet1.xml") []].
Theorem C63_absolute_refuted :
  exists d1 d2 p t,
  xlsx_sheets (flat_map ritem_events ex_abs_rl) (flat_map witem_events [WI (s "B") (s "rId1") []]) = Ok d1 /\
  xlsb_sheets (flat_map ritem_events ex_abs_rl)
    (match dump_all [bitem_record (BI 0 1 (s "rId1") (s "B") [])] with Ok b => b | Err _ => [] end) = Ok d2 /\
  rel_of (rel_list ex_abs_rl) (s "rId1") = Some (s "worksheet", t) /\
  select_sheet d1 (SIdx 0) = Ok p /\ select_sheet d2 (SIdx 0) = Ok p /\ p <> resolve t.
Proof.
  exists [(s "B", s "xl//xl/worksheets/sheet1.xml")], [(s "B", s "xl//xl/worksheets/sheet1.xml")],
    (s "xl//xl/worksheets/sheet1.xml"), (s "/xl/worksheets/sheet1.xml").
  repeat (split; [vm_compute; reflexivity|]). discriminate.
Qed.

(** ** C64 *)
(** The xlsx reader: one sheet whose relationship is not a worksheet (or is missing) makes the
    whole table fail, for every workbook. *)
Theorem C64_other_sheet_refuted rl wl n i : forallb ritem_ok rl = true -> forallb witem_ok wl = true ->
  NoDup (map fst (rel_list rl)) -> NoDup (map snd (sheet_list wl)) ->
  In (n, i) (sheet_list wl) -> (forall t, rel_of (rel_list rl) i <> Some (s "worksheet", t)) ->
  xlsx_sheets (flat_map ritem_events rl) (flat_map witem_events wl) = Err KeyError.
Proof. apply xlsx_sheets_missing. Qed.
(** The xlsb reader lists such sheets. *)
Theorem C64_xlsb_partial rl bl part : forallb ritem_ok rl = true -> forallb bitem_ok bl = true ->
  forallb rec_ok (map bitem_record bl) = true -> dump_all (map bitem_record bl) = Ok part ->
  NoDup (map fst (bsheet_list bl)) ->
  (forall n i, In (n, i) (bsheet_list bl) -> rel_of (rel_list rl) i <> None) ->
  exists d, xlsb_sheets (flat_map ritem_events rl) part = Ok d /\ map fst d = map fst (bsheet_list bl).
Proof.
  intros H1 H2 H3 H4 H5 H6. exists (sheet_table (rel_list rl) (bsheet_list bl)). split.
  - now apply xlsb_sheets_ok.
  - now apply sheet_table_names.
Qed.
Definition ex_chart_rl : list ritem :=
  [RI (s "rId1") (s "http://x") (s "worksheet") (s "worksheets/sheet1.xml") [];
   RI (s "rId2") (s "http://x") (s "chartsheet") (s "chartsheets/sheet1.xml") []].
Example C64_example :
  xlsx_sheets (flat_map ritem_events ex_chart_rl)
    (flat_map witem_events [WI (s "Data") (s "rId1") []; WI (s "Chart") (s "rId2") []]) = Err KeyError /\
  xlsx_sheets (flat_map ritem_events ex_chart_rl) (flat_map witem_events [WI (s "Data") (s "rId1") []])
    = Ok [(s "Data", s "xl/worksheets/sheet1.xml")].
Proof. split; vm_compute; reflexivity. Qed.

Print Assumptions C30_xlsx_table.
Print Assumptions C30_xlsb_table.
Print Assumptions C30_table_entries.
Print Assumptions C30_index_is_name.
Print Assumptions C30_bad_index.
Print Assumptions C30_good_index.
Print Assumptions C30_unknown_name.
Print Assumptions C30_formats_agree.
Print Assumptions C62_round_trip_partial.
Print Assumptions C62_round_trip_refuted.
Print Assumptions C63_relative_partial.
Print Assumptions C63_absolute_refuted.
Print Assumptions C64_other_sheet_refuted.
Print Assumptions C64_xlsb_partial.
