(** Which files are sound enough to be read, in terms of the members of the archive. *)
From Verif Require Import Py PyText Biff BiffRecs Utf16 Cell Xlsb Xlsx Sheets Workbook WorkbookSpec FileSpec PropsXlsx.
Set Implicit Arguments. Unset Strict Implicit.

Section Sound.
  Context (expat : bytes -> list event * option exn) (z : archive).
  (** The member exists and is well-formed XML with the events [es]. *)
  Definition well_formed (n : str) (es : list event) : Prop := exists b, member z n b /\ expat b = (es, None).
  Definition has (a : list (str * str)) (k : str) : Prop := exists v, attr a k = Some v.

  (** Relationships with their attributes. *)
  Definition relations_sound (n : str) (es : list event) : Prop :=
    well_formed n es /\ forall a, In (EStart (s "Relationship") a) es -> has a (s "Id") /\ has a (s "Type") /\ has a (s "Target").
  (** *** .xlsx *)
  (** Every sheet has a name and the id of a worksheet. *)
  Definition xlsx_sheets_sound : Prop :=
    exists rs es, relations_sound (s "xl/_rels/workbook.xml.rels") rs /\ well_formed (s "xl/workbook.xml") es /\
      forall a, In (EStart (s "sheet") a) es -> has a (s "name") /\
        exists i b t, attr a (s "r:id") = Some i /\ In (EStart (s "Relationship") b) rs /\ attr b (s "Id") = Some i /\ attr b (s "Type") = Some t /\ of_kind (s "worksheet") t.
  Definition xlsx_styles_sound : Prop := exists es, well_formed (s "xl/styles.xml") es /\ forall ev, In ev es -> ~ bad_style ev.
  Definition xlsx_shared_sound : Prop := exists es, well_formed (s "xl/sharedStrings.xml") es.

  (** *** .xlsb *)
  (** A length and a text, possibly cut off by the end of the record; [rest] is what follows. *)
  Definition text_of (n : Z) (b : bytes) : Prop := exists t, decode16 (firstn (Z.to_nat (2 * n)) b) = Ok t.
  Definition counted (b : bytes) (n : Z) (body : bytes) : Prop :=
    exists p q u v, b = p :: q :: u :: v :: body /\ n = p + 256 * q + 65536 * u + 16777216 * v.
  Definition lax_text (b rest : bytes) : Prop :=
    exists n body, counted b n body /\ (n = 2 ^ 32 - 1 /\ rest = body \/ n <> 2 ^ 32 - 1 /\ text_of n body /\ rest = skipn (Z.to_nat (2 * n)) body).
  Definition bundle_sound (r : record) : Prop :=
    exists h b c rest, zlen h = 8 /\ rec_data r = h ++ b /\ lax_text b c /\ lax_text c rest.
  Definition item_sound (r : record) : Prop := exists f b n body, rec_data r = f :: b /\ counted b n body /\ text_of n body.
  (** At most 2^16 cell formats, each with a format id. *)
  Definition cell_xf (r : record) : bool := negb (str_eqb (firstn 2 (rec_data r)) [255; 255]).
  Definition xlsb_styles_sound : Prop :=
    exists b, member z (s "xl/styles.bin") b /\ (forall r, In r (scan_part [44] b) -> good_fmt r) /\
      (forall r, In r (scan_part [47] b) -> cell_xf r = true -> 2 < zlen (rec_data r)) /\ zlen (filter cell_xf (scan_part [47] b)) <= 2 ^ 16.
  Definition xlsb_sheets_sound : Prop :=
    exists rs b, relations_sound (s "xl/_rels/workbook.bin.rels") rs /\ member z (s "xl/workbook.bin") b /\
      forall r, In r (scan_part [412] b) -> bundle_sound r /\
        forall bn, bundle_loadr r = Ok bn -> exists a, In (EStart (s "Relationship") a) rs /\ attr a (s "Id") = Some (match strRelID bn with Some i => i | None => [] end).
  (** Fewer than 2^32 shared strings. *)
  Definition xlsb_items_sound : Prop := exists b, member z (s "xl/sharedStrings.bin") b /\ forall r, In r (scan_part [19] b) -> item_sound r.
  Definition xlsb_few : Prop := forall b, member z (s "xl/sharedStrings.bin") b -> zlen (scan_part [19] b) <= 2 ^ 32.
  (** A cell record: a column; a text where the record holds one, unless the column is skipped. *)
  Definition cell_sound (cols : list Z) (r : record) : Prop :=
    exists col body, counted (rec_data r) col body /\
      (In col cols \/ (rec_id r = 6 \/ rec_id r = 8 -> exists n t, counted (skipn 8 (rec_data r)) n t /\ text_of n t)).
  (** The cell records of a sheet: after a row header, before the end of the data. *)
  Definition cell_record (b : bytes) (r : record) : Prop :=
    exists pre post, scan_part xlsb_ids b = pre ++ r :: post /\ In 0 (map rec_id pre) /\ ~ In 402 (map rec_id pre) /\ rec_id r <> 0 /\ rec_id r <> 402.
End Sound.

(** *** Which records of a sheet are looked at when rows are skipped or limited *)
Definition headers (rs : list record) : Z := zlen (filter (fun r => rec_id r =? 0) rs).
(** [r] lies behind more than [sk] of the row headers ([h] of them came before [rs]), not behind more
    than [sk + tk + 1] of them if there is a limit, and behind no end of the data that is looked at. *)
Definition looked_at (sk tk h : Z) (rs : list record) (r : record) : Prop :=
  exists pre post, rs = pre ++ r :: post /\ rec_id r <> 0 /\ rec_id r <> 402 /\
    sk < h + headers pre /\ (sk + tk = 0 \/ h + headers pre <= sk + tk + 1) /\
    forall p x q, pre = p ++ x :: q -> rec_id x = 402 -> h + headers p <= sk.
