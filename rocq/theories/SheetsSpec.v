(** Workbook parts: relationships, sheet lists, and a reader for one XML element. *)
From Verif Require Import Py PyText Biff BiffRecs BiffSpec Utf16 Utf16Spec Xlsx XlsbSpec XlsxSpec Sheets.

(** A relationship part: relationship elements (type = [prefix/segment]) among other events. *)
Inductive ritem := RI (id prefix seg target : str) (more : list (str * str)) | RO (e : event).
Definition ritem_ok (x : ritem) : bool :=
  match x with
  | RI _ _ seg _ _ => negb (existsb (Z.eqb 47) seg)
  | RO (EStart t _) => negb (tag_in [s "Relationship"] t)
  | RO _ => true
  end.
Definition ritem_events (x : ritem) : list event :=
  match x with
  | RI i p g t more =>
    [EStart (s "Relationship") ([(s "Id", i); (s "Type", p ++ 47 :: g); (s "Target", t)] ++ more); EEnd (s "Relationship")]
  | RO e => [e]
  end.
Definition rel_list (l : list ritem) : list (str * (str * str)) :=
  flat_map (fun x => match x with RI i _ g t _ => [(i, (g, t))] | RO _ => [] end) l.

(** xl/workbook.xml: sheet elements among others. *)
Inductive witem := WI (name rid : str) (more : list (str * str)) | WO (e : event).
Definition witem_ok (x : witem) : bool :=
  match x with WI _ _ _ => true | WO (EStart t _) => negb (tag_in [s "sheet"] t) | WO _ => true end.
Definition witem_events (x : witem) : list event :=
  match x with
  | WI n i more => [EStart (s "sheet") ([(s "name", n); (s "r:id", i)] ++ more); EEnd (s "sheet")]
  | WO e => [e]
  end.
Definition sheet_list (l : list witem) : list (str * str) :=
  flat_map (fun x => match x with WI n i _ => [(n, i)] | WO _ => [] end) l.

(** xl/workbook.bin: BrtBundleSh records (412) among others. *)
Inductive bitem := BI (state tab : Z) (rid name tail : str) | BX (r : record).
Definition bitem_ok (x : bitem) : bool :=
  match x with
  | BI st tab rid name _ =>
    (0 <=? st) && (st <? 2 ^ 32) && (0 <=? tab) && (tab <? 2 ^ 32) && wide_ok rid && wide_ok name
  | BX r => negb (rec_id r =? 412)
  end.
Definition bitem_record (x : bitem) : record :=
  match x with
  | BI st tab rid name tail => mkRec 412 (le4 st ++ le4 tab ++ wide_string rid ++ wide_string name ++ tail)
  | BX r => r
  end.
Definition bsheet_list (l : list bitem) : list (str * str) :=
  flat_map (fun x => match x with BI _ _ i n _ => [(n, i)] | BX _ => [] end) l.

(** The sheet table that follows from a sheet list and the relationships. *)
Definition rel_of (rels : list (str * (str * str))) (id : str) : option (str * str) := dget str_eqb rels id.
Definition sheet_table (rels : list (str * (str * str))) (sheets : list (str * str)) : list (str * str) :=
  flat_map (fun p => match rel_of rels (snd p) with
                     | Some (_, t) => [(fst p, s "xl/" ++ t)] | None => [] end) sheets.

(** ** One empty-element tag (XML 1.0, 3.1, 2.3, 3.3.3) *)
(** Attribute value up to the closing double quote: "<" forbidden, the five predefined
    entities replaced, white space normalised to spaces.  Numeric references are not
    covered (they are an error here). *)
Definition entity (t : str) : option (Z * str) :=
  match t with
  | 97 :: 109 :: 112 :: 59 :: r => Some (38, r)              (* amp; *)
  | 108 :: 116 :: 59 :: r => Some (60, r)                    (* lt; *)
  | 103 :: 116 :: 59 :: r => Some (62, r)                    (* gt; *)
  | 113 :: 117 :: 111 :: 116 :: 59 :: r => Some (34, r)      (* quot; *)
  | 97 :: 112 :: 111 :: 115 :: 59 :: r => Some (39, r)       (* apos; *)
  | _ => None
  end.
Definition xml_char (c : Z) : bool :=
  (c =? 9) || (c =? 10) || (c =? 13) || ((32 <=? c) && (c <? 0xD800)) || ((0xE000 <=? c) && (c <? 0xFFFE))
  || ((0x10000 <=? c) && (c <? 0x110000)).
Definition norm_ws (c : Z) : Z := if (c =? 9) || (c =? 10) || (c =? 13) then 32 else c.
Fixpoint attr_value (fuel : nat) (t : str) : option (str * str) :=
  match fuel with
  | O => None
  | S f =>
    match t with
    | [] => None
    | c :: r =>
      if c =? 34 then Some ([], r)
      else if c =? 60 then None
      else if negb (xml_char c) then None
      else if c =? 38 then
        match entity r with
        | Some (d, r') => match attr_value f r' with Some (v, rest) => Some (d :: v, rest) | None => None end
        | None => None
        end
      else match attr_value f r with Some (v, rest) => Some (norm_ws c :: v, rest) | None => None end
    end
  end.
(** Name characters: everything but space, "=", quotes, "/", "<", ">", "&" (enough here). *)
Definition name_char (c : Z) : bool :=
  xml_char c && negb (existsb (Z.eqb c) [9; 10; 13; 32; 61; 34; 39; 47; 60; 62; 38]).
Fixpoint take_name (t : str) : str * str :=
  match t with
  | c :: r => if name_char c then let '(n, rest) := take_name r in (c :: n, rest) else ([], t)
  | [] => ([], [])
  end.
Fixpoint parse_attrs (fuel : nat) (t : str) (acc : list (str * str)) : option (list (str * str) * str) :=
  match fuel with
  | O => None
  | S f =>
    match t with
    | 47 :: 62 :: r => Some (acc, r)
    | 32 :: r =>
      let '(n, r1) := take_name r in
      match n, r1 with
      | _ :: _, 61 :: 34 :: r2 =>
        match attr_value (S (List.length r2)) r2 with
        | Some (v, r3) =>
          if mem_str n (map fst acc) then None else parse_attrs f r3 (acc ++ [(n, v)])
        | None => None
        end
      | _, _ => None
      end
    | _ => None
    end
  end.
(** Parse a document that is a single empty element. *)
Definition parse_empty_element (t : str) : res (list event) :=
  match t with
  | 60 :: r =>
    let '(n, r1) := take_name r in
    match n with
    | [] => Err XmlError
    | _ => match parse_attrs (S (List.length r1)) r1 [] with
           | Some (a, []) => Ok [EStart n a; EEnd n]
           | _ => Err XmlError
           end
    end
  | _ => Err XmlError
  end.
(** Characters that survive unescaped in an attribute value. *)
Definition plain_char (c : Z) : bool :=
  xml_char c && negb (existsb (Z.eqb c) [9; 10; 13; 34; 38; 60]).
