(** Structure of the .xlsx parts (ECMA-376 part 1, 18.3/18.4/18.8) as XML events, and
    what a reader should deliver for them. *)
From Verif Require Import Py PyText NumFmt NumFmtSpec Cell Xlsx XlsbSpec.

(** Excel column letters of a 0-based index (bijective base 26). *)
Fixpoint letters_fuel (fuel : nat) (n : Z) : str :=
  match fuel with
  | O => []
  | S f => (if n <? 26 then [] else letters_fuel f (n / 26 - 1)) ++ [65 + n mod 26]
  end.
Definition letters (n : Z) : str := letters_fuel (S (Z.to_nat n)) n.

(** ** Worksheet *)
Definition tag_in (l : list str) (t : str) : bool := existsb (str_eqb t) l.
(** Events inside a cell child other than [<v>]. *)
Definition inner_ok (e : event) : bool :=
  match e with
  | EStart t _ => negb (tag_in [s "v"] t)
  | EText _ => true
  | EEnd t => negb (tag_in [s "c"; s "row"] t)
  end.
(** Content of a cell element: value, other child with its content, blank text. *)
Inductive xitem := XV (t : str) | XO (tag : str) (a : list (str * str)) (inner : list event) | XB (t : str).
Definition blank (t : str) : bool := match strip t with [] => true | _ => false end.
Definition xitem_ok (x : xitem) : bool :=
  match x with
  | XV _ => true
  | XO tag _ inner => negb (tag_in [s "v"; s "c"; s "row"] tag) && forallb inner_ok inner
  | XB t => blank t
  end.
Definition xitem_events (x : xitem) : list event :=
  match x with
  | XV t => [EStart (s "v") []; EText t; EEnd (s "v")]
  | XO tag a inner => EStart tag a :: inner ++ [EEnd tag]
  | XB t => [EText t]
  end.
(** Cell: 0-based column and row digits of the reference, type, style, other attributes, content. *)
Record xcell := mkX { x_col : Z; x_digits : str; x_type : option str; x_style : option str;
                      x_more : list (str * str); x_body : list xitem }.
Definition x_ref (c : xcell) : str := letters (x_col c) ++ x_digits c.
Definition x_attrs (c : xcell) : list (str * str) :=
  (s "r", x_ref c)
  :: match x_type c with Some t => [(s "t", t)] | None => [] end
  ++ match x_style c with Some t => [(s "s", t)] | None => [] end
  ++ x_more c.
Definition xcell_ok (c : xcell) : bool :=
  (0 <=? x_col c) && forallb is_digit (x_digits c) && forallb xitem_ok (x_body c)
  && forallb (fun p => negb (tag_in [s "r"; s "t"; s "s"] (fst p))) (x_more c).
Definition xcell_events (c : xcell) : list event :=
  EStart (s "c") (x_attrs c) :: flat_map xitem_events (x_body c) ++ [EEnd (s "c")].

(** Anything else outside cells: other elements and text. *)
Definition junk_ok (e : event) : bool :=
  match e with
  | EStart t _ => negb (tag_in [s "c"] t)
  | EText _ => true
  | EEnd t => negb (tag_in [s "c"; s "row"] t)
  end.
Inductive xpiece := PC (c : xcell) | PJ (e : event).
Definition xpiece_ok (p : xpiece) : bool := match p with PC c => xcell_ok c | PJ e => junk_ok e end.
Definition xpiece_events (p : xpiece) : list event := match p with PC c => xcell_events c | PJ e => [e] end.
(** A row: everything from its start tag (itself just another start event) to its end tag. *)
Definition xrow := list xpiece.
Definition xrow_events (r : xrow) : list event :=
  EStart (s "row") [] :: flat_map xpiece_events r ++ [EEnd (s "row")].
Definition xrow_cells (r : xrow) : list xcell :=
  flat_map (fun p => match p with PC c => [c] | PJ _ => [] end) r.
Definition xsheet_events (pre : list event) (rows : list xrow) (post : list event) : list event :=
  pre ++ flat_map xrow_events rows ++ post.
Definition xsheet_ok (pre : list event) (rows : list xrow) (post : list event) : bool :=
  forallb junk_ok pre && forallb junk_ok post && forallb (forallb xpiece_ok) rows.

(** What should be delivered for a cell in (delivered) row [row]. *)
Section XExpected.
  Context (styles : str -> option Z) (null_text : str -> bool) (skip_cols : list Z).
  Definition x_kind (c : xcell) : Z :=
    match x_type c with
    | Some [115] => 0x11
    | _ => match styles (match x_style c with Some k => k | None => [48] end) with
           | Some k => k | None => 0x18 end
    end.
  Definition x_texts (c : xcell) : list str :=
    flat_map (fun x => match x with XV t => [t] | _ => [] end) (x_body c).
  Definition xexpected (row : Z) (c : xcell) : list cell :=
    flat_map (fun t =>
      if blank t || null_text (strip t) || existsb (Z.eqb (x_col c)) skip_cols then []
      else [mkCell row (x_col c) (x_kind c) (VBytes (utf8 (strip t)))]) (x_texts c).
  Definition xexpected_row (row : Z) (r : xrow) : list cell := flat_map (xexpected row) (xrow_cells r).
  Definition xrow_nonempty (r : xrow) : bool := match xexpected_row 0 r with [] => false | _ => true end.
End XExpected.

(** Number of leading elements not satisfying [p]. *)
Fixpoint leading {A} (p : A -> bool) (l : list A) : Z :=
  match l with [] => 0 | x :: r => if p x then 0 else 1 + leading p r end.

(** ** Shared strings: [<si>] elements among other events *)
Definition si_inner_ok (e : event) : bool :=
  match e with EStart t _ => negb (tag_in [s "si"] t) | EText _ => true | EEnd t => negb (tag_in [s "si"] t) end.
Inductive xsi := XSI (inner : list event) | XSJ (e : event).
Definition xsi_ok (x : xsi) : bool :=
  match x with XSI l => forallb si_inner_ok l | XSJ e => si_inner_ok e end.
Definition xsi_events (x : xsi) : list event :=
  match x with XSI l => EStart (s "si") [] :: l ++ [EEnd (s "si")] | XSJ e => [e] end.
Definition si_texts (l : list event) : list str :=
  flat_map (fun e => match e with EText t => [t] | _ => [] end) l.
Definition sis (l : list xsi) : list (list event) :=
  flat_map (fun x => match x with XSI i => [i] | XSJ _ => [] end) l.

(** ** Styles *)
(** Built-in numeric formats that count (1-4, 37-40, 48). *)
Definition builtin_numeric (f : Z) : bool :=
  ((1 <=? f) && (f <=? 4)) || ((37 <=? f) && (f <=? 40)) || (f =? 48).
(** Events of a styles part: number formats, cell formats ([xfId] present), style formats
    (absent), others. *)
Inductive ystyle :=
  | ZFmt (id : Z) (code : str) | ZXf (fmt : Z) (more : list (str * str)) | ZXfStyle (fmt : Z) | ZO (e : event).
Definition ystyle_ok (x : ystyle) : bool :=
  match x with
  | ZFmt i _ => 0 <=? i
  | ZXf f a => (0 <=? f) && forallb (fun p => negb (tag_in [s "numFmtId"] (fst p))) a
  | ZXfStyle f => 0 <=? f
  | ZO (EStart t _) => negb (tag_in [s "numFmt"; s "xf"] t)
  | ZO _ => true
  end.
Definition ystyle_events (x : ystyle) : list event :=
  match x with
  | ZFmt i c => [EStart (s "numFmt") [(s "numFmtId", dec i); (s "formatCode", c)]; EEnd (s "numFmt")]
  | ZXf f a => [EStart (s "xf") ((s "numFmtId", dec f) :: a ++ [(s "xfId", [48])]); EEnd (s "xf")]
  | ZXfStyle f => [EStart (s "xf") [(s "numFmtId", dec f)]; EEnd (s "xf")]
  | ZO e => [e]
  end.
Definition z_xfs (l : list ystyle) : list Z :=
  flat_map (fun x => match x with ZXf f _ => [f] | _ => [] end) l.
Definition z_fmts (l : list ystyle) : list (Z * str) :=
  flat_map (fun x => match x with ZFmt i c => [(i, c)] | _ => [] end) l.
