(** Model of rxls/reader/common.py: [__make_header], [__find_header] and the part of [read]
    that works on the delivered cells (lines 156-339).  Choosing the reader by the package
    content and opening it (lines 138-158) is in Workbook.v. *)
From Verif Require Import Py PyText Cell Casts Chunk Series.
From Flocq Require Import IEEE754.Bits IEEE754.Binary.
Set Implicit Arguments. Unset Strict Implicit.

(** A type given in [dtypes]: the id Arrow compares, and its parameters (unit, zone, ...). *)
Record udt := mkU { u_id : Z; u_par : Z }.
(** Arrow's ids of the types columns have. *)
Definition type_id (t : dtype) : Z :=
  match t with TUtf8 => 34 | TF8 => 12 | TI8 => 9 | TMs => 18 | TNull => 0 end.

(** External functions of the reader.  Arrow casts work element by element, nulls stay null;
    a cast may not exist at all. *)
Record roracle := mkRO {
  ro_o : oracle;
  ro_uval : Type;                                    (* elements of cast arrays *)
  ro_search : str -> option (str -> bool);           (* RE2 search, None: invalid pattern *)
  ro_match : str -> option (str -> bool);            (* Python re.match, None: re.error *)
  ro_castable : dtype -> udt -> bool;
  ro_cast : udt -> aval -> option ro_uval
}.

(** *** Arguments *)
Inductive header_arg := HInt (n : Z) | HList (l : list str).   (* bool: 0 or 1 *)
Inductive lookup := LCol (i : Z) | LText (p : str).
(** [row_filters]; [FBad]: a list of mixed types, or another type. *)
Inductive filters_arg := FNone | FText (p : str) | FInts (l : list Z) | FTexts (l : list str) | FBad.
Inductive bop := BOr | BAnd | BOther.
(** [row_filters_strategy]; [SBad]: anything else. *)
Inductive strategy := SOr | SAnd | SList (l : list bop) | SBad.
Inductive dtypes_arg := DTNone | DTOne (d : udt) | DTDict (l : list (str * udt)) | DTSeq (l : list udt).
Record ropts := mkR {
  r_header : header_arg; r_dtypes : dtypes_arg; r_skip_after : Z; r_lookup : option lookup;
  r_size : Z; r_filters : filters_arg; r_strategy : strategy }.

(** [columns]: a dict from column number to series, in order of first cells. *)
Definition cols := list (Z * series).
Fixpoint insert (k : Z) (l : list Z) : list Z :=
  match l with [] => [k] | j :: r => if k <=? j then k :: l else j :: insert k r end.
(** [sorted(columns)]. *)
Definition sorted (l : list Z) : list Z := fold_right insert [] l.
Definition keys (d : cols) : list Z := map fst d.

Section Read.
  Context (ro : roracle) (sc : sconf).
  Local Notation o := (ro_o ro).

  (** common.py:159-176: one [add] per delivered cell. *)
  Definition add_cell (d : cols) (c : cell) : res cols :=
    let x := match dget Z.eqb d (c_col c) with Some x => x | None => se_new end in
    x <- add o sc x c ;; Ok (dset Z.eqb d (c_col c) x).
  Fixpoint collect (d : cols) (l : list out) : res cols :=
    match l with
    | [] => Ok d
    | OCell c :: l => d <- add_cell d c ;; collect d l
    | OCall :: l => collect d l
    end.

  (** [columns[k].to_utf8(off, len)] and [.to_arrow]: the columns change in place. *)
  Definition ask (f : series -> series * res array) (d : cols) (k : Z) : res (cols * list (option aval)) :=
    match dget Z.eqb d k with
    | None => Err KeyError
    | Some x => let '(x, r) := f x in a <- r ;; Ok (dset Z.eqb d k x, a_vals a)
    end.
  Definition text_of_val (v : option aval) : option str := match v with Some (AS t) => Some t | _ => None end.
  Definition texts (d : cols) (k off len : Z) : res (cols * list (option str)) :=
    ' (d, l) <- ask (fun x => to_utf8 o sc x off len None) d k ;; Ok (d, map text_of_val l).
  Definition arrow_of (d : cols) (k off len : Z) (idx : option (list bool)) : res (cols * array) :=
    match dget Z.eqb d k with
    | None => Err KeyError
    | Some x => let '(x, r) := to_arrow o sc x off len idx in a <- r ;; Ok (dset Z.eqb d k x, a)
    end.
  (** A list comprehension over columns. *)
  Fixpoint each {A} (f : cols -> Z -> res (cols * A)) (d : cols) (ks : list Z) : res (cols * list A) :=
    match ks with
    | [] => Ok (d, [])
    | k :: ks => ' (d, a) <- f d k ;; ' (d, l) <- each f d ks ;; Ok (d, a :: l)
    end.

  (** *** common.py:22-68 [__make_header] *)
  Definition Unnamed : str := s "Unnamed".
  Definition or_unnamed (t : option str) : str := match t with Some (c :: r) => c :: r | _ => Unnamed end.
  (** line 44: index of the first cell that is not None. *)
  Fixpoint top_index (parts : list (option str)) : option nat :=
    match parts with
    | [] => None
    | Some _ :: _ => Some O
    | None :: r => match top_index r with Some i => Some (S i) | None => None end
    end.
  (** line 47: [parts.update({i: x for i, x in prev_hdr.items() if i < top_index})]. *)
  Fixpoint update_top (top : nat) (prev parts : list (option str)) : list (option str) :=
    match top, prev, parts with
    | S t, x :: prev, _ :: parts => x :: update_top t prev parts
    | _, _, _ => parts
    end.
  (** [", ".join]. *)
  Fixpoint join_comma (l : list str) : str :=
    match l with [] => [] | [t] => t | t :: r => t ++ s ", " ++ join_comma r end.
  Definition joined (parts : list (option str)) : str :=
    or_unnamed (Some (join_comma (flat_map (fun p => match p with Some (c :: r) => [c :: r] | _ => [] end) parts))).
  (** lines 42-55. *)
  Fixpoint merge (prev : list (option str)) (blocks : list (list (option str))) : list str :=
    match blocks with
    | [] => []
    | parts :: r =>
      match top_index parts with
      | Some top =>
        let parts := match prev with [] => parts | _ => update_top top prev parts end in
        joined parts :: merge parts r
      | None => Unnamed :: merge prev r
      end
    end.
  (** lines 57-66: names made unique; [fuel] bounds the inner loop (see [uniq_total]). *)
  Fixpoint fresh (fuel : nat) (hdr n : str) (i : Z) (seen : list str) : option str :=
    match fuel with
    | O => None
    | S f => if mem_str n seen then fresh f hdr (hdr ++ s "." ++ dec i) (i + 1) seen else Some n
    end.
  Fixpoint uniq (seen : list str) (hdrs : list str) : option (list str) :=
    match hdrs with
    | [] => Some seen
    | h :: r => match fresh (S (List.length seen)) h h 1 seen with Some n => uniq (seen ++ [n]) r | None => None end
    end.
  (** The names without repetition are computed and dropped (line 68 returns [hdrs]). *)
  Definition make_header (d : cols) (first_row length : Z) : res (cols * list str) :=
    if length =? 1 then
      each (fun d k => ' (d, l) <- texts d k first_row 1 ;;
                       match l with [] => Err IndexError | x :: _ => Ok (d, or_unnamed x) end) d (sorted (keys d))
    else
      ' (d, blocks) <- each (fun d k => texts d k first_row length) d (sorted (keys d)) ;;
      Ok (d, merge [] blocks).

  (** *** common.py:71-95 [__find_header] *)
  Fixpoint index_of (p : option str -> bool) (l : list (option str)) : option nat :=
    match l with
    | [] => None
    | x :: r => if p x then Some O else match index_of p r with Some i => Some (S i) | None => None end
    end.
  Definition row_or (i : option nat) : Z := match i with Some i => Z.of_nat i | None => -1 end.
  Fixpoint find_text (p : str -> bool) (d : cols) (ks : list Z) (size : Z) : res (cols * Z) :=
    match ks with
    | [] => Ok (d, -1)
    | k :: ks =>
      ' (d, l) <- texts d k 0 size ;;
      match index_of (fun x => match x with Some t => p t | None => false end) l with
      | Some i => Ok (d, Z.of_nat i)
      | None => find_text p d ks size
      end
    end.
  Definition find_header (d : cols) (pat : lookup) (size : Z) : res (cols * Z) :=
    match pat with
    | LCol k => ' (d, l) <- texts d k 0 size ;;
                Ok (d, row_or (index_of (fun x => match x with Some _ => true | None => false end) l))
    | LText t => match ro_search ro t with
                 | None => match d with [] => Ok (d, -1) | (k, _) :: _ => ' (d, _) <- texts d k 0 size ;; Err ArrowInvalid end
                 | Some p => find_text p d (keys d) size
                 end
    end.

  (** *** common.py:209-295: row filters *)
  Fixpoint any_match (pats : list str) (name : str) : res bool :=
    match pats with
    | [] => Ok false
    | t :: r => match ro_match ro t with
                | None => Err ReError
                | Some m => if m name then Ok true else any_match r name
                end
    end.
  Fixpoint named (pats : list str) (names : list str) (ks : list Z) : res (list Z) :=
    match names, ks with
    | n :: names, k :: ks => b <- any_match pats n ;; l <- named pats names ks ;; Ok (if b then k :: l else l)
    | _, _ => Ok []
    end.
  Fixpoint placed (is : list Z) (i : Z) (ks : list Z) : list Z :=
    match ks with [] => [] | k :: ks => if mem_Z i is then k :: placed is (i + 1) ks else placed is (i + 1) ks end.
  Definition filter_keys (fa : filters_arg) (names : list str) (ks : list Z) : res (list Z) :=
    match fa with
    | FNone | FText [] | FInts [] | FTexts [] => Ok []
    | FText t => named [t] names ks
    | FInts is => Ok (placed is 0 ks)
    | FTexts l => named l names ks
    | FBad => Err ValueError
    end.
  (** [invert(is_null(nan_is_null=True))]. *)
  Definition non_null (v : option aval) : bool :=
    match v with None => false | Some (AF x) => negb (is_nan 53 1024 x) | Some _ => true end.
  Definition zip_bool (f : bool -> bool -> bool) (a b : list bool) : res (list bool) :=
    if Nat.eqb (List.length a) (List.length b) then Ok (map (fun p => f (fst p) (snd p)) (combine a b)) else Err ArrowInvalid.
  Fixpoint fold_bool (ops : list bop) (acc : list bool) (l : list (list bool)) : res (list bool) :=
    match ops, l with
    | op :: ops, x :: l => acc <- zip_bool (match op with BAnd => andb | _ => orb end) acc x ;; fold_bool ops acc l
    | _, _ => Ok acc
    end.
  Definition combine_filters (st : strategy) (l : list (list bool)) : res (list bool) :=
    match l with
    | [] => Err Undefined  (* not reached: called with filters only *)
    | [m] => Ok m
    | m :: r =>
      match st with
      | SOr => fold_bool (repeat BOr (List.length r)) m r
      | SAnd => fold_bool (repeat BAnd (List.length r)) m r
      | SList ops =>
        if negb (Nat.eqb (List.length ops) (List.length r)) then Err ValueError
        else if existsb (fun x => match x with BOther => true | _ => false end) ops then Err ValueError
        else fold_bool ops m r
      | SBad => Err TypeError
      end
    end.
  Definition row_mask (st : strategy) (d : cols) (ks : list Z) (off len : Z) : res (cols * option (list bool)) :=
    match ks with
    | [] => Ok (d, None)
    | _ =>
      ' (d, l) <- each (fun d k => ' (d, a) <- arrow_of d k off len None ;; Ok (d, map non_null (a_vals a))) d ks ;;
      m <- combine_filters st l ;;
      if true_count m =? 0 then Err ValueError else Ok (d, Some m)
    end.

  (** *** common.py:299-337: [dtypes] *)
  Inductive tcol := Plain (a : array) | Cast (d : udt) (l : list (option (ro_uval ro))).
  Definition col_len (c : tcol) : Z := match c with Plain a => zlen (a_vals a) | Cast _ l => zlen l end.
  Definition cast_cell (d : udt) (v : option aval) : res (option (ro_uval ro)) :=
    match v with None => Ok None | Some v => match ro_cast ro d v with Some w => Ok (Some w) | None => Err ValueError end end.
  (** A failing cast of any kind becomes ValueError. *)
  Definition cast_col (a : array) (d : udt) : res tcol :=
    if type_id (a_type a) =? u_id d then Ok (Plain a)
    else if ro_castable ro (a_type a) d then l <- mapM (cast_cell d) (a_vals a) ;; Ok (Cast d l)
    else Err ValueError.
  Fixpoint cast_seq (arrays : list array) (ds : list udt) : res (list tcol) :=
    match arrays, ds with
    | a :: arrays, d :: ds => c <- cast_col a d ;; l <- cast_seq arrays ds ;; Ok (c :: l)
    | _, _ => Ok []
    end.
  Fixpoint cast_dict (names : list str) (arrays : list array) (dt : list (str * udt)) : res (list tcol) :=
    match names, arrays with
    | n :: names, a :: arrays =>
      c <- match dget str_eqb dt n with Some d => cast_col a d | None => Ok (Plain a) end ;;
      l <- cast_dict names arrays dt ;; Ok (c :: l)
    | _, _ => Ok []
    end.
  Definition cast_all (dt : dtypes_arg) (names : list str) (arrays : list array) : res (list tcol) :=
    match dt with
    | DTNone => Ok (map Plain arrays)
    | DTOne d => mapM (fun a => cast_col a d) arrays
    | DTDict l => cast_dict names arrays l
    | DTSeq ds => if Nat.eqb (List.length ds) (List.length names) then cast_seq arrays ds else Err ValueError
    end.

  (** [pa.table(arrays, header)]: as many names as arrays, equal lengths. *)
  Definition table := list (str * tcol).
  Definition mk_table (names : list str) (l : list tcol) : res table :=
    if negb (Nat.eqb (List.length names) (List.length l)) then Err ValueError
    else match l with
         | [] => Ok []
         | c :: r => if forallb (fun x => col_len x =? col_len c) r then Ok (combine names l) else Err ArrowInvalid
         end.

  Fixpoint max_list (m : Z) (l : list Z) : Z := match l with [] => m | x :: r => max_list (Z.max m x) r end.
  (** common.py:184 [max(len(x) for x in columns.values())]. *)
  Definition max_len (d : cols) : res Z :=
    match map (fun p => se_len (snd p)) d with [] => Err ValueError | x :: r => Ok (max_list x r) end.
  Definition unnamed_names (n : nat) : list str := map (fun i => s "Unnamed. " ++ dec (Z.of_nat i)) (seq 0 n).

  (** common.py:186-207: first row, header height, names. *)
  Definition locate (op : ropts) (d : cols) : res (cols * Z) :=
    match r_lookup op with
    | None => Ok (d, 0)
    | Some pat => ' (d, r) <- find_header d pat (r_size op) ;; if r =? -1 then Err ValueError else Ok (d, r)
    end.
  Definition name_columns (op : ropts) (d : cols) (first_row : Z) : res (cols * (Z * list str)) :=
    match r_header op with
    | HInt n => if n =? 0 then Ok (d, (0, unnamed_names (List.length d)))
                else ' (d, l) <- make_header d first_row n ;; Ok (d, (n, l))
    | HList l => if Nat.eqb (List.length l) (List.length d) then Ok (d, (0, l)) else Err ValueError
    end.
  (** common.py:182-339, from the collected columns. *)
  Definition read_columns (op : ropts) (d : cols) : res table :=
    n <- max_len d ;;
    ' (d, first_row) <- locate op d ;;
    ' (d, (height, names)) <- name_columns op d first_row ;;
    fs <- filter_keys (r_filters op) names (sorted (keys d)) ;;
    let off := height + first_row + r_skip_after op in
    let len := n - first_row - height - r_skip_after op in
    ' (d, idx) <- row_mask (r_strategy op) d fs off len ;;
    ' (_, arrays) <- each (fun d k => arrow_of d k off len idx) d (sorted (keys d)) ;;
    l <- cast_all (r_dtypes op) names arrays ;;
    mk_table names l.
  (** The exception of the iteration, if any, comes after the cells it delivered. *)
  Definition read_trace (op : ropts) (t : trace) : res table :=
    d <- collect [] (fst t) ;;
    match snd t with Some e => Err e | None => read_columns op d end.
End Read.
