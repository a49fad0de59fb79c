(** What a table should hold, in terms of the cells of the sheet. *)
From Coq Require Import Sorted.
From Verif Require Import Py PyText Cell Casts Chunk ChunkSpec Utf8 Series SeriesSpec Reader.
Set Implicit Arguments. Unset Strict Implicit.

(** Arrow's type ids: positions in [enum Type] of arrow/type_fwd.h (checked against no
    installed copy: the sandbox has none). *)
Definition arrow_enum : list str := map s
  ["na"; "bool"; "uint8"; "int8"; "uint16"; "int16"; "uint32"; "int32"; "uint64"; "int64"; "half_float"; "float"; "double"; "string"; "binary"; "fixed_size_binary"; "date32"; "date64"; "timestamp"; "time32"; "time64"; "interval_months"; "interval_day_time"; "decimal128"; "decimal256"; "list"; "struct"; "sparse_union"; "dense_union"; "dictionary"; "map"; "extension"; "fixed_size_list"; "duration"; "large_string"; "large_binary"]%string.
Definition arrow_name (t : dtype) : str :=
  match t with TNull => s "na" | TI8 => s "int64" | TF8 => s "double" | TMs => s "timestamp" | TUtf8 => s "large_string" end.
Fixpoint position (n : str) (l : list str) : Z :=
  match l with [] => 0 | m :: l => if str_eqb n m then 0 else 1 + position n l end.
Definition arrow_id (t : dtype) : Z := position (arrow_name t) arrow_enum.
Lemma arrow_id_eq t : type_id t = arrow_id t.
Proof. destruct t; vm_compute; reflexivity. Qed.

(** The cells of column [k], in order of delivery; of those the ones that open a new row. *)
Definition column_cells (l : list cell) (k : Z) : list cell := filter (fun c => c_col c =? k) l.
Fixpoint firsts (last : Z) (l : list cell) : list cell :=
  match l with
  | [] => []
  | c :: r => if last <? c_row c then c :: firsts (c_row c) r else firsts last r
  end.
Definition content (l : list cell) (k : Z) : list cell := firsts (-1) (column_cells l k).
(** The columns of a sheet in ascending order. *)
Definition listing (l : list cell) (ks : list Z) : Prop :=
  StronglySorted Z.lt ks /\ forall k, In k ks <-> exists c, In c l /\ c_col c = k.
(** The columns in order of their first cells. *)
Fixpoint order_from (seen : list Z) (l : list cell) : list Z :=
  match l with
  | [] => seen
  | c :: r => order_from (if mem_Z (c_col c) seen then seen else seen ++ [c_col c]) r
  end.
Definition order (l : list cell) : list Z := order_from [] l.
(** Rows from the first to the last cell of a column; the largest such number. *)
Definition span (l : list cell) (k : Z) : Z :=
  match content l k with [] => 1 | c :: _ => last_row (content l k) - c_row c + 1 end.
Definition tallest (l : list cell) (ks : list Z) (n : Z) : Prop :=
  (exists k, In k ks /\ n = span l k) /\ forall k, In k ks -> span l k <= n.
(** The last row of the sheet with a cell. *)
Definition last_of_sheet (l : list cell) (r : Z) : Prop :=
  (exists c, In c l /\ c_row c = r) /\ forall c, In c l -> c_row c <= r.

Section Sheet.
  Context (o : oracle) (sc : sconf).
  Local Notation cf := (sc_conf sc).
  (** Well-formed cells. *)
  Definition sheet_ok (l : list cell) : bool := forallb (fun c => good o sc c && (0 <=? c_row c)) l.
  (** Are conversions of some cells attempted; the type of the array when they are not. *)
  Definition attempted (w : list tag) : bool :=
    let T := some_kind KTemp w in let N := some_kind KNum w in let S := some_kind KStr w in
    if T then cf_datetime cf && (N || S) else cf_numerics cf && (N && S).
  Definition natural (w : list tag) : dtype :=
    let T := some_kind KTemp w in let N := some_kind KNum w in let S := some_kind KStr w in
    match T, N, S with
    | true, false, false => TMs
    | false, true, false => if integral o cf w then TI8 else TF8
    | _, _, _ => TUtf8
    end.
  (** An array holds the given rows of a column; as text. *)
  Definition holds (l : list cell) (k off len : Z) (idx : option (list bool)) (a : array) : Prop :=
    let w := wanted o sc (content l k) off len idx in
    Forall2 (delivers o cf (a_type a)) w (a_vals a) /\
    (attempted w = false -> a_type a = natural w /\ Forall2 (fun x v => render o (a_type a) (t_val x) = Ok v) w (a_vals a)).
  Definition text_form (v : option aval) : option str :=
    match v with
    | None => None
    | Some (AS t) => Some t
    | Some (AF x) => Some (o_show_f o x)
    | Some (AI n) => Some (o_show_i o n)
    | Some (AT m) => Some (o_show_t o m)
    end.
  Definition holds_text (l : list cell) (k off len : Z) (ts : list (option str)) : Prop :=
    exists a, holds l k off len None a /\ ts = map text_form (a_vals a).

  (** *** Headers *)
  (** A header block: the header cells of one column, from the top. *)
  Definition block := list (option str).
  Definition blank (b : block) : bool := forallb (fun x => match x with None => true | _ => false end) b.
  (** Number of rows above the first cell. *)
  Fixpoint depth (b : block) : nat :=
    match b with None :: r => S (depth r) | _ => O end.
  (** What row [i] inherits from the columns to the left, nearest first. *)
  Fixpoint inherit (lefts : list block) (i : nat) : option str :=
    match lefts with
    | [] => None
    | b :: lefts => if blank b || (i <? depth b)%nat then inherit lefts i else nth i b None
    end.
  Definition header_cell (lefts : list block) (b : block) (i : nat) : option str :=
    if (i <? depth b)%nat then inherit lefts i else nth i b None.
  Definition nonempty (t : option str) : list str := match t with None | Some [] => [] | Some t => [t] end.
  Definition commas (l : list str) : str :=
    match l with [] => s "Unnamed" | t :: r => t ++ flat_map (fun u => s ", " ++ u) r end.
  (** The name of a column given the blocks to its lefts (nearest first) and its own. *)
  Definition title (lefts : list block) (b : block) : str :=
    if blank b then s "Unnamed" else commas (flat_map (fun i => nonempty (header_cell lefts b i)) (seq 0 (List.length b))).
  Definition titles (bs : list block) : list str :=
    map (fun i => title (rev (firstn i bs)) (nth i bs [])) (seq 0 (List.length bs)).

  (** *** The header row *)
  (** [r] is the index of the first element that satisfies [p]. *)
  Definition first_at {A} (p : A -> bool) (r : Z) (l : list A) : Prop :=
    exists before x after, l = before ++ x :: after /\ r = zlen before /\ p x = true /\ forallb (fun y => negb (p y)) before = true.
  Definition filled (x : option str) : bool := match x with Some _ => true | None => false end.
  Definition fits (p : str -> bool) (x : option str) : bool := match x with Some t => p t | None => false end.
  (** Row [r] is found by the lookup: first filled cell of a column; first match within the
      first column (in order of first cells) that has one. *)
  Definition found_col (l : list cell) (k size r : Z) : Prop :=
    exists ts, holds_text l k 0 size ts /\ first_at filled r ts.
  Definition found_text (l : list cell) (p : str -> bool) (size r : Z) : Prop :=
    exists before k after ts, order l = before ++ k :: after /\ holds_text l k 0 size ts /\ first_at (fits p) r ts /\
      forall j, In j before -> exists ts, holds_text l j 0 size ts /\ existsb (fits p) ts = false.
End Sheet.

Section Options.
  Context (ro : roracle) (sc : sconf).
  Local Notation o := (ro_o ro).
  Definition located (op : ropts) (l : list cell) (r : Z) : Prop :=
    match r_lookup op with
    | None => r = 0
    | Some (LCol k) => found_col o sc l k (r_size op) r
    | Some (LText t) => exists p, ro_search ro t = Some p /\ found_text o sc l p (r_size op) r
    end.
  (** Header height and names, for a header found at row [r]. *)
  Definition titled (op : ropts) (l : list cell) (ks : list Z) (r height : Z) (names : list str) : Prop :=
    match r_header op with
    | HList given => height = 0 /\ names = given /\ List.length given = List.length ks
    | HInt n =>
      height = n /\
      if n =? 0 then names = map (fun i => s "Unnamed. " ++ dec (Z.of_nat i)) (seq 0 (List.length ks))
      else exists blocks, Forall2 (fun k b => holds_text o sc l k r n b) ks blocks /\ names = titles blocks
    end.

  (** *** Row filters *)
  Definition matches (t : str) (name : str) : bool := match ro_match ro t with Some m => m name | None => false end.
  (** Does the filter choose the column at place [i] with this name? *)
  Definition chosen (fa : filters_arg) (i : nat) (name : str) : bool :=
    match fa with
    | FNone | FBad | FText [] => false
    | FText t => matches t name
    | FInts is => existsb (Z.eqb (Z.of_nat i)) is
    | FTexts l => existsb (fun t => matches t name) l
    end.
  Definition chosen_columns (fa : filters_arg) (names : list str) (ks : list Z) : list Z :=
    flat_map (fun i => if chosen fa i (nth i names []) then [nth i ks 0] else []) (seq 0 (List.length ks)).
  (** A row is kept: [bs] tells for each filter column whether it is filled there. *)
  Definition present (v : option aval) : bool :=
    match v with None => false | Some (AF x) => negb (Binary.is_nan 53 1024 x) | Some _ => true end.
  Fixpoint left_to_right (b : bool) (ops : list bop) (bs : list bool) : bool :=
    match ops, bs with
    | BAnd :: ops, c :: bs => left_to_right (b && c) ops bs
    | _ :: ops, c :: bs => left_to_right (b || c) ops bs
    | _, _ => b
    end.
  Definition keep (st : strategy) (bs : list bool) : bool :=
    match bs with
    | [] => true
    | [b] => b
    | b :: r => match st with
                | SOr => existsb (fun x => x) bs
                | SAnd => forallb (fun x => x) bs
                | SList ops => left_to_right b ops r
                | SBad => false
                end
    end.
  (** The mask over the rows [off .. off+len-1]. *)
  Definition kept_rows (op : ropts) (l : list cell) (fs : list Z) (off len : Z) (idx : option (list bool)) : Prop :=
    match fs, idx with
    | [], None => True
    | _ :: _, Some m =>
      exists arrays, Forall2 (fun k a => holds o sc l k off len None a) fs arrays /\
        m = map (fun i => keep (r_strategy op) (map (fun a => present (nth i (a_vals a) None)) arrays)) (seq 0 (Z.to_nat len)) /\
        In true m
    | _, _ => False
    end.

  (** *** Types *)
  Definition type_wanted (dt : dtypes_arg) (i : nat) (name : str) : option udt :=
    match dt with
    | DTNone => None
    | DTOne d => Some d
    | DTDict l => match find (fun p => str_eqb name (fst p)) l with Some (_, d) => Some d | None => None end
    | DTSeq l => nth_error l i
    end.
  (** The column [c] made of the array [a]. *)
  Definition converted (want : option udt) (a : array) (c : tcol ro) : Prop :=
    match want with
    | None => c = Plain ro a
    | Some d => if u_id d =? arrow_id (a_type a) then c = Plain ro a
                else ro_castable ro (a_type a) d = true /\ exists l, c = Cast d l /\
                     Forall2 (fun x y => match x, y with
                                         | None, None => True
                                         | Some v, Some w => ro_cast ro d v = Some w
                                         | _, _ => False
                                         end) (a_vals a) l
    end.
End Options.
