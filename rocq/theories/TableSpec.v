(** What reading a sheet returns or raises, computed from the cells of the sheet. *)
From Verif Require Import Py PyText Cell Casts Chunk ChunkSpec ReadSpec Utf8 Series SeriesSpec Reader ReaderSpec.
Set Implicit Arguments. Unset Strict Implicit.

(** *** The runs of a column *)
(** Cells in consecutive rows with equal types. *)
Definition follows (d c : cell) : bool := (c_row c =? c_row d + 1) && (c_xdt c =? c_xdt d).
Fixpoint grouped_from (g : list cell) (d : cell) (l : list cell) : list (list cell) :=
  match l with
  | [] => [g]
  | c :: r => if follows d c then grouped_from (g ++ [c]) c r else g :: grouped_from [c] c r
  end.
Definition grouped (l : list cell) : list (list cell) := match l with [] => [] | c :: r => grouped_from [c] c r end.
Section Runs.
  Context (o : oracle) (sc : sconf).
  (** Numbers of text workbooks are kept as text; all of a run are text if one is no number. *)
  Definition written (c : cell) : option str := match c_val c with VBytes b => decode8 b | VStr _ => None end.
  Definition textual (c : cell) : bool := negb (sc_binary sc) && ((c_xdt c =? 0x20) || (c_xdt c =? 0x24)).
  Definition legible (c : cell) : bool :=
    if textual c then match written c with Some _ => true | None => false end else good o sc c.
  Definition as_text (c : cell) : tag := match written c with Some t => text t | None => tnull end.
  Definition run_tags (g : list cell) : list tag :=
    if forallb (good o sc) g then map (tag_of o sc) g else map as_text g.
  (** A run for every group, and one of nulls for every gap. *)
  Fixpoint column_runs (row : Z) (gs : list (list cell)) : list (list tag) :=
    match gs with
    | [] => []
    | [] :: gs => column_runs row gs
    | (c :: g) :: gs =>
      some_run (repeat tnull (Z.to_nat (c_row c - row))) ++ run_tags (c :: g) :: column_runs (c_row c + zlen (c :: g)) gs
    end.
End Runs.

(** The index of the first element that satisfies [p]. *)
Definition place {A} (p : A -> bool) (l : list A) (d : A) : option nat := find (fun i => p (nth i l d)) (seq 0 (List.length l)).

Section Table.
  Context (ro : roracle) (sc : sconf) (l : list cell).
  Local Notation o := (ro_o ro).
  Local Notation cf := (sc_conf sc).
  Definition sheet_runs (k : Z) : list (list tag) := column_runs o sc 0 (grouped (content l k)).

  (** Windows read so far: columns, offset and number of rows. *)
  Definition history := list (list Z * (Z * Z)).
  Definition now (h : history) (k : Z) : list (list tag) :=
    fold_left (fun rs w => if mem_Z k (fst w) then runs_after 0 rs (fst (snd w)) (snd (snd w)) else rs) h (sheet_runs k).
  Definition array_at (h : history) (k off len : Z) (idx : option (list bool)) : res array :=
    expected o cf (chosen_runs (now h k) off len idx).
  Definition text_at (h : history) (k off len : Z) : res (list (option str)) :=
    a <- array_at h k off len None ;; Ok (map (text_form o) (a_vals a)).

  (** *** The first row *)
  Fixpoint search (p : str -> bool) (size : Z) (before ks : list Z) : res (Z * history) :=
    match ks with
    | [] => Err ValueError
    | k :: ks =>
      ts <- text_at [] k 0 size ;;
      match place (fits p) ts None with
      | Some i => Ok (Z.of_nat i, [(before ++ [k], (0, size))])
      | None => search p size (before ++ [k]) ks
      end
    end.
  Definition top_row (op : ropts) : res (Z * history) :=
    match r_lookup op with
    | None => Ok (0, [])
    | Some (LCol k) =>
      if mem_Z k (order l) then
        ts <- text_at [] k 0 (r_size op) ;;
        match place filled ts None with Some i => Ok (Z.of_nat i, [([k], (0, r_size op))]) | None => Err ValueError end
      else Err KeyError
    | Some (LText t) =>
      match ro_search ro t, order l with
      | Some p, ks => search p (r_size op) [] ks
      | None, k :: _ => _ <- text_at [] k 0 (r_size op) ;; Err ArrowInvalid
      | None, [] => Err ValueError
      end
    end.
  (** *** Height of the header, names *)
  Definition heading (op : ropts) (ks : list Z) (top : Z) (h : history) : res (Z * list str * history) :=
    match r_header op with
    | HList given => if Nat.eqb (List.length given) (List.length ks) then Ok (0, given, h) else Err ValueError
    | HInt n =>
      if n =? 0 then Ok (0, map (fun i => s "Unnamed. " ++ dec (Z.of_nat i)) (seq 0 (List.length ks)), h)
      else blocks <- mapM (fun k => text_at h k top n) ks ;; Ok (n, titles blocks, h ++ [(ks, (top, n))])
    end.
  (** *** Row filters *)
  (** A column is chosen by its name: the first pattern that matches or is invalid decides. *)
  Definition selects (pats : list str) (name : str) : res bool :=
    match find (fun t => match ro_match ro t with None => true | Some m => m name end) pats with
    | None => Ok false
    | Some t => match ro_match ro t with None => Err ReError | Some _ => Ok true end
    end.
  Definition marked (bs : list bool) (ks : list Z) : list Z :=
    flat_map (fun p => if fst p : bool then [snd p] else []) (combine bs ks).
  Definition filter_columns (fa : filters_arg) (names : list str) (ks : list Z) : res (list Z) :=
    match fa with
    | FBad => Err ValueError
    | FNone | FText [] => Ok []
    | FInts is => Ok (marked (map (fun i => existsb (Z.eqb (Z.of_nat i)) is) (seq 0 (List.length ks))) ks)
    | FText t => bs <- mapM (selects [t]) names ;; Ok (marked bs ks)
    | FTexts ts => bs <- mapM (selects ts) names ;; Ok (marked bs ks)
    end.
  (** Several filters: is there an operator for every further filter? *)
  Definition strategy_error (st : strategy) (more : nat) : option exn :=
    match st with
    | SOr | SAnd => None
    | SList ops => if Nat.eqb (List.length ops) more && forallb (fun x => match x with BOther => false | _ => true end) ops then None else Some ValueError
    | SBad => Some TypeError
    end.
  Definition equal_lengths {A} (ls : list (list A)) : bool :=
    match ls with [] => true | x :: r => forallb (fun y => Nat.eqb (List.length y) (List.length x)) r end.
  Definition rows_kept (st : strategy) (h : history) (fs : list Z) (off len : Z) : res (option (list bool)) :=
    match fs with
    | [] => Ok None
    | _ :: more =>
      arrays <- mapM (fun k => array_at h k off len None) fs ;;
      let vals := map (@a_vals) arrays in
      match (if Nat.eqb (List.length more) 0 then None else strategy_error st (List.length more)) with
      | Some e => Err e
      | None =>
        if equal_lengths vals then
          let m := map (fun i => keep st (map (fun v => present (nth i v None)) vals)) (seq 0 (List.length (hd [] vals))) in
          if existsb (fun b => b) m then Ok (Some m) else Err ValueError
        else Err ArrowInvalid
      end
    end.
  (** *** Types *)
  Definition convert (want : option udt) (a : array) : res (tcol ro) :=
    match want with
    | None => Ok (Plain ro a)
    | Some d =>
      if u_id d =? arrow_id (a_type a) then Ok (Plain ro a)
      else if ro_castable ro (a_type a) d && forallb (fun v => match v with Some v => match ro_cast ro d v with Some _ => true | None => false end | None => true end) (a_vals a)
      then Ok (Cast d (map (fun v => match v with Some v => ro_cast ro d v | None => None end) (a_vals a)))
      else Err ValueError
    end.
  Definition typed (dt : dtypes_arg) (names : list str) (arrays : list array) : res (list (tcol ro)) :=
    if match dt with DTSeq ds => Nat.eqb (List.length ds) (List.length names) | _ => true end then
      mapM (fun p => convert (type_wanted dt (fst (fst p)) (snd (fst p))) (snd p)) (combine (combine (seq 0 (List.length names)) names) arrays)
    else Err ValueError.

  (** *** The table, for columns [ks] and a tallest column of [n] rows *)
  Definition expected_table (op : ropts) (ks : list Z) (n : Z) : res (table ro) :=
    ' (top, h) <- top_row op ;;
    ' (height, names, h) <- heading op ks top h ;;
    fs <- filter_columns (r_filters op) names ks ;;
    let off := height + top + r_skip_after op in
    m <- rows_kept (r_strategy op) h fs off (n - off) ;;
    arrays <- mapM (fun k => array_at (h ++ [(fs, (off, n - off))]) k off (n - off) m) ks ;;
    cs <- typed (r_dtypes op) names arrays ;;
    if equal_lengths (map (fun a => a_vals a) arrays) then Ok (combine names cs) else Err ArrowInvalid.
End Table.

(** *** The same without memory *)
(** As if every step read the sheet anew. *)
Definition fresh_table (ro : roracle) (sc : sconf) (l : list cell) (op : ropts) (ks : list Z) (n : Z) : res (table ro) :=
  ' (top, _) <- top_row ro sc l op ;;
  ' (height, names, _) <- heading ro sc l op ks top [] ;;
  fs <- filter_columns ro (r_filters op) names ks ;;
  let off := height + top + r_skip_after op in
  m <- rows_kept ro sc l (r_strategy op) [] fs off (n - off) ;;
  arrays <- mapM (fun k => array_at ro sc l [] k off (n - off) m) ks ;;
  cs <- typed ro (r_dtypes op) names arrays ;;
  if equal_lengths (map (fun a => a_vals a) arrays) then Ok (combine names cs) else Err ArrowInvalid.

(** *** Causes of errors *)
(** The header leaves no row. *)
Definition nothing_left (ro : roracle) (sc : sconf) (l : list cell) (op : ropts) (ks : list Z) (n : Z) : Prop :=
  exists top h height names h', top_row ro sc l op = Ok (top, h) /\ heading ro sc l op ks top h = Ok (height, names, h') /\ n <= height + top + r_skip_after op.
Definition patterns (fa : filters_arg) : list str := match fa with FText t => [t] | FTexts ts => ts | _ => [] end.
Definition cause (ro : roracle) (sc : sconf) (l : list cell) (op : ropts) (ks : list Z) (n : Z) (e : exn) : Prop :=
  match e with
  | KeyError => exists k, r_lookup op = Some (LCol k) /\ ~ In k ks
  | ReError => exists t, In t (patterns (r_filters op)) /\ ro_match ro t = None
  | TypeError => r_strategy op = SBad /\ r_filters op <> FNone
  | ArrowNotImplemented =>
    cf_datetime (sc_conf sc) = true /\ exists k, In k ks /\ some_kind KTemp (List.concat (sheet_runs ro sc l k)) = true /\ some_raw (List.concat (sheet_runs ro sc l k)) = true
  | ArrowInvalid => (exists t, r_lookup op = Some (LText t) /\ ro_search ro t = None) \/ nothing_left ro sc l op ks n
  | ValueError =>
    r_lookup op <> None \/ (exists given, r_header op = HList given /\ List.length given <> List.length ks) \/ r_filters op <> FNone \/ r_dtypes op <> DTNone \/
    nothing_left ro sc l op ks n
  | _ => False
  end.
