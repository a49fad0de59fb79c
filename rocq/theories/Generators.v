(** Model of [iter_worksheet] as what it is, a generator, so that several iterations of one
    workbook object and its other operations can be interleaved: rxls/reader/xlsb.py:180-303 and
    rxls/reader/xlsx.py:255-460.  A schedule is any list of operations of Objects.v, of new
    generators, of [next] and of [close].

    Simplifications: as in Objects.v; an open member can be read on after its archive has been
    closed ([zipfile] counts its users); the .xlsx reader's threads finish (Queue.v), their row
    callbacks, which run at any time, are left out. *)
From Verif Require Import Py PyText Biff BiffRecs NumFmt Cell Xlsb Xlsx Sheets Workbook Objects.
Set Implicit Arguments. Unset Strict Implicit.

Inductive sop := SOp (p : op) | SMake (w : wopts) | SNext (i : nat) | SClose (i : nat).
(** What [next] does in the end. *)
Inductive answer := AYield (c : cell) | AStop | ARaise (e : exn).
Fixpoint put {A} (i : nat) (a : A) (l : list A) : list A :=
  match l, i with [], _ => [] | _ :: l, O => a :: l | x :: l, S i => x :: put i a l end.
(** What the user of generator [i] sees: row callbacks and cells, and the end. *)
Definition view := (list out * option (option exn))%type.

Section Gens.
  Context (expat : bytes -> list event * option exn) (nv : str -> bool).

  (** *** .xlsb *)
  (** Not started; suspended behind a [yield] (the records to come, the row number); over. *)
  Inductive bgen := GNew (w : wopts) | GRun (w : wopts) (rs : list record) (row : Z) | GEnd.
  (** xlsb.py:228-303: the record loop up to the next [yield]: number of callbacks, answer, generator. *)
  Fixpoint bresume (st : res (list bytes)) (ns : bytes -> bool) (w : wopts) (rs : list record) (row : Z) (empty : bool) : nat * answer * bgen :=
    match rs with
    | [] => (O, AStop, GEnd)
    | r :: rs =>
      if rec_id r =? 0 then
        let row := if negb empty || wo_tne w then row + 1 else row in
        if (0 <? xlsb_take (wo_skip w) (wo_take w)) && (xlsb_take (wo_skip w) (wo_take w) <? row) then (O, AStop, GEnd)
        else let '(k, a, g) := bresume st ns w rs row true in (if wo_skip w <=? row then S k else k, a, g)
      else if row <? wo_skip w then bresume st ns w rs row empty
      else if rec_id r =? 402 then (1%nat, AStop, GEnd)
      else match xlsb_cell st nv (fun _ => ns) (wo_skip w) (wo_cols w) 0 row r with
           | Err e => (O, ARaise e, GEnd)
           | Ok None => bresume st ns w rs row empty
           | Ok (Some c) => (O, AYield c, GRun w rs row)
           end
    end.
  (** xlsb.py:190-217: up to the open sheet part. *)
  Definition bopen (o : bobj) (w : wopts) : bobj * res bytes :=
    match bo_zf o with
    | None => (o, Err RuntimeError)
    | Some _ =>
      let '(c, r) := cached (bo_sheets o) (in_generator (z <- reach (bo_zf o) ;; b_sheets_of expat z)) in
      (set_sheets o c, d <- r ;; p <- select_sheet d (wo_sheet w) ;;
         if wo_skip w <? 0 then Err ValueError else if wo_take w <? 0 then Err ValueError else z <- reach (bo_zf o) ;; zopen z p)
    end.
  Definition bstyles (o : bobj) : option (list bytes) * res (list bytes) := cached (bo_styles o) (z <- reach (bo_zf o) ;; bbook_styles z).
  (** A stretch of the loop on the object as it is now; [styles] is evaluated iff its exception would be seen. *)
  Definition bstretch (o : bobj) (w : wopts) (rs : list record) (row : Z) : bobj * (nat * answer * bgen) :=
    let run st := bresume st (fun k => mem_str k (bo_nulls o)) w rs row false in
    let used := match run (Err Undefined) with (_, ARaise Undefined, _) => true | _ => false end in
    (if used then set_styles o (fst (bstyles o)) else o, run (snd (bstyles o))).
  Definition bnext (o : bobj) (g : bgen) : bobj * (nat * answer * bgen) :=
    match g with
    | GEnd => (o, (O, AStop, GEnd))
    | GRun w rs row => bstretch o w rs row
    | GNew w => match bopen o w with
                | (o, Err e) => (o, (O, ARaise e, GEnd))
                | (o, Ok b) => bstretch o w (scan_part xlsb_ids b) (-1)
                end
    end.
  Definition bsys := (bobj * list bgen)%type.
  Definition bsdo (y : bsys) (p : sop) : bsys * option (nat * answer) :=
    let '(o, gs) := y in
    match p with
    | SOp p => ((fst (bdo expat nv o p), gs), None)
    | SMake w => ((o, gs ++ [GNew w]), None)
    | SNext i => match nth_error gs i with
                 | None => (y, None)
                 | Some g => let '(o, (k, a, g)) := bnext o g in ((o, put i g gs), Some (k, a))
                 end
    | SClose i => ((o, put i GEnd gs), None)
    end.
  Fixpoint bsrun (y : bsys) (l : list sop) : bsys := match l with [] => y | p :: l => bsrun (fst (bsdo y p)) l end.
  Definition is_next (i : nat) (p : sop) : bool := match p with SNext j => Nat.eqb i j | _ => false end.
  (** What is seen of generator [i], up to its end. *)
  Fixpoint bseen (i : nat) (y : bsys) (l : list sop) : view :=
    match l with
    | [] => ([], None)
    | p :: l =>
      match is_next i p, snd (bsdo y p) with
      | true, Some (k, AYield c) => let '(o, e) := bseen i (fst (bsdo y p)) l in (repeat OCall k ++ OCell c :: o, e)
      | true, Some (k, AStop) => (repeat OCall k, Some None)
      | true, Some (k, ARaise e) => (repeat OCall k, Some (Some e))
      | _, _ => bseen i (fst (bsdo y p)) l
      end
    end.

  (** *** .xlsx *)
  (** Not started; started: the cells still to come out of the queue; over. *)
  Inductive xgen := XNew (w : wopts) | XRun (cs : list cell) | XEnd.
  (** xlsx.py:265-458. *)
  Definition xopen (o : xobj) (w : wopts) : xobj * res (list cell) :=
    match xo_zf o with
    | None => (o, Err RuntimeError)
    | Some _ =>
      let '(c, r) := cached (xo_sheets o) (z <- reach (xo_zf o) ;; xbook_sheets expat z) in
      let o := mkXO (xo_zf o) c (xo_shared o) (xo_styles o) in
      match d <- r ;; p <- select_sheet d (wo_sheet w) ;;
            if wo_skip w <? 0 then Err ValueError else if wo_take w <? 0 then Err ValueError else z <- reach (xo_zf o) ;; zopen z p with
      | Err e => (o, Err e)
      | Ok b =>
        let '(c, r) := cached (xo_styles o) (z <- reach (xo_zf o) ;; xbook_styles expat z) in
        (mkXO (xo_zf o) (xo_sheets o) (xo_shared o) c,
         st <- r ;; let '(es, e) := expat b in
         Ok (Cell.cells_of (fst (xlsx_iter (style_get st) nv (wo_skip w) (wo_take w) (wo_tne w) (wo_cols w) es e))))
      end
    end.
  (** xlsx.py:460 [yield from iter(o_q.get, sentinel)]. *)
  Definition xtake (cs : list cell) : answer * xgen := match cs with [] => (AStop, XEnd) | c :: cs => (AYield c, XRun cs) end.
  Definition xnext (o : xobj) (g : xgen) : xobj * (answer * xgen) :=
    match g with
    | XEnd => (o, (AStop, XEnd))
    | XRun cs => (o, xtake cs)
    | XNew w => match xopen o w with (o, Err e) => (o, (ARaise e, XEnd)) | (o, Ok cs) => (o, xtake cs) end
    end.
  Definition xsys := (xobj * list xgen)%type.
  Definition xsdo (y : xsys) (p : sop) : xsys * option answer :=
    let '(o, gs) := y in
    match p with
    | SOp p => ((fst (xdo expat nv o p), gs), None)
    | SMake w => ((o, gs ++ [XNew w]), None)
    | SNext i => match nth_error gs i with
                 | None => (y, None)
                 | Some g => let '(o, (a, g)) := xnext o g in ((o, put i g gs), Some a)
                 end
    | SClose i => ((o, put i XEnd gs), None)
    end.
  Fixpoint xsrun (y : xsys) (l : list sop) : xsys := match l with [] => y | p :: l => xsrun (fst (xsdo y p)) l end.
  Fixpoint xseen (i : nat) (y : xsys) (l : list sop) : view :=
    match l with
    | [] => ([], None)
    | p :: l =>
      match is_next i p, snd (xsdo y p) with
      | true, Some (AYield c) => let '(o, e) := xseen i (fst (xsdo y p)) l in (OCell c :: o, e)
      | true, Some AStop => ([], Some None)
      | true, Some (ARaise e) => ([], Some (Some e))
      | _, _ => xseen i (fst (xsdo y p)) l
      end
    end.
End Gens.
