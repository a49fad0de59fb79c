(** Claim C27 for binary sheets, exactly: which cells the null values remove when the set of null
    shared strings is filled at the first delivered cell. *)
From Verif Require Import Py PyFacts Biff BiffRecs Utf16 Cell Xlsb XlsbSpec XlsbProofs XlsbParts PropsXlsb.
From Coq Require Import ZifyBool.

(** ** Specification *)
(** A reference to a shared string whose index is null. *)
Definition null_ref (nul : bytes -> bool) (c : cell) : bool :=
  (c_xdt c =? 0x11) && match c_val c with VBytes v => nul v | _ => false end.
Definition drop_nulls (nul : bytes -> bool) (l : list out) : list out :=
  filter (fun x => match x with OCell c => negb (null_ref nul c) | OCall => true end) l.
(** The first cell stays whatever it is. *)
Fixpoint spare_first (nul : bytes -> bool) (l : list out) : list out :=
  match l with
  | [] => []
  | OCall :: r => OCall :: spare_first nul r
  | OCell c :: r => OCell c :: drop_nulls nul r
  end.

(** ** Proofs *)
Section Exact.
  Context (styles : res (list bytes)) (nv : str -> bool) (nul : bytes -> bool) (skip take : Z) (sc : list Z).
  Local Notation never := (xlsb_loop styles nv (fun _ _ => false) skip take true sc).
  Local Notation timed := (xlsb_loop styles nv (filled_after_first nul) skip take true sc).
  Lemma cell_never n m row r : xlsb_cell styles nv (fun _ _ => false) skip sc n row r = xlsb_cell styles nv (fun _ _ => false) skip sc m row r.
  Proof. reflexivity. Qed.
  Lemma cell_first row r : xlsb_cell styles nv (filled_after_first nul) skip sc 0 row r = xlsb_cell styles nv (fun _ _ => false) skip sc 0 row r.
  Proof. reflexivity. Qed.
  Lemma cell_later n row r : xlsb_cell styles nv (filled_after_first nul) skip sc (S n) row r =
    match xlsb_cell styles nv (fun _ _ => false) skip sc 0 row r with
    | Ok (Some c) => if null_ref nul c then Ok None else Ok (Some c)
    | x => x
    end.
  Proof.
    unfold xlsb_cell. destruct (unpack_I (sub (rec_data r) 0 4)) as [col|e]; [|reflexivity]. cbn [bind].
    destruct (mem_Z col sc); [reflexivity|]. destruct styles as [st|e]; [|reflexivity]. cbn [bind].
    destruct ((rec_id r =? 6) || (rec_id r =? 8)).
    - destruct (unpack_I (sub (rec_data r) 8 12)) as [k|e]; [|reflexivity]. cbn [bind]. destruct (decode16 _) as [t|e]; [|reflexivity]. cbn [bind].
      now destruct (nv t).
    - destruct ((rec_id r =? 5) || (rec_id r =? 9)); [now destruct (mem_str _ st)|].
      destruct ((rec_id r =? 4) || (rec_id r =? 10)); [reflexivity|].
      destruct (rec_id r =? 7); [|now destruct (mem_str _ st)].
      cbn [filled_after_first]. unfold null_ref. cbn [c_xdt c_val]. change (Z.lor TYPE_STRING REPR_SHARED =? 17) with true. cbn [andb]. now destruct (nul _).
  Qed.
  Lemma never_any rs : forall row a b n m, never rs row a n = never rs row b m.
  Proof.
    induction rs as [|r rs IH]; intros row a b n m; [reflexivity|]. cbn [xlsb_loop]. rewrite !orb_true_r.
    destruct (rec_id r =? 0); [now rewrite (IH _ true true n m)|]. destruct (row <? skip); [apply IH|]. destruct (rec_id r =? 402); [reflexivity|].
    rewrite (cell_never n m). destruct (xlsb_cell _ _ _ _ _ _ _ _) as [[c|]|e]; [now rewrite (IH _ false false (S n) (S m))|apply IH|reflexivity].
  Qed.
  Lemma later_exact rs : forall row a b n, timed rs row a (S n) = (drop_nulls nul (fst (never rs row b 0%nat)), snd (never rs row b 0%nat)).
  Proof.
    induction rs as [|r rs IH]; intros row a b n; [reflexivity|]. cbn [xlsb_loop]. rewrite !orb_true_r.
    destruct (rec_id r =? 0).
    - destruct ((0 <? xlsb_take skip take) && (xlsb_take skip take <? row + 1)); [reflexivity|]. rewrite (IH _ true true n).
      destruct (never rs (row + 1) true 0%nat) as [o e]. cbn [fst snd]. now destruct (skip <=? row + 1).
    - destruct (row <? skip); [apply IH|]. destruct (rec_id r =? 402); [reflexivity|]. rewrite cell_later.
      destruct (xlsb_cell styles nv (fun _ _ => false) skip sc 0 row r) as [[c|]|e]; [|apply IH|reflexivity].
      rewrite (never_any rs row false false 1 0). destruct (null_ref nul c) eqn:N.
      + rewrite (IH row a false n). destruct (never rs row false 0%nat) as [o e]. unfold drop_nulls. cbn [fst snd filter]. now rewrite N.
      + rewrite (IH row false false (S n)). destruct (never rs row false 0%nat) as [o e]. unfold drop_nulls. cbn [fst snd filter]. now rewrite N.
  Qed.
  Lemma first_exact rs : forall row a b, timed rs row a 0%nat = (spare_first nul (fst (never rs row b 0%nat)), snd (never rs row b 0%nat)).
  Proof.
    induction rs as [|r rs IH]; intros row a b; [reflexivity|]. cbn [xlsb_loop]. rewrite !orb_true_r.
    destruct (rec_id r =? 0).
    - destruct ((0 <? xlsb_take skip take) && (xlsb_take skip take <? row + 1)); [reflexivity|]. rewrite (IH _ true true).
      destruct (never rs (row + 1) true 0%nat) as [o e]. cbn [fst snd]. now destruct (skip <=? row + 1).
    - destruct (row <? skip); [apply IH|]. destruct (rec_id r =? 402); [reflexivity|]. rewrite cell_first.
      destruct (xlsb_cell styles nv (fun _ _ => false) skip sc 0 row r) as [[c|]|e]; [|apply IH|reflexivity].
      rewrite (never_any rs row false false 1 0), (later_exact rs row false false 0). destruct (never rs row false 0%nat) as [o e]. reflexivity.
  Qed.
End Exact.
(** The first cell in any mode. *)
Lemma first_cell styles nv nul skip take tne sc rs : forall row a, 
  hd_error (cells_of (fst (xlsb_loop styles nv (filled_after_first nul) skip take tne sc rs row a 0))) =
  hd_error (cells_of (fst (xlsb_loop styles nv (fun _ _ => false) skip take tne sc rs row a 0))).
Proof.
  induction rs as [|r rs IH]; intros row a; [reflexivity|]. cbn [xlsb_loop]. destruct (rec_id r =? 0).
  - set (row' := if _ || _ then _ else _). destruct ((0 <? xlsb_take skip take) && _); [reflexivity|]. specialize (IH row' true).
    destruct (xlsb_loop _ _ (filled_after_first nul) _ _ _ _ _ _ _ _) as [o e], (xlsb_loop _ _ (fun _ _ => false) _ _ _ _ _ _ _ _) as [o' e']. cbn [fst] in *.
    destruct (skip <=? row'); exact IH.
  - destruct (row <? skip); [apply IH|]. destruct (rec_id r =? 402); [reflexivity|]. rewrite cell_first.
    destruct (xlsb_cell _ _ _ _ _ _ _ _) as [[c|]|e]; [|apply IH|reflexivity].
    destruct (xlsb_loop _ _ (filled_after_first nul) _ _ _ _ _ _ _ _) as [o e], (xlsb_loop _ _ (fun _ _ => false) _ _ _ _ _ _ _ _) as [o' e']. reflexivity.
Qed.

(** ** C27 *)
(** Kept rows, for arbitrary bytes, styles and windows, exceptions included: of what is delivered
    without null shared strings, exactly the references to null strings are missing, except for the
    first cell, which is delivered whatever it is. *)
Theorem C27_xlsb_exact : forall styles nv nul skip take cols part,
  let all := xlsb_iter styles nv (fun _ _ => false) skip take true cols part in
  xlsb_iter styles nv (filled_after_first nul) skip take true cols part = (spare_first nul (fst all), snd all).
Proof.
  intros. subst all. unfold xlsb_iter. destruct (skip <? 0); [reflexivity|]. destruct (take <? 0); [reflexivity|]. apply first_exact.
Qed.
Print Assumptions C27_xlsb_exact.
(** So a null first cell is always delivered, in every mode, whatever the null values. *)
Theorem C27_xlsb_first_cell_general_refuted : forall styles nv nul skip take tne cols part c rest,
  cells_of (fst (xlsb_iter styles nv (fun _ _ => false) skip take tne cols part)) = c :: rest -> null_ref nul c = true ->
  exists rest', cells_of (fst (xlsb_iter styles nv (filled_after_first nul) skip take tne cols part)) = c :: rest'.
Proof.
  intros styles nv nul skip take tne cols part c rest H _. revert H. unfold xlsb_iter. destruct (skip <? 0); [discriminate|]. destruct (take <? 0); [discriminate|]. intro H.
  pose proof (first_cell styles nv nul skip take tne cols (scan_part xlsb_ids part) (-1) false) as F. rewrite H in F. cbn [hd_error] in F.
  revert F. generalize (cells_of (fst (xlsb_loop styles nv (filled_after_first nul) skip take tne cols (scan_part xlsb_ids part) (-1) false 0))).
  intros [|c' rest'] F; [discriminate|]. exists rest'. injection F as ->. reflexivity.
Qed.
Print Assumptions C27_xlsb_first_cell_general_refuted.
(** Two references to the same null string: the first stays, the second goes. *)
Example C27_xlsb_exact_example :
  let nul := fun k => mem_str k [le4 0] in let all := xlsb_iter (Ok []) (fun _ => false) (fun _ _ => false) 0 0 true [] ex_null_part in
  map (null_ref nul) (cells_of (fst all)) = [true; true] /\
  map (fun c => (c_row c, c_col c)) (cells_of (fst (xlsb_iter (Ok []) (fun _ => false) (filled_after_first nul) 0 0 true [] ex_null_part))) = [(0, 0)].
Proof. split; vm_compute; reflexivity. Qed.
