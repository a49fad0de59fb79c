(** C109: what lies behind the row limit is not looked at. *)
From Verif Require Import Py PyFacts PyText Biff BiffSpec BiffProofs BiffAny BiffRecs Utf16 Cell Xlsb Xlsx RobustSpec.
From Coq Require Import ZifyBool.
Set Implicit Arguments. Unset Strict Implicit.

(** ** .xlsb *)
Lemma scan_split ids rs b t : ids <> [] -> framed rs b -> bytes_ok t = true -> scan_part ids (b ++ t) = only_ids ids rs ++ scan_part ids t.
Proof.
  intros N F T. destruct ids as [|i ids]; [easy|]. destruct (scanned_bytes T) as [(rs2 & b2 & t2 & F2 & E & S) H]. 
  destruct (H _ _ _ F2 E S) as [_ H2]. subst t.
  assert (B : bytes_ok (b ++ b2 ++ t2) = true) by (rewrite bytes_ok_app, (framed_bytes F); exact T).
  destruct (scanned_bytes B) as [_ H3]. destruct (H3 _ _ _ (framed_app F F2) (app_assoc _ _ _) S) as [_ H4].
  unfold scan_part. rewrite H2, H4. unfold only_ids. now rewrite filter_app.
Qed.
Lemma part_split rs b t : framed rs b -> bytes_ok t = true -> scan_part xlsb_ids (b ++ t) = only_ids xlsb_ids rs ++ scan_part xlsb_ids t.
Proof. apply scan_split. discriminate. Qed.
Lemma part_whole rs b : framed rs b -> scan_part xlsb_ids b = only_ids xlsb_ids rs.
Proof. intro F. pose proof (part_split (t := []) F eq_refl) as E. rewrite app_nil_r in E. change (scan_part xlsb_ids []) with (@nil record) in E. now rewrite app_nil_r in E. Qed.
Section Xlsb.
  Context (styles : res (list bytes)) (nv : str -> bool) (ns : nat -> bytes -> bool) (skip take : Z) (tne : bool) (cols : list Z).
  Notation loop := (xlsb_loop styles nv ns skip take tne cols).
  Notation X := (xlsb_take skip take).
  Lemma cell_row n row r c : xlsb_cell styles nv ns skip cols n row r = Ok (Some c) -> c_row c = row - skip.
  Proof.
    unfold xlsb_cell. destruct (unpack_I _) as [col|]; [|discriminate]. cbn [bind]. destruct (mem_Z col cols); [discriminate|].
    destruct styles as [st|]; [|discriminate]. cbn [bind].
    repeat match goal with |- context [if ?x then _ else _] => destruct x end; try (intros [= <-]; reflexivity); try discriminate.
    - destruct (unpack_I _); [|discriminate]. cbn [bind]. destruct (decode16 _); [|discriminate]. cbn [bind]. destruct (nv _); [discriminate|]. intros [= <-]; reflexivity.
  Qed.
  Lemma loop_stop r t rs : 0 < X -> rec_id r = 0 -> forall row empty n,
    (exists c, In c (Cell.cells_of (fst (loop rs row empty n))) /\ take <= c_row c) \/ X <= row /\ empty = false ->
    loop (rs ++ r :: t) row empty n = loop rs row empty n.
  Proof.
    intros Hx Hr. induction rs as [|q rs IH]; intros row empty n H.
    - destruct H as [(c & [] & _)|[H ->]]. cbn [app xlsb_loop]. rewrite Hr. cbn [Z.eqb negb orb]. replace ((0 <? X) && (X <? row + 1)) with true by lia. reflexivity.
    - cbn [app xlsb_loop] in *. destruct (rec_id q =? 0).
      + set (row' := if negb empty || tne then row + 1 else row) in *. destruct ((0 <? X) && (X <? row')) eqn:S; [reflexivity|].
        rewrite IH; [reflexivity|]. left. destruct H as [(c & Hc & L)|[H ->]].
        * exists c. split; [|exact L]. destruct (loop rs row' true n) as [o e]. cbn [fst]. now destruct (skip <=? row').
        * unfold row' in S. cbn in S. lia.
      + destruct (row <? skip) eqn:K; [apply IH; exact H|]. destruct (rec_id q =? 402); [reflexivity|].
        destruct (xlsb_cell styles nv ns skip cols n row q) as [[c0|]|] eqn:E; [|apply IH; exact H|reflexivity].
        rewrite IH; [reflexivity|]. destruct H as [(c & Hc & L)|[H _]]; [|right; now split].
        destruct (loop rs row false (S n)) as [o e] eqn:El. cbn [fst] in *. destruct Hc as [<-|Hc].
        * right. apply cell_row in E. split; [unfold xlsb_take; lia|reflexivity].
        * left. exists c. now split.
  Qed.
  Definition marks (rs : list record) : Z := zlen (filter (fun r => rec_id r =? 0) rs).
  Lemma loop_count t rs : 0 < X -> tne = true -> forall row empty n, row <= X -> X - row < marks rs ->
    loop (rs ++ t) row empty n = loop rs row empty n.
  Proof.
    intros Hx Hn. induction rs as [|q rs IH]; intros row empty n L H.
    - cbn in H. lia.
    - cbn [app xlsb_loop]. unfold marks in H. cbn [filter] in H. destruct (rec_id q =? 0) eqn:Q.
      + rewrite zlen_cons in H. fold (marks rs) in H. replace (negb empty || tne) with true by (rewrite Hn; now destruct empty).
        destruct ((0 <? X) && (X <? row + 1)) eqn:S; [reflexivity|]. now rewrite IH by lia.
      + fold (marks rs) in H. destruct (row <? skip); [now apply IH|]. destruct (rec_id q =? 402); [reflexivity|].
        destruct (xlsb_cell _ _ _ _ _ n row q) as [[c0|]|]; [|now apply IH|reflexivity]. now rewrite IH.
  Qed.
  Lemma loop_prefix t rs : forall row empty n, extends (loop rs row empty n) (loop (rs ++ t) row empty n).
  Proof.
    induction rs as [|q rs IH]; intros row empty n.
    - cbn [app xlsb_loop]. split; [now exists (fst (loop t row empty n))|intro N; now elim N].
    - assert (P : forall o row empty n, extends (let '(o', e) := loop rs row empty n in (o ++ o', e)) (let '(o', e) := loop (rs ++ t) row empty n in (o ++ o', e))).
      { intros o row' empty' n'. destruct (IH row' empty' n') as [[rest E] F]. destruct (loop rs row' empty' n') as [a x], (loop (rs ++ t) row' empty' n') as [b y]. cbn [fst snd] in *.
        split; cbn [fst snd]; [exists rest; now rewrite E, app_assoc|]. intro N. now injection (F N) as <- <-. }
      cbn [app xlsb_loop]. destruct (rec_id q =? 0).
      + set (row' := if negb empty || tne then row + 1 else row) in *. destruct ((0 <? X) && (X <? row')) eqn:S.
        * split; [now exists []|intro N; now elim N].
        * destruct (skip <=? row'); [exact (P [OCall] row' true n)|exact (P [] row' true n)].
      + destruct (row <? skip); [apply IH|]. destruct (rec_id q =? 402); [split; [now exists []|reflexivity]|].
        destruct (xlsb_cell _ _ _ _ _ n row q) as [[c0|]|]; [exact (P [OCell c0] row false (S n))|apply IH|split; [now exists []|reflexivity]].
  Qed.
End Xlsb.

(** ** .xlsx *)
(** Callbacks before the first cell. *)
Fixpoint calls_before (o : list out) : Z :=
  match o with OCall :: o => 1 + calls_before o | _ => 0 end.
Lemma calls_nonneg o : 0 <= calls_before o.
Proof. induction o as [|[c|] o IH]; cbn [calls_before]; lia. Qed.
Section Xlsx.
  Context (styles : str -> option Z) (nv : str -> bool) (skip : Z) (tne : bool) (cols : list Z).
  Notation loop := (worker_loop styles nv skip tne cols).
  Lemma worker_stop t t' f f' g es : forall w, 0 < w_take w -> w_crow w <= w_row w ->
    (exists c, In c (Cell.cells_of (fst (loop es g w))) /\
       w_take w + (if tne && w_empty w then 2 * calls_before (fst (loop es g w)) else 0) <= c_row c + skip) \/ w_empty w = false /\ w_take w <= w_row w ->
    loop (es ++ EEnd (s "row") :: t) f w = loop (es ++ EEnd (s "row") :: t') f' w.
  Proof.
    induction es as [|e es IH]; intros w T C H.
    - destruct H as [(c & [] & _)|[E L]]. cbn [app worker_loop]. unfold cell_eh. rewrite str_eqb_refl. rewrite E. cbn [negb orb andb].
      now replace ((0 <? w_take w) && (w_take w <? w_row w + 1)) with true by lia.
    - cbn [app worker_loop] in *. destruct e as [tag a|x|tag].
      + destruct (cell_sh styles skip w tag a) as [w'|] eqn:E in *; [|reflexivity].
        assert (K : w_row w' = w_row w /\ w_empty w' = w_empty w /\ w_take w' = w_take w /\ w_crow w' <= w_row w').
        { unfold cell_sh in E. destruct (w_tag w); [injection E as <-; cbn; auto|]. destruct (str_eqb tag (s "c") && (skip <=? w_row w)); [|injection E as <-; auto].
          destruct (attr_req a (s "r")); [|discriminate]. injection E as <-. cbn. repeat split; lia. }
        destruct K as (K1 & K2 & K3 & K4). apply IH; rewrite ?K3; [exact T|exact K4|]. rewrite K2, K1. exact H.
      + assert (K : (exists c, cell_th nv skip cols w x = (mkW (w_row w) false (w_take w) (w_crow w) (w_ctyp w) (w_col w) (w_tag w), [OCell c]) /\ c_row c = w_crow w - skip) \/ cell_th nv skip cols w x = (w, [])).
        { unfold cell_th. cbv zeta. destruct (w_row w <? skip); [now right|]. destruct (match w_tag w with Some g => str_eqb g (s "v") | None => false end && negb (str_eqb (strip x) [])); [|now right]. destruct (nv _); [now right|].
          destruct (mem_Z _ cols); [now right|]. left. eexists. split; reflexivity. }
        destruct K as [(c0 & K & R)|K]; rewrite K in *.
        * rewrite (IH (mkW (w_row w) false (w_take w) (w_crow w) (w_ctyp w) (w_col w) (w_tag w))); [reflexivity|exact T|exact C|]. cbn [w_take w_empty w_row]. rewrite andb_false_r.
          destruct H as [(c & Hc & L)|[_ L]]; [|right; now split].
          destruct (loop es g _) as [o e]. cbn [fst app] in *. destruct Hc as [<-|Hc].
          -- right. split; [reflexivity|]. cbn [calls_before] in L. destruct (tne && w_empty w); lia.
          -- left. exists c. split; [exact Hc|]. cbn [calls_before] in L. destruct (tne && w_empty w); lia.
        * rewrite (IH w); [reflexivity|exact T|exact C|]. destruct (loop es g w) as [o e]. exact H.
      + unfold cell_eh in *. destruct (str_eqb tag (s "row")) eqn:Et in *.
        * set (row := if negb (w_empty w) || tne then w_row w + 1 else w_row w) in *. set (take := if w_empty w && tne then w_take w + 2 else w_take w) in *.
          destruct ((0 <? take) && (take <? row)) eqn:S in *; [reflexivity|].
          rewrite (IH (mkW row (w_empty w) take (w_crow w) (w_ctyp w) (w_col w) (w_tag w))); [reflexivity| | |]; cbn [w_take w_empty w_row w_crow].
          -- unfold take. destruct (w_empty w && tne); lia.
          -- unfold row. destruct (negb (w_empty w) || tne); lia.
          -- destruct H as [(c & Hc & L)|[E L]].
             ++ left. exists c. destruct (loop es g _) as [o e]. cbn [fst app calls_before] in *. split; [exact Hc|]. unfold take.
                destruct tne, (w_empty w); cbn [andb] in *; lia.
             ++ unfold row, take in S. rewrite E in S. cbn in S. lia.
        * destruct (str_eqb tag (s "c")) eqn:Ec in *.
          -- rewrite (IH (mkW (w_row w) (w_empty w) (w_take w) (w_crow w) 0 (w_col w) None)); [reflexivity|exact T|exact C|]. cbn [w_take w_empty w_row].
             destruct (loop es g _) as [o e]. exact H.
          -- rewrite (IH w); [reflexivity|exact T|exact C|]. destruct (loop es g w) as [o e]. exact H.
  Qed.
End Xlsx.

(** * C109 *)
(** .xlsb.  [b]: complete records, from which a cell of the last row asked for has been delivered;
    then the record that begins another row; then anything at all. *)
Theorem C109_xlsb : forall styles nv ns skip take tne cols rs b r m c t,
  framed rs b -> frame r m -> rec_id r = 0 -> bytes_ok t = true -> 0 <= skip -> 0 <= take -> 0 < take + skip ->
  In c (Cell.cells_of (fst (xlsb_iter styles nv ns skip take tne cols b))) -> take <= c_row c ->
  xlsb_iter styles nv ns skip take tne cols (b ++ m ++ t) = xlsb_iter styles nv ns skip take tne cols b.
Proof.
  intros styles nv ns skip take tne cols rs b r m c t F M R T K0 T0 X Hc L. unfold xlsb_iter in *. replace (skip <? 0) with false in * by lia. replace (take <? 0) with false in * by lia.
  assert (Fm : framed [r] m) by (rewrite <- (app_nil_r m); now repeat constructor).
  assert (Tm : bytes_ok (m ++ t) = true) by (rewrite bytes_ok_app, (framed_bytes Fm); exact T). rewrite (part_split F Tm), (part_split Fm T).
  rewrite (part_whole F) in *.
  assert (O : only_ids xlsb_ids [r] = [r]) by (unfold only_ids; cbn [filter]; destruct (in_dec _ _ _) as [|N]; [reflexivity|elim N; rewrite R; now left]).
  rewrite O. apply (@loop_stop styles nv ns skip take tne cols r (scan_part xlsb_ids t)); [exact X|exact R|]. left. now exists c.
Qed.
Print Assumptions C109_xlsb.
(** With empty rows kept the row marks can be counted: one for each row up to the limit and one more. *)
Theorem C109_xlsb_rows : forall styles nv ns skip take cols rs b t,
  framed rs b -> bytes_ok t = true -> 0 <= skip -> 0 <= take -> 0 < take + skip ->
  take + skip + 2 <= zlen (filter (fun r => rec_id r =? 0) rs) ->
  xlsb_iter styles nv ns skip take true cols (b ++ t) = xlsb_iter styles nv ns skip take true cols b.
Proof.
  intros styles nv ns skip take cols rs b t F T K0 T0 X L. unfold xlsb_iter in *. replace (skip <? 0) with false in * by lia. replace (take <? 0) with false in * by lia.
  rewrite (part_split F T).
  rewrite (part_whole F) in *.
  apply loop_count; [exact X|reflexivity|unfold xlsb_take; lia|]. unfold marks.
  assert (Eq : filter (fun r => rec_id r =? 0) (only_ids xlsb_ids rs) = filter (fun r => rec_id r =? 0) rs).
  { clear. induction rs as [|r rs IH]; [reflexivity|]. unfold only_ids in *. cbn [filter]. destruct (in_dec Z.eq_dec (rec_id r) xlsb_ids) as [I|N]; cbn [filter].
    - now rewrite IH.
    - rewrite IH. destruct (rec_id r =? 0) eqn:E; [elim N; left; lia|reflexivity]. }
  rewrite Eq. unfold xlsb_take. lia.
Qed.
Print Assumptions C109_xlsb_rows.
(** In general what is delivered for the first records of a part is the beginning of what is
    delivered for the part. *)
Theorem C109_xlsb_prefix : forall styles nv ns skip take tne cols rs b t, framed rs b -> bytes_ok t = true ->
  extends (xlsb_iter styles nv ns skip take tne cols b) (xlsb_iter styles nv ns skip take tne cols (b ++ t)).
Proof.
  intros styles nv ns skip take tne cols rs b t F T. unfold xlsb_iter. destruct (skip <? 0); [split; [now exists []|reflexivity]|]. destruct (take <? 0); [split; [now exists []|reflexivity]|].
  rewrite (part_split F T).
  rewrite (part_whole F).
  apply loop_prefix.
Qed.
Print Assumptions C109_xlsb_prefix.
(** .xlsx.  Keeping empty rows, every row before the first cell moves the limit by two. *)
Theorem C109_xlsx : forall styles nv skip take tne cols es g c t t' f f', 0 <= skip -> 0 <= take -> 0 < take + skip ->
  let o := fst (xlsx_iter styles nv skip take tne cols es g) in
  In c (Cell.cells_of o) -> take + (if tne then 2 * (calls_before o - 1) else 0) <= c_row c ->
  xlsx_iter styles nv skip take tne cols (es ++ EEnd (s "row") :: t) f = xlsx_iter styles nv skip take tne cols (es ++ EEnd (s "row") :: t') f'.
Proof.
  intros styles nv skip take tne cols es g c t t' f f' K0 T0 X. cbv zeta. unfold xlsx_iter. replace (skip <? 0) with false by lia. replace (take <? 0) with false by lia. unfold worker.
  intros Hc L. rewrite (@worker_stop styles nv skip tne cols t t' f f' g es (mkW 0 true (take + skip) 0 0 [] None)); [reflexivity|exact X|cbn; lia|].
  left. exists c. destruct (worker_loop _ _ _ _ _ es g _) as [o e]. cbn [fst calls_before w_take w_empty] in *. split; [exact Hc|]. rewrite andb_true_r. destruct tne; lia.
Qed.
Print Assumptions C109_xlsx.
(** With an empty row before the first cell the limit is not kept (rows past it are delivered, C17),
    so what follows does matter. *)
Definition xrow_of (ref v : string) : list event :=
  [EStart (s "row") []; EStart (s "c") [(s "r", s ref)]; EStart (s "v") []; EText (s v); EEnd (s "v"); EEnd (s "c"); EEnd (s "row")].
Theorem C109_xlsx_refuted :
  let es := [EStart (s "row") []; EEnd (s "row")] ++ xrow_of "A2" "5" in
  let cells l := map (fun c => (c_row c, c_col c)) (Cell.cells_of (fst (xlsx_iter (fun _ => None) (xlsx_null NNone) 0 1 true [] l None))) in
  cells es = [(1, 0)] /\ cells (es ++ xrow_of "A3" "6") = [(1, 0); (2, 0)].
Proof. split; vm_compute; reflexivity. Qed.
Print Assumptions C109_xlsx_refuted.
(** Three rows of one number; limit 1; then the mark of another row and some bytes. *)
Definition row_mark : record := mkRec 0 [].
Definition number_rec (n : Z) : record := mkRec 2 [0; 0; 0; 0; 0; 0; 0; 0; 4 * n + 2; 0; 0; 0].
Example C109_xlsb_example :
  let b := [0; 0; 2; 12; 0; 0; 0; 0; 0; 0; 0; 0; 22; 0; 0; 0; 0; 0; 2; 12; 0; 0; 0; 0; 0; 0; 0; 0; 26; 0; 0; 0] in
  framed [row_mark; number_rec 5; row_mark; number_rec 6] b /\ frame row_mark [0; 0] /\
  let iter p := xlsb_iter (Ok []) (fun _ => false) (fun _ _ => false) 0 1 false [] p in
  map c_row (Cell.cells_of (fst (iter b))) = [0; 1] /\ iter (b ++ [0; 0] ++ [2; 12; 7]) = iter b /\
  map c_row (Cell.cells_of (fst (xlsb_iter (Ok []) (fun _ => false) (fun _ _ => false) 0 0 false [] (b ++ b)))) = [0; 1; 2; 3].
Proof.
  cbv zeta. assert (M : frame row_mark [0; 0]) by (apply (@Frame row_mark [0]); try reflexivity; cbn; lia).
  split.
  - apply (@framed_cons _ _ [0; 0]); [exact M|]. apply (@framed_cons (number_rec 5) _ [2; 12; 0; 0; 0; 0; 0; 0; 0; 0; 22; 0; 0; 0]); [apply (@Frame (number_rec 5) [12]); try reflexivity; cbn; lia|].
    apply (@framed_cons _ _ [0; 0]); [exact M|]. apply (@framed_cons (number_rec 6) [] [2; 12; 0; 0; 0; 0; 0; 0; 0; 0; 26; 0; 0; 0] []); [apply (@Frame (number_rec 6) [12]); try reflexivity; cbn; lia|]. constructor.
  - split; [exact M|]. split; [vm_compute; reflexivity|]. split; vm_compute; reflexivity.
Qed.
(** Two rows, limit 1, empty rows kept; the parser fails later. *)
Example C109_xlsx_example :
  let iter es f := xlsx_iter (fun _ => None) (xlsx_null NNone) 0 1 true [] es f in
  let es := xrow_of "A1" "5" ++ firstn 6 (xrow_of "A2" "6") in
  let o := fst (iter es None) in
  map (fun c => c_row c) (Cell.cells_of o) = [0; 1] /\ calls_before o = 1 /\
  iter (es ++ [EEnd (s "row")]) (Some XmlError) = iter (es ++ EEnd (s "row") :: xrow_of "A3" "7") None.
Proof. split; [vm_compute; reflexivity|]. split; vm_compute; reflexivity. Qed.
