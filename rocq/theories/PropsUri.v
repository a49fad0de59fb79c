(** Claim C113: relationship targets as relative references (RFC 3986, 5.2; ECMA-376 part 2, 9.3). *)
From Verif Require Import Utf8 Py PyFacts PyText Biff BiffRecs BiffSpec Utf16 Utf16Spec Utf16Proofs Xlsx Xlsb XlsbSpec XlsbProofs XlsbParts
  XlsxSpec Sheets SheetsSpec SheetsProofs.
From Coq Require Import ZifyBool ZifyNat.

(** ** Specification *)
(** Segments of a path, and back. *)
Fixpoint segments (t : str) : list str :=
  match t with
  | [] => [[]]
  | c :: r => if c =? 47 then [] :: segments r else match segments r with x :: l => (c :: x) :: l | [] => [[c]] end
  end.
Fixpoint joined (l : list str) : str :=
  match l with [] => [] | [x] => x | x :: r => x ++ 47 :: joined r end.
Definition dot : str := [46].
Definition dots : str := [46; 46].
(** RFC 3986, 5.2.4: a "." goes, a ".." takes the segment before it along, a slash stays at the end.
    [acc] holds the segments so far, last first. *)
Fixpoint without_dots (acc l : list str) : list str :=
  match l with
  | [] => rev acc
  | x :: r =>
    let acc' := if str_eqb x dot then acc else if str_eqb x dots then tl acc else x :: acc in
    match r with
    | [] => if str_eqb x dot || str_eqb x dots then rev ([] :: acc') else rev acc'
    | _ => without_dots acc' r
    end
  end.
(** RFC 3986, 5.2.2 with the base /xl/[book], without the leading slash: a part name.  The
    target is taken as a path: no scheme, authority, query or fragment. *)
Definition part_name (book t : str) : str :=
  match t with
  | [] => s "xl/" ++ book
  | 47 :: r => joined (without_dots [] (segments r))
  | _ => joined (without_dots [] (s "xl" :: segments t))
  end.
(** Where the reader is right: a relative path without "." and ".." segments. *)
Definition plain_path (t : str) : Prop := t <> [] /\ (forall r, t <> 47 :: r) /\ ~ In dot (segments t) /\ ~ In dots (segments t).

(** ** Proofs *)
Lemma segments_some t : segments t <> [].
Proof. destruct t as [|c r]; cbn; [discriminate|]. destruct (c =? 47); [discriminate|]. destruct (segments r); discriminate. Qed.
Lemma joined_segments t : joined (segments t) = t.
Proof.
  induction t as [|c r IH]; [reflexivity|]. cbn [segments]. pose proof (segments_some r) as N. destruct (c =? 47) eqn:E.
  - cbn [joined]. destruct (segments r) as [|x l]; [congruence|]. rewrite IH. cbn [app]. f_equal. lia.
  - destruct (segments r) as [|x l]; [congruence|]. cbn [joined] in *. destruct l; rewrite <- IH; reflexivity.
Qed.
Definition bulk (l : list str) : nat := list_sum (map (fun x => S (List.length x)) l).
Lemma bulk_app a b : bulk (a ++ b) = (bulk a + bulk b)%nat.
Proof. unfold bulk. now rewrite map_app, list_sum_app. Qed.
Lemma bulk_cons x l : bulk (x :: l) = (S (List.length x) + bulk l)%nat.
Proof. reflexivity. Qed.
Lemma bulk_rev l : bulk (rev l) = bulk l.
Proof. induction l as [|x l IH]; [reflexivity|]. cbn [rev]. rewrite bulk_app, IH, !bulk_cons. unfold bulk at 2. cbn. lia. Qed.
Lemma bulk_tl l : (bulk (tl l) <= bulk l)%nat.
Proof. destruct l; cbn [tl]; [lia|rewrite bulk_cons; lia]. Qed.
Lemma joined_bulk l : List.length (joined l) = Nat.pred (bulk l).
Proof.
  induction l as [|x l IH]; [reflexivity|]. rewrite bulk_cons. cbn [joined]. destruct l as [|y l].
  - unfold bulk. cbn. lia.
  - rewrite app_length. cbn [List.length]. rewrite IH, bulk_cons. lia.
Qed.
Lemma without_id : forall l acc, l <> [] -> ~ In dot l -> ~ In dots l -> without_dots acc l = rev acc ++ l.
Proof.
  induction l as [|x l IH]; intros acc N D1 D2; [congruence|]. cbn [without_dots].
  replace (str_eqb x dot) with false by (symmetry; apply Bool.not_true_is_false; intro E; apply str_eqb_eq in E; subst; apply D1; now left).
  replace (str_eqb x dots) with false by (symmetry; apply Bool.not_true_is_false; intro E; apply str_eqb_eq in E; subst; apply D2; now left).
  cbn [orb]. destruct l as [|y l]; [reflexivity|]. rewrite IH; [|discriminate|intro; apply D1; now right|intro; apply D2; now right].
  cbn [rev]. now rewrite <- app_assoc.
Qed.
Lemma without_le : forall l acc, (bulk (without_dots acc l) <= bulk acc + bulk l)%nat /\
  (In dot l \/ In dots l -> (bulk (without_dots acc l) < bulk acc + bulk l)%nat).
Proof.
  induction l as [|x l IH]; intro acc; [cbn [without_dots]; rewrite bulk_rev; split; [lia|intros [[]|[]]]|].
  cbn [without_dots]. rewrite bulk_cons.
  assert (T : (bulk (tl acc) <= bulk acc)%nat) by apply bulk_tl.
  destruct (str_eqb x dot) eqn:E1; [|destruct (str_eqb x dots) eqn:E2].
  - apply str_eqb_eq in E1. subst x. cbn [orb]. destruct l as [|y l].
    + rewrite bulk_rev, bulk_cons. cbn [List.length dot]. split; intros; lia.
    + destruct (IH acc) as [A _]. cbn [List.length dot] in *. split; intros; lia.
  - apply str_eqb_eq in E2. subst x. cbn [orb]. destruct l as [|y l].
    + rewrite bulk_rev, bulk_cons. cbn [List.length dots]. split; intros; lia.
    + destruct (IH (tl acc)) as [A _]. cbn [List.length dots] in *. split; intros; lia.
  - cbn [orb]. assert (X : forall d, In d (x :: l) -> d = dot \/ d = dots -> In d l).
    { intros d [<-|H] Hd; [|exact H]. destruct Hd as [->| ->]; [now rewrite str_eqb_refl in E1|now rewrite str_eqb_refl in E2]. }
    destruct l as [|y l].
    + rewrite bulk_rev, bulk_cons. split; [lia|]. intros [H|H]; apply X in H; auto; destruct H.
    + destruct (IH (x :: acc)) as [A B]. rewrite bulk_cons in A, B. split; [lia|]. intro H.
      assert (H' : In dot (y :: l) \/ In dots (y :: l)) by (destruct H as [H|H]; [left|right]; apply X in H; auto). specialize (B H'). lia.
Qed.
Lemma part_name_exact book t : book <> [] -> (s "xl/" ++ t = part_name book t <-> plain_path t).
Proof.
  intro Hb. destruct t as [|c t].
  { split; [|intros (N & _); congruence]. cbn [part_name]. intro H. apply app_inv_head in H. congruence. }
  destruct (Z.eq_dec c 47) as [->|Hc].
  - split; [|intros (_ & N & _); now destruct (N t)]. intro H. exfalso. apply (f_equal (@List.length Z)) in H. cbn [part_name] in H.
    rewrite joined_bulk in H. destruct (without_le (segments t) []) as [A _]. pose proof (joined_bulk (segments t)) as J. rewrite joined_segments in J.
    rewrite app_length in H. cbn [List.length] in H. unfold bulk at 2 in A. cbn in A. lia.
  - assert (E : part_name book (c :: t) = joined (without_dots [] (s "xl" :: segments (c :: t)))).
    { unfold part_name. destruct c as [|p|p]; try reflexivity. repeat (destruct p as [p|p|]; try reflexivity). congruence. }
    rewrite E. clear E. assert (J : s "xl/" ++ c :: t = joined (s "xl" :: segments (c :: t))).
    { cbn [joined]. pose proof (segments_some (c :: t)) as N. pose proof (joined_segments (c :: t)) as JS. destruct (segments (c :: t)) as [|x l]; [congruence|]. rewrite JS. reflexivity. }
    assert (F1 : s "xl" <> dot) by discriminate. assert (F2 : s "xl" <> dots) by discriminate.
    destruct (in_dec (list_eq_dec Z.eq_dec) dot (segments (c :: t))) as [D1|D1]; [|destruct (in_dec (list_eq_dec Z.eq_dec) dots (segments (c :: t))) as [D2|D2]].
    + split; [|intros (_ & _ & D & _); contradiction]. intro H. exfalso. rewrite J in H. apply (f_equal (@List.length Z)) in H. rewrite !joined_bulk in H.
      destruct (without_le (s "xl" :: segments (c :: t)) []) as [_ A]. specialize (A (or_introl (or_intror D1))). rewrite bulk_cons in A, H. unfold bulk at 2 in A. cbn [List.length s] in *. cbn in A, H. lia.
    + split; [|intros (_ & _ & _ & D); contradiction]. intro H. exfalso. rewrite J in H. apply (f_equal (@List.length Z)) in H. rewrite !joined_bulk in H.
      destruct (without_le (s "xl" :: segments (c :: t)) []) as [_ A]. specialize (A (or_intror (or_intror D2))). rewrite bulk_cons in A, H. unfold bulk at 2 in A. cbn [List.length s] in *. cbn in A, H. lia.
    + split.
      * intros _. split; [discriminate|]. split; [intros r H; congruence|]. now split.
      * intros _. rewrite without_id; [exact J|discriminate| |]; intros [H|H]; contradiction.
Qed.

(** ** C113 *)
(** For every workbook whose table is read (the hypotheses of C30): the part of a sheet is the one
    its relationship names exactly if the target is a relative path without "." and ".." segments.
    Every other path is refuted: absolute ones, the empty one, dots. *)
Theorem C113_xlsx_exact rl wl : forallb ritem_ok rl = true -> forallb witem_ok wl = true ->
  NoDup (map fst (rel_list rl)) -> NoDup (map fst (sheet_list wl)) -> NoDup (map snd (sheet_list wl)) ->
  (forall n i, In (n, i) (sheet_list wl) -> exists t, rel_of (rel_list rl) i = Some (s "worksheet", t)) ->
  exists d, xlsx_sheets (flat_map ritem_events rl) (flat_map witem_events wl) = Ok d /\
  forall k n i, nth_error (sheet_list wl) k = Some (n, i) ->
    exists g t p, rel_of (rel_list rl) i = Some (g, t) /\ select_sheet d (SIdx (Z.of_nat k)) = Ok p /\
      (p = part_name (s "workbook.xml") t <-> plain_path t).
Proof.
  intros H1 H2 N1 N2 N3 Hr. exists (sheet_table (rel_list rl) (sheet_list wl)). split; [now apply xlsx_sheets_ok|].
  intros k n i E.
  assert (Hr' : forall n i, In (n, i) (sheet_list wl) -> rel_of (rel_list rl) i <> None)
    by (intros n' i' H; destruct (Hr n' i' H) as (t & Ht); congruence).
  destruct (sheet_table_nth Hr' E) as (g & t & E1 & E2). exists g, t, (s "xl/" ++ t). split; [exact E1|]. split.
  - cbn [select_sheet]. assert (k < List.length (sheet_table (rel_list rl) (sheet_list wl)))%nat by (apply nth_error_Some; congruence).
    replace ((0 <=? Z.of_nat k) && (Z.of_nat k <? zlen (sheet_table (rel_list rl) (sheet_list wl)))) with true by (unfold zlen; lia).
    now rewrite Nat2Z.id, E2.
  - apply part_name_exact. discriminate.
Qed.
Print Assumptions C113_xlsx_exact.
Theorem C113_xlsb_exact rl bl part : forallb ritem_ok rl = true -> forallb bitem_ok bl = true ->
  forallb rec_ok (map bitem_record bl) = true -> dump_all (map bitem_record bl) = Ok part ->
  NoDup (map fst (bsheet_list bl)) ->
  (forall n i, In (n, i) (bsheet_list bl) -> rel_of (rel_list rl) i <> None) ->
  exists d, xlsb_sheets (flat_map ritem_events rl) part = Ok d /\
  forall k n i, nth_error (bsheet_list bl) k = Some (n, i) ->
    exists g t p, rel_of (rel_list rl) i = Some (g, t) /\ select_sheet d (SIdx (Z.of_nat k)) = Ok p /\
      (p = part_name (s "workbook.bin") t <-> plain_path t).
Proof.
  intros H1 H2 H3 H4 Hn Hr. exists (sheet_table (rel_list rl) (bsheet_list bl)). split; [now apply xlsb_sheets_ok|].
  intros k n i E. destruct (sheet_table_nth Hr E) as (g & t & E1 & E2). exists g, t, (s "xl/" ++ t). split; [exact E1|]. split.
  - cbn [select_sheet]. assert (k < List.length (sheet_table (rel_list rl) (bsheet_list bl)))%nat by (apply nth_error_Some; congruence).
    replace ((0 <=? Z.of_nat k) && (Z.of_nat k <? zlen (sheet_table (rel_list rl) (bsheet_list bl)))) with true by (unfold zlen; lia).
    now rewrite Nat2Z.id, E2.
  - apply part_name_exact. discriminate.
Qed.
Print Assumptions C113_xlsb_exact.
(** So every sheet whose target is absolute or has a dot segment is read from another part than
    the one named, in both formats. *)
Definition not_plain (t : str) : Prop := (exists r, t = 47 :: r) \/ In dots (segments t) \/ In dot (segments t).
Lemma not_plain_path t : not_plain t -> ~ plain_path t.
Proof. intros H (_ & A & B & C). destruct H as [[r H]|[H|H]]; [exact (A r H)|exact (C H)|exact (B H)]. Qed.
Theorem C113_refuted rl wl bl part : forallb ritem_ok rl = true -> forallb witem_ok wl = true -> forallb bitem_ok bl = true ->
  forallb rec_ok (map bitem_record bl) = true -> dump_all (map bitem_record bl) = Ok part -> bsheet_list bl = sheet_list wl ->
  NoDup (map fst (rel_list rl)) -> NoDup (map fst (sheet_list wl)) -> NoDup (map snd (sheet_list wl)) ->
  (forall n i, In (n, i) (sheet_list wl) -> exists t, rel_of (rel_list rl) i = Some (s "worksheet", t)) ->
  exists d1 d2, xlsx_sheets (flat_map ritem_events rl) (flat_map witem_events wl) = Ok d1 /\ xlsb_sheets (flat_map ritem_events rl) part = Ok d2 /\
  forall k n i t, nth_error (sheet_list wl) k = Some (n, i) -> rel_of (rel_list rl) i = Some (s "worksheet", t) -> not_plain t ->
    select_sheet d1 (SIdx (Z.of_nat k)) <> Ok (part_name (s "workbook.xml") t) /\ select_sheet d2 (SIdx (Z.of_nat k)) <> Ok (part_name (s "workbook.bin") t).
Proof.
  intros H1 H2 H3 H4 H5 H6 N1 N2 N3 Hr. destruct (@C113_xlsx_exact rl wl H1 H2 N1 N2 N3 Hr) as (d1 & D1 & X1).
  assert (Hb : forall n i, In (n, i) (bsheet_list bl) -> rel_of (rel_list rl) i <> None) by (intros n i Hi; rewrite H6 in Hi; destruct (Hr n i Hi) as [t T]; congruence).
  destruct (@C113_xlsb_exact rl bl part H1 H3 H4 H5) as (d2 & D2 & X2); [now rewrite H6|exact Hb|].
  exists d1, d2. split; [exact D1|]. split; [exact D2|]. intros k n i t E R P. apply not_plain_path in P. split.
  - destruct (X1 k n i E) as (g & t' & p & R' & S' & Q). rewrite R in R'. injection R' as <- <-. rewrite S'. intro F. apply P, Q. congruence.
  - rewrite <- H6 in E. destruct (X2 k n i E) as (g & t' & p & R' & S' & Q). rewrite R in R'. injection R' as <- <-. rewrite S'. intro F. apply P, Q. congruence.
Qed.
Print Assumptions C113_refuted.

(** Absolute, above the folder, with a dot, plain; and the table of a workbook with two sheets. *)
Example C113_example_names :
  map (part_name (s "workbook.xml")) [s "/xl/worksheets/sheet1.xml"; s "../xl/worksheets/sheet1.xml"; s "./worksheets/sheet1.xml"; s "worksheets/sheet1.xml"; s "../other/a.xml"]
  = [s "xl/worksheets/sheet1.xml"; s "xl/worksheets/sheet1.xml"; s "xl/worksheets/sheet1.xml"; s "xl/worksheets/sheet1.xml"; s "other/a.xml"].
Proof. vm_compute. reflexivity. Qed.
(** RFC 3986, 5.2.4 and 5.4 (base path b/c/): its own examples of dot removal. *)
Example C113_example_rfc :
  joined (without_dots [] (segments (s "a/b/c/./../../g"))) = s "a/g" /\ joined (without_dots [] (segments (s "mid/content=5/../6"))) = s "mid/6" /\
  map (fun t => joined (without_dots [] (segments (s "b/c/" ++ t)))) [s "g"; s "./g"; s "g/"; s "."; s "./"; s ".."; s "../"; s "../g"; s "../.."; s "../../g"; s "../../../g"; s "g."; s ".g"; s "./../g"; s "./g/."; s "g/./h"; s "g/../h"]
  = [s "b/c/g"; s "b/c/g"; s "b/c/g/"; s "b/c/"; s "b/c/"; s "b/"; s "b/"; s "b/g"; s ""; s "g"; s "g"; s "b/c/g."; s "b/c/.g"; s "b/g"; s "b/c/g/"; s "b/c/g/h"; s "b/c/h"].
Proof. split; [|split]; vm_compute; reflexivity. Qed.
Definition ex_uri_rl : list ritem := [RI (s "rId1") (s "http://x") (s "worksheet") (s "worksheets/sheet1.xml") []; RI (s "rId2") (s "http://x") (s "worksheet") (s "../xl/worksheets/sheet2.xml") []].
Definition ex_uri_wl : list witem := [WI (s "A") (s "rId1") []; WI (s "B") (s "rId2") []].
Example C113_example_table :
  forallb ritem_ok ex_uri_rl = true /\ forallb witem_ok ex_uri_wl = true /\
  xlsx_sheets (flat_map ritem_events ex_uri_rl) (flat_map witem_events ex_uri_wl) = Ok [(s "A", s "xl/worksheets/sheet1.xml"); (s "B", s "xl/../xl/worksheets/sheet2.xml")] /\
  plain_path (s "worksheets/sheet1.xml") /\ not_plain (s "../xl/worksheets/sheet2.xml").
Proof.
  split; [vm_compute; reflexivity|]. split; [vm_compute; reflexivity|]. split; [vm_compute; reflexivity|].
  split; [split; [discriminate|]; split; [intros r H; vm_compute in H; discriminate|]; split; cbv; intuition discriminate|]. right. left. now left.
Qed.
