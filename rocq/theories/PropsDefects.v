(** Claim C105: a file that is read is sound. *)
From Coq Require Import ZifyBool.
From Verif Require Import Py PyFacts PyText Biff BiffSpec BiffProofs BiffRecs Utf16 Utf16Spec Utf16Proofs NumFmt NumFmtSpec Cell Xlsb Xlsx XlsbSpec XlsbProofs XlsbParts PropsBiff PropsXlsb
  XlsxSpec XlsxProofs XlsxParts XlsxNorm PropsXlsx Sheets SheetsSpec SheetsProofs PropsSheets RobustSpec RobustProofs PropsRobust Casts Chunk ChunkSpec ReadSpec Utf8 Series SeriesSpec
  Reader ReaderSpec ReaderProofs ReaderSteps ReaderRead ReaderMore PropsReader PropsSafe TableSpec TableSteps TableErrors PropsTable Workbook WorkbookSpec WorkbookProofs PropsWorkbook PropsDamage FileSpec PropsCauses BiffAny DefectSpec.
Set Implicit Arguments. Unset Strict Implicit.

Lemma ok_not_err A (m : res A) : (exists a, m = Ok a) <-> ~ exists e, m = Err e.
Proof. destruct m as [a|e]; split; [intros _ [x H]; discriminate|intros _; now exists a|intros [a H]; discriminate|intro H; now destruct H; exists e]. Qed.
Lemma bind_ok A B (m : res A) (f : A -> res B) b : (x <- m ;; f x) = Ok b <-> exists a, m = Ok a /\ f a = Ok b.
Proof. destruct m as [a|e]; cbn [bind]; [split; [intro H; now exists a|intros (x & [= <-] & H); exact H]|split; [discriminate|intros (x & H & _); discriminate]]. Qed.
Lemma open_ok z n b : zopen z n = Ok b <-> member z n b.
Proof.
  split; [|apply member_open]. intro H. destruct (open_cases z n) as [(c & M & O)|(A & O)]; rewrite O in H; [|discriminate]. injection H as ->. exact M.
Qed.
Lemma parse_ok expat A (f : list event -> res A) b a : parse expat f b = Ok a <-> exists es, expat b = (es, None) /\ f es = Ok a.
Proof.
  unfold parse. destruct (expat b) as [es x]. rewrite bind_ok. split.
  - intros (c & F & H). destruct x; [discriminate|]. injection H as ->. now exists es.
  - intros (es' & [= <- ->] & F). now exists a.
Qed.
Lemma attr_req_iff a k v : attr_req a k = Ok v <-> attr a k = Some v.
Proof. unfold attr_req. destruct (attr a k); split; congruence. Qed.

(** *** Relationships *)
Lemma scan_rels_ok es : (exists l, scan_rels es = Ok l) <-> forall a, In (EStart (s "Relationship") a) es -> has a (s "Id") /\ has a (s "Type") /\ has a (s "Target").
Proof.
  induction es as [|ev es IH]; cbn [scan_rels]; [split; [easy|intros _; now exists []]|].
  assert (Skip : (forall a, ev <> EStart (s "Relationship") a) -> (exists l, scan_rels es = Ok l) <->
    forall a, In (EStart (s "Relationship") a) (ev :: es) -> has a (s "Id") /\ has a (s "Type") /\ has a (s "Target")).
  { intro N. rewrite IH. split; intros H a I; [destruct I as [E|I]; [now destruct (N a)|now apply H]|apply H; now right]. }
  destruct ev as [tag a|t|tag]; [|apply Skip; easy..].
  destruct (str_eqb tag (s "Relationship")) eqn:T; [|apply Skip; intros b [= -> ->]; now rewrite str_eqb_refl in T]. apply str_eqb_eq in T. subst tag. split.
  - intros [l H] b [[= <-]|I].
    + apply bind_ok in H as (x & X & H). apply bind_ok in H as (y & Y & H). apply bind_ok in H as (g & G & H). apply attr_req_iff in X, Y, G. repeat split; eexists; eassumption.
    + apply bind_ok in H as (x & X & H). apply bind_ok in H as (y & Y & H). apply bind_ok in H as (g & G & H). apply bind_ok in H as (l' & L & H).
      apply (proj1 IH); [now exists l'|exact I].
  - intro H. destruct (H a (or_introl eq_refl)) as ((x & X) & (y & Y) & (g & G)). apply attr_req_iff in X, Y, G. rewrite X, Y, G. cbn [bind].
    destruct (proj2 IH (fun b I => H b (or_intror I))) as [l ->]. cbn [bind]. now eexists.
Qed.
Lemma relations_ok expat z n rels : (rb <- zopen z n ;; parse expat scan_rels rb) = Ok rels <-> exists es, relations_sound expat z n es /\ scan_rels es = Ok rels.
Proof.
  rewrite bind_ok. split.
  - intros (b & O & P). apply open_ok in O. apply parse_ok in P as (es & E & P). exists es. split; [|exact P]. split; [now exists b|]. apply scan_rels_ok. now exists rels.
  - intros (es & ((b & M & E) & _) & P). exists b. split; [now apply open_ok|]. apply parse_ok. now exists es.
Qed.
Lemma scan_rels_from es rels r : scan_rels es = Ok rels -> In r rels ->
  exists a t, In (EStart (s "Relationship") a) es /\ attr a (s "Id") = Some (r_id r) /\ attr a (s "Type") = Some t /\ last_segment t = r_type r.
Proof.
  revert rels. induction es as [|ev es IH]; intros rels H I; cbn [scan_rels] in H; [injection H as <-; easy|].
  assert (Skip : scan_rels es = Ok rels -> exists a t, In (EStart (s "Relationship") a) (ev :: es) /\ attr a (s "Id") = Some (r_id r) /\ attr a (s "Type") = Some t /\ last_segment t = r_type r).
  { intro K. destruct (IH _ K I) as (a & t & J & R). exists a, t. split; [now right|exact R]. }
  destruct ev as [tag b|x|tag]; [|now apply Skip|now apply Skip].
  destruct (str_eqb tag (s "Relationship")) eqn:T; [|now apply Skip]. apply str_eqb_eq in T. subst tag.
  apply bind_ok in H as (x & X & H). apply bind_ok in H as (y & Y & H). apply bind_ok in H as (g & G & H). apply bind_ok in H as (l & L & H). apply attr_req_iff in X, Y. injection H as <-.
  destruct I as [<-|I]; [exists b, y; split; [now left|]; now repeat split|]. destruct (IH _ L I) as (a & t & J & R). exists a, t. split; [now right|exact R].
Qed.
Lemma last_segment_split t : forall a, (exists p, t = p ++ [47] ++ last_segment_from a t) \/ last_segment_from a t = rev a ++ t.
Proof.
  induction t as [|c t IH]; intro a; cbn [last_segment_from]; [right; now rewrite app_nil_r|]. destruct (c =? 47) eqn:E.
  - apply Z.eqb_eq in E. subst c. destruct (IH []) as [(p & P)|P]; [left; exists (47 :: p); cbn; now rewrite P at 1|]. cbn [rev app] in P. left. exists []. now rewrite P.
  - destruct (IH (c :: a)) as [(p & P)|P]; [left; exists (c :: p); cbn; now rewrite P at 1|]. right. rewrite P. cbn [rev]. now rewrite <- app_assoc.
Qed.
Lemma kind_of_segment t k : last_segment t = k -> of_kind k t.
Proof. unfold last_segment. intro H. destruct (last_segment_split t []) as [(p & P)|P]; rewrite H in P; [right; now exists p|left; now rewrite P]. Qed.

Lemma dget_dset {B} (d : list (str * B)) k v i : dget str_eqb (dset str_eqb d k v) i = if str_eqb i k then Some v else dget str_eqb d i.
Proof.
  induction d as [|[m w] d IH]; cbn [dset dget]; [reflexivity|]. destruct (str_eqb k m) eqn:E; cbn [dget].
  - apply str_eqb_eq in E. subst m. now destruct (str_eqb i k).
  - rewrite IH. destruct (str_eqb i m) eqn:F; [|reflexivity]. apply str_eqb_eq in F. subst m. now destruct (str_eqb i k) eqn:G; [apply str_eqb_eq in G; subst; rewrite str_eqb_refl in E|].
Qed.
Lemma files_some rels i : dget str_eqb (xlsx_files rels) i <> None <-> exists r, In r rels /\ r_id r = i /\ r_type r = s "worksheet".
Proof.
  unfold xlsx_files.
  assert (G : forall d, dget str_eqb (fold_left (fun d r => if str_eqb (r_type r) (s "worksheet") then dset str_eqb d (r_id r) (s "xl/" ++ r_target r) else d) rels d) i <> None <->
    dget str_eqb d i <> None \/ exists r, In r rels /\ r_id r = i /\ r_type r = s "worksheet").
  { induction rels as [|r rels IH]; intro d; cbn [fold_left].
    - split; [now left|intros [H|(r & [] & _)]; exact H].
    - rewrite IH. destruct (str_eqb (r_type r) (s "worksheet")) eqn:T.
      + apply str_eqb_eq in T. rewrite dget_dset. destruct (str_eqb i (r_id r)) eqn:E.
        * apply str_eqb_eq in E. split; [intros _; right; exists r; split; [now left|now split]|intros _; now left].
        * split; [intros [H|(q & I & Q)]; [now left|right; exists q; split; [now right|exact Q]]|].
          intros [H|(q & [<-|I] & Q & W)]; [now left|subst i; now rewrite str_eqb_refl in E|right; now exists q].
      + split; [intros [H|(q & I & Q)]; [now left|right; exists q; split; [now right|exact Q]]|].
        intros [H|(q & [<-|I] & Q & W)]; [now left|rewrite W in T; now rewrite str_eqb_refl in T|right; now exists q]. }
  rewrite G. split; [intros [H|H]; [now destruct H|exact H]|now right].
Qed.
Lemma names_ok es : forall d, (exists l, xlsx_names es d = Ok l) <-> forall a, In (EStart (s "sheet") a) es -> has a (s "name") /\ has a (s "r:id").
Proof.
  induction es as [|ev es IH]; intro d; cbn [xlsx_names]; [split; [easy|intros _; now exists d]|].
  assert (Skip : (forall a, ev <> EStart (s "sheet") a) -> forall d, (exists l, xlsx_names es d = Ok l) <->
    forall a, In (EStart (s "sheet") a) (ev :: es) -> has a (s "name") /\ has a (s "r:id")).
  { intros N d'. rewrite IH. split; intros H a I; [destruct I as [E|I]; [now destruct (N a)|now apply H]|apply H; now right]. }
  destruct ev as [tag a|t|tag]; [|apply Skip; easy..].
  destruct (str_eqb tag (s "sheet")) eqn:T; [|apply Skip; intros b [= -> ->]; now rewrite str_eqb_refl in T]. apply str_eqb_eq in T. subst tag. split.
  - intros [l H]. apply bind_ok in H as (x & X & H). apply bind_ok in H as (y & Y & H). apply attr_req_iff in X, Y. intros b [[= <-]|I]; [split; eexists; eassumption|].
    exact (proj1 (IH _) (ex_intro _ l H) b I).
  - intro H. destruct (H a (or_introl eq_refl)) as ((x & X) & (y & Y)). apply attr_req_iff in X, Y. rewrite X, Y. cbn [bind]. apply IH. intros b I. apply H. now right.
Qed.
Lemma in_dset_keep {B} (d : list (str * B)) k v i : (exists w, In (i, w) d) \/ i = k -> exists w, In (i, w) (dset str_eqb d k v).
Proof.
  induction d as [|[m u] d IH]; cbn [dset].
  - intros [(w & [])| ->]. exists v. now left.
  - intros [(w & [[= -> ->]|I])| ->].
    + destruct (str_eqb k i) eqn:E; [apply str_eqb_eq in E; subst k; exists v; now left|exists w; now left].
    + destruct (str_eqb k m); [exists w; now right|]. destruct IH as (w' & I'); [left; now exists w|]. exists w'. now right.
    + destruct (str_eqb k m) eqn:E; [apply str_eqb_eq in E; subst k; exists v; now left|]. destruct IH as (w' & I'); [now right|]. exists w'. now right.
Qed.
Lemma names_has es : forall d l, xlsx_names es d = Ok l -> forall i, (exists n, In (i, n) d) \/ (exists a, In (EStart (s "sheet") a) es /\ attr a (s "r:id") = Some i) -> exists n, In (i, n) l.
Proof.
  induction es as [|ev es IH]; intros d l H i; cbn [xlsx_names] in H.
  - injection H as <-. intros [K|(a & [] & _)]. exact K.
  - assert (Skip : (forall a, ev <> EStart (s "sheet") a) -> xlsx_names es d = Ok l ->
      (exists n, In (i, n) d) \/ (exists a, In (EStart (s "sheet") a) (ev :: es) /\ attr a (s "r:id") = Some i) -> exists n, In (i, n) l).
    { intros N K [J|(a & [E|I] & A)]; [apply (IH _ _ K); now left|now destruct (N a)|apply (IH _ _ K); right; now exists a]. }
    destruct ev as [tag a|t|tag]; [|apply Skip; [easy|exact H]..].
    destruct (str_eqb tag (s "sheet")) eqn:T; [|apply Skip; [intros b [= -> ->]; now rewrite str_eqb_refl in T|exact H]].
    apply str_eqb_eq in T. subst tag.     apply bind_ok in H as (x & X & H). apply bind_ok in H as (y & Y & H). apply attr_req_iff in X, Y.
    intros [J|(b & [[= <-]|I] & A)]; apply (IH _ _ H); [left; apply in_dset_keep; now left|left; apply in_dset_keep; right; congruence|right; now exists b].
Qed.
Lemma join_ok files names : forall d, (exists r, xlsx_join files names d = Ok r) <-> forall i n, In (i, n) names -> dget str_eqb files i <> None.
Proof.
  induction names as [|[i n] names IH]; intro d; cbn [xlsx_join]; [split; [easy|intros _; now exists d]|].
  destruct (dget str_eqb files i) as [p|] eqn:E.
  - rewrite IH. split; [intros H j m [[= <- <-]|I]; [congruence|exact (H j m I)]|intros H j m I; apply (H j m); now right].
  - split; [intros [r H]; discriminate|]. intro H. now destruct (H i n (or_introl eq_refl)).
Qed.
Theorem C105_xlsx_sheets expat z : (exists d, xbook_sheets expat z = Ok d) <-> xlsx_sheets_sound expat z.
Proof.
  unfold xbook_sheets. split.
  - intros [d H]. apply bind_ok in H as (rb & O & H). apply bind_ok in H as (rels & R & H).
    assert (RR : (rb <- zopen z (s "xl/_rels/workbook.xml.rels") ;; parse expat scan_rels rb) = Ok rels) by (rewrite O; exact R).
    apply relations_ok in RR as (rs & RS & RR). apply bind_ok in H as (wb & W & H). apply open_ok in W. apply bind_ok in H as (names & N & H). apply parse_ok in N as (es & E & N).
    exists rs, es. split; [exact RS|]. split; [now exists wb|]. intros a I. destruct (proj1 (names_ok es _) (ex_intro _ _ N) a I) as (Nm & (i & Ai)). split; [exact Nm|].
    destruct (names_has N (i := i)) as (n & J); [right; now exists a|]. pose proof (proj1 (join_ok _ _ _) (ex_intro _ _ H) _ _ J) as F.
    apply files_some in F as (r & Ir & Id & Ty). destruct RS as [WF At].
    destruct (scan_rels_from RR Ir) as (b & t & Ib & Bi & Bt & L). exists i, b, t. split; [exact Ai|]. split; [exact Ib|]. split; [congruence|]. split; [exact Bt|]. apply kind_of_segment. congruence.
  - intros (rs & es & RS & (wb & M & E) & H). pose proof RS as [WF At]. destruct (proj2 (scan_rels_ok rs) At) as (rels & RR).
    assert (R : (rb <- zopen z (s "xl/_rels/workbook.xml.rels") ;; parse expat scan_rels rb) = Ok rels) by (apply relations_ok; now exists rs).
    apply bind_ok in R as (rb & O & P). rewrite O. cbn [bind]. rewrite P. cbn [bind]. rewrite (member_open M). cbn [bind].
    destruct (proj2 (names_ok es [])) as (names & N). { intros a I. destruct (H a I) as (Nm & i & b & t & Ai & _). split; [exact Nm|now exists i]. }
    rewrite (proj2 (parse_ok expat (fun es => xlsx_names es []) wb names) (ex_intro _ es (conj E N))). cbn [bind].
    apply join_ok. intros i n I. destruct (xlsx_names_in N I) as [[]|(a & Ia & Ai)]. destruct (H a Ia) as (_ & i' & b & t & Ai' & Ib & Bi & Bt & K).
    apply files_some. destruct (scan_rels_in RR Ib Bi Bt) as (g & G). exists (mkRel i' (last_segment t) g). split; [exact G|]. cbn [r_id r_type]. split; [congruence|]. now apply segment_of_kind.
Qed.
Print Assumptions C105_xlsx_sheets.
Theorem C105_xlsx_styles expat z : (exists st, xbook_styles expat z = Ok st) <-> xlsx_styles_sound expat z.
Proof.
  assert (G : forall es, (exists st, xlsx_styles es = Ok st) <-> forall ev, In ev es -> ~ bad_style ev).
  { intro es. rewrite ok_not_err, C29_raises, <- Forall_Exists_neg, Forall_forall. reflexivity. }
  unfold xbook_styles. split.
  - intros [st H]. apply bind_ok in H as (b & O & H). apply open_ok in O. apply bind_ok in H as ([xl fms] & P & H). apply parse_ok in P as (es & E & P).
    exists es. split; [now exists b|]. apply G. exists st. unfold xlsx_styles. now rewrite P.
  - intros (es & (b & M & E) & H). apply G in H as [st H]. exists st. rewrite (member_open M). cbn [bind]. unfold xlsx_styles in H. apply bind_ok in H as (q & Q & H).
    apply bind_ok. exists q. split; [|exact H]. apply parse_ok. now exists es.
Qed.
Print Assumptions C105_xlsx_styles.
Theorem C105_xlsx_shared expat z nv : (exists l, xbook_shared expat z nv = Ok l) <-> xlsx_shared_sound expat z.
Proof.
  unfold xbook_shared. split.
  - intros [l H]. apply bind_ok in H as (b & O & H). apply open_ok in O. apply bind_ok in H as (p & P & H). apply parse_ok in P as (es & E & P). now exists es, b.
  - intros (es & b & M & E). rewrite (member_open M). cbn [bind]. exists (fst (xlsx_shared nv es)). apply bind_ok. eexists. split; [apply parse_ok; exists es; now split|reflexivity].
Qed.
Print Assumptions C105_xlsx_shared.

(** *** The sheet that is asked for *)
Definition chosen_part (d : list (str * str)) (a : sheet_arg) (p : str) : Prop :=
  match a with SIdx i => 0 <= i /\ exists n, nth_error d (Z.to_nat i) = Some (n, p) | SName n => dget str_eqb d n = Some p end.
Lemma select_ok d a p : select_sheet d a = Ok p <-> chosen_part d a p.
Proof.
  destruct a as [i|n]; cbn [select_sheet chosen_part].
  - destruct ((0 <=? i) && (i <? zlen d)) eqn:B.
    + destruct (nth_error d (Z.to_nat i)) as [[x q]|] eqn:N.
      * split; [intros [= ->]; split; [lia|now exists x]|intros (_ & n & [= _ ->]); reflexivity].
      * split; [discriminate|intros (_ & n & [=])].
    + split; [discriminate|]. intros (L & n & N). assert (Z.to_nat i < List.length d)%nat by (apply nth_error_Some; congruence). unfold zlen in B. lia.
  - destruct (dget str_eqb d n); split; congruence.
Qed.
Definition sheet_there (z : archive) (d : list (str * str)) (w : wopts) : Prop :=
  0 <= wo_skip w /\ 0 <= wo_take w /\ exists p b, chosen_part d (wo_sheet w) p /\ member z p b.
(** The iteration of an .xlsx sheet ends without an exception exactly if the parts it uses are sound. *)
Theorem C105_xlsx_iteration expat z w : snd (xbook_iter expat z w) = None <->
  xlsx_styles_sound expat z /\ exists d, xbook_sheets expat z = Ok d /\ sheet_there z d w.
Proof.
  unfold xbook_iter. cbv zeta. split.
  - intro H. match type of H with snd (match ?m with _ => _ end) = _ => destruct m as [[b st]|x] eqn:M end; [clear H|discriminate].
    apply bind_ok in M as (d & D & M). apply bind_ok in M as (p & P & M). destruct (wo_skip w <? 0) eqn:K; [discriminate|]. destruct (wo_take w <? 0) eqn:T; [discriminate|].
    apply bind_ok in M as (b' & B & M). apply bind_ok in M as (st' & S & M). split; [apply C105_xlsx_styles; now exists st'|]. exists d. split; [exact D|].
    split; [lia|]. split; [lia|]. exists p, b'. split; [now apply select_ok|now apply open_ok].
  - intros (S & d & D & K & T & p & b & P & M). apply C105_xlsx_styles in S as [st S]. apply select_ok in P. rewrite D. cbn [bind]. rewrite P. cbn [bind].
    destruct (wo_skip w <? 0) eqn:K'; [lia|]. destruct (wo_take w <? 0) eqn:T'; [lia|]. rewrite (member_open M). cbn [bind]. rewrite S. cbn [bind]. now destruct (expat b).
Qed.
Print Assumptions C105_xlsx_iteration.
Lemma read_trace_ok ro sc op t tbl : read_trace ro sc op t = Ok tbl -> snd t = None /\ Cell.cells_of (fst t) <> [].
Proof.
  destruct t as [outs f]. cbn [fst snd]. intro H. split.
  - destruct f as [e|]; [|reflexivity]. unfold read_trace in H. cbn [fst snd] in H. destruct (collect ro sc [] outs); discriminate.
  - intro E. destruct f as [e|]; [|rewrite (@C90_empty ro sc op outs E) in H; discriminate].
    unfold read_trace in H. cbn [fst snd] in H. destruct (collect ro sc [] outs); discriminate.
Qed.
Lemma read_cells_ok ro binary sh w op t tbl : read_cells ro binary sh w op t = Ok tbl -> snd t = None /\ Cell.cells_of (fst t) <> [] /\ exists l, sh = Ok l.
Proof.
  unfold read_cells. destruct (Cell.cells_of (fst t)) as [|c l] eqn:C; intro H; [apply read_trace_ok in H as [_ H]; now rewrite C in H|].
  apply bind_ok in H as (x & X & H). apply read_trace_ok in H as [H _]. split; [exact H|]. split; [discriminate|now exists x].
Qed.
Theorem C105_xlsx expat ro z w op wb tbl : member z (s "xl/workbook.xml") wb -> read_book expat ro z w op = Ok tbl ->
  xlsx_sheets_sound expat z /\ xlsx_styles_sound expat z /\ xlsx_shared_sound expat z /\ delivered expat z w <> [] /\
  exists d, xbook_sheets expat z = Ok d /\ sheet_there z d w.
Proof.
  intros W H. unfold read_book in H. unfold delivered. rewrite (member_has W) in *. apply read_cells_ok in H as (I & N & l & L). apply C105_xlsx_iteration in I as (S & d & D & T).
  split; [apply C105_xlsx_sheets; now exists d|]. split; [exact S|]. split; [apply (C105_xlsx_shared expat z (xlsx_null (wo_nulls w))); now exists l|]. split; [exact N|now exists d].
Qed.
Print Assumptions C105_xlsx.

(** ** .xlsb *)
Lemma counted_load b n body : counted b n body <-> exists h, h ++ body = b /\ List.length h = 4%nat /\ unpack_I h = Ok n.
Proof.
  split.
  - intros (p & q & u & v & -> & ->). exists [p; q; u; v]. now repeat split.
  - intros (h & <- & L & U). do 4 (destruct h as [|? h]; [discriminate|]). destruct h; [|discriminate]. injection U as <-. now exists z, z0, z1, z2.
Qed.
Lemma unpack_I_four b n : unpack_I b = Ok n -> List.length b = 4%nat.
Proof. intro H. do 4 (destruct b as [|? b]; [discriminate|]). now destruct b. Qed.
Lemma unpack_II_eight b p : unpack_II b = Ok p -> zlen b = 8.
Proof. unfold unpack_II. intro H. do 8 (destruct b as [|? b]; [discriminate|]). now destruct b. Qed.
Lemma xstr_ok b rest : (exists x, xstr_load b = Ok (x, rest)) <-> lax_text b rest.
Proof.
  unfold xstr_load, read_n, lax_text. split.
  - intros [x H]. apply bind_ok in H as (n & U & H). exists n, (skipn (Z.to_nat 4) b). split.
    { apply counted_load. exists (firstn (Z.to_nat 4) b). split; [apply firstn_skipn|]. split; [exact (unpack_I_four U)|exact U]. }
    change (2 ^ 32 - 1) with 4294967295. destruct (n =? 4294967295) eqn:E; [injection H as _ <-; left; split; [lia|reflexivity]|]. right. split; [lia|].
    apply bind_ok in H as (t & T & H). injection H as _ <-. rewrite (Z.mul_comm 2 n). split; [exists t; now rewrite Z.mul_comm|reflexivity].
  - intros (n & body & C & H). apply counted_load in C as (h & <- & L & U). change (Z.to_nat 4) with 4%nat. rewrite <- L, firstn_app, firstn_all, skipn_app, skipn_all, Nat.sub_diag. cbn [firstn skipn app].
    rewrite app_nil_r, U. cbn [bind]. change (2 ^ 32 - 1) with 4294967295 in H. destruct H as [[-> ->]|(N & (t & T) & ->)]; [rewrite Z.eqb_refl; now eexists|].
    destruct (n =? 4294967295) eqn:E; [lia|]. rewrite (Z.mul_comm n 2), T. cbn [bind]. now eexists.
Qed.
Lemma bundle_ok r : (exists bn, bundle_loadr r = Ok bn) <-> bundle_sound r.
Proof.
  unfold bundle_loadr, bundle_sound. cbv zeta. rewrite py_slice_to, py_slice_from by lia. change (Z.to_nat 8) with 8%nat. split.
  - intros [bn H]. apply bind_ok in H as ([st tab] & U & H). apply bind_ok in H as ([x c] & X & H). apply bind_ok in H as ([y rest] & Y & H).
    exists (firstn 8 (rec_data r)), (skipn 8 (rec_data r)), c, rest. split.
    { exact (unpack_II_eight U). }
    split; [now rewrite firstn_skipn|]. split; apply xstr_ok; eexists; eassumption.
  - intros (h & b & c & rest & L & D & X & Y). apply xstr_ok in X as (x & X), Y as (y & Y). assert (N : List.length h = 8%nat) by (unfold zlen in L; lia).
    rewrite D, <- N, firstn_app, firstn_all, skipn_app, skipn_all, Nat.sub_diag. cbn [firstn skipn app]. rewrite app_nil_r. destruct (eight L) as ((st & tab) & U). rewrite U. cbn [bind]. rewrite X. cbn [bind]. rewrite Y. cbn [bind]. now eexists.
Qed.
Lemma sheets_from_ok rels rs : forall d, (exists r, xlsb_sheets_from rels rs d = Ok r) <->
  forall r, In r rs -> bundle_sound r /\ forall bn, bundle_loadr r = Ok bn -> exists x, In x rels /\ r_id x = match strRelID bn with Some i => i | None => [] end.
Proof.
  induction rs as [|r rs IH]; intro d; cbn [xlsb_sheets_from]; [split; [easy|intros _; now exists d]|].
  destruct (bundle_loadr r) as [bn|x] eqn:B; cbn [bind].
  - assert (S : bundle_sound r) by (apply bundle_ok; now exists bn). destruct (find _ rels) as [x|] eqn:F.
    + apply find_some in F as [I E]. apply str_eqb_eq in E. rewrite IH. split.
      * intros H q [<-|J]; [|now apply H]. split; [exact S|]. intros bn' B'. assert (bn' = bn) as -> by congruence. exists x. split; [exact I|]. now unfold Sheets.xstr_value in E.
      * intros H q J. apply H. now right.
    + split; [intros [q H]; discriminate|]. intro H. destruct (H r (or_introl eq_refl)) as [_ G]. destruct (G bn B) as (x & I & E).
      apply find_none with (2 := I) in F. cbv beta in F. unfold Sheets.xstr_value in F. rewrite <- E, str_eqb_refl in F. discriminate.
  - split; [intros [q H]; discriminate|]. intro H. destruct (H r (or_introl eq_refl)) as [G _]. apply bundle_ok in G as [bn G]. congruence.
Qed.
Theorem C105_xlsb_sheets expat z : (exists d, bbook_sheets expat z = Ok d) <-> xlsb_sheets_sound expat z.
Proof.
  assert (St : forall rels rs, (exists d, match xlsb_sheets_from rels rs [] with Err StopIterationError => Err RuntimeError | r => r end = Ok d) <-> exists d, xlsb_sheets_from rels rs [] = Ok d).
  { intros rels rs. destruct (xlsb_sheets_from rels rs []) as [d|e]; [reflexivity|]. split; intros [d H]; [destruct e|]; discriminate. }
  unfold bbook_sheets. split.
  - intros [d H]. apply bind_ok in H as (rb & O & H). apply bind_ok in H as (rels & R & H).
    assert (RR : (rb <- zopen z (s "xl/_rels/workbook.bin.rels") ;; parse expat scan_rels rb) = Ok rels) by (rewrite O; exact R).
    apply relations_ok in RR as (rs & RS & RR). apply bind_ok in H as (wb & W & H). apply open_ok in W.
    pose proof (proj1 (St rels (scan_part [412] wb)) (ex_intro _ d H)) as H'. exists rs, wb. split; [exact RS|]. split; [exact W|]. intros r I.
    destruct (proj1 (sheets_from_ok _ _ _) H' r I) as [S G]. split; [exact S|]. intros bn B. destruct (G bn B) as (x & Ix & E).
    destruct (scan_rels_from RR Ix) as (a & t & Ia & Ai & _). exists a. split; [exact Ia|congruence].
  - intros (rs & wb & RS & M & H). pose proof RS as [WF At]. destruct (proj2 (scan_rels_ok rs) At) as (rels & RR).
    assert (R : (rb <- zopen z (s "xl/_rels/workbook.bin.rels") ;; parse expat scan_rels rb) = Ok rels) by (apply relations_ok; now exists rs).
    apply bind_ok in R as (rb & O & P). rewrite O. cbn [bind]. rewrite P. cbn [bind]. rewrite (member_open M). cbn [bind].
    apply St, sheets_from_ok. intros r I. destruct (H r I) as [S G]. split; [exact S|]. intros bn B. destruct (G bn B) as (a & Ia & Ai).
    destruct (scan_rels_has RR Ia Ai) as (x & X & E). now exists x.
Qed.
Print Assumptions C105_xlsb_sheets.
Lemma pack_H_ok i : (exists k, pack_H i = Ok k) <-> 0 <= i < 2 ^ 16.
Proof. unfold pack_H. destruct ((0 <=? i) && (i <? 2 ^ 16)) eqn:B; split; [lia|intros _; now eexists|intros [k H]; discriminate|lia]. Qed.
Lemma xfs_ok l : forall i, 0 <= i -> (exists r, xlsb_xfs_from i l = Ok r) <-> l = [] \/ i + zlen l <= 2 ^ 16.
Proof.
  induction l as [|f l IH]; intros i Hi; cbn [xlsb_xfs_from]; [split; [now left|intros _; now exists []]|]. rewrite zlen_cons. split.
  - intros [r H]. apply bind_ok in H as (k & K & H). apply bind_ok in H as (t & T & H). pose proof (proj1 (pack_H_ok i) (ex_intro _ k K)).
    destruct (proj1 (IH (i + 1) ltac:(lia)) (ex_intro _ t T)) as [-> | L]; right; [change (zlen []) with 0; lia|lia].
  - intros [H|H]; [discriminate|]. assert (0 <= zlen l) by (unfold zlen; lia). destruct (proj2 (pack_H_ok i) ltac:(lia)) as [k ->]. cbn [bind].
    destruct (proj2 (IH (i + 1) ltac:(lia))) as [t ->]; [right; lia|]. cbn [bind]. now eexists.
Qed.
Lemma xfs_all l : forall i r y, xlsb_xfs_from i l = Ok r -> In y l -> exists k, In (k, y) r.
Proof.
  induction l as [|f l IH]; intros i r y H I; cbn [xlsb_xfs_from] in H; [easy|]. apply bind_ok in H as (h & _ & H). apply bind_ok in H as (t & T & H). injection H as <-.
  destruct I as [<-|I]; [eexists; now left|]. destruct (IH _ _ _ T I) as [k K]. exists k. now right.
Qed.
Lemma fms_ok rs : forall d, (exists f, xlsb_fms_from d rs = Ok f) <-> forall r, In r rs -> good_fmt r.
Proof.
  induction rs as [|r rs IH]; intro d; cbn [xlsb_fms_from]; [split; [easy|intros _; now exists d]|]. rewrite py_slice_from by lia. change (Z.to_nat 2) with 2%nat. split.
  - intros [f H]. apply bind_ok in H as (t & T & H). intros q [<-|I]; [now exists t|]. exact (proj1 (IH _) (ex_intro _ f H) q I).
  - intro H. destruct (H r (or_introl eq_refl)) as [t ->]. cbn [bind]. apply IH. intros q I. apply H. now right.
Qed.
Lemma keys_ok l : (exists b, xlsb_builtin_keys l = Ok b) <-> forall k, ~ In (k, []) l.
Proof.
  induction l as [|[k y] l IH]; cbn [xlsb_builtin_keys]; [split; [intros _ k []|intros _; now exists []]|]. destruct y as [|c y].
  - split; [intros [b H]; discriminate|]. intro H. destruct (H k). now left.
  - split.
    + intros [b H]. apply bind_ok in H as (t & T & _). intros q [[=]|I]. exact (proj1 IH (ex_intro _ t T) q I).
    + intro H. destruct (proj2 IH) as [t ->]; [intros q I; apply (H q); now right|]. cbn [bind]. now eexists.
Qed.
Lemma cell_xfs_filter rs : filter (fun r => negb (str_eqb (sub (rec_data r) 0 2) [255; 255])) rs = filter cell_xf rs.
Proof. apply filter_ext. intro r. unfold cell_xf. rewrite sub_spec by lia. reflexivity. Qed.
Theorem C105_xlsb_styles z : (exists st, bbook_styles z = Ok st) <-> xlsb_styles_sound z.
Proof.
  assert (Xf : forall rs xfs, xlsb_xfs rs = Ok xfs -> (forall k, ~ In (k, []) xfs) <-> forall r, In r rs -> cell_xf r = true -> 2 < zlen (rec_data r)).
  { intros rs xfs X. assert (Em : forall r : record, sub (rec_data r) 2 4 = [] <-> zlen (rec_data r) <= 2).
    { intro r. rewrite sub_spec by lia. change (Z.to_nat (4 - 2)) with 2%nat. change (Z.to_nat 2) with 2%nat. unfold zlen. destruct (rec_data r) as [|? [|? [|? l]]]; cbn; split; intro H; try reflexivity; try lia. discriminate. }
    split.
    - intros H r I C. assert (N : sub (rec_data r) 2 4 <> []).
      { intro E. destruct (xfs_all (y := []) X) as [k K]; [|exact (H k K)]. unfold xlsb_xf_fmts. rewrite cell_xfs_filter. apply in_map_iff. exists r. split; [exact E|]. apply filter_In. now split. }
      rewrite Em in N. lia.
    - intros H k I. apply (xfs_in X) in I. unfold xlsb_xf_fmts in I. rewrite cell_xfs_filter in I. apply in_map_iff in I as (r & E & I). apply filter_In in I as [I C].
      apply Em in E. specialize (H r I C). lia. }
  assert (Len : forall rs, zlen (xlsb_xf_fmts rs) = zlen (filter cell_xf rs)) by (intro rs; unfold xlsb_xf_fmts, zlen; now rewrite map_length, cell_xfs_filter).
  unfold bbook_styles, xlsb_styles. split.
  - intros [st H]. apply bind_ok in H as (b & O & H). apply open_ok in O. apply bind_ok in H as (xfs & X & H). apply bind_ok in H as (fms & F & H). apply bind_ok in H as (bk & B & H).
    exists b. split; [exact O|]. split; [apply (fms_ok _ []); now exists fms|]. split; [apply (Xf _ _ X), keys_ok; now exists bk|]. rewrite <- Len.
    destruct (proj1 (xfs_ok _ (i := 0) ltac:(lia)) (ex_intro _ xfs X)) as [-> | L]; [vm_compute; discriminate|exact L].
  - intros (b & M & F & X & L). rewrite (member_open M). cbn [bind]. rewrite <- Len in L. destruct (proj2 (xfs_ok (xlsb_xf_fmts (scan_part [47] b)) (i := 0) ltac:(lia)) (or_intror L)) as [xfs E].
    unfold xlsb_xfs at 1. rewrite E. cbn [bind]. destruct (proj2 (fms_ok _ []) F) as [fms ->]. cbn [bind]. destruct (proj2 (keys_ok xfs)) as [bk ->]; [apply (Xf _ _ E); exact X|]. cbn [bind]. now eexists.
Qed.
Print Assumptions C105_xlsb_styles.

Lemma item_ok r : bytes_ok (rec_data r) = true -> (exists t, sst_text (rec_data r) = Ok t) <-> item_sound r.
Proof.
  intro B. unfold sst_text, item_sound. destruct (rec_data r) as [|f b]; [split; [intros [t H]; discriminate|intros (f & b & n & body & H & _); discriminate]|].
  apply bytes_cons in B as [_ B]. rewrite sub_spec by lia. change (Z.to_nat (5 - 1)) with 4%nat. change (Z.to_nat 1) with 1%nat. cbn [skipn].
  assert (Sl : forall n body, counted b n body -> py_slice (f :: b) (Some 5) (Some (5 + n * 2)) = firstn (Z.to_nat (2 * n)) body).
  { intros n body (p & q & u & v & -> & ->). repeat match goal with H : bytes_ok (_ :: _) = true |- _ => apply bytes_cons in H as [? H] end.
    change (py_slice (f :: p :: q :: u :: v :: body)) with (py_slice ([f; p; q; u; v] ++ body)). fold (sub ([f; p; q; u; v] ++ body) 5 (5 + (p + 256 * q + 65536 * u + 16777216 * v) * 2)). rewrite sub_spec by lia. cbn [app]. change (Z.to_nat 5) with 5%nat. cbn [skipn]. f_equal. lia. }
  split.
  - intros [t H]. apply bind_ok in H as (n & U & H). exists f, b, n, (skipn 4 b). assert (C : counted b n (skipn 4 b)).
    { apply counted_load. exists (firstn 4 b). split; [apply firstn_skipn|]. split; [exact (unpack_I_four U)|exact U]. }
    split; [reflexivity|]. split; [exact C|]. exists t. now rewrite <- (Sl _ _ C).
  - intros (f' & b' & n & body & [= <- <-] & C & t & T). exists t. rewrite <- (Sl _ _ C) in T. apply counted_load in C as (h & <- & L & U).
    rewrite <- L, firstn_app, firstn_all, Nat.sub_diag. cbn [firstn]. rewrite app_nil_r, U. cbn [bind]. exact T.
Qed.
Lemma inside_bytes ids b r : ids <> [] -> bytes_ok b = true -> In r (scan_part ids b) -> bytes_ok (rec_data r) = true.
Proof.
  intros N B I. destruct (scan_part_inside ids b r N I) as (_ & p & q & ->). unfold bytes_ok in *. rewrite !forallb_app in B. now destruct (forallb byte_ok p), (forallb byte_ok (rec_data r)).
Qed.
Lemma shared_from_sound nv rs : (forall r, In r rs -> bytes_ok (rec_data r) = true) -> forall i p, xlsb_shared_from nv i rs = Ok p -> forall r, In r rs -> item_sound r.
Proof.
  induction rs as [|r rs IH]; intros B i p H q I; [easy|]. cbn [xlsb_shared_from] in H. apply bind_ok in H as (y & Y & H). apply bind_ok in H as (k & _ & H). apply bind_ok in H as ([t n] & T & _).
  destruct I as [<-|I]; [apply item_ok; [apply B; now left|now exists y]|]. apply (IH (fun q J => B q (or_intror J)) _ _ T q I).
Qed.
Lemma shared_from_ok nv rs : (forall r, In r rs -> bytes_ok (rec_data r) = true) -> (forall r, In r rs -> item_sound r) -> forall i, 0 <= i -> i + zlen rs <= 2 ^ 32 ->
  exists p, xlsb_shared_from nv i rs = Ok p.
Proof.
  induction rs as [|r rs IH]; intros B G i Hi L; cbn [xlsb_shared_from]; [now eexists|]. rewrite zlen_cons in L. assert (0 <= zlen rs) by (unfold zlen; lia).
  destruct (proj2 (item_ok (B r (or_introl eq_refl))) (G r (or_introl eq_refl))) as [y ->]. cbn [bind].
  destruct (IH (fun q J => B q (or_intror J)) (fun q J => G q (or_intror J)) (i + 1) ltac:(lia) ltac:(lia)) as [[t n] T].
  assert (K : exists k, (if nv y then k <- pack_I i ;; Ok [k] else Ok []) = Ok k).
  { destruct (nv y); [|now eexists]. unfold pack_I. destruct ((0 <=? i) && (i <? 2 ^ 32)) eqn:R; [|lia]. cbn [bind]. now eexists. }
  destruct K as [k ->]. cbn [bind]. rewrite T. cbn [bind]. now eexists.
Qed.
(** Missing from the partial statement: more than 2^32 strings. *)
Theorem C105_xlsb_shared_partial z nv : (forall b, member z (s "xl/sharedStrings.bin") b -> bytes_ok b = true) -> xlsb_few z ->
  (exists l, bbook_shared z nv = Ok l) <-> xlsb_items_sound z.
Proof.
  intros B Few. unfold bbook_shared, xlsb_shared. split.
  - intros [l H]. apply bind_ok in H as (b & O & H). apply open_ok in O. exists b. split; [exact O|]. refine (@shared_from_sound nv _ _ 0 l H). intros r. apply inside_bytes; [discriminate|now apply B].
  - intros (b & M & G). rewrite (member_open M). cbn [bind]. apply shared_from_ok; [intros r; apply inside_bytes; [discriminate|now apply B]|exact G|lia|exact (Few b M)].
Qed.
Print Assumptions C105_xlsb_shared_partial.
Lemma loop_styles styles nv ns sk tk tne cols rs : forall row empty n, snd (xlsb_loop styles nv ns sk tk tne cols rs row empty n) = None ->
  Cell.cells_of (fst (xlsb_loop styles nv ns sk tk tne cols rs row empty n)) <> [] -> exists st, styles = Ok st.
Proof.
  induction rs as [|r rs IH]; intros row empty n E C; cbn [xlsb_loop] in E, C; [now destruct C|].
  destruct (rec_id r =? 0).
  - cbv zeta in E, C. set (row' := if negb empty || tne then row + 1 else row) in *. destruct ((0 <? xlsb_take sk tk) && (xlsb_take sk tk <? row')); [now destruct C|].
    specialize (IH row' true n). destruct (xlsb_loop styles nv ns sk tk tne cols rs row' true n) as [o e]. cbn [fst snd] in *. apply IH; [exact E|]. now destruct (sk <=? row').
  - destruct (row <? sk); [exact (IH _ _ _ E C)|]. destruct (rec_id r =? 402); [now destruct C|].
    destruct (xlsb_cell styles nv ns sk cols n row r) as [[c|]|x] eqn:X; [|exact (IH _ _ _ E C)|discriminate].
    unfold xlsb_cell in X. cbv zeta in X. apply bind_ok in X as (col & _ & X). destruct (mem_Z col cols); [discriminate|]. apply bind_ok in X as (st & S & _). now exists st.
Qed.
Theorem C105_xlsb expat ro z w op wb tbl : absent z (s "xl/workbook.xml") -> member z (s "xl/workbook.bin") wb ->
  (forall b, member z (s "xl/sharedStrings.bin") b -> bytes_ok b = true) -> read_book expat ro z w op = Ok tbl ->
  xlsb_sheets_sound expat z /\ xlsb_styles_sound z /\ xlsb_items_sound z /\ delivered expat z w <> [] /\
  exists d, bbook_sheets expat z = Ok d /\ sheet_there z d w.
Proof.
  intros A W B H. unfold read_book in H. unfold delivered. rewrite (absent_has A) in *. rewrite (member_has W) in H. apply read_cells_ok in H as (I & N & l & L).
  assert (Sh : xlsb_items_sound z).
  { apply bind_ok in L as (p & L & _). unfold bbook_shared, xlsb_shared in L. apply bind_ok in L as (b & O & L). apply open_ok in O. exists b. split; [exact O|].
    refine (@shared_from_sound _ _ _ 0 p L). intros r. apply inside_bytes; [discriminate|now apply B]. }
  unfold bbook_iter in I, N |- *. cbv zeta in I, N |- *.
  match type of I with snd (match ?m with Ok b => xlsb_iter _ _ _ _ _ _ _ _ | Err _ => _ end) = _ => destruct m as [b|x] eqn:M end; [|discriminate].
  apply bind_ok in M as (d & D & M). apply bind_ok in M as (p & P & M). destruct (wo_skip w <? 0) eqn:K; [discriminate|]. destruct (wo_take w <? 0) eqn:T; [discriminate|].
  split; [apply C105_xlsb_sheets; now exists d|]. split.
  { apply C105_xlsb_styles. unfold xlsb_iter in I, N. rewrite K, T in I, N. exact (loop_styles I N). }
  split; [exact Sh|]. split; [exact N|]. exists d. split; [exact D|]. split; [lia|]. split; [lia|]. exists p, b. split; [now apply select_ok|now apply open_ok].
Qed.
Print Assumptions C105_xlsb.
(** All cell records of a sheet that is read from its first to its last row. *)
Lemma cell_ok styles nv ns sk cols n row r x : bytes_ok (rec_data r) = true -> xlsb_cell styles nv ns sk cols n row r = Ok x -> cell_sound cols r.
Proof.
  intros B X. unfold xlsb_cell in X. cbv zeta in X. apply bind_ok in X as (col & U & X). rewrite sub_spec in U by lia. change (Z.to_nat (4 - 0)) with 4%nat in U. cbn [Z.to_nat skipn] in U.
  exists col, (skipn 4 (rec_data r)). split.
  { apply counted_load. exists (firstn 4 (rec_data r)). split; [apply firstn_skipn|]. split; [exact (unpack_I_four U)|exact U]. }
  destruct (mem_Z col cols) eqn:C; [left; now apply mem_Z_In|right]. intro Id. apply bind_ok in X as (st & _ & X).
  assert ((rec_id r =? 6) || (rec_id r =? 8) = true) as E by lia. rewrite E in X. apply bind_ok in X as (m & V & X). apply bind_ok in X as (t & T & _).
  rewrite sub_spec in V by lia. change (Z.to_nat (12 - 8)) with 4%nat in V. change (Z.to_nat 8) with 8%nat in V. exists m, (skipn 4 (skipn 8 (rec_data r))). split.
  { apply counted_load. exists (firstn 4 (skipn 8 (rec_data r))). split; [apply firstn_skipn|]. split; [exact (unpack_I_four V)|exact V]. }
  assert (0 <= m).
  { assert (B' : bytes_ok (firstn 4 (skipn 8 (rec_data r))) = true).
    { unfold bytes_ok in *. apply forallb_forall. intros c I. apply forallb_forall with (x := c) in B; [exact B|]. rewrite <- (firstn_skipn 8 (rec_data r)), <- (firstn_skipn 4 (skipn 8 (rec_data r))). apply in_or_app. right. apply in_or_app. now left. }
    clear - V B'. destruct (firstn 4 (skipn 8 (rec_data r))) as [|b0 [|b1 [|b2 [|b3 [|? ?]]]]]; try discriminate.
    repeat match goal with H : bytes_ok (_ :: _) = true |- _ => apply bytes_cons in H as [? H] end.
    assert (m = b0 + 256 * b1 + 65536 * b2 + 16777216 * b3) by (injection V as V; symmetry; exact V). lia. }
  exists t. fold (sub (rec_data r) 12 (m * 2 + 12)) in T. rewrite sub_spec in T by lia. rewrite ChunkWindow.skipn_plus. change (Z.to_nat 12) with (8 + 4)%nat in T.
  replace (2 * m) with (m * 2 + 12 - 12) by lia. exact T.
Qed.
Lemma loop_cells styles nv ns tne cols rs : (forall r, In r rs -> bytes_ok (rec_data r) = true) -> forall row empty n, -1 <= row -> (empty = false \/ 0 <= row) ->
  snd (xlsb_loop styles nv ns 0 0 tne cols rs row empty n) = None ->
  forall pre r post, rs = pre ++ r :: post -> (0 <= row \/ In 0 (map rec_id pre)) -> ~ In 402 (map rec_id pre) -> rec_id r <> 0 -> rec_id r <> 402 -> cell_sound cols r.
Proof.
  induction rs as [|q rs IH]; intros B row empty n Hr He E pre r post Eq Ph N4 R0 R4; [now destruct pre|]. cbn [xlsb_loop] in E.
  assert (B' : forall r, In r rs -> bytes_ok (rec_data r) = true) by (intros x I; apply B; now right).
  destruct pre as [|q' pre]; cbn [app] in Eq; injection Eq as -> Eq.
  - destruct Ph as [Ph|[]]. destruct (rec_id r =? 0) eqn:E0; [lia|]. destruct (row <? 0) eqn:E1; [lia|]. destruct (rec_id r =? 402) eqn:E4; [lia|].
    destruct (xlsb_cell styles nv ns 0 cols n row r) as [x|x] eqn:X; [|discriminate]. refine (cell_ok _ X). apply B. now left.
  - assert (N4' : ~ In 402 (map rec_id pre)) by (intro I; apply N4; now right). cbn [map In] in Ph. destruct (rec_id q' =? 0) eqn:E0.
    + cbv zeta in E. set (row' := if negb empty || tne then row + 1 else row) in *. assert (0 <= row') by (unfold row'; destruct He as [-> |]; cbn [negb orb]; [lia|destruct (negb empty || tne); lia]).
      change (xlsb_take 0 0) with 0 in E. cbn [Z.ltb Z.compare andb] in E. specialize (IH B' row' true n ltac:(lia) ltac:(lia)).
      destruct (xlsb_loop styles nv ns 0 0 tne cols rs row' true n) as [o e]. cbn [fst snd] in *. exact (IH E pre r post Eq (or_introl H) N4' R0 R4).
    + assert (Ph' : 0 <= row \/ In 0 (map rec_id pre)) by (destruct Ph as [?|[?|?]]; [now left|lia|now right]).
      destruct (row <? 0) eqn:E1; [exact (IH B' row empty n Hr He E pre r post Eq Ph' N4' R0 R4)|].
      destruct (rec_id q' =? 402) eqn:E4; [exfalso; apply N4; left; lia|].
      destruct (xlsb_cell styles nv ns 0 cols n row q') as [[c|]|x]; [|exact (IH B' row empty n Hr He E pre r post Eq Ph' N4' R0 R4)|discriminate].
      specialize (IH B' row false (S n) Hr (or_introl eq_refl)). destruct (xlsb_loop styles nv ns 0 0 tne cols rs row false (S n)) as [o e]. exact (IH E pre r post Eq Ph' N4' R0 R4).
Qed.
Theorem C105_xlsb_cells_partial expat ro z w op wb tbl d p b : absent z (s "xl/workbook.xml") -> member z (s "xl/workbook.bin") wb -> wo_skip w = 0 -> wo_take w = 0 ->
  read_book expat ro z w op = Ok tbl -> bbook_sheets expat z = Ok d -> chosen_part d (wo_sheet w) p -> member z p b -> bytes_ok b = true ->
  forall r, cell_record b r -> cell_sound (wo_cols w) r.
Proof.
  intros A W Sk Tk H D P M B r (pre & post & Eq & I0 & N4 & R0 & R4). unfold read_book in H. rewrite (absent_has A), (member_has W) in H. apply read_cells_ok in H as (I & _).
  unfold bbook_iter in I. cbv zeta in I. apply select_ok in P. rewrite D in I. cbn [bind] in I. rewrite P in I. cbn [bind] in I. rewrite Sk, Tk, (member_open M) in I. unfold xlsb_iter in I. cbn [Z.ltb Z.compare] in I.
  refine (loop_cells _ _ _ I Eq (or_intror I0) N4 R0 R4); [|lia|now left]. intro q. now apply inside_bytes.
Qed.
Print Assumptions C105_xlsb_cells_partial.
Lemma member_all (z : archive) n (p : bytes -> bool) : match find (fun q => str_eqb n (fst q)) z with Some q => p (snd q) | None => true end = true -> forall b, member z n b -> p b = true.
Proof. intros H b M. unfold member in M. now rewrite M in H. Qed.
Lemma member_some (z : archive) n : match find (fun q => str_eqb n (fst q)) z with Some q => true | None => false end = true -> exists b, member z n b.
Proof. destruct (open_cases z n) as [(b & M & _)|(A & O)]; [now exists b|]. destruct (find _ z) as [[m b]|] eqn:F; [|discriminate]. intros _. exists b. assert (m = n) as -> by (apply find_some in F as [_ F]; cbn in F; now apply str_eqb_eq in F). exact F. Qed.
(** The example workbooks are sound, and parts of them are not once damaged. *)
Example C105_example :
  xlsx_sheets_sound (exx_expat exx_rows) exx_files /\ xlsx_styles_sound (exx_expat exx_rows) exx_files /\ xlsx_shared_sound (exx_expat exx_rows) exx_files /\
  ~ xlsx_styles_sound (exx_expat exx_rows) (exx_less (s "xl/styles.xml")) /\ ~ xlsx_sheets_sound (exx_expat exx_rows) (exx_less (s "xl/_rels/workbook.xml.rels")) /\
  xlsb_sheets_sound exb_expat (exb_files exb_rows exb_sl) /\ xlsb_styles_sound (exb_files exb_rows exb_sl) /\ xlsb_items_sound (exb_files exb_rows exb_sl) /\
  ~ xlsb_styles_sound (exb_with (s "xl/styles.bin") [mkRec 47 [0; 0]]) /\ ~ xlsb_styles_sound (exb_with (s "xl/styles.bin") [mkRec 44 [164; 0; 65]]) /\
  ~ xlsb_sheets_sound exb_expat (exb_with (s "xl/workbook.bin") [mkRec 412 [0; 0; 0; 0; 1; 0; 0; 0; 255; 255; 255; 255; 255; 255; 255; 255]]) /\
  ~ xlsb_items_sound (exb_with (s "xl/sharedStrings.bin") [mkRec 19 [0; 1; 0]]).
Proof.
  assert (Y : forall A (m : res A), raised m = None -> exists a, m = Ok a) by (intros A [a|e]; [now exists a|discriminate]).
  assert (N : forall A (m : res A), raised m <> None -> ~ exists a, m = Ok a) by (intros A [a|e] H [b E]; [now destruct H|discriminate]).
  assert (Rx : exists t, read_book (exx_expat exx_rows) ex_ro exx_files (ex_w true) opts1 = Ok t) by (apply Y; vm_compute; reflexivity). destruct Rx as [t Rx].
  assert (Rb : exists t, read_book exb_expat ex_ro (exb_files exb_rows exb_sl) (ex_w true) opts1 = Ok t) by (apply Y; vm_compute; reflexivity). destruct Rb as [u Rb].
  destruct (@member_some exx_files (s "xl/workbook.xml")) as [bx Mx]; [vm_compute; reflexivity|]. destruct (@member_some (exb_files exb_rows exb_sl) (s "xl/workbook.bin")) as [bb Mb]; [vm_compute; reflexivity|].
  destruct (@C105_xlsx _ _ _ _ _ _ _ Mx Rx) as (X1 & X2 & X3 & _).
  assert (Ab : absent (exb_files exb_rows exb_sl) (s "xl/workbook.xml")) by (intros b H; in_cases; discriminate).
  assert (By : forall b, member (exb_files exb_rows exb_sl) (s "xl/sharedStrings.bin") b -> bytes_ok b = true) by (apply member_all; vm_compute; reflexivity).
  destruct (@C105_xlsb _ _ _ _ _ _ _ Ab Mb By Rb) as (B1 & B2 & B3 & _).
  split; [exact X1|]. split; [exact X2|]. split; [exact X3|].
  split; [rewrite <- C105_xlsx_styles; apply N; vm_compute; discriminate|].
  split; [rewrite <- C105_xlsx_sheets; apply N; vm_compute; discriminate|].
  split; [exact B1|]. split; [exact B2|]. split; [exact B3|].
  split; [rewrite <- C105_xlsb_styles; apply N; vm_compute; discriminate|].
  split; [rewrite <- C105_xlsb_styles; apply N; vm_compute; discriminate|].
  split; [rewrite <- C105_xlsb_sheets; apply N; vm_compute; discriminate|].
  rewrite <- (@C105_xlsb_shared_partial _ (fun _ => false)).
  - apply N. vm_compute. discriminate.
  - apply member_all. vm_compute. reflexivity.
  - intros b M. apply Z.leb_le. revert b M. apply (@member_all _ _ (fun b => zlen (scan_part [19] b) <=? 2 ^ 32)). vm_compute. reflexivity.
Qed.
Example C105_cells_example : exists b r, member (exb_files exb_rows exb_sl) (s "xl/worksheets/sheet1.bin") b /\ bytes_ok b = true /\ cell_record b r /\ cell_sound [] r.
Proof.
  eexists. exists (nth 1 (scan_part xlsb_ids (dumped (sheet_records [mkRec 129 []] exb_rows [] [mkRec 130 []]))) (mkRec 0 [])). split; [reflexivity|]. split; [vm_compute; reflexivity|]. split.
  - exists [mkRec 0 (rec_data (nth 0 (scan_part xlsb_ids (dumped (sheet_records [mkRec 129 []] exb_rows [] [mkRec 130 []]))) (mkRec 0 [])))], (skipn 2 (scan_part xlsb_ids (dumped (sheet_records [mkRec 129 []] exb_rows [] [mkRec 130 []])))).
    split; [vm_compute; reflexivity|]. split; [now left|]. split; [intros [H|[]]; discriminate|]. split; vm_compute; discriminate.
  - do 2 eexists. split; [do 4 eexists; split; vm_compute; reflexivity|]. right. set (r := nth 1 _ _). assert (E : rec_id r = 7) by (vm_compute; reflexivity). intros [H|H]; rewrite E in H; discriminate.
Qed.
