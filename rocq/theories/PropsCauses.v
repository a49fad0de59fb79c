(** Claim C97: why reading a file fails. *)
From Coq Require Import Sorted ZifyBool ZifyNat.
From Verif Require Import Py PyFacts PyText Biff BiffSpec BiffProofs BiffRecs Utf16 Utf16Spec Utf16Proofs NumFmt NumFmtSpec Cell Xlsb Xlsx XlsbSpec XlsbProofs XlsbParts PropsBiff PropsXlsb
  XlsxSpec XlsxProofs XlsxParts XlsxNorm PropsXlsx Sheets SheetsSpec SheetsProofs PropsSheets RobustSpec RobustProofs PropsRobust Casts Chunk ChunkSpec ReadSpec Utf8 Series SeriesSpec
  Reader ReaderSpec ReaderProofs ReaderSteps ReaderRead ReaderMore PropsReader PropsSafe TableSpec TableSteps TableErrors PropsTable Workbook WorkbookSpec WorkbookProofs PropsWorkbook PropsDamage FileSpec RaiseProofs PropsSeries.
Set Implicit Arguments. Unset Strict Implicit.

(** *** Members *)
Lemma open_cases z n : (exists b, member z n b /\ zopen z n = Ok b) \/ absent z n /\ zopen z n = Err KeyError.
Proof.
  destruct (find (fun p => str_eqb n (fst p)) z) as [[m b]|] eqn:E.
  - left. exists b. assert (m = n) as -> by (apply find_some in E as [_ E]; cbn in E; now apply str_eqb_eq in E). split; [exact E|now apply member_open].
  - right. assert (A : absent z n).
    { intros b I. apply find_none with (2 := I) in E. cbn [fst] in E. rewrite str_eqb_refl in E. discriminate. }
    split; [exact A|now apply absent_open].
Qed.
Lemma bind_err {A B} (m : res A) (f : A -> res B) e : (x <- m ;; f x) = Err e -> m = Err e \/ exists a, m = Ok a /\ f a = Err e.
Proof. destruct m as [a|x]; cbn [bind]; intro H; [right; now exists a|left; congruence]. Qed.
Lemma parse_err expat A (f : list event -> res A) b e : parse expat f b = Err e -> f (fst (expat b)) = Err e \/ exists es, expat b = (es, Some e).
Proof.
  unfold parse. destruct (expat b) as [es x]. cbn [fst]. intro H. apply bind_err in H as [H|(a & _ & H)]; [now left|].
  destruct x as [x|]; [|discriminate]. injection H as ->. right. now exists es.
Qed.
Lemma parse_inv expat A (f : list event -> res A) b a : parse expat f b = Ok a -> f (fst (expat b)) = Ok a.
Proof. unfold parse. destruct (expat b) as [es x]. cbn [fst]. destruct (f es) as [y|y]; cbn [bind]; [destruct x; congruence|discriminate]. Qed.
Lemma attr_req_err a k e : attr_req a k = Err e -> e = KeyError /\ attr a k = None.
Proof. unfold attr_req. destruct (attr a k); [discriminate|]. intros [= <-]. now split. Qed.
Lemma attr_req_ok a k v : attr_req a k = Ok v -> attr a k = Some v.
Proof. unfold attr_req. destruct (attr a k); [|discriminate]. now intros [= ->]. Qed.

(** *** Relationships and sheets *)
Lemma scan_rels_err es e : scan_rels es = Err e ->
  e = KeyError /\ exists a k, In (EStart (s "Relationship") a) es /\ In k [s "Id"; s "Type"; s "Target"] /\ attr a k = None.
Proof.
  induction es as [|ev es IH]; cbn [scan_rels]; [discriminate|].
  assert (IH' : scan_rels es = Err e -> e = KeyError /\ exists a k, In (EStart (s "Relationship") a) (ev :: es) /\ In k [s "Id"; s "Type"; s "Target"] /\ attr a k = None).
  { intro H. destruct (IH H) as (E & a & k & I & R). split; [exact E|]. exists a, k. split; [now right|exact R]. }
  destruct ev as [tag a|t|tag]; [|exact IH'|exact IH'].
  destruct (str_eqb tag (s "Relationship")) eqn:T; [|exact IH']. apply str_eqb_eq in T. subst tag. intro H.
  apply bind_err in H as [H|(x & _ & H)]; [apply attr_req_err in H as [-> H]; split; [reflexivity|]; exists a, (s "Id"); split; [now left|split; [cbn; tauto|exact H]]|].
  apply bind_err in H as [H|(y & _ & H)]; [apply attr_req_err in H as [-> H]; split; [reflexivity|]; exists a, (s "Type"); split; [now left|split; [cbn; tauto|exact H]]|].
  apply bind_err in H as [H|(g & _ & H)]; [apply attr_req_err in H as [-> H]; split; [reflexivity|]; exists a, (s "Target"); split; [now left|split; [cbn; tauto|exact H]]|].
  apply bind_err in H as [H|(l & _ & H)]; [now apply IH'|discriminate].
Qed.
Lemma scan_rels_in es rels a i t : scan_rels es = Ok rels -> In (EStart (s "Relationship") a) es -> attr a (s "Id") = Some i -> attr a (s "Type") = Some t ->
  exists g, In (mkRel i (last_segment t) g) rels.
Proof.
  revert rels. induction es as [|ev es IH]; intros rels H I Ai At; [easy|]. cbn [scan_rels] in H.
  destruct I as [-> | I].
  - rewrite str_eqb_refl in H. unfold attr_req at 1 2 in H. rewrite Ai, At in H. cbn [bind] in H. destruct (attr_req a (s "Target")) as [g|]; [|discriminate]. cbn [bind] in H.
    destruct (scan_rels es); [|discriminate]. injection H as <-. exists g. now left.
  - destruct ev as [tag b|x|tag]; [|exact (IH _ H I Ai At)|exact (IH _ H I Ai At)].
    destruct (str_eqb tag (s "Relationship")); [|exact (IH _ H I Ai At)].
    destruct (attr_req b (s "Id")); [|discriminate]. destruct (attr_req b (s "Type")); [|discriminate]. destruct (attr_req b (s "Target")); [|discriminate]. cbn [bind] in H.
    destruct (scan_rels es) as [l|]; [|discriminate]. injection H as <-. destruct (IH l eq_refl I Ai At) as (g & G). exists g. now right.
Qed.
Lemma scan_rels_has es : forall rels a i, scan_rels es = Ok rels -> In (EStart (s "Relationship") a) es -> attr a (s "Id") = Some i -> exists r, In r rels /\ r_id r = i.
Proof.
  intros rels a i H I Ai. destruct (attr a (s "Type")) as [t|] eqn:At.
  - destruct (scan_rels_in H I Ai At) as (g & G). exists (mkRel i (last_segment t) g). now split.
  - exfalso. revert rels H. induction es as [|ev es IH]; intros rels H; [easy|]. cbn [scan_rels] in H. destruct I as [-> | I].
    + rewrite str_eqb_refl in H. unfold attr_req at 1 2 in H. rewrite Ai, At in H. discriminate.
    + destruct ev as [tag b|x|tag]; [|exact (IH I _ H)|exact (IH I _ H)].
      destruct (str_eqb tag (s "Relationship")); [|exact (IH I _ H)].
      destruct (attr_req b (s "Id")); [|discriminate]. destruct (attr_req b (s "Type")); [|discriminate]. destruct (attr_req b (s "Target")); [|discriminate]. cbn [bind] in H.
      destruct (scan_rels es) as [l|]; [|discriminate]. exact (IH I l eq_refl).
Qed.
Lemma scan_rels_id es rels r : scan_rels es = Ok rels -> In r rels -> exists a, In (EStart (s "Relationship") a) es /\ attr a (s "Id") = Some (r_id r).
Proof.
  revert rels. induction es as [|ev es IH]; intros rels H I; cbn [scan_rels] in H; [injection H as <-; easy|].
  assert (IH' : scan_rels es = Ok rels -> exists a, In (EStart (s "Relationship") a) (ev :: es) /\ attr a (s "Id") = Some (r_id r)).
  { intro K. destruct (IH _ K I) as (a & J & E). exists a. split; [now right|exact E]. }
  destruct ev as [tag b|x|tag]; [|now apply IH'|now apply IH'].
  destruct (str_eqb tag (s "Relationship")) eqn:T; [|now apply IH']. apply str_eqb_eq in T. subst tag.
  destruct (attr_req b (s "Id")) as [i|] eqn:Ei; [|discriminate]. destruct (attr_req b (s "Type")); [|discriminate]. destruct (attr_req b (s "Target")); [|discriminate]. cbn [bind] in H.
  destruct (scan_rels es) as [l|] eqn:El; [|discriminate]. injection H as <-. destruct I as [<-|I].
  - exists b. split; [now left|]. cbn [r_id]. now apply attr_req_ok.
  - destruct (IH l eq_refl I) as (q & J & E). exists q. split; [now right|exact E].
Qed.
Lemma segment_of_kind k t : existsb (Z.eqb 47) k = false -> of_kind k t -> last_segment t = k.
Proof.
  intros N [-> | (p & ->)].
  - unfold last_segment. assert (G : forall a, last_segment_from a k = rev a ++ k).
    { induction k as [|c k IH]; intro a; cbn [last_segment_from]; [now rewrite app_nil_r|]. cbn [existsb] in N. apply orb_false_elim in N as [N1 N2].
      rewrite Z.eqb_sym in N1. rewrite N1, IH by exact N2. cbn [rev]. now rewrite <- app_assoc. }
    now rewrite G.
  - cbn [app]. unfold last_segment. now apply last_segment_app.
Qed.
Lemma relations_err expat z rels e : (rb <- zopen z rels ;; parse expat scan_rels rb) = Err e -> relations_cause expat z rels e.
Proof.
  intro H. destruct (open_cases z rels) as [(b & M & O)|(A & O)]; rewrite O in H; cbn [bind] in H.
  - apply parse_err in H as [H|(es & H)].
    + apply scan_rels_err in H as (-> & a & k & I & K & N). right. right. exists k. split; [exact K|]. split; [reflexivity|]. exists a. split; [|exact N]. now exists b.
    + right. left. now exists b, es.
  - injection H as <-. left. now split.
Qed.
Lemma xlsx_names_err es d e : xlsx_names es d = Err e -> e = KeyError /\ exists a k, In (EStart (s "sheet") a) es /\ In k [s "name"; s "r:id"] /\ attr a k = None.
Proof.
  revert d. induction es as [|ev es IH]; intros d; cbn [xlsx_names]; [discriminate|].
  assert (IH' : forall d, xlsx_names es d = Err e -> e = KeyError /\ exists a k, In (EStart (s "sheet") a) (ev :: es) /\ In k [s "name"; s "r:id"] /\ attr a k = None).
  { intros d0 H. destruct (IH _ H) as (E & a & k & I & R). split; [exact E|]. exists a, k. split; [now right|exact R]. }
  destruct ev as [tag a|t|tag]; [|apply IH'|apply IH'].
  destruct (str_eqb tag (s "sheet")) eqn:T; [|apply IH']. apply str_eqb_eq in T. subst tag. intro H.
  apply bind_err in H as [H|(x & _ & H)]; [apply attr_req_err in H as [-> H]; split; [reflexivity|]; exists a, (s "name"); split; [now left|split; [cbn; tauto|exact H]]|].
  apply bind_err in H as [H|(y & _ & H)]; [apply attr_req_err in H as [-> H]; split; [reflexivity|]; exists a, (s "r:id"); split; [now left|split; [cbn; tauto|exact H]]|].
  now apply IH' in H.
Qed.
Lemma dset_in_key {B} (d : list (str * B)) k v p : In p (dset str_eqb d k v) -> p = (k, v) \/ In p d.
Proof.
  induction d as [|[m w] d IH]; cbn [dset]; intro H; [destruct H as [<-|[]]; now left|].
  destruct (str_eqb k m) eqn:E.
  - destruct H as [<-|H]; [apply str_eqb_eq in E; subst; now left|right; now right].
  - destruct H as [<-|H]; [right; now left|]. destruct (IH H) as [?|?]; [now left|right; now right].
Qed.
Lemma xlsx_names_in es : forall d names i n, xlsx_names es d = Ok names -> In (i, n) names -> In (i, n) d \/ exists a, In (EStart (s "sheet") a) es /\ attr a (s "r:id") = Some i.
Proof.
  induction es as [|ev es IH]; intros d names i n H I; cbn [xlsx_names] in H; [injection H as <-; now left|].
  assert (IH' : forall d, xlsx_names es d = Ok names -> In (i, n) d \/ exists a, In (EStart (s "sheet") a) (ev :: es) /\ attr a (s "r:id") = Some i).
  { intros d0 K. destruct (IH _ _ _ _ K I) as [?|(a & J & E)]; [now left|]. right. exists a. split; [now right|exact E]. }
  destruct ev as [tag a|t|tag]; [|exact (IH' _ H)|exact (IH' _ H)].
  destruct (str_eqb tag (s "sheet")) eqn:T; [|exact (IH' _ H)]. apply str_eqb_eq in T. subst tag.
  destruct (attr_req a (s "name")) as [x|] eqn:Ex; [|discriminate]. destruct (attr_req a (s "r:id")) as [y|] eqn:Ey; [|discriminate]. cbn [bind] in H.
  destruct (IH' _ H) as [J|?]; [|now right]. apply dset_in_key in J as [[= -> ->]|J]; [|now left]. right. exists a. split; [now left|]. now apply attr_req_ok.
Qed.
Lemma xlsx_join_err files names : forall d e, xlsx_join files names d = Err e -> e = KeyError /\ exists i n, In (i, n) names /\ dget str_eqb files i = None.
Proof.
  induction names as [|[i n] names IH]; intros d e H; cbn [xlsx_join] in H; [discriminate|].
  destruct (dget str_eqb files i) eqn:E.
  - destruct (IH _ _ H) as (-> & i' & n' & I & N). split; [reflexivity|]. exists i', n'. split; [now right|exact N].
  - injection H as <-. split; [reflexivity|]. exists i, n. split; [now left|exact E].
Qed.
Lemma xlsx_files_none rels : forall i, dget str_eqb (xlsx_files rels) i = None -> forall r, In r rels -> r_id r = i -> str_eqb (r_type r) (s "worksheet") = false.
Proof.
  unfold xlsx_files. intros i.
  assert (G : forall rels d, dget str_eqb (fold_left (fun d r => if str_eqb (r_type r) (s "worksheet") then dset str_eqb d (r_id r) (s "xl/" ++ r_target r) else d) rels d) i = None ->
    dget str_eqb d i = None /\ forall r, In r rels -> r_id r = i -> str_eqb (r_type r) (s "worksheet") = false).
  { clear rels. induction rels as [|r rels IH]; intros d H; cbn [fold_left] in H; [now split|].
    destruct (IH _ H) as [D R]. destruct (str_eqb (r_type r) (s "worksheet")) eqn:E.
    - assert (Ne : str_eqb i (r_id r) = false /\ dget str_eqb d i = None).
      { clear - D. induction d as [|[m w] d IH]; cbn [dset dget] in *.
        - destruct (str_eqb i (r_id r)); [discriminate|now split].
        - destruct (str_eqb (r_id r) m) eqn:E1; cbn [dget] in D.
          + apply str_eqb_eq in E1. subst m. destruct (str_eqb i (r_id r)); [discriminate|now split].
          + destruct (str_eqb i m); [discriminate|]. now apply IH. }
      split; [apply Ne|]. intros r' [<- | I] Q; [|now apply R]. subst i. destruct Ne as [Ne _]. rewrite str_eqb_refl in Ne. discriminate.
    - split; [exact D|]. intros r' [<- | I] Q; [exact E|now apply R]. }
  intro H. apply G in H. apply H.
Qed.
Lemma xbook_sheets_err expat z wb e : member z (s "xl/workbook.xml") wb -> xbook_sheets expat z = Err e -> xlsx_sheets_cause expat z e.
Proof.
  intros W H. unfold xbook_sheets in H.
  destruct (rb <- zopen z (s "xl/_rels/workbook.xml.rels") ;; parse expat scan_rels rb) as [rels|x] eqn:R.
  2: { left. apply relations_err. rewrite R. f_equal. destruct (zopen _ _) as [rb|]; cbn [bind] in *; [rewrite R in H|]; cbn [bind] in H; congruence. }
  destruct (open_cases z (s "xl/_rels/workbook.xml.rels")) as [(rb & Mr & Or)|(A & O)]; [|rewrite O in R; discriminate].
  rewrite Or in R, H. cbn [bind] in R, H. rewrite R in H. cbn [bind] in H. apply parse_inv in R.
  rewrite (member_open W) in H. cbn [bind] in H. apply bind_err in H as [H|(names & N & H)].
  - apply parse_err in H as [H|(es & H)].
    + apply xlsx_names_err in H as (-> & a & k & I & K & No). right. right. left. exists k. split; [exact K|]. split; [reflexivity|]. exists a. split; [now exists wb|exact No].
    + right. left. now exists wb, es.
  - apply parse_inv in N. apply xlsx_join_err in H as (-> & i & n & I & D). right. right. right. split; [reflexivity|].
    destruct (xlsx_names_in N I) as [[]|(a & J & E)]. exists a, i. split; [now exists wb|]. split; [exact E|].
    intros b t (rb' & Mr' & Jb) Bi Bt K. assert (rb' = rb) as -> by (unfold member in *; congruence).
    destruct (scan_rels_in R Jb Bi Bt) as (g & G). pose proof (xlsx_files_none D G eq_refl) as F. cbn [r_type] in F.
    rewrite (@segment_of_kind (s "worksheet") t eq_refl K) in F. vm_compute in F. discriminate F.
Qed.

Lemma load_nullable x rest : nullable_ok x = true -> xstr_load (nullable x ++ rest) = Ok (x, rest).
Proof. destruct x as [t|]; intro H; [exact (xstr_load_wide rest H)|exact (xstr_load_null rest)]. Qed.
Lemma xstr_load_err b e : xstr_load b = Err e -> text_error e.
Proof.
  unfold xstr_load. destruct (read_n 4 b) as [h b']. destruct (unpack_I h) as [sz|] eqn:U; cbn [bind]; [|intros [= <-]; left; exact (unpack_err _ _ U)].
  destruct (sz =? _); [discriminate|]. destruct (read_n (sz * 2) b') as [d b'']. destruct (decode16 d) as [|x] eqn:D; cbn [bind]; [discriminate|].
  intros [= <-]. right. exact (decode16_err _ _ D).
Qed.
Lemma eight (h : bytes) : zlen h = 8 -> exists p, unpack_II h = Ok p.
Proof.
  intro H. do 8 (destruct h as [|? h]; [discriminate|]). destruct h; [|unfold zlen in H; cbn in H; lia]. eexists. reflexivity.
Qed.
Lemma unpack_II_err b e : unpack_II b = Err e -> e = StructError.
Proof.
  unfold unpack_II. intro H. do 8 (destruct b as [|? b]; [congruence|]). destruct b; [discriminate|congruence].
Qed.
Lemma bundle_err r e : bundle_loadr r = Err e -> text_error e /\ ~ good_bundle r.
Proof.
  intro H. split.
  - unfold bundle_loadr in H. cbv zeta in H. destruct (unpack_II _) as [[st tab]|x] eqn:U; cbn [bind] in H; [|injection H as <-; left; exact (unpack_II_err U)].
    destruct (xstr_load _) as [[rel io]|x] eqn:L1; cbn [bind] in H; [|injection H as <-; exact (xstr_load_err L1)].
    destruct (xstr_load io) as [[nm io']|x] eqn:L2; cbn [bind] in H; [discriminate|injection H as <-; exact (xstr_load_err L2)].
  - intros (h & x & y & rest & L & X & Y & D). unfold bundle_loadr in H. cbv zeta in H. rewrite D in H.
    assert (N : List.length h = 8%nat) by (unfold zlen in L; lia).
    assert (S1 : py_slice (h ++ nullable x ++ nullable y ++ rest) None (Some 8) = h).
    { rewrite py_slice_to by lia. change (Z.to_nat 8) with 8%nat. rewrite <- N, firstn_app, firstn_all, Nat.sub_diag. cbn [firstn]. now rewrite app_nil_r. }
    assert (S2 : py_slice (h ++ nullable x ++ nullable y ++ rest) (Some 8) None = nullable x ++ nullable y ++ rest).
    { rewrite py_slice_from by lia. change (Z.to_nat 8) with 8%nat. rewrite <- N, skipn_app, skipn_all, Nat.sub_diag. reflexivity. }
    rewrite S1, S2 in H. destruct (eight L) as ((st & tab) & U). rewrite U in H. cbn [bind] in H. rewrite load_nullable in H by exact X. cbn [bind] in H. rewrite load_nullable in H by exact Y. discriminate.
Qed.

Lemma xlsb_sheets_err rels rs : forall d e, xlsb_sheets_from rels rs d = Err e ->
  (text_error e /\ exists r, In r rs /\ ~ good_bundle r) \/
  e = StopIterationError /\ exists r bn, In r rs /\ bundle_loadr r = Ok bn /\ forall x, In x rels -> r_id x <> match strRelID bn with Some i => i | None => [] end.
Proof.
  induction rs as [|r rs IH]; intros d e H; cbn [xlsb_sheets_from] in H; [discriminate|].
  destruct (bundle_loadr r) as [bn|x] eqn:B; cbn [bind] in H.
  - destruct (find _ rels) as [x|] eqn:F.
    + destruct (IH _ _ H) as [(T & r' & I & G)|(E & r' & bn' & I & R)]; [left; split; [exact T|]; exists r'; split; [now right|exact G]|].
      right. split; [exact E|]. exists r', bn'. split; [now right|exact R].
    + injection H as <-. right. split; [reflexivity|]. exists r, bn. split; [now left|]. split; [exact B|]. intros x I E.
      apply find_none with (2 := I) in F. cbv beta in F. unfold Sheets.xstr_value in F. rewrite <- E, str_eqb_refl in F. discriminate.
  - injection H as <-. destruct (bundle_err B) as [T G]. left. split; [exact T|]. exists r. split; [now left|exact G].
Qed.
Lemma bbook_sheets_err expat z wb e : member z (s "xl/workbook.bin") wb -> bbook_sheets expat z = Err e -> xlsb_sheets_cause expat z e.
Proof.
  intros W H. unfold bbook_sheets in H.
  destruct (rb <- zopen z (s "xl/_rels/workbook.bin.rels") ;; parse expat scan_rels rb) as [rels|x] eqn:R.
  2: { left. apply relations_err. rewrite R. f_equal. destruct (zopen _ _) as [rb|]; cbn [bind] in *; [rewrite R in H|]; cbn [bind] in H; congruence. }
  destruct (open_cases z (s "xl/_rels/workbook.bin.rels")) as [(rb & Mr & Or)|(A & O)]; [|rewrite O in R; discriminate].
  rewrite Or in R, H. cbn [bind] in R, H. rewrite R in H. cbn [bind] in H. apply parse_inv in R.
  rewrite (member_open W) in H. cbn [bind] in H.
  destruct (xlsb_sheets_from rels (scan_part [412] wb) []) as [d|x] eqn:S; [discriminate|].
  destruct (xlsb_sheets_err S) as [(T & r & I & G)|(-> & r & bn & I & B & F)].
  - right. left. assert (x = e) as -> by (destruct T as [-> | ->]; congruence). split; [exact T|]. exists wb, r. split; [exact W|]. split; [exact I|]. split; [|exact G].
    now destruct (scan_part_inside [412] wb r ltac:(discriminate) I).
  - injection H as <-. right. right. split; [reflexivity|]. exists wb, r, bn. split; [exact W|]. split; [exact I|]. split; [exact B|].
    intros a (rb' & Mr' & J) E. assert (rb' = rb) as -> by (unfold member in *; congruence).
    destruct (scan_rels_has R J E) as (x & X & Q). exact (F x X Q).
Qed.

(** *** Choosing the sheet *)
Lemma select_err d a e : select_sheet d a = Err e ->
  (exists i, a = SIdx i /\ e = IndexError /\ (i < 0 \/ zlen d <= i)) \/ (exists n, a = SName n /\ e = KeyError /\ ~ In n (map fst d)).
Proof.
  destruct a as [i|n]; cbn [select_sheet].
  - destruct ((0 <=? i) && (i <? zlen d)) eqn:B; intro H.
    + destruct (nth_error d (Z.to_nat i)) as [[x p]|] eqn:N; [discriminate|]. apply nth_error_None in N. unfold zlen in B. lia.
    + injection H as <-. left. exists i. split; [reflexivity|]. split; [reflexivity|lia].
  - destruct (dget str_eqb d n) eqn:D; [discriminate|]. intros [= <-]. right. exists n. split; [reflexivity|]. split; [reflexivity|].
    intro I. induction d as [|[m p] d IH]; [easy|]. cbn [dget] in D. destruct (str_eqb n m) eqn:E; [discriminate|]. destruct I as [<- | I]; [cbn in E; rewrite str_eqb_refl in E; discriminate|now apply IH].
Qed.

(** *** Styles *)
Lemma scan_styles_err es : forall xfs fms e, xlsx_scan_styles es xfs fms = Err e -> e = KeyError /\ exists a tag k,
  In (EStart tag a) es /\ attr a k = None /\ (tag = s "numFmt" /\ In k [s "formatCode"; s "numFmtId"] \/ tag = s "xf" /\ k = s "numFmtId").
Proof.
  induction es as [|ev es IH]; intros xfs fms e H; cbn [xlsx_scan_styles] in H; [discriminate|].
  assert (IH' : forall xfs fms, xlsx_scan_styles es xfs fms = Err e -> e = KeyError /\ exists a tag k,
    In (EStart tag a) (ev :: es) /\ attr a k = None /\ (tag = s "numFmt" /\ In k [s "formatCode"; s "numFmtId"] \/ tag = s "xf" /\ k = s "numFmtId")).
  { intros x0 f0 K. destruct (IH _ _ _ K) as (E & a & tag & k & I & R). split; [exact E|]. exists a, tag, k. split; [now right|exact R]. }
  destruct ev as [tag a|t|tag]; [|exact (IH' _ _ H)|exact (IH' _ _ H)].
  destruct (str_eqb tag (s "numFmt")) eqn:T.
  - apply str_eqb_eq in T. subst tag.
    apply bind_err in H as [H|(x & _ & H)]; [apply attr_req_err in H as [-> H]; split; [reflexivity|]; exists a, (s "numFmt"), (s "formatCode"); split; [now left|split; [exact H|left; cbn; tauto]]|].
    apply bind_err in H as [H|(y & _ & H)]; [apply attr_req_err in H as [-> H]; split; [reflexivity|]; exists a, (s "numFmt"), (s "numFmtId"); split; [now left|split; [exact H|left; cbn; tauto]]|].
    exact (IH' _ _ H).
  - destruct (str_eqb tag (s "xf") && _) eqn:X; [|exact (IH' _ _ H)]. apply andb_prop in X as [X _]. apply str_eqb_eq in X. subst tag.
    apply bind_err in H as [H|(y & _ & H)]; [apply attr_req_err in H as [-> H]; split; [reflexivity|]; exists a, (s "xf"), (s "numFmtId"); split; [now left|split; [exact H|now right]]|].
    exact (IH' _ _ H).
Qed.
Lemma scan_styles_in es : forall xfs fms xl fl y, xlsx_scan_styles es xfs fms = Ok (xl, fl) -> In y xl ->
  In y xfs \/ exists a, In (EStart (s "xf") a) es /\ attr a (s "numFmtId") = Some y.
Proof.
  induction es as [|ev es IH]; intros xfs fms xl fl y H I; cbn [xlsx_scan_styles] in H; [injection H as <- <-; now left|].
  assert (IH' : forall xfs fms, xlsx_scan_styles es xfs fms = Ok (xl, fl) -> In y xfs \/ exists a, In (EStart (s "xf") a) (ev :: es) /\ attr a (s "numFmtId") = Some y).
  { intros x0 f0 K. destruct (IH _ _ _ _ _ K I) as [?|(a & J & E)]; [now left|]. right. exists a. split; [now right|exact E]. }
  destruct ev as [tag a|t|tag]; [|exact (IH' _ _ H)|exact (IH' _ _ H)].
  destruct (str_eqb tag (s "numFmt")) eqn:T.
  - destruct (attr_req a (s "formatCode")); [|discriminate]. destruct (attr_req a (s "numFmtId")); [|discriminate]. cbn [bind] in H. exact (IH' _ _ H).
  - destruct (str_eqb tag (s "xf") && _) eqn:X; [|exact (IH' _ _ H)]. apply andb_prop in X as [X _]. apply str_eqb_eq in X. subst tag.
    destruct (attr_req a (s "numFmtId")) as [f|] eqn:F; [|discriminate]. cbn [bind] in H. destruct (IH' _ _ H) as [J|?]; [|now right].
    apply in_app_or in J as [J|[<-|[]]]; [now left|]. right. exists a. split; [now left|]. now apply attr_req_ok.
Qed.
Lemma builtin_err ids l e : builtin_keys ids l = Err e -> exists x y, In (x, y) l /\ py_int y = Err e.
Proof.
  induction l as [|[x y] l IH]; cbn [builtin_keys]; [discriminate|]. intro H. apply bind_err in H as [H|(n & _ & H)]; [exists x, y; split; [now left|exact H]|].
  apply bind_err in H as [H|(t & _ & H)]; [|discriminate]. destruct (IH H) as (x' & y' & I & E). exists x', y'. split; [now right|exact E].
Qed.
Lemma keyed_in l : forall i x y, In (x, y) (keyed i l) -> In y l.
Proof. induction l as [|f l IH]; intros i x y H; cbn [keyed] in H; [easy|]. destruct H as [[= <- <-]|H]; [now left|right; exact (IH _ _ _ H)]. Qed.
Lemma py_int_err y e : py_int y = Err e -> e = ValueError /\ forall n, py_int y <> Ok n.
Proof. intro H. split; [|intros n K; congruence]. unfold py_int in H. destruct (match rev _ with [] => _ | _ => _ end); [discriminate|]. congruence. Qed.
Lemma xbook_styles_err expat z e : xbook_styles expat z = Err e -> xlsx_styles_cause expat z e.
Proof.
  unfold xbook_styles. intro H. destruct (open_cases z (s "xl/styles.xml")) as [(b & M & O)|(A & O)]; rewrite O in H; cbn [bind] in H; [|injection H as <-; left; now split].
  apply bind_err in H as [H|([xl fms] & P & H)].
  - apply parse_err in H as [H|(es & H)]; [|right; left; now exists b, es].
    apply scan_styles_err in H as (-> & a & tag & k & I & N & [[-> K]|[-> ->]]).
    + right. right. left. exists k. split; [exact K|]. split; [reflexivity|]. exists a. split; [now exists b|exact N].
    + right. right. right. left. split; [reflexivity|]. exists a. split; [now exists b|exact N].
  - apply parse_inv in P. assert (G : exists ids, builtin_keys ids (keyed 0 xl) = Err e).
    { unfold xlsx_styles_of in H. cbv zeta in H. apply bind_err in H as [H|(t & _ & H)]; [eexists; exact H|]. apply bind_err in H as [H|(n & _ & H)]; [eexists; exact H|discriminate]. }
    destruct G as (ids & G). destruct (builtin_err G) as (x & y & I & E). apply keyed_in in I. destruct (scan_styles_in P I) as [[]|(a & J & F)].
    destruct (py_int_err E) as [-> Q]. right. right. right. right. split; [reflexivity|]. exists a, y. split; [now exists b|]. now split.
Qed.
Lemma filter_short A (f : A -> bool) l : (List.length (filter f l) <= List.length l)%nat.
Proof. induction l as [|x l IH]; [easy|]. cbn [filter]. destruct (f x); cbn [List.length]; lia. Qed.
Lemma xfs_from_err l : forall i e, 0 <= i -> xlsb_xfs_from i l = Err e -> e = StructError /\ 2 ^ 16 < i + zlen l.
Proof.
  induction l as [|f l IH]; intros i e Hi H; cbn [xlsb_xfs_from] in H; [discriminate|]. rewrite zlen_cons.
  apply bind_err in H as [H|(k & _ & H)].
  - unfold pack_H in H. destruct ((0 <=? i) && (i <? 2 ^ 16)) eqn:B; [discriminate|]. injection H as <-. split; [reflexivity|]. unfold zlen. lia.
  - apply bind_err in H as [H|(t & _ & H)]; [|discriminate]. destruct (IH (i + 1) _ ltac:(lia) H) as [-> Q]. split; [reflexivity|lia].
Qed.
Lemma xfs_in l : forall i r k y, xlsb_xfs_from i l = Ok r -> In (k, y) r -> In y l.
Proof.
  induction l as [|f l IH]; intros i r k y H I; cbn [xlsb_xfs_from] in H; [injection H as <-; easy|].
  destruct (pack_H i) as [h|]; [|discriminate]. cbn [bind] in H. destruct (xlsb_xfs_from (i + 1) l) as [t|] eqn:E; [|discriminate]. injection H as <-.
  destruct I as [[= <- <-]|I]; [now left|right; exact (IH _ _ _ _ E I)].
Qed.
Lemma fms_err rs : forall d e, xlsb_fms_from d rs = Err e -> e = UnicodeError /\ exists r, In r rs /\ ~ good_fmt r.
Proof.
  induction rs as [|r rs IH]; intros d e H; cbn [xlsb_fms_from] in H; [discriminate|]. apply bind_err in H as [H|(t & _ & H)].
  - split; [exact (decode16_err _ _ H)|]. exists r. split; [now left|]. intros (t & T). rewrite py_slice_from in H by lia. change (Z.to_nat 2) with 2%nat in H. congruence.
  - destruct (IH _ _ H) as (E & r' & I & G). split; [exact E|]. exists r'. split; [now right|exact G].
Qed.
Lemma builtin_keys_err l e : xlsb_builtin_keys l = Err e -> e = IndexError /\ exists k, In (k, []) l.
Proof.
  induction l as [|[k y] l IH]; cbn [xlsb_builtin_keys]; [discriminate|]. destruct y as [|c y]; intro H; [injection H as <-; split; [reflexivity|]; exists k; now left|].
  apply bind_err in H as [H|(t & _ & H)]; [|discriminate]. destruct (IH H) as (E & k' & I). split; [exact E|]. exists k'. now right.
Qed.
Lemma bbook_styles_err z e : bbook_styles z = Err e -> xlsb_styles_cause z e.
Proof.
  unfold bbook_styles. intro H. destruct (open_cases z (s "xl/styles.bin")) as [(b & M & O)|(A & O)]; rewrite O in H; cbn [bind] in H; [|injection H as <-; left; now split].
  unfold xlsb_styles in H. apply bind_err in H as [H|(xfs & X & H)].
  - unfold xlsb_xfs in H. destruct (xfs_from_err (i := 0) ltac:(lia) H) as [-> L]. right. right. right. split; [reflexivity|]. exists b. split; [exact M|].
    unfold xlsb_xf_fmts in L. unfold zlen in *. rewrite map_length in L.
    pose proof (filter_short (fun r => negb (str_eqb (sub (rec_data r) 0 2) [255; 255])) (scan_part [47] b)). lia.
  - apply bind_err in H as [H|(fms & _ & H)].
    + destruct (fms_err H) as (-> & r & I & G). right. right. left. split; [reflexivity|]. exists b, r. split; [exact M|]. split; [exact I|]. split; [|exact G].
      now destruct (scan_part_inside [44] b r ltac:(discriminate) I).
    + apply bind_err in H as [H|(bk & _ & H)]; [|discriminate]. destruct (builtin_keys_err H) as (-> & k & I). apply (xfs_in X) in I.
      unfold xlsb_xf_fmts in I. apply in_map_iff in I as (r & E & I). apply filter_In in I as [I _]. right. left. split; [reflexivity|]. exists b, r. split; [exact M|]. split; [exact I|].
      split; [now destruct (scan_part_inside [47] b r ltac:(discriminate) I)|]. intro G. unfold good_xf in G.
      rewrite sub_spec in E by lia. apply (f_equal (@List.length Z)) in E. rewrite firstn_length, skipn_length in E. cbn [List.length] in E. unfold zlen in G. lia.
Qed.

(** *** Shared strings *)
Lemma xbook_shared_err expat z nv e : xbook_shared expat z nv = Err e -> xlsx_shared_cause expat z e.
Proof.
  unfold xbook_shared. intro H. destruct (open_cases z (s "xl/sharedStrings.xml")) as [(b & M & O)|(A & O)]; rewrite O in H; cbn [bind] in H; [|injection H as <-; left; now split].
  apply bind_err in H as [H|(p & _ & H)]; [|discriminate]. apply parse_err in H as [H|(es & H)]; [discriminate|]. right. now exists b, es.
Qed.
Lemma sst_text_err d e : sst_text d = Err e -> text_error e /\ ~ exists f t rest, wide_ok t = true /\ d = f :: wide_string t ++ rest.
Proof.
  intro H. split.
  - unfold sst_text in H. apply bind_err in H as [H|(n & _ & H)]; [left; exact (unpack_err _ _ H)|right; exact (decode16_err _ _ H)].
  - intros (f & t & rest & W & ->). rewrite (sst_text_ok f rest W) in H. discriminate.
Qed.
Lemma shared_from_err nv rs : forall i e, 0 <= i -> xlsb_shared_from nv i rs = Err e ->
  (text_error e /\ exists r, In r rs /\ ~ good_item r) \/ e = StructError /\ 2 ^ 32 < i + zlen rs.
Proof.
  induction rs as [|r rs IH]; intros i e Hi H; cbn [xlsb_shared_from] in H; [discriminate|]. rewrite zlen_cons.
  apply bind_err in H as [H|(y & _ & H)]; [destruct (sst_text_err H) as [T G]; left; split; [exact T|]; exists r; split; [now left|exact G]|].
  apply bind_err in H as [H|(k & _ & H)].
  - destruct (nv y); [|discriminate]. apply bind_err in H as [H|(h & _ & H)]; [|discriminate]. unfold pack_I in H. destruct ((0 <=? i) && (i <? 2 ^ 32)) eqn:B; [discriminate|].
    injection H as <-. right. split; [reflexivity|]. unfold zlen. lia.
  - apply bind_err in H as [H|([t n] & _ & H)]; [|discriminate]. destruct (IH (i + 1) _ ltac:(lia) H) as [(T & r' & I & G)|[-> L]].
    + left. split; [exact T|]. exists r'. split; [now right|exact G].
    + right. split; [reflexivity|lia].
Qed.
Lemma bbook_shared_err z nv e : bbook_shared z nv = Err e -> xlsb_shared_cause z e.
Proof.
  unfold bbook_shared. intro H. destruct (open_cases z (s "xl/sharedStrings.bin")) as [(b & M & O)|(A & O)]; rewrite O in H; cbn [bind] in H; [|injection H as <-; left; now split].
  unfold xlsb_shared in H. destruct (shared_from_err (i := 0) ltac:(lia) H) as [(T & r & I & G)|[-> L]].
  - right. left. split; [exact T|]. exists b, r. split; [exact M|]. split; [exact I|]. split; [|exact G]. now destruct (scan_part_inside [19] b r ltac:(discriminate) I).
  - right. right. split; [reflexivity|]. exists b. split; [exact M|lia].
Qed.

(** *** Reading the cells *)
Lemma listing_exists l : listing l (sorted (order l)).
Proof.
  split; [apply sorted_sorted, order_nodup|]. intro k. rewrite sorted_in, order_in, in_map_iff. split; intros (c & A & B); exists c; now split.
Qed.
Lemma tallest_exists l ks : ks <> [] -> exists n, tallest l ks n.
Proof.
  induction ks as [|k ks IH]; intro N; [easy|]. destruct ks as [|j ks].
  - exists (span l k). split; [exists k; split; [now left|reflexivity]|]. intros i [<-|[]]. lia.
  - destruct (IH ltac:(discriminate)) as (n & (m & I & E) & M). exists (Z.max (span l k) n). split.
    + destruct (Z.max_spec (span l k) n) as [[_ ->]|[_ ->]]; [exists m; split; [now right|exact E]|exists k; split; [now left|reflexivity]].
    + intros i [<-|Hi]; [lia|]. specialize (M i Hi). lia.
Qed.
Lemma read_raisable ro sc op outs f e : read_trace ro sc op (outs, f) = Err e -> f = Some e \/ raisable ro sc (Cell.cells_of outs) op e.
Proof.
  apply read_trace_only; cbn; try exact I.
  - intro D. exact D.
  - intros k L N. exists k. now split.
  - intros t T M. exists t. now split.
Qed.
Lemma read_trace_cause ro sc op outs f e : (forall c, In c (Cell.cells_of outs) -> 0 <= c_row c) ->
  (forall h, r_header op = HInt h -> 0 <= h) -> (r_lookup op <> None -> r_size op <> 0) ->
  read_trace ro sc op (outs, f) = Err e -> f = Some e \/ cells_cause ro sc (Cell.cells_of outs) op e.
Proof.
  intros Rows Hh Hl H. destruct (readable ro sc (Cell.cells_of outs)) eqn:Rd.
  - destruct f as [x|]; [left; rewrite (C90_failed op x Rd) in H; congruence|]. right.
    destruct (Cell.cells_of outs) as [|c0 l0] eqn:L.
    + left. split; [reflexivity|]. rewrite (@C90_empty ro sc op outs L) in H. congruence.
    + right. right. rewrite <- L in *. exists (sorted (order (Cell.cells_of outs))).
      destruct (@tallest_exists (Cell.cells_of outs) (sorted (order (Cell.cells_of outs)))) as (n & T).
      { intro N. destruct (listing_exists (Cell.cells_of outs)) as [_ G]. specialize (G (c_col c0)). rewrite N in G. apply G. exists c0. rewrite L. split; [now left|reflexivity]. }
      exists n. split; [apply listing_exists|]. split; [exact T|]. exact (C92_raises Rd (listing_exists _) T Hh Hl H).
  - destruct (read_raisable H) as [E|Ra]; [now left|]. right. right. left. split; [|exact Ra]. assert (G : exists c, In c (Cell.cells_of outs) /\ legible (ro_o ro) sc c && (0 <=? c_row c) = false).
    { unfold readable in Rd. clear -Rd. induction (Cell.cells_of outs) as [|c l IH]; [discriminate|]. cbn [forallb] in Rd. destruct (legible (ro_o ro) sc c && (0 <=? c_row c)) eqn:E.
      - destruct (IH Rd) as (c' & I & F). exists c'. split; [now right|exact F].
      - exists c. split; [now left|exact E]. }
    destruct G as (c & I & F). exists c. split; [exact I|]. specialize (Rows c I). destruct (legible (ro_o ro) sc c); [lia|reflexivity].
Qed.
Lemma read_cells_cause ro binary sh w op t e : (forall c, In c (Cell.cells_of (fst t)) -> 0 <= c_row c) ->
  (forall h, r_header op = HInt h -> 0 <= h) -> (r_lookup op <> None -> r_size op <> 0) ->
  read_cells ro binary sh w op t = Err e ->
  snd t = Some e \/ (sh = Err e /\ Cell.cells_of (fst t) <> []) \/
  exists l, (Cell.cells_of (fst t) <> [] -> sh = Ok l) /\ cells_cause ro (mkSC l binary (wo_conf w)) (Cell.cells_of (fst t)) op e.
Proof.
  intros Rows Hh Hl H. destruct t as [outs f]. cbn [fst snd] in *. unfold read_cells in H. cbn [fst] in H.
  destruct (Cell.cells_of outs) as [|c0 l0] eqn:L; rewrite <- L in *.
  - destruct (read_trace_cause Rows Hh Hl H) as [E|E]; [now left|]. right. right. exists []. split; [congruence|exact E].
  - destruct sh as [l|x]; cbn [bind] in H; [|right; left; split; congruence].
    destruct (read_trace_cause Rows Hh Hl H) as [E|E]; [now left|]. right. right. exists l. split; [reflexivity|exact E].
Qed.

(** ** C97: every exception of reading a file has a cause in the file or in the arguments *)
Definition sheet_missing (z : archive) (d : list (str * str)) (w : wopts) (e : exn) : Prop :=
  exists p, select_sheet d (wo_sheet w) = Ok p /\ missing z p e.
Lemma xbook_iter_err expat z w wb e : member z (s "xl/workbook.xml") wb -> snd (xbook_iter expat z w) = Some e ->
  xlsx_sheets_cause expat z e \/
  (exists d, xbook_sheets expat z = Ok d /\ (selection_cause d w e \/ sheet_missing z d w e)) \/
  xlsx_styles_cause expat z e.
Proof.
  intros W H. unfold xbook_iter in H. cbv zeta in H.
  match type of H with snd (match ?m with _ => _ end) = _ => destruct m as [[b st]|x] eqn:M end; [destruct (expat b); discriminate|]. injection H as ->.
  apply bind_err in M as [M|(d & D & M)]; [left; exact (xbook_sheets_err W M)|].
  apply bind_err in M as [M|(p & P & M)]; [right; left; exists d; split; [exact D|]; left; destruct (select_err M) as [S|S]; [now left|right; now left]|].
  destruct (wo_skip w <? 0) eqn:Sk; [injection M as <-; right; left; exists d; split; [exact D|]; left; right; right; split; [reflexivity|left; lia]|].
  destruct (wo_take w <? 0) eqn:St; [injection M as <-; right; left; exists d; split; [exact D|]; left; right; right; split; [reflexivity|right; lia]|].
  apply bind_err in M as [M|(b & _ & M)].
  - right. left. exists d. split; [exact D|]. right. exists p. split; [exact P|]. destruct (open_cases z p) as [(b & _ & O)|(A & O)]; rewrite O in M; [discriminate|]. split; [congruence|exact A].
  - apply bind_err in M as [M|(st & _ & M)]; [|discriminate]. right. right. exact (xbook_styles_err M).
Qed.
Lemma xbook_rows expat z w c : In c (Cell.cells_of (fst (xbook_iter expat z w))) -> 0 <= c_row c.
Proof.
  unfold xbook_iter. cbv zeta. match goal with |- context [match ?m with _ => _ end] => destruct m as [[b st]|x] end; [|easy].
  destruct (expat b) as [es f]. cbn [fst]. intro I. now destruct (C82_xlsx_cells _ _ _ _ _ _ _ _ _ I).
Qed.
Lemma bbook_rows expat z w c : In c (Cell.cells_of (fst (bbook_iter expat z w))) -> 0 <= c_row c.
Proof.
  unfold bbook_iter. cbv zeta. match goal with |- context [match ?m with Ok b => xlsb_iter _ _ _ _ _ _ _ _ | Err _ => _ end] => destruct m as [b|x] end; [|easy].
  intro I. apply In_nth_error in I as (n & N). now destruct (C82_xlsb_cells _ _ _ _ _ _ _ _ _ _ N).
Qed.
Definition sheet_damaged (z : archive) (d : list (str * str)) (w : wopts) (e : exn) : Prop :=
  exists p, select_sheet d (wo_sheet w) = Ok p /\ text_error e /\ bad_record z p xlsb_ids (fun r => In (rec_id r) [0; 402] \/ good_cell r).
Lemma bbook_iter_err expat z w wb e : member z (s "xl/workbook.bin") wb -> snd (bbook_iter expat z w) = Some e ->
  xlsb_sheets_cause expat z e \/
  (exists d, bbook_sheets expat z = Ok d /\ (selection_cause d w e \/ sheet_missing z d w e \/ sheet_damaged z d w e)) \/
  xlsb_styles_cause z e.
Proof.
  intros W H. unfold bbook_iter in H. cbv zeta in H.
  match type of H with snd (match ?m with Ok b => xlsb_iter _ _ _ _ _ _ _ _ | Err _ => _ end) = _ => destruct m as [b|x] eqn:M end.
  - destruct (bbook_sheets expat z) as [d|] eqn:D; [|discriminate]. cbn [bind] in M. destruct (select_sheet d (wo_sheet w)) as [p|] eqn:P; [|discriminate]. cbn [bind] in M.
    unfold xlsb_iter in H. destruct (wo_skip w <? 0); [discriminate|]. destruct (wo_take w <? 0); [discriminate|].
    destruct (open_cases z p) as [(b' & Mb & O)|(A & O)]; rewrite O in M; [|discriminate]. injection M as <-.
    destruct (xlsb_loop_err _ _ _ _ _ _ _ _ _ _ _ _ H) as [S|(E & r & I & Z0 & Z4 & G)]; [right; right; exact (bbook_styles_err S)|].
    right. left. exists d. split; [reflexivity|]. right. right. exists p. split; [exact P|]. split; [exact E|]. exists b', r. split; [exact Mb|]. split; [exact I|].
    split; [now destruct (scan_part_inside xlsb_ids b' r ltac:(discriminate) I)|]. cbn. intuition.
  - injection H as ->.
    apply bind_err in M as [M|(d & D & M)]; [left; exact (bbook_sheets_err W M)|].
    apply bind_err in M as [M|(p & P & M)]; [right; left; exists d; split; [exact D|]; left; destruct (select_err M) as [S|S]; [now left|right; now left]|].
    destruct (wo_skip w <? 0) eqn:Sk; [injection M as <-; right; left; exists d; split; [exact D|]; left; right; right; split; [reflexivity|left; lia]|].
    destruct (wo_take w <? 0) eqn:St; [injection M as <-; right; left; exists d; split; [exact D|]; left; right; right; split; [reflexivity|right; lia]|].
    right. left. exists d. split; [exact D|]. right. left. exists p. split; [exact P|]. destruct (open_cases z p) as [(b & _ & O)|(A & O)]; rewrite O in M; [discriminate|]. split; [congruence|exact A].
Qed.

Theorem C97_xlsx expat ro z w op wb e : member z (s "xl/workbook.xml") wb ->
  (forall h, r_header op = HInt h -> 0 <= h) -> (r_lookup op <> None -> r_size op <> 0) ->
  read_book expat ro z w op = Err e ->
  xlsx_sheets_cause expat z e \/
  (exists d, xbook_sheets expat z = Ok d /\ (selection_cause d w e \/ sheet_missing z d w e)) \/
  xlsx_styles_cause expat z e \/
  (xlsx_shared_cause expat z e /\ delivered expat z w <> []) \/
  exists l, (delivered expat z w <> [] -> xbook_shared expat z (xlsx_null (wo_nulls w)) = Ok l) /\
    cells_cause ro (mkSC l false (wo_conf w)) (delivered expat z w) op e.
Proof.
  intros W Hh Hl H. unfold read_book in H. unfold delivered. rewrite (member_has W) in *.
  apply read_cells_cause in H as [H|[[H N]|(l & L & H)]]; [| |do 4 right; exists l; now split|intro c; apply xbook_rows|exact Hh|exact Hl].
  - destruct (xbook_iter_err W H) as [E|[E|E]]; [now left|right; now left|right; right; now left].
  - right. right. right. left. split; [exact (xbook_shared_err H)|exact N].
Qed.
Print Assumptions C97_xlsx.
Theorem C97_xlsb expat ro z w op wb e : absent z (s "xl/workbook.xml") -> member z (s "xl/workbook.bin") wb ->
  (forall h, r_header op = HInt h -> 0 <= h) -> (r_lookup op <> None -> r_size op <> 0) ->
  read_book expat ro z w op = Err e ->
  xlsb_sheets_cause expat z e \/
  (exists d, bbook_sheets expat z = Ok d /\ (selection_cause d w e \/ sheet_missing z d w e \/ sheet_damaged z d w e)) \/
  xlsb_styles_cause z e \/
  (xlsb_shared_cause z e /\ delivered expat z w <> []) \/
  exists l, (delivered expat z w <> [] -> exists keys, bbook_shared z (xlsb_null (wo_nulls w)) = Ok (l, keys)) /\
    cells_cause ro (mkSC (map Some l) true (wo_conf w)) (delivered expat z w) op e.
Proof.
  intros A W Hh Hl H. unfold read_book in H. unfold delivered. rewrite (absent_has A) in *. rewrite (member_has W) in H.
  apply read_cells_cause in H as [H|[[H N]|(l & L & H)]]; [| | |intro c; apply bbook_rows|exact Hh|exact Hl].
  - destruct (bbook_iter_err W H) as [E|[E|E]]; [now left|right; now left|right; right; now left].
  - right. right. right. left. split; [|exact N]. apply bind_err in H as [H|(p & _ & H)]; [exact (bbook_shared_err H)|discriminate].
  - do 4 right. destruct (Cell.cells_of (fst (bbook_iter expat z w))) as [|c0 l0] eqn:C.
    + exists []. split; [easy|]. destruct H as [H|[((c & [] & _) & _)|(ks & n & (S & K) & ((k & I & _) & _) & _)]]; [now left|]. apply K in I as (c & [] & _).
    + specialize (L ltac:(discriminate)). destruct (bbook_shared z _) as [[tx keys]|]; [|discriminate]. cbn [bind fst] in L. injection L as <-. exists tx. split; [intros _; now exists keys|exact H].
Qed.
Print Assumptions C97_xlsb.
Theorem C97_neither expat ro z w op : absent z (s "xl/workbook.xml") -> absent z (s "xl/workbook.bin") -> read_book expat ro z w op = Err AssertionError.
Proof. intros A B. unfold read_book. now rewrite (absent_has A), (absent_has B). Qed.
Print Assumptions C97_neither.
(** Damaged example workbooks, one for each kind of cause. *)
Definition raised {A} (x : res A) : option exn := match x with Err e => Some e | Ok _ => None end.
Definition exb_with (n : str) (rs : list record) : archive := replaced (exb_files exb_rows exb_sl) n (dumped rs).
Definition exx_less (n : str) : archive := filter (fun p => negb (str_eqb n (fst p))) exx_files.
Example C97_example :
  let run z := raised (read_book exb_expat ex_ro z (ex_w true) opts1) in
  let runx z := raised (read_book (exx_expat exx_rows) ex_ro z (ex_w true) opts1) in
  run (exb_files exb_rows exb_sl) = None /\ runx exx_files = None /\
  run (exb_with (s "xl/styles.bin") [mkRec 47 [0; 0]]) = Some IndexError /\
  run (exb_with (s "xl/styles.bin") [mkRec 44 [164; 0; 65]]) = Some UnicodeError /\
  run (exb_with (s "xl/sharedStrings.bin") [mkRec 19 [0; 1; 0]]) = Some StructError /\
  run (exb_with (s "xl/sharedStrings.bin") []) = Some Undefined /\
  run (exb_with (s "xl/worksheets/sheet1.bin") [mkRec 0 []; mkRec 2 [0; 0]; mkRec 0 []]) = Some StructError /\
  run (exb_with (s "xl/worksheets/sheet1.bin") []) = Some ValueError /\
  runx (exx_less (s "xl/styles.xml")) = Some KeyError /\
  runx (exx_less (s "xl/worksheets/sheet1.xml")) = Some KeyError /\
  runx (exx_less (s "xl/_rels/workbook.xml.rels")) = Some KeyError /\
  runx [] = Some AssertionError.
Proof. vm_compute. repeat (apply conj). all: reflexivity. Qed.

(** ** C97: what a sheet of arbitrary cells can raise, legible or not *)
Theorem C97_cells ro sc op outs f e : read_trace ro sc op (outs, f) = Err e -> f = Some e \/ raisable ro sc (Cell.cells_of outs) op e.
Proof. apply read_raisable. Qed.
Print Assumptions C97_cells.
(** Illegible cells: an index behind the table, a value that is too short, text that is no
    UTF-8, text where bytes are due, two halves of a number in two rows. *)
Example C97_cells_example :
  let run op l := raised (read_trace ex_ro ex_binary op (map OCell l, None)) in
  let only_first := mkR (HInt 0) DTNone 0 None 30 (FInts [0]) SOr in
  let halves := [mkCell 0 1 0x21 (VBytes [42; 0]); mkCell 0 0 0x18 (VStr (s "a")); mkCell 1 1 0x21 (VBytes [0; 0]); mkCell 2 0 0x18 (VStr (s "b"))] in
  run opts0 [mkCell 0 0 0x11 (VBytes [9; 0; 0; 0])] = Some Undefined /\
  run opts0 [mkCell 0 0 0x21 (VBytes [42; 0])] = Some ValueError /\
  run opts0 [mkCell 0 0 0x18 (VBytes [255])] = Some ArrowInvalid /\
  run opts0 [mkCell 0 0 0x21 (VStr (s "a"))] = Some TypeError /\
  run only_first halves = Some IndexError /\
  run (mkR (HInt 0) DTNone 0 (Some (LCol 7)) 30 FNone SOr) halves = Some KeyError /\
  forallb (fun c => legible ex_o2 ex_binary c) halves = false.
Proof. vm_compute. repeat (apply conj). all: reflexivity. Qed.
