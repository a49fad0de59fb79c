(** C112: the type of a relationship that is written (rxls/rels.py:12, 43-46). *)
From Verif Require Import Py PyFacts PyText Xlsx Sheets SheetsSpec SheetsProofs PropsSheets PropsRels.
Set Implicit Arguments. Unset Strict Implicit.

(** ECMA-376 part 1, 12.3 and 15.2: the types of the parts of a workbook, transitional and strict.
    The namespace of the elements in a relationships part (part 2) is another one. *)
Definition document_types : list str :=
  [s "http://schemas.openxmlformats.org/officeDocument/2006/relationships/"; s "http://purl.oclc.org/ooxml/officeDocument/relationships/"].
Definition package_namespace : str := s "http://schemas.openxmlformats.org/package/2006/relationships".
Definition plain_rel (r : rel) : Prop :=
  forallb plain_char (r_id r) = true /\ forallb plain_char (r_type r) = true /\ forallb plain_char (r_target r) = true.
(** What a conforming XML parser finds in the element. *)
Definition written_type (r : rel) (u : str) : Prop :=
  exists a, parse_empty_element (dump_rel r) = Ok [EStart (s "Relationship") a; EEnd (s "Relationship")] /\ attr a (s "Type") = Some u /\
    attr a (s "Id") = Some (r_id r) /\ attr a (s "Target") = Some (r_target r).

(** The namespace of the elements is written in front of every type ... *)
Theorem C112_exact r u : plain_rel r -> (written_type r u <-> u = package_namespace ++ s "/" ++ r_type r).
Proof.
  intros (P1 & P2 & P3). unfold written_type. rewrite rel_parse by assumption. split.
  - intros (a & [= <-] & T & _). change (attr _ (s "Type")) with (Some (RELS_NS ++ 47 :: r_type r)) in T. injection T as <-. reflexivity.
  - intros ->. eexists. split; [reflexivity|]. split; [reflexivity|]. split; reflexivity.
Qed.
Print Assumptions C112_exact.
(** ... so no relationship is written with the type of a part of a workbook. *)
Theorem C112_refuted r u p : plain_rel r -> written_type r u -> In p document_types -> u <> p ++ r_type r.
Proof.
  intros P W I E. apply (C112_exact _ P) in W. subst u. assert (F : firstn 40 (package_namespace ++ s "/" ++ r_type r) = firstn 40 (p ++ r_type r)) by now rewrite E.
  destruct I as [<-|[<-|[]]]; discriminate F.
Qed.
Print Assumptions C112_refuted.
(** Reading keeps only what follows the last slash, so it does not notice; a relationship that is
    read and written again keeps its type exactly if that was in the package namespace. *)
Theorem C112_again i t g r u : scan_rels [EStart (s "Relationship") [(s "Id", i); (s "Type", t); (s "Target", g)]] = Ok [r] -> plain_rel r -> written_type r u ->
  (u = t <-> exists x, t = package_namespace ++ s "/" ++ x /\ ~ In 47 x).
Proof.
  intros S P W. apply (C112_exact _ P) in W. cbn [scan_rels] in S. change (str_eqb (s "Relationship") (s "Relationship")) with true in S. cbv iota in S.
  change (attr_req _ (s "Id")) with (@Ok str i) in S. change (attr_req _ (s "Type")) with (@Ok str t) in S. change (attr_req _ (s "Target")) with (@Ok str g) in S. cbn [bind] in S.
  assert (r = mkRel i (last_segment t) g) as -> by congruence. cbn [r_type] in W. subst u. split.
  - intro E. exists (last_segment t). split; [now symmetry|]. intro I. destruct (segment_short t []) as [_ N]. specialize (N eq_refl). fold (last_segment t) in N.
    assert (existsb (Z.eqb 47) (last_segment t) = true) by (apply existsb_exists; now exists 47). congruence.
  - intros (x & -> & N). unfold last_segment. change (s "/" ++ x) with (47 :: x). rewrite last_segment_app; [reflexivity|].
    apply not_true_is_false. intro H. apply existsb_exists in H as (c & I & C). apply Z.eqb_eq in C. now subst c.
Qed.
Print Assumptions C112_again.
Example C112_example : let r := mkRel (s "rId1") (s "worksheet") (s "worksheets/sheet1.xml") in
  plain_rel r /\ written_type r (s "http://schemas.openxmlformats.org/package/2006/relationships/worksheet") /\
  scan_rels [EStart (s "Relationship") [(s "Id", r_id r); (s "Type", s "http://schemas.openxmlformats.org/officeDocument/2006/relationships/worksheet"); (s "Target", r_target r)]] = Ok [r].
Proof.
  cbv zeta. assert (P : plain_rel (mkRel (s "rId1") (s "worksheet") (s "worksheets/sheet1.xml"))) by (split; [|split]; vm_compute; reflexivity).
  split; [exact P|]. split; [apply (C112_exact _ P); vm_compute; reflexivity|vm_compute; reflexivity].
Qed.
