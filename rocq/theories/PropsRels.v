(** C62: exactly which relationships survive. *)
From Verif Require Import Py PyFacts PyText Xlsx Sheets SheetsSpec SheetsProofs PropsSheets PropsDefects.
From Coq Require Import ZifyBool ZifyNat.

(** What an attribute value is read from: the text before the first quote.  It is not longer, and
    as long only if every character stands for itself. *)
Lemma value_shape f : forall t v rest, attr_value f t = Some (v, rest) ->
  exists p, t = p ++ 34 :: rest /\ existsb (Z.eqb 34) p = false /\ (List.length v <= List.length p)%nat /\
  (List.length v = List.length p -> v = map norm_ws p /\ forallb (fun c => xml_char c && negb (c =? 34) && negb (c =? 60) && negb (c =? 38)) p = true).
Proof.
  induction f as [|f IH]; intros [|c t] v rest H; try discriminate. cbn [attr_value] in H.
  destruct (c =? 34) eqn:C1; [injection H as <- <-; exists []; cbn; repeat split; try lia; f_equal; lia|]. destruct (c =? 60) eqn:C2; [discriminate|]. destruct (xml_char c) eqn:C3; [|discriminate]. cbn [negb] in H.
  destruct (c =? 38) eqn:C4.
  - destruct (entity t) as [[d t']|] eqn:En; [|discriminate]. destruct (attr_value f t') as [[w r]|] eqn:Ea; [|discriminate]. injection H as <- <-.
    destruct (IH _ _ _ Ea) as (p & -> & P1 & P2 & _).
    assert (Q : exists q, t = q ++ p ++ 34 :: r /\ existsb (Z.eqb 34) q = false /\ (3 <= List.length q)%nat).
    { unfold entity in En. repeat match type of En with match ?x with _ => _ end = _ => destruct x; try discriminate end; injection En as _ ->;
        match goal with |- exists q, ?a :: ?b :: ?c :: ?d :: ?e :: p ++ _ = _ /\ _ => exists [a; b; c; d; e] | |- exists q, ?a :: ?b :: ?c :: ?d :: p ++ _ = _ /\ _ => exists [a; b; c; d] | |- exists q, ?a :: ?b :: ?c :: p ++ _ = _ /\ _ => exists [a; b; c] end;
        (split; [reflexivity|split; [reflexivity|cbn; lia]]). }
    destruct Q as (q & -> & Q1 & Q2). exists (c :: q ++ p). split; [cbn; now rewrite <- app_assoc|]. split; [cbn [existsb]; rewrite existsb_app, Q1, P1; replace (34 =? c) with false by lia; reflexivity|].
    cbn [List.length]. rewrite app_length. split; lia.
  - destruct (attr_value f t) as [[w r]|] eqn:Ea; [|discriminate]. injection H as <- <-. destruct (IH _ _ _ Ea) as (p & -> & P1 & P2 & P3). exists (c :: p). split; [reflexivity|].
    split; [cbn [existsb]; rewrite P1; lia|]. cbn [List.length]. split; [lia|]. intro L. destruct P3 as [P3 P4]; [lia|]. cbn [map forallb]. rewrite P4, C1, C2, C3, C4. split; [now f_equal|reflexivity].
Qed.
Lemma quote_split (x p w w' : str) : x ++ 34 :: w = p ++ 34 :: w' -> existsb (Z.eqb 34) p = false -> (p = x /\ w' = w) \/ exists q, x = p ++ 34 :: q.
Proof.
  revert x. induction p as [|c p IH]; intros [|d x] H N; cbn [app] in H.
  - left. injection H as ->. now split.
  - right. injection H as -> _. now exists x.
  - injection H as <- _. discriminate N.
  - injection H as <- H. cbn [existsb] in N. apply orb_false_elim in N as [_ N]. destruct (IH _ H N) as [[-> ->]|(q & ->)]; [left; now split|right; now exists q].
Qed.
Lemma plain_same p : map norm_ws p = p -> forallb (fun c => xml_char c && negb (c =? 34) && negb (c =? 60) && negb (c =? 38)) p = true -> forallb plain_char p = true.
Proof.
  induction p as [|c p IH]; intros E H; [reflexivity|]. cbn [map forallb] in *. injection E as E1 E2. apply andb_prop in H as [H1 H2]. rewrite (IH E2 H2), andb_true_r.
  unfold norm_ws in E1. unfold plain_char. cbn [existsb]. destruct ((c =? 9) || (c =? 10) || (c =? 13)) eqn:W; lia.
Qed.
(** A value that comes back was plain. *)
Lemma value_back f x w rest : attr_value f (x ++ 34 :: w) = Some (x, rest) -> forallb plain_char x = true /\ rest = w.
Proof.
  intro H. destruct (value_shape _ _ _ _ H) as (p & E & P1 & P2 & P3). destruct (quote_split _ _ _ _ E P1) as [[-> ->]|(q & ->)].
  - destruct P3 as [P3 P4]; [reflexivity|]. split; [now apply plain_same|reflexivity].
  - rewrite app_length in P2. cbn in P2. lia.
Qed.
Lemma value_after f u : forall t v rest, forallb plain_char u = true -> attr_value f (u ++ t) = Some (v, rest) ->
  exists g v', v = u ++ v' /\ attr_value g t = Some (v', rest).
Proof.
  revert f. induction u as [|c u IH]; intros f t v rest P H; [now exists f, v|]. destruct f as [|f]; [discriminate|]. cbn [forallb] in P. apply andb_prop in P as [Pc P].
  unfold plain_char in Pc. cbn [existsb] in Pc. apply andb_prop in Pc as [Px Pc]. cbn [app attr_value] in H. rewrite Px in H. cbn [negb] in H.
  replace (c =? 34) with false in H by lia. replace (c =? 60) with false in H by lia. replace (c =? 38) with false in H by lia.
  destruct (attr_value f (u ++ t)) as [[w r]|] eqn:E; [|discriminate]. injection H as <- <-. destruct (IH _ _ _ _ P E) as (g & v' & -> & G). exists g, v'. split; [|exact G].
  unfold norm_ws. replace ((c =? 9) || (c =? 10) || (c =? 13)) with false by lia. reflexivity.
Qed.
Lemma segment_short t : forall a, (List.length (last_segment_from a t) <= List.length a + List.length t)%nat /\ (existsb (Z.eqb 47) a = false -> existsb (Z.eqb 47) (last_segment_from a t) = false).
Proof.
  induction t as [|c t IH]; intro a; cbn [last_segment_from].
  - rewrite rev_length. cbn [List.length]. split; [lia|]. intro N. destruct (existsb (Z.eqb 47) (rev a)) eqn:E; [|reflexivity]. apply existsb_exists in E as (x & X1 & X2). apply in_rev in X1.
    assert (existsb (Z.eqb 47) a = true) by (apply existsb_exists; now exists x). congruence.
  - destruct (c =? 47) eqn:E; [destruct (IH []) as [A B]; cbn [List.length] in *; split; [lia|auto]|].
    destruct (IH (c :: a)) as [A B]. cbn [List.length] in *. split; [lia|]. intro N. apply B. cbn [existsb]. rewrite N. lia.
Qed.
Lemma segment_after p : forall a t, last_segment_from a (p ++ 47 :: t) = last_segment_from [] t.
Proof. induction p as [|c p IH]; intros a t; cbn [app last_segment_from]; [reflexivity|]. destruct (c =? 47); apply IH. Qed.
Lemma type_back f x w v rest : attr_value f ((RELS_NS ++ 47 :: x) ++ 34 :: w) = Some (v, rest) -> last_segment v = x ->
  forallb plain_char x = true /\ existsb (Z.eqb 47) x = false /\ v = RELS_NS ++ 47 :: x /\ rest = w.
Proof.
  intros H S. replace ((RELS_NS ++ 47 :: x) ++ 34 :: w) with ((RELS_NS ++ [47]) ++ x ++ 34 :: w) in H by (rewrite <- !app_assoc; reflexivity).
  destruct (value_after f (RELS_NS ++ [47]) _ _ _ eq_refl H) as (g & v' & -> & G). rewrite <- app_assoc in S |- *. cbn [app] in S |- *. unfold last_segment in S. rewrite segment_after in S.
  assert (N : existsb (Z.eqb 47) x = false) by (rewrite <- S; now apply (segment_short v' [])). pose proof (proj1 (segment_short v' [])) as L. rewrite S in L. cbn [List.length] in L.
  destruct (value_shape _ _ _ _ G) as (p & E & P1 & P2 & P3). destruct (quote_split _ _ _ _ E P1) as [[-> ->]|(q & ->)]; [|rewrite app_length in L; cbn in L; lia].
  destruct P3 as [P3 P4]; [lia|]. assert (V : v' = x).
  { destruct (last_segment_split v' []) as [(q & Q)|Q]; [|rewrite S in Q; symmetry; exact Q]. rewrite S in Q. apply (f_equal (@List.length Z)) in Q. rewrite !app_length in Q. cbn in Q. lia. }
  rewrite P3 in V. split; [now apply plain_same|]. split; [exact N|]. rewrite P3, V. split; reflexivity.
Qed.
Lemma attrs_step n f t acc l rest : forallb name_char n = true -> n <> [] -> mem_str n (map fst acc) = false ->
  parse_attrs f (32 :: n ++ 61 :: 34 :: t) acc = Some (l, rest) -> exists g h v r', attr_value g t = Some (v, r') /\ parse_attrs h r' (acc ++ [(n, v)]) = Some (l, rest).
Proof.
  intros Hn Hne Hm. destruct f as [|f]; [discriminate|]. cbn [parse_attrs].
  assert (T : take_name (n ++ 61 :: 34 :: t) = (n, 61 :: 34 :: t)).
  { clear Hne Hm. induction n as [|c n IH]; [reflexivity|]. cbn [forallb] in Hn. apply andb_prop in Hn as [Hc Hn]. cbn [app take_name]. rewrite Hc, IH by exact Hn. reflexivity. }
  rewrite T. destruct n as [|c n]; [congruence|]. destruct (attr_value _ t) as [[v r']|] eqn:E; [|discriminate]. rewrite Hm. intro H. now exists (S (List.length t)), f, v, r'.
Qed.
Lemma attrs_extend f : forall t acc l rest, parse_attrs f t acc = Some (l, rest) -> exists m, l = acc ++ m.
Proof.
  induction f as [|f IH]; intros t acc l rest H; [discriminate|]. cbn [parse_attrs] in H.
  repeat match type of H with match ?x with _ => _ end = _ => destruct x eqn:?; try discriminate end;
    try (injection H as <- <-; exists []; now rewrite app_nil_r).
  all: destruct (IH _ _ _ _ H) as (m & ->); rewrite <- app_assoc; eexists; reflexivity.
Qed.

Theorem C62_exact r : (es <- parse_empty_element (dump_rel r) ;; scan_rels es) = Ok [r] <->
  forallb plain_char (r_id r) = true /\ forallb plain_char (r_type r) = true /\ forallb plain_char (r_target r) = true /\ existsb (Z.eqb 47) (r_type r) = false.
Proof.
  split; [|intros (A & B & C & D); now apply C62_round_trip_partial].
  rewrite dump_rel_shape. unfold parse_empty_element.
  assert (T : forall rest, take_name (s "Relationship" ++ 32 :: rest) = (s "Relationship", 32 :: rest)) by reflexivity. rewrite T. cbv iota beta. clear T.
  set (f := S _). clearbody f. change (s "Relationship") with (82 :: s "elationship") at 1. cbv iota.
  destruct (parse_attrs f _ []) as [[l [|]]|] eqn:E; [|discriminate|discriminate].
  destruct (attrs_step (s "Id") _ _ [] _ _ eq_refl ltac:(discriminate) eq_refl E) as (g1 & h1 & v1 & r1 & A1 & B1). clear E.
  intro H. cbn [bind scan_rels] in H. rewrite str_eqb_refl in H.
  destruct (attrs_extend _ _ _ _ _ B1) as (m1 & M1). assert (I : attr_req l (s "Id") = Ok v1) by (rewrite M1; reflexivity). rewrite I in H. cbn [bind] in H.
  destruct (attr_req l (s "Type")) as [ty|] eqn:Ty; [|discriminate]. destruct (attr_req l (s "Target")) as [tg|] eqn:Tg; [|discriminate]. cbn [bind] in H.
  assert (Hr : r = mkRel v1 (last_segment ty) tg) by congruence. assert (V1 : v1 = r_id r) by now rewrite Hr. assert (V2 : last_segment ty = r_type r) by now rewrite Hr. assert (V3 : tg = r_target r) by now rewrite Hr. clear Hr H.
  rewrite V1 in A1, B1. destruct (value_back _ _ _ _ A1) as [P1 ->].
  destruct (attrs_step (s "Type") _ _ ([] ++ [(s "Id", r_id r)]) _ _ eq_refl ltac:(discriminate) eq_refl B1) as (g2 & h2 & v2 & r2 & A2 & B2). destruct (attrs_extend _ _ _ _ _ B2) as (m2 & M2).
  assert (ty = v2) as -> by (rewrite M2 in Ty; cbn in Ty; congruence). destruct (type_back _ _ _ _ _ A2 V2) as (P2 & P3 & -> & ->).
  destruct (attrs_step (s "Target") _ _ (([] ++ [(s "Id", r_id r)]) ++ [(s "Type", RELS_NS ++ 47 :: r_type r)]) _ _ eq_refl ltac:(discriminate) eq_refl B2) as (g3 & h3 & v3 & r3 & A3 & B3). destruct (attrs_extend _ _ _ _ _ B3) as (m3 & M3).
  assert (tg = v3) as <- by (rewrite M3 in Tg; cbn in Tg; congruence). rewrite V3 in A3. destruct (value_back _ _ _ _ A3) as [P4 _]. now repeat split.
Qed.
Print Assumptions C62_exact.
(** A quote in the target ends the attribute; what follows is read as another one. *)
Example C62_exact_example :
  (es <- parse_empty_element (dump_rel (mkRel (s "rId1") (s "worksheet") (s "a.xml"" TargetMode=""External"))) ;; scan_rels es) = Ok [mkRel (s "rId1") (s "worksheet") (s "a.xml")] /\
  (es <- parse_empty_element (dump_rel (mkRel (s "rId1") (s "worksheet") (s "it's > 1.xml"))) ;; scan_rels es) = Ok [mkRel (s "rId1") (s "worksheet") (s "it's > 1.xml")] /\
  (es <- parse_empty_element (dump_rel (mkRel (s "rId1"" Id=""rId2") (s "worksheet") (s "a.xml"))) ;; scan_rels es) = Err XmlError.
Proof. split; [vm_compute; reflexivity|]. split; vm_compute; reflexivity. Qed.
