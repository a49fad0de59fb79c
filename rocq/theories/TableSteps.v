(** Reading a sheet step by step. *)
From Coq Require Import Sorted ZifyBool ZifyNat.
From Verif Require Import Py PyFacts PyText Cell Casts Chunk ChunkSpec ChunkProofs ChunkWindow ChunkRun ChunkClosed ChunkConcat ReadSpec ReadProofs ReadState
  PropsChunk Utf8 Series SeriesSpec SeriesProofs PropsSeries Reader ReaderSpec ReaderProofs ReaderSteps ReaderRead PropsRead TableSpec TableProofs.
Set Implicit Arguments. Unset Strict Implicit.

Section Sheet.
  Context (ro : roracle) (sc : sconf).
  Local Notation o := (ro_o ro).
  Local Notation cf := (sc_conf sc).

  (** *** Collecting *)
  Definition TC (l : list cell) (d : cols) : Prop := keys d = order l /\ forall k x, dget Z.eqb d k = Some x -> TInv o sc (content l k) x.
  Definition readable (l : list cell) : bool := forallb (fun c => legible o sc c && (0 <=? c_row c)) l.
  Lemma tinv_erow l x : TInv o sc l x -> se_erow x = last_row l.
  Proof. intros [[-> ->]|(l0 & d & gs & c & g & -> & I)]; [reflexivity|]. rewrite last_row_snoc. tauto. Qed.
  Lemma tinv_srow l x : TInv o sc l x -> se_srow x = first_row l.
  Proof. intros [[-> ->]|(l0 & d & gs & c & g & -> & I)]; [reflexivity|]. tauto. Qed.
  Lemma add_cell_tc l d c : TC l d -> legible o sc c = true -> 0 <= c_row c -> exists d', add_cell ro sc d c = Ok d' /\ TC (l ++ [c]) d'.
  Proof.
    intros C G R. unfold add_cell. set (k := c_col c).
    set (x := match dget Z.eqb d k with Some x => x | None => se_new end).
    assert (X : TInv o sc (content l k) x).
    { unfold x. destruct (dget Z.eqb d k) as [y|] eqn:E; [now apply C|]. rewrite content_nil; [now left|].
      rewrite <- order_in, <- (proj1 C). intro H. now apply dget_In_Z in H. }
    assert (A : exists x', add o sc x c = Ok x' /\ TInv o sc (content (l ++ [c]) k) x').
    { rewrite content_snoc. replace (c_col c =? k) with true by (unfold k; lia). destruct (last_row (content l k) <? c_row c) eqn:E.
      - apply add_tinv; [exact X|exact G|lia|lia].
      - exists x. split; [|exact X]. unfold add. rewrite (tinv_erow X). now replace (c_row c <=? last_row (content l k)) with true by lia. }
    destruct A as (x' & -> & X'). cbn [bind]. eexists. split; [reflexivity|]. split.
    - unfold keys. rewrite dset_keys_Z. unfold order. rewrite order_snoc. cbv zeta. fold (order l). now rewrite <- (proj1 C).
    - intros j y. rewrite dget_dset_Z. destruct (j =? k) eqn:E.
      + intro H. inversion H; subst. now replace j with k by lia.
      + intro H. rewrite content_snoc. replace (c_col c =? j) with false by lia. now apply C.
  Qed.
  Lemma collect_tc outs : forall l d, TC l d -> readable (Cell.cells_of outs) = true ->
    exists d', collect ro sc d outs = Ok d' /\ TC (l ++ Cell.cells_of outs) d'.
  Proof.
    induction outs as [|[c|] outs IH]; intros l d C S; cbn [collect].
    - exists d. cbn. rewrite app_nil_r. now split.
    - cbn in S. apply andb_prop in S. destruct S as [S1 S2]. apply andb_prop in S1. destruct S1 as [G R].
      destruct (@add_cell_tc l d c C G) as (d' & -> & C'); [lia|]. cbn [bind]. destruct (IH _ _ C' S2) as (d2 & -> & C2).
      exists d2. split; [reflexivity|]. cbn. now rewrite <- app_assoc in C2.
    - exact (IH l d C S).
  Qed.

  Context (l : list cell) (Rows : forall c, In c l -> 0 <= c_row c).
  Lemma tallest_max d n : TC l d -> tallest l (order l) n -> max_len d = Ok n.
  Proof.
    intros [K H] [(k0 & K0 & En) T]. 
    assert (E : map (fun p => se_len (snd p)) d = map (span l) (order l)).
    { rewrite <- K. unfold keys. rewrite map_map. apply map_ext_in. intros [k x] Hp. cbn [snd fst].
      assert (G : dget Z.eqb d k = Some x).
      { pose proof (order_nodup l) as N. rewrite <- K in N. unfold keys in N. clear -N Hp. induction d as [|[j y] d IH]; [easy|]. cbn in *.
        inversion N as [|? ? N1 N2]; subst. destruct Hp as [Hp|Hp]; [inversion Hp; subst; now rewrite Z.eqb_refl|].
        replace (k =? j) with false; [now apply IH|]. apply eq_sym, Z.eqb_neq. intros ->. apply N1. now apply (in_map fst) in Hp. }
      pose proof (H k x G) as I. unfold se_len, span. rewrite (tinv_erow I), (tinv_srow I). unfold first_row. destruct (content l k); [reflexivity|lia]. }
    unfold max_len. rewrite E. destruct (order l) as [|k ks]; [easy|]. cbn [map]. f_equal.
    assert (M : forall ms m, m <= max_list m ms /\ (forall x, In x ms -> x <= max_list m ms) /\ (max_list m ms = m \/ In (max_list m ms) ms)).
    { induction ms as [|x ms IH]; intro m; cbn; [split; [lia|split; [easy|now left]]|]. destruct (IH (Z.max m x)) as (A & B & C).
      split; [lia|]. split; [intros y [->|Hy]; [lia|now apply B]|]. destruct C as [C|C]; [|now right; right].
      destruct (Z.max_spec m x) as [[? Q]|[? Q]]; rewrite Q in *; [right; left; lia|left; lia]. }
    destruct (M (map (span l) ks) (span l k)) as (A & B & C). apply Z.le_antisymm.
    - destruct C as [->|C]; [apply T; now left|]. apply in_map_iff in C. destruct C as (j & <- & J). apply T. now right.
    - subst n. destruct K0 as [->|J]; [exact A|]. apply B. now apply in_map.
  Qed.

  (** *** Reads *)
  Definition RC (d : cols) (g : Z -> list (list tag)) : Prop :=
    keys d = order l /\ forall k x, dget Z.eqb d k = Some x -> ready o sc x (g k).
  Lemma rc_ext d g g' : RC d g -> (forall k, In k (order l) -> g k = g' k) -> RC d g'.
  Proof. intros [K H] E. split; [exact K|]. intros k x G. rewrite <- E; [now apply H|]. rewrite <- K. apply dget_In_Z. congruence. Qed.
  Lemma rc_start d : TC l d -> RC d (now ro sc l []).
  Proof.
    intros [K H]. split; [exact K|]. intros k x G. cbn [now fold_left]. apply tinv_ready; [now apply H|]. apply content_some; [exact Rows|]. apply order_in. rewrite <- K. apply dget_In_Z. congruence.
  Qed.
  Lemma rc_get d g k : RC d g -> In k (order l) -> exists x, dget Z.eqb d k = Some x /\ ready o sc x (g k).
  Proof.
    intros [K H] I. rewrite <- K in I. apply dget_In_Z in I. destruct (dget Z.eqb d k) as [x|] eqn:E; [|easy]. exists x. split; [reflexivity|now apply H].
  Qed.
  Lemma rc_set d g k x rs : RC d g -> In k (order l) -> ready o sc x rs -> RC (dset Z.eqb d k x) (fun j => if j =? k then rs else g j).
  Proof.
    intros [K H] I X. split.
    - unfold keys in *. rewrite dset_keys_Z, K. apply mem_Z_In in I. now rewrite I.
    - intros j y. rewrite dget_dset_Z. destruct (j =? k) eqn:E; [|apply H]. intro G. now inversion G; subst.
  Qed.
  Section Window.
    Context (off len : Z) (idx : option (list bool)) (W : windowed off len idx = true).
    Definition answer_at (g : Z -> list (list tag)) (k : Z) : res array := expected o cf (chosen_runs (g k) off len idx).
    Definition moved (g : Z -> list (list tag)) (ks : list Z) (j : Z) : list (list tag) := if mem_Z j ks then after off len idx (g j) else g j.
    (** A step that reads column [k] and works on the array. *)
    Definition reads {A} (F : array -> res A) (f : cols -> Z -> res (cols * A)) : Prop :=
      forall d g k, RC d g -> In k (order l) ->
      match (a <- answer_at g k ;; F a) with
      | Ok b => exists d', f d k = Ok (d', b) /\ RC d' (fun j => if j =? k then after off len idx (g k) else g j)
      | Err e => f d k = Err e
      end.
    Lemma arrow_reads : reads (fun a => Ok a) (fun d k => arrow_of ro sc d k off len idx).
    Proof.
      intros d g k C K. destruct (rc_get C K) as (x & G & R). unfold arrow_of. rewrite G. destruct (arrow_ready W R) as [A1 A2]. unfold answer_at. rewrite <- A1.
      destruct (to_arrow o sc x off len idx) as [x' [a|e]]; cbn [fst snd bind] in *; [|reflexivity]. eexists. split; [reflexivity|]. apply rc_set; [exact C|exact K|now apply (A2 a)].
    Qed.
    Lemma each_reads A (F : array -> res A) f : reads F f -> forall ks d g, RC d g -> NoDup ks -> (forall k, In k ks -> In k (order l)) ->
      match mapM (fun k => a <- answer_at g k ;; F a) ks with
      | Ok v => exists d', each f d ks = Ok (d', v) /\ RC d' (moved g ks)
      | Err e => each f d ks = Err e
      end.
    Proof.
      intros H ks. induction ks as [|k ks IH]; intros d g C N K; cbn [mapM each].
      - exists d. split; [reflexivity|exact C].
      - inversion N as [|? ? N1 N2]; subst. specialize (H d g k C (K k (or_introl eq_refl))). destruct (a <- answer_at g k ;; F a) as [b|e]; cbn [bind]; [|now rewrite H].
        destruct H as (d' & -> & C'). cbn [bind]. specialize (IH d' _ C' N2 (fun j Hj => K j (or_intror Hj))).
        assert (E : mapM (fun j => a <- answer_at (fun j => if j =? k then after off len idx (g k) else g j) j ;; F a) ks = mapM (fun j => a <- answer_at g j ;; F a) ks).
        { clear -N1. induction ks as [|j ks IH]; [reflexivity|]. cbn [mapM]. rewrite IH by (intro H; apply N1; now right). unfold answer_at.
          replace (j =? k) with false; [reflexivity|]. symmetry. apply Z.eqb_neq. intros ->. apply N1. now left. }
        rewrite E in IH. destruct (mapM _ ks) as [v|e]; cbn [bind].
        + destruct IH as (d2 & -> & C2). cbn [bind]. exists d2. split; [reflexivity|]. revert C2. intro C2. apply (rc_ext C2). intros j _. unfold moved, mem_Z. cbn [existsb].
          destruct (j =? k) eqn:Ej; cbn [orb].
          * assert (j = k) by lia. subst j. destruct (existsb (Z.eqb k) ks) eqn:M; [|reflexivity]. exfalso. apply N1. now apply mem_Z_In.
          * reflexivity.
        + now rewrite IH.
    Qed.
  End Window.
  Lemma texts_reads off len : windowed off len None = true -> reads off len None (fun a => Ok (map (text_form o) (a_vals a))) (fun d k => texts ro sc d k off len).
  Proof.
    intros W d g k C K. destruct (rc_get C K) as (x & G & R). unfold texts, ask. rewrite G. pose proof (utf8_ready W R) as A. unfold answer_at.
    destruct (expected o cf (chosen_runs (g k) off len None)) as [a|e]; cbn [bind].
    - destruct A as (b & B1 & B2 & B3). destruct (to_utf8 o sc x off len None) as [x' r]. cbn [fst snd] in *. subst r. cbn [bind]. rewrite B2.
      eexists. split; [reflexivity|]. apply rc_set; [exact C|exact K|exact B3].
    - destruct (to_utf8 o sc x off len None) as [x' r]. cbn [fst snd] in *. now subst r.
  Qed.
  Lemma then_reads off len idx A B (F : array -> res A) (G : A -> res B) f : reads off len idx F f ->
    reads off len idx (fun a => b <- F a ;; G b) (fun d k => ' (d, a) <- f d k ;; b <- G a ;; Ok (d, b)).
  Proof.
    intros H d g k C K. specialize (H d g k C K). destruct (answer_at off len idx g k) as [a|e]; cbn [bind] in *; [|now rewrite H].
    destruct (F a) as [b|e]; cbn [bind]; [|now rewrite H]. destruct H as (d' & -> & C'). cbn [bind]. destruct (G b) as [c|e]; cbn [bind]; [|reflexivity]. now exists d'.
  Qed.
  (** The history spelt out. *)
  Lemma now_moved h ks off len : forall k, now ro sc l (h ++ [(ks, (off, len))]) k = moved off len None (now ro sc l h) ks k.
  Proof. intro k. unfold now. rewrite fold_left_app. reflexivity. Qed.
End Sheet.
