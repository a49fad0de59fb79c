(** Two orders of the same cells: reading them step by step. *)
From Coq Require Import Sorted Permutation.
From Verif Require Import Py PyFacts Cell Casts Chunk ChunkSpec Series SeriesSpec Reader ReaderSpec ReaderProofs ReaderRead.
From Coq Require Import ZifyBool ZifyNat.
Set Implicit Arguments. Unset Strict Implicit.

Definition same_cells (l l' : list cell) : Prop :=
  forall k, filter (fun c => c_col c =? k) l = filter (fun c => c_col c =? k) l'.

(** Dicts with the same entries. *)
Definition sim (d d' : cols) : Prop := NoDup (keys d) /\ NoDup (keys d') /\ forall k, dget Z.eqb d k = dget Z.eqb d' k.
Definition sim_res A (r r' : res (cols * A)) : Prop :=
  match r, r' with Ok (d, a), Ok (d', a') => sim d d' /\ a = a' | Err e, Err e' => e = e' | _, _ => False end.

Lemma sim_keys d d' k : sim d d' -> In k (keys d) <-> In k (keys d').
Proof. intros (_ & _ & H). unfold keys. rewrite <- !dget_In_Z, H. reflexivity. Qed.
Lemma sim_sorted d d' : sim d d' -> sorted (keys d) = sorted (keys d').
Proof.
  intro H. apply sorted_unique; [apply sorted_sorted, H|apply sorted_sorted, H|]. intro k. rewrite !sorted_in. now apply sim_keys.
Qed.
Lemma dget_in_pair (d : cols) k x : dget Z.eqb d k = Some x -> In (k, x) d.
Proof. induction d as [|[j y] d IH]; cbn; [discriminate|]. destruct (Z.eqb_spec k j) as [->|N]; intro H; [inversion H; now left|right; now apply IH]. Qed.
Lemma in_pair_dget (d : cols) k x : NoDup (keys d) -> In (k, x) d -> dget Z.eqb d k = Some x.
Proof.
  induction d as [|[j y] d IH]; cbn; [easy|]. intros N H. inversion N as [|? ? Nj N']; subst. destruct H as [H|H].
  - inversion H; subst. now rewrite Z.eqb_refl.
  - destruct (Z.eqb_spec k j) as [->|_]; [|now apply IH]. exfalso. apply Nj. apply in_map_iff. now exists (j, x).
Qed.
Lemma nodup_pairs (d : cols) : NoDup (keys d) -> NoDup d.
Proof. induction d as [|p d IH]; intro N; [constructor|]. inversion N as [|? ? Nj N']; subst. constructor; [|now apply IH]. intro H. apply Nj. now apply in_map. Qed.
Lemma sim_perm d d' : sim d d' -> Permutation d d'.
Proof.
  intros (N & N' & H). apply NoDup_Permutation; [now apply nodup_pairs|now apply nodup_pairs|]. intros [k x]. split; intro I.
  - apply dget_in_pair. rewrite <- H. now apply in_pair_dget.
  - apply dget_in_pair. rewrite H. now apply in_pair_dget.
Qed.
Lemma sim_set d d' k x : sim d d' -> sim (dset Z.eqb d k x) (dset Z.eqb d' k x).
Proof.
  intros (N & N' & H). assert (G : forall e : cols, NoDup (keys e) -> NoDup (keys (dset Z.eqb e k x))).
  { intros e Ne. unfold keys. rewrite dset_keys_Z. destruct (mem_Z k (map fst e)) eqn:M; [exact Ne|].
    apply (Permutation_NoDup (l := k :: map fst e)); [apply Permutation_cons_append|]. constructor; [|exact Ne]. intro I.
    apply Bool.not_true_iff_false in M. apply M. unfold mem_Z. apply existsb_exists. exists k. split; [exact I|apply Z.eqb_refl]. }
  split; [now apply G|]. split; [now apply G|]. intro j. rewrite !dget_dset_Z. now destruct (j =? k).
Qed.

Lemma max_list_ge l : forall m, m <= max_list m l.
Proof. induction l as [|x l IH]; intro m; cbn; [lia|]. specialize (IH (Z.max m x)). lia. Qed.
Lemma max_list_in l : forall m x, In x (m :: l) -> x <= max_list m l.
Proof.
  induction l as [|y l IH]; intros m x H; cbn in *; [intuition lia|]. destruct H as [->|[->|H]].
  - pose proof (@max_list_ge l (Z.max x y)). lia.
  - pose proof (@max_list_ge l (Z.max m x)). lia.
  - apply IH. now right.
Qed.
Lemma max_list_mem l : forall m, In (max_list m l) (m :: l).
Proof.
  induction l as [|y l IH]; intro m; cbn [max_list]; [now left|]. destruct (IH (Z.max m y)) as [E|E]; [|right; now right].
  rewrite <- E. destruct (Z.max_spec m y) as [[_ ->]|[_ ->]]; [right|]; now left.
Qed.
Lemma sim_max d d' : sim d d' -> max_len d = max_len d'.
Proof.
  intro H. apply sim_perm in H. apply (Permutation_map (fun p => se_len (snd p))) in H. unfold max_len. revert H.
  generalize (map (fun p : Z * series => se_len (snd p)) d) (map (fun p : Z * series => se_len (snd p)) d'). intros l l' H.
  destruct l as [|x l], l' as [|x' l']; [reflexivity| | |]; [now apply Permutation_nil in H|apply Permutation_sym, Permutation_nil in H; discriminate|].
  f_equal. apply Z.le_antisymm; apply max_list_in; [eapply Permutation_in; [exact H|]|eapply Permutation_in; [apply Permutation_sym; exact H|]]; apply max_list_mem.
Qed.

Section Read.
  Context (ro : roracle) (sc : sconf).
  Local Notation o := (ro_o ro).
  (** The series of one column. *)
  Fixpoint adds (x : option series) (l : list cell) : res (option series) :=
    match l with
    | [] => Ok x
    | c :: l => y <- add o sc (match x with Some x => x | None => se_new end) c ;; adds (Some y) l
    end.
  Local Notation on k := (filter (fun c => c_col c =? k)).
  Lemma collect_column outs : forall d d', NoDup (keys d) -> collect ro sc d outs = Ok d' ->
    NoDup (keys d') /\ forall k, adds (dget Z.eqb d k) (on k (Cell.cells_of outs)) = Ok (dget Z.eqb d' k).
  Proof.
    induction outs as [|[c|] outs IH]; intros d d' N H.
    - cbn in *. inversion H; subst. now split.
    - change (Cell.cells_of (OCell c :: outs)) with (c :: Cell.cells_of outs). cbn [collect] in H. unfold add_cell in H.
      destruct (add o sc match dget Z.eqb d (c_col c) with Some x => x | None => se_new end c) as [x|] eqn:E; cbn [bind] in H; [|discriminate].
      assert (N' : NoDup (keys (dset Z.eqb d (c_col c) x))) by (apply (@sim_set d d (c_col c) x); now repeat split).
      destruct (IH _ _ N' H) as [H1 H2]. split; [exact H1|]. intro k. specialize (H2 k). rewrite dget_dset_Z in H2. cbn [filter].
      destruct (Z.eqb_spec (c_col c) k) as [<-|Nk].
      + rewrite Z.eqb_refl in H2. cbn [adds]. rewrite E. exact H2.
      + replace (k =? c_col c) with false in H2 by lia. exact H2.
    - apply (IH d d' N H).
  Qed.
  Lemma collect_total outs : forall d, (forall k, exists y, adds (dget Z.eqb d k) (on k (Cell.cells_of outs)) = Ok y) -> exists d', collect ro sc d outs = Ok d'.
  Proof.
    induction outs as [|[c|] outs IH]; intros d H.
    - now exists d.
    - change (Cell.cells_of (OCell c :: outs)) with (c :: Cell.cells_of outs) in H. cbn [collect]. unfold add_cell.
      destruct (H (c_col c)) as (y & Hy). cbn [filter] in Hy. rewrite Z.eqb_refl in Hy. cbn [adds] in Hy.
      destruct (add o sc match dget Z.eqb d (c_col c) with Some x => x | None => se_new end c) as [x|] eqn:E; cbn [bind] in *; [|discriminate].
      apply IH. intro k. rewrite dget_dset_Z. destruct (Z.eqb_spec k (c_col c)) as [->|Nk]; [now exists y|].
      destruct (H k) as (z & Hz). exists z. cbn [filter] in Hz. replace (c_col c =? k) with false in Hz by lia. exact Hz.
    - apply IH. exact H.
  Qed.
  Lemma collect_same outs outs' d : same_cells (Cell.cells_of outs) (Cell.cells_of outs') -> collect ro sc [] outs = Ok d ->
    exists d', collect ro sc [] outs' = Ok d' /\ sim d d'.
  Proof.
    intros S H. destruct (@collect_column outs [] d (NoDup_nil _) H) as [N H1].
    destruct (@collect_total outs' []) as (d' & H'); [intro k; rewrite <- S; eexists; apply H1|]. exists d'. split; [exact H'|].
    destruct (@collect_column outs' [] d' (NoDup_nil _) H') as [N' H2]. split; [exact N|]. split; [exact N'|]. intro k. specialize (H1 k). specialize (H2 k). rewrite S in H1. congruence.
  Qed.

  (** *** Steps *)
  Lemma sim_bind A B (r r' : res (cols * A)) (f f' : cols * A -> res (cols * B)) : sim_res r r' ->
    (forall d d' a, sim d d' -> sim_res (f (d, a)) (f' (d', a))) -> sim_res (bind r f) (bind r' f').
  Proof. intros H G. destruct r as [[d a]|], r' as [[d' a']|]; cbn in *; [|easy|easy|exact H]. destruct H as [H ->]. now apply G. Qed.
  Lemma end_bind A B (r r' : res (cols * A)) (f f' : cols * A -> res B) : sim_res r r' ->
    (forall d d' a, sim d d' -> f (d, a) = f' (d', a)) -> bind r f = bind r' f'.
  Proof. intros H G. destruct r as [[d a]|], r' as [[d' a']|]; cbn in *; [|easy|easy|now rewrite H]. destruct H as [H ->]. now apply G. Qed.
  Lemma sim_texts d d' k off len : sim d d' -> sim_res (texts ro sc d k off len) (texts ro sc d' k off len).
  Proof.
    intro H. unfold texts, ask. destruct H as (N & N' & E). rewrite <- E. destruct (dget Z.eqb d k) as [x|]; [|reflexivity].
    destruct (to_utf8 o sc x off len None) as [y [a|e]]; cbn; [|reflexivity]. split; [|reflexivity]. apply sim_set. now repeat split.
  Qed.
  Lemma sim_arrow d d' k off len idx : sim d d' -> sim_res (arrow_of ro sc d k off len idx) (arrow_of ro sc d' k off len idx).
  Proof.
    intro H. unfold arrow_of. destruct H as (N & N' & E). rewrite <- E. destruct (dget Z.eqb d k) as [x|]; [|reflexivity].
    destruct (to_arrow o sc x off len idx) as [y [a|e]]; cbn; [|reflexivity]. split; [|reflexivity]. apply sim_set. now repeat split.
  Qed.
  Lemma sim_each A (f : cols -> Z -> res (cols * A)) : (forall d d' k, sim d d' -> sim_res (f d k) (f d' k)) ->
    forall ks d d', sim d d' -> sim_res (each f d ks) (each f d' ks).
  Proof.
    intro F. induction ks as [|k ks IH]; intros d d' H; cbn [each]; [now split|].
    apply sim_bind; [now apply F|]. intros e e' a He. apply sim_bind; [now apply IH|]. intros g g' l Hg. now split.
  Qed.
  Lemma sim_header d d' first len : sim d d' -> sim_res (make_header ro sc d first len) (make_header ro sc d' first len).
  Proof.
    intro H. unfold make_header. rewrite <- (sim_sorted H). destruct (len =? 1).
    - apply sim_each; [|exact H]. intros e e' k He. apply sim_bind; [now apply sim_texts|]. intros g g' l Hg. destruct l; [reflexivity|now split].
    - apply sim_bind; [apply sim_each; [|exact H]; intros; now apply sim_texts|]. intros g g' l Hg. now split.
  Qed.
  Lemma sim_find p size ks : forall d d', sim d d' -> sim_res (find_text ro sc p d ks size) (find_text ro sc p d' ks size).
  Proof.
    induction ks as [|k ks IH]; intros d d' H; cbn [find_text]; [now split|]. apply sim_bind; [now apply sim_texts|]. intros e e' l He.
    destruct (index_of _ l); [now split|now apply IH].
  Qed.
  Lemma sim_locate op d d' : (forall t, r_lookup op = Some (LText t) -> keys d = keys d') -> sim d d' -> sim_res (locate ro sc op d) (locate ro sc op d').
  Proof.
    intros L H. unfold locate. destruct (r_lookup op) as [[k|t]|]; [| |now split].
    - apply sim_bind.
      + cbn [find_header]. apply sim_bind; [now apply sim_texts|]. intros e e' l He. now split.
      + intros e e' r He. destruct (r =? -1); [reflexivity|now split].
    - specialize (L t eq_refl). apply sim_bind.
      + cbn [find_header]. destruct (ro_search ro t) as [p|]; [rewrite <- L; now apply sim_find|].
        destruct d as [|[k x] d], d' as [|[k' x'] d']; try discriminate; [now split|]. assert (k = k') by now inversion L. subst k'.
        apply sim_bind; [now apply sim_texts|]. intros; reflexivity.
      + intros e e' r He. destruct (r =? -1); [reflexivity|now split].
  Qed.
  Lemma sim_length d d' : sim d d' -> List.length d = List.length d'.
  Proof. intro H. now apply Permutation_length, sim_perm. Qed.
  Lemma sim_names op d d' r : sim d d' -> sim_res (name_columns ro sc op d r) (name_columns ro sc op d' r).
  Proof.
    intro H. unfold name_columns. rewrite <- (sim_length H). destruct (r_header op) as [h|l].
    - destruct (h =? 0); [now split|]. apply sim_bind; [now apply sim_header|]. intros e e' l He. now split.
    - destruct (Nat.eqb _ _); [now split|reflexivity].
  Qed.
  Lemma sim_mask st d d' ks off len : sim d d' -> sim_res (row_mask ro sc st d ks off len) (row_mask ro sc st d' ks off len).
  Proof.
    intro H. unfold row_mask. destruct ks as [|k ks]; [now split|]. apply sim_bind.
    - apply sim_each; [|exact H]. intros e e' j He. apply sim_bind; [now apply sim_arrow|]. intros g g' a Hg. now split.
    - intros e e' l He. destruct (combine_filters st l) as [m|]; [|reflexivity]. cbn. destruct (true_count m =? 0); [reflexivity|now split].
  Qed.
  Lemma sim_read op d d' : (forall t, r_lookup op = Some (LText t) -> keys d = keys d') -> sim d d' -> read_columns ro sc op d = read_columns ro sc op d'.
  Proof.
    intros L H. unfold read_columns. rewrite <- (sim_max H). destruct (max_len d) as [n|]; [|reflexivity]. cbn [bind].
    apply end_bind; [now apply sim_locate|]. intros d1 d1' r H1. apply end_bind; [now apply sim_names|]. intros d2 d2' [h names] H2.
    rewrite <- (sim_sorted H2). destruct (filter_keys _ _ _ _) as [fs|]; [|reflexivity]. cbn [bind]. cbv zeta.
    apply end_bind; [now apply sim_mask|]. intros d3 d3' idx H3. rewrite <- (sim_sorted H3).
    apply end_bind; [apply sim_each; [intros; now apply sim_arrow|exact H3]|]. intros; reflexivity.
  Qed.
End Read.
