(** Claim C57 in every mode: which row a text lookup finds, and exactly when it is the topmost. *)
From Coq Require Import ZifyBool ZifyNat.
From Verif Require Import Py PyFacts PyText Cell Casts Chunk ChunkSpec ReadSpec Utf8 Series SeriesSpec Reader ReaderSpec ReaderProofs ReaderSteps ReaderRead
  PropsChunk SeriesProofs PropsSeries PropsReader TableSpec TableProofs TableSteps TableRead TableFresh TableErrors PropsTable.
Set Implicit Arguments. Unset Strict Implicit.

(** ** Specification *)
(** Row [i] of column [k], as text, satisfies [p]; the first [size] rows are looked at, converted as
    the mode says. *)
Definition matching (ro : roracle) (sc : sconf) (l : list cell) (p : str -> bool) (size k : Z) (i : nat) : Prop :=
  exists ts t, text_at ro sc l [] k 0 size = Ok ts /\ nth_error ts i = Some (Some t) /\ p t = true.

(** ** Proofs *)
Lemma place_spec {A} (p : A -> bool) (l : list A) d :
  match place p l d with
  | Some i => (i < List.length l)%nat /\ p (nth i l d) = true /\ forall j, (j < i)%nat -> p (nth j l d) = false
  | None => forall j, (j < List.length l)%nat -> p (nth j l d) = false
  end.
Proof.
  unfold place. assert (G : forall m s0, match find (fun i => p (nth i l d)) (seq s0 m) with
    | Some i => (s0 <= i < s0 + m)%nat /\ p (nth i l d) = true /\ forall j, (s0 <= j < i)%nat -> p (nth j l d) = false
    | None => forall j, (s0 <= j < s0 + m)%nat -> p (nth j l d) = false end).
  { induction m as [|m IH]; intro s0; cbn [seq find]; [intros; lia|]. destruct (p (nth s0 l d)) eqn:E; [split; [lia|]; split; [exact E|intros; lia]|].
    specialize (IH (S s0)). destruct (find _ (seq (S s0) m)).
    - destruct IH as (A1 & A2 & A3). split; [lia|]. split; [exact A2|]. intros j Hj. destruct (Nat.eq_dec j s0) as [->|]; [exact E|apply A3; lia].
    - intros j Hj. destruct (Nat.eq_dec j s0) as [->|]; [exact E|apply IH; lia]. }
  specialize (G (List.length l) 0%nat). destruct (find _ _).
  - destruct G as (A1 & A2 & A3). split; [lia|]. split; [exact A2|]. intros; apply A3; lia.
  - intros; apply G; lia.
Qed.

Section Lookup.
  Context (ro : roracle) (sc : sconf) (l : list cell) (p : str -> bool) (size : Z).
  Local Notation M := (matching ro sc l p size).
  Lemma matching_at k ts i : text_at ro sc l [] k 0 size = Ok ts -> (M k i <-> (i < List.length ts)%nat /\ fits p (nth i ts None) = true).
  Proof.
    intro T. split.
    - intros (ts' & t & T' & N & P). assert (ts' = ts) by congruence. subst. split; [apply nth_error_Some; congruence|]. rewrite (nth_error_nth _ _ _ N). exact P.
    - intros [L F]. destruct (nth i ts None) as [t|] eqn:E; [|discriminate]. exists ts, t. split; [exact T|]. split; [|exact F].
      rewrite <- E. now apply nth_error_nth'.
  Qed.
  Lemma search_found : forall ks b r h, search ro sc l p size b ks = Ok (r, h) ->
    exists before k after i, ks = before ++ k :: after /\ r = Z.of_nat i /\ M k i /\ (forall j, (j < i)%nat -> ~ M k j) /\
      forall k' j, In k' before -> ~ M k' j.
  Proof.
    induction ks as [|k ks IH]; intros b r h; cbn [search]; [discriminate|]. destruct (text_at ro sc l [] k 0 size) as [ts|e] eqn:T; [|discriminate]. cbn [bind].
    pose proof (place_spec (fits p) ts None) as Q. destruct (place (fits p) ts None) as [i|].
    - intro H. injection H as <- _. destruct Q as (Q1 & Q2 & Q3). exists [], k, ks, i. split; [reflexivity|]. split; [reflexivity|]. split; [now apply (matching_at _ T)|].
      split; [|intros ? ? []]. intros j Hj Mj. apply (matching_at _ T) in Mj. rewrite Q3 in Mj by exact Hj. destruct Mj; discriminate.
    - intro H. destruct (IH _ _ _ H) as (before & k1 & after & i & -> & -> & A1 & A2 & A3). exists (k :: before), k1, after, i.
      split; [reflexivity|]. split; [reflexivity|]. split; [exact A1|]. split; [exact A2|]. intros k' j [<-|K] Mj; [|exact (A3 _ _ K Mj)].
      apply (matching_at _ T) in Mj. destruct Mj as [L F]. rewrite Q in F by exact L. discriminate.
  Qed.
End Lookup.

(** ** C57 *)
(** In every mode and for every pattern: if the read returns, row [r] was taken as the top, the
    topmost match of the first column (in the order of first cells) that has one.  It is the topmost
    row with a match exactly if no later column has one above it. *)
Theorem C57_exact ro sc op outs ks n tbl t p : readable ro sc (Cell.cells_of outs) = true -> listing (Cell.cells_of outs) ks -> tallest (Cell.cells_of outs) ks n ->
  (forall h, r_header op = HInt h -> 0 <= h) -> r_size op <> 0 ->
  r_lookup op = Some (LText t) -> ro_search ro t = Some p ->
  read_trace ro sc op (outs, None) = Ok tbl ->
  exists before k after r h, order (Cell.cells_of outs) = before ++ k :: after /\
    top_row ro sc (Cell.cells_of outs) op = Ok (Z.of_nat r, h) /\
    (let M := matching ro sc (Cell.cells_of outs) p (r_size op) in
     M k r /\ (forall i, (i < r)%nat -> ~ M k i) /\ (forall j i, In j before -> ~ M j i) /\
     ((forall j i, In j ks -> (i < r)%nat -> ~ M j i) <-> (forall j i, In j after -> (i < r)%nat -> ~ M j i))).
Proof.
  intros Rd Ls T Hh Sz El Sp R. rewrite (C90_complete (op := op) Rd Ls T Hh (fun _ => Sz)) in R. unfold expected_table in R.
  destruct (top_row ro sc (Cell.cells_of outs) op) as [[top h]|e] eqn:E; [|discriminate]. pose proof E as E'. unfold top_row in E'. rewrite El, Sp in E'.
  destruct (search_found E') as (before & k & after & r & O & -> & A1 & A2 & A3). exists before, k, after, r, h. split; [exact O|]. split; [reflexivity|].
  cbv zeta. split; [exact A1|]. split; [exact A2|]. split; [exact A3|].
  assert (J : forall j, In j ks <-> In j (order (Cell.cells_of outs))) by (intro j; rewrite <- (listing_order Ls); apply sorted_in).
  split.
  - intros H j i Hj. apply H. apply J. rewrite O. apply in_app_iff. right. now right.
  - intros H j i Hj Hi. apply J in Hj. rewrite O in Hj. apply in_app_iff in Hj. destruct Hj as [Hj|[<-|Hj]]; [apply A3|apply A2|apply H]; assumption.
Qed.
Print Assumptions C57_exact.

(** The sheet of [C57_refuted] in a converting mode: the first column decides for row 2, though the
    second matches in row 1. *)
Example C57_exact_example : let l := Cell.cells_of ex_two in let op := mkR (HInt 1) DTNone 0 (Some (LText (s "id"))) 5 FNone SOr in
  readable ex_ro ex_numeric l = true /\ listing l [0; 1] /\ tallest l [0; 1] 4 /\ order l = [0; 1] /\
  (exists h, top_row ex_ro ex_numeric l op = Ok (2, h)) /\ (exists p, ro_search ex_ro (s "id") = Some p /\ matching ex_ro ex_numeric l p 5 1 1 /\ matching ex_ro ex_numeric l p 5 0 2) /\
  show_table (read_trace ex_ro ex_numeric op (ex_two, None)) = Ok [(s "id", (9, None, [Some (inr 1)])); (s "age", (9, None, [Some (inr 2)]))].
Proof.
  cbv zeta. split; [vm_compute; reflexivity|]. split; [|split; [|split; [vm_compute; reflexivity|split; [|split]]]].
  - split; [repeat constructor|]. intro k. cbn. split.
    + intros [<-|[<-|[]]]; eexists; split; [now left|reflexivity|now right; left|reflexivity].
    + intros (c & [<-|[<-|[<-|[<-|[<-|[<-|[<-|[]]]]]]]] & <-); cbn; tauto.
  - split; [exists 0; split; [now left|reflexivity]|]. intros k [<-|[<-|[]]]; vm_compute; discriminate.
  - eexists. vm_compute. reflexivity.
  - eexists. split; [vm_compute; reflexivity|]. split; eexists; eexists; (split; [vm_compute; reflexivity|]); split; vm_compute; reflexivity.
  - vm_compute. reflexivity.
Qed.
