(** Reads of sheets in which no column mixes dates with shared strings: no earlier read matters. *)
From Coq Require Import Sorted ZifyBool ZifyNat.
From Verif Require Import Py PyFacts PyText Cell Casts Chunk ChunkSpec ReadSpec ReadProofs Utf8 Series SeriesSpec PropsChunk PropsSeries
  Reader ReaderSpec ReaderProofs PropsReader TableSpec TableSteps TableRead TableFresh TableErrors PropsTable.
Set Implicit Arguments. Unset Strict Implicit.

(** If dates are recognised in text, no column holds both a date and a shared string. *)
Definition dates_apart (ro : roracle) (sc : sconf) (l : list cell) (ks : list Z) : Prop :=
  cf_datetime (sc_conf sc) = true -> forall k, In k ks ->
  some_kind KTemp (List.concat (sheet_runs ro sc l k)) = true -> some_raw (List.concat (sheet_runs ro sc l k)) = false.

Lemma typed_error ro dt names arrays e : typed ro dt names arrays = Err e -> e = ValueError.
Proof.
  unfold typed. destruct (match dt with DTSeq _ => _ | _ => _ end); [|intro H; now injection H]. intro Ty. apply mapM_err in Ty. destruct Ty as (p & _ & Ty). unfold convert in Ty.
  destruct (type_wanted _ _ _); [|discriminate]. destruct (_ =? _); [discriminate|]. destruct (_ && _); congruence.
Qed.
Section Calm.
  Context (ro : roracle) (sc : sconf) (l : list cell) (S : readable ro sc l = true) (op : ropts) (ks : list Z) (n : Z) (Ls : listing l ks) (Hh : forall z, r_header op = HInt z -> 0 <= z).
  Lemma fresh_blocked : fresh_table ro sc l op ks n = Err ArrowNotImplemented ->
    cf_datetime (sc_conf sc) = true /\ exists k, In k ks /\ some_kind KTemp (List.concat (sheet_runs ro sc l k)) = true /\ some_raw (List.concat (sheet_runs ro sc l k)) = true.
  Proof.
    unfold fresh_table. destruct (top_row ro sc l op) as [[top h]|e'] eqn:T; cbn [bind]; [|intro H; injection H as ->; exact (@top_errors ro sc l S op ks n Ls _ T)].
    destruct (heading ro sc l op ks top []) as [[[height names] h']|e'] eqn:Hd; cbn [bind]; [|intro H; injection H as ->; exact (@head_errors ro sc l S op ks n Ls _ _ _ Hh Hd)].
    destruct (filter_columns ro (r_filters op) names ks) as [fs|e'] eqn:F; cbn [bind]; [|intro H; injection H as ->; exact (@filter_errors ro sc l op ks n _ _ F)].
    cbv zeta. set (off := height + top + r_skip_after op).
    assert (Sub : forall k, In k fs -> In k (order l)).
    { intros k K. apply (in_order Ls). rewrite <- (listing_order Ls) in *. now apply (filter_sub F (sorted_nodup l)). }
    assert (A : forall k len idx, In k (order l) -> array_at ro sc l [] k off len idx = Err ArrowNotImplemented -> cf_datetime (sc_conf sc) = true /\ exists k, In k ks /\ some_kind KTemp (List.concat (sheet_runs ro sc l k)) = true /\ some_raw (List.concat (sheet_runs ro sc l k)) = true).
    { intros k len idx K E. destruct (@array_errors ro sc l S [] k off len idx _ K E) as [(X & _)|(_ & D & B)]; [discriminate|]. split; [exact D|]. exists k. split; [now apply (in_order Ls)|exact B]. }
    destruct (rows_kept ro sc l (r_strategy op) [] fs off (n - off)) as [m|e'] eqn:M; cbn [bind].
    - destruct (mapM _ ks) as [arrays|e'] eqn:Ar; cbn [bind].
      + destruct (typed ro (r_dtypes op) names arrays) as [cs|e'] eqn:Ty; cbn [bind]; [destruct (equal_lengths _); discriminate|]. apply typed_error in Ty. subst e'. discriminate.
      + intro H. injection H as ->. apply mapM_err in Ar. destruct Ar as (k & K & Ar). apply (in_order Ls) in K. exact (A _ _ _ K Ar).
    - intro H. injection H as ->. unfold rows_kept in M. destruct fs as [|k0 fs0]; [discriminate|]. set (fs := k0 :: fs0) in *.
      destruct (mapM _ fs) as [arrays|e2] eqn:Ar; cbn [bind] in M.
      + exfalso. cbv zeta in M. destruct (if Nat.eqb (List.length fs0) 0 then None else strategy_error (r_strategy op) (List.length fs0)) as [e2|] eqn:St.
        * injection M as ->. destruct (Nat.eqb _ 0); [discriminate|]. unfold strategy_error in St. destruct (r_strategy op); try discriminate. destruct (_ && _); discriminate.
        * destruct (equal_lengths _); [|discriminate]. destruct (existsb _ _); discriminate.
      + injection M as ->. apply mapM_err in Ar. destruct Ar as (k & K & Ar). apply Sub in K. exact (A _ _ _ K Ar).
  Qed.
End Calm.
Lemma apart_fresh ro sc l op ks n : readable ro sc l = true -> listing l ks -> (forall z, r_header op = HInt z -> 0 <= z) -> dates_apart ro sc l ks ->
  fresh_table ro sc l op ks n <> Err ArrowNotImplemented.
Proof. intros S Ls Hh U E. destruct (@fresh_blocked ro sc l S op ks n Ls Hh E) as (D & k & K & B1 & B2). rewrite (U D k K B1) in B2. discriminate. Qed.
Lemma read_apart ro sc op outs ks n : let l := Cell.cells_of outs in
  readable ro sc l = true -> listing l ks -> tallest l ks n -> (forall h, r_header op = HInt h -> 0 <= h) -> (r_lookup op <> None -> r_size op <> 0) -> dates_apart ro sc l ks ->
  read_trace ro sc op (outs, None) = fresh_table ro sc l op ks n.
Proof.
  intros l S Ls T Hh Hs U. apply C91_dates_partial; try assumption. now apply apart_fresh.
Qed.
