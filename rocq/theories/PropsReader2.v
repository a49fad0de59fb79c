(** Claims C58-C60 and C68: row filters, header-only sheets, types. *)
From Coq Require Import Sorted.
From Verif Require Import Py PyFacts PyText Cell Casts Chunk ChunkSpec Utf8 Series SeriesSpec Reader ReaderSpec.
From Verif Require Import PropsChunk SeriesProofs PropsSeries ReaderProofs ReaderSteps ReaderRead ReaderMore.
From Verif Require Import ChunkConcat XlsxParts PropsReader.
From Flocq Require Import IEEE754.Binary.
Set Implicit Arguments. Unset Strict Implicit.

(** ** C58: row filters *)
(** Is there something in row [r] of column [k]? *)
Definition filled_at (o : oracle) (sc : sconf) (l : list cell) (k r : Z) : bool :=
  match t_val (at_row o sc (content l k) r) with CNull => false | _ => true end.
Definition no_nan (o : oracle) (sc : sconf) (l : list cell) : Prop :=
  forall c x, In c l -> t_val (tag_of o sc c) = CNum x -> is_nan 53 1024 x = false.
(** The rows kept, counted from [off]. *)
Definition rows_kept (o : oracle) (sc : sconf) (st : strategy) (l : list cell) (fs : list Z) (off len : Z) : list nat :=
  filter (fun i => keep st (map (fun k => filled_at o sc l k (off + Z.of_nat i)) fs)) (seq 0 (Z.to_nat len)).

Lemma masked_seq A (g : nat -> A) (f : nat -> bool) l : masked (map g l) (map f l) = map g (filter f l).
Proof. unfold masked. induction l as [|i l IH]; [reflexivity|]. cbn. destruct (f i); cbn; now rewrite IH. Qed.
Lemma cell_text_kind o sc c t : t_val (tag_of o sc c) = CText t -> t_kind (tag_of o sc c) = KStr.
Proof.
  unfold tag_of, cell_tag, bin_tag, txt_tag, shared_text. destruct (sc_binary sc), (c_val c) as [b|u]; cbn.
  all: repeat match goal with |- context [match ?x with _ => _ end] => lazymatch x with context [match _ with _ => _ end] => fail | _ => destruct x end end; cbn; try discriminate; try reflexivity.
Qed.
Lemma at_row_text o sc l r t : t_val (at_row o sc l r) = CText t -> t_kind (at_row o sc l r) = KStr.
Proof. unfold at_row. destruct (find _ l) as [c|]; [apply cell_text_kind|discriminate]. Qed.
Lemma holds_present o sc l k off len a i : cf_datetime (sc_conf sc) = false -> cf_numerics (sc_conf sc) = false -> no_nan o sc l -> 0 < len ->
  holds o sc l k off len None a -> (i < Z.to_nat len)%nat -> present (nth i (a_vals a) None) = filled_at o sc l k (off + Z.of_nat i).
Proof.
  intros D N Nn Hl [_ H] Hi. destruct (H (mode_attempted o l k off len None D N)) as [T F]. unfold wanted in *. replace ((off =? 0) && (len =? 0)) with false in * by lia.
  assert (G : nth_error (at_rows o sc (content l k) off len) i = Some (at_row o sc (content l k) (off + Z.of_nat i))).
  { unfold at_rows. rewrite nth_error_map. assert (E : nth_error (seq 0 (Z.to_nat len)) i = Some i); [|now rewrite E].
    rewrite (nth_error_nth' _ 0%nat) by (rewrite seq_length; lia). now rewrite seq_nth by lia. }
  destruct (Forall2_nth_error F G) as (v & V & Rv). rewrite (nth_error_nth _ _ None V). unfold filled_at.
  destruct (t_val (at_row o sc (content l k) (off + Z.of_nat i))) as [|t|x|ms] eqn:E; cbn in Rv.
  - inversion Rv. reflexivity.
  - destruct (a_type a) eqn:Ty; try discriminate; [now inversion Rv|]. exfalso. apply at_row_text in E.
    assert (K : some_kind KStr (at_rows o sc (content l k) off len) = true).
    { unfold some_kind. apply existsb_exists. exists (at_row o sc (content l k) (off + Z.of_nat i)). split; [exact (nth_error_In _ _ G)|]. now rewrite E. }
    unfold natural in T. rewrite K in T. destruct (some_kind KTemp _), (some_kind KNum _); discriminate.
  - assert (X : is_nan 53 1024 x = false).
    { unfold at_row in E. destruct (find _ (content l k)) as [c|] eqn:Fc; [|discriminate]. apply find_some in Fc. destruct Fc as [Fc _]. apply content_in in Fc. apply (Nn c x (proj1 Fc) E). }
    destruct (a_type a); try discriminate; inversion Rv; cbn; now rewrite ?X.
  - destruct (a_type a); try discriminate; now inversion Rv.
Qed.

(** Full claim: in every mode (where strings are converted, filled means the converted value
    is not null), and with a table of no rows when no row is kept (that raises, see below). *)
Theorem C58_partial ro sc op outs ks tbl : let l := Cell.cells_of outs in let o := ro_o ro in
  sheet_ok o sc l = true -> listing l ks -> sizes_ok op ->
  cf_datetime (sc_conf sc) = false -> cf_numerics (sc_conf sc) = false -> no_nan o sc l ->
  read_trace ro sc op (outs, None) = Ok tbl ->
  exists tall first height, tallest l ks tall /\ located ro sc op l first /\ titled ro sc op l ks first height (map fst tbl) /\
    let off := height + first + r_skip_after op in let len := tall - off in
    let fs := chosen_columns ro (r_filters op) (map fst tbl) ks in
    let kept := rows_kept o sc (r_strategy op) l fs off len in
    0 < len ->
    kept <> [] /\
    forall i k, nth_error ks i = Some k ->
      exists name c a, nth_error tbl i = Some (name, c) /\ converted (type_wanted (r_dtypes op) i name) a c /\
        Forall2 (fun r v => render o (a_type a) (t_val (at_row o sc (content l k) (off + Z.of_nat r))) = Ok v) kept (a_vals a).
Proof.
  intros l o S Ls Sz D N Nn R. destruct (C52_content S Ls Sz R) as (tall & first & h & idx & T & L & Ti & C). exists tall, first, h.
  split; [exact T|]. split; [exact L|]. split; [exact Ti|]. cbv zeta in *. set (off := h + first + r_skip_after op) in *. set (len := tall - off) in *.
  set (fs := chosen_columns ro (r_filters op) (map fst tbl) ks) in *. intro Hl. destruct (C Hl) as [K Cs]. clear C.
  set (f := fun i => keep (r_strategy op) (map (fun k => filled_at o sc l k (off + Z.of_nat i)) fs)).
  assert (W : rows_kept o sc (r_strategy op) l fs off len <> [] /\ forall k, wanted o sc (content l k) off len idx = map (fun i => at_row o sc (content l k) (off + Z.of_nat i)) (rows_kept o sc (r_strategy op) l fs off len)).
  { unfold rows_kept. fold f. unfold kept_rows in K. destruct fs as [|f0 fs'] eqn:Ef, idx as [m|]; try easy.
    - assert (Ff : filter f (seq 0 (Z.to_nat len)) = seq 0 (Z.to_nat len)).
      { unfold f. cbn. clear. generalize 0%nat. generalize (Z.to_nat len) as n. induction n as [|n IH]; intro b; [reflexivity|]. cbn. now rewrite IH. }
      rewrite Ff. split.
      + destruct (Z.to_nat len) eqn:E; [lia|discriminate].
      + intro k. unfold wanted. replace ((off =? 0) && (len =? 0)) with false by lia. reflexivity.
    - destruct K as (arrays & A & Em & It).
      assert (Ef' : m = map f (seq 0 (Z.to_nat len))).
      { rewrite Em. apply map_ext_in. intros i Hi. apply in_seq in Hi. unfold f. f_equal.
        clear -A D N Nn Hl Hi. induction A as [|k a fs arrays H A IH]; [reflexivity|]. cbn [map]. f_equal; [|exact IH].
        apply (holds_present D N Nn Hl H). lia. }
      clear Em. subst m. split.
      + intro E. apply in_map_iff in It. destruct It as (i & Fi & Hi). assert (In i (filter f (seq 0 (Z.to_nat len)))) by (now apply filter_In). now rewrite E in H.
      + intro k. unfold wanted. rewrite zlen_map. unfold at_rows. replace (Z.to_nat (zlen (seq 0 (Z.to_nat len)))) with (Z.to_nat len) by (unfold zlen; rewrite seq_length; lia).
        apply masked_seq. }
  destruct W as [W1 W2]. split; [exact W1|]. intros i k Hi. destruct (Cs i k Hi) as (name & c & a & E & H & Cv). exists name, c, a. split; [exact E|]. split; [exact Cv|].
  destruct H as [_ H]. destruct (H (mode_attempted (ro_o ro) l k off len idx D N)) as [_ F]. fold l o in F. rewrite (W2 k) in F.
  clear -F. remember (map _ _) as w eqn:E in F. revert E. generalize (rows_kept o sc (r_strategy op) l fs off len) as rs.
  induction F as [|x v w vs H F IH]; intros [|r rs] E; try discriminate; [constructor|]. inversion E; subst. constructor; [exact H|now apply IH].
Qed.
Print Assumptions C58_partial.
(** No row left by the filters: ValueError instead of a table without rows. *)
Theorem C58_empty_refuted ro sc op outs ks tbl : let l := Cell.cells_of outs in let o := ro_o ro in
  sheet_ok o sc l = true -> listing l ks -> sizes_ok op ->
  cf_datetime (sc_conf sc) = false -> cf_numerics (sc_conf sc) = false -> no_nan o sc l ->
  read_trace ro sc op (outs, None) = Ok tbl ->
  exists tall first height, tallest l ks tall /\ located ro sc op l first /\ titled ro sc op l ks first height (map fst tbl) /\
    let off := height + first + r_skip_after op in
    (off < tall -> rows_kept o sc (r_strategy op) l (chosen_columns ro (r_filters op) (map fst tbl) ks) off (tall - off) <> []).
Proof.
  intros l o S Ls Sz D N Nn R. destruct (C58_partial S Ls Sz D N Nn R) as (tall & first & h & T & L & Ti & C). exists tall, first, h. repeat (split; [assumption|]).
  cbv zeta in *. intros H. apply C. lia.
Qed.
Print Assumptions C58_empty_refuted.
Definition ex_gaps : list out :=
  [words 0 0 (s "a"); words 0 1 (s "b"); words 0 2 (s "c"); rk 1 0 1; rk 2 1 2; rk 3 0 3; rk 3 1 4; rk 4 2 5].
Definition with_filters (f : filters_arg) (st : strategy) : ropts := mkR (HInt 1) DTNone 0 None 30 f st.
Example C58_example :
  show_table (read_trace ex_ro ex_binary (with_filters (FInts [0; 1]) SAnd) (ex_gaps, None)) =
    Ok [(s "a", (9, None, [Some (inr 3)])); (s "b", (9, None, [Some (inr 4)])); (s "c", (34, None, [None]))] /\
  show_table (read_trace ex_ro ex_binary (with_filters (FTexts [s "b"; s "c"]) SOr) (ex_gaps, None)) =
    Ok [(s "a", (9, None, [None; Some (inr 3); None])); (s "b", (9, None, [Some (inr 2); Some (inr 4); None])); (s "c", (9, None, [None; None; Some (inr 5)]))] /\
  show_table (read_trace ex_ro ex_binary (with_filters (FInts [0; 1; 2]) (SList [BAnd; BOr])) (ex_gaps, None)) =
    Ok [(s "a", (9, None, [Some (inr 3); None])); (s "b", (9, None, [Some (inr 4); None])); (s "c", (9, None, [None; Some (inr 5)]))] /\
  show_table (read_trace ex_ro ex_binary (with_filters (FInts [0; 2]) SAnd) (ex_gaps, None)) = Err ValueError.
Proof. repeat (apply conj); vm_compute; reflexivity. Qed.

(** ** C59: header-only sheets *)
(** No read returns when the header and the skipped rows take all rows of the sheet; it raises
    ValueError unless reading the header raised before. *)
Theorem C59_refuted ro sc op outs n : let l := Cell.cells_of outs in
  sheet_ok (ro_o ro) sc l = true -> sizes_ok op -> r_lookup op = None -> r_header op = HInt n ->
  (forall c, In c l -> c_row c < n + r_skip_after op) ->
  exists e, read_trace ro sc op (outs, None) = Err e /\ (e = ValueError \/ e = ReError \/ cf_datetime (sc_conf sc) = true).
Proof.
  intros l S Sz Lk Hd Hr. pose proof (sheet_rows S) as Rows. unfold read_trace. cbn [fst snd].
  destruct (@collect_inv ro sc outs [] [] (cinv_nil ro sc) S) as (d & -> & C). cbn [bind app] in *. fold l in C.
  unfold read_columns. destruct (max_len d) as [m|e] eqn:M; cbn [bind].
  2: { exists e. split; [reflexivity|]. left. unfold max_len in M. destruct (map _ d); inversion M. reflexivity. }
  assert (Ne : l <> []).
  { intro E. rewrite E in C. destruct d as [|q d]; [discriminate M|]. pose proof (proj1 C) as K. discriminate K. }
  destruct (tallest_max_len Rows C Ne) as (m' & M' & T). rewrite M in M'. inversion M'; subst m'. clear M'.
  unfold locate, name_columns. rewrite Lk, Hd. cbn [bind].
  assert (Hn : 0 <= n) by (apply Sz; exact Hd).
  assert (N : (exists d' names, (if n =? 0 then Ok (d, (0, unnamed_names (List.length d))) else ' (d, l) <- make_header ro sc d 0 n ;; Ok (d, (n, l))) = Ok (d', (n, names)) /\ CInv ro sc l d') \/
    (cf_datetime (sc_conf sc) = true /\ exists e, (if n =? 0 then Ok (d, (0, unnamed_names (List.length d))) else ' (d, l) <- make_header ro sc d 0 n ;; Ok (d, (n, l))) = Err e)).
  { destruct (n =? 0) eqn:Z0.
    - left. assert (n = 0) as -> by lia. eauto.
    - destruct (@make_header_ok ro sc l Rows d 0 n ltac:(lia) ltac:(lia) C) as [(d' & names & -> & C' & bs & F & ->)|((k & K & Bk) & e & ->)]; cbn [bind].
      + left. eauto.
      + right. split; [|eauto]. unfold is_blocked, blocked in Bk. now destruct (cf_datetime (sc_conf sc)). }
  destruct N as [(d' & names & -> & C')|(D & e & ->)]; cbn [bind]; [|exists e; tauto].
  assert (Sm : m <= n + r_skip_after op).
  { destruct T as [(k & K & ->) _]. assert (K' : In k (map c_col l)) by now apply order_in. pose proof (content_some Rows K') as Nk. unfold span.
    destruct (content l k) as [|c r] eqn:E; [easy|]. rewrite <- E. destruct (@content_in l k c) as [Hc _]; [rewrite E; now left|]. pose proof (Rows c Hc).
    assert (last_row (content l k) < n + r_skip_after op); [|lia]. apply content_last; [exact Hr|]. specialize (Hr c Hc). lia. }
  destruct (filter_keys ro (r_filters op) names (sorted (keys d'))) as [fs|e] eqn:Fk; cbn [bind].
  2: { exists e. split; [reflexivity|]. clear -Fk. assert (G : forall pats ns ks, named ro pats ns ks = Err e -> e = ReError).
       { intro pats. assert (A : forall n, any_match ro pats n = Err e -> e = ReError).
         { induction pats as [|t r IH]; intro n; cbn; [discriminate|]. destruct (ro_match ro t) as [q|]; [|congruence]. destruct (q n); [discriminate|apply IH]. }
         induction ns as [|n ns IH]; intros [|k ks]; cbn; try discriminate. destruct (any_match ro pats n) eqn:E; cbn [bind]; [|intro H; inversion H; subst; now apply (A n)].
         destruct (named ro pats ns ks) eqn:F; cbn [bind]; [discriminate|]. intro H. inversion H; subst. exact (IH _ F). }
       destruct (r_filters op) as [|[|c t]|[|i is]|[|t ts]|]; cbn [filter_keys] in Fk; try discriminate; try (right; left; exact (G _ _ _ Fk)). left. congruence. }
  set (off := n + 0 + r_skip_after op). set (len := m - 0 - n - r_skip_after op).
  assert (Past : forall k, In k (order l) -> arrow_of ro sc d' k off len None = Err ValueError).
  { intros k K. apply (arrow_of_past Rows C' K); [intros c Hc; specialize (Hr c Hc); lia|lia]. }
  assert (Kd : forall k, In k (sorted (keys d')) <-> In k (order l)) by (intro k; rewrite (proj1 C'); apply sorted_in).
  unfold row_mask. destruct fs as [|f fs].
  - cbn [bind]. destruct (sorted (keys d')) as [|k ks] eqn:Ks.
    + exfalso. destruct l as [|c l0]; [easy|]. apply (Kd (c_col c)). apply order_in. now left.
    + cbn [each]. rewrite (Past k) by (apply Kd; now left). cbn [bind]. eauto.
  - cbn [each]. assert (Hf : In f (order l)).
    { apply Kd. apply (filter_keys_in Fk). now left. }
    rewrite (Past f Hf). cbn [bind]. eauto.
Qed.
Print Assumptions C59_refuted.
Example C59_example :
  show_table (read_trace ex_ro ex_binary opts1 ([words 0 0 (s "a"); words 0 1 (s "b")], None)) = Err ValueError.
Proof. vm_compute. reflexivity. Qed.

(** ** C60: dtypes *)
(** What each form of the argument asks for (the casts themselves: C52_content). *)
Theorem C60_wanted i name : 
  (forall d, type_wanted (DTOne d) i name = Some d) /\ type_wanted DTNone i name = None /\
  (forall ds, type_wanted (DTSeq ds) i name = nth_error ds i) /\
  (forall l, type_wanted (DTDict l) i name = None <-> ~ In name (map fst l)) /\
  (forall l d, NoDup (map fst l) -> type_wanted (DTDict l) i name = Some d <-> In (name, d) l).
Proof.
  split; [reflexivity|]. split; [reflexivity|]. split; [reflexivity|]. split.
  - intro l. cbn [type_wanted]. induction l as [|[n d] l IH]; cbn [find map fst In]; [tauto|]. destruct (str_eqb name n) eqn:E.
    + apply str_eqb_eq in E. subst. split; [discriminate|]. intro H. exfalso. apply H. now left.
    + rewrite IH. split; [|tauto]. intros H [<-|K]; [|tauto]. now rewrite str_eqb_refl in E.
  - intros l d. cbn [type_wanted]. induction l as [|[n e] l IH]; intro N; cbn [find map fst In] in *; [split; [discriminate|easy]|]. inversion N; subst. destruct (str_eqb name n) eqn:E.
    + apply str_eqb_eq in E. subst. split; [intro H; inversion H; now left|]. intros [H|H]; [congruence|]. exfalso. apply H1. change n with (fst (n, d)). now apply in_map.
    + rewrite IH by assumption. split; [now right|]. intros [H|H]; [|exact H]. inversion H; subst. now rewrite str_eqb_refl in E.
Qed.
Print Assumptions C60_wanted.
(** Every column of the table is its array, cast to the type asked for unless it has that type
    already; names and lengths are those without [dtypes]. *)
Theorem C60_columns ro dt names arrays cs : List.length names = List.length arrays -> cast_all ro dt names arrays = Ok cs ->
  List.length cs = List.length arrays /\
  forall i a, nth_error arrays i = Some a ->
    exists c, nth_error cs i = Some c /\ col_len c = zlen (a_vals a) /\ converted (type_wanted dt i (nth i names [])) a c.
Proof.
  intros L H. destruct (cast_all_spec L H) as [Lc F]. split; [exact Lc|]. intros i a Ha. destruct (F i a Ha) as (c & Hc & Cv). exists c. repeat split; try assumption.
  exact (converted_len Cv).
Qed.
Print Assumptions C60_columns.
(** A sequence of the wrong length, a cast that does not exist and a cast that fails on some
    value raise ValueError, and nothing else is raised. *)
Definition castable (ro : roracle) (w : option udt) (a : array) : Prop :=
  match w with
  | None => True
  | Some d => u_id d = arrow_id (a_type a) \/
      ro_castable ro (a_type a) d = true /\ forall v, In (Some v) (a_vals a) -> ro_cast ro d v <> None
  end.
Lemma cast_col_res ro a d : (castable ro (Some d) a /\ exists c, cast_col ro a d = Ok c) \/ (~ castable ro (Some d) a /\ cast_col ro a d = Err ValueError).
Proof.
  unfold cast_col, castable. rewrite arrow_id_eq. destruct (arrow_id (a_type a) =? u_id d) eqn:E; [left; split; [left; lia|eauto]|].
  destruct (ro_castable ro (a_type a) d); [|right; split; [intros [H|[H _]]; [lia|discriminate]|reflexivity]].
  assert (M : (forall v, In (Some v) (a_vals a) -> ro_cast ro d v <> None) /\ (exists l, mapM (cast_cell ro d) (a_vals a) = Ok l) \/
    ~ (forall v, In (Some v) (a_vals a) -> ro_cast ro d v <> None) /\ mapM (cast_cell ro d) (a_vals a) = Err ValueError).
  { induction (a_vals a) as [|v vs IH]; cbn [mapM]; [left; split; [easy|eauto]|]. destruct v as [v|]; cbn [cast_cell bind].
    - destruct (ro_cast ro d v) eqn:Ev; cbn [bind]; [|right; split; [|reflexivity]; intro H; apply (H v); [now left|exact Ev]].
      destruct IH as [[H [l ->]]|[H ->]]; cbn [bind]; [left|right].
      + split; [|eauto]. intros w [K|K]; [inversion K; congruence|now apply H].
      + split; [|reflexivity]. intro K. apply H. intros w W. apply K. now right.
    - destruct IH as [[H [l ->]]|[H ->]]; cbn [bind]; [left|right].
      + split; [|eauto]. intros w [K|K]; [discriminate|now apply H].
      + split; [|reflexivity]. intro K. apply H. intros w W. apply K. now right. }
  destruct M as [[H (l & ->)]|[H ->]]; cbn [bind]; [left|right]; split; try eauto.
  intros [K|[_ K]]; [lia|contradiction].
Qed.
Theorem C60_errors ro dt names arrays : List.length names = List.length arrays ->
  let fine := match dt with DTSeq ds => List.length ds = List.length arrays | _ => True end /\
    forall i a, nth_error arrays i = Some a -> castable ro (type_wanted dt i (nth i names [])) a in
  (fine /\ exists cs, cast_all ro dt names arrays = Ok cs) \/ (~ fine /\ cast_all ro dt names arrays = Err ValueError).
Proof.
  intro L. destruct dt as [|d|l|ds]; cbn [cast_all type_wanted].
  - left. split; [now split|eauto].
  - clear L. enough (G : ((forall i a, nth_error arrays i = Some a -> castable ro (Some d) a) /\ exists cs, mapM (fun a => cast_col ro a d) arrays = Ok cs) \/
      (~ (forall i a, nth_error arrays i = Some a -> castable ro (Some d) a) /\ mapM (fun a => cast_col ro a d) arrays = Err ValueError)) by (cbv zeta; tauto).
    induction arrays as [|a arrays IH]; cbn [mapM]; [left; split; [now intros [|i]|eauto]|].
    destruct (cast_col_res ro a d) as [[Ca (c & ->)]|[Ca ->]]; cbn [bind].
    + destruct IH as [[H (cs & ->)]|[H ->]]; cbn [bind]; [left|right]; split; eauto.
      * intros [|i] b B; [inversion B; subst; exact Ca|exact (H i b B)].
      * intro K. apply H. intros i b B. exact (K (S i) b B).
    + right. split; [|reflexivity]. intro K. apply Ca. exact (K 0%nat a eq_refl).
  - enough (G : ((forall i a, nth_error arrays i = Some a -> castable ro (type_wanted (DTDict l) i (nth i names [])) a) /\ exists cs, cast_dict ro names arrays l = Ok cs) \/
      (~ (forall i a, nth_error arrays i = Some a -> castable ro (type_wanted (DTDict l) i (nth i names [])) a) /\ cast_dict ro names arrays l = Err ValueError)) by (cbv zeta; tauto).
    revert arrays L. induction names as [|n names IH]; intros [|a arrays] L; try discriminate; cbn [cast_dict]; [left; split; [now intros [|i]|eauto]|].
    rewrite dget_find. assert (A : (castable ro (type_wanted (DTDict l) 0 n) a /\ exists c, match (match find (fun p => str_eqb n (fst p)) l with Some (_, d) => Some d | None => None end) with Some d => cast_col ro a d | None => Ok (Plain ro a) end = Ok c) \/
      (~ castable ro (type_wanted (DTDict l) 0 n) a /\ match (match find (fun p => str_eqb n (fst p)) l with Some (_, d) => Some d | None => None end) with Some d => cast_col ro a d | None => Ok (Plain ro a) end = Err ValueError)).
    { cbn [type_wanted]. destruct (find _ l) as [[m d]|]; [apply cast_col_res|]. left. split; [exact I|eauto]. }
    destruct A as [[Ca (c & ->)]|[Ca ->]]; cbn [bind].
    + destruct (IH arrays ltac:(cbn in L; lia)) as [[H (cs & ->)]|[H ->]]; cbn [bind]; [left|right]; split; eauto.
      * intros [|i] b B; [inversion B; subst; exact Ca|exact (H i b B)].
      * intro K. apply H. intros i b B. exact (K (S i) b B).
    + right. split; [|reflexivity]. intro K. apply Ca. exact (K 0%nat a eq_refl).
  - destruct (Nat.eqb _ _) eqn:E; [apply Nat.eqb_eq in E; assert (E' : List.length ds = List.length arrays) by (etransitivity; [exact E|exact L])
      |apply Nat.eqb_neq in E; right; split; [intros [K _]; apply E; etransitivity; [exact K|symmetry; exact L]|reflexivity]].
    clear L E. rename E' into E.
    enough (G : ((forall i a, nth_error arrays i = Some a -> castable ro (nth_error ds i) a) /\ exists cs, cast_seq ro arrays ds = Ok cs) \/
      (~ (forall i a, nth_error arrays i = Some a -> castable ro (nth_error ds i) a) /\ cast_seq ro arrays ds = Err ValueError)) by (cbv zeta; tauto).
    clear names. revert ds E. induction arrays as [|a arrays IH]; intros [|d ds] E; try discriminate; cbn [cast_seq]; [left; split; [now intros [|i]|eauto]|].
    destruct (cast_col_res ro a d) as [[Ca (c & ->)]|[Ca ->]]; cbn [bind].
    + destruct (IH ds ltac:(cbn in E; lia)) as [[H (cs & ->)]|[H ->]]; cbn [bind]; [left|right]; split; eauto.
      * intros [|i] b B; [inversion B; subst; exact Ca|exact (H i b B)].
      * intro K. apply H. intros i b B. exact (K (S i) b B).
    + right. split; [|reflexivity]. intro K. apply Ca. exact (K 0%nat a eq_refl).
Qed.
Print Assumptions C60_errors.
(** Types are compared by id only: a date column asked to be a timestamp with another unit or
    a time zone keeps its own. *)
Theorem C60_parameters_refuted ro names arrays d : u_id d = arrow_id TMs ->
  (forall a, In a arrays -> a_type a = TMs) -> cast_all ro (DTOne d) names arrays = Ok (map (Plain ro) arrays).
Proof.
  intros E. cbn [cast_all]. induction arrays as [|a arrays IH]; intro H; [reflexivity|]. cbn [mapM map].
  assert (C : cast_col ro a d = Ok (Plain ro a)) by (unfold cast_col; now rewrite arrow_id_eq, (H a (or_introl eq_refl)), E, Z.eqb_refl).
  rewrite C. cbn [bind]. rewrite IH by (intros b Hb; apply H; now right). reflexivity.
Qed.
Print Assumptions C60_parameters_refuted.
Definition with_dtypes (d : dtypes_arg) : ropts := mkR (HInt 1) d 0 None 30 FNone SOr.
Example C60_example :
  show_table (read_trace ex_ro ex_binary (with_dtypes (DTDict [(s "age", mkU 12 0)])) (ex_sheet, None)) =
    Ok [(s "name", (34, None, [Some (inl (s "x")); None; Some (inl (s "z"))])); (s "age", (12, Some 0, [Some (inr 7); Some (inr 8); Some (inr 9)]))] /\
  show_table (read_trace ex_ro ex_binary (with_dtypes (DTOne (mkU 34 0))) (ex_sheet, None)) =
    Ok [(s "name", (34, None, [Some (inl (s "x")); None; Some (inl (s "z"))])); (s "age", (34, Some 0, [Some (inr 7); Some (inr 8); Some (inr 9)]))] /\
  show_table (read_trace ex_ro ex_binary (with_dtypes (DTSeq [mkU 34 0])) (ex_sheet, None)) = Err ValueError /\
  show_table (read_trace ex_ro ex_binary (with_dtypes (DTOne (mkU 99 0))) (ex_sheet, None)) = Err ValueError.
Proof. repeat (apply conj); vm_compute; reflexivity. Qed.

(** ** C68: rows skipped after the header *)
(** The comment in the signature says the option is ignored unless [header] is an integer above
    0.  It is not: without a header the first rows of the sheet are missing. *)
Theorem C68_refuted ro sc op outs ks tbl : let l := Cell.cells_of outs in
  sheet_ok (ro_o ro) sc l = true -> listing l ks -> sizes_ok op -> r_lookup op = None -> r_filters op = FNone ->
  (r_header op = HInt 0 \/ exists names, r_header op = HList names) ->
  read_trace ro sc op (outs, None) = Ok tbl ->
  exists tall, tallest l ks tall /\ (r_skip_after op < tall ->
    forall i k, nth_error ks i = Some k -> exists name c a, nth_error tbl i = Some (name, c) /\
      converted (type_wanted (r_dtypes op) i name) a c /\ holds (ro_o ro) sc l k (r_skip_after op) (tall - r_skip_after op) None a).
Proof.
  intros l S Ls Sz Lk Fn Hd R. destruct (C52_content S Ls Sz R) as (tall & first & h & idx & T & L & Ti & C). exists tall. split; [exact T|].
  unfold located in L. rewrite Lk in L. subst first. assert (h = 0) as ->.
  { unfold titled in Ti. destruct Hd as [E|[names E]]; rewrite E in Ti; apply Ti. }
  cbv zeta in C. rewrite !Z.add_0_l in C. intros Hs i k Hi. destruct C as [K C]; [lia|]. rewrite Fn in K. unfold chosen_columns in K.
  assert (E : flat_map (fun i => if chosen ro FNone i (nth i (map fst tbl) []) then [nth i ks 0] else []) (seq 0 (List.length ks)) = []).
  { clear. induction (seq 0 (List.length ks)) as [|i r IH]; [reflexivity|exact IH]. }
  match type of K with kept_rows _ _ _ _ ?f _ _ _ => change f with (flat_map (fun i => if chosen ro FNone i (nth i (map fst tbl) []) then [nth i ks 0] else []) (seq 0 (List.length ks))) in K end.
  rewrite E in K. unfold kept_rows in K. destruct idx; [destruct K|]. destruct (C i k Hi) as (name & c & a & A1 & A2 & A3). exists name, c, a. exact (conj A1 (conj A3 A2)).
Qed.
Print Assumptions C68_refuted.
Example C68_example :
  show_table (read_trace ex_ro ex_binary (mkR (HInt 0) DTNone 2 None 30 FNone SOr) (ex_sheet, None)) =
  Ok [(s "Unnamed. 0", (34, None, [None; Some (inl (s "z"))])); (s "Unnamed. 1", (9, None, [Some (inr 8); Some (inr 9)]))].
Proof. vm_compute. reflexivity. Qed.
