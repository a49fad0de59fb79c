(** Claim C94: conversions that are allowed to fail. *)
From Verif Require Import Py PyFacts PyText Cell Casts CastsSpec CastsProofs2 PropsCasts Chunk ChunkSpec ChunkProofs ChunkRun PropsChunk Lax.
From Coq Require Import ZifyBool.
Set Implicit Arguments. Unset Strict Implicit.

(** ** C94 *)
Lemma lax_loop parse (parse_pos : forall f t v, parse f t = Some v -> 0 < v) fmts : forall done arr,
  mf_lax_loop parse 0 fmts arr (map (fun t => val0 (fp parse done t)) arr) = map (fun t => val0 (fp parse (done ++ fmts) t)) arr.
Proof.
  induction fmts as [|f r IH]; intros done arr; cbn [mf_lax_loop]; [now rewrite app_nil_r|]. cbv zeta. rewrite step_map by exact parse_pos.
  replace (done ++ f :: r) with ((done ++ [f]) ++ r) by now rewrite <- app_assoc.
  destruct (forallb (fun v => 0 <? v) (map (fun t => val0 (fp parse (done ++ [f]) t)) arr)) eqn:E; [|apply IH].
  apply map_ext_in. intros t Ht. rewrite forallb_forall in E. specialize (E _ (in_map (fun t => val0 (fp parse (done ++ [f]) t)) arr t Ht)).
  unfold fp in *. destruct t as [t|]; [|discriminate]. rewrite (@first_parse_app parse (done ++ [f]) r). now destruct (first_parse parse (done ++ [f]) t).
Qed.
Lemma lax_usable parse fmts : forall arr res, mf_lax_loop parse 0 fmts arr res = mf_lax_loop (usable parse) 0 fmts arr res.
Proof.
  induction fmts as [|f r IH]; intros arr res; [reflexivity|]. cbn [mf_lax_loop].
  assert (E : forall res, map (fun p => if snd p =? 0 then strptime1 parse 0 f (fst p) else snd p) (combine arr res)
                        = map (fun p => if snd p =? 0 then strptime1 (usable parse) 0 f (fst p) else snd p) (combine arr res)).
  { intro q. apply map_ext. intros [a v]. cbn [fst snd]. now rewrite strptime_usable. }
  now rewrite E, IH.
Qed.
(** [mf_strptime(strict=False)]: the usable value of the first format that has one, else 0. *)
Theorem C94_strptime parse polars formats arr :
  let fmts := match formats with Some (f :: r) => f :: r | _ => default_formats polars end in
  mf_lax parse 0 polars formats arr = map (fun t => match first_usable parse fmts t with Some v => v | None => 0 end) arr.
Proof.
  cbv zeta. unfold mf_lax.
  assert (E : forall fmts, mf_lax_loop parse 0 fmts arr (map (fun _ => 0) arr) = map (fun t => match first_usable parse fmts t with Some v => v | None => 0 end) arr).
  { intro fmts. rewrite lax_usable. pose proof (@lax_loop (usable parse) (@usable_pos parse) fmts [] arr) as L. cbn [app] in L.
    replace (map (fun t => val0 (fp (usable parse) [] t)) arr) with (map (fun _ : option str => 0) arr) in L by (apply map_ext; intros [t|]; reflexivity).
    rewrite L. apply map_ext. intros [t|]; [|reflexivity]. unfold first_usable, fp, val0. now rewrite first_match_fp. }
  destruct formats as [[|f r]|]; apply E.
Qed.
Print Assumptions C94_strptime.
(** The strict conversion raises exactly where this one leaves a 0, and agrees otherwise. *)
Theorem C94_strict parse polars formats arr :
  mf_strptime parse 0 polars formats arr = if existsb (Z.eqb 0) (mf_lax parse 0 polars formats arr) then Err ArrowInvalid else Ok (mf_lax parse 0 polars formats arr).
Proof.
  rewrite C94_strptime, C49_exact. cbv zeta. generalize (match formats with Some (f :: r) => f :: r | _ => default_formats polars end). intro fmts.
  assert (G : match all_some (map (first_usable parse fmts) arr) with
    | Some vs => existsb (Z.eqb 0) (map (fun t => match first_usable parse fmts t with Some v => v | None => 0 end) arr) = false
                 /\ map (fun t => match first_usable parse fmts t with Some v => v | None => 0 end) arr = vs
    | None => existsb (Z.eqb 0) (map (fun t => match first_usable parse fmts t with Some v => v | None => 0 end) arr) = true end).
  { induction arr as [|t arr IH]; [split; reflexivity|]. cbn [map all_some existsb]. destruct (first_usable parse fmts t) as [v|] eqn:F; [|reflexivity].
    assert (P : 0 < v).
    { destruct t as [t|]; [|discriminate]. unfold first_usable in F. rewrite first_match_fp in F. exact (@first_parse_pos (usable parse) (@usable_pos parse) fmts t v F). }
    replace (0 =? v) with false by lia. cbn [orb]. destruct (all_some (map (first_usable parse fmts) arr)) as [vs|]; [|exact IH].
    destruct IH as [I1 I2]. split; [exact I1|now rewrite I2]. }
  destruct (all_some (map (first_usable parse fmts) arr)) as [vs|]; [destruct G as [-> ->]|rewrite G]; reflexivity.
Qed.
Print Assumptions C94_strict.

(** [arrow(dest_dtype=d, strict=False)]: the values in the type asked for, if each can be had in
    it; otherwise the values in the type of the chunk. *)
Definition own_type (c : chunk) (d : dtype) : dtype :=
  match kind_of c with KNull => d | KStr => TUtf8 | KTemp => TMs | KNum => TF8 end.
Lemma prepared_array o c : shape c = true -> k_type c <> 0 -> exists c' a, prepare o c = Ok c' /\ raw_array c' = Ok a /\
  (forall d, a_type a = own_type c d) /\ (forall d, mapM (render o (own_type c d)) (den o c) = Ok (a_vals a)) /\ raw c' = false /\ same o c c'.
Proof.
  intros S T. destruct (@prepare_ok o c S T) as (c' & P1 & P2 & P3 & P4).
  destruct (@chunk_arrow_ok o c (own_type c TUtf8) S) as (c2 & A1 & _). unfold chunk_arrow in A1. replace (k_type c =? 0) with false in A1 by lia. rewrite P1 in A1.
  assert (K : kind_of c <> KNull) by (intro K; apply (kind_null S) in K; lia).
  assert (O : forall d, own_type c d = own_type c TUtf8) by (intro d; unfold own_type; now destruct (kind_of c)).
  assert (R : exists a, raw_array c' = Ok a /\ a_type a = own_type c TUtf8).
  { destruct P2 as (Q1 & Q2 & Q3 & _). unfold own_type. rewrite <- Q3. clear -Q1 P3 P4. unfold shape in Q1. unfold raw_array, kind_of.
    destruct c' as [d ty z sr]. unfold raw in P4. cbn [k_data k_type k_sref] in *. destruct d as [n|l|l|l|l|l].
    - assert (ty = 0) as -> by lia. discriminate.
    - assert (ty = 0x18) as -> by lia. eexists. split; reflexivity.
    - discriminate.
    - assert (E : ty = 0x21 \/ ty = 0x25) by lia. destruct E as [-> | ->]; discriminate.
    - assert (E : ty = 0x28 \/ ty = 0x29 \/ ty = 0x24) by lia. destruct E as [-> | [-> | ->]]; try discriminate; eexists; split; reflexivity.
    - assert (E : ty = 0x2C \/ ty = 0x2D) by lia. destruct E as [-> | ->]; eexists; split; reflexivity. }
  destruct R as (a & R1 & R2). exists c', a. split; [exact P1|]. split; [exact R1|]. split; [intro d; now rewrite O|]. split; [|now split].
  intro d. rewrite O. rewrite R1 in A1. cbn [bind] in A1. rewrite <- R2 in *. destruct (dtype_eqb (a_type a) (a_type a)) eqn:E; [|now destruct (a_type a)].
  destruct (mapM (render o (a_type a)) (den o c)) as [v|e]; cbn [bind] in A1; inversion A1; subst.
  reflexivity.
Qed.
Theorem C94_arrow o c d : shape c = true -> exists c',
  chunk_arrow_lax o c (Some d) = (match mapM (render o d) (den o c) with
    | Ok vs => Ok (mkA d vs)
    | Err ArrowInvalid => vs <- mapM (render o (own_type c d)) (den o c) ;; Ok (mkA (own_type c d) vs)
    | Err e => Err e end, c') /\ same o c c' /\
  exists vs, mapM (render o (own_type c d)) (den o c) = Ok vs.
Proof.
  intro S. unfold chunk_arrow_lax. destruct (@chunk_arrow_ok o c d S) as (c2 & A1 & A2 & A3 & A4). destruct (k_type c =? 0) eqn:T.
  - exists c2. split; [|split; [exact A2|]].
    + rewrite A1. f_equal. assert (E : exists vs, mapM (render o d) (den o c) = Ok vs); [|destruct E as [vs ->]; reflexivity].
      unfold shape in S. assert (Z : k_type c = 0) by lia. rewrite Z in S. unfold den. destruct (k_data c); cbn in S; try discriminate; try lia.
      induction (Z.to_nat n) as [|k IH]; [eexists; reflexivity|]. destruct IH as [vs IH]. cbn. rewrite IH. eexists. reflexivity.
    + unfold own_type. assert (K : kind_of c = KNull) by (apply (kind_null S); lia). rewrite K.
      unfold shape in S. assert (Z : k_type c = 0) by lia. rewrite Z in S. unfold den. destruct (k_data c); cbn in S; try discriminate; try lia.
      induction (Z.to_nat n) as [|k IH]; [eexists; reflexivity|]. destruct IH as [vs IH]. cbn. rewrite IH. eexists. reflexivity.
  - destruct (@prepared_array o c S) as (c' & a & P1 & P2 & P3 & P4 & P5 & P6); [lia|]. rewrite P1. exists c'.
    unfold chunk_arrow in A1. rewrite T, P1, P2 in A1. cbn [bind] in A1. inversion A1 as [[E1 E2]]. clear A1.
    subst c2. split; [|split; [exact P6|exists (a_vals a); apply P4]]. f_equal. rewrite P2. cbn [bind]. rewrite P4. cbn [bind].
    assert (V : a = mkA (own_type c d) (a_vals a)) by (rewrite <- (P3 d); now destruct a). rewrite <- V.
    destruct (dtype_eqb d (a_type a)).
    + destruct (mapM (render o d) (den o c)) as [v|e]; cbn [bind] in E1; congruence.
    + rewrite E1. destruct (mapM (render o d) (den o c)) as [v|e]; cbn [bind]; [reflexivity|]. now destruct e.
Qed.
Print Assumptions C94_arrow.

(** [utf8]: every value as text; nothing is lost and nothing fails. *)
Lemma text_render o c : exists vs, mapM (render o TUtf8) (den o c) = Ok vs.
Proof.
  assert (G : forall l, exists vs, mapM (render o TUtf8) l = Ok vs); [|apply G].
  intro l. induction l as [|x l IH]; [eexists; reflexivity|]. destruct IH as [vs IH].
  assert (E : exists v, render o TUtf8 x = Ok v) by (destruct x; eexists; reflexivity). destruct E as [v E]. cbn [mapM]. rewrite E, IH. eexists. reflexivity.
Qed.
Theorem C94_utf8 o c : shape c = true -> exists c' vs,
  chunk_utf8 o c = (Ok (mkA TUtf8 vs), c') /\ mapM (render o TUtf8) (den o c) = Ok vs /\ same o c c'.
Proof.
  intro S. destruct (text_render o c) as [vs V]. unfold chunk_utf8, chunk_arrow. destruct (k_type c =? 0) eqn:T.
  - pose proof (same_refl o S) as R. unfold shape in S. assert (Z : k_type c = 0) by lia. rewrite Z in S. unfold den in V. exists c, vs.
    destruct (k_data c) as [n| | | | |] eqn:D; cbn in S; try discriminate; try lia.
    replace (n <? 0) with false by lia. cbn [bind a_type a_vals]. unfold den. rewrite D. split; [|now split]. f_equal.
    unfold unsafe_cast. cbn [a_vals a_type]. 
    assert (W : forall k, mapM (cast_opt o TNull TUtf8) (repeat None k) = mapM (render o TUtf8) (repeat CNull k)) by (induction k as [|k IH]; [reflexivity|cbn; now rewrite IH]).
    rewrite W, V. reflexivity.
  - destruct (@chunk_arrow_ok o c TUtf8 S) as (c2 & A1 & A2 & _). destruct (@prepared_array o c S) as (c' & a & P1 & P2 & P3 & P4 & P5 & P6); [lia|].
    unfold chunk_arrow in A1. rewrite T in A1. rewrite P1 in *. rewrite P2 in A1. cbn [bind] in A1. inversion A1 as [[E1 E2]]. clear A1. rewrite V in E1. cbn [bind] in E1.
    subst c2. exists c', vs. split; [|split; [exact V|exact A2]]. f_equal. rewrite P2. cbn [bind].
    change (match a_type a with TUtf8 => true | _ => false end) with (dtype_eqb TUtf8 (a_type a)) in E1. destruct (dtype_eqb TUtf8 (a_type a)) eqn:D; [|exact E1]. injection E1 as ->. unfold unsafe_cast. cbn [a_vals a_type].
    assert (W : mapM (cast_opt o TUtf8 TUtf8) vs = Ok vs); [|now rewrite W].
    clear -V. revert vs V. generalize (den o c). intro l. induction l as [|x l IH]; intros vs V; [injection V as <-; reflexivity|].
    cbn [mapM] in V. destruct (mapM (render o TUtf8) l) as [w|e] eqn:M; [|destruct x; discriminate].
    destruct x; cbn in V; injection V as <-; cbn; rewrite (IH _ eq_refl); try reflexivity.
Qed.
Print Assumptions C94_utf8.

(** The predicates say what they are named after. *)
Theorem C94_predicates o c : shape c = true ->
  (is_empty c = true <-> den o c = []) /\ (is_null c = true <-> kind_of c = KNull) /\
  (is_numeric c = true <-> kind_of c = KNum \/ kind_of c = KTemp) /\ (is_temporal c = true <-> kind_of c = KTemp).
Proof.
  intro S. unfold is_empty, is_null, is_numeric, is_temporal, kind_of, den. unfold shape in S. destruct c as [d t z sr]. cbn [k_data k_type k_sref] in *.
  assert (N : forall A (f : A -> cellv) l, (zlen l =? 0) = true <-> map f l = []).
  { intros A f [|x l]; [split; reflexivity|]. unfold zlen. cbn [List.length map]. split; [lia|discriminate]. }
  destruct d as [n|l|l|l|l|l]; cbn [data_len].
  - assert (t = 0) as -> by lia. change (0 =? 0) with true. cbv iota. change (flag 0 TYPE_NUMERIC) with false. cbn [andb].
    split; [|intuition discriminate]. split; intro H; [now replace n with 0 by lia|]. destruct (Z.to_nat n) eqn:E; [lia|discriminate].
  - assert (t = 0x18) as -> by lia. cbn. rewrite (N _ ctext l). intuition discriminate.
  - assert (t = 0x11) as -> by lia. cbn. rewrite (N _ (shared_at sr) l). intuition discriminate.
  - assert (E : t = 0x21 \/ t = 0x25) by lia. destruct E as [-> | ->]; cbn; rewrite <- (N _ _ l); intuition discriminate.
  - assert (E : t = 0x28 \/ t = 0x29 \/ t = 0x24) by lia. destruct E as [-> | [-> | ->]]; cbn; rewrite <- (N _ _ l); intuition discriminate.
  - assert (E : t = 0x2C \/ t = 0x2D) by lia. destruct E as [-> | ->]; cbn; rewrite <- (N _ _ l); intuition discriminate.
Qed.
Print Assumptions C94_predicates.

(** Two formats; the second text meets only the second format, the third none. *)
Definition ex_parse (f t : str) : option Z := if str_eqb f (firstn 1 t) then Some (10 * zlen t) else None.
Example C94_example :
  let fs := Some [s "d"; s "t"] in
  mf_lax ex_parse 0 true fs [Some (s "d1"); Some (s "t22"); Some (s "x"); None] = [20; 30; 0; 0] /\
  mf_strptime ex_parse 0 true fs [Some (s "d1"); Some (s "t22"); Some (s "x"); None] = Err ArrowInvalid /\
  mf_lax ex_parse 0 true fs [Some (s "d1"); Some (s "t22")] = [20; 30] /\
  mf_strptime ex_parse 0 true fs [Some (s "d1"); Some (s "t22")] = Ok [20; 30].
Proof. repeat (apply conj); vm_compute; reflexivity. Qed.
Example C94_arrow_example :
  let c := mkC (DIdx [1; 0]) 0x11 2 [Some (s "x"); None] in let t := mkC (DStr [Some (s "7"); None]) 0x18 2 [] in
  shape c = true /\ shape t = true /\
  fst (chunk_arrow ex_o c (Some TF8)) = Err ArrowInvalid /\
  fst (chunk_arrow_lax ex_o c (Some TF8)) = Ok (mkA TUtf8 [None; Some (AS (s "x"))]) /\
  match fst (chunk_arrow_lax ex_o t (Some TF8)) with Ok a => a_type a = TF8 /\ map (fun v => match v with Some _ => true | None => false end) (a_vals a) = [true; false] | Err _ => False end /\
  fst (chunk_utf8 ex_o c) = Ok (mkA TUtf8 [None; Some (AS (s "x"))]).
Proof. cbv zeta. repeat (apply conj); vm_compute; try reflexivity. Qed.
