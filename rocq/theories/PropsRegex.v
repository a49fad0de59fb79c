(** Claim C95: the scans of number formats are the regular expressions of the source. *)
From Verif Require Import Py PyFacts NumFmt NumFmtSpec NumFmtProofs Regex PropsNumFmt.
From Coq Require Import ZifyBool.

(** The two patterns, as written in the source. *)
Definition pat_dt : str := s "(?<!\\)[dmhysDMHYS]".
Definition pat_xt : str := s "(?:"".*?"")|(?:\[(?!(?:hh?|mm?|ss?)\])[^\]]*\])".

(** ** Proofs *)
Lemma set_ends neg cs prev t : ends (RSet neg cs) (prev, t) = match t with c :: r => if in_set neg cs c then [(Some c, r)] else [] | [] => [] end.
Proof. reflexivity. Qed.
Lemma seq_eps r p : ends (RSeq r REps) p = ends r p.
Proof. cbn [ends]. induction (ends r p) as [|q l IH]; [reflexivity|]. cbn. now rewrite IH. Qed.
Lemma seq_ends a b p : ends (RSeq a b) p = flat_map (ends b) (ends a p).
Proof. reflexivity. Qed.
Lemma alt_ends a b p : ends (RAlt a b) p = ends a p ++ ends b p.
Proof. reflexivity. Qed.
Lemma not_ends a p : ends (RNot a) p = match ends a p with [] => [p] | _ => [] end.
Proof. reflexivity. Qed.
Lemma behind_ends neg cs prev t : ends (RNotBehind neg cs) (prev, t) = match prev with Some c => if in_set neg cs c then [] else [(prev, t)] | None => [(prev, t)] end.
Proof. reflexivity. Qed.
Lemma in_one c d : in_set false [d] c = (c =? d).
Proof. unfold in_set. cbn. now destruct (c =? d). Qed.
Lemma in_not_one c d : in_set true [d] c = negb (c =? d).
Proof. unfold in_set. cbn. now destruct (c =? d). Qed.
Lemma shorter_tail c prev q t : shorter (q, t) (prev, c :: t) = true.
Proof. unfold shorter. cbn [snd List.length]. lia. Qed.

Definition rest_of (l : list pos) : option str := match l with q :: _ => Some (snd q) | [] => None end.
(** The shortest text up to a quote. *)
Lemma lazy_quote : forall t fuel prev, (List.length t < fuel)%nat ->
  rest_of ((flat_map (ends (RSet false [34])) (star_with (ends (RSet true [10])) false fuel (prev, t)))) = after_quote t.
Proof.
  induction t as [|c t IH]; intros [|fuel] prev H; try (cbn in H; lia).
  - reflexivity.
  - cbn [star_with]. rewrite set_ends, in_not_one. cbn [flat_map]. rewrite set_ends, in_one. cbn [after_quote]. change ch_quote with 34. change ch_nl with 10.
    destruct (c =? 34) eqn:E; [reflexivity|]. cbn [app]. destruct (c =? 10); [reflexivity|].
    cbn [negb filter]. rewrite shorter_tail. cbn [flat_map]. rewrite app_nil_r. apply IH. cbn in H. lia.
Qed.
(** The longest text without a closing bracket, then the bracket. *)
Lemma greedy_bracket : forall t fuel prev, (List.length t < fuel)%nat ->
  flat_map (ends (RSet false [93])) (star_with (ends (RSet true [93])) true fuel (prev, t))
  = match after_bracket t with Some r => [(Some 93, r)] | None => [] end.
Proof.
  induction t as [|c t IH]; intros [|fuel] prev H; try (cbn in H; lia).
  - reflexivity.
  - cbn [star_with]. rewrite set_ends, in_not_one. rewrite flat_map_app. cbn [after_bracket]. change ch_rbr with 93.
    destruct (c =? 93) eqn:E.
    + cbn [negb filter flat_map app]. rewrite set_ends, in_one, E. replace c with 93 by lia. reflexivity.
    + cbn [negb filter]. rewrite shorter_tail. cbn [flat_map]. rewrite set_ends, in_one, E. cbn [app]. rewrite !app_nil_r. apply IH. cbn in H. lia.
Qed.
Definition rx_dur : rx :=
  RSeq (RAlt (RSeq (RSet false [104]) (RSeq (ROpt true (RSet false [104])) REps))
             (RAlt (RSeq (RSet false [109]) (RSeq (ROpt true (RSet false [109])) REps)) (RSeq (RSet false [115]) (RSeq (ROpt true (RSet false [115])) REps))))
       (RSeq (RSet false [93]) REps).
Lemma ends_dur p : (match ends rx_dur p with [] => false | _ => true end) = dur_ahead (snd p).
Proof.
  destruct p as [prev t]. unfold rx_dur. cbn [snd].
  assert (O : forall L prev t, L <> 93 -> (match flat_map (ends (RSeq (RSet false [93]) REps)) (ends (RSeq (RSet false [L]) (RSeq (ROpt true (RSet false [L])) REps)) (prev, t)) with [] => false | _ => true end)
     = match t with a :: b :: r => (a =? L) && ((b =? 93) || ((b =? a) && match r with c :: _ => c =? 93 | [] => false end)) | _ => false end).
  { intros L pv [|a [|b r]] HL.
    - reflexivity.
    - rewrite seq_ends, set_ends, in_one. destruct (a =? L); reflexivity.
    - rewrite seq_ends, set_ends, in_one. destruct (a =? L) eqn:EA; [|reflexivity]. cbn [flat_map]. rewrite app_nil_r, seq_eps.
      cbn [ends]. cbn [snd]. rewrite in_one. destruct (b =? L) eqn:EB.
      + cbn [app flat_map snd]. replace (b =? a) with true by lia. replace (b =? 93) with false by lia. rewrite in_one. replace (b =? 93) with false by lia.
        destruct r as [|c r]; [reflexivity|]. rewrite in_one. cbn [orb andb]. destruct (c =? 93); reflexivity.
      + cbn [app flat_map snd]. rewrite in_one. replace (b =? a) with false by lia. destruct (b =? 93); reflexivity. }
  rewrite seq_ends, !alt_ends, !flat_map_app.
  pose proof (O 104 prev t ltac:(lia)) as H1. pose proof (O 109 prev t ltac:(lia)) as H2. pose proof (O 115 prev t ltac:(lia)) as H3.
  match type of H1 with context [flat_map ?f ?l] => set (l1 := flat_map f l) in * end.
  match type of H2 with context [flat_map ?f ?l] => set (l2 := flat_map f l) in * end.
  match type of H3 with context [flat_map ?f ?l] => set (l3 := flat_map f l) in * end.
  assert (J : (match l1 ++ l2 ++ l3 with [] => false | _ => true end) = ((match l1 with [] => false | _ => true end) || ((match l2 with [] => false | _ => true end) || (match l3 with [] => false | _ => true end)))%bool).
  { destruct l1; [|reflexivity]. cbn [app orb]. destruct l2; reflexivity. }
  rewrite J, H1, H2, H3. unfold dur_ahead, dur_letter, ch_rbr. destruct t as [|a [|b r]]; try reflexivity.
  destruct (a =? 104), (a =? 109), (a =? 115); cbn [orb andb]; rewrite ?orb_false_r, ?orb_diag; reflexivity.
Qed.
Definition rx_dt : rx := RSeq (RNotBehind false [92]) (RSeq (RSet false [100; 109; 104; 121; 115; 68; 77; 72; 89; 83]) REps).
Definition rx_quoted : rx := RSeq (RSet false [34]) (RSeq (RStar false (RSet true [10])) (RSeq (RSet false [34]) REps)).
Definition rx_bracket : rx := RSeq (RSet false [91]) (RSeq (RNot rx_dur) (RSeq (RStar true (RSet true [93])) (RSeq (RSet false [93]) REps))).
Definition rx_xt : rx := RAlt (RSeq rx_quoted REps) (RSeq rx_bracket REps).
Lemma flat_eps (r : rx) l : flat_map (ends (RSeq r REps)) l = flat_map (ends r) l.
Proof. induction l as [|q l IH]; [reflexivity|]. cbn [flat_map]. now rewrite seq_eps, IH. Qed.
Lemma quoted_first prev t : rest_of ((ends rx_quoted (prev, t))) = match t with c :: r => if c =? 34 then after_quote r else None | [] => None end.
Proof.
  unfold rx_quoted. rewrite seq_ends, set_ends. destruct t as [|c r]; [reflexivity|]. rewrite in_one. destruct (c =? 34); [|reflexivity].
  cbn [flat_map]. rewrite app_nil_r, seq_ends, flat_eps. apply lazy_quote. cbn [snd]. lia.
Qed.
Lemma bracket_first prev t : rest_of ((ends rx_bracket (prev, t)))
  = match t with c :: r => if c =? 91 then if dur_ahead r then None else after_bracket r else None | [] => None end.
Proof.
  unfold rx_bracket. rewrite seq_ends, set_ends. destruct t as [|c r]; [reflexivity|]. rewrite in_one. destruct (c =? 91); [|reflexivity].
  cbn [flat_map]. rewrite app_nil_r, seq_ends, not_ends. pose proof (ends_dur (Some c, r)) as D. cbn [snd] in D.
  destruct (ends rx_dur (Some c, r)); rewrite <- D; [|reflexivity]. cbn [flat_map]. rewrite app_nil_r, seq_ends, flat_eps.
  change (ends (RStar true (RSet true [93])) (Some c, r)) with (star_with (ends (RSet true [93])) true (S (List.length r)) (Some c, r)).
  rewrite greedy_bracket by lia. now destruct (after_bracket r).
Qed.
Lemma after_quote_short t : forall r, after_quote t = Some r -> (List.length r < List.length t)%nat.
Proof. induction t as [|c t IH]; intros r H; [discriminate|]. cbn in H. destruct (_ =? _); [injection H as <-; cbn; lia|]. destruct (_ =? _); [discriminate|]. apply IH in H. cbn. lia. Qed.
Lemma after_bracket_short t : forall r, after_bracket t = Some r -> (List.length r < List.length t)%nat.
Proof. induction t as [|c t IH]; intros r H; [discriminate|]. cbn in H. destruct (_ =? _); [injection H as <-; cbn; lia|]. apply IH in H. cbn. lia. Qed.
Lemma xt_match_short t r : xt_match t = Some r -> (List.length r < List.length t)%nat.
Proof.
  destruct t as [|c t]; [discriminate|]. cbn. destruct (_ =? _); [intro H; apply after_quote_short in H; lia|].
  destruct (_ =? _); [|discriminate]. destruct (dur_ahead t); [discriminate|]. intro H. apply after_bracket_short in H. lia.
Qed.
Lemma rest_app l1 l2 : rest_of (l1 ++ l2) = match rest_of l1 with Some r => Some r | None => rest_of l2 end.
Proof. now destruct l1. Qed.
Lemma xt_first prev t : rest_of (ends rx_xt (prev, t)) = xt_match t.
Proof.
  unfold rx_xt. rewrite alt_ends, !seq_eps, rest_app, quoted_first, bracket_first.
  unfold xt_match. change ch_quote with 34. change ch_lbr with 91. destruct t as [|c r]; [reflexivity|].
  destruct (c =? 34) eqn:E; [|reflexivity]. replace (c =? 91) with false by lia. now destruct (after_quote r).
Qed.
Lemma sub_xt : forall fuel prev t, (List.length t <= fuel)%nat -> sub_from fuel rx_xt prev t = xt_sub_fuel fuel t.
Proof.
  induction fuel as [|fuel IH]; intros prev t H; [reflexivity|]. destruct t as [|c r]; [reflexivity|]. cbn [sub_from xt_sub_fuel].
  pose proof (xt_first prev (c :: r)) as X. pose proof (xt_match_short (c :: r)) as L.
  change (prev, c :: r) with ((prev, c :: r) : pos) in *. generalize dependent (ends rx_xt ((prev, c :: r) : pos)). intros [|q l] X; cbn [rest_of] in X; rewrite <- X in *.
  - f_equal. apply IH. cbn in H. lia.
  - specialize (L _ eq_refl). unfold shorter. cbn [snd]. replace (List.length (snd q) <? List.length (c :: r))%nat with true by lia. apply IH. cbn in *. lia.
Qed.
Lemma search_dt : forall t prev, search_from rx_dt prev t = dt_search_from (match prev with Some c => c | None => -1 end) t.
Proof.
  induction t as [|c t IH]; intro prev; cbn [search_from dt_search_from]; unfold rx_dt at 1; rewrite seq_ends.
  - cbn [ends fst]. destruct prev as [p|]; [|reflexivity]. now destruct (in_set false [92] p).
  - rewrite IH. assert (M : in_set false [100; 109; 104; 121; 115; 68; 77; 72; 89; 83] c = mem_Z c dt_letters) by (unfold in_set; now rewrite xorb_false_l).
    rewrite behind_ends. assert (K : flat_map (ends (RSeq (RSet false [100; 109; 104; 121; 115; 68; 77; 72; 89; 83]) REps)) [(prev, c :: t)] = if mem_Z c dt_letters then [(Some c, t)] else []).
    { cbn [flat_map]. rewrite app_nil_r, seq_eps, set_ends, M. reflexivity. }
    change ch_bsl with 92. destruct prev as [p|].
    + rewrite in_one. destruct (p =? 92); [cbn [flat_map]; now rewrite andb_false_r|]. change (flat_map _ [(Some p, c :: t)]) with (flat_map (ends (RSeq (RSet false [100; 109; 104; 121; 115; 68; 77; 72; 89; 83]) REps)) [(Some p, c :: t)]).
      rewrite K. now destruct (mem_Z c dt_letters).
    + change (flat_map _ [(None, c :: t)]) with (flat_map (ends (RSeq (RSet false [100; 109; 104; 121; 115; 68; 77; 72; 89; 83]) REps)) [(None, c :: t)]).
      rewrite K. change (-1 =? 92) with false. now destruct (mem_Z c dt_letters).
Qed.

(** ** C95 *)
(** The patterns of the source are read, and the scans of the model are what they mean, for
    every text. *)
Theorem C95_sub : exists r, compile pat_xt = Some r /\ forall t, sub r t = xt_sub t.
Proof. exists rx_xt. split; [reflexivity|]. intro t. now apply sub_xt. Qed.
Print Assumptions C95_sub.
Theorem C95_search : exists r, compile pat_dt = Some r /\ forall t, search r t = dt_search t.
Proof. exists rx_dt. split; [reflexivity|]. intro t. apply search_dt. Qed.
Print Assumptions C95_search.
(** So a number format is taken for a date exactly when the expressions say so. *)
Theorem C95_temporal : exists dt xt, compile pat_dt = Some dt /\ compile pat_xt = Some xt /\
  forall fmt, fmt_temporal fmt = search dt (sub xt fmt).
Proof.
  exists rx_dt, rx_xt. repeat (apply conj); try reflexivity. intro fmt. unfold fmt_temporal, dt_search, xt_sub, search, sub. now rewrite search_dt, sub_xt.
Qed.
Print Assumptions C95_temporal.
Example C95_example :
  match compile pat_xt with Some r => sub r (s "[Red]""due ""d[hh]""x") = s "d[hh]""x" /\ sub r (s "[HH]:00") = s ":00" | None => False end.
Proof. vm_compute. split; reflexivity. Qed.

(** ** C28 *)
(** Tokens with escaped backslashes.  Quoted and bracketed text is removed first, so a letter
    counts as escaped when the last character left before it belongs to an escaped backslash. *)
Definition token_ok2 (k : token) : bool :=
  match k with TEsc c => negb ((c =? ch_quote) || (c =? ch_lbr)) | _ => token_ok k end.
Fixpoint spec_read (escaped : bool) (ks : list token) : bool :=
  match ks with
  | [] => false
  | TDur _ _ :: _ => true
  | TChar c :: ks => (date_letter c && negb escaped) || spec_read false ks
  | TEsc c :: ks => spec_read (c =? 92) ks
  | TQuote _ :: ks | TBracket _ :: ks => spec_read escaped ks
  end.
Lemma xt_sub_tokens ks : forallb token_ok2 ks = true -> xt_sub (render ks) = flat_map kept1 ks.
Proof.
  induction ks as [|k ks IH]; intro H; [reflexivity|]. cbn [forallb] in H. apply andb_prop in H as [Hk H]. cbn [render flat_map].
  fold (render ks). rewrite <- IH by exact H. destruct k as [b|b|c two|c|c]; try (apply xt_sub_token; exact Hk).
  cbn [token_ok2] in Hk. unfold ch_quote, ch_lbr in Hk. cbn [render1 kept1 app]. rewrite !xt_sub_plain; try reflexivity; unfold ch_quote, ch_lbr, ch_bsl; lia.
Qed.
Lemma dt_search_read ks : forall prev, forallb token_ok2 ks = true ->
  dt_search_from prev (flat_map kept1 ks) = spec_read (prev =? 92) ks.
Proof.
  induction ks as [|k ks IH]; intros prev H; [reflexivity|]. cbn [forallb] in H. apply andb_prop in H as [Hk H].
  destruct k as [b|b|c two|c|c]; cbn [flat_map kept1 render1 app spec_read].
  - now apply IH.
  - now apply IH.
  - cbn [token_ok2 token_ok] in Hk. assert (D : mem_Z c dt_letters = true) by (unfold dur_letter in Hk; rewrite date_letter_mem; unfold date_letter; cbn [existsb]; lia).
    destruct two; cbn [app dt_search_from]; rewrite D; replace (ch_lbr =? ch_bsl) with false by reflexivity; cbn [negb andb orb]; now rewrite orb_true_r.
  - cbn [dt_search_from]. replace (mem_Z ch_bsl dt_letters) with false by reflexivity. rewrite Z.eqb_refl, andb_false_r. cbn [andb orb]. now apply IH.
  - cbn [dt_search_from]. rewrite date_letter_mem, IH by exact H. unfold ch_bsl.
    cbn [token_ok2 token_ok] in Hk. unfold ch_quote, ch_lbr, ch_bsl in Hk. now replace (c =? 92) with false by lia.
Qed.
Theorem C28_backslash_exact ks : forallb token_ok2 ks = true -> fmt_temporal (render ks) = spec_read false ks.
Proof. intro H. unfold fmt_temporal, dt_search. rewrite xt_sub_tokens, dt_search_read by exact H. reflexivity. Qed.
Print Assumptions C28_backslash_exact.
(** A duration in capitals never makes a format temporal: it is read like a colour. *)
Definition upper_duration (c : Z) : Prop := c = 72 \/ c = 77 \/ c = 83.
Theorem C28_upper_duration_general_refuted ks1 c two ks2 : forallb token_ok (ks1 ++ ks2) = true -> upper_duration c ->
  fmt_temporal (render ks1 ++ render1 (TDur c two) ++ render ks2) = spec_temporal (ks1 ++ ks2).
Proof.
  intros H U. set (b := if two then [c; c] else [c]). rewrite forallb_app in H. apply andb_prop in H as [H1 H2].
  assert (K : forallb token_ok (ks1 ++ TBracket b :: ks2) = true).
  { rewrite forallb_app. cbn [forallb]. rewrite H1, H2. unfold b. destruct U as [-> | [-> | ->]], two; reflexivity. }
  apply fmt_temporal_tokens in K. unfold spec_temporal in *. rewrite existsb_app in *. cbn [existsb orb] in K. rewrite <- K.
  unfold render. rewrite flat_map_app. cbn [flat_map]. f_equal. f_equal. f_equal. unfold b. now destruct two.
Qed.
Print Assumptions C28_upper_duration_general_refuted.
(** Escaped quotes: what stands between them is taken for quoted text, and the character after
    the second one for an escaped one. *)
Theorem C28_escaped_quotes_refuted b ks : existsb (fun c => (c =? ch_quote) || (c =? ch_nl)) b = false -> forallb token_ok2 ks = true ->
  fmt_temporal (render1 (TEsc ch_quote) ++ b ++ render1 (TEsc ch_quote) ++ render ks) = spec_read true ks.
Proof.
  intros B H. unfold fmt_temporal, dt_search. cbn [render1 app]. rewrite xt_sub_plain by discriminate. rewrite xt_sub_cons. cbn [xt_match]. rewrite Z.eqb_refl.
  replace (b ++ ch_bsl :: ch_quote :: render ks) with ((b ++ [ch_bsl]) ++ ch_quote :: render ks) by now rewrite <- app_assoc.
  rewrite after_quote_body by (rewrite existsb_app, B; reflexivity). cbn [dt_search_from]. replace (mem_Z ch_bsl dt_letters) with false by reflexivity. cbn [andb orb].
  rewrite xt_sub_tokens, dt_search_read by exact H. reflexivity.
Qed.
Print Assumptions C28_escaped_quotes_refuted.
Example C28_general_example :
  let ks := [TEsc 92; TQuote (s "of"); TChar 100; TChar 47; TChar 109] in
  forallb token_ok2 ks = true /\ spec_read false ks = true /\ spec_read false [TEsc 92; TQuote (s "of"); TChar 100] = false /\
  spec_temporal [TEsc 92; TQuote (s "of"); TChar 100] = true /\
  fmt_temporal (s "0.00[HH]") = false /\ fmt_temporal (s "\""yy\""0") = false.
Proof. repeat (apply conj); vm_compute; reflexivity. Qed.
