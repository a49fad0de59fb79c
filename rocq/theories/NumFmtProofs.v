From Verif Require Import Py PyFacts NumFmt NumFmtSpec.
From Coq Require Import ZifyBool ZifyNat.
Set Implicit Arguments.
Unset Strict Implicit.

Lemma after_quote_len t r : after_quote t = Some r -> (List.length r < List.length t)%nat.
Proof.
  induction t as [|c t IH]; cbn [after_quote]; intro H; [discriminate|].
  destruct (c =? ch_quote); [injection H as <-; cbn; lia|].
  destruct (c =? ch_nl); [discriminate|]. apply IH in H. cbn. lia.
Qed.
Lemma after_bracket_len t r : after_bracket t = Some r -> (List.length r < List.length t)%nat.
Proof.
  induction t as [|c t IH]; cbn [after_bracket]; intro H; [discriminate|].
  destruct (c =? ch_rbr); [injection H as <-; cbn; lia|]. apply IH in H. cbn. lia.
Qed.
Lemma xt_match_len t r : xt_match t = Some r -> (List.length r < List.length t)%nat.
Proof.
  destruct t as [|c t]; cbn [xt_match]; [discriminate|].
  destruct (c =? ch_quote).
  - intro H. apply after_quote_len in H. cbn. lia.
  - destruct (c =? ch_lbr); [|discriminate]. destruct (dur_ahead t); [discriminate|].
    intro H. apply after_bracket_len in H. cbn. lia.
Qed.

Lemma xt_sub_fuel_enough f g t : (List.length t <= f)%nat -> (List.length t <= g)%nat ->
  xt_sub_fuel f t = xt_sub_fuel g t.
Proof.
  revert g t; induction f as [|f IH]; intros g t Hf Hg.
  - destruct t; [|cbn in Hf; lia]. destruct g; reflexivity.
  - destruct g as [|g].
    + destruct t; [reflexivity|cbn in Hg; lia].
    + cbn [xt_sub_fuel]. destruct t as [|c t]; [reflexivity|].
      destruct (xt_match (c :: t)) as [r|] eqn:E.
      * apply xt_match_len in E. apply IH; lia.
      * f_equal. apply IH; cbn in *; lia.
Qed.

Lemma xt_sub_nil : xt_sub [] = [].
Proof. reflexivity. Qed.
Lemma xt_sub_cons c t : xt_sub (c :: t) =
  match xt_match (c :: t) with Some r => xt_sub r | None => c :: xt_sub t end.
Proof.
  unfold xt_sub. cbn [List.length xt_sub_fuel]. destruct (xt_match (c :: t)) as [r|] eqn:E.
  - apply xt_match_len in E. apply xt_sub_fuel_enough; cbn in *; lia.
  - reflexivity.
Qed.

Lemma xt_sub_plain c t : c <> ch_quote -> c <> ch_lbr -> xt_sub (c :: t) = c :: xt_sub t.
Proof.
  intros H1 H2. rewrite xt_sub_cons. cbn [xt_match].
  replace (c =? ch_quote) with false by lia. replace (c =? ch_lbr) with false by lia. reflexivity.
Qed.

Lemma after_quote_body b t : existsb (fun c => (c =? ch_quote) || (c =? ch_nl)) b = false ->
  after_quote (b ++ ch_quote :: t) = Some t.
Proof.
  induction b as [|c b IH]; intro H; [reflexivity|]. cbn [existsb] in H.
  apply orb_false_elim in H as [Hc H]. apply orb_false_elim in Hc as [H1 H2].
  cbn [app after_quote]. rewrite H1, H2. now apply IH.
Qed.
Lemma after_bracket_body b t : existsb (Z.eqb ch_rbr) b = false ->
  after_bracket (b ++ ch_rbr :: t) = Some t.
Proof.
  induction b as [|c b IH]; intro H; [reflexivity|]. cbn [existsb] in H.
  apply orb_false_elim in H as [Hc H]. cbn [app after_bracket].
  replace (c =? ch_rbr) with false by lia. now apply IH.
Qed.

(** What is left of a token after [re_xt.sub]. *)
Definition kept1 (k : token) : str :=
  match k with TQuote _ => [] | TBracket _ => [] | _ => render1 k end.

Lemma dur_letter_plain c : dur_letter c = true -> c <> ch_quote /\ c <> ch_lbr /\ c <> ch_bsl.
Proof. unfold dur_letter, ch_quote, ch_lbr, ch_bsl. lia. Qed.

Lemma xt_sub_token k t : token_ok k = true -> xt_sub (render1 k ++ t) = kept1 k ++ xt_sub t.
Proof.
  destruct k as [b|b|c two|c|c]; intro H; cbn [token_ok] in H.
  - cbn [render1 kept1 app]. rewrite <- app_assoc. cbn [app]. rewrite xt_sub_cons.
    cbn [xt_match]. rewrite Z.eqb_refl. rewrite after_quote_body; [reflexivity|now apply negb_true_iff].
  - apply andb_prop in H as [H1 H2].
    cbn [render1 kept1 app]. rewrite <- app_assoc. cbn [app]. rewrite xt_sub_cons.
    cbn [xt_match]. replace (ch_lbr =? ch_quote) with false by reflexivity. rewrite Z.eqb_refl.
    rewrite after_bracket_body by now apply negb_true_iff.
    replace (dur_ahead (b ++ ch_rbr :: t)) with false; [reflexivity|]. symmetry.
    apply negb_true_iff in H1.
    destruct b as [|x [|y [|z b]]]; cbn [app dur_ahead].
    + destruct t; reflexivity.
    + cbn [existsb] in H1. rewrite Z.eqb_refl. apply negb_true_iff in H2. rewrite H2. reflexivity.
    + cbn [existsb] in H1. rewrite Z.eqb_refl. unfold dur_letter in *. lia.
    + cbn [existsb] in H1. unfold dur_letter in *. lia.
  - destruct (dur_letter_plain H) as (P1 & P2 & P3).
    destruct two; cbn [render1 kept1 app].
    + rewrite xt_sub_cons. cbn [xt_match]. replace (ch_lbr =? ch_quote) with false by reflexivity.
      rewrite Z.eqb_refl. cbn [dur_ahead]. rewrite H, !Z.eqb_refl, orb_true_r. cbn [andb].
      rewrite !xt_sub_plain by (auto; discriminate). reflexivity.
    + rewrite xt_sub_cons. cbn [xt_match]. replace (ch_lbr =? ch_quote) with false by reflexivity.
      rewrite Z.eqb_refl. cbn [dur_ahead]. rewrite H, !Z.eqb_refl. cbn [andb orb].
      rewrite !xt_sub_plain by (auto; discriminate). reflexivity.
  - cbn [render1 kept1 app]. rewrite !xt_sub_plain; auto; try discriminate; lia.
  - cbn [render1 kept1 app]. rewrite !xt_sub_plain; auto; lia.
Qed.

Lemma xt_sub_render ks t : forallb token_ok ks = true ->
  xt_sub (render ks ++ t) = flat_map kept1 ks ++ xt_sub t.
Proof.
  induction ks as [|k ks IH]; intro H; [reflexivity|]. cbn [forallb] in H.
  apply andb_prop in H as [Hk H]. cbn [render flat_map]. rewrite <- !app_assoc.
  rewrite xt_sub_token by exact Hk. f_equal. now apply IH.
Qed.

Lemma date_letter_mem c : mem_Z c dt_letters = date_letter c.
Proof. reflexivity. Qed.

Lemma dt_search_kept ks : forall prev t, prev <> ch_bsl -> forallb token_ok ks = true ->
  exists prev', prev' <> ch_bsl /\
  dt_search_from prev (flat_map kept1 ks ++ t) = (spec_temporal ks || dt_search_from prev' t).
Proof.
  induction ks as [|k ks IH]; intros prev t Hp H.
  - exists prev. split; [exact Hp|reflexivity].
  - cbn [forallb] in H. apply andb_prop in H as [Hk H].
    unfold spec_temporal in *. cbn [flat_map existsb]. rewrite <- app_assoc.
    destruct k as [b|b|c two|c|c]; cbn [token_ok] in Hk; cbn [kept1 render1 app orb].
    + now apply IH.
    + now apply IH.
    + destruct (dur_letter_plain Hk) as (P1 & P2 & P3).
      assert (D : mem_Z c dt_letters = true)
        by (unfold dur_letter in Hk; rewrite date_letter_mem; unfold date_letter; cbn [existsb]; lia).
      exists prev. split; [exact Hp|].
      destruct two; cbn [app dt_search_from]; rewrite D;
        replace (ch_lbr =? ch_bsl) with false by reflexivity; cbn [negb andb orb];
        rewrite orb_true_r; reflexivity.
    + destruct (IH c t) as (p' & Hp' & E); [unfold ch_bsl in *; lia|exact H|].
      exists p'. split; [exact Hp'|]. cbn [dt_search_from].
      replace (mem_Z ch_bsl dt_letters) with false by reflexivity.
      rewrite Z.eqb_refl, andb_false_r. cbn [andb orb]. exact E.
    + destruct (IH c t) as (p' & Hp' & E); [unfold ch_bsl in *; lia|exact H|].
      exists p'. split; [exact Hp'|]. cbn [dt_search_from].
      rewrite date_letter_mem. replace (prev =? ch_bsl) with false by lia.
      rewrite andb_true_r, E, orb_assoc. reflexivity.
Qed.

Lemma fmt_temporal_tokens ks : forallb token_ok ks = true ->
  fmt_temporal (render ks) = spec_temporal ks.
Proof.
  intro H. unfold fmt_temporal. rewrite <- (app_nil_r (render ks)), xt_sub_render by exact H.
  unfold dt_search. destruct (@dt_search_kept ks (-1) (xt_sub []) ltac:(discriminate) H) as (p & _ & ->).
  cbn. now rewrite orb_false_r.
Qed.

Lemma first_section_app a b : existsb (Z.eqb ch_semi) a = false ->
  first_section (a ++ ch_semi :: b) = a /\ first_section a = a.
Proof.
  induction a as [|c a IH]; intro H; [split; reflexivity|]. cbn [existsb] in H.
  apply orb_false_elim in H as [Hc H]. cbn [app first_section].
  replace (c =? ch_semi) with false by lia. destruct (IH H) as [-> ->]. split; reflexivity.
Qed.

(** With further sections. *)
Lemma fmt_temporal_section ks rest : forallb token_ok ks = true ->
  existsb (Z.eqb ch_semi) (render ks) = false ->
  fmt_temporal (first_section (render ks ++ ch_semi :: rest)) = spec_temporal ks.
Proof.
  intros H Hs. destruct (first_section_app rest Hs) as [-> _]. now apply fmt_temporal_tokens.
Qed.

(** Prefix characters that are neither special nor letters do not matter. *)
Lemma dt_search_prev p q t : p <> ch_bsl -> q <> ch_bsl -> dt_search_from p t = dt_search_from q t.
Proof.
  intros Hp Hq. destruct t as [|c t]; [reflexivity|]. cbn [dt_search_from].
  replace (p =? ch_bsl) with false by lia. replace (q =? ch_bsl) with false by lia. reflexivity.
Qed.

Lemma fmt_temporal_prefix a b t :
  a <> ch_quote -> a <> ch_lbr -> date_letter a = false ->
  b <> ch_quote -> b <> ch_lbr -> b <> ch_bsl -> date_letter b = false ->
  fmt_temporal (a :: b :: t) = fmt_temporal t.
Proof.
  intros. unfold fmt_temporal. rewrite !xt_sub_plain by auto. unfold dt_search.
  cbn [dt_search_from]. rewrite !date_letter_mem, H1, H5. cbn [andb orb].
  apply dt_search_prev; [assumption|discriminate].
Qed.
