(** C28: number format classification. *)
From Verif Require Import Py NumFmt NumFmtSpec NumFmtProofs.

(** C28 for formats whose tokens are delimited as [token_ok] asks: quotes without inner
    quotes or newlines, brackets that are not durations, escapes of characters other
    than the double quote, the opening bracket and the backslash.  The full statement (all tokens) is false, see below. *)
Theorem C28_tokens_partial : forall ks, forallb token_ok ks = true ->
  fmt_temporal (render ks) = spec_temporal ks.
Proof. exact fmt_temporal_tokens. Qed.
Print Assumptions C28_tokens_partial.

(** Only the first section counts. *)
Theorem C28_first_section_partial : forall ks rest, forallb token_ok ks = true ->
  existsb (Z.eqb ch_semi) (render ks) = false ->
  fmt_temporal (first_section (render ks ++ ch_semi :: rest)) = spec_temporal ks.
Proof. exact fmt_temporal_section. Qed.
Print Assumptions C28_first_section_partial.

(** Duration brackets in capitals ([[HH]], legal for Excel) are removed. *)
Theorem C28_upper_duration_refuted :
  fmt_temporal (s "[HH]:00") = false /\ fmt_temporal (s "[hh]:00") = true.
Proof. split; reflexivity. Qed.
Print Assumptions C28_upper_duration_refuted.

(** An escaped backslash, quote or bracket is mistaken for the start of something. *)
Theorem C28_escapes_refuted :
  (let ks := [TEsc 92; TChar 100] in spec_temporal ks = true /\ fmt_temporal (render ks) = false)
  /\ (let ks := [TEsc 34; TChar 100; TEsc 34] in spec_temporal ks = true /\ fmt_temporal (render ks) = false)
  /\ (let ks := [TEsc 91; TChar 100; TChar 93] in spec_temporal ks = true /\ fmt_temporal (render ks) = false).
Proof. repeat split; reflexivity. Qed.
Print Assumptions C28_escapes_refuted.

Example C28_example :
  let a := [TQuote (s "Due"); TChar 32; TBracket (s "Red"); TChar 100; TEsc 46; TChar 109; TDur 104 true] in
  let b := [TQuote (s "day"); TChar 48; TEsc 104; TBracket (s "Red")] in
  forallb token_ok a = true /\ spec_temporal a = true
  /\ forallb token_ok b = true /\ spec_temporal b = false
  /\ render b = s """day""0\h[Red]".
Proof. repeat split; reflexivity. Qed.
