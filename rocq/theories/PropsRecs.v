(** Properties C08-C10: wide strings and sheet directory records (rxls/biff_recs.py). *)
From Verif Require Import Py PyFacts Utf16 Utf16Spec Biff BiffRecs Utf16Proofs Utf16Text.
Set Implicit Arguments.
Unset Strict Implicit.

(** C08 *)
Theorem C08_wide_string_load : forall t rest, wide_ok t = true ->
  xstr_load (wide_string t ++ rest) = Ok (Some t, rest).
Proof. exact xstr_load_wide. Qed.
Print Assumptions C08_wide_string_load.

Theorem C08_null_string_load : forall rest,
  xstr_load (0xFF :: 0xFF :: 0xFF :: 0xFF :: rest) = Ok (None, rest).
Proof. exact xstr_load_null. Qed.
Print Assumptions C08_null_string_load.

Theorem C08_from_binary_agrees : forall b, bytes_ok b = true ->
  xstr_from_binary b = (' (x, _) <- xstr_load b ;; Ok x).
Proof. exact from_binary_load. Qed.
Print Assumptions C08_from_binary_agrees.

(** Why the leading-mark exclusion is needed: such a string loses its first character. *)
Theorem C08_leading_mark_lost : forall t rest, str_ok t = true -> n_units t + 1 < 0xFFFFFFFF ->
  xstr_load (wide_string (0xFEFF :: t) ++ rest) = Ok (Some t, rest).
Proof. exact xstr_load_feff. Qed.
Print Assumptions C08_leading_mark_lost.

(** Exactly which bytes are read as which string, with RFC 2781 as a relation (Utf16Text.v),
    and the two ways to fail. *)
Theorem C08_exact : forall b x rest, bytes_ok b = true -> (xstr_load b = Ok (x, rest) <-> wide_at b x rest).
Proof. exact load_exact. Qed.
Print Assumptions C08_exact.
Theorem C08_error : forall b e, xstr_load b = Err e -> e = StructError /\ zlen b < 4 \/ e = UnicodeError /\ 4 <= zlen b.
Proof. exact load_error. Qed.
Print Assumptions C08_error.
Theorem C08_codec : forall b t, bytes_ok b = true -> (decode16 b = Ok t <-> text_bytes b t).
Proof. exact decode16_text. Qed.
Print Assumptions C08_codec.
(** A character outside the basic plane; cut off data; lone and reversed surrogates. *)
Example C08_exact_example :
  wide_at [3; 0; 0; 0; 65; 0; 61; 216; 0; 222; 7] (Some [65; 0x1F600]) [7] /\
  wide_at [9; 0; 0; 0; 65; 0] (Some [65]) [] /\
  xstr_load [1; 0; 0; 0; 0; 220] = Err UnicodeError /\ xstr_load [2; 0; 0; 0; 0; 220; 0; 220] = Err UnicodeError /\
  xstr_load [2; 0; 0; 0; 0; 220; 0; 216] = Err UnicodeError /\ xstr_load [2; 0; 0; 0; 255; 219; 255; 223] = Ok (Some [0x10FFFF], []) /\
  xstr_load [2; 0; 0] = Err StructError.
Proof.
  assert (A : wide_at [3; 0; 0; 0; 65; 0; 61; 216; 0; 222; 7] (Some [65; 0x1F600]) [7]) by (apply C08_exact; reflexivity).
  assert (B : wide_at [9; 0; 0; 0; 65; 0] (Some [65]) []) by (apply C08_exact; reflexivity).
  split; [exact A|]. split; [exact B|]. repeat split; reflexivity.
Qed.

(** C09 is false for every non-empty string: [dump] writes a byte-order mark that
    its length field does not count. *)
Theorem C09_dump_load_refuted : forall t rest, t <> [] -> str_ok t = true -> zlen t < 2 ^ 32 ->
  exists b, xstr_dump (Some t) = Ok b /\ forall rest', xstr_load (b ++ rest) <> Ok (Some t, rest').
Proof. exact load_dump_never. Qed.
Print Assumptions C09_dump_load_refuted.

(** Exactly: for strings of the basic plane the last character is cut off (and its
    two bytes stay in the stream). *)
Theorem C09_last_char_lost : forall t c rest,
  str_ok (t ++ [c]) = true -> bmp (t ++ [c]) = true -> zlen (t ++ [c]) < 0xFFFFFFFF ->
  exists b, xstr_dump (Some (t ++ [c])) = Ok b
    /\ xstr_load (b ++ rest) = Ok (Some t, le2 c ++ rest).
Proof. exact load_dump_bmp. Qed.
Print Assumptions C09_last_char_lost.

(** The null and the empty string do round-trip. *)
Theorem C09_null_partial : forall rest,
  xstr_dump None = Ok [255; 255; 255; 255] /\ xstr_load ([255; 255; 255; 255] ++ rest) = Ok (None, rest).
Proof. exact load_dump_null. Qed.
Print Assumptions C09_null_partial.
Theorem C09_empty_partial : forall rest,
  xstr_dump (Some []) = Ok [0; 0; 0; 0] /\ xstr_load ([0; 0; 0; 0] ++ rest) = Ok (Some [], rest).
Proof. exact load_dump_empty. Qed.
Print Assumptions C09_empty_partial.

(** Exactly what is written: the number of characters (not of units), a mark, the units of the
    text; and when nothing is: a surrogate among the characters, or too many of them. *)
Theorem C09_written : forall t b, t <> [] -> (forall c, In c t -> 0 <= c <= 0x10FFFF) ->
  (xstr_dump (Some t) = Ok b <->
   exists us n, units_text us t /\ n = zlen t /\ n < 2 ^ 32 /\
     b = [n mod 256; n / 256 mod 256; n / 65536 mod 256; n / 16777216 mod 256; 0xFF; 0xFE] ++ low_first us).
Proof.
  intros t b N R. rewrite (dump_exact t b N R). split.
  - intros (us & U & L & ->). now exists us, (zlen t).
  - intros (us & n & U & -> & L & ->). now exists us.
Qed.
Print Assumptions C09_written.
Theorem C09_not_written : forall x e, xstr_dump x = Err e <->
  exists t, x = Some t /\
    (e = StructError /\ 2 ^ 32 <= zlen t \/ e = UnicodeError /\ zlen t < 2 ^ 32 /\ exists c, In c t /\ 0xD800 <= c <= 0xDFFF).
Proof. exact dump_error. Qed.
Print Assumptions C09_not_written.
Example C09_written_example :
  xstr_dump (Some [65; 0x1F600]) = Ok [2; 0; 0; 0; 255; 254; 65; 0; 61; 216; 0; 222] /\
  xstr_dump (Some [65; 0xD83D]) = Err UnicodeError /\ xstr_dump (Some [0xDFFF]) = Err UnicodeError /\
  (exists us, units_text us [65; 0x1F600]).
Proof.
  split; [reflexivity|]. split; [reflexivity|]. split; [reflexivity|].
  assert (R : forall c, In c [65; 0x1F600] -> 0 <= c <= 0x10FFFF) by (intros c [<-|[<-|[]]]; split; discriminate).
  destruct (proj1 (@C09_written [65; 0x1F600] [2; 0; 0; 0; 255; 254; 65; 0; 61; 216; 0; 222] ltac:(discriminate) R) eq_refl) as (us & n & U & _). now exists us.
Qed.

(** C10 *)
Theorem C10_bundle_sh : forall i st tab rel name rest,
  0 <= st < 2 ^ 32 -> 0 <= tab < 2 ^ 32 -> wide_ok rel = true -> wide_ok name = true ->
  bundle_loadr (mkRec i (le4 st ++ le4 tab ++ wide_string rel ++ wide_string name ++ rest))
  = Ok (mkBundle st tab (Some rel) (Some name)).
Proof. exact bundle_loadr_ok. Qed.
Print Assumptions C10_bundle_sh.

Example C08_example : wide_ok [72; 0x1F600; 105] = true
  /\ wide_string [72; 0x1F600; 105] = [4; 0; 0; 0; 72; 0; 0x3D; 0xD8; 0x00; 0xDE; 105; 0].
Proof. split; reflexivity. Qed.
Example C09_example : xstr_dump (Some (s "ab")) = Ok [2; 0; 0; 0; 255; 254; 97; 0; 98; 0]
  /\ xstr_load [2; 0; 0; 0; 255; 254; 97; 0; 98; 0] = Ok (Some (s "a"), [98; 0]).
Proof. split; reflexivity. Qed.
Example C10_example : wide_ok (s "rId1") = true /\ wide_ok (s "Sheet1") = true.
Proof. split; reflexivity. Qed.
