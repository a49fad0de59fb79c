(** Number formats as token sequences (ECMA-376 18.8.31, the parts relevant here). *)
From Verif Require Import Py NumFmt.

Inductive token :=
  | TQuote (body : str)       (* "body" *)
  | TBracket (body : str)     (* [body], a colour, condition or locale section *)
  | TDur (c : Z) (two : bool) (* [h] [hh] [m] [mm] [s] [ss] *)
  | TEsc (c : Z)              (* \c *)
  | TChar (c : Z).            (* c *)

Definition render1 (k : token) : str :=
  match k with
  | TQuote b => ch_quote :: b ++ [ch_quote]
  | TBracket b => ch_lbr :: b ++ [ch_rbr]
  | TDur c two => if two then [ch_lbr; c; c; ch_rbr] else [ch_lbr; c; ch_rbr]
  | TEsc c => [ch_bsl; c]
  | TChar c => [c]
  end.
Definition render (ks : list token) : str := flat_map render1 ks.

Definition date_letter (c : Z) : bool :=
  existsb (Z.eqb c) [100; 109; 104; 121; 115; 68; 77; 72; 89; 83].

(** Temporal: a plain date/time letter or a duration bracket. *)
Definition spec_temporal (ks : list token) : bool :=
  existsb (fun k => match k with TDur _ _ => true | TChar c => date_letter c | _ => false end) ks.

(** Lexical conditions that make the token reading unambiguous. *)
Definition token_ok (k : token) : bool :=
  match k with
  | TQuote b => negb (existsb (fun c => (c =? ch_quote) || (c =? ch_nl)) b)
  | TBracket b =>
    negb (existsb (Z.eqb ch_rbr) b)
    && negb (match b with
             | [c] => dur_letter c
             | [c; d] => dur_letter c && (c =? d)
             | _ => false
             end)
  | TDur c _ => dur_letter c
  | TEsc c => negb ((c =? ch_quote) || (c =? ch_lbr) || (c =? ch_bsl))
  | TChar c => negb ((c =? ch_quote) || (c =? ch_lbr) || (c =? ch_bsl))
  end.
