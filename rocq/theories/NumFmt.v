(** Number-format classification shared by rxls/reader/xlsx.py and
    rxls/reader/xlsb.py: the regular expressions [re_dt] and [re_xt]. *)
From Verif Require Import Py.

Definition ch_quote := 34. Definition ch_lbr := 91. Definition ch_rbr := 93.
Definition ch_bsl := 92. Definition ch_nl := 10. Definition ch_semi := 59.

(** [".*?"] after the opening quote: what remains after the closing quote
    ([.] does not match a newline). *)
Fixpoint after_quote (t : str) : option str :=
  match t with
  | [] => None
  | c :: r => if c =? ch_quote then Some r else if c =? ch_nl then None else after_quote r
  end.

(** [[^\]]*\]] after the opening bracket: what remains after the first [']']. *)
Fixpoint after_bracket (t : str) : option str :=
  match t with
  | [] => None
  | c :: r => if c =? ch_rbr then Some r else after_bracket r
  end.

(** The negative lookahead [(?!(?:hh?|mm?|ss?)\])]. *)
Definition dur_letter (c : Z) : bool := (c =? 104) || (c =? 109) || (c =? 115).
Definition dur_ahead (t : str) : bool :=
  match t with
  | a :: b :: r =>
    dur_letter a &&
    ((b =? ch_rbr) || ((b =? a) && match r with c :: _ => c =? ch_rbr | [] => false end))
  | _ => false
  end.

(** One match of [re_xt] at the front of [t]: the rest after the match.
    xlsx.py:38, xlsb.py:35. *)
Definition xt_match (t : str) : option str :=
  match t with
  | c :: r =>
    if c =? ch_quote then after_quote r
    else if c =? ch_lbr then if dur_ahead r then None else after_bracket r
    else None
  | [] => None
  end.

(** [re_xt.sub("", t)]: leftmost non-overlapping matches are removed. *)
Fixpoint xt_sub_fuel (fuel : nat) (t : str) : str :=
  match fuel with
  | O => []
  | S fuel =>
    match t with
    | [] => []
    | c :: r =>
      match xt_match t with
      | Some rest => xt_sub_fuel fuel rest
      | None => c :: xt_sub_fuel fuel r
      end
    end
  end.
Definition xt_sub (t : str) : str := xt_sub_fuel (List.length t) t.

(** Characters of the class [[dmhysDMHYS]]. *)
Definition dt_letters : list Z := s "dmhysDMHYS".
(** [re_dt.search(t)] is not None: a letter not preceded by a backslash.
    xlsx.py:37, xlsb.py:34. *)
Fixpoint dt_search_from (prev : Z) (t : str) : bool :=
  match t with
  | [] => false
  | c :: r => (mem_Z c dt_letters && negb (prev =? ch_bsl)) || dt_search_from c r
  end.
Definition dt_search (t : str) : bool := dt_search_from (-1) t.

(** [re_dt.search(re_xt.sub("", fmt))]. *)
Definition fmt_temporal (fmt : str) : bool := dt_search (xt_sub fmt).

(** [fmt.split(";", 1)[0]]. *)
Fixpoint first_section (t : str) : str :=
  match t with
  | [] => []
  | c :: r => if c =? ch_semi then [] else c :: first_section r
  end.

(** [".00" in fmt]. *)
Fixpoint has_dot00 (t : str) : bool :=
  match t with
  | [] => false
  | c :: r =>
    match r with
    | a :: b :: _ => (c =? 46) && (a =? 48) && (b =? 48)
    | _ => false
    end || has_dot00 r
  end.

(** xlsx.py:82-86, xlsb.py:57-59. *)
Definition TEMPORAL_STYLES : list Z :=
  [0x0E; 0x0F; 0x10; 0x11; 0x12; 0x12; 0x13; 0x14; 0x15; 0x16; 0x2D; 0x2E; 0x2F].
Definition NUMERIC_STYLES : list Z := [0x01; 0x02; 0x03; 0x04; 0x25; 0x26; 0x27; 0x28; 0x30].
