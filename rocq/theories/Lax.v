(** Model of the conversions with strict=False (rxls/chunk/casts.py:690-742,
    rxls/chunk/chunk.py:304-329) and of the remaining methods of chunk (chunk.py:195-214,
    300-302).  [read] uses none of them. *)
From Verif Require Import Py PyText Cell Casts Chunk.
Set Implicit Arguments. Unset Strict Implicit.

(** casts.py:734-742 without the final check. *)
Fixpoint mf_lax_loop (parse : str -> str -> option Z) (junk : Z) (fmts : list str) (arr : list (option str)) (result : list Z) : list Z :=
  match fmts with
  | [] => result
  | f :: r =>
    let result := map (fun p => if snd p =? 0 then strptime1 parse junk f (fst p) else snd p) (combine arr result) in
    if forallb (fun v => 0 <? v) result then result else mf_lax_loop parse junk r arr result
  end.
(** casts.py:690-742 [mf_strptime] with strict=False. *)
Definition mf_lax (parse : str -> str -> option Z) (junk : Z) (polars : bool) (formats : option (list str)) (arr : list (option str)) : list Z :=
  let fmts := match formats with None | Some [] => default_formats polars | Some l => l end in
  mf_lax_loop parse junk fmts arr (map (fun _ => 0) arr).

Section Chunk.
  Context (o : oracle).
  (** chunk.py:304-329 [arrow] with strict=False. *)
  Definition chunk_arrow_lax (c : chunk) (dest : option dtype) : res array * chunk :=
    if k_type c =? 0 then chunk_arrow o c dest
    else
      match prepare o c with
      | Err e => (Err e, c)
      | Ok c =>
        (a <- raw_array c ;;
         match dest with
         | Some d => if dtype_eqb d (a_type a) then Ok a
                     else match unsafe_cast o a d with Err ArrowInvalid => Ok a | r => r end
         | None => Ok a
         end, c)
      end.
  (** chunk.py:300-302 [utf8]. *)
  Definition chunk_utf8 (c : chunk) : res array * chunk :=
    let '(a, c) := chunk_arrow o c None in (a <- a ;; unsafe_cast o a TUtf8, c).
End Chunk.

(** chunk.py:195-214. *)
Definition is_empty (c : chunk) : bool :=
  if k_type c =? 0 then match k_data c with DNull n => n =? 0 | _ => data_len (k_data c) =? 0 end
  else data_len (k_data c) =? 0.
Definition is_null (c : chunk) : bool := k_type c =? 0.
Definition is_numeric (c : chunk) : bool := flag (k_type c) TYPE_NUMERIC.
Definition is_temporal (c : chunk) : bool := flag (k_type c) TYPE_NUMERIC && flag (k_type c) REPR_TEMPORAL.
