(** Sheets that show the same cells. *)
From Verif Require Import Py PyText Cell Casts Chunk ChunkSpec ReadSpec Utf8 Series SeriesSpec Reader ReaderSpec.
Set Implicit Arguments. Unset Strict Implicit.

(** What a cell shows: whether number, date or text, and the value. *)
Definition shown (o : oracle) (sc : sconf) (c : cell) : kind * cellv := (t_kind (tag_of o sc c), t_val (tag_of o sc c)).
Definition same_cell (o : oracle) (sc sc' : sconf) (c c' : cell) : Prop := c_row c = c_row c' /\ shown o sc c = shown o sc' c'.
(** Neither dates next to anything else with dates recognised, nor numbers next to texts with
    numbers recognised. *)
Definition unmixed (cf : conf) (w : list tag) : bool :=
  negb (cf_datetime cf && some_kind KTemp w && (some_kind KNum w || some_kind KStr w)) && negb (cf_numerics cf && some_kind KNum w && some_kind KStr w).
(** Two sheets by the values at row and column: the same ones. *)
Definition same_places (P P' : Z -> Z -> tag) : Prop := forall r k, 0 <= r -> (t_kind (P r k), t_val (P r k)) = (t_kind (P' r k), t_val (P' r k)).
Definition unmixed_places (cf : conf) (P : Z -> Z -> tag) (n : Z) : Prop :=
  forall k, unmixed cf (map (fun i => P (Z.of_nat i) k) (seq 0 (Z.to_nat n))) = true.
(** The lowest row the table may start at. *)
Definition first_data (op : ropts) : Z :=
  match r_header op with HInt h => h | HList _ => 0 end + match r_lookup op with None => 0 | Some _ => r_size op - 1 end + r_skip_after op.
