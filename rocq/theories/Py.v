(** Python primitives used by the model: exceptions as values, byte strings,
    text strings, slicing, [struct] packing.  These model CPython built-ins, not
    repository code. *)
From Coq Require Export List ZArith Lia Bool Ascii String.
Export ListNotations.
Open Scope Z_scope.
Set Implicit Arguments.

(** Python exceptions that the modelled code can raise.  [Undefined] is not a
    Python exception: it marks behaviour that numpy/Arrow leave undefined
    (reading out of bounds with bounds checks disabled, short buffers). *)
Inductive exn :=
  | IndexError | KeyError | ValueError | TypeError | AssertionError | RuntimeError
  | StructError | UnicodeError | StopIterationError
  | ArrowInvalid | ArrowNotImplemented | XmlError | ReError
  | Undefined.

Inductive res (A : Type) :=
  | Ok (a : A)
  | Err (e : exn).
Arguments Ok {A} a.
Arguments Err {A} e.

Definition bind {A B} (r : res A) (f : A -> res B) : res B :=
  match r with Ok a => f a | Err e => Err e end.
Notation "x <- r ;; k" := (bind r (fun x => k))
  (at level 61, r at next level, right associativity).
Notation "' p <- r ;; k" := (bind r (fun p => k))
  (at level 61, p pattern, r at next level, right associativity).

Definition byte := Z.
Definition bytes := list Z.
(** A Python [str]: the list of its code points. *)
Definition str := list Z.

Definition byte_ok (b : Z) : bool := (0 <=? b) && (b <? 256).
Definition bytes_ok (l : bytes) : bool := forallb byte_ok l.

(** ASCII literal as a [str]. *)
Fixpoint s (x : string) : str :=
  match x with
  | EmptyString => []
  | String c r => Z.of_N (N_of_ascii c) :: s r
  end.

Fixpoint str_eqb (a b : str) : bool :=
  match a, b with
  | [], [] => true
  | x :: a', y :: b' => (x =? y) && str_eqb a' b'
  | _, _ => false
  end.

Definition mem_str (x : str) (l : list str) : bool := existsb (str_eqb x) l.
Definition mem_Z (x : Z) (l : list Z) : bool := existsb (Z.eqb x) l.

Definition zlen {A} (l : list A) : Z := Z.of_nat (List.length l).

(** [l[a:b]] with step 1: CPython's PySlice_AdjustIndices clamping. *)
Definition clamp (n i : Z) : Z :=
  if i <? 0 then Z.max 0 (n + i) else Z.min n i.
Definition slice_bounds (n : Z) (a b : option Z) : Z * Z :=
  (match a with None => 0 | Some i => clamp n i end,
   match b with None => n | Some i => clamp n i end).
Definition py_slice {A} (l : list A) (a b : option Z) : list A :=
  let '(i, j) := slice_bounds (zlen l) a b in
  firstn (Z.to_nat (j - i)) (skipn (Z.to_nat i) l).

(** [l[a:b]] for constants [0 <= a <= b]. *)
Definition sub {A} (l : list A) (a b : Z) : list A := py_slice l (Some a) (Some b).

(** [struct.Struct("<B").pack] etc.: range-checked little-endian. *)
Definition pack_B (i : Z) : res bytes :=
  if (0 <=? i) && (i <? 2 ^ 8) then Ok [i] else Err StructError.
Definition pack_H (i : Z) : res bytes :=
  if (0 <=? i) && (i <? 2 ^ 16) then Ok [i mod 256; i / 256] else Err StructError.
Definition le4 (i : Z) : bytes :=
  [i mod 256; (i / 2 ^ 8) mod 256; (i / 2 ^ 16) mod 256; (i / 2 ^ 24) mod 256].
Definition pack_I (i : Z) : res bytes :=
  if (0 <=? i) && (i <? 2 ^ 32) then Ok (le4 i) else Err StructError.
(** [struct.Struct("<I").unpack]: the buffer must have exactly 4 bytes. *)
Definition unpack_I (b : bytes) : res Z :=
  match b with
  | [b0; b1; b2; b3] => Ok (b0 + 2 ^ 8 * b1 + 2 ^ 16 * b2 + 2 ^ 24 * b3)
  | _ => Err StructError
  end.

(** Sequencing helper: run a [res] function over a list, stop at first error. *)
Fixpoint mapM {A B} (f : A -> res B) (l : list A) : res (list B) :=
  match l with
  | [] => Ok []
  | x :: r => y <- f x ;; ys <- mapM f r ;; Ok (y :: ys)
  end.

(** Python [dict] as an insertion-ordered association list with unique keys:
    assignment updates in place or appends. *)
Section Dict.
  Context {K V : Type} (eqb : K -> K -> bool).
  Fixpoint dget (d : list (K * V)) (k : K) : option V :=
    match d with
    | [] => None
    | (k', v) :: r => if eqb k k' then Some v else dget r k
    end.
  Fixpoint dset (d : list (K * V)) (k : K) (v : V) : list (K * V) :=
    match d with
    | [] => [(k, v)]
    | (k', v') :: r => if eqb k k' then (k', v) :: r else (k', v') :: dset r k v
    end.
End Dict.
