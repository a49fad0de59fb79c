(** Model of rxls/chunk/casts.py (the numpy definitions; the numba variants compile the same
    bodies, except [gu_f8_to_rk]; their fastmath flags are not modelled).  Arrays are lists; every function is
    elementwise except where said. *)
From Verif Require Import Py.
From Flocq Require Import IEEE754.BinarySingleNaN IEEE754.Binary IEEE754.Bits.

Definition f8 := binary64.

(** Integer to double, nearest even ([astype(np.float64)], [np.float64(n)]). *)
Definition f8_of_Z (n : Z) : f8 :=
  binary_normalize 53 1024 eq_refl eq_refl mode_NE n 0 false.
Definition f8_of_bool (b : bool) : f8 := f8_of_Z (if b then 1 else 0).
Definition fadd : f8 -> f8 -> f8 := b64_plus mode_NE.
Definition fsub : f8 -> f8 -> f8 := b64_minus mode_NE.
Definition fmul : f8 -> f8 -> f8 := b64_mult mode_NE.
Definition fdiv : f8 -> f8 -> f8 := b64_div mode_NE.
Definition feqb (x y : f8) : bool := match b64_compare x y with Some Eq => true | _ => false end.
Definition fltb (x y : f8) : bool := match b64_compare x y with Some Lt => true | _ => false end.
Definition fgeb (x y : f8) : bool :=
  match b64_compare x y with Some Gt | Some Eq => true | _ => false end.
(** [np.rint], [np.trunc]. *)
Definition frint (x : f8) : f8 := Bnearbyint 53 1024 eq_refl unop_nan_pl64 mode_NE x.
Definition ftrunc (x : f8) : f8 := Bnearbyint 53 1024 eq_refl unop_nan_pl64 mode_ZR x.
(** [astype(np.int64)] / [astype(np.int32)]: truncation; out of range and NaN the C conversion
    is undefined, [oob] is what the machine gives. *)
Definition f8_to_int (bits : Z) (oob : f8 -> Z) (x : f8) : Z :=
  if is_finite 53 1024 x && (- 2 ^ (bits - 1) <=? Btrunc 53 1024 x) && (Btrunc 53 1024 x <? 2 ^ (bits - 1))
  then Btrunc 53 1024 x else oob x.
Definition f8_to_i64 : (f8 -> Z) -> f8 -> Z := f8_to_int 64.
Definition f8_to_i32 : (f8 -> Z) -> f8 -> Z := f8_to_int 32.

(** numpy's [power_of_ten] for a count of digits (exact up to 1e8, then repeated products). *)
Fixpoint pow10_big (k : nat) : f8 :=
  match k with O => f8_of_Z 1000000000 | S k' => fmul (pow10_big k') (f8_of_Z 10) end.
Definition power_of_ten (n : nat) : f8 :=
  if (n <? 9)%nat then f8_of_Z (10 ^ Z.of_nat n) else pow10_big (n - 9).
(** [np.round(x, d)] on float64: rint of the scaled value, scaled back. *)
Definition np_round (d : Z) (x : f8) : f8 :=
  if d =? 0 then frint x
  else if 0 <? d then let p := power_of_ten (Z.to_nat d) in fdiv (frint (fmul x p)) p
  else let p := power_of_ten (Z.to_nat (- d)) in fmul (frint (fdiv x p)) p.

(** View of a uint32 as int32. *)
Definition to_i32 (x : Z) : Z := if x <? 2 ^ 31 then x else x - 2 ^ 32.
Definition to_u32 (x : Z) : Z := x mod 2 ^ 32.
(** int32 left shift (wraps). *)
Definition shl_i32 (x k : Z) : Z := to_i32 (to_u32 (Z.shiftl x k)).

(** casts.py:40-67 [rk_to_f8], one element. *)
Definition rk_to_f8 (x : Z) : f8 :=
  let i_flag := Z.land x 2 in
  let c_flag := f8_of_Z (Z.land x 1 * 99 + 1) in
  let a := Z.land x 0xFFFFFFFC in
  fdiv (if i_flag =? 0 then b64_of_bits (Z.shiftl a 32)
        else f8_of_Z (Z.shiftr (to_i32 a) 2)) c_flag.

(** casts.py:70-102 [f8_to_ms_win]. *)
Definition f8_to_ms_win (oob : f8 -> Z) (x : f8) : Z :=
  f8_to_i64 oob
    (fmul (fsub x (fmul (f8_of_bool (fgeb x (f8_of_Z 1)))
                        (fsub (f8_of_Z 25569) (f8_of_bool (fltb x (f8_of_Z 60))))))
          (f8_of_Z 86400000)).

(** casts.py:105-137 [ms_to_f8_win].  int64 arithmetic (wrap-around at 2^63 not modelled),
    then true division: both operands become float64. *)
Definition ms_to_f8_win (t : Z) : f8 :=
  fdiv (f8_of_Z (t + (if 86400000 <=? t
                      then 2209075200000 + (if -2203891200000 <=? t then 86400000 else 0) else 0)))
       (f8_of_Z 86400000).

(** 0.001 as a double: 0x3F50624DD2F1A9FC. *)
Definition f8_0001 : f8 := b64_of_bits 0x3F50624DD2F1A9FC.
(** casts.py:140-154 [f8_to_rk]. *)
Definition f8_to_rk (oob : f8 -> Z) (x : f8) : Z :=
  let r := np_round 2 x in
  if feqb x r then
    to_u32 (if feqb (ftrunc x) r
            then Z.lor (shl_i32 (f8_to_i32 oob (fadd x f8_0001)) 2) 2
            else Z.lor (shl_i32 (f8_to_i32 oob (fadd (fmul x (f8_of_Z 100)) f8_0001)) 2) 3)
  else Z.land (Z.shiftr (bits_of_b64 x) 32) 0xFFFFFFFC.

(** casts.py:258-276 [__gu_f8_to_rk], the body compiled when numba and TBB are installed: whole
    numbers go through int64 ([oob64]) and are then cut to 32 bits. *)
Definition gu_f8_to_rk (oob oob64 : f8 -> Z) (x : f8) : Z :=
  let r := np_round 2 x in
  if feqb x r then
    to_u32 (if feqb (ftrunc x) r
            then Z.lor (shl_i32 (to_i32 (to_u32 (f8_to_i64 oob64 (fadd x f8_0001)))) 2) 2
            else Z.lor (shl_i32 (f8_to_i32 oob (fadd (fmul x (f8_of_Z 100)) f8_0001)) 2) 3)
  else Z.land (Z.shiftr (bits_of_b64 x) 32) 0xFFFFFFFC.

(** casts.py:157-160 [i8_to_rk]: the argument is an integer array; [astype(np.int32)] wraps. *)
Definition i8_to_rk (n : Z) : Z :=
  to_u32 (Z.lor (shl_i32 (to_i32 (to_u32 n)) 2) 2).

(** casts.py:163-180 [f8_is_i8], on an array. *)
Definition f8_is_i8 (arr : list f8) (p : Z) : bool :=
  negb (existsb (fun x => negb (feqb (ftrunc x) (np_round p x))) arr).

(** casts.py:183-216 [dt_has_t], [dt_has_d].  The uint64 operand makes newer numpy compute in
    float64, which is the same for |t| < 2^53. *)
Definition dt_has_t (arr : list Z) : bool := existsb (fun t => negb (t mod 86400000 =? 0)) arr.
Definition dt_has_d (arr : list Z) : bool := existsb (fun t => 86400000 <? t) arr.

(** casts.py:552-573 [_unsafe_bool_arrow_to_numpy]: data buffer and length of the array.
    [np.unpackbits]: most significant bit first. *)
Definition unpack_byte (b : Z) : list bool := map (Z.testbit b) [7; 6; 5; 4; 3; 2; 1; 0].
Definition unpackbits (buf : bytes) : list bool := flat_map unpack_byte buf.
Definition bool_arrow_to_numpy (buf : bytes) (len : Z) : list bool :=
  rev (py_slice (unpackbits buf) (Some (- len)) None).

(** casts.py:606-687: formats.  [polars]: POLARS_AVAILABLE. *)
Definition TIME_FORMATS (polars : bool) : list str :=
  if polars then [s "%T"; s "%R"; s "%r"; s "%I:%M %p"; s "%T%.f"] else [s "%T"; s "%R"].
Definition DATE_FORMATS : list str :=
  [s "%Y-%m-%d"; s "%d/%m/%Y"; s "%d/%m/%y"; s "%d.%m.%Y"; s "%d.%m.%y"; s "%d-%m-%Y"; s "%d-%m-%y"].
Definition DATETIME_FORMATS (polars : bool) : list str :=
  flat_map (fun df => flat_map (fun tf => [df ++ s " " ++ tf; df ++ s "T" ++ tf]) (TIME_FORMATS polars) ++ [df])
           DATE_FORMATS.
Definition default_formats (polars : bool) : list str :=
  DATETIME_FORMATS polars ++ DATE_FORMATS ++ TIME_FORMATS polars.

Section Strptime.
  (** [parse fmt t]: the library's strptime in milliseconds (None: null result);
      [junk]: the content of a null slot of the result buffer. *)
  Context (parse : str -> str -> option Z) (junk : Z).
  (** casts.py:611-635, 643-660 [_strptime], one element (None = null element). *)
  Definition strptime1 (fmt : str) (t : option str) : Z :=
    let ret := match t with
               | None => junk
               | Some t => match parse fmt t with Some v => v | None => junk end
               end in
    if ret <? 0 then ret mod 86400000 else ret.
  (** casts.py:734-742: the loop over the formats. *)
  Fixpoint mf_loop (fmts : list str) (arr : list (option str)) (result : list Z) : res (list Z) :=
    match fmts with
    | [] => if existsb (fun v => v =? 0) result then Err ArrowInvalid else Ok result
    | f :: r =>
      let result := map (fun p => if snd p =? 0 then strptime1 f (fst p) else snd p) (combine arr result) in
      if forallb (fun v => 0 <? v) result then Ok result else mf_loop r arr result
    end.
  (** casts.py:690-742 [mf_strptime] with strict=True. *)
  Definition mf_strptime (polars : bool) (formats : option (list str)) (arr : list (option str)) : res (list Z) :=
    let fmts := match formats with None | Some [] => default_formats polars | Some l => l end in
    mf_loop fmts arr (map (fun _ => 0) arr).
End Strptime.
