(** chunk/casts.py when numba is installed: the bodies that use [np.round] are compiled, and numba
    has its own [np.round].  (Flags such as fastmath are not modelled.) *)
From Verif Require Import Py Casts.
From Flocq Require Import IEEE754.BinarySingleNaN IEEE754.Binary IEEE754.Bits.

(** numba's [np.round(x, d)], d >= 0: infinities and NaN stay, and so does a number whose scaled form
    is infinite; more than 22 digits are scaled in two steps. *)
Definition is_inf (x : f8) : bool := match x with B754_infinity _ _ _ => true | _ => false end.
Definition nb_round (d : Z) (x : f8) : f8 :=
  if is_finite 53 1024 x then
    let p1 := if 22 <? d then power_of_ten (Z.to_nat (d - 22)) else power_of_ten (Z.to_nat d) in
    let p2 := if 22 <? d then power_of_ten 22 else f8_of_Z 1 in
    let y := fmul (fmul x p1) p2 in
    if is_inf y then x else fdiv (fdiv (frint y) p2) p1
  else x.
(** casts.py:222-226: [f8_is_i8] (lines 163-180) compiled. *)
Definition nb_f8_is_i8 (arr : list f8) (p : Z) : bool :=
  negb (existsb (fun x => negb (feqb (ftrunc x) (nb_round p x))) arr).
(** casts.py:258-276, 323-334: [__gu_f8_to_rk] compiled.  [Casts.gu_f8_to_rk] is this body with
    numpy's [np.round]. *)
Definition nb_gu_f8_to_rk (oob oob64 : f8 -> Z) (x : f8) : Z :=
  let r := nb_round 2 x in
  if feqb x r then
    to_u32 (if feqb (ftrunc x) r
            then Z.lor (shl_i32 (to_i32 (to_u32 (f8_to_i64 oob64 (fadd x f8_0001)))) 2) 2
            else Z.lor (shl_i32 (f8_to_i32 oob (fadd (fmul x (f8_of_Z 100)) f8_0001)) 2) 3)
  else Z.land (Z.shiftr (bits_of_b64 x) 32) 0xFFFFFFFC.
(** casts.py:401-405: [f8_to_rk] (lines 140-154) compiled, without TBB. *)
Definition nb_f8_to_rk (oob : f8 -> Z) (x : f8) : Z :=
  let r := nb_round 2 x in
  if feqb x r then
    to_u32 (if feqb (ftrunc x) r
            then Z.lor (shl_i32 (f8_to_i32 oob (fadd x f8_0001)) 2) 2
            else Z.lor (shl_i32 (f8_to_i32 oob (fadd (fmul x (f8_of_Z 100)) f8_0001)) 2) 3)
  else Z.land (Z.shiftr (bits_of_b64 x) 32) 0xFFFFFFFC.
