(** Independent descriptions for the casts: RK numbers, the Excel calendar, Arrow bitmaps. *)
From Verif Require Import Py.

(** [MS-XLSB] 2.5.122 RkNumber: bit 0 fX100, bit 1 fInt, 30 bits of number. *)
Definition signed30 (q : Z) : Z := if q <? 2 ^ 29 then q else q - 2 ^ 30.

(** ** Calendars: a date is (year, month, day). *)
Definition date := (Z * Z * Z)%type.
Definition greg_leap (y : Z) : bool :=
  (y mod 4 =? 0) && (negb (y mod 100 =? 0) || (y mod 400 =? 0)).
(** Excel's 1900 system: as Gregorian, but 1900 is a leap year. *)
Definition excel_leap (y : Z) : bool := greg_leap y || (y =? 1900).
Definition month_len (leap : Z -> bool) (y m : Z) : Z :=
  if m =? 2 then (if leap y then 29 else 28)
  else if (m =? 4) || (m =? 6) || (m =? 9) || (m =? 11) then 30 else 31.
Definition next_day (leap : Z -> bool) (d : date) : date :=
  let '(y, m, k) := d in
  if k <? month_len leap y m then (y, m, k + 1)
  else if m <? 12 then (y, m + 1, 1) else (y + 1, 1, 1).
(** The date [n] days after [d]. *)
Definition after (leap : Z -> bool) (d : date) (n : Z) : date := Nat.iter (Z.to_nat n) (next_day leap) d.
(** What Excel shows for serial [n >= 1]. *)
Definition excel_date (n : Z) : date := after excel_leap (1900, 1, 1) (n - 1).
(** A number of days since 1970-01-01 (possibly negative) is the Gregorian date [d]. *)
Definition unix_day (k : Z) (d : date) : Prop :=
  if 0 <=? k then after greg_leap (1970, 1, 1) k = d
  else after greg_leap d (- k) = (1970, 1, 1).

(** ** Arrow booleans: bit [i mod 8] (least significant first) of byte [i / 8]. *)
Fixpoint bits_value (l : list bool) : Z :=
  match l with [] => 0 | b :: r => (if b then 1 else 0) + 2 * bits_value r end.
Fixpoint bitmap_fuel (fuel : nat) (l : list bool) : bytes :=
  match fuel, l with
  | S f, _ :: _ => bits_value (firstn 8 l) :: bitmap_fuel f (skipn 8 l)
  | _, _ => []
  end.
Definition bitmap (l : list bool) : bytes := bitmap_fuel (List.length l) l.

(** The values in blocks of eight, the last filled up with false. *)
Fixpoint blocks_fuel (fuel : nat) (l : list bool) : list (list bool) :=
  match fuel, l with
  | S f, _ :: _ => firstn 8 (firstn 8 l ++ repeat false 8) :: blocks_fuel f (skipn 8 l)
  | _, _ => []
  end.
Definition blocks (l : list bool) : list (list bool) := blocks_fuel (List.length l) l.

(** A value [strptime] may give: not the epoch, and of dates before 1970 only the time of day. *)
Definition usable (parse : str -> str -> option Z) (f t : str) : option Z :=
  match parse f t with
  | Some v => let v := if v <? 0 then v mod 86400000 else v in if v =? 0 then None else Some v
  | None => None
  end.
Fixpoint all_some {A} (l : list (option A)) : option (list A) :=
  match l with
  | [] => Some []
  | Some x :: r => match all_some r with Some r => Some (x :: r) | None => None end
  | None :: _ => None
  end.
