(** Python regular expressions (module re): the part of the syntax that the patterns
    [re_dt] and [re_xt] use (rxls/reader/xlsx.py:37-38, rxls/reader/xlsb.py:34-35), read from
    the text of a pattern, and the backtracking meaning of [search] and [sub].  A
    specification: nothing here is taken from NumFmt.v, which holds the matchers the model
    uses. *)
From Verif Require Import Py.

Inductive rx :=
  | RSet (neg : bool) (cs : list Z)  (* one character in (not in) the list *)
  | REps
  | RSeq (a b : rx)
  | RAlt (a b : rx)
  | RStar (greedy : bool) (a : rx)
  | ROpt (greedy : bool) (a : rx)
  | RNot (a : rx)                    (* (?!a) *)
  | RNotBehind (neg : bool) (cs : list Z). (* (?<!c), one character *)

(** A position: the character before it and the text after it. *)
Definition pos := (option Z * str)%type.
Definition in_set (neg : bool) (cs : list Z) (c : Z) : bool := xorb neg (existsb (Z.eqb c) cs).
Definition shorter (q p : pos) : bool := (List.length (snd q) <? List.length (snd p))%nat.

(** The positions after a match starting at [p], in the order in which backtracking meets them. *)
Definition star_with (m : pos -> list pos) (greedy : bool) : nat -> pos -> list pos :=
  fix star (fuel : nat) (p : pos) : list pos :=
    match fuel with
    | O => []
    | S fuel =>
      let more := flat_map (star fuel) (filter (fun q => shorter q p) (m p)) in
      if greedy then more ++ [p] else p :: more
    end.
Fixpoint ends (r : rx) (p : pos) : list pos :=
  match r with
  | RSet neg cs => match snd p with c :: t => if in_set neg cs c then [(Some c, t)] else [] | [] => [] end
  | REps => [p]
  | RSeq a b => flat_map (ends b) (ends a p)
  | RAlt a b => ends a p ++ ends b p
  | RStar g a => star_with (ends a) g (S (List.length (snd p))) p
  | ROpt g a => if g then ends a p ++ [p] else p :: ends a p
  | RNot a => match ends a p with [] => [p] | _ => [] end
  | RNotBehind neg cs => match fst p with Some c => if in_set neg cs c then [] else [p] | None => [p] end
  end.

(** [re.search(r, t) is not None]: some position has a match. *)
Fixpoint search_from (r : rx) (prev : option Z) (t : str) : bool :=
  match ends r (prev, t) with
  | _ :: _ => true
  | [] => match t with [] => false | c :: u => search_from r (Some c) u end
  end.
Definition search (r : rx) (t : str) : bool := search_from r None t.

(** [re.sub(r, "", t)]: from the left, the first match is dropped and the scan goes on after
    it; an empty match drops nothing. *)
Fixpoint sub_from (fuel : nat) (r : rx) (prev : option Z) (t : str) : str :=
  match fuel, t with
  | S fuel, c :: u =>
    match ends r (prev, t) with
    | q :: _ => if shorter q (prev, t) then sub_from fuel r (fst q) (snd q) else c :: sub_from fuel r (Some c) u
    | [] => c :: sub_from fuel r (Some c) u
    end
  | _, _ => []
  end.
Definition sub (r : rx) (t : str) : str := sub_from (List.length t) r None t.

(** ** Reading a pattern *)
(** The characters of a class up to the closing bracket. *)
Fixpoint class_items (fuel : nat) (t : str) : option (list Z * str) :=
  match fuel, t with
  | S fuel, c :: r =>
    if c =? 93 then Some ([], r)
    else if c =? 45 then None
    else
      match (if c =? 92 then match r with d :: r2 => Some (d, r2) | [] => None end else Some (c, r)) with
      | Some (x, r) => match class_items fuel r with Some (xs, r) => Some (x :: xs, r) | None => None end
      | None => None
      end
  | _, _ => None
  end.
Definition special : list Z := s "*?+(){}|^$]".
Definition alnum (c : Z) : bool := ((48 <=? c) && (c <=? 57)) || ((65 <=? c) && (c <=? 90)) || ((97 <=? c) && (c <=? 122)).
Fixpoint prefix (p t : str) : option str :=
  match p, t with
  | [], _ => Some t
  | a :: p, c :: t => if a =? c then prefix p t else None
  | _, [] => None
  end.
Definition postfix (a : rx) (t : str) : rx * str :=
  match t with
  | c :: r =>
    let lazy := match r with d :: _ => d =? 63 | [] => false end in
    let rest := if lazy then match r with _ :: r => r | [] => [] end else r in
    if c =? 42 then (RStar (negb lazy) a, rest) else if c =? 63 then (ROpt (negb lazy) a, rest) else (a, t)
  | [] => (a, t)
  end.
Fixpoint alt (fuel : nat) (t : str) : option (rx * str) :=
  match fuel with
  | O => None
  | S fuel =>
    match seq fuel t with
    | Some (a, c :: r) => if c =? 124 then match alt fuel r with Some (b, r) => Some (RAlt a b, r) | None => None end else Some (a, c :: r)
    | x => x
    end
  end
with seq (fuel : nat) (t : str) : option (rx * str) :=
  match fuel with
  | O => None
  | S fuel =>
    match t with
    | [] => Some (REps, [])
    | c :: _ =>
      if (c =? 41) || (c =? 124) then Some (REps, t)
      else
        match atom fuel t with
        | Some (a, r) => let '(a, r) := postfix a r in match seq fuel r with Some (b, r) => Some (RSeq a b, r) | None => None end
        | None => None
        end
    end
  end
with atom (fuel : nat) (t : str) : option (rx * str) :=
  match fuel with
  | O => None
  | S fuel =>
    let group (wrap : rx -> option rx) (t : str) :=
      match alt fuel t with
      | Some (a, c :: r) => if c =? 41 then match wrap a with Some a => Some (a, r) | None => None end else None
      | _ => None
      end in
    match prefix (s "(?:") t with
    | Some r => group Some r
    | None =>
      match prefix (s "(?!") t with
      | Some r => group (fun a => Some (RNot a)) r
      | None =>
        match prefix (s "(?<!") t with
        | Some r => group (fun a => match a with RSeq (RSet n cs) REps => Some (RNotBehind n cs) | _ => None end) r
        | None =>
          match prefix (s "[^") t with
          | Some r => match class_items fuel r with Some (cs, r) => Some (RSet true cs, r) | None => None end
          | None =>
            match t with
            | 91 :: r => match class_items fuel r with Some (cs, r) => Some (RSet false cs, r) | None => None end
            | 46 :: r => Some (RSet true [10], r)
            | 92 :: c :: r => if alnum c then None else Some (RSet false [c], r)
            | c :: r => if existsb (Z.eqb c) special then None else Some (RSet false [c], r)
            | [] => None
            end
          end
        end
      end
    end
  end.
(** [re.compile]. *)
Definition compile (t : str) : option rx :=
  match alt (4 * S (List.length t)) t with Some (r, []) => Some r | _ => None end.
