(** Strict UTF-8 decoding as Arrow does when it builds a string array from [bytes] (library
    code): well-formed byte sequences of the Unicode standard, table 3-7. *)
From Verif Require Import Py PyFacts PyText.
From Coq Require Import ZifyBool.
Set Implicit Arguments. Unset Strict Implicit.

Definition cont (b : Z) : bool := (0x80 <=? b) && (b <=? 0xBF).
Definition rng (a b x : Z) : bool := (a <=? x) && (x <=? b).
Definition ocons (x : Z) (t : option str) : option str := match t with Some t => Some (x :: t) | None => None end.
Fixpoint decode8 (b : bytes) : option str :=
  match b with
  | [] => Some []
  | b0 :: r0 =>
    if rng 0 0x7F b0 then ocons b0 (decode8 r0)
    else if rng 0xC2 0xDF b0 then
      match r0 with
      | b1 :: r1 => if cont b1 then ocons ((b0 - 0xC0) * 64 + (b1 - 0x80)) (decode8 r1) else None
      | _ => None
      end
    else if rng 0xE0 0xEF b0 then
      match r0 with
      | b1 :: b2 :: r2 =>
        if rng (if b0 =? 0xE0 then 0xA0 else 0x80) (if b0 =? 0xED then 0x9F else 0xBF) b1 && cont b2
        then ocons ((b0 - 0xE0) * 4096 + (b1 - 0x80) * 64 + (b2 - 0x80)) (decode8 r2) else None
      | _ => None
      end
    else if rng 0xF0 0xF4 b0 then
      match r0 with
      | b1 :: b2 :: b3 :: r3 =>
        if rng (if b0 =? 0xF0 then 0x90 else 0x80) (if b0 =? 0xF4 then 0x8F else 0xBF) b1 && cont b2 && cont b3
        then ocons ((b0 - 0xF0) * 262144 + (b1 - 0x80) * 4096 + (b2 - 0x80) * 64 + (b3 - 0x80)) (decode8 r3) else None
      | _ => None
      end
    else None
  end.

(** Unicode scalar values. *)
Definition scalar (c : Z) : bool := (0 <=? c) && (c <? 0xD800) || (0xE000 <=? c) && (c <? 0x110000).
Definition scalars (t : str) : bool := forallb scalar t.

Lemma decode8_char c r : scalar c = true -> decode8 (utf8_char c ++ r) = ocons c (decode8 r).
Proof.
  intro H. unfold scalar in H. unfold utf8_char.
  destruct (c <? 0x80) eqn:E1; [cbn [app decode8]; unfold rng at 1; now replace ((0 <=? c) && (c <=? 127)) with true by lia|].
  destruct (c <? 0x800) eqn:E2.
  { cbn [app decode8].
    replace (rng 0 127 (192 + c / 64)) with false by (unfold rng; Z.div_mod_to_equations; lia).
    replace (rng 194 223 (192 + c / 64)) with true by (unfold rng; Z.div_mod_to_equations; lia).
    replace (cont (128 + c mod 64)) with true by (unfold cont; Z.div_mod_to_equations; lia).
    f_equal. Z.div_mod_to_equations; lia. }
  destruct (c <? 0x10000) eqn:E3.
  { cbn [app decode8].
    replace (rng 0 127 (224 + c / 4096)) with false by (unfold rng; Z.div_mod_to_equations; lia).
    replace (rng 194 223 (224 + c / 4096)) with false by (unfold rng; Z.div_mod_to_equations; lia).
    replace (rng 224 239 (224 + c / 4096)) with true by (unfold rng; Z.div_mod_to_equations; lia).
    replace (cont (128 + c mod 64)) with true by (unfold cont; Z.div_mod_to_equations; lia).
    match goal with |- context [if ?g && true then _ else _] => replace g with true end.
    - cbn [andb]. f_equal. Z.div_mod_to_equations; lia.
    - symmetry. unfold rng. destruct (224 + c / 4096 =? 224) eqn:A, (224 + c / 4096 =? 237) eqn:B; Z.div_mod_to_equations; lia. }
  cbn [app decode8].
  replace (rng 0 127 (240 + c / 262144)) with false by (unfold rng; Z.div_mod_to_equations; lia).
  replace (rng 194 223 (240 + c / 262144)) with false by (unfold rng; Z.div_mod_to_equations; lia).
  replace (rng 224 239 (240 + c / 262144)) with false by (unfold rng; Z.div_mod_to_equations; lia).
  replace (rng 240 244 (240 + c / 262144)) with true by (unfold rng; Z.div_mod_to_equations; lia).
  replace (cont (128 + c mod 64)) with true by (unfold cont; Z.div_mod_to_equations; lia).
  replace (cont (128 + (c / 64) mod 64)) with true by (unfold cont; Z.div_mod_to_equations; lia).
  match goal with |- context [if ?g && true && true then _ else _] => replace g with true end.
  - cbn [andb]. f_equal. Z.div_mod_to_equations; lia.
  - symmetry. unfold rng. destruct (240 + c / 262144 =? 240) eqn:A, (240 + c / 262144 =? 244) eqn:B; Z.div_mod_to_equations; lia.
Qed.
Theorem decode8_utf8 t : scalars t = true -> decode8 (utf8 t) = Some t.
Proof.
  unfold scalars, utf8. induction t as [|c t IH]; [reflexivity|]. cbn [forallb flat_map]. intro H. apply andb_prop in H.
  destruct H as [H1 H2]. rewrite decode8_char by exact H1. now rewrite (IH H2).
Qed.
(** Nothing else decodes. *)
Theorem decode8_inv b t : decode8 b = Some t -> utf8 t = b /\ scalars t = true.
Proof.
  assert (G : forall n b t, (List.length b <= n)%nat -> decode8 b = Some t -> utf8 t = b /\ scalars t = true).
  2: { intros H. now apply G with (List.length b). }
  clear. induction n as [|n IH]; intros b t L H; destruct b as [|b0 r0]; cbn [List.length] in L;
    try (cbn in H; inversion H; split; reflexivity); [lia|].
  assert (K : forall u (c : Z) rest, ocons c (decode8 rest) = Some u -> (List.length rest <= n)%nat ->
    forall enc, scalar c = true -> utf8_char c = enc -> utf8 u = enc ++ rest /\ scalars u = true).
  { intros u c rest Hu Hl enc Hs He. unfold ocons in Hu. destruct (decode8 rest) as [v|] eqn:Ev; [|discriminate]. inversion Hu; subst u.
    destruct (IH rest v Hl Ev) as [I1 I2]. unfold utf8, scalars in *. cbn [flat_map forallb]. now rewrite I1, I2, He, Hs. }
  cbn [decode8] in H. destruct (rng 0 127 b0) eqn:R0; unfold rng in R0.
  { refine (K t b0 r0 H _ [b0] _ _); [lia|unfold scalar; lia|]. unfold utf8_char. now replace (b0 <? 128) with true by lia. }
  destruct (rng 194 223 b0) eqn:R1; unfold rng in R1.
  { destruct r0 as [|b1 r1]; [discriminate|]. destruct (cont b1) eqn:C1; [|discriminate]. unfold cont in C1. cbn [List.length] in L.
    refine (K t _ r1 H _ [b0; b1] _ _); [lia|unfold scalar; lia|]. unfold utf8_char.
    replace ((b0 - 192) * 64 + (b1 - 128) <? 128) with false by lia. replace ((b0 - 192) * 64 + (b1 - 128) <? 2048) with true by lia.
    f_equal; [|f_equal]; Z.div_mod_to_equations; lia. }
  destruct (rng 224 239 b0) eqn:R2; unfold rng in R2.
  { destruct r0 as [|b1 [|b2 r2]]; [discriminate..|].
    match type of H with (if ?g && _ then _ else _) = _ => destruct g eqn:C1 end; [|discriminate].
    destruct (cont b2) eqn:C2; [|discriminate]. cbn [andb] in H. unfold rng in C1. unfold cont in C2. cbn [List.length] in L.
    assert (B : 2048 <= (b0 - 224) * 4096 + (b1 - 128) * 64 + (b2 - 128) < 65536 /\
      128 <= b1 <= 191 /\ scalar ((b0 - 224) * 4096 + (b1 - 128) * 64 + (b2 - 128)) = true).
    { unfold scalar. destruct (b0 =? 224) eqn:A, (b0 =? 237) eqn:B; lia. }
    destruct B as (B1 & B2 & B3).
    refine (K t _ r2 H _ [b0; b1; b2] B3 _); [lia|]. unfold utf8_char.
    replace ((b0 - 224) * 4096 + (b1 - 128) * 64 + (b2 - 128) <? 128) with false by lia.
    replace ((b0 - 224) * 4096 + (b1 - 128) * 64 + (b2 - 128) <? 2048) with false by lia.
    replace ((b0 - 224) * 4096 + (b1 - 128) * 64 + (b2 - 128) <? 65536) with true by lia.
    clear -R2 B2 C2. f_equal; [|f_equal; [|f_equal]]; Z.div_mod_to_equations; lia. }
  destruct (rng 240 244 b0) eqn:R3; unfold rng in R3; [|discriminate].
  destruct r0 as [|b1 [|b2 [|b3 r3]]]; [discriminate..|].
  match type of H with (if ?g && _ && _ then _ else _) = _ => destruct g eqn:C1 end; [|discriminate].
  destruct (cont b2) eqn:C2; [|discriminate]. destruct (cont b3) eqn:C3; [|discriminate]. cbn [andb] in H.
  unfold rng in C1. unfold cont in C2, C3. cbn [List.length] in L.
  assert (B : 65536 <= (b0 - 240) * 262144 + (b1 - 128) * 4096 + (b2 - 128) * 64 + (b3 - 128) < 1114112 /\ 128 <= b1 <= 191).
  { destruct (b0 =? 240) eqn:A, (b0 =? 244) eqn:B; lia. }
  destruct B as (B1 & B2).
  refine (K t _ r3 H _ [b0; b1; b2; b3] _ _); [lia|unfold scalar; lia|]. unfold utf8_char.
  set (c := (b0 - 240) * 262144 + (b1 - 128) * 4096 + (b2 - 128) * 64 + (b3 - 128)) in *.
  replace (c <? 128) with false by lia. replace (c <? 2048) with false by lia. replace (c <? 65536) with false by lia.
  clear -R3 B2 C2 C3. unfold c. f_equal; [|f_equal; [|f_equal; [|f_equal]]]; Z.div_mod_to_equations; lia.
Qed.
Example decode8_example : decode8 [0x61; 0xD0; 0x96; 0xE2; 0x82; 0xAC; 0xF0; 0x9F; 0x98; 0x80] = Some [0x61; 0x416; 0x20AC; 0x1F600] /\
  decode8 [0xC0; 0x80] = None /\ decode8 [0xED; 0xA0; 0x80] = None.
Proof. repeat split. Qed.
