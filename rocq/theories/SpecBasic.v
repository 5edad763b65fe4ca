(** Vocabulary for stating properties of the basic types, independent of the
    functions of the model. *)
From Coq Require Import ZArith List Bool String.
From Verif Require Import Base PyText Ids PyVal Classes Interp.
Import ListNotations.
Open Scope string_scope.
Open Scope list_scope.
Open Scope Z_scope.

(** Value of a sequence of bytes, most significant first. *)
Fixpoint place_value (bs : bytes) : Z :=
  match bs with
  | [] => 0
  | b :: tl => b * 2 ^ (8 * Z.of_nat (List.length tl)) + place_value tl
  end.

(** [bs] are the [w] base-256 digits of [z], most significant first. *)
Definition big_endian (w : nat) (z : Z) (bs : bytes) : Prop :=
  List.length bs = w /\ wf_bytes bs /\ place_value bs = z.

(** [z] fits in [w] bytes. *)
Definition fits (w : nat) (z : Z) : Prop := 0 <= z < 2 ^ (8 * Z.of_nat w).

(** Python scalars of the model that are not library objects. *)
Inductive scalar : pyval -> Prop :=
| sc_none : scalar VNone
| sc_int z : scalar (VInt z)
| sc_str s : scalar (VStr s)
| sc_bytes b : scalar (VBytes b).

(** Declared members of an enumeration class. *)
Definition declared (e : eid) (z : Z) : Prop :=
  exists name members,
    In (name, z) members /\
    (enum_def e = EInt members \/ enum_def e = EPlain members \/ enum_def e = EMask members).
Definition bit_mask_class (e : eid) : Prop := exists members, enum_def e = EMask members.

(** Characters of the text forms. *)
Definition hex_char (d : Z) : Z := if d <? 10 then 48 + d else 97 + (d - 10).
Definition hex_pair (b : Z) : text := [hex_char (b / 16); hex_char (b mod 16)].
Definition dec_byte (b : Z) : text :=
  if b <? 10 then [48 + b]
  else if b <? 100 then [48 + b / 10; 48 + b mod 10]
  else [48 + b / 100; 48 + (b / 10) mod 10; 48 + b mod 10].

(** Parts separated by one character. *)
Fixpoint separated (c : Z) (parts : list text) : text :=
  match parts with
  | [] => []
  | [p] => p
  | p :: tl => p ++ [c] ++ separated c tl
  end.

(** [aa:bb:cc:...] and [a.b.c.d]. *)
Definition colon_hex (bs : bytes) : text := separated 58 (map hex_pair bs).
Definition dotted_dec (bs : bytes) : text := separated 46 (map dec_byte bs).

(** A hexadecimal digit character, either case, and a decimal one. *)
Definition hex_digit_of (c d : Z) : Prop :=
  (0 <= d <= 9 /\ c = 48 + d) \/ (10 <= d <= 15 /\ (c = 97 + (d - 10) \/ c = 65 + (d - 10))).
Definition dec_digit_of (c d : Z) : Prop := 0 <= d <= 9 /\ c = 48 + d.

(** A non-empty sequence of digits and the number it denotes. *)
Inductive numeral (base : Z) (digit : Z -> Z -> Prop) : text -> Z -> Prop :=
| num_one c d : digit c d -> numeral base digit [c] d
| num_more t z c d : numeral base digit t z -> digit c d ->
                     numeral base digit (t ++ [c]) (base * z + d).
Definition hex_numeral := numeral 16 hex_digit_of.
Definition dec_numeral := numeral 10 dec_digit_of.

(** Four lower-case hexadecimal digits of a 16-bit number. *)
Definition hex_quad (z : Z) : text :=
  [hex_char (z / 4096); hex_char (z / 256 mod 16); hex_char (z / 16 mod 16); hex_char (z mod 16)].

(** Two bytes of each 16-bit number, high byte first. *)
Definition words (zs : list Z) : bytes := flat_map (fun z => [z / 256; z mod 256]) zs.
Definition is_word (z : Z) : Prop := 0 <= z < 65536.
