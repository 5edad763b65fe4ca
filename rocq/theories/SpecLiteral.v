(** The texts that the built-in int() reads as numbers of base 10 or 16 (ASCII
    characters): blanks around, a sign, 0x before hexadecimal digits, and
    single underscores between digits. *)
From Coq Require Import ZArith List.
From Verif Require Import PyText SpecBasic.
Import ListNotations.
Open Scope list_scope.
Open Scope Z_scope.

Definition digit_in (base c d : Z) : Prop := hex_digit_of c d /\ d < base.

(** Digits, with at most one underscore between two of them. *)
Inductive grouped (base : Z) : text -> Z -> Prop :=
| gr_one c d : digit_in base c d -> grouped base [c] d
| gr_more t z c d : grouped base t z -> digit_in base c d -> grouped base (t ++ [c]) (base * z + d)
| gr_under t z c d : grouped base t z -> digit_in base c d -> grouped base (t ++ [95; c]) (base * z + d).

Inductive unsigned (base : Z) : text -> Z -> Prop :=
| un_plain t z : grouped base t z -> unsigned base t z
| un_hex x t z : base = 16 -> x = 120 \/ x = 88 -> grouped base t z -> unsigned base (48 :: x :: t) z
| un_hex_under x t z : base = 16 -> x = 120 \/ x = 88 -> grouped base t z -> unsigned base (48 :: x :: 95 :: t) z.

Inductive signed (base : Z) : text -> Z -> Prop :=
| si_none t z : unsigned base t z -> signed base t z
| si_plus t z : unsigned base t z -> signed base (43 :: t) z
| si_minus t z : unsigned base t z -> signed base (45 :: t) (- z).

Definition blank (c : Z) : Prop := 9 <= c <= 13 \/ c = 32.

Definition int_text (base : Z) (t : text) (z : Z) : Prop :=
  exists l s r, Forall blank l /\ Forall blank r /\ t = l ++ s ++ r /\ signed base s z.
