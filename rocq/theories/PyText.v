(** Python [str] operations used by the library.  A string is the list of its
    code points. *)
From Coq Require Import ZArith List Bool String Ascii Lia.
From Verif Require Import Base.
Import ListNotations.
Open Scope Z_scope.

Definition text := list Z.

(** Literal strings. *)
Fixpoint txt (s : string) : text :=
  match s with
  | EmptyString => []
  | String c s' => Z.of_nat (nat_of_ascii c) :: txt s'
  end.

Fixpoint text_eqb (a b : text) : bool :=
  match a, b with
  | [], [] => true
  | x :: a', y :: b' => (x =? y) && text_eqb a' b'
  | _, _ => false
  end.

(** [s.split(c)] for a one-character separator. *)
Fixpoint split_acc (sep : Z) (acc : text) (s : text) : list text :=
  match s with
  | [] => [rev acc]
  | c :: tl => if c =? sep then rev acc :: split_acc sep [] tl
               else split_acc sep (c :: acc) tl
  end.
Definition split (sep : Z) (s : text) : list text := split_acc sep [] s.

(** [c.join(parts)] for a one-character separator. *)
Fixpoint join (sep : Z) (parts : list text) : text :=
  match parts with
  | [] => []
  | [p] => p
  | p :: tl => p ++ sep :: join sep tl
  end.

(** [c in s] for a character. *)
Definition has_char (c : Z) (s : text) : bool := existsb (Z.eqb c) s.

(** [s.rstrip(c)] for a one-character argument. *)
Fixpoint drop_lead (c : Z) (s : text) : text :=
  match s with
  | x :: tl => if x =? c then drop_lead c tl else s
  | [] => []
  end.
Definition rstrip (c : Z) (s : text) : text := rev (drop_lead c (rev s)).

Definition colon : Z := 58.
Definition dot : Z := 46.
Definition slash : Z := 47.
Definition underscore : Z := 95.

(** White space skipped by [int()] in an ASCII string (C [isspace]). *)
Definition is_space (c : Z) : bool := ((9 <=? c) && (c <=? 13)) || (c =? 32).
Fixpoint drop_space (s : text) : text :=
  match s with
  | x :: tl => if is_space x then drop_space tl else s
  | [] => []
  end.
Definition strip_space (s : text) : text := rev (drop_space (rev (drop_space s))).

(** Value of a digit character in bases up to 36; 99 when not a digit.
    Simplification: only ASCII digits and letters are digits (Python also
    accepts the decimal digits of other scripts). *)
Definition digit_val (c : Z) : Z :=
  if (48 <=? c) && (c <=? 57) then c - 48
  else if (97 <=? c) && (c <=? 122) then c - 87
  else if (65 <=? c) && (c <=? 90) then c - 55
  else 99.

(** Digits with single underscores between them. [prev] tells whether the
    previous character was a digit. *)
Fixpoint scan_digits (base acc : Z) (prev : bool) (s : text) : option Z :=
  match s with
  | [] => if prev then Some acc else None
  | c :: tl =>
      if c =? underscore then
        if prev then scan_digits base acc false tl else None
      else if digit_val c <? base
           then scan_digits base (acc * base + digit_val c) true tl
           else None
  end.

(** After an optional [0x] prefix (base 16 only) one underscore is allowed. *)
Definition scan_prefixed (base : Z) (s : text) : option Z :=
  match s with
  | 48 :: x :: tl =>
      if (base =? 16) && ((x =? 120) || (x =? 88)) then
        match tl with
        | u :: tl' => if u =? underscore then scan_digits base 0 false tl'
                      else scan_digits base 0 false tl
        | [] => None
        end
      else scan_digits base 0 false s
  | _ => scan_digits base 0 false s
  end.

(** Python [int(s)] (base 10) and [int(s, 16)]. *)
Definition py_int (base : Z) (s : text) : res Z :=
  let s := strip_space s in
  let r := match s with
           | 43 :: tl => scan_prefixed base tl
           | 45 :: tl => option_map Z.opp (scan_prefixed base tl)
           | _ => scan_prefixed base s
           end in
  match r with Some z => Ok z | None => Err ValueError end.

Definition digit_char (d : Z) : Z := if d <? 10 then d + 48 else d + 87.

(** Exactly [n] digits, most significant first ("%.2x", "{:04x}" for values
    that fit, as they always do at the places modelled). *)
Fixpoint fixed_digits (base : Z) (n : nat) (z : Z) : text :=
  match n with
  | O => []
  | S n' => digit_char ((z / base ^ Z.of_nat n') mod base) :: fixed_digits base n' z
  end.

(** Number of digits of [z] in [base], at least 1, bounded by fuel. *)
Fixpoint num_digits (base : Z) (fuel : nat) (z : Z) : nat :=
  match fuel with
  | O => 1%nat
  | S f => if z <? base then 1%nat else S (num_digits base f (z / base))
  end.

(** [str(z)] for z >= 0: a number has at most one digit more than its
    logarithm to base 2. *)
Definition str_dec (z : Z) : text := fixed_digits 10 (num_digits 10 (Z.to_nat (Z.log2 z)) z) z.
