(** What is read from bytes that are taken for a TLV or an LLDP packet (C69).

    A TLV is two bytes, seven bits of type and nine bits of length, followed by
    the value; the value ends with the buffer if that comes first. *)
From Coq Require Import ZArith List Bool String.
From Verif Require Import Base PyText Ids PyVal NetTypes.
Import ListNotations.
Open Scope list_scope.
Open Scope Z_scope.

(** [reads sub bs x k]: the bytes start with the TLV [x], with a sub type when
    [sub] is true, which takes [k] bytes. *)
Inductive reads : bool -> bytes -> tlv -> nat -> Prop :=
| reads_plain a b rest t n value : 256 * a + b = 512 * t + Z.of_nat n -> (n < 512)%nat ->
    value = firstn n rest ->
    reads false (a :: b :: rest) (Tlv t (VBin (VBytes value))) (2 + List.length value)
| reads_sub a b sub_type rest t n value : 256 * a + b = 512 * t + Z.of_nat n -> (n < 512)%nat ->
    value = firstn (n - 1) rest ->
    reads true (a :: b :: sub_type :: rest) (SubTlv t sub_type (VBin (VBytes value))) (3 + List.length value).

(** Four TLVs, one behind the other; the first two have a sub type. *)
Inductive reads_lldp (bs : bytes) : lldp -> Prop :=
| reads_four x i y j z k w l : reads true bs x i -> reads true (skipn i bs) y j ->
    reads false (skipn (i + j) bs) z k -> reads false (skipn (i + j + k) bs) w l ->
    reads_lldp bs (mk_lldp x y z w).
