(** Text and binary operands: for C57. *)
From Coq Require Import ZArith List Bool.
From Verif Require Import Base PyText Ids PyVal Classes Interp Operators.
Import ListNotations.
Open Scope Z_scope.

(** A Python str or a basic type that holds one: Char, IPAddress, HWAddress,
    DPID, BinaryData. *)
Inductive has_text : pyval -> list Z -> Prop :=
| ht_str s : has_text (VStr s) s
| ht_char n s : has_text (VChar n (VStr s)) s
| ht_ip s m : has_text (VIP (VStr s) m) s
| ht_hw s : has_text (VHW (VStr s)) s
| ht_dpid s : has_text (VDPID (VStr s)) s
| ht_bin s : has_text (VBin (VStr s)) s.
(** The same for bytes. *)
Inductive has_bytes : pyval -> list Z -> Prop :=
| hb_bytes s : has_bytes (VBytes s) s
| hb_char n s : has_bytes (VChar n (VBytes s)) s
| hb_bin s : has_bytes (VBin (VBytes s)) s.

(** Dictionary order: a proper beginning, or the first difference decides. *)
Definition before (a b : list Z) : Prop :=
  (exists x r, b = a ++ x :: r) \/ exists p x y a' b', a = p ++ x :: a' /\ b = p ++ y :: b' /\ x < y.

(** The four ordering operators between [v] and [u] follow that order of [s]
    and [t]. *)
Definition compares (v u : pyval) (s t : list Z) : Prop :=
  exists lt le gt ge, py_cmp CLt v u = Ok lt /\ py_cmp CLe v u = Ok le /\ py_cmp CGt v u = Ok gt /\ py_cmp CGe v u = Ok ge /\
    (lt = true <-> before s t) /\ (gt = true <-> before t s) /\ (le = true <-> before s t \/ s = t) /\ (ge = true <-> before t s \/ s = t).

(** Plain Python values: None, numbers, texts, bytes and members of
    enumerations; [carries v x]: the operand [v] is, or is a basic type that
    holds, the plain value [x]. *)
Inductive plain : pyval -> Prop :=
| pl_none : plain VNone
| pl_int z : plain (VInt z)
| pl_str s : plain (VStr s)
| pl_bytes s : plain (VBytes s)
| pl_member e z : plain (VEnum e z).
Inductive carries : pyval -> pyval -> Prop :=
| ca_self x : plain x -> carries x x
| ca_uint w er x : plain x -> carries (VUInt w er x) x
| ca_pad n : carries (VPad n) VNone
| ca_char n x : plain x -> carries (VChar n x) x
| ca_ip x m : plain x -> carries (VIP x m) x
| ca_hw x : plain x -> carries (VHW x) x
| ca_dpid x : plain x -> carries (VDPID x) x
| ca_bin x : plain x -> carries (VBin x) x.
(** Two plain values are the same for Python: equal numbers (members of an
    IntEnum are numbers), texts or bytes, None, or the same member. *)
Inductive int_like : pyval -> Z -> Prop :=
| il_int z : int_like (VInt z) z
| il_member e z : (exists l, enum_def e = EInt l) -> int_like (VEnum e z) z.
Inductive same_plain : pyval -> pyval -> Prop :=
| sp_number x y z : int_like x z -> int_like y z -> same_plain x y
| sp_none : same_plain VNone VNone
| sp_str s : same_plain (VStr s) (VStr s)
| sp_bytes s : same_plain (VBytes s) (VBytes s)
| sp_member e z : same_plain (VEnum e z) (VEnum e z).
(** A field declared without an enumeration. *)
Definition no_enumeration (v : pyval) : Prop := forall w e x, v <> VUInt w (Some e) x.
