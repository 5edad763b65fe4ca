(** The Python objects the library works with. *)
From Coq Require Import ZArith List String.
From Verif Require Import Base PyText Ids.
Import ListNotations.
Open Scope Z_scope.

(** Kinds of enumeration: [IntEnum], plain [Enum], [GenericBitMask]
    (pyof/foundation/base.py:855-930), with the declared names and values. *)
Inductive enum_kind : Type :=
| EInt (members : list (string * Z))
| EPlain (members : list (string * Z))
| EMask (members : list (string * Z)).

(** A Python value.
    - [VInt]: int (bool is represented by 0/1);
    - [VEnum e z]: the member of enumeration [e] with value [z];
    - [VMask e z]: a GenericBitMask instance of class [e] with [bitmask = z];
    - [VUInt w er v]: a UBInt8/16/32/64 instance ([w] = 1/2/4/8 bytes) with
      [enum_ref = er] and [_value = v] (base.py:41-269, basic_types.py:80-113);
    - [VPad n], [VChar len v], [VIP v netmask], [VHW v], [VDPID v], [VBin v]:
      instances of Pad, Char, IPAddress, HWAddress, DPID, BinaryData holding
      [_value = v] (basic_types.py:16-77, 125-629);
    - [VObj c attrs]: instance of the GenericStruct subclass [c] with its
      instance dictionary in insertion order (base.py:489-852);
    - [VList lc pc items]: a list object of class [lc] ([CList] for the
      built-in list) with [_pyof_class = pc] (basic_types.py:632-881). *)
Inductive pyval : Type :=
| VNone
| VInt (z : Z)
| VStr (s : text)
| VBytes (b : bytes)
| VEnum (e : eid) (z : Z)
| VMask (e : eid) (z : Z)
| VUInt (w : nat) (er : option eid) (v : pyval)
| VPad (n : nat)
| VChar (len : nat) (v : pyval)
| VIP (v : pyval) (netmask : Z)
| VHW (v : pyval)
| VDPID (v : pyval)
| VBin (v : pyval)
| VObj (c : cid) (attrs : list (string * pyval))
| VList (lc pc : cid) (items : list pyval).
