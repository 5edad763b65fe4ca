(** int(), str(), is_broadcast, get_hash and dir: conversions of basic types,
    pyof/foundation/base.py, basic_types.py and network_types.py. *)
From Coq Require Import ZArith List Bool String.
From Verif Require Import Base PyText Ids PyVal Classes Interp NetTypes Match01 Operators.
Import ListNotations.
Open Scope string_scope.
Open Scope list_scope.
Open Scope Z_scope.

(** [int(x)]: UBIntBase.__int__, base.py:265-269, is [int(self._value)]; the
    other basic types, bit masks (base.py:890-930), members of a plain Enum,
    structs and lists have no __int__.  Simplification: py_int reads ASCII
    numerals, in a str as in a bytes object. *)
Fixpoint to_int (x : pyval) : res Z :=
  match x with
  | VInt z => Ok z
  | VStr s => py_int 10 s
  | VBytes b => py_int 10 b
  | VEnum e z => if is_int_enum e then Ok z else Err TypeError
  | VUInt _ _ y => to_int y
  | _ => Err TypeError
  end.

(** [str(x)]: GenericType.__str__, base.py:68-69, is str(self._value);
    GenericBitMask.__str__, base.py:902-903, is that of its number; Pad has its
    own, basic_types.py:33-34; DPID.__str__, basic_types.py:138-139, returns its
    value, and str() raises TypeError when it is no str.  Not modelled (None):
    bytes, enumeration members (their text differs between versions of Python),
    structs and lists. *)
Fixpoint to_str (x : pyval) : option (res text) :=
  match x with
  | VNone => Some (Ok (txt "None"))
  | VInt z => Some (Ok (if z <? 0 then 45 :: str_dec (- z) else str_dec z))
  | VStr s => Some (Ok s)
  | VMask _ z => Some (Ok (if z <? 0 then 45 :: str_dec (- z) else str_dec z))
  | VPad n => Some (Ok (List.repeat 48 n))
  | VDPID (VStr s) => Some (Ok s)
  | VDPID _ => Some (Err TypeError)
  | VUInt _ _ y | VChar _ y | VIP y _ | VHW y | VBin y => to_str y
  | _ => None
  end.

(** HWAddress.is_broadcast, basic_types.py:546-548: the text is compared
    (value: generic_value without an enumeration; a basic type given as value
    compares by its own value). *)
Fixpoint is_text (x : pyval) (s : text) : bool :=
  match x with
  | VStr t => text_eqb t s
  | VUInt _ _ y | VChar _ y | VIP y _ | VHW y | VDPID y | VBin y => is_text y s
  | _ => false
  end.
Definition is_broadcast (x : pyval) : bool := is_text x (txt "ff:ff:ff:ff:ff:ff").

(** Ethernet.get_hash, network_types.py:284-291, for any function [hash] on
    bytes; also the frame as packing leaves it. *)
Definition get_hash (hash : bytes -> Z) (e : ethernet) : ethernet * res Z :=
  (fst (eth_pack e), do b <- snd (eth_pack e); Ok (hash b)).

(** MetaBitMask.__dir__, base.py:883-887: the names of the metaclass, those of
    the class and the members of the class. *)
Definition class_dir (meta own : list string) (e : eid) : list string :=
  meta ++ own ++ map fst (class_enum e).
