(** The operators of the basic types, is_valid, 128-bit integers, the names of
    a bit mask and the equality of structures.

    Operands: None, int, str, bytes, enumeration members, GenericBitMask
    instances and the basic types holding one of these.  A basic type whose
    [_value] is again a basic type, and lists or structures as operands of the
    operators of a basic type, are not modelled. *)
From Coq Require Import ZArith List Bool String.
From Verif Require Import Base PyText Ids PyVal Classes Interp.
Import ListNotations.
Open Scope string_scope.
Open Scope list_scope.
Open Scope Z_scope.

(** ** Python's own operators on the plain operands *)

(** [a == b].  Members of a plain Enum and GenericBitMask instances have the
    identity comparison of [object]; a member is unique, two GenericBitMask
    instances are taken to be distinct objects. *)
Definition plain_eq (a b : pyval) : bool :=
  match as_int a, as_int b with
  | Some x, Some y => x =? y
  | _, _ =>
      match a, b with
      | VNone, VNone => true
      | VStr s, VStr t => text_eqb s t
      | VBytes s, VBytes t => text_eqb s t
      | VEnum e x, VEnum f y => eid_eqb e f && (x =? y)
      | _, _ => false
      end
  end.

(** Lexicographic order of str and bytes objects. *)
Fixpoint seq_ltb (a b : list Z) : bool :=
  match a, b with
  | _, [] => false
  | [], _ :: _ => true
  | x :: a', y :: b' => (x <? y) || ((x =? y) && seq_ltb a' b')
  end.

Inductive cmp : Type := CLt | CLe | CGt | CGe.

Definition seq_cmp (op : cmp) (a b : list Z) : bool :=
  match op with
  | CLt => seq_ltb a b
  | CLe => negb (seq_ltb b a)
  | CGt => seq_ltb b a
  | CGe => negb (seq_ltb a b)
  end.
Definition int_cmp (op : cmp) (x y : Z) : bool :=
  match op with CLt => x <? y | CLe => x <=? y | CGt => y <? x | CGe => y <=? x end.

Definition plain_cmp (op : cmp) (a b : pyval) : res bool :=
  match as_int a, as_int b with
  | Some x, Some y => Ok (int_cmp op x y)
  | _, _ =>
      match a, b with
      | VStr s, VStr t => Ok (seq_cmp op s t)
      | VBytes s, VBytes t => Ok (seq_cmp op s t)
      | _, _ => Err TypeError
      end
  end.

Inductive binop : Type := BAdd | BSub | BOr | BAnd | BXor | BShl | BShr.

Definition int_op (op : binop) (x y : Z) : res pyval :=
  match op with
  | BAdd => Ok (VInt (x + y))
  | BSub => Ok (VInt (x - y))
  | BOr => Ok (VInt (Z.lor x y))
  | BAnd => Ok (VInt (Z.land x y))
  | BXor => Ok (VInt (Z.lxor x y))
  | BShl => if y <? 0 then Err ValueError else Ok (VInt (Z.shiftl x y))
  | BShr => if y <? 0 then Err ValueError else Ok (VInt (Z.shiftr x y))
  end.

Definition plain_op (op : binop) (a b : pyval) : res pyval :=
  match as_int a, as_int b with
  | Some x, Some y => int_op op x y
  | _, _ =>
      match op, a, b with
      | BAdd, VStr s, VStr t => Ok (VStr (s ++ t))
      | BAdd, VBytes s, VBytes t => Ok (VBytes (s ++ t))
      | _, _, _ => Err TypeError
      end
  end.

(** ** GenericType, base.py:41-259 *)

(** [self._value]; other operands are themselves. *)
Definition inner (v : pyval) : pyval :=
  match v with
  | VUInt _ _ x => x
  | VPad _ => VNone
  | VChar _ x | VIP x _ | VHW x | VDPID x | VBin x => x
  | _ => v
  end.

(** [self.value], base.py:132-146; DPID has its own, basic_types.py:141-149. *)
Definition value_of (v : pyval) : pyval :=
  match v with
  | VUInt _ er x => generic_value er x
  | VDPID x => x
  | _ => generic_value None (inner v)
  end.

(** isinstance(other, self.__class__): none of the basic types derives from
    another one. *)
Definition same_type (a b : pyval) : bool :=
  match a, b with
  | VUInt w _ _, VUInt w' _ _ => Nat.eqb w w'
  | VPad _, VPad _ | VChar _ _, VChar _ _ | VIP _ _, VIP _ _
  | VHW _, VHW _ | VDPID _, VDPID _ | VBin _, VBin _ => true
  | _, _ => false
  end.

(** __eq__, base.py:71-76. *)
Definition generic_eq (self other : pyval) : res bool :=
  if same_type self other
  then do x <- pack self; do y <- pack other; Ok (text_eqb x y)
  else match dot_value other with
       | Some v => Ok (plain_eq (value_of self) v)
       | None => Ok (plain_eq (value_of self) other)
       end.

(** [a == b]: the method of the left operand; an int, str, bytes, None or Enum
    on the left gives NotImplemented and Python calls the method of the right
    operand. *)
Definition py_eq (a b : pyval) : res bool :=
  if is_generic_type a then generic_eq a b
  else if is_generic_type b then generic_eq b a
  else Ok (plain_eq a b).

(** [a != b]: __ne__, base.py:78-79, compares [self._value] with [other]; with
    a basic type on the right Python calls its __ne__ in turn. *)
Definition py_ne (a b : pyval) : bool := negb (plain_eq (inner a) (inner b)).

(** [a < b], [a <= b], [a > b], [a >= b]: base.py:81-91, on [self._value];
    with a basic type on the right Python calls the mirrored method of the
    right operand. *)
Definition py_cmp (op : cmp) (a b : pyval) : res bool := plain_cmp op (inner a) (inner b).

(** [x op right] for a plain [x] and a basic type [right]: Python calls the
    reflected method, base.py:96-97, 102-103, 108-109, 114-115, 120-121, which
    computes [right.value op x] in this order; there is no reflected shift. *)
Definition reflected (op : binop) (x right : pyval) : res pyval :=
  match op with
  | BShl | BShr => Err TypeError
  | _ => plain_op op (value_of right) x
  end.

(** [a op b], base.py:93-127. *)
Definition py_op (op : binop) (a b : pyval) : res pyval :=
  let x := if is_generic_type a then value_of a else a in
  if is_generic_type b then reflected op x b else plain_op op x b.

(** is_valid, base.py:228-241: only BadValueException is caught. *)
Definition type_is_valid (v : pyval) : res bool :=
  match pack v with
  | Ok _ => Ok true
  | Err BadValueException => Ok false
  | Err e => Err e
  end.

(** ** UBInt128, basic_types.py:116-122: [_fmt = "!8H"], eight 16-bit numbers *)

(** GenericType.pack with this format, base.py:181-193: struct.pack gets one
    argument for eight items. *)
Definition u128_pack (er : option eid) (x : pyval) : res bytes :=
  match as_int (generic_value er x) with
  | Some z => recast StructError PackException (struct_pack_seq 2 8 [z])
  | None => Err PackException
  end.

(** GenericType.unpack with this format, base.py:195-217 (enum_ref None): the
    first of the eight numbers is kept. *)
Definition u128_unpack (buff : bytes) (off : nat) : res pyval :=
  recast StructError UnpackException
    (do l <- struct_unpack_seq 2 8 (slice off (off + 16) buff);
     match l with z :: _ => Ok (VInt z) | [] => Err IndexError end).

(** struct.calcsize, base.py:219-226. *)
Definition u128_size : Z := 16.

(** ** Bit masks, base.py:855-930 *)

(** An instance: its class, [bitmask] and [_enum]. *)
Record mask : Type := Mask { m_class : eid; m_bits : pyval; m_enum : list (string * Z) }.

(** The class-level [_enum] built by MetaBitMask.__new__, base.py:867-878. *)
Definition class_enum (e : eid) : list (string * Z) :=
  match enum_def e with EMask l => l | _ => [] end.

(** [cls.NAME], MetaBitMask.__getattr__, base.py:880-881 (the name is not an
    ordinary attribute of the class). *)
Fixpoint assoc (name : string) (l : list (string * Z)) : res Z :=
  match l with
  | [] => Err KeyError
  | (k, z) :: tl => if String.eqb k name then Ok z else assoc name tl
  end.
Definition class_member (e : eid) (name : string) : res Z := assoc name (class_enum e).

(** __init__, base.py:893-900: the instance gets an empty [_enum] of its own. *)
Definition mask_init (e : eid) (bits : pyval) : mask := Mask e bits [].

(** names, base.py:908-920, over iteritems, base.py:922-930. *)
Fixpoint names_in (l : list (string * Z)) (bits : pyval) : res (list string) :=
  match l with
  | [] => Ok []
  | (k, z) :: tl =>
      do r <- plain_op BAnd (VInt z) bits;
      do rest <- names_in tl bits;
      Ok (if plain_eq r (VInt 0) then rest else k :: rest)
  end.
Definition mask_names (m : mask) : res (list string) := names_in (m_enum m) (m_bits m).

(** ** Structures *)

(** GenericStruct.__eq__, base.py:506-519; [other] without a pack method gives
    AttributeError. *)
Definition struct_eq (a b : pyval) : res bool :=
  do x <- pack a;
  if has_pack b then do y <- pack b; Ok (text_eqb x y) else Err AttributeError.
