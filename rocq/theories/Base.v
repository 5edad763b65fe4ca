(** Basic notions shared by the model: exceptions as values, byte strings and
    Python's [struct] formats.  Nothing here is specific to one class of /repo;
    the Python standard library functions modelled are named at each
    definition. *)
From Coq Require Import ZArith List Bool String Lia.
Import ListNotations.
Open Scope Z_scope.

(** Exception kinds that the modelled code can raise
    (pyof/foundation/exceptions.py:1-100 and Python built-ins).
    [OutOfFuel] is not a Python exception: it marks exhaustion of the
    recursion bound of the model and is excluded by the theorems.
    UnicodeEncodeError/UnicodeDecodeError are subclasses of ValueError and are
    represented by [ValueError]. *)
Inductive exn : Type :=
| PackException
| UnpackException
| ValidationError
| WrongListItemType
| MethodNotImplemented
| StructError
| ValueError
| TypeError
| KeyError
| AttributeError
| IndexError
| UnboundLocalError
| GenericException
| BadValueException
| OutOfFuel.

Definition exn_eqb (a b : exn) : bool :=
  match a, b with
  | PackException, PackException | UnpackException, UnpackException
  | ValidationError, ValidationError | WrongListItemType, WrongListItemType
  | MethodNotImplemented, MethodNotImplemented
  | StructError, StructError | ValueError, ValueError | TypeError, TypeError
  | KeyError, KeyError | AttributeError, AttributeError
  | IndexError, IndexError | UnboundLocalError, UnboundLocalError
  | GenericException, GenericException | BadValueException, BadValueException
  | OutOfFuel, OutOfFuel => true
  | _, _ => false
  end.

(** Outcome of a Python call: a returned value or a raised exception. *)
Inductive res (A : Type) : Type :=
| Ok (a : A)
| Err (e : exn).
Arguments Ok {A} a.
Arguments Err {A} e.

Definition bind {A B} (r : res A) (f : A -> res B) : res B :=
  match r with Ok a => f a | Err e => Err e end.

Notation "'do' x <- r ; k" := (bind r (fun x => k))
  (at level 200, x pattern, r at level 100, k at level 200, right associativity).

Definition is_ok {A} (r : res A) : bool :=
  match r with Ok _ => true | Err _ => false end.

(** [try r except e1 => e2]: re-raise one exception kind as another. *)
Definition recast {A} (from to : exn) (r : res A) : res A :=
  match r with
  | Err e => if exn_eqb e from then Err to else Err e
  | Ok a => Ok a
  end.

(** A Python [bytes] object: integers intended to be in 0..255. *)
Definition bytes := list Z.

Definition is_byte (b : Z) : Prop := 0 <= b < 256.
Definition is_byteb (b : Z) : bool := (0 <=? b) && (b <? 256).
Definition wf_bytes (bs : bytes) : Prop := Forall is_byte bs.
Definition wf_bytesb (bs : bytes) : bool := forallb is_byteb bs.

Definition zlen {A} (l : list A) : Z := Z.of_nat (List.length l).

(** Python slices with non-negative bounds: [l[b:]], [l[:e]], [l[b:e]]. *)
Definition slice_from {A} (b : nat) (l : list A) : list A := skipn b l.
Definition slice_to {A} (e : nat) (l : list A) : list A := firstn e l.
Definition slice {A} (b e : nat) (l : list A) : list A := skipn b (firstn e l).

(** Big-endian digits: the effect of struct format [!B], [!H], [!I], [!Q]
    for widths 1, 2, 4, 8. *)
Fixpoint be_encode (w : nat) (z : Z) : bytes :=
  match w with
  | O => []
  | S w' => (z / 256 ^ Z.of_nat w') mod 256 :: be_encode w' z
  end.

Fixpoint be_decode_acc (acc : Z) (bs : bytes) : Z :=
  match bs with
  | [] => acc
  | b :: tl => be_decode_acc (acc * 256 + b) tl
  end.
Definition be_decode (bs : bytes) : Z := be_decode_acc 0 bs.

(** Upper bound (exclusive) of an unsigned field of [w] bytes. *)
Definition ulimit (w : nat) : Z := 256 ^ Z.of_nat w.

(** [struct.pack('!?', z)] for one unsigned integer of [w] bytes. *)
Definition struct_pack_u (w : nat) (z : Z) : res bytes :=
  if (0 <=? z) && (z <? ulimit w) then Ok (be_encode w z) else Err StructError.

(** [struct.unpack_from('!?', buff, offset)] for one unsigned integer. *)
Definition struct_unpack_u (w : nat) (buff : bytes) (off : nat) : res Z :=
  let s := slice off (off + w) buff in
  if Nat.eqb (List.length s) w then Ok (be_decode s) else Err StructError.

(** [struct.pack('!nB', *l)] and [struct.pack('!nH', *l)]: [n] unsigned
    integers of [w] bytes each, raising struct.error on a wrong count. *)
Fixpoint struct_pack_us (w : nat) (l : list Z) : res bytes :=
  match l with
  | [] => Ok []
  | z :: tl => do b <- struct_pack_u w z; do bs <- struct_pack_us w tl; Ok (b ++ bs)
  end.
Definition struct_pack_seq (w n : nat) (l : list Z) : res bytes :=
  if Nat.eqb (List.length l) n then struct_pack_us w l else Err StructError.

(** Cut a byte string in groups of [w] bytes and decode each. *)
Fixpoint be_groups (w n : nat) (bs : bytes) : list Z :=
  match n with
  | O => []
  | S n' => be_decode (firstn w bs) :: be_groups w n' (skipn w bs)
  end.
(** [struct.unpack('!nB', s)] / [struct.unpack('!nH', s)]: exact length. *)
Definition struct_unpack_seq (w n : nat) (s : bytes) : res (list Z) :=
  if Nat.eqb (List.length s) (w * n) then Ok (be_groups w n s) else Err StructError.

(** Run a check that may raise over a list, collecting results. *)
Fixpoint mapM {A B} (f : A -> res B) (l : list A) : res (list B) :=
  match l with
  | [] => Ok []
  | a :: tl => do b <- f a; do bs <- mapM f tl; Ok (b :: bs)
  end.
