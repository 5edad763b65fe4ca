(** Looking up a field of an OpenFlow 1.3 match and the input port of a
    PacketIn. *)
From Coq Require Import ZArith List Bool String.
From Verif Require Import Base PyText Ids PyVal Classes Interp Operators.
Import ListNotations.
Open Scope string_scope.
Open Scope list_scope.
Open Scope Z_scope.

(** The loop of Match.get_field, v0x04/common/flow_match.py:409-413. *)
Fixpoint find_field (t : pyval) (fields : list pyval) : res pyval :=
  match fields with
  | [] => Ok VNone
  | VObj _ attrs :: tl =>
      do f <- attr_or_error "oxm_field" attrs;
      do e <- py_eq f t;
      if e then attr_or_error "oxm_value" attrs else find_field t tl
  | _ :: _ => Err AttributeError
  end.

(** Match.get_field, v0x04/common/flow_match.py:396-413. *)
Definition get_field (m t : pyval) : res pyval :=
  match m with
  | VObj Match04 attrs =>
      do l <- attr_or_error "oxm_match_fields" attrs;
      do fields <- iterate l;
      find_field t fields
  | _ => Err AttributeError
  end.

(** PacketIn.in_port, v0x04/asynchronous/packet_in.py:87-101.  int.from_bytes of
    anything but bytes raises TypeError (lists of integers, which it also
    accepts, are not modelled). *)
Definition in_port (p : pyval) : res pyval :=
  match p with
  | VObj PacketIn04 attrs =>
      do m <- attr_or_error "match" attrs;
      do v <- get_field m (VEnum E_OxmOfbMatchField04 0);
      match v with
      | VBytes b => Ok (VInt (be_decode b))
      | _ => Err TypeError
      end
  | _ => Err AttributeError
  end.
