(** What encoding a decoded message again may change: for C43.

    The library does not keep the bytes it skips as padding; it sends zeros.
    Everything else has to come back as it was received. *)
From Coq Require Import ZArith List Bool String.
From Verif Require Import Base PyText Ids PyVal Classes Utils Spec SpecMsg SpecBasic SpecLayout SpecDecode.
Import ListNotations.
Open Scope string_scope.
Open Scope list_scope.
Open Scope Z_scope.

(** Bytes of a number, text or address declared by [d]. *)
Definition kept_width (d : pyval) : option nat :=
  match d with
  | VUInt w _ _ => Some w
  | VChar n _ => Some n
  | VIP _ _ => Some 4%nat
  | VHW _ => Some 6%nat
  | VDPID _ => Some 8%nat
  | _ => None
  end.

(** [cleared d bs bs']: the bytes [bs] of a field declared by [d] with zeros
    for padding are [bs']. *)
Inductive cleared : pyval -> bytes -> bytes -> Prop :=
| cl_same d bs : kept_width d = Some (List.length bs) -> cleared d bs bs
| cl_pad k bs : List.length bs = k -> cleared (VPad k) bs (repeat 0 k)
| cl_struct c a bs bs' : cleared_all (class_attrs c) bs bs' -> cleared (VObj c a) bs bs'
with cleared_all : list (string * pyval) -> bytes -> bytes -> Prop :=
| ca_nil : cleared_all [] [] []
| ca_cons n d fs b1 b1' b2 b2' : cleared d b1 b1' -> cleared_all fs b2 b2' ->
    cleared_all ((n, d) :: fs) (b1 ++ b2) (b1' ++ b2').

(** Records of class [c] up to the end. *)
Inductive cleared_records (c : cid) : bytes -> bytes -> Prop :=
| cr_nil : cleared_records c [] []
| cr_cons b1 b1' b2 b2' : cleared_all (class_attrs c) b1 b1' -> cleared_records c b2 b2' ->
    cleared_records c (b1 ++ b2) (b1' ++ b2').

(** The fields of a message, the last of which may be data or records up to
    the end. *)
Inductive cleared_body : list (string * pyval) -> bytes -> bytes -> Prop :=
| cb_fixed A bs bs' : cleared_all A bs bs' -> cleared_body A bs bs'
| cb_data A n d bs bs' rest : cleared_all A bs bs' -> cleared_body (A ++ [(n, VBin d)]) (bs ++ rest) (bs' ++ rest)
| cb_list A n lc pc i bs bs' rest rest' : cleared_all A bs bs' -> cleared_records pc rest rest' ->
    cleared_body (A ++ [(n, VList lc pc i)]) (bs ++ rest) (bs' ++ rest').

(** The body of a statistics message, by its type: records, one structure
    (what follows it is dropped), or raw bytes. *)
Inductive cleared_form : body_form -> bytes -> bytes -> Prop :=
| cf_list c bs bs' : cleared_records c bs bs' -> cleared_form (BList c) bs bs'
| cf_struct c bs bs' rest : cleared_all (class_attrs c) bs bs' -> cleared_form (BStruct c) (bs ++ rest) bs'
| cf_raw bs : cleared_form BRaw bs bs.

(** The body consists of whole records, or there is one structure. *)
Definition whole (form : body_form) (bs : bytes) : Prop :=
  match form with
  | BList c => c = CNone \/ In c fixed_records /\ exists l t k, openflow_layout c = Some (l, t) /\ List.length bs = (k * t)%nat
  | BStruct c => In c fixed_records /\ exists l t, openflow_layout c = Some (l, t) /\ (t <= List.length bs)%nat
  | BRaw => True
  end.

(** Version, type and transaction id are those of [p], the length is that of
    [p']. *)
Definition same_header (p p' : bytes) : Prop :=
  firstn 2 p' = firstn 2 p /\ big_endian 2 (zlen p') (slice 2 4 p') /\ slice 4 8 p' = slice 4 8 p.

(** The packet [p] with the body [body], cut to the fields of the message, is
    sent again as [p']: the body is the same up to padding. *)
Definition recoded (c : cid) (p body p' : bytes) : Prop :=
  same_header p p' /\ cleared_body (tl (class_attrs c)) body (skipn 8 p').

(** The same for a statistics message with a body of the form [form] at
    [at_]. *)
Definition recoded_stats (c : cid) (at_ : nat) (form : body_form) (p p' : bytes) : Prop :=
  same_header p p' /\
  cleared_all (removelast (tl (class_attrs c))) (slice 8 at_ p) (slice 8 at_ p') /\
  cleared_form form (skipn at_ p) (skipn at_ p').

(** No text fills its field: there is room for the NUL that ends it. *)
Fixpoint ends_in_nul (v : pyval) : bool :=
  match v with
  | VChar n (VStr s) => Nat.ltb (List.length s) n
  | VObj _ attrs => (fix go (l : list (string * pyval)) : bool := match l with [] => true | (_, x) :: l => ends_in_nul x && go l end) attrs
  | VList _ _ items => (fix go (l : list pyval) : bool := match l with [] => true | x :: l => ends_in_nul x && go l end) items
  | _ => true
  end.
