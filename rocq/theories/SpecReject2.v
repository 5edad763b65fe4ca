(** What pack() refuses, for the messages with a body of their own (C65). *)
From Coq Require Import ZArith List Bool String.
From Verif Require Import Base PyText Ids PyVal Classes Interp Utils Spec SpecBasic SpecMutation SpecLayout SpecMsg SpecReject.
Import ListNotations.
Open Scope string_scope.
Open Scope list_scope.
Open Scope Z_scope.

(** The outcome once the size is stored in the header: the exception of
    get_size(), of a missing header, or of the first field. *)
Definition message_raises (c : cid) (attrs : list (string * pyval)) (e : exn) : Prop :=
  match get_size (VObj c attrs), get_attr "header" attrs with
  | Err e', _ => e = e'
  | Ok s, Some (VObj hc h) => first_refused c (set_attr "header" (VObj hc (set_attr "length" (VInt s) h)) attrs) e
  | Ok _, _ => e = AttributeError
  end.

(** What is false in Python: a basic object is false when its size is 0. *)
Inductive false_value : pyval -> Prop :=
| fv_none : false_value VNone
| fv_zero : false_value (VInt 0)
| fv_text : false_value (VStr [])
| fv_bytes : false_value (VBytes [])
| fv_member e : int_enumeration e -> false_value (VEnum e 0)
| fv_list lc pc : false_value (VList lc pc [])
| fv_basic v : basic v = true -> get_size v = Ok 0 -> false_value v.
(** The size of a basic object that cannot be told. *)
Definition no_truth (v : pyval) (e : exn) : Prop := basic v = true /\ get_size v = Err e.
(** Neither. *)
Definition true_value (v : pyval) : Prop := ~ false_value v /\ forall e, ~ no_truth v e.

(** The body of a statistics or error message is packed first and its bytes
    take its place: [by_bytes c name wrap attrs v e]. *)
Definition by_bytes (c : cid) (name : string) (wrap : bytes -> pyval) (attrs : list (string * pyval)) (v : pyval) (e : exn) : Prop :=
  pack v = Err e \/ exists b, pack v = Ok b /\ message_raises c (set_attr name (wrap b) attrs) e.

(** ErrorMsg of 1.0: data that is neither None nor bytes is packed first. *)
Definition error_raises (attrs : list (string * pyval)) (e : exn) : Prop :=
  exists d, get_attr "data" attrs = Some d /\
    ((d = VNone \/ exists b, d = VBytes b) /\ message_raises ErrorMsg01 attrs e \/
     d <> VNone /\ (forall b, d <> VBytes b) /\ no_object d = true /\ e = AttributeError \/
     no_object d = false /\ by_bytes ErrorMsg01 "data" VBytes attrs d e).

(** StatsRequest: an object is packed first. *)
Definition stats_request_raises (attrs : list (string * pyval)) (e : exn) : Prop :=
  exists d, get_attr "body" attrs = Some d /\
    (no_object d = true /\ message_raises StatsRequest01 attrs e \/
     no_object d = false /\ by_bytes StatsRequest01 "body" VBytes attrs d e).

(** StatsReply: an object that is not false is packed first. *)
Definition stats_reply_raises (attrs : list (string * pyval)) (e : exn) : Prop :=
  exists d, get_attr "body" attrs = Some d /\
    (no_truth d e \/
     (false_value d \/ no_object d = true) /\ message_raises StatsReply01 attrs e \/
     true_value d /\ no_object d = false /\ by_bytes StatsReply01 "body" (fun b => VBin (VBytes b)) attrs d e).

(** Multipart messages: an object that is not false is packed first; a list is
    first taken over into the list that belongs to the type. *)
Definition multipart_raises (f : stats_family) (attrs : list (string * pyval)) (form : body_form) (e : exn) : Prop :=
  exists d, get_attr "body" attrs = Some d /\
    (no_truth d e \/
     false_value d /\ message_raises (stats_class f) attrs e \/
     true_value d /\
     match d with
     | VList _ _ _ =>
         match form with
         | BList c => exists items, leaf_list d items /\
             (Exists (other_class c) items /\ e = WrongListItemType \/
              Forall (fun x => subclass (class_of x) c = true) items /\
              by_bytes (stats_class f) "body" VBytes attrs (VList CFixedTypeList c items) e)
         | _ => e = AttributeError
         end
     | _ => no_object d = true /\ e = UnboundLocalError \/
            no_object d = false /\ by_bytes (stats_class f) "body" VBytes attrs d e
     end).

(** PacketOut: the size of the actions is stored first, then that of the
    message, then the port is looked at. *)
Definition out_list (v : of_version) : cid := match v with V01 => ListOfActions01 | V04 => ListOfActions04 end.
Definition out_action (v : of_version) : cid := match v with V01 => ActionHeader01 | V04 => ActionHeader04 end.
Definition no_list (v : of_version) (a : pyval) : Prop :=
  subclass (class_of a) (out_list v) = false /\ forall lc pc l, a <> VList lc pc l.
Inductive actions_size (v : of_version) (pc : cid) : pyval -> res Z -> Prop :=
| as_list a : subclass (class_of a) (out_list v) = true -> actions_size v pc a (get_size a)
| as_items lc pc' its l : subclass lc (out_list v) = false -> leaf_list (VList lc pc' its) l ->
    Forall (fun x => subclass (class_of x) pc = true) l -> actions_size v pc (VList lc pc' its) (get_size (VList (out_list v) pc l))
| as_wrong lc pc' its l : subclass lc (out_list v) = false -> leaf_list (VList lc pc' its) l ->
    Exists (other_class pc) l -> actions_size v pc (VList lc pc' its) (Err WrongListItemType)
| as_no_truth a e : no_list v a -> no_truth a e -> actions_size v pc a (Err e)
| as_none a : no_list v a -> false_value a -> actions_size v pc a (Ok 0)
| as_one a : no_list v a -> true_value a -> subclass (class_of a) pc = true -> actions_size v pc a (get_size (VList (out_list v) pc [a]))
| as_other a : no_list v a -> true_value a -> other_class pc a -> actions_size v pc a (Err WrongListItemType).
(** The number of a port. *)
Inductive port_number : pyval -> Z -> Prop :=
| po_int z : port_number (VInt z) z
| po_member e z : int_enumeration e -> port_number (VEnum e z) z
| po_held w er z : port_number (VUInt w er (VInt z)) z
| po_held_member w er e z : int_enumeration e -> port_number (VUInt w er (VEnum e z)) z
| po_own_member w e z : ~ is_bit_mask e -> port_number (VUInt w (Some e) (VEnum e z)) z
| po_mask w e z : port_number (VUInt w None (VMask e z)) z
| po_own_mask w e' e z : is_bit_mask e' -> port_number (VUInt w (Some e') (VMask e z)) z.
Definition port_raises (v : of_version) (attrs : list (string * pyval)) (e : exn) : Prop :=
  exists ip, get_attr "in_port" attrs = Some ip /\
    ((forall p, ~ port_number ip p) /\ e = TypeError \/
     exists p, port_number ip p /\ ~ sending_port v p /\ e = ValidationError).
Definition out_raises (v : of_version) (attrs : list (string * pyval)) (e : exn) : Prop :=
  match get_size (VObj (out_class v) attrs), get_attr "header" attrs with
  | Err e', _ => e = e'
  | Ok s, Some (VObj hc h) =>
      port_raises v attrs e \/
      (forall e', ~ port_raises v attrs e') /\
      first_refused (out_class v) (set_attr "header" (VObj hc (set_attr "length" (VInt s) h)) attrs) e
  | Ok _, _ => e = AttributeError
  end.
Definition packet_out_raises (v : of_version) (attrs : list (string * pyval)) (e : exn) : Prop :=
  exists a r, get_attr "actions" attrs = Some a /\ actions_size v (out_action v) a r /\
    match r with Err e' => e = e' | Ok n => out_raises v (set_attr "actions_len" (VInt n) attrs) e end.

(** SetField of 1.3: the field is packed first; the length is the next multiple
    of eight after its bytes and the four bytes before them. *)
Definition set_field_raises (attrs : list (string * pyval)) (e : exn) : Prop :=
  exists f, get_attr "field" attrs = Some f /\
    (no_object f = true /\ e = AttributeError \/
     no_object f = false /\
     (pack f = Err e \/
      exists b n, pack f = Ok b /\ (8 | n) /\ 4 + zlen b <= n < 12 + zlen b /\
        first_refused ActionSetField04 (set_attr "length" (VInt n) attrs) e)).

(** The size of what is given for a list of the items [pc]. *)
Definition not_list (a : pyval) : Prop := forall lc pc l, a <> VList lc pc l.
Inductive taken_size (lc pc : cid) : pyval -> res Z -> Prop :=
| ts_items lc' pc' its l : leaf_list (VList lc' pc' its) l ->
    Forall (fun x => subclass (class_of x) pc = true) l -> taken_size lc pc (VList lc' pc' its) (get_size (VList lc pc l))
| ts_wrong lc' pc' its l : leaf_list (VList lc' pc' its) l -> Exists (other_class pc) l ->
    taken_size lc pc (VList lc' pc' its) (Err WrongListItemType)
| ts_no_truth a e : not_list a -> no_truth a e -> taken_size lc pc a (Err e)
| ts_none a : not_list a -> false_value a -> taken_size lc pc a (Ok 0)
| ts_one a : not_list a -> true_value a -> subclass (class_of a) pc = true -> taken_size lc pc a (get_size (VList lc pc [a]))
| ts_other a : not_list a -> true_value a -> other_class pc a -> taken_size lc pc a (Err WrongListItemType).

(** Match of 1.3: the length is that of the two numbers and of the list. *)
Definition match_raises (attrs : list (string * pyval)) (e : exn) : Prop :=
  exists l r, get_attr "oxm_match_fields" attrs = Some l /\ taken_size OxmMatchFields04 OxmTLV04 l r /\
    match r with Err e' => e = e' | Ok n => first_refused Match04 (set_attr "length" (VInt (4 + n)) attrs) e end.

(** The number of the field of a TLV: one of the standard in the basic class,
    elsewhere an int that is not above 127. *)
Inductive tlv_field (cls : pyval) : pyval -> Z -> Prop :=
| tf_basic f z : port_number cls 0x8000 -> port_number f z -> declared E_OxmOfbMatchField04 z -> tlv_field cls f z
| tf_int z : ~ port_number cls 0x8000 -> z <= 127 -> tlv_field cls (VInt z) z
| tf_member e z : ~ port_number cls 0x8000 -> int_enumeration e -> z <= 127 -> tlv_field cls (VEnum e z) z.
(** OxmTLV: the field, the flag, the value and then what is written. *)
Definition tlv_raises (attrs : list (string * pyval)) (cls f flag val : pyval) (e : exn) : Prop :=
  (forall z, ~ tlv_field cls f z) /\ e = PackException \/
  exists z, tlv_field cls f z /\
    ((forall h, ~ port_number flag h) /\ e = TypeError \/
     exists h, port_number flag h /\
       (pack (VBin val) = Err e \/
        exists b, pack (VBin val) = Ok b /\
          first_refused OxmTLV04 (set_attr "oxm_length" (VInt (zlen b)) (set_attr "oxm_field_and_mask" (VInt (2 * z + h mod 2)) attrs)) e)).
