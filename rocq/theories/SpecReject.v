(** Which values pack() refuses, and with which exception (C65).

    [refused cv iv e]: a field declared as [cv] that holds [iv] makes pack()
    raise [e].  What int(text, base) and str.split of Python give is taken from
    their model (PyText.v). *)
From Coq Require Import ZArith List Bool String.
From Verif Require Import Base PyText Ids PyVal Classes Interp SpecBasic SpecMutation SpecLayout.
Import ListNotations.
Open Scope string_scope.
Open Scope list_scope.
Open Scope Z_scope.

Definition int_enumeration (e : eid) : Prop := exists l, enum_def e = EInt l.
Definition is_bit_mask (e : eid) : Prop := exists l, enum_def e = EMask l.

(** The number written for a value in an integer field: an int, a member of an
    enumeration, or a basic object that holds one of these; a member of a plain
    Enum only in a field of that enumeration, a bit mask in a field of a mask
    or of no enumeration, and not in a datapath id. *)
Inductive number : pyval -> Z -> Prop :=
| nu_int z : number (VInt z) z
| nu_member e z : number (VEnum e z) z
| nu_held v z : held (VInt z) v -> number v z
| nu_held_member v e z : held (VEnum e z) v -> int_enumeration e -> number v z
| nu_own_member w e z : ~ is_bit_mask e -> number (VUInt w (Some e) (VEnum e z)) z
| nu_mask w e z : number (VUInt w None (VMask e z)) z
| nu_own_mask w e' e z : is_bit_mask e' -> number (VUInt w (Some e') (VMask e z)) z
| nu_other_mask v e z : held (VMask e z) v -> (forall w er x, v <> VUInt w er x) -> (forall x, v <> VDPID x) -> number v z.

(** Texts of numbers separated by a character. *)
Definition some_part_no_number (base : Z) (parts : list text) : Prop := Exists (fun p => forall z, py_int base p <> Ok z) parts.
Definition numbers (base : Z) (parts : list text) (zs : list Z) : Prop := Forall2 (fun p z => py_int base p = Ok z) parts zs.
Definition n_bytes (n : nat) (zs : list Z) : Prop := List.length zs = n /\ Forall (fun z => 0 <= z < 256) zs.
(** The text before the first '/'. *)
Inductive before_slash : text -> text -> Prop :=
| bs_none s : ~ In slash s -> before_slash s s
| bs_some s rest : ~ In slash s -> before_slash (s ++ slash :: rest) s.

(** What compares equal to 0. *)
Definition is_zero (x : pyval) : Prop := number x 0 /\ forall e z, x = VEnum e z -> int_enumeration e.
(** [no_address base n range_error parts_of x e]: [x] is not the text of [n]
    bytes, written in [base]. *)
Inductive no_address (base : Z) (n : nat) (range_error : exn) (parts_of : text -> list text -> Prop) : pyval -> exn -> Prop :=
| ad_bytes b : no_address base n range_error parts_of (VBytes b) TypeError
| ad_other x : (forall s, x <> VStr s) -> (forall b, x <> VBytes b) -> no_address base n range_error parts_of x AttributeError
| ad_text s parts : parts_of s parts -> some_part_no_number base parts -> no_address base n range_error parts_of (VStr s) ValueError
| ad_range s parts zs : parts_of s parts -> numbers base parts zs -> ~ n_bytes n zs ->
    no_address base n range_error parts_of (VStr s) range_error.
Definition ip_parts (s : text) (parts : list text) : Prop := exists t, before_slash s t /\ parts = split dot t.
Definition colon_parts (s : text) (parts : list text) : Prop := parts = split colon s.

(** What a field of a basic type holds: the value itself, what a basic object
    of the same type in it holds, or the default. *)
Definition held_text (d iv : pyval) : pyval := match iv with VChar _ x => x | VNone => d | _ => iv end.
Definition held_ip (d iv : pyval) : pyval := match iv with VIP x _ => x | VNone => d | _ => iv end.
Definition held_hw (d iv : pyval) : pyval := match iv with VHW x => x | VNone => d | _ => iv end.
Definition held_dpid (d iv : pyval) : pyval := match iv with VDPID x => x | VNone => d | _ => iv end.

(** Values without a pack() method. *)
Definition no_object (v : pyval) : bool :=
  match v with VNone | VInt _ | VStr _ | VBytes _ | VEnum _ _ | VMask _ _ => true | VList lc _ _ => cid_eqb lc CList | _ => false end.

(** The objects a list field takes over from a value that is not a list of its
    class. *)
Inductive iterated : pyval -> list pyval -> Prop :=
| it_list lc pc items l : leaf_list (VList lc pc items) l -> iterated (VList lc pc items) l
| it_bytes b : iterated (VBytes b) (map VInt b)
| it_text s : iterated (VStr s) (map (fun c => VStr [c]) s).
Definition not_iterable (v : pyval) : Prop := match v with VList _ _ _ | VBytes _ | VStr _ => False | _ => True end.
Definition other_class (pc : cid) (v : pyval) : Prop := subclass (class_of v) pc = false.

Inductive refused : pyval -> pyval -> exn -> Prop :=
| rf_int w er d iv : (forall z, number (match iv with VNone => VUInt w er d | _ => iv end) z -> ~ fits w z) ->
    refused (VUInt w er d) iv PackException
| rf_text_type n d iv : (forall s, held_text d iv <> VStr s) -> refused (VChar n d) iv TypeError
| rf_text_ascii n d iv s : held_text d iv = VStr s -> Exists (fun c => 128 <= c) s -> refused (VChar n d) iv ValueError
| rf_ip d m iv e : no_address 10 4 PackException ip_parts (held_ip d iv) e -> refused (VIP d m) iv e
| rf_hw d iv e : ~ is_zero (held_hw d iv) -> no_address 16 6 PackException colon_parts (held_hw d iv) e -> refused (VHW d) iv e
| rf_dpid d iv e : no_address 16 8 StructError colon_parts (held_dpid d iv) e -> refused (VDPID d) iv e
| rf_raw d iv : no_object (or_default d iv) = true -> or_default d iv <> VNone -> (forall b, or_default d iv <> VBytes b) ->
    refused (VBin d) iv ValueError
| rf_raw_object d iv e : no_object (or_default d iv) = false -> pack (or_default d iv) = Err e -> refused (VBin d) iv e
| rf_default c ca e : pack (VObj c ca) = Err e -> refused (VObj c ca) VNone e
| rf_class c ca iv : c <> OxmTLV04 -> iv <> VNone -> other_class c iv -> refused (VObj c ca) iv PackException
| rf_object c ca iv e : c <> OxmTLV04 -> iv <> VNone -> subclass (class_of iv) c = true -> pack iv = Err e -> refused (VObj c ca) iv e
| rf_tlv ca iv : iv <> VNone -> no_object iv = true -> refused (VObj OxmTLV04 ca) iv AttributeError
| rf_tlv_object ca iv e : iv <> VNone -> no_object iv = false -> pack iv = Err e -> refused (VObj OxmTLV04 ca) iv e
| rf_list lc pc l iv e : iv <> VNone -> subclass (class_of iv) lc = true -> pack iv = Err e -> refused (VList lc pc l) iv e
| rf_fixed pc l iv : iv <> VNone -> other_class CFixedTypeList iv -> refused (VList CFixedTypeList pc l) iv TypeError
| rf_not_iterable lc pc l iv : lc <> CFixedTypeList -> iv <> VNone -> other_class lc iv -> not_iterable iv -> refused (VList lc pc l) iv TypeError
| rf_item lc pc l iv items : lc <> CFixedTypeList -> other_class lc iv -> iterated iv items -> Exists (other_class pc) items ->
    refused (VList lc pc l) iv WrongListItemType
| rf_items lc pc l iv items e : lc <> CFixedTypeList -> other_class lc iv -> iterated iv items -> Forall (fun x => subclass (class_of x) pc = true) items ->
    pack (VList lc pc items) = Err e -> refused (VList lc pc l) iv e.

(** The first field that is refused. *)
Definition first_refused (c : cid) (attrs : list (string * pyval)) (e : exn) : Prop :=
  exists before f after iv, class_attrs c = before ++ f :: after /\
    Forall (fun g => exists v, get_attr (fst g) attrs = Some v /\ forall e', ~ refused (snd g) v e') before /\
    get_attr (fst f) attrs = Some iv /\ refused (snd f) iv e.

(** The first item of a list that is refused. *)
Definition first_item (items : list pyval) (e : exn) : Prop :=
  exists before x after, items = before ++ x :: after /\ Forall (fun y => exists b, pack y = Ok b) before /\ pack x = Err e.

(** Classes whose pack() only writes the fields. *)
Definition only_fields (c : cid) : bool :=
  negb (subclass c CGenericMessage) &&
  (forallb (fun p => negb (computed c (fst p))) (class_attrs c) || existsb (cid_eqb c) [Header01; Header04]).
(** Those that store their own size first. *)
Definition own_length (c : cid) : bool :=
  existsb (cid_eqb c) [HelloElemHeader04; TableFeatures04; MeterStats04] || subclass c Instruction04 || subclass c Property04.
(** Messages that store their size in the header first. *)
Definition only_header (c : cid) : bool :=
  subclass c CGenericMessage &&
  negb (existsb (cid_eqb c) [ErrorMsg01; PacketOut01; PacketOut04; StatsRequest01; StatsReply01; MultipartRequest04; MultipartReply04]).
Definition basic (v : pyval) : bool :=
  match v with VUInt _ _ _ | VPad _ | VChar _ _ | VIP _ _ | VHW _ | VDPID _ | VBin _ => true | _ => false end.
