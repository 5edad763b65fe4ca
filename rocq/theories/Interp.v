(** Model of pack / get_size / unpack of the foundation classes and of the
    classes of /repo/pyof/v0x01 and /repo/pyof/v0x04 that override them.

    Naming: for a method [m] with an optional [value] argument,
    [m0 v] models [v.m()] and [m1 cv iv] models [cv.m(iv)], where [cv] is the
    class attribute and [iv] the value stored in the instance.
    The first argument of the recursive functions bounds the nesting depth. *)
From Coq Require Import ZArith List Bool String.
From Verif Require Import Base PyText Ids PyVal Classes.
Import ListNotations.
Open Scope string_scope.
Open Scope list_scope.
Open Scope Z_scope.

(** ** Classes *)

(** issubclass along the chain of first bases (no class of the library is more
    than 5 levels deep). *)
Fixpoint subclass_fuel (n : nat) (c d : cid) : bool :=
  cid_eqb c d ||
  match n with
  | O => false
  | S n' => match class_base c with
            | Some b => subclass_fuel n' b d
            | None => false
            end
  end.
Definition subclass (c d : cid) : bool := subclass_fuel 6 c d.

Definition class_of (v : pyval) : cid :=
  match v with
  | VNone => CNone
  | VInt _ => CInt
  | VStr _ => CStr
  | VBytes _ => CBytes
  | VEnum _ _ => CEnumMember
  | VMask _ _ => CMaskObj
  | VUInt w _ _ => match w with
                   | 1%nat => CUBInt8 | 2%nat => CUBInt16
                   | 4%nat => CUBInt32 | 8%nat => CUBInt64
                   | _ => CUBIntOther
                   end
  | VPad _ => CPad
  | VChar _ _ => CChar
  | VIP _ _ => CIPAddress
  | VHW _ => CHWAddress
  | VDPID _ => CDPID
  | VBin _ => CBinaryData
  | VObj c _ => c
  | VList lc _ _ => lc
  end.

(** isinstance(v, GenericType) *)
Definition is_generic_type (v : pyval) : bool :=
  match v with
  | VUInt _ _ _ | VPad _ | VChar _ _ | VIP _ _ | VHW _ | VDPID _ | VBin _ => true
  | _ => false
  end.

(** hasattr(v, 'pack'), equally hasattr(v, 'get_size'). *)
Definition has_pack (v : pyval) : bool :=
  match v with
  | VObj _ _ => true
  | VList lc _ _ => negb (cid_eqb lc CList)
  | _ => is_generic_type v
  end.

(** ** Attributes of an instance *)

Fixpoint get_attr (name : string) (attrs : list (string * pyval)) : option pyval :=
  match attrs with
  | [] => None
  | (k, v) :: tl => if String.eqb k name then Some v else get_attr name tl
  end.

(** setattr: replaces in place, or appends (dictionary order). *)
Fixpoint set_attr (name : string) (x : pyval) (attrs : list (string * pyval))
  : list (string * pyval) :=
  match attrs with
  | [] => [(name, x)]
  | (k, v) :: tl => if String.eqb k name then (name, x) :: tl
                    else (k, v) :: set_attr name x tl
  end.

Definition attr_or_error (name : string) (attrs : list (string * pyval)) : res pyval :=
  match get_attr name attrs with Some v => Ok v | None => Err AttributeError end.

(** copy.deepcopy of a class attribute: basic types copy themselves
    (base.py:61-63 and the __deepcopy__ methods of basic_types.py), lists become
    plain FixedTypeList (basic_types.py:809-812), structs copy their
    dictionary. *)
Fixpoint deepcopy (v : pyval) : pyval :=
  match v with
  | VObj c attrs =>
      VObj c ((fix go (l : list (string * pyval)) :=
                 match l with
                 | [] => []
                 | (k, x) :: tl => (k, deepcopy x) :: go tl
                 end) attrs)
  | VList lc pc items =>
      VList (if cid_eqb lc CList then CList else CFixedTypeList) pc (map deepcopy items)
  | _ => v
  end.

(** ** Enumerations *)

Definition enum_values (k : enum_kind) : list Z :=
  match k with EInt l | EPlain l | EMask l => map snd l end.

Definition is_int_enum (e : eid) : bool :=
  match enum_def e with EInt _ => true | _ => false end.

Definition is_member (e : eid) (z : Z) : bool :=
  existsb (Z.eqb z) (enum_values (enum_def e)).

(** [enum_ref(z)] for an integer: ValueError for a non-member of an Enum
    (enum module); any value for a GenericBitMask (base.py:893-900). *)
Definition enum_call (e : eid) (z : Z) : res pyval :=
  match enum_def e with
  | EMask _ => Ok (VMask e z)
  | _ => if is_member e z then Ok (VEnum e z) else Err ValueError
  end.

(** GenericType.value, base.py:132-146 (with is_enum 243-250 and is_bitmask
    252-259). *)
Definition generic_value (er : option eid) (v : pyval) : pyval :=
  let bitmask_or_value := match v with VMask _ z => VInt z | _ => v end in
  match er with
  | Some e => match enum_def e with
              | EMask _ => bitmask_or_value
              | _ => match v with
                     | VEnum e' z => if eid_eqb e e' then VInt z else v
                     | _ => v
                     end
              end
  | None => bitmask_or_value
  end.

(** [value.value] for objects that have that attribute; that of a DPID is the
    value it holds, basic_types.py:141-149. *)
Definition dot_value (v : pyval) : option pyval :=
  match v with
  | VEnum _ z => Some (VInt z)
  | VUInt _ er x => Some (generic_value er x)
  | VPad _ => Some VNone
  | VChar _ x | VIP x _ | VHW x | VBin x => Some (generic_value None x)
  | VDPID x => Some x
  | _ => None
  end.

(** Integer used as such by arithmetic or struct: int and IntEnum members. *)
Definition as_int (v : pyval) : option Z :=
  match v with
  | VInt z => Some z
  | VEnum e z => if is_int_enum e then Some z else None
  | _ => None
  end.

(** Integer obtained by the operators of a GenericType or of an int
    (base.py:93-127: the operators work on [self.value]). *)
Definition num_of (v : pyval) : res Z :=
  match v with
  | VUInt _ er x => match as_int (generic_value er x) with
                    | Some z => Ok z
                    | None => Err TypeError
                    end
  | _ => match as_int v with Some z => Ok z | None => Err TypeError end
  end.

(** ** Basic types *)

(** struct.pack(self._fmt, value) with struct.error turned into PackException,
    base.py:186-193. *)
Definition uint_struct (w : nat) (v : pyval) : res bytes :=
  match as_int v with
  | Some z => recast StructError PackException (struct_pack_u w z)
  | None => Err PackException
  end.

(** UBIntN.pack(value), base.py:148-193. (For an instance of the same class
    value.pack() reaches the same struct.pack of value.value.) *)
Definition uint_pack1 (w : nat) (er : option eid) (d iv : pyval) : res bytes :=
  match iv with
  | VNone => uint_struct w (generic_value er d)
  | _ => match dot_value iv with
         | Some x => uint_struct w x
         | None => uint_struct w iv
         end
  end.

(** UBIntN.unpack, base.py:195-217. *)
Definition uint_unpack (w : nat) (er : option eid) (buff : bytes) (off : nat) : res pyval :=
  recast ValueError UnpackException
    (recast StructError UnpackException
       (do z <- struct_unpack_u w buff off;
        match er with
        | None => Ok (VUInt w er (VInt z))
        | Some e => do m <- enum_call e z; Ok (VUInt w er m)
        end)).

(** Pad.pack, basic_types.py:61-73. *)
Definition zeros (n : nat) : bytes := repeat 0 n.

(** Char: struct.pack('!Ns', bytes(value, 'ascii')) then NUL termination,
    basic_types.py:208-230. *)
Definition char_bytes (len : nat) (v : pyval) : res bytes :=
  match v with
  | VStr s =>
      if forallb (fun c => c <? 128) s then
        let packed := firstn len (s ++ zeros len) in
        Ok (removelast packed ++ [0])
      else Err ValueError
  | _ => Err TypeError
  end.
Definition char_pack1 (len : nat) (d iv : pyval) : res bytes :=
  match iv with
  | VChar len' v' => char_bytes len' v'
  | VNone => char_bytes len d
  | _ => char_bytes len iv
  end.
(** Char.unpack, basic_types.py:232-253. *)
Definition char_unpack (len : nat) (buff : bytes) (off : nat) : res pyval :=
  let s := slice off (off + len) buff in
  if Nat.eqb (List.length s) len then
    if forallb (fun c => c <? 128) s then Ok (VChar len (VStr (rstrip 0 s)))
    else Err ValueError
  else Err GenericException.

(** IPAddress.pack, basic_types.py:280-311. *)
Definition ip_bytes (v : pyval) : res bytes :=
  match v with
  | VStr s =>
      let s := if has_char slash s then hd [] (split slash s) else s in
      do zs <- mapM (py_int 10) (split dot s);
      recast StructError PackException (struct_pack_seq 1 4 zs)
  | VBytes _ => Err TypeError
  | _ => Err AttributeError
  end.
Definition ip_pack1 (d iv : pyval) : res bytes :=
  match iv with VIP x _ => ip_bytes x | VNone => ip_bytes d | _ => ip_bytes iv end.
(** IPAddress.unpack, basic_types.py:313-332 (netmask is left as it was). *)
Definition ip_unpack (m : Z) (buff : bytes) (off : nat) : res pyval :=
  do zs <- recast StructError UnpackException
             (struct_unpack_seq 1 4 (slice off (off + 4) buff));
  Ok (VIP (VStr (join dot (map str_dec zs))) m).

(** HWAddress.pack, basic_types.py:474-504; [value == 0] at line 493. *)
Definition equals_zero (v : pyval) : bool :=
  let zero x := match as_int x with Some z => z =? 0 | None => false end in
  match v with
  | VEnum _ _ => zero v
  | _ => match dot_value v with Some x => zero x | None => zero v end
  end.
Definition hw_bytes (v : pyval) : res bytes :=
  let v := if equals_zero v then VStr (txt "00:00:00:00:00:00") else v in
  match v with
  | VStr s =>
      do zs <- mapM (py_int 16) (split colon s);
      recast StructError PackException (struct_pack_seq 1 6 zs)
  | VBytes _ => Err TypeError
  | _ => Err AttributeError
  end.
Definition hw_pack1 (d iv : pyval) : res bytes :=
  match iv with VHW x => hw_bytes x | VNone => hw_bytes d | _ => hw_bytes iv end.
(** HWAddress.unpack, basic_types.py:506-530. *)
Definition hw_unpack (buff : bytes) (off : nat) : res pyval :=
  do zs <- recast StructError UnpackException
             (struct_unpack_seq 1 6 (slice off (off + 6) buff));
  Ok (VHW (VStr (join colon (map (fixed_digits 16 2) zs)))).

(** DPID.pack, basic_types.py:151-165: no exception is translated. *)
Definition dpid_bytes (v : pyval) : res bytes :=
  match v with
  | VStr s => do zs <- mapM (py_int 16) (split colon s); struct_pack_seq 1 8 zs
  | VBytes _ => Err TypeError
  | _ => Err AttributeError
  end.
Definition dpid_pack1 (d iv : pyval) : res bytes :=
  match iv with VDPID x => dpid_bytes x | VNone => dpid_bytes d | _ => dpid_bytes iv end.
(** DPID.unpack, basic_types.py:167-187: one byte at a time. *)
Definition dpid_unpack (buff : bytes) (off : nat) : res pyval :=
  do zs <- mapM (fun i => do l <- struct_unpack_seq 1 1 (slice (off + i) (off + i + 1) buff);
                          Ok (hd 0 l)) (seq 0 8);
  Ok (VDPID (VStr (join colon (map (fixed_digits 16 2) zs)))).

(** ** Lists *)

(** Leaves visited by FixedTypeList.append, which flattens lists
    (basic_types.py:757-775). *)
Fixpoint flat (v : pyval) : list pyval :=
  match v with
  | VList _ _ items => (fix go (l : list pyval) :=
                          match l with [] => [] | x :: t => (flat x ++ go t)%list end) items
  | _ => [v]
  end.

(** Check each leaf against the declared class. [_pyof_class = None] makes
    issubclass raise TypeError. *)
Fixpoint check_items (pc : cid) (l : list pyval) : res (list pyval) :=
  match l with
  | [] => Ok []
  | x :: tl =>
      if cid_eqb pc CNone then Err TypeError
      else if subclass (class_of x) pc
           then do r <- check_items pc tl; Ok (x :: r)
           else Err WrongListItemType
  end.

(** The objects a [for] loop over [v] visits. *)
Definition iterate (v : pyval) : res (list pyval) :=
  match v with
  | VList _ _ items => Ok items
  | VBytes b => Ok (map VInt b)
  | VStr s => Ok (map (fun c => VStr [c]) s)
  | _ => Err TypeError
  end.

(** TypeList.extend into a fresh FixedTypeList of item class [pc],
    basic_types.py:647-659. *)
Definition list_extend (pc : cid) (v : pyval) : res (list pyval) :=
  do items <- iterate v; check_items pc (flat_map flat items).

(** Python truth value; GenericType defines __len__ as get_size
    (base.py:129-130). *)
Definition truthy (size : pyval -> res Z) (v : pyval) : res bool :=
  match v with
  | VNone => Ok false
  | VInt z => Ok (negb (z =? 0))
  | VStr s => Ok (negb (Nat.eqb (List.length s) 0))
  | VBytes b => Ok (negb (Nat.eqb (List.length b) 0))
  | VEnum e z => Ok (if is_int_enum e then negb (z =? 0) else true)
  | VMask _ _ => Ok true
  | VObj _ _ => Ok true
  | VList _ _ items => Ok (negb (Nat.eqb (List.length items) 0))
  | _ => do s <- size v; Ok (negb (s =? 0))
  end.

(** [ListOfX(items=v)]: TypeList.__init__, basic_types.py:635-645. *)
Definition list_init (size : pyval -> res Z) (pc : cid) (v : pyval) : res (list pyval) :=
  match v with
  | VList _ _ items => check_items pc (flat_map flat items)
  | _ => do t <- truthy size v;
         if t then check_items pc [v] else Ok []
  end.

(** ** Which methods a class overrides *)

Inductive typed_family : Type := TInstruction | TProperty | TMeterBand.

Inductive ckind : Type :=
| KStruct               (* GenericStruct, base.py:489-750 *)
| KMessage              (* GenericMessage, base.py:753-852 *)
| KLen (pos : nat) (upd : bool)
    (* unpack() limits the buffer with the 16-bit length found at [pos];
       [upd]: pack() first stores get_size() in [length] *)
| KTyped (f : typed_family)  (* unpack() picks the class from the type code *)
| KAction01 | KAction04 | KSetField04
| KOxmTLV | KMatch04 | KMatch01 | KBucket
| KPacketOut01 | KPacketOut04
| KErrorMsg01 | KErrorMsg04 | KErrorExp04
| KStatsRequest | KStatsReply
| KMultipartRequest | KMultipartReply.

(** Method overrides of each class; see the anchors at the uses below. *)
Definition kind (c : cid) : ckind :=
  if subclass c ActionSetField04 then KSetField04
  else if subclass c ActionHeader04 then KAction04
  else if subclass c ActionHeader01 then KAction01
  else if subclass c Instruction04 then KTyped TInstruction
  else if subclass c Property04 then KTyped TProperty
  else if subclass c MeterBandHeader04 then KTyped TMeterBand
  else match c with
  | OxmTLV04 => KOxmTLV
  | Match04 => KMatch04
  | Match01 => KMatch01
  | Bucket04 => KBucket
  | HelloElemHeader04 => KLen 2 true
  | TableFeatures04 => KLen 0 true
  | MeterStats04 => KLen 4 true
  | FlowStats01 => KLen 0 false
  | FlowStats04 => KLen 0 false
  | PacketOut01 => KPacketOut01
  | PacketOut04 => KPacketOut04
  | ErrorMsg01 => KErrorMsg01
  | ErrorMsg04 => KErrorMsg04
  | ErrorExperimenterMsg04 => KErrorExp04
  | StatsRequest01 => KStatsRequest
  | StatsReply01 => KStatsReply
  | MultipartRequest04 => KMultipartRequest
  | MultipartReply04 => KMultipartReply
  | _ => if subclass c CGenericMessage then KMessage else KStruct
  end.

(** ** get_size *)

Fixpoint sumM {A} (f : A -> res Z) (l : list A) : res Z :=
  match l with
  | [] => Ok 0
  | a :: tl => do x <- f a; do s <- sumM f tl; Ok (x + s)
  end.

(** BinaryData.get_size, basic_types.py:607-625. *)
Definition bin_size (rec : pyval -> res Z) (v : pyval) : res Z :=
  if has_pack v then rec v
  else match v with
       | VBytes b => Ok (zlen b)
       | VNone => Ok 0
       | _ => Err ValueError
       end.

(** [cv.get_size(iv)]: basic types ignore the value (base.py:219-226 and the
    overrides in basic_types.py); GenericStruct.get_size base.py:660-683;
    ActionHeader v0x04/common/action.py:111-118; Match
    v0x04/common/flow_match.py:378-385; Bucket (ignores the value)
    v0x04/controller2switch/common.py:240-249; TypeList.get_size
    basic_types.py:706-730 ([type(self)(value)] of a plain FixedTypeList is an
    empty list whose item class is [value]). *)
Definition size1 (rec : pyval -> res Z) (cv iv : pyval) : res Z :=
  match cv with
  | VBin d => bin_size rec (match iv with VNone => d | _ => iv end)
  | VObj c _ =>
      match iv with
      | VNone => rec cv
      | _ =>
          match kind c with
          | KBucket => rec cv
          | KAction04 | KSetField04 =>
              if subclass (class_of iv) ActionHeader04 then rec iv else Err ValueError
          | KMatch04 =>
              if subclass (class_of iv) Match04 then rec iv else Err ValueError
          | _ => if subclass (class_of iv) c then rec iv else Err PackException
          end
      end
  | VList lc pc _ =>
      match iv with
      | VNone => rec cv
      | _ => if cid_eqb lc CFixedTypeList then Ok 0
             else do items <- list_init rec pc iv; rec (VList lc pc items)
      end
  | _ => rec cv
  end.

(** _get_instance_attributes zipped with get_class_attributes,
    base.py:567-643: instance values (in dictionary order, restricted to names
    of class attributes) paired positionally with class attributes. *)
Definition is_class_attr (c : cid) (name : string) : bool :=
  existsb (fun p => String.eqb (fst p) name) (class_attrs c).
Definition zip_attrs (c : cid) (attrs : list (string * pyval)) : list (pyval * pyval) :=
  combine (map snd (class_attrs c))
          (map snd (filter (fun p => is_class_attr c (fst p)) attrs)).

(** GenericStruct.get_size(), base.py:677-679. *)
Definition struct_size (rec : pyval -> res Z) (c : cid) (attrs : list (string * pyval)) : res Z :=
  sumM (fun p => size1 rec (fst p) (snd p)) (zip_attrs c attrs).

(** [ceil(n / 8) * 8]. *)
Definition ceil8 (n : Z) : Z := ((n + 7) / 8) * 8.

Fixpoint size0 (n : nat) (v : pyval) : res Z :=
  match n with
  | O => Err OutOfFuel
  | S n' =>
      match v with
      | VUInt w _ _ => Ok (Z.of_nat w)           (* base.py:219-226 *)
      | VPad k => Ok (Z.of_nat k)                 (* basic_types.py:36-48 *)
      | VChar len _ => Ok (Z.of_nat len)          (* calcsize('!Ns') *)
      | VIP _ _ => Ok 4                           (* basic_types.py:334-346 *)
      | VHW _ => Ok 6                             (* basic_types.py:532-544 *)
      | VDPID _ => Ok 8                           (* calcsize('!8B') *)
      | VBin x => bin_size (size0 n') x
      | VObj c attrs =>
          match kind c with
          | KAction04 | KSetField04 | KMatch04 =>
              do s <- struct_size (size0 n') c attrs; Ok (ceil8 s)
          | KBucket =>
              do l <- attr_or_error "length" attrs;
              match l with
              | VNone => struct_size (size0 n') c attrs
              | _ => num_of l
              end
          | _ => struct_size (size0 n') c attrs
          end
      | VList lc pc items =>                      (* basic_types.py:718-728 *)
          if cid_eqb lc CList then Err AttributeError
          else match items with
               | [] => Ok 0
               | x :: _ =>
                   if is_generic_type x
                   then do s <- size0 n' x; Ok (zlen items * s)
                   else sumM (size0 n') items
               end
      | _ => Err AttributeError
      end
  end.

(** ** pack *)

Fixpoint concatM {A} (f : A -> res bytes) (l : list A) : res bytes :=
  match l with
  | [] => Ok []
  | a :: tl => do x <- f a; do s <- concatM f tl; Ok (x ++ s)%list
  end.

(** BinaryData.pack, basic_types.py:574-593. *)
Definition bin_pack (rec : pyval -> res bytes) (v : pyval) : res bytes :=
  if has_pack v then rec v
  else match v with
       | VBytes b => Ok b
       | VNone => Ok []
       | _ => Err ValueError
       end.

(** [cv.pack(iv)]: GenericStruct.pack base.py:699-718 (GenericMessage.pack,
    Instruction.pack, HelloElemHeader.pack, Match.pack behave alike for a
    non-None value); OxmTLV.pack v0x04/common/flow_match.py:265-266;
    TypeList.pack basic_types.py:661-685. *)
Definition pack1 (rec : pyval -> res bytes) (cv iv : pyval) : res bytes :=
  match cv with
  | VUInt w er d => uint_pack1 w er d iv
  | VPad k => Ok (zeros k)
  | VChar len d => char_pack1 len d iv
  | VIP d _ => ip_pack1 d iv
  | VHW d => hw_pack1 d iv
  | VDPID d => dpid_pack1 d iv
  | VBin d => bin_pack rec (match iv with VNone => d | _ => iv end)
  | VObj c _ =>
      match iv with
      | VNone => rec cv
      | _ =>
          match kind c with
          | KOxmTLV => if has_pack iv then rec iv else Err AttributeError
          | KSetField04 => rec cv
          | _ => if subclass (class_of iv) c then rec iv else Err PackException
          end
      end
  | VList lc pc _ =>
      match iv with
      | VNone => rec cv
      | _ =>
          if subclass (class_of iv) lc then rec iv
          else if cid_eqb lc CFixedTypeList then Err TypeError
          else do items <- list_extend pc iv; rec (VList lc pc items)
      end
  | _ => Err AttributeError
  end.

(** _validate_in_port: v0x01/controller2switch/packet_out.py:112-129 and
    v0x04/controller2switch/packet_out.py:122-127, as called by is_valid. *)
Definition valid_in_port (maxp : Z) (virt : list Z) (v : pyval) : res bool :=
  do p <- num_of v;
  Ok (((0 <? p) && (p <=? maxp)) || existsb (Z.eqb p) virt).

(** is_valid(): True for everything (base.py:735-748, 784-796) but PacketOut
    (v0x01 packet_out.py:59-65, v0x04 packet_out.py:69-75). *)
Definition is_valid (c : cid) (attrs : list (string * pyval)) : res bool :=
  match kind c with
  | KPacketOut01 => do p <- attr_or_error "in_port" attrs;
                    valid_in_port 0xff00 [0xfffe; 0xfffd; 0xffff] p
  | KPacketOut04 => do p <- attr_or_error "in_port" attrs;
                    valid_in_port 0xffffff00 [0xfffffffe; 0xfffffffd; 0xffffffff] p
  | _ => Ok true
  end.

(** GenericStruct.pack() with value None, base.py:699-714. *)
Definition struct_pack (rec : pyval -> res bytes) (c : cid)
           (attrs : list (string * pyval)) : res bytes :=
  do ok <- is_valid c attrs;
  if ok then concatM (fun p => pack1 rec (fst p) (snd p)) (zip_attrs c attrs)
  else Err ValidationError.

(** update_header_length then GenericStruct.pack, base.py:820-822, 846-852. *)
Definition message_pack (rec : pyval -> res bytes) (size : pyval -> res Z) (c : cid)
           (attrs : list (string * pyval)) : res bytes :=
  do s <- size (VObj c attrs);
  do h <- attr_or_error "header" attrs;
  match h with
  | VObj hc hattrs =>
      struct_pack rec c
        (set_attr "header" (VObj hc (set_attr "length" (VInt s) hattrs)) attrs)
  | _ => Err AttributeError
  end.

(** _get_oxm_field_int, v0x04/common/flow_match.py:297-301. *)
Definition oxm_field_int (cls field : pyval) : res Z :=
  match num_of cls with
  | Ok 32768 =>
      match num_of field with
      | Ok z => if is_member E_OxmOfbMatchField04 z then Ok z else Err ValueError
      | Err _ => Err ValueError
      end
  | _ =>
      match as_int field with
      | Some z => if 127 <? z then Err ValueError else Ok z
      | None => Err ValueError
      end
  end.

(** Body class of a multipart message: dictionaries in
    v0x04/controller2switch/multipart_request.py:130-156 and
    multipart_reply.py:141-173. [inl c]: a single struct, [inr c]: a list. *)
Definition multipart_body (reply : bool) (t : Z) : option (cid + cid) :=
  if reply then
    match t with
    | 0 => Some (inl Desc04)
    | 8 => Some (inl GroupFeatures04)
    | 11 => Some (inl MeterFeatures04)
    | 0xffff => Some (inl ExperimenterMultipartHeader04)
    | 1 => Some (inr FlowStats04)
    | 2 => Some (inr AggregateStatsReply04)
    | 3 => Some (inr TableStats04)
    | 4 => Some (inr PortStats04)
    | 5 => Some (inr QueueStats04)
    | 6 => Some (inr GroupStats04)
    | 7 => Some (inr GroupDescStats04)
    | 9 => Some (inr MeterStats04)
    | 10 => Some (inr MeterConfig04)
    | 12 => Some (inr TableFeatures04)
    | 13 => Some (inr Port04)
    | _ => None
    end
  else
    match t with
    | 1 => Some (inl FlowStatsRequest04)
    | 2 => Some (inl AggregateStatsRequest04)
    | 4 => Some (inl PortStatsRequest04)
    | 5 => Some (inl QueueStatsRequest04)
    | 6 => Some (inl GroupStatsRequest04)
    | 9 => Some (inl MeterMultipartRequest04)
    | 0xffff => Some (inl ExperimenterMultipartHeader04)
    | 12 => Some (inr TableFeatures04)
    | _ => None
    end.

(** _get_body_instance: same lines.  A UBInt16 type is first turned into the
    enum member (ValueError when it is not one; TypeError without enum_ref);
    other keys are looked up with dict.get. *)
Definition body_instance (reply : bool) (mt : pyval) : res pyval :=
  let pick (t : option Z) :=
    match t with
    | Some t =>
        match multipart_body reply t with
        | Some (inl c) => match new_instance c with Some v => Ok v | None => Err TypeError end
        | Some (inr c) => Ok (VList CFixedTypeList c [])
        | None => Ok (VBin (VBytes []))
        end
    | None => Ok (VBin (VBytes []))
    end in
  match mt with
  | VUInt 2%nat er x =>
      match er with
      | None => Err TypeError
      | Some e =>
          match as_int (generic_value er x) with
          | Some z => do m <- enum_call e z; pick (as_int m)
          | None => Err ValueError
          end
      end
  | VUInt _ _ _ | VPad _ | VChar _ _ | VIP _ _ | VHW _ | VDPID _ | VBin _
  | VObj _ _ | VList _ _ _ => Err TypeError      (* unhashable dictionary keys *)
  | _ => pick (as_int mt)
  end.

(** pack() of an object. [rec] and [size'] are pack and get_size for nested
    values, [size] is get_size for the object itself. *)

(** MultipartRequest.pack, multipart_request.py:88-104, and
    MultipartReply.pack, multipart_reply.py:98-114. *)
Definition multipart_pack (rec : pyval -> res bytes) (size' size : pyval -> res Z) (reply : bool)
           (c : cid) (attrs : list (string * pyval)) : res bytes :=
  do body <- attr_or_error "body" attrs;
  do t <- truthy size' body;
  if t then
    match body with
    | VList _ _ _ =>
        do mt <- attr_or_error "multipart_type" attrs;
        do inst <- body_instance reply mt;
        match inst with
        | VList lc pc _ =>
            do items <- list_extend pc body;
            do b <- rec (VList lc pc items);
            message_pack rec size c (set_attr "body" (VBytes b) attrs)
        | _ => Err AttributeError
        end
    | _ =>
        if has_pack body then
          do b <- rec body; message_pack rec size c (set_attr "body" (VBytes b) attrs)
        else Err UnboundLocalError
    end
  else message_pack rec size c attrs.

(** PacketOut.pack: v0x01 packet_out.py:67-75,105-110; v0x04
    packet_out.py:77-85,115-120. *)
Definition packet_out_pack (rec : pyval -> res bytes) (size' size : pyval -> res Z) (lc : cid)
           (c : cid) (attrs : list (string * pyval)) : res bytes :=
  do acts <- attr_or_error "actions" attrs;
  do alen <- (if subclass (class_of acts) lc then size' acts
              else match list_item lc with
                   | Some pc => do items <- list_init size' pc acts; size' (VList lc pc items)
                   | None => Err TypeError
                   end);
  message_pack rec size c (set_attr "actions_len" (VInt alen) attrs).

(** ErrorMsg.pack, v0x01/asynchronous/error_msg.py:217-225. *)
Definition error_pack01 (rec : pyval -> res bytes) (size : pyval -> res Z)
           (c : cid) (attrs : list (string * pyval)) : res bytes :=
  do d <- attr_or_error "data" attrs;
  match d with
  | VNone | VBytes _ => message_pack rec size c attrs
  | _ => if has_pack d then
           do b <- rec d; message_pack rec size c (set_attr "data" (VBytes b) attrs)
         else Err AttributeError
  end.

(** StatsRequest.pack, stats_request.py:47-56. *)
Definition stats_request_pack (rec : pyval -> res bytes) (size : pyval -> res Z)
           (c : cid) (attrs : list (string * pyval)) : res bytes :=
  do body <- attr_or_error "body" attrs;
  if has_pack body then
    do b <- rec body; message_pack rec size c (set_attr "body" (VBytes b) attrs)
  else message_pack rec size c attrs.

(** StatsReply.pack, stats_reply.py:45-54. *)
Definition stats_reply_pack (rec : pyval -> res bytes) (size' size : pyval -> res Z)
           (c : cid) (attrs : list (string * pyval)) : res bytes :=
  do body <- attr_or_error "body" attrs;
  do t <- truthy size' body;
  if t && has_pack body then
    do b <- rec body; message_pack rec size c (set_attr "body" (VBin (VBytes b)) attrs)
  else message_pack rec size c attrs.

(** ActionSetField.pack, v0x04/common/action.py:398-418. *)
Definition setfield_pack (rec : pyval -> res bytes) (c : cid) (attrs : list (string * pyval))
  : res bytes :=
  do f <- attr_or_error "field" attrs;
  do fb <- (if has_pack f then rec f else Err AttributeError);
  let len := ceil8 (4 + zlen fb) in
  do p <- struct_pack rec c (set_attr "length" (VInt len) attrs);
  Ok (p ++ zeros (Z.to_nat (len - zlen p)))%list.

(** OxmTLV.pack, v0x04/common/flow_match.py:263-301. *)
Definition oxm_pack (rec : pyval -> res bytes) (c : cid) (attrs : list (string * pyval))
  : res bytes :=
  do cls <- attr_or_error "oxm_class" attrs;
  do field <- attr_or_error "oxm_field" attrs;
  do fi <- recast ValueError PackException (oxm_field_int cls field);
  do hm <- attr_or_error "oxm_hasmask" attrs;
  do h <- num_of hm;
  do val <- attr_or_error "oxm_value" attrs;
  do payload <- bin_pack rec val;
  struct_pack rec c
    (set_attr "oxm_length" (VInt (zlen payload))
       (set_attr "oxm_field_and_mask" (VInt (fi * 2 + Z.land h 1)) attrs)).

(** Match.pack, v0x04/common/flow_match.py:356-376. *)
Definition match04_pack (rec : pyval -> res bytes) (size' size : pyval -> res Z)
           (c : cid) (attrs : list (string * pyval)) : res bytes :=
  do s <- struct_size size' c attrs;
  let attrs' := set_attr "length" (VInt s) attrs in
  do p <- struct_pack rec c attrs';
  do padded <- size (VObj c attrs');
  Ok (p ++ zeros (Z.to_nat (padded - zlen p)))%list.

Definition pack_obj (rec : pyval -> res bytes) (size' size : pyval -> res Z)
           (c : cid) (attrs : list (string * pyval)) : res bytes :=
  match kind c with
  | KStruct | KLen _ false | KTyped TMeterBand
  | KAction01 | KAction04 | KMatch01 | KBucket => struct_pack rec c attrs
  | KLen _ true | KTyped TInstruction | KTyped TProperty =>
      (* hello.py:59-69; common.py:449-483,676-688; flow_instructions.py:86-96;
         multipart_reply.py:687-699 *)
      do s <- size (VObj c attrs);
      struct_pack rec c (set_attr "length" (VInt s) attrs)
  | KMessage | KErrorMsg04 | KErrorExp04 => message_pack rec size c attrs
  | KSetField04 => setfield_pack rec c attrs
  | KOxmTLV => oxm_pack rec c attrs
  | KMatch04 => match04_pack rec size' size c attrs
  | KPacketOut01 => packet_out_pack rec size' size ListOfActions01 c attrs
  | KPacketOut04 => packet_out_pack rec size' size ListOfActions04 c attrs
  | KErrorMsg01 => error_pack01 rec size c attrs
  | KStatsRequest => stats_request_pack rec size c attrs
  | KStatsReply => stats_reply_pack rec size' size c attrs
  | KMultipartRequest => multipart_pack rec size' size false c attrs
  | KMultipartReply => multipart_pack rec size' size true c attrs
  end.

Fixpoint pack0 (n : nat) (v : pyval) : res bytes :=
  match n with
  | O => Err OutOfFuel
  | S n' =>
      match v with
      | VUInt w er d => uint_pack1 w er d VNone
      | VPad k => Ok (zeros k)
      | VChar len d => char_pack1 len d VNone
      | VIP d _ => ip_pack1 d VNone
      | VHW d => hw_pack1 d VNone
      | VDPID d => dpid_pack1 d VNone
      | VBin x => bin_pack (pack0 n') x
      | VList lc pc items =>                     (* basic_types.py:671-685 *)
          if cid_eqb lc CList then Err AttributeError
          else concatM (fun x => if has_pack x then pack0 n' x else Err AttributeError) items
      | VObj c attrs => pack_obj (pack0 n') (size0 n') (size0 n) c attrs
      | _ => Err AttributeError
      end
  end.

(** ** unpack *)

(** [type(value).__name__ == "Header"], base.py:842. *)
Definition is_header (v : pyval) : bool :=
  match v with VObj Header01 _ | VObj Header04 _ => true | _ => false end.

(** Attributes filled in by GenericMessage.unpack, base.py:840-844. *)
Definition message_fields (c : cid) : list (string * pyval) :=
  filter (fun p => negb (is_header (snd p))) (class_attrs c).

(** The loop of GenericStruct.unpack, base.py:720-733, with
    _unpack_attribute, base.py:645-658. Returns the dictionary and the offset
    reached. *)
Fixpoint unpack_fields (rec : pyval -> bytes -> nat -> res pyval) (size : pyval -> res Z)
         (fields : list (string * pyval)) (attrs : list (string * pyval))
         (buff : bytes) (begin : nat) : res (list (string * pyval) * nat) :=
  match fields with
  | [] => Ok (attrs, begin)
  | (name, cv) :: tl =>
      let a := deepcopy cv in
      match buff with
      | [] => unpack_fields rec size tl (set_attr name a attrs) buff begin
      | _ =>
          do a' <- rec a buff begin;
          do s <- size a';
          unpack_fields rec size tl (set_attr name a' attrs) buff (begin + Z.to_nat s)
      end
  end.

(** The loop of TypeList.unpack, basic_types.py:688-703. [k] bounds the number
    of items; an item of size 0 makes the Python loop run forever. *)
Fixpoint unpack_items (rec : pyval -> bytes -> nat -> res pyval) (size : pyval -> res Z)
         (pc : cid) (k : nat) (buff : bytes) (begin : nat) : res (list pyval) :=
  if Nat.ltb begin (List.length buff) then
    match k with
    | O => Err OutOfFuel
    | S k' =>
        match new_instance pc with
        | None => Err TypeError
        | Some item =>
            do item' <- rec item buff begin;
            do l <- check_items pc (flat item');
            do s <- size item';
            do rest <- unpack_items rec size pc k' buff (begin + Z.to_nat s);
            Ok (l ++ rest)%list
        end
    end
  else Ok [].

(** find_class: flow_instructions.py:46-51 (assigning None to __class__ is a
    TypeError), v0x04/controller2switch/common.py:96-105, meter_mod.py:63-67. *)
Definition find_class (f : typed_family) (t : Z) : res cid :=
  match f with
  | TInstruction =>
      match t with
      | 1 => Ok InstructionGotoTable04
      | 2 => Ok InstructionWriteMetadata04
      | 3 => Ok InstructionWriteAction04
      | 4 => Ok InstructionApplyAction04
      | 5 => Ok InstructionClearAction04
      | 6 => Ok InstructionMeter04
      | _ => Err TypeError
      end
  | TProperty =>
      if t <=? 1 then Ok InstructionsProperty04
      else if t <=? 3 then Ok NextTablesProperty04
      else if t <=? 7 then Ok ActionsProperty04
      else Ok OxmProperty04
  | TMeterBand =>
      match t with
      | 1 => Ok MeterBandDrop04
      | 2 => Ok MeterBandDscpRemark04
      | 3 => Ok MeterBandExperimenter04
      | _ => Err KeyError
      end
  end.
Definition family_enum (f : typed_family) : eid :=
  match f with
  | TInstruction => E_InstructionType04
  | TProperty => E_TableFeaturePropType04
  | TMeterBand => E_MeterBandType04
  end.

(** Class with [t] among its allowed types, else the class itself:
    v0x01/common/action.py:96-99, v0x04/common/action.py:140-143. *)
Fixpoint action_class (dflt : cid) (l : list (cid * list Z)) (t : Z) : cid :=
  match l with
  | [] => dflt
  | (c, ts) :: tl => if existsb (Z.eqb t) ts then c else action_class dflt tl t
  end.

(** ErrorType.get_class: v0x01/asynchronous/error_msg.py:39-52,
    v0x04/asynchronous/error_msg.py:211-232. *)
Definition error_code_enum (v4 : bool) (t : Z) : eid :=
  if v4 then
    match t with
    | 0 => E_HelloFailedCode04
    | 1 => E_BadRequestCode04
    | 2 => E_BadActionCode04
    | 3 => E_BadInstructionCode04
    | 4 => E_BadMatchCode04
    | 5 => E_FlowModFailedCode04
    | 6 => E_GroupModFailedCode04
    | 7 => E_PortModFailedCode04
    | 8 => E_TableModFailedCode04
    | 9 => E_QueueOpFailedCode04
    | 10 => E_SwitchConfigFailedCode04
    | 11 => E_RoleRequestFailedCode04
    | 12 => E_MeterModFailedCode04
    | 13 => E_TableFeaturesFailedCode04
    | _ => E_GenericFailedCode04
    end
  else
    match t with
    | 0 => E_HelloFailedCode01
    | 1 => E_BadRequestCode01
    | 2 => E_BadActionCode01
    | 3 => E_FlowModFailedCode01
    | 4 => E_PortModFailedCode01
    | 5 => E_QueueOpFailedCode01
    | _ => E_GenericFailedCode01
    end.

(** Body class of a statistics message: the first name in __all__ of
    v0x01/controller2switch/common.py:19-23 that contains the title-cased type
    name and does / does not contain 'Request'
    (stats_request.py:67-77, stats_reply.py:91-101). *)
Definition stats_body (reply : bool) (t : Z) : option cid :=
  if reply then
    match t with
    | 0 => Some DescStats01
    | 1 => Some FlowStats01
    | 2 => Some AggregateStatsReply01
    | 3 => Some TableStats01
    | 4 => Some PortStats01
    | 5 => Some QueueStats01
    | 0xffff => Some VendorStats01
    | _ => None
    end
  else
    match t with
    | 1 => Some FlowStatsRequest01
    | 2 => Some AggregateStatsRequest01
    | 4 => Some PortStatsRequest01
    | 5 => Some QueueStatsRequest01
    | 0xffff => Some VendorStats01
    | _ => None
    end.

(** Integer held by an unpacked UBInt attribute (TypeError when it is still
    None and used in arithmetic). *)
Definition attr_num (name : string) (attrs : list (string * pyval)) : res Z :=
  do v <- attr_or_error name attrs; num_of v.

(** [enum_ref(attr.value)] on an unpacked attribute: ValueError on None. *)
Definition attr_enum (name : string) (attrs : list (string * pyval)) : res Z :=
  do v <- attr_or_error name attrs;
  match num_of v with Ok z => Ok z | Err _ => Err ValueError end.

(** bytes held by a BinaryData attribute after unpack. *)
Definition attr_bytes (name : string) (attrs : list (string * pyval)) : res bytes :=
  do v <- attr_or_error name attrs;
  match v with VBin (VBytes b) => Ok b | _ => Err TypeError end.

(** unpack() of an object. [rec] and [size] are unpack and get_size for nested
    values. *)
Definition decoder : Type := pyval -> bytes -> nat -> res pyval.

(** GenericStruct.unpack, base.py:720-733. *)
Definition unpack_structure (rec : decoder) (size : pyval -> res Z) (c : cid)
           (attrs : list (string * pyval)) (buff : bytes) (off : nat) : res pyval :=
  do r <- unpack_fields rec size (class_attrs c) attrs buff off; Ok (VObj c (fst r)).

(** GenericMessage.unpack, base.py:824-844. *)
Definition unpack_message_fields (rec : decoder) (size : pyval -> res Z) (c : cid)
           (attrs : list (string * pyval)) (buff : bytes) (off : nat)
  : res (list (string * pyval)) :=
  do r <- unpack_fields rec size (message_fields c) attrs buff off; Ok (fst r).

(** ErrorMsg.unpack: v0x01 error_msg.py:245-247, v0x04 error_msg.py:476-478. *)
Definition error_unpack (rec : decoder) (size : pyval -> res Z) (v4 : bool) (c : cid)
           (attrs : list (string * pyval)) (buff : bytes) (off : nat) : res pyval :=
  do at1 <- unpack_message_fields rec size c attrs buff off;
  do t <- attr_enum "error_type" at1;
  do _ <- enum_call (if v4 then E_ErrorType04 else E_ErrorType01) t;
  do code <- attr_enum "code" at1;
  do m <- enum_call (error_code_enum v4 t) code;
  Ok (VObj c (set_attr "code" m at1)).

(** MultipartRequest.unpack, multipart_request.py:121-128, and
    MultipartReply.unpack, multipart_reply.py:132-139. *)
Definition multipart_unpack (rec : decoder) (size : pyval -> res Z) (reply : bool) (c : cid)
           (attrs : list (string * pyval)) (buff : bytes) (off : nat) : res pyval :=
  do at1 <- unpack_message_fields rec size c attrs (skipn off buff) O;
  do t <- attr_enum "multipart_type" at1;
  do m <- enum_call E_MultipartType04 t;
  do inst <- body_instance reply m;
  do b <- attr_bytes "body" at1;
  do body <- rec inst b O;
  Ok (VObj c (set_attr "body" body (set_attr "multipart_type" m at1))).

(** PacketOut.unpack: v0x01 packet_out.py:93-103, v0x04 packet_out.py:103-113. *)
Fixpoint packet_out_fields (rec : decoder) (size : pyval -> res Z)
         (fields at1 : list (string * pyval)) (buff : bytes) (begin : nat)
  : res (list (string * pyval)) :=
  match fields with
  | [] => Ok at1
  | (name, cv) :: tl =>
      let a := deepcopy cv in
      do a' <- (if String.eqb name "actions" then
                  do l <- attr_num "actions_len" at1;
                  rec a (slice begin (begin + Z.to_nat l) buff) O
                else rec a buff begin);
      do s <- size a';
      packet_out_fields rec size tl (set_attr name a' at1) buff (begin + Z.to_nat s)%nat
  end.

(** Structs that hold their own length at [pos]: hello.py:85-88; FlowStats
    v0x01 common.py:243-246, v0x04 multipart_reply.py:311-313; TableFeatures
    common.py:704-706; MeterStats multipart_reply.py:715-719. *)
Definition len_unpack (rec : decoder) (size : pyval -> res Z) (pos : nat) (c : cid)
           (attrs : list (string * pyval)) (buff : bytes) (off : nat) : res pyval :=
  do _ <- uint_unpack 2 None buff (match pos with 4%nat => off | _ => (off + pos)%nat end);
  do l <- uint_unpack 2 None buff (off + pos)%nat;
  do len <- num_of l;
  unpack_structure rec size c attrs (firstn (off + Z.to_nat len) buff) off.

(** Bucket.unpack, v0x04/controller2switch/common.py:230-238. *)
Definition bucket_unpack (rec : decoder) (size : pyval -> res Z) (c : cid)
           (attrs : list (string * pyval)) (buff : bytes) (off : nat) : res pyval :=
  do l <- uint_unpack 2 None buff off;
  do len <- num_of l;
  unpack_structure rec size c attrs (firstn (off + Z.to_nat len) buff) off.

(** Instruction, table feature property and meter band:
    flow_instructions.py:112-119; common.py:473-479; meter_mod.py:110-117. *)
Definition typed_unpack (rec : decoder) (size : pyval -> res Z) (f : typed_family)
           (attrs : list (string * pyval)) (buff : bytes) (off : nat) : res pyval :=
  do t <- uint_unpack 2 (Some (family_enum f)) buff off;
  do tz <- num_of t;
  do c' <- find_class f tz;
  do l <- uint_unpack 2 None buff (off + 2)%nat;
  do len <- num_of l;
  unpack_structure rec size c' attrs (firstn (off + Z.to_nat len) buff) off.

(** ActionHeader.unpack, v0x01/common/action.py:93-101. *)
Definition action01_unpack (rec : decoder) (size : pyval -> res Z) (c : cid)
           (attrs : list (string * pyval)) (buff : bytes) (off : nat) : res pyval :=
  do t <- uint_unpack 2 (Some E_ActionType01) buff off;
  do tz <- num_of t;
  unpack_structure rec size (action_class c action_classes_01 tz)
                   (set_attr "action_type" t attrs) buff off.

(** ActionHeader.unpack, v0x04/common/action.py:134-145. *)
Definition action04_unpack (rec : decoder) (size : pyval -> res Z) (c : cid)
           (attrs : list (string * pyval)) (buff : bytes) (off : nat) : res pyval :=
  do t <- uint_unpack 2 (Some E_ActionType04) buff off;
  do l <- uint_unpack 2 None buff (off + 2)%nat;
  do tz <- num_of t;
  do len <- num_of l;
  unpack_structure rec size (action_class c action_classes_04 tz)
                   (set_attr "length" l (set_attr "action_type" t attrs))
                   (firstn (off + Z.to_nat len) buff) off.

(** OxmTLV.unpack, v0x04/common/flow_match.py:222-252. *)
Definition oxm_unpack (rec : decoder) (size : pyval -> res Z) (c : cid)
           (attrs : list (string * pyval)) (buff : bytes) (off : nat) : res pyval :=
  do r <- unpack_fields rec size (class_attrs c) attrs buff off;
  let at1 := fst r in
  do fm <- attr_num "oxm_field_and_mask" at1;
  do cls <- attr_num "oxm_class" at1;
  do field <- (if cls =? 32768
               then recast ValueError UnpackException
                           (enum_call E_OxmOfbMatchField04 (fm / 2))
               else Ok (VInt (fm / 2)));
  do len <- attr_num "oxm_length" at1;
  Ok (VObj c
        (set_attr "oxm_value" (VBytes (slice (off + 4) (off + 4 + Z.to_nat len) buff))
           (set_attr "oxm_hasmask" (VInt (if Z.land fm 1 =? 1 then 1 else 0))
              (set_attr "oxm_field" field at1)))).

(** Match.unpack, v0x04/common/flow_match.py:387-394. *)
Definition match04_unpack (rec : decoder) (size : pyval -> res Z) (c : cid)
           (attrs : list (string * pyval)) (buff : bytes) (off : nat) : res pyval :=
  do r <- unpack_fields rec size (removelast (class_attrs c)) attrs buff off;
  do len <- attr_num "length" (fst r);
  do r2 <- unpack_fields rec size
             (match get_attr "oxm_match_fields" (class_attrs c) with
              | Some cv => [("oxm_match_fields", cv)]
              | None => []
              end)
             (fst r) (firstn (off + Z.to_nat len) buff) (snd r);
  Ok (VObj c (fst r2)).

(** Match.unpack, v0x01/common/flow_match.py:158-161. *)
Definition match01_unpack (rec : decoder) (size : pyval -> res Z) (c : cid)
           (attrs : list (string * pyval)) (buff : bytes) (off : nat) : res pyval :=
  do r <- unpack_fields rec size (class_attrs c) attrs buff off;
  do w <- uint_unpack 4 (Some E_FlowWildCards01) buff off;
  Ok (VObj c (set_attr "wildcards" w (fst r))).

(** StatsRequest.unpack, stats_request.py:58-77. *)
Definition stats_request_unpack (rec : decoder) (size : pyval -> res Z) (c : cid)
           (attrs : list (string * pyval)) (buff : bytes) (off : nat) : res pyval :=
  do at1 <- unpack_message_fields rec size c attrs buff O;
  do t <- attr_enum "body_type" at1;
  do m <- enum_call E_StatsType01 t;
  do b <- attr_bytes "body" at1;
  do body <- rec (VList CFixedTypeList
                        (match stats_body false t with Some bc => bc | None => CNone end) [])
                 b O;
  Ok (VObj c (set_attr "body" body (set_attr "body_type" m at1))).

(** StatsReply.unpack, stats_reply.py:71-101. *)
Definition stats_reply_unpack (rec : decoder) (size : pyval -> res Z) (c : cid)
           (attrs : list (string * pyval)) (buff : bytes) (off : nat) : res pyval :=
  do at1 <- unpack_message_fields rec size c attrs (skipn off buff) O;
  do t <- attr_enum "body_type" at1;
  do m <- enum_call E_StatsType01 t;
  do b <- attr_bytes "body" at1;
  do inst <- match stats_body true t with
             | None => Ok (VBin (VBytes []))
             | Some DescStats01 => Ok new_DescStats01
             | Some bc => Ok (VList CFixedTypeList bc [])
             end;
  do body <- rec inst b O;
  Ok (VObj c (set_attr "body" body (set_attr "body_type" m at1))).

Definition unpack_obj (rec : decoder) (size : pyval -> res Z) (c : cid)
           (attrs : list (string * pyval)) (buff : bytes) (off : nat) : res pyval :=
  match kind c with
  | KStruct => unpack_structure rec size c attrs buff off
  | KMessage => do at1 <- unpack_message_fields rec size c attrs buff off; Ok (VObj c at1)
  | KLen pos _ => len_unpack rec size pos c attrs buff off
  | KBucket => bucket_unpack rec size c attrs buff off
  | KTyped f => typed_unpack rec size f attrs buff off
  | KAction01 => action01_unpack rec size c attrs buff off
  | KAction04 | KSetField04 => action04_unpack rec size c attrs buff off
  | KOxmTLV => oxm_unpack rec size c attrs buff off
  | KMatch04 => match04_unpack rec size c attrs buff off
  | KMatch01 => match01_unpack rec size c attrs buff off
  | KPacketOut01 | KPacketOut04 =>
      do at1 <- packet_out_fields rec size (message_fields c) attrs buff off; Ok (VObj c at1)
  | KErrorMsg01 => error_unpack rec size false c attrs buff off
  | KErrorMsg04 => error_unpack rec size true c attrs buff off
  | KErrorExp04 => Err MethodNotImplemented (* v0x04 error_msg.py:517-520 *)
  | KStatsRequest => stats_request_unpack rec size c attrs buff off
  | KStatsReply => stats_reply_unpack rec size c attrs buff off
  | KMultipartRequest => multipart_unpack rec size false c attrs buff off
  | KMultipartReply => multipart_unpack rec size true c attrs buff off
  end.

Fixpoint unpack0 (n : nat) (self : pyval) (buff : bytes) (off : nat) : res pyval :=
  match n with
  | O => Err OutOfFuel
  | S n' =>
      match self with
      | VUInt w er _ => uint_unpack w er buff off
      | VPad _ => Ok self                         (* basic_types.py:50-59 *)
      | VChar len _ => char_unpack len buff off
      | VIP _ m => ip_unpack m buff off
      | VHW _ => hw_unpack buff off
      | VDPID _ => dpid_unpack buff off
      | VBin _ => Ok (VBin (VBytes (skipn off buff)))  (* basic_types.py:595-605 *)
      | VList lc pc items =>
          do l <- unpack_items (unpack0 n') (size0 n') pc (S (List.length buff)) buff off;
          Ok (VList lc pc (items ++ l)%list)
      | VObj c attrs => unpack_obj (unpack0 n') (size0 n') c attrs buff off
      | _ => Err AttributeError
      end
  end.

(** ** Entry points *)

(** Nesting depth of a value, counting 3 for a structure. *)
Fixpoint height (v : pyval) : nat :=
  match v with
  | VBin x => S (height x)
  | VObj _ attrs => S (S (S (list_max (map (fun p => height (snd p)) attrs))))
  | VList _ _ items => S (list_max (map height items))
  | _ => O
  end.

(** Nesting depth allowed beyond that of the value, for class attributes and
    for objects created while decoding (Totality.v: it is enough). *)
Definition FUEL : nat := 100.

(** [v.pack()], [v.get_size()], [v.unpack(buff, offset)]. *)
Definition pack (v : pyval) : res bytes := pack0 (FUEL + height v) v.
Definition get_size (v : pyval) : res Z := size0 (FUEL + height v) v.
Definition unpack (v : pyval) (buff : bytes) (off : nat) : res pyval := unpack0 FUEL v buff off.
