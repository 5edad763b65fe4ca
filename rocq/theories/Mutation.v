(** What pack() stores in the packed object and in the objects inside it.

    [stored v] is [v] after [v.pack()] has returned.  The attributes visited are
    the ones the pack functions of Interp visit, in the same way.

    Simplifications.  The class attribute that stands in for an attribute whose
    value is None is an object shared by all instances; what is stored in it is
    not modelled.  An object that occurs twice is two values here.  Instance
    and class attributes are paired by name, which is how they are paired by
    position when the instance has the attributes of its class in order.  The
    state after an exception is only modelled for the attribute that pack()
    replaces temporarily ([left_behind]). *)
From Coq Require Import ZArith List Bool String.
From Verif Require Import Base PyText Ids PyVal Classes Interp.
Import ListNotations.
Open Scope string_scope.
Open Scope list_scope.
Open Scope Z_scope.

(** The objects that end up in a list extended with [v], basic_types.py:647-659. *)
Fixpoint leaves (f : pyval -> pyval) (v : pyval) : pyval :=
  match v with
  | VList lc pc items => VList lc pc (map (leaves f) items)
  | _ => f v
  end.

Section Store.
  Variable st : pyval -> pyval.     (* what pack() of a nested object stores *)

  (** [cv.pack(iv)], as [pack1]. *)
  Definition store1 (cv iv : pyval) : pyval :=
    match cv with
    | VBin _ => if has_pack iv then st iv else iv
    | VObj c _ =>
        match iv with
        | VNone => iv
        | _ =>
            match kind c with
            | KOxmTLV => if has_pack iv then st iv else iv
            | KSetField04 => iv
            | _ => if subclass (class_of iv) c then st iv else iv
            end
        end
    | VList lc _ _ =>
        match iv with
        | VNone => iv
        | _ => if subclass (class_of iv) lc then st iv
               else if cid_eqb lc CFixedTypeList then iv
               else match iv with VList _ _ _ => leaves st iv | _ => iv end
        end
    | _ => iv
    end.

  (** The loop of GenericStruct.pack, base.py:705-713. *)
  Definition store_attrs (c : cid) (attrs : list (string * pyval)) : list (string * pyval) :=
    map (fun p => match get_attr (fst p) (class_attrs c) with
                  | Some cv => (fst p, store1 cv (snd p))
                  | None => p
                  end) attrs.

  (** update_header_length, then the loop, base.py:820-822, 846-852. *)
  Definition message_store (size : pyval -> res Z) (c : cid) (attrs : list (string * pyval)) : list (string * pyval) :=
    match size (VObj c attrs), get_attr "header" attrs with
    | Ok s, Some (VObj hc hattrs) =>
        store_attrs c (set_attr "header" (VObj hc (set_attr "length" (VInt s) hattrs)) attrs)
    | _, _ => attrs
    end.

  (** The object that is packed and put in the place of an attribute while the
      message is packed; [b] are its bytes.  Then the attribute is restored. *)
  Definition swapped (size : pyval -> res Z) (c : cid) (name : string) (b x : pyval) (attrs : list (string * pyval))
      : list (string * pyval) :=
    set_attr name x (message_store size c (set_attr name b attrs)).

  (** The methods of pack_obj. *)
  Definition store_obj (rec : pyval -> res bytes) (size' size : pyval -> res Z)
             (c : cid) (attrs : list (string * pyval)) : list (string * pyval) :=
    match kind c with
    | KStruct | KLen _ false | KTyped TMeterBand
    | KAction01 | KAction04 | KMatch01 | KBucket => store_attrs c attrs
    | KLen _ true | KTyped TInstruction | KTyped TProperty =>
        match size (VObj c attrs) with
        | Ok s => store_attrs c (set_attr "length" (VInt s) attrs)
        | Err _ => attrs
        end
    | KMessage | KErrorMsg04 | KErrorExp04 => message_store size c attrs
    | KSetField04 =>                                  (* v0x04/common/action.py:398-418 *)
        match get_attr "field" attrs with
        | Some f =>
            match rec f with
            | Ok fb => store_attrs c (set_attr "length" (VInt (ceil8 (4 + zlen fb))) (set_attr "field" (st f) attrs))
            | Err _ => attrs
            end
        | None => attrs
        end
    | KOxmTLV =>                                      (* v0x04/common/flow_match.py:254-281 *)
        match get_attr "oxm_class" attrs, get_attr "oxm_field" attrs, get_attr "oxm_hasmask" attrs,
              get_attr "oxm_value" attrs with
        | Some cls, Some field, Some hm, Some val =>
            match oxm_field_int cls field, num_of hm, bin_pack rec val with
            | Ok fi, Ok h, Ok payload =>
                store_attrs c (set_attr "oxm_length" (VInt (zlen payload))
                  (set_attr "oxm_value" (if has_pack val then st val else val)
                    (set_attr "oxm_field_and_mask" (VInt (fi * 2 + Z.land h 1)) attrs)))
            | _, _, _ => attrs
            end
        | _, _, _, _ => attrs
        end
    | KMatch04 =>                                     (* v0x04/common/flow_match.py:356-376 *)
        match struct_size size' c attrs with
        | Ok s => store_attrs c (set_attr "length" (VInt s) attrs)
        | Err _ => attrs
        end
    | KPacketOut01 | KPacketOut04 =>                  (* packet_out.py:105-110, 115-120 *)
        let lc := match kind c with KPacketOut01 => ListOfActions01 | _ => ListOfActions04 end in
        match get_attr "actions" attrs with
        | Some acts =>
            match (if subclass (class_of acts) lc then size' acts
                   else match list_item lc with
                        | Some pc => do items <- list_init size' pc acts; size' (VList lc pc items)
                        | None => Err TypeError
                        end) with
            | Ok alen => message_store size c (set_attr "actions_len" (VInt alen) attrs)
            | Err _ => attrs
            end
        | None => attrs
        end
    | KErrorMsg01 =>                                  (* v0x01/asynchronous/error_msg.py:217-225 *)
        match get_attr "data" attrs with
        | Some d =>
            match d with
            | VNone | VBytes _ => message_store size c attrs
            | _ => match rec d with
                   | Ok b => swapped size c "data" (VBytes b) (st d) attrs
                   | Err _ => attrs
                   end
            end
        | None => attrs
        end
    | KStatsRequest =>                                (* stats_request.py:47-56 *)
        match get_attr "body" attrs with
        | Some body =>
            if has_pack body
            then match rec body with
                 | Ok b => swapped size c "body" (VBytes b) (st body) attrs
                 | Err _ => attrs
                 end
            else message_store size c attrs
        | None => attrs
        end
    | KStatsReply =>                                  (* stats_reply.py:45-54 *)
        match get_attr "body" attrs with
        | Some body =>
            match truthy size' body with
            | Ok t =>
                if t && has_pack body
                then match rec body with
                     | Ok b => swapped size c "body" (VBin (VBytes b)) (st body) attrs
                     | Err _ => attrs
                     end
                else message_store size c attrs
            | Err _ => attrs
            end
        | None => attrs
        end
    | KMultipartRequest | KMultipartReply =>          (* multipart_request.py:88-104, multipart_reply.py:98-114 *)
        let reply := match kind c with KMultipartReply => true | _ => false end in
        match get_attr "body" attrs with
        | Some body =>
            match truthy size' body with
            | Ok true =>
                match body with
                | VList _ _ _ =>
                    match get_attr "multipart_type" attrs with
                    | Some mt =>
                        match body_instance reply mt with
                        | Ok (VList lc pc _) =>
                            match list_extend pc body with
                            | Ok items =>
                                match rec (VList lc pc items) with
                                | Ok b => swapped size c "body" (VBytes b) (leaves st body) attrs
                                | Err _ => attrs
                                end
                            | Err _ => attrs
                            end
                        | _ => attrs
                        end
                    | None => attrs
                    end
                | _ =>
                    match rec body with
                    | Ok b => swapped size c "body" (VBytes b) (st body) attrs
                    | Err _ => attrs
                    end
                end
            | Ok false => message_store size c attrs
            | Err _ => attrs
            end
        | None => attrs
        end
    end.
End Store.

Fixpoint stored0 (n : nat) (v : pyval) : pyval :=
  match n with
  | O => v
  | S n' =>
      match v with
      | VBin x => if has_pack x then VBin (stored0 n' x) else v
      | VList lc pc items => VList lc pc (map (stored0 n') items)
      | VObj c attrs => VObj c (store_obj (stored0 n') (pack0 n') (size0 n') (size0 n) c attrs)
      | _ => v
      end
  end.

(** The object after [v.pack()]. *)
Definition stored (v : pyval) : pyval := stored0 (FUEL + height v) v.

(** The attribute that pack() replaces by its bytes, after an exception raised
    while the message around it is packed: it is not restored.  For ErrorMsg
    and StatsRequest of OpenFlow 1.0 (error_msg.py:219-224,
    stats_request.py:51-55); the other three classes with such an attribute
    are written alike. *)
Definition left_behind (v : pyval) : option (string * pyval) :=
  match v with
  | VObj c attrs =>
      match kind c with
      | KErrorMsg01 =>
          match get_attr "data" attrs with
          | Some (VNone | VBytes _) | None => None
          | Some d => match pack d, pack v with
                      | Ok b, Err _ => Some ("data", VBytes b)
                      | _, _ => None
                      end
          end
      | KStatsRequest =>
          match get_attr "body" attrs with
          | Some d => if has_pack d
                      then match pack d, pack v with
                           | Ok b, Err _ => Some ("body", VBytes b)
                           | _, _ => None
                           end
                      else None
          | None => None
          end
      | _ => None
      end
  | _ => None
  end.
