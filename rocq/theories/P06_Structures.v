(** C20, C24 to C28 and C44: lists, OXM TLVs, matches, set-field actions, coded
    elements, PacketOut and statistics messages. *)
From Coq Require Import ZArith List Bool String.
From Verif Require Import Base PyText Ids PyVal Classes Interp Utils Spec SpecMsg SpecSame SpecBasic SpecNet
  SpecStruct MsgBody PacketFacts StructThm StructThm2 StructCases.
Import ListNotations.
Open Scope string_scope.
Open Scope list_scope.
Open Scope Z_scope.

(** ** C20: lists *)

(** A list packs exactly when all its items do, to their encodings in order. *)
Theorem c20_pack : forall lc pc items bs, lc <> CList ->
  (pack (VList lc pc items) = Ok bs <->
   exists bss, Forall2 (fun v b => pack v = Ok b) items bss /\ bs = List.concat bss).
Proof. exact list_pack. Qed.
Print Assumptions c20_pack.

(** Partial: of the items, only the last may be of a class that extends to the
    end of its buffer (see [c20_roundtrip_refuted]). *)
Theorem c20_roundtrip_partial : forall n lc pc items bs outs pre,
  enc_items n pc items bs outs -> In pc list_items -> lc <> CList -> wf_bytes (pre ++ bs) ->
  pack (VList lc pc items) = Ok bs /\ get_size (VList lc pc items) = Ok (zlen bs) /\
  unpack (VList lc pc []) (pre ++ bs) (List.length pre) = Ok (VList lc pc outs) /\
  List.length outs = List.length items /\ Forall2 same_obj items outs /\
  pack (VList lc pc outs) = Ok bs.
Proof. exact list_roundtrip. Qed.
Print Assumptions c20_roundtrip_partial.

Example c20_case : exists outs,
  enc_items 20 ActionHeader04 case_actions case_action_bytes outs /\ In ActionHeader04 list_items.
Proof. destruct case_actions_enc as (outs & H). exists outs. split; [exact H|]. vm_compute. tauto. Qed.

(** Two well-formed GroupStats are not decoded: the first takes the bytes of
    the second. *)
Theorem c20_roundtrip_refuted : exists items bs, List.length items = 2%nat /\
  Forall (fun v => exists k b out, enc_obj 20 k true GroupStats04 v b out) items /\
  pack (VList CFixedTypeList GroupStats04 items) = Ok bs /\
  unpack (VList CFixedTypeList GroupStats04 []) bs 0 = Err UnpackException.
Proof. exact group_list_refuted. Qed.
Print Assumptions c20_roundtrip_refuted.

(** ** C25: OXM TLVs *)

Theorem c25_roundtrip : forall v t pre suf, oxm_ok t -> oxm_holds v t -> wf_bytes pre -> wf_bytes suf ->
  pack v = Ok (oxm_wire t) /\ get_size v = Ok (zlen (oxm_wire t)) /\
  exists v', unpack new_OxmTLV04 (pre ++ oxm_wire t ++ suf) (List.length pre) = Ok v' /\ oxm_holds v' t.
Proof. exact oxm_roundtrip. Qed.
Print Assumptions c25_roundtrip.

(** What any bytes decode to. *)
Theorem c25_any_bytes : forall b o, wf_bytes b -> (o + 4 <= List.length b)%nat ->
  let t := oxm_parse (skipn o b) in
  (In (ox_class t) oxm_classes -> oxm_field_ok (ox_class t) (ox_field t) ->
   exists v, unpack new_OxmTLV04 b o = Ok v /\ oxm_holds v t) /\
  (~ (In (ox_class t) oxm_classes /\ oxm_field_ok (ox_class t) (ox_field t)) ->
   unpack new_OxmTLV04 b o = Err UnpackException).
Proof. exact oxm_unpack_any. Qed.
Print Assumptions c25_any_bytes.

Theorem c25_short : forall b o, b <> [] -> (List.length b < o + 4)%nat ->
  unpack new_OxmTLV04 b o = Err UnpackException.
Proof. exact oxm_short. Qed.
Print Assumptions c25_short.

Theorem c25_bad_field : forall attrs cls field cl f,
  get_attr "oxm_class" attrs = Some cls -> int_exact cls cl ->
  get_attr "oxm_field" attrs = Some field -> int_exact field f ->
  (if cl =? 0x8000 then ~ 0 <= f <= 39 else 127 < f) ->
  pack (VObj OxmTLV04 attrs) = Err PackException.
Proof. exact oxm_refuses. Qed.
Print Assumptions c25_bad_field.

Example c25_case : oxm_ok case_oxm /\ oxm_holds case_tlv case_oxm /\
  pack case_tlv = Ok [0x80; 0; 7; 12; 1; 2; 3; 4; 5; 6; 255; 255; 255; 255; 255; 255].
Proof. split; [exact case_oxm_ok|]. split; [exact case_tlv_holds|]. vm_compute. reflexivity. Qed.

(** A TLV whose value is cut short is accepted. *)
Theorem c25_truncated : exists b v, b = [0x80; 0; 6; 6; 1; 2] /\ unpack new_OxmTLV04 b 0 = Ok v /\
  exists a, v = VObj OxmTLV04 a /\ get_attr "oxm_value" a = Some (VBytes [1; 2]) /\
            get_attr "oxm_length" a = Some (VUInt 1 None (VInt 6)).
Proof. exact oxm_truncated. Qed.
Print Assumptions c25_truncated.

(** ** C24: matches *)

Theorem c24_roundtrip : forall v mt ts pre suf,
  match_ok mt ts -> match_holds v mt ts -> wf_bytes pre -> wf_bytes suf ->
  pack v = Ok (match_wire mt ts) /\ get_size v = Ok (zlen (match_wire mt ts)) /\
  zlen (match_wire mt ts) mod 8 = 0 /\
  exists v', unpack new_Match04 (pre ++ match_wire mt ts ++ suf) (List.length pre) = Ok v' /\
             match_holds v' mt ts.
Proof. exact match_roundtrip. Qed.
Print Assumptions c24_roundtrip.

Theorem c24_too_long : forall v mt ts, mt = 0 \/ mt = 1 -> Forall oxm_ok ts -> match_holds v mt ts ->
  65536 <= 4 + zlen (flat_map oxm_wire ts) -> pack v = Err PackException.
Proof. exact match_too_long. Qed.
Print Assumptions c24_too_long.

Example c24_case : match_ok 1 [case_oxm; case_oxm] /\ match_holds case_match 1 [case_oxm; case_oxm] /\
  get_size case_match = Ok 40.
Proof. destruct case_match_holds. split; [assumption|]. split; [assumption|]. vm_compute. reflexivity. Qed.

(** ** C26: set-field actions *)

Theorem c26_roundtrip : forall v t pre suf,
  oxm_ok t -> setfield_holds v t -> wf_bytes pre -> wf_bytes suf ->
  pack v = Ok (setfield_wire t) /\ get_size v = Ok (zlen (setfield_wire t)) /\
  zlen (setfield_wire t) mod 8 = 0 /\ big_endian 2 (zlen (setfield_wire t)) (slice 2 4 (setfield_wire t)) /\
  exists v', unpack new_ActionHeader04 (pre ++ setfield_wire t ++ suf) (List.length pre) = Ok v' /\
             setfield_holds v' t.
Proof. exact setfield_roundtrip. Qed.
Print Assumptions c26_roundtrip.

Example c26_case : setfield_holds case_setfield case_oxm /\
  pack case_setfield = Ok [0; 25; 0; 24; 0x80; 0; 7; 12; 1; 2; 3; 4; 5; 6; 255; 255; 255; 255; 255; 255; 0; 0; 0; 0].
Proof. split; [exact case_setfield_holds|]. vm_compute. reflexivity. Qed.

(** ** C27: classes of coded elements *)

(** Well-formed lists decode ([c20_roundtrip_partial]) to elements of the class
    of their code and of their declared length. *)
Theorem c27_lists : forall n root tbl items bs outs, coded root = Some tbl ->
  enc_items n root items bs outs -> coded_elements root tbl bs outs.
Proof. exact coded_lists. Qed.
Print Assumptions c27_lists.

(** Any bytes that are accepted decode to elements of the class of their code;
    the exceptions are spelled out in [element_class]. *)
Theorem c27_any_bytes_partial : forall root tbl lc b o r, coded root = Some tbl -> wf_bytes b ->
  unpack (VList lc root []) b o = Ok r ->
  exists items, r = VList lc root items /\ elements root tbl b o items.
Proof. exact list_elements. Qed.
Print Assumptions c27_any_bytes_partial.

Example c27_case : exists outs, coded ActionHeader04 = Some action04_table /\
  enc_items 20 ActionHeader04 case_actions case_action_bytes outs.
Proof. destruct case_actions_enc as (outs & H). exists outs. split; [reflexivity|exact H]. Qed.

(** An experimenter table-feature property is taken for an OXM property, an
    experimenter meter band or instruction raises KeyError or TypeError. *)
Theorem c27_experimenter_refuted :
  (exists a, unpack (VList CFixedTypeList Property04 []) [0xff; 0xfe; 0; 4] 0
             = Ok (VList CFixedTypeList Property04 [VObj OxmProperty04 a])) /\
  unpack (VList CFixedTypeList MeterBandHeader04 []) [0xff; 0xff; 0; 16; 0; 0; 0; 1; 0; 0; 0; 1; 0; 0; 0; 2] 0
  = Err KeyError /\
  unpack (VList CFixedTypeList Instruction04 []) [0xff; 0xff; 0; 8; 0; 0; 0; 1] 0 = Err TypeError.
Proof. exact experimenter_refuted. Qed.
Print Assumptions c27_experimenter_refuted.

(** ** C28: PacketOut *)

(** Whatever else the message holds, it is only sent from a sending port. *)
Theorem c28_port : forall v attrs bs, pack (VObj (out_class v) attrs) = Ok bs ->
  exists ip p, get_attr "in_port" attrs = Some ip /\ number ip p /\ sending_port v p.
Proof. exact packet_out_port_ok. Qed.
Print Assumptions c28_port.

(** If the message would be sent from port 1, it is refused for other ports. *)
Theorem c28_refuses : forall v attrs ip p bs,
  complete (out_class v) attrs ->
  pack (VObj (out_class v) (set_attr "in_port" (VInt 1) attrs)) = Ok bs ->
  get_attr "in_port" attrs = Some ip -> int_exact ip p -> ~ sending_port v p ->
  pack (VObj (out_class v) attrs) = Err ValidationError.
Proof. exact packet_out_port_bad. Qed.
Print Assumptions c28_refuses.

(** The number of action bytes is computed, and separates actions and data. *)
Theorem c28_roundtrip : forall n v x attrs bid ip p lc pc items ab outs d data,
  sendable v 13 x (out_class v) attrs ->
  attr_is attrs "buffer_id" (fun y => int_exact y bid) -> 0 <= bid < 2 ^ 32 ->
  get_attr "in_port" attrs = Some ip -> int_exact ip p -> sending_port v p ->
  get_attr "actions" attrs = Some (VList lc pc items) -> subclass lc CFixedTypeList = true ->
  enc_items (S n) (out_item v) items ab outs -> wf_bytes ab ->
  get_attr "data" attrs = Some d -> enc_payload (S (S n)) d data -> wf_bytes data ->
  let body := packet_out_wire v bid p ab data in
  8 + zlen body < 65536 ->
  pack (VObj (out_class v) attrs) = Ok (wire_header v 13 (8 + zlen body) x ++ body) /\
  exists attrs',
    unpack_packet (wire_header v 13 (8 + zlen body) x ++ body) = Ok (VObj (out_class v) attrs') /\
    attr_is attrs' "buffer_id" (fun y => int_exact y bid) /\
    attr_is attrs' "in_port" (fun y => int_exact y p) /\
    attr_is attrs' "actions_len" (fun y => int_exact y (zlen ab)) /\
    attr_is attrs' "actions" (fun y => exists outs, y = VList CFixedTypeList (out_item v) outs /\
                                       Forall2 same_obj items outs) /\
    get_attr "data" attrs' = Some (VBin (VBytes data)).
Proof. exact out_roundtrip. Qed.
Print Assumptions c28_roundtrip.

Example c28_case :
  sendable V04 13 77 PacketOut04 (case_out_attrs (VInt 3)) /\
  (exists outs, enc_items 20 (out_item V04) case_actions case_action_bytes outs) /\
  (exists bs, pack (VObj PacketOut04 (case_out_attrs (VInt 3))) = Ok bs /\ slice 16 18 bs = [0; 40]) /\
  pack (VObj PacketOut04 (case_out_attrs (VInt 0xffffff01))) = Err ValidationError.
Proof.
  split; [apply case_out_sendable|]. split; [exact case_actions_enc|].
  split; [eexists; split; [vm_compute; reflexivity|reflexivity]|]. vm_compute. reflexivity.
Qed.

(** ** C44: statistics messages *)

(** Bodies that are lists.  Partial: as for C20, only the last entry may be of
    a class that extends to the end of its buffer. *)
Theorem c44_lists_partial : forall n f x attrs ti t c fl lc pc items bb outs,
  sendable (stats_version f) (stats_code f) x (stats_class f) attrs ->
  get_attr (stats_type_name f) attrs = Some ti ->
  type_given f t ti ->
  In (t, BList c) (stats_forms f) ->
  attr_is attrs "flags" (fun y => int_exact y fl) -> stats_flags_ok f fl ->
  get_attr "body" attrs = Some (VList lc pc items) -> subclass lc CFixedTypeList = true ->
  enc_items (S n) c items bb outs -> wf_bytes bb ->
  let body := stats_wire f t fl bb in
  let bs := wire_header (stats_version f) (stats_code f) (8 + zlen body) x ++ body in
  8 + zlen body < 65536 ->
  pack (VObj (stats_class f) attrs) = Ok bs /\
  exists attrs', unpack_packet bs = Ok (VObj (stats_class f) attrs') /\
    get_attr (stats_type_name f) attrs' = Some (VEnum (stats_type_enum f) t) /\
    attr_is attrs' "flags" (fun y => int_exact y fl) /\
    exists items', get_attr "body" attrs' = Some (VList CFixedTypeList c items') /\
      List.length items' = List.length items /\ Forall2 same_obj items items'.
Proof. exact stats_list_roundtrip. Qed.
Print Assumptions c44_lists_partial.

(** Bodies that are one structure. *)
Theorem c44_structures : forall n k f x attrs ti t c fl b bb out,
  sendable (stats_version f) (stats_code f) x (stats_class f) attrs ->
  get_attr (stats_type_name f) attrs = Some ti ->
  type_given f t ti ->
  In (t, BStruct c) (stats_forms f) ->
  attr_is attrs "flags" (fun y => int_exact y fl) -> stats_flags_ok f fl ->
  get_attr "body" attrs = Some b -> enc_obj (S (S n)) k true c b bb out -> bb <> [] -> wf_bytes bb ->
  let body := stats_wire f t fl bb in
  let bs := wire_header (stats_version f) (stats_code f) (8 + zlen body) x ++ body in
  8 + zlen body < 65536 ->
  pack (VObj (stats_class f) attrs) = Ok bs /\
  exists attrs', unpack_packet bs = Ok (VObj (stats_class f) attrs') /\
    get_attr (stats_type_name f) attrs' = Some (VEnum (stats_type_enum f) t) /\
    attr_is attrs' "flags" (fun y => int_exact y fl) /\
    exists b', get_attr "body" attrs' = Some b' /\ same_obj b b'.
Proof. exact stats_struct_roundtrip. Qed.
Print Assumptions c44_structures.

Example c44_case :
  sendable V04 19 77 MultipartReply04 (case_reply 3 (VList CFixedTypeList TableStats04 case_tables)) /\
  (exists bs outs, enc_items 20 TableStats04 case_tables bs outs /\ zlen bs = 72) /\
  In (3, BList TableStats04) (stats_forms FMultipartReply).
Proof. split; [apply case_reply_sendable|]. split; [exact case_tables_enc|]. cbn. tauto. Qed.

(** A reply with two groups is not received. *)
Theorem c44_groups_refuted : exists bs,
  pack (VObj MultipartReply04 (case_reply 6 (VList CFixedTypeList GroupStats04 [case_group 1; case_group 2]))) = Ok bs /\
  unpack_packet bs = Err UnpackException.
Proof. exact group_reply_refuted. Qed.
Print Assumptions c44_groups_refuted.
