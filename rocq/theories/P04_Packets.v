(** C15, C16, C17, C21, C43: pyof.utils.unpack on arbitrary packets. *)
From Coq Require Import ZArith List Bool String.
From Verif Require Import Base PyText Ids PyVal Classes Interp Utils Spec SpecMsg SpecBasic
  UnpackTotal Samples DispatchFacts PacketFacts.
Import ListNotations.
Open Scope string_scope.
Open Scope list_scope.
Open Scope Z_scope.

(** C16: a Python object is accepted exactly when it is a well-framed packet
    (8 to 65535 bytes, bytes 2..3 the length, version byte 1..127); anything
    else raises UnpackException.  The premise only says that a bytes object
    holds bytes. *)
Theorem c16_validate : forall p, (forall b, p = VBytes b -> wf_bytes b) ->
  (validate_any p = Ok tt <-> exists b, p = VBytes b /\ well_framed b) /\
  (validate_any p = Ok tt \/ validate_any p = Err UnpackException).
Proof. exact validate_exact. Qed.
Print Assumptions c16_validate.

Theorem c16_unpack_refuses : forall p, (forall b, p = VBytes b -> wf_bytes b) ->
  ~ (exists b, p = VBytes b /\ well_framed b) -> unpack_any p = Err UnpackException.
Proof. exact unpack_refuses. Qed.
Print Assumptions c16_unpack_refuses.

Example c16_case :
  well_framed [1; 0; 0; 8; 0; 0; 0; 0] /\ validate_any (VBytes [1; 0; 0; 8; 0; 0; 0; 0]) = Ok tt /\
  validate_any (VBytes [1; 0; 0; 9; 0; 0; 0; 0]) = Err UnpackException /\
  validate_any (VBytes [128; 0; 0; 8; 0; 0; 0; 0]) = Err UnpackException /\
  validate_any (VBytes [1; 0; 0; 7; 0; 0; 0]) = Err UnpackException /\
  validate_any VNone = Err UnpackException.
Proof. repeat split; discriminate. Qed.

(** C17: class, transaction id, length and type come from the header.
    Partial: the type held by the two 1.3 QueueGetConfig messages is another
    one, see [c17_type_refuted]. *)
Theorem c17_dispatch_partial : forall b m, wf_bytes b -> unpack_packet b = Ok m ->
  exists v c attrs h,
    nth 0 b 0 = version_number v /\ In (nth 1 b 0, c) (openflow_types v) /\
    m = VObj c attrs /\ get_attr "header" attrs = Some (VObj (header_class v) h) /\
    holds h "version" (version_number v) /\
    holds h "xid" (place_value (slice 4 8 b)) /\
    holds h "length" (place_value (slice 2 4 b)) /\
    (~ misfiled v (nth 1 b 0) -> holds h "message_type" (nth 1 b 0)).
Proof. exact packet_class. Qed.
Print Assumptions c17_dispatch_partial.

Theorem c17_unknown : forall b, wf_bytes b ->
  (forall v c, nth 0 b 0 = version_number v -> ~ In (nth 1 b 0, c) (openflow_types v)) ->
  unpack_packet b = Err UnpackException.
Proof. exact packet_unknown. Qed.
Print Assumptions c17_unknown.

Theorem c17_type_refuted : exists b c attrs hc h,
  wf_bytes b /\ unpack_packet b = Ok (VObj c attrs) /\
  get_attr "header" attrs = Some (VObj hc h) /\ nth 1 b 0 = 22 /\ holds h "message_type" 7.
Proof. exact type_refuted. Qed.
Print Assumptions c17_type_refuted.

Example c17_case : exists m, unpack_packet [4; 20; 0; 8; 0; 0; 1; 2] = Ok m /\
  class_of m = BarrierRequest04 /\
  unpack_packet [4; 77; 0; 8; 0; 0; 1; 2] = Err UnpackException /\
  unpack_packet [2; 0; 0; 8; 0; 0; 1; 2] = Err UnpackException.
Proof. eexists. split; [vm_compute; reflexivity|]. split; [reflexivity|]. split; vm_compute; reflexivity. Qed.

(** C21: decoding terminates.  [OutOfFuel] is the outcome of a loop or a
    recursion of the model that exceeds its bound: the loop over the items of a
    list may run once per byte of its buffer, the nesting of objects may reach
    [FUEL]; a Python loop that does not advance would exceed the first. *)
Theorem c21_packets : forall b, wf_bytes b -> unpack_packet b <> Err OutOfFuel.
Proof. exact unpack_packet_total. Qed.
Print Assumptions c21_packets.

(** The same for unpack() of a new instance of any class, at any offset, and
    the outcome is the same however large the recursion bound. *)
Theorem c21_instances : forall c inst b o n,
  new_instance c = Some inst -> wf_bytes b -> (FUEL <= n)%nat ->
  unpack0 n inst b o = unpack inst b o /\ unpack inst b o <> Err OutOfFuel.
Proof. exact instances_terminate. Qed.
Print Assumptions c21_instances.

(** Decoding a list of any of the item classes of the library. *)
Theorem c21_lists : forall lc pc b o, In pc list_items -> wf_bytes b ->
  unpack (VList lc pc []) b o <> Err OutOfFuel.
Proof. exact items_terminate. Qed.
Print Assumptions c21_lists.

(** Encoding and measuring terminate on every value. *)
Theorem c21_pack : forall v, pack v <> Err OutOfFuel /\ get_size v <> Err OutOfFuel.
Proof. exact encode_terminates. Qed.
Print Assumptions c21_pack.

Example c21_case :
  In Port04 list_items /\ wf_bytes (repeat 1 65%nat) /\
  unpack (VList CFixedTypeList Port04 []) (repeat 1 65%nat) 0%nat = Err UnpackException.
Proof. exact termination_case. Qed.

(** C15: other exceptions reach the caller. *)
Theorem c15_only_unpack_exception_refuted :
  (exists b, wf_bytes b /\ well_framed b /\ unpack_packet b = Err StructError) /\
  (exists b, wf_bytes b /\ well_framed b /\ unpack_packet b = Err GenericException) /\
  (exists b, wf_bytes b /\ well_framed b /\ unpack_packet b = Err TypeError) /\
  (exists b, wf_bytes b /\ well_framed b /\ unpack_packet b = Err KeyError).
Proof. exact leaks. Qed.
Print Assumptions c15_only_unpack_exception_refuted.

(** C43: an eight-byte FLOW_MOD is accepted but cannot be encoded again; a
    Hello with trailing bytes loses them. *)
Theorem c43_reencode_refuted :
  (exists b m, wf_bytes b /\ unpack_packet b = Ok m /\ pack m = Err PackException) /\
  (exists b m b', wf_bytes b /\ unpack_packet b = Ok m /\ pack m = Ok b' /\ b' <> b).
Proof. exact reencode_refuted. Qed.
Print Assumptions c43_reencode_refuted.

(** Partial: the packets of well-formed messages re-encode to themselves. *)
Theorem c43_reencode_partial : forall n v t x m0 b out, enc_msg n v t x m0 b out ->
  exists m, unpack_packet b = Ok m /\ pack m = Ok b.
Proof. exact reencode_partial. Qed.
Print Assumptions c43_reencode_partial.
