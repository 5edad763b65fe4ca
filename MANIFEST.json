{
 "claims": [
  {
   "property": "C01",
   "status": "proved",
   "theorems": [
    "c01_uint_roundtrip",
    "c01_uint_decode"
   ],
   "note": "UBInt8/16/32/64 are VUInt 1/2/4/8; proved for every positive width"
  },
  {
   "property": "C02",
   "status": "proved",
   "theorems": [
    "c02_pack_refuses",
    "c02_field_refuses",
    "c02_short_buffer",
    "c02_binary_refuses"
   ],
   "note": "scalars of the model: None, int, str, bytes"
  },
  {
   "property": "C03",
   "status": "proved",
   "theorems": [
    "c03_enum_exact",
    "c03_mask_total",
    "c03_member_packs"
   ],
   "note": "for every enumeration class of the table"
  },
  {
   "property": "C04",
   "status": "proved",
   "theorems": [
    "c04_hw_roundtrip",
    "c04_hw_groups",
    "c04_hw_short"
   ],
   "note": "Bytes to text and back, text of any number of hexadecimal groups of any length to bytes or PackException, and the exception on fewer than six bytes. What pack() does with other texts is in C65."
  },
  {
   "property": "C05",
   "status": "proved",
   "theorems": [
    "c05_ip_roundtrip",
    "c05_ip_octets",
    "c05_ip_construct",
    "c05_ip_short"
   ],
   "note": "Bytes to text and back, text of decimal octets with or without a prefix length, and the exception on fewer than four bytes. What pack() does with other texts is in C65."
  },
  {
   "property": "C06",
   "status": "proved",
   "theorems": [
    "c06_ip6_roundtrip",
    "c06_ip6_double_colon",
    "c06_ip6_groups",
    "c06_ip6_short"
   ],
   "note": "c06_ip6_groups covers any number of groups of any length without '::', c06_ip6_double_colon those with one."
  },
  {
   "property": "C07",
   "status": "proved",
   "theorems": [
    "c07_dpid_roundtrip"
   ],
   "note": "Other texts of a datapath id are in C65 (struct.error for a wrong number of groups)."
  },
  {
   "property": "C08",
   "status": "proved",
   "theorems": [
    "c08_char_layout",
    "c08_char_length",
    "c08_char_roundtrip",
    "c08_char_decode"
   ],
   "note": "A text as long as the field or longer is cut and terminated (c08_char_layout); decoding takes off the zero bytes at the end only."
  },
  {
   "property": "C09",
   "status": "partial",
   "theorems": [
    "c09_any_size_partial",
    "c09_new",
    "c09_conditions_refuted",
    "c09_struct_size_partial",
    "c09_wf_struct_size_partial",
    "c09_message_size_partial",
    "c09_size_refuted"
   ],
   "note": "Proved for every object, whatever its values and nesting, outside five shapes (measurable, SpecSize.v): non-empty lists declared as plain FixedTypeList, 1.3 actions whose bytes are no multiple of 8, buckets whose length attribute is wrong, Char of length 0, lists of basic objects of different widths; each shape is refuted by an example. For well-formed structures and messages get_size and pack are also shown to succeed."
  },
  {
   "property": "C10",
   "status": "partial",
   "theorems": [
    "c10_any_header_length_partial",
    "c10_any_too_long_partial",
    "c10_header_length_partial",
    "c10_wf_header_length_partial",
    "c10_too_long",
    "c10_echo",
    "c10_header_length_refuted"
   ],
   "note": "Proved for every message object outside the shapes excluded for C09, with refusal of messages of 65536 bytes or more; refuted without the exclusion (MeterMod with bands)."
  },
  {
   "property": "C11",
   "status": "partial",
   "theorems": [
    "c11_roundtrip_partial",
    "c11_wf_roundtrip_partial",
    "c11_roundtrip_refuted"
   ],
   "note": "Proved for every well-formed 1.0 message; the unrestricted statement is refuted by a queue request for a port that is not in the Port enumeration."
  },
  {
   "property": "C12",
   "status": "partial",
   "theorems": [
    "c12_roundtrip_partial",
    "c12_wf_roundtrip_partial",
    "c12_roundtrip_refuted"
   ],
   "note": "Proved for every well-formed 1.3 message; the unrestricted statement is refuted (QueueGetConfig messages are created with another type)."
  },
  {
   "property": "C13",
   "status": "proved",
   "theorems": [
    "c13_in_order",
    "c13_offsets",
    "c13_all",
    "c13_message_header",
    "c13_new",
    "c13_offsets_refuted"
   ],
   "note": "c13_in_order holds for every object with the attributes of its class whose pack() returns. c13_offsets compares all structures with a table written from the OpenFlow specifications, up to their first field of variable size; it needs Char values of the declared length, c13_offsets_refuted shows why. Values of computed fields (lengths) are the subject of C10, C24, C25, C26, C28."
  },
  {
   "property": "C14",
   "status": "proved",
   "theorems": [
    "c14_window",
    "c14_offsets",
    "c14_zero_length_refuted",
    "c14_length_ignored_refuted",
    "c14_stats_request_refuted"
   ],
   "note": "c14_window: every class of a fixed size, with its own length field (0 < length), OXM TLVs, matches, OpenFlow 1.0 actions and the two requests that end with a match; equality of the whole result, exceptions included. Outside: a declared length of 0 (refuted), PacketQueue and GroupDescStats, whose length field the library does not use (refuted), and StatsRequest, which ignores the offset (refuted)."
  },
  {
   "property": "C15",
   "status": "partial",
   "theorems": [
    "c15_only_unpack_exception_refuted",
    "c15_exceptions_partial",
    "c15_each_leak_refuted"
   ],
   "note": "The statement is false of the program. For every byte string the exception is UnpackException or one of an explicit table keyed by version and message type (empty for 42 of the 52 types), and every entry of the table is realised by a well-framed packet."
  },
  {
   "property": "C16",
   "status": "proved",
   "theorems": [
    "c16_validate",
    "c16_unpack_refuses"
   ],
   "note": "Both directions: what is accepted is framed by its header, and unpack() raises on anything else."
  },
  {
   "property": "C17",
   "status": "partial",
   "theorems": [
    "c17_dispatch_partial",
    "c17_unknown",
    "c17_type_refuted",
    "c17_from_header",
    "c17_from_header_refused"
   ],
   "note": "Everything proved except the message type of the two 1.3 QueueGetConfig messages, for which it is refuted. A header may give the type as number, member, field or name; an unknown name is a KeyError."
  },
  {
   "property": "C18",
   "status": "proved",
   "theorems": [
    "c18_invariant",
    "c18_append",
    "c18_extend",
    "c18_insert",
    "c18_insert_position",
    "c18_no_class"
   ],
   "note": "Operations append, extend, insert, pop, clear and reverse in any order; item assignment and += are C48."
  },
  {
   "property": "C19",
   "status": "proved",
   "theorems": [
    "c19_invariant",
    "c19_append",
    "c19_insert",
    "c19_insert_wrong"
   ],
   "note": "Same operations on ConstantTypeList, with the same-class condition of the code."
  },
  {
   "property": "C20",
   "status": "partial",
   "theorems": [
    "c20_pack",
    "c20_roundtrip_partial",
    "c20_roundtrip_refuted"
   ],
   "note": "Packing proved for all lists. Decoding proved for lists in which only the last item may extend to the end of its buffer; refuted in general: two GroupStats are not decoded because the first takes the bytes of the second."
  },
  {
   "property": "C21",
   "status": "proved",
   "theorems": [
    "c21_packets",
    "c21_instances",
    "c21_lists",
    "c21_pack"
   ],
   "note": "Termination is that of the fuelled interpreter: no call runs out of fuel, whatever the bytes: a loop over the items of a list has one step per byte, the nesting of objects a fixed bound that is never reached. Python's recursion limit is not modelled (DESIGN.md)."
  },
  {
   "property": "C22",
   "status": "partial",
   "theorems": [
    "c22_flags_partial",
    "c22_stored",
    "c22_frame",
    "c22_mac_list",
    "c22_ip_list",
    "c22_mac_text",
    "c22_ip_text",
    "c22_address",
    "c22_outside_refuted",
    "c22_toggle_refuted",
    "c22_range_refuted",
    "c22_address_refused",
    "c22_mac_list_refused",
    "c22_unknown_field",
    "c22_mac_list_refused_other"
   ],
   "note": "Any history of assignments with a defined meaning (SpecMatch.meaning), and what is stored when an address is given as a list, a text or an address object. The full statement is false: a prefix above 32 sets other bits, a differently written zero hardware address toggles the bit, an out-of-range integer object raises with the field stored and the bit not updated."
  },
  {
   "property": "C23",
   "status": "partial",
   "theorems": [
    "c23_counts_partial",
    "c23_frame",
    "c23_refuted"
   ],
   "note": "Any history of assignments with a defined meaning, prefix lengths 0 to 32; assignments to wildcards itself and values without a meaning are excluded. The full statement is false for those: a prefix length of 33 disturbs the other count, and wildcards can be assigned."
  },
  {
   "property": "C24",
   "status": "proved",
   "theorems": [
    "c24_roundtrip",
    "c24_too_long"
   ],
   "note": "All lists of OXM TLVs below the 16-bit length; longer ones raise PackException."
  },
  {
   "property": "C25",
   "status": "proved",
   "theorems": [
    "c25_roundtrip",
    "c25_any_bytes",
    "c25_short",
    "c25_bad_field",
    "c25_truncated"
   ],
   "note": "c25_truncated records that a TLV cut short is accepted."
  },
  {
   "property": "C26",
   "status": "proved",
   "theorems": [
    "c26_roundtrip"
   ],
   "note": "For the TLVs oxm_ok describes; what pack() refuses is in C65."
  },
  {
   "property": "C27",
   "status": "partial",
   "theorems": [
    "c27_lists",
    "c27_any_bytes_partial",
    "c27_experimenter_refuted"
   ],
   "note": "Proved for all well-formed lists with the codes of the tables, and the classes for all accepted buffers; refuted for experimenter table-feature properties, meter bands and instructions."
  },
  {
   "property": "C28",
   "status": "proved",
   "theorems": [
    "c28_port",
    "c28_refuses",
    "c28_roundtrip"
   ],
   "note": "c28_port is the range of ports of each version; every other port is refused. What other values of the fields raise is in C65."
  },
  {
   "property": "C29",
   "status": "proved",
   "theorems": [
    "c29_pack",
    "c29_unpack",
    "c29_any_bytes"
   ],
   "note": "A VLAN object with no field set packs to no bytes although its size is 4 (c29_size_refuted)."
  },
  {
   "property": "C30",
   "status": "proved",
   "theorems": [
    "c30_roundtrip"
   ],
   "note": "Decoding at offset 0, as the library is called; at another offset tags are missed (c30_offset_refuted). VLAN objects without any field set contribute no tag."
  },
  {
   "property": "C31",
   "status": "proved",
   "theorems": [
    "c31_roundtrip",
    "c31_pack_refuses",
    "c31_any_bytes",
    "c31_short"
   ],
   "note": "c31_any_bytes covers every buffer, not only those that were packed."
  },
  {
   "property": "C32",
   "status": "proved",
   "theorems": [
    "c32_roundtrip",
    "c32_options_partial",
    "c32_any_bytes",
    "c32_short"
   ],
   "note": "With options everything but the checksum holds; the checksum leaves the options out (c32_checksum_refuted)."
  },
  {
   "property": "C33",
   "status": "partial",
   "theorems": [
    "c33_repeat_partial",
    "c33_repeat_refuted"
   ],
   "note": "Holds without options; with options every call adds to ihl, so the statement is refuted."
  },
  {
   "property": "C34",
   "status": "proved",
   "theorems": [
    "c34_roundtrip",
    "c34_too_long",
    "c34_any_bytes",
    "c34_short"
   ],
   "note": "c34_any_bytes covers every buffer; a payload above 65535 bytes is refused (c34_too_long)."
  },
  {
   "property": "C35",
   "status": "proved",
   "theorems": [
    "c35_tlv",
    "c35_tlv_unpack",
    "c35_lldp"
   ],
   "note": "Outside the statement: longer values wrap the length (c35_too_long_refuted), truncated values are accepted (c35_truncated_refuted)."
  },
  {
   "property": "C36",
   "status": "proved",
   "theorems": [
    "c36_eq_bytes",
    "c36_reflexive",
    "c36_symmetric",
    "c36_transitive",
    "c36_same_contents",
    "c36_other_raises"
   ],
   "note": "Comparing with something that is no object raises (c36_other_raises)."
  },
  {
   "property": "C37",
   "status": "partial",
   "theorems": [
    "c37_left",
    "c37_right_partial",
    "c37_both_partial",
    "c37_sub_reversed",
    "c37_sub_both_reversed",
    "c37_sub_refuted"
   ],
   "note": "Subtraction with the object on the right computes self - other: refuted."
  },
  {
   "property": "C38",
   "status": "partial",
   "theorems": [
    "c38_uint_int_partial",
    "c38_uint_uint_partial",
    "c38_unfit_refuted",
    "c38_mask_field",
    "c38_mask_refuted"
   ],
   "note": "Holds for integer objects whose values fit; bit mask values and unfit values refuted."
  },
  {
   "property": "C39",
   "status": "partial",
   "theorems": [
    "c39_names_partial",
    "c39_names_empty",
    "c39_names_refuted",
    "c39_class_member"
   ],
   "note": "The loop of names selects exactly the names of its table with a bit in common; but the table of an instance is always empty (the metaclass moves the members to the class attribute _enum), so names of an instance is always empty."
  },
  {
   "property": "C40",
   "status": "partial",
   "theorems": [
    "c40_valid_partial",
    "c40_never_false",
    "c40_valid_refuted"
   ],
   "note": "True exactly when pack succeeds; otherwise is_valid raises PackException instead of returning False."
  },
  {
   "property": "C41",
   "status": "partial",
   "theorems": [
    "c41_never_packs",
    "c41_unpack_first",
    "c41_roundtrip_refuted"
   ],
   "note": "UBInt128 never packs; the round trip is refuted."
  },
  {
   "property": "C42",
   "status": "proved",
   "theorems": [
    "c42_layout",
    "c42_names",
    "c42_module",
    "c42_module_unchanged",
    "c42_classes",
    "c42_hello_refuted",
    "c42_module_refuted"
   ],
   "note": "For every base layout, removal list and class body. A class statement that raises (no class of that name in the other version) has no layout. c42_hello_refuted shows that the message type 0 is lost when a header changes version; c42_module_refuted that a module name that contains its version twice is replaced twice."
  },
  {
   "property": "C43",
   "status": "partial",
   "theorems": [
    "c43_fixed",
    "c43_data",
    "c43_records",
    "c43_error",
    "c43_stats",
    "c43_resend_partial",
    "c43_unchanged",
    "c43_stats_unchanged",
    "c43_resend_unchanged_partial",
    "c43_reencode_partial",
    "c43_reencode_refuted",
    "c43_full_text_refuted",
    "c43_behind_refuted",
    "c43_type_refuted",
    "c43_bands_refuted"
   ],
   "note": "For every byte string that is accepted as one of 40 of the 52 messages (25 of fixed size, 8 ending in data, FEATURES_REPLY 1.0, errors of a standard type, statistics and multipart messages whose body is raw, one fixed structure or fixed records): the message packs, version, type and xid come back, the length is that of the new packet, and the body differs only in padding and bytes behind the fields; without these the packet is unchanged. The same (c43_resend_partial) for every accepted packet whose body follows the layout grammar of SpecTidy.v, which covers actions, matches, OXM fields, instructions, buckets, queues, hello elements, properties and statistics of them, of any number and nesting. False in general: full-width text loses its last character, bytes behind the fields are dropped, the 1.3 queue messages change their type, METER_MOD with bands gets a wrong length."
  },
  {
   "property": "C44",
   "status": "partial",
   "theorems": [
    "c44_lists_partial",
    "c44_structures",
    "c44_groups_refuted"
   ],
   "note": "Entries that extend to the end of their buffer (GroupStats, GroupDescStats, MeterConfig) only as last entry; refuted otherwise."
  },
  {
   "property": "C45",
   "status": "proved",
   "theorems": [
    "c45_bytes",
    "c45_attributes",
    "c45_size",
    "c45_new",
    "c45_failure_refuted"
   ],
   "note": "Proved for every object whose pack() returns, with the attributes of its class present in order (built): any number of calls, nested objects included. Outside the statement: after a call that raises, the body or data of StatsRequest and ErrorMsg stays replaced by its bytes (c45_failure_refuted); aliasing (one object in two places, the class attribute standing in for None) is not modelled."
  },
  {
   "property": "C46",
   "status": "partial",
   "theorems": [
    "c46_get_field",
    "c46_get_field_none",
    "c46_in_port_partial",
    "c46_missing",
    "c46_class_refuted",
    "c46_no_match",
    "c46_foreign"
   ],
   "note": "The value of the first TLV with the requested field number is returned for every match; in_port of every received PacketIn is the number of its first TLV with field number 0. The class of the TLV is not looked at (refuted), and in_port raises TypeError instead of giving None when there is no such TLV."
  },
  {
   "property": "C47",
   "status": "proved",
   "theorems": [
    "c47_vlan",
    "c47_ethernet",
    "c47_ipv6"
   ],
   "note": "Any number of calls in between, for objects in any state, also when packing raises."
  },
  {
   "property": "C48",
   "status": "partial",
   "theorems": [
    "c18_invariant",
    "c48_setitem_refuted",
    "c48_iadd_refuted",
    "c48_setitem_keeps",
    "c48_iadd_keeps",
    "c48_positions",
    "c48_positions_outside",
    "c48_del_slice",
    "c48_times",
    "c48_del_slice_back"
   ],
   "note": "Holds for the operations TypeList overrides and for pop, clear, reverse; item assignment and += are the built-in ones and accept anything. The history theorem also covers deleting items and slices and *=. For item assignment and += the exact condition is proved: the elements are all instances afterwards if and only if what was put in is; positions are described for every index."
  },
  {
   "property": "C49",
   "status": "partial",
   "theorems": [
    "c49_library_partial",
    "c49_standard_partial",
    "c49_fields",
    "c49_names_refuted"
   ],
   "note": "All numbers agree with the standard. Partial because of names: OFPPC_NO_FLOOD of 1.0 is called OFPPC_FLOOD, OFPGMFC_GROUP_EXISTS is called FPGMFC_GROUP_EXISTS, OFPSCFC_EPERM is called OFPQCFC_EPERM; GENERIC_ERROR (twice) and OFPMPF_REQ_NONE are not in the standard; OFPPS_STP_MASK is missing. The exact list is in the statement. The standard is written in SpecConstants.v in the notation of C enumerations."
  },
  {
   "property": "C50",
   "status": "partial",
   "theorems": [
    "c50_computed_partial",
    "c50_constant",
    "c50_given",
    "c50_match_partial",
    "c50_all",
    "c50_computed_refuted",
    "c50_given_refuted"
   ],
   "note": "Every class with a length attribute is in one of the tables (c50_all). c50_constant and c50_given are unconditional for built, regular objects. c50_computed_partial and c50_match_partial need 'measurable' (the shapes whose size get_size gets wrong, C09): c50_computed_refuted is an instruction holding an action of 9 bytes. c50_given_refuted: lengths given by the caller (buckets, pop MPLS, ...) are not compared with the structure."
  },
  {
   "property": "C51",
   "status": "partial",
   "theorems": [
    "c51_structure_partial",
    "c51_message_partial",
    "c51_rest",
    "c51_list",
    "c51_records",
    "c51_ports",
    "c51_stats_type",
    "c51_stats_list",
    "c51_stats_struct",
    "c51_stats_raw",
    "c51_empty_refuted",
    "c51_zero_length_refuted"
   ],
   "note": "Partial because the full statement is false of the code: a packet that is only a header is accepted for every message type with the defaults of its fields (c51_empty_refuted), and a structure whose own length field is 0 at the start of a buffer is not read at all (c51_zero_length_refuted). Proved for every other input: all fixed fields of all classes with a layout, lists of any length, trailing data and statistics bodies."
  },
  {
   "property": "C52",
   "status": "partial",
   "theorems": [
    "c52_refuses",
    "c52_accepts_partial",
    "c52_stored",
    "c52_empty",
    "c52_omitted",
    "c52_others",
    "c52_header",
    "c52_no_arguments",
    "c52_complete",
    "c52_bytes",
    "c52_message_partial",
    "c52_type",
    "c52_match",
    "c52_match_refuses",
    "c52_match_fails",
    "c52_bare",
    "c52_accepts_refuted",
    "c52_message_refuted"
   ],
   "note": "Storing, defaults, refusals and offsets hold for every class and all arguments. Partial for acceptance: 18 constructors ask for the size of an argument and fail when it has none (c52_accepts_refuted); and for the type byte of the two queue configuration messages of OpenFlow 1.3, which state the type of another message (c52_message_refuted). The OpenFlow 1.0 match takes keywords as assignments (c52_match; C22, C23)."
  },
  {
   "property": "C53",
   "status": "proved",
   "theorems": [
    "c53_message",
    "c53_fields",
    "c53_data",
    "c53_ports",
    "c53_records",
    "c53_body",
    "c53_raw",
    "c53_constructed",
    "c53_number",
    "c53_ip",
    "c53_hw",
    "c53_dpid",
    "c53_text"
   ],
   "note": "for complete objects (built, regular: C13) of Python values (octets: C56) that the receiver accepts; lists of structures of varying size are the subject of C11 and C12; fields that pack() computes are not compared"
  },
  {
   "property": "C54",
   "status": "proved",
   "theorems": [
    "c54_message",
    "c54_fields",
    "c54_contents",
    "c54_values"
   ],
   "note": "for complete objects (built, regular: C13); fields that pack() computes are not compared"
  },
  {
   "property": "C55",
   "status": "partial",
   "theorems": [
    "c55_stream_partial",
    "c55_wf_stream_partial",
    "c55_unique",
    "c55_stream_refuted"
   ],
   "note": "partial because it needs the header length to be right, which C10 proves for measurable objects and refutes for a MeterMod with a band (c55_stream_refuted)"
  },
  {
   "property": "C56",
   "status": "proved",
   "theorems": [
    "c56_bytes",
    "c56_constructed",
    "c56_new"
   ],
   "note": "Every element of the result is between 0 and 255, for every value that packs and whose own bytes objects hold bytes (octets), also those no constructor makes."
  },
  {
   "property": "C57",
   "status": "partial",
   "theorems": [
    "c57_text_order",
    "c57_bytes_order",
    "c57_total",
    "c57_ne",
    "c57_eq_str",
    "c57_eq_other",
    "c57_eq_type",
    "c57_ne_refuted",
    "c57_add",
    "c57_add_refuted",
    "c57_no_other",
    "c57_number",
    "c57_ne_any",
    "c57_eq_any",
    "c57_eq_member",
    "c57_member_refuted"
   ],
   "note": "Order, != and == with str hold for all texts. False: two objects of one class are compared by their encoding, so == and != disagree (upper and lower case hardware addresses) or == raises; a str plus an object is concatenated in reverse. Operands of any kind (None, numbers, members of enumerations): c57_ne_any, c57_eq_any, c57_eq_member; with members of a plain Enum == and != can both hold or neither (c57_member_refuted)."
  },
  {
   "property": "C58",
   "status": "partial",
   "theorems": [
    "c58_accepted_partial",
    "c58_relayed_partial",
    "c58_band_refuted",
    "c58_error_refuted"
   ],
   "note": "Accepted for all layouts of SpecAccept.v. Not covered: non-empty lists declared as plain FixedTypeList inside a structure, text that fills its field or is not ASCII, the two QUEUE_GET_CONFIG types whose classes are swapped. Refuted for experimenter meter bands (KeyError) and experimenter errors (UnpackException)."
  },
  {
   "property": "C59",
   "status": "proved",
   "theorems": [
    "c59_ethernet",
    "c59_unique"
   ],
   "note": "At offset 0; at other offsets the tags are looked for at the wrong place (c30_offset_refuted)."
  },
  {
   "property": "C60",
   "status": "partial",
   "theorems": [
    "c60_ethernet",
    "c60_arp",
    "c60_vlan_partial",
    "c60_ipv4_partial",
    "c60_ipv4_same_partial",
    "c60_ipv6",
    "c60_ipv6_same",
    "c60_lldp_partial",
    "c60_vlan_refuted",
    "c60_ipv4_options_refuted",
    "c60_lldp_refuted"
   ],
   "note": "False of the code: a VLAN tag of type 0 is accepted and sent as nothing, the checksum of an IPv4 header with options comes out wrong, an empty first LLDP TLV takes a byte of the next one."
  },
  {
   "property": "C61",
   "status": "partial",
   "theorems": [
    "c61_ethernet",
    "c61_arp",
    "c61_vlan_partial",
    "c61_ipv4_partial",
    "c61_ipv6_partial",
    "c61_tlv",
    "c61_lldp",
    "c61_empty_refuted"
   ],
   "note": "An empty buffer raises TypeError in VLAN, IPv4 and IPv6; every other buffer is covered."
  },
  {
   "property": "C62",
   "status": "partial",
   "theorems": [
    "c62_fresh",
    "c62_defaults",
    "c62_separate",
    "c62_value",
    "c62_shared_refuted",
    "c62_kept",
    "c62_match_kept",
    "c62_common"
   ],
   "note": "Modelled on a heap of cells: every statement of every __init__ (the same table Inits.v interprets for values), the assignments in the constructor of Match of v0x01, deep copies of class attributes and mutable defaults evaluated once. Partial because the statement is false for AggregateStatsRequest of v0x01 (c62_shared_refuted: an assignment through one request changes the bytes of another). Arguments are taken over as the objects given (c62_kept, c62_match_kept), shown for all but the transaction id of messages and the wildcards of a v0x01 match, which other assignments recompute; addresses given to a v0x01 match in another form become new objects."
  },
  {
   "property": "C63",
   "status": "partial",
   "theorems": [
    "c63_int_packed_partial",
    "c63_int_unpacked_partial",
    "c63_int_refuted",
    "c63_text_number",
    "c63_text_address",
    "c63_broadcast_unpacked",
    "c63_broadcast_partial",
    "c63_broadcast_refuted",
    "c63_hash_unpacked",
    "c63_hash_same",
    "c63_hash_repeat",
    "c63_hash_apart",
    "c63_dir",
    "c63_int_text",
    "c63_text_held",
    "c63_broadcast_held",
    "c63_text_dpid",
    "c63_text_pad"
   ],
   "note": "The full statement is false: int() raises TypeError for a field that keeps a bit mask or a member of a plain Enum, and is_broadcast() compares the text, so that upper-case FF is not recognised. str() of bytes, enumeration members and structs is not modelled. The full statement is false: int() raises TypeError for a field that keeps a bit mask or a member of a plain Enum, str() of a datapath id that holds no text raises TypeError, and is_broadcast() compares the text, so that upper-case FF is not recognised. str() of bytes, enumeration members and structs is not modelled."
  },
  {
   "property": "C64",
   "status": "proved",
   "theorems": [
    "c64_independent",
    "c64_stored",
    "c64_shared",
    "c64_header_refuted"
   ],
   "note": "up_to_lengths (SpecShared.v) relates instances that differ only in computed attributes, touched is any sequence of pack() calls on the instance and on its parts. c64_header_refuted is the exception named in the statement. Identity of objects is not in the model of pack(): sharing is the effect that the other pack() calls have on the parts."
  },
  {
   "property": "C65",
   "status": "proved",
   "theorems": [
    "c65_basic",
    "c65_fields",
    "c65_sized",
    "c65_message",
    "c65_list",
    "c65_absent",
    "c65_one",
    "c65_classes",
    "c65_error",
    "c65_stats_request",
    "c65_stats_reply",
    "c65_multipart",
    "c65_multipart_any",
    "c65_packet_out",
    "c65_set_field",
    "c65_match",
    "c65_tlv"
   ],
   "note": "refused (SpecReject.v) says which value of a field raises what, in terms of pack() of the nested objects; the theorems are equivalences, so a value that is not refused packs. c65_classes lists the classes beside which c65_error to c65_tlv speak of one class each. Multipart types held in fields of another kind of enumeration, or in fields that hold other objects, are not covered (type_asked, SpecReject3.v). int(text, base) and str.split are those of PyText.v."
  },
  {
   "property": "C66",
   "status": "proved",
   "theorems": [
    "c66_arp",
    "c66_ethernet",
    "c66_tlv",
    "c66_sub_tlv",
    "c66_lldp",
    "c66_ipv4",
    "c66_ipv6",
    "c66_ipv4_attributes",
    "c66_ipv6_attributes"
   ],
   "note": "Arguments not given are None in the model's constructors. Ethernet needs its type; IPv4 is stated for ihl not given and at most ten words of options. The values given are the ones that C30 to C35 cover (numbers in range, address texts)."
  },
  {
   "property": "C67",
   "status": "proved",
   "theorems": [
    "c67_basic",
    "c67_object",
    "c67_bucket",
    "c67_list",
    "c67_one"
   ],
   "note": "size_refused (SpecSizeRefuse.v) says which value of a field raises what, in terms of get_size() of the nested objects; the theorems are equivalences. For a bucket whose length is no number the model raises TypeError where the code does so one step later, when the size is added up."
  },
  {
   "property": "C68",
   "status": "proved",
   "theorems": [
    "c68_arp",
    "c68_vlan",
    "c68_ethernet",
    "c68_tlv",
    "c68_lldp",
    "c68_ipv4",
    "c68_ipv6",
    "c68_vlan_refuted"
   ],
   "note": "The theorems are equivalences with the list of steps of SpecNetRefuse.v. ARP: a packet as made with nine arguments. IPv4: numeric attributes are ints, options and data are bytes. c68_vlan_refuted: identifiers beyond 12 bits are accepted and overwrite priority and CFI."
  },
  {
   "property": "C69",
   "status": "proved",
   "theorems": [
    "c69_tlv",
    "c69_lldp",
    "c69_unique",
    "c69_empty",
    "c69_overrun_refuted"
   ],
   "note": "reads and reads_lldp (SpecLldp.v) are relations on byte lists; the theorems say that exactly the readings they allow are returned and everything else raises UnpackException."
  },
  {
   "property": "C70",
   "status": "partial",
   "theorems": [
    "c70_arp",
    "c70_ipv4",
    "c70_ipv6",
    "c70_vlan_partial",
    "c70_ethernet_partial",
    "c70_tlv",
    "c70_lldp",
    "c70_size_refuted"
   ],
   "note": "False for a tag without fields, which is written as nothing and counted as 4 bytes (c70_size_refuted); proved for all other packets. The data of a frame may be bytes, nothing or any object whose own get_size() is right."
  },
  {
   "property": "C71",
   "status": "proved",
   "theorems": [
    "c71_int",
    "c71_int_refused",
    "c71_ip",
    "c71_hw",
    "c71_dpid",
    "c71_ip6",
    "c71_ip_prefix",
    "c71_ip6_prefix",
    "c71_strict_refuted",
    "c71_slash"
   ],
   "note": "int() is the model PyText.py_int of the built-in function; ASCII texts. c71_strict_refuted shows that texts outside the usual notation (signs, blanks, underscores, 0x, negative prefix lengths) are accepted too."
  }
 ]
}
