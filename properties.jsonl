{"id": "C01", "title": "Unsigned integers are written big-endian and read back", "statement": "For each of UBInt8/16/32/64 and every integer v that fits in the width, pack() returns exactly the width's number of bytes, the bytes are the base-256 digits of v most significant first, and unpack() of any buffer that contains those bytes at a given offset sets the value back to v, whatever precedes and follows them.", "quantifier": "all widths, all values in range, all surrounding buffers and offsets", "why_tests_cant": "2^64 values times unbounded buffers and offsets; a test samples a handful of values at offset 0.", "anchors": ["pyof/foundation/base.py:GenericType.pack", "pyof/foundation/base.py:GenericType.unpack", "pyof/foundation/basic_types.py:UBInt8", "pyof/foundation/basic_types.py:UBInt16", "pyof/foundation/basic_types.py:UBInt32", "pyof/foundation/basic_types.py:UBInt64"]}
{"id": "C02", "title": "Integers that do not fit are refused, never truncated", "statement": "For each UBInt width, packing a value that is negative, too large, None, a string or bytes raises PackException, and unpacking from a buffer with fewer than width bytes left raises UnpackException; neither call ever returns truncated or wrapped data.", "quantifier": "all widths, all Python scalar values outside the range, all short buffers and offsets", "why_tests_cant": "The set of unacceptable values is infinite; tests check one overflow value.", "anchors": ["pyof/foundation/base.py:GenericType.pack", "pyof/foundation/base.py:GenericType.unpack"]}
{"id": "C03", "title": "Enumerated fields accept exactly the declared members", "statement": "Unpacking an integer field that carries an Enum succeeds exactly when the wire value is a declared member of that Enum (otherwise UnpackException) and then holds that member; unpacking a field that carries a GenericBitMask succeeds for every wire value and keeps all bits.", "quantifier": "all enum classes used by the messages, all wire values, all buffers", "why_tests_cant": "Every 8/16/32-bit wire value for every enum would have to be tried.", "anchors": ["pyof/foundation/base.py:GenericType.unpack", "pyof/foundation/base.py:GenericType.value", "pyof/foundation/base.py:GenericBitMask"]}
{"id": "C04", "title": "Hardware addresses round-trip through text", "statement": "Unpacking any six bytes yields their text form (six lower-case two-digit hex groups joined by ':'), packing that text yields the same six bytes, and packing any six colon-separated hex groups with values 0..255 yields those six values; anything with a group above 255 or with a number of groups other than six raises PackException.", "quantifier": "all 6-byte sequences, all lists of group values, all offsets", "why_tests_cant": "2^48 addresses and unboundedly many textual spellings.", "anchors": ["pyof/foundation/basic_types.py:HWAddress.pack", "pyof/foundation/basic_types.py:HWAddress.unpack"]}
{"id": "C05", "title": "IPv4 addresses round-trip through dotted text", "statement": "Unpacking any four bytes yields the dotted-decimal text of the four values, packing that text (with or without a '/prefix' suffix) yields the same four bytes; text whose octets exceed 255 or that has not exactly four octets raises PackException. Constructing an IPAddress from 'a.b.c.d/n' stores address and prefix n separately.", "quantifier": "all 4-byte sequences, all prefixes, all offsets", "why_tests_cant": "2^32 addresses; tests use three.", "anchors": ["pyof/foundation/basic_types.py:IPAddress.__init__", "pyof/foundation/basic_types.py:IPAddress.pack", "pyof/foundation/basic_types.py:IPAddress.unpack"]}
{"id": "C06", "title": "IPv6 addresses round-trip and '::' expands to the right zeros", "statement": "Unpacking any sixteen bytes yields eight four-digit hex groups and packing that text yields the same bytes; constructing an IPv6Address from text with one '::' (at the start, in the middle or at the end) standing for at least one group and packing it yields the groups to the left, zeros, and the groups to the right, sixteen bytes in all.", "quantifier": "all 16-byte sequences; all splits of up to seven explicit groups around '::'", "why_tests_cant": "2^128 addresses and every placement of the abbreviation.", "anchors": ["pyof/foundation/basic_types.py:IPv6Address.__init__", "pyof/foundation/basic_types.py:IPv6Address.pack", "pyof/foundation/basic_types.py:IPv6Address.unpack"]}
{"id": "C07", "title": "Datapath ids round-trip through text", "statement": "Unpacking any eight bytes into a DPID yields eight lower-case two-digit hex groups joined by ':' and packing that text yields the same eight bytes.", "quantifier": "all 8-byte sequences and offsets", "why_tests_cant": "2^64 ids.", "anchors": ["pyof/foundation/basic_types.py:DPID.pack", "pyof/foundation/basic_types.py:DPID.unpack"]}
{"id": "C08", "title": "Fixed-length strings keep their length, terminate, and round-trip", "statement": "Packing an ASCII string into a Char field of positive length L yields exactly L bytes of which the last is NUL and whose prefix is the string (cut to L-1 characters); if the string is shorter than L and does not end in NUL, unpacking those bytes gives the same string back.", "quantifier": "all field lengths, all ASCII strings, all surrounding buffers", "why_tests_cant": "Unboundedly many strings and lengths; boundary (L-1, L, L+1, trailing NULs) differ per length.", "anchors": ["pyof/foundation/basic_types.py:Char.pack", "pyof/foundation/basic_types.py:Char.unpack"]}
{"id": "C09", "title": "The reported size of a structure is the size of its encoding", "statement": "For every well-formed instance of every OpenFlow struct and message class modelled, get_size() equals len(pack()).", "quantifier": "all well-formed instances of all modelled classes (any field values, any list lengths, any nesting)", "why_tests_cant": "Sizes depend on arbitrary nested variable-length lists.", "anchors": ["pyof/foundation/base.py:GenericStruct.get_size", "pyof/foundation/base.py:GenericStruct.pack", "pyof/foundation/basic_types.py:TypeList.get_size", "pyof/foundation/basic_types.py:BinaryData.get_size"]}
{"id": "C10", "title": "The length in the message header is the number of bytes sent", "statement": "For every well-formed message whose encoding is shorter than 65536 bytes, bytes 2..3 of pack() hold, big-endian, the total number of bytes returned; a message of 65536 bytes or more is refused with PackException rather than sent with a wrong length.", "quantifier": "all well-formed messages of both protocol versions, any body size", "why_tests_cant": "A switch drops the connection on a wrong length; bodies are unbounded so only a proof covers all of them.", "anchors": ["pyof/foundation/base.py:GenericMessage.pack", "pyof/foundation/base.py:GenericMessage.update_header_length"]}
{"id": "C11", "title": "OpenFlow 1.0 messages survive pack then unpack", "statement": "For every well-formed OpenFlow 1.0 message, utils.unpack(msg.pack()) returns a message of the same class that has the same xid, whose attributes hold the same values, and that packs to the same bytes.", "quantifier": "all well-formed instances of each OpenFlow 1.0 message class", "why_tests_cant": "Field values and list contents range over unbounded sets.", "anchors": ["pyof/utils.py:unpack", "pyof/v0x01/common/utils.py:unpack_message", "pyof/foundation/base.py:GenericMessage.unpack", "pyof/v0x01"]}
{"id": "C12", "title": "OpenFlow 1.3 messages survive pack then unpack", "statement": "For every well-formed OpenFlow 1.3 message, utils.unpack(msg.pack()) returns a message of the same class that has the same xid, whose attributes hold the same values, and that packs to the same bytes.", "quantifier": "all well-formed instances of each OpenFlow 1.3 message class", "why_tests_cant": "Field values, matches, instruction and action lists range over unbounded sets.", "anchors": ["pyof/utils.py:unpack", "pyof/v0x04/common/utils.py:unpack_message", "pyof/foundation/base.py:GenericMessage.unpack", "pyof/v0x04"]}
{"id": "C13", "title": "A struct is its fields in declaration order, nothing else", "statement": "pack() of a well-formed struct is the concatenation, in declaration order, of the encodings of its fields: big-endian integers of the declared width, zero bytes for padding, nested structs and list items in order. For the fixed part of the OpenFlow 1.0 and 1.3 structs the field offsets and widths are those of the OpenFlow specification.", "quantifier": "all well-formed instances of all modelled classes", "why_tests_cant": "Field order and padding bugs show only for values that differ between the swapped fields.", "anchors": ["pyof/foundation/base.py:GenericStruct.pack", "pyof/foundation/base.py:MetaStruct.__new__"]}
{"id": "C14", "title": "Unpacking depends only on the bytes of the struct", "statement": "If a fixed-size or length-delimited struct unpacks from a buffer at offset 0, then it unpacks to the same values from any buffer that has the same bytes at any other offset, whatever comes before and after.", "quantifier": "all modelled self-delimiting structs, all prefixes and suffixes", "why_tests_cant": "The prefix and suffix are arbitrary; tests unpack at offset 0 with nothing after.", "anchors": ["pyof/foundation/base.py:GenericStruct.unpack", "pyof/foundation/base.py:GenericStruct._unpack_attribute"]}
{"id": "C15", "title": "Bad packets only ever raise UnpackException", "statement": "utils.unpack(packet), for any bytes object, either returns a message or raises UnpackException; no other exception type reaches the caller.", "quantifier": "all byte strings", "why_tests_cant": "Untrusted switch input: every byte string must be considered, not a corpus.", "anchors": ["pyof/utils.py:unpack", "pyof/utils.py:validate_packet"]}
{"id": "C16", "title": "Packet validation accepts exactly well-framed packets", "statement": "validate_packet accepts a bytes object exactly when its length is between 8 and 65535, bytes 2..3 equal that length, and the version byte is between 1 and 127; everything else raises UnpackException.", "quantifier": "all byte strings and non-bytes objects", "why_tests_cant": "All byte strings of all lengths.", "anchors": ["pyof/utils.py:validate_packet"]}
{"id": "C17", "title": "The class and transaction of an unpacked packet come from its header", "statement": "If utils.unpack(packet) returns a message, then the version byte is 1 or 4, the message's class is the one OpenFlow assigns to that version and type byte, its header type equals byte 1, its xid equals bytes 4..7 and its header length equals bytes 2..3; an unknown version or type byte raises UnpackException.", "quantifier": "all byte strings", "why_tests_cant": "All type codes, all bodies.", "anchors": ["pyof/utils.py:unpack", "pyof/v0x01/common/utils.py:new_message_from_header", "pyof/v0x04/common/utils.py:new_message_from_header", "pyof/v0x04/common/utils.py:MESSAGE_TYPES"]}
{"id": "C18", "title": "Typed lists only ever hold the declared item type", "statement": "Starting from an empty FixedTypeList, after any sequence of append, extend and insert calls with arbitrary arguments (including nested lists) and whether or not each call raised, every element is an instance of the declared class; calls that would add another type raise WrongListItemType.", "quantifier": "all finite sequences of operations with all argument shapes", "why_tests_cant": "Histories are unbounded, and partial failures inside extend leave partial state.", "anchors": ["pyof/foundation/basic_types.py:FixedTypeList.append", "pyof/foundation/basic_types.py:FixedTypeList.insert", "pyof/foundation/basic_types.py:TypeList.extend"]}
{"id": "C19", "title": "Constant-type lists stay homogeneous", "statement": "Starting from an empty ConstantTypeList, after any sequence of append, extend and insert calls, all elements have the same class as the first one.", "quantifier": "all finite sequences of operations", "why_tests_cant": "Histories are unbounded.", "anchors": ["pyof/foundation/basic_types.py:ConstantTypeList.append", "pyof/foundation/basic_types.py:ConstantTypeList.insert"]}
{"id": "C20", "title": "A list encodes as its items in order and decodes back", "statement": "pack() of a list is the concatenation of its items' encodings in order; unpacking that concatenation gives a list with the same number of items with the same values in the same order.", "quantifier": "all lists, of any length, of well-formed items of every modelled item class", "why_tests_cant": "List length is unbounded.", "anchors": ["pyof/foundation/basic_types.py:TypeList.pack", "pyof/foundation/basic_types.py:TypeList.unpack", "pyof/foundation/basic_types.py:TypeList.get_size"]}
{"id": "C21", "title": "Unpacking always terminates", "statement": "utils.unpack(packet) finishes for every byte string: the loops over list items always advance, so no packet sent by a peer can hang the controller.", "quantifier": "all byte strings", "why_tests_cant": "Zero-length or self-declared-length items are where a decoder hangs; only a proof excludes all of them.", "anchors": ["pyof/foundation/basic_types.py:TypeList.unpack", "pyof/utils.py:unpack"]}
{"id": "C22", "title": "OpenFlow 1.0 wildcards always reflect the assigned fields", "statement": "After constructing a Match and assigning any sequence of values to its fields, for each non-address field the wildcard bit of that field is set exactly when the field holds its default value, and no wildcard bit outside the defined 22 ever becomes set. A value that cannot be converted to an address, and a name that is no field, are refused and leave the match as it was.", "quantifier": "all finite sequences of attribute assignments with all values", "why_tests_cant": "Histories of assignments are unbounded and bits are toggled with xor.", "anchors": ["pyof/v0x01/common/flow_match.py:Match.__setattr__", "pyof/v0x01/common/flow_match.py:Match.fill_wildcards"]}
{"id": "C23", "title": "OpenFlow 1.0 address prefixes become the right wildcard counts", "statement": "After any sequence of assignments, the six-bit nw_src and nw_dst counts in wildcards equal 32 minus the prefix length of the address last assigned (32 if none was), and assigning one address never disturbs the other count or the single-bit wildcards.", "quantifier": "all finite sequences of assignments, all prefixes 0..32", "why_tests_cant": "Interaction of masks across histories.", "anchors": ["pyof/v0x01/common/flow_match.py:Match.fill_wildcards"]}
{"id": "C24", "title": "OpenFlow 1.3 Match is self-delimiting and 8-byte aligned", "statement": "For every Match holding any list of OXM TLVs: pack() has a length multiple of 8, the stored length is 4 plus the TLV bytes (excluding padding), the padding is zero bytes, get_size() equals len(pack()), and unpacking it from any offset of any buffer gives the same TLVs back.", "quantifier": "all lists of well-formed OXM TLVs, all surrounding buffers", "why_tests_cant": "All list lengths and all residues mod 8.", "anchors": ["pyof/v0x04/common/flow_match.py:Match"]}
{"id": "C25", "title": "OXM TLVs round-trip", "statement": "For every OXM class, field number valid for that class, mask flag and value of up to 255 bytes, packing an OxmTLV writes class, (field<<1 | mask), length and value, and unpacking returns the same class, field, flag and value; for OPENFLOW_BASIC an undefined field number is refused with PackException or UnpackException, for other classes a field above 127 is refused with PackException.", "quantifier": "all classes, fields, flags, values and buffers", "why_tests_cant": "2^8 fields times all values.", "anchors": ["pyof/v0x04/common/flow_match.py:OxmTLV"]}
{"id": "C26", "title": "Set-field actions are padded to eight bytes", "statement": "For every ActionSetField with a well-formed OXM TLV, pack() has a length multiple of 8 that equals the stored action length and get_size(), the padding is zero, and unpacking the bytes (followed by anything) gives the same TLV back.", "quantifier": "all well-formed TLVs, all suffixes", "why_tests_cant": "All residues mod 8.", "anchors": ["pyof/v0x04/common/action.py:ActionSetField", "pyof/v0x04/common/action.py:ActionHeader"]}
{"id": "C27", "title": "Actions and instructions decode to the class of their type code", "statement": "Unpacking a list of actions (either version), instructions, meter bands or table-feature properties yields, for each element, an object of the class that the specification assigns to the element's type code, of the declared length.", "quantifier": "all well-formed lists", "why_tests_cant": "All sequences of heterogeneous elements.", "anchors": ["pyof/v0x01/common/action.py:ActionHeader.unpack", "pyof/v0x04/common/action.py:ActionHeader.unpack", "pyof/v0x04/common/flow_instructions.py:Instruction.unpack", "pyof/v0x04/controller2switch/meter_mod.py:MeterBandHeader.unpack", "pyof/v0x04/controller2switch/common.py:Property.unpack"]}
{"id": "C28", "title": "PacketOut writes the real action length and refuses bad input ports", "statement": "For every PacketOut, pack() raises ValidationError unless in_port is 1..OFPP_MAX or one of the virtual ports LOCAL, CONTROLLER, NONE/ANY; when it packs, the actions_len on the wire is the exact number of action bytes, and unpacking separates actions from data correctly for any data.", "quantifier": "all in_port values, all action lists, all data (both versions)", "why_tests_cant": "Data may look like actions; only a proof covers every split.", "anchors": ["pyof/v0x01/controller2switch/packet_out.py:PacketOut", "pyof/v0x04/controller2switch/packet_out.py:PacketOut"]}
{"id": "C29", "title": "VLAN tags round-trip", "statement": "For every pcp 0..7, cfi 0..1 and vid 0..4095, packing a VLAN gives the four bytes 81 00 TCI with TCI = pcp<<13|cfi<<12|vid and unpacking gives the three values back; fields that were never set default to zero when at least one is set.", "quantifier": "all 2^16 combinations and all buffers", "why_tests_cant": "Cheap to enumerate but tests check two; together with arbitrary buffers it is unbounded.", "anchors": ["pyof/foundation/network_types.py:VLAN.pack", "pyof/foundation/network_types.py:VLAN.unpack"]}
{"id": "C30", "title": "Ethernet frames with any stack of VLAN tags round-trip", "statement": "For every destination, source, list of VLAN tags, EtherType that is not itself a VLAN tag type, and payload, unpacking a packed Ethernet frame returns the same addresses, tags in the same order, type and payload.", "quantifier": "all addresses, all tag-list lengths, all payloads", "why_tests_cant": "Unbounded number of tags and payload bytes.", "anchors": ["pyof/foundation/network_types.py:Ethernet.unpack", "pyof/foundation/network_types.py:Ethernet._get_vlan_length"]}
{"id": "C31", "title": "ARP packets round-trip and other protocols are refused", "statement": "Every ARP packet for Ethernet/IPv4 packs to 28 bytes laid out as in RFC 826 and unpacks to the same values; pack() of any other htype/ptype raises ValidationError and unpack() of such bytes raises UnpackException.", "quantifier": "all field values and buffers", "why_tests_cant": "All combinations of fields.", "anchors": ["pyof/foundation/network_types.py:ARP"]}
{"id": "C32", "title": "IPv4 packets without options round-trip with a correct checksum", "statement": "For every IPv4 header without options with fields in range, and any payload, pack() writes total length 20+payload, the one's-complement sum of the ten header words is 0xFFFF, and unpack() returns the same fields and payload.", "quantifier": "all field values and payloads", "why_tests_cant": "2^160 headers; carries in the checksum depend on all of them.", "anchors": ["pyof/foundation/network_types.py:IPv4.pack", "pyof/foundation/network_types.py:IPv4._update_checksum", "pyof/foundation/network_types.py:IPv4.unpack"]}
{"id": "C33", "title": "Packing an IPv4 packet again gives the same bytes", "statement": "Calling pack() any number of times on an IPv4 object (also through == and get_hash()) returns the same bytes each time.", "quantifier": "all IPv4 objects, all numbers of calls", "why_tests_cant": "A history property: pack() mutates the object.", "anchors": ["pyof/foundation/network_types.py:IPv4.pack"]}
{"id": "C34", "title": "IPv6 packets round-trip", "statement": "For every IPv6 header with fields in range and any payload, pack() writes the payload length and version/class/label packed into 32 bits, and unpack() returns the same fields and payload.", "quantifier": "all field values and payloads", "why_tests_cant": "2^320 headers.", "anchors": ["pyof/foundation/network_types.py:IPv6.pack", "pyof/foundation/network_types.py:IPv6.unpack"]}
{"id": "C35", "title": "LLDP TLVs carry their length and round-trip", "statement": "For every TLV type 0..127 and value of at most 511 bytes, GenericTLV.pack() writes type and length in 7 and 9 bits followed by the value and unpack() returns them at any offset of any buffer; the same holds for TLVWithSubType, and for a whole LLDP packet with arbitrary chassis, port, ttl and end TLVs.", "quantifier": "all types, values, buffers", "why_tests_cant": "All lengths 0..511 and all contents.", "anchors": ["pyof/foundation/network_types.py:GenericTLV", "pyof/foundation/network_types.py:TLVWithSubType", "pyof/foundation/network_types.py:LLDP"]}
{"id": "C36", "title": "Equality of structs is equality of encodings", "statement": "For structs that pack, a == b exactly when a.pack() == b.pack(), hence == is reflexive, symmetric and transitive on them.", "quantifier": "all packable structs", "why_tests_cant": "A relation over all pairs and triples of objects.", "anchors": ["pyof/foundation/base.py:GenericStruct.__eq__"]}
{"id": "C37", "title": "Arithmetic and bitwise operators on integers behave like the plain integers", "statement": "For every UBInt holding an integer a and every integer b, the results of +, -, |, &, ^ with the UBInt on either side, and << and >> with the UBInt on the left, equal the results on the plain integers, with operands in the order written.", "quantifier": "all integer operands", "why_tests_cant": "All integers on both sides; order matters for '-'.", "anchors": ["pyof/foundation/base.py:GenericType.__add__", "pyof/foundation/base.py:GenericType.__rsub__"]}
{"id": "C38", "title": "Comparisons on integers are consistent", "statement": "For every two UBInt objects or a UBInt and an integer: exactly one of <, ==, > holds, and != is the negation of ==; <= and >= agree with them.", "quantifier": "all pairs of values", "why_tests_cant": "All pairs.", "anchors": ["pyof/foundation/base.py:GenericType.__eq__", "pyof/foundation/base.py:GenericType.__ne__", "pyof/foundation/base.py:GenericType.__lt__"]}
{"id": "C39", "title": "A bit mask lists exactly its selected names", "statement": "For every GenericBitMask subclass and every bitmask value, names returns exactly the declared names whose value has a bit in common with the mask, in declaration order.", "quantifier": "all bit mask classes and values", "why_tests_cant": "2^32 masks.", "anchors": ["pyof/foundation/base.py:GenericBitMask.names", "pyof/foundation/base.py:GenericBitMask.iteritems"]}
{"id": "C40", "title": "is_valid() tells whether pack() succeeds", "statement": "For every basic integer type and every value, is_valid() returns True exactly when pack() succeeds and returns False otherwise.", "quantifier": "all values", "why_tests_cant": "All values, including wrong types.", "anchors": ["pyof/foundation/base.py:GenericType.is_valid"]}
{"id": "C41", "title": "128-bit integers pack and unpack", "statement": "For every v below 2^128, UBInt128(v).pack() returns the 16 big-endian bytes and unpacking them returns v.", "quantifier": "all values", "why_tests_cant": "2^128 values.", "anchors": ["pyof/foundation/basic_types.py:UBInt128"]}
{"id": "C42", "title": "Inherited structs keep field order", "statement": "For every base class layout and every subclass body, the subclass layout is the base's fields in order minus the removed ones, with redefined fields kept at the base's position, followed by the new fields in order; fields from another protocol version are replaced by the same-named class of the subclass's version.", "quantifier": "all base layouts, removals and class bodies", "why_tests_cant": "All class definitions a user can write.", "anchors": ["pyof/foundation/base.py:MetaStruct.__new__", "pyof/foundation/base.py:MetaStruct.get_pyof_version", "pyof/foundation/base.py:MetaStruct.replace_pyof_version"]}
{"id": "C43", "title": "Accepted packets re-encode to themselves", "statement": "If utils.unpack(packet) returns a message then packing that message returns the packet: nothing the peer sent is silently dropped or invented.", "quantifier": "all byte strings", "why_tests_cant": "All byte strings.", "anchors": ["pyof/utils.py:unpack", "pyof/foundation/base.py:GenericStruct._unpack_attribute", "pyof/foundation/basic_types.py:Pad.unpack"]}
{"id": "C44", "title": "Statistics and multipart bodies decode to lists of the right entries", "statement": "For every statistics reply (1.0) and multipart reply (1.3) whose body is a list of well-formed entries, unpacking the packed reply gives the same number of entries with the same values; requests likewise.", "quantifier": "all statistics types, all entry lists of any length", "why_tests_cant": "Entry lists are unbounded; framing bugs appear only with two or more entries.", "anchors": ["pyof/v0x01/controller2switch/stats_reply.py:StatsReply", "pyof/v0x01/controller2switch/stats_request.py:StatsRequest", "pyof/v0x04/controller2switch/multipart_reply.py:MultipartReply", "pyof/v0x04/controller2switch/multipart_request.py:MultipartRequest"]}
{"id": "C45", "title": "Packing does not change what a message means", "statement": "Packing a message any number of times returns the same bytes each time and leaves every attribute other than the automatically computed lengths unchanged.", "quantifier": "all well-formed messages, all numbers of calls", "why_tests_cant": "A history property: pack() writes into the object (lengths, temporary bodies).", "anchors": ["pyof/foundation/base.py:GenericMessage.pack", "pyof/v0x01/asynchronous/error_msg.py:ErrorMsg.pack", "pyof/v0x01/controller2switch/stats_request.py:StatsRequest.pack", "pyof/v0x04/controller2switch/multipart_request.py:MultipartRequest.pack"]}
{"id": "C46", "title": "The input port of a 1.3 PacketIn is the one in its match", "statement": "For every PacketIn whose match contains an IN_PORT TLV, in_port is the big-endian integer of the first such TLV; get_field(t) returns the value of the first TLV of type t and None exactly if there is none.", "quantifier": "all matches", "why_tests_cant": "All TLV lists.", "anchors": ["pyof/v0x04/asynchronous/packet_in.py:PacketIn.in_port", "pyof/v0x04/common/flow_match.py:Match.get_field"]}
{"id": "C47", "title": "Packing a VLAN, Ethernet or IPv6 packet again gives the same result", "statement": "pack() of VLAN, Ethernet and IPv6 stores computed attributes in the object; calling it any number of times on the same object returns the same bytes or the same exception each time and leaves the same object.", "quantifier": "all objects, any number of calls", "why_tests_cant": "Tests pack each object once or twice with a few field values.", "anchors": ["pyof/foundation/network_types.py:VLAN.pack", "pyof/foundation/network_types.py:Ethernet.pack", "pyof/foundation/network_types.py:IPv6.pack"]}
{"id": "C48", "title": "Typed lists keep their item type under every mutating operation", "statement": "Every mutating operation a FixedTypeList inherits or defines - append, extend, insert, pop, clear, reverse, item assignment and += - keeps every element an instance of the declared item class.", "quantifier": "all item classes, all lists, all operations, all values", "why_tests_cant": "Tests exercise append, extend and insert with a few values; item assignment and += of the built-in list are never called.", "anchors": ["pyof/foundation/basic_types.py:FixedTypeList", "pyof/foundation/basic_types.py:TypeList"]}
{"id": "C49", "title": "The constants are those of the OpenFlow standard", "statement": "Every member of every enumeration and bit mask of the library has the name and the number that openflow.h of the OpenFlow 1.0.0 and 1.3.0 specifications gives it, every constant of these enumerations in the standard is in the library, and each fits in every field declared with its enumeration, where it is written as its number and read back.", "quantifier": "all enumerations, all members, all fields of all structures, all buffers", "why_tests_cant": "Tests use a handful of constants, and use the same names on both sides, so a wrong number cancels out.", "anchors": ["pyof/v0x01/common/header.py:Type", "pyof/v0x01/common/phy_port.py:PortConfig", "pyof/v0x04/asynchronous/error_msg.py:GroupModFailedCode", "pyof/v0x04/common/flow_match.py:OxmOfbMatchField"]}
{"id": "C50", "title": "Structures state their own length", "statement": "Every structure that carries a length field of its own, other than the message header (C10), states it truly: where the size varies (instructions, set-field actions, table feature properties, table features, meter statistics, hello elements) the field of the encoding holds the number of bytes of the encoding whatever the attribute held before; where the size is constant (the other actions, meter bands) the constructor sets the number of bytes the standard gives and every object that keeps it is encoded in exactly that many bytes; the OpenFlow 1.3 match counts everything but its filling, which is less than eight zero bytes up to a multiple of eight. Where the caller has to give the length it is written as given, and without one nothing is encoded.", "quantifier": "all classes with a length field, all objects of any nesting, all attribute values", "why_tests_cant": "Tests encode a few literals per class with the default length; they do not vary the nested contents, the stale value of the attribute, or the alignment.", "anchors": ["pyof/v0x04/common/flow_instructions.py:Instruction.pack", "pyof/v0x04/common/action.py:ActionSetField._update_length", "pyof/v0x04/common/flow_match.py:Match.pack", "pyof/v0x04/controller2switch/common.py:Property.pack", "pyof/v0x04/controller2switch/meter_mod.py:MeterBandHeader", "pyof/v0x01/common/action.py:ActionEnqueue"]}
{"id": "C51", "title": "Decoding reads each field from its offset in the standard", "statement": "Every fixed field of an object that unpack returns holds exactly what its bytes stand for at the offset the OpenFlow specification gives it: integers big-endian, enumerated fields as the member of that value, bit masks as the mask, addresses and names as their text, nested structures field by field. Trailing data is the whole rest of the packet, list items follow one another up to the end of the buffer, and the body of a statistics or multipart message is decoded by the type in bytes 8 and 9.", "quantifier": "for every byte string, every offset, every class with fixed fields, every accepted packet of either version, and lists of any length", "why_tests_cant": "Round-trip tests only see bytes the library itself produced, so an encoder and a decoder that agree on a wrong offset pass; sample packets cover a few values of a few fields.", "anchors": ["pyof/foundation/base.py:GenericStruct.unpack", "pyof/foundation/base.py:GenericMessage.unpack", "pyof/foundation/basic_types.py:TypeList.unpack", "pyof/v0x04/controller2switch/multipart_reply.py:MultipartReply.unpack", "pyof/v0x01/controller2switch/stats_reply.py:StatsReply.unpack", "pyof/utils.py:unpack"]}
{"id": "C52", "title": "Constructors store their arguments, and the encoding carries them", "statement": "The parameters of the constructor of every structure and message are its fields in declaration order (after the transaction id for messages, without padding, lengths and types the class fixes). A call with too many arguments, an unknown name or an argument given twice raises TypeError, any other call succeeds. Each argument, by position or by keyword, is stored in the field of its name, only an empty list or match may be replaced by the empty one of the class; all other attributes are those of an object made without arguments, the transaction id is the one given or the number drawn. When the object is encoded, each argument is at the offset of its field in the OpenFlow standard, the header carries version, the type of the class and the transaction id, and actions, instructions and meter bands carry the type of their class and the length their constructor sets.", "quantifier": "all structure and message classes of both versions, all argument values, every mix of positional and keyword arguments, every drawn transaction id", "why_tests_cant": "Tests construct each class with one set of keywords and compare with a stored packet; two parameters exchanged on the way to super().__init__ or an argument dropped there shows only if the literals differ, and positional calls are hardly tested.", "anchors": ["pyof/foundation/base.py:GenericStruct.__init__", "pyof/foundation/base.py:GenericMessage.__init__", "pyof/v0x01/common/flow_match.py:Match.__init__", "pyof/v0x04/common/action.py:ActionOutput.__init__", "pyof/v0x04/controller2switch/meter_mod.py:MeterBandHeader.__init__", "pyof/v0x04/controller2switch/flow_mod.py:FlowMod.__init__"]}
{"id": "C53", "title": "What was sent is what is received", "statement": "If a message of the standard is encoded by pack() and unpack_packet() accepts the bytes, the result is an object of the same class with the same version, type and transaction id and the length of the encoding, and every field at a fixed place, the data at the end, the ports of a switch and the bodies of statistics messages that are lists of structures of fixed size, one structure or bytes hold the same numbers, addresses and texts on both sides, whatever the values. So does each argument given to the constructor on the sending side.", "quantifier": "all messages of both versions, all attribute values (numbers as int, enumeration member, UBInt; addresses in any text form), lists of any length", "why_tests_cant": "Round-trip tests use one or two literal messages per class, and mostly compare bytes with bytes: a field that pack() and unpack() both put in the wrong place, or a field equal to its neighbour, goes unnoticed.", "anchors": ["pyof/foundation/base.py:GenericMessage.pack", "pyof/utils.py:unpack", "pyof/foundation/base.py:GenericStruct.unpack", "pyof/foundation/base.py:GenericStruct.pack", "pyof/v0x04/controller2switch/multipart_reply.py:MultipartReply.unpack"]}
{"id": "C54", "title": "Equal encodings come from equal contents", "statement": "Two messages with the same encoding have the same version, type, transaction id and class, and two structures or messages of a class with the same encoding agree in every field with a place in the standard: the numbers are equal, the texts are equal up to the width of the field, the addresses are the same. Well-formed messages, with their lists, have the contents of one and the same message.", "quantifier": "all pairs of complete objects of a class, all pairs of messages", "why_tests_cant": "It is a statement on pairs of inputs; no finite set of packets shows that no two different ones collide.", "anchors": ["pyof/foundation/base.py:GenericStruct.pack", "pyof/foundation/base.py:GenericMessage.pack", "pyof/foundation/basic_types.py"]}
{"id": "C55", "title": "A stream of messages can be cut in one way only", "statement": "The concatenation of the encodings of any number of messages is cut by the length fields of their headers into exactly these encodings, and into nothing else.", "quantifier": "all sequences of messages of both versions, of any length, whose header length is right (C10)", "why_tests_cant": "Tests encode one message at a time; a length that is wrong for some contents loses synchronisation of everything that follows, for sequences no test runs.", "anchors": ["pyof/foundation/base.py:GenericMessage.pack", "pyof/foundation/base.py:GenericMessage.update_header_length", "pyof/v0x04/common/header.py:Header", "pyof/v0x01/common/header.py:Header"]}
{"id": "C56", "title": "Encodings are bytes", "statement": "Whatever pack() returns for a value made of Python strings and bytes is a sequence of numbers from 0 to 255; the objects that constructors make from such arguments are such values, and so are the objects made without arguments.", "quantifier": "all values of all types", "why_tests_cant": "Values outside the range of a field appear only for particular numbers; tests use small ones.", "anchors": ["pyof/foundation/base.py:GenericType.pack", "pyof/foundation/base.py:GenericStruct.pack", "pyof/foundation/basic_types.py"]}
{"id": "C57", "title": "Text and binary values compare and concatenate like the Python values they hold", "statement": "For Char, IPAddress, HWAddress, DPID and BinaryData objects holding a str or bytes, and for such an object and a plain str: <, <=, > and >= are the dictionary order of what they hold, != is the negation of ==, + concatenates in the order of the operands, other arithmetic and comparison with numbers is a TypeError.", "quantifier": "all texts and byte strings of any length, all pairs of these types", "why_tests_cant": "Order over all pairs of strings; agreement of == and != needs the pairs that differ as text and are encoded alike.", "anchors": ["pyof/foundation/base.py:GenericType.__eq__", "pyof/foundation/base.py:GenericType.__ne__", "pyof/foundation/base.py:GenericType.__lt__", "pyof/foundation/base.py:GenericType.__radd__"]}
{"id": "C58", "title": "Packets laid out as the standard says are accepted", "statement": "unpack_packet accepts every packet of less than 65536 bytes whose header gives its version, type and length and whose body has the layout of its type, with declared numbers in enumerated fields and NUL-terminated text, with any number and nesting of actions, match fields, instructions, buckets, properties, bands and statistics entries; the result has the class of the type, and packs to the same packet with zeros for padding.", "quantifier": "all such packets: any number of list elements, any nesting, any padding bytes, any payload, any transaction id", "why_tests_cant": "A decoder that refuses some legal combination of nested elements, lengths or enumeration members is only found by a test holding just that combination.", "anchors": ["pyof/utils.py:unpack", "pyof/foundation/base.py:GenericMessage.unpack", "pyof/foundation/basic_types.py:FixedTypeList.unpack", "pyof/v0x04/common/action.py:ActionHeader.unpack", "pyof/v0x04/common/flow_match.py:Match.unpack", "pyof/v0x04/controller2switch/meter_mod.py:MeterBandHeader.unpack"]}
{"id": "C59", "title": "An Ethernet frame is accepted exactly when it is one", "statement": "Ethernet.unpack of a byte string either finds two addresses, any number of VLAN tags, a type that is no tag type, and data, and stores exactly these; or the byte string has no such reading and UnpackException is raised. A byte string has at most one such reading.", "quantifier": "all byte strings, any number of tags, any payload", "why_tests_cant": "The tag list is cut by looking ahead at two bytes at a time; a wrong cut shows only for particular payloads or numbers of tags.", "anchors": ["pyof/foundation/network_types.py:Ethernet.unpack", "pyof/foundation/network_types.py:Ethernet._get_vlan_length", "pyof/foundation/network_types.py:VLAN.unpack"]}
{"id": "C60", "title": "A received network packet is sent again unchanged", "statement": "A packet that the unpack method of Ethernet, ARP, VLAN, IPv4, IPv6 or LLDP accepts is packed to the bytes that were received, except that the total length (IPv4), the payload length (IPv6) and the checksum (IPv4) are computed anew, and are the received ones if these were right.", "quantifier": "all byte strings accepted, at all offsets (Ethernet: offset 0), any payload", "why_tests_cant": "A bit lost between decoding and encoding shows only for inputs that have it set.", "anchors": ["pyof/foundation/network_types.py:Ethernet.unpack", "pyof/foundation/network_types.py:ARP.unpack", "pyof/foundation/network_types.py:VLAN.pack", "pyof/foundation/network_types.py:IPv4.pack", "pyof/foundation/network_types.py:IPv6.pack", "pyof/foundation/network_types.py:LLDP"]}
{"id": "C61", "title": "A refused network packet raises UnpackException", "statement": "The unpack methods of Ethernet, ARP, VLAN, IPv4, IPv6, the TLVs and LLDP raise no other exception than UnpackException.", "quantifier": "all byte strings and offsets", "why_tests_cant": "Truncations and corruptions are too many to try; each may raise a different exception.", "anchors": ["pyof/foundation/network_types.py:Ethernet.unpack", "pyof/foundation/network_types.py:ARP.unpack", "pyof/foundation/network_types.py:VLAN.unpack", "pyof/foundation/network_types.py:IPv4.unpack", "pyof/foundation/network_types.py:IPv6.unpack", "pyof/foundation/network_types.py:GenericTLV.unpack", "pyof/foundation/network_types.py:TLVWithSubType.unpack"]}
{"id": "C62", "title": "Constructed objects share only what they were given", "statement": "Calling the constructor of a structure or message class changes no existing object. Every object reachable from the new one is newly made, or reachable from an argument of the call or from a mutable default of a parameter. An argument is stored as the very object given, not as a copy, unless it is an empty list or the like, or an address given to a v0x01 Match in another form than an address object, which becomes a new object. Two objects made one after the other have in common only what arguments or mutable defaults of both calls lead to. So two objects made without arguments have no object in common and assignments through one never show in the other; the single class with a mutable default, the v0x01 AggregateStatsRequest, breaks this: all its objects made without a match share one Match. The object made contains exactly the value the value-level constructor model yields.", "quantifier": "all structure and message classes of both versions, all heaps, all positional and keyword arguments, all later assignments", "why_tests_cant": "Aliasing shows only when one object is mutated and another one is looked at; a test would have to try every pair of classes, every attribute path and every mutation, on every state of the program.", "anchors": ["pyof/foundation/base.py:499-503", "pyof/v0x01/controller2switch/common.py:128-146", "pyof/v0x01/common/flow_match.py:80-123"]}
{"id": "C63", "title": "Conversions of values agree with the bytes", "statement": "int() of an integer field is the number its bytes encode, before packing and after unpacking; str() of an integer or a bit mask is its shortest decimal numeral, str() of a decoded address or datapath id its usual text, and str() of padding one zero per byte; is_broadcast() holds exactly for addresses whose six bytes are all ones; get_hash() of a frame is a function of the bytes it packs to, the same for a frame decoded from those bytes and on every call; dir() of a bit mask class lists exactly its members besides what class and metaclass define.", "quantifier": "all values, widths, enumerations, addresses, frames, surrounding bytes and hash functions", "why_tests_cant": "Unbounded integers, 2^48 addresses, frames of any length, and any hash function.", "anchors": ["pyof/foundation/base.py:UBIntBase.__int__", "pyof/foundation/base.py:GenericType.__str__", "pyof/foundation/base.py:MetaBitMask.__dir__", "pyof/foundation/basic_types.py:HWAddress.is_broadcast", "pyof/foundation/network_types.py:Ethernet.get_hash"]}
{"id": "C64", "title": "pack() does not look at the lengths it computes, so messages may share objects", "statement": "Two instances that differ only in the attributes pack() computes itself (lengths of actions, instructions, matches and OXM fields, the action length of PACKET_OUT, the length in the header of a message), at any depth and with any values there, give the same bytes, or raise the same exception, and have the same size. pack() writes no other attributes. So when objects inside a message, or its header, are also parts of other messages, packing those any number of times and in any order changes nothing about what the message packs to. The exception is a header packed by itself, whose length is not computed.", "quantifier": "all instances with the attributes of their classes, all pairs that differ only there, all sequences of successful pack() calls on the instance and on the objects inside it", "why_tests_cant": "Which values stale lengths have depends on the history of every object that shares a part; tests build fresh objects and pack them once.", "anchors": ["pyof/foundation/base.py:GenericMessage.pack", "pyof/foundation/base.py:GenericMessage.update_header_length", "pyof/v0x04/common/flow_match.py:OxmTLV.pack", "pyof/v0x04/common/flow_match.py:Match.pack", "pyof/v0x04/common/action.py:ActionSetField.pack", "pyof/v0x04/controller2switch/packet_out.py:PacketOut.pack"]}
{"id": "C65", "title": "What pack() refuses, and with which exception", "statement": "A structure or message fails to pack exactly when one of its fields holds something that cannot be written, and the exception is that of the first such field in wire order: PackException for a value that is not an integer of the width, ValueError for text beyond ASCII or a malformed address, PackException (struct.error for a datapath id) for an address of the wrong number or range of parts, TypeError for bytes in place of text, AttributeError for other values there, ValueError for what is neither bytes nor an object, PackException for an object of another class, WrongListItemType for items of another class, TypeError for what is no list, and for nested objects and lists their own exception. Messages and structures that store their size first raise the exception of get_size() before. Values that are not objects of the library have neither pack() nor get_size() (AttributeError). Messages with a body of their own pack it before anything else: an object raises its own exception, other data of a 1.0 error AttributeError, other bodies of a multipart message UnboundLocalError (for a list that is not empty: ValueError or TypeError for a type that cannot be looked up, AttributeError for one without a list, WrongListItemType for items of another class); PacketOut raises what the size of its actions raises, then that of the message, then TypeError or ValidationError for the port. A TLV of a 1.3 match raises PackException for a field that is no number of its class, TypeError for a flag that is no number, then what its value raises.", "quantifier": "all values of the fields, of any type, size and nesting, in every class; for multipart messages, types given as number, member, text, bytes, None, another object or a field of a 16-bit number that holds one of the first five", "why_tests_cant": "The values are unbounded and of any type, and the exception depends on the first of many fields; tests check a few wrong values, one field at a time.", "anchors": ["pyof/foundation/base.py:GenericType.pack", "pyof/foundation/base.py:GenericStruct.pack", "pyof/foundation/base.py:GenericMessage.pack", "pyof/foundation/basic_types.py:Char.pack", "pyof/foundation/basic_types.py:IPAddress.pack", "pyof/foundation/basic_types.py:HWAddress.pack", "pyof/foundation/basic_types.py:DPID.pack", "pyof/foundation/basic_types.py:BinaryData.pack", "pyof/foundation/basic_types.py:TypeList.pack", "pyof/v0x01/asynchronous/error_msg.py:ErrorMsg.pack", "pyof/v0x01/controller2switch/stats_request.py:StatsRequest.pack", "pyof/v0x01/controller2switch/stats_reply.py:StatsReply.pack", "pyof/v0x04/controller2switch/multipart_request.py:MultipartRequest.pack", "pyof/v0x04/controller2switch/packet_out.py:PacketOut.pack", "pyof/v0x04/common/action.py:ActionSetField.pack", "pyof/v0x04/common/flow_match.py:OxmTLV.pack", "pyof/v0x04/common/flow_match.py:Match.pack"]}
{"id": "C66", "title": "Packets made without naming every field carry the defaults", "statement": "Every argument of the constructors in network_types.py may be left out. Packed, ARP() then says Ethernet/IPv4 (1, 0x0800, lengths 6 and 4), operation 1 and zero addresses; Ethernet(ether_type=t) has zero addresses, no VLAN tag and no data; IPv4() has version 4, five header words (plus those of the options), zero DSCP, ECN, identification, flags and offset, ttl 255, protocol 0 and zero addresses; IPv6() has version 6, zero traffic class and flow label, next header 0, hop limit 255 and zero addresses; GenericTLV() has type 127 and no value; TLVWithSubType() type 1, sub type 7 and no sub value; LLDP() is the chassis and port TLVs 1 and 2 with sub type 7, TTL 120 and the end TLV. Each argument that is given replaces its default in the bytes and changes nothing else; the length and the checksum given to IPv4 and the length given to IPv6 do not matter.", "quantifier": "all subsets of arguments, all values in range", "why_tests_cant": "2^15 subsets of the arguments of IPv4 alone, times all values.", "anchors": ["pyof/foundation/network_types.py:ARP.__init__", "pyof/foundation/network_types.py:Ethernet.__init__", "pyof/foundation/network_types.py:IPv4.__init__", "pyof/foundation/network_types.py:IPv6.__init__", "pyof/foundation/network_types.py:GenericTLV.__init__", "pyof/foundation/network_types.py:TLVWithSubType.__init__", "pyof/foundation/network_types.py:LLDP"]}
{"id": "C67", "title": "When get_size() fails, and with which exception", "statement": "get_size() of a structure or message fails exactly when the size of one of its fields cannot be told, with the exception of the first such field in wire order: ValueError for binary data that is neither bytes, None nor an object, PackException for an object of another class (ValueError where a 1.3 match is expected), WrongListItemType or TypeError for what a list does not take, and for nested objects and lists their own exception. Numbers, texts and addresses are never looked at, and a list declared as plain FixedTypeList never is. A list raises the exception of its first item without a size, but asks only the first item when that is of a basic type; a Python list has no get_size() (AttributeError). A bucket with a length of its own is not measured.", "quantifier": "all values of the fields, of any type, size and nesting, in every class; all lists", "why_tests_cant": "The values are unbounded and of any type, and the exception depends on the first of many fields.", "anchors": ["pyof/foundation/base.py:GenericStruct.get_size", "pyof/foundation/basic_types.py:BinaryData.get_size", "pyof/foundation/basic_types.py:TypeList.get_size", "pyof/v0x04/common/action.py:ActionHeader.get_size", "pyof/v0x04/common/flow_match.py:Match.get_size", "pyof/v0x04/controller2switch/common.py:Bucket.get_size"]}
{"id": "C68", "title": "When pack() of a network packet fails, and with which exception", "statement": "pack() of an ARP, VLAN, Ethernet, LLDP, IPv4 or IPv6 packet fails exactly when one of the listed steps fails, and raises what the first failing step raises. ARP: ValidationError unless htype is 1 and ptype is 0x0800, then the fields in order. VLAN: nothing fails for a tag without fields; otherwise PackException unless the tpid is a 16-bit number, pcp is below 8, cfi below 16 and vid below 65536. Ethernet: destination, source, the tags in order, ether_type, data. A TLV fails when its value fails or, with a sub type, when that is not an octet; chassis and port of an LLDP packet must have a sub type. IPv4: a text that is no list of numbers raises ValueError (source before destination), one of fewer than four numbers IndexError, an address that is no text AttributeError (TypeError for bytes); then PackException for the first number that does not fit, and what the addresses raise. IPv6: the first word, the length, next_header, hop_limit, then source and destination, which must be eight 16-bit groups. A VLAN identifier beyond 12 bits is not refused: it overwrites the other two fields.", "quantifier": "for all values of every attribute the packet classes hold in the model, all lists of tags, all data and options of any length, all address texts, and all exceptions", "why_tests_cant": "The tests pack a few valid packets; they do not try wrong values, and the order in which the checks are made only shows when several values are wrong at once.", "anchors": ["pyof/foundation/network_types.py:ARP.is_valid", "pyof/foundation/network_types.py:VLAN.pack", "pyof/foundation/network_types.py:Ethernet", "pyof/foundation/network_types.py:GenericTLV.pack", "pyof/foundation/network_types.py:TLVWithSubType.value", "pyof/foundation/network_types.py:LLDP", "pyof/foundation/network_types.py:IPv4._update_checksum", "pyof/foundation/network_types.py:IPv4.pack", "pyof/foundation/network_types.py:IPv6.pack", "pyof/foundation/base.py:GenericStruct.pack"]}
{"id": "C69", "title": "What is read from any bytes taken for a TLV or an LLDP packet", "statement": "Reading a TLV from any bytes gives the type in the first seven bits and as value the next n bytes, where n is the number in the following nine bits, or fewer if the buffer ends; with a sub type the first byte of the value is the sub type and must be there. An LLDP packet is read as four such TLVs one behind the other, the first two with a sub type, each starting where get_size() of the previous one ends. If the bytes do not have this form UnpackException is raised. Without any bytes the packet is the default one. A TLV with a sub type and length 0 takes the byte behind it.", "quantifier": "all byte strings of any length, all offsets and all bytes in front", "why_tests_cant": "Tests decode well-formed packets; cut, empty and overlong TLVs at every offset are unboundedly many.", "anchors": ["pyof/foundation/network_types.py:GenericTLV.unpack", "pyof/foundation/network_types.py:TLVWithSubType.unpack", "pyof/foundation/network_types.py:GenericTLV.get_size", "pyof/foundation/network_types.py:LLDP", "pyof/foundation/base.py:GenericStruct.unpack"]}
{"id": "C70", "title": "The reported size of a network packet is the size of its encoding", "statement": "get_size() of an ARP, VLAN, Ethernet, IPv4, IPv6 or LLDP packet and of a TLV is the number of bytes pack() returns: 28 for ARP, 4 for a tag, 20 plus options and data for IPv4, 40 plus data for IPv6, the sum of the TLVs for LLDP, and 14 plus 4 for each tag plus the data for Ethernet.", "quantifier": "all values of the fields, all lists of tags, all data and options of any length", "why_tests_cant": "Tests compare the size of a few packets; tags without fields and data held in objects are not among them.", "anchors": ["pyof/foundation/base.py:GenericStruct.get_size", "pyof/foundation/basic_types.py:TypeList.get_size", "pyof/foundation/network_types.py:GenericTLV.get_size", "pyof/foundation/network_types.py:VLAN", "pyof/foundation/network_types.py:Ethernet", "pyof/foundation/network_types.py:IPv4", "pyof/foundation/network_types.py:IPv6"]}
{"id": "C71", "title": "Which texts are accepted as addresses", "statement": "A text is encoded as an IPv4 address exactly when the part before a slash is four integers from 0 to 255 separated by dots, as a hardware address or datapath id exactly when it is six or eight hexadecimal integers from 0 to 255 separated by colons, and as an IPv6 address (after '::' was expanded) exactly when it is eight hexadecimal integers of 16 bits; an integer is what Python's int() reads: blanks around, an optional sign, an optional 0x prefix in base 16, and digits with single underscores between them. The prefix length in the constructors of IPv4 and IPv6 addresses is the integer after the only slash; a text with more slashes or another text after the slash is refused with ValueError.", "quantifier": "all texts of ASCII characters, all lengths, both bases", "why_tests_cant": "The set of texts is infinite and the forms with signs, blanks, underscores and prefixes are never tried.", "anchors": ["pyof/foundation/basic_types.py:IPAddress", "pyof/foundation/basic_types.py:HWAddress", "pyof/foundation/basic_types.py:DPID", "pyof/foundation/basic_types.py:IPv6Address"]}
