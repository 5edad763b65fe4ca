# Formal model of python-openflow: design

Source: /repo (kytos/python-openflow, pinned), read as text.  Prover: Rocq/Coq 8.16.1, standard
library only.  The source is neither imported nor run; tools/*.py only parse it.

## Approach

Python objects are values of one inductive type `pyval` (None, int, str, bytes, enum members,
bit masks, the basic types, struct instances, lists).  A class attribute in the source is itself
an object (`UBInt16(enum_ref=...)`, `Pad(4)`, `ListOfActions()` ...), so the class tables of the
model are lists of `(name, pyval)` transcribed from the class bodies.  The methods `pack`,
`get_size`, `unpack` are functions on `pyval` that mirror the Python code branch by branch,
including dispatch on the class, and return `Ok` or an exception kind.

Recursion through nested objects is bounded by a counter.  Running out of it is the separate
error `OutOfFuel`.  It is not a hidden bound on sizes or depths: `pack` and `get_size` start with
the height of the object added to the counter, and `Totality.v` / `UnpackTotal.v` prove for all
inputs that `OutOfFuel` is never returned (claim C21), for values of any size and nesting and
buffers of any length.

The specification side is separate: a declarative relation `enc` (Spec.v, SpecMsg.v) that says,
for a declared field and a Python value stored in it, which bytes the wire carries and which value
a receiver ends up with (big-endian digits, concatenation in order, zero padding, length = byte
count).  The main theorem is a refinement (Soundness.v, MsgMain.v): whatever `enc` prescribes is
what `pack`, `get_size` and `unpack` do.  The properties about messages are consequences.
`SpecSame.v` states separately when a received value has the same contents as the sent one.

Because `enc` is a hypothesis of those theorems, it must be satisfiable and decidable: `Ref.v` is
an executable reference encoder written from `enc` alone; `RefFacts.v` proves that what it accepts
satisfies `enc`; `wf_struct` / `wf_message` (TopFacts.v) are its boolean domain; `Witness.v` runs
it on sample packets of every message type.

Where a property is false of the code we prove `..._refuted` with a concrete witness, and the
strongest correct part with the suffix `_partial` or under an explicitly narrower hypothesis.

## Files

| files | contents |
|---|---|
| Base, PyText, Ids, PyVal, Classes | exceptions, struct formats, text, class and enum tables |
| Interp, Addr, Utils | model of pack / get_size / unpack, addresses, utils |
| Bodies | names, modules and class bodies, generated by tools/gen_meta.py |
| Inits, Construct | the __init__ methods, generated by tools/gen_init.py, and the model of calls |
| Heap | constructor calls once more, on a heap of objects with identity |
| NetTypes, NetInit | model of network_types.py, and of its constructors called with some of their arguments |
| Operators, Lists, Match01, Meta, Mutation, Access | models of operators, list methods, the 1.0 match, the metaclass, what pack stores, field lookup |
| Spec*.v | specifications, without model functions except where a comment says so |
| Ref, RefFacts, Samples, Witness | reference encoder and non-vacuity |
| *Facts, *Thm, Soundness, Closure, Totality, UnpackTotal, Msg* | lemmas |
| Pnn_*.v | the property theorems, each closed by `exact lemma`, with Print Assumptions |

## Treatment per property

| id | modelled | proof |
|---|---|---|
| C01-C03 | GenericType.pack/unpack/value, struct formats | digit arithmetic, case analysis over enum tables |
| C04-C08 | text parsing/formatting, HWAddress, IPAddress, IPv6Address, DPID, Char | induction over digits and groups |
| C09, C10 | GenericStruct, GenericMessage, class tables | induction over the `enc` derivation; for arbitrary objects (SizeFacts.v) induction on nesting through the parts of C13 |
| C50 | Instruction/Property/TableFeatures/MeterStats/HelloElemHeader/SetField/Match length, class tables | parts at their offsets (C13) for any relation; sizes of C09; table of SpecLengths.v |
| C51 | unpack of structures, messages, lists, statistics bodies | relation between declared field, bytes and value (SpecDecode.v) at the offsets of SpecLayout.v; walk over the fields with the widths of C14 |
| C13 | the same, every pack override | case analysis over the kinds of pack(); table of OpenFlow layouts checked against the class tables |
| C14 | unpack of every class | the interpreter gives the same result on two buffers that agree from the offset on (induction over the fuel, results equal unless one runs out, and C21 says none does); fixed sizes and positions of length fields checked against the hand-written tables of SpecWindow.v |
| C11, C12 | as above + utils.unpack | instantiation per message class; refuted where a class does not round-trip |
| C15 | utils.unpack | exact table of the exceptions that escape, per version and type: soundness of a static analysis of the class tables (`may`), one witness packet per entry |
| C16, C17 | utils.validate_packet, unpack_message, new_message_from_header (type as number, member, field or name) | case analysis |
| C18, C19, C48 | FixedTypeList/ConstantTypeList operations | invariant over operation lists |
| C20 | TypeList.pack/unpack | list induction |
| C21 | whole unpack | progress measure: every item size is positive |
| C22, C23 | v0x01 Match.__setattr__, fill_wildcards | invariant over assignment lists, bit lemmas |
| C24-C26 | v0x04 Match, OxmTLV, ActionSetField | arithmetic mod 8 + `enc` |
| C27 | dispatch in unpack of actions/instructions/bands/properties | `enc` cases |
| C28 | PacketOut both versions | direct |
| C29-C35, C47 | network_types (with mutation by pack as state) | bit arithmetic, checksum arithmetic |
| C36-C41 | GenericStruct.__eq__, GenericType operators, GenericBitMask, is_valid, UBInt128 | direct; several refuted |
| C42 | MetaStruct.__new__ | list lemmas |
| C43 | utils.unpack, then pack | refuted; for any accepted bytes of the messages with fixed fields, data, fixed records, statistics bodies: field values of C51 are encoded back to the bytes they were read from (SpecReencode.v says what may change); for messages with actions, matches, instructions, buckets, bands and nested statistics, any bytes laid out by the grammar of SpecTidy.v: induction over the grammar shows that what is decoded encodes to the same bytes with zero padding (TidyFacts*.v, TidyThm.v) |
| C44 | StatsRequest/Reply, MultipartRequest/Reply | list induction; refuted for entry types without framing |
| C45 | state after pack | separate state-transformer function |
| C46 | Match.get_field, PacketIn.in_port | list induction |
| C52 | __init__ of all structures and messages, with positional and keyword arguments | symbolic execution of the __init__ methods (proved sound), its result compared with the fields in declaration order; bytes by C13 |
| C53 | pack() of any message followed by unpack_packet(); also from the constructor call | the bytes by C13, what is read from them by C51, compared field by field; numbers, texts, addresses and nested structures by one relation |
| C54 | two objects with the same encoding | C13 for both, injectivity of the encoding of each field |
| C55 | streams of encoded messages | induction on the stream; the header length by C10 |
| C56 | pack() of any value returns bytes from 0 to 255 | induction on the fuel over all pack() methods |
| C57 | order, equality and + of text and binary values | case analysis; order proved to be dictionary order (SpecText.v) by induction |
| C58 | packets laid out as the standard says are accepted and relayed | mutual induction over the layout grammar (SpecAccept.v), with C43 for the sizes of what was decoded |
| C59 | Ethernet.unpack of any byte string | case analysis on the bytes; the tag cut by induction; uniqueness of the reading from injectivity of tags |
| C60 | unpack, then pack, of the network types | what any bytes decode to (C29-C35), then pack of it; checksum from the uniqueness of one's-complement completion |
| C61 | exceptions of unpack of the network types | each step raises UnpackException only (SpecNetRelay.only_unpack) |
| C62 | constructor calls on a heap (Heap.v), deep copies of class attributes, mutable parameter defaults | invariant: new cells refer to new cells or roots; simulation of Construct.v, the header being owned by the new object |
| C63 | int(), str(), is_broadcast, get_hash, dir() (Convert.v) | case analysis on the kept value, reuse of the round trips of C01–C05 and C60; `get_hash` for every function `hash` |
| C64 | pack of every class, state after pack | relation between instances (SpecShared.v); the interpreter gives the same result on related instances (induction over the fuel, one step per kind of pack()), and `stored` is related to its argument |
| C65 | pack of basic types, lists, structures and messages (SpecReject2.v for those with a body of their own, PacketOut, SetField, the 1.3 match and its TLVs) | relation between a declared field, a value and an exception (SpecReject.v); equivalence with the interpreter field by field, then for the first field in order |
| C66 | constructors of network_types.py with arguments left out | the round trips of C30 to C35 for the defaults; eight groups hold no `::` |
| C67 | get_size of basic types, lists, structures and messages | relation between a declared field, a value and an exception (SpecSizeRefuse.v), as for C65 |
| C68 | pack() of ARP, VLAN, Ethernet, TLVs, LLDP, IPv4, IPv6 | the list of steps and what each raises (SpecNetRefuse.v); the first failing step decides. Field values as in C65; what the value of a TLV raises is its pack() |
| C69 | unpack of TLVs and LLDP | relation between bytes, the TLV read and the number of bytes it takes (SpecLldp.v) |
| C70 | get_size of the network packets (NetSize.v) | number of bytes pack() returns |
| C71 | int() on texts, texts of IPv4, IPv6 and hardware addresses and datapath ids, prefix lengths | grammar of integer texts (SpecLiteral.v), equivalence for all texts |
| C49 | all enumerations and enumerated fields | comparison of tables, complete in both directions, with the C enumerations of the standard |

## Trusted base

1. The Coq 8.16.1 kernel (with the virtual machine used by vm_compute) and the standard library.
2. What Print Assumptions prints below each property theorem: "Closed under the global context"
   for every one of them, i.e. no axiom.  No Axiom, Parameter, Variable outside a section,
   Admitted, or switched-off check occurs in the sources.
3. That the model describes the Python code (see the next section).  Nothing machine-checks this.
   Supporting evidence, not proof: `tools/check_raw.py` runs the model on the packet dumps of
   /repo/raw and compares re-encoded bytes; the constructor model of the 1.0 Match is compared with
   the transcribed default object (`c22_new`); the layouts inherited by the 1.3 classes are compared
   with what the metaclass model computes.
4. The transcription of the class tables by `tools/gen_tables.py` (Ids.v and Classes.v are its
   output, committed; the build does not run it), and of the __init__ methods by
   `tools/gen_init.py` (Inits.v).  That both agree on objects made without arguments is proved
   (`c52_no_arguments`).
5. The statements of the theorems, and in them the specification files Spec*.v.

## What is modelled

- pyof/foundation/base.py: GenericType (pack, unpack, value, get_size, operators, comparisons,
  is_valid), GenericStruct (pack, get_size, unpack, __eq__, _get_named_attributes), GenericMessage
  (pack, unpack, header length update), MetaStruct (layout computation), GenericBitMask.
- pyof/foundation/basic_types.py: all classes, with the list classes' own methods.
- pyof/foundation/exceptions.py as exception kinds; constants.
- pyof/foundation/network_types.py: ARP, VLAN, Ethernet, GenericTLV, TLVWithSubType, LLDP, IPv4, IPv6.
- pyof/utils.py and pyof/v0x0?/common/utils.py.
- All enumerations and struct classes of pyof/v0x01 and pyof/v0x04 as tables; every overridden
  pack / unpack / get_size / __init__ that the packet path uses (the comment at each definition
  gives the lines).

## What is not modelled, and simplifications

- Object identity and aliasing, outside constructor calls.  pack, unpack and the operators work on
  values; an instance holding the same object in two places behaves as one holding two copies.
  For pack() this is narrowed by C64: what other pack() calls store in shared parts has no effect.
  Constructor calls are modelled twice: on values (Construct.v) and on a heap (Heap.v, C62), and
  c62_value says that the two agree.  Not covered there: objects made by the list and basic type
  constructors, which are the arguments of those calls.
- Attributes outside the class layout, assigning methods, subclassing by users, monkey-patching.
- bool is int; int is unbounded (as in Python); float, complex and other types do not occur.
- `int(text, base)`: of the digits and white space Python accepts, only the ASCII ones are
  modelled (underscores and surrounding spaces are).
- Python's recursion limit and memory are not modelled: where deep nesting makes Python raise
  RecursionError, the model computes the result.
- The random xid drawn by GenericMessage.__init__ is 0 in the default instances and an argument of
  the constructor model.  Theorems about messages are for every xid.
- Constructors: a constructor called inside an __init__ is the constant it returns; constructors of
  the basic types and the lists are not run by Construct.v, those of network_types are in NetInit.v.
- UnicodeDecodeError and UnicodeEncodeError are ValueError.
- Exception messages, logging, __repr__, docstrings, deprecated helpers are left out.
- `valid_in_port` compares the number of the port, where the code compares `_value` or the plain
  value; both are the same for the values the model accepts.
- Operators: operands are plain values and basic types holding plain values; structures and lists as
  operands are left out.  Two GenericBitMask instances are distinct objects.
- Basic types other than BinaryData hold plain values (None, int, str, bytes, enumeration members, bit
  masks).  The model is defined when they hold objects, and the theorems then speak of it, but it
  differs from the code in these corners: `value` first asks for the truth of what is held, i.e. for
  get_size() of a held basic object, which can raise ValueError for a held BinaryData; a HWAddress
  field compares what it is given with 0, which for a structure calls its pack() first (so that its
  exception, not AttributeError, is raised when that fails) and which looks through more than one
  level of held objects; DPID.value does not turn a held bit mask into its number.
- Lists: an argument does not contain the list it is added to (Python then does not terminate).
- 1.0 Match: list items given as address parts are int or str.
- Network types: members of EtherType are their integers.
- The tests, docs and setup parts of /repo are not modelled.
