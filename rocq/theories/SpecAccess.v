(** PacketIn on the wire (OpenFlow 1.3, section 7.4.1) and the first TLV with a
    field number, independent of the model. *)
From Coq Require Import ZArith List Bool String.
From Verif Require Import Base PyText Ids PyVal Interp SpecBasic SpecNet SpecStruct.
Import ListNotations.
Open Scope string_scope.
Open Scope list_scope.
Open Scope Z_scope.

(** The first TLV with field number [f] in the list. *)
Inductive first_tlv (f : Z) : list oxm -> oxm -> Prop :=
| ft_here t ts : ox_field t = f -> first_tlv f (t :: ts) t
| ft_later t ts u : ox_field t <> f -> first_tlv f ts u -> first_tlv f (t :: ts) u.
Definition no_tlv (f : Z) (ts : list oxm) : Prop := Forall (fun t => ox_field t <> f) ts.

(** A field number as the caller writes it. *)
Definition plain_number (v : pyval) (z : Z) : Prop := v = VInt z \/ exists e, is_int_enum e = true /\ v = VEnum e z.

(** The object that holds the value of a TLV. *)
Definition value_bytes (v : pyval) (b : bytes) : Prop := v = VBytes b \/ v = VBin (VBytes b).

Definition eight (z : Z) : bytes := four (z / 2 ^ 32) ++ four (z mod 2 ^ 32).

(** Buffer id, length, reason, table, cookie, match, padding, frame. *)
Definition packet_in_wire (buffer total reason table cookie mt : Z) (ts : list oxm) (data : bytes) : bytes :=
  four buffer ++ two total ++ [reason; table] ++ eight cookie ++ match_wire mt ts ++ [0; 0] ++ data.
