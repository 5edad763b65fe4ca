(** Vocabulary for C66: an argument that is given stands for what it denotes,
    one that is not given for a stated default. *)
From Coq Require Import ZArith List Bool String.
From Verif Require Import Base PyText Ids PyVal Classes Interp Addr Spec SpecBasic NetTypes SpecNet.
Import ListNotations.
Open Scope string_scope.
Open Scope list_scope.
Open Scope Z_scope.

Definition or_else {A B} (denotes : A -> B -> Prop) (o : option A) (b default : B) : Prop :=
  match o with Some a => denotes a b | None => b = default end.

(** An attribute of an Ethernet object that may also be None: an address of
    zeros. *)
Definition mac_or_none (v : pyval) (bs : bytes) : Prop :=
  (v = VNone /\ bs = [0; 0; 0; 0; 0; 0]) \/ mac_of v bs.

(** The text of an IPv4 address. *)
Definition ip_text (v : pyval) (bs : bytes) : Prop :=
  List.length bs = 4%nat /\ wf_bytes bs /\ v = VStr (dotted_dec bs).

(** The text of an IPv6 address: eight groups, or [::] for the groups that are
    missing. *)
Definition ip6_text (s : text) (zs : list Z) : Prop :=
  List.length zs = 8%nat /\ Forall is_word zs /\
  ((exists parts, Forall2 hex_numeral parts zs /\ s = separated 58 parts) \/
   exists left_ right_ zl zr, Forall2 hex_numeral left_ zl /\ Forall2 hex_numeral right_ zr /\
     (List.length zl + List.length zr <= 7)%nat /\
     zs = zl ++ repeat 0 (8 - (List.length zl + List.length zr)) ++ zr /\
     s = separated 58 left_ ++ [58; 58] ++ separated 58 right_).

(** The value of a TLV: an object that packs, None standing for no bytes. *)
Definition tlv_arg (v : pyval) (bs : bytes) : Prop := (v = VNone /\ bs = []) \/ value_of v bs.
