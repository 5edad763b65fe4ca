(** Received network packets: what an Ethernet frame is, and which exception a refused packet may raise. *)
From Coq Require Import ZArith List String.
From Verif Require Import Base PyVal Spec NetTypes SpecNet.
Import ListNotations.
Open Scope list_scope.
Open Scope Z_scope.

(** The parts of an Ethernet frame (IEEE 802.3 with 802.1Q and 802.1ad tags): two addresses of six bytes,
    any number of tags, a type that is no tag type, and data. *)
Definition frame_ok (dst src : bytes) (tags : list tag) (ty : Z) (data : bytes) : Prop :=
  wf_bytes dst /\ List.length dst = 6%nat /\ wf_bytes src /\ List.length src = 6%nat /\
  Forall tag_ok tags /\ 0 <= ty < 65536 /\ ty <> 0x8100 /\ ty <> 0x88a8 /\ wf_bytes data.

(** An ARP object, whatever its constructor arguments were. *)
Definition is_arp (a : dict) : Prop := exists a1 a2 a3 a4 a5 a6 a7 a8 a9, a = arp_init a1 a2 a3 a4 a5 a6 a7 a8 a9.

(** UnpackException is the only exception raised. *)
Definition only_unpack {A} (r : res A) : Prop := forall e, r = Err e -> e = UnpackException.
