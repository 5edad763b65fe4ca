(** What two ends of a connection can rely on.  Specification for C53 to C56. *)
From Coq Require Import ZArith List Bool String.
From Verif Require Import Base PyText Ids PyVal Classes Interp Utils Spec SpecMsg SpecBasic SpecMutation SpecLayout.
Import ListNotations.
Open Scope string_scope.
Open Scope list_scope.
Open Scope Z_scope.

(** Python's bytes hold numbers from 0 to 255, its strings code points.  The
    values of the model are lists of integers; this says that they are Python
    values. *)
Fixpoint octets (v : pyval) : bool :=
  match v with
  | VStr s => forallb (fun c => 0 <=? c) s
  | VBytes b => forallb (fun x => (0 <=? x) && (x <? 256)) b
  | VUInt _ _ x | VChar _ x | VIP x _ | VHW x | VDPID x | VBin x => octets x
  | VObj _ attrs => forallb (fun p => octets (snd p)) attrs
  | VList _ _ items => forallb octets items
  | _ => true
  end.

(** ** Streams *)

(** A stream of bytes cut into pieces by the length that each piece has in its
    third and fourth byte. *)
Inductive cut : bytes -> list bytes -> Prop :=
| cut_end : cut [] []
| cut_next m rest ms : (4 <= List.length m)%nat -> big_endian 2 (zlen m) (slice 2 4 m) -> cut rest ms -> cut (m ++ rest) (m :: ms).

(** ** Agreement *)

(** The text of a value that is a string or a Char. *)
Inductive has_text : pyval -> text -> Prop :=
| ht_str s : has_text (VStr s) s
| ht_char n s : has_text (VChar n (VStr s)) s.

(** A text field of [n] bytes holds the first [n - 1] characters; the receiver
    drops the zeros at its end. *)
Definition same_text (n : nat) (s s' : text) : Prop :=
  (exists k, firstn (pred n) (s ++ repeat 0 n) ++ [0] = s' ++ repeat 0 k) /\ (forall x, s' <> x ++ [0]).

(** [agrees d sent got]: an attribute declared as [d] holds [sent] on one side
    and [got] on the other, and this is the same number, address, text or
    structure of these.  Addresses: the text received is the usual one of the
    bytes that the sender's value is encoded as.  Fields that pack() computes
    are not compared. *)
Inductive agrees : pyval -> pyval -> pyval -> Prop :=
| ag_number w er d sent got z : stands_for (or_default (VUInt w er d) sent) z -> stands_for got z -> agrees (VUInt w er d) sent got
| ag_pad k sent got : agrees (VPad k) sent got
| ag_text n d sent s s' : has_text (or_default d sent) s -> same_text n s s' -> agrees (VChar n d) sent (VChar n (VStr s'))
| ag_ip d m sent bs : pack (match sent with VIP _ _ => sent | _ => VIP (or_default d sent) m end) = Ok bs ->
    agrees (VIP d m) sent (VIP (VStr (dotted_dec bs)) m)
| ag_hw d sent bs : pack (match sent with VHW _ => sent | _ => VHW (or_default d sent) end) = Ok bs ->
    agrees (VHW d) sent (VHW (VStr (colon_hex bs)))
| ag_dpid d sent bs : pack (match sent with VDPID _ => sent | _ => VDPID (or_default d sent) end) = Ok bs ->
    agrees (VDPID d) sent (VDPID (VStr (colon_hex bs)))
| ag_struct c a sent attrs attrs' l t : or_default (VObj c a) sent = VObj c attrs -> openflow_layout c = Some (l, t) ->
    (forall name at_ w, placed 0 l name at_ w -> computed c name = false ->
       exists d x y, get_attr name (class_attrs c) = Some d /\ get_attr name attrs = Some x /\ get_attr name attrs' = Some y /\ agrees d x y) ->
    agrees (VObj c a) sent (VObj c attrs').

(** The header of a message states the version [v], the type [t] and the
    transaction id [x]. *)
Definition headed (attrs : list (string * pyval)) (v : of_version) (t x : Z) : Prop :=
  exists hc h, get_attr "header" attrs = Some (VObj hc h) /\
    holds h "version" (version_number v) /\ holds h "message_type" t /\ holds h "xid" x.

(** [alike d x y]: two values of an attribute declared as [d] are the same
    number, the same address or, as far as a field of its width can tell, the
    same text, or structures of these. *)
Inductive alike : pyval -> pyval -> pyval -> Prop :=
| al_number w er d x y z : stands_for (or_default (VUInt w er d) x) z -> stands_for (or_default (VUInt w er d) y) z -> alike (VUInt w er d) x y
| al_pad k x y : alike (VPad k) x y
| al_text n d x y s s' : has_text (or_default d x) s -> has_text (or_default d y) s' ->
    firstn (pred n) (s ++ repeat 0 n) = firstn (pred n) (s' ++ repeat 0 n) -> alike (VChar n d) x y
| al_ip d m x y bs : pack (match x with VIP _ _ => x | _ => VIP (or_default d x) m end) = Ok bs ->
    pack (match y with VIP _ _ => y | _ => VIP (or_default d y) m end) = Ok bs -> alike (VIP d m) x y
| al_hw d x y bs : pack (match x with VHW _ => x | _ => VHW (or_default d x) end) = Ok bs ->
    pack (match y with VHW _ => y | _ => VHW (or_default d y) end) = Ok bs -> alike (VHW d) x y
| al_dpid d x y bs : pack (match x with VDPID _ => x | _ => VDPID (or_default d x) end) = Ok bs ->
    pack (match y with VDPID _ => y | _ => VDPID (or_default d y) end) = Ok bs -> alike (VDPID d) x y
| al_struct c a x y attrs attrs' l t : or_default (VObj c a) x = VObj c attrs -> or_default (VObj c a) y = VObj c attrs' -> openflow_layout c = Some (l, t) ->
    (forall name at_ w, placed 0 l name at_ w -> computed c name = false ->
       exists d u v, get_attr name (class_attrs c) = Some d /\ get_attr name attrs = Some u /\ get_attr name attrs' = Some v /\ alike d u v) ->
    alike (VObj c a) x y.
