(** What an assignment to a field of the OpenFlow 1.0 match means for its
    wildcards (OpenFlow 1.0, section 5.2.3), independent of the model. *)
From Coq Require Import ZArith List Bool String.
From Verif Require Import Base PyText Ids PyVal Classes Interp SpecBasic SpecOps.
Import ListNotations.
Open Scope string_scope.
Open Scope list_scope.
Open Scope Z_scope.

(** Fields with a single wildcard bit: the number of the bit. *)
Definition flag_bits : list (string * Z) :=
  [("in_port", 0); ("dl_vlan", 1); ("dl_src", 2); ("dl_dst", 3); ("dl_type", 4);
   ("nw_proto", 5); ("tp_src", 6); ("tp_dst", 7); ("dl_vlan_pcp", 20); ("nw_tos", 21)].

(** The number fields and their width in bytes. *)
Definition number_fields : list (string * nat) :=
  [("in_port", 2%nat); ("dl_vlan", 2%nat); ("dl_type", 2%nat); ("nw_proto", 1%nat);
   ("tp_src", 2%nat); ("tp_dst", 2%nat); ("dl_vlan_pcp", 1%nat); ("nw_tos", 1%nat)].

Inductive effect : Type :=
| Flag (name : string) (default : bool)   (* the field now is / is not the default *)
| Prefix (dst : bool) (p : Z)             (* nw_dst or nw_src has prefix length p *)
| Nothing.

(** The number [z] assigned to a field of [w] bytes. *)
Inductive stands (w : nat) : pyval -> Z -> Prop :=
| st_int z : stands w (VInt z) z
| st_enum e members z : enum_def e = EInt members -> stands w (VEnum e z) z
| st_uint v z : ordered v z -> (width_of v = w -> fits w z) -> stands w v z.

Definition zero_mac : text := txt "00:00:00:00:00:00".
Definition zero6 : bytes := [0; 0; 0; 0; 0; 0].

(** Prefix length of the address denoted by a value. *)
Inductive ip_prefix : pyval -> Z -> Prop :=
| ip_object x p : ip_prefix (VIP x p) p
| ip_plain a : ~ In 47 a -> ip_prefix (VStr a) 32
| ip_slash a t p : ~ In 47 a -> dec_numeral t p -> ip_prefix (VStr (a ++ 47 :: t)) p
| ip_list lc pc bs : wf_bytes bs -> ip_prefix (VList lc pc (map VInt bs)) 32.

Inductive meaning : string -> pyval -> effect -> Prop :=
| me_number name w v z : In (name, w) number_fields -> stands w v z ->
    meaning name v (Flag name (z =? 0))
| me_other name w v : In (name, w) number_fields ->
    v = VNone \/ (exists s, v = VStr s) \/ (exists b, v = VBytes b) ->
    meaning name v (Flag name false)
| me_mac_zero name v : In name ["dl_src"; "dl_dst"] ->
    v = VStr zero_mac \/ v = VHW (VStr zero_mac) ->
    meaning name v (Flag name true)
| me_mac name v s bs : In name ["dl_src"; "dl_dst"] ->
    v = VStr s \/ v = VHW (VStr s) -> pack (VHW (VStr s)) = Ok bs -> bs <> zero6 ->
    meaning name v (Flag name false)
| me_mac_list name lc pc bs : In name ["dl_src"; "dl_dst"] ->
    wf_bytes bs -> List.length bs = 6%nat ->
    meaning name (VList lc pc (map VInt bs)) (Flag name (forallb (Z.eqb 0) bs))
| me_ip name v p : In name ["nw_src"; "nw_dst"] -> ip_prefix v p -> 0 <= p <= 32 ->
    meaning name v (Prefix (String.eqb name "nw_dst") p)
| me_pad name k : In name ["pad1"; "pad2"] -> meaning name (VPad k) Nothing
| me_unknown name v : ~ In name (map fst (class_attrs Match01)) -> meaning name v Nothing.

(** The outcome of a history: the last assignment counts; a new match has the
    default in every field and prefix length 0. *)
Fixpoint last_flag (name : string) (acc : bool) (l : list effect) : bool :=
  match l with
  | [] => acc
  | Flag n b :: tl => last_flag name (if String.eqb n name then b else acc) tl
  | _ :: tl => last_flag name acc tl
  end.
Fixpoint last_prefix (dst : bool) (acc : Z) (l : list effect) : Z :=
  match l with
  | [] => acc
  | Prefix d p :: tl => last_prefix dst (if Bool.eqb d dst then p else acc) tl
  | _ :: tl => last_prefix dst acc tl
  end.

(** The wildcards attribute as a number. *)
Definition wildcards_are (m : list (string * pyval)) (w : Z) : Prop :=
  exists v, get_attr "wildcards" m = Some v /\ (v = VInt w \/ exists n er, v = VUInt n er (VInt w)).

(** Assignments with their meanings. *)
Definition history (l : list (string * pyval)) (effs : list effect) : Prop :=
  Forall2 (fun a e => meaning (fst a) (snd a) e) l effs.

(** The text of a number in a list assigned to an address.  In decimal: the
    shortest numeral, after a minus sign if negative.  In hexadecimal: lower
    case, at least two characters. *)
Definition lower_digit (c d : Z) : Prop :=
  (0 <= d <= 9 /\ c = 48 + d) \/ (10 <= d <= 15 /\ c = 97 + (d - 10)).
Definition shortest (t : text) : Prop := exists c u, t = c :: u /\ (c <> 48 \/ u = []).
Definition signed (natural : Z -> text -> Prop) (z : Z) (t : text) : Prop :=
  (0 <= z /\ natural z t) \/ (z < 0 /\ exists u, t = 45 :: u /\ natural (- z) u).
Definition dec_item := signed (fun z t => dec_numeral t z /\ shortest t).
Definition hex_item z t :=
  (0 <= z < 16 /\ exists c, t = [48; c] /\ lower_digit c z) \/
  (~ 0 <= z < 16 /\ signed (fun z t => numeral 16 lower_digit t z /\ shortest t) z t).
