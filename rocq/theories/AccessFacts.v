(** Facts about [Access]. *)
From Coq Require Import ZArith List Bool String Lia ZifyBool.
From Verif Require Import Base PyText Ids PyVal Classes Interp Utils Operators Access Spec SpecMsg SpecSame SpecBasic SpecNet
  SpecStruct SpecAccess BaseFacts TextFacts ClassFacts LeafFacts StructFacts Soundness Closure FuelFacts Totality
  UnpackTotal MsgFacts MsgBody MsgMain SameFacts DispatchFacts PacketFacts TopFacts IntFacts NetFacts OperatorsFacts
  StructThm StructThm2.
Import ListNotations.
Open Scope string_scope.
Open Scope list_scope.
Open Scope Z_scope.

Lemma plain_number_int v z : plain_number v z -> as_int v = Some z.
Proof. intros [->|(e & E & ->)]; [reflexivity|]. cbn [as_int]. rewrite E. reflexivity. Qed.

Lemma exact_value v f : int_exact v f -> is_generic_type v = true -> Operators.value_of v = VInt f.
Proof.
  intros H G. inversion H as [q|e q E|w er q|w e q M]; subst; try discriminate G.
  - cbn [Operators.value_of]. unfold generic_value. destruct er as [e|]; [|reflexivity]. destruct (enum_def e); reflexivity.
  - cbn [Operators.value_of]. unfold generic_value. unfold is_mask_enum in M.
    destruct (enum_def e); try discriminate M; rewrite eid_eqb_refl; reflexivity.
Qed.

Lemma field_eq v f t z : int_exact v f -> plain_number t z -> py_eq v t = Ok (f =? z).
Proof.
  intros H N. pose proof (plain_number_int _ _ N) as I.
  assert (G : is_generic_type t = false) by (destruct N as [->|(? & _ & ->)]; reflexivity).
  unfold py_eq. destruct (is_generic_type v) eqn:GV.
  - unfold generic_eq. rewrite (exact_value v f H GV).
    assert (same_type v t = false) as ->
      by (destruct N as [->|(? & _ & ->)]; destruct v; try reflexivity; discriminate GV).
    destruct N as [->|(e & E & ->)]; reflexivity.
  - rewrite G. unfold plain_eq. rewrite I. inversion H as [q|e q E|w er q|w e q M]; subst; try discriminate GV.
    + reflexivity.
    + cbn [as_int]. rewrite E. reflexivity.
Qed.

(** ** get_field *)

Lemma find_first t z items ts u : plain_number t z -> Forall2 oxm_holds items ts -> first_tlv z ts u ->
  exists v, find_field t items = Ok v /\ value_bytes v (ox_value u).
Proof.
  intros N F. revert u. induction F as [|x y items ts H _ IH]; intros u FT; [inversion FT|].
  destruct H as (attrs & -> & _ & _ & (fv & GF & (XF & _)) & _ & (vv & GV & XV)).
  cbn [find_field]. unfold attr_or_error. rewrite GF. cbn [bind]. rewrite (field_eq fv _ t z XF N). cbn [bind].
  inversion FT as [t' ts' E|t' ts' u' E FT']; subst.
  - rewrite Z.eqb_refl, GV. exists vv. split; [reflexivity|exact XV].
  - destruct (ox_field y =? z) eqn:Q; [lia|]. apply IH, FT'.
Qed.

Lemma find_none t z items ts : plain_number t z -> Forall2 oxm_holds items ts ->
  no_tlv z ts -> find_field t items = Ok VNone.
Proof.
  intros N F. induction F as [|x y items ts H _ IH]; intros NT; [reflexivity|].
  destruct H as (attrs & -> & _ & _ & (fv & GF & (XF & _)) & _ & _).
  cbn [find_field]. unfold attr_or_error. rewrite GF. cbn [bind]. rewrite (field_eq fv _ t z XF N). cbn [bind].
  inversion NT as [|a b E NT']; subst. destruct (ox_field y =? z) eqn:Q; [lia|]. apply IH, NT'.
Qed.

Lemma first_or_none z ts : (exists u, first_tlv z ts u) \/ no_tlv z ts.
Proof.
  induction ts as [|t ts [(u & IH)|IH]]; [right; constructor| |].
  - left. destruct (Z.eq_dec (ox_field t) z); [exists t; constructor|exists u; constructor]; assumption.
  - destruct (Z.eq_dec (ox_field t) z); [left; exists t; constructor; assumption|right; constructor; assumption].
Qed.

Lemma first_not_none z ts u : first_tlv z ts u -> ~ no_tlv z ts.
Proof. induction 1 as [t ts E|t ts u E _ IH]; intros NT; inversion NT; subst; auto. Qed.

Lemma get_field_items m mt ts t : match_holds m mt ts ->
  exists items, Forall2 oxm_holds items ts /\ get_field m t = find_field t items.
Proof.
  intros (attrs & -> & _ & _ & (x & G & lc & pc & items & -> & F)). exists items. split; [exact F|].
  cbn [get_field]. unfold attr_or_error. rewrite G. reflexivity.
Qed.

Lemma get_field_first m mt ts t z u : match_holds m mt ts -> plain_number t z -> first_tlv z ts u ->
  exists v, get_field m t = Ok v /\ value_bytes v (ox_value u).
Proof.
  intros H N FT. destruct (get_field_items m mt ts t H) as (items & F & ->). eapply find_first; eassumption.
Qed.

Lemma get_field_none m mt ts t z : match_holds m mt ts -> plain_number t z ->
  (get_field m t = Ok VNone <-> no_tlv z ts).
Proof.
  intros H N. split.
  - intros E. destruct (first_or_none z ts) as [(u & FT)|NT]; [|exact NT].
    destruct (get_field_first m mt ts t z u H N FT) as (v & E' & [->| ->]); congruence.
  - intros NT. destruct (get_field_items m mt ts t H) as (items & F & ->). eapply find_none; eassumption.
Qed.

(** ** in_port *)

Lemma in_port_number : plain_number (VEnum E_OxmOfbMatchField04 0) 0.
Proof. right. exists E_OxmOfbMatchField04. split; reflexivity. Qed.

Lemma in_port_first attrs m mt ts u : get_attr "match" attrs = Some m -> match_holds m mt ts ->
  first_tlv 0 ts u -> get_field m (VEnum E_OxmOfbMatchField04 0) = Ok (VBytes (ox_value u)) ->
  in_port (VObj PacketIn04 attrs) = Ok (VInt (place_value (ox_value u))).
Proof.
  intros G H FT E. cbn [in_port]. unfold attr_or_error. rewrite G. cbn [bind]. rewrite E. cbn [bind].
  rewrite place_value_decode. reflexivity.
Qed.

Lemma in_port_missing attrs m mt ts : get_attr "match" attrs = Some m -> match_holds m mt ts ->
  no_tlv 0 ts -> in_port (VObj PacketIn04 attrs) = Err TypeError.
Proof.
  intros G H NT. cbn [in_port]. unfold attr_or_error. rewrite G. cbn [bind].
  rewrite (proj2 (get_field_none m mt ts _ 0 H in_port_number) NT). reflexivity.
Qed.

(** The decoded match holds plain bytes. *)
Lemma out_first mt ts u t z : plain_number t z -> first_tlv z ts u ->
  get_field (match_out mt ts) t = Ok (VBytes (ox_value u)).
Proof.
  intros N FT. unfold match_out. cbn [get_field].
  change (find_field t (map oxm_out ts) = Ok (VBytes (ox_value u))).
  assert (P : forall y, py_eq (if ox_class y =? 0x8000 then VEnum E_OxmOfbMatchField04 (ox_field y) else VInt (ox_field y)) t
                = Ok (ox_field y =? z)).
  { intros y. apply field_eq; [|exact N]. destruct (ox_class y =? 0x8000); constructor. reflexivity. }
  induction FT as [y ts E|y ts u E _ IH]; cbn [map].
  - unfold oxm_out at 1. cbn [find_field]. unfold attr_or_error. cbn [get_attr]. cbn [String.eqb Ascii.eqb Bool.eqb].
    cbn [bind]. rewrite (P y). cbn [bind]. subst z. rewrite Z.eqb_refl. reflexivity.
  - unfold oxm_out at 1. cbn [find_field]. unfold attr_or_error at 1. cbn [get_attr]. cbn [String.eqb Ascii.eqb Bool.eqb].
    cbn [bind]. rewrite (P y). cbn [bind]. destruct (ox_field y =? z) eqn:Q; [lia|]. exact IH.
Qed.

Lemma be_encode_split a b z : be_encode (a + b) z = be_encode a (z / 256 ^ Z.of_nat b) ++ be_encode b z.
Proof.
  induction a as [|a IH]; [reflexivity|]. cbn [be_encode Nat.add app]. rewrite IH. f_equal. f_equal.
  rewrite Nat2Z.inj_add, Z.pow_add_r, (Z.mul_comm (256 ^ Z.of_nat a)) by lia.
  symmetry. apply Z.div_div; [apply Z.pow_nonzero; lia|apply Z.pow_pos_nonneg; lia].
Qed.

Lemma be_eight z : 0 <= z < 2 ^ 64 -> be_encode 8 z = eight z.
Proof.
  intros H. change 8%nat with (4 + 4)%nat. rewrite be_encode_split, <- (be_encode_mod 4 z).
  change (256 ^ Z.of_nat 4) with (2 ^ 32). change (ulimit 4) with (2 ^ 32).
  unfold eight. rewrite !be_four; [reflexivity| |].
  - apply Z.mod_pos_bound. reflexivity.
  - change (2 ^ 64) with (2 ^ 32 * 2 ^ 32) in H. split; [apply Z.div_pos; lia|apply Z.div_lt_upper_bound; lia].
Qed.

(** ** PacketIn from the wire *)

Lemma in_body n buffer total reason table cookie mt ts data hd :
  0 <= buffer < 2 ^ 32 -> 0 <= total < 65536 -> 0 <= reason <= 2 -> 0 <= table < 256 -> 0 <= cookie < 2 ^ 64 ->
  match_ok mt ts ->
  enc_body (S (S (S n))) V04 PacketIn04
    [("header", hd); ("buffer_id", VInt buffer); ("total_len", VInt total); ("reason", VInt reason);
     ("table_id", VInt table); ("cookie", VInt cookie); ("match", match_out mt ts); ("pad", VPad 2);
     ("data", VBytes data)]
    (packet_in_wire buffer total reason table cookie mt ts data)
    [VUInt 4 None (VInt buffer); VUInt 2 None (VInt total); VUInt 1 (Some E_PacketInReason04) (VEnum E_PacketInReason04 reason);
     VUInt 1 None (VInt table); VUInt 8 None (VInt cookie); match_out mt ts; VPad 2; VBin (VBytes data)].
Proof.
  intros B T R TB C OK. apply (b_fields _ V04 TAIL); [reflexivity| |discriminate].
  replace (packet_in_wire buffer total reason table cookie mt ts data)
    with (be_encode 4 buffer ++ be_encode 2 total ++ be_encode 1 reason ++ be_encode 1 table ++ be_encode 8 cookie
            ++ match_wire mt ts ++ repeat 0 2%nat ++ data).
  2:{ rewrite be_four, be2, be_eight, (be1 reason), (be1 table) by (unfold is_byte; lia). reflexivity. }
  change (body_values PacketIn04 _) with
    [VInt buffer; VInt total; VInt reason; VInt table; VInt cookie; match_out mt ts; VPad 2; VBytes data].
  change (body_fields PacketIn04) with
    [("buffer_id", VUInt 4 None VNone); ("total_len", VUInt 2 None VNone);
     ("reason", VUInt 1 (Some E_PacketInReason04) VNone); ("table_id", VUInt 1 None VNone);
     ("cookie", VUInt 8 None VNone); ("match", new_Match04); ("pad", VPad 2); ("data", VBin VNone)].
  repeat apply f_cons.
  - apply (enc_number _ 4 None); [lia|exact B|exact I].
  - apply (enc_number _ 2 None); [lia|exact T|exact I].
  - apply (enc_number _ 1 (Some E_PacketInReason04)); [lia|change (ulimit 1) with 256; lia|].
    right. assert (reason = 0 \/ reason = 1 \/ reason = 2) as [->|[->| ->] ] by lia; reflexivity.
  - apply (enc_number _ 1 None); [lia|exact TB|exact I].
  - apply (enc_number _ 8 None); [lia|exact C|exact I].
  - unfold new_Match04, match_out. apply e_obj; [|reflexivity|reflexivity].
    apply (match_enc n (match_out mt ts)); [exact OK|apply match_out_holds].
  - apply e_pad.
  - apply f_last. apply e_bin; [discriminate|constructor].
Qed.

Lemma four_wf z : 0 <= z < 2 ^ 32 -> wf_bytes (four z).
Proof.
  intros R. change (2 ^ 32) with 4294967296 in R. unfold four. apply Forall_app. split; apply wf_two; lia.
Qed.

Lemma received buffer total reason table cookie mt ts data x :
  0 <= buffer < 2 ^ 32 -> 0 <= total < 65536 -> 0 <= reason <= 2 -> 0 <= table < 256 -> 0 <= cookie < 2 ^ 64 ->
  match_ok mt ts -> wf_bytes data -> 0 <= x < 2 ^ 32 ->
  let body := packet_in_wire buffer total reason table cookie mt ts data in
  8 + zlen body < 65536 ->
  exists attrs, unpack_packet (wire_header V04 10 (8 + zlen body) x ++ body) = Ok (VObj PacketIn04 attrs) /\
    get_attr "match" attrs = Some (match_out mt ts) /\ get_attr "data" attrs = Some (VBin (VBytes data)).
Proof.
  intros B T R TB C OK W X body L.
  assert (WB : wf_bytes body).
  { unfold body, packet_in_wire, wf_bytes. rewrite !Forall_app. 
    split; [apply four_wf, B|]. split; [apply wf_two, T|].
    split; [apply Forall_forall; intros q [<-|[<-|[] ] ]; unfold is_byte; lia|].
    split; [rewrite <- be_eight by exact C; apply be_encode_wf|].
    split; [apply match_wire_wf, OK|]. split; [|exact W].
    apply Forall_forall; intros q [<-|[<-|[] ] ]; unfold is_byte; lia. }
  set (hd := VObj Header04 [("version", VInt 4); ("message_type", VInt 10); ("length", VNone); ("xid", VInt x)]).
  pose proof (in_body 0 buffer total reason table cookie mt ts data hd B T R TB C OK) as EB.
  match type of EB with enc_body _ _ _ ?a ?b ?o =>
    assert (M : enc_msg 3 V04 10 x (VObj PacketIn04 a) (wire_header V04 10 (8 + zlen body) x ++ body)
                  (decoded V04 10 (8 + zlen body) x PacketIn04 o)) end.
  { constructor; auto.
    - cbn; tauto.
    - unfold misfiled. lia.
    - split; [reflexivity|]. eexists. split; [reflexivity|]. split; [reflexivity|].
      split; [eexists; split; [reflexivity|constructor]|]. split; [eexists; split; [reflexivity|constructor]|].
      split; [eexists; split; [reflexivity|constructor]|exact X]. }
  destruct (message_sound _ _ _ _ _ _ _ M) as (_ & _ & U). rewrite U. unfold decoded. eexists.
  split; [reflexivity|]. split; reflexivity.
Qed.

Lemma received_port buffer total reason table cookie mt ts data x u :
  0 <= buffer < 2 ^ 32 -> 0 <= total < 65536 -> 0 <= reason <= 2 -> 0 <= table < 256 -> 0 <= cookie < 2 ^ 64 ->
  match_ok mt ts -> wf_bytes data -> 0 <= x < 2 ^ 32 ->
  let body := packet_in_wire buffer total reason table cookie mt ts data in
  8 + zlen body < 65536 -> first_tlv 0 ts u ->
  exists p, unpack_packet (wire_header V04 10 (8 + zlen body) x ++ body) = Ok p /\
    in_port p = Ok (VInt (place_value (ox_value u))).
Proof.
  intros B T R TB C OK W X body L FT.
  destruct (received buffer total reason table cookie mt ts data x B T R TB C OK W X L) as (attrs & U & G & _).
  exists (VObj PacketIn04 attrs). split; [exact U|].
  apply (in_port_first attrs (match_out mt ts) mt ts u G (match_out_holds mt ts) FT).
  apply (out_first mt ts u _ 0 in_port_number FT).
Qed.
