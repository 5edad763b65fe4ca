(** PacketOut messages and statistics bodies. *)
From Coq Require Import ZArith List Bool String Lia ZifyBool.
From Verif Require Import Base PyText Ids PyVal Classes Interp Utils Spec SpecMsg SpecSame SpecBasic SpecNet
  SpecStruct BaseFacts TextFacts ClassFacts LeafFacts StructFacts Soundness Closure FuelFacts Totality
  UnpackTotal MsgFacts MsgBody MsgMain SameFacts DispatchFacts PacketFacts TopFacts IntFacts NetFacts StructThm.
Import ListNotations.
Open Scope string_scope.
Open Scope list_scope.
Open Scope Z_scope.

(** ** The input port of a PacketOut *)

Lemma num_number v z : num_of v = Ok z -> number v z.
Proof.
  unfold num_of. destruct v; cbn [as_int]; try discriminate.
  - injection 1 as ->. constructor.
  - destruct (is_int_enum e) eqn:E; [|discriminate]. injection 1 as ->. constructor. exact E.
  - intros H. constructor. unfold generic_value in H.
    destruct er as [e|]; [destruct (enum_def e)|]; destruct v; try discriminate H; cbn [as_int] in H;
      try (destruct (eid_eqb _ _); cbn [as_int] in H); try (destruct (is_int_enum _));
      try discriminate H; injection H as ->; eauto.
Qed.

Definition valid_out (v : of_version) (ip : pyval) : res bool :=
  match v with
  | V01 => valid_in_port 0xff00 [0xfffe; 0xfffd; 0xffff] ip
  | V04 => valid_in_port 0xffffff00 [0xfffffffe; 0xfffffffd; 0xffffffff] ip
  end.

Lemma valid_out_eq v ip : valid_out v ip =
  do p <- num_of ip; Ok (match v with
    | V01 => (1 <=? p) && (p <=? 0xff00) || ((p =? 0xfffe) || (p =? 0xfffd) || (p =? 0xffff))
    | V04 => (1 <=? p) && (p <=? 0xffffff00) || ((p =? 0xfffffffe) || (p =? 0xfffffffd) || (p =? 0xffffffff))
    end).
Proof.
  destruct v; unfold valid_out, valid_in_port; destruct (num_of ip); cbn [bind existsb]; f_equal; lia.
Qed.

Lemma valid_out_true v ip : valid_out v ip = Ok true -> exists p, number ip p /\ sending_port v p.
Proof.
  rewrite valid_out_eq. destruct (num_of ip) as [p|] eqn:E; [|discriminate]. cbn [bind]. intros H.
  exists p. split; [apply num_number; exact E|]. destruct v; cbn [sending_port]; injection H as H; lia.
Qed.

Lemma valid_out_false v ip p : int_exact ip p -> ~ sending_port v p -> valid_out v ip = Ok false.
Proof.
  intros X N. rewrite valid_out_eq, (int_exact_num _ _ X). cbn [bind]. f_equal.
  destruct v; cbn [sending_port] in N; lia.
Qed.

Lemma out_pack_eq n v attrs : pack0 (S n) (VObj (out_class v) attrs)
  = packet_out_pack (pack0 n) (size0 n) (size0 (S n)) (out_list v) (out_class v) attrs.
Proof. rewrite pack0_obj. unfold pack_obj. rewrite out_kind. destruct v; reflexivity. Qed.

Lemma out_valid_eq v attrs : is_valid (out_class v) attrs
  = do p <- attr_or_error "in_port" attrs; valid_out v p.
Proof. unfold is_valid. rewrite out_kind. destruct v; reflexivity. Qed.

Lemma packet_out_port_ok v attrs bs : pack (VObj (out_class v) attrs) = Ok bs ->
  exists ip p, get_attr "in_port" attrs = Some ip /\ number ip p /\ sending_port v p.
Proof.
  unfold pack. destruct (FUEL + _)%nat as [|m]; [discriminate|]. rewrite out_pack_eq. intros H.
  unfold packet_out_pack in H.
  apply bind_ok_inv in H as (acts & _ & H). apply bind_ok_inv in H as (alen & _ & H).
  unfold message_pack in H. apply bind_ok_inv in H as (s & _ & H).
  apply bind_ok_inv in H as (h & _ & H). destruct h; try discriminate.
  unfold struct_pack in H. apply bind_ok_inv in H as (ok & V & H). destruct ok; [|discriminate].
  rewrite out_valid_eq in V. apply bind_ok_inv in V as (ip & G & V).
  unfold attr_or_error in G. rewrite !get_set_other in G by discriminate.
  destruct (get_attr "in_port" attrs) as [ip'|] eqn:E; [|discriminate]. injection G as ->.
  destruct (valid_out_true _ _ V) as (p & A & B). eauto.
Qed.

Lemma out_size n v attrs : size0 (S n) (VObj (out_class v) attrs) = struct_size (size0 n) (out_class v) attrs.
Proof. rewrite size0_obj. rewrite out_kind. destruct v; reflexivity. Qed.

Lemma out_size_set n v name y attrs : complete (out_class v) attrs -> name = "in_port" \/ name = "actions_len" ->
  struct_size (size0 n) (out_class v) (set_attr name y attrs) = struct_size (size0 n) (out_class v) attrs.
Proof.
  intros C N. destruct v; destruct N as [-> | ->]; (eapply struct_size_set; [exact C|reflexivity]).
Qed.

Lemma pack_step v bs : pack v = Ok bs -> exists m, pack0 (S m) v = Ok bs.
Proof. unfold pack. generalize (FUEL + height v)%nat. intros [|m] H; [discriminate|eauto]. Qed.

Lemma packet_out_port_bad v attrs ip p bs :
  complete (out_class v) attrs ->
  pack (VObj (out_class v) (set_attr "in_port" (VInt 1) attrs)) = Ok bs ->
  get_attr "in_port" attrs = Some ip -> int_exact ip p -> ~ sending_port v p ->
  pack (VObj (out_class v) attrs) = Err ValidationError.
Proof.
  intros C H G X N.
  assert (P : forall n, pack0 (S n) (VObj (out_class v) (set_attr "in_port" (VInt 1) attrs)) = Ok bs ->
              pack0 (S n) (VObj (out_class v) attrs) = Err ValidationError).
  { intros n. rewrite !out_pack_eq. unfold packet_out_pack. intros Q.
    apply bind_ok_inv in Q as (acts & A & Q). apply bind_ok_inv in Q as (alen & L & Q).
    unfold attr_or_error in A. rewrite get_set_other in A by discriminate.
    unfold attr_or_error at 1. rewrite A. cbn [bind]. rewrite L. cbn [bind].
    unfold message_pack in *. apply bind_ok_inv in Q as (s & Z & Q).
    apply bind_ok_inv in Q as (h & HH & Q).
    rewrite out_size in *.
    rewrite out_size_set in Z; [|apply complete_set; [exact C|destruct v; cbn; tauto]|auto].
    rewrite out_size_set in Z by auto. rewrite out_size_set by auto.
    rewrite Z. cbn [bind]. unfold attr_or_error in HH. rewrite !get_set_other in HH by discriminate.
    unfold attr_or_error at 1. rewrite get_set_other by discriminate. rewrite HH. cbn [bind].
    destruct h; try discriminate. unfold struct_pack. rewrite out_valid_eq.
    unfold attr_or_error. rewrite !get_set_other by discriminate. rewrite G. cbn [bind].
    rewrite (valid_out_false _ _ _ X N). reflexivity. }
  apply pack_step in H as (m & H). apply P in H.
  rewrite (pack_of (S m)); [exact H|]. rewrite H. discriminate.
Qed.

(** ** The bytes of a PacketOut *)

Lemma be_four z : 0 <= z < 2 ^ 32 -> be_encode 4 z = four z.
Proof. apply be4. Qed.

Lemma out_body n v x attrs bid ip p lc pc items ab outs d data :
  sendable v 13 x (out_class v) attrs ->
  attr_is attrs "buffer_id" (fun y => int_exact y bid) -> 0 <= bid < 2 ^ 32 ->
  get_attr "in_port" attrs = Some ip -> int_exact ip p -> sending_port v p ->
  get_attr "actions" attrs = Some (VList lc pc items) -> subclass lc CFixedTypeList = true ->
  enc_items (S n) (out_item v) items ab outs -> zlen ab < 65536 ->
  get_attr "data" attrs = Some d -> enc_payload (S (S n)) d data ->
  enc_body n v (out_class v) attrs (packet_out_wire v bid p ab data)
    (match v with
     | V01 => [VUInt 4 None (VInt bid); VUInt 2 None (VInt p); VUInt 2 None (VInt (zlen ab))]
     | V04 => [VUInt 4 None (VInt bid); VUInt 4 None (VInt p); VUInt 2 None (VInt (zlen ab)); VPad 6]
     end ++ [VList CFixedTypeList (out_item v) outs; VBin (VBytes data)]).
Proof.
  intros HS (bi & GB & XB) RB GP XP SP GA SL HI LA GD PD.
  assert (IT : In (13, out_class v) (openflow_types v)) by (destruct v; cbn; tauto).
  assert (NL : In "actions_len" (map fst (body_fields (out_class v)))) by (destruct v; cbn; tauto).
  destruct (body_set _ _ _ _ _ _ (VInt (zlen ab)) IT HS NL) as [S' _].
  pose proof (body_length _ _ _ _ _ IT S') as L.
  assert (G : forall nm, In nm (map fst (body_fields (out_class v))) -> nm <> "actions_len" ->
     get_attr nm attrs = get_attr nm (combine (map fst (body_fields (out_class v)))
       (body_values (out_class v) (set_attr "actions_len" (VInt (zlen ab)) attrs)))).
  { intros nm I NE. rewrite <- (body_get _ _ _ _ _ _ IT S' I). symmetry. apply get_set_other. congruence. }
  assert (GL : get_attr "actions_len" (combine (map fst (body_fields (out_class v)))
       (body_values (out_class v) (set_attr "actions_len" (VInt (zlen ab)) attrs))) = Some (VInt (zlen ab))).
  { rewrite <- (body_get _ _ _ _ _ _ IT S' NL). apply get_set_same. }
  pose proof GP as GP0. rewrite G in GB, GP, GA, GD by (destruct v; cbn; (discriminate || tauto)).
  destruct (int_exact_value _ _ XB) as [VB NB]. destruct (int_exact_value _ _ XP) as [VP NP].
  assert (ZL : 0 <= zlen ab) by (unfold zlen; lia).
  assert (EA : forall l i, subclass l CFixedTypeList = true -> l <> CFixedTypeList ->
    i = out_item v -> enc (S (S n)) TAIL true (VList l i []) (VList lc pc items) ab
      (VList CFixedTypeList i outs)).
  { intros l i S1 NC ->. apply e_list; auto. }
  assert (ED : enc (S (S n)) TAIL true (VBin VNone) d data (VBin (VBytes data))).
  { destruct (match d with VNone => true | _ => false end) eqn:ND.
    - destruct d; try discriminate. apply e_bin_default. exact PD.
    - apply e_bin; [intros ->; discriminate|exact PD]. }
  remember (body_values (out_class v) (set_attr "actions_len" (VInt (zlen ab)) attrs)) as bv eqn:BV.
  symmetry in BV. clear G HI PD HS S'.
  destruct v; cbn [out_class] in *.
  - destruct bv as [|v1 [|v2 [|v3 [|v4 [|v5 [|] ] ] ] ] ]; try discriminate L.
    cbn in GB, GP, GA, GD, GL. injection GB as ->. injection GP as ->. injection GA as ->.
    injection GD as ->. injection GL as ->.
    replace (packet_out_wire V01 bid p ab data)
      with ((be_encode 4 bid ++ be_encode 2 p ++ be_encode 2 (zlen ab) ++ []) ++ ab ++ data).
    2:{ rewrite be_four, !be2 by (cbn [sending_port] in SP; lia). unfold packet_out_wire.
        rewrite app_nil_r, <- !app_assoc. reflexivity. }
    apply (b_packet_out n V01 attrs ip p (zlen ab) (out_fixed V01) [bi; ip; VInt (zlen ab)] _ _
             ListOfActions01 ActionHeader01 (VList lc pc items) ab _ (VBin VNone) d data);
      [exact GP0|exact XP|exact SP|reflexivity|exact BV| | |reflexivity|exact ED].
    + apply f_cons; [|apply f_cons; [|apply f_cons; [|apply f_nil] ] ].
      * apply e_uint; [lia|left; auto| |exact I]. exact RB.
      * apply e_uint; [lia|left; auto| |exact I]. change (ulimit 2) with 65536. cbn [sending_port] in SP. lia.
      * apply e_uint; [lia|left; split; [discriminate|constructor]| |exact I]. change (ulimit 2) with 65536. lia.
    + apply EA; [reflexivity|discriminate|reflexivity].
  - destruct bv as [|v1 [|v2 [|v3 [|v4 [|v5 [|v6 [|] ] ] ] ] ] ]; try discriminate L.
    cbn in GB, GP, GA, GD, GL. injection GB as ->. injection GP as ->. injection GA as ->.
    injection GD as ->. injection GL as ->.
    replace (packet_out_wire V04 bid p ab data)
      with ((be_encode 4 bid ++ be_encode 4 p ++ be_encode 2 (zlen ab) ++ repeat 0 6%nat ++ []) ++ ab ++ data).
    2:{ rewrite !be_four, be2 by (change (2 ^ 32) with 4294967296 in *; cbn [sending_port] in SP; lia).
        unfold packet_out_wire. rewrite app_nil_r, <- !app_assoc. reflexivity. }
    apply (b_packet_out n V04 attrs ip p (zlen ab) (out_fixed V04) [bi; ip; VInt (zlen ab); v4] _ _
             ListOfActions04 ActionHeader04 (VList lc pc items) ab _ (VBin VNone) d data);
      [exact GP0|exact XP|exact SP|reflexivity|exact BV| | |reflexivity|exact ED].
    + apply f_cons; [|apply f_cons; [|apply f_cons; [|apply f_cons; [|apply f_nil] ] ] ].
      * apply e_uint; [lia|left; auto| |exact I]. exact RB.
      * apply e_uint; [lia|left; auto| |exact I]. change (ulimit 4) with 4294967296. cbn [sending_port] in SP. lia.
      * apply e_uint; [lia|left; split; [discriminate|constructor]| |exact I]. change (ulimit 2) with 65536. lia.
      * apply e_pad.
    + apply EA; [reflexivity|discriminate|reflexivity].
Qed.

(** What the receiver of a PacketOut sees. *)
Lemma out_roundtrip n v x attrs bid ip p lc pc items ab outs d data :
  sendable v 13 x (out_class v) attrs ->
  attr_is attrs "buffer_id" (fun y => int_exact y bid) -> 0 <= bid < 2 ^ 32 ->
  get_attr "in_port" attrs = Some ip -> int_exact ip p -> sending_port v p ->
  get_attr "actions" attrs = Some (VList lc pc items) -> subclass lc CFixedTypeList = true ->
  enc_items (S n) (out_item v) items ab outs -> wf_bytes ab ->
  get_attr "data" attrs = Some d -> enc_payload (S (S n)) d data -> wf_bytes data ->
  let body := packet_out_wire v bid p ab data in
  8 + zlen body < 65536 ->
  pack (VObj (out_class v) attrs) = Ok (wire_header v 13 (8 + zlen body) x ++ body) /\
  exists attrs',
    unpack_packet (wire_header v 13 (8 + zlen body) x ++ body) = Ok (VObj (out_class v) attrs') /\
    attr_is attrs' "buffer_id" (fun y => int_exact y bid) /\
    attr_is attrs' "in_port" (fun y => int_exact y p) /\
    attr_is attrs' "actions_len" (fun y => int_exact y (zlen ab)) /\
    attr_is attrs' "actions" (fun y => exists outs, y = VList CFixedTypeList (out_item v) outs /\
                                       Forall2 same_obj items outs) /\
    get_attr "data" attrs' = Some (VBin (VBytes data)).
Proof.
  intros HS GB RB GP XP SP GA SL HI WA GD PD WD body HL.
  assert (LA : zlen ab < 65536).
  { revert HL. unfold body, packet_out_wire, zlen. destruct v; rewrite !app_length; cbn [List.length]; lia. }
  pose proof (items_same _ _ _ _ _ HI) as SM.
  assert (WB : wf_bytes body).
  { assert (T : forall z, 0 <= z < 65536 -> wf_bytes (two z)) by (intros; apply Forall_forall; unfold two;
      intros q [<-|[<-|[] ] ]; unfold is_byte; lia).
    assert (F : forall z, 0 <= z < 2 ^ 32 -> wf_bytes (four z)).
    { intros z R. change (2 ^ 32) with 4294967296 in R. unfold four. apply Forall_app. split; apply T; lia. }
    assert (ZL : 0 <= zlen ab) by (unfold zlen; lia).
    unfold body, packet_out_wire. destruct v; cbn [sending_port] in SP; repeat (apply Forall_app; split);
      try assumption; try (apply T; lia); try (apply F; change (2 ^ 32) with 4294967296 in *; lia);
      try (apply F; exact RB).
    apply Forall_forall. intros q Q. apply repeat_spec in Q. subst. unfold is_byte. lia. }
  pose proof (out_body n v x attrs bid ip p lc pc items ab outs d data HS GB RB GP XP SP GA SL HI LA GD PD) as B.
  assert (M : enc_msg n v 13 x (VObj (out_class v) attrs) (wire_header v 13 (8 + zlen body) x ++ body)
     (decoded v 13 (8 + zlen body) x (out_class v)
        (match v with
     | V01 => [VUInt 4 None (VInt bid); VUInt 2 None (VInt p); VUInt 2 None (VInt (zlen ab))]
     | V04 => [VUInt 4 None (VInt bid); VUInt 4 None (VInt p); VUInt 2 None (VInt (zlen ab)); VPad 6]
     end ++ [VList CFixedTypeList (out_item v) outs; VBin (VBytes data)]))).
  { constructor; auto; [destruct v; cbn; tauto|]. unfold misfiled. lia. }
  destruct (message_sound _ _ _ _ _ _ _ M) as (P & _ & U). split; [exact P|].
  rewrite U. unfold decoded. eexists. split; [reflexivity|].
  destruct v; cbn; repeat split; unfold attr_is; eexists; try (split; [reflexivity|]; constructor).
  all: try (split; [reflexivity|eexists; split; [reflexivity|exact SM] ]).
Qed.

(** ** Statistics messages *)

Lemma wf_two z : 0 <= z < 65536 -> wf_bytes (two z).
Proof. intros; apply Forall_forall; unfold two; intros q [<-|[<-|[] ] ]; unfold is_byte; lia. Qed.

Lemma form_code f t form : In (t, form) (stats_forms f) ->
  0 <= t < 65536 /\ is_member (stats_type_enum f) t = true.
Proof.
  intros I. assert (E : forallb (fun p => (0 <=? fst p) && (fst p <? 65536) &&
     is_member (stats_type_enum f) (fst p)) (stats_forms f) = true) by (destruct f; vm_compute; reflexivity).
  rewrite forallb_forall in E. specialize (E _ I). cbn [fst] in E.
  apply andb_prop in E as [E M]. split; [lia|exact M].
Qed.

Lemma stats_body n f x attrs ti t form fl b bb bout :
  sendable (stats_version f) (stats_code f) x (stats_class f) attrs ->
  get_attr (stats_type_name f) attrs = Some ti ->
  type_given f t ti ->
  In (t, form) (stats_forms f) ->
  attr_is attrs "flags" (fun y => int_exact y fl) -> stats_flags_ok f fl ->
  get_attr "body" attrs = Some b -> enc_stats (S n) form b bb bout ->
  exists outs,
  enc_body n (stats_version f) (stats_class f) attrs (stats_wire f t fl bb) outs /\
  get_attr "body" (combine (map fst (body_fields (stats_class f))) outs) = Some bout /\
  attr_is (combine (map fst (body_fields (stats_class f))) outs) "flags" (fun y => int_exact y fl).
Proof.
  intros HS GT TI IF (fi & GF & XF) RF GB ST. destruct (form_code _ _ _ IF) as [RT MT].
  assert (IT : In (stats_code f, stats_class f) (openflow_types (stats_version f))) by (destruct f; cbn; tauto).
  pose proof (body_length _ _ _ _ _ IT HS) as L.
  pose proof (fun nm => body_get _ _ _ _ _ nm IT HS) as G.
  pose proof GT as GT0.
  rewrite G in GT, GF, GB by (destruct f; cbn; tauto). clear G.
  destruct (int_exact_value _ _ XF) as [VF NF].
  assert (VT : int_value ti t /\ ti <> VNone)
    by (destruct TI as [-> |[-> |[-> | ->] ] ]; split; try discriminate; constructor; destruct f; reflexivity).
  remember (body_values (stats_class f) attrs) as bv eqn:BV. symmetry in BV.
  assert (TF : forall er, er = Some (stats_type_enum f) ->
    enc (S (S n)) SD true (VUInt 2 er VNone) ti (be_encode 2 t) (VUInt 2 er (VEnum (stats_type_enum f) t))).
  { intros er ->.
    replace (VEnum (stats_type_enum f) t) with (decoded_int (Some (stats_type_enum f)) t)
      by (destruct f; reflexivity).
    apply e_uint; [lia|left; tauto|change (ulimit 2) with 65536; lia|]. cbn [allowed_int]. auto. }
  assert (RF' : 0 <= fl < 65536) by (destruct f; cbn [stats_flags_ok] in RF; lia).
  assert (FF : forall er, allowed_int er fl ->
    enc (S (S n)) SD true (VUInt 2 er VNone) fi (be_encode 2 fl) (VUInt 2 er (decoded_int er fl))).
  { intros er A. apply e_uint; [lia|left; tauto|change (ulimit 2) with 65536; lia|exact A]. }
  destruct f; cbn [stats_class] in *.
  - destruct bv as [|v1 [|v2 [|v3 [|] ] ] ]; try discriminate L.
    cbn in GT, GF, GB. injection GT as ->. injection GF as ->. injection GB as ->.
    exists (VEnum E_StatsType01 t :: [VUInt 2 None (VInt fl)] ++ [bout]). split; [|split].
    + replace (stats_wire FStatsRequest t fl bb) with ((be_encode 2 t ++ be_encode 2 fl ++ []) ++ bb).
      2:{ rewrite !be2 by lia. unfold stats_wire. rewrite app_nil_r, <- app_assoc. reflexivity. }
      eapply (b_stats n V01 FStatsRequest attrs ti t form [ti; fi]
               [("body_type", VUInt 2 (Some E_StatsType01) VNone); ("flags", VUInt 2 None VNone)]);
        [tauto|exact GT0|exact TI|reflexivity|exact BV| |reflexivity|exact IF|exact ST].
      apply f_cons; [apply TF; reflexivity|]. apply f_cons; [|apply f_nil].
      apply (FF None I).
    + reflexivity.
    + eexists. split; [reflexivity|constructor].
  - destruct bv as [|v1 [|v2 [|v3 [|] ] ] ]; try discriminate L.
    cbn in GT, GF, GB. injection GT as ->. injection GF as ->. injection GB as ->.
    exists (VEnum E_StatsType01 t :: [VUInt 2 None (VInt fl)] ++ [bout]). split; [|split].
    + replace (stats_wire FStatsReply t fl bb) with ((be_encode 2 t ++ be_encode 2 fl ++ []) ++ bb).
      2:{ rewrite !be2 by lia. unfold stats_wire. rewrite app_nil_r, <- app_assoc. reflexivity. }
      eapply (b_stats n V01 FStatsReply attrs ti t form [ti; fi]
               [("body_type", VUInt 2 (Some E_StatsType01) VNone); ("flags", VUInt 2 None VNone)]);
        [tauto|exact GT0|exact TI|reflexivity|exact BV| |reflexivity|exact IF|exact ST].
      apply f_cons; [apply TF; reflexivity|]. apply f_cons; [|apply f_nil].
      apply (FF None I).
    + reflexivity.
    + eexists. split; [reflexivity|constructor].
  - destruct bv as [|v1 [|v2 [|v3 [|v4 [|] ] ] ] ]; try discriminate L.
    cbn in GT, GF, GB. injection GT as ->. injection GF as ->. injection GB as ->.
    exists (VEnum E_MultipartType04 t ::
            [VUInt 2 (Some E_MultipartRequestFlags04) (VEnum E_MultipartRequestFlags04 fl); VPad 4] ++ [bout]).
    split; [|split].
    + replace (stats_wire FMultipartRequest t fl bb)
        with ((be_encode 2 t ++ be_encode 2 fl ++ repeat 0 4%nat ++ []) ++ bb).
      2:{ rewrite !be2 by lia. unfold stats_wire. rewrite app_nil_r, <- !app_assoc. reflexivity. }
      eapply (b_stats n V04 FMultipartRequest attrs ti t form [ti; fi; v3]
               [("multipart_type", VUInt 2 (Some E_MultipartType04) VNone);
                ("flags", VUInt 2 (Some E_MultipartRequestFlags04) VNone); ("pad", VPad 4)]);
        [|exact GT0|exact TI|reflexivity|exact BV| |reflexivity|exact IF|exact ST].
      { split; [discriminate|intros [|]; discriminate]. }
      apply f_cons; [apply TF; reflexivity|]. apply f_cons; [|apply f_cons; [apply e_pad|apply f_nil] ].
      apply (FF (Some E_MultipartRequestFlags04)). right. cbn [stats_flags_ok] in RF.
      destruct RF as [-> | ->]; reflexivity.
    + reflexivity.
    + eexists. split; [reflexivity|]. constructor. reflexivity.
  - destruct bv as [|v1 [|v2 [|v3 [|v4 [|] ] ] ] ]; try discriminate L.
    cbn in GT, GF, GB. injection GT as ->. injection GF as ->. injection GB as ->.
    exists (VEnum E_MultipartType04 t :: [VUInt 2 None (VInt fl); VPad 4] ++ [bout]).
    split; [|split].
    + replace (stats_wire FMultipartReply t fl bb)
        with ((be_encode 2 t ++ be_encode 2 fl ++ repeat 0 4%nat ++ []) ++ bb).
      2:{ rewrite !be2 by lia. unfold stats_wire. rewrite app_nil_r, <- !app_assoc. reflexivity. }
      eapply (b_stats n V04 FMultipartReply attrs ti t form [ti; fi; v3]
               [("multipart_type", VUInt 2 (Some E_MultipartType04) VNone);
                ("flags", VUInt 2 None VNone); ("pad", VPad 4)]);
        [|exact GT0|exact TI|reflexivity|exact BV| |reflexivity|exact IF|exact ST].
      { split; [discriminate|intros [|]; discriminate]. }
      apply f_cons; [apply TF; reflexivity|]. apply f_cons; [|apply f_cons; [apply e_pad|apply f_nil] ].
      apply (FF None I).
    + reflexivity.
    + eexists. split; [reflexivity|]. constructor.
Qed.

Lemma stats_roundtrip n f x attrs ti t form fl b bb bout :
  sendable (stats_version f) (stats_code f) x (stats_class f) attrs ->
  get_attr (stats_type_name f) attrs = Some ti ->
  type_given f t ti ->
  In (t, form) (stats_forms f) ->
  attr_is attrs "flags" (fun y => int_exact y fl) -> stats_flags_ok f fl ->
  get_attr "body" attrs = Some b -> enc_stats (S n) form b bb bout -> wf_bytes bb ->
  let body := stats_wire f t fl bb in
  let bs := wire_header (stats_version f) (stats_code f) (8 + zlen body) x ++ body in
  8 + zlen body < 65536 ->
  pack (VObj (stats_class f) attrs) = Ok bs /\
  exists attrs', unpack_packet bs = Ok (VObj (stats_class f) attrs') /\
    get_attr (stats_type_name f) attrs' = Some (VEnum (stats_type_enum f) t) /\
    attr_is attrs' "flags" (fun y => int_exact y fl) /\
    get_attr "body" attrs' = Some bout.
Proof.
  intros HS GT TI IF XF RF GB ST W body bs HL. destruct (form_code _ _ _ IF) as [RT _].
  destruct (stats_body n f x attrs ti t form fl b bb bout HS GT TI IF XF RF GB ST) as (outs & EB & OB & OF).
  assert (RF' : 0 <= fl < 65536) by (destruct f; cbn [stats_flags_ok] in RF; lia).
  assert (WB : wf_bytes body).
  { unfold body, stats_wire. apply Forall_app. split; [apply wf_two; lia|].
    apply Forall_app. split; [apply wf_two; lia|]. apply Forall_app. split; [|exact W].
    destruct f; apply wf_bytesb_ok; reflexivity. }
  assert (HD : exists o, outs = VEnum (stats_type_enum f) t :: o).
  { remember (stats_version f) as v eqn:EV. remember (stats_class f) as c eqn:EC.
    destruct EB; subst; try (destruct f; discriminate). 
    all: try (destruct v; destruct f; discriminate).
    assert (f0 = f) by (destruct f0, f; (reflexivity || discriminate)). subst.
    rewrite GT in H0. injection H0 as <-.
    assert (t0 = t) by (destruct H1 as [-> |[-> |[-> | ->] ] ]; destruct TI as [E |[E |[E | E] ] ]; congruence). subst. eauto. }
  destruct HD as (o & ->).
  assert (M : enc_msg n (stats_version f) (stats_code f) x (VObj (stats_class f) attrs) bs
     (decoded (stats_version f) (stats_code f) (8 + zlen body) x (stats_class f)
        (VEnum (stats_type_enum f) t :: o))).
  { constructor; auto; [destruct f; cbn; tauto|]. unfold misfiled. destruct f; cbn; lia. }
  destruct (message_sound _ _ _ _ _ _ _ M) as (P & _ & U). split; [exact P|].
  rewrite U. unfold decoded. eexists. split; [reflexivity|]. 
  cbn [get_attr]. split; [destruct f; reflexivity|]. split.
  - destruct OF as (y & GY & XY). exists y. split; [|exact XY]. cbn [get_attr]. exact GY.
  - exact OB.
Qed.

Lemma stats_list_roundtrip n f x attrs ti t c fl lc pc items bb outs :
  sendable (stats_version f) (stats_code f) x (stats_class f) attrs ->
  get_attr (stats_type_name f) attrs = Some ti ->
  type_given f t ti ->
  In (t, BList c) (stats_forms f) ->
  attr_is attrs "flags" (fun y => int_exact y fl) -> stats_flags_ok f fl ->
  get_attr "body" attrs = Some (VList lc pc items) -> subclass lc CFixedTypeList = true ->
  enc_items (S n) c items bb outs -> wf_bytes bb ->
  let body := stats_wire f t fl bb in
  let bs := wire_header (stats_version f) (stats_code f) (8 + zlen body) x ++ body in
  8 + zlen body < 65536 ->
  pack (VObj (stats_class f) attrs) = Ok bs /\
  exists attrs', unpack_packet bs = Ok (VObj (stats_class f) attrs') /\
    get_attr (stats_type_name f) attrs' = Some (VEnum (stats_type_enum f) t) /\
    attr_is attrs' "flags" (fun y => int_exact y fl) /\
    exists items', get_attr "body" attrs' = Some (VList CFixedTypeList c items') /\
      List.length items' = List.length items /\ Forall2 same_obj items items'.
Proof.
  intros HS GT TI IF XF RF GB SL EI W body bs HL.
  destruct (stats_roundtrip n f x attrs ti t (BList c) fl _ bb (VList CFixedTypeList c outs) HS GT TI IF XF RF GB
              (st_list _ _ _ _ _ _ _ SL EI) W HL) as (P & a & U & A & B & C).
  split; [exact P|]. exists a. split; [exact U|]. split; [exact A|]. split; [exact B|].
  exists outs. split; [exact C|]. split; [eapply items_length; exact EI|eapply items_same; exact EI].
Qed.

Lemma stats_struct_roundtrip n k f x attrs ti t c fl b bb out :
  sendable (stats_version f) (stats_code f) x (stats_class f) attrs ->
  get_attr (stats_type_name f) attrs = Some ti ->
  type_given f t ti ->
  In (t, BStruct c) (stats_forms f) ->
  attr_is attrs "flags" (fun y => int_exact y fl) -> stats_flags_ok f fl ->
  get_attr "body" attrs = Some b -> enc_obj (S (S n)) k true c b bb out -> bb <> [] -> wf_bytes bb ->
  let body := stats_wire f t fl bb in
  let bs := wire_header (stats_version f) (stats_code f) (8 + zlen body) x ++ body in
  8 + zlen body < 65536 ->
  pack (VObj (stats_class f) attrs) = Ok bs /\
  exists attrs', unpack_packet bs = Ok (VObj (stats_class f) attrs') /\
    get_attr (stats_type_name f) attrs' = Some (VEnum (stats_type_enum f) t) /\
    attr_is attrs' "flags" (fun y => int_exact y fl) /\
    exists b', get_attr "body" attrs' = Some b' /\ same_obj b b'.
Proof.
  intros HS GT TI IF XF RF GB EO NE W body bs HL.
  destruct (stats_roundtrip n f x attrs ti t (BStruct c) fl b bb out HS GT TI IF XF RF GB
              (st_struct _ _ _ _ _ _ EO NE) W HL) as (P & a & U & A & B & C).
  split; [exact P|]. exists a. split; [exact U|]. split; [exact A|]. split; [exact B|].
  exists out. split; [exact C|]. eapply obj_same. exact EO.
Qed.
