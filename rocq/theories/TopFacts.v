(** Consequences of the soundness theorems at the entry points. *)
From Coq Require Import ZArith List Bool String Lia ZifyBool.
From Verif Require Import Base PyText Ids PyVal Classes Interp Utils Spec SpecMsg SpecBasic SpecSame
  BaseFacts ClassFacts StructFacts Soundness Closure FuelFacts Totality UnpackTotal MsgFacts MsgBody MsgMain
  Ref RefFacts SameFacts IntFacts Samples Witness.
Import ListNotations.
Open Scope string_scope.
Open Scope list_scope.
Open Scope Z_scope.

Lemma obj_pack n k sz base v bs out : enc_obj n k sz base v bs out -> pack v = Ok bs.
Proof.
  intros H. apply soundness in H as (_ & _ & _ & P & _).
  rewrite (pack_of n); [exact P|]. rewrite P. discriminate.
Qed.

Lemma obj_size n k base v bs out : enc_obj n k true base v bs out -> get_size v = Ok (zlen bs).
Proof.
  intros H. apply soundness in H as (_ & _ & _ & _ & Z1 & _). specialize (Z1 eq_refl).
  rewrite (size_of n); [exact Z1|]. rewrite Z1. discriminate.
Qed.

Lemma obj_stable n k sz base v bs out : enc_obj n k sz base v bs out -> enc_obj n k sz base out bs out.
Proof. intros H. apply closure in H as (_ & H & _). exact H. Qed.

(** Decoding where an instance of [base] is expected. *)
Lemma obj_unpack n k sz base v bs out pre suf inst :
  enc_obj n k sz base v bs out -> new_instance base = Some inst ->
  wf_bytes (pre ++ bs ++ suf) -> (k = TAIL -> suf = []) -> bs <> [] ->
  unpack inst (pre ++ bs ++ suf) (List.length pre) = Ok out.
Proof.
  intros H I W T N. apply soundness in H as (_ & _ & CA & _ & _ & _ & U).
  destruct (instantiable _ (CA N)) as (a & I' & KA).
  assert (inst = VObj base a) by congruence. subst inst.
  assert (N' : pre ++ bs ++ suf <> []).
  { intros E. apply app_eq_nil in E as [_ E]. apply app_eq_nil in E as [E _]. contradiction. }
  specialize (U _ _ _ KA T N').
  rewrite (unpack_of _ _ _ n); [exact U|eapply instance_uok; eassumption|exact W|].
  rewrite U. discriminate.
Qed.

(** The two length bytes of a message. *)
Lemma header_length_bytes v t len x body : 0 <= len < 65536 ->
  big_endian 2 len (slice 2 4 (wire_header v t len x ++ body)).
Proof.
  intros L. replace (slice 2 4 (wire_header v t len x ++ body)) with (be_encode 2 len) by reflexivity.
  apply big_endian_encode. unfold fits. exact L.
Qed.

Lemma message_length n v t x m bs out : enc_msg n v t x m bs out ->
  pack m = Ok bs /\ big_endian 2 (zlen bs) (slice 2 4 bs).
Proof.
  intros H. split; [apply (message_sound _ _ _ _ _ _ _ H)|].
  destruct H as [v t x c attrs body outs HI NM HS HB W HL].
  replace (zlen (wire_header v t (8 + zlen body) x ++ body)) with (8 + zlen body).
  - apply header_length_bytes. pose proof (zlen_nonneg body). lia.
  - rewrite zlen_app. unfold zlen at 2. rewrite wire_header_length. reflexivity.
Qed.

Lemma message_roundtrip n v t x m bs out : enc_msg n v t x m bs out ->
  pack m = Ok bs /\ unpack_packet bs = Ok out /\ same_msg m out /\ pack out = Ok bs.
Proof.
  intros H. destruct (message_sound _ _ _ _ _ _ _ H) as (P & _ & U).
  repeat split; auto.
  - eapply message_same; eassumption.
  - destruct (message_equal _ _ _ _ _ _ _ H) as [E _]. rewrite E. exact P.
Qed.

Lemma wf_roundtrip n v m : wf_message n v m = true ->
  exists bs out, pack m = Ok bs /\ unpack_packet bs = Ok out /\ same_msg m out /\ pack out = Ok bs.
Proof.
  unfold wf_message. destruct (ref_msg n v m) as [[[[t x] bs] out]|] eqn:E; [|discriminate].
  intros _. exists bs, out. eapply message_roundtrip, ref_msg_ok; eassumption.
Qed.

Lemma wf_size n v m : wf_message n v m = true ->
  exists bs, pack m = Ok bs /\ get_size m = Ok (zlen bs) /\ big_endian 2 (zlen bs) (slice 2 4 bs).
Proof.
  unfold wf_message. destruct (ref_msg n v m) as [[[[t x] bs] out]|] eqn:E; [|discriminate].
  intros _. exists bs. apply ref_msg_ok in E.
  destruct (message_sound _ _ _ _ _ _ _ E) as (P & S & _).
  destruct (message_length _ _ _ _ _ _ _ E) as (_ & L). auto.
Qed.

(** Structures. *)
Definition wf_struct (n : nat) (base : cid) (v : pyval) : bool :=
  match ref_obj n base v with Some (_, true, _, _) => true | _ => false end.

Lemma wf_struct_size n base v : wf_struct n base v = true ->
  exists bs, pack v = Ok bs /\ get_size v = Ok (zlen bs).
Proof.
  unfold wf_struct. destruct (ref_obj n base v) as [[[[k sz] bs] out]|] eqn:E; [|discriminate].
  destruct sz; [|discriminate]. intros _. apply (ref_obj_ok n) in E. exists bs.
  split; [eapply obj_pack; exact E|eapply obj_size; exact E].
Qed.

(** Every message type has a well-formed message. *)
Definition sample_of (v : of_version) (t : Z) (c : cid) : bool :=
  existsb (fun b =>
    match unpack_packet b with
    | Ok (VObj c' a) => cid_eqb c' c && wf_message 20 v (VObj c' a)
    | _ => false
    end) samples.
Lemma types_inhabited v t c : In (t, c) (openflow_types v) -> ~ misfiled v t ->
  exists attrs, wf_message 20 v (VObj c attrs) = true.
Proof.
  intros I NM.
  assert (G : forallb (fun p => misfiledb v (fst p) || sample_of v (fst p) (snd p)) (openflow_types v) = true).
  { destruct v; vm_compute; reflexivity. }
  rewrite forallb_forall in G. specialize (G _ I). cbn [fst snd] in G.
  apply orb_prop in G as [G|G].
  - exfalso. apply NM. unfold misfiled, misfiledb in *. destruct v; [discriminate|]. split; [reflexivity|].
    lia.
  - unfold sample_of in G. apply existsb_exists in G as (b & _ & G).
    destruct (unpack_packet b) as [[]|]; try discriminate.
    apply andb_prop in G as [E W]. apply cid_eqb_eq in E. subst. eexists. exact W.
Qed.

Lemma types_inhabited01 t c : In (t, c) (openflow_types V01) ->
  exists attrs, wf_message 20 V01 (VObj c attrs) = true.
Proof. intros I. apply (types_inhabited _ t); [exact I|]. intros [E _]. discriminate. Qed.
Lemma types_inhabited04 t c : In (t, c) (openflow_types V04) -> t <> 22 -> t <> 23 ->
  exists attrs, wf_message 20 V04 (VObj c attrs) = true.
Proof. intros I N1 N2. apply (types_inhabited _ t); [exact I|]. intros [_ [E|E]]; contradiction. Qed.

Lemma obj_pack_size n k base v bs out : enc_obj n k true base v bs out ->
  pack v = Ok bs /\ get_size v = Ok (zlen bs).
Proof. intros H. split; [eapply obj_pack; exact H|eapply obj_size; exact H]. Qed.

Lemma wf_message_size n v m : wf_message n v m = true ->
  exists bs, pack m = Ok bs /\ get_size m = Ok (zlen bs).
Proof. intros H. apply wf_size in H as (bs & P & S & _). eauto. Qed.
Lemma wf_message_length n v m : wf_message n v m = true ->
  exists bs, pack m = Ok bs /\ big_endian 2 (zlen bs) (slice 2 4 bs).
Proof. intros H. apply wf_size in H as (bs & P & _ & S). eauto. Qed.

(** Witnesses. *)
Lemma size_refuted :
  (exists bs s, pack meter_mod = Ok bs /\ get_size meter_mod = Ok s /\ s <> zlen bs) /\
  (exists bs s, pack group_desc = Ok bs /\ get_size group_desc = Ok s /\ s <> zlen bs).
Proof. split; eexists _, _; (split; [vm_compute; reflexivity|]); (split; [vm_compute; reflexivity|discriminate]). Qed.

Lemma length_refuted :
  exists bs, pack meter_mod = Ok bs /\ ~ big_endian 2 (zlen bs) (slice 2 4 bs).
Proof. eexists. split; [vm_compute; reflexivity|]. intros (_ & _ & E). vm_compute in E. discriminate. Qed.

Lemma queue01_refuted :
  exists bs, pack queue_request01 = Ok bs /\ unpack_packet bs = Err UnpackException.
Proof. eexists. split; [vm_compute; reflexivity|vm_compute; reflexivity]. Qed.

Lemma queue04_refuted :
  (exists bs a, pack queue_request04 = Ok bs /\ unpack_packet bs = Ok (VObj GetConfigRequest04 a)) /\
  (exists bs, pack meter_mod = Ok bs /\ unpack_packet bs = Err UnpackException).
Proof.
  split; [eexists _, _|eexists]; (split; [vm_compute; reflexivity|vm_compute; reflexivity]).
Qed.

Lemma echo_length x data : 0 <= x < 2 ^ 32 -> wf_bytes data ->
  let m := with_attrs new_EchoRequest04
             [("header", with_attrs new_Header04 [("message_type", VInt 2); ("xid", VInt x)]);
              ("data", VBytes data)] in
  if 8 + zlen data <? 65536
  then exists bs, pack m = Ok bs /\ big_endian 2 (zlen bs) (slice 2 4 bs) /\ zlen bs = 8 + zlen data
  else pack m = Err PackException.
Proof.
  intros Hx W m.
  set (attrs := [("header", VObj Header04 [("version", VUInt 1 None (VInt 4)); ("message_type", VInt 2);
                    ("length", VNone); ("xid", VInt x)]); ("data", VBytes data)]).
  assert (Em : m = VObj EchoRequest04 attrs) by reflexivity.
  assert (HI : In (2, EchoRequest04) (openflow_types V04)) by (cbn; auto).
  assert (HS : sendable V04 2 x EchoRequest04 attrs).
  { split; [reflexivity|]. eexists. split; [reflexivity|]. split; [reflexivity|].
    split; [eexists; split; [reflexivity|constructor]|].
    split; [eexists; split; [reflexivity|constructor]|].
    split; [eexists; split; [reflexivity|constructor]|exact Hx]. }
  assert (HF : enc_fields 2 TAIL true (body_fields EchoRequest04) (body_values EchoRequest04 attrs) data
                 [VBin (VBytes data)]).
  { apply f_last. apply e_bin; [discriminate|constructor]. }
  assert (HB : exists outs, enc_body 0 V04 EchoRequest04 attrs data outs).
  { destruct data as [|b tl].
    - eexists. eapply b_empty; [reflexivity|exact HF].
    - eexists. eapply b_fields; [reflexivity|exact HF|discriminate]. }
  destruct HB as (outs & HB). rewrite Em.
  destruct (8 + zlen data <? 65536) eqn:L.
  - assert (M : enc_msg 0 V04 2 x (VObj EchoRequest04 attrs)
                  (wire_header V04 2 (8 + zlen data) x ++ data)
                  (decoded V04 2 (8 + zlen data) x EchoRequest04 outs)).
    { apply enc_message; auto; [|lia]. intros [_ [E|E]]; discriminate. }
    apply message_length in M as [P B]. eexists. split; [exact P|]. split; [exact B|].
    rewrite zlen_app. reflexivity.
  - apply (message_too_long 0 V04 2 x EchoRequest04 attrs data outs HI HS HB). lia.
Qed.
