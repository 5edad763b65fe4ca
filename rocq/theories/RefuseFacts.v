(** Lemmas about refused operations and messages made from headers. *)
From Coq Require Import ZArith List Bool String Lia.
From Verif Require Import Base PyText Ids PyVal Classes ClassFacts Interp Utils Lists Match01 Access Operators
  SpecMsg SpecConstants SpecLists SpecRefuse SpecAccess SpecStruct Totality MsgFacts DispatchFacts ListsFacts AccessFacts.
Import ListNotations.
Open Scope string_scope.
Open Scope list_scope.
Open Scope Z_scope.

(** ** Messages from headers *)

Lemma members_standard v : type_members v = standard_types v.
Proof. destruct v; vm_compute; reflexivity. Qed.
Lemma text_eqb_true a : forall b, text_eqb a b = true -> a = b.
Proof.
  induction a as [|x a IH]; intros [|y b]; cbn; try discriminate; [reflexivity|]. intros E. apply andb_prop in E as [E1 E2].
  apply Z.eqb_eq in E1 as ->. f_equal. apply IH, E2.
Qed.
Lemma text_eqb_same a : text_eqb a a = true.
Proof. induction a as [|x a IH]; cbn; [reflexivity|]. rewrite Z.eqb_refl. exact IH. Qed.

Lemma asks_code v mt t : asks_for v mt t -> type_code v mt = Ok t.
Proof.
  intros H. destruct H as [t|e t E|w er t|n t I]; cbn [type_code as_int].
  - reflexivity.
  - rewrite E. reflexivity.
  - replace (type_class v) with (type_enum v) by (destruct v; reflexivity). rewrite (proj2 (eid_eqb_eq _ _) eq_refl). reflexivity.
  - rewrite members_standard. assert (G : forallb (fun q => match find (fun p => text_eqb (txt (fst p)) (txt (fst q))) (standard_types v) with
        Some p => Z.eqb (snd p) (snd q) | None => false end) (standard_types v) = true) by (destruct v; vm_compute; reflexivity).
    rewrite forallb_forall in G. specialize (G _ I). cbn [fst snd] in G.
    destruct (find _ (standard_types v)) as [p|]; [|discriminate]. apply Z.eqb_eq in G. rewrite G. reflexivity.
Qed.
Lemma code_asks v mt t : type_code v mt = Ok t -> asks_for v mt t.
Proof.
  unfold type_code. rewrite members_standard. destruct mt as [|z|s|b|e z|e z|w er y|k|len d|d m|d|d|d|c a|lc pc items]; cbn [as_int]; try discriminate.
  - intros [= <-]. constructor.
  - destruct (find _ (standard_types v)) as [p|] eqn:F; [|discriminate]. intros [= <-]. apply find_some in F as [I E].
    apply text_eqb_true in E. destruct p as [n t]. cbn [fst snd] in *. subst. constructor. exact I.
  - destruct (is_int_enum e) eqn:E; [|discriminate]. intros [= <-]. constructor. exact E.
  - destruct y as [| | | |e z| | | | | | | | | |]; try discriminate. destruct (eid_eqb e (type_class v)) eqn:E; [|discriminate]. intros [= <-]. apply eid_eqb_eq in E as ->.
    replace (type_class v) with (type_enum v) by (destruct v; reflexivity). constructor.
Qed.

Lemma lookup_agree v t c : In (t, c) (openflow_types v) -> lookup_type t (message_types v) = Some c.
Proof.
  intros I. assert (G : forallb (fun q => match lookup_type (fst q) (message_types v) with Some d => cid_eqb d (snd q) | None => false end) (openflow_types v) = true)
    by (destruct v; vm_compute; reflexivity).
  rewrite forallb_forall in G. specialize (G _ I). cbn [fst snd] in G. destruct (lookup_type t (message_types v)) as [d|]; [|discriminate].
  apply cid_eqb_eq in G as ->. reflexivity.
Qed.
Lemma from_header v hc hattrs mt xid len t c : get_attr "message_type" hattrs = Some mt -> get_attr "xid" hattrs = Some xid ->
  get_attr "length" hattrs = Some len -> asks_for v mt t -> In (t, c) (openflow_types v) ->
  exists m, new_message_from_header v (VObj hc hattrs) = Ok m /\ fresh_message c xid len m.
Proof.
  intros GM GX GL A I. unfold new_message_from_header, obj_attr, attr_or_error. rewrite GM. cbn [bind]. rewrite (asks_code _ _ _ A). cbn [bind].
  unfold new_message_from_message_type. rewrite (lookup_agree _ _ _ I).
  destruct (new_message_shape _ _ _ I) as (a & h & NI & KH & _). rewrite NI, GX. cbn [bind]. rewrite GL.
  cbn [set_header get_attr set_attr String.eqb Ascii.eqb Bool.eqb bind]. unfold set_header.
  cbn [get_attr set_attr String.eqb Ascii.eqb Bool.eqb bind]. eexists. split; [reflexivity|].
  destruct h as [|[k1 v1] [|[k2 v2] [|[k3 v3] [|[k4 v4] [|] ] ] ] ]; try discriminate. cbn in KH. injection KH as -> -> -> ->.
  eexists. eexists. eexists. eexists. eexists. split; [exact NI|]. split; [reflexivity|]. split.
  { split; [reflexivity|]. intros n N. cbn [get_attr]. destruct (String.eqb "header" n) eqn:E; [|reflexivity].
    apply String.eqb_eq in E. elim N. left. exact E. }
  split; [reflexivity|]. split; [reflexivity|]. cbn [set_attr get_attr String.eqb Ascii.eqb Bool.eqb].
  split; [|split; reflexivity]. split; [reflexivity|]. intros n N. cbn [get_attr].
  destruct (String.eqb "version" n); [reflexivity|]. destruct (String.eqb "message_type" n); [reflexivity|].
  destruct (String.eqb "length" n) eqn:E; [apply String.eqb_eq in E; elim N; cbn; auto|].
  destruct (String.eqb "xid" n) eqn:E'; [apply String.eqb_eq in E'; elim N; cbn; auto|]. reflexivity.
Qed.

Lemma from_header_refused v hc hattrs mt : get_attr "message_type" hattrs = Some mt ->
  (forall t c, asks_for v mt t -> ~ In (t, c) (openflow_types v)) ->
  new_message_from_header v (VObj hc hattrs) = Err (match mt with VStr _ => KeyError | _ => ValueError end).
Proof.
  intros GM N. unfold new_message_from_header, obj_attr at 1, attr_or_error. rewrite GM. cbn [bind].
  destruct (type_code v mt) as [t|e] eqn:C; cbn [bind].
  - apply code_asks in C. unfold new_message_from_message_type. destruct (lookup_type t (message_types v)) as [c|] eqn:L.
    + apply types_agree in L. elim (N _ _ C L).
    + destruct mt; try reflexivity. exfalso. inversion C as [| | |n t' I]; subst.
      assert (G : forallb (fun q => match lookup_type (snd q) (message_types v) with Some _ => true | None => false end) (standard_types v) = true)
        by (destruct v; vm_compute; reflexivity).
      rewrite forallb_forall in G. specialize (G _ I). cbn [snd] in G. rewrite L in G. discriminate.
  - unfold type_code in C. destruct mt as [|z|s|b|e0 z|e0 z|w er y|k|len d|d m|d|d|d|c a|lc pc items]; cbn [as_int] in C; try (injection C as <-; reflexivity); try discriminate.
    + destruct (find _ (type_members v)); [discriminate|]. injection C as <-. reflexivity.
    + destruct (is_int_enum e0); [discriminate|]. injection C as <-. reflexivity.
    + destruct y as [| | | |e' z| | | | | | | | | |]; try (injection C as <-; reflexivity). destruct (eid_eqb e' (type_class v)); [discriminate|]. injection C as <-. reflexivity.
Qed.

(** ** Fields of raw bytes *)

Lemma binary_refuses v : unpackable v = true -> pack (VBin v) = Err ValueError.
Proof.
  intros U. assert (E : has_pack v = false) by (destruct v; try discriminate U; try reflexivity; destruct lc; try discriminate U; reflexivity).
  assert (X : forall n, pack0 (S n) (VBin v) = Err ValueError).
  { intros n. cbn [pack0]. unfold bin_pack. rewrite E. destruct v; try discriminate U; reflexivity. }
  unfold pack. apply X.
Qed.

(** ** Input port *)

Lemma no_match_port attrs m : get_attr "match" attrs = Some m -> (forall a, m <> VObj Match04 a) ->
  in_port (VObj PacketIn04 attrs) = Err AttributeError.
Proof.
  intros G N. cbn [in_port]. unfold attr_or_error. rewrite G. cbn [bind].
  destruct m as [| | | | | | | | | | | | |c a|]; try reflexivity. cbn [get_field]. destruct c; first [reflexivity|elim (N a); reflexivity].
Qed.

(** ** Lists without a class *)

Lemma no_class_append v : forall l, fixed_append CNone v l = (l, match flat v with [] => None | _ => Some TypeError end).
Proof.
  induction v as [v N|lc pc' items IH] using pyval_lists; intros l.
  - rewrite (fixed_append_leaf CNone v l N), (flat_leaf v N). reflexivity.
  - rewrite fixed_append_list, flat_list. induction items as [|x items IHi]; cbn [each flat_map]; [reflexivity|].
    inversion IH; subst. rewrite (H1 l). destruct (flat x) as [|y tl]; [|reflexivity]. apply IHi. assumption.
Qed.
Lemma no_class v ls l i : leaves v ls ->
  fixed_append CNone v l = (l, match ls with [] => None | _ => Some TypeError end) /\ fixed_insert CNone i v l = (l, Some TypeError).
Proof. intros H. rewrite (proj1 leaves_fun _ _ H). split; [apply no_class_append|reflexivity]. Qed.

(** ** Addresses of the match of OpenFlow 1.0 *)

Lemma address_refused name v m : In name ["nw_src"; "nw_dst"] ->
  match v with VStr _ | VList _ _ _ | VIP _ _ => False | _ => True end -> match_set name v m = (m, Some TypeError).
Proof.
  intros I N. unfold match_set. assert (E : exists d k, get_attr name (class_attrs Match01) = Some (VIP d k)).
  { destruct I as [<-|[<-|[] ] ]; eexists; eexists; reflexivity. }
  destruct E as (d & k & ->). destruct v; try destruct N; reflexivity.
Qed.

Lemma mac_list_refused name lc pc zs s rest m : In name ["dl_src"; "dl_dst"] ->
  match_set name (VList lc pc (map VInt zs ++ VStr s :: rest)) m = (m, Some ValueError).
Proof.
  intros I. unfold match_set. assert (E : exists d, get_attr name (class_attrs Match01) = Some (VHW d)).
  { destruct I as [<-|[<-|[] ] ]; eexists; reflexivity. }
  destruct E as (d & ->). cbn [convert].
  assert (M : mapM py_hex2 (map VInt zs ++ VStr s :: rest) = Err ValueError).
  { induction zs as [|z zs IH]; [reflexivity|]. cbn [map app mapM]. rewrite IH. reflexivity. }
  rewrite M. reflexivity.
Qed.

Lemma mac_list_refused_other name lc pc zs x rest m : In name ["dl_src"; "dl_dst"] ->
  x = VNone \/ (exists b, x = VBytes b) \/ is_generic_type x = true ->
  match_set name (VList lc pc (map VInt zs ++ x :: rest)) m = (m, Some TypeError).
Proof.
  intros I X. unfold match_set. assert (E : exists d, get_attr name (class_attrs Match01) = Some (VHW d)).
  { destruct I as [<-|[<-|[] ] ]; eexists; reflexivity. }
  destruct E as (d & ->). cbn [convert].
  assert (M : mapM py_hex2 (map VInt zs ++ x :: rest) = Err TypeError).
  { induction zs as [|z zs IH].
    - destruct X as [->|[ [b ->]|X] ]; [reflexivity|reflexivity|]. destruct x; try discriminate X; reflexivity.
    - cbn [map app mapM]. rewrite IH. reflexivity. }
  rewrite M. reflexivity.
Qed.

(** ** A match that holds something that is not a TLV *)

Lemma find_foreign t z good ts bad rest : plain_number t z -> Forall2 oxm_holds good ts -> no_tlv z ts ->
  (forall c a, bad <> VObj c a) -> find_field t (good ++ bad :: rest) = Err AttributeError.
Proof.
  intros N F NT B. induction F as [|x y items ts H _ IH].
  - cbn [app find_field]. destruct bad; try reflexivity. exfalso. eapply B. reflexivity.
  - destruct H as (attrs & -> & _ & _ & (fv & GF & (XF & _)) & _ & _). inversion NT as [|? ? E NT']; subst.
    cbn [app find_field]. unfold attr_or_error at 1. rewrite GF. cbn [bind]. rewrite (field_eq _ _ _ _ XF N). cbn [bind].
    apply Z.eqb_neq in E. rewrite E. exact (IH NT').
Qed.
Lemma foreign attrs lc pc good ts bad rest t z :
  get_attr "oxm_match_fields" attrs = Some (VList lc pc (good ++ bad :: rest)) ->
  Forall2 oxm_holds good ts -> no_tlv z ts -> plain_number t z -> (forall c a, bad <> VObj c a) ->
  get_field (VObj Match04 attrs) t = Err AttributeError.
Proof.
  intros G F NT N B. cbn [get_field]. unfold attr_or_error. rewrite G. cbn [bind iterate].
  exact (find_foreign _ _ _ _ _ _ N F NT B).
Qed.
Lemma unknown_field name v m :
  ~ In name ["wildcards"; "in_port"; "dl_src"; "dl_dst"; "dl_vlan"; "dl_vlan_pcp"; "pad1"; "dl_type"; "nw_tos"; "nw_proto"; "pad2"; "nw_src"; "nw_dst"; "tp_src"; "tp_dst"] ->
  match_set name v m = (m, Some AttributeError).
Proof.
  intros N. unfold match_set. destruct (get_attr name (class_attrs Match01)) as [d|] eqn:G; [|reflexivity].
  destruct N. change (In name (map fst (class_attrs Match01))).
  revert G. generalize (class_attrs Match01) as l. induction l as [|[k x] l IH]; cbn [get_attr]; [discriminate|].
  destruct (String.eqb k name) eqn:E; [left; apply String.eqb_eq, E|right; apply IH, G].
Qed.
