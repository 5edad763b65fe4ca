(** Packets that follow the standard are accepted: messages, for C58. *)
From Coq Require Import ZArith List Bool String Lia.
From Verif Require Import Base PyText Ids PyVal Classes Interp Utils Spec SpecMsg SpecBasic SpecLayout SpecDecode SpecStruct SpecReencode SpecTidy SpecAccept ClassFacts BaseFacts TextFacts IntFacts LeafFacts
  AddrFacts StructFacts Soundness Closure StructThm RaisesFacts DispatchFacts NetFacts2 FuelFacts MutationFacts LayoutFacts WindowFacts LengthFacts MsgFacts MsgMain MsgBody DecodeFacts DecodeFacts2
  DecodeFacts3 ReencodeFacts ReencodeFacts2 ReencodeFacts3 ReencodeFacts4 ReencodeFacts5 TidyFacts TidyFacts2 TidyFacts3 TidyThm AcceptFacts AcceptFacts2.
Import ListNotations.
Open Scope string_scope.
Open Scope list_scope.
Open Scope Z_scope.

(** The message object is filled with values that end in a NUL where they are
    text. *)
Definition A_msg (c : cid) (body : bytes) : Prop :=
  forall h a, ends_in_nul h = true -> map fst a = map fst (body_fields c) ->
  exists m attrs, unpack0 m (VObj c (("header", h) :: a)) body 0 = Ok (VObj c attrs) /\ ends_in_nul (VObj c attrs) = true.

Lemma set_all_keys names : forall vals a, (forall n, In n names -> In n (map fst a)) -> map fst (set_all names vals a) = map fst a.
Proof.
  induction names as [|n names IH]; intros [|v vals] a H; try reflexivity. cbn [set_all].
  assert (K : map fst (set_attr n v a) = map fst a) by (apply set_attr_keys, H; left; reflexivity).
  rewrite IH; [exact K|]. intros x J. rewrite K. apply H. right. exact J.
Qed.
Lemma nul_attrs c a : NoDup (map fst a) -> (forall nm v, In nm (map fst a) -> get_attr nm a = Some v -> ends_in_nul v = true) -> ends_in_nul (VObj c a) = true.
Proof.
  rewrite nul_obj. induction a as [|[n x] a IH]; intros D H; [reflexivity|]. cbn [map fst forallb snd] in *. inversion D as [|? ? Ni D']; subst.
  rewrite (H n x); [|left; reflexivity|cbn; rewrite String.eqb_refl; reflexivity]. cbn [andb]. apply IH; [exact D'|]. intros nm v J G. apply (H nm v); [right; exact J|].
  cbn [get_attr]. destruct (String.eqb_spec n nm) as [->|_]; [contradiction|exact G].
Qed.
Lemma message_nul v t c h attrs : In (t, c) (openflow_types v) -> ends_in_nul h = true -> map fst attrs = "header" :: map fst (body_fields c) -> get_attr "header" attrs = Some h ->
  nul_in (body_fields c) attrs -> ends_in_nul (VObj c attrs) = true.
Proof.
  intros I Nh Ka Gh N. destruct (message_class _ _ _ I) as (_ & _ & _ & (h0 & CA) & _). apply nul_attrs.
  - rewrite Ka. pose proof (class_names_nodup c) as D. rewrite CA in D. exact D.
  - intros nm w J G. rewrite Ka in J. destruct J as [<-|J]; [congruence|]. exact (N nm w J G).
Qed.
Lemma no_header v t c : In (t, c) (openflow_types v) -> ~ In "header" (map fst (body_fields c)).
Proof.
  intros I. destruct (message_class _ _ _ I) as (_ & _ & _ & (h0 & CA) & _). pose proof (class_names_nodup c) as D. rewrite CA in D. inversion D; assumption.
Qed.
Lemma copies_nul v t c nm w : In (t, c) (openflow_types v) -> get_attr nm (combine (map fst (body_fields c)) (map (fun p => deepcopy (snd p)) (body_fields c))) = Some w -> ends_in_nul w = true.
Proof.
  intros I. assert (T : forallb (fun q => forallb (fun p => ends_in_nul (deepcopy (snd p))) (body_fields (snd q))) (openflow_types v) = true) by (destruct v; vm_compute; reflexivity).
  rewrite forallb_forall in T. specialize (T _ I). cbn [snd] in T. revert T. induction (body_fields c) as [|[n d] A IH]; [discriminate|]. cbn [forallb map fst snd combine get_attr]. intros T.
  apply andb_prop in T as [T1 T2]. destruct (String.eqb n nm); [congruence|apply IH, T2].
Qed.

(** ** Fields *)
Lemma combine_get nm : forall names (vals : list pyval), In nm names -> List.length vals = List.length names -> exists w, get_attr nm (combine names vals) = Some w.
Proof.
  induction names as [|n names IH]; intros [|v vals] J L; try discriminate L; [destruct J|]. cbn [combine get_attr]. destruct (String.eqb_spec n nm); [eauto|].
  destruct J as [J|J]; [contradiction|]. apply IH; [exact J|]. cbn in L. lia.
Qed.
Lemma accept_fields v t c k bs rest : In (t, c) (openflow_types v) -> special c = false -> fit_fields k (body_fields c) bs -> (k = TAIL -> rest = []) -> wf_bytes (bs ++ rest) -> A_msg c (bs ++ rest).
Proof.
  intros I Sp F Hk Wf h a Nh Ka. destruct (message_class _ _ _ I) as (_ & _ & _ & (h0 & CA) & MF & _ & Km & _). specialize (Km Sp).
  pose proof (no_header _ _ _ I) as Nd. pose proof (body_nodup _ _ CA) as Dn.
  assert (G : exists m vals o, List.length vals = List.length (body_fields c) /\ unpack_fields (unpack0 m) (size0 m) (body_fields c) (("header", h) :: a) (bs ++ rest) 0 = Ok (set_all (map fst (body_fields c)) vals (("header", h) :: a), o) /\
    nul_in (body_fields c) (set_all (map fst (body_fields c)) vals (("header", h) :: a))).
  { destruct (bs ++ rest) as [|x0 q] eqn:Eq.
    - exists O, (map (fun p => deepcopy (snd p)) (body_fields c)), O. split; [apply map_length|]. split; [apply unpack_fields_empty|]. intros nm w J G.
      destruct (combine_get nm (map fst (body_fields c)) (map (fun p => deepcopy (snd p)) (body_fields c)) J ltac:(rewrite !map_length; reflexivity)) as (w' & G').
      rewrite (get_set_all _ _ _ _ _ G' Dn) in G. injection G as <-. eapply copies_nul; eassumption.
    - rewrite <- Eq in *. assert (NE : [] ++ bs ++ rest <> []) by (cbn [app]; rewrite Eq; discriminate).
      destruct accepted as (_ & Ac & _). destruct (Ac _ _ _ F [] rest (("header", h) :: a) Hk NE Wf (body_decls _ _ CA) Dn) as (m & r & U & Nul).
      destruct fit_tidy as (_ & FT & _). destruct (FT _ _ _ F) as (bs' & T). destruct tidy_codes as (_ & TC & _).
      destruct (TC _ _ _ _ T _ [] rest _ r Hk NE Wf (body_decls _ _ CA) Dn U Nul) as (N & vals & -> & L & E). eexists m, vals, _. split; [exact L|]. split; [exact U|exact Nul]. }
  destruct G as (m & vals & o & L & U & Nul). exists (S m). eexists. split.
  - rewrite DispatchFacts.unpack0_obj. unfold unpack_obj. rewrite Km. unfold unpack_message_fields. rewrite MF, U. reflexivity.
  - eapply message_nul; [exact I|exact Nh| | |exact Nul].
    + cbn [fst]. rewrite set_all_keys; [cbn [map fst]; rewrite Ka; reflexivity|]. intros n J. cbn [map fst]. rewrite Ka. right. exact J.
    + cbn [fst]. rewrite get_set_all_other by exact Nd. reflexivity.
Qed.

(** The fields before the last. *)
Lemma front v t c fs tl b1 r h a : In (t, c) (openflow_types v) -> body_fields c = fs ++ tl -> fit_fields SD fs b1 -> b1 <> [] -> wf_bytes (b1 ++ r) -> map fst a = map fst (body_fields c) ->
  exists m N b1' vals, unpack_fields (unpack0 m) (size0 m) fs (("header", h) :: a) (b1 ++ r) 0 = Ok (set_all (map fst fs) vals (("header", h) :: a), List.length b1) /\
    List.length vals = List.length fs /\ nul_in fs (set_all (map fst fs) vals (("header", h) :: a)) /\ tidy_fields SD fs b1 b1' /\ enc_fields N SD true fs vals b1' vals /\
    NoDup (map fst fs) /\ map fst (set_all (map fst fs) vals (("header", h) :: a)) = "header" :: map fst (body_fields c) /\ get_attr "header" (set_all (map fst fs) vals (("header", h) :: a)) = Some h.
Proof.
  intros I Bf F N1 Wf Ka. destruct (message_class _ _ _ I) as (_ & _ & _ & (h0 & CA) & _). pose proof (body_nodup _ _ CA) as Dn. pose proof (body_decls _ _ CA) as Dd.
  pose proof (no_header _ _ _ I) as Nd. rewrite Bf in Dn, Dd. rewrite map_app in Dn. apply nodup_start in Dn. rewrite forallb_app in Dd. apply andb_prop in Dd as [Dd _].
  assert (NE : [] ++ b1 ++ r <> []) by (destruct b1; [congruence|discriminate]).
  destruct accepted as (_ & Ac & _). destruct (Ac _ _ _ F [] r (("header", h) :: a) ltac:(discriminate) NE Wf Dd Dn) as (m & q & U & Nul).
  destruct fit_tidy as (_ & FT & _). destruct (FT _ _ _ F) as (b1' & T). destruct tidy_codes as (_ & TC & _).
  destruct (TC _ _ _ _ T _ [] r _ q ltac:(discriminate) NE Wf Dd Dn U Nul) as (N & vals & -> & L & E). exists m, N, b1', vals.
  assert (Inc : forall n, In n (map fst fs) -> In n (map fst (body_fields c))) by (intros n J; rewrite Bf, map_app; apply in_or_app; left; exact J).
  split; [exact U|]. split; [exact L|]. split; [exact Nul|]. split; [exact T|]. split; [exact E|]. split; [exact Dn|]. split.
  - rewrite set_all_keys; [cbn [map fst]; rewrite Ka; reflexivity|]. intros n J. cbn [map fst]. rewrite Ka. right. apply Inc, J.
  - rewrite get_set_all_other by (intros J; apply Nd, Inc, J). reflexivity.
Qed.

(** ** A list at the end *)
Lemma accept_list v t c fs n lc pc b1 b2 : In (t, c) (openflow_types v) -> special c = false -> body_fields c = fs ++ [(n, VList lc pc [])] -> fit_fields SD fs b1 -> b1 <> [] -> fit_items pc b2 ->
  wf_bytes (b1 ++ b2) -> A_msg c (b1 ++ b2).
Proof.
  intros I Sp Bf F N1 Fi Wf h a Nh Ka. destruct (front v t c fs _ b1 b2 h a I Bf F N1 Wf Ka) as (m & N & b1' & vals & U & L & Nul & T & E & Dn & Kk & Gh).
  destruct (message_class _ _ _ I) as (_ & _ & _ & (h0 & CA) & MF & _ & Km & _). specialize (Km Sp).
  assert (Sl : subclass lc CFixedTypeList = true). { pose proof (body_decls _ _ CA) as Dd. rewrite Bf, forallb_app in Dd. apply andb_prop in Dd as [_ Dd]. cbn in Dd. rewrite !andb_true_r in Dd. exact Dd. }
  destruct accepted as (_ & _ & Ai & _). destruct (Ai _ _ Fi (S (List.length (b1 ++ b2))) b1 CFixedTypeList Wf ltac:(rewrite app_length; lia)) as (m2 & items & U2 & Nul2).
  destruct fit_tidy as (_ & _ & FT & _). destruct (FT _ _ Fi) as (b2' & T2). destruct (items_size _ _ _ _ _ b1 _ T2 Wf U2 Nul2) as (N2 & Sz).
  set (w := VList CFixedTypeList pc items) in *. set (M := S (max m (max m2 N2))). assert (NE : b1 ++ b2 <> []) by (destruct b1; [congruence|discriminate]).
  exists (S M), (set_attr n w (set_all (map fst fs) vals (("header", h) :: a))). split.
  - rewrite DispatchFacts.unpack0_obj. unfold unpack_obj. rewrite Km. unfold unpack_message_fields. rewrite MF, Bf, unpack_fields_app, (fields_up _ M _ _ _ _ _ U) by (unfold M; lia). cbn [bind fst snd].
    rewrite unpack_fields_cons by exact NE.
    assert (Uw : unpack0 M (deepcopy (VList lc pc [])) (b1 ++ b2) (List.length b1) = Ok w).
    { unfold M. cbn [deepcopy map]. rewrite (cid_eqb_neq _ _ (list_class _ Sl)). rewrite StructThm.unpack0_list, (items_up _ (max m (max m2 N2)) _ _ _ _ _ U2) by lia. reflexivity. }
    rewrite Uw. cbn [bind]. rewrite (size_up _ M _ _ Sz) by (unfold M; lia). reflexivity.
  - pose proof (no_header _ _ _ I) as Nd. assert (Jn : In n (map fst (body_fields c))) by (rewrite Bf, map_app; apply in_or_app; right; left; reflexivity).
    eapply message_nul; [exact I|exact Nh| | |].
    + rewrite set_attr_keys; [exact Kk|]. rewrite Kk. right. exact Jn.
    + rewrite get_set_other; [exact Gh|]. intros <-. contradiction.
    + intros nm x J G. destruct (String.eqb_spec n nm) as [<-|Nn]; [rewrite get_set_same in G; injection G as <-; exact Nul2|]. rewrite get_set_other in G by congruence.
      apply (Nul nm x); [|exact G]. rewrite Bf, map_app in J. apply in_app_or in J as [J|[J|[] ] ]; [exact J|]. cbn [fst] in J. congruence.
Qed.

(** ** Errors *)
Lemma error_types v t e : In (t, e) (error_codes v) -> is_member (error_type_enum v) t = true /\ 0 <= t < 65536.
Proof.
  intros I. assert (T : forallb (fun q => is_member (error_type_enum v) (fst q) && (0 <=? fst q) && (fst q <? 65536)) (error_codes v) = true) by (destruct v; vm_compute; reflexivity).
  rewrite forallb_forall in T. specialize (T _ I). cbn [fst] in T. rewrite !andb_true_iff in T. destruct T as [[T1 T2] T3]. split; [exact T1|lia].
Qed.
Lemma enum_known e z : is_member e z = true -> exists x, enum_call e z = Ok x /\ ends_in_nul x = true.
Proof. intros H. unfold enum_call. destruct (enum_def e); try rewrite H; eexists; split; reflexivity. Qed.
Lemma error_code_known v t e code : In (t, e) (error_codes v) -> is_member e code = true -> 0 <= code < 65536.
Proof.
  intros I M. assert (T : forallb (fun q => forallb (fun z => (0 <=? z) && (z <? 65536)) (enum_values (enum_def (snd q)))) (error_codes v) = true) by (destruct v; vm_compute; reflexivity).
  rewrite forallb_forall in T. specialize (T _ I). cbn [snd] in T. rewrite forallb_forall in T. unfold is_member in M. apply existsb_exists in M as (z & J & Ez). apply Z.eqb_eq in Ez. subst z.
  specialize (T _ J). lia.
Qed.
Lemma accept_error v ty t e code data : In (ty, error_class v) (openflow_types v) -> In (t, e) (error_codes v) -> declared e code -> wf_bytes data ->
  A_msg (error_class v) (be_encode 2 t ++ be_encode 2 code ++ data).
Proof.
  intros I It Dc Wd h a Nh Ka. destruct (error_types _ _ _ It) as [Mt Rt]. pose proof (member_of _ _ Dc) as Mc. pose proof (error_code_known _ _ _ _ It Mc) as Rc.
  destruct (error_fields v) as (d1 & d2 & d3 & Bf). destruct (message_class _ _ _ I) as (_ & _ & _ & (h0 & CA) & MF & _). destruct (plain_types v) as (Pm & _).
  destruct (enum_known _ _ Mt) as (x & Ex & _). destruct (enum_known _ _ Mc) as (y & Ey & Ny).
  set (at1 := set_attr "data" (VBin (VBytes data)) (set_attr "code" (VUInt 2 None (VInt code)) (set_attr "error_type" (VUInt 2 (Some (error_type_enum v)) (decoded_int (Some (error_type_enum v)) t)) (("header", h) :: a)))).
  assert (U : unpack_message_fields (unpack0 1) (size0 1) (error_class v) (("header", h) :: a) (be_encode 2 t ++ be_encode 2 code ++ data) 0 = Ok at1).
  { unfold unpack_message_fields. rewrite MF, Bf. assert (NE : be_encode 2 t ++ be_encode 2 code ++ data <> []) by discriminate.
    rewrite unpack_fields_cons by exact NE.
    assert (U1 : unpack0 1 (deepcopy (VUInt 2 (Some (error_type_enum v)) d1)) (be_encode 2 t ++ be_encode 2 code ++ data) 0 = Ok (VUInt 2 (Some (error_type_enum v)) (decoded_int (Some (error_type_enum v)) t))).
    { cbn [deepcopy unpack0]. pose proof (uint_unpack_u16 (Some (error_type_enum v)) 0 t (be_encode 2 t) [] (be_encode 2 code ++ data)) as Q. cbn [app List.length Nat.add] in Q. apply Q; [|right; exact Mt].
      exists [], []. rewrite app_nil_r. split; [reflexivity|]. split; [reflexivity|exact Rt]. }
    rewrite U1. cbn [bind size0]. rewrite unpack_fields_cons by exact NE.
    assert (U2 : unpack0 1 (deepcopy (VUInt 2 None d2)) (be_encode 2 t ++ be_encode 2 code ++ data) 2 = Ok (VUInt 2 None (VInt code))).
    { cbn [deepcopy unpack0]. pose proof (uint_unpack_u16 None 0 code (be_encode 2 code) (be_encode 2 t) data) as Q. rewrite be_encode_length in Q. apply Q; [|exact Logic.I].
      exists [], []. rewrite app_nil_r. split; [reflexivity|]. split; [reflexivity|exact Rc]. }
    change (0 + Z.to_nat (Z.of_nat 2))%nat with 2%nat. rewrite U2. cbn [bind size0]. rewrite unpack_fields_cons by exact NE.
    change (2 + Z.to_nat (Z.of_nat 2))%nat with 4%nat. change (unpack0 1 (deepcopy (VBin d3)) (be_encode 2 t ++ be_encode 2 code ++ data) 4) with (@Ok pyval (VBin (VBytes (skipn 4 (be_encode 2 t ++ be_encode 2 code ++ data))))).
    cbn [bind]. replace (skipn 4 (be_encode 2 t ++ be_encode 2 code ++ data)) with data by reflexivity. reflexivity. }
  assert (Gt : attr_enum "error_type" at1 = Ok t).
  { unfold attr_enum, attr_or_error, at1. rewrite !get_set_other by discriminate. rewrite get_set_same. cbn [bind]. rewrite num_of_decoded. reflexivity. }
  assert (Gc : attr_enum "code" at1 = Ok code) by (unfold attr_enum, attr_or_error, at1; rewrite get_set_other by discriminate; rewrite get_set_same; reflexivity).
  assert (K0 : map fst (("header", h) :: a) = "header" :: map fst (body_fields (error_class v))) by (cbn [map fst]; rewrite Ka; reflexivity).
  assert (Ks : map fst (set_attr "code" y at1) = "header" :: map fst (body_fields (error_class v))).
  { clear - Bf Ka. unfold at1. rewrite Bf in *. cbn [map fst] in *. destruct a as [|[k1 x1] [|[k2 x2] [|[k3 x3] [|] ] ] ]; try discriminate Ka. cbn [map fst] in Ka. injection Ka as -> -> ->. reflexivity. }
  exists 2%nat, (set_attr "code" y at1). split.
  - rewrite DispatchFacts.unpack0_obj. unfold unpack_obj. replace (kind (error_class v)) with (if is04 v then KErrorMsg04 else KErrorMsg01) by (destruct v; reflexivity).
    assert (Q : error_unpack (unpack0 1) (size0 1) (is04 v) (error_class v) (("header", h) :: a) (be_encode 2 t ++ be_encode 2 code ++ data) 0 = Ok (VObj (error_class v) (set_attr "code" y at1))).
    { unfold error_unpack. rewrite U. cbn [bind]. rewrite Gt. cbn [bind]. replace (if is04 v then E_ErrorType04 else E_ErrorType01) with (error_type_enum v) by (destruct v; reflexivity).
      rewrite Ex. cbn [bind]. rewrite Gc. cbn [bind]. rewrite (code_table _ _ _ It), Ey. reflexivity. }
    destruct v; exact Q.
  - eapply message_nul; [exact I|exact Nh|exact Ks| |].
    + unfold at1. rewrite !get_set_other by discriminate. reflexivity.
    + intros nm w J G. rewrite Bf in J. cbn [map fst] in J. unfold at1 in G. destruct J as [<-|[<-|[<-|[] ] ] ].
      * rewrite !get_set_other in G by discriminate. rewrite get_set_same in G. injection G as <-. reflexivity.
      * rewrite get_set_same in G. injection G as <-. exact Ny.
      * rewrite get_set_other in G by discriminate. rewrite get_set_same in G. injection G as <-. reflexivity.
Qed.

(** ** PACKET_OUT *)
Lemma accept_packet_out v t fs lc pc d b1 b2 data : In (t, out_class v) (openflow_types v) -> body_fields (out_class v) = fs ++ [("actions", VList lc pc []); ("data", d)] -> fit_fields SD fs b1 ->
  u16_at (match v with V01 => 6 | V04 => 8 end) b1 (zlen b2) -> fit_items pc b2 -> wf_bytes (b1 ++ b2 ++ data) -> A_msg (out_class v) (b1 ++ b2 ++ data).
Proof.
  intros I Bf F Un Fi Wf h a Nh Ka. rewrite out_fields in Bf.
  change [("actions", VList (out_list v) (out_item v) []); ("data", VBin VNone)] with ([("actions", VList (out_list v) (out_item v) [])] ++ [("data", VBin VNone)]) in Bf.
  change [("actions", VList lc pc []); ("data", d)] with ([("actions", VList lc pc [])] ++ [("data", d)]) in Bf. rewrite !app_assoc in Bf.
  apply app_inj_tail in Bf as [Bf E]. injection E as <-. apply app_inj_tail in Bf as [<- E]. injection E as <- <-.
  pose proof (u16_nonempty _ _ _ Un) as N1. assert (NE : b1 ++ b2 ++ data <> []) by (destruct b1; [congruence|discriminate]).
  destruct (front v t _ _ _ b1 (b2 ++ data) h a I (out_fields v) F N1 Wf Ka) as (m & N & b1' & vals & U & L & Nul & T & E & Dn & Kk & Gh).
  destruct (message_class _ _ _ I) as (_ & _ & _ & (h0 & CA) & MF & _).
  destruct (out_numbers v _ _ _ _ _ _ T E Un) as (q & _ & _ & Gl).
  assert (W2 : wf_bytes b2) by (apply Forall_app in Wf as [_ W]; apply Forall_app in W as [W _]; exact W).
  destruct accepted as (_ & _ & Ai & _). destruct (Ai _ _ Fi (S (List.length b2)) [] CFixedTypeList W2 ltac:(lia)) as (m2 & items & U2 & Nul2). cbn [app List.length] in U2.
  destruct fit_tidy as (_ & _ & FT & _). destruct (FT _ _ Fi) as (b2' & T2). destruct (items_size _ _ _ _ _ [] _ T2 W2 U2 Nul2) as (N2 & Sz).
  set (w := VList CFixedTypeList (out_item v) items) in *. set (M := S (max m (max m2 N2))).
  assert (Sl : subclass (out_list v) CFixedTypeList = true) by (destruct v; reflexivity).
  exists (S M), (set_attr "data" (VBin (VBytes data)) (set_attr "actions" w (set_all (map fst (out_fixed v)) vals (("header", h) :: a)))). split.
  - rewrite DispatchFacts.unpack0_obj. unfold unpack_obj. rewrite out_kind.
    assert (Q : packet_out_fields (unpack0 M) (size0 M) (message_fields (out_class v)) (("header", h) :: a) (b1 ++ b2 ++ data) 0
      = Ok (set_attr "data" (VBin (VBytes data)) (set_attr "actions" w (set_all (map fst (out_fixed v)) vals (("header", h) :: a))))).
    { rewrite MF, out_fields, packet_out_split; [|exact NE|destruct v; cbn; intuition discriminate]. rewrite (fields_up _ M _ _ _ _ _ U) by (unfold M; lia). cbn [bind fst snd].
      cbn [packet_out_fields String.eqb Ascii.eqb Bool.eqb]. cbv zeta.
      assert (Al : attr_num "actions_len" (set_all (map fst (out_fixed v)) vals (("header", h) :: a)) = Ok (zlen b2)) by (unfold attr_num, attr_or_error; rewrite (get_set_all _ _ _ _ _ Gl Dn); reflexivity).
      rewrite Al. cbn [bind]. rewrite slice_mid; [|reflexivity|unfold zlen; lia].
      assert (Uw : unpack0 M (deepcopy (VList (out_list v) (out_item v) [])) b2 0 = Ok w).
      { unfold M. cbn [deepcopy map]. rewrite (cid_eqb_neq _ _ (list_class _ Sl)). rewrite StructThm.unpack0_list, (items_up _ (max m (max m2 N2)) _ _ _ _ _ U2) by lia. reflexivity. }
      rewrite Uw. cbn [bind]. rewrite (size_up _ M _ _ Sz) by (unfold M; lia). cbn [bind deepcopy].
      replace (unpack0 M (VBin VNone) (b1 ++ b2 ++ data) (List.length b1 + Z.to_nat (zlen b2))) with (@Ok pyval (VBin (VBytes data))).
      2: { unfold M. rewrite unpack0_bin. do 3 f_equal. rewrite zlen_to_nat, <- app_length, app_assoc, skipn_app, skipn_all, Nat.sub_diag. reflexivity. }
      cbn [bind]. reflexivity. }
    rewrite Q. destruct v; reflexivity.
  - assert (Kw : forall n x l, n = "actions" \/ n = "data" -> map fst l = "header" :: map fst (body_fields (out_class v)) -> map fst (set_attr n x l) = "header" :: map fst (body_fields (out_class v))).
    { intros n x l Hn Hl. rewrite set_attr_keys; [exact Hl|]. rewrite Hl, out_fields. right. rewrite map_app. apply in_or_app. right. destruct Hn as [->| ->]; cbn; auto. }
    eapply message_nul; [exact I|exact Nh|apply Kw; [auto|]; apply Kw; [auto|exact Kk]| |].
    + rewrite !get_set_other by discriminate. exact Gh.
    + intros nm x J G. destruct (String.eqb_spec nm "data") as [->|N3]; [rewrite get_set_same in G; injection G as <-; reflexivity|]. rewrite get_set_other in G by congruence.
      destruct (String.eqb_spec nm "actions") as [->|N4]; [rewrite get_set_same in G; injection G as <-; exact Nul2|]. rewrite get_set_other in G by congruence.
      apply (Nul nm x); [|exact G]. rewrite out_fields, map_app in J. apply in_app_or in J as [J|J]; [exact J|]. cbn in J. intuition congruence.
Qed.

(** ** Statistics *)
Lemma first_value N nm er d fs v0 vals b b' t : enc_fields N SD true ((nm, VUInt 2 er d) :: fs) (v0 :: vals) b' (v0 :: vals) -> tidy_fields SD ((nm, VUInt 2 er d) :: fs) b b' -> u16_at 0 b t ->
  v0 = VUInt 2 er (decoded_int er t).
Proof.
  intros E T U. inversion T as [|? ? ? ? X|k0 n0 d0 fs0 b1 b1' b2 b2' X Y]; subst. inversion X as [? ? K| | | |]; subst. clear X.
  inversion E as [|? ? ? ? ? ? ? Z|? ? ? ? ? iv c1 out fs0 ivs c2 os X Z]; subst. apply uint_inv in X as (z & _ & _ & B & Al & -> & -> & n' & ->).
  match goal with H : be_encode _ _ ++ _ = _ ++ _ |- _ => apply app_start in H as [<- <-]; [|rewrite be_encode_length; cbn in K; congruence] end.
  apply u16_start in U; [|exact B]. subst z. reflexivity.
Qed.
Lemma stats_unpack m f a b at1 z x bb inst body : unpack_message_fields (unpack0 m) (size0 m) (stats_class f) a b 0 = Ok at1 ->
  attr_enum (stats_type_name f) at1 = Ok z -> enum_call (stats_type_enum f) z = Ok x -> attr_bytes "body" at1 = Ok bb -> stats_instance f x z = Ok inst -> unpack0 m inst bb 0 = Ok body ->
  unpack_obj (unpack0 m) (size0 m) (stats_class f) a b 0 = Ok (VObj (stats_class f) (set_attr "body" body (set_attr (stats_type_name f) x at1))).
Proof.
  intros U1 U2 U3 U4 U5 U6. unfold unpack_obj. rewrite stats_kind. destruct f.
  - unfold stats_request_unpack. rewrite U1. cbn [bind]. cbn [stats_type_name stats_type_enum stats_instance] in *. rewrite U2. cbn [bind]. rewrite U3. cbn [bind]. rewrite U4. cbn [bind]. assert (Q : inst = VList CFixedTypeList (match Interp.stats_body false z with Some bc => bc | None => CNone end) []) by congruence. rewrite <- Q, U6. reflexivity.
  - unfold stats_reply_unpack. cbn [skipn]. rewrite U1. cbn [bind]. cbn [stats_type_name stats_type_enum stats_instance] in *. rewrite U2. cbn [bind]. rewrite U3. cbn [bind]. rewrite U4. cbn [bind]. rewrite U5. cbn [bind]. rewrite U6. reflexivity.
  - unfold multipart_unpack. cbn [skipn]. rewrite U1. cbn [bind]. cbn [stats_type_name stats_type_enum stats_instance] in *. rewrite U2. cbn [bind]. rewrite U3. cbn [bind]. rewrite U5. cbn [bind]. rewrite U4. cbn [bind]. rewrite U6. reflexivity.
  - unfold multipart_unpack. cbn [skipn]. rewrite U1. cbn [bind]. cbn [stats_type_name stats_type_enum stats_instance] in *. rewrite U2. cbn [bind]. rewrite U3. cbn [bind]. rewrite U5. cbn [bind]. rewrite U4. cbn [bind]. rewrite U6. reflexivity.
Qed.
Lemma accept_body f t form inst b rest : In (t, form) (stats_forms f) -> fit_body form b -> (rest = [] \/ exists c, form = BStruct c /\ fit_obj SD c b) -> wf_bytes (b ++ rest) ->
  form_instance form = Some inst -> exists m body, unpack0 m inst (b ++ rest) 0 = Ok body /\ ends_in_nul body = true.
Proof.
  intros If F Hr Wf Fi. destruct accepted as (_ & _ & Ai & Ao). destruct F as [c bs F|k c bs F NE|bs].
  - destruct Hr as [->|(c' & Ec & _)]; [|discriminate Ec]. rewrite app_nil_r in *. cbn [form_instance] in Fi. injection Fi as <-.
    destruct (Ai _ _ F (S (List.length bs)) [] CFixedTypeList Wf ltac:(lia)) as (m & items & U & Nul). exists (S m), (VList CFixedTypeList c items). split; [|exact Nul].
    rewrite StructThm.unpack0_list. cbn [app List.length] in U. rewrite U. reflexivity.
  - cbn [form_instance] in Fi. assert (exists a, inst = VObj c a /\ map fst a = start_keys c) as (a & -> & Ka).
    { destruct (form_object _ _ _ _ If Fi) as (a & ->). exists a. split; [reflexivity|]. unfold start_keys. rewrite Fi. reflexivity. }
    assert (exists k', fit_obj k' c bs /\ (k' = TAIL -> rest = [])) as (k' & F' & Hk).
    { destruct Hr as [->|(c' & Ec & F')]; [exists k; auto|]. injection Ec as <-. exists SD. split; [exact F'|discriminate]. }
    assert (NE2 : bs ++ rest <> []) by (destruct bs; [congruence|discriminate]).
    destruct (Ao _ _ _ F' a [] rest Hk NE2 Wf Ka) as (m & w & U & Nul). exists m, w. auto.
  - destruct Hr as [->|(c' & Ec & _)]; [|discriminate Ec]. cbn [form_instance] in Fi. injection Fi as <-. exists 1%nat. eexists. split; reflexivity.
Qed.
Lemma accept_stats v t0 f fs d t form b1 b2 rest : In (t0, stats_class f) (openflow_types v) -> body_fields (stats_class f) = fs ++ [("body", d)] -> fit_fields SD fs b1 -> u16_at 0 b1 t ->
  In (t, form) (stats_forms f) -> fit_body form b2 -> (rest = [] \/ exists c, form = BStruct c /\ fit_obj SD c b2) -> wf_bytes ((b1 ++ b2) ++ rest) -> A_msg (stats_class f) ((b1 ++ b2) ++ rest).
Proof.
  intros I Bf F Ut If Fb Hr Wf h a Nh Ka. rewrite <- app_assoc in *. pose proof (u16_nonempty _ _ _ Ut) as N1.
  assert (NE : b1 ++ b2 ++ rest <> []) by (destruct b1; [congruence|discriminate]).
  destruct (front v t0 _ _ _ b1 (b2 ++ rest) h a I Bf F N1 Wf Ka) as (m & N & b1' & vals & U & L & Nul & T & E & Dn & Kk & Gh).
  destruct (message_class _ _ _ I) as (_ & _ & _ & (h0 & CA) & MF & _).
  destruct (ReencodeFacts4.stats_fields f) as (d1 & fs0 & l' & Bf0 & _ & _ & _ & _ & _ & _).
  pose proof Bf as Bf'. rewrite Bf0, app_comm_cons in Bf'. apply app_inj_tail in Bf' as [<- Ed]. injection Ed as <-.
  destruct vals as [|v0 vals]; [discriminate L|]. pose proof (first_value _ _ _ _ _ _ _ _ _ _ E T Ut) as ->.
  destruct (stats_forms_ok _ _ _ If) as (Me & _ & inst & Fi & Si & _).
  assert (Wf2 : wf_bytes (b2 ++ rest)) by (apply Forall_app in Wf as [_ W]; exact W).
  destruct (accept_body _ _ _ _ _ _ If Fb Hr Wf2 Fi) as (m2 & body & Ub & Nb).
  set (A := (stats_type_name f, VUInt 2 (Some (stats_type_enum f)) d1) :: fs0) in *. set (at0 := set_all (map fst A) (VUInt 2 (Some (stats_type_enum f)) (decoded_int (Some (stats_type_enum f)) t) :: vals) (("header", h) :: a)) in *.
  set (at1 := set_attr "body" (VBin (VBytes (b2 ++ rest))) at0). set (M := S (max m m2)).
  assert (Tb : stats_type_name f <> "body") by (destruct f; discriminate). assert (Th : stats_type_name f <> "header") by (destruct f; discriminate).
  assert (Ex : enum_call (stats_type_enum f) t = Ok (VEnum (stats_type_enum f) t)).
  { unfold enum_call. rewrite Me. pose proof (stats_enum_plain f) as Q. unfold is_mask_enum in Q. destruct (enum_def (stats_type_enum f)); try reflexivity. discriminate Q. }
  exists (S M), (set_attr "body" body (set_attr (stats_type_name f) (VEnum (stats_type_enum f) t) at1)). split.
  - rewrite DispatchFacts.unpack0_obj. eapply (stats_unpack M f _ _ at1); [| |exact Ex| |exact Si|].
    + unfold unpack_message_fields. rewrite MF, Bf, unpack_fields_app, (fields_up _ M _ _ _ _ _ U) by (unfold M; lia). cbn [bind fst snd]. rewrite unpack_fields_cons by exact NE. cbn [deepcopy].
      replace (unpack0 M (VBin VNone) (b1 ++ b2 ++ rest) (List.length b1)) with (@Ok pyval (VBin (VBytes (b2 ++ rest)))); [|unfold M; rewrite unpack0_bin, skipn_app, skipn_all, Nat.sub_diag; reflexivity].
      cbn [bind]. reflexivity.
    + unfold attr_enum, attr_or_error, at1. rewrite get_set_other by congruence.
      assert (G : get_attr (stats_type_name f) at0 = Some (VUInt 2 (Some (stats_type_enum f)) (decoded_int (Some (stats_type_enum f)) t))).
      { unfold at0. apply get_set_all; [|exact Dn]. unfold A. cbn [map fst combine get_attr]. rewrite String.eqb_refl. reflexivity. }
      rewrite G. cbn [bind]. rewrite num_of_decoded. reflexivity.
    + unfold attr_bytes, attr_or_error, at1. rewrite get_set_same. reflexivity.
    + eapply unpack_up; [exact Ub|unfold M; lia].
  - assert (Jb : In "body" (map fst (body_fields (stats_class f)))) by (rewrite Bf, map_app; apply in_or_app; right; left; reflexivity).
    assert (Jt : In (stats_type_name f) (map fst (body_fields (stats_class f)))) by (rewrite Bf; left; reflexivity).
    assert (K1 : map fst at1 = "header" :: map fst (body_fields (stats_class f))) by (unfold at1; rewrite set_attr_keys; [exact Kk|rewrite Kk; right; exact Jb]).
    assert (K2 : map fst (set_attr (stats_type_name f) (VEnum (stats_type_enum f) t) at1) = "header" :: map fst (body_fields (stats_class f))) by (rewrite set_attr_keys; [exact K1|rewrite K1; right; exact Jt]).
    eapply message_nul; [exact I|exact Nh| | |].
    + rewrite set_attr_keys; [exact K2|rewrite K2; right; exact Jb].
    + unfold at1. rewrite !get_set_other by congruence. exact Gh.
    + intros nm x J G. destruct (String.eqb_spec nm "body") as [->|N3]; [rewrite get_set_same in G; injection G as <-; exact Nb|]. rewrite get_set_other in G by congruence.
      destruct (String.eqb_spec nm (stats_type_name f)) as [->|N4]; [rewrite get_set_same in G; injection G as <-; reflexivity|]. rewrite get_set_other in G by congruence.
      unfold at1 in G. rewrite get_set_other in G by congruence. apply (Nul nm x); [|exact G]. rewrite Bf, map_app in J. apply in_app_or in J as [J|[J|[] ] ]; [exact J|]. cbn [fst] in J. congruence.
Qed.

(** ** All messages *)
Lemma error_version v v' t : In (t, error_class v) (openflow_types v') -> v' = v.
Proof. destruct v, v'; try reflexivity; intros I; exfalso; cbn in I; repeat (destruct I as [I|I]; [discriminate I|]); destruct I. Qed.
Lemma out_version v v' t : In (t, out_class v) (openflow_types v') -> v' = v.
Proof. destruct v, v'; try reflexivity; intros I; exfalso; cbn in I; repeat (destruct I as [I|I]; [discriminate I|]); destruct I. Qed.
Lemma accept_message v t c bs rest : In (t, c) (openflow_types v) -> fit_message c bs rest -> wf_bytes (bs ++ rest) -> A_msg c (bs ++ rest).
Proof.
  intros I F. destruct F; intros Wf.
  - eapply accept_fields; eassumption.
  - rewrite app_nil_r in *. eapply accept_list; eassumption.
  - rewrite app_nil_r in *. pose proof (error_version _ _ _ I) as ->. eapply accept_error; try eassumption. apply Forall_app in Wf as [_ Wf]. apply Forall_app in Wf as [_ Wf]. exact Wf.
  - rewrite app_nil_r in *. pose proof (out_version _ _ _ I) as ->. eapply accept_packet_out; eassumption.
  - eapply accept_stats; eassumption.
Qed.
Theorem accept v t x c bs rest : In (t, c) (openflow_types v) -> ~ misfiled v t -> 0 <= x < 2 ^ 32 -> wf_bytes (bs ++ rest) -> 8 + zlen (bs ++ rest) < 65536 -> fit_message c bs rest ->
  exists attrs, unpack_packet (wire_header v t (8 + zlen (bs ++ rest)) x ++ bs ++ rest) = Ok (VObj c attrs) /\ ends_in_nul (VObj c attrs) = true.
Proof.
  intros I Nm Hx Wf Hl F. destruct (unpack_packet_ok v t x c (bs ++ rest) I Nm Hx Wf Hl) as (a & Ka & U).
  destruct (accept_message v t c bs rest I F Wf (decoded_header v t (8 + zlen (bs ++ rest)) x) a) as (m & attrs & Um & Nul); [destruct v; reflexivity|exact Ka|].
  exists attrs. split; [exact (U m _ Um)|exact Nul].
Qed.
(** And, with C43, sent again. *)
Lemma same_wire v t len len' x b b' p' : 0 <= t < 256 -> 8 + zlen b' < 65536 -> wf_bytes b' -> same_header (wire_header v t len x ++ b) p' -> skipn 8 p' = b' -> len' = 8 + zlen b' -> p' = wire_header v t len' x ++ b'.
Proof.
  intros Ht Hl Wf (H2 & Hn & H4) S8 ->.
  assert (F2 : forall l c, firstn 2 (wire_header v t l x ++ c) = be_encode 1 (version_number v) ++ be_encode 1 t) by (intros; reflexivity).
  assert (F4 : forall l c, slice 4 8 (wire_header v t l x ++ c) = be_encode 4 x) by (intros; reflexivity).
  apply header_back.
  - apply wf_app; [apply wire_header_wf|exact Wf].
  - assert (L : zlen (wire_header v t (8 + zlen b') x ++ b') = 8 + zlen b') by (rewrite zlen_app; unfold zlen at 1; rewrite wire_header_length; reflexivity).
    pose proof (zlen_nonneg b'). unfold well_framed. rewrite L. split; [lia|]. split; [|destruct v; cbn; lia].
    change (slice 2 4 (wire_header v t (8 + zlen b') x ++ b')) with (be_encode 2 (8 + zlen b')). apply place_encode. rewrite ulimit2. lia.
  - split; [rewrite F2, H2, F2; reflexivity|]. split; [exact Hn|]. rewrite F4, H4, F4. reflexivity.
  - rewrite S8. rewrite skipn_app, skipn_all2, wire_header_length by (rewrite wire_header_length; lia). reflexivity.
Qed.
Lemma tidy_message_len c bs bs' rest : tidy_message c bs bs' rest -> same_len bs bs'.
Proof.
  destruct tidy_len as (_ & TL & TI & _). intros T. assert (J : forall a a' b b', same_len a a' -> same_len b b' -> same_len (a ++ b) (a' ++ b')).
  { intros a a' b b' [L1 W1] [L2 W2]. split; [rewrite !app_length; lia|]. intros W. apply Forall_app in W as [W3 W4]. apply wf_app; auto. }
  destruct T as [k c bs bs' rest _ T _|v fs lc pc d b1 b1' b2 b2' data _ T1 _ T2 _|f fs d t form b1 b1' b2 b2' rest _ T1 _ _ T2 _].
  - exact (TL _ _ _ _ T).
  - apply J; [exact (TL _ _ _ _ T1)|]. apply J; [exact (TI _ _ _ T2)|apply same_refl].
  - apply J; [exact (TL _ _ _ _ T1)|exact (body_len _ _ _ T2)].
Qed.
Theorem accept_resend v t x c bs bs' rest : In (t, c) (openflow_types v) -> ~ misfiled v t -> c <> QueueGetConfigRequest04 -> c <> QueueGetConfigReply04 -> 0 <= x < 2 ^ 32 -> wf_bytes (bs ++ rest) ->
  8 + zlen (bs ++ rest) < 65536 -> fit_message c bs rest -> tidy_message c bs bs' rest ->
  exists m, unpack_packet (wire_header v t (8 + zlen (bs ++ rest)) x ++ bs ++ rest) = Ok m /\ pack m = Ok (wire_header v t (8 + zlen bs) x ++ bs').
Proof.
  intros I Nm N1 N2 Hx Wf Hl F T. destruct (accept v t x c bs rest I Nm Hx Wf Hl F) as (attrs & U & Nul). exists (VObj c attrs). split; [exact U|].
  pose proof (tidy_message_len _ _ _ _ T) as [Ln W]. destruct (message_class _ _ _ I) as (_ & Ht & _).
  assert (Wp : wf_bytes (wire_header v t (8 + zlen (bs ++ rest)) x ++ bs ++ rest)) by (apply wf_app; [apply wire_header_wf|exact Wf]).
  destruct (resend _ c attrs bs bs' rest Wp U N1 N2 Nul) as (p' & P & Sh & S8); [|exact T|].
  - rewrite skipn_app, skipn_all2, wire_header_length by (rewrite wire_header_length; lia). reflexivity.
  - rewrite P. f_equal. eapply same_wire; [exact Ht| | |exact Sh|exact S8|unfold zlen; lia].
    + rewrite zlen_app in Hl. unfold zlen in *. lia.
    + apply W. apply Forall_app in Wf as [Wf _]. exact Wf.
Qed.
