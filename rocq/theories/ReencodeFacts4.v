(** Encoding decoded errors and statistics messages again: lemmas for C43. *)
From Coq Require Import ZArith List Bool String Lia.
From Verif Require Import Base PyText Ids PyVal Classes Interp Utils Spec SpecMsg SpecBasic SpecLayout SpecDecode SpecReencode ClassFacts BaseFacts TextFacts IntFacts LeafFacts
  AddrFacts StructFacts StructThm RaisesFacts DispatchFacts NetFacts2 FuelFacts MutationFacts LayoutFacts WindowFacts LengthFacts MsgFacts MsgMain DecodeFacts DecodeFacts2
  DecodeFacts3 MsgBody ReencodeFacts ReencodeFacts2 ReencodeFacts3.
Import ListNotations.
Open Scope string_scope.
Open Scope list_scope.
Open Scope Z_scope.

Lemma message_complete m v t c a b attrs : In (t, c) (openflow_types v) -> complete c a -> unpack_message_fields (unpack0 m) (size0 m) c a b 0 = Ok attrs -> complete c attrs.
Proof.
  intros I Ca U. destruct (message_class _ _ _ I) as (_ & _ & _ & (h & CA) & MF & _). unfold unpack_message_fields in U. apply bind_ok in U as ([at2 o1] & U & X). injection X as ->.
  apply (fields_complete c _ _ (message_fields c)) in U; [exact U| |exact Ca]. intros p J. rewrite MF in J. unfold field_names. rewrite CA. right. apply in_map, J.
Qed.
Lemma body_vals v t c attrs : In (t, c) (openflow_types v) -> complete c attrs -> body_values c attrs = map (attr_of attrs) (map fst (body_fields c)).
Proof.
  intros I C. destruct (message_class _ _ _ I) as (_ & _ & _ & (h & CA) & _). unfold body_values. rewrite values_get by exact C. unfold field_names. rewrite CA. reflexivity.
Qed.

(** ** Errors *)
Definition error_type_enum (v : of_version) : eid := match v with V01 => E_ErrorType01 | V04 => E_ErrorType04 end.
Definition is04 (v : of_version) : bool := match v with V01 => false | V04 => true end.
Lemma error_fields v : exists d1 d2 d3, body_fields (error_class v) = [("error_type", VUInt 2 (Some (error_type_enum v)) d1); ("code", VUInt 2 None d2); ("data", VBin d3)].
Proof. destruct v; eexists _, _, _; reflexivity. Qed.
Lemma error_shape m v a b attrs : unpack_obj (unpack0 m) (size0 m) (error_class v) a b 0 = Ok (VObj (error_class v) attrs) ->
  exists at1 t x z y, unpack_message_fields (unpack0 m) (size0 m) (error_class v) a b 0 = Ok at1 /\
    attr_enum "error_type" at1 = Ok t /\ enum_call (error_type_enum v) t = Ok x /\ attr_enum "code" at1 = Ok z /\ enum_call (error_code_enum (is04 v) t) z = Ok y /\
    attrs = set_attr "code" y at1.
Proof.
  intros U. unfold unpack_obj in U. destruct v; cbn [error_class kind] in U; unfold error_unpack in U.
  all: apply bind_ok in U as (at1 & V & U); apply bind_ok in U as (z & An & U); apply bind_ok in U as (x & Ec & U); apply bind_ok in U as (z' & An' & U); apply bind_ok in U as (y & Ey & U);
    injection U as <-; exists at1, z, x, z', y; repeat split; assumption.
Qed.
Lemma code_table v t e : In (t, e) (error_codes v) -> error_code_enum (is04 v) t = e.
Proof. destruct v; cbn [error_codes In]; intros H; repeat (destruct H as [[= <- <-]|H]; [reflexivity|]); destruct H. Qed.
Lemma member_of e z : declared e z -> is_member e z = true.
Proof. apply declared_member. Qed.
Lemma plain_types v : is_mask_enum (error_type_enum v) = false /\ plain_enum (error_type_enum v) = true /\ ~ bit_mask_class (error_type_enum v).
Proof. destruct v; (split; [reflexivity|]); (split; [reflexivity|]); intros (ms & D); discriminate D. Qed.

Theorem reencode_error v p attrs : wf_bytes p -> unpack_packet p = Ok (VObj (error_class v) attrs) -> (12 <= List.length p)%nat ->
  In (place_value (slice 8 10 p)) (map fst (error_codes v)) ->
  exists p', pack (VObj (error_class v) attrs) = Ok p' /\ recoded (error_class v) p (skipn 8 p) p'.
Proof.
  intros Wf U Lp It. destruct (packet_sendable p _ attrs Wf U ltac:(destruct v; discriminate) ltac:(destruct v; discriminate)) as (v' & a & Hv & I & Nm & Ca & Ub & Lp8 & Sd).
  assert (v' = v) as -> by (destruct v, v'; try reflexivity; exfalso; cbn in I; repeat (destruct I as [[= _]|I]; [discriminate|] || destruct I as [I|I]; [discriminate I|]); destruct I).
  rewrite unpack_object in Ub. destruct (error_shape 99 v a _ _ Ub) as (at1 & t & x & z & y & V & At & Et & Az & Ey & ->).
  pose proof (message_complete _ _ _ _ _ _ _ I Ca V) as C1.
  assert (C : complete (error_class v) (set_attr "code" y at1)) by (apply complete_set; [exact C1|destruct v; right; right; left; reflexivity]).
  destruct (error_fields v) as (d1 & d2 & d3 & Bf). destruct (message_class _ _ _ I) as (_ & _ & _ & (h & CA) & MF & _).
  unfold unpack_message_fields in V. apply bind_ok in V as ([at2 o1] & V & X). injection X as ->. rewrite MF, Bf in V.
  set (b := skipn 8 p) in *. assert (Wb : wf_bytes b) by (apply skip_wf, Wf). assert (Lb : List.length b = (List.length p - 8)%nat) by apply skipn_length.
  assert (NE : b <> []) by (intros X; apply (f_equal (@List.length _)) in X; rewrite Lb in X; cbn in X; lia).
  assert (Rd : forall name at_ w, placed 0 [("error_type", 2); ("code", 2)]%nat name at_ w ->
    exists cv q, In (name, cv) (body_fields (error_class v)) /\ get_attr name at1 = Some q /\ reads cv (slice at_ (at_ + w) b) q).
  { intros name at_ w Pl.
    destruct (head_reads 99 b NE [("error_type", 2); ("code", 2)]%nat (body_fields (error_class v))) with (attrs := a) (base := O) (i := O) (r := (at1, o1)) (name := name) (at_ := at_) (w := w)
      as (cv & q & Iq & Gq & Q); [rewrite Bf; reflexivity|rewrite Bf; cbn; repeat constructor; cbn; intuition discriminate| |rewrite Bf; exact V|exact Pl|exists cv, q; auto].
    intros nm cv k q o _ F Uq. eapply field_reads; eassumption. }
  destruct (Rd "error_type" 0%nat 2%nat ltac:(left; auto)) as (cv1 & q1 & I1 & G1 & R1). rewrite Bf in I1.
  destruct I1 as [[= <-]|[[= _]|[[= _]|[]]]]; try discriminate.
  destruct (Rd "code" 2%nat 2%nat ltac:(right; left; auto)) as (cv2 & q2 & I2 & G2 & R2). rewrite Bf in I2.
  destruct I2 as [[= _]|[[= <-]|[[= _]|[]]]]; try discriminate.
  destruct (last_at 99 b NE [("error_type", 2); ("code", 2)]%nat [("error_type", VUInt 2 (Some (error_type_enum v)) d1); ("code", VUInt 2 None d2)] "data" (VBin d3) ltac:(reflexivity) ltac:(reflexivity) _ _ _ V)
    as (q3 & U3 & G3). cbn [fst deepcopy] in U3, G3. rewrite (unpack0_bin 98) in U3. assert (q3 = VBin (VBytes (skipn 4 b))) as -> by (cbn [Nat.add list_sum map snd fold_right] in U3; congruence). clear U3.
  destruct (plain_types v) as (Me & Pe & Nb).
  assert (T1 : num_of q1 = Ok t) by (unfold attr_enum, attr_or_error in At; rewrite G1 in At; cbn [bind] in At; destruct (num_of q1); [exact At|discriminate]).
  assert (T2 : num_of q2 = Ok z) by (unfold attr_enum, attr_or_error in Az; rewrite G2 in Az; cbn [bind] in Az; destruct (num_of q2); [exact Az|discriminate]).
  pose proof (reads_num _ _ _ _ _ _ _ R1 eq_refl T1) as B1. pose proof (reads_num _ _ _ _ _ _ _ R2 eq_refl T2) as B2.
  change (0 + 2)%nat with 2%nat in B1. change (2 + 2)%nat with 4%nat in B2.
  assert (Pt : place_value (slice 8 10 p) = t).
  { destruct B1 as (_ & _ & <-). unfold b. rewrite slice_skip. reflexivity. }
  rewrite Pt in It. apply in_map_iff in It as ([t' e] & Et' & Ie). cbn [fst] in Et'. subst t'.
  rewrite (code_table _ _ _ Ie) in Ey.
  assert (Pce : plain_enum e = true) by (rewrite <- (code_table _ _ _ Ie); apply error_plain).
  destruct (call_member _ _ _ Pce Ey) as (-> & Dz). destruct (call_member _ _ _ Pe Et) as (_ & Dt).
  assert (q1 = VUInt 2 (Some (error_type_enum v)) (VEnum (error_type_enum v) t)) as ->.
  { inversion R1 as [ |w0 e0 d0 z0 bs0 Bg De Nm0|w0 e0 d0 z0 bs0 Bg Mk| | | | | |]; subst; [|contradiction]. f_equal. f_equal. destruct Bg as (_ & _ & <-), B1 as (_ & _ & X). exact X. }
  apply big_encode in B1 as [E1 L1]. apply big_encode in B2 as [E2 L2].
  assert (Eb : exists outs, enc_body 0 v (error_class v) (set_attr "code" (VEnum e z) at1) b outs).
  { eexists. eapply (b_error 0 v TAIL _ b (Some (error_type_enum v)) t e (VEnum (error_type_enum v) t) z (VEnum e z) (VBin (VBytes (skipn 4 b)))).
    - rewrite (body_vals _ _ _ _ I C), Bf. cbn [map fst].
      rewrite (attr_of_get _ _ _ (eq_trans (get_set_other "error_type" "code" _ _ ltac:(discriminate)) G1)).
      rewrite attr_set. rewrite (attr_of_get _ _ _ (eq_trans (get_set_other "data" "code" _ _ ltac:(discriminate)) G3)).
      replace b with (slice 0 2 b ++ slice 2 4 b ++ skipn 4 b) at 2.
      2: { destruct b as [|? [|? [|? [|? q]]]]; cbn in Lb; try lia. reflexivity. }
      rewrite <- E1, <- E2. change (VEnum (error_type_enum v) t) with (VEnum (error_type_enum v) t).
      replace (VEnum (error_type_enum v) t) with (decoded_int (Some (error_type_enum v)) t) at 2 by (unfold decoded_int; rewrite Me; reflexivity).
      apply f_cons; [apply e_uint; [lia|left; split; [discriminate|apply iv_uint_enum, Me]|exact L1|right; apply member_of, Dt]|].
      apply f_cons; [apply (e_uint 1 2 None d2 (VEnum e z) z); [lia|left; split; [discriminate|constructor]|exact L2|exact Logic.I]|].
      apply f_last, e_bin; [discriminate|]. apply p_bin, p_bytes.
    - apply ie_uint_enum, Me.
    - exact Ie.
    - apply member_of, Dz.
    - reflexivity. }
  destruct Eb as (outs & Eb).
  eapply (recode 0 p _ _ v); try eassumption; [apply Sd, C| |lia].
  fold (body_fields (error_class v)). rewrite Bf. change [("error_type", VUInt 2 (Some (error_type_enum v)) d1); ("code", VUInt 2 None d2); ("data", VBin d3)]
    with ([("error_type", VUInt 2 (Some (error_type_enum v)) d1); ("code", VUInt 2 None d2)] ++ [("data", VBin d3)]).
  replace b with ((slice 0 2 b ++ slice 2 4 b ++ []) ++ skipn 4 b).
  2: { destruct b as [|? [|? [|? [|? q]]]]; cbn in Lb; try lia. reflexivity. }
  apply cb_data. apply ca_cons; [apply cl_same; cbn [kept_width]; rewrite slice_length; f_equal; lia|]. apply ca_cons; [apply cl_same; cbn [kept_width]; rewrite slice_length; f_equal; lia|constructor].
Qed.

(** ** Statistics *)
Lemma stats_fields f : exists d1 fs l', body_fields (stats_class f) = (stats_type_name f, VUInt 2 (Some (stats_type_enum f)) d1) :: fs ++ [("body", VBin VNone)] /\
  stats_layout f = (stats_type_name f, 2%nat) :: l' /\ heads l' fs = true /\ List.length fs = List.length l' /\ ~ In (stats_type_name f) (map fst fs) /\ ~ In "body" (map fst fs) /\
  (10 + list_sum (map snd l') = stats_at f)%nat.
Proof.
  assert (G : exists d1 fs, body_fields (stats_class f) = (stats_type_name f, VUInt 2 (Some (stats_type_enum f)) d1) :: fs ++ [("body", VBin VNone)] /\ fs = removelast (tl (body_fields (stats_class f))))
    by (destruct f; (eexists _, _); (split; [|reflexivity]); vm_compute; reflexivity).
  destruct G as (d1 & fs & Bf & Ef). exists d1, fs, (tl (stats_layout f)). split; [exact Bf|]. clear Bf. subst fs.
  destruct f; (split; [reflexivity|]); (split; [reflexivity|]); (split; [reflexivity|]); (split; [vm_compute; intuition discriminate|]); (split; [vm_compute; intuition discriminate|]); reflexivity.
Qed.
Lemma stats_version f v t : In (t, stats_class f) (openflow_types v) -> (v = V01 <-> f = FStatsRequest \/ f = FStatsReply).
Proof.
  intros I. destruct v, f; cbn in I; split; intros H; auto; try discriminate H; try (destruct H as [H|H]; discriminate H); exfalso;
    repeat (destruct I as [I|I]; [discriminate I|]); exact I.
Qed.
Lemma form_enc m form inst body b : wf_bytes b -> form_instance form = Some inst -> unpack0 (S (S m)) inst b 0 = Ok body -> whole form b -> ends_in_nul body = true ->
  exists bb bout, enc_stats 2 form body bb bout /\ cleared_form form b bb.
Proof.
  intros Wf Fi U Wh Nul. destruct form as [c|c|]; cbn [whole form_instance] in *.
  - destruct Wh as (Ic & l & t & E & Lt). destruct (record_facts c l t Ic E) as (a & NI & F & Pt & Cp). rewrite NI in Fi. injection Fi as <-.
    assert (NE : b <> []) by (intros ->; cbn in Lt; lia).
    destruct (struct_enc 1 _ c a t b 0 body NE Wf F Cp U Lt Nul) as (attrs & bs' & outs & -> & Eo & Co). cbn [Nat.add] in Co.
    exists bs', (mk c outs). split.
    + eapply st_struct; [exact Eo|]. intros ->. apply cleared_keep in Co as [L1 _]. pose proof (slice_len 0 t b Lt) as L2. cbn [Nat.add] in L2. rewrite L2 in L1. cbn in L1. lia.
    + rewrite <- (firstn_skipn t b). apply cf_struct. exact Co.
  - injection Fi as <-. rewrite StructThm.unpack0_list in U. apply bind_ok in U as (items & Ui & U). assert (body = VList CFixedTypeList c items) as -> by (cbn [app] in U; congruence). clear U.
    destruct Wh as [->|(Ic & l & t & k & E & Lk)].
    + cbn [unpack_items] in Ui. change (new_instance CNone) with (@None pyval) in Ui.
      destruct (List.length b) as [|n] eqn:Lb; [|cbn in Ui; discriminate Ui]. destruct b; [|discriminate Lb]. assert (items = []) as -> by (cbn in Ui; congruence).
      exists [], (VList CFixedTypeList CNone []). split; [apply st_list; [reflexivity|constructor]|]. apply cf_list. constructor.
    + destruct (record_facts c l t Ic E) as (a & NI & F & Pt & Cp).
      destruct (records_enc 0 m c a t b NI F Pt Cp Wf _ 0%nat items CFixedTypeList c Ui (whole_items m c a t k b items NI F Pt _ _ Ui Lk) Nul) as (bs' & outs & Ei & Ci).
      exists bs', (VList CFixedTypeList c outs). split; [apply st_list; [reflexivity|exact Ei]|]. apply cf_list. exact Ci.
  - injection Fi as <-. rewrite unpack0_bin in U. assert (body = VBin (VBytes b)) as -> by (cbn [skipn] in U; congruence).
    exists b, (VBin (VBytes b)). split; [apply st_raw|apply cf_raw].
Qed.
Lemma form_keep form bs bs' : cleared_form form bs bs' -> (List.length bs' <= List.length bs)%nat /\ (wf_bytes bs -> wf_bytes bs').
Proof.
  intros [c b b' R|c b b' r C|b].
  - apply records_keep in R as [L W]. split; [lia|exact W].
  - apply cleared_keep in C as [L W]. rewrite app_length. split; [lia|]. intros X. apply Forall_app in X as [X _]. auto.
  - auto.
Qed.

Theorem reencode_stats f p attrs t form : wf_bytes p -> unpack_packet p = Ok (VObj (stats_class f) attrs) -> (stats_at f <= List.length p)%nat ->
  big_endian 2 t (slice 8 10 p) -> In (t, form) (stats_forms f) -> whole form (skipn (stats_at f) p) -> ends_in_nul (VObj (stats_class f) attrs) = true ->
  exists p', pack (VObj (stats_class f) attrs) = Ok p' /\ recoded_stats (stats_class f) (stats_at f) form p p'.
Proof.
  intros Wf U Ls Bt It Wh Nul.
  destruct (packet_sendable p _ attrs Wf U ltac:(destruct f; discriminate) ltac:(destruct f; discriminate)) as (v & a & Hv & I & Nm & Ca & Ub & Lp8 & Sd).
  destruct (stats_fields f) as (d1 & fs & l' & Bf & Sl & Hh & Lf & Nt & Nbd & Ss).
  assert (L8 : (8 < List.length p)%nat) by lia.
  destruct (stats_any f p attrs Wf L8 U) as (t' & form' & inst & body & Bt' & It' & Gt & Fi & Uy & Gb).
  assert (t' = t) as -> by (destruct Bt as (_ & _ & <-), Bt' as (_ & _ & <-); reflexivity).
  rewrite (forms_unique _ _ _ _ It' It) in Fi. clear It' form' Bt'.
  rewrite unpack_object in Ub. destruct (stats_shape 99 f a _ _ Ub) as (at1 & z & x & bb & inst' & body' & V & _ & Ec & _ & _ & _ & Ea).
  pose proof (message_complete _ _ _ _ _ _ _ I Ca V) as C1. destruct (message_class _ _ _ I) as (_ & _ & _ & (h & CA) & MF & _).
  assert (In1 : In (stats_type_name f) (field_names (stats_class f))) by (unfold field_names; rewrite CA, Bf; right; left; reflexivity).
  assert (In2 : In "body" (field_names (stats_class f))) by (unfold field_names; rewrite CA, Bf; right; right; rewrite map_app; apply in_or_app; right; left; reflexivity).
  assert (C : complete (stats_class f) attrs) by (rewrite Ea; apply complete_set; [apply complete_set; assumption|assumption]).
  unfold unpack_message_fields in V. apply bind_ok in V as ([at2 o1] & V & X). injection X as ->. rewrite MF, Bf in V.
  set (b := skipn 8 p) in *. assert (Wb : wf_bytes b) by (apply skip_wf, Wf). assert (Lb : List.length b = (List.length p - 8)%nat) by apply skipn_length.
  assert (NE : b <> []) by (intros X; apply (f_equal (@List.length _)) in X; rewrite Lb in X; cbn in X; lia).
  assert (Sm : forall nm, In nm (map fst fs) -> attr_of attrs nm = attr_of at1 nm).
  { intros nm J. rewrite Ea. rewrite !attr_set_other; [reflexivity| |]; intros ->; contradiction. }
  assert (exists bs' outs, enc_fields 3 SD true fs (map (attr_of attrs) (map fst fs)) bs' outs /\ cleared_all fs (slice 2 (2 + list_sum (map snd l')) b) bs') as (b2 & o2 & E2 & C2).
  { cbn [app unpack_fields] in V. destruct b as [|h0 tl0] eqn:Eb; [congruence|]. rewrite <- Eb in *. apply bind_ok in V as (q & Uq & V).
    assert (Fw : fw (deepcopy (VUInt 2 (Some (stats_type_enum f)) d1)) = Some 2%nat) by reflexivity.
    rewrite (fw_size _ _ _ _ _ _ Fw NE Uq) in V. cbn [bind] in V. change (0 + Z.to_nat (Z.of_nat 2))%nat with 2%nat in V.
    assert (D : NoDup (map fst (fs ++ [("body", VBin VNone)]))).
    { pose proof (class_names_nodup (stats_class f)) as D. rewrite CA, Bf in D. inversion D as [|? ? _ D1]; subst. inversion D1; assumption. }
    destruct (heads_enc 3 99 b NE l' fs [("body", VBin VNone)] Hh Lf D) with (attrs := set_attr (stats_type_name f) q a) (o := 2%nat) (r := (at1, o1)) as (_ & bs' & outs & Ef & Cf).
    - intros nm cv k w o J Fk Lo Uw Nw. eapply (field_enc 1 _ (stats_class f)); [|exact NE|exact Wb|exact Fk|exact Uw|exact Lo|exact Nw]. rewrite CA, Bf. right. right. apply in_or_app. left. exact J.
    - exact V.
    - lia.
    - cbn [fst]. intros nm w J G. apply (nul_attr _ _ nm w Nul). rewrite Ea. rewrite !get_set_other; [exact G| |]; intros ->; contradiction.
    - exists bs', outs. split; [|exact Cf]. erewrite map_ext_in; [exact Ef|]. intros nm J. cbn [fst]. apply Sm, J. }
  destruct (form_enc 97 form inst body (skipn (stats_at f) p) (skip_wf _ _ Wf) Fi Uy Wh (nul_attr _ _ _ _ Nul Gb)) as (b3 & o3 & E3 & C3).
  pose proof (big_encode _ _ _ Bt) as [Eb1 L1].
  assert (Pe : plain_enum (stats_type_enum f) = true /\ is_mask_enum (stats_type_enum f) = false) by (destruct f; split; reflexivity). destruct Pe as [Pe Me].
  assert (x = VEnum (stats_type_enum f) t) as ->.
  { assert (Gx : get_attr (stats_type_name f) attrs = Some x) by (rewrite Ea; rewrite get_set_other; [apply get_set_same|destruct f; discriminate]). congruence. }
  assert (De : declared (stats_type_enum f) t).
  { destruct (call_member _ _ _ Pe Ec) as (Q & D). injection Q as <-. exact D. }
  assert (exists outs, enc_body 1 v (stats_class f) attrs ((be_encode 2 t ++ b2) ++ b3) outs) as (outs & Eb).
  { eexists. eapply (b_stats 1 v f attrs (VEnum (stats_type_enum f) t) t form (VEnum (stats_type_enum f) t :: map (attr_of attrs) (map fst fs))
      ((stats_type_name f, VUInt 2 (Some (stats_type_enum f)) d1) :: fs)).
    - eapply stats_version, I.
    - exact Gt.
    - left. reflexivity.
    - exact Bf.
    - rewrite (body_vals _ _ _ _ I C), Bf. cbn [map fst]. rewrite (attr_of_get _ _ _ Gt), !map_app. cbn [map fst app]. reflexivity.
    - apply f_cons; [|exact E2]. apply e_uint; [lia|left; split; [discriminate|constructor]|exact L1|right; apply member_of, De].
    - unfold decoded_int. rewrite Me. reflexivity.
    - exact It.
    - rewrite (attr_of_get _ _ _ Gb). exact E3. }
  pose proof (proj2 cleared_keep _ _ _ C2) as [K2 W2]. pose proof (form_keep _ _ _ C3) as [K3 W3].
  assert (Lsl : List.length (slice 2 (2 + list_sum (map snd l')) b) = list_sum (map snd l')) by (apply slice_len; lia).
  assert (Wall : wf_bytes ((be_encode 2 t ++ b2) ++ b3)).
  { apply wf_app; [apply wf_app; [apply be_encode_wf|apply W2, slice_wf, Wb]|apply W3, skip_wf, Wf]. }
  pose proof (be_encode_length 2 t) as Le. rewrite skipn_length in K3.
  destruct (recode0 1 p (stats_class f) attrs v _ outs Wf Hv I Nm Lp8 (Sd C) Eb Wall ltac:(rewrite !app_length; lia)) as (p' & P & Sh & Sk).
  exists p'. split; [exact P|]. split; [exact Sh|].
  assert (S8 : forall j, skipn (8 + j) p' = skipn j ((be_encode 2 t ++ b2) ++ b3)) by (intros j; rewrite <- Sk, skip_skip; reflexivity).
  assert (Lh : List.length (be_encode 2 t ++ b2) = (stats_at f - 8)%nat) by (rewrite app_length; lia).
  split.
  - fold (body_fields (stats_class f)). rewrite Bf. rewrite app_comm_cons, removelast_last.
    replace (slice 8 (stats_at f) p) with (slice 8 10 p ++ slice 2 (2 + list_sum (map snd l')) b).
    2: { unfold b. rewrite slice_skip. rewrite <- Ss. exact (eq_sym (slice_two 8 2 (list_sum (map snd l')) p)). }
    replace (slice 8 (stats_at f) p') with (be_encode 2 t ++ b2).
    2: { replace (stats_at f) with (8 + (stats_at f - 8))%nat by lia. rewrite slice_body, Sk, <- Lh. rewrite firstn_app, Nat.sub_diag, firstn_all. cbn [firstn]. rewrite app_nil_r. reflexivity. }
    apply ca_cons; [|exact C2]. rewrite Eb1. apply cl_same. cbn [kept_width]. rewrite <- Eb1, Le. reflexivity.
  - replace (skipn (stats_at f) p') with b3; [exact C3|]. replace (stats_at f) with (8 + (stats_at f - 8))%nat by lia. rewrite S8, <- Lh.
    rewrite skipn_app, Nat.sub_diag, skipn_all. reflexivity.
Qed.
