(** C51: lists of objects of any size, and the bodies of statistics messages. *)
From Coq Require Import ZArith List Bool String Lia.
From Verif Require Import Base PyText Ids PyVal Classes Interp Utils Spec SpecMsg SpecBasic SpecLayout SpecDecode ClassFacts BaseFacts TextFacts IntFacts LeafFacts AddrFacts
  StructFacts DispatchFacts NetFacts2 FuelFacts UnpackTotal MutationFacts LayoutFacts WindowFacts LengthFacts DecodeFacts DecodeFacts2 Totality MsgBody.
From Verif Require StructThm.
Import ListNotations.
Open Scope string_scope.
Open Scope list_scope.
Open Scope Z_scope.

Lemma obj_obj m c a b o x : unpack0 (S m) (VObj c a) b o = Ok x -> exists c' a', x = VObj c' a'.
Proof.
  intros U. rewrite obj_kind_eq in U. unfold unpack_obj in U. destruct (kind c); 
    unfold len_unpack, bucket_unpack, typed_unpack, action01_unpack, action04_unpack, error_unpack, multipart_unpack, oxm_unpack, match04_unpack, match01_unpack,
      stats_request_unpack, stats_reply_unpack, unpack_structure in U; cbv zeta in U;
    repeat (apply bind_ok in U as (? & _ & U)); 
    repeat match type of U with (if ?x then _ else _) = _ => destruct x; repeat (apply bind_ok in U as (? & _ & U)) 
                              | match ?x with _ => _ end = _ => destruct x; try discriminate U; repeat (apply bind_ok in U as (? & _ & U)) end;
    try discriminate U; injection U as <-; eauto.
Qed.
Lemma items_laid m pc a b : wf_bytes b -> new_instance pc = Some (VObj pc a) ->
  forall K o items, unpack_items (unpack0 (S m)) (size0 (S m)) pc K b o = Ok items -> laid_out b o items.
Proof.
  intros Wf NI. induction K as [|K IH]; intros o items U; cbn [unpack_items] in U; destruct (Nat.ltb_spec o (List.length b)) as [L|L]; try discriminate U.
  - injection U as <-. constructor. lia.
  - rewrite NI in U. apply bind_ok in U as (v & Uv & U). apply bind_ok in U as (l0 & CI & U). apply bind_ok in U as (s & SZ & U). apply bind_ok in U as (rest & R & U). injection U as <-.
    destruct (obj_obj _ _ _ _ _ _ Uv) as (c' & a' & ->).
    cbn [flat check_items] in CI. destruct (cid_eqb pc CNone); [discriminate|]. destruct (subclass _ pc); [|discriminate]. cbn [bind] in CI. injection CI as <-. cbn [app].
    apply lo_next with (n := s); [exact L| |rewrite (size_of (S m)); [exact SZ|rewrite SZ; discriminate]|exact (IH _ _ R)].
    intros Sr l t name at_ w E Nh Pl. eapply object_reads; [exact Wf|exact Sr|exact Uv|exact E|exact Nh| |exact Pl]. intros Km. eapply new_match_fw; eassumption.
  - injection U as <-. constructor. lia.
Qed.
Lemma list_laid lc pc b off items a : wf_bytes b -> new_instance pc = Some (VObj pc a) -> unpack (VList lc pc []) b off = Ok (VList lc pc items) -> laid_out b off items.
Proof.
  intros Wf NI U. rewrite StructThm.unpack_list in U. apply bind_ok in U as (l0 & U & X). injection X as <-. exact (items_laid 98 pc a b Wf NI _ _ _ U).
Qed.

(** ** Statistics *)
Lemma all_forms f t : is_member (stats_type_enum f) t = true -> exists form, In (t, form) (stats_forms f).
Proof.
  intros M. unfold is_member in M. apply existsb_exists in M as (z & I & E). apply Z.eqb_eq in E. subst z.
  assert (T : forallb (fun z => existsb (fun p => fst p =? z) (stats_forms f)) (enum_values (enum_def (stats_type_enum f))) = true) by (destruct f; vm_compute; reflexivity).
  rewrite forallb_forall in T. specialize (T t I). apply existsb_exists in T as ([z form] & I2 & E). cbn [fst] in E. apply Z.eqb_eq in E. subst z. eauto.
Qed.
Definition stats_layout (f : stats_family) : list (string * nat) :=
  match openflow_layout (stats_class f) with Some (_ :: l, _) => l | _ => [] end.
Lemma body_is f : openflow_layout (stats_class f) = Some (("header", 8%nat) :: stats_layout f, stats_at f) /\
  message_fields (stats_class f) = removelast (message_fields (stats_class f)) ++ [("body", VBin VNone)] /\
  List.length (removelast (message_fields (stats_class f))) = List.length (stats_layout f) /\ (8 + list_sum (map snd (stats_layout f)) = stats_at f)%nat /\
  placed 8 (stats_layout f) (stats_type_name f) 8 2.
Proof. destruct f; (split; [reflexivity|]); (split; [reflexivity|]); (split; [reflexivity|]); (split; [reflexivity|]); left; auto. Qed.

Lemma unpack0_bin m x b o : unpack0 (S m) (VBin x) b o = Ok (VBin (VBytes (skipn o b))).
Proof. reflexivity. Qed.
Lemma stats_shape m f a b attrs : unpack_obj (unpack0 m) (size0 m) (stats_class f) a b 0 = Ok (VObj (stats_class f) attrs) ->
  exists at1 z x bb inst body, unpack_message_fields (unpack0 m) (size0 m) (stats_class f) a b 0 = Ok at1 /\
     attr_enum (stats_type_name f) at1 = Ok z /\ enum_call (stats_type_enum f) z = Ok x /\ attr_bytes "body" at1 = Ok bb /\ stats_instance f x z = Ok inst /\
     unpack0 m inst bb 0 = Ok body /\ attrs = set_attr "body" body (set_attr (stats_type_name f) x at1).
Proof.
  intros U. unfold unpack_obj in U. rewrite stats_kind in U. destruct f.
  - unfold stats_request_unpack in U. apply bind_ok in U as (at1 & V & U). apply bind_ok in U as (z & An & U). apply bind_ok in U as (x & Ec & U).
    apply bind_ok in U as (bb & Ab & U). apply bind_ok in U as (body & Uy & U). injection U as <-. exists at1, z, x, bb. eexists. exists body. repeat split; try eassumption; reflexivity.
  - unfold stats_reply_unpack in U. apply bind_ok in U as (at1 & V & U). apply bind_ok in U as (z & An & U). apply bind_ok in U as (x & Ec & U).
    apply bind_ok in U as (bb & Ab & U). apply bind_ok in U as (inst & Ei & U). apply bind_ok in U as (body & Uy & U). injection U as <-. exists at1, z, x, bb, inst, body.
    repeat split; try eassumption; reflexivity.
  - unfold multipart_unpack in U. apply bind_ok in U as (at1 & V & U). apply bind_ok in U as (z & An & U). apply bind_ok in U as (x & Ec & U).
    apply bind_ok in U as (inst & Ei & U). apply bind_ok in U as (bb & Ab & U). apply bind_ok in U as (body & Uy & U). injection U as <-. exists at1, z, x, bb, inst, body.
    repeat split; try eassumption; reflexivity.
  - unfold multipart_unpack in U. apply bind_ok in U as (at1 & V & U). apply bind_ok in U as (z & An & U). apply bind_ok in U as (x & Ec & U).
    apply bind_ok in U as (inst & Ei & U). apply bind_ok in U as (bb & Ab & U). apply bind_ok in U as (body & Uy & U). injection U as <-. exists at1, z, x, bb, inst, body.
    repeat split; try eassumption; reflexivity.
Qed.
(** What every statistics packet decodes to. *)
Lemma stats_any f p attrs : wf_bytes p -> (8 < List.length p)%nat -> unpack_packet p = Ok (VObj (stats_class f) attrs) ->
  exists t form inst body, big_endian 2 t (slice 8 10 p) /\ In (t, form) (stats_forms f) /\ get_attr (stats_type_name f) attrs = Some (VEnum (stats_type_enum f) t) /\
    form_instance form = Some inst /\ unpack0 99 inst (skipn (stats_at f) p) 0 = Ok body /\ get_attr "body" attrs = Some body.
Proof.
  intros Wf Lp U. destruct (body_is f) as (E & Mf & La & Ls & Pl).
  destruct (message_decoded _ _ _ _ _ Wf Lp U E _ _ _ Pl) as (d & v0 & Gd & Gv & Rd). change (8 + 2)%nat with 10%nat in Rd.
  destruct (packet_body _ _ U) as (v & ty & c' & a & I & Ub).
  assert (Lb : List.length (skipn 8 p) = (List.length p - 8)%nat) by apply skipn_length.
  assert (NE : skipn 8 p <> []) by (intros X; apply (f_equal (@List.length _)) in X; rewrite Lb in X; cbn in X; lia).
  destruct (kept_class _ _ _ _ _ _ _ _ I Ub) as [Mk ->]. rewrite unpack_object in Ub.
  assert (B : forall at1, unpack_message_fields (unpack0 99) (size0 99) (stats_class f) a (skipn 8 p) 0 = Ok at1 ->
     get_attr "body" at1 = Some (VBin (VBytes (skipn (stats_at f) p)))).
  { intros at1 V. unfold unpack_message_fields in V. apply bind_ok in V as (r & V & X). injection X as <-. rewrite Mf in V.
    pose proof (message_body_ok (stats_class f)) as T. unfold message_body in T. rewrite E in T. apply andb_prop in T as [T _]. apply andb_prop in T as [T _]. rewrite Mf in T.
    destruct (last_at 99 _ NE _ _ _ _ T La _ _ _ V) as (x & Ux & G). change (deepcopy (VBin VNone)) with (VBin VNone) in Ux. rewrite (unpack0_bin 98) in Ux. assert (x = VBin (VBytes (skipn (0 + list_sum (map snd (stats_layout f))) (skipn 8 p)))) as -> by congruence. rewrite G, skip_skip, <- Ls. reflexivity. }
  destruct (stats_shape 99 f a _ _ Ub) as (at1 & z & m & bb & inst & body & V & An & Ec & Ab & Si & Uy & ->).
  pose proof (B at1 V) as Gb. assert (bb = skipn (stats_at f) p) as -> by (unfold attr_bytes, attr_or_error in Ab; rewrite Gb in Ab; cbn [bind] in Ab; congruence).
  assert (Pe : plain_enum (stats_type_enum f) = true) by (destruct f; reflexivity).
  destruct (call_member _ _ _ Pe Ec) as (-> & De).
  assert (Nt : stats_type_name f <> "body") by (destruct f; discriminate).
  assert (Gt : get_attr (stats_type_name f) (set_attr "body" body (set_attr (stats_type_name f) (VEnum (stats_type_enum f) z) at1)) = Some (VEnum (stats_type_enum f) z))
    by (rewrite get_set_other by congruence; apply get_set_same).
  assert (Mb : is_member (stats_type_enum f) z = true).
  { unfold enum_call in Ec. destruct (is_member (stats_type_enum f) z); [reflexivity|]. unfold plain_enum in Pe. destruct (enum_def (stats_type_enum f)); discriminate. }
  destruct (all_forms f z Mb) as (form & If). destruct (stats_forms_ok f z form If) as (_ & _ & inst' & Fi & Si1 & _). rewrite Si1 in Si. injection Si as <-.
  exists z, form, inst', body. split; [|split; [exact If|split; [exact Gt|split; [exact Fi|split; [exact Uy|apply get_set_same]]]]].
  rewrite Gt in Gv. injection Gv as <-. destruct Rd as [Rd|(_ & w & er & d' & e & z' & -> & Bg & Ev & _)].
  - inversion Rd.
  - injection Ev as _ <-. assert (w = 2%nat) as -> by (clear - Gd; destruct f; cbn in Gd; congruence). exact Bg.
Qed.

Lemma forms_unique f t f1 f2 : In (t, f1) (stats_forms f) -> In (t, f2) (stats_forms f) -> f1 = f2.
Proof.
  intros I1 I2. assert (D : NoDup (map fst (stats_forms f))).
  { destruct f; cbn; repeat (constructor; [cbn; intros Q; repeat (destruct Q as [Q|Q]; [discriminate Q|]); exact Q|]); constructor. }
  revert I1 I2 D. generalize (stats_forms f) as l. induction l as [|[k x] l IH]; intros I1 I2 D; [destruct I1|]. cbn [map fst] in D. inversion D as [|? ? N D']; subst.
  destruct I1 as [E1|I1], I2 as [E2|I2]; [congruence| | |auto].
  - injection E1 as -> ->. exfalso. apply N, (in_map fst _ _ I2).
  - injection E2 as -> ->. exfalso. apply N, (in_map fst _ _ I1).
Qed.
Lemma stats_body f p attrs t form : wf_bytes p -> (8 < List.length p)%nat -> unpack_packet p = Ok (VObj (stats_class f) attrs) ->
  big_endian 2 t (slice 8 10 p) -> In (t, form) (stats_forms f) ->
  exists inst body, form_instance form = Some inst /\ unpack0 99 inst (skipn (stats_at f) p) 0 = Ok body /\ get_attr "body" attrs = Some body.
Proof.
  intros Wf Lp U Bt I. destruct (stats_any f p attrs Wf Lp U) as (t' & form' & inst & body & Bt' & I' & _ & Fi & Uy & G).
  assert (t' = t) as -> by (destruct Bt as (_ & _ & <-), Bt' as (_ & _ & <-); reflexivity).
  rewrite (forms_unique _ _ _ _ I' I) in Fi. eauto.
Qed.
Lemma stats_list f p attrs t c : wf_bytes p -> (8 < List.length p)%nat -> unpack_packet p = Ok (VObj (stats_class f) attrs) ->
  big_endian 2 t (slice 8 10 p) -> In (t, BList c) (stats_forms f) ->
  exists items, get_attr "body" attrs = Some (VList CFixedTypeList c items) /\ laid_out (skipn (stats_at f) p) 0 items.
Proof.
  intros Wf Lp U Bt I. destruct (stats_body f p attrs t _ Wf Lp U Bt I) as (inst & body & Fi & Uy & G). cbn [form_instance] in Fi. injection Fi as <-.
  change 99%nat with (S 98) in Uy. rewrite StructThm.unpack0_list in Uy. apply bind_ok in Uy as (items & Ui & Uy). injection Uy as <-. cbn [app] in G.
  exists items. split; [exact G|]. destruct (cid_eqb c CNone) eqn:Cn.
  - apply cid_eqb_eq in Cn. subst c. cbn [unpack_items] in Ui. change (new_instance CNone) with (@None pyval) in Ui.
    destruct (Nat.ltb_spec 0 (List.length (skipn (stats_at f) p))) as [L|L]; [discriminate Ui|]. injection Ui as <-. constructor. lia.
  - assert (exists a, new_instance c = Some (VObj c a)) as (a & NI).
    { assert (T : forallb (fun q => match snd q with BList c => cid_eqb c CNone || match new_instance c with Some (VObj c' _) => cid_eqb c' c | _ => false end | _ => true end) (stats_forms f) = true)
        by (destruct f; vm_compute; reflexivity).
      rewrite forallb_forall in T. specialize (T _ I). cbn [snd] in T. rewrite Cn in T. cbn [orb] in T. destruct (new_instance c) as [[| | | | | | | | | | | | |c' a| ]|]; try discriminate T.
      apply cid_eqb_eq in T. subst. eauto. }
    exact (items_laid 97 c a _ (wf_bytes_skipn _ _ Wf) NI _ _ _ Ui).
Qed.
Lemma stats_struct f p attrs t c : wf_bytes p -> (stats_at f < List.length p)%nat -> unpack_packet p = Ok (VObj (stats_class f) attrs) ->
  big_endian 2 t (slice 8 10 p) -> In (t, BStruct c) (stats_forms f) ->
  exists at1, get_attr "body" attrs = Some (VObj c at1) /\
    forall l u name at_ w, openflow_layout c = Some (l, u) -> placed 0 l name at_ w -> field_at c at1 p name (stats_at f + at_) w.
Proof.
  intros Wf Lp U Bt I. assert (Lq : (8 < List.length p)%nat) by (destruct f; cbn in Lp; lia).
  destruct (stats_body f p attrs t _ Wf Lq U Bt I) as (inst & body & Fi & Uy & G). cbn [form_instance] in Fi.
  assert (T : forallb (fun q => match snd q with BStruct c => match new_instance c with Some (VObj c' _) => cid_eqb c' c && match kind c with KStruct => true | _ => false end | _ => false end &&
      negb (existsb (fun p => cid_eqb (fst p) c) cut_by_length) && match openflow_layout c with Some (("header", _) :: _, _) => false | _ => true end | _ => true end) (stats_forms f) = true)
    by (destruct f; vm_compute; reflexivity).
  rewrite forallb_forall in T. specialize (T _ I). cbn [snd] in T. rewrite Fi in T. destruct inst as [| | | | | | | | | | | | |c' a| ]; try discriminate T.
  rewrite !andb_true_iff in T. destruct T as (((T1 & T2) & T3) & T4). apply cid_eqb_eq in T1. subst c'.
  assert (K : kind c = KStruct) by (destruct (kind c); try discriminate T2; reflexivity).
  assert (exists at1, body = VObj c at1) as (at1 & ->).
  { change 99%nat with (S 98) in Uy. rewrite obj_kind_eq in Uy. unfold unpack_obj in Uy. rewrite K in Uy. unfold unpack_structure in Uy. apply bind_ok in Uy as (r & _ & Uy). injection Uy as <-. eauto. }
  exists at1. split; [exact G|]. intros l u name at_ w E Pl. change 99%nat with (S 98) in Uy.
  assert (F : field_at c at1 (skipn (stats_at f) p) name (0 + at_) w).
  { refine (object_reads 98 c a _ 0 c at1 l u (wf_bytes_skipn _ _ Wf) _ Uy E _ _ name at_ w Pl).
    - split.
      + intros X. apply (f_equal (@List.length _)) in X. rewrite skipn_length in X. cbn in X. lia.
      + intros at2 _ J. exfalso. apply negb_true_iff in T3. rewrite <- not_true_iff_false in T3. apply T3, existsb_exists. exists (c, at2). split; [exact J|apply cid_eqb_refl].
    - intros l' ->. rewrite E in T4. discriminate T4.
    - rewrite K. discriminate. }
  destruct F as (d & v & Gd & Gv & R). exists d, v. split; [exact Gd|]. split; [exact Gv|]. rewrite slice_skip in R. rewrite <- Nat.add_assoc. exact R.
Qed.
Lemma stats_raw f p attrs t : wf_bytes p -> (8 < List.length p)%nat -> unpack_packet p = Ok (VObj (stats_class f) attrs) ->
  big_endian 2 t (slice 8 10 p) -> In (t, BRaw) (stats_forms f) -> get_attr "body" attrs = Some (VBin (VBytes (skipn (stats_at f) p))).
Proof.
  intros Wf Lp U Bt I. destruct (stats_body f p attrs t _ Wf Lp U Bt I) as (inst & body & Fi & Uy & G). cbn [form_instance] in Fi. injection Fi as <-.
  change 99%nat with (S 98) in Uy. cbn [unpack0 skipn] in Uy. injection Uy as <-. exact G.
Qed.
Lemma stats_type f p attrs : wf_bytes p -> (8 < List.length p)%nat -> unpack_packet p = Ok (VObj (stats_class f) attrs) ->
  exists t form, big_endian 2 t (slice 8 10 p) /\ In (t, form) (stats_forms f) /\ get_attr (stats_type_name f) attrs = Some (VEnum (stats_type_enum f) t).
Proof. intros Wf Lp U. destruct (stats_any f p attrs Wf Lp U) as (t & form & inst & body & B & I & G & _). eauto. Qed.
