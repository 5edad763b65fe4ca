(** Sending well-formed packets again: for C43. *)
From Coq Require Import ZArith List Bool String Lia.
From Verif Require Import Base PyText Ids PyVal Classes Interp Utils Spec SpecMsg SpecBasic SpecLayout SpecDecode SpecStruct SpecReencode SpecTidy ClassFacts BaseFacts TextFacts IntFacts LeafFacts
  AddrFacts StructFacts Soundness Closure StructThm RaisesFacts DispatchFacts NetFacts2 FuelFacts MutationFacts LayoutFacts WindowFacts LengthFacts MsgFacts MsgMain MsgBody DecodeFacts DecodeFacts2
  DecodeFacts3 ReencodeFacts ReencodeFacts2 ReencodeFacts3 ReencodeFacts4 ReencodeFacts5 TidyFacts TidyFacts2 TidyFacts3.
Import ListNotations.
Open Scope string_scope.
Open Scope list_scope.
Open Scope Z_scope.

Lemma get_set_all_other nm names : ~ In nm names -> forall vals a, get_attr nm (set_all names vals a) = get_attr nm a.
Proof.
  induction names as [|n names IH]; intros N vals a; [reflexivity|]. destruct vals as [|v vals]; [reflexivity|]. cbn [set_all].
  rewrite IH by (intros J; apply N; right; exact J). apply get_set_other. intros ->. apply N. left. reflexivity.
Qed.
Lemma set_all_read names : NoDup names -> forall vals a, List.length vals = List.length names -> map (attr_of (set_all names vals a)) names = vals.
Proof.
  induction names as [|n names IH]; intros D [|v vals] a L; try discriminate L; [reflexivity|]. inversion D as [|? ? Ni D']; subst. cbn [set_all map]. f_equal.
  - apply attr_of_get. rewrite get_set_all_other by exact Ni. apply get_set_same.
  - apply IH; [exact D'|]. cbn in L. lia.
Qed.
Lemma get_set_all names nm : forall vals a v, get_attr nm (combine names vals) = Some v -> NoDup names -> get_attr nm (set_all names vals a) = Some v.
Proof.
  induction names as [|n names IH]; intros [|w vals] a v G D; try discriminate G. inversion D as [|? ? Ni D']; subst. cbn [combine get_attr] in G. cbn [set_all].
  destruct (String.eqb_spec n nm) as [->|N].
  - injection G as ->. rewrite get_set_all_other by exact Ni. apply get_set_same.
  - apply IH; assumption.
Qed.
Lemma body_nodup c h : class_attrs c = h :: body_fields c -> NoDup (map fst (body_fields c)).
Proof. intros CA. pose proof (class_names_nodup c) as D. rewrite CA in D. inversion D; assumption. Qed.
Lemma body_decls c h : class_attrs c = h :: body_fields c -> forallb (fun p => decl_ok (snd p)) (body_fields c) = true.
Proof. intros CA. pose proof (decls_ok c) as D. rewrite CA in D. cbn [forallb] in D. apply andb_prop in D as [_ D]. exact D. Qed.

(** ** Nothing behind the header *)
Definition needs_bytes (d : pyval) : bool :=
  match d with VObj c _ => cid_eqb c Match01 | _ => match kept_width d with Some (S _) => true | _ => false end end.
Lemma first_empty k n d fs bs bs' : tidy_fields k ((n, d) :: fs) bs bs' -> bs = [] -> exists k' y, tidy k' d [] y.
Proof.
  intros T E. inversion T as [|? ? ? ? X|k0 n0 d0 fs0 b1 b1' b2 b2' X Y]; subst; [eauto|]. destruct b1; [eauto|discriminate].
Qed.
Lemma needs_some k d bs bs' : tidy k d bs bs' -> needs_bytes d = true -> bs <> [].
Proof.
  intros T N ->. inversion T as [? ? Kw| | |? ? ? ? ? O|]; subst; try discriminate N.
  - destruct d; try discriminate Kw; cbn in Kw, N; try discriminate; injection Kw as ->; discriminate N.
  - cbn [needs_bytes] in N. apply cid_eqb_eq in N. subst. inversion O as [? ? ? ? _ F|? ? ? ? ? L|? ? ? ? I|? ? ? ? ? ? ? I1 I2| | | |]; subst; try discriminate.
    change (class_attrs Match01) with attrs_Match01 in F. unfold attrs_Match01 in F. apply first_empty in F as (k' & y & F); [|reflexivity]. inversion F as [? ? Kw| | | |]; subst. discriminate Kw.
Qed.
Definition empty_start (c : cid) : bool :=
  match body_fields c with
  | [] => true
  | (_, d) :: fs => needs_bytes d || match fs, d with
      | [], VBin (VNone | VBytes []) => true
      | [], VList lc _ [] => subclass lc CFixedTypeList
      | _, _ => false
      end
  end.
Lemma empty_starts v t c : In (t, c) (openflow_types v) -> empty_start c = true.
Proof.
  intros I. assert (T : forallb (fun q => empty_start (snd q)) (openflow_types v) = true) by (destruct v; vm_compute; reflexivity).
  rewrite forallb_forall in T. exact (T _ I).
Qed.
Lemma empty_enc v t c k bs' a attrs o1 m : In (t, c) (openflow_types v) -> tidy_fields k (body_fields c) [] bs' ->
  unpack_fields (unpack0 m) (size0 m) (body_fields c) a [] 0 = Ok (attrs, o1) ->
  exists k outs, enc_fields 2 k true (body_fields c) (map (attr_of attrs) (map fst (body_fields c))) bs' outs.
Proof.
  intros I T U. pose proof (empty_starts _ _ _ I) as Es. unfold empty_start in Es.
  assert (Z' : bs' = []). { destruct tidy_len as (_ & L & _). destruct (L _ _ _ _ T) as [L1 _]. destruct bs'; [reflexivity|discriminate L1]. } subst bs'.
  destruct (body_fields c) as [|[n d] fs].
  - exists SD, []. constructor.
  - assert (N : needs_bytes d = false).
    { destruct (needs_bytes d) eqn:N; [|reflexivity]. exfalso. apply first_empty in T as (k' & y & T); [|reflexivity]. apply needs_some in T; [congruence|exact N]. }
    rewrite N in Es. cbn [orb] in Es. destruct fs; [|discriminate Es]. cbn [unpack_fields] in U. injection U as <- _. cbn [map fst]. rewrite attr_set.
    destruct d as [| | | | | | | | | | | |x| |lc pc i]; try discriminate Es.
    + exists TAIL, [VBin (VBytes [])]. apply f_last. destruct x as [| | |b0| | | | | | | | | | |]; try discriminate Es; [|destruct b0; [|discriminate Es] ]; cbn [deepcopy]; (apply e_bin; [discriminate|apply p_bin; constructor]).
    + exists TAIL, [VList CFixedTypeList pc []]. apply f_last. destruct i; [|discriminate Es]. cbn [deepcopy map]. destruct (cid_eqb lc CFixedTypeList) eqn:El.
      * apply cid_eqb_eq in El. subst lc. apply (e_list_plain 1 pc CFixedTypeList pc [] [] []); [reflexivity|constructor].
      * rewrite (cid_eqb_neq _ _ (list_class _ Es)). apply e_list; [intros ->; rewrite cid_eqb_refl in El; discriminate|exact Es|constructor].
Qed.

(** ** Fields *)
Lemma bytes_of (bs rest : bytes) p : wf_bytes p -> skipn 8 p = bs ++ rest -> wf_bytes bs /\ (List.length bs <= List.length p - 8)%nat.
Proof.
  intros Wf E. pose proof (skip_wf 8 p Wf) as W. rewrite E in W. apply Forall_app in W as [W _]. split; [exact W|].
  apply (f_equal (@List.length Z)) in E. rewrite skipn_length, app_length in E. lia.
Qed.
Theorem resend_fields p c attrs k bs bs' rest : wf_bytes p -> unpack_packet p = Ok (VObj c attrs) -> c <> QueueGetConfigRequest04 -> c <> QueueGetConfigReply04 ->
  ends_in_nul (VObj c attrs) = true -> special c = false -> skipn 8 p = bs ++ rest -> tidy_fields k (body_fields c) bs bs' -> (k = TAIL -> rest = []) ->
  exists p', pack (VObj c attrs) = Ok p' /\ same_header p p' /\ skipn 8 p' = bs'.
Proof.
  intros Wf U N1 N2 Nul Sp Eb T Hk. destruct (bytes_of _ _ _ Wf Eb) as [Wb Lb].
  destruct (packet_sendable p c attrs Wf U N1 N2) as (v & a & Hv & I & Nm & Ca & Ub & Lp8 & Sd).
  destruct (plain_message _ _ _ _ _ _ I Sp Ca Ub) as (C & Bv & m & o1 & Uf). destruct (message_class _ _ _ I) as (_ & _ & _ & (h & CA) & _).
  destruct tidy_len as (_ & TL & _). destruct (TL _ _ _ _ T) as [Ln Lw].
  assert (exists n k outs, enc_fields (S (S n)) k true (body_fields c) (body_values c attrs) bs' outs) as (n & k' & outs & Ef).
  { rewrite Bv. destruct (bs ++ rest) as [|x0 q] eqn:Eq.
    - rewrite Eb in Uf. apply app_eq_nil in Eq as [-> ->]. exists O. eapply empty_enc; eassumption.
    - rewrite Eb, <- Eq in Uf. destruct tidy_codes as (_ & TC & _).
      assert (Wa : wf_bytes ([] ++ bs ++ rest)) by (cbn [app]; rewrite Eq, <- Eb; apply skip_wf, Wf).
      destruct (TC _ _ _ _ T _ [] rest a (attrs, o1) Hk ltac:(cbn [app]; rewrite Eq; discriminate) Wa (body_decls _ _ CA) (body_nodup _ _ CA) Uf (nul_all _ _ _ Nul)) as (N & vals & Er & L & E).
      injection Er as -> _. rewrite set_all_read; [|apply (body_nodup _ _ CA)|rewrite map_length; exact L].
      exists N, k, vals. destruct enc_deeper as (_ & _ & Df & _). eapply Df; [exact E|lia]. }
  destruct (body_choice n v c attrs _ _ _ Sp Ef) as (outs' & Eo).
  eapply (recode0 n p c attrs v); try eassumption; [apply Sd, C|apply Lw, Wb|lia].
Qed.

(** ** PACKET_OUT *)
Definition port_width (v : of_version) : nat := match v with V01 => 2 | V04 => 4 end.
Definition port_end (v : of_version) : nat := match v with V01 => 6 | V04 => 8 end.
Lemma place_encode w z : 0 <= z < ulimit w -> place_value (be_encode w z) = z.
Proof. intros H. rewrite place_value_decode. apply be_decode_encode, H. Qed.
Lemma kept_uint w d bs bs' : tidy SD (VUInt w None d) bs bs' -> bs' = bs /\ List.length bs = w.
Proof. intros T. inversion T as [? ? K| | | |]; subst. cbn [kept_width] in K. split; [reflexivity|congruence]. Qed.
Lemma u16_nonempty p bs z : u16_at p bs z -> bs <> [].
Proof. intros (x & y & -> & _) E. apply (f_equal (@List.length Z)) in E. rewrite !app_length, be_encode_length in E. cbn in E. lia. Qed.

Lemma app_start {A} (a b c d : list A) : a ++ b = c ++ d -> List.length a = List.length c -> a = c /\ b = d.
Proof. intros E L. apply app_inj_len; [exact E|]. apply (f_equal (@List.length A)) in E. rewrite !app_length in E. lia. Qed.
Lemma tidy_step k n w d fs b b' : tidy_fields k ((n, VUInt w None d) :: fs) b b' -> exists x r r', b = x ++ r /\ b' = x ++ r' /\ List.length x = w /\ tidy_fields k fs r r'.
Proof.
  intros T. inversion T as [|? ? ? ? X|k0 n0 d0 fs0 b1 b1' b2 b2' X Y]; subst; [inversion X|]. apply kept_uint in X as [-> L]. eauto 10.
Qed.
Lemma enc_step N n w d fs vals b outs : enc_fields N SD true ((n, VUInt w None d) :: fs) vals b outs ->
  exists z vs r os, b = be_encode w z ++ r /\ 0 <= z < ulimit w /\ outs = VUInt w None (VInt z) :: os /\ enc_fields N SD true fs vs r os.
Proof.
  intros E. inversion E as [|? ? ? ? ? ? ? X|? ? ? ? ? iv b1 out fs0 ivs b2 os X Y]; subst. apply uint_inv in X as (z & _ & _ & B & _ & -> & -> & _). exists z, ivs, b2, os. auto.
Qed.

(** The fixed fields, read and written. *)
Lemma out_numbers v n vals vals0 b1 b1' z : tidy_fields SD (out_fixed v) b1 b1' -> enc_fields n SD true (out_fixed v) vals0 b1' vals ->
  u16_at (match v with V01 => 6 | V04 => 8 end) b1 z ->
  exists q, get_attr "in_port" (combine (map fst (out_fixed v)) vals) = Some (VUInt (port_width v) None (VInt q)) /\ q = place_value (slice 4 (port_end v) b1) /\
    get_attr "actions_len" (combine (map fst (out_fixed v)) vals) = Some (VUInt 2 None (VInt z)).
Proof.
  intros T E U.
  assert (G : exists tl, out_fixed v = [("buffer_id", VUInt 4 None VNone); ("in_port", VUInt (port_width v) None VNone); ("actions_len", VUInt 2 None VNone)] ++ tl) by (destruct v; eexists; reflexivity).
  destruct G as (tl & G). rewrite G in *. cbn [app] in T, E.
  apply tidy_step in T as (x1 & r1 & r1' & -> & -> & L1 & T). apply tidy_step in T as (x2 & r2 & r2' & -> & -> & L2 & T). apply tidy_step in T as (x3 & r3 & r3' & -> & -> & L3 & T).
  apply enc_step in E as (z1 & ? & s1 & ? & Q1 & B1 & -> & E). apply app_start in Q1 as [-> <-]; [|rewrite be_encode_length; exact L1].
  apply enc_step in E as (z2 & ? & s2 & ? & Q2 & B2 & -> & E). apply app_start in Q2 as [-> <-]; [|rewrite be_encode_length; exact L2].
  apply enc_step in E as (z3 & ? & s3 & ? & Q3 & B3 & -> & E). apply app_start in Q3 as [-> <-]; [|rewrite be_encode_length; exact L3].
  exists z2. cbn [app map fst combine get_attr String.eqb Ascii.eqb Bool.eqb]. split; [reflexivity|]. split.
  - rewrite slice_mid; [symmetry; apply place_encode, B2|symmetry; apply be_encode_length|rewrite be_encode_length; destruct v; reflexivity].
  - replace (match v with V01 => 6%nat | V04 => 8%nat end) with (List.length (be_encode 4 z1) + (List.length (be_encode (port_width v) z2) + 0))%nat in U
      by (rewrite !be_encode_length; destruct v; reflexivity).
    apply u16_skip, u16_skip in U. apply u16_start in U; [subst z; reflexivity|exact B3].
Qed.

Lemma out_read m v t a attrs b1 b1' b2 b2' data : In (t, out_class v) (openflow_types v) -> complete (out_class v) a -> ends_in_nul (VObj (out_class v) attrs) = true ->
  tidy_fields SD (out_fixed v) b1 b1' -> u16_at (match v with V01 => 6 | V04 => 8 end) b1 (zlen b2) -> tidy_items (out_item v) b2 b2' -> wf_bytes (b1 ++ b2 ++ data) ->
  unpack_obj (unpack0 (S m)) (size0 (S m)) (out_class v) a (b1 ++ b2 ++ data) 0 = Ok (VObj (out_class v) attrs) ->
  exists N vals items q, complete (out_class v) attrs /\ List.length vals = List.length (out_fixed v) /\
    attrs = set_attr "data" (VBin (VBytes data)) (set_attr "actions" (VList CFixedTypeList (out_item v) items) (set_all (map fst (out_fixed v)) vals a)) /\
    enc_fields N SD true (out_fixed v) vals b1' vals /\ enc_items N (out_item v) items b2' items /\
    get_attr "in_port" (combine (map fst (out_fixed v)) vals) = Some (VUInt (port_width v) None (VInt q)) /\ q = place_value (slice 4 (port_end v) b1) /\
    get_attr "actions_len" (combine (map fst (out_fixed v)) vals) = Some (VUInt 2 None (VInt (zlen b2))).
Proof.
  intros I Ca Nul T1 Un T2 Wb Ub.
  destruct (message_class _ _ _ I) as (_ & _ & _ & (h & CA) & MF & _). pose proof (u16_nonempty _ _ _ Un) as N1.
  assert (NE : b1 ++ b2 ++ data <> []) by (destruct b1; [congruence|discriminate]).
  unfold unpack_obj in Ub. rewrite out_kind in Ub.
  assert (V : packet_out_fields (unpack0 (S m)) (size0 (S m)) (message_fields (out_class v)) a (b1 ++ b2 ++ data) 0 = Ok attrs).
  { destruct v; apply bind_ok in Ub as (at1 & V & X); injection X as <-; exact V. }
  clear Ub. rewrite MF, out_fields, packet_out_split in V; [|exact NE|destruct v; cbn; intuition discriminate].
  pose proof (body_nodup _ _ CA) as Dn. pose proof (body_decls _ _ CA) as Dd. rewrite out_fields in Dn, Dd. rewrite map_app in Dn. rewrite forallb_app in Dd. apply andb_prop in Dd as [Dd _].
  assert (Dn1 : NoDup (map fst (out_fixed v))) by (destruct v; cbn; repeat constructor; cbn; intuition discriminate).
  apply bind_ok in V as (r & V & W). cbn [packet_out_fields String.eqb Ascii.eqb Bool.eqb] in W. cbv zeta in W.
  apply bind_ok in W as (y & Uy & W). apply bind_ok in Uy as (l & Al & Uy). apply bind_ok in W as (s & Sy & W). apply bind_ok in W as (y2 & Uy2 & W). apply bind_ok in W as (s2 & Sy2 & W).
  injection W as Ea. cbn [deepcopy] in Uy2. rewrite (unpack0_bin m) in Uy2.
  assert (Nr : nul_in (out_fixed v) (fst r)).
  { intros nm w J G. apply (nul_attr _ _ nm w Nul). rewrite <- Ea, !get_set_other; [exact G| |]; intros ->; destruct v; cbn in J; intuition discriminate. }
  destruct tidy_codes as (_ & TC & TI & _).
  destruct (TC _ _ _ _ T1 _ [] (b2 ++ data) a r ltac:(discriminate) NE Wb Dd Dn1 V Nr) as (N & vals & -> & L & E1). cbn [fst snd List.length Nat.add] in *.
  destruct (out_numbers v _ _ _ _ _ _ T1 E1 Un) as (q & Gq & Eq & Gl).
  unfold attr_num, attr_or_error in Al. rewrite (get_set_all _ _ _ a _ Gl Dn1) in Al. cbn in Al. injection Al as <-.
  rewrite slice_mid in Uy; [|reflexivity|unfold zlen; lia].
  assert (Sl : subclass (out_list v) CFixedTypeList = true /\ out_list v <> CFixedTypeList) by (destruct v; split; [reflexivity|discriminate|reflexivity|discriminate]). destruct Sl as [Sl Nl].
  cbn [deepcopy] in Uy. rewrite (cid_eqb_neq _ _ (list_class _ Sl)) in Uy. cbn [map] in Uy. rewrite StructThm.unpack0_list in Uy. apply bind_ok in Uy as (items & Ui & X). cbn [app] in X.
  assert (y = VList CFixedTypeList (out_item v) items) as -> by congruence. clear X.
  assert (Ny : ends_in_nul (VList CFixedTypeList (out_item v) items) = true).
  { apply (nul_attr _ _ "actions" _ Nul). rewrite <- Ea, get_set_other by discriminate. apply get_set_same. }
  destruct (TI _ _ _ T2 _ _ [] items CFixedTypeList ltac:(apply Forall_app in Wb as [_ Wb]; apply Forall_app in Wb as [Wb _]; exact Wb) Ui Ny) as (N' & E2).
  destruct tidy_len as (_ & TL & TLi & _). destruct (TL _ _ _ _ T1) as [Ln1 W1]. destruct (TLi _ _ _ T2) as [Ln2 W2].
  assert (El : enc (S N') TAIL true (VList (out_list v) (out_item v) []) (VList CFixedTypeList (out_item v) items) b2' (VList CFixedTypeList (out_item v) items)) by (apply e_list; assumption).
  assert (s = zlen b2').
  { pose proof El as Q. apply soundness in Q as (_ & _ & _ & Q & _). exact (size_agree _ _ _ _ _ Sy Q). }
  subst s. assert (y2 = VBin (VBytes data)) as ->.
  { replace (List.length b1 + Z.to_nat (zlen b2'))%nat with (List.length (b1 ++ b2)) in Uy2 by (rewrite app_length; unfold zlen; lia). rewrite app_assoc, skipn_app, skipn_all, Nat.sub_diag in Uy2. cbn [skipn app] in Uy2. congruence. }
  assert (Fn : field_names (out_class v) = "header" :: map fst (out_fixed v) ++ ["actions"; "data"]) by (unfold field_names; rewrite CA, out_fields; cbn [map]; rewrite map_app; reflexivity).
  assert (C0 : complete (out_class v) (set_all (map fst (out_fixed v)) vals a)).
  { apply (fields_complete (out_class v) _ _ (out_fixed v)) in V; [exact V| |exact Ca]. intros nm J. rewrite Fn. right. apply in_or_app. left. apply in_map, J. }
  assert (C : complete (out_class v) attrs).
  { rewrite <- Ea. apply complete_set; [apply complete_set; [exact C0|]|]; rewrite Fn; right; apply in_or_app; right; [left|right; left]; reflexivity. }
  destruct enc_deeper as (_ & _ & Df & Di & _).
  exists (N + N')%nat, vals, items, q. split; [exact C|]. split; [exact L|]. split; [symmetry; exact Ea|]. split; [eapply Df; [exact E1|lia]|]. split; [eapply Di; [exact E2|lia]|]. auto.
Qed.

Theorem resend_packet_out v p attrs fs lc pc d b1 b1' b2 b2' data : wf_bytes p -> unpack_packet p = Ok (VObj (out_class v) attrs) -> ends_in_nul (VObj (out_class v) attrs) = true ->
  body_fields (out_class v) = fs ++ [("actions", VList lc pc []); ("data", d)] -> tidy_fields SD fs b1 b1' -> u16_at (match v with V01 => 6 | V04 => 8 end) b1 (zlen b2) -> tidy_items pc b2 b2' ->
  sending_port v (place_value (slice 4 (match v with V01 => 6 | V04 => 8 end) b1)) -> skipn 8 p = b1 ++ b2 ++ data ->
  exists p', pack (VObj (out_class v) attrs) = Ok p' /\ same_header p p' /\ skipn 8 p' = b1' ++ b2' ++ data.
Proof.
  intros Wf U Nul Bf T1 Un T2 Sp Eb. rewrite out_fields in Bf.
  change [("actions", VList (out_list v) (out_item v) []); ("data", VBin VNone)] with ([("actions", VList (out_list v) (out_item v) [])] ++ [("data", VBin VNone)]) in Bf.
  change [("actions", VList lc pc []); ("data", d)] with ([("actions", VList lc pc [])] ++ [("data", d)]) in Bf. rewrite !app_assoc in Bf.
  apply app_inj_tail in Bf as [Bf E]. injection E as <-. apply app_inj_tail in Bf as [<- E]. injection E as <- <-.
  destruct (packet_sendable p _ attrs Wf U ltac:(destruct v; discriminate) ltac:(destruct v; discriminate)) as (v' & a & Hv & I & Nm & Ca & Ub & Lp8 & Sd).
  assert (v' = v) as -> by (destruct v, v'; try reflexivity; exfalso; cbn in I; repeat (destruct I as [I|I]; [discriminate I|]); destruct I).
  pose proof (skip_wf 8 p Wf) as Wb. rewrite Eb in Wb, Ub. rewrite unpack_object in Ub.
  destruct (out_read 98 v _ a attrs b1 b1' b2 b2' data I Ca Nul T1 Un T2 Wb Ub) as (N & vals & items & q & C & L & Ea & E1 & E2 & Gq & Eq & Gl). clear Ub.
  assert (Dn1 : NoDup (map fst (out_fixed v))) by (destruct v; cbn; repeat constructor; cbn; intuition discriminate).
  destruct tidy_len as (_ & TL & TLi & _). destruct (TL _ _ _ _ T1) as [Ln1 W1]. destruct (TLi _ _ _ T2) as [Ln2 W2].
  assert (Sl : subclass (out_list v) CFixedTypeList = true /\ out_list v <> CFixedTypeList) by (destruct v; split; [reflexivity|discriminate|reflexivity|discriminate]). destruct Sl as [Sl Nl].
  destruct (message_class _ _ _ I) as (_ & _ & _ & (h & CA) & _ & _).
  assert (Fn : field_names (out_class v) = "header" :: map fst (out_fixed v) ++ ["actions"; "data"]) by (unfold field_names; rewrite CA, out_fields; cbn [map]; rewrite map_app; reflexivity).
  assert (Ev : body_values (out_class v) (set_attr "actions_len" (VInt (zlen b2')) attrs)
               = map snd (set_attr "actions_len" (VInt (zlen b2)) (combine (map fst (out_fixed v)) vals)) ++ [VList CFixedTypeList (out_item v) items; VBin (VBytes data)]).
  { rewrite (body_vals _ _ _ _ I); [|apply complete_set; [exact C|rewrite Fn; right; apply in_or_app; left; destruct v; right; right; left; reflexivity] ].
    rewrite out_fields, Ea, map_app, map_app. replace (zlen b2') with (zlen b2) by (unfold zlen; lia). f_equal.
    - clear - L. destruct v; cbn [out_fixed List.length] in L; destruct vals as [|w1 [|w2 [|w3 vals] ] ]; try discriminate L;
        [destruct vals; [|discriminate L]|destruct vals as [|w4 [|] ]; try discriminate L]; cbn [out_fixed map fst set_all combine set_attr String.eqb Ascii.eqb Bool.eqb snd];
        repeat (rewrite attr_set || rewrite attr_set_other by discriminate); reflexivity.
    - cbn [map fst]. repeat (rewrite attr_set || rewrite attr_set_other by discriminate). reflexivity. }
  destruct enc_deeper as (De & _ & Df & _).
  assert (exists outs, enc_body N v (out_class v) attrs (b1' ++ b2' ++ data) outs) as (outs & Eo).
  { eexists. eapply (b_packet_out N v attrs (VUInt (port_width v) None (VInt q)) q (zlen b2')).
    - rewrite Ea, !get_set_other by discriminate. apply get_set_all; assumption.
    - apply ie_uint.
    - rewrite Eq. exact Sp.
    - apply out_fields.
    - exact Ev.
    - eapply Df; [|instantiate (1 := N); lia]. eapply enc_set; [exact E1|exact Dn1|exact Gl|destruct v; reflexivity].
    - eapply De; [apply e_list; [exact Nl|exact Sl|exact E2]|lia].
    - reflexivity.
    - apply e_bin; [discriminate|]. apply p_bin, p_bytes. }
  assert (Lp : List.length (skipn 8 p) = List.length (b1 ++ b2 ++ data)) by (rewrite Eb; reflexivity). rewrite skipn_length, !app_length in Lp.
  apply Forall_app in Wb as [Wb1 Wb2]. apply Forall_app in Wb2 as [Wb2 Wb3].
  eapply (recode0 N p _ attrs v); try eassumption; [apply Sd, C|apply wf_app; [apply W1, Wb1|apply wf_app; [apply W2, Wb2|exact Wb3] ]|rewrite !app_length; lia].
Qed.

(** ** Statistics *)
Lemma body_len form bs bs' : tidy_body form bs bs' -> same_len bs bs'.
Proof. destruct tidy_len as (_ & _ & Li & Lo). intros [? ? ? X|? ? ? ? X _|?]; [apply Li in X|apply Lo in X|apply same_refl]; exact X. Qed.
Lemma form_object f t c inst : In (t, BStruct c) (stats_forms f) -> new_instance c = Some inst -> exists a, inst = VObj c a.
Proof.
  intros I N. assert (T : forallb (fun q => match snd q with BStruct c => match new_instance c with Some (VObj c' _) => cid_eqb c' c | _ => false end | _ => true end) (stats_forms f) = true) by (destruct f; vm_compute; reflexivity).
  rewrite forallb_forall in T. specialize (T _ I). cbn [snd] in T. rewrite N in T. destruct inst; try discriminate T. apply cid_eqb_eq in T. subst. eauto.
Qed.
Lemma body_read m f t form inst b b' rest body : In (t, form) (stats_forms f) -> tidy_body form b b' -> (rest = [] \/ exists c, form = BStruct c /\ tidy_obj SD c b b') -> wf_bytes (b ++ rest) ->
  form_instance form = Some inst -> unpack0 (S m) inst (b ++ rest) 0 = Ok body -> ends_in_nul body = true -> exists N out, enc_stats N form body b' out.
Proof.
  intros If T Hr Wf Fi U Nul. destruct tidy_codes as (_ & _ & TI & TO). destruct enc_deeper as (_ & _ & _ & _ & Do). destruct T as [c bs bs' T|k c bs bs' T NE|bs].
  - destruct Hr as [->|(c' & Ec & _)]; [|discriminate Ec]. rewrite app_nil_r in *. cbn [form_instance] in Fi. injection Fi as <-. rewrite StructThm.unpack0_list in U. apply bind_ok in U as (items & Ui & U). cbn [app] in U.
    assert (body = VList CFixedTypeList c items) as -> by congruence. destruct (TI _ _ _ T _ _ [] items CFixedTypeList Wf Ui Nul) as (N & E).
    exists N, (VList CFixedTypeList c items). apply st_list; [reflexivity|exact E].
  - cbn [form_instance] in Fi. assert (exists a, inst = VObj c a /\ map fst a = start_keys c) as (a & -> & Ka).
    { destruct (form_object _ _ _ _ If Fi) as (a & ->). exists a. split; [reflexivity|]. unfold start_keys. rewrite Fi. reflexivity. }
    assert (exists k', tidy_obj k' c bs bs' /\ (k' = TAIL -> rest = [])) as (k' & T' & Hk).
    { destruct Hr as [->|(c' & Ec & T')]; [exists k; auto|]. injection Ec as <-. exists SD. split; [exact T'|discriminate]. }
    assert (NE2 : bs ++ rest <> []) by (destruct bs; [congruence|discriminate]).
    destruct (TO _ _ _ _ T' _ a [] rest body Hk NE2 Wf Ka U Nul) as (N & E). exists N, body. eapply st_struct; [eapply Do; [exact E|lia]|].
    destruct tidy_len as (_ & _ & _ & Lo). destruct (Lo _ _ _ _ T) as [Ln _]. intros ->. destruct bs; [congruence|discriminate Ln].
  - destruct Hr as [->|(c' & Ec & _)]; [|discriminate Ec]. rewrite app_nil_r in *. cbn [form_instance] in Fi. injection Fi as <-. rewrite unpack0_bin in U. cbn [skipn] in U.
    assert (body = VBin (VBytes bs)) as -> by congruence. exists 1%nat, (VBin (VBytes bs)). apply st_raw.
Qed.
Lemma stats_deeper n m form v b out : enc_stats n form v b out -> (n <= m)%nat -> enc_stats m form v b out.
Proof.
  destruct enc_deeper as (_ & Dp & _ & Di & Do). intros E L. destruct E; [eapply st_struct|eapply st_list|eapply st_single|apply st_nothing|apply st_raw_none|eapply st_raw..]; eauto.
  eapply Do; [eassumption|lia].
Qed.
Definition fixed_width (d : pyval) : nat := match d with VUInt w _ _ => w | VPad k => k | _ => 0 end.
Lemma fixed_len A : (forall q, In q A -> match snd q with VUInt _ _ _ | VPad _ => True | _ => False end) -> forall b b', tidy_fields SD A b b' -> List.length b = list_sum (map (fun q => fixed_width (snd q)) A).
Proof.
  induction A as [|[n d] A IH]; intros H b b' T; inversion T as [| |k0 n0 d0 fs0 b1 b1' b2 b2' X Y]; subst; [reflexivity|]. rewrite app_length, (IH (fun q J => H q (or_intror J)) _ _ Y). cbn [map list_sum fold_right snd]. f_equal.
  specialize (H (n, d) (or_introl eq_refl)). cbn [snd] in H. destruct d; try contradiction; inversion X as [? ? K| | | |]; subst; cbn [kept_width fixed_width] in *; try discriminate; congruence.
Qed.
Lemma stats_prefix f fs d b b' : body_fields (stats_class f) = fs ++ [("body", d)] -> tidy_fields SD fs b b' -> (8 + List.length b)%nat = stats_at f /\ d = VBin VNone.
Proof.
  intros Bf T. assert (fs = removelast (body_fields (stats_class f)) /\ d = snd (last (body_fields (stats_class f)) ("", VNone))) as [-> ->] by (rewrite Bf, removelast_last, last_last; auto).
  split; [|destruct f; reflexivity]. erewrite (fixed_len _ _ _ _ T). Unshelve.
  2: { destruct f; cbn; intros q J; repeat (destruct J as [<-|J]; [exact Logic.I|]); destruct J. }
  destruct f; reflexivity.
Qed.

(** The fixed fields, read and written, with the type as a member. *)
Lemma stats_numbers f n d1 fs t v0 vals b b' : enc_fields n SD true ((stats_type_name f, VUInt 2 (Some (stats_type_enum f)) d1) :: fs) (v0 :: vals) b' (v0 :: vals) ->
  tidy_fields SD ((stats_type_name f, VUInt 2 (Some (stats_type_enum f)) d1) :: fs) b b' -> u16_at 0 b t ->
  enc_fields n SD true ((stats_type_name f, VUInt 2 (Some (stats_type_enum f)) d1) :: fs) (VEnum (stats_type_enum f) t :: vals) b' (VUInt 2 (Some (stats_type_enum f)) (VEnum (stats_type_enum f) t) :: vals).
Proof.
  intros E T U. inversion T as [|? ? ? ? X|k0 n0 d0 fs0 b1 b1' b2 b2' X Y]; subst. inversion X as [? ? K| | | |]; subst. clear X.
  inversion E as [|? ? ? ? ? ? ? Z|? ? ? ? ? iv c1 out fs0 ivs c2 os X Z]; subst. pose proof X as X'. apply uint_inv in X' as (z & _ & _ & B & Al & -> & -> & n' & ->).
  match goal with H : be_encode _ _ ++ _ = _ ++ _ |- _ => apply app_start in H as [<- <-]; [|rewrite be_encode_length; cbn in K; congruence] end.
  apply u16_start in U; [|exact B]. subst z.
  assert (Me : is_mask_enum (stats_type_enum f) = false) by (destruct f; reflexivity).
  assert (D : decoded_int (Some (stats_type_enum f)) t = VEnum (stats_type_enum f) t) by (unfold decoded_int; rewrite Me; reflexivity). rewrite <- D at 2.
  apply f_cons; [|exact Z]. apply e_uint; [lia|left; split; [discriminate|constructor]|exact B|exact Al].
Qed.
Lemma nodup_start {A} (a b : list A) : NoDup (a ++ b) -> NoDup a.
Proof. induction a as [|x a IH]; intros D; [constructor|]. inversion D as [|? ? N D']; subst. constructor; [intros J; apply N, in_or_app; auto|apply IH, D']. Qed.
Lemma num_nul v z : num_of v = Ok z -> ends_in_nul v = true.
Proof. destruct v; try discriminate; reflexivity. Qed.
Lemma stats_read m f fs t0 a attrs b1 b1' r : In (t0, stats_class f) (openflow_types (match f with FStatsRequest | FStatsReply => V01 | _ => V04 end)) -> complete (stats_class f) a ->
  ends_in_nul (VObj (stats_class f) attrs) = true -> body_fields (stats_class f) = fs ++ [("body", VBin VNone)] -> tidy_fields SD fs b1 b1' -> b1 <> [] -> wf_bytes (b1 ++ r) ->
  unpack_obj (unpack0 (S m)) (size0 (S m)) (stats_class f) a (b1 ++ r) 0 = Ok (VObj (stats_class f) attrs) ->
  complete (stats_class f) attrs /\ exists N v0 vals, enc_fields N SD true fs (v0 :: vals) b1' (v0 :: vals) /\ map (attr_of attrs) (tl (map fst fs)) = vals.
Proof.
  intros I Ca Nul Bf T NE0 Wb Ub. destruct (stats_shape _ f a _ _ Ub) as (at1 & z & x & bb & inst & body & V & At & _ & _ & _ & _ & Ea).
  pose proof (message_complete _ _ _ _ _ _ _ I Ca V) as C1. destruct (message_class _ _ _ I) as (_ & _ & _ & (h & CA) & MF & _).
  destruct (stats_fields f) as (d1 & fs0 & l' & Bf0 & _ & _ & _ & Nt & Nbd & _).
  rewrite Bf0, app_comm_cons in Bf. apply app_inj_tail in Bf as [<- _].
  assert (In1 : In (stats_type_name f) (field_names (stats_class f))) by (unfold field_names; rewrite CA, Bf0; right; left; reflexivity).
  assert (In2 : In "body" (field_names (stats_class f))) by (unfold field_names; rewrite CA, Bf0; right; right; rewrite map_app; apply in_or_app; right; left; reflexivity).
  split; [rewrite Ea; apply complete_set; [apply complete_set; assumption|assumption]|].
  assert (NE : b1 ++ r <> []) by (destruct b1; [congruence|discriminate]).
  unfold unpack_message_fields in V. apply bind_ok in V as ([at2 o1] & V & X). injection X as ->. rewrite MF, Bf0, app_comm_cons, unpack_fields_app in V. apply bind_ok in V as (q & V & W).
  assert (Eat : exists w, at1 = set_attr "body" w (fst q)).
  { cbn [unpack_fields] in W. destruct (b1 ++ r) eqn:Eb; [congruence|]. rewrite <- Eb in *. apply bind_ok in W as (w & _ & W). apply bind_ok in W as (s & _ & W). injection W as <- _. eauto. }
  destruct Eat as (w & ->).
  pose proof (body_nodup _ _ CA) as Dn. pose proof (body_decls _ _ CA) as Dd. rewrite Bf0, app_comm_cons in Dn, Dd. rewrite map_app in Dn. apply nodup_start in Dn.
  rewrite forallb_app in Dd. apply andb_prop in Dd as [Dd _].
  set (A := (stats_type_name f, VUInt 2 (Some (stats_type_enum f)) d1) :: fs0) in *.
  assert (Tb : stats_type_name f <> "body") by (destruct f; discriminate).
  assert (Nr : nul_in A (fst q)).
  { intros nm u J G. destruct J as [<-|J].
    - unfold attr_enum, attr_or_error in At. cbn [fst] in G. rewrite get_set_other, G in At by exact Tb. cbn [bind] in At. destruct (num_of u) eqn:Nu; [|discriminate]. eapply num_nul, Nu.
    - apply (nul_attr _ _ nm u Nul). rewrite Ea, !get_set_other; [exact G| | |]; intros ->; contradiction. }
  destruct tidy_codes as (_ & TC & _).
  destruct (TC _ _ _ _ T _ [] r a q ltac:(discriminate) NE Wb Dd Dn V Nr) as (N & vals & -> & L & E). cbn [fst] in Ea.
  destruct vals as [|v0 vals]; [discriminate L|]. exists N, v0, vals. split; [exact E|].
  pose proof (set_all_read _ Dn (v0 :: vals) a ltac:(rewrite map_length; exact L)) as R. unfold A in R at 2. cbn [map fst] in R. injection R as _ R.
  transitivity (map (attr_of (set_all (map fst A) (v0 :: vals) a)) (map fst fs0)); [|exact R]. cbn [tl map fst A]. apply map_ext_in. intros nm J. unfold attr_of.
  rewrite Ea, !get_set_other; [reflexivity| | |]; intros ->; contradiction.
Qed.
Lemma family_version f v t : In (t, stats_class f) (openflow_types v) -> v = match f with FStatsRequest | FStatsReply => V01 | _ => V04 end.
Proof. intros I. destruct v, f; try reflexivity; exfalso; cbn in I; repeat (destruct I as [I|I]; [discriminate I|]); exact I. Qed.
Lemma u16_slice p bs r z : u16_at p bs z -> slice p (p + 2) (bs ++ r) = be_encode 2 z.
Proof. intros (x & y & -> & <- & _). rewrite <- !app_assoc. apply slice_mid; [reflexivity|rewrite be_encode_length; reflexivity]. Qed.

Theorem resend_stats f p attrs fs d t form b1 b1' b2 b2' rest : wf_bytes p -> unpack_packet p = Ok (VObj (stats_class f) attrs) -> ends_in_nul (VObj (stats_class f) attrs) = true ->
  body_fields (stats_class f) = fs ++ [("body", d)] -> tidy_fields SD fs b1 b1' -> u16_at 0 b1 t -> In (t, form) (stats_forms f) ->
  tidy_body form b2 b2' -> (rest = [] \/ exists c, form = BStruct c /\ tidy_obj SD c b2 b2') -> skipn 8 p = (b1 ++ b2) ++ rest ->
  exists p', pack (VObj (stats_class f) attrs) = Ok p' /\ same_header p p' /\ skipn 8 p' = b1' ++ b2'.
Proof.
  intros Wf U Nul Bf T1 Ut It T2 Hr Eb. destruct (stats_prefix _ _ _ _ _ Bf T1) as [La ->].
  destruct (packet_sendable p _ attrs Wf U ltac:(destruct f; discriminate) ltac:(destruct f; discriminate)) as (v & a & Hv & I & Nm & Ca & Ub & Lp8 & Sd).
  pose proof (family_version _ _ _ I) as Fv. pose proof (u16_nonempty _ _ _ Ut) as N1.
  assert (Lp : (List.length p - 8 = List.length b1 + List.length b2 + List.length rest)%nat) by (pose proof (f_equal (@List.length Z) Eb) as X; rewrite skipn_length, !app_length in X; exact X).
  assert (L8 : (8 < List.length p)%nat) by (destruct b1; [congruence|cbn in Lp; lia]).
  destruct (stats_any f p attrs Wf L8 U) as (t' & form' & inst & body & Bt' & It' & Gt & Fi & Uy & Gb).
  rewrite <- app_assoc in Eb. pose proof (skip_wf 8 p Wf) as Wb. rewrite Eb in Wb, Ub.
  assert (t' = t).
  { assert (X : slice 8 10 p = be_encode 2 t). { change (slice 8 10 p) with (slice (8 + 0) (8 + 2) p). rewrite <- slice_skip, Eb. apply (u16_slice 0), Ut. }
    destruct Bt' as (_ & _ & <-). rewrite X. apply place_encode. destruct Ut as (? & ? & _ & _ & B). exact B. } subst t'.
  rewrite (forms_unique _ _ _ _ It' It) in Fi. clear It' form' Bt'.
  assert (Es : skipn (stats_at f) p = b2 ++ rest).
  { rewrite <- La, <- skip_skip, Eb, skipn_app, skipn_all, Nat.sub_diag. reflexivity. }
  rewrite Es in Uy. rewrite unpack_object in Ub.
  pose proof Wb as W0. apply Forall_app in W0 as [Wb1 Wb23]. pose proof Wb23 as W0. apply Forall_app in W0 as [Wb2 Wb3].
  assert (I' := I). rewrite Fv in I'. destruct (stats_read 98 f fs _ a attrs b1 b1' (b2 ++ rest) I' Ca Nul Bf T1 N1 Wb Ub) as (C & N & v0 & vals & E1 & Ev). clear Ub.
  destruct (body_read 98 f t form inst b2 b2' rest body It T2 Hr Wb23 Fi Uy (nul_attr _ _ _ _ Nul Gb)) as (N' & out & E2). clear Uy.
  destruct (stats_fields f) as (d1 & fs0 & l' & Bf0 & _ & _ & _ & _ & _ & _).
  pose proof Bf as Bf'. rewrite Bf0, app_comm_cons in Bf'. apply app_inj_tail in Bf' as [<- _]. cbn [map fst tl] in Ev.
  pose proof (stats_numbers _ _ _ _ _ _ _ _ _ E1 T1 Ut) as E3. destruct enc_deeper as (_ & _ & Df & _).
  assert (exists outs, enc_body (N + N') v (stats_class f) attrs (b1' ++ b2') outs) as (outs & Eo).
  { eexists. eapply (b_stats (N + N') v f attrs (VEnum (stats_type_enum f) t) t form (VEnum (stats_type_enum f) t :: vals)
      ((stats_type_name f, VUInt 2 (Some (stats_type_enum f)) d1) :: fs0)).
    - eapply stats_version, I.
    - exact Gt.
    - left. reflexivity.
    - exact Bf0.
    - rewrite (body_vals _ _ _ _ I C), Bf0. cbn [map fst]. rewrite (attr_of_get _ _ _ Gt), !map_app, Ev. cbn [map fst app]. reflexivity.
    - eapply Df; [exact E3|lia].
    - reflexivity.
    - exact It.
    - rewrite (attr_of_get _ _ _ Gb). eapply stats_deeper; [exact E2|lia]. }
  destruct tidy_len as (_ & TL & _). destruct (TL _ _ _ _ T1) as [Ln1 W1]. destruct (body_len _ _ _ T2) as [Ln2 W2].
  eapply (recode0 (N + N') p _ attrs v); try eassumption; [apply Sd, C|apply wf_app; [apply W1, Wb1|apply W2, Wb2]|rewrite !app_length; lia].
Qed.

(** ** All messages *)
Theorem resend p c attrs bs bs' rest : wf_bytes p -> unpack_packet p = Ok (VObj c attrs) -> c <> QueueGetConfigRequest04 -> c <> QueueGetConfigReply04 ->
  ends_in_nul (VObj c attrs) = true -> skipn 8 p = bs ++ rest -> tidy_message c bs bs' rest ->
  exists p', pack (VObj c attrs) = Ok p' /\ same_header p p' /\ skipn 8 p' = bs'.
Proof.
  intros Wf U N1 N2 Nul Eb T. destruct T.
  - eapply resend_fields; eassumption.
  - rewrite app_nil_r in Eb. eapply resend_packet_out; eassumption.
  - eapply resend_stats; eassumption.
Qed.
Theorem resend_same p c attrs bs : wf_bytes p -> unpack_packet p = Ok (VObj c attrs) -> c <> QueueGetConfigRequest04 -> c <> QueueGetConfigReply04 ->
  ends_in_nul (VObj c attrs) = true -> skipn 8 p = bs -> tidy_message c bs bs [] -> pack (VObj c attrs) = Ok p.
Proof.
  intros Wf U N1 N2 Nul Eb T. destruct (resend p c attrs bs bs [] Wf U N1 N2 Nul) as (p' & P & Sh & Sk); [rewrite app_nil_r; exact Eb|exact T|].
  rewrite P. f_equal. apply header_back; [exact Wf|eapply accepted_framed; eassumption|exact Sh|congruence].
Qed.
