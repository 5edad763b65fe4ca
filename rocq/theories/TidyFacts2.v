(** Well-formed bytes come back from the decoder and encoder: the induction
    for C57. *)
From Coq Require Import ZArith List Bool String Lia.
From Verif Require Import Base PyText Ids PyVal Classes Interp Utils Spec SpecMsg SpecBasic SpecLayout SpecDecode SpecStruct SpecReencode SpecTidy ClassFacts BaseFacts TextFacts IntFacts LeafFacts
  AddrFacts StructFacts Soundness Closure StructThm RaisesFacts DispatchFacts NetFacts2 FuelFacts MutationFacts LayoutFacts WindowFacts LengthFacts DecodeFacts DecodeFacts2 ReencodeFacts ReencodeFacts2 TidyFacts.
Import ListNotations.
Open Scope string_scope.
Open Scope list_scope.
Open Scope Z_scope.

Definition nul_in (A attrs : list (string * pyval)) : Prop := forall nm v, In nm (map fst A) -> get_attr nm attrs = Some v -> ends_in_nul v = true.

Definition T_val (k : delim) (d : pyval) (bs bs' : bytes) : Prop :=
  forall m pre suf v, (k = TAIL -> suf = []) -> pre ++ bs ++ suf <> [] -> wf_bytes (pre ++ bs ++ suf) -> decl_ok d = true ->
  unpack0 m (deepcopy d) (pre ++ bs ++ suf) (List.length pre) = Ok v -> ends_in_nul v = true ->
  exists N, enc N k true d v bs' v.
Definition T_fields (k : delim) (A : list (string * pyval)) (bs bs' : bytes) : Prop :=
  forall m pre suf attrs r, (k = TAIL -> suf = []) -> pre ++ bs ++ suf <> [] -> wf_bytes (pre ++ bs ++ suf) ->
  forallb (fun p => decl_ok (snd p)) A = true -> NoDup (map fst A) ->
  unpack_fields (unpack0 m) (size0 m) A attrs (pre ++ bs ++ suf) (List.length pre) = Ok r -> nul_in A (fst r) ->
  exists N vals, r = (set_all (map fst A) vals attrs, (List.length pre + List.length bs)%nat) /\ List.length vals = List.length A /\ enc_fields N k true A vals bs' vals.
Definition T_items (pc : cid) (bs bs' : bytes) : Prop :=
  forall m K pre items lc, wf_bytes (pre ++ bs) -> unpack_items (unpack0 m) (size0 m) pc K (pre ++ bs) (List.length pre) = Ok items ->
  ends_in_nul (VList lc pc items) = true -> exists N, enc_items N pc items bs' items.
Definition T_obj (k : delim) (c : cid) (bs bs' : bytes) : Prop :=
  forall m a pre suf v, (k = TAIL -> suf = []) -> pre ++ bs ++ suf <> [] -> wf_bytes (pre ++ bs ++ suf) -> map fst a = start_keys c ->
  unpack0 m (VObj c a) (pre ++ bs ++ suf) (List.length pre) = Ok v -> ends_in_nul v = true ->
  exists N, enc_obj N k true c v bs' v.

(** ** Fields *)
Lemma mid_wf pre bs suf : wf_bytes (pre ++ bs ++ suf) -> wf_bytes bs.
Proof. intros W. apply Forall_app in W as [_ W]. apply Forall_app in W as [W _]. exact W. Qed.
Lemma mid_slice (pre bs suf : bytes) k : List.length bs = k -> slice (List.length pre) (List.length pre + k) (pre ++ bs ++ suf) = bs.
Proof. intros <-. apply slice_mid; reflexivity. Qed.

Lemma T_same d bs : kept_width d = Some (List.length bs) -> T_val SD d bs bs.
Proof.
  intros K m pre suf v _ NE Wf Dk U Nul.
  assert (L : leaf_width d = Some (List.length bs)).
  { destruct d as [| | | | | |w er x| |[|] x| | | | | |]; try discriminate K; try discriminate Dk; exact K. }
  rewrite leaf_copy in U by congruence. pose proof (leaf_reads m d _ _ _ v L Wf U) as R. rewrite mid_slice in R by reflexivity.
  assert (Sz : sized d = true) by (destruct d as [| | | | | |w er x| | | | | | | |]; try reflexivity; destruct w; [discriminate Dk|reflexivity]).
  destruct (leaf_enc 0 d bs v _ R L eq_refl Sz Nul) as (b2 & v' & E & C2).
  assert (b2 = bs) as -> by (inversion C2; subst; [reflexivity|discriminate|discriminate]).
  pose proof soundness as (Sd & _). pose proof (Sd _ _ _ _ _ _ _ E) as (_ & _ & X & _). specialize (X pre suf ltac:(discriminate) NE). rewrite leaf_copy in X by congruence.
  assert (v' = v) by (eapply unpack_agree; eassumption). subst v'. exists 1%nat. exact E.
Qed.
Lemma T_pad k bs : T_val SD (VPad k) bs (repeat 0 k).
Proof.
  intros m pre suf v _ NE Wf Dk U Nul. destruct m; [discriminate|]. cbn in U. injection U as <-. exists 1%nat. apply e_pad.
Qed.
Lemma T_data d bs : T_val TAIL (VBin d) bs bs.
Proof.
  intros m pre suf v Hs NE Wf Dk U Nul. rewrite Hs in U by reflexivity. destruct m; [discriminate|]. cbn in U. rewrite app_nil_r, skipn_length_app in U. injection U as <-.
  exists 1%nat. apply e_bin; [discriminate|]. apply p_bin, p_bytes.
Qed.
Lemma T_struct k c a bs bs' : T_obj k c bs bs' -> T_val k (VObj c a) bs bs'.
Proof.
  intros T m pre suf v Hs NE Wf Dk U Nul. cbn [decl_ok] in Dk. apply andb_prop in Dk as [Dk D3]. apply andb_prop in Dk as [D1 D2].
  destruct (deepcopy (VObj c a)) as [| | | | | | | | | | | | |c' a'|]; try discriminate D3. apply andb_prop in D3 as [D3 D4]. apply cid_eqb_eq in D3. subst c'.
  apply names_eqb_eq in D1, D4. destruct (T m a' pre suf v Hs NE Wf D4 U Nul) as (N & E). exists N.
  pose proof closure as (_ & _ & _ & _ & Cl). pose proof (Cl _ _ _ _ _ _ _ E) as (_ & _ & c2 & a2 & a3 & Ev & _).
  assert (Hc : c2 = c) by (subst v; inversion E; subst; try reflexivity; try discriminate D2; destruct f; discriminate D2).
  subst c2 v. apply e_obj; [exact E|exact D1|]. destruct (kind c); try discriminate D2; reflexivity.
Qed.
Lemma T_list lc pc bs bs' : lc <> CFixedTypeList \/ bs = [] -> T_items pc bs bs' -> T_val TAIL (VList lc pc []) bs bs'.
Proof.
  intros H T m pre suf v Hs NE Wf Dk U Nul. rewrite Hs in * by reflexivity. cbn [decl_ok] in Dk. rewrite andb_true_r in Dk. rewrite app_nil_r in *.
  destruct m as [|m]; [discriminate|]. cbn [deepcopy map unpack0] in U. rewrite (cid_eqb_neq _ _ (list_class _ Dk)) in U. apply bind_ok in U as (l & U & X). injection X as <-. cbn [app].
  destruct (T _ _ _ _ _ Wf U Nul) as (N & E). exists (S N). destruct (cid_eqb lc CFixedTypeList) eqn:El.
  - apply cid_eqb_eq in El. subst lc. destruct H as [H| ->]; [congruence|]. rewrite app_nil_r in U. cbn [unpack_items] in U.
    assert (l = []) as ->. { destruct (Nat.ltb_spec (List.length pre) (List.length pre)); [lia|congruence]. }
    apply (e_list_plain N pc CFixedTypeList pc [] bs' []); [reflexivity|exact E].
  - apply e_list; [intros ->; rewrite cid_eqb_refl in El; discriminate|exact Dk|exact E].
Qed.
Lemma T_nil : T_fields SD [] [] [].
Proof.
  intros m pre suf attrs r Hs NE Wf Dk D U Nul. injection U as <-. exists O, []. cbn [map set_all List.length]. rewrite Nat.add_0_r. repeat split. constructor.
Qed.
Lemma nul_all c A attrs : ends_in_nul (VObj c attrs) = true -> nul_in A attrs.
Proof. intros H nm v _ G. eapply nul_attr; eassumption. Qed.
Lemma T_last n d bs bs' : T_val TAIL d bs bs' -> same_len bs bs' -> T_fields TAIL [(n, d)] bs bs'.
Proof.
  intros T [Ln _] m pre suf attrs r Hs NE Wf Dk D U Nul. cbn [forallb snd] in Dk. rewrite andb_true_r in Dk. rewrite unpack_fields_cons in U by exact NE.
  apply bind_ok in U as (a & Ua & U). apply bind_ok in U as (s & Us & U). cbn [unpack_fields] in U. injection U as <-. cbn [fst] in Nul.
  destruct (T m pre suf a Hs NE Wf Dk Ua (Nul n _ (or_introl eq_refl) (get_set_same _ _ _))) as (N & E). exists N, [a]. cbn [map fst set_all List.length].
  pose proof soundness as (Sd & _). pose proof (Sd _ _ _ _ _ _ _ E) as (_ & _ & _ & Sz & _). rewrite (size_agree _ _ _ _ _ Us Sz), zlen_to_nat, Ln.
  repeat split. apply f_last. exact E.
Qed.
Lemma T_cons k n d A b1 b1' b2 b2' : T_val SD d b1 b1' -> same_len b1 b1' -> T_fields k A b2 b2' -> T_fields k ((n, d) :: A) (b1 ++ b2) (b1' ++ b2').
Proof.
  intros T [Ln _] TA m pre suf attrs r Hs NE Wf Dk D U Nul. cbn [forallb snd] in Dk. apply andb_prop in Dk as [D1 D2]. cbn [map fst] in D. inversion D as [|? ? Ni D']; subst.
  rewrite unpack_fields_cons in U by exact NE. apply bind_ok in U as (a & Ua & U). apply bind_ok in U as (s & Us & U).
  assert (E1 : pre ++ (b1 ++ b2) ++ suf = pre ++ b1 ++ (b2 ++ suf)) by (rewrite <- app_assoc; reflexivity).
  assert (G : get_attr n (fst r) = Some a) by (rewrite (unpack_fields_keep _ _ n A Ni _ _ _ _ U); apply get_set_same).
  rewrite E1 in *. destruct (T m pre (b2 ++ suf) a ltac:(discriminate) NE Wf D1 Ua (Nul n _ (or_introl eq_refl) G)) as (N1 & X1).
  pose proof soundness as (Sd & _). pose proof (Sd _ _ _ _ _ _ _ X1) as (_ & _ & _ & Sz & _). rewrite (size_agree _ _ _ _ _ Us Sz), zlen_to_nat, Ln, <- app_length in U.
  assert (E2 : pre ++ b1 ++ b2 ++ suf = (pre ++ b1) ++ b2 ++ suf) by (rewrite <- app_assoc; reflexivity). rewrite E2 in *.
  destruct (TA m (pre ++ b1) suf _ r Hs NE Wf D2 D' U (fun nm v i => Nul nm v (or_intror i))) as (N2 & vals & -> & Lv & X2).
  exists (max N1 N2), (a :: vals). cbn [map fst set_all List.length]. split; [rewrite !app_length, Nat.add_assoc; reflexivity|]. split; [lia|].
  destruct enc_deeper as (De & _ & Df & _). apply f_cons; [eapply De; [exact X1|lia]|eapply Df; [exact X2|lia]].
Qed.

(** ** Elements *)
Lemma I_nil pc : T_items pc [] [].
Proof.
  intros m K pre items lc Wf U Nul. rewrite app_nil_r in U. destruct K; cbn [unpack_items] in U; rewrite Nat.ltb_irrefl in U; injection U as <-; exists O; constructor.
Qed.
Lemma root_object m c a b o v : unpack0 m (VObj c a) b o = Ok v -> exists c' a', v = VObj c' a'.
Proof.
  destruct m as [|m]; [discriminate|]. rewrite unpack0_obj. unfold unpack_obj, unpack_structure, len_unpack, bucket_unpack, typed_unpack, action01_unpack, action04_unpack, oxm_unpack, match04_unpack,
    match01_unpack, error_unpack, stats_request_unpack, stats_reply_unpack, multipart_unpack.
  intros U. destruct (kind c); try discriminate U; cbv zeta in U; repeat (apply bind_ok in U as (? & _ & U)); try (injection U as <-; eauto; fail); eauto.
Qed.
Lemma item_step k pc bs bs' b2 m K pre items lc : class_attrs pc <> [] -> T_obj k pc bs bs' -> same_len bs bs' -> bs <> [] -> (k = TAIL -> b2 = []) -> wf_bytes (pre ++ bs ++ b2) ->
  unpack_items (unpack0 m) (size0 m) pc K (pre ++ bs ++ b2) (List.length pre) = Ok items -> ends_in_nul (VList lc pc items) = true ->
  exists N v rest K', items = v :: rest /\ enc_obj N k true pc v bs' v /\ bs' <> [] /\ ends_in_nul (VList lc pc rest) = true /\
    unpack_items (unpack0 m) (size0 m) pc K' ((pre ++ bs) ++ b2) (List.length (pre ++ bs)) = Ok rest.
Proof.
  intros Ne T [Ln _] NE Hk Wf U Nul. assert (L : (List.length pre < List.length (pre ++ bs ++ b2))%nat) by (rewrite !app_length; destruct bs; [congruence|cbn; lia]).
  destruct K as [|K]; cbn [unpack_items] in U; destruct (Nat.ltb_spec (List.length pre) (List.length (pre ++ bs ++ b2))); try lia; [discriminate|].
  destruct (instantiable pc Ne) as (a & NI & Ka). rewrite NI in U. apply bind_ok in U as (v & Uv & U). apply bind_ok in U as (l & CI & U). apply bind_ok in U as (s & SZ & U). apply bind_ok in U as (rest & R & U). injection U as <-.
  assert (NB : pre ++ bs ++ b2 <> []) by (apply nonempty_app; destruct bs; [congruence|cbn; lia]).
  assert (Nv : ends_in_nul v = true /\ l = [v]).
  { pose proof (root_object m pc a _ _ _ Uv) as (c' & a' & ->). cbn [flat check_items] in CI. destruct (cid_eqb pc CNone); [discriminate|]. destruct (subclass _ pc); [|discriminate].
    cbn [bind] in CI. injection CI as <-. cbn [app] in Nul. rewrite nul_item in Nul. apply andb_prop in Nul as [Nul _]. split; [exact Nul|reflexivity]. }
  destruct Nv as [Nv ->]. cbn [app] in *. rewrite nul_item in Nul. apply andb_prop in Nul as [_ Nr].
  destruct (T m a pre b2 v Hk NB Wf Ka Uv Nv) as (N & E). exists N, v, rest, K.
  pose proof soundness as (_ & _ & _ & _ & Sd). pose proof (Sd _ _ _ _ _ _ _ E) as (_ & _ & _ & _ & _ & Sz & _). specialize (Sz eq_refl).
  rewrite (size_agree _ _ _ _ _ SZ Sz), zlen_to_nat, Ln, <- app_length in R. rewrite app_assoc in R. repeat split; auto.
  intros ->. destruct bs; [congruence|discriminate Ln].
Qed.
Lemma I_last k pc bs bs' : class_attrs pc <> [] -> T_obj k pc bs bs' -> same_len bs bs' -> bs <> [] -> T_items pc bs bs'.
Proof.
  intros Ne T Ln NE m K pre items lc Wf U Nul. rewrite <- (app_nil_r bs) in Wf, U.
  destruct (item_step k pc bs bs' [] m K pre items lc Ne T Ln NE (fun _ => eq_refl) Wf U Nul) as (N & v & rest & K' & -> & E & Nb & _ & R).
  rewrite app_nil_r in R. assert (rest = []) as -> by (destruct K'; cbn [unpack_items] in R; rewrite Nat.ltb_irrefl in R; congruence).
  exists N. eapply i_last; eassumption.
Qed.
Lemma I_cons pc b1 b1' b2 b2' : class_attrs pc <> [] -> T_obj SD pc b1 b1' -> same_len b1 b1' -> b1 <> [] -> T_items pc b2 b2' -> T_items pc (b1 ++ b2) (b1' ++ b2').
Proof.
  intros Ne T Ln NE TI m K pre items lc Wf U Nul.
  destruct (item_step SD pc b1 b1' b2 m K pre items lc Ne T Ln NE ltac:(discriminate) Wf U Nul) as (N & v & rest & K' & -> & E & Nb & Nr & R).
  rewrite app_assoc in Wf. destruct (TI m K' _ _ lc Wf R Nr) as (N2 & E2). exists (max N N2).
  destruct enc_deeper as (_ & _ & _ & De & Do). apply i_cons; [eapply Do; [exact E|lia]|exact Nb|eapply De; [exact E2|lia]].
Qed.

(** ** Structures *)
Lemma S_struct k c bs bs' m a r pre suf v : T_fields k (class_attrs c) bs bs' -> field_names c = map fst a ++ r -> (k = TAIL -> suf = []) -> pre ++ bs ++ suf <> [] ->
  wf_bytes (pre ++ bs ++ suf) -> (do x <- unpack_fields (unpack0 m) (size0 m) (class_attrs c) a (pre ++ bs ++ suf) (List.length pre); Ok (VObj c (fst x))) = Ok v ->
  ends_in_nul v = true -> exists N vals, v = mk c vals /\ List.length vals = List.length (class_attrs c) /\ enc_fields N k true (class_attrs c) vals bs' vals.
Proof.
  intros T Ka Hs NE Wf U Nul. apply bind_ok in U as (x & U & X). injection X as <-.
  destruct (T m pre suf a x Hs NE Wf (decls_ok c) (class_names_nodup c) U (nul_all _ _ _ Nul)) as (N & vals & -> & L & E). exists N, vals. cbn [fst]. split; [|auto].
  unfold mk. f_equal. apply (set_all_fresh _ _ _ r); [apply class_names_nodup|unfold field_names; rewrite map_length; exact L|exact Ka].
Qed.
Lemma plain_kind c : In c plain_structures -> (kind c = KStruct \/ c = Match01 /\ kind c = KMatch01) /\ start_keys c = field_names c.
Proof.
  intros I. assert (T : forallb (fun c => (match kind c with KStruct => true | KMatch01 => cid_eqb c Match01 | _ => false end) && names_eqb (start_keys c) (field_names c)) plain_structures = true) by (vm_compute; reflexivity).
  rewrite forallb_forall in T. specialize (T c I). apply andb_prop in T as [T1 T2]. apply names_eqb_eq in T2. split; [|exact T2].
  destruct (kind c); try discriminate T1; [left; reflexivity|right; apply cid_eqb_eq in T1; auto].
Qed.
Lemma O_plain k c bs bs' : In c plain_structures -> T_fields k (class_attrs c) bs bs' -> T_obj k c bs bs'.
Proof.
  intros I T m a pre suf v Hs NE Wf Ka U Nul. destruct (plain_kind c I) as [K Sk]. rewrite Sk in Ka. destruct m as [|m]; [discriminate|].
  assert (G : exists N vals, v = mk c vals /\ List.length vals = List.length (class_attrs c) /\ enc_fields N k true (class_attrs c) vals bs' vals).
  { destruct K as [K|[-> K]].
    - rewrite unpack0_struct in U by exact K. eapply S_struct; [exact T|rewrite Ka; symmetry; apply app_nil_r|eassumption..].
    - rewrite unpack0_match01 in U by exact K. apply bind_ok in U as (x & U & X). apply bind_ok in X as (w & Uw & X). injection X as <-.
      assert (Gw : get_attr "wildcards" (fst x) = Some w).
      { assert (Cw : exists d A, class_attrs Match01 = ("wildcards", VUInt 4 (Some E_FlowWildCards01) d) :: A /\ ~ In "wildcards" (map fst A)).
        { eexists _, _. split; [reflexivity|]. cbn. intuition discriminate. }
        destruct Cw as (d & A & Ea & Na). rewrite Ea in U. destruct (first_read m _ _ _ A NE Na _ _ _ U) as (y & Uy & Gy).
        rewrite leaf_copy in Uy by discriminate. destruct m as [|m]; [discriminate|]. cbn [unpack0] in Uy. congruence. }
      rewrite set_attr_same in * by exact Gw. eapply (S_struct k Match01 bs bs' m a []); [exact T|rewrite Ka; symmetry; apply app_nil_r|try eassumption..].
      rewrite U. reflexivity. }
  destruct G as (N & vals & -> & L & E). exists (S N). apply o_plain; [destruct K as [K|[_ K]]; auto|apply complete_mk, L|rewrite values_mk by exact L; exact E].
Qed.

(** ** Structures with a length *)
Lemma enc_own_length N k c vals bs p z : number_at (class_attrs c) p "length" = true -> List.length vals = List.length (class_attrs c) ->
  enc_fields N k true (class_attrs c) vals bs vals -> u16_at p bs z ->
  enc_fields N k true (class_attrs c) (values c (set_attr "length" (VInt z) (combine (field_names c) vals))) bs vals.
Proof.
  intros H L E Hu. destruct (number_value _ _ _ _ _ _ _ _ _ H (class_names_nodup c) E Hu) as (G & d & Ga).
  rewrite values_set; [|apply complete_mk, L|eapply get_attr_in; exact Ga]. rewrite own_mk by exact L. eapply enc_set; [exact E|apply class_names_nodup|exact G|exact Ga].
Qed.
Lemma length_kind c p : length_at c = Some p -> (exists upd, kind c = KLen p upd) /\ number_at (class_attrs c) p "length" = true /\ numbers (class_attrs c) (p + 2) = true.
Proof. destruct c; try discriminate; intros X; injection X as <-; (split; [eexists; reflexivity|split; vm_compute; reflexivity]). Qed.
Lemma O_length k c p bs bs' : length_at c = Some p -> tidy_fields k (class_attrs c) bs bs' -> T_fields k (class_attrs c) bs bs' -> same_len bs bs' -> u16_at p bs (zlen bs) -> T_obj SD c bs bs'.
Proof.
  intros La Td T [Ln _] Hu m a pre suf v _ NE Wf Ka U Nul. destruct (length_kind c p La) as ((upd & K) & Nu & Ns). destruct m as [|m]; [discriminate|].
  rewrite (unpack0_len _ _ _ _ _ _ _ K) in U. apply bind_ok in U as (x & _ & U). rewrite (uint_unpack_u16 None _ _ _ pre suf Hu I) in U. cbn [bind] in U.
  rewrite num_of_decoded in U. cbn [bind] in U. rewrite firstn_mid in U. pose proof (u16_nonempty _ _ _ Hu) as HL.
  assert (NE' : pre ++ bs ++ [] <> []) by (apply nonempty_app; lia).
  assert (Wf' : wf_bytes (pre ++ bs ++ [])) by (rewrite app_nil_r; rewrite app_assoc in Wf; apply Forall_app in Wf as [Wf _]; exact Wf).
  rewrite kind_not_oxm in Ka by (rewrite K; discriminate). rewrite (prefix_self (map fst a)) in Ka. symmetry in Ka.
  destruct (S_struct k c bs bs' m a [] pre [] v T Ka (fun _ => eq_refl) NE' Wf' U Nul) as (N & vals & -> & L & E).
  assert (Hu' : u16_at p bs' (zlen bs')). { rewrite (zlen_len bs' bs) by congruence. eapply u16_front; [exact Hu|]. eapply front_kept; [exact Td|exact Ns]. }
  exists (S N). eapply o_len; [exact K|apply complete_mk, L| |exact Hu']. destruct upd; [apply (enc_own_length N k c vals bs' p _ Nu L E Hu')|rewrite values_mk by exact L; exact E].
Qed.
Lemma action01_numbers t c : In (t, c) action01_table -> numbers (class_attrs c) 2 = true.
Proof.
  intros H. assert (T : forallb (fun q => numbers (class_attrs (snd q)) 2) action01_table = true) by (vm_compute; reflexivity). rewrite forallb_forall in T. exact (T _ H).
Qed.
Lemma O_action01 t c bs bs' : In (t, c) action01_table -> tidy_fields SD (class_attrs c) bs bs' -> T_fields SD (class_attrs c) bs bs' -> u16_at 0 bs t -> T_obj SD ActionHeader01 bs bs'.
Proof.
  intros HI Td T Ht m a pre suf v _ NE Wf Ka U Nul. destruct m as [|m]; [discriminate|]. rewrite unpack0_action01 in U by reflexivity.
  pose proof (uint_unpack_u16 (Some E_ActionType01) _ _ _ pre suf Ht) as U0. rewrite Nat.add_0_r in U0. rewrite U0 in U by (left; reflexivity). cbn [bind] in U.
  rewrite num_of_decoded in U. cbn [bind] in U. pose proof (action01_table_ok _ _ HI) as OK. unfold action01_ok in OK. repeat (apply andb_prop in OK as [OK ?]).
  rename H into PFX. apply cid_eqb_eq in OK. apply prefixb_ok in PFX as (r & PFX). rewrite OK in U.
  assert (Kb : field_names c = map fst (set_attr "action_type" (VUInt 2 (Some E_ActionType01) (decoded_int (Some E_ActionType01) t)) a) ++ r).
  { rewrite set_attr_keys; rewrite Ka; [exact PFX|left; reflexivity]. }
  destruct (S_struct SD c bs bs' m _ r pre suf v T Kb ltac:(discriminate) NE Wf U Nul) as (N & vals & -> & L & E).
  exists (S N). eapply o_action01; [exact HI|apply complete_mk, L|rewrite values_mk by exact L; exact E|].
  eapply u16_front; [exact Ht|]. eapply front_kept; [exact Td|]. eapply action01_numbers. exact HI.
Qed.
Lemma coded_numbers root tbl t c : coded_04 root -> coded root = Some tbl -> In (t, c) tbl -> numbers (class_attrs c) 4 = true /\ number_at (class_attrs c) 2 "length" = true.
Proof.
  intros R C H. assert (T : forallb (fun root => match coded root with Some tbl => forallb (fun q => numbers (class_attrs (snd q)) 4 && number_at (class_attrs (snd q)) 2 "length") tbl | None => true end)
     [ActionHeader04; Instruction04; Property04; MeterBandHeader04] = true) by (vm_compute; reflexivity).
  rewrite forallb_forall in T. specialize (T root R). rewrite C, forallb_forall in T. specialize (T _ H). apply andb_prop in T. exact T.
Qed.
Lemma typed_step f t c k bs bs' m a pre suf v : In (t, c) (typed_table f) -> T_fields k (class_attrs c) bs bs' -> u16_at 0 bs t -> u16_at 2 bs (zlen bs) -> wf_bytes (pre ++ bs ++ suf) ->
  map fst a = start_keys (typed_root f) -> unpack0 m (VObj (typed_root f) a) (pre ++ bs ++ suf) (List.length pre) = Ok v -> ends_in_nul v = true ->
  exists N vals, v = mk c vals /\ List.length vals = List.length (class_attrs c) /\ enc_fields N k true (class_attrs c) vals bs' vals.
Proof.
  intros HI T Ht Hu Wf Ka U Nul. destruct m as [|m]; [discriminate|].
  pose proof (typed_table_ok _ _ _ HI) as OK. unfold typed_ok in OK. repeat (apply andb_prop in OK as [OK ?]).
  rename H0 into PFX, H2 into KR, H5 into MEM. destruct (find_class f t) as [c'|] eqn:FC; [|discriminate]. apply cid_eqb_eq in OK. subst c'.
  assert (KRo : kind (typed_root f) = KTyped f) by (destruct f; reflexivity). apply prefixb_ok in PFX as (r & PFX).
  rewrite (unpack0_typed _ _ _ _ _ _ KRo) in U. pose proof (uint_unpack_u16 (Some (family_enum f)) _ _ _ pre suf Ht) as U0. rewrite Nat.add_0_r in U0.
  rewrite U0 in U by (right; exact MEM). cbn [bind] in U. rewrite num_of_decoded in U. cbn [bind] in U. rewrite FC in U. cbn [bind] in U.
  rewrite (uint_unpack_u16 None _ _ _ pre suf Hu I) in U. cbn [bind] in U. rewrite num_of_decoded in U. cbn [bind] in U. rewrite firstn_mid in U.
  pose proof (u16_nonempty _ _ _ Hu) as HL. rewrite kind_not_oxm in Ka by (rewrite KRo; discriminate).
  eapply (S_struct k c bs bs' m a r pre []); try eassumption; [rewrite Ka; exact PFX|reflexivity|apply nonempty_app; lia|].
  rewrite app_nil_r; rewrite app_assoc in Wf; apply Forall_app in Wf as [Wf _]; exact Wf.
Qed.
Lemma action_step t c k bs bs' m a pre suf v len : In (t, c) action04_table -> T_fields k (class_attrs c) bs bs' -> (k = TAIL -> len = zlen bs) -> zlen bs <= len -> len <= zlen (bs ++ suf) ->
  u16_at 0 bs t -> u16_at 2 bs len -> wf_bytes (pre ++ bs ++ suf) ->
  map fst a = start_keys ActionHeader04 -> unpack0 m (VObj ActionHeader04 a) (pre ++ bs ++ suf) (List.length pre) = Ok v -> ends_in_nul v = true ->
  exists N vals, v = mk c vals /\ List.length vals = List.length (class_attrs c) /\ enc_fields N k true (class_attrs c) vals bs' vals.
Proof.
  intros HI T Hk Lo Hi Ht Hu Wf Ka U Nul. destruct m as [|m]; [discriminate|].
  pose proof (action04_table_ok _ _ HI) as OK. unfold action04_ok in OK. repeat (apply andb_prop in OK as [OK ?]).
  rename H into PFX, H2 into MEM. apply cid_eqb_eq in OK. apply prefixb_ok in PFX as (r & PFX).
  rewrite unpack0_action04 in U by reflexivity. pose proof (uint_unpack_u16 (Some E_ActionType04) _ _ _ pre suf Ht) as U0. rewrite Nat.add_0_r in U0.
  rewrite U0 in U by (right; exact MEM). cbn [bind] in U. rewrite (uint_unpack_u16 None _ _ _ pre suf Hu I) in U. cbn [bind] in U. rewrite !num_of_decoded in U. cbn [bind] in U. rewrite OK in U.
  unfold zlen in *. rewrite app_length in Hi.
  assert (C : firstn (List.length pre + Z.to_nat len) (pre ++ bs ++ suf) = pre ++ bs ++ firstn (Z.to_nat len - List.length bs) suf).
  { rewrite firstn_app, firstn_all2 by lia. f_equal. rewrite firstn_app, firstn_all2 by lia. f_equal. f_equal. lia. }
  rewrite C in U. pose proof (u16_nonempty _ _ _ Hu) as HL.
  eapply (S_struct k c bs bs' m _ r pre); [exact T| | | | |exact U|exact Nul].
  - assert (A : map fst (set_attr "action_type" (VUInt 2 (Some E_ActionType04) (decoded_int (Some E_ActionType04) t)) a) = map fst a) by (apply set_attr_keys; rewrite Ka; left; reflexivity).
    rewrite set_attr_keys; rewrite A, Ka; [exact PFX|]. right. left. reflexivity.
  - intros ->. rewrite Hk by reflexivity. replace (Z.to_nat (Z.of_nat (List.length bs)) - List.length bs)%nat with O by lia. reflexivity.
  - apply nonempty_app. lia.
  - rewrite <- C. apply wf_bytes_firstn, Wf.
Qed.
Lemma O_coded k root tbl t c bs bs' : coded_04 root -> coded root = Some tbl -> In (t, c) tbl -> c <> ActionSetField04 -> tidy_fields k (class_attrs c) bs bs' -> T_fields k (class_attrs c) bs bs' ->
  same_len bs bs' -> u16_at 0 bs t -> u16_at 2 bs (zlen bs) -> (root = ActionHeader04 -> zlen bs mod 8 = 0) -> T_obj SD root bs bs'.
Proof.
  intros R C HI Nc Td T [Ln _] Ht Hu M8 m a pre suf v _ NE Wf Ka U Nul. destruct (coded_numbers root tbl t c R C HI) as [Ns Nu].
  pose proof (front_kept _ _ _ _ _ Td Ns) as F4. assert (Z' : zlen bs' = zlen bs) by (apply zlen_len; congruence).
  assert (Hu' : u16_at 2 bs' (zlen bs')) by (rewrite Z'; eapply u16_front; [exact Hu|exact F4]).
  assert (Ht' : u16_at 0 bs' t). { eapply u16_front; [exact Ht|]. apply (f_equal (firstn 2)) in F4. rewrite !firstn_firstn in F4. exact F4. }
  destruct R as [<-|[<-|[<-|[<-|[] ] ] ] ]; injection C as <-.
  - destruct (action_step t c k bs bs' m a pre suf v (zlen bs) HI T ltac:(reflexivity) ltac:(lia) ltac:(rewrite zlen_app; unfold zlen; lia) Ht Hu Wf Ka U Nul) as (N & vals & -> & L & E).
    exists (S N). eapply o_action04; try eassumption; [apply complete_mk, L|rewrite values_mk by exact L; exact E|]. rewrite Z'. apply M8. reflexivity.
  - destruct (typed_step TInstruction t c k bs bs' m a pre suf v HI T Ht Hu Wf Ka U Nul) as (N & vals & -> & L & E).
    exists (S N). eapply (o_typed _ _ TInstruction); try eassumption; [apply complete_mk, L|]. apply (enc_own_length _ _ _ _ _ 2 _ Nu L E Hu').
  - destruct (typed_step TProperty t c k bs bs' m a pre suf v HI T Ht Hu Wf Ka U Nul) as (N & vals & -> & L & E).
    exists (S N). eapply (o_typed _ _ TProperty); try eassumption; [apply complete_mk, L|]. apply (enc_own_length _ _ _ _ _ 2 _ Nu L E Hu').
  - destruct (typed_step TMeterBand t c k bs bs' m a pre suf v HI T Ht Hu Wf Ka U Nul) as (N & vals & -> & L & E).
    exists (S N). eapply (o_typed _ _ TMeterBand); try eassumption; [apply complete_mk, L|]. rewrite values_mk by exact L. exact E.
Qed.

(** ** Set-field actions and match fields *)
Lemma O_set_field body body' pad : tidy_fields SD (class_attrs ActionSetField04) body body' -> T_fields SD (class_attrs ActionSetField04) body body' -> same_len body body' ->
  u16_at 0 body 25 -> u16_at 2 body (zlen (body ++ pad)) -> zlen (body ++ pad) mod 8 = 0 -> (List.length pad < 8)%nat ->
  T_obj SD ActionHeader04 (body ++ pad) (body' ++ repeat 0 (List.length pad)).
Proof.
  intros Td T [Ln _] Ht Hu M8 Lp m a pre suf v _ NE Wf Ka U Nul. rewrite <- app_assoc in Wf, U.
  destruct (action_step 25 ActionSetField04 SD body body' m a pre (pad ++ suf) v (zlen (body ++ pad)) ltac:(cbn; tauto) T ltac:(discriminate)
    ltac:(unfold zlen; rewrite app_length; lia) ltac:(unfold zlen; rewrite !app_length; lia) Ht Hu Wf Ka U Nul) as (N & vals & -> & L & E).
  pose proof (front_kept _ _ _ _ 4 Td ltac:(reflexivity)) as F4.
  assert (Z' : zlen (body' ++ repeat 0 (List.length pad)) = zlen (body ++ pad)) by (unfold zlen; rewrite !app_length, repeat_length; lia).
  assert (Hu' : u16_at 2 body' (zlen (body' ++ repeat 0 (List.length pad)))) by (rewrite Z'; eapply u16_front; [exact Hu|exact F4]).
  assert (Ht' : u16_at 0 body' 25). { eapply u16_front; [exact Ht|]. apply (f_equal (firstn 2)) in F4. rewrite !firstn_firstn in F4. exact F4. }
  assert (G : exists f, get_attr "field" (combine (field_names ActionSetField04) vals) = Some (VObj OxmTLV04 f)).
  { pose proof E as D. change (class_attrs ActionSetField04) with attrs_ActionSetField04 in D. unfold attrs_ActionSetField04 in D.
    apply fields_inv in D as (iv1 & ivs1 & b1 & r1 & o1 & outs1 & EV1 & EB1 & EO1 & D1 & D).
    apply fields_inv in D as (iv2 & ivs2 & b2 & r2 & o2 & outs2 & EV2 & EB2 & EO2 & D2 & D).
    apply fields_inv1 in D as (iv3 & o3 & EV3 & EO3 & D3). rewrite EV1, EV2, EV3. unfold new_OxmTLV04 in D3. inversion D3 as [| | | | | | | | |? ? ? ? ? ? ? O| | | |]; subst.
    - pose proof closure as (_ & _ & _ & _ & Cl). pose proof (Cl _ _ _ _ _ _ _ O) as (_ & _ & c & a0 & a' & Ev & _).
      assert (c = OxmTLV04) by (rewrite Ev in O; inversion O; subst; try reflexivity; match goal with f : typed_family |- _ => destruct f; discriminate end). subst c. rewrite Ev. eexists. reflexivity.
    - exfalso. injection EO1 as _ _ Eo. match goal with H : enc_obj _ _ _ _ _ _ _ |- _ => pose proof closure as (_ & _ & _ & _ & Cl); pose proof (Cl _ _ _ _ _ _ _ H) as (_ & _ & c & a0 & a' & _ & Ev) end. rewrite <- Eo in Ev. discriminate. }
  destruct G as (f & G). exists (S N). eapply o_setfield; [apply complete_mk, L|exact G| |exact Ht'|rewrite Z'; exact M8|exact Lp].
  apply (enc_own_length _ _ ActionSetField04 _ _ 2 _ eq_refl L E Hu').
Qed.

Lemma O_oxm h1 h2 h3 value : T_obj SD OxmTLV04 ([h1; h2; h3; zlen value] ++ value) ([h1; h2; h3; zlen value] ++ value).
Proof.
  intros m a pre suf v _ NE Wf Ka U Nul. pose proof (mid_wf _ _ _ Wf) as W. apply Forall_app in W as [W _].
  inversion W as [|? ? B1 W1]; subst. inversion W1 as [|? ? B2 W2]; subst. inversion W2 as [|? ? B3 W3]; subst. inversion W3 as [|? ? B4 _]; subst. unfold is_byte in *.
  pose proof (be_encode_decode [h1; h2] ltac:(constructor; [exact B1|constructor; [exact B2|constructor] ])) as Ec. cbn [List.length] in Ec. set (cl := be_decode [h1; h2]) in *.
  assert (Ac : is_member E_OxmClass04 cl = true /\ (cl = 0x8000 -> is_member E_OxmOfbMatchField04 (h3 / 2) = true)).
  { destruct m as [|m]; [discriminate|]. change (start_keys OxmTLV04) with ["oxm_class"; "oxm_field_and_mask"; "oxm_length"; "oxm_value"; "oxm_field"; "oxm_hasmask"] in Ka.
    destruct a as [|[q1 w1] [|[q2 w2] [|[q3 w3] [|[q4 w4] [|[q5 w5] [|[q6 w6] [|] ] ] ] ] ] ]; try discriminate. cbn [map fst] in Ka. injection Ka as -> -> -> -> -> ->.
    rewrite unpack0_obj in U. unfold unpack_obj in U. change (kind OxmTLV04) with KOxmTLV in U. unfold oxm_unpack in U.
    apply bind_ok in U as (r & R & U). change (class_attrs OxmTLV04) with attrs_OxmTLV04 in R. unfold attrs_OxmTLV04 in R.
    rewrite unpack_fields_cons in R by exact NE. apply bind_ok in R as (x1 & X1 & R). apply bind_ok in R as (s1 & S1 & R).
    rewrite unpack_fields_cons in R by exact NE. apply bind_ok in R as (x2 & X2 & R). apply bind_ok in R as (s2 & S2 & R).
    rewrite unpack_fields_cons in R by exact NE. apply bind_ok in R as (x3 & X3 & R). apply bind_ok in R as (s3 & S3 & R).
    rewrite unpack_fields_cons in R by exact NE. apply bind_ok in R as (x4 & X4 & R). apply bind_ok in R as (s4 & S4 & R). cbn [unpack_fields] in R. injection R as <-.
    destruct m as [|m]; [discriminate|]. cbn [deepcopy unpack0] in X1, X2, X3, X4.
    apply uint_unpack_inv in X1 as [-> A1]. cbn [size0] in S1. injection S1 as <-. change (Z.to_nat (Z.of_nat 2)) with 2%nat in X2.
    apply uint_unpack_inv in X2 as [-> _].
    cbn [fst set_attr String.eqb Ascii.eqb Bool.eqb] in U. cbv zeta in U. unfold attr_num, attr_or_error in U. cbn [get_attr String.eqb Ascii.eqb Bool.eqb bind] in U.
    rewrite !num_of_decoded in U. cbn [bind] in U.
    rewrite place_value_decode in *. replace (slice (List.length pre) (List.length pre + 2) (pre ++ ([h1; h2; h3; zlen value] ++ value) ++ suf)) with [h1; h2] in *
      by (symmetry; apply (slice_mid pre [h1; h2]); [reflexivity|cbn; lia]).
    fold cl in A1, U. destruct A1 as [A1|A1]; [discriminate|]. split; [exact A1|]. intros Ecl. rewrite Ecl in U. cbn [Z.eqb Pos.eqb] in U.
    change (Z.to_nat 2) with 2%nat in U. replace (slice (List.length pre + 2) (List.length pre + 2 + 1) (pre ++ ([h1; h2; h3; zlen value] ++ value) ++ suf)) with [h3] in U
      by (symmetry; change (pre ++ ([h1; h2; h3; zlen value] ++ value) ++ suf) with (pre ++ [h1; h2] ++ [h3] ++ (zlen value :: value ++ suf)); rewrite app_assoc; apply slice_mid; rewrite !app_length; cbn; lia).
    rewrite place_value_decode in U. change (be_decode [h3]) with h3 in U. apply bind_ok in U as (fd & Fd & _). unfold enum_call in Fd. destruct (is_member E_OxmOfbMatchField04 (h3 / 2)); [reflexivity|discriminate Fd]. }
  destruct Ac as [A1 A2].
  set (w := [("oxm_class", VInt cl); ("oxm_field_and_mask", VNone); ("oxm_length", VNone); ("oxm_value", VBytes value); ("oxm_field", VInt (h3 / 2)); ("oxm_hasmask", VInt (h3 mod 2))]).
  assert (E : exists out, enc_obj 2 SD true OxmTLV04 (VObj OxmTLV04 w) ([h1; h2; h3; zlen value] ++ value) out).
  { assert (Wv : forall b, In b value -> is_byte b) by (apply Forall_forall; pose proof (mid_wf _ _ _ Wf) as W'; apply Forall_app in W' as [_ W']; exact W').
    eexists. replace ([h1; h2; h3; zlen value] ++ value) with (be_encode 2 cl ++ [2 * (h3 / 2) + (h3 mod 2) mod 2] ++ [zlen value] ++ value).
    - eapply (o_oxm 0 w (VInt cl) cl (VInt (h3 / 2)) (h3 / 2) (VInt (h3 mod 2)) (h3 mod 2) (VBytes value) value); try exact Wv; try reflexivity; try constructor; auto; try lia.
      + destruct (Z.eqb_spec cl 0x8000); [auto|]. split; [|eexists; reflexivity]. split; [apply Z.div_pos; lia|]. assert (h3 / 2 < 128) by (apply Z.div_lt_upper_bound; lia). lia.
    - rewrite Ec. rewrite Z.mod_mod by lia. rewrite <- Z.div_mod by lia. reflexivity. }
  destruct E as (out & E). pose proof soundness as (_ & _ & _ & _ & Sd). pose proof (Sd _ _ _ _ _ _ _ E) as (_ & _ & _ & _ & _ & _ & Un).
  specialize (Un a pre suf Ka ltac:(discriminate) NE). assert (v = out) as -> by (eapply unpack_agree; eassumption).
  exists 2%nat. pose proof closure as (_ & _ & _ & _ & Cl). pose proof (Cl _ _ _ _ _ _ _ E) as (_ & E2 & _). exact E2.
Qed.
