(** Packets that follow the standard are accepted: fields and lists, for C58. *)
From Coq Require Import ZArith List Bool String Lia.
From Verif Require Import Base PyText Ids PyVal Classes Interp Utils Spec SpecMsg SpecBasic SpecLayout SpecDecode SpecStruct SpecReencode SpecTidy SpecAccept ClassFacts BaseFacts TextFacts IntFacts LeafFacts
  AddrFacts StructFacts Soundness Closure StructThm RaisesFacts DispatchFacts NetFacts2 FuelFacts MutationFacts LayoutFacts WindowFacts LengthFacts DecodeFacts DecodeFacts2 ReencodeFacts ReencodeFacts2 TidyFacts
  TidyFacts2 TidyFacts3.
Import ListNotations.
Open Scope string_scope.
Open Scope list_scope.
Open Scope Z_scope.

Scheme fit_mut := Minimality for fit Sort Prop
with fit_fields_mut := Minimality for fit_fields Sort Prop
with fit_items_mut := Minimality for fit_items Sort Prop
with fit_obj_mut := Minimality for fit_obj Sort Prop.
Combined Scheme fit_all from fit_mut, fit_fields_mut, fit_items_mut, fit_obj_mut.

(** What follows the standard is well-formed for C43. *)
Lemma fit_tidy :
  (forall k d bs, fit k d bs -> exists bs', tidy k d bs bs') /\ (forall k A bs, fit_fields k A bs -> exists bs', tidy_fields k A bs bs') /\
  (forall pc bs, fit_items pc bs -> exists bs', tidy_items pc bs bs') /\ (forall k c bs, fit_obj k c bs -> exists bs', tidy_obj k c bs bs').
Proof.
  apply fit_all; intros; repeat match goal with H : exists _, _ |- _ => destruct H as (? & H) end; eexists.
  - apply td_same. assumption.
  - apply td_pad. assumption.
  - apply td_data.
  - apply td_struct. eassumption.
  - apply td_list; eassumption.
  - apply tf_nil.
  - apply tf_last. eassumption.
  - apply tf_cons; eassumption.
  - apply ti_nil.
  - eapply ti_last; eassumption.
  - apply ti_cons; eassumption.
  - apply to_plain; eassumption.
  - eapply to_length; eassumption.
  - eapply to_action01; eassumption.
  - eapply to_coded; eassumption.
  - eapply to_set_field; eassumption.
  - apply to_oxm.
  - eapply to_match; eassumption.
  - eapply to_bucket; eassumption.
Qed.

Definition A_val (k : delim) (d : pyval) (bs : bytes) : Prop :=
  forall pre suf, (k = TAIL -> suf = []) -> pre ++ bs ++ suf <> [] -> wf_bytes (pre ++ bs ++ suf) -> decl_ok d = true ->
  exists m v, unpack0 m (deepcopy d) (pre ++ bs ++ suf) (List.length pre) = Ok v /\ ends_in_nul v = true.
Definition A_fields (k : delim) (A : list (string * pyval)) (bs : bytes) : Prop :=
  forall pre suf attrs, (k = TAIL -> suf = []) -> pre ++ bs ++ suf <> [] -> wf_bytes (pre ++ bs ++ suf) ->
  forallb (fun p => decl_ok (snd p)) A = true -> NoDup (map fst A) ->
  exists m r, unpack_fields (unpack0 m) (size0 m) A attrs (pre ++ bs ++ suf) (List.length pre) = Ok r /\ nul_in A (fst r).
Definition A_items (pc : cid) (bs : bytes) : Prop :=
  forall K pre lc, wf_bytes (pre ++ bs) -> (List.length bs <= K)%nat ->
  exists m items, unpack_items (unpack0 m) (size0 m) pc K (pre ++ bs) (List.length pre) = Ok items /\ ends_in_nul (VList lc pc items) = true.
Definition A_obj (k : delim) (c : cid) (bs : bytes) : Prop :=
  forall a pre suf, (k = TAIL -> suf = []) -> pre ++ bs ++ suf <> [] -> wf_bytes (pre ++ bs ++ suf) -> map fst a = start_keys c ->
  exists m v, unpack0 m (VObj c a) (pre ++ bs ++ suf) (List.length pre) = Ok v /\ ends_in_nul v = true.

(** ** More steps *)
Lemma unpack_up m n v b o x : unpack0 m v b o = Ok x -> (m <= n)%nat -> unpack0 n v b o = Ok x.
Proof. intros U L. destruct (unpack0_mono m n v b o L) as [E|E]; congruence. Qed.
Lemma size_up m n v x : size0 m v = Ok x -> (m <= n)%nat -> size0 n v = Ok x.
Proof. intros U L. destruct (size0_mono m n v L) as [E|E]; congruence. Qed.
Lemma fields_up m n A a b o x : unpack_fields (unpack0 m) (size0 m) A a b o = Ok x -> (m <= n)%nat -> unpack_fields (unpack0 n) (size0 n) A a b o = Ok x.
Proof.
  intros U L. destruct (le_unpack_fields (unpack0 m) (unpack0 n) (size0 m) (size0 n) A ltac:(intros; apply unpack0_mono, L) ltac:(intros ?; apply size0_mono, L) a b o) as [E|E]; congruence.
Qed.
Lemma items_up m n pc K b o x : unpack_items (unpack0 m) (size0 m) pc K b o = Ok x -> (m <= n)%nat -> unpack_items (unpack0 n) (size0 n) pc K b o = Ok x.
Proof.
  intros U L. destruct (le_unpack_items (unpack0 m) (unpack0 n) (size0 m) (size0 n) pc ltac:(intros; apply unpack0_mono, L) ltac:(intros ?; apply size0_mono, L) K b o) as [E|E]; congruence.
Qed.

(** The size of what was decoded is the number of bytes it came from. *)
Lemma value_size k d bs bs' m pre suf v : tidy k d bs bs' -> (k = TAIL -> suf = []) -> pre ++ bs ++ suf <> [] -> wf_bytes (pre ++ bs ++ suf) -> decl_ok d = true ->
  unpack0 m (deepcopy d) (pre ++ bs ++ suf) (List.length pre) = Ok v -> ends_in_nul v = true -> exists N, size0 N v = Ok (zlen bs).
Proof.
  intros T Hs NE Wf Dk U Nul. destruct tidy_codes as (TC & _). destruct (TC _ _ _ _ T m pre suf v Hs NE Wf Dk U Nul) as (N & E). exists N.
  pose proof soundness as (Sd & _). pose proof (Sd _ _ _ _ _ _ _ E) as (_ & _ & _ & Sz & _). destruct tidy_len as (TL & _). destruct (TL _ _ _ _ T) as [Ln _].
  rewrite Sz. f_equal. unfold zlen. rewrite Ln. reflexivity.
Qed.

(** ** Leaves *)
Lemma nul_obj c l : ends_in_nul (VObj c l) = forallb (fun q => ends_in_nul (snd q)) l.
Proof. induction l as [|[n x] l IH]; [reflexivity|]. cbn [forallb snd]. rewrite <- IH. reflexivity. Qed.
Lemma rstrip_last (s : bytes) : (List.length (rstrip 0 (s ++ [0%Z])) < List.length (s ++ [0%Z]))%nat.
Proof.
  assert (G : forall x : bytes, (List.length (rstrip 0 x) <= List.length x)%nat).
  { intros x. unfold rstrip. rewrite rev_length, <- (rev_length x). generalize (rev x). intros y. induction y as [|z y IH]; [cbn; lia|]. cbn [drop_lead]. destruct (z =? 0); cbn [List.length]; lia. }
  assert (E : rstrip 0 (s ++ [0]) = rstrip 0 s) by (unfold rstrip; rewrite rev_app_distr; reflexivity). rewrite E, app_length. specialize (G s). cbn [List.length]. lia.
Qed.
Lemma int_allowed w e d bs : allowed (VUInt w (Some e) d) bs -> allowed_int (Some e) (place_value bs).
Proof.
  cbn [allowed allowed_int]. intros [(l & H)|H]; [left; unfold is_mask_enum; rewrite H; reflexivity|right; apply declared_member, H].
Qed.
Lemma uint_reads w er d bs pre suf : List.length bs = w -> wf_bytes bs -> allowed (VUInt w er d) bs -> uint_unpack w er (pre ++ bs ++ suf) (List.length pre) = Ok (VUInt w er (decoded_int er (place_value bs))).
Proof.
  intros L Wb Al. unfold uint_unpack, struct_unpack_u. rewrite mid_slice by exact L. rewrite L, Nat.eqb_refl. cbn [bind]. rewrite <- place_value_decode. destruct er as [e|]; [|reflexivity].
  apply int_allowed in Al. cbn [allowed_int decoded_int] in *. unfold enum_call, is_mask_enum in *. destruct (enum_def e); [destruct Al as [Al|Al]; [discriminate|]; rewrite Al; reflexivity..|reflexivity].
Qed.
Lemma A_leaf d bs : kept_width d = Some (List.length bs) -> allowed d bs -> A_val SD d bs.
Proof.
  intros Kw Al pre suf _ NE Wf Dk. pose proof (mid_wf _ _ _ Wf) as Wb. exists 1%nat.
  destruct d as [| | | | | |w er x| |len x|x m|x|x| | |]; try discriminate Kw; cbn [kept_width] in Kw; injection Kw as Lw.
  - cbn [deepcopy unpack0]. eexists. split; [apply (uint_reads w er x bs); [congruence|exact Wb|exact Al]|]. reflexivity.
  - cbn [deepcopy unpack0]. destruct Al as [Aa (s & Es)]. unfold char_unpack. rewrite mid_slice by congruence. rewrite <- Lw, Nat.eqb_refl.
    replace (forallb (fun c => c <? 128) bs) with true; [eexists; split; [reflexivity|] |].
    + cbn [ends_in_nul]. apply Nat.ltb_lt. subst bs. rewrite Lw. apply rstrip_last.
    + symmetry. apply forallb_forall. intros c J. rewrite Forall_forall in Aa. apply Z.ltb_lt, Aa, J.
  - cbn [deepcopy unpack0]. rewrite ip_unpack_mid by (auto; congruence). eexists. split; reflexivity.
  - cbn [deepcopy unpack0]. rewrite hw_unpack_mid by (auto; congruence). eexists. split; reflexivity.
  - cbn [deepcopy unpack0]. rewrite dpid_unpack_mid by (auto; congruence). eexists. split; reflexivity.
Qed.
Lemma A_pad k bs : A_val SD (VPad k) bs.
Proof. intros pre suf _ NE Wf Dk. exists 1%nat, (VPad k). split; reflexivity. Qed.
Lemma A_data d bs : A_val TAIL (VBin d) bs.
Proof. intros pre suf _ NE Wf Dk. exists 1%nat. eexists. split; reflexivity. Qed.
Lemma A_struct k c a bs : A_obj k c bs -> A_val k (VObj c a) bs.
Proof.
  intros T pre suf Hs NE Wf Dk. cbn [decl_ok] in Dk. apply andb_prop in Dk as [Dk D3].
  destruct (deepcopy (VObj c a)) as [| | | | | | | | | | | | |c' a'|]; try discriminate D3. apply andb_prop in D3 as [D3 D4]. apply cid_eqb_eq in D3. subst c'.
  apply names_eqb_eq in D4. exact (T a' pre suf Hs NE Wf D4).
Qed.
Lemma A_list lc pc bs : A_items pc bs -> A_val TAIL (VList lc pc []) bs.
Proof.
  intros T pre suf Hs NE Wf Dk. rewrite Hs in * by reflexivity. cbn [decl_ok] in Dk. rewrite andb_true_r in Dk. rewrite app_nil_r in *.
  destruct (T (S (List.length (pre ++ bs))) pre CFixedTypeList Wf ltac:(rewrite app_length; lia)) as (m & items & U & Nul). exists (S m). eexists.
  cbn [deepcopy map]. rewrite (cid_eqb_neq _ _ (list_class _ Dk)). cbn [unpack0]. rewrite U. cbn [bind app]. split; [reflexivity|exact Nul].
Qed.

(** ** Fields *)
Lemma A_nil : A_fields SD [] [].
Proof. intros pre suf attrs Hs NE Wf Dk D. exists O. eexists. split; [reflexivity|]. intros nm v []. Qed.
Lemma A_last n d bs bs' : tidy TAIL d bs bs' -> A_val TAIL d bs -> A_fields TAIL [(n, d)] bs.
Proof.
  intros T A pre suf attrs Hs NE Wf Dk D. cbn [forallb snd] in Dk. rewrite andb_true_r in Dk. destruct (A pre suf Hs NE Wf Dk) as (m & v & U & Nul).
  destruct (value_size _ _ _ _ _ _ _ _ T Hs NE Wf Dk U Nul) as (N & Sz). exists (max m N). eexists. rewrite unpack_fields_cons by exact NE.
  rewrite (unpack_up _ (max m N) _ _ _ _ U) by lia. cbn [bind]. rewrite (size_up _ (max m N) _ _ Sz) by lia. cbn [bind unpack_fields]. split; [reflexivity|].
  cbn [fst map]. intros nm w [<-|[] ] G. rewrite get_set_same in G. congruence.
Qed.
Lemma A_cons k n d A b1 b1' b2 : tidy SD d b1 b1' -> A_val SD d b1 -> A_fields k A b2 -> A_fields k ((n, d) :: A) (b1 ++ b2).
Proof.
  intros T Av Af pre suf attrs Hs NE Wf Dk D. cbn [forallb snd] in Dk. apply andb_prop in Dk as [D1 D2]. cbn [map fst] in D. inversion D as [|? ? Ni D']; subst.
  assert (E1 : pre ++ (b1 ++ b2) ++ suf = pre ++ b1 ++ (b2 ++ suf)) by (rewrite <- app_assoc; reflexivity). rewrite E1 in *.
  destruct (Av pre (b2 ++ suf) ltac:(discriminate) NE Wf D1) as (m & v & U & Nul). destruct (value_size _ _ _ _ _ _ _ _ T ltac:(discriminate) NE Wf D1 U Nul) as (N & Sz).
  assert (E2 : pre ++ b1 ++ b2 ++ suf = (pre ++ b1) ++ b2 ++ suf) by (rewrite <- app_assoc; reflexivity).
  destruct (Af (pre ++ b1) suf (set_attr n v attrs) Hs ltac:(rewrite <- E2; exact NE) ltac:(rewrite <- E2; exact Wf) D2 D') as (m2 & r & U2 & Nul2). rewrite <- E2 in U2.
  set (M := max (max m N) m2). exists M, r. rewrite unpack_fields_cons by exact NE. rewrite (unpack_up _ M _ _ _ _ U) by (unfold M; lia). cbn [bind]. rewrite (size_up _ M _ _ Sz) by (unfold M; lia).
  cbn [bind]. rewrite zlen_to_nat, <- app_length. pose proof (fields_up _ M _ _ _ _ _ U2 ltac:(unfold M; lia)) as U3. split; [exact U3|].
  intros nm w [<-|J] G; [|exact (Nul2 nm w J G)]. cbn [fst] in G. rewrite (unpack_fields_keep _ _ n A Ni _ _ _ _ U3), get_set_same in G. congruence.
Qed.

(** ** Lists *)
Lemma AI_nil pc : A_items pc [].
Proof.
  intros K pre lc Wf L. rewrite app_nil_r. exists O, []. split; [|reflexivity]. destruct K; cbn [unpack_items]; rewrite Nat.ltb_irrefl; reflexivity.
Qed.
Lemma AI_step k pc bs bs' b2 K pre lc : class_attrs pc <> [] -> tidy_obj k pc bs bs' -> A_obj k pc bs -> bs <> [] -> (k = TAIL -> b2 = []) -> A_items pc b2 -> wf_bytes (pre ++ bs ++ b2) ->
  (List.length (bs ++ b2) <= K)%nat ->
  exists m items, unpack_items (unpack0 m) (size0 m) pc K (pre ++ bs ++ b2) (List.length pre) = Ok items /\ ends_in_nul (VList lc pc items) = true.
Proof.
  intros Ne T A NEb Hk Ai Wf LK. assert (L : (List.length pre < List.length (pre ++ bs ++ b2))%nat) by (rewrite !app_length; destruct bs; [congruence|cbn; lia]).
  assert (NB : pre ++ bs ++ b2 <> []) by (apply nonempty_app; destruct bs; [congruence|cbn; lia]).
  destruct (instantiable pc Ne) as (a & NI & Ka). destruct (A a pre b2 Hk NB Wf Ka) as (m & v & U & Nul).
  destruct tidy_codes as (_ & _ & _ & TO). destruct (TO _ _ _ _ T m a pre b2 v Hk NB Wf Ka U Nul) as (N & E).
  pose proof soundness as (_ & _ & _ & _ & Sd). pose proof (Sd _ _ _ _ _ _ _ E) as (Sub & _ & _ & _ & _ & Sz & _). specialize (Sz eq_refl).
  destruct tidy_len as (_ & _ & _ & TL). destruct (TL _ _ _ _ T) as [Ln _].
  rewrite app_length in LK. assert (Lb : (0 < List.length bs)%nat) by (destruct bs; [congruence|cbn; lia]). destruct K as [|K]; [lia|].
  destruct (Ai K (pre ++ bs) lc ltac:(rewrite <- app_assoc; exact Wf) ltac:(lia)) as (m2 & rest & U2 & Nul2). rewrite <- app_assoc in U2.
  set (M := max (max m N) m2). exists M, (v :: rest). cbn [unpack_items]. replace (Nat.ltb (List.length pre) (List.length (pre ++ bs ++ b2))) with true by (symmetry; apply Nat.ltb_lt, L).
  rewrite NI, (unpack_up _ M _ _ _ _ U) by (unfold M; lia). cbn [bind].
  destruct Sub as (c' & a' & -> & Sb). assert (Nc : pc <> CNone) by (intros ->; apply Ne; reflexivity).
  cbn [flat check_items]. rewrite cid_eqb_neq by exact Nc. cbn [class_of]. rewrite Sb. cbn [bind].
  rewrite (size_up _ M _ _ Sz) by (unfold M; lia). cbn [bind]. rewrite zlen_to_nat, Ln, <- app_length, (items_up _ M _ _ _ _ _ U2) by (unfold M; lia). cbn [bind app].
  split; [reflexivity|]. rewrite nul_item, Nul, Nul2. reflexivity.
Qed.
Lemma AI_last k pc bs bs' : class_attrs pc <> [] -> tidy_obj k pc bs bs' -> A_obj k pc bs -> bs <> [] -> A_items pc bs.
Proof.
  intros Ne T A NE K pre lc Wf L. rewrite <- (app_nil_r bs) in Wf, L |- *. eapply AI_step; try eassumption; [reflexivity|apply AI_nil].
Qed.
Lemma AI_cons pc b1 b1' b2 : class_attrs pc <> [] -> tidy_obj SD pc b1 b1' -> A_obj SD pc b1 -> b1 <> [] -> A_items pc b2 -> A_items pc (b1 ++ b2).
Proof. intros Ne T A NE Ai K pre lc Wf L. eapply AI_step; try eassumption. discriminate. Qed.

(** ** Structures *)
Lemma nul_values names : NoDup names -> forall vals, List.length vals = List.length names ->
  (forall nm v, In nm names -> get_attr nm (combine names vals) = Some v -> ends_in_nul v = true) -> forallb (fun q => ends_in_nul (snd q)) (combine names vals) = true.
Proof.
  induction names as [|n names IH]; intros D [|v vals] L H; try discriminate L; [reflexivity|]. inversion D as [|? ? Ni D']; subst. cbn [combine forallb snd].
  rewrite (H n v); [|left; reflexivity|cbn; rewrite String.eqb_refl; reflexivity]. cbn [andb]. apply IH; [exact D'|cbn in L; lia|].
  intros nm w J G. apply (H nm w); [right; exact J|]. cbn [combine get_attr]. destruct (String.eqb_spec n nm) as [->|Q]; [contradiction|exact G].
Qed.
Lemma A_structure k c bs bs' a r pre suf : tidy_fields k (class_attrs c) bs bs' -> A_fields k (class_attrs c) bs -> field_names c = map fst a ++ r -> (k = TAIL -> suf = []) ->
  pre ++ bs ++ suf <> [] -> wf_bytes (pre ++ bs ++ suf) ->
  exists m v, (do x <- unpack_fields (unpack0 m) (size0 m) (class_attrs c) a (pre ++ bs ++ suf) (List.length pre); Ok (VObj c (fst x))) = Ok v /\ ends_in_nul v = true.
Proof.
  intros T A Ka Hs NE Wf. destruct (A pre suf a Hs NE Wf (decls_ok c) (class_names_nodup c)) as (m & x & U & Nul). exists m. eexists. rewrite U. cbn [bind]. split; [reflexivity|].
  destruct tidy_codes as (_ & TC & _). destruct (TC _ _ _ _ T m pre suf a x Hs NE Wf (decls_ok c) (class_names_nodup c) U Nul) as (N & vals & -> & L & _). cbn [fst] in *.
  rewrite nul_obj. change (map fst (class_attrs c)) with (field_names c) in *. assert (Lv : List.length vals = List.length (field_names c)) by (unfold field_names; rewrite map_length; exact L).
  rewrite (set_all_fresh _ _ _ r) in * by (try apply class_names_nodup; assumption). apply nul_values; [apply class_names_nodup|exact Lv|]. exact Nul.
Qed.
