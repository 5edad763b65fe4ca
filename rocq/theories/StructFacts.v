(** Dictionaries, field lists and the equations of pack / get_size / unpack,
    one per kind of class. *)
From Coq Require Import ZArith List Bool String Lia ZifyBool.
From Verif Require Import Base PyText Ids PyVal Classes Interp Spec BaseFacts TextFacts ClassFacts LeafFacts.
Import ListNotations.
Open Scope string_scope.
Open Scope list_scope.
Open Scope Z_scope.

(** ** Dictionaries *)

Fixpoint set_all (names : list string) (outs : list pyval) (attrs : list (string * pyval)) :=
  match names, outs with
  | n :: ns, o :: os => set_all ns os (set_attr n o attrs)
  | _, _ => attrs
  end.

Lemma set_attr_keys name x attrs :
  In name (map fst attrs) -> map fst (set_attr name x attrs) = map fst attrs.
Proof.
  induction attrs as [|[k v] tl IH]; cbn; [contradiction|].
  destruct (String.eqb_spec k name); cbn; [congruence|].
  intros [E|E]; [contradiction|]. rewrite IH by exact E. reflexivity.
Qed.
Lemma set_attr_app name x done tl :
  ~ In name (map fst done) -> set_attr name x (done ++ tl) = done ++ set_attr name x tl.
Proof.
  induction done as [|[k v] d IH]; cbn; auto. intros H.
  destruct (String.eqb_spec k name); [exfalso; auto|]. rewrite IH by auto. reflexivity.
Qed.

Lemma set_all_prefix names : forall outs done rest,
  NoDup (map fst done ++ names) -> List.length outs = List.length names ->
  (exists r, names = map fst rest ++ r) ->
  set_all names outs (done ++ rest) = done ++ combine names outs.
Proof.
  induction names as [|n ns IH]; intros outs done rest ND L (r & E).
  - destruct rest; [|discriminate]. destruct outs; [|discriminate]. reflexivity.
  - destruct outs as [|o os]; [discriminate|]. cbn [set_all combine].
    assert (Hn : ~ In n (map fst done)).
    { apply NoDup_remove_2 in ND. intros I. apply ND. apply in_or_app. auto. }
    rewrite set_attr_app by exact Hn.
    assert (exists rest', set_attr n o rest = (n, o) :: rest' /\ exists r, ns = map fst rest' ++ r)
      as (rest' & -> & Hr).
    { destruct rest as [|[k v] rest]; cbn in *.
      - exists []. split; auto. exists ns. reflexivity.
      - inversion E; subst. rewrite String.eqb_refl. exists rest. split; auto. exists r. reflexivity. }
    change ((n, o) :: rest') with ([(n, o)] ++ rest').
    rewrite app_assoc. rewrite IH.
    + rewrite <- app_assoc. reflexivity.
    + rewrite map_app. cbn [map fst]. rewrite <- app_assoc. exact ND.
    + cbn in L. lia.
    + exact Hr.
Qed.

Lemma set_all_fresh names outs attrs0 r :
  NoDup names -> List.length outs = List.length names -> names = map fst attrs0 ++ r ->
  set_all names outs attrs0 = combine names outs.
Proof.
  intros ND L E. apply (set_all_prefix names outs [] attrs0); cbn; eauto.
Qed.

Lemma get_attr_combine names outs i n o :
  NoDup names -> nth_error names i = Some n -> nth_error outs i = Some o ->
  get_attr n (combine names outs) = Some o.
Proof.
  revert outs i. induction names as [|m names IH]; intros outs i ND Hn Ho; destruct i; try discriminate.
  - destruct outs; [discriminate|]. cbn in *. inversion Hn; inversion Ho; subst.
    rewrite String.eqb_refl. reflexivity.
  - destruct outs; [discriminate|]. cbn in *. inversion ND; subst.
    destruct (String.eqb_spec m n); [|eauto].
    subst. exfalso. apply H1. eapply nth_error_In; eauto.
Qed.

Lemma set_attr_same n o attrs : get_attr n attrs = Some o -> set_attr n o attrs = attrs.
Proof.
  induction attrs as [|[k v] tl IH]; cbn; [discriminate|].
  destruct (String.eqb_spec k n); intros H.
  - inversion H; subst. reflexivity.
  - rewrite IH by exact H. reflexivity.
Qed.
Lemma get_set_same n o attrs : get_attr n (set_attr n o attrs) = Some o.
Proof.
  induction attrs as [|[k v] tl IH]; cbn; [rewrite String.eqb_refl; reflexivity|].
  destruct (String.eqb_spec k n); cbn.
  - rewrite String.eqb_refl. reflexivity.
  - destruct (String.eqb_spec k n); [contradiction|]. exact IH.
Qed.
Lemma get_set_other n m o attrs : n <> m -> get_attr n (set_attr m o attrs) = get_attr n attrs.
Proof.
  intros H. induction attrs as [|[k v] tl IH]; cbn.
  - destruct (String.eqb_spec m n); congruence.
  - destruct (String.eqb_spec k m); cbn; destruct (String.eqb_spec k n);
      destruct (String.eqb_spec m n); try congruence; auto.
Qed.

Lemma combine_fst {A B} (a : list A) (b : list B) :
  List.length b = List.length a -> map fst (combine a b) = a.
Proof. revert b. induction a; destruct b; cbn; intros; try discriminate; auto. f_equal. auto. Qed.
Lemma combine_snd {A B} (a : list A) (b : list B) :
  List.length b = List.length a -> map snd (combine a b) = b.
Proof. revert b. induction a; destruct b; cbn; intros; try discriminate; auto. f_equal. auto. Qed.

Lemma is_class_attr_in c n : is_class_attr c n = true <-> In n (field_names c).
Proof.
  unfold is_class_attr, field_names. rewrite existsb_exists, in_map_iff. split.
  - intros ([a b] & I & E). apply String.eqb_eq in E. exists (a, b). auto.
  - intros ([a b] & E & I). exists (a, b). split; auto. cbn in *. subst. apply String.eqb_refl.
Qed.

Lemma filter_all {A} (f : A -> bool) l : (forall x, In x l -> f x = true) -> filter f l = l.
Proof.
  induction l as [|a l IH]; cbn; auto. intros H. rewrite H by auto. rewrite IH; auto.
Qed.

(** A decoded object has exactly the declared fields. *)
Lemma own_mk c outs : List.length outs = List.length (class_attrs c) ->
  own c (combine (field_names c) outs) = combine (field_names c) outs.
Proof.
  intros L. apply filter_all. intros [k v] I. cbn. apply is_class_attr_in.
  eapply in_combine_l. exact I.
Qed.
Lemma complete_mk c outs : List.length outs = List.length (class_attrs c) ->
  complete c (combine (field_names c) outs).
Proof.
  intros L. unfold complete. rewrite own_mk by exact L. apply combine_fst.
  unfold field_names. rewrite map_length. exact L.
Qed.
Lemma values_mk c outs : List.length outs = List.length (class_attrs c) ->
  values c (combine (field_names c) outs) = outs.
Proof.
  intros L. unfold values. rewrite own_mk by exact L. apply combine_snd.
  unfold field_names. rewrite map_length. exact L.
Qed.

Lemma own_set c n x attrs : In n (field_names c) -> In n (map fst attrs) ->
  own c (set_attr n x attrs) = set_attr n x (own c attrs).
Proof.
  intros Hc. unfold own. apply is_class_attr_in in Hc.
  induction attrs as [|[k v] tl IH]; cbn [map fst In]; [contradiction|]. intros H.
  cbn [set_attr]. destruct (String.eqb_spec k n).
  - subst. cbn [filter fst]. rewrite Hc. cbn [set_attr]. rewrite String.eqb_refl. reflexivity.
  - destruct H as [H|H]; [contradiction|]. cbn [filter fst].
    rewrite IH by exact H. destruct (is_class_attr c k); auto.
    cbn [set_attr]. destruct (String.eqb_spec k n); [contradiction|reflexivity].
Qed.
Lemma get_own c n attrs : In n (field_names c) -> get_attr n (own c attrs) = get_attr n attrs.
Proof.
  intros Hc. unfold own. apply is_class_attr_in in Hc.
  induction attrs as [|[k v] tl IH]; cbn; auto.
  destruct (String.eqb_spec k n).
  - subst. rewrite Hc. cbn. rewrite String.eqb_refl. reflexivity.
  - destruct (is_class_attr c k); cbn; [|exact IH].
    destruct (String.eqb_spec k n); [contradiction|exact IH].
Qed.
Lemma own_keys_in c n attrs : In n (map fst (own c attrs)) -> In n (map fst attrs).
Proof.
  unfold own. rewrite !in_map_iff. intros (p & E & I). apply filter_In in I. exists p. tauto.
Qed.
Lemma complete_in c n attrs : complete c attrs -> In n (field_names c) -> In n (map fst attrs).
Proof. intros C I. unfold complete in C. rewrite <- C in I. eapply own_keys_in. exact I. Qed.
Lemma complete_set c n x attrs : complete c attrs -> In n (field_names c) ->
  complete c (set_attr n x attrs).
Proof.
  intros C I. unfold complete. rewrite own_set; eauto using complete_in.
  rewrite set_attr_keys; auto. unfold complete in C. rewrite C. exact I.
Qed.

Lemma get_attr_in n (l : list (string * pyval)) v : get_attr n l = Some v -> In n (map fst l).
Proof.
  induction l as [|[k x] tl IH]; cbn; [discriminate|].
  destruct (String.eqb_spec k n); auto.
Qed.

Lemma zip_attrs_values c attrs : zip_attrs c attrs = combine (map snd (class_attrs c)) (values c attrs).
Proof. reflexivity. Qed.

(** ** Sizes *)

(** The size of an integer field does not depend on what it holds. *)
Lemma struct_size_set rec c name x attrs w er d :
  complete c attrs -> get_attr name (class_attrs c) = Some (VUInt w er d) ->
  struct_size rec c (set_attr name x attrs) = struct_size rec c attrs.
Proof.
  intros C G. unfold struct_size. rewrite !zip_attrs_values. unfold values.
  assert (I : In name (field_names c)) by (eapply get_attr_in; exact G).
  rewrite own_set; eauto using complete_in.
  unfold complete, field_names in C. revert C G. generalize (own c attrs).
  generalize (class_attrs c). clear.
  induction l as [|[k cv] fs IH]; intros l0 C G; [reflexivity|].
  destruct l0 as [|[k' v] l0]; [discriminate|]. cbn in C. inversion C; subst.
  cbn [get_attr] in G. cbn [set_attr]. destruct (String.eqb_spec k name).
  - subst. inversion G; subst. cbn [map snd combine sumM fst]. unfold size1 at 1 3. reflexivity.
  - cbn [map snd combine sumM fst]. rewrite IH by assumption. reflexivity.
Qed.

Lemma ceil8_mult n : n mod 8 = 0 -> ceil8 n = n.
Proof.
  intros H. unfold ceil8. apply Z.div_exact in H; [|lia].
  replace (n + 7) with ((n / 8) * 8 + 7) by lia.
  rewrite Z.div_add_l by lia. change (7 / 8) with 0. lia.
Qed.
Lemma ceil8_pad n p : (n + p) mod 8 = 0 -> 0 <= p < 8 -> ceil8 n = n + p.
Proof.
  intros H Hp. unfold ceil8. apply Z.div_exact in H; [|lia].
  assert (E : (n + 7) / 8 = (n + p) / 8).
  { replace (n + 7) with (((n + p) / 8) * 8 + (7 - p)) by lia.
    rewrite Z.div_add_l by lia. rewrite (Z.div_small (7 - p)) by lia. lia. }
  rewrite E. lia.
Qed.

(** ** Equations of the model, by kind of class *)

Lemma is_valid_plain c attrs : kind c <> KPacketOut01 -> kind c <> KPacketOut04 ->
  is_valid c attrs = Ok true.
Proof. unfold is_valid. destruct (kind c); intros; congruence. Qed.

Lemma struct_pack_eq rec c attrs : kind c <> KPacketOut01 -> kind c <> KPacketOut04 ->
  struct_pack rec c attrs
  = concatM (fun p => pack1 rec (fst p) (snd p)) (combine (map snd (class_attrs c)) (values c attrs)).
Proof. intros. unfold struct_pack. rewrite is_valid_plain by assumption. reflexivity. Qed.

Definition simple_size (k : ckind) : bool :=
  match k with KAction04 | KSetField04 | KMatch04 | KBucket => false | _ => true end.
Lemma size0_simple n c attrs : simple_size (kind c) = true ->
  size0 (S n) (VObj c attrs) = struct_size (size0 n) c attrs.
Proof. cbn [size0]. destruct (kind c); intros; try discriminate; reflexivity. Qed.
Lemma size0_ceil n c attrs : kind c = KAction04 \/ kind c = KSetField04 \/ kind c = KMatch04 ->
  size0 (S n) (VObj c attrs) = (do s <- struct_size (size0 n) c attrs; Ok (ceil8 s)).
Proof. cbn [size0]. intros [-> | [-> | ->] ]; reflexivity. Qed.
Lemma size0_bucket n attrs :
  size0 (S n) (VObj Bucket04 attrs) =
  (do l <- attr_or_error "length" attrs;
   match l with VNone => struct_size (size0 n) Bucket04 attrs | _ => num_of l end).
Proof. reflexivity. Qed.

Definition plain_pack (k : ckind) : bool :=
  match k with
  | KStruct | KLen _ false | KTyped TMeterBand | KAction01 | KAction04 | KMatch01 | KBucket => true
  | _ => false
  end.
Lemma pack0_plain n c attrs : plain_pack (kind c) = true ->
  pack0 (S n) (VObj c attrs) = struct_pack (pack0 n) c attrs.
Proof.
  change (pack0 (S n) (VObj c attrs)) with (pack_obj (pack0 n) (size0 n) (size0 (S n)) c attrs).
  unfold pack_obj. destruct (kind c);
    repeat match goal with b : bool |- _ => destruct b | f : typed_family |- _ => destruct f end;
    intros; try discriminate; reflexivity.
Qed.
Definition upd_pack (k : ckind) : bool :=
  match k with KLen _ true | KTyped TInstruction | KTyped TProperty => true | _ => false end.
Lemma pack0_upd n c attrs : upd_pack (kind c) = true ->
  pack0 (S n) (VObj c attrs)
  = (do s <- size0 (S n) (VObj c attrs);
     struct_pack (pack0 n) c (set_attr "length" (VInt s) attrs)).
Proof.
  change (pack0 (S n) (VObj c attrs)) with (pack_obj (pack0 n) (size0 n) (size0 (S n)) c attrs).
  unfold pack_obj. destruct (kind c);
    repeat match goal with b : bool |- _ => destruct b | f : typed_family |- _ => destruct f end;
    intros; try discriminate; reflexivity.
Qed.

Section unpack_eqs.
  Context (n : nat) (c : cid) (attrs : list (string * pyval)) (buff : bytes) (off : nat).
  Let structure c' attrs' b :=
    do r <- unpack_fields (unpack0 n) (size0 n) (class_attrs c') attrs' b off; Ok (VObj c' (fst r)).

  Lemma unpack0_obj :
    unpack0 (S n) (VObj c attrs) buff off = unpack_obj (unpack0 n) (size0 n) c attrs buff off.
  Proof. reflexivity. Qed.
  Lemma unpack0_struct : kind c = KStruct ->
    unpack0 (S n) (VObj c attrs) buff off = structure c attrs buff.
  Proof. intros H. rewrite unpack0_obj. unfold unpack_obj. rewrite H. reflexivity. Qed.
  Lemma unpack0_match01 : kind c = KMatch01 ->
    unpack0 (S n) (VObj c attrs) buff off
    = (do r <- unpack_fields (unpack0 n) (size0 n) (class_attrs c) attrs buff off;
       do w <- uint_unpack 4 (Some E_FlowWildCards01) buff off;
       Ok (VObj c (set_attr "wildcards" w (fst r)))).
  Proof. intros H. rewrite unpack0_obj. unfold unpack_obj. rewrite H. reflexivity. Qed.
  Lemma unpack0_len pos upd : kind c = KLen pos upd ->
    unpack0 (S n) (VObj c attrs) buff off
    = (do _ <- uint_unpack 2 None buff (match pos with 4%nat => off | _ => (off + pos)%nat end);
       do l <- uint_unpack 2 None buff (off + pos)%nat;
       do len <- num_of l;
       structure c attrs (firstn (off + Z.to_nat len) buff)).
  Proof. intros H. rewrite unpack0_obj. unfold unpack_obj. rewrite H. reflexivity. Qed.
  Lemma unpack0_bucket : kind c = KBucket ->
    unpack0 (S n) (VObj c attrs) buff off
    = (do l <- uint_unpack 2 None buff off;
       do len <- num_of l;
       structure c attrs (firstn (off + Z.to_nat len) buff)).
  Proof. intros H. rewrite unpack0_obj. unfold unpack_obj. rewrite H. reflexivity. Qed.
  Lemma unpack0_typed f : kind c = KTyped f ->
    unpack0 (S n) (VObj c attrs) buff off
    = (do t <- uint_unpack 2 (Some (family_enum f)) buff off;
       do tz <- num_of t;
       do c' <- find_class f tz;
       do l <- uint_unpack 2 None buff (off + 2)%nat;
       do len <- num_of l;
       structure c' attrs (firstn (off + Z.to_nat len) buff)).
  Proof. intros H. rewrite unpack0_obj. unfold unpack_obj. rewrite H. reflexivity. Qed.
  Lemma unpack0_action01 : kind c = KAction01 ->
    unpack0 (S n) (VObj c attrs) buff off
    = (do t <- uint_unpack 2 (Some E_ActionType01) buff off;
       do tz <- num_of t;
       structure (action_class c action_classes_01 tz) (set_attr "action_type" t attrs) buff).
  Proof. intros H. rewrite unpack0_obj. unfold unpack_obj. rewrite H. reflexivity. Qed.
  Lemma unpack0_action04 : kind c = KAction04 ->
    unpack0 (S n) (VObj c attrs) buff off
    = (do t <- uint_unpack 2 (Some E_ActionType04) buff off;
       do l <- uint_unpack 2 None buff (off + 2)%nat;
       do tz <- num_of t;
       do len <- num_of l;
       structure (action_class c action_classes_04 tz)
                 (set_attr "length" l (set_attr "action_type" t attrs))
                 (firstn (off + Z.to_nat len) buff)).
  Proof. intros H. rewrite unpack0_obj. unfold unpack_obj. rewrite H. reflexivity. Qed.
End unpack_eqs.

(** ** Copies *)

Lemma deepcopy_obj c attrs : exists attrs',
  deepcopy (VObj c attrs) = VObj c attrs' /\ map fst attrs' = map fst attrs.
Proof.
  cbn [deepcopy]. eexists. split; [reflexivity|].
  induction attrs as [|[k v] tl IH]; cbn; congruence.
Qed.

(** ** Lists of objects *)

Definition obj_of (pc : cid) (v : pyval) : Prop :=
  exists c attrs, v = VObj c attrs /\ subclass c pc = true.

Lemma flat_objs pc vs : Forall (obj_of pc) vs -> flat_map flat vs = vs.
Proof.
  induction 1 as [|v vs (c & a & -> & _) _ IH]; cbn; auto. rewrite IH. reflexivity.
Qed.
Lemma check_objs pc vs : pc <> CNone -> Forall (obj_of pc) vs -> check_items pc vs = Ok vs.
Proof.
  intros Hn. induction 1 as [|v vs (c & a & -> & S) _ IH]; cbn [check_items]; auto.
  rewrite cid_eqb_neq by exact Hn. cbn [class_of]. rewrite S, IH. reflexivity.
Qed.
Lemma list_extend_objs pc lc' pc' vs : pc <> CNone -> Forall (obj_of pc) vs ->
  list_extend pc (VList lc' pc' vs) = Ok vs.
Proof.
  intros. unfold list_extend. cbn [iterate bind]. rewrite (flat_objs pc) by assumption.
  apply check_objs; assumption.
Qed.
Lemma list_init_objs size pc lc' pc' vs : pc <> CNone -> Forall (obj_of pc) vs ->
  list_init size pc (VList lc' pc' vs) = Ok vs.
Proof.
  intros. unfold list_init. rewrite (flat_objs pc) by assumption. apply check_objs; assumption.
Qed.
Lemma list_extend_nil pc lc' pc' : list_extend pc (VList lc' pc' []) = Ok [].
Proof. reflexivity. Qed.

Lemma size0_list n lc pc vs pc0 : lc <> CList -> Forall (obj_of pc0) vs ->
  size0 (S n) (VList lc pc vs) = sumM (size0 n) vs.
Proof.
  intros H F. cbn [size0]. rewrite cid_eqb_neq by exact H.
  destruct F as [|v vs (c & a & -> & _) _]; [reflexivity|]. reflexivity.
Qed.
Lemma pack0_list n lc pc vs : lc <> CList ->
  pack0 (S n) (VList lc pc vs)
  = concatM (fun x => if has_pack x then pack0 n x else Err AttributeError) vs.
Proof. intros H. cbn [pack0]. rewrite cid_eqb_neq by exact H. reflexivity. Qed.

(** Classes with fields can be instantiated. *)
Lemma instantiable c : class_attrs c <> [] ->
  exists a, new_instance c = Some (VObj c a) /\ map fst a = start_keys c.
Proof.
  intros H. assert (G : ((match class_attrs c with [] => true | _ => false end) || new_objb c) = true).
  { clear H. revert c. apply all_classes. vm_compute. reflexivity. }
  apply orb_prop in G as [G|G].
  - destruct (class_attrs c); [contradiction|discriminate].
  - unfold new_objb in G. destruct (new_instance c) as [[]|] eqn:E; try discriminate.
    apply cid_eqb_eq in G. subst. eexists. split; [reflexivity|]. unfold start_keys. rewrite E. reflexivity.
Qed.
