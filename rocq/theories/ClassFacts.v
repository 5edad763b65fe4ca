(** Facts about the generated class tables, checked class by class. *)
From Coq Require Import ZArith List Bool String Lia.
From Verif Require Import Base PyText Ids PyVal Classes Interp Spec.
Import ListNotations.
Open Scope string_scope.
Open Scope list_scope.
Open Scope Z_scope.

Lemma cid_nth c : nth_error all_cids (Pos.to_nat (cid_num c) - 1) = Some c.
Proof. destruct c; vm_compute; reflexivity. Qed.
Lemma eid_nth e : nth_error all_eids (Pos.to_nat (eid_num e) - 1) = Some e.
Proof. destruct e; vm_compute; reflexivity. Qed.

Lemma cid_eqb_eq a b : cid_eqb a b = true <-> a = b.
Proof.
  unfold cid_eqb. rewrite Pos.eqb_eq. split; [|congruence]. intros H.
  pose proof (cid_nth a) as Ha. rewrite H, cid_nth in Ha. congruence.
Qed.
Lemma eid_eqb_eq a b : eid_eqb a b = true <-> a = b.
Proof.
  unfold eid_eqb. rewrite Pos.eqb_eq. split; [|congruence]. intros H.
  pose proof (eid_nth a) as Ha. rewrite H, eid_nth in Ha. congruence.
Qed.
Lemma cid_eqb_refl a : cid_eqb a a = true.
Proof. apply cid_eqb_eq. reflexivity. Qed.
Lemma eid_eqb_refl a : eid_eqb a a = true.
Proof. apply eid_eqb_eq. reflexivity. Qed.
Lemma cid_eqb_neq a b : a <> b -> cid_eqb a b = false.
Proof. intros H. destruct (cid_eqb a b) eqn:E; auto. apply cid_eqb_eq in E. contradiction. Qed.
Lemma cid_in c : In c all_cids.
Proof. eapply nth_error_In. apply cid_nth. Qed.

Lemma subclass_refl c : subclass c c = true.
Proof. unfold subclass. cbn. rewrite cid_eqb_refl. reflexivity. Qed.

(** A statement checked on every class by computation. *)
Lemma all_classes (f : cid -> bool) : forallb f all_cids = true -> forall c, f c = true.
Proof. intros H c. rewrite forallb_forall in H. apply H, cid_in. Qed.

Fixpoint nodupb (l : list string) : bool :=
  match l with
  | [] => true
  | x :: tl => negb (existsb (String.eqb x) tl) && nodupb tl
  end.
Lemma nodupb_ok l : nodupb l = true -> NoDup l.
Proof.
  induction l as [|x l IH]; cbn; intros H; constructor.
  - apply andb_prop in H as [H _]. intros I. apply negb_true_iff in H.
    assert (existsb (String.eqb x) l = true); [|congruence].
    apply existsb_exists. exists x. split; auto. apply String.eqb_refl.
  - apply IH. apply andb_prop in H. tauto.
Qed.
Lemma names_nodup c : NoDup (field_names c).
Proof. apply nodupb_ok. revert c. apply all_classes. vm_compute. reflexivity. Qed.

Fixpoint names_eqb (a b : list string) : bool :=
  match a, b with
  | [], [] => true
  | x :: a', y :: b' => String.eqb x y && names_eqb a' b'
  | _, _ => false
  end.
Lemma names_eqb_eq a b : names_eqb a b = true -> a = b.
Proof.
  revert b. induction a as [|x a IH]; destruct b as [|y b]; cbn; intros H; try discriminate; auto.
  apply andb_prop in H as [E H]. apply String.eqb_eq in E. f_equal; auto.
Qed.

(** New instances hold exactly the declared fields (an OXM TLV holds two more
    attributes). *)
Lemma start_keys_names c : c <> OxmTLV04 -> start_keys c = field_names c.
Proof.
  intros H. apply names_eqb_eq.
  assert (G : (cid_eqb c OxmTLV04 || names_eqb (start_keys c) (field_names c)) = true).
  { revert c H. intros c _. revert c. apply all_classes. vm_compute. reflexivity. }
  apply orb_prop in G as [G|G]; auto. apply cid_eqb_eq in G. contradiction.
Qed.

Definition new_objb (c : cid) : bool :=
  match new_instance c with Some (VObj c' _) => cid_eqb c' c | _ => false end.

Fixpoint prefixb (a b : list string) : bool :=
  match a, b with
  | [], _ => true
  | x :: a', y :: b' => String.eqb x y && prefixb a' b'
  | _, _ => false
  end.
Lemma prefixb_ok a b : prefixb a b = true -> exists r, b = a ++ r.
Proof.
  revert b. induction a as [|x a IH]; intros b H; [exists b; reflexivity|].
  destruct b as [|y b]; cbn in H; [discriminate|].
  apply andb_prop in H as [E H]. apply String.eqb_eq in E. subst.
  destruct (IH _ H) as [r ->]. exists r. reflexivity.
Qed.

(** Everything needed about a class selected by a type code. *)
Definition typed_ok (f : typed_family) (p : Z * cid) : bool :=
  let '(t, c) := p in
  match find_class f t with Ok c' => cid_eqb c' c | _ => false end &&
  is_member (family_enum f) t && negb (is_mask_enum (family_enum f)) &&
  match kind c, f with
  | KTyped TInstruction, TInstruction | KTyped TProperty, TProperty
  | KTyped TMeterBand, TMeterBand => true
  | _, _ => false
  end &&
  match kind (typed_root f), f with
  | KTyped TInstruction, TInstruction | KTyped TProperty, TProperty
  | KTyped TMeterBand, TMeterBand => true
  | _, _ => false
  end &&
  subclass c (typed_root f) && prefixb (field_names (typed_root f)) (field_names c) &&
  match get_attr "length" (class_attrs c) with Some (VUInt _ _ _) => true | _ => false end.

Lemma typed_table_ok f t c : In (t, c) (typed_table f) -> typed_ok f (t, c) = true.
Proof.
  assert (G : forallb (typed_ok f) (typed_table f) = true) by (destruct f; vm_compute; reflexivity).
  rewrite forallb_forall in G. auto.
Qed.

Definition action01_ok (p : Z * cid) : bool :=
  let '(t, c) := p in
  cid_eqb (action_class ActionHeader01 action_classes_01 t) c &&
  match kind c with KAction01 => true | _ => false end &&
  subclass c ActionHeader01 && prefixb (field_names ActionHeader01) (field_names c).
Lemma action01_table_ok t c : In (t, c) action01_table -> action01_ok (t, c) = true.
Proof.
  assert (G : forallb action01_ok action01_table = true) by (vm_compute; reflexivity).
  rewrite forallb_forall in G. auto.
Qed.

Definition action04_ok (p : Z * cid) : bool :=
  let '(t, c) := p in
  cid_eqb (action_class ActionHeader04 action_classes_04 t) c &&
  is_member E_ActionType04 t &&
  match kind c with KAction04 => true | KSetField04 => cid_eqb c ActionSetField04 | _ => false end &&
  subclass c ActionHeader04 && prefixb (field_names ActionHeader04) (field_names c).
Lemma action04_table_ok t c : In (t, c) action04_table -> action04_ok (t, c) = true.
Proof.
  assert (G : forallb action04_ok action04_table = true) by (vm_compute; reflexivity).
  rewrite forallb_forall in G. auto.
Qed.

(** Classes with a computed length have an integer field of that name. *)
Lemma len_class_ok c pos : kind c = KLen pos true ->
  exists w er d, get_attr "length" (class_attrs c) = Some (VUInt w er d).
Proof.
  intros H.
  assert (G : (match kind c with
               | KLen _ true => match get_attr "length" (class_attrs c) with
                                | Some (VUInt _ _ _) => true | _ => false end
               | _ => true end) = true).
  { clear H. revert c. apply all_classes. vm_compute. reflexivity. }
  rewrite H in G. destruct (get_attr "length" (class_attrs c)) as [[]|]; try discriminate. eauto.
Qed.
