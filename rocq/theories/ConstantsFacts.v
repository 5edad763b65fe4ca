(** Lemmas for C49. *)
From Coq Require Import ZArith List Bool String Lia.
From Verif Require Import Base PyText Ids PyVal Classes Interp SpecBasic ClassFacts IntFacts SpecConstants.
Import ListNotations.
Open Scope string_scope.
Open Scope list_scope.
Open Scope Z_scope.

Lemma all_enums (f : eid -> bool) : forallb f all_eids = true -> forall e, f e = true.
Proof.
  intros H e. rewrite forallb_forall in H. apply H.
  eapply nth_error_In. apply eid_nth.
Qed.

Definition mem_eqb (a b : string * Z) : bool := String.eqb (fst a) (fst b) && (snd a =? snd b).
Lemma mem_eqb_eq a b : mem_eqb a b = true -> a = b.
Proof.
  destruct a, b. unfold mem_eqb. cbn [fst snd]. intros H. apply andb_prop in H. destruct H as [A B].
  apply String.eqb_eq in A. apply Z.eqb_eq in B. subst. reflexivity.
Qed.
Definition standard_list (e : eid) : list (string * Z) :=
  match openflow_enum e with Some l => c_values l | None => [] end.
Definition members_of (e : eid) : list (string * Z) :=
  match enum_def e with EInt l | EPlain l | EMask l => l end.
Definition in_pairs (e : eid) (s : string) (l : list (eid * string)) : bool :=
  existsb (fun p => eid_eqb (fst p) e && String.eqb (snd p) s) l.
Lemma in_pairs_in e s l : in_pairs e s l = true -> In (e, s) l.
Proof.
  unfold in_pairs. intros H. apply existsb_exists in H. destruct H as ((e' & s') & I & H). cbn [fst snd] in H.
  apply andb_prop in H. destruct H as [A B]. apply eid_eqb_eq in A. apply String.eqb_eq in B. subst. exact I.
Qed.
Definition to_standard (e : eid) (s : string) : string :=
  match find (fun p => eid_eqb (fst (fst p)) e && String.eqb (snd (fst p)) s) misnamed with
  | Some p => snd p | None => s end.
Definition to_library (e : eid) (s : string) : string :=
  match find (fun p => eid_eqb (fst (fst p)) e && String.eqb (snd p) s) misnamed with
  | Some p => snd (fst p) | None => s end.
Lemma to_standard_ok e s : to_standard e s = s \/ In (e, s, to_standard e s) misnamed.
Proof.
  unfold to_standard. destruct (find _ misnamed) as [((e' & a) & b)|] eqn:E; [right|left; reflexivity].
  apply find_some in E. destruct E as [I H]. cbn [fst snd] in *. apply andb_prop in H. destruct H as [A B].
  apply eid_eqb_eq in A. apply String.eqb_eq in B. subst. exact I.
Qed.
Lemma to_library_ok e s : to_library e s = s \/ In (e, to_library e s, s) misnamed.
Proof.
  unfold to_library. destruct (find _ misnamed) as [((e' & a) & b)|] eqn:E; [right|left; reflexivity].
  apply find_some in E. destruct E as [I H]. cbn [fst snd] in *. apply andb_prop in H. destruct H as [A B].
  apply eid_eqb_eq in A. apply String.eqb_eq in B. subst. exact I.
Qed.

Lemma standard_in e n z : standard e n z <-> In (n, z) (standard_list e).
Proof.
  unfold standard, standard_list. destruct (openflow_enum e) as [l|]; split.
  - intros (l' & E & I). inversion E. exact I.
  - intros I. exists l. auto.
  - intros (l' & E & I). discriminate.
  - intros [].
Qed.
Lemma member_in e n z : member e n z <-> In (n, z) (members_of e).
Proof.
  unfold member, members_of. destruct (enum_def e) as [l|l|l]; split.
  all: try (intros (l' & I & [E|[E|E] ]); inversion E; exact I).
  all: intros I; exists l; auto.
Qed.

Definition check_library (e : eid) : bool :=
  forallb (fun p => in_pairs e (fst p) only_library ||
                    existsb (mem_eqb (to_standard e (fst p), snd p)) (standard_list e)) (members_of e).
Definition check_standard (e : eid) : bool :=
  forallb (fun p => in_pairs e (fst p) only_standard ||
                    existsb (mem_eqb (to_library e (fst p), snd p)) (members_of e)) (standard_list e).

Lemma library_standard e n z : member e n z ->
  In (e, n) only_library \/ exists n', (n' = n \/ In (e, n, n') misnamed) /\ standard e n' z.
Proof.
  rewrite member_in. intros I.
  assert (T : check_library e = true) by (revert e I; intros e _; revert e; apply all_enums; vm_compute; reflexivity).
  unfold check_library in T. rewrite forallb_forall in T. specialize (T _ I). cbn [fst snd] in T.
  apply orb_prop in T. destruct T as [T|T]; [left; apply in_pairs_in, T|right].
  apply existsb_exists in T. destruct T as (q & Iq & E). apply mem_eqb_eq in E. subst q.
  exists (to_standard e n). split; [apply to_standard_ok|apply standard_in, Iq].
Qed.
Lemma standard_library e n z : standard e n z ->
  In (e, n) only_standard \/ exists n', (n' = n \/ In (e, n', n) misnamed) /\ member e n' z.
Proof.
  rewrite standard_in. intros I.
  assert (T : check_standard e = true) by (revert e I; intros e _; revert e; apply all_enums; vm_compute; reflexivity).
  unfold check_standard in T. rewrite forallb_forall in T. specialize (T _ I). cbn [fst snd] in T.
  apply orb_prop in T. destruct T as [T|T]; [left; apply in_pairs_in, T|right].
  apply existsb_exists in T. destruct T as (q & Iq & E). apply mem_eqb_eq in E. subst q.
  exists (to_library e n). split; [apply to_library_ok|apply member_in, Iq].
Qed.

Definition fitsb (w : nat) (z : Z) : bool := (0 <=? z) && (z <? 2 ^ (8 * Z.of_nat w)).
Definition check_fields (c : cid) : bool :=
  forallb (fun p => match snd p with
                    | VUInt w (Some e) _ => forallb (fun q => fitsb w (snd q)) (standard_list e)
                    | _ => true
                    end) (class_attrs c).

Lemma standard_fits c name w e d n z : In (name, VUInt w (Some e) d) (class_attrs c) -> standard e n z -> fits w z.
Proof.
  rewrite standard_in. intros I J.
  assert (T : check_fields c = true) by (revert c I; intros c _; revert c; apply all_classes; vm_compute; reflexivity).
  unfold check_fields in T. rewrite forallb_forall in T. specialize (T _ I). cbn [fst snd] in T.
  rewrite forallb_forall in T. specialize (T _ J). cbn [fst snd] in T. unfold fitsb in T.
  apply andb_prop in T. destruct T as [A B]. apply Z.leb_le in A. apply Z.ltb_lt in B. split; assumption.
Qed.

Lemma mask_dec e : bit_mask_class e \/ ~ bit_mask_class e.
Proof.
  unfold bit_mask_class. destruct (enum_def e) eqn:E; [right|right|left].
  1,2: intros (l' & H); discriminate.
  eexists. reflexivity.
Qed.

Lemma only_standard_mask e n : In (e, n) only_standard -> bit_mask_class e.
Proof. intros [E|[]]. inversion E. eexists. reflexivity. Qed.

Lemma standard_field c name w e d n z : In (name, VUInt w (Some e) d) (class_attrs c) -> standard e n z ->
  exists bs v, big_endian w z bs /\ (v = VEnum e z \/ v = VMask e z) /\ pack (VUInt w (Some e) v) = Ok bs /\
    forall old pre suf, unpack (VUInt w (Some e) old) (pre ++ bs ++ suf) (List.length pre) = Ok (VUInt w (Some e) v).
Proof.
  intros I J. pose proof (standard_fits _ _ _ _ _ _ _ I J) as F.
  destruct (mask_dec e) as [M|M].
  - pose proof (big_endian_encode w z F) as BE. exists (be_encode w z), (VMask e z).
    assert (H := BE). destruct H as (L & W & P).
    split; [exact BE|]. split; [right; reflexivity|]. split.
    + destruct (mask_unpack_total w e VNone [] (be_encode w z) [] W L M) as [_ Q]. rewrite P in Q. exact Q.
    + intros old pre suf. destruct (mask_unpack_total w e old pre (be_encode w z) suf W L M) as [Q _]. rewrite P in Q. exact Q.
  - assert (D : declared e z).
    { destruct (standard_library _ _ _ J) as [O|(n' & _ & (l & Il & El))].
      - contradiction (M (only_standard_mask _ _ O)).
      - exists n', l. auto. }
    destruct (member_packs w e z M D F) as (bs & P & BE). exists bs, (VEnum e z).
    split; [exact BE|]. split; [left; reflexivity|]. split; [exact P|].
    destruct BE as (L & W & V). intros old pre suf.
    destruct (enum_unpack_exact w e old pre bs suf W L M) as [(_ & Q)|(Q & _)]; rewrite V in Q; [exact Q|contradiction (Q D)].
Qed.

Lemma names_refuted : exists e name z, standard e name z /\ forall z', ~ member e name z'.
Proof.
  exists E_PortConfig01, "OFPPC_NO_FLOOD", 16. split.
  - apply standard_in. vm_compute. intuition.
  - intros z' M. apply member_in in M. cbn in M. intuition discriminate.
Qed.
Lemma constants_case :
  standard E_PortConfig01 "OFPPC_NO_FLOOD" 16 /\ member E_PortConfig01 "OFPPC_FLOOD" 16 /\
  standard E_Type01 "OFPT_BARRIER_REQUEST" 18 /\ standard E_Type04 "OFPT_BARRIER_REQUEST" 20 /\
  standard E_FlowWildCards01 "OFPFW_NW_DST_MASK" 0xfc000 /\ member E_FlowWildCards01 "OFPFW_NW_DST_MASK" 0xfc000 /\
  In ("band_type", VUInt 2 (Some E_MeterBandType04) VNone) (class_attrs MeterBandHeader04).
Proof.
  repeat match goal with |- _ /\ _ => split end.
  all: try apply standard_in; try apply member_in; vm_compute; intuition.
Qed.
