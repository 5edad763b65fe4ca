(** Elements state their own length: lemmas for C50. *)
From Coq Require Import ZArith List Bool String Lia.
From Verif Require Import Base PyText Ids PyVal Classes Interp SpecBasic SpecMutation SpecLayout SpecSize SpecLengths ClassFacts BaseFacts IntFacts
  StructFacts DispatchFacts FuelFacts Totality MutationFacts MutationFacts2 MutationFacts3 LayoutFacts SizeFacts SizeFacts2.
Import ListNotations.
Open Scope string_scope.
Open Scope list_scope.
Open Scope Z_scope.

(** Parts at their offsets, for any relation between fields and parts. *)
Lemma placed_rel (R : string * pyval -> bytes -> Prop) : forall l A parts (pre post : bytes), layout_ok l A = true ->
  (forall name cv part w, In (name, cv) A -> attr_width cv = Some w -> R (name, cv) part -> List.length part = w) ->
  Forall2 R A parts ->
  forall name at_ w, placed (List.length pre) l name at_ w ->
    exists cv, In (name, cv) A /\ R (name, cv) (slice at_ (at_ + w) (pre ++ List.concat parts ++ post)%list).
Proof.
  induction l as [|[n k] l IH]; intros A parts pre post L Hw F; [intros ? ? ? []|].
  destruct A as [|[m cv] A]; [discriminate|]. cbn [layout_ok] in L. apply andb_prop in L as [L L3]. apply andb_prop in L as [L1 L2].
  apply String.eqb_eq in L1. subst m. destruct (attr_width cv) as [x|] eqn:Wx; [|discriminate]. apply Nat.eqb_eq in L2. subst x.
  inversion F as [|? part ? parts' Q F']; subst. cbn [List.concat].
  pose proof (Hw n cv part k (or_introl eq_refl) Wx Q) as Lp.
  pose proof (IH A parts' (pre ++ part)%list post L3 (fun n' c' p' w' J => Hw n' c' p' w' (or_intror J)) F') as S3.
  intros name at_ w Pl. cbn [placed] in Pl. destruct Pl as [(<- & -> & ->)|Pl].
  - exists cv. split; [left; reflexivity|]. rewrite <- Lp, <- app_assoc. rewrite slice_here. exact Q.
  - rewrite app_length, Lp in S3. destruct (S3 name at_ w Pl) as (cv' & J & Q'). exists cv'. split; [right; exact J|].
    rewrite <- !app_assoc in Q'. rewrite <- app_assoc. exact Q'.
Qed.

Lemma placed_attr l : forall A o name at_ w, layout_ok l A = true -> placed o l name at_ w -> exists cv, In (name, cv) A /\ attr_width cv = Some w.
Proof.
  induction l as [|[n k] l IH]; intros A o name at_ w L Pl; [destruct Pl|]. destruct A as [|[m cv] A]; [discriminate|]. cbn [layout_ok] in L.
  apply andb_prop in L as [L L3]. apply andb_prop in L as [L1 L2]. apply String.eqb_eq in L1. subst m.
  destruct (attr_width cv) as [x|] eqn:Wx; [|discriminate]. apply Nat.eqb_eq in L2. subst x.
  cbn [placed] in Pl. destruct Pl as [(<- & _ & ->)|Pl]; [exists cv; split; [left; reflexivity|exact Wx]|].
  destruct (IH A _ _ _ _ L3 Pl) as (cv' & I & W). exists cv'. split; [right; exact I|exact W].
Qed.

(** The number written for a computed length. *)
Lemma length_written n c l t attrs z p post at_ : openflow_layout c = Some (l, t) -> built (VObj c attrs) = true -> regular (VObj c attrs) = true ->
  computed c "length" = true -> placed 0 l "length" at_ 2 ->
  struct_pack (pack0 n) c (set_attr "length" (VInt z) attrs) = Ok p -> big_endian 2 z (slice at_ (at_ + 2) (p ++ post)%list).
Proof.
  intros E B R C Pl P. pose proof (layouts_ok c) as T. rewrite E in T. apply andb_prop in T as [T _]. apply andb_prop in T as [T1 _].
  apply good_built in B as G.
  destruct (placed_attr l (class_attrs c) O "length" at_ 2%nat T1 Pl) as (cv0 & I0 & W0).
  assert (M : is_class_attr c "length" = true) by (eapply in_class_attr, I0).
  assert (A : packs_as n c attrs (set_attr "length" (VInt z) attrs)).
  { apply packs_as_set; [apply packs_as_same, G|exact M|]. intros cv part I Q. eapply part_computed; eassumption. }
  destruct A as (Ha & Hp). destruct (struct_parts n c _ p Ha P) as (parts & -> & F).
  set (attrs' := set_attr "length" (VInt z) attrs) in *.
  destruct (placed_rel (packs n attrs') l (class_attrs c) parts [] post T1) with (name := "length") (at_ := at_) (w := 2%nat) as (cv & I & iv & Gi & Q).
  - intros name cv part w I W (iv & Gi & Q). eapply (field_part c attrs name cv); [exact B|exact R|exact I|exact W|]. eapply Hp; eassumption.
  - exact F.
  - exact Pl.
  - cbn [fst snd app] in *. unfold attrs' in Gi. rewrite get_set_same in Gi. injection Gi as <-.
    destruct (computed_uint c "length" C M) as (w & er & d & X). unfold lookup in X. rewrite (class_get _ _ _ I) in X. subst cv.
    pose proof (uint_part _ _ _ _ _ _ Q) as Lq. cbn [pack1] in Q. apply uint_carried in Q. inversion Q as [w0 er0 d0 iv0 z0 bs0 St Bz| | | | | | | | | | | | |]; subst.
    assert (Ez : z0 = z) by (destruct St as [St|(x & Hx & _)]; [inversion St; reflexivity|inversion Hx]). subst z0.
    assert (W2 : w = 2%nat).
    { pose proof (class_get _ _ _ I0) as X1. pose proof (class_get _ _ _ I) as X2. rewrite X1 in X2. injection X2 as ->. cbn in W0. congruence. }
    subst w. exact Bz.
Qed.

Definition own_length (c : cid) : bool :=
  match kind c with KLen _ true | KTyped TInstruction | KTyped TProperty | KSetField04 => true | _ => false end.
Definition states_length (c : cid) : Prop := computed c "length" = true /\ ~ In c [Header01; Header04; Match04].
Lemma states_kind c : states_length c -> own_length c = true.
Proof.
  intros (C & N). assert (T : implb (computed c "length") (existsb (cid_eqb c) [Header01; Header04; Match04] || own_length c) = true)
    by (clear; revert c; apply all_classes; vm_compute; reflexivity).
  rewrite C in T. cbn [implb] in T. apply orb_prop in T as [T|T]; [|exact T]. exfalso. apply N. apply existsb_exists in T as (x & I & E). apply cid_eqb_eq in E. subst. exact I.
Qed.

Lemma setfield_inner n attrs b : built (VObj ActionSetField04 attrs) = true -> pack0 (S n) (VObj ActionSetField04 attrs) = Ok b ->
  exists p post, struct_pack (pack0 n) ActionSetField04 (set_attr "length" (VInt (zlen b)) attrs) = Ok p /\ b = (p ++ post)%list.
Proof.
  intros B H. apply good_built in B as G. change (pack_obj (pack0 n) (size0 n) (size0 (S n)) ActionSetField04 attrs = Ok b) in H. unfold pack_obj in H.
  change (kind ActionSetField04) with KSetField04 in H. cbn iota in H.
  unfold setfield_pack, attr_or_error in H. destruct (get_attr "field" attrs) as [f|] eqn:Gf; [|discriminate]. cbn [bind] in H.
  destruct (has_pack f) eqn:Hp; [|discriminate]. destruct (pack0 n f) as [fb|] eqn:Pf; [|discriminate]. cbn [bind] in H. cbv zeta in H.
  match type of H with bind ?r _ = _ => destruct r as [p|] eqn:P; [|discriminate] end. cbn [bind] in H.
  assert (Eb : b = (p ++ zeros (Z.to_nat (ceil8 (4 + zlen fb) - zlen p)))%list) by congruence. clear H.
  assert (Ha : has_attributes ActionSetField04 (set_attr "length" (VInt (ceil8 (4 + zlen fb))) attrs) = true).
  { destruct (good_has _ attrs "length" G eq_refl) as (x & Gx). apply good_set with (n := "length") (x := VInt (ceil8 (4 + zlen fb))) in G; [apply G|congruence|reflexivity|reflexivity]. }
  destruct (struct_parts n _ _ p Ha P) as (qs & Eq & Fq).
  assert (Lp : zlen p = 4 + zlen fb).
  { rewrite Eq. clear - Fq Pf Hp Gf. change (class_attrs ActionSetField04) with attrs_ActionSetField04 in Fq. unfold attrs_ActionSetField04 in Fq.
    inversion Fq as [|? q1 ? l1 (v1 & _ & P1) F1]; subst. inversion F1 as [|? q2 ? l2 (v2 & _ & P2) F2]; subst.
    inversion F2 as [|? q3 ? l3 (v3 & G3 & P3) F3]; subst. inversion F3; subst. clear Fq F1 F2 F3. cbn [fst snd] in *.
    cbn [List.concat]. rewrite app_nil_r, !zlen_app, (uint_part _ _ _ _ _ _ P1), (uint_part _ _ _ _ _ _ P2).
    rewrite get_set_other in G3 by discriminate. rewrite Gf in G3. injection G3 as <-.
    assert (E : pack1 (pack0 n) new_OxmTLV04 f = pack0 n f).
    { unfold new_OxmTLV04, pack1. change (kind OxmTLV04) with KOxmTLV. cbn iota. rewrite Hp. destruct f; try discriminate Hp; reflexivity. }
    rewrite E, Pf in P3. injection P3 as <-. lia. }
  assert (Lb : zlen b = ceil8 (4 + zlen fb)) by (rewrite Eb, <- Lp; apply filled_len).
  exists p. eexists. rewrite Lb. split; [exact P|exact Eb].
Qed.

Lemma computed_length c l t attrs bs at_ : states_length c -> openflow_layout c = Some (l, t) -> placed 0 l "length" at_ 2 ->
  built (VObj c attrs) = true -> regular (VObj c attrs) = true -> measurable (VObj c attrs) = true -> pack (VObj c attrs) = Ok bs ->
  big_endian 2 (zlen bs) (slice at_ (at_ + 2) bs).
Proof.
  intros Sl E Pl B R M P. pose proof (states_kind c Sl) as O. destruct Sl as (C & _). unfold own_length in O.
  assert (Ft : fit (VObj c attrs) = true) by (unfold fit; rewrite B, R, M; reflexivity).
  apply pack_eq in P. revert P. generalize (FUEL + height (VObj c attrs))%nat as n. intros [|n] P; [discriminate|].
  assert (Ob : forall s, size0 (S n) (VObj c attrs) = Ok s -> s = zlen bs).
  { intros s Sz. eapply (object_true n (S n)); [exact Ft| |exact P|exact Sz]. intros x _ Fx. eapply all_true; [apply le_n|exact Fx]. }
  assert (Up : (do s <- size0 (S n) (VObj c attrs); struct_pack (pack0 n) c (set_attr "length" (VInt s) attrs)) = Ok bs ->
    big_endian 2 (zlen bs) (slice at_ (at_ + 2) bs)).
  { destruct (size0 (S n) (VObj c attrs)) as [s|] eqn:Sz; [|discriminate]. cbn [bind]. rewrite (Ob s eq_refl). intros Q.
    rewrite <- (app_nil_r bs) at 2. eapply length_written; eassumption. }
  destruct (kind c) as [| |pos [|]|[| |]| | | | | | | | | | | | | | | |] eqn:K; try discriminate O.
  4: { apply kind_setfield in K. subst c. destruct (setfield_inner n attrs bs B P) as (p & post & Q & Eb). rewrite Eb at 2. eapply length_written; eassumption. }
  all: apply Up; change (pack_obj (pack0 n) (size0 n) (size0 (S n)) c attrs = Ok bs) in P; unfold pack_obj in P; rewrite K in P; exact P.
Qed.

(** The default length of a class is the number of bytes of its objects. *)
Definition default_length (c : cid) : option Z :=
  match new_instance c with
  | Some (VObj _ attrs) => match get_attr "length" attrs with Some (VInt z) => Some z | _ => None end
  | _ => None
  end.
Definition default_ok (c : cid) : bool :=
  match default_length c, openflow_layout c with
  | Some z, Some (l, t) => computed c "length" || Nat.eqb (List.length l) (List.length (class_attrs c)) && (Z.of_nat t =? z)
  | _, _ => true
  end.
Lemma default_table c : default_ok c = true.
Proof. revert c. apply all_classes. vm_compute. reflexivity. Qed.

(** A field declared as an integer and holding a number. *)
Lemma int_part c attrs name cv z b : computed c name = false -> name <> "header" -> get_attr name attrs = Some (VInt z) -> part_of c attrs (name, cv) b ->
  (exists w er d, cv = VUInt w er d) -> big_endian (List.length b) z b.
Proof.
  intros C N G (iv & G' & P) (w & er & d & ->). cbn [fst snd] in *. rewrite G in G'. injection G' as <-. rewrite C in P. destruct P as [P|(E & _)]; [|contradiction].
  inversion P as [w0 er0 d0 iv0 z0 bs0 St Bz| | | | | | | | | | | | |]; subst.
  assert (Ez : z0 = z) by (destruct St as [St|(x & Hx & _)]; [inversion St; reflexivity|inversion Hx]). subst z0. rewrite (be_len _ _ _ Bz). exact Bz.
Qed.
Definition length_uint (c : cid) : bool :=
  computed c "length" || match get_attr "length" (class_attrs c) with Some (VUInt 2 _ VNone) | None => true | _ => false end.
Lemma length_uint_ok c : length_uint c = true.
Proof. revert c. apply all_classes. vm_compute. reflexivity. Qed.
Lemma length_attr c cv : computed c "length" = false -> get_attr "length" (class_attrs c) = Some cv -> exists er, cv = VUInt 2 er VNone.
Proof.
  intros C G. pose proof (length_uint_ok c) as T. unfold length_uint in T. rewrite C, G in T. cbn [orb] in T.
  destruct cv as [| | | | | |w er d| | | | | | | |]; try discriminate. destruct w as [|[|[|]]]; try discriminate. destruct d; try discriminate. eauto.
Qed.

Lemma default_is_length c l t attrs bs z at_ : default_length c = Some z -> computed c "length" = false ->
  openflow_layout c = Some (l, t) -> placed 0 l "length" at_ 2 ->
  built (VObj c attrs) = true -> regular (VObj c attrs) = true -> get_attr "length" attrs = Some (VInt z) -> pack (VObj c attrs) = Ok bs ->
  zlen bs = z /\ big_endian 2 (zlen bs) (slice at_ (at_ + 2) bs).
Proof.
  intros D C E Pl B R G P. pose proof (default_table c) as T. unfold default_ok in T. rewrite D, E, C in T. cbn [orb] in T. apply andb_prop in T as [T1 T2].
  apply Nat.eqb_eq in T1. apply Z.eqb_eq in T2. destruct (layout c l t attrs bs E B R P) as (_ & Lt & Lp). specialize (Lt T1).
  assert (Ez : zlen bs = z) by (unfold zlen; rewrite Lt; exact T2). split; [exact Ez|]. rewrite Ez.
  destruct (Lp _ _ _ Pl) as (cv & Gc & Q). destruct (length_attr c cv C Gc) as (er & ->).
  assert (L2 : List.length (slice at_ (at_ + 2) bs) = 2%nat) by (eapply field_part; [exact B|exact R|apply get_attr_In, Gc|reflexivity|exact Q]).
  rewrite <- L2 at 1. eapply int_part; [exact C|discriminate|exact G|exact Q|eauto].
Qed.

(** Without a length the object is not encoded. *)
Lemma length_required c l t attrs at_ : openflow_layout c = Some (l, t) -> placed 0 l "length" at_ 2 -> computed c "length" = false ->
  built (VObj c attrs) = true -> regular (VObj c attrs) = true -> get_attr "length" attrs = Some VNone -> forall bs, pack (VObj c attrs) <> Ok bs.
Proof.
  intros E Pl C B R G bs P. destruct (layout c l t attrs bs E B R P) as (_ & _ & Lp). destruct (Lp _ _ _ Pl) as (cv & Gc & iv & Gi & Q).
  destruct (length_attr c cv C Gc) as (er & ->). cbn [fst snd] in *. rewrite G in Gi. injection Gi as <-. rewrite C in Q. destruct Q as [Q|(X & _)]; [|discriminate].
  inversion Q as [w0 er0 d0 iv0 z0 bs0 St Bz| | | | | | | | | | | | |]; subst. destruct St as [St|(x & Hx & [Hy|(e & ->)])]; inversion St || (inversion Hx; subst); try (inversion Hy).
Qed.

(** The match of OpenFlow 1.3 is filled up to a multiple of eight bytes, and the
    length does not count the filling. *)
Lemma match_length attrs bs : built (VObj Match04 attrs) = true -> regular (VObj Match04 attrs) = true -> measurable (VObj Match04 attrs) = true ->
  pack (VObj Match04 attrs) = Ok bs ->
  exists parts k, Forall2 (part_of Match04 attrs) (class_attrs Match04) parts /\ bs = (List.concat parts ++ repeat 0 k)%list /\
    (k < 8)%nat /\ zlen bs mod 8 = 0 /\ big_endian 2 (zlen (List.concat parts)) (slice 2 4 bs).
Proof.
  intros B R M P. assert (Ft : fit (VObj Match04 attrs) = true) by (unfold fit; rewrite B, R, M; reflexivity). apply good_built in B as G.
  apply pack_eq in P. revert P. generalize (FUEL + height (VObj Match04 attrs))%nat as n. intros [|n] H; [discriminate|].
  change (pack_obj (pack0 n) (size0 n) (size0 (S n)) Match04 attrs = Ok bs) in H. unfold pack_obj in H. change (kind Match04) with KMatch04 in H. cbn iota in H.
  unfold match04_pack in H. destruct (struct_size (size0 n) Match04 attrs) as [s|] eqn:S1; [|discriminate]. cbn [bind] in H. cbv zeta in H.
  match type of H with bind ?r _ = _ => destruct r as [p|] eqn:P; [|discriminate] end. cbn [bind] in H.
  rewrite size0_obj in H. change (kind Match04) with KMatch04 in H. cbn iota in H. destruct (good_has Match04 attrs "length" G eq_refl) as (l0 & Gl).
  rewrite (oc_struct_size (size0 n) Match04 attrs (set_attr "length" (VInt s) attrs) (oc_size n)) in H;
    [|apply G|apply G|apply rel_set; [reflexivity|congruence]].
  rewrite S1 in H. cbn [bind] in H.
  assert (A : packs_as n Match04 attrs (set_attr "length" (VInt s) attrs)).
  { apply packs_as_set; [apply packs_as_same, G|reflexivity|]. intros cv part I Q. eapply part_computed; try eassumption; reflexivity. }
  destruct (struct_as n Match04 attrs _ p A P) as (parts & Ep & F).
  assert (Es : s = zlen p).
  { rewrite Ep. apply (struct_true n Match04 attrs s parts Ft); [|exact S1|exact F]. intros x _ Fx. eapply all_true; [apply le_n|exact Fx]. }
  assert (Eb : bs = (p ++ zeros (Z.to_nat (ceil8 s - zlen p)))%list) by congruence. clear H. rewrite Es in Eb.
  exists parts, (Z.to_nat (ceil8 (zlen p) - zlen p)). rewrite <- Ep. split; [exact F|]. split; [exact Eb|].
  assert (C8 : ceil8 (zlen p) - zlen p < 8) by (unfold ceil8; pose proof (Z.div_mod (zlen p + 7) 8 ltac:(lia)); pose proof (Z.mod_pos_bound (zlen p + 7) 8 ltac:(lia)); lia).
  split; [lia|]. split.
  - rewrite Eb, filled_len. unfold ceil8. apply Z.mod_mul. discriminate.
  - rewrite Eb, <- Es. destruct (openflow_layout Match04) as [[l t]|] eqn:E; [|discriminate].
    eapply (length_written n Match04 l t); [exact E|exact B|exact R|reflexivity| |exact P].
    vm_compute in E. injection E as <- <-. vm_compute. auto.
Qed.

(** ** The statements *)
Definition layout_has (c : cid) (at_ : nat) : bool :=
  match openflow_layout c with
  | Some (l, _) => existsb (fun q => String.eqb (fst (fst q)) "length" && Nat.eqb (snd (fst q)) at_ && Nat.eqb (snd q) 2)
                     ((fix go o l := match l with [] => [] | (n, k) :: l => (n, o, k) :: go (o + k)%nat l end) O l)
  | None => false
  end.
Lemma layout_has_placed c at_ : layout_has c at_ = true -> exists l t, openflow_layout c = Some (l, t) /\ placed 0 l "length" at_ 2.
Proof.
  unfold layout_has. destruct (openflow_layout c) as [[l t]|]; [|discriminate]. intros H. exists l, t. split; [reflexivity|].
  revert H. generalize 2%nat as w. generalize O as o. induction l as [|[n k] l IH]; intros o w H; [discriminate|]. cbn [existsb fst snd] in H. cbn [placed].
  apply orb_prop in H as [H|H]; [|right; apply IH, H]. left. rewrite !andb_true_iff in H. destruct H as ((H1 & H2) & H3).
  apply String.eqb_eq in H1. apply Nat.eqb_eq in H2, H3. auto.
Qed.
Lemma computed_rows : forallb (fun q => layout_has (fst q) (snd q) && computed (fst q) "length" && negb (existsb (cid_eqb (fst q)) [Header01; Header04; Match04])) computed_lengths = true.
Proof. vm_compute. reflexivity. Qed.
Lemma constant_rows : forallb (fun q => layout_has (fst q) 2 && negb (computed (fst q) "length") &&
  match default_length (fst q) with Some z => z =? snd q | None => false end) constant_lengths = true.
Proof. vm_compute. reflexivity. Qed.
Lemma given_rows : forallb (fun q => layout_has (fst q) (snd q) && negb (computed (fst q) "length") &&
  match default_length (fst q) with Some z => false | None => true end) given_lengths = true.
Proof. vm_compute. reflexivity. Qed.

Lemma new_class c v : new_instance c = Some v -> match v with VObj c' _ => c' = c | _ => True end.
Proof.
  assert (T : (match new_instance c with Some (VObj c' _) => cid_eqb c' c | _ => true end) = true) by (revert c; apply all_classes; vm_compute; reflexivity).
  intros E. rewrite E in T. destruct v; try exact I. apply cid_eqb_eq, T.
Qed.
Lemma any_computed c at_ attrs bs : In (c, at_) computed_lengths ->
  built (VObj c attrs) = true -> regular (VObj c attrs) = true -> measurable (VObj c attrs) = true -> pack (VObj c attrs) = Ok bs ->
  big_endian 2 (zlen bs) (slice at_ (at_ + 2) bs).
Proof.
  intros I. pose proof computed_rows as T. rewrite forallb_forall in T. specialize (T _ I). cbn [fst snd] in T. rewrite !andb_true_iff in T. destruct T as ((T1 & T2) & T3).
  apply layout_has_placed in T1 as (l & t & E & Pl). apply negb_true_iff in T3. apply (computed_length c l t); [|exact E|exact Pl].
  split; [exact T2|]. intros J. rewrite <- not_true_iff_false in T3. apply T3, existsb_exists. exists c. split; [exact J|]. apply cid_eqb_eq. reflexivity.
Qed.
Lemma any_constant c z : In (c, z) constant_lengths ->
  (exists attrs, new_instance c = Some (VObj c attrs) /\ get_attr "length" attrs = Some (VInt z)) /\
  forall attrs bs, built (VObj c attrs) = true -> regular (VObj c attrs) = true -> get_attr "length" attrs = Some (VInt z) -> pack (VObj c attrs) = Ok bs ->
    zlen bs = z /\ big_endian 2 z (slice 2 4 bs).
Proof.
  intros I. pose proof constant_rows as T. rewrite forallb_forall in T. specialize (T _ I). cbn [fst snd] in T. rewrite !andb_true_iff in T. destruct T as ((T1 & T2) & T3).
  apply layout_has_placed in T1 as (l & t & E & Pl). apply negb_true_iff in T2. destruct (default_length c) as [z'|] eqn:D; [|discriminate]. apply Z.eqb_eq in T3. subst z'.
  split.
  - pose proof D as D'. unfold default_length in D'. destruct (new_instance c) as [v|] eqn:N; [|discriminate]. pose proof (new_class c v N) as X.
    destruct v as [| | | | | | | | | | | | |c' attrs|]; try discriminate. destruct (get_attr "length" attrs) as [[]|] eqn:Gl; try discriminate. injection D' as ->.
    subst c'. exists attrs. split; [reflexivity|exact Gl].
  - intros attrs bs B R G P. destruct (default_is_length c l t attrs bs z 2 D T2 E Pl B R G P) as (<- & Q). split; [reflexivity|exact Q].
Qed.
Lemma any_given c at_ attrs bs : In (c, at_) given_lengths \/ (exists z, In (c, z) constant_lengths) /\ at_ = 2%nat ->
  built (VObj c attrs) = true -> regular (VObj c attrs) = true -> pack (VObj c attrs) = Ok bs ->
  get_attr "length" attrs <> Some VNone /\ forall z, get_attr "length" attrs = Some (VInt z) -> big_endian 2 z (slice at_ (at_ + 2) bs).
Proof.
  intros I B R P. assert (X : layout_has c at_ = true /\ computed c "length" = false).
  { destruct I as [I|((z & I) & ->)].
    - pose proof given_rows as T. rewrite forallb_forall in T. specialize (T _ I). cbn [fst snd] in T. rewrite !andb_true_iff in T. destruct T as ((T1 & T2) & T3).
      apply negb_true_iff in T2. auto.
    - pose proof constant_rows as T. rewrite forallb_forall in T. specialize (T _ I). cbn [fst snd] in T. rewrite !andb_true_iff in T. destruct T as ((T1 & T2) & T3).
      apply negb_true_iff in T2. auto. }
  destruct X as (T1 & T2). apply layout_has_placed in T1 as (l & t & E & Pl). split.
  - intros G. eapply length_required; eassumption.
  - intros z G. destruct (layout c l t attrs bs E B R P) as (_ & _ & Lp). destruct (Lp _ _ _ Pl) as (cv & Gc & Q). destruct (length_attr c cv T2 Gc) as (er & ->).
    assert (L2 : List.length (slice at_ (at_ + 2) bs) = 2%nat) by (eapply field_part; [exact B|exact R|apply get_attr_In, Gc|reflexivity|exact Q]).
    rewrite <- L2 at 1. eapply int_part; [exact T2|discriminate|exact G|exact Q|eauto].
Qed.
Definition in_tables (c : cid) : bool :=
  existsb (cid_eqb c) (map fst computed_lengths) || existsb (cid_eqb c) (map fst constant_lengths) || existsb (cid_eqb c) (map fst given_lengths) ||
  existsb (cid_eqb c) other_lengths.
Lemma tables_complete c : get_attr "length" (class_attrs c) <> None ->
  In c (map fst computed_lengths ++ map fst constant_lengths ++ map fst given_lengths ++ other_lengths).
Proof.
  assert (T : (match get_attr "length" (class_attrs c) with Some _ => in_tables c | None => true end) = true) by (revert c; apply all_classes; vm_compute; reflexivity).
  intros N. destruct (get_attr "length" (class_attrs c)); [|contradiction]. unfold in_tables in T. rewrite !orb_true_iff in T.
  rewrite !in_app_iff. destruct T as [[[T|T]|T]|T]; apply existsb_exists in T as (x & I & E); apply cid_eqb_eq in E; subst x; auto.
Qed.
