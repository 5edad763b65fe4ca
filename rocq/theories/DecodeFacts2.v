(** C51: structures and messages. *)
From Coq Require Import ZArith List Bool String Lia.
From Verif Require Import Base PyText Ids PyVal Classes Interp Utils Spec SpecMsg SpecBasic SpecLayout SpecDecode ClassFacts BaseFacts TextFacts IntFacts LeafFacts AddrFacts
  StructFacts DispatchFacts NetFacts2 FuelFacts UnpackTotal MutationFacts LayoutFacts WindowFacts LengthFacts DecodeFacts.
From Verif Require StructThm.
Import ListNotations.
Open Scope string_scope.
Open Scope list_scope.
Open Scope Z_scope.

(** ** Structures *)
Lemma struct_reads m c a b off r l t : b <> [] -> wf_bytes b -> openflow_layout c = Some (l, t) ->
  unpack_fields (unpack0 m) (size0 m) (class_attrs c) a b off = Ok r ->
  forall name at_ w, placed 0 l name at_ w ->
    exists d v, get_attr name (class_attrs c) = Some d /\ get_attr name (fst r) = Some v /\ reads d (slice (off + at_) (off + at_ + w) b) v.
Proof.
  intros NE Wf E U name at_ w Pl. pose proof (heads_ok c) as Hh. rewrite E in Hh. rewrite <- (Nat.add_0_r off) in U.
  destruct (head_reads m b NE l (class_attrs c) Hh (class_names_nodup c)) with (attrs := a) (base := off) (i := O) (r := r) (name := name) (at_ := at_) (w := w)
    as (d & v & I & G & Q); [|exact U|exact Pl|].
  - intros nm cv k x o' _ Fk Ux. eapply field_reads; eassumption.
  - exists d, v. split; [apply class_get, I|]. auto.
Qed.

(** Cutting the buffer behind does not matter. *)
Definition prefix {A} (s1 s2 : list A) : Prop := exists x, s2 = (s1 ++ x)%list.
Lemma prefix_same {A} (s1 s2 : list A) : prefix s1 s2 -> (List.length s2 <= List.length s1)%nat -> s2 = s1.
Proof. intros (x & ->) L. rewrite app_length in L. destruct x; [apply app_nil_r|cbn in L; lia]. Qed.
Lemma prefix_slice {A} a k (s1 s2 : list A) : prefix s1 s2 -> prefix (slice a (a + k) s1) (slice a (a + k) s2).
Proof.
  intros (x & ->). rewrite !slice_from. rewrite skipn_app, firstn_app. eexists. reflexivity.
Qed.
Lemma leaf_prefix d w s1 s2 v : leaf_width d = Some w -> reads d s1 v -> prefix s1 s2 -> (List.length s2 <= w)%nat -> reads d s2 v.
Proof.
  intros L R P Le. inversion R as [w0 d0 z bs Bg|w0 e d0 z bs Bg D N|w0 e d0 z bs Bg D|k bs Lk|n d0 s k As Ns En|d0 m bs W4 L4|d0 bs W4 L4|d0 bs W4 L4|c a l t bs attrs]; subst;
    try discriminate L.
  1-3: injection L as <-; apply prefix_same in P; [subst; exact R|destruct Bg as (Bl & _); lia].
  - injection L as <-. apply r_pad. lia.
  - apply prefix_same in P; [subst; exact R|]. rewrite app_length, repeat_length. cbn [leaf_width] in L. destruct (List.length s + k)%nat; [discriminate|]. injection L as <-. lia.
  - injection L as <-. apply prefix_same in P; [subst; exact R|lia].
  - injection L as <-. apply prefix_same in P; [subst; exact R|lia].
  - injection L as <-. apply prefix_same in P; [subst; exact R|lia].
Qed.
Lemma heads_fw l : forall A i name at_ w, heads l A = true -> placed i l name at_ w -> exists cv, In (name, cv) A /\ fw (deepcopy cv) = Some w.
Proof.
  induction l as [|[n k] l IH]; intros A i name at_ w H Pl; [destruct Pl|]. destruct A as [|[n' cv] A]; [discriminate|]. cbn [heads] in H.
  rewrite !andb_true_iff in H. destruct H as ((H1 & H2) & H3). apply String.eqb_eq in H1. subst n'.
  destruct (fw (deepcopy cv)) as [x|] eqn:F; [|discriminate]. apply Nat.eqb_eq in H2. subst x. cbn [placed] in Pl.
  destruct Pl as [(<- & _ & ->)|Pl]; [exists cv; split; [left; reflexivity|exact F]|]. destruct (IH A _ _ _ _ H3 Pl) as (cv' & I & F'). exists cv'. split; [right; exact I|exact F'].
Qed.
Lemma field_prefix d w s1 s2 v : fw (deepcopy d) = Some w -> reads d s1 v -> prefix s1 s2 -> (List.length s2 <= w)%nat -> reads d s2 v.
Proof.
  intros F R P Le. assert (D : (exists c a, d = VObj c a) \/ leaf_width d = Some w).
  { destruct d; auto; try (left; eauto; fail); right; exact F. }
  destruct D as [(c & a & ->)|L]; [|eapply leaf_prefix; eassumption].
  inversion R as [| | | | | | | |c0 a0 l t bs attrs E Ll H]; subst. eapply r_struct; [exact E|exact Ll|]. intros name at_ w' Pl.
  destruct (H name at_ w' Pl) as (d & x & Gd & Gx & Q). exists d, x. split; [exact Gd|]. split; [exact Gx|].
  cbn [deepcopy] in F. apply fw_obj in F as (Wd & _). pose proof (heads_ok c) as Hh. rewrite E in Hh. destruct (heads_fw l _ _ _ _ _ Hh Pl) as (cv & I & Fc).
  pose proof (class_get _ _ _ I) as Gc. rewrite Gd in Gc. injection Gc as <-. pose proof (widths_leaf _ _ _ _ Wd I) as Lf. destruct (leaf_width d) as [k'|] eqn:Lk; [|congruence].
  rewrite leaf_copy in Fc by congruence. rewrite (fw_leaf _ _ Lk) in Fc. injection Fc as ->.
  eapply leaf_prefix; [exact Lk|exact Q|apply prefix_slice, P|rewrite slice_length; lia].
Qed.
Lemma firstn_prefix {A} n (b : list A) : prefix (firstn n b) b.
Proof. exists (skipn n b). symmetry. apply firstn_skipn. Qed.
Lemma cut_reads m c a b N off r l t : firstn N b <> [] -> wf_bytes b -> openflow_layout c = Some (l, t) ->
  unpack_fields (unpack0 m) (size0 m) (class_attrs c) a (firstn N b) off = Ok r ->
  forall name at_ w, placed 0 l name at_ w ->
    exists d v, get_attr name (class_attrs c) = Some d /\ get_attr name (fst r) = Some v /\ reads d (slice (off + at_) (off + at_ + w) b) v.
Proof.
  intros NE Wf E U name at_ w Pl. destruct (struct_reads m c a _ off r l t NE (wf_bytes_firstn N b Wf) E U name at_ w Pl) as (d & v & Gd & Gv & Q).
  exists d, v. split; [exact Gd|]. split; [exact Gv|]. pose proof (heads_ok c) as Hh. rewrite E in Hh. destruct (heads_fw l _ _ _ _ _ Hh Pl) as (cv & I & Fc).
  pose proof (class_get _ _ _ I) as Gc. rewrite Gd in Gc. injection Gc as <-.
  eapply field_prefix; [exact Fc|exact Q|apply prefix_slice, firstn_prefix|rewrite slice_length; lia].
Qed.

(** Lengths that are not zero. *)
Lemma read_length b o l len : wf_bytes b -> uint_unpack 2 None b o = Ok l -> num_of l = Ok len -> slice o (o + 2) b <> [0; 0] -> 0 < len.
Proof.
  intros Wf U N H. pose proof (leaf_reads 1 (VUInt 2 None VNone) 2%nat b o l eq_refl Wf U) as R.
  inversion R as [w d z bs Bg| | | | | | | |]; subst. cbn in N. injection N as <-. destruct Bg as (L & W & P).
  destruct (slice o (o + 2) b) as [|x [|y [|]]] eqn:E; try discriminate L.
  unfold wf_bytes in W. inversion W as [|? ? Hx W']; subst. inversion W' as [|? ? Hy _]; subst. cbn in *. unfold is_byte in *.
  destruct (Z.eq_dec x 0) as [->|]; [destruct (Z.eq_dec y 0) as [->|]; [congruence|lia]|lia].
Qed.
Lemma cut_nonempty b off l len pos c : wf_bytes b -> something_to_read c b off -> In (c, pos) cut_by_length -> uint_unpack 2 None b (off + pos) = Ok l -> num_of l = Ok len ->
  firstn (off + Z.to_nat len) b <> [].
Proof.
  intros Wf (Ne & S0) I U N. destruct b as [|x b]; [congruence|]. destruct off as [|off]; [|discriminate]. specialize (S0 pos eq_refl I).
  pose proof (read_length _ _ _ _ Wf U N S0). destruct (0 + Z.to_nat len)%nat eqn:E; [lia|discriminate].
Qed.
Definition in_cut (c : cid) (pos : nat) : bool := existsb (fun q => cid_eqb (fst q) c && Nat.eqb (snd q) pos) cut_by_length.
Lemma in_cut_ok c pos : in_cut c pos = true -> In (c, pos) cut_by_length.
Proof.
  unfold in_cut. intros H. apply existsb_exists in H as ([c' p'] & I & E). cbn [fst snd] in E. apply andb_prop in E as [E1 E2]. apply cid_eqb_eq in E1. apply Nat.eqb_eq in E2.
  subst. exact I.
Qed.
Definition cut_kind (c : cid) : bool :=
  match kind c with
  | KLen pos _ => in_cut c pos
  | KBucket => in_cut c 0
  | KAction04 | KSetField04 => in_cut c 2
  | _ => true
  end.
Lemma cut_kind_ok c : cut_kind c = true.
Proof. revert c. apply all_classes. vm_compute. reflexivity. Qed.
Lemma find_cut f t c : find_class f t = Ok c -> In (c, 2%nat) cut_by_length.
Proof.
  intros H. apply in_cut_ok. destruct f; cbn [find_class] in H.
  - repeat match type of H with (match ?x with _ => _ end) = _ => destruct x; try discriminate H end; injection H as <-; reflexivity.
  - destruct (t <=? 1); [injection H as <-; reflexivity|]. destruct (t <=? 3); [injection H as <-; reflexivity|].
    destruct (t <=? 7); injection H as <-; reflexivity.
  - repeat match type of H with (match ?x with _ => _ end) = _ => destruct x; try discriminate H end; injection H as <-; reflexivity.
Qed.
Lemma action_cut c t : in_cut c 2 = true -> In (action_class c action_classes_04 t, 2%nat) cut_by_length.
Proof.
  intros H. apply in_cut_ok. assert (G : forall l, forallb (fun q => in_cut (fst q) 2) l = true -> in_cut (action_class c l t) 2 = true).
  { induction l as [|[c' ts] l IH]; intros F; [exact H|]. cbn [forallb fst] in F. apply andb_prop in F as [F1 F2]. cbn [action_class]. destruct (existsb _ _); auto. }
  apply G. vm_compute. reflexivity.
Qed.

Lemma kind_oxm c : kind c = KOxmTLV -> c = OxmTLV04.
Proof.
  intros K. assert (T : match kind c with KOxmTLV => cid_eqb c OxmTLV04 | _ => true end = true) by (clear; revert c; apply all_classes; vm_compute; reflexivity).
  rewrite K in T. apply cid_eqb_eq, T.
Qed.
Lemma kind_match c : kind c = KMatch04 -> c = Match04.
Proof.
  intros K. assert (T : match kind c with KMatch04 => cid_eqb c Match04 | _ => true end = true) by (clear; revert c; apply all_classes; vm_compute; reflexivity).
  rewrite K in T. apply cid_eqb_eq, T.
Qed.
Lemma in_firstn {A} n (l : list A) x : In x (firstn n l) -> In x l.
Proof. intros I. rewrite <- (firstn_skipn n l). apply in_or_app. left. exact I. Qed.
Definition message_first (c : cid) : bool :=
  match kind c with
  | KMessage | KPacketOut01 | KPacketOut04 | KErrorMsg01 | KErrorMsg04 | KErrorExp04 | KStatsRequest | KStatsReply | KMultipartRequest | KMultipartReply =>
      match openflow_layout c with Some (("header", 8%nat) :: _, _) | None => true | _ => false end
  | _ => true
  end.
Lemma message_first_ok c : message_first c = true.
Proof. revert c. apply all_classes. vm_compute. reflexivity. Qed.

Lemma object_reads m c a b off c' attrs l t : wf_bytes b -> something_to_read c' b off -> unpack0 (S m) (VObj c a) b off = Ok (VObj c' attrs) ->
  openflow_layout c' = Some (l, t) -> (forall l', l <> ("header", 8%nat) :: l') -> (kind c = KMatch01 -> fw (VObj c a) <> None) ->
  forall name at_ w, placed 0 l name at_ w -> field_at c' attrs b name (off + at_) w.
Proof.
  intros Wf Sr H E Nh Mk name at_ w Pl. rewrite obj_kind_eq in H. unfold unpack_obj in H. pose proof (cut_kind_ok c) as Ck. unfold cut_kind in Ck.
  assert (Nm : c = c' -> match kind c with
     KMessage | KPacketOut01 | KPacketOut04 | KErrorMsg01 | KErrorMsg04 | KErrorExp04 | KStatsRequest | KStatsReply | KMultipartRequest | KMultipartReply => False | _ => True end).
  { intros <-. pose proof (message_first_ok c) as T. unfold message_first in T. rewrite E in T.
    destruct (kind c); try exact I; destruct l as [|[h k] l]; try discriminate T; exfalso;
      (destruct (String.eqb_spec h "header") as [->|Nn]; [destruct k as [|[|[|[|[|[|[|[|[|k]]]]]]]]]; try discriminate T; eapply Nh; reflexivity|]);
      apply Nn; clear - T; repeat match type of T with (match ?s with _ => _ end) = true => destruct s; try discriminate T end; reflexivity. }
  assert (Cut : forall c2 pos a2 b2 lv len, In (c2, pos) cut_by_length -> uint_unpack 2 None b (off + pos) = Ok lv -> num_of lv = Ok len -> b2 = firstn (off + Z.to_nat len) b ->
     unpack_structure (unpack0 m) (size0 m) c2 a2 b2 off = Ok (VObj c' attrs) -> field_at c' attrs b name (off + at_) w).
  { intros c2 pos a2 b2 lv len I U N -> Q. unfold unpack_structure in Q. apply bind_ok in Q as (r & Ur & Q). injection Q as -> <-.
    eapply cut_reads; [|exact Wf|exact E|exact Ur|exact Pl]. eapply cut_nonempty; eassumption. }
  assert (Whole : forall c2 a2, unpack_structure (unpack0 m) (size0 m) c2 a2 b off = Ok (VObj c' attrs) -> field_at c' attrs b name (off + at_) w).
  { intros c2 a2 Q. unfold unpack_structure in Q. apply bind_ok in Q as (r & Ur & Q). injection Q as -> <-.
    eapply struct_reads; [apply Sr|exact Wf|exact E|exact Ur|exact Pl]. }
  destruct (kind c) eqn:K.
  - eapply Whole, H.
  - exfalso. apply bind_ok in H as (at1 & _ & H). injection H as -> _. apply (Nm eq_refl).
  - unfold len_unpack in H. apply bind_ok in H as (u & _ & H). apply bind_ok in H as (lv & U & H). apply bind_ok in H as (len & N & H).
    eapply Cut; [apply in_cut_ok, Ck|exact U|exact N|reflexivity|exact H].
  - unfold typed_unpack in H. apply bind_ok in H as (tv & _ & H). apply bind_ok in H as (tz & _ & H). apply bind_ok in H as (c2 & F & H).
    apply bind_ok in H as (lv & U & H). apply bind_ok in H as (len & N & H). eapply Cut; [eapply find_cut, F|exact U|exact N|reflexivity|exact H].
  - unfold action01_unpack in H. apply bind_ok in H as (tv & _ & H). apply bind_ok in H as (tz & _ & H). eapply Whole, H.
  - unfold action04_unpack in H. apply bind_ok in H as (tv & _ & H). apply bind_ok in H as (lv & U & H). apply bind_ok in H as (tz & _ & H). apply bind_ok in H as (len & N & H).
    eapply Cut; [apply action_cut, Ck|exact U|exact N|reflexivity|exact H].
  - unfold action04_unpack in H. apply bind_ok in H as (tv & _ & H). apply bind_ok in H as (lv & U & H). apply bind_ok in H as (tz & _ & H). apply bind_ok in H as (len & N & H).
    eapply Cut; [apply action_cut, Ck|exact U|exact N|reflexivity|exact H].
  - unfold oxm_unpack in H. apply bind_ok in H as (r & U & H). cbv zeta in H. apply bind_ok in H as (fm & _ & H). apply bind_ok in H as (cls & _ & H).
    apply bind_ok in H as (fld & _ & H). apply bind_ok in H as (len & _ & H). injection H as -> <-.
    assert (Ec : c' = OxmTLV04) by (apply kind_oxm, K). subst c'. destruct (struct_reads m OxmTLV04 a b off r l t (proj1 Sr) Wf E U name at_ w Pl) as (d & v & Gd & Gv & Q).
    exists d, v. split; [exact Gd|]. split; [|exact Q].
    assert (Nn : name <> "oxm_value" /\ name <> "oxm_hasmask" /\ name <> "oxm_field").
    { vm_compute in E. injection E as <- <-. cbn [placed] in Pl. clear - Pl. repeat split; intros ->; repeat destruct Pl as [(X & _)|Pl]; try discriminate X; destruct Pl. }
    destruct Nn as (N1 & N2 & N3). rewrite !get_set_other by congruence. exact Gv.
  - assert (Ec : c = Match04) by (apply kind_match, K). subst c. unfold match04_unpack in H. apply bind_ok in H as (r & U & H). apply bind_ok in H as (len & _ & H).
    apply bind_ok in H as (r2 & U2 & H). injection H as <- <-. change (removelast (class_attrs Match04)) with (firstn 2 (class_attrs Match04)) in U.
    rewrite <- (Nat.add_0_r off) in U.
    destruct (head_reads m b (proj1 Sr) l (firstn 2 (class_attrs Match04))) with (attrs := a) (base := off) (i := O) (r := r) (name := name) (at_ := at_) (w := w)
      as (d & v & I & G & Q); [| | |exact U|exact Pl|].
    + vm_compute in E. injection E as <- <-. reflexivity.
    + vm_compute. repeat constructor; cbn; intuition discriminate.
    + intros nm cv k x o' _ Fk Ux. eapply field_reads; [apply Sr|eassumption..].
    + exists d, v. split; [apply class_get, (in_firstn 2), I|]. split; [|exact Q].
      assert (Kp : get_attr name (fst r2) = get_attr name (fst r)); [|rewrite Kp; exact G]. eapply unpack_fields_keep; [|exact U2].
      vm_compute in E. injection E as <- <-. cbn [placed] in Pl. clear - Pl. cbn. intros [<-|[]]. repeat destruct Pl as [(X & _)|Pl]; try discriminate X; destruct Pl.
  - assert (Fw : exists x, fw (VObj c a) = Some x) by (specialize (Mk eq_refl); destruct (fw (VObj c a)) as [x|]; [eauto|congruence]).
    destruct Fw as (x & Fw). assert (U : unpack0 (S m) (VObj c a) b off = Ok (VObj c' attrs)) by (rewrite obj_kind_eq; unfold unpack_obj; rewrite K; exact H).
    pose proof (nested_reads _ _ _ _ _ _ _ (proj1 Sr) Wf Fw U) as R. inversion R as [| | | | | | | |c0 a0 l0 t0 bs0 attrs0 E0 Ll Hr]; subst. rewrite E in E0. injection E0 as <- <-.
    destruct (Hr name at_ w Pl) as (d & v & Gd & Gv & Q). exists d, v. split; [exact Gd|]. split; [exact Gv|]. rewrite slice_slice in Q; [exact Q|].
    apply fw_obj in Fw as (Wd & Ne & _). pose proof (nested_table c') as T. unfold nested_ok in T. destruct (class_attrs c') as [|q qs] eqn:Ec; [congruence|]. rewrite <- Ec in *.
    rewrite Wd, E in T. rewrite !andb_true_iff in T. destruct T as ((_ & T2) & _). apply Nat.eqb_eq in T2. apply placed_in in Pl. lia.
  - unfold bucket_unpack in H. apply bind_ok in H as (lv & U & H). apply bind_ok in H as (len & N & H).
    eapply Cut; [apply in_cut_ok, Ck|rewrite Nat.add_0_r; exact U|exact N|reflexivity|exact H].
  - exfalso. apply bind_ok in H as (at1 & _ & H). injection H as -> _. apply (Nm eq_refl).
  - exfalso. apply bind_ok in H as (at1 & _ & H). injection H as -> _. apply (Nm eq_refl).
  - exfalso. unfold error_unpack in H. do 5 apply bind_ok in H as (? & _ & H). injection H as -> _. apply (Nm eq_refl).
  - exfalso. unfold error_unpack in H. do 5 apply bind_ok in H as (? & _ & H). injection H as -> _. apply (Nm eq_refl).
  - discriminate.
  - exfalso. unfold stats_request_unpack in H. do 5 apply bind_ok in H as (? & _ & H). injection H as -> _. apply (Nm eq_refl).
  - exfalso. unfold stats_reply_unpack in H. do 6 apply bind_ok in H as (? & _ & H). injection H as -> _. apply (Nm eq_refl).
  - exfalso. unfold multipart_unpack in H. do 6 apply bind_ok in H as (? & _ & H). injection H as -> _. apply (Nm eq_refl).
  - exfalso. unfold multipart_unpack in H. do 6 apply bind_ok in H as (? & _ & H). injection H as -> _. apply (Nm eq_refl).
Qed.

(** ** Messages *)
Definition message_body (c : cid) : bool :=
  match openflow_layout c with
  | Some (("header", 8%nat) :: l, _) => heads l (message_fields c) && negb (existsb (fun q => String.eqb (fst q) "body") l) &&
      match kind c with KPacketOut01 | KPacketOut04 => negb (existsb (fun q => String.eqb (fst q) "actions") l) | _ => true end
  | _ => true
  end.
Lemma message_body_ok c : message_body c = true.
Proof. revert c. apply all_classes. vm_compute. reflexivity. Qed.
Lemma nodup_filter {A B} (f : A -> B) (g : A -> bool) l : NoDup (map f l) -> NoDup (map f (filter g l)).
Proof.
  induction l as [|x l IH]; cbn [map filter]; intros D; [constructor|]. inversion D as [|? ? N D']; subst. destruct (g x); [|auto]. cbn [map]. constructor; [|auto].
  intros I. apply N. apply in_map_iff in I as (y & E & I). apply filter_In in I as [I _]. apply in_map_iff. eauto.
Qed.
Lemma message_nodup c : NoDup (map fst (message_fields c)).
Proof. apply nodup_filter, class_names_nodup. Qed.
Lemma message_in c p : In p (message_fields c) -> In p (class_attrs c).
Proof. intros I. apply filter_In in I as [I _]. exact I. Qed.

Lemma out_reads m b : b <> [] -> forall l A, heads l A = true -> NoDup (map fst A) -> wf_bytes b -> existsb (fun q => String.eqb (fst q) "actions") l = false ->
  forall attrs base i r, packet_out_fields (unpack0 m) (size0 m) A attrs b (base + i) = Ok r ->
  forall name at_ w, placed i l name at_ w ->
    exists cv v, In (name, cv) A /\ get_attr name r = Some v /\ reads cv (slice (base + at_) (base + at_ + w) b) v.
Proof.
  intros NE. induction l as [|[n k] l IH]; intros A H D Wf Na attrs base i r U name at_ w Pl; [destruct Pl|].
  destruct A as [|[n' cv] A]; [discriminate|]. cbn [heads] in H. rewrite !andb_true_iff in H. destruct H as ((H1 & H2) & H3).
  apply String.eqb_eq in H1. subst n'. destruct (fw (deepcopy cv)) as [x|] eqn:F; [|discriminate]. apply Nat.eqb_eq in H2. subst x.
  cbn [existsb fst] in Na. apply orb_false_iff in Na as [Na Nb].
  cbn [map fst] in D. inversion D as [|? ? N D']; subst. cbn [packet_out_fields] in U. cbv zeta in U. rewrite Na in U.
  apply bind_ok in U as (a & Ua & U). rewrite (fw_size m _ k _ _ _ F NE Ua) in U. cbn [bind] in U. rewrite Nat2Z.id in U.
  cbn [placed] in Pl. destruct Pl as [(-> & -> & ->)|Pl].
  - exists cv, a. split; [left; reflexivity|]. split.
    + rewrite (packet_out_keep _ _ name A N _ _ _ _ U). apply get_set_same.
    + eapply field_reads; eassumption.
  - rewrite <- Nat.add_assoc in U. destruct (IH A H3 D' Wf Nb _ _ _ _ U _ _ _ Pl) as (cv' & v & I & G & Q).
    exists cv', v. split; [right; exact I|]. auto.
Qed.

Lemma placed_shift l : forall j i name at_ w, placed (j + i) l name at_ w -> exists at', at_ = (j + at')%nat /\ placed i l name at' w.
Proof.
  induction l as [|[n k] l IH]; intros j i name at_ w H; [destruct H|]. cbn [placed] in *. destruct H as [(-> & -> & ->)|H].
  - exists i. auto.
  - rewrite <- Nat.add_assoc in H. apply IH in H as (at' & -> & H). exists at'. auto.
Qed.
Lemma reads_num d bs v z w er d' : reads d bs v -> d = VUInt w er d' -> num_of v = Ok z -> big_endian w z bs.
Proof.
  intros R -> N. inversion R as [w0 d0 z0 bs0 Bg|w0 e d0 z0 bs0 Bg D Nm|w0 e d0 z0 bs0 Bg Mk| | | | | |]; subst.
  - cbn in N. injection N as <-. exact Bg.
  - unfold num_of in N. rewrite generic_enum in N.
    + cbn in N. injection N as <-. exact Bg.
    + unfold is_mask_enum. destruct (enum_def e) eqn:Ed; try reflexivity. exfalso. apply Nm. eexists. exact Ed.
  - destruct Mk as (ms & Mk). unfold num_of, dot_value, generic_value in N. rewrite Mk in N. cbn in N. injection N as <-. exact Bg.
Qed.
Definition plain_enum (e : eid) : bool := match enum_def e with EMask _ => false | _ => true end.
Lemma call_member e z m : plain_enum e = true -> enum_call e z = Ok m -> m = VEnum e z /\ declared e z.
Proof.
  unfold plain_enum, enum_call. intros P H. destruct (is_member e z) eqn:M.
  - destruct (enum_def e); try discriminate; injection H as <-; split; try reflexivity; apply declared_member, M.
  - destruct (enum_def e); discriminate.
Qed.
Lemma error_plain v4 t : plain_enum (error_code_enum v4 t) = true.
Proof. destruct v4; unfold error_code_enum; repeat match goal with |- context [match ?x with _ => _ end] => destruct x end; reflexivity. Qed.

(** Fields of the body. *)
Lemma body_reads m c a b out l t : wf_bytes b -> b <> [] -> message_kind (kind c) = true -> openflow_layout c = Some (("header", 8%nat) :: l, t) ->
  unpack0 (S m) (VObj c a) b 0 = Ok out ->
  exists attrs, out = VObj c attrs /\ forall name at_ w, placed 0 l name at_ w ->
    exists d v, get_attr name (class_attrs c) = Some d /\ get_attr name attrs = Some v /\ message_reads name d (slice at_ (at_ + w) b) v.
Proof.
  intros Wf NE Mk E H. rewrite obj_kind_eq in H. unfold unpack_obj in H. pose proof (message_body_ok c) as T. unfold message_body in T. rewrite E in T.
  apply andb_prop in T as [T T3]. apply andb_prop in T as [T1 T2]. apply negb_true_iff in T2.
  assert (Nb : forall name at_ w, placed 0 l name at_ w -> name <> "body").
  { intros name at_ w Pl ->. clear - T2 Pl. revert T2 Pl. generalize O as i. induction l as [|[n k] l IH]; intros i T Pl; [destruct Pl|]. cbn [existsb fst] in T.
    apply orb_false_iff in T as [T1 T]. cbn [placed] in Pl. destruct Pl as [(-> & _)|Pl]; [discriminate|]. eapply IH; eassumption. }
  assert (F : forall at1 b', b' = b -> unpack_message_fields (unpack0 m) (size0 m) c a b' 0 = Ok at1 -> forall name at_ w, placed 0 l name at_ w ->
    exists d v, get_attr name (class_attrs c) = Some d /\ get_attr name at1 = Some v /\ reads d (slice at_ (at_ + w) b) v).
  { intros at1 b' -> U name at_ w Pl. unfold unpack_message_fields in U. apply bind_ok in U as (r & U & X). injection X as <-.
    destruct (head_reads m b NE l (message_fields c) T1 (message_nodup c)) with (attrs := a) (base := O) (i := O) (r := r) (name := name) (at_ := at_) (w := w)
      as (d & v & I & G & Q); [|exact U|exact Pl|].
    - intros nm cv k x o' _ Fk Ux. eapply field_reads; eassumption.
    - exists d, v. split; [apply class_get, message_in, I|]. auto. }
  assert (Set1 : forall at1 nm e z x rest, In nm ["code"; "multipart_type"; "body_type"] -> (forall k, k <> nm -> k <> "body" -> get_attr k rest = get_attr k at1) ->
     get_attr nm rest = Some x -> attr_enum nm at1 = Ok z -> enum_call e z = Ok x -> plain_enum e = true ->
     (In nm (map fst l) -> exists w er d, get_attr nm (class_attrs c) = Some (VUInt w er d)) ->
     (forall name at_ w, placed 0 l name at_ w -> exists d v, get_attr name (class_attrs c) = Some d /\ get_attr name at1 = Some v /\ reads d (slice at_ (at_ + w) b) v) ->
     forall name at_ w, placed 0 l name at_ w ->
       exists d v, get_attr name (class_attrs c) = Some d /\ get_attr name rest = Some v /\ message_reads name d (slice at_ (at_ + w) b) v).
  { intros at1 nm e z x rest In3 Keep Gx An Ec Pe Ui F1 name at_ w Pl. destruct (F1 name at_ w Pl) as (d & v & Gd & Gv & Q).
    destruct (String.eqb_spec name nm) as [->|Nn].
    - assert (In nm (map fst l)).
      { clear - Pl. revert Pl. generalize O as i. induction l as [|[n k] l IH]; intros i Pl; [destruct Pl|]. cbn [placed] in Pl. cbn [map fst].
        destruct Pl as [(-> & _)|Pl]; [left; reflexivity|right; eapply IH, Pl]. }
      destruct (Ui H0) as (w' & er & d' & Gu). rewrite Gd in Gu. injection Gu as ->. exists (VUInt w' er d'), x. split; [exact Gd|]. split; [exact Gx|].
      destruct (call_member _ _ _ Pe Ec) as (-> & De). right. split; [exact In3|]. exists w', er, d', e, z. split; [reflexivity|]. split; [|split; [reflexivity|exact De]].
      eapply reads_num; [exact Q|reflexivity|]. unfold attr_enum, attr_or_error in An. rewrite Gv in An. cbn [bind] in An. destruct (num_of v); congruence.
    - exists d, v. split; [exact Gd|]. split; [|left; exact Q]. rewrite Keep; [exact Gv|exact Nn|eapply Nb, Pl]. }
  assert (Un : forall nm, In nm ["code"; "multipart_type"; "body_type"] -> In nm (map fst l) -> exists w er d, get_attr nm (class_attrs c) = Some (VUInt w er d)).
  { intros nm In3 Il. assert (Tu : forallb (fun k => match get_attr k (class_attrs c) with Some (VUInt _ _ _) | None => true | _ => false end) ["code"; "multipart_type"; "body_type"] = true)
      by (clear; revert c; apply all_classes; vm_compute; reflexivity).
    rewrite forallb_forall in Tu. specialize (Tu nm In3). apply in_map_iff in Il as ([n k] & X & Il). cbn [fst] in X. subst n.
    assert (Hx : exists cv, In (nm, cv) (message_fields c)).
    { clear - T1 Il. revert T1 Il. generalize (message_fields c) as A. induction l as [|[n k'] l IH]; intros A T Il; [destruct Il|]. destruct A as [|[n' cv] A]; [discriminate|].
      cbn [heads] in T. rewrite !andb_true_iff in T. destruct T as ((T1 & _) & T3). apply String.eqb_eq in T1. subst n'. destruct Il as [[= -> ->]|Il]; [exists cv; left; reflexivity|].
      destruct (IH A T3 Il) as (x & Ix). exists x. right. exact Ix. }
    destruct Hx as (cv & Icv). rewrite (class_get _ _ _ (message_in _ _ Icv)) in Tu |- *. destruct cv; try discriminate Tu. eauto. }
  destruct (kind c) eqn:K; try discriminate Mk.
  - apply bind_ok in H as (at1 & U & H). injection H as <-. exists at1. split; [reflexivity|]. intros name at_ w Pl.
    destruct (F at1 b eq_refl U name at_ w Pl) as (d & v & Gd & Gv & Q). exists d, v. split; [exact Gd|]. split; [exact Gv|left; exact Q].
  - apply bind_ok in H as (at1 & U & H). injection H as <-. exists at1. split; [reflexivity|]. intros name at_ w Pl.
    apply negb_true_iff in T3. destruct (out_reads m b NE l (message_fields c) T1 (message_nodup c) Wf T3) with (attrs := a) (base := O) (i := O) (r := at1) (name := name) (at_ := at_) (w := w)
      as (d & v & I & G & Q); [exact U|exact Pl|]. exists d, v. split; [apply class_get, message_in, I|]. split; [exact G|left; exact Q].
  - apply bind_ok in H as (at1 & U & H). injection H as <-. exists at1. split; [reflexivity|]. intros name at_ w Pl.
    apply negb_true_iff in T3. destruct (out_reads m b NE l (message_fields c) T1 (message_nodup c) Wf T3) with (attrs := a) (base := O) (i := O) (r := at1) (name := name) (at_ := at_) (w := w)
      as (d & v & I & G & Q); [exact U|exact Pl|]. exists d, v. split; [apply class_get, message_in, I|]. split; [exact G|left; exact Q].
  - unfold error_unpack in H. apply bind_ok in H as (at1 & U & H). apply bind_ok in H as (tt & _ & H). apply bind_ok in H as (u & _ & H).
    apply bind_ok in H as (code & An & H). apply bind_ok in H as (x & Ec & H). injection H as <-. eexists. split; [reflexivity|].
    eapply (Set1 at1 "code"); [cbn; tauto|intros k N1 N2; apply get_set_other; congruence|apply get_set_same|exact An|exact Ec|apply error_plain|apply Un; cbn; tauto|].
    eapply F; [reflexivity|exact U].
  - unfold error_unpack in H. apply bind_ok in H as (at1 & U & H). apply bind_ok in H as (tt & _ & H). apply bind_ok in H as (u & _ & H).
    apply bind_ok in H as (code & An & H). apply bind_ok in H as (x & Ec & H). injection H as <-. eexists. split; [reflexivity|].
    eapply (Set1 at1 "code"); [cbn; tauto|intros k N1 N2; apply get_set_other; congruence|apply get_set_same|exact An|exact Ec|apply error_plain|apply Un; cbn; tauto|].
    eapply F; [reflexivity|exact U].
  - unfold stats_request_unpack in H. apply bind_ok in H as (at1 & U & H). apply bind_ok in H as (tt & An & H). apply bind_ok in H as (x & Ec & H).
    apply bind_ok in H as (bb & _ & H). apply bind_ok in H as (body & _ & H). injection H as <-. eexists. split; [reflexivity|].
    eapply (Set1 at1 "body_type"); [cbn; tauto|intros k N1 N2; rewrite !get_set_other by congruence; reflexivity|rewrite get_set_other by discriminate; apply get_set_same|exact An|exact Ec|reflexivity|apply Un; cbn; tauto|].
    eapply F; [reflexivity|exact U].
  - unfold stats_reply_unpack in H. apply bind_ok in H as (at1 & U & H). apply bind_ok in H as (tt & An & H). apply bind_ok in H as (x & Ec & H).
    apply bind_ok in H as (bb & _ & H). apply bind_ok in H as (inst & _ & H). apply bind_ok in H as (body & _ & H). injection H as <-. eexists. split; [reflexivity|].
    eapply (Set1 at1 "body_type"); [cbn; tauto|intros k N1 N2; rewrite !get_set_other by congruence; reflexivity|rewrite get_set_other by discriminate; apply get_set_same|exact An|exact Ec|reflexivity|apply Un; cbn; tauto|].
    eapply F; [reflexivity|exact U].
  - unfold multipart_unpack in H. apply bind_ok in H as (at1 & U & H). apply bind_ok in H as (tt & An & H). apply bind_ok in H as (x & Ec & H).
    apply bind_ok in H as (inst & _ & H). apply bind_ok in H as (bb & _ & H). apply bind_ok in H as (body & _ & H). injection H as <-. eexists. split; [reflexivity|].
    eapply (Set1 at1 "multipart_type"); [cbn; tauto|intros k N1 N2; rewrite !get_set_other by congruence; reflexivity|rewrite get_set_other by discriminate; apply get_set_same|exact An|exact Ec|reflexivity|apply Un; cbn; tauto|].
    eapply F; [reflexivity|exact U].
  - unfold multipart_unpack in H. apply bind_ok in H as (at1 & U & H). apply bind_ok in H as (tt & An & H). apply bind_ok in H as (x & Ec & H).
    apply bind_ok in H as (inst & _ & H). apply bind_ok in H as (bb & _ & H). apply bind_ok in H as (body & _ & H). injection H as <-. eexists. split; [reflexivity|].
    eapply (Set1 at1 "multipart_type"); [cbn; tauto|intros k N1 N2; rewrite !get_set_other by congruence; reflexivity|rewrite get_set_other by discriminate; apply get_set_same|exact An|exact Ec|reflexivity|apply Un; cbn; tauto|].
    eapply F; [reflexivity|exact U].
Qed.

(** The body of an accepted packet. *)
Lemma packet_body p m : unpack_packet p = Ok m -> exists v t c a, In (t, c) (openflow_types v) /\ unpack (VObj c a) (skipn 8 p) 0 = Ok m.
Proof.
  unfold unpack_packet. intros H. apply bind_ok in H as (u & _ & H). destruct (version_lib (hd 0 p)) as [v|]; [|discriminate].
  destruct (unpack_message v p) as [m'|e] eqn:UM; cbn [recast] in H; [injection H as ->|destruct (exn_eqb e ValueError); discriminate].
  rewrite unpack_message_eq in UM. apply bind_ok in UM as (hdr & _ & UM). apply bind_ok in UM as (msg & NM & UM).
  unfold new_message_from_header in NM. apply bind_ok in NM as (mt & _ & NM). apply bind_ok in NM as (t & _ & NM).
  apply bind_ok in NM as (m1 & N1 & NM). unfold new_message_from_message_type in N1. destruct (lookup_type t (message_types v)) as [c|] eqn:L; [|discriminate].
  apply types_agree in L. destruct (new_message_shape _ _ _ L) as (a & h & NI & _). rewrite NI in N1. injection N1 as <-.
  apply bind_ok in NM as (xid & _ & NM). apply bind_ok in NM as (m2 & S1 & NM). apply bind_ok in NM as (len & _ & NM).
  cbn [set_header get_attr String.eqb Ascii.eqb Bool.eqb set_attr] in S1. injection S1 as <-. unfold set_header in NM.
  cbn [get_attr String.eqb Ascii.eqb Bool.eqb set_attr] in NM. injection NM as <-. eauto 6.
Qed.

(** ** Raw data after the fields *)
Lemma last_at m b : b <> [] -> forall l A nm cv, heads l (A ++ [(nm, cv)]) = true -> List.length A = List.length l ->
  forall attrs o r, unpack_fields (unpack0 m) (size0 m) (A ++ [(nm, cv)]) attrs b o = Ok r ->
  exists x, unpack0 m (deepcopy cv) b (o + list_sum (map snd l)) = Ok x /\ get_attr nm (fst r) = Some x.
Proof.
  intros NE. induction l as [|[n k] l IH]; intros [|[n' cv'] A] nm cv H L attrs o r U; try discriminate L.
  - cbn [app unpack_fields] in U. destruct b as [|h tl]; [congruence|]. apply bind_ok in U as (x & Ux & U).
    apply bind_ok in U as (sz & _ & U). injection U as <-. cbn [fst map list_sum fold_right]. rewrite Nat.add_0_r. exists x. split; [exact Ux|apply get_set_same].
  - cbn [app heads] in H. rewrite !andb_true_iff in H. destruct H as ((H1 & H2) & H3). destruct (fw (deepcopy cv')) as [x|] eqn:F; [|discriminate]. apply Nat.eqb_eq in H2. subst x.
    cbn [app unpack_fields] in U. destruct b as [|h tl]; [congruence|].
    apply bind_ok in U as (a & Ua & U). rewrite (fw_size m _ k _ _ _ F NE Ua) in U. cbn [bind] in U. rewrite Nat2Z.id in U.
    cbn [List.length] in L. injection L as L. destruct (IH A nm cv H3 L _ _ _ U) as (x & Ux & G). exists x. split; [|exact G].
    rewrite <- Ux. f_equal. cbn [map snd list_sum fold_right]. fold (list_sum (map snd l)). lia.
Qed.
Definition rest_ok (c : cid) : bool :=
  match openflow_layout c, rev (class_attrs c) with
  | Some (("header", 8%nat) :: l, _), (nm, VBin _) :: r =>
      negb (Nat.eqb (List.length r) (S (List.length l))) || String.eqb nm "body" ||
      match kind c with KMessage | KErrorMsg01 | KErrorMsg04 | KErrorExp04 => true | _ => false end &&
      match class_attrs c with (_, hv) :: A => is_header hv && Nat.eqb (List.length (message_fields c)) (List.length A) && negb (String.eqb nm "code") | _ => false end
  | _, _ => true
  end.
Lemma rest_ok_all c : rest_ok c = true.
Proof. revert c. apply all_classes. vm_compute. reflexivity. Qed.
Lemma filter_all {A} (f : A -> bool) l : List.length (filter f l) = List.length l -> filter f l = l.
Proof.
  induction l as [|x l IH]; cbn [filter]; [reflexivity|]. destruct (f x); cbn [List.length]; intros H.
  - f_equal. apply IH. congruence.
  - exfalso. assert (List.length (filter f l) <= List.length l)%nat by (clear; induction l as [|y l IH]; cbn [filter List.length]; [lia|]; destruct (f y); cbn [List.length]; lia). lia.
Qed.
Lemma rest_reads m c a b out l t A nm d : wf_bytes b -> b <> [] -> message_kind (kind c) = true -> openflow_layout c = Some (("header", 8%nat) :: l, t) ->
  class_attrs c = A ++ [(nm, VBin d)] -> List.length A = S (List.length l) -> nm <> "body" ->
  unpack0 (S (S m)) (VObj c a) b 0 = Ok out ->
  exists attrs, out = VObj c attrs /\ get_attr nm attrs = Some (VBin (VBytes (skipn (list_sum (map snd l)) b))).
Proof.
  intros Wf NE Mk E Ca La Nb H. pose proof (rest_ok_all c) as T. unfold rest_ok in T. rewrite E, Ca, rev_app_distr in T. cbn [rev app] in T.
  rewrite rev_length, La, Nat.eqb_refl in T. cbn [negb orb] in T. apply String.eqb_neq in Nb. rewrite Nb in T. cbn [orb] in T.
  apply andb_prop in T as [Tk T]. destruct A as [|[h hv] A]; [discriminate La|]. cbn [app] in T. rewrite !andb_true_iff in T. destruct T as ((Th & Tl) & Tc).
  apply Nat.eqb_eq in Tl. apply negb_true_iff in Tc. apply String.eqb_neq in Tc.
  assert (Mf : message_fields c = A ++ [(nm, VBin d)]).
  { unfold message_fields in *. rewrite Ca in *. cbn [app filter snd] in *. rewrite Th in *. cbn [negb] in *. apply filter_all, Tl. }
  pose proof (message_body_ok c) as T. unfold message_body in T. rewrite E in T. apply andb_prop in T as [T _]. apply andb_prop in T as [T _]. rewrite Mf in T.
  cbn [List.length] in La. injection La as La.
  assert (F : forall at1, unpack_message_fields (unpack0 (S m)) (size0 (S m)) c a b 0 = Ok at1 -> get_attr nm at1 = Some (VBin (VBytes (skipn (list_sum (map snd l)) b)))).
  { intros at1 U. unfold unpack_message_fields in U. rewrite Mf in U. apply bind_ok in U as (r & U & X). injection X as <-.
    destruct (last_at (S m) b NE l A nm (VBin d) T La _ _ _ U) as (x & Ux & G). cbn [deepcopy unpack0] in Ux. injection Ux as <-. exact G. }
  rewrite obj_kind_eq in H. unfold unpack_obj in H. destruct (kind c) eqn:K; try discriminate Mk; try discriminate Tk.
  - apply bind_ok in H as (at1 & U & H). injection H as <-. eauto.
  - unfold error_unpack in H. apply bind_ok in H as (at1 & U & H). apply bind_ok in H as (tt & _ & H). apply bind_ok in H as (u & _ & H).
    apply bind_ok in H as (code & _ & H). apply bind_ok in H as (x & _ & H). injection H as <-. eexists. split; [reflexivity|]. rewrite get_set_other by congruence. auto.
  - unfold error_unpack in H. apply bind_ok in H as (at1 & U & H). apply bind_ok in H as (tt & _ & H). apply bind_ok in H as (u & _ & H).
    apply bind_ok in H as (code & _ & H). apply bind_ok in H as (x & _ & H). injection H as <-. eexists. split; [reflexivity|]. rewrite get_set_other by congruence. auto.
Qed.

(** ** The statements *)
Lemma new_match_fw c inst : new_instance c = Some inst -> kind c = KMatch01 -> fw inst <> None.
Proof.
  intros N K. assert (T : forall c, match new_instance c with Some i => match kind c, fw i with KMatch01, None => false | _, _ => true end | None => true end = true)
    by (clear; apply all_classes; vm_compute; reflexivity).
  specialize (T c). rewrite N, K in T. intros F. rewrite F in T. discriminate.
Qed.
Lemma new_is_obj c inst b off c' attrs : new_instance c = Some inst -> unpack inst b off = Ok (VObj c' attrs) -> exists a, inst = VObj c a.
Proof.
  intros N U. assert (T : forall c, match new_instance c with Some (VObj c' _) => cid_eqb c c' | Some (VUInt _ None _) | Some (VList _ _ _) => true | Some _ => false | None => true end = true)
    by (clear; apply all_classes; vm_compute; reflexivity).
  specialize (T c). rewrite N in T. revert U. unfold unpack. generalize FUEL as n. intros n U. destruct n as [|n]; [discriminate U|].
  destruct inst as [| | | | | |w [e|] x|k|len x|x msk|x|x|x|c2 a|lc pc items]; try discriminate T.
  - cbn [unpack0] in U. unfold uint_unpack in U. destruct (struct_unpack_u w b off) as [z|e]; cbn [bind recast] in U; [discriminate U|].
    destruct (exn_eqb e StructError); cbn [recast] in U; [|destruct (exn_eqb e ValueError)]; discriminate U.
  - apply cid_eqb_eq in T. subst. eauto.
  - cbn [unpack0] in U. apply bind_ok in U as (y & _ & U). discriminate U.
Qed.
Lemma unpack_S c a b o : unpack (VObj c a) b o = unpack0 (S 99) (VObj c a) b o.
Proof. rewrite unpack_object, obj_kind_eq. reflexivity. Qed.
Lemma decoded_fields c inst b off c' attrs l t : new_instance c = Some inst -> wf_bytes b -> something_to_read c' b off -> unpack inst b off = Ok (VObj c' attrs) ->
  openflow_layout c' = Some (l, t) -> (forall l', l <> ("header", 8%nat) :: l') ->
  forall name at_ w, placed 0 l name at_ w -> field_at c' attrs b name (off + at_) w.
Proof.
  intros N Wf Sr U E Nh. destruct (new_is_obj _ _ _ _ _ _ N U) as (a & ->). intros name at_ w Pl.
  rewrite unpack_S in U. refine (object_reads 99 c a b off c' attrs l t Wf Sr U E Nh _ name at_ w Pl). intros K. eapply new_match_fw; eassumption.
Qed.
Lemma kept_class v t c a b o c' attrs : In (t, c) (openflow_types v) -> unpack (VObj c a) b o = Ok (VObj c' attrs) -> message_kind (kind c) = true /\ c = c'.
Proof.
  intros I U. destruct (message_kind_ok _ _ _ I) as [M N]. split; [exact M|]. rewrite unpack_object in U.
  destruct (message_keeps _ _ _ _ _ _ _ M N U) as (x & [= -> _] & _). reflexivity.
Qed.
Lemma skip_skip {A} i j (b : list A) : skipn i (skipn j b) = skipn (j + i) b.
Proof. revert b. induction j as [|j IH]; intros [|x b]; cbn [skipn Nat.add]; auto using skipn_nil. Qed.
Lemma slice_skip k i j (b : bytes) : slice i j (skipn k b) = slice (k + i) (k + j) b.
Proof. unfold slice. rewrite firstn_skipn_comm, skip_skip. reflexivity. Qed.
Lemma message_decoded p c attrs l t : wf_bytes p -> (8 < List.length p)%nat -> unpack_packet p = Ok (VObj c attrs) -> openflow_layout c = Some (("header", 8%nat) :: l, t) ->
  forall name at_ w, placed 8 l name at_ w ->
    exists d v, get_attr name (class_attrs c) = Some d /\ get_attr name attrs = Some v /\ message_reads name d (slice at_ (at_ + w) p) v.
Proof.
  intros Wf Lp U E name at_ w Pl. destruct (packet_body _ _ U) as (v & ty & c' & a & I & Ub).
  assert (Wb : wf_bytes (skipn 8 p)) by (apply wf_bytes_skipn, Wf).
  assert (NE : skipn 8 p <> []) by (intros X; apply (f_equal (@List.length _)) in X; rewrite skipn_length in X; cbn in X; lia).
  destruct (kept_class _ _ _ _ _ _ _ _ I Ub) as [Mk ->].
  rewrite unpack_S in Ub. destruct (body_reads 99 c a (skipn 8 p) (VObj c attrs) l t Wb NE Mk E Ub) as (at1 & [= <-] & F).
  change 8%nat with (8 + 0)%nat in Pl. apply placed_shift in Pl as (at' & -> & Pl). destruct (F _ _ _ Pl) as (d & x & Gd & Gx & Q).
  exists d, x. split; [exact Gd|]. split; [exact Gx|]. rewrite slice_skip in Q. rewrite <- Nat.add_assoc. exact Q.
Qed.
Lemma message_rest p c attrs l t A nm d : wf_bytes p -> (8 < List.length p)%nat -> unpack_packet p = Ok (VObj c attrs) -> openflow_layout c = Some (l, t) ->
  (exists l', l = ("header", 8%nat) :: l') -> class_attrs c = A ++ [(nm, VBin d)] -> List.length A = List.length l -> nm <> "body" ->
  get_attr nm attrs = Some (VBin (VBytes (skipn (list_sum (map snd l)) p))).
Proof.
  intros Wf Lp U E (l' & ->) Ca La Nb. destruct (packet_body _ _ U) as (v & ty & c' & a & I & Ub).
  assert (Wb : wf_bytes (skipn 8 p)) by (apply wf_bytes_skipn, Wf).
  assert (NE : skipn 8 p <> []) by (intros X; apply (f_equal (@List.length _)) in X; rewrite skipn_length in X; cbn in X; lia).
  destruct (kept_class _ _ _ _ _ _ _ _ I Ub) as [Mk ->].
  rewrite unpack_S in Ub. destruct (rest_reads 98 c a (skipn 8 p) (VObj c attrs) l' t A nm d Wb NE Mk E Ca La Nb Ub) as (at1 & [= <-] & G).
  rewrite G, skip_skip. cbn [map snd list_sum fold_right]. reflexivity.
Qed.

(** ** Lists of records *)
Lemma fw_class m c a k b o x : fw (VObj c a) = Some k -> unpack0 (S m) (VObj c a) b o = Ok x -> exists attrs, x = VObj c attrs.
Proof.
  intros F U. apply fw_obj in F as (_ & _ & _ & _ & K). rewrite obj_kind_eq in U. unfold unpack_obj in U. destruct K as [K|(K & _)]; rewrite K in U.
  - unfold unpack_structure in U. apply bind_ok in U as (r & _ & U). injection U as <-. eauto.
  - unfold match01_unpack in U. repeat (apply bind_ok in U as (? & _ & U)). injection U as <-. eauto.
Qed.
Lemma items_at m c a k b : new_instance c = Some (VObj c a) -> fw (VObj c a) = Some k -> (0 < k)%nat ->
  forall K o items, unpack_items (unpack0 (S m)) (size0 (S m)) c K b o = Ok items ->
  (List.length b <= o + List.length items * k)%nat /\ (items = [] \/ (o + (List.length items - 1) * k < List.length b)%nat) /\
  forall i x, nth_error items i = Some x -> exists attrs, x = VObj c attrs /\ unpack0 (S m) (VObj c a) b (o + i * k) = Ok x.
Proof.
  intros NI F Pk. induction K as [|K IH]; intros o items U; cbn [unpack_items] in U; destruct (Nat.ltb_spec o (List.length b)) as [L|L]; try discriminate U.
  - injection U as <-. cbn. split; [lia|]. split; [auto|]. intros [|i] x; discriminate.
  - rewrite NI in U. apply bind_ok in U as (v & Uv & U). apply bind_ok in U as (l0 & CI & U). apply bind_ok in U as (s & SZ & U). apply bind_ok in U as (rest & R & U). injection U as <-.
    assert (NE : b <> []) by (intros ->; cbn in L; lia).
    rewrite (fw_size _ _ _ _ _ _ F NE Uv) in SZ. injection SZ as <-. rewrite Nat2Z.id in R. destruct (fw_class _ _ _ _ _ _ _ F Uv) as (attrs & ->).
    cbn [flat check_items] in CI. destruct (cid_eqb c CNone); [discriminate|]. destruct (subclass _ c); [|discriminate]. cbn [bind] in CI. injection CI as <-. cbn [app].
    destruct (IH _ _ R) as (L1 & L2 & N). cbn [List.length]. split; [lia|]. split.
    + right. destruct L2 as [->|L2]; [cbn; lia|]. destruct rest as [|y rest]; cbn [List.length] in *; [lia|]. nia.
    + intros [|i] x Hx.
      * cbn in Hx. injection Hx as <-. exists attrs. split; [reflexivity|]. replace (o + 0 * k)%nat with o by lia. exact Uv.
      * cbn [nth_error] in Hx. destruct (N i x Hx) as (a1 & -> & Ux). exists a1. split; [reflexivity|]. rewrite <- Ux. f_equal. lia.
  - injection U as <-. cbn. split; [lia|]. split; [auto|]. intros [|i] x; discriminate.
Qed.
Definition record_ok (c : cid) : bool :=
  match new_instance c, openflow_layout c with
  | Some (VObj c' a), Some (l, t) => cid_eqb c' c && match fw (VObj c' a) with Some k => Nat.eqb k t && Nat.ltb 0 k | None => false end &&
      negb (existsb (fun p => cid_eqb (fst p) c) cut_by_length) && match l with ("header", _) :: _ => false | _ => true end
  | _, _ => false
  end.
Lemma records_ok : forallb record_ok fixed_records = true.
Proof. vm_compute. reflexivity. Qed.
Lemma list_fields c lc b off items l t : In c fixed_records -> wf_bytes b -> unpack (VList lc c []) b off = Ok (VList lc c items) -> openflow_layout c = Some (l, t) ->
  (List.length b <= off + List.length items * t)%nat /\ (items = [] \/ (off + (List.length items - 1) * t < List.length b)%nat) /\
  forall i x, nth_error items i = Some x -> exists attrs, x = VObj c attrs /\ forall name at_ w, placed 0 l name at_ w -> field_at c attrs b name (off + i * t + at_) w.
Proof.
  intros I Wf U E. pose proof records_ok as T. rewrite forallb_forall in T. specialize (T c I). unfold record_ok in T.
  destruct (new_instance c) as [[| | | | | | | | | | | | |c' a| ]|] eqn:NI; try discriminate T. rewrite E in T. rewrite !andb_true_iff in T. destruct T as (((T1 & T2) & T3) & T4).
  apply cid_eqb_eq in T1. subst c'. destruct (fw (VObj c a)) as [k|] eqn:F; [|discriminate]. apply andb_prop in T2 as [T2 T5]. apply Nat.eqb_eq in T2. subst k. apply Nat.ltb_lt in T5.
  rewrite StructThm.unpack_list in U. apply bind_ok in U as (l0 & U & X). injection X as <-. cbn [app].
  destruct (items_at 98 c a t b NI F T5 _ _ _ U) as (L1 & L2 & N). split; [exact L1|]. split; [exact L2|].
  intros i x Hx. destruct (N i x Hx) as (attrs & -> & Ux). exists attrs. split; [reflexivity|]. intros name at_ w Pl.
  refine (object_reads 98 c a b _ c attrs l t Wf _ Ux E _ _ name at_ w Pl).
  - split.
    + intros ->. assert (List.length l0 = O) as Z0; [destruct L2 as [->|L2]; [reflexivity|cbn in L2; lia]|]. destruct l0; [destruct i; discriminate Hx|discriminate Z0].
    + intros at1 _ J. exfalso. apply negb_true_iff in T3. rewrite <- not_true_iff_false in T3. apply T3, existsb_exists. exists (c, at1). split; [exact J|apply cid_eqb_refl].
  - intros l' ->. discriminate T4.
  - intros K. rewrite F. discriminate.
Qed.

(** A list of ports behind the fields of a message. *)
Lemma ports_decoded p c attrs : wf_bytes p -> (8 < List.length p)%nat -> unpack_packet p = Ok (VObj c attrs) -> In c [FeaturesReply01; SwitchFeatures01] ->
  exists items, get_attr "ports" attrs = Some (VList CFixedTypeList PhyPort01 items) /\
    (List.length p <= 32 + List.length items * 48)%nat /\ (items = [] \/ (32 + (List.length items - 1) * 48 < List.length p)%nat) /\
    forall i x, nth_error items i = Some x -> exists at1, x = VObj PhyPort01 at1 /\
      forall l t name at_ w, openflow_layout PhyPort01 = Some (l, t) -> placed 0 l name at_ w -> field_at PhyPort01 at1 p name (32 + i * 48 + at_) w.
Proof.
  intros Wf Lp U Ic. destruct (packet_body _ _ U) as (v & ty & c' & a & I & Ub).
  assert (Wb : wf_bytes (skipn 8 p)) by (apply wf_bytes_skipn, Wf).
  assert (Lb : List.length (skipn 8 p) = (List.length p - 8)%nat) by apply skipn_length.
  assert (NE : skipn 8 p <> []) by (intros X; apply (f_equal (@List.length _)) in X; rewrite Lb in X; cbn in X; lia).
  destruct (kept_class _ _ _ _ _ _ _ _ I Ub) as [Mk ->]. rewrite unpack_object in Ub.
  assert (K : kind c = KMessage) by (destruct Ic as [<-|[<-|[]]]; reflexivity). unfold unpack_obj in Ub. rewrite K in Ub.
  apply bind_ok in Ub as (at1 & Ub & X). injection X as ->. unfold unpack_message_fields in Ub. apply bind_ok in Ub as (r & Ur & X). injection X as <-.
  assert (Q : exists l A, heads l (A ++ [("ports", VList ListOfPhyPorts01 PhyPort01 [])]) = true /\ List.length A = List.length l /\ list_sum (map snd l) = 24%nat /\
     message_fields c = A ++ [("ports", VList ListOfPhyPorts01 PhyPort01 [])]).
  { exists [("datapath_id", 8); ("n_buffers", 4); ("n_tables", 1); ("pad", 3); ("capabilities", 4); ("actions", 4)]%nat, (removelast (message_fields c)).
    destruct Ic as [<-|[<-|[]]]; vm_compute; auto. }
  destruct Q as (l & A & H & La & Ls & Mf). rewrite Mf in Ur. destruct (last_at 99 _ NE l A _ _ H La _ _ _ Ur) as (x & Ux & G). rewrite Ls in Ux. cbn [deepcopy map Nat.add] in Ux.
  assert (Ux' : unpack (VList CFixedTypeList PhyPort01 []) (skipn 8 p) 24 = Ok x).
  { unfold unpack. rewrite FUEL_S. destruct (unpack0_step 99 (VList CFixedTypeList PhyPort01 []) (skipn 8 p) 24%nat) as [X|X]; rewrite ?X.
    - change (unpack0 99 (VList CFixedTypeList PhyPort01 []) (skipn 8 p) 24%nat = Ok x) in Ux. congruence.
    - exact Ux. }
  destruct (openflow_layout PhyPort01) as [[lp tp]|] eqn:Ep; [|discriminate Ep].
  assert (tp = 48)%nat as -> by (injection Ep as _ <-; reflexivity).
  assert (exists items, x = VList CFixedTypeList PhyPort01 items) as (items & ->).
  { pose proof Ux' as Y. rewrite StructThm.unpack_list in Y. apply bind_ok in Y as (li & _ & Y). injection Y as <-. eauto. }
  destruct (list_fields PhyPort01 CFixedTypeList (skipn 8 p) 24 items lp 48 ltac:(cbn; tauto) Wb Ux' Ep) as (L1 & L2 & N).
  exists items. split; [exact G|]. split; [lia|]. split; [destruct L2 as [L2|L2]; [left; exact L2|right; lia]|].
  intros i y Hy. destruct (N i y Hy) as (at1 & -> & F). exists at1. split; [reflexivity|]. intros l0 t0 name at_ w [= <- <-] Pl.
  destruct (F name at_ w Pl) as (d & z & Gd & Gz & R). exists d, z. split; [exact Gd|]. split; [exact Gz|]. rewrite slice_skip in R.
  replace (32 + i * 48 + at_)%nat with (8 + (24 + i * 48 + at_))%nat by lia. rewrite <- (Nat.add_assoc 8). exact R.
Qed.
