(** Fields are read from their offsets: lemmas for C51. *)
From Coq Require Import ZArith List Bool String Lia.
From Verif Require Import Base PyText Ids PyVal Classes Interp Spec SpecBasic SpecLayout SpecDecode ClassFacts BaseFacts TextFacts IntFacts LeafFacts AddrFacts
  StructFacts DispatchFacts NetFacts2 FuelFacts MutationFacts LayoutFacts WindowFacts LengthFacts.
Import ListNotations.
Open Scope string_scope.
Open Scope list_scope.
Open Scope Z_scope.

Lemma slice_parts {A} a k (l : list A) : List.length (slice a (a + k) l) = k -> l = (firstn a l ++ slice a (a + k) l ++ skipn (a + k) l)%list /\ List.length (firstn a l) = a \/ k = O.
Proof.
  intros H. destruct k as [|k]; [right; reflexivity|left]. rewrite slice_length in H.
  split; [|rewrite firstn_length; lia]. rewrite slice_from, skipn_add. rewrite (firstn_skipn (S k)). symmetry. apply firstn_skipn.
Qed.
Lemma slice_wf a k b : wf_bytes b -> wf_bytes (slice a k b).
Proof.
  unfold wf_bytes. intros H. rewrite slice_from'. rewrite Forall_forall in *. intros x I. apply H.
  rewrite <- (firstn_skipn a b). apply in_or_app. right. rewrite <- (firstn_skipn (k - a) (skipn a b)). apply in_or_app. left. exact I.
Qed.

Lemma mapM_in {A B} (f : A -> res B) l : forall ys x, mapM f l = Ok ys -> In x l -> exists y, f x = Ok y.
Proof.
  induction l as [|a l IH]; intros ys x H I; [destruct I|]. cbn [mapM] in H. apply bind_ok in H as (y & Hy & H). apply bind_ok in H as (zs & Hz & _).
  destruct I as [->|I]; eauto.
Qed.
Lemma leaf_reads m cv w b o v : leaf_width cv = Some w -> wf_bytes b -> unpack0 m cv b o = Ok v -> reads cv (slice o (o + w) b) v.
Proof.
  intros L Wf H. destruct m as [|m]; [discriminate|]. pose proof (slice_wf o (o + w) b Wf) as Ws.
  destruct cv as [| | | | | |w' er x|k|[|n] x|x msk|x|x|x|c attrs|lc pc items]; try discriminate L; injection L as <-; cbn [unpack0] in H.
  - unfold uint_unpack, struct_unpack_u in H. destruct (Nat.eqb_spec (List.length (slice o (o + w') b)) w') as [E|]; [|discriminate]. cbn [bind] in H.
    assert (Bg : big_endian w' (be_decode (slice o (o + w') b)) (slice o (o + w') b)) by (split; [exact E|split; [exact Ws|apply place_value_decode]]).
    destruct er as [e|]; [|injection H as <-; apply r_number, Bg].
    unfold enum_call in H. destruct (enum_def e) as [ms|ms|ms] eqn:D.
    3: { cbn in H. injection H as <-. apply r_mask; [exact Bg|]. exists ms. exact D. }
    all: destruct (is_member e _) eqn:M; [|discriminate]; cbn in H; injection H as <-; apply r_member;
      [exact Bg|apply declared_member, M|intros (ms' & D'); congruence].
  - injection H as <-. apply r_pad. rewrite slice_length. lia.
  - unfold char_unpack in H. cbv zeta in H. destruct (Nat.eqb_spec (List.length (slice o (o + S n) b)) (S n)) as [E|]; [|discriminate].
    destruct (forallb _ _) eqn:As; [|discriminate]. injection H as <-. destruct (rstrip_split 0 (slice o (o + S n) b)) as (k & Ek).
    rewrite Ek at 1. apply r_text.
    + rewrite forallb_forall in As. apply Forall_forall. intros c I. assert (J : In c (slice o (o + S n) b)) by (rewrite Ek; apply in_or_app; left; exact I).
      specialize (As c J). apply Z.ltb_lt in As. unfold wf_bytes in Ws. rewrite Forall_forall in Ws. specialize (Ws c J). unfold is_byte in Ws. lia.
    + intros s' X. assert (Y : rstrip 0 (rstrip 0 (slice o (o + S n) b)) = rstrip 0 (slice o (o + S n) b)).
      { rewrite Ek at 2. rewrite rstrip_zeros. reflexivity. }
      rewrite X in Y. change [0] with (repeat 0 1) in Y. rewrite rstrip_zeros in Y.
      destruct (rstrip_split 0 s') as (j & Ej). apply (f_equal (@List.length Z)) in Y. rewrite app_length in Y. apply (f_equal (@List.length Z)) in Ej.
      rewrite app_length in Ej. cbn in Y. lia.
    + rewrite Ek in E. rewrite app_length, repeat_length in E. lia.
  - unfold ip_unpack in H. destruct (struct_unpack_seq 1 4 (slice o (o + 4) b)) as [zs|e] eqn:U; [|destruct e; discriminate].
    assert (E : List.length (slice o (o + 4) b) = 4%nat).
    { unfold struct_unpack_seq in U. destruct (Nat.eqb_spec (List.length (slice o (o + 4) b)) (1 * 4)) as [E|]; [exact E|discriminate]. }
    destruct (slice_parts o 4 b E) as [(Eb & El)|]; [|discriminate].
    pose proof (ip_roundtrip x msk (firstn o b) (slice o (o + 4) b) (skipn (o + 4) b) Ws E) as (R & _). rewrite <- Eb, El in R.
    assert (Q : unpack (VIP x msk) b o = Ok v) by (unfold unpack; cbn [unpack0 FUEL]; unfold ip_unpack; rewrite U; exact H).
    rewrite Q in R. injection R as ->. apply r_ip; assumption.
  - unfold hw_unpack in H. destruct (struct_unpack_seq 1 6 (slice o (o + 6) b)) as [zs|e] eqn:U; [|destruct e; discriminate].
    assert (E : List.length (slice o (o + 6) b) = 6%nat).
    { unfold struct_unpack_seq in U. destruct (Nat.eqb_spec (List.length (slice o (o + 6) b)) (1 * 6)) as [E|]; [exact E|discriminate]. }
    destruct (slice_parts o 6 b E) as [(Eb & El)|]; [|discriminate].
    pose proof (hw_roundtrip x (firstn o b) (slice o (o + 6) b) (skipn (o + 6) b) Ws E) as (R & _). rewrite <- Eb, El in R.
    assert (Q : unpack (VHW x) b o = Ok v) by (unfold unpack; cbn [unpack0 FUEL]; unfold hw_unpack; rewrite U; exact H).
    rewrite Q in R. injection R as ->. apply r_hw; assumption.
  - assert (E : List.length (slice o (o + 8) b) = 8%nat).
    { unfold dpid_unpack in H. rewrite slice_length. destruct (Nat.le_gt_cases (o + 8) (List.length b)) as [|G]; [lia|]. exfalso.
      destruct (mapM _ (seq 0 8)) as [zs|] eqn:U; [|discriminate]. destruct (mapM_in _ _ _ 7%nat U) as (y & Y); [cbn; tauto|].
      unfold struct_unpack_seq in Y. destruct (Nat.eqb_spec (List.length (slice (o + 7) (o + 7 + 1) b)) (1 * 1)) as [Q|Q]; [|discriminate].
      rewrite slice_length in Q. lia. }
    destruct (slice_parts o 8 b E) as [(Eb & El)|]; [|discriminate].
    pose proof (dpid_roundtrip x (firstn o b) (slice o (o + 8) b) (skipn (o + 8) b) Ws E) as (R & _). rewrite <- Eb, El in R.
    assert (Q : unpack (VDPID x) b o = Ok v) by exact H.
    rewrite Q in R. injection R as ->. apply r_dpid; assumption.
Qed.

Fixpoint heads (l : list (string * nat)) (A : list (string * pyval)) : bool :=
  match l, A with
  | [], _ => true
  | (n, k) :: l, (m, cv) :: A => String.eqb n m && match fw (deepcopy cv) with Some x => Nat.eqb x k | None => false end && heads l A
  | _ :: _, [] => false
  end.

Lemma head_reads m b : b <> [] -> forall l A, heads l A = true -> NoDup (map fst A) ->
  (forall name cv k v o, In (name, cv) A -> fw (deepcopy cv) = Some k -> unpack0 m (deepcopy cv) b o = Ok v -> reads cv (slice o (o + k) b) v) ->
  forall attrs base i r, unpack_fields (unpack0 m) (size0 m) A attrs b (base + i) = Ok r ->
  forall name at_ w, placed i l name at_ w ->
    exists cv v, In (name, cv) A /\ get_attr name (fst r) = Some v /\ reads cv (slice (base + at_) (base + at_ + w) b) v.
Proof.
  intros NE. induction l as [|[n k] l IH]; intros A H D Rd attrs base i r U name at_ w Pl; [destruct Pl|].
  destruct A as [|[n' cv] A]; [discriminate|]. cbn [heads] in H. rewrite !andb_true_iff in H. destruct H as ((H1 & H2) & H3).
  apply String.eqb_eq in H1. subst n'. destruct (fw (deepcopy cv)) as [x|] eqn:F; [|discriminate]. apply Nat.eqb_eq in H2. subst x.
  cbn [map fst] in D. inversion D as [|? ? N D']; subst. cbn [unpack_fields] in U. destruct b as [|h tl]; [congruence|].
  apply bind_ok in U as (a & Ua & U). rewrite (fw_size m _ k _ _ _ F NE Ua) in U. cbn [bind] in U. rewrite Nat2Z.id in U.
  cbn [placed] in Pl. destruct Pl as [(-> & -> & ->)|Pl].
  - exists cv, a. split; [left; reflexivity|]. split.
    + rewrite (unpack_fields_keep _ _ name A N _ _ _ _ U). apply get_set_same.
    + eapply Rd; [left; reflexivity|exact F|exact Ua].
  - rewrite <- Nat.add_assoc in U. destruct (IH A H3 D' (fun n0 c0 k0 v0 o0 J => Rd n0 c0 k0 v0 o0 (or_intror J)) _ _ _ _ U _ _ _ Pl) as (cv' & v & I & G & Q).
    exists cv', v. split; [right; exact I|]. auto.
Qed.

(** The tables agree with the layouts. *)
Lemma heads_ok c : match openflow_layout c with Some (l, _) => heads l (class_attrs c) | None => true end = true.
Proof. revert c. apply all_classes. vm_compute. reflexivity. Qed.
Fixpoint leaf_fieldsb (l : list (string * pyval)) : bool := match l with [] => true | (_, cv) :: l => match leaf_width cv with Some _ => true | None => false end && leaf_fieldsb l end.
Definition nested_ok (c : cid) : bool :=
  match class_attrs c with
  | [] => true
  | _ => match widths (class_attrs c) with
         | Some w => match openflow_layout c with
                     | Some (l, t) => Nat.eqb t w && Nat.eqb (list_sum (map snd l)) w && Nat.eqb (List.length l) (List.length (class_attrs c))
                     | None => false
                     end
         | None => true
         end
  end.
Lemma nested_table c : nested_ok c = true.
Proof. revert c. apply all_classes. vm_compute. reflexivity. Qed.
Lemma widths_leaf l w name cv : widths l = Some w -> In (name, cv) l -> leaf_width cv <> None.
Proof.
  revert w. induction l as [|[n x] l IH]; intros w H I; [destruct I|]. cbn [widths] in H. destruct (leaf_width x) eqn:E; [|discriminate].
  destruct (widths l) as [y|]; [|discriminate]. destruct I as [[= -> ->]|I]; [congruence|]. eapply IH; eauto.
Qed.
Lemma fw_leaf cv w : leaf_width cv = Some w -> fw cv = Some w.
Proof. destruct cv; cbn; intros H; try discriminate; exact H. Qed.
Lemma placed_in l : forall i name at_ w, placed i l name at_ w -> (i <= at_ /\ at_ + w <= i + list_sum (map snd l))%nat.
Proof.
  induction l as [|[n k] l IH]; intros i name at_ w H; [destruct H|]. cbn [placed] in H. cbn [map snd list_sum fold_right]. fold (list_sum (map snd l)).
  destruct H as [(-> & -> & ->)|H]; [lia|]. apply IH in H. lia.
Qed.
Lemma slice_slice {A} o W a w (b : list A) : (a + w <= W)%nat -> slice a (a + w) (slice o (o + W) b) = slice (o + a) (o + a + w) b.
Proof.
  intros H. rewrite !slice_from. rewrite skipn_add. rewrite skipn_firstn_comm, firstn_firstn. f_equal. lia.
Qed.
Lemma wild_attr c : kind c = KMatch01 -> c = Match01.
Proof.
  intros K. assert (T : match kind c with KMatch01 => cid_eqb c Match01 | _ => true end = true) by (clear; revert c; apply all_classes; vm_compute; reflexivity).
  rewrite K in T. apply cid_eqb_eq, T.
Qed.

Lemma nested_reads m c a w b o v : b <> [] -> wf_bytes b -> fw (VObj c a) = Some w -> unpack0 m (VObj c a) b o = Ok v -> reads (VObj c a) (slice o (o + w) b) v.
Proof.
  intros NE Wf F H. destruct m as [|m]; [discriminate|]. rewrite obj_kind_eq in H. unfold unpack_obj in H.
  apply fw_obj in F as (Wd & Ne & Keys & Len & K). pose proof (nested_table c) as T. unfold nested_ok in T.
  destruct (class_attrs c) as [|q qs] eqn:Ec; [congruence|]. rewrite <- Ec in *. rewrite Wd in T.
  destruct (openflow_layout c) as [[l t]|] eqn:E; [|discriminate]. rewrite !andb_true_iff in T. destruct T as ((T1 & T2) & T3).
  apply Nat.eqb_eq in T1, T2, T3. subst t. pose proof (heads_ok c) as Hh. rewrite E in Hh.
  assert (G : forall at1 o1, unpack_fields (unpack0 m) (size0 m) (class_attrs c) a b o = Ok (at1, o1) -> forall name at_ w', placed 0 l name at_ w' ->
     exists d v, get_attr name (class_attrs c) = Some d /\ get_attr name at1 = Some v /\ reads d (slice at_ (at_ + w') (slice o (o + w) b)) v).
  { intros at1 o1 U name at_ w' Pl. pose proof U as U'. rewrite <- (Nat.add_0_r o) in U'.
    destruct (head_reads m b NE l (class_attrs c) Hh (class_names_nodup c)) with (attrs := a) (base := o) (i := O) (r := (at1, o1)) (name := name) (at_ := at_) (w := w')
      as (d & x & I & G & Q); [|exact U'|exact Pl|].
    - intros nm cv k x o' I Fk Ux. pose proof (widths_leaf _ _ _ _ Wd I) as Lf. destruct (leaf_width cv) as [k'|] eqn:Lk; [|congruence].
      rewrite leaf_copy in Fk, Ux by congruence. rewrite (fw_leaf _ _ Lk) in Fk. injection Fk as ->. eapply leaf_reads; eassumption.
    - exists d, x. split; [apply class_get, I|]. split; [exact G|]. rewrite slice_slice; [exact Q|]. apply placed_in in Pl. lia. }
  destruct K as [K|(K & W4 & _)]; rewrite K in H.
  - unfold unpack_structure in H. apply bind_ok in H as ([at1 o1] & U & H). injection H as <-. eapply r_struct; [exact E|exact T3|]. eapply G, U.
  - apply wild_attr in K. subst c. unfold match01_unpack in H. apply bind_ok in H as ([at1 o1] & U & H). apply bind_ok in H as (x & Ux & H). injection H as <-.
    eapply r_struct; [exact E|exact T3|]. intros name at_ w' Pl. destruct (G at1 o1 U name at_ w' Pl) as (d & y & Gd & Gy & Q). cbn [fst].
    destruct (String.eqb_spec name "wildcards") as [->|Nw]; [|exists d, y; rewrite get_set_other by congruence; auto].
    exists d, x. rewrite get_set_same. split; [exact Gd|]. split; [reflexivity|].
    vm_compute in E. injection E as <- <-. vm_compute in Gd. injection Gd as <-.
    assert (X : at_ = O /\ w' = 4%nat) by (cbn [placed] in Pl; clear - Pl; repeat destruct Pl as [(X & Y & Z)|Pl]; try discriminate; auto; destruct Pl).
    destruct X as (-> & ->). rewrite slice_slice by (cbn in W4; exact W4). rewrite Nat.add_0_r.
    apply (leaf_reads 1 (VUInt 4 (Some E_FlowWildCards01) _) 4%nat b o x); [reflexivity|exact Wf|exact Ux].
Qed.
Lemma field_reads m cv k b o v : b <> [] -> wf_bytes b -> fw (deepcopy cv) = Some k -> unpack0 m (deepcopy cv) b o = Ok v -> reads cv (slice o (o + k) b) v.
Proof.
  intros NE Wf F U. assert (D : (exists c a, cv = VObj c a) \/ leaf_width cv = Some k).
  { destruct cv; auto; try (left; eauto; fail); right; exact F. }
  destruct D as [(c & a & ->)|L].
  - cbn [deepcopy] in F, U. eapply nested_reads in U; [|eassumption..]. inversion U; subst. eapply r_struct; eassumption.
  - rewrite leaf_copy in U by congruence. eapply leaf_reads; eassumption.
Qed.
