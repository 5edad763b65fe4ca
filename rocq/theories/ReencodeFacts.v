(** Encoding decoded structures again: lemmas for C43. *)
From Coq Require Import ZArith List Bool String Lia.
From Verif Require Import Base PyText Ids PyVal Classes Interp Utils Spec SpecMsg SpecBasic SpecLayout SpecDecode SpecReencode ClassFacts BaseFacts TextFacts IntFacts LeafFacts
  AddrFacts StructFacts StructThm RaisesFacts DispatchFacts NetFacts2 FuelFacts MutationFacts LayoutFacts WindowFacts LengthFacts DecodeFacts DecodeFacts2.
Import ListNotations.
Open Scope string_scope.
Open Scope list_scope.
Open Scope Z_scope.

Lemma big_encode w z bs : big_endian w z bs -> be_encode w z = bs /\ 0 <= z < ulimit w.
Proof.
  intros (L & W & V). rewrite place_value_decode in V. subst z w. split; [apply be_encode_decode, W|apply be_decode_bound, W].
Qed.
Lemma mask_class e : bit_mask_class e -> is_mask_enum e = true.
Proof. intros (ms & D). unfold is_mask_enum. rewrite D. reflexivity. Qed.
Lemma not_mask e : ~ bit_mask_class e -> is_mask_enum e = false.
Proof. intros H. unfold is_mask_enum. destruct (enum_def e) eqn:D; try reflexivity. exfalso. apply H. eexists. exact D. Qed.
Lemma declared_is e z : declared e z -> is_member e z = true.
Proof. intros H. apply declared_member, H. Qed.
Lemma no_nul_strip s : (forall s', s <> s' ++ [0]) -> rstrip 0 s = s.
Proof.
  intros H. destruct (rstrip_split 0 s) as (k & E). destruct k as [|k]; [cbn in E; rewrite app_nil_r in E; auto|].
  exfalso. apply (H (rstrip 0 s ++ repeat 0 k)). rewrite E at 1. rewrite <- app_assoc. f_equal. clear. induction k as [|k IH]; [reflexivity|]. cbn [repeat app] in *. f_equal. exact IH.
Qed.

Definition sized (d : pyval) : bool := match d with VUInt O _ _ => false | _ => true end.

Lemma leaf_enc n d bs v k : reads d bs v -> leaf_width d = Some k -> List.length bs = k -> sized d = true -> ends_in_nul v = true ->
  exists bs' v', enc (S n) SD true d v bs' v' /\ cleared d bs bs'.
Proof.
  intros R L Lb Sz Nul. destruct R; cbn [leaf_width] in L; try discriminate L.
  - apply big_encode in H as [E B]. injection L as <-. exists bs, (VUInt w None (decoded_int None z)). split; [rewrite <- E|apply cl_same; cbn; congruence].
    apply e_uint; [destruct w; [discriminate|lia]| |exact B|exact I]. left. split; [discriminate|constructor].
  - apply big_encode in H as [E B]. injection L as <-. exists bs, (VUInt w (Some e) (decoded_int (Some e) z)). split; [rewrite <- E|apply cl_same; cbn; congruence].
    apply e_uint; [destruct w; [discriminate|lia]| |exact B|right; apply declared_is, H0]. left. split; [discriminate|]. apply iv_uint_enum, not_mask, H1.
  - apply big_encode in H as [E B]. injection L as <-. exists bs, (VUInt w (Some e) (decoded_int (Some e) z)). split; [rewrite <- E|apply cl_same; cbn; congruence].
    apply e_uint; [destruct w; [discriminate|lia]| |exact B|left; apply mask_class, H0]. left. split; [discriminate|]. apply iv_uint_mask, mask_class, H0.
  - injection L as ->. exists (repeat 0 k), (VPad k). split; [apply e_pad|apply cl_pad, Lb].
  - cbn [ends_in_nul] in Nul. apply Nat.ltb_lt in Nul. exists (s ++ repeat 0 k0), (VChar n0 (VStr s)). split.
    + apply e_char; [auto|assumption|apply no_nul_strip; assumption|assumption|lia].
    + apply cl_same. cbn. rewrite app_length, repeat_length. congruence.
  - exists bs, (VIP (VStr (dotted bs)) m). split; [|apply cl_same; cbn; congruence]. rewrite dotted_dec_canonical by assumption.
    destruct bs as [|b1 [|b2 [|b3 [|b4 [|] ] ] ] ]; try discriminate. eapply (e_ip n d m _ m); [right; left; reflexivity|assumption].
  - exists bs, (VHW (VStr (hex_canonical bs))). split; [|apply cl_same; cbn; congruence]. rewrite colon_hex_canonical by assumption.
    destruct bs as [|b1 [|b2 [|b3 [|b4 [|b5 [|b6 [|] ] ] ] ] ] ]; try discriminate. eapply e_hw; [right; left; reflexivity|apply hex_canonical_text; assumption].
  - exists bs, (VDPID (VStr (hex_canonical bs))). split; [|apply cl_same; cbn; congruence]. rewrite colon_hex_canonical by assumption.
    eapply e_dpid; [right; left; reflexivity|apply hex_canonical_text; assumption|assumption].
Qed.

Lemma enc_app n k sz A : forall ivs b1 o1 A2 ivs2 b2 o2, enc_fields n SD true A ivs b1 o1 -> enc_fields n k sz A2 ivs2 b2 o2 ->
  enc_fields n k sz (A ++ A2) (ivs ++ ivs2) (b1 ++ b2) (o1 ++ o2).
Proof.
  induction A as [|[nm cv] A IH]; intros ivs b1 o1 A2 ivs2 b2 o2 H1 H2.
  - inversion H1; subst. exact H2.
  - inversion H1; subst. cbn [app]. rewrite <- app_assoc. apply f_cons; [assumption|]. eapply IH; eassumption.
Qed.

Lemma slice_two {A} o k j (b : list A) : slice o (o + k + j) b = slice o (o + k) b ++ slice (o + k) (o + k + j) b.
Proof.
  rewrite <- Nat.add_assoc at 1. rewrite !slice_from. rewrite WindowFacts.skipn_add. generalize (skipn o b) as l. clear b.
  induction k as [|k IH]; intros l; [reflexivity|]. destruct l as [|x l]; [destruct j; reflexivity|]. cbn [firstn skipn Nat.add app]. f_equal. apply IH.
Qed.

(** Fields of fixed width: the rest of the fields is read where they end, and
    they encode again. *)
Lemma heads_enc n m b : b <> [] -> forall l A A2, heads l A = true -> List.length A = List.length l -> NoDup (map fst (A ++ A2)) ->
  (forall name cv k v o, In (name, cv) A -> fw (deepcopy cv) = Some k -> (o + k <= List.length b)%nat -> unpack0 m (deepcopy cv) b o = Ok v ->
     ends_in_nul v = true -> exists bs' out, enc n SD true cv v bs' out /\ cleared cv (slice o (o + k) b) bs') ->
  forall attrs o r, unpack_fields (unpack0 m) (size0 m) (A ++ A2) attrs b o = Ok r ->
  (o + list_sum (map snd l) <= List.length b)%nat ->
  (forall name v, In name (map fst A) -> get_attr name (fst r) = Some v -> ends_in_nul v = true) ->
  (exists attrs', unpack_fields (unpack0 m) (size0 m) A2 attrs' b (o + list_sum (map snd l)) = Ok r) /\
  exists bs' outs, enc_fields n SD true A (map (attr_of (fst r)) (map fst A)) bs' outs /\ cleared_all A (slice o (o + list_sum (map snd l)) b) bs'.
Proof.
  intros NE. induction l as [|[nm k] l IH]; intros [|[nm' cv] A] A2 H La D Fe attrs o r U Lo Nul; try discriminate La.
  - cbn [map list_sum fold_right]. rewrite Nat.add_0_r. split; [exists attrs; exact U|]. exists [], []. split; [constructor|]. rewrite slice_from'.
    rewrite Nat.sub_diag. constructor.
  - cbn [heads] in H. rewrite !andb_true_iff in H. destruct H as ((H1 & H2) & H3). apply String.eqb_eq in H1. subst nm'.
    destruct (fw (deepcopy cv)) as [x|] eqn:F; [|discriminate]. apply Nat.eqb_eq in H2. subst x.
    cbn [app map fst] in D. inversion D as [|? ? N D']; subst. cbn [app unpack_fields] in U. destruct b as [|h tl]; [congruence|].
    apply bind_ok in U as (a & Ua & U). rewrite (fw_size m _ k _ _ _ F NE Ua) in U. cbn [bind] in U. rewrite Nat2Z.id in U.
    cbn [map snd list_sum fold_right] in Lo. fold (list_sum (map snd l)) in Lo.
    assert (G : get_attr nm (fst r) = Some a) by (rewrite (unpack_fields_keep _ _ nm (A ++ A2) N _ _ _ _ U); apply get_set_same).
    destruct (IH A A2 H3 ltac:(cbn in La; lia) D' (fun n0 c0 k0 v0 o0 J => Fe n0 c0 k0 v0 o0 (or_intror J)) _ _ _ U ltac:(lia)) as ((at' & U') & bs' & outs & E & C).
    { intros name v I. apply Nul. right. exact I. }
    destruct (Fe nm cv k a o (or_introl eq_refl) F ltac:(lia) Ua (Nul nm a (or_introl eq_refl) G)) as (b1 & out & E1 & C1).
    cbn [map snd list_sum fold_right]. fold (list_sum (map snd l)). rewrite Nat.add_assoc. split; [exists at'; exact U'|].
    exists (b1 ++ bs'), (out :: outs). split.
    + cbn [map fst]. rewrite (attr_of_get _ _ _ G). apply f_cons; assumption.
    + assert (X : slice o (o + k + list_sum (map snd l)) (h :: tl) = slice o (o + k) (h :: tl) ++ slice (o + k) (o + k + list_sum (map snd l)) (h :: tl)).
      { apply slice_two. }
      rewrite X. apply ca_cons; assumption.
Qed.

Lemma fields_complete c rec size A : (forall p, In p A -> In (fst p) (field_names c)) -> forall attrs b o r, unpack_fields rec size A attrs b o = Ok r -> complete c attrs -> complete c (fst r).
Proof.
  induction A as [|[nm cv] A IH]; intros Hn attrs b o r U C; [injection U as <-; exact C|]. cbn [unpack_fields] in U.
  assert (In nm (field_names c)) by (apply (Hn (nm, cv)); left; reflexivity).
  destruct b as [|h tl].
  - eapply IH; [intros p I; apply Hn; right; exact I|exact U|]. apply complete_set; assumption.
  - apply bind_ok in U as (a & _ & U). apply bind_ok in U as (s & _ & U). eapply IH; [intros p I; apply Hn; right; exact I|exact U|]. apply complete_set; assumption.
Qed.
Lemma first_read m b nm cv A : b <> [] -> ~ In nm (map fst A) -> forall attrs o r, unpack_fields (unpack0 m) (size0 m) ((nm, cv) :: A) attrs b o = Ok r ->
  exists a, unpack0 m (deepcopy cv) b o = Ok a /\ get_attr nm (fst r) = Some a.
Proof.
  intros NE N attrs o r U. cbn [unpack_fields] in U. destruct b as [|h tl]; [congruence|]. apply bind_ok in U as (a & Ua & U). apply bind_ok in U as (s & _ & U).
  exists a. split; [exact Ua|]. rewrite (unpack_fields_keep _ _ nm A N _ _ _ _ U). apply get_set_same.
Qed.
Lemma nul_attr c attrs nm v : ends_in_nul (VObj c attrs) = true -> get_attr nm attrs = Some v -> ends_in_nul v = true.
Proof.
  cbn [ends_in_nul]. induction attrs as [|[k x] l IH]; intros H G; [discriminate|]. apply andb_prop in H as [H1 H2]. cbn [get_attr] in G.
  destruct (String.eqb k nm); [congruence|apply IH; assumption].
Qed.
Lemma all_sized c nm cv : In (nm, cv) (class_attrs c) -> sized cv = true.
Proof.
  intros I. assert (T : forallb (fun p => sized (snd p)) (class_attrs c) = true) by (clear; revert c; apply all_classes; vm_compute; reflexivity).
  rewrite forallb_forall in T. exact (T _ I).
Qed.
Lemma slice_len {A} o k (b : list A) : (o + k <= List.length b)%nat -> List.length (slice o (o + k) b) = k.
Proof. intros H. rewrite slice_length. lia. Qed.

(** A structure of fixed width encodes again. *)
Lemma struct_enc n m c a w b o v : b <> [] -> wf_bytes b -> fw (VObj c a) = Some w -> complete c a -> unpack0 m (VObj c a) b o = Ok v ->
  (o + w <= List.length b)%nat -> ends_in_nul v = true ->
  exists attrs bs' outs, v = VObj c attrs /\ enc_obj (S (S n)) SD true c v bs' (mk c outs) /\ cleared_all (class_attrs c) (slice o (o + w) b) bs'.
Proof.
  intros NE Wf F Cp H Lo Nul. destruct m as [|m]; [discriminate|]. rewrite obj_kind_eq in H. unfold unpack_obj in H.
  apply fw_obj in F as (Wd & Ne & Keys & Len & K). pose proof (nested_table c) as T. unfold nested_ok in T.
  destruct (class_attrs c) as [|q qs] eqn:Ec; [congruence|]. rewrite <- Ec in *. rewrite Wd in T.
  destruct (openflow_layout c) as [[l t]|] eqn:E; [|discriminate]. rewrite !andb_true_iff in T. destruct T as ((T1 & T2) & T3).
  apply Nat.eqb_eq in T1, T2, T3. subst t. pose proof (heads_ok c) as Hh. rewrite E in Hh.
  assert (G : forall at1 o1, unpack_fields (unpack0 m) (size0 m) (class_attrs c) a b o = Ok (at1, o1) ->
     (forall nm v, get_attr nm at1 = Some v -> In nm (field_names c) -> ends_in_nul v = true) ->
     complete c at1 /\ exists bs' outs, enc_fields (S n) SD true (class_attrs c) (map (attr_of at1) (field_names c)) bs' outs /\ cleared_all (class_attrs c) (slice o (o + w) b) bs').
  { intros at1 o1 U Nl. split; [eapply (fields_complete c _ _ (class_attrs c)) in U; [exact U| |exact Cp]; intros p I; apply in_map, I|].
    rewrite <- (app_nil_r (class_attrs c)) in U.
    destruct (heads_enc (S n) m b NE l (class_attrs c) [] Hh (eq_sym T3) ltac:(rewrite app_nil_r; apply class_names_nodup)) with (attrs := a) (o := o) (r := (at1, o1)) as (_ & bs' & outs & Ef & Cf); [|exact U|rewrite T2; exact Lo| |].
    - intros nm cv k x o' I Fk Lk Ux Nx. pose proof (widths_leaf _ _ _ _ Wd I) as Lf. destruct (leaf_width cv) as [k'|] eqn:Lw; [|congruence].
      rewrite leaf_copy in Fk, Ux by congruence. rewrite (fw_leaf _ _ Lw) in Fk. injection Fk as ->.
      eapply leaf_enc; [eapply leaf_reads; eassumption|exact Lw|apply slice_len, Lk|eapply all_sized, I|exact Nx].
    - intros nm x I Gx. eapply Nl; [exact Gx|exact I].
    - exists bs', outs. rewrite T2 in Cf. split; assumption. }
  destruct K as [K|(K & W4 & _)]; rewrite K in H.
  - unfold unpack_structure in H. apply bind_ok in H as ([at1 o1] & U & H). injection H as <-. cbn [fst] in *.
    destruct (G _ _ U) as (C1 & bs' & outs & Ef & Cf); [intros nm x Gx _; eapply nul_attr; eassumption|].
    exists at1, bs', outs. split; [reflexivity|]. split; [|exact Cf]. apply o_plain; [auto|exact C1|]. rewrite values_get by exact C1. exact Ef.
  - pose proof (wild_attr _ K) as ->. unfold match01_unpack in H. apply bind_ok in H as ([at1 o1] & U & H). apply bind_ok in H as (x & Ux & H). injection H as <-. cbn [fst] in *.
    assert (Gw : get_attr "wildcards" at1 = Some x).
    { assert (Cw : exists d A, class_attrs Match01 = ("wildcards", VUInt 4 (Some E_FlowWildCards01) d) :: A /\ ~ In "wildcards" (map fst A)).
      { eexists _, _. split; [reflexivity|]. cbn. intuition discriminate. }
      destruct Cw as (d & A & Ea & Na). rewrite Ea in U. destruct (first_read m b _ _ A NE Na _ _ _ U) as (y & Uy & Gy). cbn [fst] in Gy.
      rewrite leaf_copy in Uy by discriminate. destruct m as [|m]; [discriminate|]. cbn [unpack0] in Uy. congruence. }
    assert (Gs : forall nm, get_attr nm (set_attr "wildcards" x at1) = get_attr nm at1).
    { intros nm. destruct (String.eqb_spec nm "wildcards") as [->|N]; [rewrite get_set_same; auto|]. apply get_set_other. congruence. }
    destruct (G _ _ U) as (C1 & bs' & outs & Ef & Cf); [intros nm y Gy _; eapply nul_attr; [exact Nul|rewrite Gs; exact Gy]|].
    assert (C2 : complete Match01 (set_attr "wildcards" x at1)) by (apply complete_set; [exact C1|left; reflexivity]).
    eexists _, bs', outs. split; [reflexivity|]. split; [|exact Cf]. apply o_plain; [right; reflexivity|exact C2|]. rewrite values_get by exact C2.
    erewrite map_ext; [exact Ef|]. intros nm. unfold attr_of. rewrite Gs. reflexivity.
Qed.

(** Fields of the messages. *)
Definition field_ok (cv : pyval) : bool :=
  match fw (deepcopy cv) with
  | None => true
  | Some _ => match cv, deepcopy cv with
              | VObj c a, VObj c' a' => cid_eqb c c' && names_eqb (map fst a) (start_keys c) && names_eqb (map fst (own c a')) (field_names c)
              | VObj _ _, _ => false
              | _, _ => true
              end
  end.
Lemma fields_ok c nm cv : In (nm, cv) (class_attrs c) -> field_ok cv = true.
Proof.
  intros I. assert (T : forallb (fun p => field_ok (snd p)) (class_attrs c) = true) by (clear; revert c; apply all_classes; vm_compute; reflexivity).
  rewrite forallb_forall in T. exact (T _ I).
Qed.
Lemma field_enc n m c nm cv k b o v : In (nm, cv) (class_attrs c) -> b <> [] -> wf_bytes b -> fw (deepcopy cv) = Some k -> unpack0 m (deepcopy cv) b o = Ok v ->
  (o + k <= List.length b)%nat -> ends_in_nul v = true ->
  exists bs' out, enc (S (S n)) SD true cv v bs' out /\ cleared cv (slice o (o + k) b) bs'.
Proof.
  intros I NE Wf F U Lo Nul. pose proof (fields_ok _ _ _ I) as T. unfold field_ok in T. rewrite F in T.
  assert (D : (exists c a, cv = VObj c a) \/ leaf_width cv = Some k).
  { destruct cv; auto; try (left; eauto; fail); right; exact F. }
  destruct D as [(c' & a & ->)|L].
  - destruct (deepcopy (VObj c' a)) as [| | | | | | | | | | | | |c2 a'|] eqn:Dc; try discriminate T. rewrite !andb_true_iff in T. destruct T as ((T1 & T2) & T3).
    apply cid_eqb_eq in T1. subst c2. apply names_eqb_eq in T2, T3.
    destruct (struct_enc n m c' a' k b o v NE Wf F T3 U Lo Nul) as (attrs & bs' & outs & -> & E & C).
    exists bs', (mk c' outs). split; [|apply cl_struct, C]. apply e_obj; [exact E|exact T2|].
    apply fw_obj in F as (_ & _ & _ & _ & [K|(K & _)]); rewrite K; reflexivity.
  - rewrite leaf_copy in F, U by congruence. rewrite (fw_leaf _ _ L) in F.
    eapply leaf_enc; [eapply leaf_reads; eassumption|exact L|apply slice_len, Lo|eapply all_sized, I|exact Nul].
Qed.
