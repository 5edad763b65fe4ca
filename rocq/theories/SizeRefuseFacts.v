(** Lemmas for C67. *)
From Coq Require Import ZArith List Bool String Lia.
From Verif Require Import Base PyText Ids PyVal Classes Interp SpecBasic SpecMutation SpecLayout SpecReject SpecReject2 SpecSizeRefuse
  ClassFacts MutationFacts LayoutFacts FuelFacts Totality RejectFacts RejectFacts2 RejectFacts3 RejectFacts4.
Import ListNotations.
Open Scope string_scope.
Open Scope list_scope.
Open Scope Z_scope.

(** ** One field *)
Definition sized_shape (cv : pyval) : bool :=
  match cv with
  | VObj c _ => match kind c with KBucket | KAction04 | KSetField04 => false | KMatch04 => cid_eqb c Match04 | _ => negb (cid_eqb c Match04) end
  | VList lc pc l => negb (cid_eqb lc CList) && negb (cid_eqb pc CNone) && match l with [] => true | _ => false end
  | _ => true
  end.
Lemma sized_shapes c cv : In cv (map snd (class_attrs c)) -> sized_shape cv = true.
Proof.
  assert (T : forallb (fun p => sized_shape (snd p)) (class_attrs c) = true) by (revert c; apply all_classes; vm_compute; reflexivity).
  intros I. apply in_map_iff in I as (p & <- & I). rewrite forallb_forall in T. apply T, I.
Qed.
Definition has_size_field (cv : pyval) : bool :=
  match cv with VUInt _ _ _ | VPad _ | VChar _ _ | VIP _ _ | VHW _ | VDPID _ | VBin _ | VObj _ _ | VList _ _ _ => true | _ => false end.
Lemma field_shapes c cv : In cv (map snd (class_attrs c)) -> has_size_field cv = true.
Proof.
  assert (T : forallb (fun p => has_size_field (snd p)) (class_attrs c) = true) by (revert c; apply all_classes; vm_compute; reflexivity).
  intros I. apply in_map_iff in I as (p & <- & I). rewrite forallb_forall in T. apply T, I.
Qed.
Lemma raw_unsized d iv e : bin_size get_size (or_default d iv) = Err e <-> size_refused (VBin d) iv e.
Proof.
  unfold bin_size. split.
  - destruct (has_pack (or_default d iv)) eqn:HP; [intros H; apply zr_raw_object; [rewrite no_object_pack, HP; reflexivity|exact H]|].
    intros H. assert (NO : no_object (or_default d iv) = true) by (rewrite no_object_pack, HP; reflexivity).
    destruct (or_default d iv) eqn:E; try discriminate H; injection H as <-;
      (apply zr_raw; rewrite E; [exact NO|discriminate|intros; discriminate]).
  - intros H. inversion H as [d' iv' NO N1 N2|d' iv' e' NO G| | | | |]; subst.
    + rewrite no_object_pack in NO. destruct (has_pack (or_default d iv)); [discriminate NO|].
      destruct (or_default d iv); try reflexivity; [destruct N1; reflexivity|edestruct N2; reflexivity].
    + rewrite no_object_pack in NO. destruct (has_pack (or_default d iv)); [exact G|discriminate NO].
Qed.
Lemma size1_refused c cv iv e : In cv (map snd (class_attrs c)) -> size1 get_size cv iv = Err e <-> size_refused cv iv e.
Proof.
  intros I. pose proof (sized_shapes c cv I) as Sh. apply field_shapes in I.
  destruct cv as [| | | | | |w er x|k|n d|d m|d|d|d|co ca|lc pc l]; try discriminate I;
    try (cbn [size1]; rewrite (size_of 1) by discriminate; cbn [size0]; split; [discriminate|intros H; inversion H]; fail).
  - apply raw_unsized.
  - cbn [sized_shape] in Sh. cbn [size1]. assert (D : iv = VNone \/ iv <> VNone) by (destruct iv; first [left; reflexivity|right; discriminate]).
    destruct D as [-> |N]; [split; [intros H; apply zr_default, H|intros H; inversion H; subst; congruence]|].
    assert (E : size1 get_size (VObj co ca) iv = if subclass (class_of iv) co then get_size iv else Err (if cid_eqb co Match04 then ValueError else PackException)).
    { destruct (cid_eqb co Match04) eqn:M; [apply cid_eqb_eq in M; subst co; destruct iv; try (destruct N; reflexivity); reflexivity|].
      cbn [size1]. destruct (kind co); try discriminate Sh; destruct iv; try (destruct N; reflexivity); reflexivity. }
    cbn [size1] in E. rewrite E. clear E. destruct (subclass (class_of iv) co) eqn:SC.
    + split; [intros H; apply zr_object; assumption|]. intros H. inversion H; subst; unfold other_class in *; congruence.
    + destruct (cid_eqb co Match04) eqn:M.
      * apply cid_eqb_eq in M. subst co. split; [intros [= <-]; apply zr_match; assumption|]. intros H. inversion H; subst; congruence.
      * split; [intros [= <-]; apply zr_class; [intros ->; discriminate M|assumption|assumption]|].
        intros H. inversion H; subst; try congruence. discriminate M.
  - cbn [sized_shape] in Sh. apply andb_prop in Sh as [Sh L]. apply andb_prop in Sh as [S1 S2]. destruct l; [|discriminate L].
    assert (N1 : lc <> CList) by (intros ->; discriminate S1). assert (N2 : pc <> CNone) by (intros ->; discriminate S2).
    assert (D : iv = VNone \/ iv <> VNone) by (destruct iv; first [left; reflexivity|right; discriminate]).
    destruct D as [-> |N]; [cbn [size1]; rewrite no_items_size by exact N1; split; [discriminate|intros H; inversion H; congruence]|].
    assert (E : size1 get_size (VList lc pc []) iv = if cid_eqb lc CFixedTypeList then Ok 0 else taken_len lc pc iv)
      by (unfold taken_len, size1; destruct iv; first [congruence|reflexivity]).
    rewrite E. clear E. destruct (cid_eqb lc CFixedTypeList) eqn:F.
    + split; [discriminate|]. intros H. inversion H; subst. apply cid_eqb_eq in F. contradiction.
    + split; [intros H; apply zr_list; [intros ->; discriminate F|exact N|apply taken_size_iff; auto]|].
      intros H. inversion H as [| | | | | |? ? ? ? ? ? ? T]; subst. apply taken_size_iff in T; auto.
Qed.

(** ** The attributes in order *)
Definition first_serr (A : list (string * pyval)) (attrs : list (string * pyval)) (e : exn) : Prop :=
  exists before f after iv, A = before ++ f :: after /\
    Forall (fun g => exists v b, get_attr (fst g) attrs = Some v /\ size1 get_size (snd g) v = Ok b) before /\
    get_attr (fst f) attrs = Some iv /\ size1 get_size (snd f) iv = Err e.
Lemma zip_serr A : forall F e, NoDup (map fst A) -> map fst F = map fst A ->
  sumM (fun p => size1 get_size (fst p) (snd p)) (combine (map snd A) (map snd F)) = Err e <-> first_serr A F e.
Proof.
  induction A as [|[k cv] A IH]; intros F e D E; destruct F as [|[k' x] F]; try discriminate E.
  - cbn. split; [discriminate|]. intros ([|? ?] & f & after & iv & H & _); discriminate H.
  - cbn in E. injection E as -> E. inversion D as [|? ? N D']; subst. cbn [map combine fst snd sumM].
    assert (Sk : forall m mv, In (m, mv) A -> get_attr m ((k, x) :: F) = get_attr m F).
    { intros m mv I. cbn [get_attr]. destruct (String.eqb_spec k m) as [->|]; [|reflexivity]. exfalso. apply N. apply in_map_iff. exists (m, mv). split; [reflexivity|exact I]. }
    assert (G0 : get_attr k ((k, x) :: F) = Some x) by (cbn [get_attr]; rewrite String.eqb_refl; reflexivity).
    destruct (size1 get_size cv x) as [b1|e1] eqn:P; cbn [bind].
    + assert (Tail : first_serr ((k, cv) :: A) ((k, x) :: F) e <-> first_serr A F e).
      { split.
        - intros (before & f & after & iv & H & Hb & Hf & Hp). destruct before as [|g before]; cbn in H; injection H as <- H; subst.
          + cbn [fst snd] in *. rewrite G0 in Hf. congruence.
          + inversion Hb as [|? ? _ Hb']; subst. exists before, f, after, iv. split; [reflexivity|]. split; [|split; [|exact Hp]].
            * rewrite Forall_forall in *. intros [m mv] I. destruct (Hb' _ I) as (v & b & G & Q). exists v, b. split; [|exact Q]. rewrite <- G. symmetry. apply (Sk m mv). apply in_or_app. left. exact I.
            * rewrite <- Hf. destruct f as [m mv]. symmetry. apply (Sk m mv). apply in_or_app. right. left. reflexivity.
        - intros (before & f & after & iv & -> & Hb & Hf & Hp). exists ((k, cv) :: before), f, after, iv. split; [reflexivity|]. split; [|split; [|exact Hp]].
          + constructor; [exists x, b1; split; [exact G0|exact P]|]. rewrite Forall_forall in *. intros [m mv] I. destruct (Hb _ I) as (v & b & G & Q). exists v, b. split; [|exact Q].
            rewrite <- G. apply (Sk m mv). apply in_or_app. left. exact I.
          + rewrite <- Hf. destruct f as [m mv]. apply (Sk m mv). apply in_or_app. right. left. reflexivity. }
      rewrite Tail, <- (IH F e D' E). destruct (sumM _ _) as [b2|e2]; cbn [bind]; split; intros X; first [discriminate X|exact X].
    + split.
      * intros [= <-]. exists [], (k, cv), A, x. split; [reflexivity|]. split; [constructor|]. split; [exact G0|exact P].
      * intros (before & f & after & iv & H & Hb & Hf & Hp). destruct before as [|g before]; cbn in H; injection H as <- H; subst.
        -- cbn [fst snd] in *. rewrite G0 in Hf. injection Hf as <-. rewrite P in Hp. injection Hp as <-. reflexivity.
        -- inversion Hb as [|? ? (v & b & G & Q) _]; subst. cbn [fst snd] in *. rewrite G0 in G. congruence.
Qed.
Lemma unsized_not c cv v : In cv (map snd (class_attrs c)) -> (exists b, size1 get_size cv v = Ok b) <-> forall e, ~ size_refused cv v e.
Proof.
  intros I. split.
  - intros [b P] e R. apply (size1_refused c cv v e I) in R. congruence.
  - intros H. destruct (size1 get_size cv v) as [b|e] eqn:P; [eauto|]. exfalso. apply (H e), (size1_refused c cv v e I), P.
Qed.
Lemma first_serr_unsized c attrs e : first_serr (class_attrs c) attrs e <-> first_unsized c attrs e.
Proof.
  unfold first_serr, first_unsized.
  split; intros (before & f & after & iv & H & Hb & Hf & Hp); exists before, f, after, iv; (split; [exact H|]);
    assert (If : In (snd f) (map snd (class_attrs c))) by (rewrite H; apply in_map, in_or_app; right; left; reflexivity);
    (split; [|split; [exact Hf|apply (size1_refused c _ _ _ If), Hp]]);
    rewrite Forall_forall in *; intros g I; assert (Ig : In (snd g) (map snd (class_attrs c))) by (rewrite H; apply in_map, in_or_app; left; exact I).
  - destruct (Hb g I) as (v & b & G & Q). exists v. split; [exact G|]. apply (unsized_not c (snd g) v Ig). eauto.
  - destruct (Hb g I) as (v & G & Q). apply (unsized_not c (snd g) v Ig) in Q as [b Q]. eauto.
Qed.
Lemma struct_unsized c attrs e : has_attributes c attrs = true -> struct_size get_size c attrs = Err e <-> first_unsized c attrs e.
Proof.
  intros A. unfold struct_size, zip_attrs. fold (mine c attrs).
  rewrite (zip_serr (class_attrs c) (mine c attrs) e (class_names_nodup c) (built_names c attrs A)), <- first_serr_unsized.
  assert (G : forall g, In g (class_attrs c) -> get_attr (fst g) (mine c attrs) = get_attr (fst g) attrs).
  { intros [m mv] I. apply get_mine. eapply in_class_attr, I. }
  unfold first_serr. split; intros (before & f & after & iv & H & Hb & Hf & Hp); exists before, f, after, iv; (split; [exact H|]);
    assert (If : In f (class_attrs c)) by (rewrite H; apply in_or_app; right; left; reflexivity);
    (split; [|split; [rewrite <- Hf; first [apply G, If | symmetry; apply G, If]|exact Hp]]);
    rewrite Forall_forall in *; intros g I; destruct (Hb g I) as (v & b & Q & R); exists v, b; (split; [|exact R]); rewrite <- Q;
    assert (Ig : In g (class_attrs c)) by (rewrite H; apply in_or_app; left; exact I); first [apply G, Ig | symmetry; apply G, Ig].
Qed.
Lemma size_object c attrs : get_size (VObj c attrs) =
  match kind c with
  | KAction04 | KSetField04 | KMatch04 => do s <- struct_size get_size c attrs; Ok (ceil8 s)
  | KBucket => do l <- attr_or_error "length" attrs;
               match l with VNone => struct_size get_size c attrs | _ => num_of l end
  | _ => struct_size get_size c attrs
  end.
Proof.
  pose proof (size_fuel (VObj c attrs)) as T. unfold get_size at 1. revert T. generalize (FUEL + height (VObj c attrs))%nat as N.
  intros [|n] T; [destruct (T eq_refl)|]. rewrite size0_obj in *.
  pose proof (le_struct_size (size0 n) get_size c attrs (le_size n)) as [E|E].
  2:{ rewrite E. reflexivity. }
  rewrite E in T. destruct (kind c); try (destruct (T eq_refl)); try (cbn [bind] in T; destruct (T eq_refl)).
  destruct (attr_or_error "length" attrs) as [l|]; cbn [bind] in *; [|reflexivity]. destruct l; try reflexivity. destruct (T eq_refl).
Qed.
Lemma bucket_kind c : kind c = KBucket <-> c = Bucket04.
Proof.
  split; [|intros ->; vm_compute; reflexivity].
  assert (T : implb (match kind c with KBucket => true | _ => false end) (cid_eqb c Bucket04) = true) by (revert c; apply all_classes; vm_compute; reflexivity).
  intros K. rewrite K in T. apply cid_eqb_eq, T.
Qed.
Lemma object_unsized c attrs e : built (VObj c attrs) = true -> c <> Bucket04 -> get_size (VObj c attrs) = Err e <-> first_unsized c attrs e.
Proof.
  intros B N. rewrite size_object, <- (struct_unsized c attrs e (built_has _ _ B)).
  destruct (kind c) eqn:K; try reflexivity; try (destruct (struct_size get_size c attrs); cbn [bind]; split; congruence).
  apply bucket_kind in K. contradiction.
Qed.
Lemma bucket_unsized attrs e : built (VObj Bucket04 attrs) = true ->
  exists l, get_attr "length" attrs = Some l /\
    (get_size (VObj Bucket04 attrs) = Err e <->
     l = VNone /\ first_unsized Bucket04 attrs e \/ l <> VNone /\ (forall z, ~ port_number l z) /\ e = TypeError).
Proof.
  intros B. destruct (there _ attrs "length" B eq_refl) as (l & L). exists l. split; [exact L|].
  rewrite size_object. change (kind Bucket04) with KBucket. cbn iota. unfold attr_or_error. rewrite L. cbn [bind].
  assert (D : l = VNone \/ l <> VNone) by (destruct l; first [left; reflexivity|right; discriminate]).
  destruct D as [-> |N].
  - rewrite (struct_unsized Bucket04 attrs e (built_has _ _ B)). split; [auto|]. intros [[_ H]|[H _]]; [exact H|destruct H; reflexivity].
  - assert (E : (match l with VNone => struct_size get_size Bucket04 attrs | _ => num_of l end) = num_of l) by (destruct l; first [congruence|reflexivity]).
    rewrite E. pose proof (port_number_iff l) as P. split.
    + intros F. right. split; [exact N|]. split; [intros z H; apply P in H; congruence|].
      unfold num_of in F. destruct l; cbn [as_int] in F; try (destruct (as_int _)); try (destruct (is_int_enum _)); try discriminate F; injection F; auto.
    + intros [[? _]|(_ & H & ->)]; [contradiction|]. destruct (num_of l) as [z|e'] eqn:F; [destruct (H z); apply P; reflexivity|].
      unfold num_of in F. destruct l; cbn [as_int] in F; try (destruct (as_int _)); try (destruct (is_int_enum _)); try discriminate F; injection F; congruence.
Qed.
Lemma basic_unsized v e : basic v = true -> get_size v = Err e <-> size_refused v VNone e.
Proof.
  intros B. destruct v; try discriminate B; try (rewrite (size_of 1) by discriminate; cbn [size0]; split; [discriminate|intros H; inversion H]; fail).
  rewrite <- raw_unsized. cbn [or_default].
  pose proof (size_fuel (VBin v)) as T. unfold get_size at 1. revert T. generalize (FUEL + height (VBin v))%nat as N.
  intros [|n] T; [destruct (T eq_refl)|]. cbn [size0] in *. unfold bin_size in *.
  destruct (has_pack v); [|reflexivity]. destruct (le_size n v) as [E|E]; [destruct (T E)|]. rewrite E. reflexivity.
Qed.
Lemma list_unsized lc pc items e :
  get_size (VList lc pc items) = Err e <-> lc = CList /\ e = AttributeError \/ lc <> CList /\ unsized_item items e.
Proof.
  assert (E : get_size (VList lc pc items) = if cid_eqb lc CList then Err AttributeError else
    match items with [] => Ok 0 | x :: _ => if is_generic_type x then do s <- get_size x; Ok (zlen items * s) else sumM get_size items end).
  { pose proof (size_fuel (VList lc pc items)) as T. unfold get_size at 1. revert T. generalize (FUEL + height (VList lc pc items))%nat as N.
    intros [|n] T; [destruct (T eq_refl)|]. cbn [size0] in *. destruct (cid_eqb lc CList); [reflexivity|]. destruct items as [|x l]; [reflexivity|].
    destruct (is_generic_type x).
    - destruct (le_size n x) as [E|E]; rewrite E in *; [destruct (T eq_refl)|reflexivity].
    - revert T. generalize (x :: l) as k. induction k as [|y k IH]; [reflexivity|]. cbn [sumM].
      destruct (le_size n y) as [E|E]; rewrite E in *; [intros T; destruct (T eq_refl)|]. clear E. destruct (size0 n y) as [s|]; cbn [bind]; [|reflexivity].
      intros T. rewrite <- IH; [reflexivity|]. intros X. rewrite X in T. destruct (T eq_refl). }
  rewrite E. clear E. destruct (cid_eqb lc CList) eqn:C.
  { apply cid_eqb_eq in C. subst lc. split; [intros [= <-]; auto|]. intros [[_ ->]|[H _]]; [reflexivity|destruct H; reflexivity]. }
  assert (N : lc <> CList) by (intros ->; discriminate C).
  assert (Q : (lc = CList /\ e = AttributeError \/ lc <> CList /\ unsized_item items e) <-> unsized_item items e) by (split; [intros [[? _]|[_ ?]]; [contradiction|assumption]|auto]).
  rewrite Q. clear Q. unfold unsized_item. destruct items as [|x l].
  { split; [discriminate|]. intros ([|? ?] & y & after & H & _); discriminate H. }
  assert (G : basic x = is_generic_type x) by (destruct x; reflexivity).
  destruct (is_generic_type x) eqn:I.
  - split.
    + destruct (get_size x) as [s|e'] eqn:S0; cbn [bind]; [discriminate|]. intros [= ->]. exists [], x, l. split; [reflexivity|]. split; [constructor|]. split; [exact S0|exact Logic.I].
    + intros (before & y & after & H & Hb & Hy & Hd). destruct before as [|z before]; cbn in H; injection H as <- H.
      * rewrite Hy. reflexivity.
      * congruence.
  - assert (X : forall k, sumM get_size k = Err e <-> exists before y after, k = before ++ y :: after /\ Forall (fun y => exists n, get_size y = Ok n) before /\ get_size y = Err e).
    { clear. induction k as [|y k IH]; cbn [sumM].
      - split; [discriminate|]. intros ([|? ?] & z & after & H & _); discriminate H.
      - destruct (get_size y) as [n|e'] eqn:S0; cbn [bind].
        + transitivity (sumM get_size k = Err e); [destruct (sumM get_size k); cbn [bind]; split; congruence|]. rewrite IH. split.
          * intros (before & z & after & -> & F & Z0). exists (y :: before), z, after. split; [reflexivity|]. split; [constructor; eauto|exact Z0].
          * intros ([|w before] & z & after & H & F & Z0); cbn in H; injection H as -> H; [congruence|]. inversion F; subst. exists before, z, after. auto.
        + split.
          * intros [= ->]. exists [], y, k. split; [reflexivity|]. split; [constructor|exact S0].
          * intros ([|w before] & z & after & H & F & Z0); cbn in H; injection H as -> H; [congruence|]. inversion F as [|? ? [n Hn] _]; subst. congruence. }
    rewrite X. split.
    + intros (before & y & after & H & F & Y). exists before, y, after. split; [exact H|]. split; [exact F|]. split; [exact Y|].
      destruct before as [|w before]; [exact Logic.I|]. cbn in H. injection H as <- _. exact G.
    + intros (before & y & after & H & F & Y & _). exists before, y, after. auto.
Qed.
Lemma size_refused_one c name cv iv e e' : In (name, cv) (class_attrs c) -> size_refused cv iv e -> size_refused cv iv e' -> e = e'.
Proof.
  intros I A B. assert (J : In cv (map snd (class_attrs c))) by (apply in_map_iff; exists (name, cv); auto).
  apply (size1_refused c cv iv e J) in A. apply (size1_refused c cv iv e' J) in B. congruence.
Qed.
