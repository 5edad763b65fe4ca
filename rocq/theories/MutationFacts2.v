(** pack() of an object that has been packed. *)
From Coq Require Import ZArith List Bool String Lia.
From Verif Require Import Base PyText Ids PyVal Classes Interp Mutation SpecMutation ClassFacts StructFacts DispatchFacts
  FuelFacts Totality MutationFacts.
Import ListNotations.
Open Scope string_scope.
Open Scope list_scope.
Open Scope Z_scope.

Definition is_list (v : pyval) : bool := match v with VList _ _ _ => true | _ => false end.

Section Step.
  Variable rec : pyval -> res bytes.
  Variable st : pyval -> pyval.
  Hypothesis Hst : forall v b, built v = true -> rec v = Ok b ->
    rec (st v) = Ok b /\ only_computed v (st v) /\ built (st v) = true.
  Hypothesis Hlist : forall lc pc l b, forallb built l = true -> rec (VList lc pc l) = Ok b ->
    rec (VList lc pc (map st l)) = Ok b /\ Forall2 only_computed l (map st l) /\ forallb built (map st l) = true.
  Hypothesis Hshape : forall v, is_list (st v) = is_list v.

  Lemma leaves_flat_h h : forall v, (height v <= h)%nat -> flat (leaves st v) = map st (flat v).
  Proof.
    assert (Leaf : forall v, is_list v = false -> flat (leaves st v) = map st (flat v)).
    { intros v L. pose proof (Hshape v) as S1. rewrite L in S1.
      destruct v; try discriminate; cbn [leaves flat map]; destruct (st _); try discriminate; reflexivity. }
    induction h as [|h IH]; intros v Hh; (destruct (is_list v) eqn:L; [|apply Leaf, L]);
      destruct v as [| | | | | | | | | | | | | |lc pc l]; try discriminate; [cbn in Hh; lia|].
    cbn [leaves]. rewrite !flat_list.
    assert (Hx : forall x, In x l -> (height x <= h)%nat) by (intros x J; pose proof (height_item lc pc l x J); lia).
    clear Hh L. induction l as [|x l IHl]; [reflexivity|]. cbn [map flat_map]. rewrite map_app. f_equal.
    - apply IH, Hx. left. reflexivity.
    - apply IHl. intros y J. apply Hx. right. exact J.
  Qed.
  Lemma leaves_flat l : flat_map flat (map (leaves st) l) = map st (flat_map flat l).
  Proof.
    induction l as [|x l IHl]; [reflexivity|]. cbn [map flat_map]. rewrite map_app, IHl. f_equal.
    eapply leaves_flat_h, le_n.
  Qed.

  (** The leaves are related when they are together. *)
  Lemma leaves_oc_h h : forall v, (height v <= h)%nat -> built v = true ->
    (forall x, In x (flat v) -> only_computed x (st x) /\ built (st x) = true) ->
    only_computed v (leaves st v) /\ built (leaves st v) = true.
  Proof.
    induction h as [|h IH]; intros v Hh B F;
      destruct v as [| | | | | | | | | | | |y|k attrs|lc pc l]; try (apply F; left; reflexivity); try (cbn in Hh; lia).
    rewrite flat_list in F. cbn [leaves built].
    assert (Hx : forall x, In x l -> (height x <= h)%nat) by (intros x J; pose proof (height_item lc pc l x J); lia).
    cbn [built] in B. rewrite forallb_forall in B.
    assert (G : forall x, In x l -> only_computed x (leaves st x) /\ built (leaves st x) = true).
    { intros x J. apply IH; [apply Hx, J|apply B, J|]. intros y I. apply F, in_flat_map. exists x. auto. }
    split.
    - constructor. clear - G. induction l as [|x l IHl]; [constructor|]. cbn. constructor; [apply G; left; reflexivity|].
      apply IHl. intros y J. apply G. right. exact J.
    - rewrite forallb_forall. intros y J. apply in_map_iff in J as (x & <- & J). apply G, J.
  Qed.

  Lemma leaves_ok lc pc pc' lc' l b : forallb built l = true ->
    rec (VList lc pc (flat_map flat l)) = Ok b -> check_items pc' (flat_map flat l) = Ok (flat_map flat l) ->
    check_items pc' (flat_map flat (map (leaves st) l)) = Ok (map st (flat_map flat l)) /\
    rec (VList lc pc (map st (flat_map flat l))) = Ok b /\
    only_computed (VList lc' pc' l) (leaves st (VList lc' pc' l)) /\ built (leaves st (VList lc' pc' l)) = true.
  Proof.
    intros B R C. destruct (Hlist lc pc _ b (built_flat_map l B) R) as (R' & F & B').
    rewrite leaves_flat. split.
    { pose proof (oc_check pc' _ _ F) as K. rewrite C in K. exact K. }
    split; [exact R'|]. eapply leaves_oc_h; [apply le_n|exact B|].
    rewrite flat_list. clear - F B'. rewrite forallb_forall in B'.
    intros x I. split; [|apply B', in_map, I].
    clear B'. induction (flat_map flat l) as [|y t IHt]; [destruct I|]. cbn in F. inversion F; subst.
    destruct I as [->|I]; [assumption|]. apply IHt; assumption.
  Qed.

  Lemma bin_ok v b : built v = true -> bin_pack rec v = Ok b ->
    let v' := if has_pack v then st v else v in
    bin_pack rec v' = Ok b /\ only_computed v v' /\ built v' = true.
  Proof.
    intros B. unfold bin_pack. destruct (has_pack v) eqn:P; cbn zeta.
    - intros R. destruct (Hst v b B R) as (R' & O & B'). rewrite (oc_has_pack _ _ O), P. auto.
    - intros R. rewrite P. split; [exact R|]. split; [constructor|exact B].
  Qed.

  Lemma pack1_bin d y : y <> VNone -> pack1 rec (VBin d) y = bin_pack rec y.
  Proof. intros N. cbn [pack1]. destruct y; congruence. Qed.
  Lemma pack1_list lc pc ci y : y <> VNone -> pack1 rec (VList lc pc ci) y =
    if subclass (class_of y) lc then rec y
    else if cid_eqb lc CFixedTypeList then Err TypeError
    else do items <- list_extend pc y; rec (VList lc pc items).
  Proof. intros N. cbn [pack1]. destruct y; congruence. Qed.
  Lemma pack1_obj c ca y : y <> VNone -> pack1 rec (VObj c ca) y =
    match kind c with
    | KOxmTLV => if has_pack y then rec y else Err AttributeError
    | KSetField04 => rec (VObj c ca)
    | _ => if subclass (class_of y) c then rec y else Err PackException
    end.
  Proof. intros N. cbn [pack1]. destruct y; congruence. Qed.

  Lemma store1_ok cv iv b : built iv = true -> pack1 rec cv iv = Ok b ->
    pack1 rec cv (store1 st cv iv) = Ok b /\ only_computed iv (store1 st cv iv) /\ built (store1 st cv iv) = true.
  Proof.
    intros B H.
    assert (Same : store1 st cv iv = iv -> pack1 rec cv (store1 st cv iv) = Ok b /\ only_computed iv (store1 st cv iv) /\ built (store1 st cv iv) = true).
    { intros ->. split; [exact H|]. split; [constructor|exact B]. }
    assert (St : rec iv = Ok b -> store1 st cv iv = st iv -> (forall y, only_computed iv y -> rec y = Ok b -> pack1 rec cv y = Ok b) ->
      pack1 rec cv (store1 st cv iv) = Ok b /\ only_computed iv (store1 st cv iv) /\ built (store1 st cv iv) = true).
    { intros R E P. rewrite E. destruct (Hst iv b B R) as (R' & O & B'). auto. }
    assert (N : iv = VNone \/ iv <> VNone) by (destruct iv; auto; right; discriminate).
    destruct N as [-> | N]; [apply Same; destruct cv; reflexivity|].
    assert (N' : forall y, only_computed iv y -> y <> VNone) by (intros y O E; apply N, (oc_none _ _ O), E).
    destruct cv as [| | | | | | | | | | | |d|c ca|lc pc ci]; try (apply Same; reflexivity).
    - rewrite (pack1_bin d iv N) in H. destruct (bin_ok iv b B H) as (R' & O & B').
      cbn [store1]. split; [|auto]. rewrite pack1_bin; [exact R'|apply N', O].
    - rewrite (pack1_obj c ca iv N) in H.
      assert (E : store1 st (VObj c ca) iv =
        match kind c with KOxmTLV => if has_pack iv then st iv else iv | KSetField04 => iv
        | _ => if subclass (class_of iv) c then st iv else iv end) by (cbn [store1]; destruct iv; congruence).
      destruct (kind c) eqn:K;
        try (destruct (subclass (class_of iv) c) eqn:Sc; [|discriminate]; apply (St H E); intros y O R;
             rewrite pack1_obj by (apply N', O); rewrite K, (oc_class _ _ O), Sc; exact R).
      + apply Same, E.
      + destruct (has_pack iv) eqn:P; [|discriminate]. apply (St H E). intros y O R.
        rewrite pack1_obj by (apply N', O). rewrite K, (oc_has_pack _ _ O), P. exact R.
    - rewrite (pack1_list lc pc ci iv N) in H.
      assert (E : store1 st (VList lc pc ci) iv =
        if subclass (class_of iv) lc then st iv else if cid_eqb lc CFixedTypeList then iv
        else match iv with VList _ _ _ => leaves st iv | _ => iv end) by (cbn [store1]; destruct iv; congruence).
      destruct (subclass (class_of iv) lc) eqn:Sc.
      + apply (St H E). intros y O R. rewrite pack1_list by (apply N', O). rewrite (oc_class _ _ O), Sc. exact R.
      + destruct (cid_eqb lc CFixedTypeList) eqn:Fx; [discriminate|].
        destruct iv as [| | | | | | | | | | | |y|k attrs|lc' pc' l]; try (apply Same, E).
        rewrite E. unfold list_extend in H. cbn [iterate bind] in H.
        destruct (check_items pc (flat_map flat l)) as [items|] eqn:C; [|discriminate]. cbn [bind] in H.
        pose proof (check_ok _ _ _ C). subst items.
        assert (B1 : forallb built l = true) by exact B.
        destruct (leaves_ok lc pc pc lc' l b B1 H C) as (C' & R' & O & B').
        destruct (leaves_ok lc pc pc lc' l b B1 H C) as (_ & _ & O2 & _).
        assert (O3 : only_computed (VList lc' pc' l) (leaves st (VList lc' pc' l)) /\ built (leaves st (VList lc' pc' l)) = true).
        { cbn [leaves built] in *. split; [|exact B']. apply oc_inv in O as (l'' & E2 & F). injection E2 as E2. subst l''. constructor. exact F. }
        destruct O3 as (O3 & B3). split; [|auto].
        rewrite pack1_list by discriminate. cbn [leaves class_of] in *. rewrite Sc, Fx. unfold list_extend. cbn [iterate bind].
        rewrite C'. cbn [bind]. exact R'.
  Qed.

  (** ** The loop over the attributes *)

  Definition packs_like (c : cid) (p q : string * pyval) : Prop :=
    fst p = fst q /\ forall b, pack1 rec (lookup c (fst p)) (snd p) = Ok b -> pack1 rec (lookup c (fst p)) (snd q) = Ok b.

  Lemma concatM_like {A B} (f : A -> res bytes) (g : B -> res bytes) l l' b :
    Forall2 (fun x y => forall b, f x = Ok b -> g y = Ok b) l l' -> concatM f l = Ok b -> concatM g l' = Ok b.
  Proof.
    intros F. revert b. induction F as [|x y l l' R F IH]; intros b H; [exact H|]. cbn [concatM] in *.
    destruct (f x) as [b1|] eqn:E1; [|discriminate]. destruct (concatM f l) as [b2|] eqn:E2; [|discriminate].
    rewrite (R _ eq_refl), (IH _ eq_refl). exact H.
  Qed.
  Lemma like_mine c l l' : Forall2 (packs_like c) l l' -> Forall2 (packs_like c) (mine c l) (mine c l').
  Proof.
    induction 1 as [|p q l l' R F IH]; [constructor|]. unfold mine in *. cbn. destruct R as (E & R). rewrite <- E.
    destruct (is_class_attr c (fst p)); [constructor; [split; assumption|exact IH]|exact IH].
  Qed.
  Lemma like_names c l l' : Forall2 (packs_like c) l l' -> map fst l' = map fst l.
  Proof. induction 1 as [|p q l l' (E & _) F IH]; cbn; congruence. Qed.
  Lemma struct_pack_like c attrs attrs' b : has_attributes c attrs = true -> Forall2 (packs_like c) attrs attrs' ->
    is_valid c attrs' = is_valid c attrs -> struct_pack rec c attrs = Ok b -> struct_pack rec c attrs' = Ok b.
  Proof.
    intros A F V. unfold struct_pack. rewrite V. destruct (is_valid c attrs) as [[|]|]; cbn [bind]; try discriminate.
    assert (A' : has_attributes c attrs' = true) by (rewrite (has_attributes_names c attrs attrs' (like_names _ _ _ F)); exact A).
    rewrite (zip_built c attrs A), (zip_built c attrs' A'). apply concatM_like, forall2_map.
    eapply forall2_in; [|apply like_mine, F]. intros p q _ (E & R) b' H. cbn [fst snd] in *. rewrite <- E. apply R, H.
  Qed.

  Lemma valid_rel c attrs attrs' : Forall2 (attr_rel c) attrs attrs' -> is_valid c attrs' = is_valid c attrs.
  Proof.
    intros F. unfold is_valid.
    assert (T : match kind c with KPacketOut01 | KPacketOut04 => negb (computed c "in_port") | _ => true end = true).
    { revert c F. intros c _. revert c. apply all_classes. vm_compute. reflexivity. }
    destruct (kind c); try reflexivity; apply negb_true_iff in T; pose proof (rel_get c _ _ "in_port" F T) as G;
      unfold attr_or_error; destruct (get_attr "in_port" attrs);
      [destruct G as (x' & -> & O); cbn [bind]; unfold valid_in_port; rewrite (oc_num _ _ O); reflexivity|rewrite G; reflexivity|
       destruct G as (x' & -> & O); cbn [bind]; unfold valid_in_port; rewrite (oc_num _ _ O); reflexivity|rewrite G; reflexivity].
  Qed.

  Lemma mine_in c attrs n x b : struct_pack rec c attrs = Ok b -> has_attributes c attrs = true -> In (n, x) attrs ->
    is_class_attr c n = true -> exists b', pack1 rec (lookup c n) x = Ok b'.
  Proof.
    unfold struct_pack. destruct (is_valid c attrs) as [[|]|]; cbn [bind]; try discriminate. intros H A I M.
    rewrite (zip_built c attrs A) in H.
    assert (J : In (n, x) (mine c attrs)) by (apply filter_In; auto).
    clear - H J. revert b H. induction (mine c attrs) as [|p l IH]; intros b H; [destruct J|].
    cbn [map concatM fst snd] in H. destruct (pack1 rec (lookup c (fst p)) (snd p)) as [b1|] eqn:E1; [|discriminate].
    destruct (concatM _ _) as [b2|] eqn:E2; [|discriminate]. destruct J as [->|J]; [eauto|]. eapply IH; [exact J|reflexivity].
  Qed.

  Lemma lookup_some c n : is_class_attr c n = true <-> get_attr n (class_attrs c) = Some (lookup c n).
  Proof.
    unfold is_class_attr, lookup. split.
    - intros H. apply existsb_exists in H as ([k v] & J & E). apply String.eqb_eq in E. cbn in E. subst k.
      rewrite (get_attr_nodup _ _ _ (class_names_nodup c) J). reflexivity.
    - destruct (get_attr n (class_attrs c)) as [v|] eqn:G; [|discriminate]. intros _. apply existsb_exists.
      clear - G. induction (class_attrs c) as [|[k x] l IH]; [discriminate|]. cbn in G. destruct (String.eqb k n) eqn:E.
      + exists (k, x). split; [left; reflexivity|exact E].
      + destruct (IH G) as (q & J & Q). exists q. split; [right; exact J|exact Q].
  Qed.

  Lemma store_attrs_ok c attrs b : has_attributes c attrs = true -> forallb (fun p => built (snd p)) attrs = true ->
    struct_pack rec c attrs = Ok b ->
    struct_pack rec c (store_attrs st c attrs) = Ok b /\
    Forall2 (fun p q => fst p = fst q /\ only_computed (snd p) (snd q)) attrs (store_attrs st c attrs) /\
    forallb (fun p => built (snd p)) (store_attrs st c attrs) = true.
  Proof.
    intros A B H.
    assert (Each : forall p, In p attrs ->
      let q := match get_attr (fst p) (class_attrs c) with Some cv => (fst p, store1 st cv (snd p)) | None => p end in
      packs_like c p q /\ fst p = fst q /\ only_computed (snd p) (snd q) /\ built (snd q) = true).
    { intros [n x] I. cbn zeta. cbn [fst snd]. assert (Bx : built x = true) by (rewrite forallb_forall in B; apply (B _ I)).
      destruct (is_class_attr c n) eqn:M.
      - apply lookup_some in M as M'. rewrite M'. destruct (mine_in c attrs n x b H A I M) as (b' & P).
        destruct (store1_ok (lookup c n) x b' Bx P) as (P' & O & B'). cbn [fst snd]. split; [|auto].
        split; [reflexivity|]. cbn [fst snd]. intros b'' P''. congruence.
      - assert (G : get_attr n (class_attrs c) = None).
        { destruct (get_attr n (class_attrs c)) eqn:G; [|reflexivity]. exfalso.
          assert (is_class_attr c n = true); [|congruence]. apply lookup_some. unfold lookup. rewrite G. reflexivity. }
        rewrite G. cbn [fst snd]. split; [split; auto|]. split; [reflexivity|]. split; [constructor|exact Bx]. }
    assert (F : forall R : (string * pyval) -> (string * pyval) -> Prop,
      (forall p, In p attrs -> R p (match get_attr (fst p) (class_attrs c) with Some cv => (fst p, store1 st cv (snd p)) | None => p end)) ->
      Forall2 R attrs (store_attrs st c attrs)).
    { intros R HR. unfold store_attrs. clear - HR. induction attrs as [|p l IH]; [constructor|]. cbn [map]. constructor.
      - apply HR. left. reflexivity.
      - apply IH. intros q J. apply HR. right. exact J. }
    assert (F1 : Forall2 (packs_like c) attrs (store_attrs st c attrs)) by (apply F; intros p I; apply (Each p I)).
    assert (F2 : Forall2 (fun p q => fst p = fst q /\ only_computed (snd p) (snd q)) attrs (store_attrs st c attrs))
      by (apply F; intros p I; destruct (Each p I) as (_ & E & O & _); auto).
    split; [|split].
    - eapply struct_pack_like; [exact A|exact F1| |exact H]. apply valid_rel. eapply forall2_in; [|exact F2].
      intros p q _ (E & O). split; [exact E|right; exact O].
    - exact F2.
    - rewrite forallb_forall. intros q J. unfold store_attrs in J. apply in_map_iff in J as (p & <- & I). apply (Each p I).
  Qed.

  (** Attributes after the loop. *)
  Lemma get_store c attrs n : get_attr n (store_attrs st c attrs) =
    match get_attr n attrs with
    | Some x => Some (match get_attr n (class_attrs c) with Some cv => store1 st cv x | None => x end)
    | None => None
    end.
  Proof.
    induction attrs as [|[k x] l IH]; [reflexivity|]. cbn [store_attrs map fst snd] in *. cbn [get_attr].
    destruct (get_attr k (class_attrs c)) as [cv|] eqn:G; cbn [get_attr].
    - destruct (String.eqb_spec k n) as [->|]; [rewrite G; reflexivity|exact IH].
    - destruct (String.eqb_spec k n) as [->|]; [rewrite G; reflexivity|exact IH].
  Qed.
  Lemma set_same n x attrs : get_attr n attrs = Some x -> set_attr n x attrs = attrs.
  Proof.
    induction attrs as [|[k y] l IH]; [discriminate|]. cbn. destruct (String.eqb_spec k n) as [->|].
    - intros [= ->]. reflexivity.
    - intros H. f_equal. apply IH, H.
  Qed.
  Lemma set_twice n x y attrs : set_attr n x (set_attr n y attrs) = set_attr n x attrs.
  Proof.
    induction attrs as [|[k z] l IH]; cbn; [rewrite String.eqb_refl; reflexivity|].
    destruct (String.eqb_spec k n) as [->|N]; cbn; [rewrite String.eqb_refl; reflexivity|].
    destruct (String.eqb_spec k n); [congruence|]. f_equal. exact IH.
  Qed.
  Lemma set_names n x attrs : get_attr n attrs <> None -> map fst (set_attr n x attrs) = map fst attrs.
  Proof.
    induction attrs as [|[k z] l IH]; cbn; [congruence|]. destruct (String.eqb_spec k n) as [->|N]; [reflexivity|].
    intros H. cbn. f_equal. apply IH, H.
  Qed.
  Lemma set_rel c n x y attrs : get_attr n attrs = Some y -> computed c n = true \/ only_computed y x ->
    Forall2 (attr_rel c) attrs (set_attr n x attrs).
  Proof.
    intros G R. induction attrs as [|[k z] l IH]; [discriminate|]. cbn in *. destruct (String.eqb_spec k n) as [->|N].
    - injection G as ->. constructor; [split; [reflexivity|exact R]|]. apply forall2_refl, attr_rel_refl.
    - constructor; [apply attr_rel_refl|]. apply IH, G.
  Qed.
  Lemma set_built n x attrs : built x = true -> forallb (fun p => built (snd p)) attrs = true ->
    forallb (fun p => built (snd p)) (set_attr n x attrs) = true.
  Proof.
    intros Bx. induction attrs as [|[k z] l IH]; cbn; [rewrite Bx; reflexivity|]. intros H. apply andb_prop in H as [H1 H2].
    destruct (String.eqb k n); cbn; [rewrite Bx; exact H2|]. rewrite H1. apply IH, H2.
  Qed.
  Lemma set_header n x attrs : header_ok (n, x) = true -> forallb header_ok attrs = true -> forallb header_ok (set_attr n x attrs) = true.
  Proof.
    intros Bx. induction attrs as [|[k z] l IH]; cbn; [rewrite Bx; reflexivity|]. intros H. apply andb_prop in H as [H1 H2].
    destruct (String.eqb k n); cbn; [rewrite Bx; exact H2|]. rewrite H1. apply IH, H2.
  Qed.
  Lemma rel_header attrs attrs' : Forall2 (fun p q : string * pyval => fst p = fst q /\ only_computed (snd p) (snd q)) attrs attrs' ->
    forallb header_ok attrs = true -> forallb header_ok attrs' = true.
  Proof.
    intros F. induction F as [|p q l l' (E & O) F IH]; [reflexivity|]. cbn. intros H. apply andb_prop in H as [H1 H2].
    rewrite (IH H2), andb_true_r. unfold header_ok in *. rewrite <- E. destruct (String.eqb (fst p) "header"); [|reflexivity].
    pose proof (oc_inv _ _ O) as I. destruct (snd p) as [| | | | | | | | | | | | |k a|]; try (rewrite I; exact H1);
      destruct I as (y & -> & _); exact H1.
  Qed.
  Lemma to_rel c attrs attrs' : Forall2 (fun p q : string * pyval => fst p = fst q /\ only_computed (snd p) (snd q)) attrs attrs' ->
    Forall2 (attr_rel c) attrs attrs'.
  Proof. intros F. eapply forall2_in; [|exact F]. intros p q _ (E & O). split; auto. Qed.

  Definition good (c : cid) (attrs : list (string * pyval)) : Prop :=
    has_attributes c attrs = true /\ forallb header_ok attrs = true /\ forallb (fun p => built (snd p)) attrs = true.
  Lemma good_built c attrs : good c attrs <-> built (VObj c attrs) = true.
  Proof. unfold good. cbn [built]. rewrite !andb_true_iff. tauto. Qed.

  Lemma good_set c n x attrs : good c attrs -> get_attr n attrs <> None -> built x = true -> header_ok (n, x) = true ->
    good c (set_attr n x attrs).
  Proof.
    intros (A & Hd & B) G Bx Hx. split; [|split].
    - rewrite (has_attributes_names c attrs); [exact A|apply set_names, G].
    - apply set_header; assumption.
    - apply set_built; assumption.
  Qed.
  Lemma store_good c attrs b : good c attrs -> struct_pack rec c attrs = Ok b ->
    struct_pack rec c (store_attrs st c attrs) = Ok b /\
    Forall2 (attr_rel c) attrs (store_attrs st c attrs) /\ good c (store_attrs st c attrs).
  Proof.
    intros (A & Hd & B) H. destruct (store_attrs_ok c attrs b A B H) as (H' & F & B').
    split; [exact H'|]. split; [apply to_rel, F|]. split; [|split; [|exact B']].
    - rewrite (has_attributes_names c attrs); [exact A|]. apply (rel_names c), to_rel, F.
    - eapply rel_header; eassumption.
  Qed.
  Lemma good_has c attrs n : good c attrs -> is_class_attr c n = true -> exists x, get_attr n attrs = Some x.
  Proof.
    intros (A & _) M. apply built_names in A.
    assert (I : In n (map fst (mine c attrs))).
    { rewrite A. unfold is_class_attr in M. apply existsb_exists in M as (q & J & E). apply String.eqb_eq in E. subst n. apply in_map, J. }
    apply in_map_iff in I as ([k x] & E & I). cbn in E. subst k. apply filter_In in I as [I _].
    clear - I. induction attrs as [|[k y] l IH]; [destruct I|]. cbn. destruct (String.eqb_spec k n) as [->|N]; [eauto|].
    destruct I as [I|I]; [congruence|]. apply IH, I.
  Qed.
End Step.
