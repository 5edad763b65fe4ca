(** Facts about what pack() stores. *)
From Coq Require Import ZArith List Bool String Lia.
From Verif Require Import Base PyText Ids PyVal Classes Interp Mutation SpecMutation ClassFacts StructFacts DispatchFacts
  FuelFacts Totality.
Import ListNotations.
Open Scope string_scope.
Open Scope list_scope.
Open Scope Z_scope.

(** ** Shape *)

Definition attr_rel (c : cid) (p q : string * pyval) : Prop :=
  fst p = fst q /\ (computed c (fst p) = true \/ only_computed (snd p) (snd q)).

Lemma oc_class v v' : only_computed v v' -> class_of v' = class_of v.
Proof. destruct 1; reflexivity. Qed.
Lemma oc_has_pack v v' : only_computed v v' -> has_pack v' = has_pack v.
Proof. destruct 1; reflexivity. Qed.
Lemma oc_generic v v' : only_computed v v' -> is_generic_type v' = is_generic_type v.
Proof. destruct 1; reflexivity. Qed.
Lemma oc_num v v' : only_computed v v' -> num_of v' = num_of v.
Proof. destruct 1; reflexivity. Qed.
Lemma forall2_length {A B} (R : A -> B -> Prop) l l' : Forall2 R l l' -> List.length l' = List.length l.
Proof. induction 1; cbn; congruence. Qed.
Lemma oc_none v v' : only_computed v v' -> (v = VNone <-> v' = VNone).
Proof. destruct 1; split; congruence. Qed.

Lemma forall2_refl {A} (R : A -> A -> Prop) l : (forall x, R x x) -> Forall2 R l l.
Proof. intros H. induction l; constructor; auto. Qed.
Lemma attr_rel_refl c p : attr_rel c p p.
Proof. split; [reflexivity|]. right. constructor. Qed.

(** Inversion: the related value has the same shape. *)
Lemma oc_inv v v' : only_computed v v' ->
  match v with
  | VBin x => exists x', v' = VBin x' /\ only_computed x x'
  | VList lc pc l => exists l', v' = VList lc pc l' /\ Forall2 only_computed l l'
  | VObj c attrs => exists attrs', v' = VObj c attrs' /\ Forall2 (attr_rel c) attrs attrs'
  | _ => v' = v
  end.
Proof.
  destruct 1 as [v|x x' H|lc pc l l' H|c a a' H]; eauto.
  destruct v; try reflexivity; eexists; (split; [reflexivity|]); try constructor.
  - apply forall2_refl. apply attr_rel_refl.
  - apply forall2_refl. constructor.
Qed.

Lemma oc_trans_h h : forall a b c, (height a <= h)%nat -> only_computed a b -> only_computed b c -> only_computed a c.
Proof.
  induction h as [|h IH]; intros a b c Hh H1 H2.
  - pose proof (oc_inv _ _ H1) as I. destruct a; try (subst b; exact H2); cbn in Hh; lia.
  - pose proof (oc_inv _ _ H1) as I. destruct a as [| | | | | | | | | | | |x|k attrs|lc pc l]; try (subst b; exact H2).
    + destruct I as (x' & -> & I). apply oc_inv in H2 as (x'' & -> & H2). constructor. eapply IH; eauto. cbn in Hh; lia.
    + destruct I as (a' & -> & I). apply oc_inv in H2 as (a'' & -> & H2). constructor.
      assert (Hx : forall n x, In (n, x) attrs -> (height x <= h)%nat) by (intros n x J; pose proof (height_attr k attrs n x J); lia).
      clear H1 Hh. revert a'' H2 Hx. induction I as [|p q l l' (E & R) F IHF]; intros a'' H2 Hx; inversion H2 as [|? r ? ? X1 X2]; subst; constructor.
      * destruct X1 as (E' & R'). split; [congruence|]. destruct R as [R|R]; [left; exact R|].
        destruct R' as [R'|R']; [left; congruence|]. right. eapply IH; [|exact R|exact R'].
        destruct p as [n x]. apply (Hx n). left. reflexivity.
      * apply IHF; [assumption|]. intros n x J. apply (Hx n). right. exact J.
    + destruct I as (a' & -> & I). apply oc_inv in H2 as (a'' & -> & H2). constructor.
      assert (Hx : forall x, In x l -> (height x <= h)%nat) by (intros x J; pose proof (height_item lc pc l x J); lia).
      clear H1 Hh. revert a'' H2 Hx. induction I as [|p q l l' R F IHF]; intros a'' H2 Hx; inversion H2; subst; constructor.
      * eapply IH; [|exact R|assumption]. apply Hx. left. reflexivity.
      * apply IHF; [assumption|]. intros x J. apply Hx. right. exact J.
Qed.
Lemma oc_trans a b c : only_computed a b -> only_computed b c -> only_computed a c.
Proof. exact (oc_trans_h (height a) a b c (le_n _)). Qed.
Lemma attr_rel_trans c l l' l'' : Forall2 (attr_rel c) l l' -> Forall2 (attr_rel c) l' l'' -> Forall2 (attr_rel c) l l''.
Proof.
  intros F. revert l''. induction F as [|p q l l' (E & R) F IH]; intros l'' F'; inversion F' as [|? r ? ? X1 X2]; subst; constructor; [|apply IH; assumption].
  destruct X1 as (E' & R'). split; [congruence|]. destruct R as [R|R]; [left; exact R|].
  destruct R' as [R'|R']; [left; congruence|]. right. eapply oc_trans; eassumption.
Qed.

(** ** Flattened lists *)

Lemma oc_flat_h h : forall v v', (height v <= h)%nat -> only_computed v v' -> Forall2 only_computed (flat v) (flat v').
Proof.
  induction h as [|h IH]; intros v v' Hh H.
  - pose proof (oc_inv _ _ H) as I. destruct v; try (subst v'; repeat constructor); cbn in Hh; lia.
  - pose proof (oc_inv _ _ H) as I. destruct v as [| | | | | | | | | | | |x|k attrs|lc pc l];
      try (subst v'; repeat constructor).
    + destruct I as (x' & -> & I). repeat constructor. exact I.
    + destruct I as (x' & -> & I). repeat constructor. exact I.
    + destruct I as (l' & -> & I). rewrite !flat_list.
      assert (Hx : forall x, In x l -> (height x <= h)%nat) by (intros x J; pose proof (height_item lc pc l x J); lia).
      clear H Hh. induction I as [|p q l l' R F IHF]; [constructor|]. cbn [flat_map]. apply Forall2_app.
      * apply IH; [apply Hx; left; reflexivity|exact R].
      * apply IHF. intros x J. apply Hx. right. exact J.
Qed.
Lemma oc_flat_map l l' : Forall2 only_computed l l' -> Forall2 only_computed (flat_map flat l) (flat_map flat l').
Proof.
  induction 1 as [|p q l l' R F IH]; [constructor|]. cbn [flat_map]. apply Forall2_app; [|exact IH].
  eapply oc_flat_h; [apply le_n|exact R].
Qed.
Lemma oc_check pc l l' : Forall2 only_computed l l' ->
  match check_items pc l with
  | Ok _ => check_items pc l' = Ok l'
  | Err e => check_items pc l' = Err e
  end.
Proof.
  induction 1 as [|p q l l' R F IH]; [reflexivity|]. cbn [check_items]. rewrite (oc_class _ _ R).
  destruct (cid_eqb pc CNone); [reflexivity|]. destruct (subclass _ _); [|reflexivity].
  destruct (check_items pc l); rewrite IH; reflexivity.
Qed.
Lemma check_ok pc l r : check_items pc l = Ok r -> r = l.
Proof. apply check_items_same. Qed.

Lemma built_flat h : forall v x, (height v <= h)%nat -> built v = true -> In x (flat v) -> built x = true.
Proof.
  induction h as [|h IH]; intros v x Hh B I;
    (destruct v as [| | | | | | | | | | | |y|k attrs|lc pc l]; try (destruct I as [<-|[]]; exact B); try (cbn in Hh; lia)).
  rewrite flat_list in I. apply in_flat_map in I as (y & J & I). eapply IH; [|
    |exact I]. - pose proof (height_item lc pc l y J). lia.
  - cbn [built] in B. rewrite forallb_forall in B. apply B, J.
Qed.
Lemma built_flat_map l : forallb built l = true -> forallb built (flat_map flat l) = true.
Proof.
  rewrite !forallb_forall. intros H x I. apply in_flat_map in I as (y & J & I). eapply built_flat; [apply le_n|apply H, J|exact I].
Qed.

(** ** Attributes of a built object *)

Definition lookup (c : cid) (name : string) : pyval :=
  match get_attr name (class_attrs c) with Some cv => cv | None => VNone end.
Definition mine (c : cid) (attrs : list (string * pyval)) : list (string * pyval) :=
  filter (fun p => is_class_attr c (fst p)) attrs.

Lemma zip_named (A0 A F : list (string * pyval)) : (forall k v, In (k, v) A -> get_attr k A0 = Some v) ->
  map fst F = map fst A ->
  combine (map snd A) (map snd F) =
  map (fun p => (match get_attr (fst p) A0 with Some cv => cv | None => VNone end, snd p)) F.
Proof.
  revert F. induction A as [|[k v] A IH]; intros F H E; destruct F as [|[k' x] F]; try discriminate; [reflexivity|].
  cbn in E. injection E as -> E. cbn [map combine fst snd]. rewrite (H k v) by (left; reflexivity).
  f_equal. apply IH; [|exact E]. intros a b J. apply H. right. exact J.
Qed.
Lemma get_attr_nodup A k v : NoDup (map fst A) -> In (k, v) A -> get_attr k A = Some v.
Proof.
  induction A as [|[a b] A IH]; cbn; intros D I; [destruct I|]. inversion D; subst. destruct I as [[= -> ->]|I].
  - rewrite String.eqb_refl. reflexivity.
  - destruct (String.eqb_spec a k) as [->|N]; [|apply IH; assumption].
    exfalso. apply H1. apply in_map_iff. exists (k, v). auto.
Qed.
Lemma class_names_nodup c : NoDup (map fst (class_attrs c)).
Proof. apply nodupb_ok. revert c. apply all_classes. vm_compute. reflexivity. Qed.

Lemma built_names c attrs : has_attributes c attrs = true -> map fst (mine c attrs) = map fst (class_attrs c).
Proof.
  unfold has_attributes, mine, is_class_attr. destruct (list_eq_dec _ _ _) as [E|]; [|discriminate]. intros _. exact E.
Qed.
Lemma zip_built c attrs : has_attributes c attrs = true ->
  zip_attrs c attrs = map (fun p => (lookup c (fst p), snd p)) (mine c attrs).
Proof.
  intros H. unfold zip_attrs. fold (mine c attrs). apply zip_named; [|apply built_names, H].
  intros k v I. apply get_attr_nodup; [apply class_names_nodup|exact I].
Qed.
Lemma has_attributes_names c attrs attrs' : map fst attrs' = map fst attrs ->
  has_attributes c attrs' = has_attributes c attrs.
Proof.
  intros E. unfold has_attributes.
  assert (M : forall l l' : list (string * pyval), map fst l' = map fst l ->
    map fst (filter (fun p => existsb (fun q => String.eqb (fst q) (fst p)) (class_attrs c)) l') =
    map fst (filter (fun p => existsb (fun q => String.eqb (fst q) (fst p)) (class_attrs c)) l)).
  { clear. induction l as [|p l IH]; intros [|q l'] E; try discriminate; [reflexivity|]. cbn in E. injection E as E1 E2.
    cbn. rewrite E1. destruct (existsb _ _); cbn; [rewrite E1; f_equal|]; apply IH, E2. }
  rewrite (M attrs attrs' E). reflexivity.
Qed.
Lemma rel_names c l l' : Forall2 (attr_rel c) l l' -> map fst l' = map fst l.
Proof. induction 1 as [|p q l l' (E & _) F IH]; cbn; congruence. Qed.
Lemma rel_mine c l l' : Forall2 (attr_rel c) l l' -> Forall2 (attr_rel c) (mine c l) (mine c l').
Proof.
  induction 1 as [|p q l l' R F IH]; [constructor|]. unfold mine in *. cbn. destruct R as (E & R). rewrite <- E.
  destruct (is_class_attr c (fst p)); [constructor; [split; assumption|exact IH]|exact IH].
Qed.
Lemma rel_get c l l' name : Forall2 (attr_rel c) l l' -> computed c name = false ->
  match get_attr name l with
  | Some x => exists x', get_attr name l' = Some x' /\ only_computed x x'
  | None => get_attr name l' = None
  end.
Proof.
  intros F N. induction F as [|[k x] [k' x'] l l' (E & R) F IH]; [reflexivity|]. cbn in E. subst k'. cbn [get_attr].
  destruct (String.eqb_spec k name) as [->|]; [|exact IH]. cbn in R. destruct R as [R|R]; [congruence|eauto].
Qed.

Lemma computed_uint c name : computed c name = true -> is_class_attr c name = true ->
  exists w er d, lookup c name = VUInt w er d.
Proof.
  intros C I.
  assert (H : forallb (fun p => implb (computed c (fst p)) (match snd p with VUInt _ _ _ => true | _ => false end))
                (class_attrs c) = true) by (revert c C I; intros c _ _; revert c; apply all_classes; vm_compute; reflexivity).
  unfold lookup. unfold is_class_attr in I. apply existsb_exists in I as ([k v] & J & E). apply String.eqb_eq in E. cbn in E. subst k.
  rewrite (get_attr_nodup _ _ _ (class_names_nodup c) J). rewrite forallb_forall in H. specialize (H _ J). cbn [fst snd] in H.
  rewrite C in H. cbn in H. destruct v; try discriminate. eauto.
Qed.

(** ** get_size does not see what pack() stores *)

Lemma oc_truthy (f f' : pyval -> res Z) v v' : only_computed v v' -> f v' = f v -> truthy f v' = truthy f v.
Proof.
  intros H E. pose proof (oc_inv _ _ H) as I. destruct v as [| | | | | | | | | | | |x|k attrs|lc pc l]; try (subst v'; reflexivity).
  - destruct I as (x' & -> & _). cbn [truthy]. rewrite E. reflexivity.
  - destruct I as (x' & -> & _). reflexivity.
  - destruct I as (l' & -> & F). cbn. rewrite (forall2_length _ _ _ F). reflexivity.
Qed.
Lemma oc_bin_size f v v' : only_computed v v' -> f v' = f v -> bin_size f v' = bin_size f v.
Proof.
  intros H E. unfold bin_size. rewrite (oc_has_pack _ _ H). destruct (has_pack v) eqn:P; [exact E|].
  pose proof (oc_inv _ _ H) as I. destruct v as [| | | | | | | | | | | |x|k attrs|lc pc l]; try (subst v'; reflexivity); try discriminate.
  destruct I as (l' & -> & F). reflexivity.
Qed.

Lemma oc_list_init f pc v v' : only_computed v v' -> f v' = f v ->
  match list_init f pc v with
  | Ok items => exists items', list_init f pc v' = Ok items' /\ Forall2 only_computed items items'
  | Err e => list_init f pc v' = Err e
  end.
Proof.
  intros H E. pose proof (oc_inv _ _ H) as I.
  assert (Default : match (do t <- truthy f v; if t then check_items pc [v] else Ok []) with
     | Ok items => exists items', (do t <- truthy f v'; if t then check_items pc [v'] else Ok []) = Ok items' /\ Forall2 only_computed items items'
     | Err e => (do t <- truthy f v'; if t then check_items pc [v'] else Ok []) = Err e end).
  { rewrite (oc_truthy f f _ _ H E). destruct (truthy f v) as [[|]|e]; cbn [bind]; [|eexists; split; [reflexivity|constructor]|reflexivity].
    pose proof (oc_check pc [v] [v'] (Forall2_cons _ _ H (Forall2_nil _))) as C. destruct (check_items pc [v]) as [r|e] eqn:K; [|exact C].
    apply check_ok in K. subst r. exists [v']. split; [exact C|repeat constructor; exact H]. }
  destruct v as [| | | | | | | | | | | |x|k attrs|lc pc' l]; try (subst v'; exact Default).
  - destruct I as (x' & -> & I). exact Default.
  - destruct I as (x' & -> & I). exact Default.
  - destruct I as (l' & -> & F). cbn [list_init]. pose proof (oc_check pc _ _ (oc_flat_map _ _ F)) as C.
    destruct (check_items pc (flat_map flat l)) as [r|e] eqn:K; [|exact C]. apply check_ok in K. subst r.
    eexists. split; [exact C|]. apply oc_flat_map, F.
Qed.
Lemma list_init_built f pc v items : built v = true -> list_init f pc v = Ok items -> forallb built items = true.
Proof.
  intros B H. assert (Default : (do t <- truthy f v; if t then check_items pc [v] else Ok []) = Ok items -> forallb built items = true).
  { destruct (truthy f v) as [[|]|]; cbn [bind]; intros K; [apply check_ok in K; subst; cbn; rewrite B; reflexivity|injection K as <-; reflexivity|discriminate]. }
  destruct v; try exact (Default H). cbn [list_init] in H. apply check_ok in H. subst. apply built_flat_map. exact B.
Qed.

Lemma oc_size1 f cv iv iv' : (forall v v', built v = true -> only_computed v v' -> f v' = f v) ->
  built iv = true -> only_computed iv iv' -> size1 f cv iv' = size1 f cv iv.
Proof.
  intros Hf B H. destruct cv as [| | | | | | | | | | | |d|c ca|lc pc ci]; try reflexivity; cbn [size1].
  - assert (N : (match iv' with VNone => d | _ => iv' end) = iv' \/ iv = VNone /\ iv' = VNone).
    { destruct iv'; auto. right. split; [|reflexivity]. apply (oc_none _ _ H). reflexivity. }
    destruct N as [N|[-> ->]]; [|reflexivity]. rewrite N.
    assert (N' : (match iv with VNone => d | _ => iv end) = iv \/ iv = VNone) by (destruct iv; auto).
    destruct N' as [N'| ->]; [rewrite N'|].
    + apply oc_bin_size; [exact H|apply Hf; assumption].
    + apply oc_inv in H. subst iv'. rewrite N. reflexivity.
  - pose proof (oc_class _ _ H) as C. assert (Fv : f iv' = f iv) by (apply Hf; assumption).
    assert (X : forall y, match kind c with
            | KBucket => f (VObj c ca)
            | KAction04 | KSetField04 => if subclass (class_of y) ActionHeader04 then f y else Err ValueError
            | KMatch04 => if subclass (class_of y) Match04 then f y else Err ValueError
            | _ => if subclass (class_of y) c then f y else Err PackException end =
          size1 f (VObj c ca) y \/ y = VNone).
    { intros y. destruct y; auto. }
    destruct (X iv') as [X'|X'].
    + destruct (X iv) as [X0|X0].
      * change (size1 f (VObj c ca) iv' = size1 f (VObj c ca) iv). rewrite <- X', <- X0, C, Fv. reflexivity.
      * subst iv. apply oc_inv in H. subst. reflexivity.
    + assert (iv = VNone) by (apply (oc_none _ _ H), X'). subst. reflexivity.
  - assert (Fv : f iv' = f iv) by (apply Hf; assumption).
    assert (X : forall y, (if cid_eqb lc CFixedTypeList then Ok 0
             else do items <- list_init f pc y; f (VList lc pc items)) = size1 f (VList lc pc ci) y \/ y = VNone)
      by (intros y; destruct y; auto).
    destruct (X iv') as [X'|X'].
    + destruct (X iv) as [X0|X0].
      * change (size1 f (VList lc pc ci) iv' = size1 f (VList lc pc ci) iv). rewrite <- X', <- X0.
        destruct (cid_eqb lc CFixedTypeList); [reflexivity|].
        pose proof (oc_list_init f pc _ _ H Fv) as L. destruct (list_init f pc iv) as [items|e] eqn:K; [|rewrite L; reflexivity].
        destruct L as (items' & -> & F). cbn [bind]. apply Hf; [|constructor; exact F]. cbn [built]. eapply list_init_built; eassumption.
      * subst iv. apply oc_inv in H. subst. reflexivity.
    + assert (iv = VNone) by (apply (oc_none _ _ H), X'). subst. reflexivity.
Qed.

Lemma sumM_ext {A B} (f : A -> res Z) (g : B -> res Z) l l' : Forall2 (fun x y => g y = f x) l l' -> sumM g l' = sumM f l.
Proof. induction 1 as [|x y l l' E F IH]; [reflexivity|]. cbn [sumM]. rewrite E, IH. reflexivity. Qed.
Lemma forall2_map {A B C D} (R : C -> D -> Prop) (f : A -> C) (g : B -> D) l l' :
  Forall2 (fun x y => R (f x) (g y)) l l' -> Forall2 R (map f l) (map g l').
Proof. induction 1; constructor; assumption. Qed.
Lemma forall2_in {A B} (R R' : A -> B -> Prop) l l' : (forall x y, In x l -> R x y -> R' x y) -> Forall2 R l l' -> Forall2 R' l l'.
Proof.
  intros H F. induction F; constructor; [apply H; [left; reflexivity|assumption]|]. apply IHF. intros a b J. apply H. right. exact J.
Qed.

Lemma oc_struct_size f c attrs attrs' : (forall v v', built v = true -> only_computed v v' -> f v' = f v) ->
  has_attributes c attrs = true -> forallb (fun p => built (snd p)) attrs = true -> Forall2 (attr_rel c) attrs attrs' ->
  struct_size f c attrs' = struct_size f c attrs.
Proof.
  intros Hf A B F. unfold struct_size.
  assert (A' : has_attributes c attrs' = true) by (rewrite (has_attributes_names c attrs attrs' (rel_names _ _ _ F)); exact A).
  rewrite (zip_built c attrs A), (zip_built c attrs' A'). apply sumM_ext, forall2_map.
  apply rel_mine in F. eapply forall2_in; [|exact F]. intros p q I (E & R). cbn [fst snd]. rewrite <- E.
  apply filter_In in I as [I M]. destruct R as [R|R].
  - destruct (computed_uint c (fst p) R M) as (w & er & d & ->). reflexivity.
  - apply oc_size1; [exact Hf| |exact R]. rewrite forallb_forall in B. apply (B p I).
Qed.

Lemma oc_size n : forall v v', built v = true -> only_computed v v' -> size0 n v' = size0 n v.
Proof.
  induction n as [|n IH]; intros v v' B H; [reflexivity|].
  pose proof (oc_inv _ _ H) as I. destruct v as [| | | | | | | | | | | |x|c attrs|lc pc l]; try (subst v'; reflexivity).
  - destruct I as (x' & -> & I). cbn [size0]. apply oc_bin_size; [exact I|]. apply IH; [exact B|exact I].
  - destruct I as (a' & -> & F). rewrite !size0_obj. cbn [built] in B.
    apply andb_prop in B as [B B3]. apply andb_prop in B as [B1 B2].
    pose proof (oc_struct_size (size0 n) c attrs a' IH B1 B3 F) as S1.
    destruct (kind c) eqn:K; rewrite S1; try reflexivity.
    assert (N : computed c "length" = false).
    { pose proof (all_classes (fun c => match kind c with KBucket => negb (computed c "length") | _ => true end)) as T.
      assert (T1 : forallb (fun c => match kind c with KBucket => negb (computed c "length") | _ => true end) all_cids = true)
        by (vm_compute; reflexivity).
      specialize (T T1 c). cbn beta in T. rewrite K in T. apply negb_true_iff in T. exact T. }
    pose proof (rel_get c _ _ "length" F N) as G. unfold attr_or_error. destruct (get_attr "length" attrs) as [x|].
    + destruct G as (x' & -> & G). cbn [bind]. pose proof (oc_inv _ _ G) as I. pose proof (oc_num _ _ G) as Nm.
      destruct x; try (subst x'; reflexivity); destruct I as (y & -> & _); exact Nm.
    + rewrite G. reflexivity.
  - destruct I as (l' & -> & F). cbn [size0]. destruct (cid_eqb lc CList); [reflexivity|].
    cbn [built] in B. inversion F as [|x x' t t' R F' E1 E2]; [reflexivity|]. subst.
    rewrite (oc_generic _ _ R). cbn [forallb] in B. apply andb_prop in B as [B1 B2].
    destruct (is_generic_type x).
    + rewrite (IH x x' B1 R). unfold zlen. cbn [List.length]. rewrite (forall2_length _ _ _ F'). reflexivity.
    + apply sumM_ext. eapply forall2_in; [|exact F]. intros a b J Rab. apply IH; [|exact Rab].
      destruct J as [<-|J]; [exact B1|]. rewrite forallb_forall in B2. apply B2, J.
Qed.
