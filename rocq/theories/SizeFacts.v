(** get_size is the length of the encoding: lemmas for C09 and C10. *)
From Coq Require Import ZArith List Bool String Lia.
From Verif Require Import Base PyText Ids PyVal Classes Interp SpecBasic SpecMutation SpecLayout SpecSize ClassFacts BaseFacts IntFacts
  StructFacts DispatchFacts FuelFacts Totality MutationFacts MutationFacts2 MutationFacts3 LayoutFacts.
Import ListNotations.
Open Scope string_scope.
Open Scope list_scope.
Open Scope Z_scope.

(** ** Lists of objects *)
Lemma leaf_unique h : forall v l, (height v <= h)%nat -> leaf_list v l -> l = flat v.
Proof.
  induction h as [|h IH]; intros v l L H; inversion H as [lc pc items ls F E1 E2|v0 N E1 E2]; subst.
  - cbn [height] in L. lia.
  - destruct v; try reflexivity. exfalso. eapply N. reflexivity.
  - rewrite flat_list. cbn [height] in L.
    assert (A : forall x, In x items -> forall k, leaf_list x k -> k = flat x).
    { intros x I k. apply IH. pose proof (list_max_in height items x I). lia. }
    clear - F A. induction F as [|x k items ls Hx F IHF]; [reflexivity|]. cbn [List.concat flat_map]. rewrite (A x (or_introl eq_refl) k Hx).
    f_equal. apply IHF. intros y I. apply A. right. exact I.
  - destruct v; try reflexivity. exfalso. eapply N. reflexivity.
Qed.
Lemma enc_split l : forall l' b, encodings (l ++ l') b -> exists b1 b2, b = (b1 ++ b2)%list /\ encodings l b1 /\ encodings l' b2.
Proof.
  induction l as [|x l IH]; intros l' b (p & F & ->).
  - exists [], (List.concat p). split; [reflexivity|]. split; [exists []; split; [constructor|reflexivity]|exists p; split; [exact F|reflexivity]].
  - cbn [app] in F. inversion F as [|? y ? p' P F']; subst. destruct (IH l' (List.concat p')) as (b1 & b2 & E & E1 & E2); [exists p'; split; [exact F'|reflexivity]|].
    exists (y ++ b1)%list, b2. cbn [List.concat]. rewrite E, app_assoc. split; [reflexivity|]. split; [|exact E2].
    destruct E1 as (q & Fq & ->). exists (y :: q). split; [constructor; assumption|reflexivity].
Qed.
Lemma all_leaves_flat f h : forall v, (height v <= h)%nat -> all_leaves f v = forallb f (flat v).
Proof.
  induction h as [|h IH]; intros v L; destruct v as [| | | | | | | | | | | | | |lc pc l]; try (cbn; rewrite andb_true_r; reflexivity); cbn [height] in L; [lia|].
  rewrite flat_list. cbn [all_leaves].
  assert (A : forall x, In x l -> all_leaves f x = forallb f (flat x)).
  { intros x I. apply IH. pose proof (list_max_in height l x I). lia. }
  clear - A. induction l as [|x l IH]; [reflexivity|]. cbn [forallb flat_map]. rewrite forallb_app, (A x (or_introl eq_refl)), IH; [reflexivity|].
  intros y I. apply A. right. exact I.
Qed.
Lemma prop_flat (f : pyval -> bool) : (forall lc pc items, f (VList lc pc items) = true -> forallb f items = true) ->
  forall h v x, (height v <= h)%nat -> f v = true -> In x (flat v) -> f x = true.
Proof.
  intros Hf. induction h as [|h IH]; intros v x L B I; destruct v as [| | | | | | | | | | | | | |lc pc l]; try (destruct I as [<-|[]]; exact B); cbn [height] in L; [lia|].
  rewrite flat_list in I. apply in_flat_map in I as (y & J & I). apply Hf in B. rewrite forallb_forall in B.
  eapply (IH y); [|apply B, J|exact I]. pose proof (list_max_in height l y J). lia.
Qed.
Definition fit (v : pyval) : bool := built v && regular v && measurable v.
Lemma fit_list lc pc items : fit (VList lc pc items) = true -> forallb fit items = true.
Proof.
  unfold fit. cbn [built regular measurable]. rewrite !andb_true_iff. intros ((B & (_ & R)) & (_ & M)). rewrite forallb_forall in *.
  intros x I. rewrite (B x I), (R x I), (M x I). reflexivity.
Qed.

(** A value whose size, if any, is the length of its encoding. *)
Definition true_size (v : pyval) : Prop := forall m s b, size0 m v = Ok s -> encodings (flat v) b -> s = zlen b.

Lemma zlen_app (a b : bytes) : zlen (a ++ b)%list = zlen a + zlen b.
Proof. unfold zlen. rewrite app_length. lia. Qed.
Lemma sum_true m l : (forall x, In x l -> true_size x) -> forall s b, sumM (size0 m) l = Ok s -> encodings (flat_map flat l) b -> s = zlen b.
Proof.
  induction l as [|x l IH]; intros A s b H E; cbn [sumM] in H.
  - injection H as <-. destruct E as (p & F & ->). inversion F. reflexivity.
  - destruct (size0 m x) as [s1|] eqn:E1; [|discriminate]. cbn [bind] in H. destruct (sumM _ l) as [s2|] eqn:E2; [|discriminate]. cbn [bind] in H. injection H as <-.
    cbn [flat_map] in E. apply enc_split in E as (b1 & b2 & -> & Eb1 & Eb2). rewrite zlen_app.
    rewrite (A x (or_introl eq_refl) m s1 b1 E1 Eb1). rewrite (IH (fun y I => A y (or_intror I)) s2 b2 eq_refl Eb2). reflexivity.
Qed.
Lemma width_size m v w s : width v = Some w -> size0 m v = Ok s -> s = Z.of_nat w.
Proof. destruct m as [|m]; [discriminate|]. destruct v; try discriminate; intros [= <-] [= <-]; reflexivity. Qed.
Lemma width_size1 v w : width v = Some w -> size0 1 v = Ok (Z.of_nat w).
Proof. destruct v; try discriminate; intros [= <-]; reflexivity. Qed.
Lemma width_flat v w : width v = Some w -> flat v = [v].
Proof. destruct v; try discriminate; reflexivity. Qed.
Lemma has_width_some w v : has_width w v = true -> width v = Some w.
Proof. unfold has_width. destruct (width v) as [x|]; [|discriminate]. intros E. apply Nat.eqb_eq in E. subst. reflexivity. Qed.
Lemma generic_basic v : is_generic_type v = basic v.
Proof. destruct v; reflexivity. Qed.
Lemma enc_one x b : encodings [x] b -> pack x = Ok b.
Proof. intros (p & F & ->). inversion F as [|? y ? ? P F']; subst. inversion F'. cbn [List.concat]. rewrite app_nil_r. exact P. Qed.
Lemma one_enc x b : pack x = Ok b -> encodings [x] b.
Proof. intros P. exists [b]. split; [constructor; [exact P|constructor]|]. cbn [List.concat]. rewrite app_nil_r. reflexivity. Qed.
Lemma pack_enc v b : pack v = Ok b -> encodings (flat v) b.
Proof. intros P. eapply leaf_enc. apply pack_eq, P. Qed.

Lemma same_widths w l : (forall x, In x l -> true_size x) -> forallb (has_width w) l = true ->
  forall b, encodings (flat_map flat l) b -> zlen b = zlen l * Z.of_nat w.
Proof.
  induction l as [|x l IH]; intros A H b E; [destruct E as (p & F & ->); inversion F; reflexivity|].
  cbn [forallb] in H. apply andb_prop in H as [H1 H2]. apply has_width_some in H1. cbn [flat_map] in E. apply enc_split in E as (b1 & b2 & -> & E1 & E2).
  rewrite zlen_app. rewrite (IH (fun y I => A y (or_intror I)) H2 b2 E2).
  rewrite <- (A x (or_introl eq_refl) 1%nat _ b1 (width_size1 x w H1) E1). unfold zlen. cbn [List.length]. lia.
Qed.
Lemma forallb_has_width_flat w l : forallb (has_width w) l = true -> flat_map flat l = l.
Proof.
  induction l as [|x l IH]; [reflexivity|]. cbn [forallb flat_map]. intros H. apply andb_prop in H as [H1 H2]. apply has_width_some in H1.
  rewrite (width_flat x w H1), (IH H2). reflexivity.
Qed.

(** A list of the items themselves, or of their leaves. *)
Lemma list_true lc pc l : uniform l = true -> (forall x, In x l -> true_size x) -> true_size (VList lc pc l).
Proof.
  intros U A [|m] s b H E; [discriminate H|]. rewrite flat_list in E. cbn [size0] in H. destruct (cid_eqb lc CList); [discriminate|].
  destruct l as [|x l]; [injection H as <-; destruct E as (p & F & ->); inversion F; reflexivity|].
  destruct (is_generic_type x) eqn:G; [|eapply sum_true; eassumption].
  unfold uniform in U. apply orb_prop in U as [U|U].
  - exfalso. cbn [forallb] in U. apply andb_prop in U as [U _]. rewrite generic_basic in G. destruct x; try discriminate G; discriminate U.
  - destruct (width x) as [w|] eqn:W; [|discriminate]. destruct (size0 m x) as [s1|] eqn:Sx; [|discriminate]. cbn [bind] in H. injection H as <-.
    rewrite (width_size m x w s1 W Sx). symmetry. exact (same_widths w (x :: l) A U b E).
Qed.
Lemma uniform_flat l : uniform l = true -> uniform (flat_map flat l) = true.
Proof.
  unfold uniform. intros U. apply orb_prop in U as [U|U].
  - apply orb_true_intro. left. rewrite forallb_forall in *. intros x I. apply in_flat_map in I as (y & J & I). specialize (U y J).
    rewrite (all_leaves_flat _ _ y (le_n _)) in U. rewrite forallb_forall in U. specialize (U x I).
    rewrite (all_leaves_flat _ _ x (le_n _)), (flat_leaf _ y x (le_n _) I). cbn [forallb]. rewrite U. reflexivity.
  - destruct l as [|x l]; [reflexivity|]. destruct (width x) as [w|] eqn:W; [|discriminate].
    rewrite (forallb_has_width_flat w _ U), W, U. apply orb_true_r.
Qed.
Lemma leaves_true lc pc l : uniform l = true -> (forall x, In x (flat_map flat l) -> true_size x) ->
  forall m s b, size0 m (VList lc pc (flat_map flat l)) = Ok s -> encodings (flat_map flat l) b -> s = zlen b.
Proof.
  intros U A m s b H E. eapply (list_true lc pc (flat_map flat l)); [apply uniform_flat, U|exact A|exact H|].
  rewrite flat_list, flat_flat. exact E.
Qed.

(** ** One attribute *)
Definition sub_true (iv : pyval) : Prop := forall x, (height x <= height iv)%nat -> fit x = true -> true_size x.

Definition bucket_attr (cv : pyval) : bool :=
  match cv with VObj c _ => match kind c with KBucket | KSetField04 | KAction04 => false | _ => true end | _ => true end.
Lemma no_bucket_attr c cv : In cv (map snd (class_attrs c)) -> bucket_attr cv = true.
Proof.
  intros I. assert (H : forallb bucket_attr (map snd (class_attrs c)) = true) by (revert c I; intros c _; revert c; apply all_classes; vm_compute; reflexivity).
  rewrite forallb_forall in H. apply H, I.
Qed.
Definition agree (p : res bytes) (z : res Z) : bool := match p, z with Ok b, Ok s => s =? zlen b | _, _ => true end.
Definition is_obj (v : pyval) : bool := match v with VObj _ _ => true | _ => false end.
Definition default_size (pk : pyval -> res bytes) (sz : pyval -> res Z) (cv : pyval) : bool := implb (is_obj cv) (agree (pk cv) (sz cv)).
Lemma agree_ok pk sz c kc ka b s : forallb (default_size pk sz) (map snd (class_attrs c)) = true -> In (VObj kc ka) (map snd (class_attrs c)) ->
  pk (VObj kc ka) = Ok b -> sz (VObj kc ka) = Ok s -> s = zlen b.
Proof.
  intros H I P Q. rewrite forallb_forall in H. specialize (H _ I). unfold default_size, agree in H. cbn [is_obj implb] in H. rewrite P, Q in H. apply Z.eqb_eq, H.
Qed.
Lemma default_sizes c : forallb (default_size pack get_size) (map snd (class_attrs c)) = true.
Proof. revert c. apply all_classes. vm_compute. reflexivity. Qed.
Lemma size_ok m v s : size0 m v = Ok s -> get_size v = Ok s.
Proof. intros H. rewrite (size_of m v); [exact H|]. rewrite H. discriminate. Qed.
Lemma default_true c kc ka m s b : In (VObj kc ka) (map snd (class_attrs c)) -> pack (VObj kc ka) = Ok b -> size0 m (VObj kc ka) = Ok s -> s = zlen b.
Proof.
  intros I P H. apply size_ok in H. exact (agree_ok pack get_size c kc ka b s (default_sizes c) I P H).
Qed.
Lemma or_default_some d iv : iv <> VNone -> or_default d iv = iv.
Proof. intros N; destruct iv; solve [reflexivity | elim N; reflexivity]. Qed.
Lemma no_pack_err v b : has_pack v = false -> pack v = Ok b -> False.
Proof.
  intros N P. apply pack_eq in P. revert P. generalize (FUEL + height v)%nat as n. intros n P. destruct n; [discriminate|]. destruct v; try discriminate. cbn [has_pack] in N. apply negb_false_iff in N.
  cbn [pack0] in P. rewrite N in P. discriminate.
Qed.
Lemma leaf_attr_size m cv iv s : width cv <> None -> size1 (size0 m) cv iv = Ok s -> width cv = Some (Z.to_nat s) /\ 0 <= s.
Proof.
  intros W H. destruct (width cv) as [w|] eqn:E; [|congruence].
  assert (size0 m cv = Ok s) by (destruct cv; try discriminate E; exact H). rewrite (width_size m cv w s E H0). split; [f_equal; lia|lia].
Qed.
Definition char_attr (cv : pyval) : bool := match cv with VChar O _ => false | _ => true end.
Lemma no_empty_char c cv : In cv (map snd (class_attrs c)) -> char_attr cv = true.
Proof.
  intros I. assert (H : forallb char_attr (map snd (class_attrs c)) = true) by (revert c I; intros c _; revert c; apply all_classes; vm_compute; reflexivity).
  rewrite forallb_forall in H. apply H, I.
Qed.
Lemma char_width cv w : char_attr cv = true -> width cv = Some w -> leaf_width cv = Some w.
Proof. destruct cv as [| | | | | | | |[|len]| | | | | |]; try discriminate; auto. Qed.

Lemma attr_size m c cv iv s b : In cv (map snd (class_attrs c)) -> fit iv = true -> sized_list cv iv = true -> same_char cv iv = true ->
  sub_true iv -> carried cv iv b -> size1 (size0 m) cv iv = Ok s -> s = zlen b.
Proof.
  intros I Fi Sl Sc Sub C H.
  assert (Tiv : true_size iv) by (apply Sub; [apply le_n|exact Fi]).
  assert (Leaf : width cv <> None -> s = zlen b).
  { intros W. destruct (leaf_attr_size m cv iv s W H) as (W' & P). pose proof (carried_width cv iv b _ C (char_width cv _ (no_empty_char c cv I) W') Sc). unfold zlen. lia. }
  destruct C as [w0 er d iv z bs _ B|k iv|len d iv bs P|d m0 iv bs P|d iv bs P|d iv bs P|d iv bs E|d iv E|d iv bs P|d lc pc items l bs L E|kc ka iv bs Hs P|lc pc ci lc' pc' items l bs L E|lc pc ci iv E|lc pc ci ic ia E];
    try (apply Leaf; discriminate); clear Leaf.
  - unfold size1 in H. fold (or_default d iv) in H. rewrite E in H. injection H as <-. reflexivity.
  - unfold size1 in H. fold (or_default d iv) in H. rewrite E in H. injection H as <-. reflexivity.
  - unfold size1 in H. fold (or_default d iv) in H. unfold bin_size in H. destruct (has_pack (or_default d iv)) eqn:Hp; [|exfalso; eapply no_pack_err; eassumption].
    pose proof (class_attr_bin c _ I) as Nb. cbn beta iota in Nb.
    assert (N : iv <> VNone) by (intros ->; cbn [or_default] in Hp; congruence).
    rewrite (or_default_some d iv N) in *. eapply Tiv; [exact H|apply pack_enc, P].
  - unfold size1, bin_size in H. destruct (has_pack _) eqn:Hp; [|discriminate]. apply (leaf_unique _ _ _ (le_n _)) in L. subst l. eapply Tiv; eassumption.
  - pose proof (no_bucket_attr c _ I) as Nb. cbn in Nb. unfold size1 in H.
    assert (X : iv = VNone /\ size0 m (VObj kc ka) = Ok s \/ iv <> VNone /\ size0 m iv = Ok s).
    { destruct iv; [left; split; [reflexivity|exact H]|..]; right; (split; [discriminate|]);
        (destruct (kind kc); try discriminate Nb; match type of H with (if ?x then _ else _) = _ => destruct x; [|discriminate] end; exact H). }
    destruct X as [(-> & X)|(N & X)].
    + eapply default_true; [exact I|exact P|exact X].
    + rewrite (or_default_some _ iv N) in P. eapply Tiv; [exact X|]. apply pack_enc, P.
  - apply (leaf_unique _ _ _ (le_n _)) in L. subst l. unfold size1 in H. destruct (cid_eqb lc CFixedTypeList) eqn:Ec.
    + injection H as <-. apply cid_eqb_eq in Ec. subst lc. unfold sized_list, holds_nothing in Sl. rewrite (all_leaves_flat _ _ _ (le_n _)) in Sl.
      destruct (flat (VList lc' pc' items)) as [|x l]; [|discriminate Sl]. destruct E as (p & F & ->). inversion F. reflexivity.
    + cbn [list_init] in H. destruct (check_items pc (flat_map flat items)) as [its|] eqn:Ei; [|discriminate]. cbn [bind] in H. apply check_items_same in Ei. subst its.
      rewrite flat_list in E. eapply leaves_true; [| |exact H|exact E].
      * unfold fit in Fi. cbn [measurable] in Fi. rewrite !andb_true_iff in Fi. apply Fi.
      * intros x J. apply Sub; [eapply flat_height; [apply le_n|rewrite flat_list; exact J]|]. eapply (prop_flat fit fit_list); [apply le_n|exact Fi|rewrite flat_list; exact J].
  - unfold size1 in H. pose proof (class_attr_plain c _ I) as Pl. cbn [plain_class_attr] in Pl. destruct ci; [|discriminate].
    assert (X : forall l2 p2, size0 m (VList l2 p2 []) = Ok s -> s = 0).
    { intros l2 p2 Q. destruct m; [discriminate|]. cbn [size0] in Q. destruct (cid_eqb l2 CList); [discriminate|]. congruence. }
    destruct E as [->|[->| ->] ]; [apply (X _ _ H)|..];
      (destruct (cid_eqb lc CFixedTypeList); [injection H as <-; reflexivity|]; cbn [list_init truthy bind List.length Nat.eqb negb] in H; apply (X _ _ H)).
  - unfold size1 in H. destruct (cid_eqb lc CFixedTypeList); [injection H as <-; reflexivity|]. cbn [list_init truthy bind] in H.
    destruct (check_items pc [VObj ic ia]) as [its|] eqn:Ei; [|discriminate]. cbn [bind] in H. apply check_items_same in Ei. subst its.
    destruct m as [|m]; [discriminate|]. cbn [size0] in H. destruct (cid_eqb lc CList); [discriminate|]. cbn [is_generic_type sumM] in H.
    destruct (size0 m (VObj ic ia)) as [s1|] eqn:E1; [|discriminate]. cbn [bind] in H. injection H as <-.
    destruct m as [|m]; [discriminate|]. rewrite size0_obj in E1. unfold struct_size, zip_attrs in E1. rewrite E in E1. cbn [map combine sumM bind] in E1.
    destruct (kind ic) eqn:K; try (injection E1 as <-; reflexivity).
    exfalso. assert (Tb : match kind ic, class_attrs ic with KBucket, [] => false | _, _ => true end = true) by (clear; revert ic; apply all_classes; vm_compute; reflexivity).
    rewrite K, E in Tb. discriminate.
Qed.

(** ** Objects *)
Lemma zip_sizes m A : forall F s, NoDup (map fst A) -> map fst F = map fst A ->
  sumM (fun p => size1 (size0 m) (fst p) (snd p)) (combine (map snd A) (map snd F)) = Ok s ->
  forall parts : list bytes, Forall2 (fun f part => forall iv sz, get_attr (fst f) F = Some iv -> size1 (size0 m) (snd f) iv = Ok sz -> sz = zlen part) A parts ->
  s = zlen (List.concat parts).
Proof.
  induction A as [|[k cv] A IH]; intros F s D E H parts P; destruct F as [|[k' x] F]; try discriminate E.
  - inversion P; subst. cbn in H. injection H as <-. reflexivity.
  - cbn in E. injection E as -> E. inversion D as [|? ? N D']; subst. cbn [map combine fst snd sumM] in H.
    destruct (size1 (size0 m) cv x) as [s1|] eqn:S1; [|discriminate]. cbn [bind] in H. destruct (sumM _ _) as [s2|] eqn:S2; [|discriminate]. cbn [bind] in H. injection H as <-.
    inversion P as [|? part ? parts' P1 P2]; subst. cbn [List.concat]. rewrite zlen_app. cbn [fst snd get_attr] in P1. rewrite String.eqb_refl in P1.
    rewrite (P1 x s1 eq_refl S1). rewrite (IH F s2 D' E S2 parts'); [reflexivity|]. eapply forall2_in; [|exact P2].
    intros [n nv] q I Q iv sz G. cbn [fst snd] in *. apply Q. cbn [get_attr]. destruct (String.eqb_spec k n) as [->|]; [|exact G].
    exfalso. apply N. apply in_map_iff. exists (n, nv). split; [reflexivity|exact I].
Qed.
Lemma struct_sizes m c attrs s (parts : list bytes) : has_attributes c attrs = true -> struct_size (size0 m) c attrs = Ok s ->
  Forall2 (fun f part => forall iv sz, get_attr (fst f) attrs = Some iv -> size1 (size0 m) (snd f) iv = Ok sz -> sz = zlen part) (class_attrs c) parts ->
  s = zlen (List.concat parts).
Proof.
  intros A H P. unfold struct_size, zip_attrs in H. fold (mine c attrs) in H.
  eapply (zip_sizes m (class_attrs c) (mine c attrs)); [apply class_names_nodup|apply built_names, A|exact H|].
  eapply forall2_in; [|exact P]. intros [n nv] q I Q iv sz G. apply Q. rewrite <- G. symmetry. apply get_mine. eapply in_class_attr, I.
Qed.

(** Structures of basic fields. *)
Lemma flat_size m c attrs s w : has_attributes c attrs = true -> widths (class_attrs c) = Some w -> struct_size (size0 m) c attrs = Ok s -> s = Z.of_nat w.
Proof.
  intros A W H.
  assert (X : forall l w, widths l = Some w -> exists parts, List.length (List.concat parts) = w /\
    Forall2 (fun f (part : bytes) => leaf_width (snd f) = Some (List.length part)) l parts).
  { induction l as [|[k cv] l IH]; intros w0 E; cbn [widths] in E; [injection E as <-; exists []; split; [reflexivity|constructor]|].
    destruct (leaf_width cv) as [x|] eqn:L; [|discriminate]. destruct (widths l) as [y|]; [|discriminate]. injection E as <-.
    destruct (IH y eq_refl) as (parts & E & F). exists (repeat 0 x :: parts). cbn [List.concat]. rewrite app_length, repeat_length, E. split; [reflexivity|].
    constructor; [cbn [snd]; rewrite repeat_length; exact L|exact F]. }
  destruct (X _ w W) as (parts & E & F). rewrite <- E. change (s = zlen (List.concat parts)). eapply struct_sizes; [exact A|exact H|].
  eapply forall2_in; [|exact F]. intros [k cv] part _ L iv sz _ Sz. cbn [snd] in *.
  assert (Wd : width cv = Some (List.length part)) by (destruct cv as [| | | | | | | |[|len]| | | | | |]; try discriminate L; exact L).
  destruct (leaf_attr_size m cv iv sz) as (W' & P); [congruence|exact Sz|]. rewrite Wd in W'. unfold zlen. injection W' as ->. lia.
Qed.

Lemma fit_attr c attrs name iv : fit (VObj c attrs) = true -> get_attr name attrs = Some iv -> fit iv = true /\
  (forall cv, get_attr name (class_attrs c) = Some cv -> sized_list cv iv = true /\ same_char cv iv = true).
Proof.
  unfold fit. rewrite !andb_true_iff. intros ((B & R) & M) G. pose proof (get_attr_In _ _ _ G) as I. split.
  - cbn [built regular measurable] in B, R, M. rewrite !andb_true_iff in *. destruct B as (_ & B). destruct R as (_ & R). destruct M as (M & _).
    rewrite forallb_forall in *. specialize (B _ I). specialize (R _ I). specialize (M _ I). cbn [snd] in *. rewrite andb_true_iff in R, M. tauto.
  - intros cv K. split; [|eapply regular_attr; eassumption]. cbn [measurable] in M. apply andb_prop in M as [M _]. rewrite forallb_forall in M.
    specialize (M _ I). cbn [fst snd] in M. rewrite K in M. apply andb_prop in M as [M _]. exact M.
Qed.
Lemma attr_height c attrs name iv : get_attr name attrs = Some iv -> (height iv < height (VObj c attrs))%nat.
Proof.
  intros G. apply get_attr_In in G. cbn [height]. pose proof (list_max_in (fun p : string * pyval => height (snd p)) attrs _ G). cbn [snd] in H. lia.
Qed.
Lemma part_size m c attrs name cv part iv sz : fit (VObj c attrs) = true -> (forall x, (height x < height (VObj c attrs))%nat -> fit x = true -> true_size x) ->
  In (name, cv) (class_attrs c) -> part_of c attrs (name, cv) part -> get_attr name attrs = Some iv -> size1 (size0 m) cv iv = Ok sz -> sz = zlen part.
Proof.
  intros Ft IH I (iv' & G' & P) G Sz. cbn [fst snd] in *. rewrite G in G'. injection G' as <-.
  destruct (fit_attr c attrs name iv Ft G) as (Fi & Fc). destruct (Fc cv (class_get _ _ _ I)) as (Sl & Sc).
  pose proof (attr_height c attrs name iv G) as Hh.
  destruct (computed c name).
  - destruct P as (w & er & d & z & -> & B). destruct m as [|m]; [discriminate|]. injection Sz as <-. unfold zlen. rewrite (be_len _ _ _ B). reflexivity.
  - destruct P as [P|(-> & hc & h & z & -> & P)].
    + eapply (attr_size m c cv iv); [apply in_map_iff; exists (name, cv); split; [reflexivity|exact I]|exact Fi|exact Sl|exact Sc| |exact P|exact Sz].
      intros x Hx Fx. apply IH; [lia|exact Fx].
    + pose proof (header_table_ok c) as T. unfold header_table in T. rewrite (class_get _ _ _ I) in T.
      destruct cv as [| | | | | | | | | | | | |kc ka|]; try discriminate.
      unfold fit in Fi. rewrite !andb_true_iff in Fi. destruct Fi as ((Bi & Ri) & _).
      assert (X : (kc = Header01 \/ kc = Header04) /\ subclass hc kc = true /\ size0 m (VObj hc h) = Ok sz).
      { assert (Kd : kind kc = KStruct) by (destruct kc; try discriminate T; reflexivity).
        split; [destruct kc; try discriminate T; tauto|]. unfold size1 in Sz. rewrite Kd in Sz. cbn [class_of] in Sz.
        destruct (subclass hc kc) eqn:Es; [|discriminate]. split; [reflexivity|exact Sz]. }
      destruct X as (K & Sb & Sz'). clear Sz.
      assert (E : hc = kc).
      { assert (Tb : forallb (fun x => implb (subclass x Header01) (cid_eqb x Header01) && implb (subclass x Header04) (cid_eqb x Header04)) all_cids = true) by (vm_compute; reflexivity).
        pose proof (all_classes _ Tb hc) as Q. cbn beta in Q. apply andb_prop in Q as [Q1 Q2]. destruct K as [-> | ->]; [rewrite Sb in Q1; apply cid_eqb_eq, Q1|rewrite Sb in Q2; apply cid_eqb_eq, Q2]. }
      subst kc.
      assert (W : widths (class_attrs hc) = Some 8%nat /\ ~ is_filled hc /\ kind hc = KStruct).
      { unfold is_filled. destruct K as [-> | ->]; (split; [vm_compute; reflexivity|]); (split; [intros [|]; discriminate|reflexivity]). }
      destruct W as (W & Nf & Kd).
      assert (Bs : built (VObj hc (set_attr "length" (VInt z) h)) = true).
      { apply good_built. apply good_set; [apply good_built, Bi| |reflexivity|reflexivity].
        destruct (good_has hc h "length") as (l & El); [apply good_built, Bi|destruct K as [-> | ->]; reflexivity|]. congruence. }
      pose proof (flat_len hc _ part 8%nat Bs (regular_set _ z _ _ Ri) Nf W P) as L.
      destruct m as [|m]; [discriminate|]. rewrite size0_obj, Kd in Sz'. apply good_built in Bi. destruct Bi as (Ha & _).
      rewrite (flat_size m hc h sz 8%nat Ha W Sz'). unfold zlen. rewrite L. reflexivity.
Qed.
Lemma struct_true m c attrs s parts : fit (VObj c attrs) = true -> (forall x, (height x < height (VObj c attrs))%nat -> fit x = true -> true_size x) ->
  struct_size (size0 m) c attrs = Ok s -> Forall2 (part_of c attrs) (class_attrs c) parts -> s = zlen (List.concat parts).
Proof.
  intros Ft IH H F. pose proof Ft as Ft'. unfold fit in Ft'. rewrite !andb_true_iff in Ft'. destruct Ft' as ((B & _) & _). apply good_built in B. destruct B as (Ha & _).
  eapply struct_sizes; [exact Ha|exact H|]. eapply forall2_in; [|exact F]. intros [name cv] part I P iv sz G Sz. cbn [fst snd] in *.
  eapply (part_size m c attrs name cv); eassumption.
Qed.

(** ** Structures filled up to a multiple of 8 *)
Lemma rel_set c name x attrs : computed c name = true -> get_attr name attrs <> None -> Forall2 (attr_rel c) attrs (set_attr name x attrs).
Proof.
  intros C. induction attrs as [|[k v] l IH]; cbn [get_attr set_attr]; [congruence|]. destruct (String.eqb_spec k name) as [->|N]; intros G.
  - constructor; [split; [reflexivity|left; exact C]|apply forall2_refl, attr_rel_refl].
  - constructor; [apply attr_rel_refl|apply IH, G].
Qed.
Lemma ceil8_ge s : s <= ceil8 s.
Proof. unfold ceil8. pose proof (Z.div_mod (s + 7) 8 ltac:(lia)). pose proof (Z.mod_pos_bound (s + 7) 8 ltac:(lia)). lia. Qed.
Lemma filled_len (p : bytes) : zlen (p ++ zeros (Z.to_nat (ceil8 (zlen p) - zlen p)))%list = ceil8 (zlen p).
Proof. rewrite zlen_app. unfold zeros. unfold zlen at 2. rewrite repeat_length. pose proof (ceil8_ge (zlen p)). lia. Qed.
Lemma kind_setfield c : kind c = KSetField04 -> c = ActionSetField04.
Proof.
  intros K. assert (T : match kind c with KSetField04 => cid_eqb c ActionSetField04 | _ => true end = true) by (clear; revert c; apply all_classes; vm_compute; reflexivity).
  rewrite K in T. apply cid_eqb_eq, T.
Qed.
Lemma uint_part n w er d iv part : pack1 (pack0 n) (VUInt w er d) iv = Ok part -> zlen part = Z.of_nat w.
Proof. intros P. destruct (uint_some _ _ _ _ _ P) as (z & B). unfold zlen. rewrite (be_len _ _ _ B). reflexivity. Qed.

Lemma filled_parts n c attrs b : fit (VObj c attrs) = true -> (forall x, (height x < height (VObj c attrs))%nat -> fit x = true -> true_size x) ->
  kind c = KMatch04 \/ kind c = KSetField04 -> pack0 (S n) (VObj c attrs) = Ok b ->
  exists parts, Forall2 (part_of c attrs) (class_attrs c) parts /\ zlen b = ceil8 (zlen (List.concat parts)).
Proof.
  intros Ft IH K H. change (pack_obj (pack0 n) (size0 n) (size0 (S n)) c attrs = Ok b) in H. unfold pack_obj in H.
  pose proof Ft as Ft'. unfold fit in Ft'. rewrite !andb_true_iff in Ft'. destruct Ft' as ((B & _) & _). apply good_built in B as G.
  pose proof (packs_as_same n c attrs G) as S0. pose proof (attr_table_ok c) as T. unfold attr_table in T.
  assert (SetC : forall v, is_class_attr c "length" = true -> computed c "length" = true -> packs_as n c attrs (set_attr "length" v attrs)).
  { intros v M C. apply packs_as_set; [exact S0|exact M|]. intros cv part I P. eapply part_computed; eassumption. }
  destruct K as [K|K]; rewrite K in H, T; apply andb_prop in T as [T Sb]; apply andb_prop in T as [C M];
    destruct (good_has c attrs "length" G M) as (l0 & Gl).
  - unfold match04_pack in H. destruct (struct_size (size0 n) c attrs) as [s|] eqn:S1; [|discriminate]. cbn [bind] in H. cbv zeta in H.
    match type of H with bind ?r _ = _ => destruct r as [p|] eqn:P; [|discriminate] end. cbn [bind] in H.
    rewrite size0_obj, K in H.
    rewrite (oc_struct_size (size0 n) c attrs (set_attr "length" (VInt s) attrs) (oc_size n)) in H;
      [|apply G|apply G|apply rel_set; [exact C|congruence]].
    rewrite S1 in H. cbn [bind] in H. injection H as <-.
    apply struct_as with (attrs := attrs) in P as (parts & -> & F); [|apply SetC; assumption].
    exists parts. split; [exact F|]. rewrite (struct_true n c attrs s parts Ft IH S1 F). apply filled_len.
  - apply kind_setfield in K. subst c.
    unfold setfield_pack, attr_or_error in H. destruct (get_attr "field" attrs) as [f|] eqn:Gf; [|discriminate]. cbn [bind] in H.
    destruct (has_pack f) eqn:Hp; [|discriminate]. destruct (pack0 n f) as [fb|] eqn:Pf; [|discriminate]. cbn [bind] in H. cbv zeta in H.
    match type of H with bind ?r _ = _ => destruct r as [p|] eqn:P; [|discriminate] end. cbn [bind] in H.
    assert (Eb : b = (p ++ zeros (Z.to_nat (ceil8 (4 + zlen fb) - zlen p)))%list) by congruence. subst b. clear H.
    destruct (SetC (VInt (ceil8 (4 + zlen fb))) M C) as (Ha & _).
    destruct (struct_parts n _ _ p Ha P) as (qs & Eq & Fq).
    assert (Lp : zlen p = 4 + zlen fb).
    { rewrite Eq. clear - Fq Pf Hp Gf. change (class_attrs ActionSetField04) with attrs_ActionSetField04 in Fq. unfold attrs_ActionSetField04 in Fq.
      inversion Fq as [|? q1 ? l1 (v1 & _ & P1) F1]; subst. inversion F1 as [|? q2 ? l2 (v2 & _ & P2) F2]; subst.
      inversion F2 as [|? q3 ? l3 (v3 & G3 & P3) F3]; subst. inversion F3; subst. clear Fq F1 F2 F3. cbn [fst snd] in *.
      cbn [List.concat]. rewrite app_nil_r, !zlen_app, (uint_part _ _ _ _ _ _ P1), (uint_part _ _ _ _ _ _ P2).
      rewrite get_set_other in G3 by discriminate. rewrite Gf in G3. injection G3 as <-.
      assert (E : pack1 (pack0 n) new_OxmTLV04 f = pack0 n f).
      { unfold new_OxmTLV04, pack1. change (kind OxmTLV04) with KOxmTLV. cbn iota. rewrite Hp. destruct f; try discriminate Hp; reflexivity. }
      rewrite E, Pf in P3. injection P3 as <-. lia. }
    rewrite <- Lp. apply struct_as with (attrs := attrs) in P as (parts & Ep & F); [|apply SetC; assumption].
    exists parts. split; [exact F|]. rewrite <- Ep. apply filled_len.
Qed.

(** ** All values *)
Lemma action_kind c : kind c = KAction04 -> subclass c ActionHeader04 = true.
Proof.
  intros K. assert (T : match kind c with KAction04 => subclass c ActionHeader04 | _ => true end = true) by (clear; revert c; apply all_classes; vm_compute; reflexivity).
  rewrite K in T. exact T.
Qed.
Lemma bucket_kind c : kind c = KBucket -> c = Bucket04.
Proof.
  intros K. assert (T : match kind c with KBucket => cid_eqb c Bucket04 | _ => true end = true) by (clear; revert c; apply all_classes; vm_compute; reflexivity).
  rewrite K in T. apply cid_eqb_eq, T.
Qed.
Lemma filled_kind c : is_filled c -> kind c = KMatch04 \/ kind c = KSetField04.
Proof.
  intros [->|F]; [left; reflexivity|]. right.
  assert (T : implb (subclass c ActionSetField04) (match kind c with KSetField04 => true | _ => false end) = true) by (clear; revert c; apply all_classes; vm_compute; reflexivity).
  rewrite F in T. cbn in T. destruct (kind c); try discriminate. reflexivity.
Qed.
Lemma ceil8_exact z : z mod 8 = 0 -> ceil8 z = z.
Proof.
  intros H. unfold ceil8. pose proof (Z.div_mod z 8 ltac:(lia)) as E. rewrite H in E.
  assert (D : (z + 7) / 8 = z / 8) by (symmetry; apply (Z.div_unique _ _ _ 7); lia). lia.
Qed.
Lemma action_word p c attrs b : sized_object (VObj c attrs) = true -> p = pack (VObj c attrs) -> p = Ok b -> subclass c ActionHeader04 = true -> zlen b mod 8 = 0.
Proof.
  intros H E -> A. cbn [sized_object] in H. rewrite <- E, A in H. apply andb_prop in H as [H _]. apply Z.eqb_eq, H.
Qed.
Lemma bucket_length p attrs l z b : sized_object (VObj Bucket04 attrs) = true -> p = pack (VObj Bucket04 attrs) -> p = Ok b ->
  get_attr "length" attrs = Some l -> l <> VNone -> num_of l = Ok z -> z = zlen b.
Proof.
  intros H E -> G N Z. cbn [sized_object] in H. rewrite <- E, G, Z in H. change (cid_eqb Bucket04 Bucket04) with true in H. apply andb_prop in H as [_ H].
  destruct l; [congruence|..]; apply Z.eqb_eq, H.
Qed.

Lemma object_true n m c attrs s b : fit (VObj c attrs) = true -> (forall x, (height x < height (VObj c attrs))%nat -> fit x = true -> true_size x) ->
  pack0 (S n) (VObj c attrs) = Ok b -> size0 m (VObj c attrs) = Ok s -> s = zlen b.
Proof.
  intros Ft IH P Sz. destruct m as [|m]; [discriminate|]. rewrite size0_obj in Sz.
  pose proof Ft as Ft'. unfold fit in Ft'. rewrite !andb_true_iff in Ft'. destruct Ft' as ((B & R) & M). apply good_built in B as G.
  cbn [measurable] in M. apply andb_prop in M as [_ So].
  destruct (obj_parts n c attrs b G P) as (parts & k & E & Fk & F).
  pose proof (pk _ _ _ P) as P'. symmetry in P'.
  assert (Fill : kind c = KMatch04 \/ kind c = KSetField04 -> (do s0 <- struct_size (size0 m) c attrs; Ok (ceil8 s0)) = Ok s -> s = zlen b).
  { intros K Q. destruct (filled_parts n c attrs b Ft IH K P) as (parts' & F' & ->). destruct (struct_size (size0 m) c attrs) as [s0|] eqn:S0; [|discriminate].
    cbn [bind] in Q. assert (Es : s = ceil8 s0) by congruence. subst s. rewrite (struct_true m c attrs s0 parts' Ft IH S0 F'). reflexivity. }
  assert (Plain : ~ is_filled c -> forall s0, struct_size (size0 m) c attrs = Ok s0 -> s0 = zlen b).
  { intros Nf s0 Q. destruct Fk as [Fk| ->]; [contradiction|]. rewrite E. cbn [repeat]. rewrite app_nil_r. eapply struct_true; eassumption. }
  destruct (kind c) eqn:K; try (apply Plain; [intros Nf; apply filled_kind in Nf as [Nf|Nf]; congruence|exact Sz]); try (apply Fill; [solve [auto]|exact Sz]).
  - destruct (struct_size (size0 m) c attrs) as [s0|] eqn:S0; [|discriminate]. cbn [bind] in Sz.
    assert (Es : s = ceil8 s0) by congruence. subst s. rewrite (Plain ltac:(intros Nf; apply filled_kind in Nf as [Nf|Nf]; congruence) s0 eq_refl).
    apply ceil8_exact. eapply action_word; [exact So|exact P'|reflexivity|apply action_kind, K].
  - apply bucket_kind in K. subst c. unfold attr_or_error in Sz. destruct (get_attr "length" attrs) as [l|] eqn:Gl; [|discriminate]. cbn [bind] in Sz.
    destruct l; [apply Plain; [intros [Nf|Nf]; discriminate|exact Sz]|..];
      (eapply bucket_length; [exact So|exact P'|reflexivity|exact Gl|discriminate|exact Sz]).
Qed.

Lemma all_true h : forall v, (height v <= h)%nat -> fit v = true -> true_size v.
Proof.
  induction h as [h IH] using lt_wf_ind. intros v L Ft m s b Sz E.
  destruct v as [| | | | | |w er x|k|len x|x msk|x|x|x|c attrs|lc pc items];
    try (destruct m; discriminate Sz).
  all: try (apply enc_one in E; destruct m as [|m]; [discriminate|]; injection Sz as <-; apply pack1_step in E; [|first [apply nf_uint_pack1|apply nf_char_pack1|apply nf_ip_pack1|apply nf_hw_pack1|apply nf_dpid_pack1|discriminate] ]).
  - destruct (uint_some _ _ _ _ _ E) as (z & B). unfold zlen. rewrite (be_len _ _ _ B). reflexivity.
  - injection E as <-. unfold zlen, zeros. rewrite repeat_length. reflexivity.
  - unfold fit in Ft. rewrite !andb_true_iff in Ft. destruct Ft as (_ & M). cbn in M. destruct len as [|len]; [discriminate|].
    unfold zlen. rewrite (char_len _ _ _ E). reflexivity.
  - unfold zlen. rewrite (ip_len _ _ E). reflexivity.
  - unfold zlen. rewrite (hw_len _ _ E). reflexivity.
  - unfold zlen. rewrite (dpid_len _ _ E). reflexivity.
  - apply enc_one in E. destruct m as [|m]; [discriminate|]. cbn [size0] in Sz. apply pack_eq in E. revert E. generalize (FUEL + height (VBin x))%nat as n. intros n E.
    destruct n as [|n]; [discriminate|]. cbn [pack0] in E. unfold bin_size in Sz. unfold bin_pack in E. destruct (has_pack x) eqn:Hp.
    + cbn [height] in L. eapply (IH (height x)); [lia|apply le_n|exact Ft|exact Sz|eapply leaf_enc, E].
    + destruct x; try discriminate; injection Sz as <-; injection E as <-; reflexivity.
  - apply enc_one in E. apply pack_eq in E. revert E. generalize (FUEL + height (VObj c attrs))%nat as n. intros n E.
    destruct n as [|n]; [discriminate|]. eapply object_true; [exact Ft| |exact E|exact Sz].
    intros x Hx Fx. apply (IH (height x)); [lia|apply le_n|exact Fx].
  - eapply list_true; [| |exact Sz|exact E].
    + unfold fit in Ft. cbn [measurable] in Ft. rewrite !andb_true_iff in Ft. apply Ft.
    + intros x I. pose proof (fit_list lc pc items Ft) as Fi. rewrite forallb_forall in Fi. cbn [height] in L. pose proof (list_max_in height items x I).
      apply (IH (height x)); [lia|apply le_n|apply Fi, I].
Qed.

Lemma size_eq v s : get_size v = Ok s -> size0 (FUEL + height v) v = Ok s.
Proof. unfold get_size. intros P. exact P. Qed.
Lemma size_is_length v bs s : built v = true -> regular v = true -> measurable v = true -> pack v = Ok bs -> get_size v = Ok s -> s = zlen bs.
Proof.
  intros B R M P Sz. assert (Ft : fit v = true) by (unfold fit; rewrite B, R, M; reflexivity).
  assert (T : forall m, size0 m v = Ok s -> s = zlen bs) by (intros m Q; eapply (all_true (height v)); [apply le_n|exact Ft|exact Q|apply pack_enc, P]).
  exact (T _ (size_eq v s Sz)).
Qed.
