(** pack() does not look at the attributes it computes. *)
From Coq Require Import ZArith List Bool String Lia.
From Verif Require Import Base PyText Ids PyVal Classes Interp Mutation SpecMutation SpecShared ClassFacts StructFacts DispatchFacts
  FuelFacts Totality MutationFacts MutationFacts2 MutationFacts3.
Import ListNotations.
Open Scope string_scope.
Open Scope list_scope.
Open Scope Z_scope.

Definition has_header (c : cid) : bool := subclass c CGenericMessage.
Definition same_header : pyval -> pyval -> Prop := same_but true.
Definition attr_up (c : cid) (p q : string * pyval) : Prop :=
  fst p = fst q /\ (recomputed c (fst p) = true \/ up_to_lengths (snd p) (snd q) \/
    (fst p = "header" /\ has_header c = true /\ same_header (snd p) (snd q))).
Lemma recomputed_computed c n : recomputed c n = true -> computed c n = true.
Proof. destruct c; try exact (fun H => H); discriminate. Qed.
Lemma sb_weak b v v' : same_but false v v' -> same_but b v v'.
Proof.
  destruct 1 as [v|x x' H|lc pc l l' H|c a a' H]; [constructor|constructor; exact H|constructor; exact H|].
  constructor. eapply forall2_in; [|exact H]. intros p q _ (E & R). split; [exact E|]. destruct R as [R|R]; [left|right; exact R].
  destruct b; [apply recomputed_computed, R|exact R].
Qed.
Lemma attr_up_sb c p q : attr_up c p q <-> fst p = fst q /\ (recomputed c (fst p) = true \/ same_but (header_of c (fst p)) (snd p) (snd q)).
Proof.
  unfold attr_up, header_of, has_header, same_header, up_to_lengths. split; intros (E & R); (split; [exact E|]).
  - destruct R as [R|[R|(-> & H & R)]]; [left; exact R|right; apply sb_weak, R|right; rewrite H; exact R].
  - destruct R as [R|R]; [left; exact R|right]. destruct (subclass c CGenericMessage); [|left; exact R]. cbn [andb] in R.
    destruct (String.eqb_spec (fst p) "header") as [H|]; [right; auto|left; exact R].
Qed.
Lemma up_obj_intro c attrs attrs' : Forall2 (attr_up c) attrs attrs' -> up_to_lengths (VObj c attrs) (VObj c attrs').
Proof. intros F. constructor. eapply forall2_in; [|exact F]. intros p q _ R. apply attr_up_sb, R. Qed.
Lemma attr_up_refl c p : attr_up c p p.
Proof. split; [reflexivity|]. right. left. constructor. Qed.

Lemma up_inv v v' : up_to_lengths v v' ->
  match v with
  | VBin x => exists x', v' = VBin x' /\ up_to_lengths x x'
  | VList lc pc l => exists l', v' = VList lc pc l' /\ Forall2 up_to_lengths l l'
  | VObj c attrs => exists attrs', v' = VObj c attrs' /\ Forall2 (attr_up c) attrs attrs'
  | _ => v' = v
  end.
Proof.
  destruct 1 as [v|x x' H|lc pc l l' H|c a a' H]; eauto.
  - destruct v; try reflexivity; eexists; (split; [reflexivity|]); try constructor.
    + apply forall2_refl. apply attr_up_refl.
    + apply forall2_refl. constructor.
  - exists a'. split; [reflexivity|]. eapply forall2_in; [|exact H]. intros p q _ R. apply attr_up_sb, R.
Qed.
(** A header, whose length may differ as well. *)
Lemma header_inv v v' : header_ok ("header", v) = true -> same_header v v' ->
  match v with
  | VBin x => exists x', v' = VBin x' /\ up_to_lengths x x'
  | VList lc pc l => exists l', v' = VList lc pc l' /\ Forall2 up_to_lengths l l'
  | VObj c attrs => (c = Header01 \/ c = Header04) /\ exists attrs', v' = VObj c attrs' /\
      Forall2 (fun p q => fst p = fst q /\ (fst p = "length" \/ up_to_lengths (snd p) (snd q))) attrs attrs'
  | _ => v' = v
  end.
Proof.
  intros Hh. destruct 1 as [v|x x' H|lc pc l l' H|c a a' H]; eauto.
  - destruct v; try reflexivity; try (eexists; (split; [reflexivity|]); constructor).
    + split; [unfold header_ok in Hh; cbn in Hh; destruct c; try discriminate; auto|]. eexists. split; [reflexivity|]. apply forall2_refl. split; [reflexivity|right; constructor].
    + eexists; (split; [reflexivity|]). apply forall2_refl. constructor.
  - assert (Hc : c = Header01 \/ c = Header04) by (unfold header_ok in Hh; cbn in Hh; destruct c; try discriminate; auto).
    split; [exact Hc|]. exists a'. split; [reflexivity|]. eapply forall2_in; [|exact H]. intros p q _ (E & R). split; [exact E|].
    destruct R as [R|R]; [left; destruct Hc as [-> | ->]; cbn in R; apply String.eqb_eq, R|right].
    assert (N : header_of c (fst p) = false) by (destruct Hc as [-> | ->]; reflexivity). rewrite N in R. exact R.
Qed.

(** A name that occurs at most once. *)
Definition once (n : string) (l : list (string * pyval)) : Prop := (count_occ string_dec (map fst l) n <= 1)%nat.
Lemma once_mine c attrs n : is_class_attr c n = true ->
  count_occ string_dec (map fst attrs) n = count_occ string_dec (map fst (mine c attrs)) n.
Proof.
  intros M. induction attrs as [|[k x] l IH]; [reflexivity|]. unfold mine in *. cbn [map fst filter count_occ].
  destruct (string_dec k n) as [->|N].
  - rewrite M. cbn [map fst count_occ]. destruct (string_dec n n); [|congruence]. rewrite IH. reflexivity.
  - destruct (is_class_attr c k); [|exact IH]. cbn [map fst count_occ]. destruct (string_dec k n); [congruence|exact IH].
Qed.
Lemma once_attr c attrs n : has_attributes c attrs = true -> is_class_attr c n = true -> once n attrs.
Proof.
  intros A M. unfold once. rewrite (once_mine c attrs n M), (built_names c attrs A).
  apply (proj1 (NoDup_count_occ string_dec _)). apply class_names_nodup.
Qed.
Lemma once_tail n k x l : once n ((k, x) :: l) -> once n l.
Proof. unfold once. cbn [map fst count_occ]. destruct (string_dec k n); lia. Qed.
Lemma once_here n x l : once n ((n, x) :: l) -> forall k y, In (k, y) l -> k <> n.
Proof.
  unfold once. cbn [map fst count_occ]. destruct (string_dec n n); [|congruence]. intros H k y I ->.
  assert (J : In n (map fst l)) by (apply in_map_iff; exists (n, y); auto).
  apply (count_occ_In string_dec) in J. lia.
Qed.

(** ** Differences at some names *)
Definition relq := string -> pyval -> pyval -> Prop.
Definition dif (Q : relq) (p q : string * pyval) : Prop :=
  fst p = fst q /\ (Q (fst p) (snd p) (snd q) \/ up_to_lengths (snd p) (snd q)).
Lemma dif_names Q l l' : Forall2 (dif Q) l l' -> map fst l' = map fst l.
Proof. induction 1 as [|p q l l' (E & _) F IH]; cbn; congruence. Qed.
Lemma dif_get Q l l' name : Forall2 (dif Q) l l' ->
  match get_attr name l with
  | Some x => exists x', get_attr name l' = Some x' /\ (Q name x x' \/ up_to_lengths x x')
  | None => get_attr name l' = None
  end.
Proof.
  intros F. induction F as [|[k x] [k' x'] l l' (E & R) F IH]; [reflexivity|]. cbn in E. subst k'. cbn [get_attr].
  destruct (String.eqb_spec k name) as [->|]; [|exact IH]. cbn in R. eauto.
Qed.
Lemma dif_set (Q Q' : relq) n x x' l l' : once n l \/ (forall k y y', ~ Q k y y') -> up_to_lengths x x' -> (forall k y y', Q k y y' -> k = n \/ Q' k y y') ->
  Forall2 (dif Q) l l' -> Forall2 (dif Q') (set_attr n x l) (set_attr n x' l').
Proof.
  intros O U H F. induction F as [|[k y] [k' y'] l l' (E & R) F IH]; cbn [set_attr].
  - constructor; [split; [reflexivity|right; exact U]|constructor].
  - cbn in E. subst k'. destruct (String.eqb_spec k n) as [->|N].
    + constructor; [split; [reflexivity|right; exact U]|]. 
      eapply forall2_in; [|exact F]. intros [a b] [a' b'] I (Ea & Rb). cbn in *. split; [exact Ea|]. destruct Rb as [Rb|Rb]; [|right; exact Rb].
      destruct O as [O|O]; [|destruct (O _ _ _ Rb)].
      destruct (H _ _ _ Rb) as [-> |K]; [exfalso; exact (once_here n y l O _ _ I eq_refl)|left; exact K].
    + constructor; [|apply IH; destruct O as [O|O]; [left; exact (once_tail _ _ _ _ O)|right; exact O]]. split; [reflexivity|]. cbn in *. destruct R as [R|R]; [|right; exact R].
      destruct (H _ _ _ R) as [->|K]; [congruence|left; exact K].
Qed.

(** ** Up to lengths and only computed *)
Lemma up_oc_h h : forall v v', (height v <= h)%nat -> built v = true ->
  (up_to_lengths v v' -> only_computed v v') /\ (header_ok ("header", v) = true -> same_header v v' -> only_computed v v').
Proof.
  assert (Step : forall c p q, header_ok p = true -> (up_to_lengths (snd p) (snd q) -> only_computed (snd p) (snd q)) ->
    (header_ok ("header", snd p) = true -> same_header (snd p) (snd q) -> only_computed (snd p) (snd q)) -> attr_up c p q -> attr_rel c p q).
  { intros c [k x] [k' x'] Hh I1 I2 (E & R). cbn in *. subst k'. split; [reflexivity|]. cbn [fst snd]. destruct R as [R|[R|(-> & _ & R)]].
    - left. apply recomputed_computed, R.
    - right. apply I1, R.
    - right. apply I2; [exact Hh|exact R]. }
  induction h as [|h IH]; intros v v' Hh B; (split; [intros U; pose proof (up_inv _ _ U) as I|intros Ho U; pose proof (header_inv _ _ Ho U) as I]);
    destruct v as [| | | | | | | | | | | |x|c attrs|lc pc l]; try (subst v'; constructor); try (cbn in Hh; lia).
  - destruct I as (x' & -> & I). constructor. apply (proj1 (IH x x' ltac:(cbn in Hh; lia) B)), I.
  - destruct I as (a' & -> & F). constructor. cbn [built] in B. apply andb_prop in B as [B B3]. apply andb_prop in B as [_ B2].
    rewrite forallb_forall in B2, B3. eapply forall2_in; [|exact F]. intros p q J R.
    assert (Hp : (height (snd p) <= h)%nat) by (destruct p as [k x]; pose proof (height_attr c attrs k x J); cbn [snd]; lia).
    apply (Step c p q (B2 p J)); [| |exact R]; apply (IH _ (snd q) Hp (B3 p J)).
  - destruct I as (l' & -> & F). constructor. cbn [built] in B. rewrite forallb_forall in B. eapply forall2_in; [|exact F].
    intros x y J R. apply (proj1 (IH x y ltac:(pose proof (height_item lc pc l x J); lia) (B x J))), R.
  - destruct I as (x' & -> & I). constructor. apply (proj1 (IH x x' ltac:(cbn in Hh; lia) B)), I.
  - destruct I as (Hc & a' & -> & F). constructor. cbn [built] in B. apply andb_prop in B as [_ B].
    rewrite forallb_forall in B. eapply forall2_in; [|exact F]. intros p q J (E & R). split; [exact E|].
    destruct R as [R|R]; [left; rewrite R; destruct Hc as [-> | ->]; reflexivity|right].
    assert (Hp : (height (snd p) <= h)%nat) by (destruct p as [k x]; pose proof (height_attr c attrs k x J); cbn [snd]; lia).
    apply (proj1 (IH _ (snd q) Hp (B p J))), R.
  - destruct I as (l' & -> & F). constructor. cbn [built] in B. rewrite forallb_forall in B. eapply forall2_in; [|exact F].
    intros x y J R. apply (proj1 (IH x y ltac:(pose proof (height_item lc pc l x J); lia) (B x J))), R.
Qed.
Lemma up_oc v v' : built v = true -> up_to_lengths v v' -> only_computed v v'.
Proof. intros B. apply (up_oc_h (height v)); [apply le_n|exact B]. Qed.
Lemma header_oc v v' : built v = true -> header_ok ("header", v) = true -> same_header v v' -> only_computed v v'.
Proof. intros B. apply (up_oc_h (height v)); [apply le_n|exact B]. Qed.
(** Allowed differences: computed attributes, and the length of the header. *)
Definition allowed_names (D : string -> bool) : relq := fun n x x' => D n = true \/ (n = "header" /\ same_header x x').
Lemma dif_rel c attrs attrs' D : forallb (fun p => built (snd p)) attrs = true -> forallb header_ok attrs = true ->
  (forall n, D n = true -> computed c n = true) ->
  Forall2 (dif (allowed_names D)) attrs attrs' -> Forall2 (attr_rel c) attrs attrs'.
Proof.
  rewrite !forallb_forall. intros B Hh H F. eapply forall2_in; [|exact F]. intros [k x] [k' x'] J (E & R). cbn in E. subst k'. split; [reflexivity|].
  cbn [fst snd] in *. specialize (B _ J). specialize (Hh _ J). destruct R as [[R|(-> & R)]|R]; [left; apply H, R| |right; apply up_oc; [exact B|exact R]].
  right. apply header_oc; [exact B|exact Hh|exact R].
Qed.

(** ** One field *)
Lemma up_class v v' : up_to_lengths v v' -> class_of v' = class_of v.
Proof. destruct 1; reflexivity. Qed.
Lemma up_has_pack v v' : up_to_lengths v v' -> has_pack v' = has_pack v.
Proof. destruct 1; reflexivity. Qed.
Lemma up_num v v' : up_to_lengths v v' -> num_of v' = num_of v.
Proof. destruct 1; reflexivity. Qed.
Lemma up_as_int v v' : up_to_lengths v v' -> as_int v' = as_int v.
Proof. destruct 1; reflexivity. Qed.
Lemma up_none v v' : up_to_lengths v v' -> (v = VNone <-> v' = VNone).
Proof. destruct 1; split; congruence. Qed.
Lemma up_generic v v' : up_to_lengths v v' -> as_int (generic_value None v') = as_int (generic_value None v).
Proof. destruct 1; reflexivity. Qed.
Lemma up_flat_h h : forall v v', (height v <= h)%nat -> up_to_lengths v v' -> Forall2 up_to_lengths (flat v) (flat v').
Proof.
  induction h as [|h IH]; intros v v' Hh U; pose proof (up_inv _ _ U) as I;
    destruct v as [| | | | | | | | | | | |x|c attrs|lc pc l]; try (subst v'; constructor; [constructor|constructor]); try (cbn in Hh; lia).
  - destruct I as (x' & -> & I). constructor; [exact U|constructor].
  - destruct I as (x' & -> & I). constructor; [exact U|constructor].
  - destruct I as (l' & -> & F). rewrite !flat_list.
    assert (Hx : forall x, In x l -> (height x <= h)%nat) by (intros x J; pose proof (height_item lc pc l x J); lia).
    clear U Hh. induction F as [|x y l l' R F IHF]; [constructor|]. cbn [flat_map]. apply Forall2_app.
    + apply IH; [apply Hx; left; reflexivity|exact R].
    + apply IHF. intros z J. apply Hx. right. exact J.
Qed.
Lemma up_flat_map l l' : Forall2 up_to_lengths l l' -> Forall2 up_to_lengths (flat_map flat l) (flat_map flat l').
Proof. induction 1 as [|x y l l' R F IH]; [constructor|]. cbn [flat_map]. apply Forall2_app; [eapply up_flat_h; [apply le_n|exact R]|exact IH]. Qed.
Lemma up_check pc l l' : Forall2 up_to_lengths l l' ->
  match check_items pc l with Ok _ => check_items pc l' = Ok l' | Err e => check_items pc l' = Err e end.
Proof.
  induction 1 as [|x y l l' R F IH]; [reflexivity|]. cbn [check_items]. destruct (cid_eqb pc CNone); [reflexivity|].
  rewrite (up_class _ _ R). destruct (subclass (class_of x) pc); [|reflexivity].
  destruct (check_items pc l); rewrite IH; reflexivity.
Qed.
Lemma up_extend pc v v' : up_to_lengths v v' ->
  match list_extend pc v with
  | Ok items => exists items', list_extend pc v' = Ok items' /\ Forall2 up_to_lengths items items'
  | Err e => list_extend pc v' = Err e
  end.
Proof.
  intros U. pose proof (up_inv _ _ U) as I.
  assert (Same : v' = v -> match list_extend pc v with
    | Ok items => exists items', list_extend pc v' = Ok items' /\ Forall2 up_to_lengths items items'
    | Err e => list_extend pc v' = Err e end).
  { intros ->. destruct (list_extend pc v); [|reflexivity]. eexists. split; [reflexivity|]. apply forall2_refl. constructor. }
  destruct v as [| | | | | | | | | | | |x|c attrs|lc pc' l]; try (apply Same, I).
  - destruct I as (x' & -> & _). reflexivity.
  - destruct I as (x' & -> & _). reflexivity.
  - destruct I as (l' & -> & F). unfold list_extend. cbn [iterate bind]. pose proof (up_check pc _ _ (up_flat_map _ _ F)) as C.
    destruct (check_items pc (flat_map flat l)) as [r|e] eqn:K; [|exact C]. apply check_ok in K. subst r.
    eexists. split; [exact C|]. apply up_flat_map, F.
Qed.
Lemma extend_built pc v items : built v = true -> list_extend pc v = Ok items -> forallb built items = true.
Proof.
  intros B. unfold list_extend. destruct v as [| |s|s| | | | | | | | | | |lc pc' l]; cbn [iterate bind]; try discriminate; intros C; apply check_ok in C; subst items.
  - apply built_flat_map. apply forallb_forall. intros x J. apply in_map_iff in J as (y & <- & _). reflexivity.
  - apply built_flat_map. apply forallb_forall. intros x J. apply in_map_iff in J as (y & <- & _). reflexivity.
  - apply built_flat_map. exact B.
Qed.

Section Step.
  Variable rec : pyval -> res bytes.
  Hypothesis Hrec : forall v v', built v = true -> up_to_lengths v v' -> rec v' = rec v.

  Lemma up_bin_pack v v' : built v = true -> up_to_lengths v v' -> bin_pack rec v' = bin_pack rec v.
  Proof.
    intros B U. unfold bin_pack. rewrite (up_has_pack _ _ U). destruct (has_pack v) eqn:P; [apply Hrec; assumption|].
    pose proof (up_inv _ _ U) as I. destruct v as [| | | | | | | | | | | |x|c attrs|lc pc l]; try (subst v'; reflexivity); try discriminate.
    destruct I as (l' & -> & F). reflexivity.
  Qed.

  Lemma up_pack1 cv iv iv' : built iv = true -> up_to_lengths iv iv' -> pack1 rec cv iv' = pack1 rec cv iv.
  Proof.
    intros B U. pose proof (up_inv _ _ U) as I.
    assert (Leaf : iv' = iv -> pack1 rec cv iv' = pack1 rec cv iv) by (intros ->; reflexivity).
    destruct cv as [| | | | | |w er d|k|len d|d m|d|d|d|c ca|lc pc ci]; try reflexivity.
    - destruct iv as [| | | | | | | | | | | |x|k attrs|lc pc l]; try (apply Leaf, I); destruct I as (y & -> & I); cbn [pack1]; unfold uint_pack1; cbn [dot_value].
      + unfold uint_struct. rewrite (up_generic _ _ I). reflexivity.
      + reflexivity.
      + reflexivity.
    - destruct iv as [| | | | | | | | | | | |x|k attrs|lc pc l]; try (apply Leaf, I); destruct I as (y & -> & I); reflexivity.
    - destruct iv as [| | | | | | | | | | | |x|k attrs|lc pc l]; try (apply Leaf, I); destruct I as (y & -> & I); reflexivity.
    - destruct iv as [| | | | | | | | | | | |x|k attrs|lc pc l]; try (apply Leaf, I); destruct I as (y & -> & I); cbn [pack1]; unfold hw_pack1, hw_bytes, equals_zero; cbn [dot_value].
      + rewrite (up_generic _ _ I). destruct (as_int (generic_value None x)) as [z|]; [destruct (z =? 0)|]; reflexivity.
      + reflexivity.
      + reflexivity.
    - destruct iv as [| | | | | | | | | | | |x|k attrs|lc pc l]; try (apply Leaf, I); destruct I as (y & -> & I); reflexivity.
    - cbn [pack1]. assert (N : iv = VNone \/ iv <> VNone) by (destruct iv; auto; right; discriminate). destruct N as [-> | N]; [apply up_none in U as [E _]; rewrite (E eq_refl); reflexivity|].
      assert (N' : iv' <> VNone) by (intros E; apply N, (up_none _ _ U), E).
      replace (match iv' with VNone => d | _ => iv' end) with iv' by (destruct iv'; congruence).
      replace (match iv with VNone => d | _ => iv end) with iv by (destruct iv; congruence).
      apply up_bin_pack; assumption.
    - assert (N : iv = VNone \/ iv <> VNone) by (destruct iv; auto; right; discriminate). destruct N as [-> | N]; [apply up_none in U as [E _]; rewrite (E eq_refl); reflexivity|].
      assert (N' : iv' <> VNone) by (intros E; apply N, (up_none _ _ U), E).
      rewrite !pack1_obj by assumption. rewrite (up_class _ _ U), (up_has_pack _ _ U), (Hrec iv iv' B U). reflexivity.
    - assert (N : iv = VNone \/ iv <> VNone) by (destruct iv; auto; right; discriminate). destruct N as [-> | N]; [apply up_none in U as [E _]; rewrite (E eq_refl); reflexivity|].
      assert (N' : iv' <> VNone) by (intros E; apply N, (up_none _ _ U), E).
      rewrite !pack1_list by assumption. rewrite (up_class _ _ U), (Hrec iv iv' B U).
      destruct (subclass (class_of iv) lc); [reflexivity|]. destruct (cid_eqb lc CFixedTypeList); [reflexivity|].
      pose proof (up_extend pc _ _ U) as X. destruct (list_extend pc iv) as [items|e] eqn:L; [|rewrite X; reflexivity].
      destruct X as (items' & -> & F). cbn [bind]. apply Hrec; [|constructor; exact F]. cbn [built]. eapply extend_built; eassumption.
  Qed.

  (** ** The attributes *)
  Definition none : relq := fun _ _ _ => False.

  Lemma concatM_ext {A B} (f : A -> res bytes) (g : B -> res bytes) l l' :
    Forall2 (fun x y => g y = f x) l l' -> concatM g l' = concatM f l.
  Proof. induction 1 as [|x y l l' E F IH]; [reflexivity|]. cbn [concatM]. rewrite E, IH. reflexivity. Qed.
  Lemma dif_mine Q c l l' : Forall2 (dif Q) l l' -> Forall2 (dif Q) (mine c l) (mine c l').
  Proof.
    induction 1 as [|p q l l' R F IH]; [constructor|]. unfold mine in *. cbn. destruct R as (E & R). rewrite <- E.
    destruct (is_class_attr c (fst p)); [constructor; [split; assumption|exact IH]|exact IH].
  Qed.
  Lemma up_struct_pack c attrs attrs' : good c attrs -> Forall2 (dif none) attrs attrs' ->
    struct_pack rec c attrs' = struct_pack rec c attrs.
  Proof.
    intros (A & Hh & B) F. unfold struct_pack.
    assert (R : Forall2 (attr_rel c) attrs attrs').
    { apply (dif_rel c attrs attrs' (fun _ => false) B Hh); [discriminate|]. eapply forall2_in; [|exact F]. intros p q _ (E & [[]|U]). split; auto. }
    rewrite (valid_rel c attrs attrs' R). destruct (is_valid c attrs) as [[|]|]; cbn [bind]; try reflexivity.
    assert (A' : has_attributes c attrs' = true) by (rewrite (has_attributes_names c attrs attrs' (rel_names _ _ _ R)); exact A).
    rewrite (zip_built c attrs A), (zip_built c attrs' A'). apply concatM_ext, forall2_map.
    eapply forall2_in; [|apply dif_mine, F]. intros p q J (E & [[]|U]). cbn [fst snd]. rewrite <- E.
    apply filter_In in J as [J _]. rewrite forallb_forall in B. apply up_pack1; [apply (B p J)|exact U].
  Qed.

  Variables size' size : pyval -> res Z.
  Hypothesis Hsize' : forall v v', built v = true -> only_computed v v' -> size' v' = size' v.
  Hypothesis Hsize : forall v v', built v = true -> only_computed v v' -> size v' = size v.

  (** The header after update_header_length. *)
  Lemma header_step h h' : built h = true -> header_ok ("header", h) = true -> same_header h h' \/ up_to_lengths h h' ->
    match h with
    | VObj hc a => exists a', h' = VObj hc a' /\ forall s,
        up_to_lengths (VObj hc (set_attr "length" (VInt s) a)) (VObj hc (set_attr "length" (VInt s) a')) /\
        built (VObj hc (set_attr "length" (VInt s) a)) = true /\ header_ok ("header", VObj hc (set_attr "length" (VInt s) a)) = true
    | _ => forall hc a', h' <> VObj hc a'
    end.
  Proof.
    intros B Hh R.
    assert (G : forall hc a, h = VObj hc a -> forall s, good hc (set_attr "length" (VInt s) a) /\ header_ok ("header", VObj hc (set_attr "length" (VInt s) a)) = true /\
      once "length" a /\ (hc = Header01 \/ hc = Header04)).
    { intros hc a -> s. assert (Hc : hc = Header01 \/ hc = Header04) by (unfold header_ok in Hh; cbn in Hh; destruct hc; try discriminate; auto).
      apply good_built in B as Gd. assert (M : is_class_attr hc "length" = true) by (destruct Hc as [-> | ->]; reflexivity).
      destruct (good_has hc a "length" Gd M) as (x & Gx). split; [|split; [|split; [|exact Hc]]].
      - apply good_set; [exact Gd|congruence|reflexivity|reflexivity].
      - destruct Hc as [-> | ->]; reflexivity.
      - destruct Gd as (A & _). eapply once_attr; eassumption. }
    assert (R' : same_header h h') by (destruct R as [R|R]; [exact R|apply sb_weak, R]).
    pose proof (header_inv _ _ Hh R') as I. destruct h as [| | | | | | | | | | | |x|hc a|lc pc l]; try (subst h'; congruence);
      [destruct I as (y & -> & _); congruence| |destruct I as (y & -> & _); congruence].
    destruct I as (_ & a' & -> & F). exists a'. split; [reflexivity|]. intros s. destruct (G hc a eq_refl s) as (G1 & G2 & O & Hc).
    split; [|split; [apply good_built, G1|exact G2]]. apply up_obj_intro.
    pose proof (dif_set (fun n _ _ => n = "length") none "length" (VInt s) (VInt s) a a' (or_introl O) (sb_same _ _) (fun k y y' f => or_introl f) F) as F2.
    eapply forall2_in; [|exact F2]. intros p q _ (E & [[]|R2]). split; auto.
  Qed.

  Definition only_header : relq := allowed_names (fun _ => false).

  Lemma up_message c attrs attrs' : good c attrs -> is_class_attr c "header" = true \/ c = CGenericMessage ->
    Forall2 (dif only_header) attrs attrs' -> message_pack rec size c attrs' = message_pack rec size c attrs.
  Proof.
    intros G M F. pose proof G as (A & Hh & B). unfold message_pack.
    assert (R : Forall2 (attr_rel c) attrs attrs') by (apply (dif_rel c attrs attrs' (fun _ => false) B Hh); [discriminate|exact F]).
    rewrite (Hsize (VObj c attrs) (VObj c attrs')); [|apply good_built, G|constructor; exact R].
    destruct (size (VObj c attrs)) as [s|]; cbn [bind]; [|reflexivity].
    pose proof (dif_get _ _ _ "header" F) as Gh. unfold attr_or_error. destruct (get_attr "header" attrs) as [h|] eqn:E; [|rewrite Gh; reflexivity].
    destruct Gh as (h' & -> & Q). cbn [bind]. destruct (good_get c attrs _ _ G E) as (Bh & Oh).
    assert (Q' : same_header h h' \/ up_to_lengths h h') by (destruct Q as [[Q|(_ & Q)]|Q]; [discriminate|auto|auto]).
    pose proof (header_step h h' Bh Oh Q') as X.
    assert (NotObj : (forall hc a', h' <> VObj hc a') -> match h' with VObj hc ha => struct_pack rec c (set_attr "header" (VObj hc (set_attr "length" (VInt s) ha)) attrs') | _ => Err AttributeError end = Err AttributeError).
    { intros N. destruct h'; try reflexivity. destruct (N _ _ eq_refl). }
    destruct h as [| | | | | | | | | | | |x|hc a|lc pc l]; try (apply NotObj, X).
    destruct X as (a' & -> & X). destruct (X s) as (U & Bs & Os).
    destruct M as [M|M].
    - apply up_struct_pack; [apply good_set; [exact G|congruence|exact Bs|exact Os]|].
      eapply dif_set; [left; eapply once_attr; eassumption|exact U| |exact F]. intros k y y' [K|(K & _)]; [discriminate|left; exact K].
    - subst c. reflexivity.
  Qed.

  (** ** Which attributes are computed *)
  Definition msg (c : cid) : bool :=
    match kind c with
    | KMessage | KErrorMsg01 | KErrorMsg04 | KErrorExp04 | KPacketOut01 | KPacketOut04 | KStatsRequest | KStatsReply
    | KMultipartRequest | KMultipartReply => true
    | _ => false
    end.
  Definition ctable (c : cid) : bool :=
    forallb (fun n => negb (recomputed c n) || (is_class_attr c n &&
      match kind c with
      | KLen _ true | KTyped TInstruction | KTyped TProperty | KSetField04 | KMatch04 => String.eqb n "length"
      | KOxmTLV => String.eqb n "oxm_length" || String.eqb n "oxm_field_and_mask"
      | KPacketOut01 | KPacketOut04 => String.eqb n "actions_len"
      | _ => false
      end)) ["length"; "oxm_length"; "oxm_field_and_mask"; "actions_len"] &&
    Bool.eqb (has_header c) (msg c) && (negb (msg c) || is_class_attr c "header" || cid_eqb c CGenericMessage) &&
    match kind c with
    | KLen _ true | KTyped TInstruction | KTyped TProperty | KSetField04 | KMatch04 => is_class_attr c "length"
    | KOxmTLV => is_class_attr c "oxm_length" && is_class_attr c "oxm_field_and_mask"
    | KPacketOut01 | KPacketOut04 => is_class_attr c "actions_len"
    | KErrorMsg01 => is_class_attr c "data"
    | KStatsRequest | KStatsReply | KMultipartRequest | KMultipartReply => is_class_attr c "body"
    | _ => true
    end.
  Lemma ctable_ok c : ctable c = true.
  Proof. revert c. apply all_classes. vm_compute. reflexivity. Qed.

  Lemma rec_names c n : recomputed c n = true -> In n ["length"; "oxm_length"; "oxm_field_and_mask"; "actions_len"].
  Proof.
    intros H. apply recomputed_computed in H. unfold computed in H.
    assert (E : n = "length" \/ n = "oxm_length" \/ n = "oxm_field_and_mask" \/ n = "actions_len").
    { destruct c; repeat (apply andb_prop in H as [_ H]); try (apply orb_prop in H as [H|H]); apply String.eqb_eq in H; subst n; auto. }
    cbn. intuition.
  Qed.
  Lemma rec_kind c n : recomputed c n = true -> is_class_attr c n = true /\
    match kind c with
    | KLen _ true | KTyped TInstruction | KTyped TProperty | KSetField04 | KMatch04 => n = "length"
    | KOxmTLV => n = "oxm_length" \/ n = "oxm_field_and_mask"
    | KPacketOut01 | KPacketOut04 => n = "actions_len"
    | _ => False
    end.
  Proof.
    intros H. pose proof (ctable_ok c) as T. unfold ctable in T. do 3 apply andb_prop in T as [T _].
    rewrite forallb_forall in T. specialize (T n (rec_names c n H)). rewrite H in T. cbn [negb orb] in T. apply andb_prop in T as [T1 T2].
    split; [exact T1|]. destruct (kind c) as [| |s b|f| | | | | | | | | | | | | | | |]; try discriminate; try (apply String.eqb_eq, T2).
    - destruct b; [apply String.eqb_eq, T2|discriminate].
    - destruct f; [apply String.eqb_eq, T2|apply String.eqb_eq, T2|discriminate].
    - apply orb_prop in T2 as [T2|T2]; apply String.eqb_eq in T2; auto.
  Qed.
  Lemma header_kind c : has_header c = msg c /\ (msg c = true -> is_class_attr c "header" = true \/ c = CGenericMessage).
  Proof.
    pose proof (ctable_ok c) as T. unfold ctable in T. apply andb_prop in T as [T _]. apply andb_prop in T as [T T2]. apply andb_prop in T as [_ T1].
    split; [apply Bool.eqb_prop, T1|]. intros H. rewrite H in T2. cbn [negb orb] in T2. apply orb_prop in T2 as [T2|T2]; [left; exact T2|right].
    apply cid_eqb_eq, T2.
  Qed.
  Lemma own_kind c : match kind c with
    | KLen _ true | KTyped TInstruction | KTyped TProperty | KSetField04 | KMatch04 => is_class_attr c "length" = true
    | KOxmTLV => is_class_attr c "oxm_length" = true /\ is_class_attr c "oxm_field_and_mask" = true
    | KPacketOut01 | KPacketOut04 => is_class_attr c "actions_len" = true
    | KErrorMsg01 => is_class_attr c "data" = true
    | KStatsRequest | KStatsReply | KMultipartRequest | KMultipartReply => is_class_attr c "body" = true
    | _ => True
    end.
  Proof.
    pose proof (ctable_ok c) as T. unfold ctable in T. apply andb_prop in T as [_ T]. destruct (kind c) as [| |s b|f| | | | | | | | | | | | | | | |]; try exact I; try exact T.
    - destruct b; [exact T|exact I].
    - destruct f; [exact T|exact T|exact I].
    - apply andb_prop in T. exact T.
  Qed.

  Definition own (c : cid) : relq := fun n _ _ => recomputed c n = true.
  Lemma up_plain c attrs attrs' : has_header c = false -> Forall2 (attr_up c) attrs attrs' -> Forall2 (dif (own c)) attrs attrs'.
  Proof. intros N F. eapply forall2_in; [|exact F]. intros p q _ (E & [R|[R|(_ & R & _)]]); [split; [exact E|left; exact R]|split; auto|congruence]. Qed.
  Lemma up_any c attrs attrs' : Forall2 (attr_up c) attrs attrs' -> Forall2 (dif (allowed_names (recomputed c))) attrs attrs'.
  Proof. intros F. eapply forall2_in; [|exact F]. intros p q _ (E & [R|[R|(H & _ & R)]]); (split; [exact E|]); [left; left; exact R|auto|left; right; auto]. Qed.
  Lemma dif_sub (Q Q' : relq) l l' : (forall n x x', Q n x x' -> Q' n x x') -> Forall2 (dif Q) l l' -> Forall2 (dif Q') l l'.
  Proof. intros H F. eapply forall2_in; [|exact F]. intros p q _ (E & [R|R]); split; auto. Qed.

  Lemma own_size c attrs attrs' : good c attrs -> Forall2 (attr_up c) attrs attrs' -> Forall2 (attr_rel c) attrs attrs' /\ size (VObj c attrs') = size (VObj c attrs).
  Proof.
    intros (A & Hh & B) F.
    assert (R : Forall2 (attr_rel c) attrs attrs') by (apply (dif_rel c attrs attrs' (recomputed c) B Hh); [apply recomputed_computed|apply up_any, F]).
    split; [exact R|]. apply Hsize; [apply good_built; repeat split; assumption|constructor; exact R].
  Qed.

  Lemma no_header c : match kind c with
    | KMessage | KErrorMsg01 | KErrorMsg04 | KErrorExp04 | KPacketOut01 | KPacketOut04 | KStatsRequest | KStatsReply
    | KMultipartRequest | KMultipartReply => True
    | _ => has_header c = false
    end.
  Proof.
    destruct (header_kind c) as (H & _). rewrite H. unfold msg. destruct (kind c); auto.
  Qed.

  (** A length that is set first. *)
  Lemma up_set_length c attrs attrs' x : good c attrs -> Forall2 (dif (own c)) attrs attrs' ->
    (forall n, recomputed c n = true -> n = "length") -> is_class_attr c "length" = true ->
    built x = true ->
    struct_pack rec c (set_attr "length" x attrs') = struct_pack rec c (set_attr "length" x attrs).
  Proof.
    intros G F H M Bx. destruct (good_has c attrs "length" G M) as (y & Gy). apply up_struct_pack.
    - apply good_set; [exact G|congruence|exact Bx|reflexivity].
    - eapply dif_set; [left; eapply once_attr; [apply G|exact M]|constructor| |exact F]. intros k z z' K. left. apply H, K.
  Qed.

  Lemma up_get c attrs attrs' n : good c attrs -> Forall2 (attr_up c) attrs attrs' -> recomputed c n = false -> n <> "header" ->
    match get_attr n attrs with
    | Some x => exists x', get_attr n attrs' = Some x' /\ up_to_lengths x x' /\ built x = true
    | None => get_attr n attrs' = None
    end.
  Proof.
    intros G F R N. pose proof (dif_get _ _ _ n (up_any c _ _ F)) as X. destruct (get_attr n attrs) as [x|] eqn:E; [|exact X].
    destruct X as (x' & E' & [[Q|(Q & _)]|Q]); [congruence|congruence|]. exists x'. split; [exact E'|]. split; [exact Q|].
    apply (good_get c attrs n x G E).
  Qed.

  Lemma up_message_set c attrs attrs' n x x' : good c attrs -> Forall2 (attr_up c) attrs attrs' ->
    (forall k, recomputed c k = true -> k = n) -> is_class_attr c n = true -> n <> "header" -> up_to_lengths x x' -> built x = true ->
    msg c = true ->
    message_pack rec size c (set_attr n x' attrs') = message_pack rec size c (set_attr n x attrs).
  Proof.
    intros G F H M N U Bx K. destruct (good_has c attrs n G M) as (y & Gy).
    assert (O : once n attrs) by (eapply once_attr; [apply G|exact M]).
    apply up_message.
    - apply good_set; [exact G|congruence|exact Bx|]. unfold header_ok. cbn [fst]. destruct (String.eqb_spec n "header"); [contradiction|reflexivity].
    - apply header_kind, K.
    - eapply dif_set; [left; exact O|exact U| |apply up_any, F]. intros k z z' [R|R]; [left; apply H, R|right; right; exact R].
  Qed.
  Lemma up_message_all c attrs attrs' : good c attrs -> Forall2 (attr_up c) attrs attrs' ->
    (forall k, recomputed c k = false) -> msg c = true -> message_pack rec size c attrs' = message_pack rec size c attrs.
  Proof.
    intros G F H K. apply up_message; [exact G| |].
    - apply header_kind, K.
    - eapply dif_sub; [|apply up_any, F]. intros n x x' [R|R]; [rewrite H in R; discriminate|right; exact R].
  Qed.

  Lemma rec_false c n : (match kind c with
    | KLen _ true | KTyped TInstruction | KTyped TProperty | KSetField04 | KMatch04 => n <> "length"
    | KOxmTLV => n <> "oxm_length" /\ n <> "oxm_field_and_mask"
    | KPacketOut01 | KPacketOut04 => n <> "actions_len"
    | _ => True end) -> recomputed c n = false.
  Proof.
    intros H. destruct (recomputed c n) eqn:R; [|reflexivity]. exfalso. apply rec_kind in R as (_ & R).
    destruct (kind c) as [| |s b|f| | | | | | | | | | | | | | | |]; try contradiction; try congruence.
    - destruct b; [congruence|contradiction].
    - destruct f; congruence.
    - destruct R as [R|R]; destruct H; congruence.
  Qed.

  Lemma up_truthy v v' : built v = true -> up_to_lengths v v' -> truthy size' v' = truthy size' v.
  Proof. intros B U. pose proof (up_oc v v' B U) as O. apply (oc_truthy size' size'); [exact O|]. apply Hsize'; assumption. Qed.

  Lemma up_body_instance reply v v' : up_to_lengths v v' -> body_instance reply v' = body_instance reply v.
  Proof.
    intros U. pose proof (up_inv _ _ U) as I. destruct v as [| | | | | | | | | | | |x|k a|lc pc l]; try (subst v'; reflexivity); destruct I as (x' & -> & _); reflexivity.
  Qed.

  Lemma up_multipart reply c attrs attrs' : good c attrs -> Forall2 (attr_up c) attrs attrs' ->
    (forall n, recomputed c n = false) -> is_class_attr c "body" = true ->
    msg c = true ->
    multipart_pack rec size' size reply c attrs' = multipart_pack rec size' size reply c attrs.
  Proof.
    intros G F R M K. unfold multipart_pack, attr_or_error.
    assert (All : message_pack rec size c attrs' = message_pack rec size c attrs) by (apply up_message_all; assumption).
    assert (S1 : forall b : bytes, message_pack rec size c (set_attr "body" (VBytes b) attrs') = message_pack rec size c (set_attr "body" (VBytes b) attrs)).
    { intros b. apply up_message_set; try assumption; [intros k Q; rewrite R in Q; discriminate|discriminate|constructor|reflexivity]. }
    pose proof (up_get c attrs attrs' "body" G F (R _) ltac:(discriminate)) as X.
    destruct (get_attr "body" attrs) as [x|]; [|rewrite X; reflexivity]. destruct X as (x' & -> & U & Bx). cbn [bind].
    rewrite (up_truthy x x' Bx U). destruct (truthy size' x) as [[|]|]; cbn [bind]; [|exact All|reflexivity].
    assert (Main : (if has_pack x' then do b <- rec x'; message_pack rec size c (set_attr "body" (VBytes b) attrs') else Err UnboundLocalError) =
                   (if has_pack x then do b <- rec x; message_pack rec size c (set_attr "body" (VBytes b) attrs) else Err UnboundLocalError)).
    { rewrite (up_has_pack _ _ U), (Hrec x x' Bx U). destruct (has_pack x); [|reflexivity]. destruct (rec x); cbn [bind]; [apply S1|reflexivity]. }
    pose proof (up_inv _ _ U) as V. destruct x as [| | | | | | | | | | | |y|kc a|lc pc l]; try (subst x'; exact Main);
      destruct V as (y' & -> & V); try exact Main.
    pose proof (up_get c attrs attrs' "multipart_type" G F (R _) ltac:(discriminate)) as Y.
    destruct (get_attr "multipart_type" attrs) as [mt|]; [|rewrite Y; reflexivity]. destruct Y as (mt' & -> & Um & Bm). cbn [bind].
    rewrite (up_body_instance reply mt mt' Um). destruct (body_instance reply mt) as [i|]; cbn [bind]; [|reflexivity].
    destruct i as [| | | | | | | | | | | | | |c0 c1 l0]; try reflexivity.
    pose proof (up_extend c1 _ _ U) as L. destruct (list_extend c1 (VList lc pc l)) as [items|] eqn:EL; [|rewrite L; reflexivity].
    destruct L as (items' & -> & FL). cbn [bind].
    rewrite (Hrec (VList c0 c1 items) (VList c0 c1 items')); [|exact (extend_built c1 _ _ Bx EL)|constructor; exact FL].
    destruct (rec (VList c0 c1 items)); cbn [bind]; [apply S1|reflexivity].
  Qed.

  Lemma up_obj c attrs attrs' : good c attrs -> Forall2 (attr_up c) attrs attrs' ->
    pack_obj rec size' size c attrs' = pack_obj rec size' size c attrs.
  Proof.
    intros G F. unfold pack_obj. pose proof (no_header c) as NH. pose proof (own_kind c) as OK.
    pose proof (rec_kind c) as RK. pose proof (rec_false c) as RF. destruct (own_size c attrs attrs' G F) as (Rl & Sz).
    assert (Struct : has_header c = false -> (forall n, recomputed c n = false) -> struct_pack rec c attrs' = struct_pack rec c attrs).
    { intros H R. apply up_struct_pack; [exact G|]. eapply dif_sub; [|apply (up_plain c _ _ H F)]. intros n x x' Q. unfold own in Q. rewrite R in Q. discriminate. }
    assert (Len : has_header c = false -> (forall n, recomputed c n = true -> n = "length") -> is_class_attr c "length" = true ->
      (do s <- size (VObj c attrs'); struct_pack rec c (set_attr "length" (VInt s) attrs')) =
      (do s <- size (VObj c attrs); struct_pack rec c (set_attr "length" (VInt s) attrs))).
    { intros H R M. rewrite Sz. destruct (size (VObj c attrs)); cbn [bind]; [|reflexivity].
      apply up_set_length; [exact G|apply (up_plain c _ _ H F)|exact R|exact M|reflexivity]. }
    assert (Get : forall n, recomputed c n = false -> n <> "header" ->
      match get_attr n attrs with Some x => exists x', get_attr n attrs' = Some x' /\ up_to_lengths x x' /\ built x = true | None => get_attr n attrs' = None end)
      by (intros n; apply (up_get c attrs attrs' n G F)).
    assert (Body : forall n x, is_class_attr c n = true -> (forall k, recomputed c k = false) -> n <> "header" -> built x = true -> 
      msg c = true -> message_pack rec size c (set_attr n x attrs') = message_pack rec size c (set_attr n x attrs)).
    { intros n x M R N Bx K. apply up_message_set; try assumption; [|constructor]. intros k Q. rewrite R in Q. discriminate. }
    assert (Msg : match kind c with
      | KMessage | KErrorMsg01 | KErrorMsg04 | KErrorExp04 | KPacketOut01 | KPacketOut04 | KStatsRequest | KStatsReply
      | KMultipartRequest | KMultipartReply => msg c = true
      | _ => True
      end) by (unfold msg; destruct (kind c); auto).
    destruct (kind c) as [| |s b|f| | | | | | | | | | | | | | | |] eqn:K; rewrite ?K in *;
      try (apply Struct; [exact NH|intros n; apply RF; exact I]);
      try (apply up_message_all; [exact G|exact F|intros n; apply RF; exact I|unfold msg; rewrite K; reflexivity]).
    - destruct b; [apply Len; [exact NH|intros n H; apply RK, H|exact OK]|apply Struct; [exact NH|intros n; apply RF; exact I]].
    - destruct f; [apply Len; [exact NH|intros n H; apply RK, H|exact OK]|apply Len; [exact NH|intros n H; apply RK, H|exact OK]|
        apply Struct; [exact NH|intros n; apply RF; exact I]].
    - (* set field *)
      unfold setfield_pack, attr_or_error. pose proof (Get "field" (RF "field" ltac:(discriminate)) ltac:(discriminate)) as X.
      destruct (get_attr "field" attrs) as [x|]; [|rewrite X; reflexivity]. destruct X as (x' & -> & U & Bx). cbn [bind].
      rewrite (up_has_pack _ _ U), (Hrec x x' Bx U). destruct (if has_pack x then rec x else Err AttributeError) as [fb|]; cbn [bind]; [|reflexivity].
      rewrite (up_set_length c attrs attrs'); [reflexivity|exact G|apply (up_plain c _ _ NH F)|intros n H; apply RK, H|exact OK|reflexivity].
    - (* OXM *)
      unfold oxm_pack, attr_or_error.
      pose proof (Get "oxm_class" (RF "oxm_class" ltac:(split; discriminate)) ltac:(discriminate)) as X1.
      destruct (get_attr "oxm_class" attrs) as [x1|]; [|rewrite X1; reflexivity]. destruct X1 as (x1' & -> & U1 & B1). cbn [bind].
      pose proof (Get "oxm_field" (RF "oxm_field" ltac:(split; discriminate)) ltac:(discriminate)) as X2.
      destruct (get_attr "oxm_field" attrs) as [x2|]; [|rewrite X2; reflexivity]. destruct X2 as (x2' & -> & U2 & B2). cbn [bind].
      assert (E : oxm_field_int x1' x2' = oxm_field_int x1 x2) by (unfold oxm_field_int; rewrite (up_num _ _ U1), (up_num _ _ U2), (up_as_int _ _ U2); reflexivity).
      rewrite E. destruct (recast ValueError PackException (oxm_field_int x1 x2)) as [fi|]; cbn [bind]; [|reflexivity].
      pose proof (Get "oxm_hasmask" (RF "oxm_hasmask" ltac:(split; discriminate)) ltac:(discriminate)) as X3.
      destruct (get_attr "oxm_hasmask" attrs) as [x3|]; [|rewrite X3; reflexivity]. destruct X3 as (x3' & -> & U3 & B3). cbn [bind].
      rewrite (up_num _ _ U3). destruct (num_of x3) as [h|]; cbn [bind]; [|reflexivity].
      pose proof (Get "oxm_value" (RF "oxm_value" ltac:(split; discriminate)) ltac:(discriminate)) as X4.
      destruct (get_attr "oxm_value" attrs) as [x4|]; [|rewrite X4; reflexivity]. destruct X4 as (x4' & -> & U4 & B4). cbn [bind].
      rewrite (up_bin_pack x4 x4' B4 U4). destruct (bin_pack rec x4) as [pl|]; cbn [bind]; [|reflexivity].
      destruct OK as (M1 & M2). destruct (good_has c attrs _ G M1) as (y1 & Gy1). destruct (good_has c attrs _ G M2) as (y2 & Gy2).
      assert (G1 : good c (set_attr "oxm_field_and_mask" (VInt (fi * 2 + Z.land h 1)) attrs)) by (apply good_set; [exact G|congruence|reflexivity|reflexivity]).
      apply up_struct_pack.
      + destruct (good_has c _ _ G1 M1) as (y3 & Gy3). apply good_set; [exact G1|congruence|reflexivity|reflexivity].
      + apply (dif_set (fun n _ _ => n = "oxm_length")); [left; eapply once_attr; [apply G1|exact M1]|constructor|intros k z z' Q; left; exact Q|].
        eapply dif_set; [left; eapply once_attr; [apply G|exact M2]|constructor| |apply (up_plain c _ _ NH F)].
        intros k z z' Q. destruct (RK k Q) as (_ & [-> | ->]); auto.
    - (* Match *)
      unfold match04_pack. pose proof G as (A & Hh & B). rewrite (oc_struct_size size' c attrs attrs' Hsize' A B Rl).
      destruct (struct_size size' c attrs) as [s|]; cbn [bind]; [|reflexivity]. cbn zeta.
      rewrite (up_set_length c attrs attrs'); [|exact G|apply (up_plain c _ _ NH F)|intros n H; apply RK, H|exact OK|reflexivity].
      destruct (struct_pack rec c (set_attr "length" (VInt s) attrs)); cbn [bind]; [|reflexivity].
      destruct (good_has c attrs _ G OK) as (y & Gy).
      assert (G1 : good c (set_attr "length" (VInt s) attrs)) by (apply good_set; [exact G|congruence|reflexivity|reflexivity]).
      rewrite (Hsize (VObj c (set_attr "length" (VInt s) attrs)) (VObj c (set_attr "length" (VInt s) attrs'))); [reflexivity|apply good_built, G1|].
      constructor. destruct G1 as (A1 & Hh1 & B1). apply (dif_rel c _ _ (fun _ => false) B1 Hh1); [discriminate|].
      eapply dif_set; [left; eapply once_attr; [exact A|exact OK]|constructor| |apply (up_plain c _ _ NH F)]. intros k z z' Q. left. apply RK, Q.
    - (* PacketOut *)
      unfold packet_out_pack, attr_or_error. pose proof (Get "actions" (RF "actions" ltac:(discriminate)) ltac:(discriminate)) as X.
      destruct (get_attr "actions" attrs) as [x|]; [|rewrite X; reflexivity]. destruct X as (x' & -> & U & Bx). cbn [bind].
      pose proof (up_oc x x' Bx U) as O. pose proof (Hsize' x x' Bx O) as Sx. rewrite (up_class _ _ U), Sx.
      assert (E : (match list_item ListOfActions01 with Some pc => do items <- list_init size' pc x'; size' (VList ListOfActions01 pc items) | None => Err TypeError end) =
                  (match list_item ListOfActions01 with Some pc => do items <- list_init size' pc x; size' (VList ListOfActions01 pc items) | None => Err TypeError end)).
      { destruct (list_item ListOfActions01) as [pc|]; [|reflexivity]. pose proof (oc_list_init size' pc x x' O Sx) as L.
        destruct (list_init size' pc x) as [items|] eqn:EL; [|rewrite L; reflexivity]. destruct L as (items' & -> & FL). cbn [bind].
        apply Hsize'; [|constructor; exact FL]. cbn [built]. eapply list_init_built; eassumption. }
      rewrite E. destruct (if subclass (class_of x) ListOfActions01 then _ else _) as [alen|]; cbn [bind]; [|reflexivity].
      apply up_message_set; try assumption; [intros k Q; apply RK, Q|discriminate|apply sb_same|reflexivity].
    - unfold packet_out_pack, attr_or_error. pose proof (Get "actions" (RF "actions" ltac:(discriminate)) ltac:(discriminate)) as X.
      destruct (get_attr "actions" attrs) as [x|]; [|rewrite X; reflexivity]. destruct X as (x' & -> & U & Bx). cbn [bind].
      pose proof (up_oc x x' Bx U) as O. pose proof (Hsize' x x' Bx O) as Sx. rewrite (up_class _ _ U), Sx.
      assert (E : (match list_item ListOfActions04 with Some pc => do items <- list_init size' pc x'; size' (VList ListOfActions04 pc items) | None => Err TypeError end) =
                  (match list_item ListOfActions04 with Some pc => do items <- list_init size' pc x; size' (VList ListOfActions04 pc items) | None => Err TypeError end)).
      { destruct (list_item ListOfActions04) as [pc|]; [|reflexivity]. pose proof (oc_list_init size' pc x x' O Sx) as L.
        destruct (list_init size' pc x) as [items|] eqn:EL; [|rewrite L; reflexivity]. destruct L as (items' & -> & FL). cbn [bind].
        apply Hsize'; [|constructor; exact FL]. cbn [built]. eapply list_init_built; eassumption. }
      rewrite E. destruct (if subclass (class_of x) ListOfActions04 then _ else _) as [alen|]; cbn [bind]; [|reflexivity].
      apply up_message_set; try assumption; [intros k Q; apply RK, Q|discriminate|apply sb_same|reflexivity].
    - (* ErrorMsg *)
      assert (R : forall k, recomputed c k = false) by (intros k; apply RF; exact I).
      assert (All : message_pack rec size c attrs' = message_pack rec size c attrs) by (apply up_message_all; assumption).
      unfold error_pack01, attr_or_error. pose proof (Get "data" (R _) ltac:(discriminate)) as X.
      destruct (get_attr "data" attrs) as [x|]; [|rewrite X; reflexivity]. destruct X as (x' & -> & U & Bx). cbn [bind].
      rewrite (up_has_pack _ _ U), (Hrec x x' Bx U).
      assert (S1 : forall b : bytes, message_pack rec size c (set_attr "data" (VBytes b) attrs') = message_pack rec size c (set_attr "data" (VBytes b) attrs))
        by (intros b; apply Body; try assumption; try discriminate; reflexivity).
      assert (Main : (if has_pack x then do b <- rec x; message_pack rec size c (set_attr "data" (VBytes b) attrs') else Err AttributeError) =
                     (if has_pack x then do b <- rec x; message_pack rec size c (set_attr "data" (VBytes b) attrs) else Err AttributeError)).
      { destruct (has_pack x); [|reflexivity]. destruct (rec x); cbn [bind]; [apply S1|reflexivity]. }
      pose proof (up_inv _ _ U) as V. destruct x as [| | | | | | | | | | | |y|kc a|lc pc l]; try (subst x'; first [exact All|exact Main]);
        destruct V as (y' & -> & _); exact Main.
    - (* StatsRequest *)
      assert (R : forall k, recomputed c k = false) by (intros k; apply RF; exact I).
      unfold stats_request_pack, attr_or_error. pose proof (Get "body" (R _) ltac:(discriminate)) as X.
      destruct (get_attr "body" attrs) as [x|]; [|rewrite X; reflexivity]. destruct X as (x' & -> & U & Bx). cbn [bind].
      rewrite (up_has_pack _ _ U), (Hrec x x' Bx U). destruct (has_pack x); [|apply up_message_all; assumption].
      destruct (rec x); cbn [bind]; [|reflexivity]. apply Body; try assumption; try discriminate; reflexivity.
    - (* StatsReply *)
      assert (R : forall k, recomputed c k = false) by (intros k; apply RF; exact I).
      unfold stats_reply_pack, attr_or_error. pose proof (Get "body" (R _) ltac:(discriminate)) as X.
      destruct (get_attr "body" attrs) as [x|]; [|rewrite X; reflexivity]. destruct X as (x' & -> & U & Bx). cbn [bind].
      rewrite (up_has_pack _ _ U), (Hrec x x' Bx U), (up_truthy x x' Bx U). destruct (truthy size' x) as [t|]; cbn [bind]; [|reflexivity].
      destruct (t && has_pack x); [|apply up_message_all; assumption].
      destruct (rec x); cbn [bind]; [|reflexivity]. apply Body; try assumption; try discriminate; reflexivity.
    - apply (up_multipart false); [exact G|exact F|intros n; apply RF; exact I|exact OK|unfold msg; rewrite K; reflexivity].
    - apply (up_multipart true); [exact G|exact F|intros n; apply RF; exact I|exact OK|unfold msg; rewrite K; reflexivity].
  Qed.
End Step.

Lemma up_pack0 n : forall v v', built v = true -> up_to_lengths v v' -> pack0 n v' = pack0 n v.
Proof.
  induction n as [|n IH]; [reflexivity|]. intros v v' B U. pose proof (up_inv _ _ U) as I.
  destruct v as [| | | | | | | | | | | |x|c attrs|lc pc l]; try (subst v'; reflexivity).
  - destruct I as (x' & -> & I). cbn [pack0]. apply up_bin_pack; [exact IH|exact B|exact I].
  - destruct I as (a' & -> & F). cbn [pack0]. apply up_obj; [exact IH|apply oc_size|apply (oc_size (S n))|apply good_built, B|exact F].
  - destruct I as (l' & -> & F). cbn [pack0]. destruct (cid_eqb lc CList); [reflexivity|]. apply concatM_ext.
    cbn [built] in B. rewrite forallb_forall in B. eapply forall2_in; [|exact F]. intros x y J R. cbn beta. rewrite (up_has_pack _ _ R), (IH x y (B x J) R). reflexivity.
Qed.
Lemma up_pack v v' : built v = true -> up_to_lengths v v' -> pack v' = pack v.
Proof.
  intros B U. pose proof (pack_fuel v) as N. set (k := (FUEL + height v)%nat) in *. clearbody k.
  pose proof (up_pack0 k v v' B U) as E. rewrite (pack_of k v N). rewrite <- E. apply pack_of. rewrite E. exact N.
Qed.
Lemma up_size v v' : built v = true -> up_to_lengths v v' -> get_size v' = get_size v.
Proof. intros B U. apply size_again; [exact B|apply up_oc; assumption]. Qed.
