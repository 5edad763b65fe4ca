(** get_size and pack always have enough fuel. *)
From Coq Require Import ZArith List Bool String Lia.
From Verif Require Import Base BaseFacts PyText Ids PyVal Classes Interp Spec ClassFacts FuelFacts.
Import ListNotations.
Open Scope string_scope.
Open Scope list_scope.
Open Scope Z_scope.

Definition nf {A} (r : res A) : Prop := r <> Err OutOfFuel.

Lemma nf_ok {A} (a : A) : nf (Ok a).
Proof. discriminate. Qed.
Lemma nf_bind {A B} (r : res A) (f : A -> res B) :
  nf r -> (forall a, r = Ok a -> nf (f a)) -> nf (bind r f).
Proof. unfold nf. destruct r as [a|e]; cbn; intros H G; [apply G; reflexivity|congruence]. Qed.
Lemma nf_bind' {A B} (r : res A) (f : A -> res B) :
  nf r -> (forall a, nf (f a)) -> nf (bind r f).
Proof. intros H G. apply nf_bind; auto. Qed.
Lemma nf_recast {A} x y (r : res A) : y <> OutOfFuel -> nf r -> nf (recast x y r).
Proof. unfold nf. destruct r as [a|e]; cbn; intros Hy H; [discriminate|]. destruct (exn_eqb e x); congruence. Qed.
Lemma nf_mapM {A B} (f : A -> res B) l : (forall a, nf (f a)) -> nf (mapM f l).
Proof.
  intros H. induction l as [|a l IH]; cbn [mapM]; [apply nf_ok|].
  apply nf_bind'; [apply H|intros b]. apply nf_bind'; [exact IH|intros; apply nf_ok].
Qed.
Lemma nf_concatM {A} (f : A -> res bytes) l : (forall a, In a l -> nf (f a)) -> nf (concatM f l).
Proof.
  intros H. induction l as [|a l IH]; cbn [concatM]; [apply nf_ok|].
  apply nf_bind'; [apply H; left; reflexivity|intros b].
  apply nf_bind'; [apply IH; intros; apply H; right; assumption|intros; apply nf_ok].
Qed.
Lemma nf_sumM {A} (f : A -> res Z) l : (forall a, In a l -> nf (f a)) -> nf (sumM f l).
Proof.
  intros H. induction l as [|a l IH]; cbn [sumM]; [apply nf_ok|].
  apply nf_bind'; [apply H; left; reflexivity|intros b].
  apply nf_bind'; [apply IH; intros; apply H; right; assumption|intros; apply nf_ok].
Qed.

Ltac nf_step :=
  match goal with
  | |- nf (Ok _) => apply nf_ok
  | |- nf (Err _) => discriminate
  | |- nf (recast _ _ _) => apply nf_recast; [discriminate|]
  | |- nf (bind _ _) => apply nf_bind'; [|intros ?]
  | |- nf (mapM _ _) => apply nf_mapM; intros ?
  | |- nf (match ?x with _ => _ end) => destruct x
  end.
Ltac nf_solve := repeat nf_step.

Lemma nf_struct_pack_u w z : nf (struct_pack_u w z).
Proof. unfold struct_pack_u. nf_solve. Qed.
Lemma nf_struct_unpack_u w b o : nf (struct_unpack_u w b o).
Proof. unfold struct_unpack_u. cbv zeta. nf_solve. Qed.
Lemma nf_struct_pack_us w l : nf (struct_pack_us w l).
Proof. induction l; cbn [struct_pack_us]; [apply nf_ok|]. apply nf_bind'; [apply nf_struct_pack_u|]. intros. nf_solve. exact IHl. Qed.
Lemma nf_struct_pack_seq w n l : nf (struct_pack_seq w n l).
Proof. unfold struct_pack_seq. nf_step; [apply nf_struct_pack_us|discriminate]. Qed.
Lemma nf_struct_unpack_seq w n l : nf (struct_unpack_seq w n l).
Proof. unfold struct_unpack_seq. nf_solve. Qed.
Lemma nf_py_int b s : nf (py_int b s).
Proof. unfold py_int. nf_solve. Qed.

Lemma nf_num_of v : nf (num_of v).
Proof. unfold num_of. nf_solve. Qed.
Lemma nf_attr name attrs : nf (attr_or_error name attrs).
Proof. unfold attr_or_error. nf_solve. Qed.
Lemma nf_uint_struct w v : nf (uint_struct w v).
Proof. unfold uint_struct. nf_step; [|discriminate]. nf_step. apply nf_struct_pack_u. Qed.
Lemma nf_uint_pack1 w er d iv : nf (uint_pack1 w er d iv).
Proof. unfold uint_pack1. destruct iv; try apply nf_uint_struct; destruct (dot_value _); apply nf_uint_struct. Qed.
Lemma nf_char_bytes len v : nf (char_bytes len v).
Proof. unfold char_bytes. cbv zeta. nf_solve. Qed.
Lemma nf_char_pack1 len d iv : nf (char_pack1 len d iv).
Proof. unfold char_pack1. destruct iv; apply nf_char_bytes. Qed.
Lemma nf_ip_bytes v : nf (ip_bytes v).
Proof.
  unfold ip_bytes. destruct v; try discriminate. cbv zeta.
  apply nf_bind'; [apply nf_mapM; intros; apply nf_py_int|]. intros. nf_step. apply nf_struct_pack_seq.
Qed.
Lemma nf_ip_pack1 d iv : nf (ip_pack1 d iv).
Proof. unfold ip_pack1. destruct iv; apply nf_ip_bytes. Qed.
Lemma nf_hw_bytes v : nf (hw_bytes v).
Proof.
  unfold hw_bytes. cbv zeta. destruct (if equals_zero v then _ else _); try discriminate.
  apply nf_bind'; [apply nf_mapM; intros; apply nf_py_int|]. intros. nf_step. apply nf_struct_pack_seq.
Qed.
Lemma nf_hw_pack1 d iv : nf (hw_pack1 d iv).
Proof. unfold hw_pack1. destruct iv; apply nf_hw_bytes. Qed.
Lemma nf_dpid_bytes v : nf (dpid_bytes v).
Proof.
  unfold dpid_bytes. destruct v; try discriminate.
  apply nf_bind'; [apply nf_mapM; intros; apply nf_py_int|]. intros. apply nf_struct_pack_seq.
Qed.
Lemma nf_dpid_pack1 d iv : nf (dpid_pack1 d iv).
Proof. unfold dpid_pack1. destruct iv; apply nf_dpid_bytes. Qed.
Lemma nf_check_items pc l : nf (check_items pc l).
Proof.
  induction l; cbn [check_items]; [apply nf_ok|]. nf_step; [discriminate|]. nf_step; [|discriminate].
  nf_step; [exact IHl|apply nf_ok].
Qed.
Lemma nf_list_extend pc v : nf (list_extend pc v).
Proof.
  unfold list_extend. apply nf_bind'; [unfold iterate; nf_solve|]. intros. apply nf_check_items.
Qed.
Lemma nf_oxm_field_int a b : nf (oxm_field_int a b).
Proof.
  unfold oxm_field_int. destruct (num_of a) as [z|]; [|nf_solve].
  destruct (num_of b); nf_solve.
Qed.
Lemma nf_enum_call e z : nf (enum_call e z).
Proof. unfold enum_call. nf_solve. Qed.
Lemma nf_body_instance r mt : nf (body_instance r mt).
Proof.
  unfold body_instance. cbv zeta. destruct mt; nf_solve; apply nf_enum_call.
Qed.
Lemma nf_is_valid c attrs : nf (is_valid c attrs).
Proof.
  unfold is_valid, valid_in_port. destruct (kind c); try apply nf_ok;
    (apply nf_bind'; [apply nf_attr|intros]; apply nf_bind'; [apply nf_num_of|intros]; apply nf_ok).
Qed.

(** ** Heights *)

Lemma list_max_in {A} (f : A -> nat) l x : In x l -> (f x <= list_max (map f l))%nat.
Proof.
  induction l as [|y l IH]; cbn; [tauto|]. intros [->|H]; [lia|]. specialize (IH H).
  unfold list_max in IH. lia.
Qed.
Lemma list_max_bound {A} (f : A -> nat) l n :
  (forall x, In x l -> (f x <= n)%nat) -> (list_max (map f l) <= n)%nat.
Proof.
  induction l as [|y l IH]; cbn; intros H; [lia|].
  assert (f y <= n)%nat by (apply H; auto).
  assert (list_max (map f l) <= n)%nat by (apply IH; auto). unfold list_max in *. lia.
Qed.
Lemma height_list lc pc items n :
  (forall x, In x items -> (height x <= n)%nat) -> (height (VList lc pc items) <= S n)%nat.
Proof. intros H. cbn [height]. apply le_n_S, list_max_bound, H. Qed.
Lemma height_item lc pc items x : In x items -> (S (height x) <= height (VList lc pc items))%nat.
Proof. intros H. cbn [height]. apply le_n_S, list_max_in, H. Qed.
Lemma height_attr c attrs k x : In (k, x) attrs -> (S (S (S (height x))) <= height (VObj c attrs))%nat.
Proof.
  intros H. cbn [height]. do 3 apply le_n_S.
  apply (list_max_in (fun p : string * pyval => height (snd p)) attrs (k, x) H).
Qed.

Lemma flat_list lc pc items : flat (VList lc pc items) = flat_map flat items.
Proof. reflexivity. Qed.
Lemma flat_height h : forall v x, (height v <= h)%nat -> In x (flat v) -> (height x <= h)%nat.
Proof.
  induction h as [|h IH]; intros v x H I;
    (destruct v as [| | | | | | | | | | | | | |lc pc items]; try (destruct I as [<-|[]]; exact H)).
  - cbn [height] in H. lia.
  - rewrite flat_list in I. apply in_flat_map in I as (y & Iy & Ix).
    pose proof (height_item lc pc items y Iy).
    assert (height x <= h)%nat; [|lia]. apply (IH y); [lia|exact Ix].
Qed.
Lemma flat_map_height h items x : (forall y, In y items -> (height y <= h)%nat) ->
  In x (flat_map flat items) -> (height x <= h)%nat.
Proof. intros H I. apply in_flat_map in I as (y & Iy & Ix). apply (flat_height h y); auto. Qed.
Lemma check_items_same pc l r : check_items pc l = Ok r -> r = l.
Proof.
  revert r. induction l as [|x l IH]; cbn [check_items]; intros r H; [congruence|].
  destruct (cid_eqb pc CNone); [discriminate|]. destruct (subclass _ _); [|discriminate].
  destruct (check_items pc l) as [q|]; cbn in H; [|discriminate].
  rewrite (IH q eq_refl) in H. congruence.
Qed.
Lemma list_init_height rec pc v items h : list_init rec pc v = Ok items ->
  (height v <= h)%nat -> forall x, In x items -> (height x <= h)%nat.
Proof.
  intros H Hv x I. unfold list_init in H.
  destruct v as [| | | | | | | | | | | | | |lc' pc' its];
    try (match type of H with bind ?t _ = _ => destruct t as [[]|]; cbn [bind] in H end;
         [apply check_items_same in H; subst items; destruct I as [<-|[]]; exact Hv
         |injection H as <-; destruct I|discriminate]).
  apply check_items_same in H. subst items. eapply flat_map_height; [|exact I].
  intros y Iy. pose proof (height_item lc' pc' its y Iy). lia.
Qed.
Lemma list_extend_height pc v items h : list_extend pc v = Ok items ->
  (height v <= h)%nat -> forall x, In x items -> (height x <= h)%nat.
Proof.
  intros H Hv x I. unfold list_extend in H. destruct (iterate v) as [its|] eqn:E; [|discriminate].
  cbn [bind] in H. apply check_items_same in H. subst items. eapply flat_map_height; [|exact I].
  intros y Iy. destruct v; cbn in E; try discriminate; injection E as <-.
  - apply in_map_iff in Iy as (c & <- & _). cbn. lia.
  - apply in_map_iff in Iy as (c & <- & _). cbn. lia.
  - match type of Iy with In _ ?l => pose proof (height_item lc pc0 l y Iy) end. lia.
Qed.

(** ** Class attributes *)

Definition nfb {A} (r : res A) : bool := match r with Err OutOfFuel => false | _ => true end.
Lemma nfb_ok {A} (r : res A) : nfb r = true -> nf r.
Proof. unfold nf, nfb. destruct r as [|[]]; congruence. Qed.

Definition CFUEL : nat := 20.
Lemma nf_mono_size n m v : (n <= m)%nat -> nf (size0 n v) -> nf (size0 m v).
Proof. intros L H. destruct (size0_mono n m v L) as [E|E]; [contradiction|rewrite E; exact H]. Qed.
Lemma nf_mono_pack n m v : (n <= m)%nat -> nf (pack0 n v) -> nf (pack0 m v).
Proof. intros L H. destruct (pack0_mono n m v L) as [E|E]; [contradiction|rewrite E; exact H]. Qed.
Lemma class_attr_size c cv n : In cv (map snd (class_attrs c)) -> (CFUEL <= n)%nat -> nf (size0 n cv).
Proof.
  intros I L. apply (nf_mono_size CFUEL n cv L), nfb_ok.
  assert (G : forallb (fun cv => nfb (size0 CFUEL cv)) (map snd (class_attrs c)) = true).
  { clear I. revert c. apply all_classes. vm_compute. reflexivity. }
  rewrite forallb_forall in G. exact (G cv I).
Qed.
Lemma class_attr_pack c cv n : In cv (map snd (class_attrs c)) -> (CFUEL <= n)%nat -> nf (pack0 n cv).
Proof.
  intros I L. apply (nf_mono_pack CFUEL n cv L), nfb_ok.
  assert (G : forallb (fun cv => nfb (pack0 CFUEL cv)) (map snd (class_attrs c)) = true).
  { clear I. revert c. apply all_classes. vm_compute. reflexivity. }
  rewrite forallb_forall in G. exact (G cv I).
Qed.
Definition plain_binb (cv : pyval) : bool := match cv with VBin d => negb (has_pack d) | _ => true end.
Lemma class_attr_bin c cv : In cv (map snd (class_attrs c)) ->
  match cv with VBin d => has_pack d = false | _ => True end.
Proof.
  intros I. assert (G : forallb plain_binb (map snd (class_attrs c)) = true).
  { clear I. revert c. apply all_classes. vm_compute. reflexivity. }
  rewrite forallb_forall in G. specialize (G cv I). destruct cv; auto. apply negb_true_iff. exact G.
Qed.

(** ** get_size *)

Lemma nf_truthy f v : nf (f v) -> nf (truthy f v).
Proof. intros H. unfold truthy. destruct v; try apply nf_ok; (apply nf_bind'; [exact H|intros; apply nf_ok]). Qed.
Lemma nf_list_init f pc v : nf (f v) -> nf (list_init f pc v).
Proof.
  intros H. unfold list_init. destruct v;
    try (apply nf_bind'; [apply nf_truthy, H|intros []; [apply nf_check_items|apply nf_ok]]).
  apply nf_check_items.
Qed.
Lemma nf_bin_size f v : nf (f v) -> nf (bin_size f v).
Proof. intros H. unfold bin_size. destruct (has_pack v); [exact H|]. nf_solve. Qed.
Lemma nf_bin_pack f v : nf (f v) -> nf (bin_pack f v).
Proof. intros H. unfold bin_pack. destruct (has_pack v); [exact H|]. nf_solve. Qed.

Lemma nf_size1 n h c cv iv : In cv (map snd (class_attrs c)) -> (CFUEL <= n)%nat -> (height iv <= h)%nat ->
  (forall v, (height v <= S h)%nat -> nf (size0 n v)) -> nf (size1 (size0 n) cv iv).
Proof.
  intros I L Hv R. pose proof (class_attr_size c cv n I L) as N. pose proof (class_attr_bin c cv I) as T3.
  assert (Ni : nf (size0 n iv)) by (apply R; lia).
  unfold size1. destruct cv; try exact N.
  - unfold bin_size. destruct iv;
      try (match goal with |- context [has_pack ?x] => destruct (has_pack x) eqn:HP end;
           [exact Ni|nf_solve]).
    rewrite T3. nf_solve.
  - destruct iv; try exact N;
      destruct (kind c0); try exact N; try (destruct (subclass _ _); [exact Ni|discriminate]).
  - destruct iv; try exact N;
      (destruct (cid_eqb lc CFixedTypeList); [apply nf_ok|];
       apply nf_bind; [apply nf_list_init, Ni|]; intros its Hi; apply R; apply height_list;
       exact (list_init_height _ _ _ _ h Hi Hv)).
Qed.

Lemma zip_in c attrs p : In p (zip_attrs c attrs) ->
  In (fst p) (map snd (class_attrs c)) /\ exists k, In (k, snd p) attrs.
Proof.
  unfold zip_attrs. destruct p as [a b]. intros H. cbn. split.
  - apply in_combine_l in H. exact H.
  - apply in_combine_r in H. apply in_map_iff in H as ([k x] & <- & I).
    apply filter_In in I as [I _]. exists k. exact I.
Qed.

Lemma nf_struct_size n h c attrs : (forall k x, In (k, x) attrs -> (height x <= h)%nat) ->
  (CFUEL <= n)%nat -> (forall v, (height v <= S h)%nat -> nf (size0 n v)) ->
  nf (struct_size (size0 n) c attrs).
Proof.
  intros H L R. unfold struct_size. apply nf_sumM. intros p I.
  apply zip_in in I as [I1 [k I2]]. apply (nf_size1 n h c); auto. eapply H, I2.
Qed.

Lemma size0_obj n c attrs : size0 (S n) (VObj c attrs) =
  match kind c with
  | KAction04 | KSetField04 | KMatch04 => do s <- struct_size (size0 n) c attrs; Ok (ceil8 s)
  | KBucket => do l <- attr_or_error "length" attrs;
               match l with VNone => struct_size (size0 n) c attrs | _ => num_of l end
  | _ => struct_size (size0 n) c attrs
  end.
Proof. reflexivity. Qed.

Lemma nf_size_obj n h c attrs : (forall k x, In (k, x) attrs -> (height x <= h)%nat) ->
  (CFUEL <= n)%nat -> (forall v, (height v <= S h)%nat -> nf (size0 n v)) ->
  nf (size0 (S n) (VObj c attrs)).
Proof.
  intros H L R. pose proof (nf_struct_size n h c attrs H L R) as N. rewrite size0_obj.
  destruct (kind c); try exact N; try (apply nf_bind'; [exact N|intros; apply nf_ok]).
  apply nf_bind'; [apply nf_attr|]. intros l. destruct l; try exact N; apply nf_num_of.
Qed.

Lemma attrs_height c attrs h : (height (VObj c attrs) <= S (S (S h)))%nat ->
  forall k x, In (k, x) attrs -> (height x <= h)%nat.
Proof. intros H k x I. pose proof (height_attr c attrs k x I). lia. Qed.

Lemma size_total h : forall v n, (height v <= h)%nat -> (h + S CFUEL <= n)%nat -> nf (size0 n v).
Proof.
  induction h as [|h IH]; intros v n Hv Hn; (destruct n as [|n]; [lia|]);
    destruct v; try discriminate.
  - cbn [height] in Hv. lia.
  - cbn [height] in Hv. lia.
  - cbn [height] in Hv. lia.
  - change (nf (bin_size (size0 n) v)). apply nf_bin_size, IH; [cbn [height] in Hv|]; lia.
  - destruct h as [|[|h]]; try (cbn [height] in Hv; lia).
    apply (nf_size_obj n h); [apply (attrs_height c attrs h Hv)|lia|].
    intros v Hh. apply IH; lia.
  - change (nf (if cid_eqb lc CList then Err AttributeError
                else match items with
                     | [] => Ok 0
                     | x :: _ => if is_generic_type x then do s <- size0 n x; Ok (zlen items * s)
                                 else sumM (size0 n) items
                     end)).
    destruct (cid_eqb lc CList); [discriminate|]. destruct items as [|x tl]; [apply nf_ok|].
    assert (R : forall y, In y (x :: tl) -> nf (size0 n y)).
    { intros y I. pose proof (height_item lc pc (x :: tl) y I). apply IH; lia. }
    destruct (is_generic_type x).
    + apply nf_bind'; [apply R; left; reflexivity|intros; apply nf_ok].
    + apply nf_sumM. exact R.
Qed.

(** ** pack *)

Lemma nf_pack1 n h c cv iv : In cv (map snd (class_attrs c)) -> (CFUEL <= n)%nat -> (height iv <= h)%nat ->
  (forall v, (height v <= S h)%nat -> nf (pack0 n v)) -> nf (pack1 (pack0 n) cv iv).
Proof.
  intros I L Hv R. pose proof (class_attr_pack c cv n I L) as N. pose proof (class_attr_bin c cv I) as T3.
  assert (Ni : nf (pack0 n iv)) by (apply R; lia).
  unfold pack1. destruct cv; try discriminate.
  - apply nf_uint_pack1.
  - apply nf_char_pack1.
  - apply nf_ip_pack1.
  - apply nf_hw_pack1.
  - apply nf_dpid_pack1.
  - unfold bin_pack. destruct iv;
      try (match goal with |- context [has_pack ?x] => destruct (has_pack x) eqn:HP end;
           [exact Ni|nf_solve]).
    rewrite T3. nf_solve.
  - destruct iv; try exact N;
      destruct (kind c0); try exact N; try (destruct (subclass _ _); [exact Ni|discriminate]);
      (destruct (has_pack _); [exact Ni|discriminate]).
  - destruct iv; try exact N;
      (destruct (subclass _ _); [exact Ni|];
       destruct (cid_eqb lc CFixedTypeList); [discriminate|];
       apply nf_bind; [apply nf_list_extend|]; intros its Hi; apply R; apply height_list;
       exact (list_extend_height _ _ _ h Hi Hv)).
Qed.

Lemma nf_struct_pack n h c attrs : (forall k x, In (k, x) attrs -> (height x <= h)%nat) ->
  (CFUEL <= n)%nat -> (forall v, (height v <= S h)%nat -> nf (pack0 n v)) ->
  nf (struct_pack (pack0 n) c attrs).
Proof.
  intros H L R. unfold struct_pack. apply nf_bind'; [apply nf_is_valid|]. intros []; [|discriminate].
  apply nf_concatM. intros p I.
  apply zip_in in I as [I1 [k I2]]. apply (nf_pack1 n h c); auto. eapply H, I2.
Qed.

Lemma set_attr_in name x attrs k y : In (k, y) (set_attr name x attrs) -> y = x \/ In (k, y) attrs.
Proof.
  induction attrs as [|[n v] tl IH]; cbn; [intros [H|[]]; left; congruence|].
  destruct (String.eqb n name); cbn.
  - intros [H|H]; [left; congruence|auto].
  - intros [H|H]; [auto|]. destruct (IH H); auto.
Qed.
Lemma set_attr_height name x attrs h : (forall k y, In (k, y) attrs -> (height y <= h)%nat) ->
  (height x <= h)%nat -> forall k y, In (k, y) (set_attr name x attrs) -> (height y <= h)%nat.
Proof. intros H Hx k y I. destruct (set_attr_in _ _ _ _ _ I) as [->|J]; eauto. Qed.
Lemma get_attr_In name attrs x : get_attr name attrs = Some x -> In (name, x) attrs.
Proof.
  induction attrs as [|[n v] tl IH]; cbn; [discriminate|].
  destruct (String.eqb_spec n name); [|auto]. intros H. left. congruence.
Qed.
Lemma attr_height name attrs x h : attr_or_error name attrs = Ok x ->
  (forall k y, In (k, y) attrs -> (height y <= h)%nat) -> (height x <= h)%nat.
Proof.
  unfold attr_or_error. destruct (get_attr name attrs) eqn:E; [|discriminate].
  intros [= ->] H. eapply H, get_attr_In, E.
Qed.

Section Pack.
  Context (n h : nat) (c : cid).
  Hypothesis L : (h + S CFUEL <= n)%nat.
  Hypothesis R : forall v, (height v <= S (S h))%nat -> nf (pack0 n v).
  Hypothesis S1 : forall v, (height v <= S (S h))%nat -> nf (size0 n v).

  Definition low (attrs : list (string * pyval)) : Prop :=
    forall k y, In (k, y) attrs -> (height y <= S h)%nat.

  Lemma nf_sp attrs : low attrs -> nf (struct_pack (pack0 n) c attrs).
  Proof. intros H. apply (nf_struct_pack n (S h)); [exact H|unfold CFUEL in *; lia|exact R]. Qed.
  Lemma nf_so attrs : low attrs -> nf (size0 (S n) (VObj c attrs)).
  Proof. intros H. apply (nf_size_obj n (S h)); [exact H|unfold CFUEL in *; lia|exact S1]. Qed.
  Lemma low_set name x attrs : low attrs -> (height x <= S h)%nat -> low (set_attr name x attrs).
  Proof. intros H Hx. exact (set_attr_height name x attrs (S h) H Hx). Qed.

  Lemma nf_message attrs : low attrs -> nf (message_pack (pack0 n) (size0 (S n)) c attrs).
  Proof.
    intros H. unfold message_pack. apply nf_bind'; [apply nf_so, H|]. intros s.
    apply nf_bind; [apply nf_attr|]. intros hd Eh. destruct hd; try discriminate.
    apply nf_sp, low_set; [exact H|]. pose proof (attr_height _ _ _ (S h) Eh H) as B.
    cbn [height] in *. enough (list_max (map (fun p : string * pyval => height (snd p))
      (set_attr "length" (VInt s) attrs0)) <= list_max (map (fun p : string * pyval => height (snd p)) attrs0))%nat by lia.
    apply list_max_bound. intros [k y] I.
    destruct (set_attr_in _ _ _ _ _ I) as [->|J]; [cbn; lia|].
    apply (list_max_in (fun p : string * pyval => height (snd p)) attrs0 (k, y) J).
  Qed.

  Lemma nf_packed attrs x (g : bytes -> pyval) name : low attrs -> (height x <= S (S h))%nat ->
    (forall b, (height (g b) <= S h)%nat) ->
    nf (do b <- pack0 n x; message_pack (pack0 n) (size0 (S n)) c (set_attr name (g b) attrs)).
  Proof. intros H Hx Hg. apply nf_bind'; [apply R, Hx|]. intros b. apply nf_message, low_set; auto. Qed.

  Lemma nf_multipart reply attrs : low attrs ->
    nf (multipart_pack (pack0 n) (size0 n) (size0 (S n)) reply c attrs).
  Proof.
    intros H. unfold multipart_pack. apply nf_bind; [apply nf_attr|]. intros body Eb.
    pose proof (attr_height _ _ _ _ Eb H) as B.
    apply nf_bind'; [apply nf_truthy, S1; lia|]. intros []; [|apply nf_message, H].
    destruct body; try (destruct (has_pack _); [|discriminate]; apply nf_packed; [exact H|lia|intros; cbn; lia]).
    apply nf_bind'; [apply nf_attr|]. intros mt. apply nf_bind'; [apply nf_body_instance|].
    intros inst. destruct inst; try discriminate.
    apply nf_bind; [apply nf_list_extend|]. intros its Ei.
    apply (nf_packed attrs (VList lc0 pc0 its) (fun b => VBytes b) "body"); [exact H| |intros; cbn; lia].
    apply height_list. exact (list_extend_height _ _ _ (S h) Ei B).
  Qed.

  Lemma nf_packet_out lc attrs : low attrs ->
    nf (packet_out_pack (pack0 n) (size0 n) (size0 (S n)) lc c attrs).
  Proof.
    intros H. unfold packet_out_pack. apply nf_bind; [apply nf_attr|]. intros acts Ea.
    pose proof (attr_height _ _ _ _ Ea H) as B.
    apply nf_bind'.
    - destruct (subclass _ lc); [apply S1; lia|]. destruct (list_item lc) as [pc|]; [|discriminate].
      apply nf_bind; [apply nf_list_init, S1; lia|]. intros its Ei. apply S1, height_list.
      exact (list_init_height _ _ _ _ (S h) Ei B).
    - intros a. apply nf_message, low_set; [exact H|cbn; lia].
  Qed.

  Lemma nf_pack_obj attrs : low attrs -> nf (pack_obj (pack0 n) (size0 n) (size0 (S n)) c attrs).
  Proof.
    intros H.
    assert (U : nf (do s <- size0 (S n) (VObj c attrs);
                    struct_pack (pack0 n) c (set_attr "length" (VInt s) attrs))).
    { apply nf_bind'; [apply nf_so, H|]. intros s. apply nf_sp, low_set; [exact H|cbn; lia]. }
    unfold pack_obj. destruct (kind c).
    - apply nf_sp, H.
    - apply nf_message, H.
    - destruct upd; [exact U|apply nf_sp, H].
    - destruct f; try exact U. apply nf_sp, H.
    - apply nf_sp, H.
    - apply nf_sp, H.
    - unfold setfield_pack. apply nf_bind; [apply nf_attr|]. intros f Ef.
      pose proof (attr_height _ _ _ _ Ef H) as B.
      apply nf_bind'; [destruct (has_pack f); [apply R; lia|discriminate]|]. intros fb. cbv zeta.
      apply nf_bind'; [apply nf_sp, low_set; [exact H|cbn; lia]|intros; apply nf_ok].
    - unfold oxm_pack. apply nf_bind'; [apply nf_attr|intros cls]. apply nf_bind'; [apply nf_attr|intros fld].
      apply nf_bind'; [apply nf_recast; [discriminate|apply nf_oxm_field_int]|intros fi].
      apply nf_bind'; [apply nf_attr|intros hm]. apply nf_bind'; [apply nf_num_of|intros hz].
      apply nf_bind; [apply nf_attr|intros vl Ev]. pose proof (attr_height _ _ _ _ Ev H) as B.
      apply nf_bind'; [apply nf_bin_pack, R; lia|intros pl].
      apply nf_sp, low_set; [apply low_set; [exact H|]|]; cbn; lia.
    - unfold match04_pack. apply nf_bind'.
      + apply (nf_struct_size n (S h)); [exact H|unfold CFUEL in *; lia|exact S1].
      + intros s. cbv zeta. assert (H' : low (set_attr "length" (VInt s) attrs)) by (apply low_set; [exact H|cbn; lia]).
        apply nf_bind'; [apply nf_sp, H'|]. intros p. apply nf_bind'; [apply nf_so, H'|intros; apply nf_ok].
    - apply nf_sp, H.
    - apply nf_sp, H.
    - apply nf_packet_out, H.
    - apply nf_packet_out, H.
    - unfold error_pack01. apply nf_bind; [apply nf_attr|]. intros d Ed.
      pose proof (attr_height _ _ _ _ Ed H) as B.
      destruct d; try (apply nf_message, H);
        (destruct (has_pack _); [|discriminate]; apply nf_packed; [exact H|lia|intros; cbn; lia]).
    - apply nf_message, H.
    - apply nf_message, H.
    - unfold stats_request_pack. apply nf_bind; [apply nf_attr|]. intros d Ed.
      pose proof (attr_height _ _ _ _ Ed H) as B.
      destruct (has_pack d); [|apply nf_message, H]. apply nf_packed; [exact H|lia|intros; cbn; lia].
    - unfold stats_reply_pack. apply nf_bind; [apply nf_attr|]. intros d Ed.
      pose proof (attr_height _ _ _ _ Ed H) as B.
      apply nf_bind'; [apply nf_truthy, S1; lia|]. intros t.
      destruct (t && has_pack d); [|apply nf_message, H].
      apply (nf_packed attrs d (fun b => VBin (VBytes b)) "body"); [exact H|lia|intros; cbn; lia].
    - apply nf_multipart, H.
    - apply nf_multipart, H.
  Qed.
End Pack.

Lemma pack_total h : forall v n, (height v <= h)%nat -> (h + S CFUEL <= n)%nat -> nf (pack0 n v).
Proof.
  induction h as [|h IH]; intros v n Hv Hn; (destruct n as [|n]; [lia|]);
    destruct v; try discriminate; try apply nf_uint_pack1; try apply nf_char_pack1; try apply nf_ip_pack1;
    try apply nf_hw_pack1; try apply nf_dpid_pack1; try (cbn [height] in Hv; lia).
  - change (nf (bin_pack (pack0 n) v)). apply nf_bin_pack, IH; [cbn [height] in Hv|]; lia.
  - destruct h as [|[|h]]; try (cbn [height] in Hv; lia).
    apply (nf_pack_obj n h c); [lia| | |].
    + intros v Hh. apply IH; lia.
    + intros v Hh. apply (size_total (S (S h))); lia.
    + intros k y I. pose proof (attrs_height c attrs h Hv k y I). lia.
  - change (nf (if cid_eqb lc CList then Err AttributeError
       else concatM (fun x => if has_pack x then pack0 n x else Err AttributeError) items)).
    destruct (cid_eqb lc CList); [discriminate|]. apply nf_concatM. intros y I.
    destruct (has_pack y); [|discriminate].
    pose proof (height_item lc pc items y I). apply IH; lia.
Qed.

(** ** The entry points do not depend on the amount of fuel *)

Lemma pack_fuel v : pack0 (FUEL + height v) v <> Err OutOfFuel.
Proof. apply (pack_total (height v)); [lia|]. unfold FUEL, CFUEL. lia. Qed.
Lemma size_fuel v : size0 (FUEL + height v) v <> Err OutOfFuel.
Proof. apply (size_total (height v)); [lia|]. unfold FUEL, CFUEL. lia. Qed.

Lemma pack_of n v : pack0 n v <> Err OutOfFuel -> pack v = pack0 n v.
Proof. intros H. unfold pack. exact (pack0_agree _ n v (pack_fuel v) H). Qed.
Lemma size_of n v : size0 n v <> Err OutOfFuel -> get_size v = size0 n v.
Proof. intros H. unfold get_size. exact (size0_agree _ n v (size_fuel v) H). Qed.

Theorem pack_never_out v : pack v <> Err OutOfFuel.
Proof. unfold pack. exact (pack_fuel v). Qed.
Theorem get_size_never_out v : get_size v <> Err OutOfFuel.
Proof. unfold get_size. exact (size_fuel v). Qed.
