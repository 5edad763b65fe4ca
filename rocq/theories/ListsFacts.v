(** Facts about the mutation of typed lists. *)
From Coq Require Import ZArith List Bool String Lia ZifyBool.
From Verif Require Import Base PyText Ids PyVal Classes Interp Lists SpecLists ClassFacts Totality.
Import ListNotations.
Open Scope string_scope.
Open Scope list_scope.
Open Scope Z_scope.

(** ** Classes *)

Lemma subclass_fuel_S n c d : subclass_fuel (S n) c d =
  (cid_eqb c d || match class_base c with Some b => subclass_fuel n b d | None => false end).
Proof. cbn [subclass_fuel]. destruct (cid_eqb c d); reflexivity. Qed.

Lemma subclass_fuel_derives n c d : subclass_fuel n c d = true -> derives c d.
Proof.
  induction n as [|n IH] in c |- *; intros H.
  - cbn [subclass_fuel] in H. destruct (cid_eqb c d) eqn:E; [|discriminate].
    apply cid_eqb_eq in E. subst. constructor.
  - rewrite subclass_fuel_S in H. destruct (cid_eqb c d) eqn:E.
    + apply cid_eqb_eq in E. subst. constructor.
    + destruct (class_base c) as [b|] eqn:B; [|discriminate].
      eapply de_base; [exact B|]. apply IH. exact H.
Qed.

Fixpoint ancestors (n : nat) (c : cid) : list cid :=
  c :: match n with
       | O => []
       | S n' => match class_base c with Some b => ancestors n' b | None => [] end
       end.
Definition ends (c : cid) : bool :=
  match class_base (last (ancestors 6 c) c) with None => true | Some _ => false end.
Definition closed_up (c : cid) : bool :=
  match class_base c with
  | Some b => forallb (fun d => existsb (cid_eqb d) (ancestors 6 c)) (ancestors 6 b)
  | None => true
  end.
Lemma closed_up_all c : closed_up c = true.
Proof. revert c. apply all_classes. vm_compute. reflexivity. Qed.

Lemma derives_ancestors c d : derives c d -> In d (ancestors 6 c).
Proof.
  induction 1 as [c|c b d B _ IH].
  - cbn. auto.
  - pose proof (closed_up_all c) as K. unfold closed_up in K. rewrite B in K.
    rewrite forallb_forall in K. specialize (K d IH). apply existsb_exists in K as (x & I & E).
    apply cid_eqb_eq in E. subst. exact I.
Qed.

Lemma ancestors_subclass n c d : In d (ancestors n c) -> subclass_fuel n c d = true.
Proof.
  induction n as [|n IH] in c |- *; intros I.
  - cbn [ancestors In] in I. destruct I as [<-|[]]. cbn. rewrite cid_eqb_refl. reflexivity.
  - cbn [ancestors In] in I. rewrite subclass_fuel_S. destruct I as [<-|I].
    + rewrite cid_eqb_refl. reflexivity.
    + destruct (class_base c); [|destruct I]. rewrite (IH _ I). apply orb_true_r.
Qed.

Lemma subclass_derives c d : subclass c d = true <-> derives c d.
Proof.
  split; [apply subclass_fuel_derives|]. intros H. apply ancestors_subclass, derives_ancestors, H.
Qed.

Lemma class_eqb_same a b : class_eqb a b = true <-> same_class a b.
Proof.
  unfold class_eqb. rewrite andb_true_iff, cid_eqb_eq. split.
  - intros [C E]. destruct (enum_class a) as [e|] eqn:A, (enum_class b) as [f|] eqn:B; try discriminate E.
    + apply eid_eqb_eq in E. subst f.
      destruct a; try discriminate A; destruct b; try discriminate B; try discriminate C;
        cbn in A, B; injection A as ->; injection B as ->; constructor.
    + apply sc_other; [| |exact C]; intros e x; split; intros ->; discriminate.
  - intros H. inversion H as [e x y|e x y|? ? NA NB C]; subst.
    + cbn. rewrite eid_eqb_refl. auto.
    + cbn. rewrite eid_eqb_refl. auto.
    + split; [exact C|].
      replace (enum_class a) with (@None eid) by (destruct a; try reflexivity; exfalso;
        [apply (proj1 (NA e z)); reflexivity|apply (proj2 (NA e z)); reflexivity]).
      replace (enum_class b) with (@None eid) by (destruct b; try reflexivity; exfalso;
        [apply (proj1 (NB e z)); reflexivity|apply (proj2 (NB e z)); reflexivity]).
      reflexivity.
Qed.

Lemma same_class_refl a : same_class a a.
Proof. apply class_eqb_same. unfold class_eqb. rewrite cid_eqb_refl.
  destruct (enum_class a); [rewrite eid_eqb_refl|]; reflexivity. Qed.
Lemma same_class_sym a b : same_class a b -> same_class b a.
Proof. intros H; inversion H; subst; try constructor; auto. Qed.
Lemma same_class_trans a b c : same_class a b -> same_class b c -> same_class a c.
Proof.
  intros H K. apply class_eqb_same in H. apply class_eqb_same in K. apply class_eqb_same.
  unfold class_eqb in *. apply andb_true_iff in H as [H1 H2]. apply andb_true_iff in K as [K1 K2].
  apply cid_eqb_eq in H1. apply cid_eqb_eq in K1. rewrite H1, K1, cid_eqb_refl.
  destruct (enum_class a), (enum_class b); try discriminate H2; destruct (enum_class c); try discriminate K2; auto.
  apply eid_eqb_eq in H2. apply eid_eqb_eq in K2. subst. rewrite eid_eqb_refl. reflexivity.
Qed.

(** ** Leaves *)

Lemma pyval_lists (P : pyval -> Prop) :
  (forall v, (forall lc pc items, v <> VList lc pc items) -> P v) ->
  (forall lc pc items, Forall P items -> P (VList lc pc items)) -> forall v, P v.
Proof.
  intros A B. assert (K : forall h v, (height v <= h)%nat -> P v).
  { induction h as [|h IH]; intros v H.
    - destruct v as [| | | | | | | | | | | | | |lc pc items]; try (apply A; congruence).
      cbn [height] in H. lia.
    - destruct v as [| | | | | | | | | | | | | |lc pc items]; try (apply A; congruence).
      apply B, Forall_forall. intros x I. apply IH. pose proof (height_item lc pc items x I). lia. }
  intros v. apply (K (height v)). lia.
Qed.

Lemma flat_leaf v : (forall lc pc items, v <> VList lc pc items) -> flat v = [v].
Proof. intros H. destruct v; try reflexivity. exfalso. eapply H. reflexivity. Qed.

Lemma leaves_flat v : leaves v (flat v).
Proof.
  induction v as [v N|lc pc items IH] using pyval_lists.
  - rewrite (flat_leaf v N). constructor. exact N.
  - rewrite flat_list. constructor. induction IH as [|x t Hx Ht IHt]; cbn [flat_map]; constructor; auto.
Qed.
Lemma all_leaves_flat items : all_leaves items (flat_map flat items).
Proof. pose proof (leaves_flat (VList CList CList items)) as H. inversion H; subst; auto.
  exfalso. match goal with N : forall _ _ _, _ <> _ |- _ => eapply N; reflexivity end. Qed.

Scheme leaves_rect := Minimality for leaves Sort Prop
  with all_leaves_rect := Minimality for all_leaves Sort Prop.
Combined Scheme leaves_mut from leaves_rect, all_leaves_rect.

Lemma leaves_fun : (forall v ls, leaves v ls -> ls = flat v) /\
  (forall items ls, all_leaves items ls -> ls = flat_map flat items).
Proof.
  apply leaves_mut.
  - intros lc pc items ls _ H. rewrite flat_list. exact H.
  - intros v N. symmetry. apply flat_leaf, N.
  - reflexivity.
  - intros x tl a b _ -> _ ->. reflexivity.
Qed.

(** ** Adding *)

Lemma added_ext (P Q : pyval -> Prop) old ls l e : (forall x, In x ls -> (P x <-> Q x)) ->
  added P old ls l e -> added Q old ls l e.
Proof.
  intros E H. destruct H as [F|good bad rest -> F N].
  - constructor. rewrite Forall_forall in *. intros x I. apply E; auto.
  - econstructor; [reflexivity| |].
    + rewrite Forall_forall in *. intros x I. apply E; [apply in_or_app; auto|auto].
    + intros K. apply N. apply E; [apply in_or_app; right; left; reflexivity|exact K].
Qed.
Lemma added_nil (P : pyval -> Prop) l : added P l [] l None.
Proof. pose proof (ad_all P l [] (Forall_nil _)) as H. rewrite app_nil_r in H. exact H. Qed.
Lemma added_more (P : pyval -> Prop) old ls1 l1 ls2 l2 e : added P old ls1 l1 None -> added P l1 ls2 l2 e ->
  added P old (ls1 ++ ls2) l2 e.
Proof.
  intros H K. inversion H as [F|]; subst. inversion K as [G|good bad rest E G N]; subst.
  - rewrite <- app_assoc. constructor. apply Forall_app. auto.
  - rewrite <- app_assoc. eapply ad_stop; [rewrite app_assoc; reflexivity|apply Forall_app; auto|exact N].
Qed.
Lemma added_stop (P : pyval -> Prop) old ls1 l1 ls2 e : added P old ls1 l1 (Some e) -> added P old (ls1 ++ ls2) l1 (Some e).
Proof.
  intros H. inversion H as [|good bad rest E G N]; subst.
  eapply ad_stop; [rewrite <- app_assoc; reflexivity|exact G|exact N].
Qed.
Lemma added_one (P : pyval -> Prop) old x : P x -> added P old [x] (old ++ [x]) None.
Proof. intros H. constructor. auto. Qed.
Lemma added_not (P : pyval -> Prop) old x : ~ P x -> added P old [x] old (Some WrongListItemType).
Proof.
  intros H. rewrite <- (app_nil_r old) at 2. apply (ad_stop P old [x] [] x []); auto.
Qed.

(** ** FixedTypeList *)

Lemma fixed_append_list pc lc pc' items l :
  fixed_append pc (VList lc pc' items) l = each (fixed_append pc) items l.
Proof.
  cbn [fixed_append]. revert l. induction items as [|x t IH]; intros l; cbn [each]; [reflexivity|].
  destruct (fixed_append pc x l) as [l' [e|]]; [reflexivity|apply IH].
Qed.
Lemma fixed_append_leaf pc v l : (forall lc pc items, v <> VList lc pc items) ->
  fixed_append pc v l = fixed_add pc v (fun l => l ++ [v]) l.
Proof. intros N. destruct v; try reflexivity. exfalso. eapply N. reflexivity. Qed.

Lemma each_added (P : pyval -> Prop) append items : (forall x l, In x items -> added P l (flat x) (fst (append x l)) (snd (append x l))) ->
  forall l, added P l (flat_map flat items) (fst (each append items l)) (snd (each append items l)).
Proof.
  induction items as [|x t IH]; intros H l; cbn [each flat_map].
  - apply added_nil.
  - pose proof (H x l (or_introl eq_refl)) as A. destruct (append x l) as [l' [e|]]; cbn [fst snd] in *.
    + apply added_stop. exact A.
    + eapply added_more; [exact A|]. apply IH. intros y l0 I. apply H. right. exact I.
Qed.

Lemma fixed_append_added pc : pc <> CNone -> forall v l,
  added (instance_of pc) l (flat v) (fst (fixed_append pc v l)) (snd (fixed_append pc v l)).
Proof.
  intros NP v. induction v as [v N|lc pc' items IH] using pyval_lists; intros l.
  - rewrite (fixed_append_leaf pc v l N), (flat_leaf v N). unfold fixed_add.
    rewrite (cid_eqb_neq _ _ NP). destruct (subclass (class_of v) pc) eqn:E.
    + apply added_one. apply subclass_derives. exact E.
    + apply added_not. intros K. apply subclass_derives in K. congruence.
  - rewrite fixed_append_list, flat_list. apply each_added. rewrite Forall_forall in IH. intros x l0 I. apply IH, I.
Qed.

Lemma fixed_append_spec pc v ls l l' e : pc <> CNone -> leaves v ls ->
  fixed_append pc v l = (l', e) -> added (instance_of pc) l ls l' e.
Proof.
  intros NP L E. apply leaves_fun in L. subst ls. pose proof (fixed_append_added pc NP v l) as A.
  rewrite E in A. exact A.
Qed.
Lemma fixed_extend_spec pc v items ls l l' e : pc <> CNone -> iterate v = Ok items -> all_leaves items ls ->
  list_extend_with (fixed_append pc) v l = (l', e) -> added (instance_of pc) l ls l' e.
Proof.
  intros NP I L E. apply (proj2 leaves_fun) in L. subst ls. unfold list_extend_with in E. rewrite I in E.
  pose proof (each_added (instance_of pc) (fixed_append pc) items (fun x l0 _ => fixed_append_added pc NP x l0) l) as A.
  rewrite E in A. exact A.
Qed.

Lemma insert_split i x l : exists before after, l = before ++ after /\ list_insert i x l = before ++ x :: after.
Proof.
  unfold list_insert. eexists _, _. split; [symmetry; apply (firstn_skipn (insert_at (List.length l) i))|reflexivity].
Qed.
Lemma insert_position i x l :
  (0 <= i <= zlen l -> list_insert i x l = firstn (Z.to_nat i) l ++ x :: skipn (Z.to_nat i) l) /\
  (forall before after, l = before ++ after -> zlen after = - i -> 0 < zlen after ->
     list_insert i x l = before ++ x :: after) /\
  (i < - zlen l -> list_insert i x l = x :: l) /\
  (zlen l < i -> list_insert i x l = l ++ [x]).
Proof.
  unfold list_insert, insert_at, zlen. split; [|split; [|split] ].
  - intros H. destruct (i <? 0) eqn:E; [lia|].
    replace (Z.min (Z.max i 0) (Z.of_nat (List.length l))) with i by lia. reflexivity.
  - intros bf af -> H P. rewrite app_length. destruct (i <? 0) eqn:E; [|lia].
    replace (Z.to_nat _) with (List.length bf) by lia.
    rewrite firstn_app, skipn_app, Nat.sub_diag, firstn_all, skipn_all. cbn [firstn skipn]. rewrite app_nil_r. reflexivity.
  - intros H. destruct (i <? 0) eqn:E; [|lia]. replace (Z.to_nat _) with 0%nat by lia. reflexivity.
  - intros H. destruct (i <? 0) eqn:E; [lia|]. replace (Z.to_nat _) with (List.length l) by lia.
    rewrite firstn_all, skipn_all. reflexivity.
Qed.

Lemma fixed_insert_spec pc i v l : pc <> CNone ->
  (instance_of pc v -> fixed_insert pc i v l = (list_insert i v l, None)) /\
  (~ instance_of pc v -> fixed_insert pc i v l = (l, Some WrongListItemType)).
Proof.
  intros NP. unfold fixed_insert, fixed_add. rewrite (cid_eqb_neq _ _ NP).
  destruct (subclass (class_of v) pc) eqn:E; split; intros H; auto.
  - exfalso. apply H. apply subclass_derives. exact E.
  - exfalso. apply subclass_derives in H. congruence.
Qed.

Lemma forall_insert (P : pyval -> Prop) i x l : P x -> Forall P l -> Forall P (list_insert i x l).
Proof.
  intros A B. unfold list_insert. apply Forall_app. split; [|constructor; [exact A|]].
  - rewrite <- (firstn_skipn (insert_at (List.length l) i) l) in B. apply Forall_app in B. tauto.
  - rewrite <- (firstn_skipn (insert_at (List.length l) i) l) in B. apply Forall_app in B. tauto.
Qed.
Lemma forall_slice (P : pyval -> Prop) a b l : Forall P l -> Forall P (firstn a l ++ skipn b l).
Proof.
  intros B. apply Forall_app. split.
  - rewrite <- (firstn_skipn a l) in B. apply Forall_app in B. tauto.
  - rewrite <- (firstn_skipn b l) in B. apply Forall_app in B. tauto.
Qed.
Lemma forall_times (P : pyval -> Prop) n l : Forall P l -> Forall P (List.concat (repeat l n)).
Proof.
  intros B. induction n as [|n IH]; cbn [repeat List.concat]; [constructor|].
  apply Forall_app. split; assumption.
Qed.
Lemma forall_cut (P : pyval -> Prop) k l : Forall P l -> Forall P (firstn k l ++ skipn (S k) l).
Proof.
  intros B. apply Forall_app. split.
  - rewrite <- (firstn_skipn k l) in B. apply Forall_app in B. tauto.
  - rewrite <- (firstn_skipn (S k) l) in B. apply Forall_app in B. tauto.
Qed.
Lemma added_keeps (P : pyval -> Prop) old ls l e : added P old ls l e -> Forall P old -> Forall P l.
Proof. intros [F|good bad rest E F N] O; apply Forall_app; auto. Qed.

Lemma common_keeps (P : pyval -> Prop) op l : Forall P l -> Forall P (fst (common_op op l)).
Proof.
  intros F. destruct op; cbn [common_op fst]; auto.
  - destruct (item_at _ _); [apply forall_cut|]; exact F.
  - apply Forall_rev, F.
  - apply forall_slice, F.
  - apply forall_times, F.
Qed.

Lemma fixed_op_keeps pc op l : pc <> CNone -> Forall (instance_of pc) l ->
  Forall (instance_of pc) (fst (fixed_op pc op l)).
Proof.
  intros NP F. destruct op as [v|v|i v|i| | |i j|n]; try (apply (common_keeps _ _ _ F)); cbn [fixed_op].
  - eapply added_keeps; [apply (fixed_append_added pc NP v l)|exact F].
  - unfold list_extend_with. destruct (iterate v) as [items|]; [|exact F].
    eapply added_keeps; [|exact F].
    apply (each_added (instance_of pc) (fixed_append pc) items (fun x l0 _ => fixed_append_added pc NP x l0) l).
  - destruct (fixed_insert_spec pc i v l NP) as [A B].
    destruct (subclass (class_of v) pc) eqn:E.
    + apply subclass_derives in E. rewrite (A E). apply forall_insert; auto.
    + rewrite B; [exact F|]. intros K. apply subclass_derives in K. congruence.
Qed.

Lemma fixed_run_keeps pc ops l : pc <> CNone -> Forall (instance_of pc) l ->
  Forall (instance_of pc) (run (fixed_op pc) ops l).
Proof.
  intros NP. induction ops as [|op ops IH] in l |- *; cbn [run]; intros F; [exact F|].
  apply IH. apply fixed_op_keeps; auto.
Qed.

Lemma fixed_run pc ops : pc <> CNone -> Forall (instance_of pc) (run (fixed_op pc) ops []).
Proof. intros NP. apply fixed_run_keeps; auto. Qed.

(** ** ConstantTypeList *)

Definition matches (l : list pyval) (x : pyval) : Prop := forall h, hd_error l = Some h -> same_class x h.

Lemma constant_append_list lc pc' items l :
  constant_append (VList lc pc' items) l = each constant_append items l.
Proof.
  cbn [constant_append]. revert l. induction items as [|x t IH]; intros l; cbn [each]; [reflexivity|].
  destruct (constant_append x l) as [l' [e|]]; [reflexivity|apply IH].
Qed.
Lemma constant_append_leaf v l : (forall lc pc items, v <> VList lc pc items) ->
  constant_append v l = constant_add v (fun l => l ++ [v]) l.
Proof. intros N. destruct v; try reflexivity. exfalso. eapply N. reflexivity. Qed.

Lemma hd_app {A} (a b : list A) : a <> [] -> hd_error (a ++ b) = hd_error a.
Proof. destruct a; [congruence|reflexivity]. Qed.

Lemma matches_app a b x : a <> [] -> (matches (a ++ b) x <-> matches a x).
Proof. intros H. unfold matches. rewrite (hd_app a b H). reflexivity. Qed.

Lemma each_matches items :
  (forall x l, In x items -> added (matches (l ++ flat x)) l (flat x) (fst (constant_append x l)) (snd (constant_append x l))) ->
  forall l, added (matches (l ++ flat_map flat items)) l (flat_map flat items)
              (fst (each constant_append items l)) (snd (each constant_append items l)).
Proof.
  induction items as [|x t IH]; intros H l; cbn [each flat_map].
  - rewrite app_nil_r. apply added_nil.
  - pose proof (H x l (or_introl eq_refl)) as A.
    assert (HT : forall y l0, In y t -> added (matches (l0 ++ flat y)) l0 (flat y) (fst (constant_append y l0)) (snd (constant_append y l0)))
      by (intros y l0 I; apply H; right; exact I).
    specialize (IH HT). clear H HT.
    assert (CASE : l ++ flat x = [] \/ l ++ flat x <> []) by (destruct (l ++ flat x); [auto|right; discriminate]).
    destruct CASE as [Z0|NZ].
    + apply app_eq_nil in Z0 as [-> FX]. rewrite FX in *. cbn [app] in *.
      destruct (constant_append x []) as [l' e]; cbn [fst snd] in A.
      inversion A as [F X1 X2|good bad rest E]; subst.
      * cbn [app]. exact (IH []).
      * destruct good; discriminate E.
    + assert (A' : added (matches (l ++ flat x ++ flat_map flat t)) l (flat x)
                     (fst (constant_append x l)) (snd (constant_append x l))).
      { eapply added_ext; [|exact A]. intros y _. rewrite app_assoc. symmetry. apply matches_app, NZ. }
      destruct (constant_append x l) as [l' [e|]]; cbn [fst snd] in A, A' |- *.
      * apply added_stop. exact A'.
      * eapply added_more; [exact A'|].
        assert (L' : l' = l ++ flat x) by (inversion A; reflexivity).
        specialize (IH l'). rewrite L' in IH |- *. rewrite <- app_assoc in IH. exact IH.
Qed.

Lemma constant_append_added v l :
  added (matches (l ++ flat v)) l (flat v) (fst (constant_append v l)) (snd (constant_append v l)).
Proof.
  revert l. induction v as [v N|lc pc' items IH] using pyval_lists; intros l.
  - rewrite (constant_append_leaf v l N), (flat_leaf v N). unfold constant_add.
    destruct l as [|h t]; cbn [fst snd].
    + cbn [app]. apply (added_one _ [] v). intros h E. injection E as <-. apply same_class_refl.
    + destruct (class_eqb v h) eqn:E; cbn [fst snd].
      * apply added_one. intros h' E'. injection E' as <-. apply class_eqb_same, E.
      * apply added_not. intros K. specialize (K h eq_refl). apply class_eqb_same in K. congruence.
  - rewrite constant_append_list, flat_list. apply each_matches. rewrite Forall_forall in IH. intros x l0 I. apply IH, I.
Qed.

Definition one_class (l : list pyval) : Prop := forall x y, In x l -> In y l -> same_class x y.

Lemma one_class_hd l : one_class l <-> Forall (matches l) l.
Proof.
  split.
  - intros H. apply Forall_forall. intros x I h E. apply H; [exact I|]. destruct l; [discriminate|].
    injection E as ->. left. reflexivity.
  - intros F x y X Y. rewrite Forall_forall in F. destruct l as [|h t]; [destruct X|].
    pose proof (F x X h eq_refl). pose proof (F y Y h eq_refl).
    eapply same_class_trans; [eassumption|]. apply same_class_sym. assumption.
Qed.

Lemma added_one_class old ls l e : added (matches (old ++ ls)) old ls l e -> one_class old -> one_class l.
Proof.
  intros A O. apply one_class_hd in O. apply one_class_hd.
  assert (SUB : forall x, matches (old ++ ls) x -> matches l x).
  { intros x M h E. apply M. inversion A as [F|good bad rest EL F N]; subst.
    - exact E.
    - destruct old as [|o old]; [|exact E]. cbn [app] in *. destruct good; [discriminate E|exact E]. }
  inversion A as [F|good bad rest EL F N]; subst; apply Forall_app; split.
  - destruct old as [|o old]; [constructor|]. exact O.
  - exact F.
  - destruct old as [|o old]; [constructor|]. exact O.
  - eapply Forall_impl; [|exact F]. intros x. apply SUB.
Qed.

Lemma one_class_sub l l' : (forall x, In x l' -> In x l) -> one_class l -> one_class l'.
Proof. intros S1 H x y X Y. apply H; auto. Qed.

Lemma in_cut {A} k (l : list A) x : In x (firstn k l ++ skipn (S k) l) -> In x l.
Proof.
  intros I. apply in_app_or in I as [I|I].
  - rewrite <- (firstn_skipn k l). apply in_or_app. auto.
  - rewrite <- (firstn_skipn (S k) l). apply in_or_app. auto.
Qed.

Lemma constant_insert_spec i v l :
  (forall h, hd_error l = Some h -> same_class v h) ->
  constant_insert i v l = (match l with [] => [v] | _ => list_insert i v l end, None).
Proof.
  intros H. unfold constant_insert, constant_add. destruct l as [|h t]; [reflexivity|].
  specialize (H h eq_refl). apply class_eqb_same in H. rewrite H. reflexivity.
Qed.
Lemma constant_insert_wrong i v h t : ~ same_class v h ->
  constant_insert i v (h :: t) = (h :: t, Some WrongListItemType).
Proof.
  intros H. unfold constant_insert, constant_add. destruct (class_eqb v h) eqn:E; [|reflexivity].
  exfalso. apply H, class_eqb_same, E.
Qed.

Lemma constant_op_keeps op l : one_class l -> one_class (fst (constant_op op l)).
Proof.
  intros F. destruct op as [v|v|i v|i| | |i j|n]; cbn [constant_op common_op].
  - eapply added_one_class; [apply (constant_append_added v l)|exact F].
  - unfold list_extend_with. destruct (iterate v) as [items|]; [|exact F].
    eapply added_one_class; [|exact F].
    apply each_matches. intros x l0 _. apply constant_append_added.
  - unfold constant_insert, constant_add. destruct l as [|h t].
    + intros x y [<-|[]] [<-|[]]. apply same_class_refl.
    + destruct (class_eqb v h) eqn:E; [|exact F]. apply class_eqb_same in E. cbn [fst].
      assert (K : Forall (fun x => same_class x h) (list_insert i v (h :: t))).
      { apply forall_insert; [exact E|]. apply Forall_forall. intros x X. apply F; [exact X|left; reflexivity]. }
      rewrite Forall_forall in K. intros x y X Y.
      eapply same_class_trans; [apply K, X|apply same_class_sym, K, Y].
  - destruct (item_at _ _); [|exact F]. cbn [fst]. eapply one_class_sub; [|exact F]. intros x. apply in_cut.
  - intros x y [].
  - cbn [fst]. eapply one_class_sub; [|exact F]. intros x I. apply in_rev, I.
  - cbn [fst]. eapply one_class_sub; [|exact F]. apply Forall_forall.
    apply forall_slice, Forall_forall. auto.
  - cbn [fst]. eapply one_class_sub; [|exact F]. apply Forall_forall.
    apply forall_times, Forall_forall. auto.
Qed.

Lemma constant_run ops : one_class (run constant_op ops []).
Proof.
  assert (K : forall l, one_class l -> one_class (run constant_op ops l)).
  { induction ops as [|op ops IH]; cbn [run]; intros l F; [exact F|]. apply IH, constant_op_keeps, F. }
  apply K. intros x y [].
Qed.

Lemma constant_append_spec v ls l l' e : leaves v ls -> constant_append v l = (l', e) ->
  added (fun x => forall h, hd_error (l ++ ls) = Some h -> same_class x h) l ls l' e.
Proof.
  intros L E. apply leaves_fun in L. subst ls. pose proof (constant_append_added v l) as A.
  rewrite E in A. exact A.
Qed.

(** Positions. *)
Lemma item_at_split before (x : pyval) after i :
  i = zlen before \/ i = - zlen (x :: after) ->
  item_at (List.length (before ++ x :: after)) i = Some (List.length before).
Proof.
  unfold item_at, zlen. rewrite app_length. cbn [List.length]. intros H.
  destruct (i <? 0) eqn:N.
  - replace (i + Z.of_nat (List.length before + S (List.length after)))
      with (Z.of_nat (List.length before)) by lia.
    destruct (_ && _) eqn:E; [|lia]. rewrite Nat2Z.id. reflexivity.
  - replace i with (Z.of_nat (List.length before)) by lia.
    destruct (_ && _) eqn:E; [|lia]. rewrite Nat2Z.id. reflexivity.
Qed.
Lemma item_at_outside (l : list pyval) i : i < - zlen l \/ zlen l <= i ->
  item_at (List.length l) i = None.
Proof.
  unfold item_at, zlen. intros H. destruct (i <? 0) eqn:N; (destruct (_ && _) eqn:E; [lia|reflexivity]).
Qed.
Lemma firstn_mid (before rest : list pyval) : firstn (List.length before) (before ++ rest) = before.
Proof. rewrite firstn_app, Nat.sub_diag, firstn_all. cbn. apply app_nil_r. Qed.
Lemma skipn_mid before (x : pyval) after :
  skipn (S (List.length before)) (before ++ x :: after) = after.
Proof. induction before as [|y b IH]; [reflexivity|exact IH]. Qed.

Lemma positions before x after i v :
  i = zlen before \/ i = - zlen (x :: after) ->
  common_op (OPop i) (before ++ x :: after) = (before ++ after, None) /\
  list_setitem i v (before ++ x :: after) = (before ++ v :: after, None).
Proof.
  intros H. unfold list_setitem. cbn [common_op]. rewrite (item_at_split _ _ _ _ H).
  rewrite firstn_mid, skipn_mid. split; reflexivity.
Qed.
Lemma positions_outside l i v : i < - zlen l \/ zlen l <= i ->
  common_op (OPop i) l = (l, Some IndexError) /\ list_setitem i v l = (l, Some IndexError).
Proof.
  intros H. unfold list_setitem. cbn [common_op]. rewrite (item_at_outside _ _ H). split; reflexivity.
Qed.

Lemma insert_at_front (before rest : list pyval) :
  insert_at (List.length (before ++ rest)) (zlen before) = List.length before.
Proof.
  unfold insert_at, zlen. rewrite app_length. destruct (_ <? 0) eqn:N; lia.
Qed.
Lemma del_slice before gone after :
  common_op (ODelSlice (zlen before) (zlen (before ++ gone))) (before ++ gone ++ after)
  = (before ++ after, None).
Proof.
  cbn [common_op]. rewrite insert_at_front. rewrite (app_assoc before gone after), insert_at_front.
  rewrite app_length, Nat.max_r by lia. rewrite <- app_length.
  rewrite <- (app_assoc before gone after) at 1. rewrite firstn_mid.
  rewrite skipn_app, Nat.sub_diag, skipn_all. reflexivity.
Qed.
Lemma times_spec n l : 0 <= n ->
  common_op (OTimes (n + 1)) l = (l ++ fst (common_op (OTimes n) l), None) /\
  (forall m, m <= 0 -> common_op (OTimes m) l = ([], None)).
Proof.
  intros H. cbn [common_op fst]. split.
  - rewrite Z2Nat.inj_add, Nat.add_comm by lia. reflexivity.
  - intros m M. replace (Z.to_nat m) with 0%nat by lia. reflexivity.
Qed.

Lemma setitem_keeps (P : pyval -> Prop) i v l l' : Forall P l -> list_setitem i v l = (l', None) ->
  (Forall P l' <-> P v).
Proof.
  unfold list_setitem. destruct (item_at _ _) as [k|]; [|discriminate]. intros F H. injection H as <-.
  pose proof (forall_cut P k l F) as C. apply Forall_app in C. destruct C as [A B]. split.
  - intros G. apply Forall_app in G. destruct G as [_ G]. inversion G; assumption.
  - intros V. apply Forall_app. split; [exact A|]. constructor; assumption.
Qed.
Lemma iadd_keeps (P : pyval -> Prop) v l : Forall P l ->
  (forall items, iterate v = Ok items ->
     list_iadd v l = (l ++ items, None) /\ (Forall P (l ++ items) <-> Forall P items)) /\
  (forall e, iterate v = Err e -> list_iadd v l = (l, Some e)).
Proof.
  intros F. unfold list_iadd. split.
  - intros items ->. split; [reflexivity|]. rewrite Forall_app. tauto.
  - intros e ->. reflexivity.
Qed.
Lemma del_slice_back i j l : 0 <= j <= i -> i <= zlen l -> common_op (ODelSlice i j) l = (l, None).
Proof.
  intros J I. unfold zlen in I. cbn [common_op]. unfold insert_at.
  destruct (i <? 0) eqn:A; [lia|]. destruct (j <? 0) eqn:B; [lia|].
  rewrite Nat.max_l by lia. rewrite firstn_skipn. reflexivity.
Qed.
