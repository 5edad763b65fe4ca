(** Lemmas for C65: the messages with a body of their own. *)
From Coq Require Import ZArith List Bool String Lia ZifyBool.
From Verif Require Import Base PyText Ids PyVal Classes Interp Utils Spec SpecBasic SpecMutation SpecLayout SpecMsg SpecReject
  ClassFacts StructFacts MsgBody Totality LayoutFacts RejectFacts RejectFacts2 SpecReject2.
Import ListNotations.
Open Scope string_scope.
Open Scope list_scope.
Open Scope Z_scope.

Lemma message_pack_raises c attrs e : has_attributes c attrs = true -> existsb (cid_eqb c) [PacketOut01; PacketOut04] = false ->
  message_pack pack get_size c attrs = Err e <-> message_raises c attrs e.
Proof.
  intros A V. unfold message_pack, message_raises, attr_or_error.
  destruct (get_size (VObj c attrs)) as [s|e']; cbn [bind]; [|split; [intros [= <-]|intros ->]; reflexivity].
  destruct (get_attr "header" attrs) as [v|] eqn:H; cbn [bind]; [|split; [intros [= <-]|intros ->]; reflexivity].
  destruct v as [| | | | | | | | | | | | |hc h|]; try (split; [intros [= <-]|intros ->]; reflexivity).
  apply struct_refused; [|apply valid_unless, V]. apply has_set; [exact A|congruence].
Qed.

Lemma no_object_basic v : no_object v = false -> basic v = true \/ (exists c a, v = VObj c a) \/ exists lc pc l, v = VList lc pc l.
Proof. destruct v; try discriminate; cbn [basic]; eauto 10. Qed.
Lemma truth_err v e : truthy get_size v = Err e <-> no_truth v e.
Proof.
  unfold no_truth. destruct v; cbn [truthy basic]; try (split; [discriminate|intros [H _]; discriminate H]);
    match goal with |- context [get_size ?x] => destruct (get_size x) as [s|e'] end; cbn [bind];
    (split; [intros H; (discriminate H || (injection H as <-; auto))|intros [_ H]; (discriminate H || (injection H as <-; reflexivity))]).
Qed.
Lemma truth_false v : truthy get_size v = Ok false <-> false_value v.
Proof.
  split.
  - destruct v; cbn [truthy]; intros H.
    + constructor.
    + injection H as H. apply negb_false_iff, Z.eqb_eq in H. subst. constructor.
    + injection H as H. apply negb_false_iff, Nat.eqb_eq in H. destruct s; [constructor|discriminate H].
    + injection H as H. apply negb_false_iff, Nat.eqb_eq in H. destruct b; [constructor|discriminate H].
    + injection H as H. destruct (is_int_enum e) eqn:E; [|discriminate H]. apply negb_false_iff, Z.eqb_eq in H. subst. constructor.
      unfold is_int_enum in E. destruct (enum_def e) eqn:D; try discriminate E. eexists. exact D.
    + discriminate H.
    + destruct (get_size _) as [s|] eqn:G; cbn [bind] in H; [|discriminate H]. injection H as H. apply negb_false_iff, Z.eqb_eq in H. subst. apply fv_basic; [reflexivity|exact G].
    + destruct (get_size _) as [s|] eqn:G; cbn [bind] in H; [|discriminate H]. injection H as H. apply negb_false_iff, Z.eqb_eq in H. subst. apply fv_basic; [reflexivity|exact G].
    + destruct (get_size _) as [s|] eqn:G; cbn [bind] in H; [|discriminate H]. injection H as H. apply negb_false_iff, Z.eqb_eq in H. subst. apply fv_basic; [reflexivity|exact G].
    + destruct (get_size _) as [s|] eqn:G; cbn [bind] in H; [|discriminate H]. injection H as H. apply negb_false_iff, Z.eqb_eq in H. subst. apply fv_basic; [reflexivity|exact G].
    + destruct (get_size _) as [s|] eqn:G; cbn [bind] in H; [|discriminate H]. injection H as H. apply negb_false_iff, Z.eqb_eq in H. subst. apply fv_basic; [reflexivity|exact G].
    + destruct (get_size _) as [s|] eqn:G; cbn [bind] in H; [|discriminate H]. injection H as H. apply negb_false_iff, Z.eqb_eq in H. subst. apply fv_basic; [reflexivity|exact G].
    + destruct (get_size _) as [s|] eqn:G; cbn [bind] in H; [|discriminate H]. injection H as H. apply negb_false_iff, Z.eqb_eq in H. subst. apply fv_basic; [reflexivity|exact G].
    + discriminate H.
    + injection H as H. apply negb_false_iff, Nat.eqb_eq in H. destruct items; [constructor|discriminate H].
  - intros [| | | |e [l E]|lc pc|v' B G]; try reflexivity.
    + cbn [truthy]. unfold is_int_enum. rewrite E. reflexivity.
    + destruct v'; try discriminate B; cbn [truthy]; rewrite G; reflexivity.
Qed.
Lemma truth_true v : truthy get_size v = Ok true <-> true_value v.
Proof.
  unfold true_value. split.
  - intros H. split; [rewrite <- truth_false; congruence|]. intros e. rewrite <- truth_err. congruence.
  - intros [F N]. destruct (truthy get_size v) as [[|]|e] eqn:T; [reflexivity| |].
    + destruct F. apply truth_false, T.
    + destruct (N e). apply truth_err, T.
Qed.

Lemma bytes_raises c name wrap attrs v e : has_attributes c attrs = true -> existsb (cid_eqb c) [PacketOut01; PacketOut04] = false ->
  get_attr name attrs <> None ->
  (do b <- pack v; message_pack pack get_size c (set_attr name (wrap b) attrs)) = Err e <-> by_bytes c name wrap attrs v e.
Proof.
  intros A V G. unfold by_bytes. destruct (pack v) as [b|e'] eqn:P; cbn [bind].
  - rewrite message_pack_raises; [|apply has_set; assumption|exact V]. split; [intros H; right; eauto|].
    intros [H|(b' & [= <-] & H)]; [discriminate H|exact H].
  - split; [intros [= <-]; auto|]. intros [[= <-]|(b & H & _)]; [reflexivity|discriminate H].
Qed.
Lemma there c attrs n : built (VObj c attrs) = true -> is_class_attr c n = true -> exists v, get_attr n attrs = Some v.
Proof.
  intros B I. pose proof (attr_there c attrs n (built_has c attrs B) I) as H. destruct (get_attr n attrs) as [v|]; [eauto|contradiction].
Qed.

Lemma error_refused attrs e : built (VObj ErrorMsg01 attrs) = true -> pack (VObj ErrorMsg01 attrs) = Err e <-> error_raises attrs e.
Proof.
  intros B. pose proof (built_has _ _ B) as A. destruct (there _ attrs "data" B eq_refl) as (d & D).
  rewrite pack_object. change (pack_obj pack get_size get_size ErrorMsg01 attrs) with (error_pack01 pack get_size ErrorMsg01 attrs).
  unfold error_pack01, attr_or_error, error_raises. rewrite D. cbn [bind].
  assert (Q : forall P : pyval -> Prop, (exists d0, Some d = Some d0 /\ P d0) <-> P d) by (intros P; split; [intros (x & [= <-] & H); exact H|eauto]).
  rewrite Q. clear Q. pose proof (message_pack_raises ErrorMsg01 attrs e A eq_refl) as M.
  assert (NB : forall x, has_pack x = negb (no_object x)) by (intros x; rewrite no_object_pack; destruct (has_pack x); reflexivity).
  assert (K : d = VNone \/ (exists b, d = VBytes b) \/ d <> VNone /\ forall b, d <> VBytes b) by (destruct d; first [left; reflexivity|right; left; eexists; reflexivity|right; right; split; [discriminate|intros; discriminate]]).
  destruct K as [-> |[[b ->]|[N1 N2]]].
  - rewrite M. split; [auto|]. intros [[_ H]|[[H _]|[H _]]]; [exact H|congruence|discriminate H].
  - rewrite M. split; [intros H; left; split; [right; eauto|exact H]|]. intros [[_ H]|[[_ [H _]]|[H _]]]; [exact H|destruct (H b eq_refl)|discriminate H].
  - assert (E : match d with VNone | VBytes _ => message_pack pack get_size ErrorMsg01 attrs
       | _ => if has_pack d then do b <- pack d; message_pack pack get_size ErrorMsg01 (set_attr "data" (VBytes b) attrs) else Err AttributeError end
       = if has_pack d then do b <- pack d; message_pack pack get_size ErrorMsg01 (set_attr "data" (VBytes b) attrs) else Err AttributeError).
    { destruct d; try reflexivity; [congruence|destruct (N2 b eq_refl)]. }
    rewrite E, NB. clear E. destruct (no_object d) eqn:O; cbn [negb].
    + split; [intros [= <-]; auto 10|]. intros [[[H|(b & H)] _]|[(_ & _ & _ & ->)|[H _]]]; [congruence|destruct (N2 b H)|reflexivity|discriminate H].
    + rewrite bytes_raises by (first [exact A|reflexivity|congruence]). split; [auto 10|].
      intros [[[H|(b & H)] _]|[(_ & _ & H & _)|[_ H]]]; [congruence|destruct (N2 b H)|discriminate H|exact H].
Qed.
Lemma stats_request_refused attrs e : built (VObj StatsRequest01 attrs) = true ->
  pack (VObj StatsRequest01 attrs) = Err e <-> stats_request_raises attrs e.
Proof.
  intros B. pose proof (built_has _ _ B) as A. destruct (there _ attrs "body" B eq_refl) as (d & D).
  rewrite pack_object. change (pack_obj pack get_size get_size StatsRequest01 attrs) with (stats_request_pack pack get_size StatsRequest01 attrs).
  unfold stats_request_pack, attr_or_error, stats_request_raises. rewrite D. cbn [bind].
  assert (Q : forall P : pyval -> Prop, (exists d0, Some d = Some d0 /\ P d0) <-> P d) by (intros P; split; [intros (x & [= <-] & H); exact H|eauto]).
  rewrite Q. clear Q.
  assert (NB : has_pack d = negb (no_object d)) by (rewrite no_object_pack; destruct (has_pack d); reflexivity).
  rewrite NB. destruct (no_object d); cbn [negb].
  - rewrite (message_pack_raises StatsRequest01 attrs e A eq_refl). split; [auto|]. intros [[_ H]|[H _]]; [exact H|discriminate H].
  - rewrite bytes_raises by (first [exact A|reflexivity|congruence]). split; [auto|]. intros [[H _]|[_ H]]; [discriminate H|exact H].
Qed.
Lemma stats_reply_refused attrs e : built (VObj StatsReply01 attrs) = true ->
  pack (VObj StatsReply01 attrs) = Err e <-> stats_reply_raises attrs e.
Proof.
  intros B. pose proof (built_has _ _ B) as A. destruct (there _ attrs "body" B eq_refl) as (d & D).
  rewrite pack_object. change (pack_obj pack get_size get_size StatsReply01 attrs) with (stats_reply_pack pack get_size get_size StatsReply01 attrs).
  unfold stats_reply_pack, attr_or_error, stats_reply_raises. rewrite D. cbn [bind].
  assert (Q : forall P : pyval -> Prop, (exists d0, Some d = Some d0 /\ P d0) <-> P d) by (intros P; split; [intros (x & [= <-] & H); exact H|eauto]).
  rewrite Q. clear Q.
  assert (NB : has_pack d = negb (no_object d)) by (rewrite no_object_pack; destruct (has_pack d); reflexivity).
  rewrite NB. pose proof (truth_err d) as TE. pose proof (truth_false d) as TF. pose proof (truth_true d) as TT.
  pose proof (message_pack_raises StatsReply01 attrs e A eq_refl) as M.
  destruct (truthy get_size d) as [[|]|e']; cbn [bind].
  - destruct (no_object d) eqn:O; cbn [negb andb].
    + rewrite M. split; [auto|]. intros [H|[[_ H]|(_ & H & _)]]; [apply TE in H; discriminate H|exact H|discriminate H].
    + rewrite bytes_raises by (first [exact A|reflexivity|congruence]).
      split; [intros H; right; right; split; [apply TT; reflexivity|auto]|].
      intros [H|[[[H|H] _]|(_ & _ & H)]]; [apply TE in H; discriminate H|apply TF in H; discriminate H|discriminate H|exact H].
  - rewrite andb_false_l. rewrite M. split; [intros H; right; left; split; [left; apply TF; reflexivity|exact H]|].
    intros [H|[[_ H]|(H & _)]]; [apply TE in H; discriminate H|exact H|apply TT in H; discriminate H].
  - split; [intros [= <-]; left; apply TE; reflexivity|].
    intros [H|[[[H|H] _]|(H & _)]]; [apply TE in H; injection H as ->; reflexivity|apply TF in H; discriminate H| |apply TT in H; discriminate H].
    destruct (proj1 (TE e') eq_refl) as [Bd _]. destruct d; first [discriminate H|discriminate Bd].
Qed.

Lemma form_extend f t form ti : f = FMultipartRequest \/ f = FMultipartReply -> In (t, form) (stats_forms f) -> type_given f t ti ->
  exists inst, body_instance (match f with FMultipartReply => true | _ => false end) ti = Ok inst /\ match form with BList c => inst = VList CFixedTypeList c [] /\ c <> CNone | _ => forall lc pc l, inst <> VList lc pc l end.
Proof.
  intros F I T. destruct (stats_forms_ok f t form I) as (_ & _ & inst & Fi & _ & G). exists inst. split.
  - specialize (G ti T). destruct F as [-> | ->]; exact G.
  - assert (X : Forall (fun p => match snd p with BList c => form_instance (snd p) = Some (VList CFixedTypeList c []) /\ c <> CNone
                         | _ => forall lc pc l, form_instance (snd p) <> Some (VList lc pc l) end) (stats_forms f)).
    { destruct F as [-> | ->]; cbn [stats_forms]; repeat apply Forall_cons; try apply Forall_nil; cbn [snd];
        first [split; [reflexivity|discriminate]|intros; discriminate]. }
    rewrite Forall_forall in X. specialize (X _ I). cbn [snd] in X. rewrite Fi in X.
    destruct form; [intros lc pc l ->; exact (X lc pc l eq_refl)|destruct X as [[= ->] Xc]; auto|intros lc pc l ->; exact (X lc pc l eq_refl)].
Qed.
Lemma multipart_refused f attrs t form ti e : f = FMultipartRequest \/ f = FMultipartReply -> built (VObj (stats_class f) attrs) = true ->
  get_attr "multipart_type" attrs = Some ti -> type_given f t ti -> In (t, form) (stats_forms f) ->
  pack (VObj (stats_class f) attrs) = Err e <-> multipart_raises f attrs form e.
Proof.
  intros F B Ti T I. pose proof (built_has _ _ B) as A. destruct (there _ attrs "body" B ltac:(destruct F as [-> | ->]; reflexivity)) as (d & D).
  assert (V : existsb (cid_eqb (stats_class f)) [PacketOut01; PacketOut04] = false) by (destruct F as [-> | ->]; reflexivity).
  destruct (form_extend f t form ti F I T) as (inst & Bi & Fi).
  rewrite pack_object.
  assert (E : pack_obj pack get_size get_size (stats_class f) attrs = multipart_pack pack get_size get_size (match f with FMultipartReply => true | _ => false end) (stats_class f) attrs)
    by (destruct F as [-> | ->]; reflexivity).
  rewrite E. clear E. generalize dependent (match f with FMultipartReply => true | _ => false end). intros reply Bi.
  unfold multipart_pack, attr_or_error, multipart_raises. rewrite D. cbn [bind].
  assert (Q : forall P : pyval -> Prop, (exists d0, Some d = Some d0 /\ P d0) <-> P d) by (intros P; split; [intros (x & [= <-] & H); exact H|eauto]).
  rewrite Q. clear Q.
  pose proof (truth_err d) as TE. pose proof (truth_false d) as TF. pose proof (truth_true d) as TT.
  pose proof (message_pack_raises (stats_class f) attrs e A V) as M.
  destruct (truthy get_size d) as [[|]|e']; cbn [bind].
  - assert (NT : forall R : Prop, no_truth d e \/ false_value d /\ message_raises (stats_class f) attrs e \/ true_value d /\ R <-> R).
    { intros R. split; [|intros r; right; right; split; [apply TT; reflexivity|exact r]].
      intros [H|[[H _]|[_ H]]]; [apply TE in H; discriminate H|apply TF in H; discriminate H|exact H]. }
    rewrite NT. clear NT TE TF TT M.
    assert (NB : has_pack d = negb (no_object d)) by (rewrite no_object_pack; destruct (has_pack d); reflexivity).
    assert (G : (if has_pack d then do b <- pack d; message_pack pack get_size (stats_class f) (set_attr "body" (VBytes b) attrs) else Err UnboundLocalError) = Err e <->
                (no_object d = true /\ e = UnboundLocalError \/ no_object d = false /\ by_bytes (stats_class f) "body" VBytes attrs d e)).
    { rewrite NB. destruct (no_object d); cbn [negb].
      - split; [intros [= <-]; auto|]. intros [[_ ->]|[H _]]; [reflexivity|discriminate H].
      - rewrite bytes_raises by (first [exact A|exact V|congruence]). split; [auto|]. intros [[H _]|[_ H]]; [discriminate H|exact H]. }
    destruct d as [| | | | | | | | | | | | | |lc pc items]; try exact G. clear G NB.
    rewrite Ti. cbn [bind]. rewrite Bi. cbn [bind].
    destruct form as [c|c|].
    + destruct inst as [| | | | | | | | | | | | | |lc' pc' l']; try (split; [intros [= <-]; reflexivity|intros ->; reflexivity]). destruct (Fi lc' pc' l' eq_refl).
    + destruct Fi as [-> Nc]. unfold list_extend. cbn [iterate bind].
      assert (L : forall items', leaf_list (VList lc pc items) items' <-> items' = flat_map flat items).
      { intros items'. split; [intros H; apply leaf_fun in H; rewrite flat_list in H; exact H|]. intros ->. rewrite <- (flat_list lc pc). eapply leaf_flat, le_n. }
      destruct (check_items c (flat_map flat items)) as [r|e'] eqn:C; cbn [bind].
      * apply check_items_same in C as Er. subst r. rewrite bytes_raises by (first [exact A|exact V|congruence]). split.
        -- intros H. exists (flat_map flat items). split; [apply L; reflexivity|]. right. split; [apply check_items_ok; assumption|exact H].
        -- intros (its & Li & [[X _]|[_ H]]); apply L in Li; subst its; [|exact H].
           assert (Y : check_items c (flat_map flat items) = Err WrongListItemType) by (apply check_items_err; auto). congruence.
      * pose proof C as C'. apply check_items_err in C' as [-> X]; [|exact Nc]. split.
        -- intros [= <-]. exists (flat_map flat items). split; [apply L; reflexivity|]. left. auto.
        -- intros (its & Li & [[_ ->]|[X' _]]); [reflexivity|]. apply L in Li. subst its. apply check_items_ok in X'; [congruence|exact Nc].
    + destruct inst as [| | | | | | | | | | | | | |lc' pc' l']; try (split; [intros [= <-]; reflexivity|intros ->; reflexivity]). destruct (Fi lc' pc' l' eq_refl).
  - rewrite M. split; [intros H; right; left; split; [apply TF; reflexivity|exact H]|].
    intros [H|[[_ H]|[H _]]]; [apply TE in H; discriminate H|exact H|apply TT in H; discriminate H].
  - split; [intros [= <-]; left; apply TE; reflexivity|].
    intros [H|[[H _]|[H _]]]; [apply TE in H; injection H as ->; reflexivity|apply TF in H; discriminate H|apply TT in H; discriminate H].
Qed.

(** ** PacketOut *)
Lemma int_enum_iff e : is_int_enum e = true <-> int_enumeration e.
Proof. unfold is_int_enum, int_enumeration. destruct (enum_def e); split; try discriminate; try (intros [l H]; discriminate H); eauto. Qed.
Lemma port_number_iff v z : num_of v = Ok z <-> port_number v z.
Proof.
  split.
  - unfold num_of. destruct v; cbn [as_int]; try discriminate.
    + injection 1 as ->. constructor.
    + destruct (is_int_enum e) eqn:E; [|discriminate]. injection 1 as ->. constructor. apply int_enum_iff, E.
    + unfold generic_value. destruct er as [e|].
      * destruct (enum_def e) eqn:De; destruct v; cbn [as_int]; try discriminate; try (injection 1 as ->; constructor; fail);
          try (destruct (eid_eqb e e0) eqn:Q; cbn [as_int];
               [injection 1 as ->; apply eid_eqb_eq in Q; subst; apply po_own_member; intros [l' H']; congruence|]);
          try (destruct (is_int_enum _) eqn:X; [|discriminate]; injection 1 as ->; apply po_held_member, int_enum_iff, X).
        injection 1 as ->. apply po_own_mask. eexists. exact De.
      * destruct v; cbn [as_int]; try discriminate; try (injection 1 as ->; constructor; fail).
        destruct (is_int_enum _) eqn:X; [|discriminate]. injection 1 as ->. apply po_held_member, int_enum_iff, X.
  - intros [z'|e z' H|w er z'|w er e z' H|w e z' H|w e z'|w e' e z' [l H]]; unfold num_of; cbn [as_int].
    + reflexivity.
    + rewrite (proj2 (int_enum_iff e) H). reflexivity.
    + unfold generic_value. destruct er as [e|]; [destruct (enum_def e)|]; reflexivity.
    + unfold generic_value. pose proof (proj2 (int_enum_iff e) H) as X. destruct er as [e'|]; [destruct (enum_def e')|]; try destruct (eid_eqb e' e); cbn [as_int]; try rewrite X; reflexivity.
    + unfold generic_value. destruct (enum_def e) eqn:De; [| |destruct H; eexists; exact De]; rewrite eid_eqb_refl; reflexivity.
    + reflexivity.
    + unfold generic_value. rewrite H. reflexivity.
Qed.
Lemma check_either pc l : pc <> CNone -> (check_items pc l = Ok l /\ Forall (fun x => subclass (class_of x) pc = true) l) \/
  (check_items pc l = Err WrongListItemType /\ Exists (other_class pc) l).
Proof.
  intros N. destruct (check_items pc l) as [r|e] eqn:C.
  - pose proof (check_items_same _ _ _ C) as Er. subst r. left. split; [reflexivity|]. apply check_items_ok; assumption.
  - right. apply check_items_err in C as [-> X]; [|exact N]. auto.
Qed.
Lemma not_both pc l : Forall (fun x => subclass (class_of x) pc = true) l -> Exists (other_class pc) l -> False.
Proof.
  intros F X. rewrite Exists_exists in X. destruct X as (x & I & O). rewrite Forall_forall in F. specialize (F x I). unfold other_class in O. congruence.
Qed.
Definition actions_len (v : of_version) (a : pyval) : res Z :=
  if subclass (class_of a) (out_list v) then get_size a
  else do items <- list_init get_size (out_action v) a; get_size (VList (out_list v) (out_action v) items).
Lemma leaf_items lc pc items l : leaf_list (VList lc pc items) l <-> l = flat_map flat items.
Proof.
  split; [intros H; apply leaf_fun in H; rewrite flat_list in H; exact H|]. intros ->. rewrite <- (flat_list lc pc). eapply leaf_flat, le_n.
Qed.
Lemma empty_size v : get_size (VList (out_list v) (out_action v) []) = Ok 0.
Proof. destruct v; vm_compute; reflexivity. Qed.
Lemma actions_size_iff v a r : actions_size v (out_action v) a r <-> r = actions_len v a.
Proof.
  assert (N : out_action v <> CNone) by (destruct v; discriminate). unfold actions_len. split.
  - intros [a' H|lc pc' its l H L F|lc pc' its l H L X|a' e [H NL] T|a' [H NL] T|a' [H NL] T F|a' [H NL] T F].
    + rewrite H. reflexivity.
    + change (class_of (VList lc pc' its)) with lc. rewrite H. apply leaf_items in L. subst l. cbn [list_init].
      assert (C : check_items (out_action v) (flat_map flat its) = Ok (flat_map flat its)) by (apply check_items_ok; assumption). rewrite C. cbn [bind]. reflexivity.
    + change (class_of (VList lc pc' its)) with lc. rewrite H. apply leaf_items in L. subst l. cbn [list_init].
      destruct (check_either _ (flat_map flat its) N) as [[_ F]|[-> _]]; [destruct (not_both _ _ F X)|cbn [bind]; reflexivity].
    + rewrite H. apply truth_err in T. destruct a'; try (destruct (NL _ _ _ eq_refl)); unfold list_init; rewrite T; cbn [bind]; reflexivity.
    + rewrite H. apply truth_false in T. destruct a'; try (destruct (NL _ _ _ eq_refl)); unfold list_init; rewrite T; cbn [bind]; rewrite empty_size; reflexivity.
    + rewrite H. apply truth_true in T.
      assert (E : list_init get_size (out_action v) a' = check_items (out_action v) [a']) by (destruct a'; try (destruct (NL _ _ _ eq_refl)); unfold list_init; rewrite T; reflexivity).
      rewrite E. assert (C : check_items (out_action v) [a'] = Ok [a']) by (apply check_items_ok; auto). rewrite C. cbn [bind]. reflexivity.
    + rewrite H. apply truth_true in T.
      assert (E : list_init get_size (out_action v) a' = check_items (out_action v) [a']) by (destruct a'; try (destruct (NL _ _ _ eq_refl)); unfold list_init; rewrite T; reflexivity).
      rewrite E. assert (C : check_items (out_action v) [a'] = Err WrongListItemType) by (apply check_items_err; auto). rewrite C. cbn [bind]. reflexivity.
  - intros ->. destruct (subclass (class_of a) (out_list v)) eqn:H; [apply as_list, H|].
    assert (D : (exists lc pc l, a = VList lc pc l) \/ forall lc pc l, a <> VList lc pc l) by (destruct a; first [left; do 3 eexists; reflexivity|right; intros; discriminate]).
    destruct D as [(lc & pc' & its & ->)|NL].
    + cbn [list_init]. destruct (check_either _ (flat_map flat its) N) as [[-> F]|[-> X]]; cbn [bind];
        [eapply as_items; [exact H|apply leaf_items; reflexivity|exact F]|eapply as_wrong; [exact H|apply leaf_items; reflexivity|exact X]].
    + assert (E : list_init get_size (out_action v) a = do t <- truthy get_size a; if t then check_items (out_action v) [a] else Ok [])
        by (destruct a; try reflexivity; destruct (NL _ _ _ eq_refl)).
      rewrite E. destruct (truthy get_size a) as [[|]|e] eqn:T; cbn [bind].
      * apply truth_true in T. destruct (check_either _ [a] N) as [[-> F]|[-> X]]; cbn [bind].
        -- inversion F; subst. apply as_one; [split; assumption|exact T|assumption].
        -- apply as_other; [split; assumption|exact T|]. inversion X; [assumption|]. inversion H1.
      * rewrite empty_size. apply as_none; [split; assumption|apply truth_false, T].
      * apply as_no_truth; [split; assumption|apply truth_err, T].
Qed.
Lemma port_outcome v attrs : has_attributes (out_class v) attrs = true ->
  match is_valid (out_class v) attrs with
  | Ok true => forall e, ~ port_raises v attrs e
  | Ok false => forall e, port_raises v attrs e <-> e = ValidationError
  | Err e' => forall e, port_raises v attrs e <-> e = e'
  end.
Proof.
  intros A. pose proof (attr_there _ attrs "in_port" A ltac:(destruct v; reflexivity)) as G.
  assert (E : is_valid (out_class v) attrs = do p <- attr_or_error "in_port" attrs;
     match v with V01 => valid_in_port 0xff00 [0xfffe; 0xfffd; 0xffff] p | V04 => valid_in_port 0xffffff00 [0xfffffffe; 0xfffffffd; 0xffffffff] p end)
    by (destruct v; reflexivity).
  rewrite E. clear E. unfold attr_or_error, port_raises. destruct (get_attr "in_port" attrs) as [ip|]; [|contradiction]. cbn [bind].
  assert (Q : forall P : pyval -> Prop, (exists d0, Some ip = Some d0 /\ P d0) <-> P ip) by (intros P; split; [intros (x & [= <-] & H); exact H|eauto]).
  pose proof (port_number_iff ip) as PN.
  assert (W : match v with V01 => valid_in_port 0xff00 [0xfffe; 0xfffd; 0xffff] ip | V04 => valid_in_port 0xffffff00 [0xfffffffe; 0xfffffffd; 0xffffffff] ip end
     = do p <- num_of ip; Ok (match v with
    | V01 => (1 <=? p) && (p <=? 0xff00) || ((p =? 0xfffe) || (p =? 0xfffd) || (p =? 0xffff))
    | V04 => (1 <=? p) && (p <=? 0xffffff00) || ((p =? 0xfffffffe) || (p =? 0xfffffffd) || (p =? 0xffffffff))
    end)) by (destruct v; unfold valid_in_port; destruct (num_of ip); cbn [bind existsb]; f_equal; lia).
  rewrite W. clear W. destruct (num_of ip) as [p|e'] eqn:Np; cbn [bind].
  - assert (U : forall p', port_number ip p' -> p' = p) by (intros p' H; apply PN in H; congruence).
    assert (Pp : port_number ip p) by (apply PN; reflexivity).
    destruct (match v with V01 => _ | V04 => _ end) eqn:S0.
    + intros e. rewrite Q. intros [[H _]|(p' & H & S1 & _)]; [exact (H p Pp)|]. apply U in H. subst p'. apply S1. destruct v; cbn [sending_port]; lia.
    + intros e. rewrite Q. split; [intros [[H _]|(p' & H & S1 & ->)]; [destruct (H p Pp)|reflexivity]|].
      intros ->. right. exists p. split; [exact Pp|]. split; [|reflexivity]. destruct v; cbn [sending_port]; lia.
  - assert (X : e' = TypeError).
    { unfold num_of in Np. destruct ip; cbn [as_int] in Np; try (destruct (as_int _)); try (destruct (is_int_enum _)); try discriminate Np; injection Np; auto. }
    subst e'. intros e. rewrite Q. split; [intros [[_ H]|(p & H & _)]; [exact H|apply PN in H; discriminate H]|].
    intros ->. left. split; [|reflexivity]. intros p H. apply PN in H. discriminate H.
Qed.
Lemma packet_out_refused v attrs e : built (VObj (out_class v) attrs) = true ->
  pack (VObj (out_class v) attrs) = Err e <-> packet_out_raises v attrs e.
Proof.
  intros B. pose proof (built_has _ _ B) as A. destruct (there _ attrs "actions" B ltac:(destruct v; reflexivity)) as (a & Da).
  rewrite pack_object.
  assert (E : pack_obj pack get_size get_size (out_class v) attrs = do alen <- actions_len v a; message_pack pack get_size (out_class v) (set_attr "actions_len" (VInt alen) attrs)).
  { destruct v; cbn [out_class]; unfold pack_obj; cbn [kind]; unfold packet_out_pack, attr_or_error, actions_len; rewrite Da; reflexivity. }
  rewrite E. clear E. unfold packet_out_raises.
  assert (Q : (exists a0 r, get_attr "actions" attrs = Some a0 /\ actions_size v (out_action v) a0 r /\
       match r with Err e' => e = e' | Ok n => out_raises v (set_attr "actions_len" (VInt n) attrs) e end) <->
      match actions_len v a with Err e' => e = e' | Ok n => out_raises v (set_attr "actions_len" (VInt n) attrs) e end).
  { rewrite Da. split.
    - intros (a0 & r & [= <-] & H & M). apply actions_size_iff in H. subst r. exact M.
    - intros H. exists a, (actions_len v a). split; [reflexivity|]. split; [apply actions_size_iff; reflexivity|exact H]. }
  rewrite Q. clear Q. destruct (actions_len v a) as [n|e']; cbn [bind]; [|split; [intros [= <-]|intros ->]; reflexivity].
  assert (A1 : has_attributes (out_class v) (set_attr "actions_len" (VInt n) attrs) = true).
  { apply has_set; [exact A|]. apply (attr_there (out_class v)); [exact A|destruct v; reflexivity]. }
  revert A1. generalize (set_attr "actions_len" (VInt n) attrs) as at1. clear. intros at1 A.
  unfold message_pack, out_raises, attr_or_error.
  destruct (get_size (VObj (out_class v) at1)) as [s|e']; cbn [bind]; [|split; [intros [= <-]|intros ->]; reflexivity].
  destruct (get_attr "header" at1) as [h|] eqn:H; cbn [bind]; [|split; [intros [= <-]|intros ->]; reflexivity].
  destruct h as [| | | | | | | | | | | | |hc h|]; try (split; [intros [= <-]|intros ->]; reflexivity).
  set (at2 := set_attr "header" (VObj hc (set_attr "length" (VInt s) h)) at1).
  assert (A2 : has_attributes (out_class v) at2 = true) by (apply has_set; [exact A|congruence]).
  assert (I : is_valid (out_class v) at2 = is_valid (out_class v) at1).
  { unfold is_valid. destruct v; cbn [out_class kind]; unfold attr_or_error, at2; rewrite StructFacts.get_set_other by discriminate; reflexivity. }
  pose proof (port_outcome v at1 A) as P. pose proof (fun V => struct_refused (out_class v) at2 e A2 V) as SR.
  rewrite I in SR. destruct (is_valid (out_class v) at1) as [[|]|e'] eqn:V.
  - rewrite (SR eq_refl). split; [intros F; right; split; [exact P|exact F]|]. intros [F|[_ F]]; [destruct (P e F)|exact F].
  - unfold struct_pack. rewrite I. cbn [bind]. split; [intros [= <-]; left; apply P; reflexivity|].
    intros [F|[N _]]; [apply P in F; subst; reflexivity|]. destruct (N ValidationError). apply P. reflexivity.
  - unfold struct_pack. rewrite I. cbn [bind]. split; [intros [= <-]; left; apply P; reflexivity|].
    intros [F|[N _]]; [apply P in F; subst; reflexivity|]. destruct (N e'). apply P. reflexivity.
Qed.
Lemma set_field_refused attrs e : built (VObj ActionSetField04 attrs) = true ->
  pack (VObj ActionSetField04 attrs) = Err e <-> set_field_raises attrs e.
Proof.
  intros B. pose proof (built_has _ _ B) as A. destruct (there _ attrs "field" B eq_refl) as (f & F).
  rewrite pack_object. change (pack_obj pack get_size get_size ActionSetField04 attrs) with (setfield_pack pack ActionSetField04 attrs).
  unfold setfield_pack, attr_or_error, set_field_raises. rewrite F. cbn [bind].
  assert (Q : forall P : pyval -> Prop, (exists d0, Some f = Some d0 /\ P d0) <-> P f) by (intros P; split; [intros (x & [= <-] & H); exact H|eauto]).
  rewrite Q. clear Q. rewrite no_object_pack. destruct (has_pack f) eqn:HP; cbn [negb].
  - destruct (pack f) as [b|e'] eqn:Pf; cbn [bind].
    + set (at1 := set_attr "length" _ attrs).
      assert (A1 : has_attributes ActionSetField04 at1 = true) by (apply has_set; [exact A|apply (attr_there ActionSetField04); [exact A|reflexivity]]).
      pose proof (struct_refused ActionSetField04 at1 e A1 ltac:(reflexivity)) as SR.
      assert (U : forall n, (8 | n) /\ 4 + zlen b <= n < 12 + zlen b <-> n = ceil8 (4 + zlen b)).
      { intros n. unfold ceil8. split; [intros [[k ->] H]; f_equal; apply Z.div_unique with (4 + zlen b + 7 - k * 8); lia|].
        intros ->. split; [eexists; reflexivity|]. pose proof (Z.div_mod (4 + zlen b + 7) 8 ltac:(lia)). pose proof (Z.mod_pos_bound (4 + zlen b + 7) 8 ltac:(lia)). lia. }
      destruct (struct_pack pack ActionSetField04 at1) as [p|e'] eqn:SP; cbn [bind].
      * split; [discriminate|]. intros [[? _]|[_ [?|(b' & n & [= <-] & D & R & X)]]]; try discriminate.
        assert (n = ceil8 (4 + zlen b)) as -> by (apply U; auto). apply SR in X. discriminate.
      * split.
        -- intros [= ->]. right. split; [reflexivity|]. right. exists b, (ceil8 (4 + zlen b)). split; [reflexivity|].
           destruct (proj2 (U _) eq_refl) as [D R]. split; [exact D|]. split; [exact R|]. apply SR. reflexivity.
        -- intros [[? _]|[_ [?|(b' & n & [= <-] & D & R & X)]]]; try discriminate.
           assert (n = ceil8 (4 + zlen b)) as -> by (apply U; auto). apply SR in X. exact X.
    + split; [intros [= ->]; auto|]. intros [[? _]|[_ [?|(b' & n & H & _)]]]; try discriminate. assumption.
  - cbn [bind]. split; [intros [= <-]; auto|]. intros [[_ ->]|[? _]]; [reflexivity|discriminate].
Qed.
