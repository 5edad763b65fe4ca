(** Lemmas for C65: multipart messages of any type. *)
From Coq Require Import ZArith List Bool String Lia ZifyBool.
From Verif Require Import Base PyText Ids PyVal Classes Interp Utils Spec SpecBasic SpecMutation SpecLayout SpecMsg SpecReject
  ClassFacts StructFacts MsgBody Totality LayoutFacts RejectFacts RejectFacts2 SpecReject2 SpecReject3 IntFacts RejectFacts3.
Import ListNotations.
Open Scope string_scope.
Open Scope list_scope.
Open Scope Z_scope.

(** ** The list that belongs to a type *)
Definition is_reply (f : stats_family) : bool := match f with FMultipartReply => true | _ => false end.
Lemma body_form_list f z c : f = FMultipartRequest \/ f = FMultipartReply ->
  multipart_body (is_reply f) z = Some (inr c) <-> In (z, BList c) (stats_forms f).
Proof.
  intros F. split.
  - intros H. assert (R : 0 <= z < 14).
    { destruct F as [-> | ->]; cbn [is_reply multipart_body] in H;
        repeat match type of H with context [match ?x with _ => _ end] => is_var x; destruct x; try discriminate H end; lia. }
    assert (X : In z (map Z.of_nat (seq 0 14))) by (apply in_map_iff; exists (Z.to_nat z); split; [lia|apply in_seq; lia]).
    cbn in X. destruct F as [-> | ->]; repeat (destruct X as [<-|X]; [try discriminate H; vm_compute in H; injection H as <-; cbn; tauto|]); destruct X.
  - intros H. destruct F as [-> | ->]; cbn in H; repeat (destruct H as [H|H]; [first [discriminate H|injection H as <- <-; reflexivity]|]); destruct H.
Qed.
Lemma asked_list f a c c' : f = FMultipartRequest \/ f = FMultipartReply ->
  list_for f a c -> list_for f a c' -> c = c'.
Proof.
  intros F (z & Z1 & H) (z' & Z2 & H'). rewrite Z1 in Z2. injection Z2 as <-. apply (body_form_list f z c F) in H. apply (body_form_list f z c' F) in H'. congruence.
Qed.
Definition picked (reply : bool) (t : option Z) : res pyval :=
  match t with
  | Some t =>
      match multipart_body reply t with
      | Some (inl c) => match new_instance c with Some v => Ok v | None => Err TypeError end
      | Some (inr c) => Ok (VList CFixedTypeList c [])
      | None => Ok (VBin (VBytes []))
      end
  | None => Ok (VBin (VBytes []))
  end.
Lemma body_single reply z c : multipart_body reply z = Some (inl c) -> exists a, new_instance c = Some (VObj c a).
Proof.
  assert (X : forall c0, In c0 [Desc04; GroupFeatures04; MeterFeatures04; ExperimenterMultipartHeader04; FlowStatsRequest04; AggregateStatsRequest04;
     PortStatsRequest04; QueueStatsRequest04; GroupStatsRequest04; MeterMultipartRequest04] -> exists a, new_instance c0 = Some (VObj c0 a)).
  { intros c0 H. cbn [In] in H. repeat (destruct H as [<-|H]; [eexists; vm_compute; reflexivity|]). destruct H. }
  intros H. apply X. cbn [In]. destruct reply; cbn [multipart_body] in H;
    repeat match type of H with context [match ?x with _ => _ end] => is_var x; destruct x; try discriminate H end; injection H as <-; tauto.
Qed.
Lemma list_item_class f z c : f = FMultipartRequest \/ f = FMultipartReply -> In (z, BList c) (stats_forms f) -> c <> CNone.
Proof.
  intros F I. destruct F as [-> | ->]; cbn in I; repeat (destruct I as [I|I]; [first [discriminate I|injection I as _ <-; discriminate]|]); destruct I.
Qed.
Lemma picked_list f t : f = FMultipartRequest \/ f = FMultipartReply ->
  exists inst, picked (is_reply f) t = Ok inst /\
    ((exists c, list_for f t c /\ inst = VList CFixedTypeList c [] /\ c <> CNone) \/
     (forall c, ~ list_for f t c) /\ forall lc pc l, inst <> VList lc pc l).
Proof.
  intros F. unfold picked, list_for. destruct t as [z|].
  2:{ eexists. split; [reflexivity|]. right. split; [intros c (z & H & _); discriminate H|discriminate]. }
  destruct (multipart_body (is_reply f) z) as [[c|c]|] eqn:M.
  - destruct (body_single _ z c M) as (a & N). rewrite N. eexists. split; [reflexivity|]. right. split; [|discriminate].
    intros c' (z' & [= <-] & H). apply (body_form_list f z c' F) in H. congruence.
  - eexists. split; [reflexivity|]. left. exists c. apply (body_form_list f z c F) in M. split; [eauto|]. split; [reflexivity|eapply list_item_class; eassumption].
  - eexists. split; [reflexivity|]. right. split; [|discriminate]. intros c' (z' & [= <-] & H). apply (body_form_list f z c' F) in H. congruence.
Qed.
Lemma asked_instance f ti a : f = FMultipartRequest \/ f = FMultipartReply -> type_asked ti a ->
  match a with
  | Err e => body_instance (is_reply f) ti = Err e
  | Ok t => exists inst, body_instance (is_reply f) ti = Ok inst /\
      ((exists c, list_for f t c /\ inst = VList CFixedTypeList c [] /\ c <> CNone) \/
       (forall c, ~ list_for f t c) /\ forall lc pc l, inst <> VList lc pc l)
  end.
Proof.
  intros F T.
  assert (E : body_instance (is_reply f) ti = match a with Ok t => picked (is_reply f) t | Err e => Err e end).
  2:{ rewrite E. destruct a as [t|e]; [apply picked_list, F|reflexivity]. }
  clear F. destruct T as [z|e z I|e z I D|e e' z I I' D|e z I D|e e' z I I' D|e x I X|x|v O N|lc pc l| |s|b|e z I|e z].
  - reflexivity.
  - apply int_enum_iff in I. unfold body_instance, as_int. rewrite I. reflexivity.
  - destruct I as [l I]. apply declared_member in D. unfold body_instance, generic_value, enum_call. rewrite I. cbn [as_int bind]. rewrite D. cbn [bind].
    unfold as_int, is_int_enum. rewrite I. reflexivity.
  - destruct I as [l I]. apply declared_member in D. unfold body_instance, generic_value, enum_call. rewrite I.
    assert (K : as_int (if eid_eqb e e' then VInt z else VEnum e' z) = Some z) by (destruct (eid_eqb e e'); [reflexivity|]; apply int_enum_iff in I'; cbn [as_int]; rewrite I'; reflexivity).
    rewrite K, D. cbn [bind]. unfold as_int, is_int_enum. rewrite I. reflexivity.
  - destruct I as [l I]. rewrite declared_member in D. apply not_true_is_false in D. unfold body_instance, generic_value, enum_call. rewrite I. cbn [as_int bind]. rewrite D. reflexivity.
  - destruct I as [l I]. rewrite declared_member in D. apply not_true_is_false in D. unfold body_instance, generic_value, enum_call. rewrite I.
    assert (K : as_int (if eid_eqb e e' then VInt z else VEnum e' z) = Some z) by (destruct (eid_eqb e e'); [reflexivity|]; apply int_enum_iff in I'; cbn [as_int]; rewrite I'; reflexivity).
    rewrite K, D. reflexivity.
  - destruct I as [l I]. unfold body_instance, generic_value. rewrite I. destruct X as [-> |[[s ->]|[b ->] ] ]; reflexivity.
  - reflexivity.
  - destruct v; try discriminate O; try reflexivity. unfold body_instance. destruct w as [|[|[|w] ] ]; try reflexivity. destruct (N er v eq_refl).
  - reflexivity.
  - reflexivity.
  - reflexivity.
  - reflexivity.
  - assert (K : is_int_enum e = false) by (apply not_true_is_false; intros H; apply I, int_enum_iff, H). unfold body_instance, as_int. rewrite K. reflexivity.
  - reflexivity.
Qed.

Lemma multipart_any f attrs a ti e : f = FMultipartRequest \/ f = FMultipartReply -> built (VObj (stats_class f) attrs) = true ->
  get_attr "multipart_type" attrs = Some ti -> type_asked ti a ->
  pack (VObj (stats_class f) attrs) = Err e <-> multipart_any_raises f attrs a e.
Proof.
  intros F B Ti T. pose proof (built_has _ _ B) as A. destruct (there _ attrs "body" B ltac:(destruct F as [-> | ->]; reflexivity)) as (d & D).
  assert (V : existsb (cid_eqb (stats_class f)) [PacketOut01; PacketOut04] = false) by (destruct F as [-> | ->]; reflexivity).
  pose proof (asked_instance f ti a F T) as Bi.
  rewrite pack_object.
  assert (E : pack_obj pack get_size get_size (stats_class f) attrs = multipart_pack pack get_size get_size (is_reply f) (stats_class f) attrs)
    by (destruct F as [-> | ->]; reflexivity).
  rewrite E. clear E. generalize dependent (is_reply f). intros reply Bi.
  unfold multipart_pack, attr_or_error, multipart_any_raises. rewrite D. cbn [bind].
  assert (Q : forall P : pyval -> Prop, (exists d0, Some d = Some d0 /\ P d0) <-> P d) by (intros P; split; [intros (x & [= <-] & H); exact H|eauto]).
  rewrite Q. clear Q.
  pose proof (truth_err d) as TE. pose proof (truth_false d) as TF. pose proof (truth_true d) as TT.
  pose proof (message_pack_raises (stats_class f) attrs e A V) as M.
  destruct (truthy get_size d) as [[|]|e']; cbn [bind].
  - assert (NT : forall R : Prop, no_truth d e \/ false_value d /\ message_raises (stats_class f) attrs e \/ true_value d /\ R <-> R).
    { intros R. split; [|intros r; right; right; split; [apply TT; reflexivity|exact r]].
      intros [H|[[H _]|[_ H]]]; [apply TE in H; discriminate H|apply TF in H; discriminate H|exact H]. }
    rewrite NT. clear NT TE TF TT M.
    assert (NB : has_pack d = negb (no_object d)) by (rewrite no_object_pack; destruct (has_pack d); reflexivity).
    assert (G : (if has_pack d then do b <- pack d; message_pack pack get_size (stats_class f) (set_attr "body" (VBytes b) attrs) else Err UnboundLocalError) = Err e <->
                (no_object d = true /\ e = UnboundLocalError \/ no_object d = false /\ by_bytes (stats_class f) "body" VBytes attrs d e)).
    { rewrite NB. destruct (no_object d); cbn [negb].
      - split; [intros [= <-]; auto|]. intros [[_ ->]|[H _]]; [reflexivity|discriminate H].
      - rewrite bytes_raises by (first [exact A|exact V|congruence]). split; [auto|]. intros [[H _]|[_ H]]; [discriminate H|exact H]. }
    destruct d as [| | | | | | | | | | | | | |lc pc items]; try exact G. clear G NB.
    rewrite Ti. cbn [bind]. destruct a as [a|e']; [|rewrite Bi; cbn [bind]; split; [intros [= ->]|intros ->]; reflexivity].
    destruct Bi as (inst & Bi & Fi). rewrite Bi. cbn [bind]. destruct Fi as [(c & K & -> & Nc)|[K Ni]].
    2:{ assert (X : (match inst with
        | VList lc0 pc0 _ => do items0 <- list_extend pc0 (VList lc pc items); do b <- pack (VList lc0 pc0 items0); message_pack pack get_size (stats_class f) (set_attr "body" (VBytes b) attrs)
        | _ => Err AttributeError end) = Err AttributeError) by (destruct inst as [| | | | | | | | | | | | | |lc' pc' l']; try reflexivity; destruct (Ni lc' pc' l' eq_refl)).
        rewrite X. split; [intros [= <-]; right; auto|]. intros [(c & H & _)|[_ ->]]; [destruct (K c H)|reflexivity]. }
    transitivity (exists its, leaf_list (VList lc pc items) its /\
       (Exists (other_class c) its /\ e = WrongListItemType \/
        Forall (fun x => subclass (class_of x) c = true) its /\ by_bytes (stats_class f) "body" VBytes attrs (VList CFixedTypeList c its) e)).
    2:{ split; [intros H; left; exists c; auto|]. intros [(c' & K' & H)|[H _]]; [|destruct (H c K)].
        rewrite (asked_list f a c' c F K' K) in H. exact H. }
    unfold list_extend. cbn [iterate bind].
    assert (L : forall items', leaf_list (VList lc pc items) items' <-> items' = flat_map flat items).
    { intros items'. split; [intros H; apply leaf_fun in H; rewrite flat_list in H; exact H|]. intros ->. rewrite <- (flat_list lc pc). eapply leaf_flat, le_n. }
    destruct (check_items c (flat_map flat items)) as [r|e'] eqn:C; cbn [bind].
    + apply check_items_same in C as Er. subst r. rewrite bytes_raises by (first [exact A|exact V|congruence]). split.
      * intros H. exists (flat_map flat items). split; [apply L; reflexivity|]. right. split; [apply check_items_ok; assumption|exact H].
      * intros (its & Li & [[X _]|[_ H]]); apply L in Li; subst its; [|exact H].
        assert (Y : check_items c (flat_map flat items) = Err WrongListItemType) by (apply check_items_err; auto). congruence.
    + pose proof C as C'. apply check_items_err in C' as [-> X]; [|exact Nc]. split.
      * intros [= <-]. exists (flat_map flat items). split; [apply L; reflexivity|]. left. auto.
      * intros (its & Li & [[_ ->]|[X' _]]); [reflexivity|]. apply L in Li. subst its. apply check_items_ok in X'; [congruence|exact Nc].
  - rewrite M. split; [intros H; right; left; split; [apply TF; reflexivity|exact H]|].
    intros [H|[[_ H]|[H _]]]; [apply TE in H; discriminate H|exact H|apply TT in H; discriminate H].
  - split; [intros [= <-]; left; apply TE; reflexivity|].
    intros [H|[[H _]|[H _]]]; [apply TE in H; injection H as ->; reflexivity|apply TF in H; discriminate H|apply TT in H; discriminate H].
Qed.

