(** The length in the header of a message: lemmas for C10. *)
From Coq Require Import ZArith List Bool String Lia.
From Verif Require Import Base PyText Ids PyVal Classes Interp SpecBasic SpecMutation SpecLayout SpecSize ClassFacts BaseFacts IntFacts
  StructFacts DispatchFacts FuelFacts Totality MutationFacts MutationFacts2 MutationFacts3 LayoutFacts SizeFacts.
Import ListNotations.
Open Scope string_scope.
Open Scope list_scope.
Open Scope Z_scope.

(** Which classes are messages. *)
Definition message_kind (k : ckind) : bool :=
  match k with
  | KMessage | KErrorMsg04 | KErrorExp04 | KPacketOut01 | KPacketOut04 | KErrorMsg01 | KStatsRequest | KStatsReply
  | KMultipartRequest | KMultipartReply => true
  | _ => false
  end.
Definition message_class (c : cid) : bool :=
  match openflow_layout c with Some (("header", _) :: _, _) => true | _ => false end.
Definition message_ok (c : cid) : bool :=
  implb (message_class c)
    (message_kind (kind c) && negb (subclass c ActionHeader04) && negb (cid_eqb c Bucket04) &&
     match class_attrs c with (name, VObj (Header01 | Header04) _) :: _ => String.eqb name "header" | _ => false end &&
     match kind c with
     | KPacketOut01 | KPacketOut04 => is_class_attr c "actions_len"
     | KErrorMsg01 => is_class_attr c "data"
     | KStatsRequest | KStatsReply | KMultipartRequest | KMultipartReply => is_class_attr c "body"
     | _ => true
     end).
Lemma message_table c : message_ok c = true.
Proof. revert c. apply all_classes. vm_compute. reflexivity. Qed.

(** What message_pack is called with. *)
Definition stored_value (name : string) (x : pyval) : Prop :=
  name = "actions_len" /\ (exists z, x = VInt z) \/ (name = "body" \/ name = "data") /\ (exists b, x = VBytes b \/ x = VBin (VBytes b)).
Lemma through_message n c attrs b : message_kind (kind c) = true -> pack0 (S n) (VObj c attrs) = Ok b ->
  exists attrs', message_pack (pack0 n) (size0 (S n)) c attrs' = Ok b /\
    (attrs' = attrs \/ exists name x, attrs' = set_attr name x attrs /\ stored_value name x /\
       match kind c with
       | KPacketOut01 | KPacketOut04 => name = "actions_len"
       | KErrorMsg01 => name = "data"
       | KStatsRequest | KStatsReply | KMultipartRequest | KMultipartReply => name = "body"
       | _ => False
       end).
Proof.
  intros K H. change (pack_obj (pack0 n) (size0 n) (size0 (S n)) c attrs = Ok b) in H. unfold pack_obj in H.
  assert (Same : message_pack (pack0 n) (size0 (S n)) c attrs = Ok b -> forall Q : string -> pyval -> Prop, exists attrs', message_pack (pack0 n) (size0 (S n)) c attrs' = Ok b /\
    (attrs' = attrs \/ exists name x, attrs' = set_attr name x attrs /\ stored_value name x /\ Q name x)) by (intros P Q; exists attrs; auto).
  assert (Sv : forall b1, stored_value "body" (VBytes b1) /\ stored_value "body" (VBin (VBytes b1)) /\ stored_value "data" (VBytes b1)).
  { intros b1. unfold stored_value. repeat split; right; (split; [tauto|exists b1; tauto]). }
  assert (Mp : forall reply, multipart_pack (pack0 n) (size0 n) (size0 (S n)) reply c attrs = Ok b ->
    exists attrs', message_pack (pack0 n) (size0 (S n)) c attrs' = Ok b /\ (attrs' = attrs \/ exists name x, attrs' = set_attr name x attrs /\ stored_value name x /\ name = "body")).
  { intros reply P. unfold multipart_pack in P. destruct (attr_or_error "body" attrs) as [body|]; [|discriminate]. cbn [bind] in P.
    destruct (truthy (size0 n) body) as [[|]|]; cbn [bind] in P; [|exists attrs; auto|discriminate].
    assert (One : (if has_pack body then do b <- pack0 n body; message_pack (pack0 n) (size0 (S n)) c (set_attr "body" (VBytes b) attrs) else Err UnboundLocalError) = Ok b ->
      exists attrs', message_pack (pack0 n) (size0 (S n)) c attrs' = Ok b /\ (attrs' = attrs \/ exists name x, attrs' = set_attr name x attrs /\ stored_value name x /\ name = "body")).
    { destruct (has_pack body); [|discriminate]. destruct (pack0 n body) as [b1|]; [|discriminate]. cbn [bind]. intros Q. eexists. split; [exact Q|]. right.
      do 2 eexists. split; [reflexivity|]. split; [apply Sv|reflexivity]. }
    destruct body as [| | | | | | | | | | | | | |lc pc items]; try (apply One; exact P). clear One.
    destruct (attr_or_error "multipart_type" attrs) as [mt|]; [|discriminate]. cbn [bind] in P.
    destruct (body_instance reply mt) as [inst|]; [|discriminate]. cbn [bind] in P. destruct inst as [| | | | | | | | | | | | | |ilc ipc iits]; try discriminate.
    destruct (list_extend ipc (VList lc pc items)) as [its|]; [|discriminate]. cbn [bind] in P.
    destruct (pack0 n (VList ilc ipc its)) as [b1|]; [|discriminate]. cbn [bind] in P.
    eexists. split; [exact P|]. right. do 2 eexists. split; [reflexivity|]. split; [apply Sv|reflexivity]. }
  assert (Po : forall lc, packet_out_pack (pack0 n) (size0 n) (size0 (S n)) lc c attrs = Ok b ->
    exists attrs', message_pack (pack0 n) (size0 (S n)) c attrs' = Ok b /\ (attrs' = attrs \/ exists name x, attrs' = set_attr name x attrs /\ stored_value name x /\ name = "actions_len")).
  { intros lc P. unfold packet_out_pack in P. destruct (attr_or_error "actions" attrs) as [acts|]; [|discriminate]. cbn [bind] in P.
    match type of P with bind ?r _ = _ => destruct r as [alen|]; [|discriminate] end. cbn [bind] in P.
    eexists. split; [exact P|]. right. do 2 eexists. split; [reflexivity|]. split; [left; eauto|reflexivity]. }
  destruct (kind c); try discriminate K.
  - apply Same, H.
  - eapply Po, H.
  - eapply Po, H.
  - unfold error_pack01 in H. destruct (attr_or_error "data" attrs) as [d|]; [|discriminate]. cbn [bind] in H.
    destruct d; try (apply Same, H);
      (match type of H with (if ?x then _ else _) = _ => destruct x; [|discriminate] end);
      (match type of H with bind ?r _ = _ => destruct r as [b1|]; [|discriminate] end); cbn [bind] in H;
      (eexists; split; [exact H|]; right; do 2 eexists; split; [reflexivity|]; split; [apply Sv|reflexivity]).
  - apply Same, H.
  - apply Same, H.
  - unfold stats_request_pack in H. destruct (attr_or_error "body" attrs) as [d|]; [|discriminate]. cbn [bind] in H.
    destruct (has_pack d); [|apply Same, H]. destruct (pack0 n d) as [b1|]; [|discriminate]. cbn [bind] in H.
    eexists; split; [exact H|]; right; do 2 eexists; split; [reflexivity|]; split; [apply Sv|reflexivity].
  - unfold stats_reply_pack in H. destruct (attr_or_error "body" attrs) as [d|]; [|discriminate]. cbn [bind] in H.
    destruct (truthy (size0 n) d) as [t|]; [|discriminate]. cbn [bind] in H. destruct (t && has_pack d); [|apply Same, H].
    destruct (pack0 n d) as [b1|]; [|discriminate]. cbn [bind] in H.
    eexists; split; [exact H|]; right; do 2 eexists; split; [reflexivity|]; split; [apply Sv|reflexivity].
  - eapply Mp, H.
  - eapply Mp, H.
Qed.

Lemma fit_set c name x attrs : fit (VObj c attrs) = true -> get_attr name attrs <> None -> name <> "header" ->
  subclass c ActionHeader04 = false -> cid_eqb c Bucket04 = false ->
  (exists z, x = VInt z) \/ (exists b, x = VBytes b \/ x = VBin (VBytes b)) -> fit (VObj c (set_attr name x attrs)) = true.
Proof.
  intros Ft G Nh Na Nb Hx. unfold fit in *. rewrite !andb_true_iff in *. destruct Ft as ((B & R) & M).
  assert (X : built x = true /\ regular x = true /\ measurable x = true /\ (forall cv, sized_list cv x = true /\ same_char cv x = true)).
  { destruct Hx as [(z & ->)|(b & [-> | ->])]; (repeat split; try reflexivity; destruct cv; try reflexivity);
      match goal with |- sized_list (VList ?l _ _) _ = _ => destruct l; reflexivity end. }
  destruct X as (X1 & X2 & X3 & X4). split; [split|].
  - apply good_built. apply good_set; [apply good_built, B|exact G|exact X1|]. unfold header_ok. cbn [fst]. destruct (String.eqb_spec name "header"); [contradiction|reflexivity].
  - cbn [regular] in *. apply andb_prop in R as [R1 R2]. rewrite R1. cbn [andb]. rewrite forallb_forall in *. intros [k v] I. cbn [fst snd].
    apply set_attr_in in I as [->|I]; [|apply (R2 _ I)]. rewrite X2, andb_true_r. destruct (get_attr k (class_attrs c)) as [cv|]; [|reflexivity].
    destruct (X4 cv) as (_ & Sc). destruct cv; try reflexivity. exact Sc.
  - cbn [measurable] in *. apply andb_prop in M as [M _]. apply andb_true_intro. split.
    + rewrite forallb_forall in *. intros [k v] I. cbn [fst snd]. apply set_attr_in in I as [->|I]; [|apply (M _ I)].
      rewrite X3, andb_true_r. destruct (get_attr k (class_attrs c)) as [cv|]; [|reflexivity]. apply X4.
    + unfold sized_object. rewrite Na, Nb. reflexivity.
Qed.

(** The bytes of a header. *)
Lemma header_length n hc h z b : hc = Header01 \/ hc = Header04 -> built (VObj hc h) = true ->
  pack0 n (VObj hc (set_attr "length" (VInt z) h)) = Ok b -> big_endian 2 z (slice 2 4 b).
Proof.
  intros Hc B P. destruct n as [|n]; [discriminate|].
  change (pack_obj (pack0 n) (size0 n) (size0 (S n)) hc (set_attr "length" (VInt z) h) = Ok b) in P. unfold pack_obj in P.
  assert (K : kind hc = KStruct) by (destruct Hc as [-> | ->]; reflexivity). rewrite K in P.
  apply good_built in B. assert (Gl : get_attr "length" h <> None).
  { assert (M : is_class_attr hc "length" = true) by (destruct Hc as [-> | ->]; reflexivity). destruct (good_has hc h "length" B M) as (x & ->). discriminate. }
  assert (G : good hc (set_attr "length" (VInt z) h)) by (apply good_set; [exact B|exact Gl|reflexivity|reflexivity]).
  destruct (struct_parts n hc _ b (proj1 G) P) as (parts & -> & F).
  assert (Ca : exists e1 d1 e2 d2 e3 d3 r, class_attrs hc = ("version", VUInt 1 e1 d1) :: ("message_type", VUInt 1 e2 d2) :: ("length", VUInt 2 e3 d3) :: r)
    by (destruct Hc as [-> | ->]; do 7 eexists; reflexivity).
  destruct Ca as (e1 & d1 & e2 & d2 & e3 & d3 & r & Ca). rewrite Ca in F.
  inversion F as [|? q1 ? l1 (v1 & _ & P1) F1]; subst. inversion F1 as [|? q2 ? l2 (v2 & _ & P2) F2]; subst.
  inversion F2 as [|? q3 ? l3 (v3 & G3 & P3) F3]; subst. cbn [fst snd] in *. rewrite get_set_same in G3. injection G3 as <-.
  apply uint_part in P1, P2. cbn [pack1] in P3. apply uint_carried in P3. inversion P3 as [w0 er0 d0 iv0 z0 bs0 St Bz| | | | | | | | | | | | |]; subst.
  assert (Ez : z0 = z).
  { destruct St as [St|(x & Hx & _)]; [inversion St; reflexivity|inversion Hx]. }
  subst z0. pose proof (be_len _ _ _ Bz) as L3. unfold zlen in P1, P2.
  destruct q1 as [|a1 [|]]; cbn in P1; try lia. destruct q2 as [|a2 [|]]; cbn in P2; try lia. destruct q3 as [|a3 [|a4 [|]]]; cbn in L3; try lia.
  exact Bz.
Qed.

Lemma message_len n c attrs hc h b : message_class c = true -> fit (VObj c attrs) = true -> get_attr "header" attrs = Some (VObj hc h) ->
  message_pack (pack0 n) (size0 (S n)) c attrs = Ok b -> big_endian 2 (zlen b) (slice 2 4 b).
Proof.
  intros Mc Ft Gh H. pose proof (message_table c) as T. unfold message_ok in T. rewrite Mc in T. cbn [implb] in T. rewrite !andb_true_iff in T.
  destruct T as ((((Km & Na) & Nb) & Ca) & _).
  pose proof Ft as Ft'. unfold fit in Ft'. rewrite !andb_true_iff in Ft'. destruct Ft' as ((B & R) & M). apply good_built in B as G.
  destruct (message_as n c attrs (size0 (S n)) attrs b (packs_as_same n c attrs G) eq_refl H) as (parts & Eb & F).
  unfold message_pack in H. destruct (size0 (S n) (VObj c attrs)) as [s|] eqn:Sz; [|discriminate]. cbn [bind] in H. unfold attr_or_error in H. rewrite Gh in H. cbn [bind] in H.
  assert (Es : s = zlen b).
  { rewrite size0_obj in Sz. rewrite Eb. eapply (struct_true n c attrs s parts Ft); [|destruct (kind c); try discriminate Km; exact Sz|exact F].
    intros x _ Fx. eapply all_true; [apply le_n|exact Fx]. }
  rewrite Es in H. clear Eb F parts.
  assert (Ha : has_attributes c (set_attr "header" (VObj hc (set_attr "length" (VInt (zlen b)) h)) attrs) = true).
  { rewrite (has_attributes_names c attrs); [apply G|]. apply set_names. congruence. }
  destruct (struct_parts n c _ b Ha H) as (parts & Eb & F).
  destruct (class_attrs c) as [|[name cv] r] eqn:Ea; [discriminate|]. destruct cv as [| | | | | | | | | | | | |kc ka|]; try discriminate.
  assert (Kc : kc = Header01 \/ kc = Header04) by (destruct kc; try discriminate; auto).
  assert (En : name = "header") by (destruct Kc as [-> | ->]; apply String.eqb_eq, Ca). subst name.
  inversion F as [|? q1 ? l1 (v1 & G1 & P1) F1]; subst parts. cbn [fst snd] in *. rewrite get_set_same in G1. injection G1 as <-.
  destruct (good_get c attrs _ _ G Gh) as (Bh & Hh).
  assert (Hc : hc = Header01 \/ hc = Header04) by (unfold header_ok in Hh; cbn in Hh; destruct hc; try discriminate; auto).
  assert (P1' : pack0 n (VObj hc (set_attr "length" (VInt (zlen b)) h)) = Ok q1).
  { unfold pack1 in P1. assert (Kk : kind kc = KStruct) by (destruct Kc as [-> | ->]; reflexivity). rewrite Kk in P1. match type of P1 with (if ?x then _ else _) = _ => destruct x; [exact P1|discriminate] end. }
  pose proof (header_length n hc h (zlen b) q1 Hc Bh P1') as Bl.
  assert (L : List.length (slice 2 4 q1) = 2%nat) by (eapply be_len, Bl).
  assert (E : slice 2 4 b = slice 2 4 q1).
  { rewrite Eb at 1. cbn [List.concat]. clear - L. unfold slice in *. destruct q1 as [|a [|b' [|c' [|d' q]]]]; cbn in L; try discriminate L; try reflexivity. }
  rewrite E. exact Bl.
Qed.

Lemma header_is_length c attrs hc h bs : message_class c = true ->
  built (VObj c attrs) = true -> regular (VObj c attrs) = true -> measurable (VObj c attrs) = true ->
  get_attr "header" attrs = Some (VObj hc h) -> pack (VObj c attrs) = Ok bs -> big_endian 2 (zlen bs) (slice 2 4 bs).
Proof.
  intros Mc B R M Gh P. assert (Ft : fit (VObj c attrs) = true) by (unfold fit; rewrite B, R, M; reflexivity).
  pose proof (message_table c) as T. unfold message_ok in T. rewrite Mc in T. cbn [implb] in T. rewrite !andb_true_iff in T.
  destruct T as ((((Km & Na) & Nb) & Ca) & Own). apply negb_true_iff in Na, Nb. apply good_built in B as G.
  apply pack_eq in P. revert P. generalize (FUEL + height (VObj c attrs))%nat as n. intros [|n] P; [discriminate|].
  destruct (through_message n c attrs bs Km P) as (attrs' & Q & [->|(name & x & -> & Sv & Nm)]).
  - eapply message_len; eassumption.
  - assert (Hn : name <> "header") by (destruct Sv as [(-> & _)|([-> | ->] & _)]; discriminate).
    eapply message_len; [exact Mc| |rewrite get_set_other by (intros E; apply Hn; (exact E || (symmetry; exact E))); exact Gh|exact Q].
    apply fit_set; [exact Ft| |exact Hn|exact Na|exact Nb|destruct Sv as [(_ & Sv)|(_ & Sv)]; auto].
    assert (Hm : is_class_attr c name = true) by (destruct (kind c); try contradiction; subst name; exact Own).
    destruct (good_has c attrs name G Hm) as (y & ->). discriminate.
Qed.
