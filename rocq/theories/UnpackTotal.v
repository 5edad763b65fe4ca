(** unpack always ends, with enough fuel. *)
From Coq Require Import ZArith List Bool String Lia.
From Verif Require Import Base BaseFacts PyText Ids PyVal Classes Interp Utils Spec ClassFacts StructFacts
  FuelFacts Totality.
Import ListNotations.
Open Scope string_scope.
Open Scope list_scope.
Open Scope Z_scope.

(** ** Values without negative integers *)

Fixpoint good (v : pyval) : bool :=
  match v with
  | VInt z | VEnum _ z | VMask _ z => 0 <=? z
  | VBytes b => wf_bytesb b
  | VUInt _ _ x | VBin x => good x
  | VObj _ attrs => forallb (fun p => good (snd p)) attrs
  | VList _ _ items => forallb good items
  | _ => true
  end.

Lemma wf_bytesb_ok b : wf_bytesb b = true <-> wf_bytes b.
Proof.
  unfold wf_bytesb, wf_bytes. rewrite forallb_forall, Forall_forall.
  split; intros H x I; specialize (H x I); unfold is_byteb, is_byte in *.
  - apply andb_prop in H as [A B]. apply Z.leb_le in A. apply Z.ltb_lt in B. lia.
  - apply andb_true_intro. split; [apply Z.leb_le|apply Z.ltb_lt]; lia.
Qed.

Lemma good_attr c attrs k x : good (VObj c attrs) = true -> In (k, x) attrs -> good x = true.
Proof. cbn [good]. rewrite forallb_forall. intros H I. exact (H (k, x) I). Qed.
Lemma good_item lc pc items x : good (VList lc pc items) = true -> In x items -> good x = true.
Proof. cbn [good]. rewrite forallb_forall. intros H I. exact (H x I). Qed.
Lemma good_list lc pc items : (forall x, In x items -> good x = true) -> good (VList lc pc items) = true.
Proof. cbn [good]. rewrite forallb_forall. auto. Qed.

Lemma as_int_good v z : good v = true -> as_int v = Some z -> 0 <= z.
Proof.
  destruct v; cbn; try discriminate; intros G H.
  - injection H as <-. apply Z.leb_le, G.
  - destruct (is_int_enum e); [|discriminate]. injection H as <-. apply Z.leb_le, G.
Qed.
Lemma generic_value_good er v : good v = true -> good (generic_value er v) = true.
Proof.
  intros G. unfold generic_value. cbv zeta. destruct er as [e|].
  - destruct (enum_def e); destruct v; try exact G; destruct (eid_eqb e e0); exact G.
  - destruct v; exact G.
Qed.
Lemma num_of_good v z : good v = true -> num_of v = Ok z -> 0 <= z.
Proof.
  intros G H. unfold num_of in H.
  destruct v; try (destruct (as_int _) eqn:E in H; [|discriminate]; injection H as <-;
                   refine (as_int_good _ _ _ E); try exact G).
  apply generic_value_good. exact G.
Qed.

Lemma flat_good h : forall v x, (height v <= h)%nat -> good v = true -> In x (flat v) -> good x = true.
Proof.
  induction h as [|h IH]; intros v x H G I;
    (destruct v as [| | | | | | | | | | | | | |lc pc items]; try (destruct I as [<-|[]]; exact G)).
  - cbn [height] in H. lia.
  - rewrite flat_list in I. apply in_flat_map in I as (y & Iy & Ix).
    pose proof (height_item lc pc items y Iy). apply (IH y x); [lia| |exact Ix].
    eapply good_item; eauto.
Qed.
Lemma flat_map_good items x : (forall y, In y items -> good y = true) ->
  In x (flat_map flat items) -> good x = true.
Proof. intros H I. apply in_flat_map in I as (y & Iy & Ix). apply (flat_good (height y) y); auto. Qed.

Lemma list_init_good rec pc v items : list_init rec pc v = Ok items ->
  good v = true -> forall x, In x items -> good x = true.
Proof.
  intros H Hv x I. unfold list_init in H.
  destruct v as [| | | | | | | | | | | | | |lc' pc' its];
    try (match type of H with bind ?t _ = _ => destruct t as [[]|]; cbn [bind] in H end;
         [apply check_items_same in H; subst items; destruct I as [<-|[]]; exact Hv
         |injection H as <-; destruct I|discriminate]).
  apply check_items_same in H. subst items. eapply flat_map_good; [|exact I].
  intros y Iy. eapply good_item; eauto.
Qed.

Definition nonneg (r : res Z) : Prop := forall s, r = Ok s -> 0 <= s.
Lemma nonneg_sumM {A} (f : A -> res Z) l : (forall a, In a l -> nonneg (f a)) -> nonneg (sumM f l).
Proof.
  induction l as [|a l IH]; intros H s; cbn [sumM]; [intros [= <-]; lia|].
  destruct (f a) as [x|] eqn:E; cbn [bind]; [|discriminate].
  destruct (sumM f l) as [y|] eqn:E2; cbn [bind]; [|discriminate]. intros [= <-].
  assert (0 <= x) by (apply (H a); [left; reflexivity|exact E]).
  assert (0 <= y) by (apply IH; [intros; apply H; right; assumption|reflexivity]). lia.
Qed.
Lemma class_attr_good c cv : In cv (map snd (class_attrs c)) -> good cv = true.
Proof.
  intros I. assert (G : forallb good (map snd (class_attrs c)) = true).
  { clear I. revert c. apply all_classes. vm_compute. reflexivity. }
  rewrite forallb_forall in G. exact (G cv I).
Qed.

Lemma nonneg_bin_size f v : nonneg (f v) -> nonneg (bin_size f v).
Proof.
  intros H s. unfold bin_size. destruct (has_pack v); [apply H|].
  destruct v; try discriminate; intros [= <-]; unfold zlen; lia.
Qed.

Lemma nonneg_size1 f cv iv : (forall v, good v = true -> nonneg (f v)) -> good cv = true -> good iv = true ->
  nonneg (size1 f cv iv).
Proof.
  intros F G Gi. pose proof (F cv G) as N. pose proof (F iv Gi) as Ni. unfold size1. destruct cv; try exact N.
  - apply nonneg_bin_size. destruct iv; try exact Ni. apply F. exact G.
  - destruct iv; try exact N; destruct (kind c); try exact N; (destruct (subclass _ _); [exact Ni|intros ?; discriminate]).
  - destruct iv; try exact N;
      (destruct (cid_eqb lc CFixedTypeList); [intros ? [= <-]; lia|];
       intros ?; match goal with |- bind ?t _ = _ -> _ => destruct t as [its|] eqn:E end; cbn [bind]; [|discriminate];
       apply F, good_list; exact (list_init_good _ _ _ _ E Gi)).
Qed.
Lemma ceil8_ge s : s <= ceil8 s.
Proof. unfold ceil8. pose proof (Z.div_mod (s + 7) 8 ltac:(lia)). pose proof (Z.mod_pos_bound (s + 7) 8 ltac:(lia)). lia. Qed.

Lemma attr_good name attrs x : attr_or_error name attrs = Ok x ->
  (forall k y, In (k, y) attrs -> good y = true) -> good x = true.
Proof.
  unfold attr_or_error. destruct (get_attr name attrs) eqn:E; [|discriminate].
  intros [= ->] H. eapply H, get_attr_In, E.
Qed.

Lemma size_good n : forall v, good v = true -> nonneg (size0 n v).
Proof.
  induction n as [|n IH]; intros v G s; [discriminate|].
  destruct v; try discriminate; try (intros [= <-]; lia).
  - change (bin_size (size0 n) v = Ok s -> 0 <= s). apply nonneg_bin_size, IH. exact G.
  - assert (SS : nonneg (struct_size (size0 n) c attrs)).
    { apply nonneg_sumM. intros p I. apply zip_in in I as [I1 [k I2]].
      apply nonneg_size1; [exact IH|eapply class_attr_good; eauto|eapply good_attr; eauto]. }
    rewrite size0_obj.
    destruct (kind c); try exact (SS s);
      try (destruct (struct_size (size0 n) c attrs) as [z|] eqn:E; cbn [bind]; [|discriminate];
           intros [= <-]; pose proof (ceil8_ge z); pose proof (SS z eq_refl); lia).
    destruct (attr_or_error "length" attrs) as [l|] eqn:E; cbn [bind]; [|discriminate].
    assert (Gl : good l = true).
    { apply (attr_good "length" attrs); [exact E|]. intros k y. apply (good_attr c), G. }
    destruct l; try exact (SS s); apply num_of_good, Gl.
  - change ((if cid_eqb lc CList then Err AttributeError
                else match items with
                     | [] => Ok 0
                     | x :: _ => if is_generic_type x then do s <- size0 n x; Ok (zlen items * s)
                                 else sumM (size0 n) items
                     end) = Ok s -> 0 <= s).
    destruct (cid_eqb lc CList); [discriminate|]. destruct items as [|x tl]; [intros [= <-]; lia|].
    assert (R : forall y, In y (x :: tl) -> nonneg (size0 n y)).
    { intros y I. apply IH. eapply good_item; eauto. }
    destruct (is_generic_type x).
    + destruct (size0 n x) as [z|] eqn:E; cbn [bind]; [|discriminate]. intros E3.
      assert (Es : s = zlen (x :: tl) * z) by congruence. rewrite Es.
      assert (0 <= z) by (apply (R x); [left; reflexivity|exact E]).
      apply Z.mul_nonneg_nonneg; unfold zlen; lia.
    + apply nonneg_sumM. exact R.
Qed.

(** ** Prototypes

    [uok n v]: decoding into [v] creates objects nested at most [n] deep. *)

(** Classes an object of class [c] may turn into while decoding. *)
Definition targets (c : cid) : list cid :=
  match kind c with
  | KTyped TInstruction =>
      [InstructionGotoTable04; InstructionWriteMetadata04; InstructionWriteAction04;
       InstructionApplyAction04; InstructionClearAction04; InstructionMeter04]
  | KTyped TProperty =>
      [InstructionsProperty04; NextTablesProperty04; ActionsProperty04; OxmProperty04]
  | KTyped TMeterBand => [MeterBandDrop04; MeterBandDscpRemark04; MeterBandExperimenter04]
  | KAction01 => c :: map fst action_classes_01
  | KAction04 | KSetField04 => c :: map fst action_classes_04
  | _ => [c]
  end.

Definition instances (l : list cid) : list pyval :=
  flat_map (fun c => match new_instance c with Some v => [v] | None => [] end) l.

(** Objects created to decode a body. *)
Definition bodies (c : cid) : list pyval :=
  VBin (VBytes []) ::
  match kind c with
  | KStatsRequest | KStatsReply =>
      new_DescStats01 ::
      map (fun c => VList CFixedTypeList c [])
        [CNone; FlowStats01; AggregateStatsReply01; TableStats01; PortStats01; QueueStats01;
         VendorStats01; FlowStatsRequest01; AggregateStatsRequest01; PortStatsRequest01; QueueStatsRequest01]
  | KMultipartRequest | KMultipartReply =>
      instances [Desc04; GroupFeatures04; MeterFeatures04; ExperimenterMultipartHeader04; FlowStatsRequest04;
                 AggregateStatsRequest04; PortStatsRequest04; QueueStatsRequest04; GroupStatsRequest04;
                 MeterMultipartRequest04] ++
      map (fun c => VList CFixedTypeList c [])
        [FlowStats04; AggregateStatsReply04; TableStats04; PortStats04; QueueStats04; GroupStats04;
         GroupDescStats04; MeterStats04; MeterConfig04; TableFeatures04; Port04]
  | _ => []
  end.

(** Items of a list must take at least one byte. *)
Definition listable (c : cid) : bool :=
  match kind c with
  | KStruct | KLen _ _ | KTyped _ | KAction01 | KAction04 | KSetField04 | KOxmTLV | KMatch01 | KBucket => true
  | _ => false
  end.
Definition positive_class (pc c : cid) : bool :=
  existsb (fun cv => match cv with VUInt (S _) _ _ => true | _ => false end) (map snd (class_attrs c)) &&
  match kind c with KBucket => cid_eqb c Bucket04 && cid_eqb pc c | _ => true end.

Fixpoint uok (n : nat) (v : pyval) : bool :=
  match n with
  | O => false
  | S n' =>
      good v && Nat.leb (height v) (3 * n) &&
      match v with
      | VObj c _ =>
          forallb (fun c' => forallb (fun cv => uok n' (deepcopy cv)) (map snd (class_attrs c'))) (targets c)
          && forallb (uok n') (bodies c)
      | VList _ pc _ =>
          match new_instance pc with
          | Some (VObj c' a) => cid_eqb c' pc && listable pc && forallb (positive_class pc) (targets pc) && uok n' (VObj c' a)
          | Some _ => false
          | None => true
          end
      | _ => true
      end
  end.

(** ** Decoded values *)

Definition fine (h : nat) (v : pyval) : Prop := (height v <= h)%nat /\ good v = true.
Definition fine_attrs (h : nat) (attrs : list (string * pyval)) : Prop :=
  forall k y, In (k, y) attrs -> fine h y.
(** No fuel problem, and a decoded value of bounded height. *)
Definition sound_res {A} (P : A -> Prop) (r : res A) : Prop := nf r /\ forall a, r = Ok a -> P a.

Lemma sr_ok {A} (P : A -> Prop) a : P a -> sound_res P (Ok a).
Proof. intros H. split; [discriminate|]. intros ? [= <-]. exact H. Qed.
Lemma sr_err {A} (P : A -> Prop) e : e <> OutOfFuel -> sound_res P (Err e).
Proof. intros H. split; [congruence|]. discriminate. Qed.
Lemma sr_bind {A B} (P : A -> Prop) (Q : B -> Prop) r f :
  sound_res P r -> (forall a, r = Ok a -> P a -> sound_res Q (f a)) -> sound_res Q (bind r f).
Proof.
  intros [N H] F. destruct r as [a|e]; cbn [bind].
  - apply F; auto.
  - split; [intros E; apply N; congruence|discriminate].
Qed.
Lemma sr_nf {A} (r : res A) : nf r -> sound_res (fun _ => True) r.
Proof. intros H. split; auto. Qed.
Lemma sr_imp {A} (P Q : A -> Prop) r : sound_res P r -> (forall a, P a -> Q a) -> sound_res Q r.
Proof. intros [N H] F. split; auto. Qed.

Lemma fine_set h name x attrs : fine_attrs h attrs -> fine h x -> fine_attrs h (set_attr name x attrs).
Proof. intros H Hx k y I. destruct (set_attr_in _ _ _ _ _ I) as [->|J]; eauto. Qed.
Lemma fine_get h name attrs : fine_attrs h attrs -> sound_res (fine h) (attr_or_error name attrs).
Proof.
  intros H. unfold attr_or_error. destruct (get_attr name attrs) eqn:E; [|apply sr_err; discriminate].
  apply sr_ok. eapply H, get_attr_In, E.
Qed.
Lemma fine_obj h c attrs : fine_attrs h attrs -> fine (S (S (S h))) (VObj c attrs).
Proof.
  intros H. split.
  - cbn [height]. do 3 apply le_n_S. apply list_max_bound. intros [k y] I. apply (H k y I).
  - cbn [good]. apply forallb_forall. intros [k y] I. apply (H k y I).
Qed.
Lemma fine_list h lc pc items : (forall x, In x items -> fine h x) -> fine (S h) (VList lc pc items).
Proof.
  intros H. split; [apply height_list|apply good_list]; intros x I; apply (H x I).
Qed.
Lemma fine_le h h' v : (h <= h')%nat -> fine h v -> fine h' v.
Proof. intros L [A B]. split; [lia|exact B]. Qed.
Lemma fine_attrs_le h h' attrs : (h <= h')%nat -> fine_attrs h attrs -> fine_attrs h' attrs.
Proof. intros L H k y I. eapply fine_le; eauto. Qed.

(** Leaves. *)
Lemma sr_uint_unpack w er b o h : wf_bytes b -> sound_res (fine h) (uint_unpack w er b o).
Proof.
  intros W. unfold uint_unpack, struct_unpack_u. cbv zeta.
  destruct (Nat.eqb_spec (List.length (slice o (o + w) b)) w) as [E|E]; cbn [bind].
  2: { cbn. apply sr_err. discriminate. }
  pose proof (be_decode_bound _ (wf_bytes_slice o (o + w) b W)) as B.
  assert (F : forall er x, good x = true -> height x = O -> fine h (VUInt w er x)).
  { intros er' x G H. split; [apply Nat.le_0_l|exact G]. }
  assert (G : (0 <=? be_decode (slice o (o + w) b)) = true) by (apply Z.leb_le; lia).
  destruct er as [e|]; cbn [recast bind].
  - unfold enum_call. destruct (enum_def e); try (destruct (is_member _ _)); cbn;
      try (apply sr_err; discriminate); apply sr_ok; split; try (cbn; lia); exact G.
  - apply sr_ok. split; [apply Nat.le_0_l|exact G].
Qed.
Lemma sr_char_unpack len b o h : sound_res (fine h) (char_unpack len b o).
Proof.
  unfold char_unpack. cbv zeta. destruct (Nat.eqb _ _); [|apply sr_err; discriminate].
  destruct (forallb _ _); [|apply sr_err; discriminate]. apply sr_ok. split; [apply Nat.le_0_l|reflexivity].
Qed.
Lemma sr_ip_unpack m b o h : sound_res (fine h) (ip_unpack m b o).
Proof.
  unfold ip_unpack. eapply sr_bind; [apply sr_nf, nf_recast; [discriminate|apply nf_struct_unpack_seq]|].
  intros. apply sr_ok. split; [apply Nat.le_0_l|reflexivity].
Qed.
Lemma sr_hw_unpack b o h : sound_res (fine h) (hw_unpack b o).
Proof.
  unfold hw_unpack. eapply sr_bind; [apply sr_nf, nf_recast; [discriminate|apply nf_struct_unpack_seq]|].
  intros. apply sr_ok. split; [apply Nat.le_0_l|reflexivity].
Qed.
Lemma sr_dpid_unpack b o h : sound_res (fine h) (dpid_unpack b o).
Proof.
  unfold dpid_unpack. eapply sr_bind.
  - apply sr_nf, nf_mapM. intros i. apply nf_bind'; [apply nf_struct_unpack_seq|intros; apply nf_ok].
  - intros. apply sr_ok. split; [apply Nat.le_0_l|reflexivity].
Qed.
Lemma sr_num_of h v : fine h v -> sound_res (fun z => 0 <= z) (num_of v).
Proof. intros [_ G]. split; [apply nf_num_of|]. intros z. apply num_of_good, G. Qed.

(** ** Objects *)

Section Obj.
  Context (n : nat) (rec : decoder) (size : pyval -> res Z).
  Let h := (3 * n)%nat.
  Hypothesis REC : forall p b o, uok n p = true -> wf_bytes b -> sound_res (fine h) (rec p b o).
  Hypothesis SZ : forall v, (height v <= h)%nat -> nf (size v).

  Definition okf (fields : list (string * pyval)) : Prop :=
    forall cv, In cv (map snd fields) -> uok n (deepcopy cv) = true.

  Lemma uok_fine v : uok n v = true -> fine h v.
  Proof.
    unfold h. clear REC SZ h rec size. destruct n; [discriminate|]. cbn [uok]. intros H. apply andb_prop in H as [H _].
    apply andb_prop in H as [G H]. apply Nat.leb_le in H. split; assumption.
  Qed.

  Lemma sr_fields fields b : wf_bytes b -> okf fields -> forall attrs o, fine_attrs h attrs ->
    sound_res (fun r => fine_attrs h (fst r)) (unpack_fields rec size fields attrs b o).
  Proof.
    intros W. induction fields as [|[name cv] tl IH]; intros O attrs o F; cbn [unpack_fields];
      [apply sr_ok; exact F|].
    assert (U : uok n (deepcopy cv) = true) by (apply O; left; reflexivity).
    assert (O' : okf tl) by (intros x I; apply O; right; exact I).
    destruct b as [|b0 bt] eqn:Eb; [apply (IH O'), fine_set; [exact F|apply uok_fine, U]|].
    eapply sr_bind; [apply (REC _ _ o U W)|]. intros a _ Fa.
    eapply sr_bind; [apply sr_nf, SZ, Fa|]. intros s _ _. apply (IH O'), fine_set; assumption.
  Qed.

  Lemma sr_packet_out fields b : wf_bytes b -> okf fields -> forall attrs o, fine_attrs h attrs ->
    sound_res (fine_attrs h) (packet_out_fields rec size fields attrs b o).
  Proof.
    intros W. induction fields as [|[name cv] tl IH]; intros O attrs o F; cbn [packet_out_fields];
      [apply sr_ok; exact F|].
    assert (U : uok n (deepcopy cv) = true) by (apply O; left; reflexivity).
    assert (O' : okf tl) by (intros x I; apply O; right; exact I). cbv zeta.
    eapply sr_bind with (P := fine h).
    - destruct (String.eqb name "actions"); [|apply (REC _ _ o U W)].
      eapply sr_bind with (P := fun _ => True).
      + unfold attr_num. eapply sr_bind; [apply fine_get, F|]. intros v _ _. apply sr_nf, nf_num_of.
      + intros l _ _. apply (REC _ _ 0%nat U). apply wf_bytes_slice, W.
    - intros a _ Fa. eapply sr_bind; [apply sr_nf, SZ, Fa|]. intros s _ _.
      apply (IH O'), fine_set; assumption.
  Qed.

  Lemma okf_message c : okf (class_attrs c) -> okf (message_fields c).
  Proof.
    intros H cv I. apply H. unfold message_fields in I. apply in_map_iff in I as (p & <- & I).
    apply filter_In in I as [I _]. apply in_map, I.
  Qed.
  Lemma sr_structure c attrs b o : wf_bytes b -> okf (class_attrs c) -> fine_attrs h attrs ->
    sound_res (fine (S (S (S h)))) (unpack_structure rec size c attrs b o).
  Proof.
    intros W O F. unfold unpack_structure. eapply sr_bind; [apply (sr_fields _ b W O attrs o F)|].
    intros r _ Fr. apply sr_ok, fine_obj, Fr.
  Qed.
  Lemma sr_msg_fields c attrs b o : wf_bytes b -> okf (class_attrs c) -> fine_attrs h attrs ->
    sound_res (fine_attrs h) (unpack_message_fields rec size c attrs b o).
  Proof.
    intros W O F. unfold unpack_message_fields.
    eapply sr_bind; [apply (sr_fields _ b W (okf_message c O) attrs o F)|].
    intros r _ Fr. apply sr_ok, Fr.
  Qed.
  Lemma sr_attr_num name attrs : fine_attrs h attrs -> sound_res (fun z => 0 <= z) (attr_num name attrs).
  Proof.
    intros F. unfold attr_num. eapply sr_bind; [apply fine_get, F|]. intros v _ Fv. eapply sr_num_of, Fv.
  Qed.
  Lemma sr_attr_enum name attrs : fine_attrs h attrs -> sound_res (fun z => 0 <= z) (attr_enum name attrs).
  Proof.
    intros F. unfold attr_enum. eapply sr_bind; [apply fine_get, F|]. intros v _ Fv.
    destruct (sr_num_of _ _ Fv) as [_ N]. destruct (num_of v) as [z|]; [|apply sr_err; discriminate].
    apply sr_ok. apply N. reflexivity.
  Qed.
  Lemma sr_attr_bytes name attrs : fine_attrs h attrs -> sound_res wf_bytes (attr_bytes name attrs).
  Proof.
    intros F. unfold attr_bytes. eapply sr_bind; [apply fine_get, F|]. intros v _ [_ G].
    destruct v; try (apply sr_err; discriminate). destruct v; try (apply sr_err; discriminate).
    apply sr_ok. apply wf_bytesb_ok. exact G.
  Qed.
  Lemma sr_enum_call e z : 0 <= z -> sound_res (fine h) (enum_call e z).
  Proof.
    intros H. apply Z.leb_le in H. unfold enum_call.
    destruct (enum_def e); try (destruct (is_member _ _)); try (apply sr_err; discriminate);
      apply sr_ok; (split; [apply Nat.le_0_l|exact H]).
  Qed.
  Lemma find_class_in f t c c' : kind c = KTyped f -> find_class f t = Ok c' -> In c' (targets c).
  Proof.
    unfold targets. intros ->. destruct f; cbn [find_class].
    - repeat match goal with |- (match ?x with _ => _ end) = _ -> _ => destruct x end;
        try discriminate; intros [= <-]; cbn; tauto.
    - repeat match goal with |- (if ?x then _ else _) = _ -> _ => destruct x end;
        intros [= <-]; cbn; tauto.
    - repeat match goal with |- (match ?x with _ => _ end) = _ -> _ => destruct x end;
        try discriminate; intros [= <-]; cbn; tauto.
  Qed.
  Lemma action_class_in d l t : In (action_class d l t) (d :: map fst l).
  Proof.
    induction l as [|[c ts] tl IH]; [left; reflexivity|]. cbn [action_class map fst].
    destruct (existsb _ _); [right; left; reflexivity|].
    destruct IH as [E|IH]; [left; exact E|right; right; exact IH].
  Qed.
  Lemma nf_find_class f t : nf (find_class f t).
  Proof. destruct f; cbn [find_class]; nf_solve. Qed.

  Lemma sr_multipart reply c attrs b o : wf_bytes b -> okf (class_attrs c) -> fine_attrs h attrs ->
    (1 <= n)%nat ->
    (forall m inst, body_instance reply (VEnum E_MultipartType04 m) = Ok inst -> uok n inst = true) ->
    sound_res (fine (S (S (S h)))) (multipart_unpack rec size reply c attrs b o).
  Proof.
    intros W O F P B. unfold multipart_unpack.
    eapply sr_bind; [apply sr_msg_fields; [apply wf_bytes_skipn, W|exact O|exact F]|]. intros at1 _ F1.
    eapply sr_bind; [apply sr_attr_enum, F1|]. intros t _ T.
    eapply sr_bind; [apply sr_enum_call, T|]. intros m Em Fm.
    eapply sr_bind; [apply sr_nf, nf_body_instance|]. intros inst Ei _.
    eapply sr_bind; [apply sr_attr_bytes, F1|]. intros bb _ Wb.
    eapply sr_bind; [apply (REC inst bb 0%nat)|]; [|exact Wb|].
    - apply (B t). unfold enum_call in Em. destruct (enum_def E_MultipartType04) eqn:ED; try discriminate.
      destruct (is_member _ t); [|discriminate]. congruence.
    - intros body _ Fb. apply sr_ok, fine_obj, fine_set; [apply fine_set; assumption|exact Fb].
  Qed.

  Lemma sr_unpack_obj c attrs b o : wf_bytes b -> fine_attrs h attrs -> (1 <= n)%nat ->
    (forall c', In c' (targets c) -> okf (class_attrs c')) ->
    (forall p, In p (bodies c) -> uok n p = true) ->
    sound_res (fine (S (S (S h)))) (unpack_obj rec size c attrs b o).
  Proof.
    intros W F P T B.
    assert (UB : forall w er o', sound_res (fine h) (uint_unpack w er b o'))
      by (intros; apply sr_uint_unpack, W).
    unfold unpack_obj. destruct (kind c) eqn:K.
    - apply sr_structure; [exact W| |exact F]. apply T. unfold targets. rewrite K. left. reflexivity.
    - assert (O : okf (class_attrs c)) by (apply T; unfold targets; rewrite K; left; reflexivity).
      eapply sr_bind; [apply sr_msg_fields; assumption|]. intros at1 _ F1. apply sr_ok, fine_obj, F1.
    - assert (O : okf (class_attrs c)) by (apply T; unfold targets; rewrite K; left; reflexivity).
      unfold len_unpack. eapply sr_bind; [apply UB|]. intros _ _ _.
      eapply sr_bind; [apply UB|]. intros l _ Fl. eapply sr_bind; [eapply sr_num_of, Fl|]. intros len _ _.
      apply sr_structure; [apply wf_bytes_firstn, W|exact O|exact F].
    - unfold typed_unpack. eapply sr_bind; [apply UB|]. intros t _ Ft.
      eapply sr_bind; [eapply sr_num_of, Ft|]. intros tz _ _.
      eapply sr_bind; [apply sr_nf, nf_find_class|]. intros c' Ec _.
      eapply sr_bind; [apply UB|]. intros l _ Fl. eapply sr_bind; [eapply sr_num_of, Fl|]. intros len _ _.
      apply sr_structure; [apply wf_bytes_firstn, W| |exact F]. apply T. eapply find_class_in; eauto.
    - unfold action01_unpack. eapply sr_bind; [apply UB|]. intros t _ Ft.
      eapply sr_bind; [eapply sr_num_of, Ft|]. intros tz _ _.
      apply sr_structure; [exact W| |apply fine_set; assumption]. apply T. unfold targets. rewrite K.
      apply action_class_in.
    - unfold action04_unpack. eapply sr_bind; [apply UB|]. intros t _ Ft.
      eapply sr_bind; [apply UB|]. intros l _ Fl.
      eapply sr_bind; [eapply sr_num_of, Ft|]. intros tz _ _.
      eapply sr_bind; [eapply sr_num_of, Fl|]. intros len _ _.
      apply sr_structure; [apply wf_bytes_firstn, W| |apply fine_set; [apply fine_set; assumption|exact Fl]].
      apply T. unfold targets. rewrite K. apply action_class_in.
    - unfold action04_unpack. eapply sr_bind; [apply UB|]. intros t _ Ft.
      eapply sr_bind; [apply UB|]. intros l _ Fl.
      eapply sr_bind; [eapply sr_num_of, Ft|]. intros tz _ _.
      eapply sr_bind; [eapply sr_num_of, Fl|]. intros len _ _.
      apply sr_structure; [apply wf_bytes_firstn, W| |apply fine_set; [apply fine_set; assumption|exact Fl]].
      apply T. unfold targets. rewrite K. apply action_class_in.
    - assert (O : okf (class_attrs c)) by (apply T; unfold targets; rewrite K; left; reflexivity).
      unfold oxm_unpack. eapply sr_bind; [apply (sr_fields _ b W O attrs o F)|]. intros r _ F1. cbv zeta.
      eapply sr_bind; [apply sr_attr_num, F1|]. intros fm _ Hfm.
      eapply sr_bind; [apply sr_attr_num, F1|]. intros cls _ _.
      assert (D : 0 <= fm / 2) by (apply Z.div_pos; [exact Hfm|lia]).
      eapply sr_bind with (P := fine h).
      + destruct (cls =? 32768).
        * destruct (sr_enum_call E_OxmOfbMatchField04 (fm / 2) D) as [N H].
          split; [apply nf_recast; [discriminate|exact N]|].
          intros a. destruct (enum_call E_OxmOfbMatchField04 (fm / 2)) as [x|e]; cbn [recast];
            [intros [= <-]; apply H; reflexivity|]. destruct (exn_eqb e ValueError); discriminate.
        * apply sr_ok. split; [apply Nat.le_0_l|apply Z.leb_le, D].
      + intros fld _ Ff. eapply sr_bind; [apply sr_attr_num, F1|]. intros len _ _.
        apply sr_ok, fine_obj. apply fine_set; [apply fine_set; [apply fine_set; assumption|]|].
        * split; [apply Nat.le_0_l|]. destruct (Z.land fm 1 =? 1); reflexivity.
        * split; [apply Nat.le_0_l|]. apply wf_bytesb_ok, wf_bytes_slice, W.
    - assert (O : okf (class_attrs c)) by (apply T; unfold targets; rewrite K; left; reflexivity).
      unfold match04_unpack.
      assert (O1 : okf (removelast (class_attrs c))).
      { intros cv I. apply O. apply in_map_iff in I as (p & <- & I). apply in_map.
        destruct (class_attrs c) as [|q l] eqn:E; [exact I|].
        rewrite (app_removelast_last q) by discriminate. apply in_or_app. left. exact I. }
      eapply sr_bind; [apply (sr_fields _ b W O1 attrs o F)|]. intros r _ F1.
      eapply sr_bind; [apply sr_attr_num, F1|]. intros len _ _.
      eapply sr_bind with (P := fun r => fine_attrs h (fst r)).
      + apply sr_fields; [apply wf_bytes_firstn, W| |exact F1].
        destruct (get_attr "oxm_match_fields" (class_attrs c)) as [cv|] eqn:E; [|intros x []].
        intros x [<-|[]]. apply O. apply get_attr_In in E. apply (in_map snd) in E. exact E.
      + intros r2 _ F2. apply sr_ok, fine_obj, F2.
    - assert (O : okf (class_attrs c)) by (apply T; unfold targets; rewrite K; left; reflexivity).
      unfold match01_unpack. eapply sr_bind; [apply (sr_fields _ b W O attrs o F)|]. intros r _ F1.
      eapply sr_bind; [apply UB|]. intros w _ Fw. apply sr_ok, fine_obj, fine_set; assumption.
    - assert (O : okf (class_attrs c)) by (apply T; unfold targets; rewrite K; left; reflexivity).
      unfold bucket_unpack. 
      eapply sr_bind; [apply UB|]. intros l _ Fl. eapply sr_bind; [eapply sr_num_of, Fl|]. intros len _ _.
      apply sr_structure; [apply wf_bytes_firstn, W|exact O|exact F].
    - assert (O : okf (class_attrs c)) by (apply T; unfold targets; rewrite K; left; reflexivity).
      eapply sr_bind; [apply sr_packet_out; [exact W|apply okf_message, O|exact F]|].
      intros at1 _ F1. apply sr_ok, fine_obj, F1.
    - assert (O : okf (class_attrs c)) by (apply T; unfold targets; rewrite K; left; reflexivity).
      eapply sr_bind; [apply sr_packet_out; [exact W|apply okf_message, O|exact F]|].
      intros at1 _ F1. apply sr_ok, fine_obj, F1.
    - assert (O : okf (class_attrs c)) by (apply T; unfold targets; rewrite K; left; reflexivity).
      unfold error_unpack. eapply sr_bind; [apply sr_msg_fields; assumption|]. intros at1 _ F1.
      eapply sr_bind; [apply sr_attr_enum, F1|]. intros t _ Ht.
      eapply sr_bind; [apply sr_enum_call, Ht|]. intros _ _ _.
      eapply sr_bind; [apply sr_attr_enum, F1|]. intros cd _ Hc.
      eapply sr_bind; [apply sr_enum_call, Hc|]. intros m _ Fm. apply sr_ok, fine_obj, fine_set; assumption.
    - assert (O : okf (class_attrs c)) by (apply T; unfold targets; rewrite K; left; reflexivity).
      unfold error_unpack. eapply sr_bind; [apply sr_msg_fields; assumption|]. intros at1 _ F1.
      eapply sr_bind; [apply sr_attr_enum, F1|]. intros t _ Ht.
      eapply sr_bind; [apply sr_enum_call, Ht|]. intros _ _ _.
      eapply sr_bind; [apply sr_attr_enum, F1|]. intros cd _ Hc.
      eapply sr_bind; [apply sr_enum_call, Hc|]. intros m _ Fm. apply sr_ok, fine_obj, fine_set; assumption.
    - apply sr_err. discriminate.
    - assert (O : okf (class_attrs c)) by (apply T; unfold targets; rewrite K; left; reflexivity).
      unfold stats_request_unpack. eapply sr_bind; [apply sr_msg_fields; assumption|]. intros at1 _ F1.
      eapply sr_bind; [apply sr_attr_enum, F1|]. intros t _ Ht.
      eapply sr_bind; [apply sr_enum_call, Ht|]. intros m _ Fm.
      eapply sr_bind; [apply sr_attr_bytes, F1|]. intros bb _ Wb.
      eapply sr_bind; [apply REC; [|exact Wb]|].
      + apply B. unfold bodies. rewrite K. unfold stats_body.
        repeat match goal with |- context [match ?x with _ => _ end] => is_var x; destruct x end; cbn; tauto.
      + intros body _ Fb. apply sr_ok, fine_obj, fine_set; [apply fine_set; assumption|exact Fb].
    - assert (O : okf (class_attrs c)) by (apply T; unfold targets; rewrite K; left; reflexivity).
      unfold stats_reply_unpack.
      eapply sr_bind; [apply sr_msg_fields; [apply wf_bytes_skipn, W|exact O|exact F]|]. intros at1 _ F1.
      eapply sr_bind; [apply sr_attr_enum, F1|]. intros t _ Ht.
      eapply sr_bind; [apply sr_enum_call, Ht|]. intros m _ Fm.
      eapply sr_bind; [apply sr_attr_bytes, F1|]. intros bb _ Wb.
      eapply sr_bind with (P := fun inst => uok n inst = true).
      + unfold stats_body.
        repeat match goal with |- context [match ?x with _ => _ end] => is_var x; destruct x end;
          apply sr_ok, B; unfold bodies; rewrite K; cbn; tauto.
      + intros inst _ Hi. eapply sr_bind; [apply REC; [exact Hi|exact Wb]|].
        intros body _ Fb. apply sr_ok, fine_obj, fine_set; [apply fine_set; assumption|exact Fb].
    - assert (O : okf (class_attrs c)) by (apply T; unfold targets; rewrite K; left; reflexivity).
      apply sr_multipart; try assumption. intros m inst E. apply B. unfold bodies. rewrite K.
      unfold body_instance in E. cbv zeta in E. cbn [as_int] in E.
      destruct (is_int_enum E_MultipartType04); [|injection E as <-; left; reflexivity].
      unfold multipart_body in E.
      repeat match type of E with context [match ?x with _ => _ end] => is_var x; destruct x end;
        injection E as <-; vm_compute; tauto.
    - assert (O : okf (class_attrs c)) by (apply T; unfold targets; rewrite K; left; reflexivity).
      apply sr_multipart; try assumption. intros m inst E. apply B. unfold bodies. rewrite K.
      unfold body_instance in E. cbv zeta in E. cbn [as_int] in E.
      destruct (is_int_enum E_MultipartType04); [|injection E as <-; left; reflexivity].
      unfold multipart_body in E.
      repeat match type of E with context [match ?x with _ => _ end] => is_var x; destruct x end;
        injection E as <-; vm_compute; tauto.
  Qed.
End Obj.

(** ** Items take at least one byte *)

Lemma fields_keys rec size fields b : forall attrs o attrs' o',
  unpack_fields rec size fields attrs b o = Ok (attrs', o') ->
  incl (map fst fields ++ map fst attrs) (map fst attrs') /\
  forall name, ~ In name (map fst fields) -> get_attr name attrs' = get_attr name attrs.
Proof.
  assert (K : forall name x l, incl (name :: map fst l) (map fst (set_attr name x l))).
  { intros name x l. induction l as [|[k v] l IH]; cbn; [apply incl_refl|].
    destruct (String.eqb_spec k name) as [->|N]; cbn.
    - intros y [->|[->|H]]; cbn; auto.
    - intros y [->|[->|H]]; [right; apply IH; left; reflexivity|left; reflexivity|right; apply IH; right; exact H]. }
  induction fields as [|[name cv] tl IH]; intros attrs o attrs' o' H; cbn [unpack_fields] in H.
  - injection H as <- <-. split; [apply incl_refl|reflexivity].
  - assert (ST : forall x oo, unpack_fields rec size tl (set_attr name x attrs) b oo = Ok (attrs', o') ->
      incl (map fst ((name, cv) :: tl) ++ map fst attrs) (map fst attrs') /\
      (forall nm, ~ In nm (map fst ((name, cv) :: tl)) -> get_attr nm attrs' = get_attr nm attrs)).
    { intros x oo E. destruct (IH _ _ _ _ E) as [I G]. split.
      - intros y Iy. cbn in Iy. apply I, in_or_app.
        destruct Iy as [->|Iy]; [right; apply K; left; reflexivity|].
        apply in_app_or in Iy as [Iy|Iy]; [left; exact Iy|right; apply K; right; exact Iy].
      - intros nm N. cbn in N. rewrite G by tauto. apply get_set_other. intros ->. tauto. }
    destruct b as [|b0 bt]; [eapply ST, H|].
    destruct (rec (deepcopy cv) (b0 :: bt) o) as [a|]; cbn [bind] in H; [|discriminate].
    destruct (size a) as [z|]; cbn [bind] in H; [|discriminate]. eapply ST, H.
Qed.

Lemma structure_class rec size c attrs b o r : unpack_structure rec size c attrs b o = Ok r ->
  exists attrs', r = VObj c attrs' /\ incl (field_names c) (map fst attrs').
Proof.
  unfold unpack_structure. destruct (unpack_fields _ _ _ _ _ _) as [[at1 o1]|] eqn:E; cbn [bind]; [|discriminate].
  intros [= <-]. apply fields_keys in E as [I _]. exists at1. split; [reflexivity|].
  intros x Ix. apply I, in_or_app. left. exact Ix.
Qed.

Ltac peel H :=
  match type of H with
  | bind ?r _ = Ok _ => let x := fresh "x" in let E := fresh "E" in
                        destruct r as [x|] eqn:E; cbn [bind] in H; [|discriminate]
  end.

Lemma incl_set name x attrs l : incl l (map fst attrs) -> incl l (map fst (set_attr name x attrs)).
Proof.
  intros H y I. specialize (H y I). clear I. induction attrs as [|[k v] tl IH]; [destruct H|]. cbn.
  destruct (String.eqb_spec k name) as [->|N]; cbn; [exact H|]. cbn in H. destruct H as [H|H]; auto.
Qed.

Lemma obj_class rec size c attrs b o r : unpack_obj rec size c attrs b o = Ok r ->
  listable c = true ->
  exists c' attrs', r = VObj c' attrs' /\ In c' (targets c) /\ incl (field_names c') (map fst attrs').
Proof.
  unfold unpack_obj, listable. intros H K.
  destruct (kind c) eqn:EK; try discriminate K; clear K.
  - apply structure_class in H as (a & -> & I). exists c, a. unfold targets. rewrite EK. cbn. auto.
  - unfold len_unpack in H. do 3 peel H. apply structure_class in H as (a & -> & I). exists c, a.
    unfold targets. rewrite EK. cbn. auto.
  - unfold typed_unpack in H. do 5 peel H. apply structure_class in H as (a & -> & I). exists x1, a.
    split; [reflexivity|]. split; [eapply find_class_in; eauto|]. exact I.
  - unfold action01_unpack in H. do 2 peel H. apply structure_class in H as (a & -> & I).
    eexists _, a. split; [reflexivity|]. split; [unfold targets; rewrite EK; apply action_class_in|].
    exact I.
  - unfold action04_unpack in H. do 4 peel H. apply structure_class in H as (a & -> & I).
    eexists _, a. split; [reflexivity|]. split; [unfold targets; rewrite EK; apply action_class_in|].
    exact I.
  - unfold action04_unpack in H. do 4 peel H. apply structure_class in H as (a & -> & I).
    eexists _, a. split; [reflexivity|]. split; [unfold targets; rewrite EK; apply action_class_in|].
    exact I.
  - unfold oxm_unpack in H. peel H. destruct x as [at1 o1]. cbv zeta in H. do 4 peel H. injection H as <-.
    apply fields_keys in E as [I _]. eexists c, _. split; [reflexivity|].
    split; [unfold targets; rewrite EK; left; reflexivity|]. do 3 apply incl_set. intros y Iy. apply I, in_or_app. left. exact Iy.
  - unfold match01_unpack in H. peel H. destruct x as [at1 o1]. peel H. injection H as <-.
    apply fields_keys in E as [I _]. eexists c, _. split; [reflexivity|].
    split; [unfold targets; rewrite EK; left; reflexivity|]. apply incl_set. intros y Iy. apply I, in_or_app. left. exact Iy.
  - unfold bucket_unpack in H. do 2 peel H. apply structure_class in H as (a & -> & I). exists c, a.
    unfold targets. rewrite EK. cbn. auto.
Qed.

Lemma zip_all c attrs cv : incl (field_names c) (map fst attrs) -> In cv (map snd (class_attrs c)) ->
  exists iv, In (cv, iv) (zip_attrs c attrs).
Proof.
  intros I J. unfold zip_attrs.
  set (own := filter (fun p => is_class_attr c (fst p)) attrs).
  assert (L : (List.length (map snd (class_attrs c)) <= List.length (map snd own))%nat).
  { rewrite !map_length. rewrite <- (map_length fst (class_attrs c)), <- (map_length fst own).
    apply NoDup_incl_length; [apply names_nodup|]. intros x Ix.
    pose proof (I x Ix) as Ia. apply in_map_iff in Ia as ([k v] & E & Ia). cbn in E. subst k.
    apply (in_map fst own (x, v)). apply filter_In. split; [exact Ia|]. apply is_class_attr_in. exact Ix. }
  revert L J. generalize (map snd (class_attrs c)) (map snd own). clear.
  induction l as [|a l IH]; intros l' L J; [destruct J|]. destruct l' as [|b l']; [cbn in L; lia|].
  destruct J as [->|J]; [exists b; left; reflexivity|].
  destruct (IH l' ltac:(cbn in L; lia) J) as [iv H]. exists iv. right. exact H.
Qed.

Lemma sumM_ge {A} (f : A -> res Z) l a x s : (forall a, In a l -> nonneg (f a)) -> In a l -> f a = Ok x ->
  sumM f l = Ok s -> x <= s.
Proof.
  revert s. induction l as [|b l IH]; intros s N I E H; [destruct I|]. cbn [sumM] in H. peel H. peel H.
  injection H as <-. destruct I as [->|I].
  - assert (x = x0) by congruence. subst.
    assert (0 <= x1); [|lia]. revert E1. apply nonneg_sumM. intros; apply N; right; assumption.
  - assert (0 <= x0) by (apply (N b); [left; reflexivity|exact E0]).
    assert (x <= x1); [|lia]. apply IH; auto. intros; apply N; right; assumption.
Qed.

Lemma struct_size_pos k c attrs s w er d : In (VUInt (S w) er d) (map snd (class_attrs c)) ->
  incl (field_names c) (map fst attrs) -> good (VObj c attrs) = true ->
  struct_size (size0 k) c attrs = Ok s -> 1 <= s.
Proof.
  intros C I G H. destruct (zip_all c attrs _ I C) as [iv J]. unfold struct_size in H.
  assert (N : forall p, In p (zip_attrs c attrs) -> nonneg (size1 (size0 k) (fst p) (snd p))).
  { intros q Iq. apply zip_in in Iq as [I1 [kk I2]].
    apply nonneg_size1; [intros v; apply size_good|eapply class_attr_good; eauto|eapply good_attr; eauto]. }
  destruct k as [|k].
  - exfalso. clear N. revert J H. generalize (zip_attrs c attrs). intros l. revert s.
    induction l as [|q l IH]; intros s J H; [destruct J|]. cbn [sumM] in H. peel H. peel H.
    destruct J as [->|J]; [discriminate|]. eapply IH; eauto.
  - pose proof (sumM_ge _ _ _ (Z.of_nat (S w)) s N J eq_refl H). lia.
Qed.

Lemma slice_firstn_len {A} o k m (b : list A) : List.length (slice o (o + k) (firstn m b)) = k ->
  (0 < k)%nat -> (o + k <= m)%nat /\ slice o (o + k) (firstn m b) = slice o (o + k) b.
Proof.
  unfold slice. intros H P. rewrite skipn_length, firstn_length, firstn_length in H.
  split; [lia|]. rewrite firstn_firstn, Nat.min_l by lia. reflexivity.
Qed.

Lemma bucket_pos m size attrs b o r k s : wf_bytes b ->
  bucket_unpack (unpack0 (S m)) size Bucket04 attrs b o = Ok r -> size0 k r = Ok s -> 1 <= s.
Proof.
  intros W H Hs. unfold bucket_unpack in H. do 2 peel H.
  unfold unpack_structure in H. peel H. destruct x1 as [at1 o1]. injection H as <-. cbn [fst] in Hs.
  destruct k as [|k]; [discriminate|]. rewrite size0_obj in Hs.
  change (kind Bucket04) with KBucket in Hs. cbv iota in Hs.
  assert (exists tl, class_attrs Bucket04 = ("length", VUInt 2 None VNone) :: tl /\ ~ In "length" (map fst tl)) as (tl & C & N).
  { eexists. split; [reflexivity|]. cbn. intuition discriminate. }
  rewrite C in E1. cbn [unpack_fields deepcopy] in E1.
  assert (Z0 : 0 <= x0).
  { refine (num_of_good x x0 _ E0). apply (sr_uint_unpack 2 None b o 0%nat W), E. }
  destruct (firstn (o + Z.to_nat x0) b) as [|c0 ct] eqn:Fb.
  - apply fields_keys in E1 as [_ G]. specialize (G "length" N). rewrite get_set_same in G.
    unfold attr_or_error in Hs. rewrite G in Hs. discriminate.
  - peel E1. peel E1. apply fields_keys in E1 as [_ G]. specialize (G "length" N). rewrite get_set_same in G.
    unfold attr_or_error in Hs. rewrite G in Hs. cbn [bind] in Hs.
    change (uint_unpack 2 None (c0 :: ct) o = Ok x1) in E2. rewrite <- Fb in E2.
    unfold uint_unpack, struct_unpack_u in E2, E. cbv zeta in *.
    destruct (Nat.eqb_spec (List.length (slice o (o + 2) (firstn (o + Z.to_nat x0) b))) 2) as [L|L]; [|discriminate].
    destruct (slice_firstn_len _ _ _ _ L ltac:(lia)) as [L1 L2]. rewrite L2 in *. rewrite L in *.
    cbn [Nat.eqb bind recast] in *. injection E2 as <-. injection E as <-.
    change (Ok (be_decode (slice o (o + 2) b)) = Ok x0) in E0.
    change (Ok (be_decode (slice o (o + 2) b)) = Ok s) in Hs.
    assert (s = x0) by congruence. lia.
Qed.

Lemma item_pos m pc a b o r k s : wf_bytes b -> listable pc = true ->
  forallb (positive_class pc) (targets pc) = true ->
  unpack0 (S (S m)) (VObj pc a) b o = Ok r -> good r = true -> size0 k r = Ok s -> 1 <= s.
Proof.
  intros W L P H G Hs.
  change (unpack_obj (unpack0 (S m)) (size0 (S m)) pc a b o = Ok r) in H.
  destruct (obj_class _ _ _ _ _ _ _ H L) as (c' & at1 & -> & T & I).
  rewrite forallb_forall in P. specialize (P c' T). unfold positive_class in P.
  apply andb_prop in P as [P1 P2].
  apply existsb_exists in P1 as (cv & Icv & P1).
  destruct cv as [| | | | | |[|w] er d| | | | | | | |]; try discriminate P1.
  destruct k as [|k]; [discriminate|]. pose proof Hs as Hs'. rewrite size0_obj in Hs'.
  assert (SP : forall z, struct_size (size0 k) c' at1 = Ok z -> 1 <= z).
  { intros z E. exact (struct_size_pos k c' at1 z w er d Icv I G E). }
  destruct (kind c') eqn:K; try (apply SP; exact Hs');
    try (peel Hs'; injection Hs' as <-; pose proof (ceil8_ge x); pose proof (SP x eq_refl); lia).
  apply andb_prop in P2 as [P2 P3]. apply cid_eqb_eq in P2. apply cid_eqb_eq in P3. subst c' pc.
  change (bucket_unpack (unpack0 (S m)) (size0 (S m)) Bucket04 a b o = Ok (VObj Bucket04 at1)) in H.
  exact (bucket_pos m _ _ _ _ _ _ _ W H Hs).
Qed.

(** ** Everything *)

Lemma sr_items n m pc it (h := (3 * n)%nat) : new_instance pc = Some it ->
  (match it with VObj c' _ => cid_eqb c' pc | _ => false end) = true -> listable pc = true ->
  forallb (positive_class pc) (targets pc) = true ->
  (forall b o, wf_bytes b -> sound_res (fine h) (unpack0 (S (S m)) it b o)) ->
  (forall v, (height v <= h)%nat -> nf (size0 (S (S m)) v)) ->
  forall k b o, wf_bytes b -> (List.length b - o < k)%nat ->
    sound_res (fun l => forall x, In x l -> fine h x)
      (unpack_items (unpack0 (S (S m))) (size0 (S (S m))) pc k b o).
Proof.
  intros NI IC LI PO REC SZ. induction k as [|k IH]; intros b o W K; [lia|]. cbn [unpack_items].
  destruct (Nat.ltb_spec o (List.length b)) as [Lt|Ge]; [|apply sr_ok; intros x []].
  rewrite NI. eapply sr_bind; [apply REC, W|]. intros r Er Fr.
  eapply sr_bind with (P := fun l => forall x, In x l -> fine h x).
  - split; [apply nf_check_items|]. intros l E. apply check_items_same in E. subst l. intros x I.
    split; [apply (flat_height h r x (proj1 Fr) I)|apply (flat_good h r x (proj1 Fr) (proj2 Fr) I)].
  - intros l _ Fl. eapply sr_bind; [apply sr_nf, SZ, Fr|]. intros s Es _.
    destruct it as [| | | | | | | | | | | | |c' a|]; try discriminate IC. apply cid_eqb_eq in IC. subst c'.
    pose proof (item_pos m pc a b o r _ s W LI PO Er (proj2 Fr) Es) as P1.
    eapply sr_bind; [apply IH; [exact W|]|].
    + assert (1 <= Z.to_nat s)%nat by lia. lia.
    + intros rest _ Frest. apply sr_ok. intros x I. apply in_app_or in I as [I|I]; auto.
Qed.

Lemma unpack_total n : forall v m b o, uok n v = true -> wf_bytes b -> (3 * n + S CFUEL <= m)%nat ->
  sound_res (fine (3 * n)) (unpack0 m v b o).
Proof.
  induction n as [|n IH]; intros v m b o U W M; [discriminate|].
  destruct m as [|m]; [lia|].
  assert (FV : fine (3 * S n) v) by (apply uok_fine; exact U).
  assert (REC : forall p b o, uok n p = true -> wf_bytes b -> sound_res (fine (3 * n)) (unpack0 m p b o)).
  { intros. apply IH; [assumption|assumption|lia]. }
  assert (SZ : forall v, (height v <= 3 * n)%nat -> nf (size0 m v)).
  { intros x Hx. apply (size_total (3 * n)); [exact Hx|lia]. }
  destruct v; try (apply sr_err; discriminate).
  - apply sr_uint_unpack, W.
  - apply sr_ok. exact FV.
  - apply sr_char_unpack.
  - apply sr_ip_unpack.
  - apply sr_hw_unpack.
  - apply sr_dpid_unpack.
  - apply sr_ok. split; [cbn [height]; lia|]. apply wf_bytesb_ok, wf_bytes_skipn, W.
  - change (sound_res (fine (3 * S n)) (unpack_obj (unpack0 m) (size0 m) c attrs b o)).
    cbn [uok] in U. apply andb_prop in U as [_ U]. apply andb_prop in U as [T B].
    rewrite forallb_forall in T, B.
    replace (3 * S n)%nat with (S (S (S (3 * n)))) in * by lia.
    assert (P : (1 <= n)%nat).
    { destruct n; [|lia]. specialize (B (VBin (VBytes [])) (or_introl eq_refl)). discriminate. }
    apply sr_unpack_obj; try assumption.
    + intros k y I. split; [apply (attrs_height c attrs (3 * n) (proj1 FV) k y I)|apply (good_attr c attrs k y (proj2 FV) I)].
    + intros c' I cv Icv. specialize (T c' I). rewrite forallb_forall in T. exact (T cv Icv).
  - change (sound_res (fine (3 * S n))
      (do l <- unpack_items (unpack0 m) (size0 m) pc (S (List.length b)) b o; Ok (VList lc pc (items ++ l)))).
    cbn [uok] in U. apply andb_prop in U as [_ U].
    assert (SI : sound_res (fun l => forall x, In x l -> fine (3 * n) x)
                   (unpack_items (unpack0 m) (size0 m) pc (S (List.length b)) b o)).
    { destruct (new_instance pc) as [it|] eqn:NI.
      - destruct it as [| | | | | | | | | | | | |c' a|]; try discriminate U.
        apply andb_prop in U as [U U4]. apply andb_prop in U as [U U3]. apply andb_prop in U as [U1 U2].
        destruct m as [|[|m]]; [lia|lia|].
        apply (sr_items n m pc (VObj c' a) NI U1 U2 U3); [|exact SZ|exact W|lia].
        intros. apply REC; assumption.
      - cbn [unpack_items]. rewrite NI. destruct (Nat.ltb _ _); [apply sr_err; discriminate|].
        apply sr_ok. intros x []. }
    eapply sr_bind; [exact SI|]. intros l _ Fl. apply sr_ok.
    apply (fine_le (S (3 * n + 2))); [lia|]. apply fine_list. intros x I. apply in_app_or in I as [I|I].
    + destruct FV as [H1 H2]. split; [pose proof (height_item lc pc items x I); lia|eapply good_item; eauto].
    + apply (fine_le (3 * n)); [lia|auto].
Qed.

(** Every class of the library. *)
Lemma instance_uok c v : new_instance c = Some v -> uok 11 v = true.
Proof.
  assert (G : forall c, (match new_instance c with Some v => uok 11 v | None => true end) = true).
  { apply all_classes. vm_compute. reflexivity. }
  intros E. specialize (G c). rewrite E in G. exact G.
Qed.

Lemma uok_unpack v b o n : uok 11 v = true -> wf_bytes b -> (FUEL <= n)%nat ->
  unpack0 n v b o <> Err OutOfFuel.
Proof. intros U W N. apply (unpack_total 11 v n b o U W). unfold FUEL, CFUEL in *. lia. Qed.

(** A result does not depend on the amount of fuel. *)
Lemma unpack_of v b o n : uok 11 v = true -> wf_bytes b -> unpack0 n v b o <> Err OutOfFuel ->
  unpack v b o = unpack0 n v b o.
Proof.
  intros U W H. unfold unpack. exact (unpack0_agree _ n v b o (uok_unpack v b o FUEL U W (Nat.le_refl _)) H).
Qed.

(** ** pyof.utils.unpack *)

Lemma uok_attrs n c a a' : uok n (VObj c a) = true -> fine (3 * n) (VObj c a') -> uok n (VObj c a') = true.
Proof.
  destruct n; [discriminate|]. cbn [uok]. intros U [H G]. apply andb_prop in U as [_ U].
  rewrite U, G. apply Nat.leb_le in H. cbn [uok]. rewrite H. reflexivity.
Qed.

Lemma set_header_fine h name x c a m' : set_header name x (VObj c a) = Ok m' ->
  fine h x -> fine (S (S (S (S (S (S h)))))) (VObj c a) ->
  exists a', m' = VObj c a' /\ fine (S (S (S (S (S (S h)))))) m'.
Proof.
  intros E Fx [H G]. unfold set_header in E. destruct (get_attr "header" a) as [[]|] eqn:Eh; try discriminate.
  injection E as <-. eexists. split; [reflexivity|]. apply get_attr_In in Eh.
  assert (FA : fine_attrs (S (S (S h))) a).
  { intros k y I. split; [apply (attrs_height c a _ H k y I)|eapply good_attr; eauto]. }
  apply fine_obj, fine_set; [exact FA|]. destruct (FA _ _ Eh) as [H2 G2].
  apply fine_obj, fine_set; [|exact Fx]. intros k y I.
  split; [apply (attrs_height _ _ _ H2 k y I)|eapply good_attr; eauto].
Qed.

Lemma nf_lookup v t : nf (new_message_from_message_type v t).
Proof. unfold new_message_from_message_type. nf_solve. Qed.

(** The message created for a header can be decoded into. *)
Lemma from_header_uok v hdr m : fine 6 hdr -> new_message_from_header v hdr = Ok m -> uok 11 m = true.
Proof.
  intros Fh Em.
  assert (OA : forall name x, obj_attr name hdr = Ok x -> fine 3 x).
  { intros name x. unfold obj_attr. destruct hdr; try discriminate. unfold attr_or_error.
    destruct (get_attr name attrs) eqn:E; [|discriminate]. intros [= <-]. apply get_attr_In in E.
    split; [apply (attrs_height _ _ 3 (proj1 Fh) _ _ E)|eapply good_attr; [apply (proj2 Fh)|exact E]]. }
  unfold new_message_from_header in Em. peel Em. apply bind_ok in Em as (t & _ & Em).
  do 4 peel Em.
  assert (N : exists c a, x0 = VObj c a /\ uok 11 (VObj c a) = true /\ fine 9 (VObj c a)).
  { unfold new_message_from_message_type in E0. destruct (lookup_type t (message_types v)) as [c|] eqn:L; [|discriminate].
    assert (G : forall c, In c (map snd (message_types v)) ->
      (match new_instance c with
       | Some (VObj c' a) => uok 11 (VObj c' a) && Nat.leb (height (VObj c' a)) 9 && good (VObj c' a)
       | _ => false end) = true).
    { intros c0 I0. assert (F : forallb (fun c => match new_instance c with
       | Some (VObj c' a) => uok 11 (VObj c' a) && Nat.leb (height (VObj c' a)) 9 && good (VObj c' a)
       | _ => false end) (map snd (message_types v)) = true) by (destruct v; vm_compute; reflexivity).
      rewrite forallb_forall in F. exact (F c0 I0). }
    assert (I : In c (map snd (message_types v))).
    { revert L. generalize (message_types v). clear. induction l as [|[k c0] l IH]; cbn; [discriminate|].
      destruct (t =? k); [intros [= ->]; auto|auto]. }
    specialize (G c I). destruct (new_instance c) as [[| | | | | | | | | | | | |c' a|]|]; try discriminate.
    injection E0 as <-. apply andb_prop in G as [G G3]. apply andb_prop in G as [G1 G2].
    apply Nat.leb_le in G2. exists c', a. repeat split; assumption. }
  destruct N as (c & a & -> & U & F9).
  destruct (set_header_fine 3 _ _ _ _ _ E2 (OA _ _ E1) F9) as (a2 & -> & F2).
  destruct (set_header_fine 3 _ _ _ _ _ Em (OA _ _ E3) F2) as (a3 & -> & F3).
  apply (uok_attrs 11 c a); [exact U|]. eapply fine_le; [|exact F3]. lia.
Qed.

Lemma header_fine v b : wf_bytes b -> sound_res (fine 6) (unpack (new_header v) b 0).
Proof.
  intros W. unfold unpack. apply (unpack_total 2); [|exact W|unfold FUEL, CFUEL; lia].
  destruct v; vm_compute; reflexivity.
Qed.

Theorem unpack_message_total v b : wf_bytes b -> unpack_message v b <> Err OutOfFuel.
Proof.
  intros W. unfold unpack_message.
  apply nf_bind'; [exact (get_size_never_out _)|]. intros hs. cbv zeta.
  assert (Wh : wf_bytes (firstn (Z.to_nat hs) b)) by (apply wf_bytes_firstn, W).
  pose proof (header_fine v _ Wh) as SH.
  apply nf_bind; [exact (proj1 SH)|]. intros hdr Eh. pose proof (proj2 SH _ Eh) as Fh. clear SH.
  assert (NO : forall name, nf (obj_attr name hdr)).
  { intros name. unfold obj_attr. destruct hdr; try discriminate. apply nf_attr. }
  assert (NS : forall name x m, nf (set_header name x m)).
  { intros name x m. unfold set_header. nf_solve. }
  apply nf_bind.
  - unfold new_message_from_header. apply nf_bind'; [apply NO|]. intros mt.
    apply nf_bind'; [unfold type_code; nf_solve|]. intros t. apply nf_bind'; [apply nf_lookup|]. intros m.
    apply nf_bind'; [apply NO|]. intros xid. apply nf_bind'; [apply NS|]. intros m2.
    apply nf_bind'; [apply NO|]. intros len. apply NS.
  - intros m Em. unfold unpack.
    apply uok_unpack; [exact (from_header_uok _ _ _ Fh Em)|apply wf_bytes_skipn, W|lia].
Qed.

Theorem unpack_packet_total b : wf_bytes b -> unpack_packet b <> Err OutOfFuel.
Proof.
  intros W. unfold unpack_packet. apply nf_bind'; [unfold validate_packet; cbv zeta; nf_solve|].
  intros _. destruct (version_lib _) as [v|]; [|discriminate].
  apply nf_recast; [discriminate|]. exact (unpack_message_total v b W).
Qed.
