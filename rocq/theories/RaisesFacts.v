(** Soundness of [may]: the exceptions of unpack (C15), and get_size on decoded
    structures. *)
From Coq Require Import ZArith List Bool String Lia.
From Verif Require Import Base BaseFacts PyText Ids PyVal Classes Interp Utils Spec ClassFacts StructFacts
  FuelFacts Totality UnpackTotal MutationFacts Raises.
Import ListNotations.
Open Scope string_scope.
Open Scope list_scope.
Open Scope Z_scope.

Definition fails {A} (E : exn -> bool) (r : res A) : Prop := forall e, r = Err e -> e = OutOfFuel \/ E e = true.

Lemma fails_ok {A} E (a : A) : fails E (Ok a).
Proof. intros e. discriminate. Qed.
Lemma fails_err {A} (E : exn -> bool) x : E x = true -> fails E (@Err A x).
Proof. intros H e [= <-]. right. exact H. Qed.
Lemma fails_oof {A} E : fails E (@Err A OutOfFuel).
Proof. intros e [= <-]. left. reflexivity. Qed.
Lemma fails_bind {A B} E (r : res A) (f : A -> res B) :
  fails E r -> (forall a, r = Ok a -> fails E (f a)) -> fails E (bind r f).
Proof. intros H F. destruct r; cbn [bind]; [apply F; reflexivity|]. intros x [= <-]. apply H. reflexivity. Qed.
Lemma fails_imp {A} (E E' : exn -> bool) (r : res A) : (forall e, E e = true -> E' e = true) -> fails E r -> fails E' r.
Proof. intros I H e R. destruct (H e R) as [->|X]; auto. Qed.
Lemma fails_le {A} E (r r' : res A) : le_res r r' -> fails E r' -> fails E r.
Proof. intros [->| ->] H; [apply fails_oof|exact H]. Qed.
Lemma fails_sumM {A} E (f : A -> res Z) l : (forall a, In a l -> fails E (f a)) -> fails E (sumM f l).
Proof.
  induction l as [|a l IH]; intros H; [apply fails_ok|]. cbn [sumM].
  apply fails_bind; [apply H; left; reflexivity|]. intros x _.
  apply fails_bind; [apply IH; intros; apply H; right; assumption|]. intros. apply fails_ok.
Qed.

Definition safe (E : exn -> bool) (a : pyval) : Prop := forall k, fails E (size0 k a).

(** ** What decoding into [v] gives *)
Definition decoded (E : exn -> bool) (v a : pyval) : Prop :=
  match v with
  | VBin _ => exists bs, a = VBin (VBytes bs)
  | VObj c _ => nestable c = true -> exists c' at', a = VObj c' at' /\ subclass c' c = true /\ safe E a
  | VList lc pc _ =>
      exists items, a = VList lc pc items /\
        forall x, In x items ->
          cid_eqb pc CNone = false /\ exists c' at', x = VObj c' at' /\ subclass c' pc = true /\ safe E x
  | _ => safe E a
  end.
Lemma decoded_imp (E E' : exn -> bool) v a : (forall e, E e = true -> E' e = true) -> decoded E v a -> decoded E' v a.
Proof.
  intros I. assert (S1 : forall x, safe E x -> safe E' x) by (intros x H k; eapply fails_imp; [exact I|apply H]).
  destruct v; cbn [decoded]; auto.
  - intros H N. destruct (H N) as (c' & at' & A1 & A2 & A3). exists c', at'. auto.
  - intros (its & A & H). exists its. split; [exact A|]. intros x X. destruct (H x X) as (N & c' & at' & A1 & A2 & A3).
    split; [exact N|]. exists c', at'. auto.
Qed.

Lemma safe_bin E bs : safe E (VBin (VBytes bs)).
Proof. intros [|k]; [apply fails_oof|]. cbn. apply fails_ok. Qed.
Lemma safe_leaf E v : leaf v = true -> safe E v.
Proof. intros L [|k]; [apply fails_oof|]. destruct v; try discriminate L; apply fails_ok. Qed.
Lemma safe_list E lc pc items : cid_eqb lc CList = false ->
  (forall x, In x items -> exists c at', x = VObj c at' /\ safe E x) -> safe E (VList lc pc items).
Proof.
  intros L H [|k]; [apply fails_oof|]. 
  change (fails E (if cid_eqb lc CList then Err AttributeError
                else match items with
                     | [] => Ok 0
                     | x :: _ => if is_generic_type x then do s <- size0 k x; Ok (zlen items * s)
                                 else sumM (size0 k) items
                     end)). rewrite L. destruct items as [|x tl]; [apply fails_ok|].
  destruct (H x (or_introl eq_refl)) as (c & a & -> & _). cbn [is_generic_type].
  apply fails_sumM. intros y Y. destruct (H y Y) as (_ & _ & _ & Z0). apply Z0.
Qed.

Lemma direct_copy cv : direct cv = true -> leaf cv = true -> deepcopy cv = cv.
Proof. destruct cv; try discriminate; reflexivity. Qed.

Lemma size_decoded E cv a : direct cv = true -> decoded E (deepcopy cv) a -> safe E a.
Proof.
  destruct cv; try discriminate; cbn [deepcopy decoded direct]; intros D H; auto.
  - destruct H as [bs ->]. apply safe_bin.
  - apply andb_true_iff in D as [D _]. destruct (H D) as (_ & _ & _ & _ & X). exact X.
  - destruct H as (its & -> & H). apply andb_true_iff in D as [D _]. apply negb_true_iff in D. rewrite D.
    apply safe_list; [reflexivity|]. intros x X. destruct (H x X) as (_ & c & at' & A1 & _ & A3). exists c, at'. auto.
Qed.

Lemma check_all E pc items : (forall x, In x items ->
    cid_eqb pc CNone = false /\ exists c at', x = VObj c at' /\ subclass c pc = true /\ safe E x) ->
  check_items pc (flat_map flat items) = Ok items.
Proof.
  induction items as [|x tl IH]; intros H; [reflexivity|].
  destruct (H x (or_introl eq_refl)) as (N & c & a & -> & Sb & _).
  change (check_items pc (VObj c a :: flat_map flat tl) = Ok (VObj c a :: tl)).
  cbn [check_items class_of]. rewrite N, Sb. rewrite IH; [reflexivity|]. intros. apply H. right. assumption.
Qed.

Lemma size1_decoded E cv iv k : direct cv = true -> decoded E (deepcopy cv) iv -> fails E (size1 (size0 k) cv iv).
Proof.
  destruct cv as [| | | | | |w er x|j|len x|x msk|x|x|x|c attrs|lc pc its]; try discriminate; cbn [deepcopy decoded direct]; intros D H;
    try (apply safe_leaf; reflexivity).
  - destruct H as [bs ->]. apply safe_bin.
  - apply andb_true_iff in D as [D DK]. destruct (H D) as (c' & at' & -> & Sb & X). cbn [size1 class_of].
    destruct (kind c) eqn:K; try discriminate DK; try (rewrite Sb; apply X).
    apply cid_eqb_eq in DK. subst c. rewrite Sb. apply X.
  - destruct H as (items & -> & H). apply andb_true_iff in D as [D _]. apply negb_true_iff in D.
    cbn [size1 list_init]. destruct (cid_eqb lc CFixedTypeList); [apply fails_ok|].
    rewrite (check_all E) by exact H. cbn [bind]. apply safe_list; [exact D|].
    intros x0 X. destruct (H x0 X) as (_ & c & at' & A1 & _ & A3). exists c, at'. auto.
Qed.
Lemma size1_bytes E d bs k : fails E (size1 (size0 k) (VBin d) (VBytes bs)).
Proof. apply fails_ok. Qed.

Lemma size1_default E cv k : default_ok cv = true -> fails E (size1 (size0 k) cv (deepcopy cv)).
Proof.
  unfold default_ok. intros D.
  destruct (size1 (size0 20) cv (deepcopy cv)) as [s|] eqn:Es; [|discriminate].
  destruct (Nat.le_ge_cases k 20) as [L|L].
  - apply (fails_le _ _ (size1 (size0 20) cv (deepcopy cv))); [apply le_size1; intros v; apply size0_mono; exact L|].
    rewrite Es. apply fails_ok.
  - destruct (le_size1 (size0 20) (size0 k) cv (deepcopy cv)) as [X|X].
    + intros v. apply size0_mono. exact L.
    + congruence.
    + rewrite X, Es. apply fails_ok.
Qed.

(** ** Keys *)
Lemma nodup_ok l : nodupb l = true -> NoDup l.
Proof.
  induction l as [|x tl IH]; [constructor|]. cbn [nodupb]. intros H. apply andb_true_iff in H as [A B].
  constructor; [|apply IH, B]. intros I. apply negb_true_iff in A.
  rewrite (proj2 (existsb_exists _ _)) in A; [discriminate|]. exists x. split; [exact I|apply String.eqb_refl].
Qed.
Lemma set_keys_add k x l : map fst (set_attr k x l) = if existsb (String.eqb k) (map fst l) then map fst l else map fst l ++ [k].
Proof.
  induction l as [|[a b] l IH]; [reflexivity|]. cbn [set_attr map fst existsb].
  rewrite (String.eqb_sym k a). destruct (String.eqb_spec a k) as [->|N]; cbn [orb map fst]; [reflexivity|].
  rewrite IH. destruct (existsb _ _); reflexivity.
Qed.
Lemma fields_keys_add rec size fields : forall attrs b o r,
  unpack_fields rec size fields attrs b o = Ok r -> map fst (fst r) = addkeys (map fst attrs) (map fst fields).
Proof.
  induction fields as [|[name cv] tl IH]; intros attrs b o r; [intros [= <-]; reflexivity|].
  cbn [unpack_fields map fst addkeys]. destruct b as [|x b].
  - intros H. rewrite (IH _ _ _ _ H), set_keys_add. reflexivity.
  - destruct (rec (deepcopy cv) (x :: b) o) as [a|]; cbn [bind]; [|discriminate].
    destruct (size a) as [s|]; cbn [bind]; [|discriminate].
    intros H. rewrite (IH _ _ _ _ H), set_keys_add. reflexivity.
Qed.
Lemma addkeys_app k a b : addkeys k (a ++ b) = addkeys (addkeys k a) b.
Proof. revert k. induction a as [|x a IH]; intros k; [reflexivity|]. cbn [addkeys app]. apply IH. Qed.

(** Positional pairs are pairs by name. *)
Lemma filter_fst c attrs : map fst (filter (fun p : string * pyval => is_class_attr c (fst p)) attrs) = filter (is_class_attr c) (map fst attrs).
Proof.
  induction attrs as [|[k x] l IH]; [reflexivity|]. cbn [filter map fst]. destruct (is_class_attr c k); cbn [map fst]; rewrite IH; reflexivity.
Qed.
Lemma aligned_zip C : forall (L : list (string * pyval)) cv iv, aligned C (map fst L) = true -> In (cv, iv) (combine (map snd C) (map snd L)) ->
  leaf cv = true \/ exists name, In (name, cv) C /\ In (name, iv) L.
Proof.
  induction C as [|[name cv0] C IH]; intros L cv iv; [intros _ []|]. destruct L as [|[k x] L]; [intros _ []|].
  cbn [aligned map fst snd combine]. intros A [[= <- <-]|I]; apply andb_true_iff in A as [A B].
  - apply orb_true_iff in A as [A|A]; [left; exact A|]. apply String.eqb_eq in A as <-. right. exists name. split; left; reflexivity.
  - destruct (IH L cv iv B I) as [H|(nm & H1 & H2)]; [left; exact H|]. right. exists nm. split; right; assumption.
Qed.
Lemma zip_named c attrs cv iv : order_ok c (map fst attrs) = true -> In (cv, iv) (zip_attrs c attrs) ->
  leaf cv = true \/ exists name, In (name, cv) (class_attrs c) /\ get_attr name attrs = Some iv.
Proof.
  unfold order_ok, zip_attrs. intros O I. apply andb_true_iff in O as [ND A]. rewrite <- filter_fst in A.
  destruct (aligned_zip _ _ _ _ A I) as [L|(name & H1 & H2)]; [left; exact L|]. right. exists name. split; [exact H1|].
  apply filter_In in H2 as [H2 _]. apply get_attr_nodup; [apply nodup_ok, ND|exact H2].
Qed.

Lemma struct_size_fails E c attrs k : order_ok c (map fst attrs) = true ->
  (forall name cv iv, In (name, cv) (class_attrs c) -> get_attr name attrs = Some iv -> fails E (size1 (size0 k) cv iv)) ->
  fails E (struct_size (size0 k) c attrs).
Proof.
  intros O H. apply fails_sumM. intros [cv iv] I. cbn [fst snd].
  destruct (zip_named _ _ _ _ O I) as [L|(name & H1 & H2)]; [|eapply H; eauto].
  assert (X : size1 (size0 k) cv iv = size0 k cv) by (destruct cv; try discriminate L; reflexivity).
  rewrite X. apply safe_leaf, L.
Qed.
Lemma safe_obj E c attrs : order_ok c (map fst attrs) = true ->
  (forall k name cv iv, In (name, cv) (class_attrs c) -> get_attr name attrs = Some iv -> fails E (size1 (size0 k) cv iv)) ->
  (kind c = KBucket -> exists l, get_attr "length" attrs = Some l /\ fails E (num_of l)) ->
  safe E (VObj c attrs).
Proof.
  intros O H B [|k]; [apply fails_oof|]. rewrite size0_obj.
  assert (SS : fails E (struct_size (size0 k) c attrs)) by (apply struct_size_fails; [exact O|intros; eapply H; eauto]).
  destruct (kind c) eqn:K; try exact SS; try (apply fails_bind; [exact SS|intros; apply fails_ok]).
  destruct (B eq_refl) as (l & G & N). unfold attr_or_error. rewrite G. cbn [bind].
  destruct l; try exact N. exact SS.
Qed.

(** ** Leaves *)
Definition only (x : exn) : exn -> bool := fun e => exn_eqb e x.
Lemma only_refl x : only x x = true.
Proof. destruct x; reflexivity. Qed.
Lemma fails_recast {A} E x y (r : res A) : fails (fun e => exn_eqb e x || E e) r -> E y = true -> fails E (recast x y r).
Proof.
  intros H Y e. destruct r as [a|e0]; cbn [recast]; [discriminate|].
  destruct (exn_eqb e0 x) eqn:Q; intros [= <-]; [right; exact Y|].
  destruct (H e0 eq_refl) as [->|X]; [left; reflexivity|]. rewrite Q in X. right. exact X.
Qed.
Lemma exn_eqb_refl x : exn_eqb x x = true. Proof. destruct x; reflexivity. Qed.
Lemma fails_enum_call e z : fails (only ValueError) (enum_call e z).
Proof. unfold enum_call. destruct (enum_def e); try (destruct (is_member _ _)); try apply fails_ok; apply fails_err; reflexivity. Qed.
Lemma fails_unpack_u w b o : fails (only StructError) (struct_unpack_u w b o).
Proof. unfold struct_unpack_u. cbv zeta. destruct (Nat.eqb _ _); [apply fails_ok|apply fails_err; reflexivity]. Qed.
Lemma fails_uint w er b o : fails (only UnpackException) (uint_unpack w er b o).
Proof.
  unfold uint_unpack. apply fails_recast; [|reflexivity]. apply fails_recast; [|reflexivity].
  apply fails_bind.
  - eapply fails_imp; [|apply fails_unpack_u]. intros e H. unfold only in H. rewrite H. reflexivity.
  - intros z _. destruct er; [|apply fails_ok]. apply fails_bind; [|intros; apply fails_ok].
    eapply fails_imp; [|apply fails_enum_call]. intros e0 H. unfold only in H. rewrite H.
    destruct (exn_eqb e0 StructError); reflexivity.
Qed.
Lemma fails_unpack_seq w n b : fails (only StructError) (struct_unpack_seq w n b).
Proof. unfold struct_unpack_seq. destruct (Nat.eqb _ _); [apply fails_ok|apply fails_err; reflexivity]. Qed.
Lemma fails_ip m b o : fails (only UnpackException) (ip_unpack m b o).
Proof.
  unfold ip_unpack. apply fails_bind; [|intros; apply fails_ok]. apply fails_recast; [|reflexivity].
  eapply fails_imp; [|apply fails_unpack_seq]. intros e H. unfold only in H. rewrite H. reflexivity.
Qed.
Lemma fails_hw b o : fails (only UnpackException) (hw_unpack b o).
Proof.
  unfold hw_unpack. apply fails_bind; [|intros; apply fails_ok]. apply fails_recast; [|reflexivity].
  eapply fails_imp; [|apply fails_unpack_seq]. intros e H. unfold only in H. rewrite H. reflexivity.
Qed.
Lemma fails_mapM {A B} E (f : A -> res B) l : (forall a, fails E (f a)) -> fails E (mapM f l).
Proof.
  intros H. induction l as [|a l IH]; [apply fails_ok|]. cbn [mapM].
  apply fails_bind; [apply H|]. intros. apply fails_bind; [exact IH|]. intros. apply fails_ok.
Qed.
Lemma fails_dpid b o : fails (only StructError) (dpid_unpack b o).
Proof.
  unfold dpid_unpack. apply fails_bind; [|intros; apply fails_ok]. apply fails_mapM. intros i.
  apply fails_bind; [apply fails_unpack_seq|intros; apply fails_ok].
Qed.
Lemma fails_char len b o : fails (fun x => exn_eqb x ValueError || exn_eqb x GenericException) (char_unpack len b o).
Proof.
  unfold char_unpack. cbv zeta. destruct (Nat.eqb _ _); [|apply fails_err; reflexivity].
  destruct (forallb _ _); [apply fails_ok|apply fails_err; reflexivity].
Qed.
Lemma uint_num w er b o t : uint_unpack w er b o = Ok t -> exists x z, t = VUInt w er x /\ num_of t = Ok z.
Proof.
  unfold uint_unpack. destruct (struct_unpack_u w b o) as [z|e]; cbn [bind recast].
  2: { destruct (exn_eqb e StructError); cbn [recast]; [discriminate|]. destruct (exn_eqb e ValueError); discriminate. }
  destruct er as [e|].
  - unfold enum_call. destruct (enum_def e) eqn:D.
    + destruct (is_member e z); cbn; [|discriminate]. intros [= <-]. exists (VEnum e z), z. split; [reflexivity|].
      cbn. rewrite D, eid_eqb_refl. reflexivity.
    + destruct (is_member e z); cbn; [|discriminate]. intros [= <-]. exists (VEnum e z), z. split; [reflexivity|].
      cbn. rewrite D, eid_eqb_refl. reflexivity.
    + cbn. intros [= <-]. exists (VMask e z), z. split; [reflexivity|]. cbn. rewrite D. reflexivity.
  - cbn. intros [= <-]. exists (VInt z), z. split; reflexivity.
Qed.
Lemma uint_fails E w er b o t : uint_unpack w er b o = Ok t -> fails E (num_of t).
Proof. intros H. destruct (uint_num _ _ _ _ _ H) as (x & z & _ & ->). apply fails_ok. Qed.
Lemma uint_bound w er b o t : uint_unpack w er b o = Ok t -> (0 < w)%nat -> (o + w <= List.length b)%nat.
Proof.
  unfold uint_unpack, struct_unpack_u. cbv zeta. destruct (Nat.eqb_spec (List.length (slice o (o + w) b)) w) as [E|E].
  - intros _ W. unfold slice in E. rewrite skipn_length, firstn_length in E. lia.
  - cbn. discriminate.
Qed.

(** ** Fields *)
Fixpoint covers (n : nat) (E : exn -> bool) (z : bool) (fields : list (string * pyval)) : Prop :=
  match fields with
  | [] => True
  | (_, cv) :: tl =>
      direct cv = true /\ sok n (deepcopy cv) = true /\
      (forall e, may n e z (deepcopy cv) = true -> E e = true) /\
      covers n E (z && negb (advances cv)) tl
  end.
Definition flag_after (z : bool) (fields : list (string * pyval)) : bool :=
  fold_left (fun z p => z && negb (advances (snd p))) fields z.

Lemma covers_of n E fields : forall z,
  forallb (fun p => direct (snd p) && sok n (deepcopy (snd p))) fields = true ->
  (forall e, fields_may (may n e) z fields = true -> E e = true) -> covers n E z fields.
Proof.
  induction fields as [|[name cv] tl IH]; intros z H M; [exact I|]. cbn [forallb snd] in H.
  apply andb_true_iff in H as [H T]. apply andb_true_iff in H as [D Sk]. cbn [covers].
  split; [exact D|]. split; [exact Sk|]. split.
  - intros e Q. apply M. cbn [fields_may]. rewrite Q. reflexivity.
  - apply IH; [exact T|]. intros e Q. apply M. cbn [fields_may]. rewrite Q. apply orb_true_r.
Qed.
Lemma covers_app n E f1 f2 : forall z, covers n E z (f1 ++ f2) -> covers n E z f1 /\ covers n E (flag_after z f1) f2.
Proof.
  induction f1 as [|[name cv] tl IH]; intros z H; [split; [exact I|exact H]|].
  cbn [covers app] in H. destruct H as (A & B & C & D). destruct (IH _ D) as [D1 D2].
  split; [cbn [covers]; auto|exact D2].
Qed.
Lemma covers_in n E fields name cv : forall z, covers n E z fields -> In (name, cv) fields -> direct cv = true.
Proof.
  induction fields as [|[k x] tl IH]; intros z H; [intros []|]. cbn [covers] in H. destruct H as (A & _ & _ & D).
  intros [[= <- <-]|I]; [exact A|]. eapply IH; eauto.
Qed.

Definition reader (n m : nat) : Prop := forall z v b o,
  sok n v = true -> (b <> [] \/ needs v = false) -> (z = true \/ (0 < o)%nat) ->
  fails (fun x => may n x z v) (unpack0 m v b o) /\
  forall a, unpack0 m v b o = Ok a -> decoded (fun x => may n x z v) v a.

(** The value found under the name of a field. *)
Definition filled (m : nat) (E : exn -> bool) (b : bytes) (cv iv : pyval) : Prop :=
  (b = [] /\ iv = deepcopy cv) \/
  (b <> [] /\ decoded E (deepcopy cv) iv /\ exists o1, unpack0 m (deepcopy cv) b o1 = Ok iv).

Section Read.
  Context (n m : nat).
  Hypothesis REC : reader n m.

  Lemma advance_off cv b o a s : advances cv = true -> unpack0 m (deepcopy cv) b o = Ok a -> size0 m a = Ok s -> (0 < Z.to_nat s)%nat.
  Proof.
    destruct cv; try discriminate. destruct w; [discriminate|]. intros _. destruct m as [|m']; [discriminate|].
    change (deepcopy (VUInt (S w) er cv)) with (VUInt (S w) er cv).
    change (uint_unpack (S w) er b o = Ok a -> size0 (S m') a = Ok s -> (0 < Z.to_nat s)%nat).
    intros H. destruct (uint_num _ _ _ _ _ H) as (x & z & -> & _). intros [= <-]. lia.
  Qed.

  Lemma fields_sound E b fields : forall z attrs o,
    covers n E z fields -> NoDup (map fst fields) -> (b <> [] -> z = true \/ (0 < o)%nat) ->
    fails E (unpack_fields (unpack0 m) (size0 m) fields attrs b o) /\
    forall r, unpack_fields (unpack0 m) (size0 m) fields attrs b o = Ok r ->
      (forall name, ~ In name (map fst fields) -> get_attr name (fst r) = get_attr name attrs) /\
      (forall name cv, In (name, cv) fields -> exists iv, get_attr name (fst r) = Some iv /\ filled m E b cv iv) /\
      (b <> [] -> flag_after z fields = true \/ (0 < snd r)%nat).
  Proof.
    induction fields as [|[name cv] tl IH]; intros z attrs o C ND Z0.
    { split; [apply fails_ok|]. intros r [= <-]. cbn [fst snd]. split; [reflexivity|]. split; [intros ? ? []|exact Z0]. }
    cbn [covers] in C. destruct C as (D & Sk & M & CT). cbn [map fst] in ND. inversion ND as [|? ? NI ND']; subst.
    assert (STEP : forall x o', (b <> [] -> z && negb (advances cv) = true \/ (0 < o')%nat) -> filled m E b cv x ->
      fails E (unpack_fields (unpack0 m) (size0 m) tl (set_attr name x attrs) b o') /\
      forall r, unpack_fields (unpack0 m) (size0 m) tl (set_attr name x attrs) b o' = Ok r ->
      (forall nm, ~ In nm (map fst ((name, cv) :: tl)) -> get_attr nm (fst r) = get_attr nm attrs) /\
      (forall nm cv', In (nm, cv') ((name, cv) :: tl) -> exists iv, get_attr nm (fst r) = Some iv /\ filled m E b cv' iv) /\
      (b <> [] -> flag_after z ((name, cv) :: tl) = true \/ (0 < snd r)%nat)).
    { intros x o' Z' Fx. destruct (IH _ (set_attr name x attrs) o' CT ND' Z') as [F1 R1].
      split; [exact F1|]. intros r Hr. destruct (R1 r Hr) as (A1 & A2 & A3). split; [|split].
      - intros nm NN. rewrite A1 by (intros J; apply NN; right; exact J).
        apply get_set_other. intros ->. apply NN. left. reflexivity.
      - intros nm cv' [[= <- <-]|J]; [|apply A2, J]. exists x. split; [|exact Fx].
        rewrite A1 by exact NI. apply get_set_same.
      - exact A3. }
    cbn [unpack_fields]. destruct b as [|b0 b'].
    - apply STEP; [intros J; contradiction J; reflexivity|]. left. split; reflexivity.
    - set (b := b0 :: b') in *. assert (NE : b <> []) by discriminate. clearbody b.
      destruct (REC z (deepcopy cv) b o Sk (or_introl NE) (Z0 NE)) as [F0 R0].
      assert (DC : forall a, unpack0 m (deepcopy cv) b o = Ok a -> decoded E (deepcopy cv) a).
      { intros a Ha. eapply decoded_imp; [exact M|]. apply R0, Ha. }
      split.
      + apply fails_bind; [eapply fails_imp; [exact M|exact F0]|]. intros a Ha.
        apply fails_bind; [apply (size_decoded E cv a D), DC, Ha|]. intros s Hs.
        apply STEP.
        * intros _. destruct (advances cv) eqn:AD.
          -- right. pose proof (advance_off _ _ _ _ _ AD Ha Hs). lia.
          -- destruct (Z0 NE) as [->|L]; [left; reflexivity|right; lia].
        * right. split; [exact NE|]. split; [apply DC, Ha|]. exists o. exact Ha.
      + intros r. destruct (unpack0 m (deepcopy cv) b o) as [a|] eqn:Ha; cbn [bind]; [|discriminate].
        destruct (size0 m a) as [s|] eqn:Hs; cbn [bind]; [|discriminate].
        intros Hr. refine (proj2 (STEP a _ _ _) r Hr).
        * intros _. destruct (advances cv) eqn:AD.
          -- right. pose proof (advance_off _ _ _ _ _ AD Ha Hs). lia.
          -- destruct (Z0 NE) as [->|L]; [left; reflexivity|right; lia].
        * right. split; [exact NE|]. split; [apply DC; reflexivity|]. exists o. exact Ha.
  Qed.

  Lemma filled_size E cv iv b k : direct cv = true -> default_ok cv = true -> filled m E b cv iv ->
    fails E (size1 (size0 k) cv iv).
  Proof.
    intros D DO [[_ ->]|(_ & X & _)]; [apply size1_default, DO|apply size1_decoded; assumption].
  Qed.
  Lemma filled_uint E w er d iv b : filled m E b (VUInt w er d) iv -> b <> [] -> exists z, num_of iv = Ok z.
  Proof.
    intros [[-> _]|(_ & _ & o1 & H)] NE; [contradiction NE; reflexivity|].
    destruct m as [|m']; [discriminate|].
    change (uint_unpack w er b o1 = Ok iv) in H. destruct (uint_num _ _ _ _ _ H) as (x & z & _ & N). exists z. exact N.
  Qed.

  Lemma structure_sound E z c attrs b o :
    covers n E z (class_attrs c) -> NoDup (map fst (class_attrs c)) -> (b <> [] -> z = true \/ (0 < o)%nat) ->
    order_ok c (addkeys (map fst attrs) (map fst (class_attrs c))) = true ->
    forallb (fun p => default_ok (snd p)) (class_attrs c) = true ->
    (kind c = KBucket -> In ("length", VUInt 2 None VNone) (class_attrs c) /\ (b <> [] \/ E TypeError = true)) ->
    fails E (unpack_structure (unpack0 m) (size0 m) c attrs b o) /\
    forall a, unpack_structure (unpack0 m) (size0 m) c attrs b o = Ok a ->
      exists at', a = VObj c at' /\ safe E a.
  Proof.
    intros C ND Z0 O DO B. destruct (fields_sound E b _ z attrs o C ND Z0) as [F R].
    unfold unpack_structure. split; [apply fails_bind; [exact F|intros; apply fails_ok]|].
    intros a. destruct (unpack_fields _ _ _ _ _ _) as [r|] eqn:Er; cbn [bind]; [|discriminate]. intros [= <-].
    destruct (R r eq_refl) as (_ & A2 & _). exists (fst r). split; [reflexivity|].
    apply safe_obj.
    - rewrite (fields_keys_add _ _ _ _ _ _ _ Er). exact O.
    - intros k name cv iv I G. destruct (A2 name cv I) as (iv' & G' & Fi). assert (iv' = iv) by congruence. subst iv'.
      rewrite forallb_forall in DO. specialize (DO _ I). eapply filled_size; [eapply covers_in; eauto|exact DO|exact Fi].
    - intros K. destruct (B K) as [I NB]. destruct (A2 _ _ I) as (iv & G & Fi). exists iv. split; [exact G|].
      destruct Fi as [[Eb ->]|X].
      + destruct NB as [NB|NB]; [contradiction|]. apply fails_err. exact NB.
      + destruct NB as [NB|NB].
        * destruct (filled_uint E 2 None VNone iv b (or_intror X) NB) as [zz ->]. apply fails_ok.
        * destruct (filled_uint E 2 None VNone iv b (or_intror X) (proj1 X)) as [zz ->]. apply fails_ok.
  Qed.

  (** ** Lists *)
  Lemma items_sound (E : exn -> bool) pc it z b :
    new_instance pc = Some it -> (exists a, it = VObj pc a) -> cid_eqb pc CNone = false -> nestable pc = true ->
    sok n it = true -> (forall e, may n e z it = true -> E e = true) ->
    forall k o, (z = true \/ (0 < o)%nat) ->
    fails E (unpack_items (unpack0 m) (size0 m) pc k b o) /\
    forall l, unpack_items (unpack0 m) (size0 m) pc k b o = Ok l ->
      forall x, In x l -> exists c' at', x = VObj c' at' /\ subclass c' pc = true /\ safe E x.
  Proof.
    intros NI [ia ->] NC NS Sk M. induction k as [|k IH]; intros o Z0; cbn [unpack_items];
      (destruct (Nat.ltb o (List.length b)) eqn:L; [|split; [apply fails_ok|intros l [= <-] x []]]).
    - split; [apply fails_oof|discriminate].
    - rewrite NI. assert (NE : b <> []) by (intros ->; apply Nat.ltb_lt in L; cbn in L; lia).
      destruct (REC z (VObj pc ia) b o Sk (or_introl NE) Z0) as [F0 R0].
      destruct (unpack0 m (VObj pc ia) b o) as [a|e] eqn:Ha; cbn [bind].
      2: { split; [|discriminate]. intros e' [= <-]. destruct (F0 e eq_refl) as [->|X]; [left; reflexivity|right; apply M, X]. }
      destruct (decoded_imp _ E _ _ M (R0 a eq_refl) NS) as (c' & at' & -> & Sb & Sf).
      assert (CK : check_items pc (flat (VObj c' at')) = Ok [VObj c' at']).
      { cbn [flat check_items class_of]. rewrite NC, Sb. reflexivity. }
      rewrite CK. cbn [bind]. pose proof (Sf m) as Fs.
      destruct (size0 m (VObj c' at')) as [s|e] eqn:Es; cbn [bind].
      2: { split; [|discriminate]. intros e' [= <-]. apply Fs. reflexivity. }
      assert (Z1 : z = true \/ (0 < o + Z.to_nat s)%nat) by (destruct Z0; [left; assumption|right; lia]).
      destruct (IH _ Z1) as [F1 R1]. split; [apply fails_bind; [exact F1|intros; apply fails_ok]|].
      intros l. destruct (unpack_items _ _ _ _ _ _) as [rest|]; cbn [bind]; [|discriminate]. intros [= <-] x [<-|X].
      + exists c', at'. auto.
      + apply (R1 rest eq_refl x X).
  Qed.
End Read.

(** ** Objects *)
Lemma kind_one (k : ckind -> bool) c0 : forallb (fun c => negb (k (kind c)) || cid_eqb c c0) all_cids = true ->
  forall c, k (kind c) = true -> c = c0.
Proof.
  intros H c K. pose proof (all_classes _ H c) as T. cbn beta in T. rewrite K in T. apply cid_eqb_eq, T.
Qed.
Ltac one K k := revert K; intros K; apply (kind_one k); [vm_compute; reflexivity|rewrite K; reflexivity].
Lemma kind_bucket c : kind c = KBucket -> c = Bucket04.
Proof. intros K. one K (fun k => match k with KBucket => true | _ => false end). Qed.
Lemma kind_error01 c : kind c = KErrorMsg01 -> c = ErrorMsg01.
Proof. intros K. one K (fun k => match k with KErrorMsg01 => true | _ => false end). Qed.
Lemma kind_error04 c : kind c = KErrorMsg04 -> c = ErrorMsg04.
Proof. intros K. one K (fun k => match k with KErrorMsg04 => true | _ => false end). Qed.
Lemma kind_request01 c : kind c = KStatsRequest -> c = StatsRequest01.
Proof. intros K. one K (fun k => match k with KStatsRequest => true | _ => false end). Qed.
Lemma kind_reply01 c : kind c = KStatsReply -> c = StatsReply01.
Proof. intros K. one K (fun k => match k with KStatsReply => true | _ => false end). Qed.
Lemma kind_request04 c : kind c = KMultipartRequest -> c = MultipartRequest04.
Proof. intros K. one K (fun k => match k with KMultipartRequest => true | _ => false end). Qed.
Lemma kind_reply04 c : kind c = KMultipartReply -> c = MultipartReply04.
Proof. intros K. one K (fun k => match k with KMultipartReply => true | _ => false end). Qed.
Lemma kind_oxm c : kind c = KOxmTLV -> c = OxmTLV04.
Proof. intros K. one K (fun k => match k with KOxmTLV => true | _ => false end). Qed.
Lemma kind_match04 c : kind c = KMatch04 -> c = Match04.
Proof. intros K. one K (fun k => match k with KMatch04 => true | _ => false end). Qed.
Lemma kind_match01 c : kind c = KMatch01 -> c = Match01.
Proof. intros K. one K (fun k => match k with KMatch01 => true | _ => false end). Qed.
Lemma bucket_target c c' : In c' (targets c) -> kind c' = KBucket -> c' = c.
Proof.
  intros I K. assert (T : forallb (fun x => negb (match kind x with KBucket => true | _ => false end) || cid_eqb x c) (targets c) = true).
  { clear. revert c. apply all_classes. vm_compute. reflexivity. }
  rewrite forallb_forall in T. specialize (T c' I). rewrite K in T. apply cid_eqb_eq, T.
Qed.
(** A nestable class decodes into classes read as plain structures. *)
Lemma target_fields c c' : nestable c = true -> In c' (targets c) -> fields_of c' = class_attrs c'.
Proof.
  intros N I. assert (T : negb (nestable c) || forallb nestable (targets c) = true).
  { clear. revert c. apply all_classes. vm_compute. reflexivity. }
  rewrite N in T. cbn [negb orb] in T. rewrite forallb_forall in T. specialize (T c' I).
  unfold nestable, listable in T. unfold fields_of. destruct (kind c'); try discriminate T; reflexivity.
Qed.
Lemma nodup_filter (f : string * pyval -> bool) l : NoDup (map fst l) -> NoDup (map fst (filter f l)).
Proof.
  induction l as [|p l IH]; intros H; [constructor|]. cbn [map fst filter] in *. inversion H; subst.
  destruct (f p); [|apply IH; assumption]. cbn [map]. constructor; [|apply IH; assumption].
  intros I. apply in_map_iff in I as (q & E & I). apply filter_In in I as [I _].
  match goal with X : ~ In _ _ |- _ => apply X end. apply in_map_iff. exists q. auto.
Qed.

Section Objects.
  Context (n m : nat) (c : cid) (a : list (string * pyval)) (z : bool).
  Hypothesis REC : reader n m.
  Hypothesis SK : sok (S n) (VObj c a) = true.
  Let E : exn -> bool := fun x => may (S n) x z (VObj c a).

  Lemma E_extra x : extra x z c = true -> E x = true.
  Proof. intros H. unfold E. cbn [may]. rewrite H. reflexivity. Qed.
  Lemma E_body x inst : has_body c = true -> In inst (bodies_of c) -> may n x true inst = true -> E x = true.
  Proof.
    intros H I M. unfold E. cbn [may]. rewrite H. rewrite (proj2 (existsb_exists _ (bodies_of c))); [apply orb_true_r|].
    exists inst. auto.
  Qed.
  Lemma E_fields c' x : out_of_order c = false -> In c' (targets c) ->
    fields_may (may n x) (z || has_body c) (fields_of c') = true -> E x = true.
  Proof.
    intros O I M. unfold E. cbn [may]. rewrite (proj2 (existsb_exists _ (targets c))).
    - rewrite orb_true_r. reflexivity.
    - exists c'. rewrite O. auto.
  Qed.
  Lemma E_out c' p x : out_of_order c = true -> In c' (targets c) -> In p (fields_of c') ->
    may n x true (deepcopy (snd p)) = true -> E x = true.
  Proof.
    intros O I Ip M. unfold E. cbn [may]. rewrite (proj2 (existsb_exists _ (targets c))).
    - rewrite orb_true_r. reflexivity.
    - exists c'. rewrite O. split; [exact I|]. apply existsb_exists. exists p. auto.
  Qed.

  Lemma sok_target c' : In c' (targets c) ->
    NoDup (map fst (class_attrs c')) /\
    (nestable c = true -> subclass c' c = true /\
       order_ok c' (addkeys (addkeys (addkeys (map fst a) (presets c)) (map fst (class_attrs c'))) (postsets c)) = true /\
       forallb (fun p => default_ok (snd p)) (class_attrs c') = true) /\
    forallb (fun p => direct (snd p) && sok n (deepcopy (snd p))) (fields_of c') = true.
  Proof.
    intros I. cbn [sok] in SK. apply andb_true_iff in SK as [H _]. apply andb_true_iff in H as [H _].
    rewrite forallb_forall in H. specialize (H c' I).
    apply andb_true_iff in H as [H F]. apply andb_true_iff in H as [ND H]. split; [apply nodup_ok, ND|]. split; [|exact F].
    intros N. rewrite N in H. cbn [negb orb] in H. apply andb_true_iff in H as [H D]. apply andb_true_iff in H as [S1 O]. auto.
  Qed.
  Lemma target_covers c' : out_of_order c = false -> In c' (targets c) -> covers n E (z || has_body c) (fields_of c').
  Proof.
    intros O I. apply covers_of; [apply (sok_target c' I)|]. intros e. apply (E_fields c' e O I).
  Qed.
  Lemma sok_body inst : has_body c = true -> In inst (bodies_of c) -> sok n inst = true /\ needs inst = false.
  Proof.
    intros H I. cbn [sok] in SK. apply andb_true_iff in SK as [Q _]. apply andb_true_iff in Q as [_ Q]. rewrite H in Q.
    cbn [negb orb] in Q. rewrite forallb_forall in Q. specialize (Q inst I). apply andb_true_iff in Q as [A B].
    apply negb_true_iff in B. auto.
  Qed.

  (** Structures. *)
  Lemma target_structure c' attrs b o : nestable c = true -> In c' (targets c) -> has_body c = false -> out_of_order c = false ->
    postsets c = [] -> map fst attrs = addkeys (map fst a) (presets c) ->
    (b <> [] -> z = true \/ (0 < o)%nat) ->
    (kind c' = KBucket -> b <> [] \/ z = true) ->
    fails E (unpack_structure (unpack0 m) (size0 m) c' attrs b o) /\
    forall r, unpack_structure (unpack0 m) (size0 m) c' attrs b o = Ok r -> decoded E (VObj c a) r.
  Proof.
    intros N I HB OO PS KA Z0 BK. destruct (sok_target c' I) as (ND & Q & _). destruct (Q N) as (Sb & O & DO).
    pose proof (target_covers c' OO I) as C. rewrite (target_fields c c' N I), HB, orb_false_r in C.
    destruct (structure_sound n m REC E z c' attrs b o C ND Z0) as [F R].
    - rewrite KA. rewrite PS in O. exact O.
    - exact DO.
    - intros K. pose proof (kind_bucket c' K) as Ec'. split; [subst c'; left; reflexivity|].
      destruct (BK K) as [NB|Zt]; [left; exact NB|right]. apply E_extra. unfold extra.
      rewrite <- (bucket_target c c' I K), K, Zt. reflexivity.
    - split; [exact F|]. intros r Hr. destruct (R r Hr) as (at' & -> & Sf). intros _. exists c', at'. auto.
  Qed.

  Lemma fails_uint_E w er b o : E UnpackException = true -> fails E (uint_unpack w er b o).
  Proof.
    intros H. eapply fails_imp; [|apply fails_uint]. intros e Q. unfold only in Q. destruct e; try discriminate Q. exact H.
  Qed.
  Lemma fails_value_E {A} (r : res A) : E ValueError = true -> fails (only ValueError) r -> fails E r.
  Proof.
    intros H. apply fails_imp. intros e Q. unfold only in Q. destruct e; try discriminate Q. exact H.
  Qed.

  (** Messages. *)
  Lemma message_sound b o : out_of_order c = false -> targets c = [c] -> fields_of c = message_fields c ->
    (b <> [] -> z || has_body c = true \/ (0 < o)%nat) ->
    fails E (unpack_message_fields (unpack0 m) (size0 m) c a b o) /\
    forall at1, unpack_message_fields (unpack0 m) (size0 m) c a b o = Ok at1 ->
      forall name cv, In (name, cv) (message_fields c) -> exists iv, get_attr name at1 = Some iv /\ filled m E b cv iv.
  Proof.
    intros OO T FO Z0. assert (I : In c (targets c)) by (rewrite T; left; reflexivity).
    pose proof (target_covers c OO I) as C. rewrite FO in C.
    destruct (fields_sound n m REC E b (message_fields c) _ a o C) as [F R].
    - apply nodup_filter, (sok_target c I).
    - exact Z0.
    - unfold unpack_message_fields. split; [apply fails_bind; [exact F|intros; apply fails_ok]|].
      intros at1. destruct (unpack_fields _ _ _ _ _ _) as [r|]; cbn [bind]; [|discriminate]. intros [= <-].
      apply (R r eq_refl).
  Qed.
  Lemma attr_enum_fails name at1 v : get_attr name at1 = Some v -> fails (only ValueError) (attr_enum name at1).
  Proof.
    intros G. unfold attr_enum, attr_or_error. rewrite G. cbn [bind]. destruct (num_of v); [apply fails_ok|apply fails_err; reflexivity].
  Qed.
  Lemma none_num w er : exists e, num_of (VUInt w er VNone) = Err e.
  Proof. unfold num_of, generic_value. destruct er as [e|]; [destruct (enum_def e)|]; eexists; reflexivity. Qed.
  Lemma enum_nonempty name at1 w er t b : (exists iv, get_attr name at1 = Some iv /\ filled m E b (VUInt w er VNone) iv) ->
    attr_enum name at1 = Ok t -> b <> [].
  Proof.
    intros (iv & G & [[_ ->]|(NE & _)]) H; [|exact NE]. unfold attr_enum, attr_or_error in H. rewrite G in H. cbn [bind deepcopy] in H.
    destruct (none_num w er) as [e N]. rewrite N in H. discriminate.
  Qed.
  Lemma bytes_attr name at1 d b : (exists iv, get_attr name at1 = Some iv /\ filled m E b (VBin d) iv) -> b <> [] ->
    exists bs, attr_bytes name at1 = Ok bs.
  Proof.
    intros (iv & G & [[-> _]|(_ & (bs & ->) & _)]) NE; [contradiction NE; reflexivity|]. exists bs.
    unfold attr_bytes, attr_or_error. rewrite G. reflexivity.
  Qed.
  Lemma body_fails inst b : has_body c = true -> In inst (bodies_of c) -> fails E (unpack0 m inst b 0%nat).
  Proof.
    intros H I. destruct (sok_body inst H I) as [Sk N].
    eapply fails_imp; [|exact (proj1 (REC true inst b 0%nat Sk (or_intror N) (or_introl eq_refl)))].
    intros e. apply (E_body e inst H I).
  Qed.

  Lemma error_fails v4 b o : (z = true \/ (0 < o)%nat) -> targets c = [c] -> fields_of c = message_fields c ->
    out_of_order c = false -> E ValueError = true ->
    (exists w er d, In ("error_type", VUInt w er d) (message_fields c)) ->
    (exists w er d, In ("code", VUInt w er d) (message_fields c)) ->
    fails E (error_unpack (unpack0 m) (size0 m) v4 c a b o).
  Proof.
    intros Z0 T FO OO EV (w1 & er1 & d1 & I1) (w2 & er2 & d2 & I2).
    destruct (message_sound b o OO T FO) as [F R].
    { intros _. destruct Z0 as [->|L]; [left; reflexivity|right; exact L]. }
    unfold error_unpack. apply fails_bind; [exact F|]. intros at1 H1.
    destruct (R at1 H1 _ _ I1) as (v1 & G1 & _). destruct (R at1 H1 _ _ I2) as (v2 & G2 & _).
    apply fails_bind; [apply fails_value_E; [exact EV|eapply attr_enum_fails, G1]|]. intros t _.
    apply fails_bind; [apply fails_value_E; [exact EV|apply fails_enum_call]|]. intros _ _.
    apply fails_bind; [apply fails_value_E; [exact EV|eapply attr_enum_fails, G2]|]. intros cd _.
    apply fails_bind; [apply fails_value_E; [exact EV|apply fails_enum_call]|]. intros. apply fails_ok.
  Qed.

  Lemma body_part tname w er b o d : has_body c = true -> targets c = [c] -> fields_of c = message_fields c ->
    out_of_order c = false -> E ValueError = true ->
    In (tname, VUInt w er VNone) (message_fields c) -> In ("body", VBin d) (message_fields c) ->
    fails E (unpack_message_fields (unpack0 m) (size0 m) c a b o) /\
    forall at1, unpack_message_fields (unpack0 m) (size0 m) c a b o = Ok at1 ->
      fails E (attr_enum tname at1) /\
      forall t, attr_enum tname at1 = Ok t -> fails E (attr_bytes "body" at1).
  Proof.
    intros HB T FO OO EV I1 I2. destruct (message_sound b o OO T FO) as [F R].
    { intros _. left. rewrite HB. apply orb_true_r. }
    split; [exact F|]. intros at1 H1. pose proof (R at1 H1 _ _ I1) as G1. pose proof (R at1 H1 _ _ I2) as G2.
    split; [destruct G1 as (v & G & _); apply fails_value_E; [exact EV|eapply attr_enum_fails, G]|].
    intros t Ht. destruct (bytes_attr "body" at1 d b G2 (enum_nonempty tname at1 w er t b G1 Ht)) as [bs ->]. apply fails_ok.
  Qed.
End Objects.

Lemma firstn_nonempty {A} k (l : list A) : (0 < k)%nat -> (0 < List.length l)%nat -> firstn k l <> [].
Proof. destruct k, l; cbn; intros; try lia; discriminate. Qed.
Lemma unpack0_obj m c a b o : unpack0 (S m) (VObj c a) b o = unpack_obj (unpack0 m) (size0 m) c a b o.
Proof. reflexivity. Qed.
Lemma body_instance_in (reply : bool) t inst c : kind c = (if reply then KMultipartReply else KMultipartRequest) ->
  body_instance reply (VEnum E_MultipartType04 t) = Ok inst -> In inst (bodies_of c).
Proof.
  intros K H. unfold bodies_of. rewrite K. unfold body_instance in H. cbv zeta in *. cbn [as_int] in H.
  destruct (is_int_enum E_MultipartType04); [|injection H as <-; destruct reply; left; reflexivity].
  unfold multipart_body in H. destruct reply; cbv iota in *;
  repeat match type of H with context [match ?x with _ => _ end] => is_var x; destruct x end;
    injection H as <-; vm_compute; tauto.
Qed.
Lemma body_instance_fails reply t E : fails E (body_instance reply (VEnum E_MultipartType04 t)).
Proof.
  unfold body_instance. cbv zeta. cbn [as_int]. destruct (is_int_enum E_MultipartType04); [|apply fails_ok].
  unfold multipart_body. destruct reply;
  repeat match goal with |- context [match ?x with _ => _ end] => is_var x; destruct x end; apply fails_ok.
Qed.

(** actions_len is an integer field before actions. *)
Fixpoint len_first (l : bool) (fs : list (string * pyval)) : bool :=
  match fs with
  | [] => true
  | (name, cv) :: tl =>
      (l || negb (String.eqb name "actions")) &&
      match cv with
      | VUInt _ _ _ => len_first (l || String.eqb name "actions_len") tl
      | _ => negb (String.eqb name "actions_len") && len_first l tl
      end
  end.
Lemma packet_out_sound n m (E : exn -> bool) fields : reader n m -> forall at1 b o,
  forallb (fun p => direct (snd p) && sok n (deepcopy (snd p))) fields = true ->
  (forall p e, In p fields -> may n e true (deepcopy (snd p)) = true -> E e = true) ->
  forallb (fun p => negb (needs (deepcopy (snd p)))) fields = true ->
  forall lenset : bool,
  (lenset = true -> exists l zz, get_attr "actions_len" at1 = Some l /\ num_of l = Ok zz) ->
  len_first lenset fields = true ->
  fails E (packet_out_fields (unpack0 m) (size0 m) fields at1 b o).
Proof.
  intros REC. induction fields as [|[name cv] tl IH]; intros at1 b o DS M ND ls LS G; [apply fails_ok|].
  cbn [forallb snd] in DS, ND. apply andb_true_iff in DS as [DS DT]. apply andb_true_iff in DS as [D Sk].
  apply andb_true_iff in ND as [N1 NT]. apply negb_true_iff in N1.
  cbn [len_first] in G. apply andb_true_iff in G as [GA G].
  assert (ME : forall e, may n e true (deepcopy cv) = true -> E e = true) by (intros e; apply (M (name, cv)); left; reflexivity).
  cbn [packet_out_fields].
  assert (RD : forall b o, fails E (unpack0 m (deepcopy cv) b o) /\ forall x, unpack0 m (deepcopy cv) b o = Ok x -> decoded E (deepcopy cv) x).
  { intros b' o'. destruct (REC true (deepcopy cv) b' o' Sk (or_intror N1) (or_introl eq_refl)) as [F R].
    split; [eapply fails_imp; [exact ME|exact F]|]. intros x Hx. eapply decoded_imp; [exact ME|apply R, Hx]. }
  assert (REST : forall x b' o' o2, unpack0 m (deepcopy cv) b' o' = Ok x ->
    fails E (packet_out_fields (unpack0 m) (size0 m) tl (set_attr name x at1) b o2)).
  { intros x b' o' o2 Hx. 
    assert (KEEP : String.eqb name "actions_len" = false ->
      ls = true -> exists l zz, get_attr "actions_len" (set_attr name x at1) = Some l /\ num_of l = Ok zz).
    { intros NQ Q. rewrite get_set_other; [apply LS, Q|]. intros Q2. rewrite <- Q2 in NQ. discriminate. }
    destruct (match cv with VUInt _ _ _ => true | _ => false end) eqn:CV.
    - destruct cv; try discriminate CV. apply (IH _ _ _ DT) with (lenset := ls || String.eqb name "actions_len"); auto.
      + intros p e I. apply M. right. exact I.
      + destruct (String.eqb_spec name "actions_len") as [->|NQ].
        * intros _. destruct m as [|m']; [discriminate|]. change (uint_unpack w er b' o' = Ok x) in Hx.
          destruct (uint_num _ _ _ _ _ Hx) as (y & zz & -> & NN). exists (VUInt w er y), zz. split; [apply get_set_same|exact NN].
        * rewrite orb_false_r. apply KEEP. reflexivity.
    - assert (G2 : negb (String.eqb name "actions_len") = true) by (destruct cv; try discriminate CV; apply andb_true_iff in G as [G _]; exact G).
      apply (IH _ _ _ DT) with (lenset := ls); auto.
      + intros p e I. apply M. right. exact I.
      + apply KEEP. apply negb_true_iff, G2.
      + destruct cv; try discriminate CV; apply andb_true_iff in G as [_ G]; exact G. }
  destruct (String.eqb_spec name "actions") as [Q|Q].
  - destruct ls; [|discriminate GA]. destruct (LS eq_refl) as (l & zz & GL & NL).
    unfold attr_num, attr_or_error. rewrite GL. cbn [bind]. rewrite NL. cbn [bind].
    destruct (RD (slice o (o + Z.to_nat zz) b) O) as [F R].
    apply fails_bind; [exact F|]. intros x Hx. apply fails_bind; [apply (size_decoded E cv x D), R, Hx|]. intros s _.
    eapply REST, Hx.
  - destruct (RD b o) as [F R].
    apply fails_bind; [exact F|]. intros x Hx. apply fails_bind; [apply (size_decoded E cv x D), R, Hx|]. intros s _.
    eapply REST, Hx.
Qed.

Section Main.
  Context (n m : nat) (c : cid) (a : list (string * pyval)) (z : bool) (b : bytes) (o : nat).
  Hypothesis REC : reader n m.
  Hypothesis SK : sok (S n) (VObj c a) = true.
  Hypothesis NB : b <> [] \/ needs (VObj c a) = false.
  Hypothesis Z0 : z = true \/ (0 < o)%nat.
  Let E : exn -> bool := fun x => may (S n) x z (VObj c a).
  Let EX := E_extra n c a z.

  Definition goal (r : res pyval) : Prop := fails E r /\ forall x, r = Ok x -> decoded E (VObj c a) x.

  Lemma goal_bind {A} (r : res A) f : fails E r -> (forall x, r = Ok x -> goal (f x)) -> goal (bind r f).
  Proof.
    intros F H. split; [apply fails_bind; [exact F|intros x Hx; apply (H x Hx)]|].
    intros x. destruct r as [y|]; cbn [bind]; [|discriminate]. apply (H y eq_refl).
  Qed.
  Lemma goal_message (r : res pyval) : nestable c = false -> fails E r -> goal r.
  Proof. intros N F. split; [exact F|]. intros x _ N'. congruence. Qed.
  Lemma goal_structure c' attrs b' : nestable c = true -> In c' (targets c) -> has_body c = false -> out_of_order c = false ->
    postsets c = [] -> map fst attrs = addkeys (map fst a) (presets c) ->
    (kind c' = KBucket -> b' <> [] \/ z = true) ->
    goal (unpack_structure (unpack0 m) (size0 m) c' attrs b' o).
  Proof. intros. apply (target_structure n m c a z REC SK c' attrs b' o); auto. Qed.

  Lemma not_bucket c' : In c' (targets c) -> kind c <> KBucket -> kind c' = KBucket -> forall P : Prop, P.
  Proof. intros I N K. pose proof (bucket_target c c' I K). subst c'. contradiction. Qed.

  Lemma oxm_sound : kind c = KOxmTLV -> goal (oxm_unpack (unpack0 m) (size0 m) c a b o).
  Proof.
    intros K. assert (EU : E UnpackException = true) by (apply EX; unfold extra; rewrite K; reflexivity).
    assert (NE : b <> []) by (destruct NB as [H|H]; [exact H|cbn [needs] in H; rewrite K in H; discriminate]).
    assert (Ec : c = OxmTLV04) by apply kind_oxm, K.
    assert (IT : In c (targets c)) by (rewrite Ec; left; reflexivity).
    destruct (sok_target n c a SK c IT) as (ND & Q & _).
    destruct Q as (Sb & O & DO); [rewrite Ec; reflexivity|].
    assert (OO : out_of_order c = false) by (unfold out_of_order; rewrite K; reflexivity).
    pose proof (target_covers n c a z SK c OO IT) as C.
    assert (HB : has_body c = false) by (unfold has_body; rewrite K; reflexivity). rewrite HB, orb_false_r in C.
    replace (fields_of c) with (class_attrs c) in C by (unfold fields_of; rewrite K; reflexivity).
    destruct (fields_sound n m REC E b (class_attrs c) z a o C ND (fun _ => Z0)) as [F R].
    unfold oxm_unpack. apply goal_bind; [exact F|]. intros r Hr. destruct (R r Hr) as (_ & A2 & _).
    assert (num : forall name w er d, In (name, VUInt w er d) (class_attrs c) -> exists zz, attr_num name (fst r) = Ok zz).
    { intros name w er d I. destruct (A2 _ _ I) as (iv & G & Fi). destruct (filled_uint n m REC E w er d iv b Fi NE) as [zz N].
      exists zz. unfold attr_num, attr_or_error. rewrite G. exact N. }
    destruct (num "oxm_field_and_mask" 1%nat None VNone) as [fm ->]; [rewrite Ec; right; left; reflexivity|].
    destruct (num "oxm_class" 2%nat (Some E_OxmClass04) VNone) as [cl ->]; [rewrite Ec; left; reflexivity|].
    destruct (num "oxm_length" 1%nat None VNone) as [ln Hln]; [rewrite Ec; right; right; left; reflexivity|].
    cbv zeta. cbn [bind]. apply goal_bind.
    { destruct (cl =? 32768); [|apply fails_ok]. apply fails_recast; [|exact EU].
      eapply fails_imp; [|apply fails_enum_call]. intros e He. unfold only in He. rewrite He. reflexivity. }
    intros fld _. rewrite Hln. cbn [bind]. split; [apply fails_ok|]. intros x [= <-] _.
    eexists c, _. split; [reflexivity|]. split; [exact Sb|]. apply safe_obj.
    - rewrite !set_keys_add. pose proof (fields_keys_add _ _ _ _ _ _ _ Hr) as KA.
      unfold presets, postsets in O. rewrite K in O. cbn [addkeys] in O.
      rewrite <- KA in O. exact O.
    - intros k name cv iv I G. 
      destruct (String.eqb_spec name "oxm_value") as [->|N1].
      + rewrite get_set_same in G. injection G as <-.
        assert (Ecv : cv = VBin VNone).
        { rewrite Ec in I. destruct I as [[=]|[[=]|[[=]|[[=]|[]]]]]. congruence. }
        subst cv. apply size1_bytes.
      + assert (N2 : name <> "oxm_hasmask" /\ name <> "oxm_field").
        { rewrite Ec in I. destruct I as [[= <- _]|[[= <- _]|[[= <- _]|[[= <- _]|[]]]]]; split; discriminate. }
        rewrite get_set_other in G by exact N1. rewrite get_set_other in G by apply N2. rewrite get_set_other in G by apply N2.
        destruct (A2 name cv I) as (iv' & G' & Fi). assert (iv' = iv) by congruence. subst iv'.
        rewrite forallb_forall in DO. specialize (DO _ I). eapply filled_size; [eapply covers_in; eauto|exact DO|exact Fi].
    - rewrite K. discriminate.
  Qed.

  Lemma match01_sound : kind c = KMatch01 -> goal (match01_unpack (unpack0 m) (size0 m) c a b o).
  Proof.
    intros K. assert (EU : E UnpackException = true) by (apply EX; unfold extra; rewrite K; reflexivity).
    assert (Ec : c = Match01) by apply kind_match01, K.
    assert (IT : In c (targets c)) by (rewrite Ec; left; reflexivity).
    destruct (sok_target n c a SK c IT) as (ND & Q & _).
    destruct Q as (Sb & O & DO); [rewrite Ec; reflexivity|].
    assert (OO : out_of_order c = false) by (unfold out_of_order; rewrite K; reflexivity).
    pose proof (target_covers n c a z SK c OO IT) as C.
    assert (HB : has_body c = false) by (unfold has_body; rewrite K; reflexivity). rewrite HB, orb_false_r in C.
    replace (fields_of c) with (class_attrs c) in C by (unfold fields_of; rewrite K; reflexivity).
    destruct (fields_sound n m REC E b (class_attrs c) z a o C ND (fun _ => Z0)) as [F R].
    unfold match01_unpack. apply goal_bind; [exact F|]. intros r Hr. destruct (R r Hr) as (_ & A2 & _).
    apply goal_bind; [apply fails_uint_E, EU|]. intros w Hw. split; [apply fails_ok|]. intros x [= <-] _.
    eexists c, _. split; [reflexivity|]. split; [exact Sb|]. apply safe_obj.
    - rewrite set_keys_add. pose proof (fields_keys_add _ _ _ _ _ _ _ Hr) as KA.
      unfold presets, postsets in O. rewrite K in O. cbn [addkeys] in O. rewrite <- KA in O. exact O.
    - intros k name cv iv I G. destruct (String.eqb_spec name "wildcards") as [->|N1].
      + assert (L : leaf cv = true).
        { assert (T : forallb (fun p => negb (String.eqb (fst p) "wildcards") || leaf (snd p)) (class_attrs c) = true)
            by (rewrite Ec; vm_compute; reflexivity).
          rewrite forallb_forall in T. exact (T _ I). }
        assert (X : size1 (size0 k) cv iv = size0 k cv) by (destruct cv; try discriminate L; reflexivity).
        rewrite X. apply safe_leaf, L.
      + rewrite get_set_other in G by exact N1.
        destruct (A2 name cv I) as (iv' & G' & Fi). assert (iv' = iv) by congruence. subst iv'.
        rewrite forallb_forall in DO. specialize (DO _ I). eapply filled_size; [eapply covers_in; eauto|exact DO|exact Fi].
    - rewrite K. discriminate.
  Qed.

  Lemma match04_sound : kind c = KMatch04 -> goal (match04_unpack (unpack0 m) (size0 m) c a b o).
  Proof.
    intros K.
    assert (NE : b <> []) by (destruct NB as [H|H]; [exact H|cbn [needs] in H; rewrite K in H; discriminate]).
    assert (Ec : c = Match04) by apply kind_match04, K.
    assert (IT : In c (targets c)) by (rewrite Ec; left; reflexivity).
    destruct (sok_target n c a SK c IT) as (ND & Q & _).
    destruct Q as (Sb & O & DO); [rewrite Ec; reflexivity|].
    assert (OO : out_of_order c = false) by (unfold out_of_order; rewrite K; reflexivity).
    pose proof (target_covers n c a z SK c OO IT) as C.
    assert (HB : has_body c = false) by (unfold has_body; rewrite K; reflexivity). rewrite HB, orb_false_r in C.
    replace (fields_of c) with (class_attrs c) in C by (unfold fields_of; rewrite K; reflexivity).
    set (f1 := removelast (class_attrs c)). set (cvl := VList OxmMatchFields04 OxmTLV04 []).
    assert (Ef : class_attrs c = f1 ++ [("oxm_match_fields", cvl)]) by (unfold f1; rewrite Ec; reflexivity).
    assert (Eg : match get_attr "oxm_match_fields" (class_attrs c) with
                 | Some cv => [("oxm_match_fields", cv)] | None => [] end = [("oxm_match_fields", cvl)]) by (rewrite Ec; reflexivity).
    assert (IL : In ("length", VUInt 2 None VNone) f1) by (unfold f1; rewrite Ec; right; left; reflexivity).
    rewrite Ef in C. destruct (covers_app _ _ _ _ _ C) as [C1 C2].
    rewrite Ef, map_app in ND. assert (ND1 : NoDup (map fst f1)).
    { apply NoDup_remove_1 with (l' := []) in ND. rewrite app_nil_r in ND. exact ND. }
    assert (NL : ~ In "oxm_match_fields" (map fst f1)).
    { apply NoDup_remove_2 with (l' := []) in ND. rewrite app_nil_r in ND. exact ND. }
    assert (FA : flag_after z f1 = false) by (unfold f1; rewrite Ec; destruct z; reflexivity).
    unfold match04_unpack. fold f1. rewrite Eg.
    destruct (fields_sound n m REC E b f1 z a o C1 ND1 (fun _ => Z0)) as [F R].
    apply goal_bind; [exact F|]. intros r Hr. destruct (R r Hr) as (_ & A2 & A3).
    destruct (A2 _ _ IL) as (l & Gl & Fl). destruct (filled_uint n m REC E 2 None VNone l b Fl NE) as [len Nl].
    unfold attr_num, attr_or_error at 1. rewrite Gl. cbn [bind]. rewrite Nl. cbn [bind].
    set (b2 := firstn (o + Z.to_nat len) b).
    destruct (fields_sound n m REC E b2 [("oxm_match_fields", cvl)] (flag_after z f1) (fst r) (snd r) C2) as [F2 R2].
    { repeat constructor. intros []. }
    { intros _. apply A3, NE. }
    apply goal_bind; [exact F2|]. intros r2 Hr2. destruct (R2 r2 Hr2) as (B1 & B2 & _).
    split; [apply fails_ok|]. intros x [= <-] _. eexists c, _. split; [reflexivity|]. split; [exact Sb|]. apply safe_obj.
    - rewrite (fields_keys_add _ _ _ _ _ _ _ Hr2), (fields_keys_add _ _ _ _ _ _ _ Hr), <- addkeys_app.
      unfold presets, postsets in O. rewrite K in O. cbn [addkeys] in O. rewrite Ef, map_app in O. exact O.
    - intros k name cv iv I G. assert (DD : default_ok cv = true) by (rewrite forallb_forall in DO; exact (DO _ I)).
      assert (DR : direct cv = true).
      { rewrite Ef in I. eapply covers_in; [exact C|exact I]. }
      rewrite Ef in I. apply in_app_or in I as [I|[[= <- <-]|[]]].
      + rewrite B1 in G.
        2: { intros [Q|[]]. cbn [fst] in Q. apply NL. rewrite Q. apply in_map_iff. exists (name, cv). auto. }
        destruct (A2 name cv I) as (iv' & G' & Fi). assert (iv' = iv) by congruence. subst iv'.
        eapply filled_size; eauto.
      + destruct (B2 _ _ (or_introl eq_refl)) as (iv' & G' & Fi). assert (iv' = iv) by congruence. subst iv'.
        eapply filled_size; eauto.
    - rewrite K. discriminate.
  Qed.

  Lemma uint_trunc w er off t k : uint_unpack w er b off = Ok t -> (0 < w)%nat -> firstn (o + k) b <> [] \/ z = true.
  Proof.
    intros H W. destruct Z0 as [Zt|L]; [right; exact Zt|left]. pose proof (uint_bound _ _ _ _ _ H W).
    apply firstn_nonempty; lia.
  Qed.

  Lemma obj_sound : goal (unpack_obj (unpack0 m) (size0 m) c a b o).
  Proof.
    assert (UE : forall w er b o, E UnpackException = true -> fails E (uint_unpack w er b o)).
    { intros. apply fails_uint_E. assumption. }
    assert (NM : forall w er b o t, uint_unpack w er b o = Ok t -> fails E (num_of t)).
    { intros w er b0 o0 t H. exact (uint_fails E w er b0 o0 t H). }
    unfold unpack_obj. destruct (kind c) eqn:K.
    - apply goal_structure; try (unfold nestable, listable, targets, has_body, out_of_order, postsets, presets; rewrite K; try reflexivity).
      + left. reflexivity.
      + discriminate.
    - apply goal_message; [unfold nestable, listable; rewrite K; reflexivity|].
      apply fails_bind; [|intros; apply fails_ok]. apply (message_sound n m c a z REC SK);
        try (unfold targets, fields_of, out_of_order; rewrite K; reflexivity).
      intros _. destruct Z0 as [->|L]; [left; reflexivity|right; exact L].
    - assert (EU : E UnpackException = true) by (apply EX; unfold extra; rewrite K; reflexivity).
      unfold len_unpack. apply goal_bind; [apply UE, EU|]. intros _ _.
      apply goal_bind; [apply UE, EU|]. intros l Hl. apply goal_bind; [eapply NM, Hl|]. intros len _.
      apply goal_structure; try (unfold nestable, listable, targets, has_body, out_of_order, postsets, presets; rewrite K; try reflexivity).
      + left. reflexivity.
      + discriminate.
    - assert (EU : E UnpackException = true) by (apply EX; unfold extra; rewrite K; destruct f; reflexivity).
      unfold typed_unpack. apply goal_bind; [apply UE, EU|]. intros t Ht. apply goal_bind; [eapply NM, Ht|]. intros tz _.
      apply goal_bind.
      { destruct f; cbn [find_class];
          repeat match goal with |- context [match ?x with _ => _ end] => is_var x; destruct x | |- context [if ?x then _ else _] => destruct x end;
          try apply fails_ok; apply fails_err, EX; unfold extra; rewrite K; reflexivity. }
      intros c' Hc. apply goal_bind; [apply UE, EU|]. intros l Hl. apply goal_bind; [eapply NM, Hl|]. intros len _.
      assert (I : In c' (targets c)) by (eapply find_class_in; [exact K|exact Hc]).
      apply goal_structure; try (unfold nestable, listable, has_body, out_of_order, postsets, presets; rewrite K; reflexivity); [exact I|].
      intros KB. apply (not_bucket c' I); [congruence|exact KB].
    - assert (EU : E UnpackException = true) by (apply EX; unfold extra; rewrite K; reflexivity).
      unfold action01_unpack. apply goal_bind; [apply UE, EU|]. intros t Ht. apply goal_bind; [eapply NM, Ht|]. intros tz _.
      assert (I : In (action_class c action_classes_01 tz) (targets c)) by (unfold targets; rewrite K; apply action_class_in).
      apply goal_structure; try (unfold nestable, listable, has_body, out_of_order, postsets; rewrite K; reflexivity); [exact I| |].
      + unfold presets. rewrite K. rewrite set_keys_add. reflexivity.
      + intros KB. apply (not_bucket _ I); [congruence|exact KB].
    - assert (EU : E UnpackException = true) by (apply EX; unfold extra; rewrite K; reflexivity).
      unfold action04_unpack. apply goal_bind; [apply UE, EU|]. intros t Ht. apply goal_bind; [apply UE, EU|]. intros l Hl.
      apply goal_bind; [eapply NM, Ht|]. intros tz _. apply goal_bind; [eapply NM, Hl|]. intros len _.
      assert (I : In (action_class c action_classes_04 tz) (targets c)) by (unfold targets; rewrite K; apply action_class_in).
      apply goal_structure; try (unfold nestable, listable, has_body, out_of_order, postsets; rewrite K; reflexivity); [exact I| |].
      + unfold presets. rewrite K. rewrite !set_keys_add. reflexivity.
      + intros KB. apply (not_bucket _ I); [congruence|exact KB].
    - assert (EU : E UnpackException = true) by (apply EX; unfold extra; rewrite K; reflexivity).
      unfold action04_unpack. apply goal_bind; [apply UE, EU|]. intros t Ht. apply goal_bind; [apply UE, EU|]. intros l Hl.
      apply goal_bind; [eapply NM, Ht|]. intros tz _. apply goal_bind; [eapply NM, Hl|]. intros len _.
      assert (I : In (action_class c action_classes_04 tz) (targets c)) by (unfold targets; rewrite K; apply action_class_in).
      apply goal_structure; try (unfold nestable, listable, has_body, out_of_order, postsets; rewrite K; reflexivity); [exact I| |].
      + unfold presets. rewrite K. rewrite !set_keys_add. reflexivity.
      + intros KB. apply (not_bucket _ I); [congruence|exact KB].
    - apply oxm_sound, K.
    - apply match04_sound, K.
    - apply match01_sound, K.
    - assert (EU : E UnpackException = true) by (apply EX; unfold extra; rewrite K; reflexivity).
      unfold bucket_unpack. apply goal_bind; [apply UE, EU|]. intros l Hl. apply goal_bind; [eapply NM, Hl|]. intros len _.
      apply goal_structure; try (unfold nestable, listable, targets, has_body, out_of_order, postsets, presets; rewrite K; try reflexivity).
      + left. reflexivity.
      + intros _. eapply uint_trunc; [exact Hl|lia].
    - apply goal_message; [unfold nestable, listable; rewrite K; reflexivity|].
      apply fails_bind; [|intros; apply fails_ok].
      assert (IT : In c (targets c)) by (unfold targets; rewrite K; left; reflexivity).
      assert (FO : fields_of c = message_fields c) by (unfold fields_of; rewrite K; reflexivity).
      assert (Ec : c = PacketOut01) by (one K (fun k => match k with KPacketOut01 => true | _ => false end)).
      eapply (packet_out_sound n m E (message_fields c) REC) with (lenset := false).
      + rewrite <- FO. apply (sok_target n c a SK c IT).
      + intros p e I M. apply (E_out n c a z c p e); [unfold out_of_order; rewrite K; reflexivity|exact IT|rewrite FO; exact I|exact M].
      + cbn [sok] in SK. apply andb_true_iff in SK as [_ Q]. rewrite K in Q. exact Q.
      + discriminate.
      + rewrite Ec. vm_compute. reflexivity.
    - apply goal_message; [unfold nestable, listable; rewrite K; reflexivity|].
      apply fails_bind; [|intros; apply fails_ok].
      assert (IT : In c (targets c)) by (unfold targets; rewrite K; left; reflexivity).
      assert (FO : fields_of c = message_fields c) by (unfold fields_of; rewrite K; reflexivity).
      assert (Ec : c = PacketOut04) by (one K (fun k => match k with KPacketOut04 => true | _ => false end)).
      eapply (packet_out_sound n m E (message_fields c) REC) with (lenset := false).
      + rewrite <- FO. apply (sok_target n c a SK c IT).
      + intros p e I M. apply (E_out n c a z c p e); [unfold out_of_order; rewrite K; reflexivity|exact IT|rewrite FO; exact I|exact M].
      + cbn [sok] in SK. apply andb_true_iff in SK as [_ Q]. rewrite K in Q. exact Q.
      + discriminate.
      + rewrite Ec. vm_compute. reflexivity.
    - apply goal_message; [unfold nestable, listable; rewrite K; reflexivity|].
      assert (Ec : c = ErrorMsg01) by apply kind_error01, K.
      apply (error_fails n m c a z REC SK); try exact Z0; try (unfold targets, fields_of, out_of_order; rewrite K; reflexivity).
      + apply EX. unfold extra. rewrite K. reflexivity.
      + rewrite Ec. do 3 eexists. left. reflexivity.
      + rewrite Ec. do 3 eexists. right. left. reflexivity.
    - apply goal_message; [unfold nestable, listable; rewrite K; reflexivity|].
      assert (Ec : c = ErrorMsg04) by apply kind_error04, K.
      apply (error_fails n m c a z REC SK); try exact Z0; try (unfold targets, fields_of, out_of_order; rewrite K; reflexivity).
      + apply EX. unfold extra. rewrite K. reflexivity.
      + rewrite Ec. do 3 eexists. left. reflexivity.
      + rewrite Ec. do 3 eexists. right. left. reflexivity.
    - apply goal_message; [unfold nestable, listable; rewrite K; reflexivity|].
      apply fails_err, EX. unfold extra. rewrite K. reflexivity.
    - apply goal_message; [unfold nestable, listable; rewrite K; reflexivity|].
      assert (Ec : c = StatsRequest01) by apply kind_request01, K.
      assert (EV : E ValueError = true) by (apply EX; unfold extra; rewrite K; reflexivity).
      assert (HB : has_body c = true) by (unfold has_body; rewrite K; reflexivity).
      destruct (body_part n m c a z REC SK "body_type" 2 (Some E_StatsType01) b 0 VNone HB) as [F R];
        try (unfold targets, fields_of, out_of_order; rewrite K; reflexivity); try exact EV;
        try (rewrite Ec; cbn; tauto).
      unfold stats_request_unpack. apply fails_bind; [exact F|]. intros at1 H1. destruct (R at1 H1) as [F1 F2].
      apply fails_bind; [exact F1|]. intros t Ht. apply fails_bind; [apply fails_value_E; [exact EV|apply fails_enum_call]|]. intros me _.
      apply fails_bind; [exact (F2 t Ht)|]. intros bb _.
      apply fails_bind; [|intros; apply fails_ok]. apply (body_fails n m c a z REC SK); [exact HB|].
      unfold bodies_of. rewrite K. unfold stats_body.
      repeat match goal with |- context [match ?x with _ => _ end] => is_var x; destruct x end; cbn; tauto.
    - apply goal_message; [unfold nestable, listable; rewrite K; reflexivity|].
      assert (Ec : c = StatsReply01) by apply kind_reply01, K.
      assert (EV : E ValueError = true) by (apply EX; unfold extra; rewrite K; reflexivity).
      assert (HB : has_body c = true) by (unfold has_body; rewrite K; reflexivity).
      destruct (body_part n m c a z REC SK "body_type" 2 (Some E_StatsType01) (skipn o b) 0 VNone HB) as [F R];
        try (unfold targets, fields_of, out_of_order; rewrite K; reflexivity); try exact EV;
        try (rewrite Ec; cbn; tauto).
      unfold stats_reply_unpack. apply fails_bind; [exact F|]. intros at1 H1. destruct (R at1 H1) as [F1 F2].
      apply fails_bind; [exact F1|]. intros t Ht. apply fails_bind; [apply fails_value_E; [exact EV|apply fails_enum_call]|]. intros me _.
      apply fails_bind; [exact (F2 t Ht)|]. intros bb _.
      apply fails_bind.
      { unfold stats_body. repeat match goal with |- context [match ?x with _ => _ end] => is_var x; destruct x end; apply fails_ok. }
      intros inst Hi. apply fails_bind; [|intros; apply fails_ok]. apply (body_fails n m c a z REC SK); [exact HB|].
      unfold bodies_of. rewrite K. unfold stats_body in Hi.
      repeat match type of Hi with context [match ?x with _ => _ end] => is_var x; destruct x end; injection Hi as <-; cbn; tauto.
    - apply goal_message; [unfold nestable, listable; rewrite K; reflexivity|].
      assert (Ec : c = MultipartRequest04) by apply kind_request04, K.
      assert (EV : E ValueError = true) by (apply EX; unfold extra; rewrite K; reflexivity).
      assert (HB : has_body c = true) by (unfold has_body; rewrite K; reflexivity).
      destruct (body_part n m c a z REC SK "multipart_type" 2 (Some E_MultipartType04) (skipn o b) 0 VNone HB) as [F R];
        try (unfold targets, fields_of, out_of_order; rewrite K; reflexivity); try exact EV;
        try (rewrite Ec; cbn; tauto).
      unfold multipart_unpack. apply fails_bind; [exact F|]. intros at1 H1. destruct (R at1 H1) as [F1 F2].
      apply fails_bind; [exact F1|]. intros t Ht. apply fails_bind; [apply fails_value_E; [exact EV|apply fails_enum_call]|]. intros me Hme.
      assert (Em : me = VEnum E_MultipartType04 t).
      { unfold enum_call in Hme. destruct (enum_def E_MultipartType04) eqn:ED; try discriminate.
        destruct (is_member _ t); [|discriminate]. congruence. }
      subst me. apply fails_bind; [apply body_instance_fails|]. intros inst Hi.
      apply fails_bind; [exact (F2 t Ht)|]. intros bb _.
      apply fails_bind; [|intros; apply fails_ok]. apply (body_fails n m c a z REC SK); [exact HB|].
      apply (body_instance_in false t); [exact K|exact Hi].
    - apply goal_message; [unfold nestable, listable; rewrite K; reflexivity|].
      assert (Ec : c = MultipartReply04) by apply kind_reply04, K.
      assert (EV : E ValueError = true) by (apply EX; unfold extra; rewrite K; reflexivity).
      assert (HB : has_body c = true) by (unfold has_body; rewrite K; reflexivity).
      destruct (body_part n m c a z REC SK "multipart_type" 2 (Some E_MultipartType04) (skipn o b) 0 VNone HB) as [F R];
        try (unfold targets, fields_of, out_of_order; rewrite K; reflexivity); try exact EV;
        try (rewrite Ec; cbn; tauto).
      unfold multipart_unpack. apply fails_bind; [exact F|]. intros at1 H1. destruct (R at1 H1) as [F1 F2].
      apply fails_bind; [exact F1|]. intros t Ht. apply fails_bind; [apply fails_value_E; [exact EV|apply fails_enum_call]|]. intros me Hme.
      assert (Em : me = VEnum E_MultipartType04 t).
      { unfold enum_call in Hme. destruct (enum_def E_MultipartType04) eqn:ED; try discriminate.
        destruct (is_member _ t); [|discriminate]. congruence. }
      subst me. apply fails_bind; [apply body_instance_fails|]. intros inst Hi.
      apply fails_bind; [exact (F2 t Ht)|]. intros bb _.
      apply fails_bind; [|intros; apply fails_ok]. apply (body_fails n m c a z REC SK); [exact HB|].
      apply (body_instance_in true t); [exact K|exact Hi].
  Qed.
End Main.

(** ** Everything *)
Lemma all_read n : forall m, reader n m.
Proof.
  induction n as [|n IH]; intros m z v b o Sk NB Z0; [discriminate|].
  destruct m as [|m]; [split; [apply fails_oof|discriminate]|].
  destruct v as [| | | | | |w er x|k|len x|x msk|x|x|x|c attrs|lc pc items]; try discriminate Sk.
  - change (unpack0 (S m) (VUInt w er x) b o) with (uint_unpack w er b o). split.
    + apply fails_uint.
    + intros y H. destruct (uint_num _ _ _ _ _ H) as (x' & zz & -> & _). cbn [decoded]. apply safe_leaf. reflexivity.
  - split; [apply fails_ok|]. intros y [= <-]. apply safe_leaf. reflexivity.
  - change (unpack0 (S m) (VChar len x) b o) with (char_unpack len b o). split; [apply fails_char|].
    intros y. unfold char_unpack. cbv zeta. destruct (Nat.eqb _ _); [|discriminate]. destruct (forallb _ _); [|discriminate].
    intros [= <-]. apply safe_leaf. reflexivity.
  - change (unpack0 (S m) (VIP x msk) b o) with (ip_unpack msk b o). split; [apply fails_ip|].
    intros y. unfold ip_unpack. destruct (recast _ _ _); cbn [bind]; [|discriminate].
    intros [= <-]. apply safe_leaf. reflexivity.
  - change (unpack0 (S m) (VHW x) b o) with (hw_unpack b o). split; [apply fails_hw|].
    intros y. unfold hw_unpack. destruct (recast _ _ _); cbn [bind]; [|discriminate].
    intros [= <-]. apply safe_leaf. reflexivity.
  - change (unpack0 (S m) (VDPID x) b o) with (dpid_unpack b o). split; [apply fails_dpid|].
    intros y. unfold dpid_unpack. destruct (mapM _ _); cbn [bind]; [|discriminate].
    intros [= <-]. apply safe_leaf. reflexivity.
  - split; [apply fails_ok|]. intros y [= <-]. eexists. reflexivity.
  - rewrite unpack0_obj. apply (obj_sound n m c attrs z b o (IH m) Sk NB Z0).
  - cbn [sok] in Sk. apply andb_true_iff in Sk as [Sk N]. apply andb_true_iff in Sk as [I0 L0].
    destruct items; [|discriminate].
    change (unpack0 (S m) (VList lc pc []) b o) with
      (do l <- unpack_items (unpack0 m) (size0 m) pc (S (List.length b)) b o; Ok (VList lc pc ([] ++ l)%list)).
    destruct (new_instance pc) as [it|] eqn:NI.
    + destruct it as [| | | | | | | | | | | | |c' a|]; try discriminate N. apply andb_true_iff in N as [N Sk]. apply andb_true_iff in N as [N NS].
      apply andb_true_iff in N as [N1 N2]. apply cid_eqb_eq in N1. subst c'. apply negb_true_iff in N2.
      destruct (items_sound n m (IH m) (fun x => may (S n) x z (VList lc pc [])) pc (VObj pc a) z b NI) with (k := S (List.length b)) (o := o) as [F R]; auto.
      * exists a. reflexivity.
      * intros e M. cbn [may]. rewrite NI. exact M.
      * split; [apply fails_bind; [exact F|intros; apply fails_ok]|].
        intros y. destruct (unpack_items _ _ _ _ _ _) as [l|]; cbn [bind]; [|discriminate]. intros [= <-].
        cbn [decoded app]. exists l. split; [reflexivity|]. intros x X. split; [exact N2|]. apply (R l eq_refl x X).
    + cbn [unpack_items]. destruct (Nat.ltb o (List.length b)).
      * rewrite NI. split; [|discriminate]. apply fails_err. cbn [may]. rewrite NI. reflexivity.
      * split; [apply fails_ok|]. intros y [= <-]. exists []. split; [reflexivity|intros x []].
Qed.

Lemma sok_keys n c a a' : map fst a = map fst a' -> sok (S n) (VObj c a) = sok (S n) (VObj c a').
Proof. intros H. cbn [sok]. rewrite H. reflexivity. Qed.
