(** Unpacking reads a window of the buffer: lemmas for C14. *)
From Coq Require Import ZArith List Bool String Lia.
From Verif Require Import Base BaseFacts PyText Ids PyVal Classes Interp Spec ClassFacts StructFacts FuelFacts Totality
  UnpackTotal LayoutFacts SpecLayout SpecWindow.
Import ListNotations.
Open Scope string_scope.
Open Scope list_scope.
Open Scope Z_scope.

(** ** Equal results, unless one ran out of fuel *)
Definition eqf {A} (r r' : res A) : Prop := r = Err OutOfFuel \/ r' = Err OutOfFuel \/ r = r'.
Lemma eqf_refl {A} (r : res A) : eqf r r.
Proof. right; right; reflexivity. Qed.
Lemma eqf_eq {A} (r r' : res A) : r = r' -> eqf r r'.
Proof. right; right; assumption. Qed.
Lemma eqf_bind {A B} (r r' : res A) (f f' : A -> res B) :
  eqf r r' -> (forall a, r = Ok a -> r' = Ok a -> eqf (f a) (f' a)) -> eqf (bind r f) (bind r' f').
Proof.
  intros [-> | [-> | ->]] H; [left; reflexivity|right; left; reflexivity|].
  destruct r' as [a|e]; cbn [bind]; [apply H; reflexivity|apply eqf_refl].
Qed.
Lemma eqf_use {A} (r r' : res A) : eqf r r' -> r <> Err OutOfFuel -> r' <> Err OutOfFuel -> r = r'.
Proof. intros [H | [H | H] ]; tauto. Qed.

(** ** Lists *)
Lemma skipn_add {A} a b (l : list A) : skipn (a + b) l = skipn b (skipn a l).
Proof. revert l. induction a as [|a IH]; intros l; [reflexivity|]. destruct l; [now rewrite !skipn_nil|]. cbn. apply IH. Qed.
Lemma slice_from {A} o k (l : list A) : slice o (o + k) l = firstn k (skipn o l).
Proof. unfold slice. rewrite firstn_skipn_comm. reflexivity. Qed.
Lemma slice_from' {A} o e (l : list A) : slice o e l = firstn (e - o) (skipn o l).
Proof.
  unfold slice. destruct (Nat.le_gt_cases o e) as [L|L].
  - replace e with (o + (e - o))%nat at 1 by lia. now rewrite firstn_skipn_comm.
  - replace (e - o)%nat with O by lia. cbn [firstn]. apply skipn_all2. rewrite firstn_length. lia.
Qed.
Lemma skipn_firstn_add {A} o k (l : list A) : skipn o (firstn (o + k) l) = firstn k (skipn o l).
Proof. now rewrite firstn_skipn_comm. Qed.
Lemma ltb_skipn {A} o (l : list A) : Nat.ltb o (List.length l) = match skipn o l with [] => false | _ => true end.
Proof.
  destruct (Nat.ltb_spec o (List.length l)) as [L|L].
  - destruct (skipn o l) eqn:E; [|reflexivity]. pose proof (skipn_length o l) as H. rewrite E in H. cbn in H. lia.
  - rewrite skipn_all2 by lia. reflexivity.
Qed.

(** ** Reads of basic types *)
Lemma uint_from w er b1 o1 b2 o2 : firstn w (skipn o1 b1) = firstn w (skipn o2 b2) ->
  uint_unpack w er b1 o1 = uint_unpack w er b2 o2.
Proof. intros H. unfold uint_unpack, struct_unpack_u. rewrite !slice_from, H. reflexivity. Qed.
Lemma char_from n b1 o1 b2 o2 : firstn n (skipn o1 b1) = firstn n (skipn o2 b2) -> char_unpack n b1 o1 = char_unpack n b2 o2.
Proof. intros H. unfold char_unpack. rewrite !slice_from, H. reflexivity. Qed.
Lemma ip_from m b1 o1 b2 o2 : firstn 4 (skipn o1 b1) = firstn 4 (skipn o2 b2) -> ip_unpack m b1 o1 = ip_unpack m b2 o2.
Proof. intros H. unfold ip_unpack. rewrite !slice_from, H. reflexivity. Qed.
Lemma hw_from b1 o1 b2 o2 : firstn 6 (skipn o1 b1) = firstn 6 (skipn o2 b2) -> hw_unpack b1 o1 = hw_unpack b2 o2.
Proof. intros H. unfold hw_unpack. rewrite !slice_from, H. reflexivity. Qed.
Lemma firstn_sub {A} i k n (l m : list A) : (i + k <= n)%nat -> firstn n l = firstn n m ->
  firstn k (skipn i l) = firstn k (skipn i m).
Proof.
  intros L H. rewrite <- !skipn_firstn_add.
  replace (i + k)%nat with (Nat.min (i + k) n) by lia. rewrite <- !firstn_firstn, H. reflexivity.
Qed.
Lemma mapM_ext {A B} (f g : A -> res B) l : (forall a, In a l -> f a = g a) -> mapM f l = mapM g l.
Proof.
  induction l as [|a l IH]; intros H; [reflexivity|]. cbn [mapM]. rewrite (H a (or_introl eq_refl)).
  rewrite IH; [reflexivity|]. intros x I. apply H. right. exact I.
Qed.
Lemma dpid_from b1 o1 b2 o2 : firstn 8 (skipn o1 b1) = firstn 8 (skipn o2 b2) -> dpid_unpack b1 o1 = dpid_unpack b2 o2.
Proof.
  intros H. unfold dpid_unpack. f_equal. apply mapM_ext. intros i I. apply in_seq in I.
  rewrite !slice_from, !skipn_add. rewrite (firstn_sub i 1 8 (skipn o1 b1) (skipn o2 b2)); [reflexivity|lia|exact H].
Qed.

(** ** The same bytes at two positive offsets *)
Definition not_stats_request (c : cid) : bool := match kind c with KStatsRequest => false | _ => true end.
Definition okv (v : pyval) : bool :=
  match v with
  | VObj c _ => not_stats_request c
  | VList _ pc _ =>
      match new_instance pc with
      | Some (VObj c _) => not_stats_request c
      | Some _ => false
      | None => true
      end
  | _ => true
  end.
Lemma okv_attr c p : In p (class_attrs c) -> okv (deepcopy (snd p)) = true.
Proof.
  assert (G : forall c, forallb (fun p => okv (deepcopy (snd p))) (class_attrs c) = true).
  { apply all_classes. vm_compute. reflexivity. }
  intros I. specialize (G c). rewrite forallb_forall in G. exact (G p I).
Qed.

(** The bytes from the offset to the end are the same. *)
Definition tails (b1 : bytes) (o1 : nat) (b2 : bytes) (o2 : nat) : Prop :=
  skipn o1 b1 = skipn o2 b2 /\ b1 <> [] /\ b2 <> [] /\ (0 < o1)%nat /\ (0 < o2)%nat.
Lemma tails_add b1 o1 b2 o2 k : tails b1 o1 b2 o2 -> tails b1 (o1 + k) b2 (o2 + k).
Proof. intros (E & N1 & N2 & P1 & P2). repeat split; try assumption; try lia. now rewrite !skipn_add, E. Qed.
Lemma tails_cut b1 o1 b2 o2 k : tails b1 o1 b2 o2 -> tails (firstn (o1 + k) b1) o1 (firstn (o2 + k) b2) o2.
Proof.
  intros (E & N1 & N2 & P1 & P2). repeat split; try assumption.
  - now rewrite !skipn_firstn_add, E.
  - destruct b1; [congruence|]. destruct o1; [lia|]. discriminate.
  - destruct b2; [congruence|]. destruct o2; [lia|]. discriminate.
Qed.
Lemma tails_firstn b1 o1 b2 o2 k : tails b1 o1 b2 o2 -> firstn k (skipn o1 b1) = firstn k (skipn o2 b2).
Proof. intros (E & _). now rewrite E. Qed.

Definition shifts (rec : decoder) : Prop := forall v b1 o1 b2 o2, okv v = true -> tails b1 o1 b2 o2 ->
  eqf (rec v b1 o1) (rec v b2 o2).

Section Shift.
  Variable rec : decoder.
  Variable size : pyval -> res Z.
  Hypothesis R : shifts rec.

  (** Offsets reached are related too. *)
  Definition eqo {A} (d1 d2 : nat) (r r' : res (A * nat)) : Prop :=
    r = Err OutOfFuel \/ r' = Err OutOfFuel \/
    match r, r' with
    | Ok (a, x), Ok (a', x') => a = a' /\ exists k, (x = d1 + k /\ x' = d2 + k)%nat
    | Err e, Err e' => e = e'
    | _, _ => False
    end.
  Lemma eqo_eqf {A B} d1 d2 (r r' : res (A * nat)) (f f' : A * nat -> res B) : eqo d1 d2 r r' ->
    (forall a k, r = Ok (a, d1 + k)%nat -> r' = Ok (a, d2 + k)%nat -> eqf (f (a, d1 + k)%nat) (f' (a, d2 + k)%nat)) ->
    eqf (bind r f) (bind r' f').
  Proof.
    intros [-> | [-> | H]] F; [left; reflexivity|right; left; reflexivity|].
    destruct r as [[a x]|e], r' as [[a' x']|e']; cbn [bind]; try contradiction.
    - destruct H as [-> [k [-> ->]]]. apply F; reflexivity.
    - subst. apply eqf_refl.
  Qed.

  Lemma shift_fields fields : (forall p, In p fields -> okv (deepcopy (snd p)) = true) -> forall attrs b1 o1 b2 o2,
    tails b1 o1 b2 o2 -> eqo o1 o2 (unpack_fields rec size fields attrs b1 o1) (unpack_fields rec size fields attrs b2 o2).
  Proof.
    induction fields as [|[name cv] tl IH]; intros K attrs b1 o1 b2 o2 T; cbn [unpack_fields].
    { right; right. split; [reflexivity|]. exists O. lia. }
    pose proof (R (deepcopy cv) b1 o1 b2 o2 (K (name, cv) (or_introl eq_refl)) T) as E.
    destruct T as (T1 & N1 & N2 & T2). destruct b1 as [|x1 t1]; [congruence|]. destruct b2 as [|x2 t2]; [congruence|].
    destruct E as [-> | [-> | ->] ]; [left; reflexivity|right; left; reflexivity|].
    destruct (rec (deepcopy cv) (x2 :: t2) o2) as [a|e]; cbn [bind]; [|right; right; reflexivity].
    destruct (size a) as [s|e]; cbn [bind]; [|right; right; reflexivity].
    specialize (IH (fun p I => K p (or_intror I)) (set_attr name a attrs) (x1 :: t1) (o1 + Z.to_nat s)%nat
      (x2 :: t2) (o2 + Z.to_nat s)%nat (tails_add _ _ _ _ _ (conj T1 (conj N1 (conj N2 T2))))).
    destruct IH as [-> | [-> | IH] ]; [left; reflexivity|right; left; reflexivity|].
    right; right.
    destruct (unpack_fields rec size tl (set_attr name a attrs) (x1 :: t1) (o1 + Z.to_nat s)) as [[? ?]|];
      destruct (unpack_fields rec size tl (set_attr name a attrs) (x2 :: t2) (o2 + Z.to_nat s)) as [[? ?]|]; try exact IH.
    destruct IH as [-> [k [-> ->]]]. split; [reflexivity|]. exists (Z.to_nat s + k)%nat. lia.
  Qed.
  Lemma shift_fields' fields attrs b1 o1 b2 o2 : (forall p, In p fields -> okv (deepcopy (snd p)) = true) ->
    tails b1 o1 b2 o2 ->
    eqf (do r <- unpack_fields rec size fields attrs b1 o1; Ok (fst r))
        (do r <- unpack_fields rec size fields attrs b2 o2; Ok (fst r)).
  Proof. intros K T. eapply eqo_eqf; [apply shift_fields; assumption|]. intros; apply eqf_refl. Qed.
  Lemma shift_structure c attrs b1 o1 b2 o2 : tails b1 o1 b2 o2 ->
    eqf (unpack_structure rec size c attrs b1 o1) (unpack_structure rec size c attrs b2 o2).
  Proof.
    intros T. unfold unpack_structure. eapply eqo_eqf; [apply shift_fields; [apply okv_attr|exact T]|].
    intros; apply eqf_refl.
  Qed.
  Lemma message_okv c p : In p (message_fields c) -> okv (deepcopy (snd p)) = true.
  Proof. intros I. apply filter_In in I as [I _]. exact (okv_attr c p I). Qed.
  Lemma shift_message c attrs b1 o1 b2 o2 : tails b1 o1 b2 o2 ->
    eqf (unpack_message_fields rec size c attrs b1 o1) (unpack_message_fields rec size c attrs b2 o2).
  Proof. intros T. apply shift_fields'; [apply message_okv|exact T]. Qed.

  Lemma shift_items pc : okv (VList CFixedTypeList pc []) = true -> forall k1 k2 b1 o1 b2 o2, tails b1 o1 b2 o2 ->
    eqf (unpack_items rec size pc k1 b1 o1) (unpack_items rec size pc k2 b2 o2).
  Proof.
    intros K. induction k1 as [|k1 IH]; intros k2 b1 o1 b2 o2 T.
    - destruct k2; cbn [unpack_items]; rewrite !ltb_skipn; destruct T as (E & _); rewrite E;
        destruct (skipn o2 b2); try apply eqf_refl; left; reflexivity.
    - destruct k2 as [|k2]; cbn [unpack_items]; rewrite !ltb_skipn; pose proof T as (E & _); rewrite E.
      + destruct (skipn o2 b2); [apply eqf_refl|right; left; reflexivity].
      + destruct (skipn o2 b2); [apply eqf_refl|]. unfold okv in K.
        destruct (new_instance pc) as [it|]; [|apply eqf_refl]. destruct it; try discriminate.
        apply eqf_bind; [apply R; assumption|]. intros a _ _. apply eqf_bind; [apply eqf_refl|]. intros ls _ _.
        apply eqf_bind; [apply eqf_refl|]. intros s _ _.
        apply eqf_bind; [apply IH, tails_add, T|]. intros; apply eqf_refl.
  Qed.

  Lemma shift_packet_out fields : (forall p, In p fields -> okv (deepcopy (snd p)) = true) -> forall attrs b1 o1 b2 o2,
    tails b1 o1 b2 o2 -> eqf (packet_out_fields rec size fields attrs b1 o1) (packet_out_fields rec size fields attrs b2 o2).
  Proof.
    induction fields as [|[name cv] tl IH]; intros K attrs b1 o1 b2 o2 T; cbn [packet_out_fields]; [apply eqf_refl|].
    apply eqf_bind.
    - destruct (name =? "actions")%string; [|apply R; [apply (K (name, cv)); left; reflexivity|exact T]].
      apply eqf_bind; [apply eqf_refl|]. intros l _ _. rewrite !slice_from, (tails_firstn _ _ _ _ _ T). apply eqf_refl.
    - intros a _ _. apply eqf_bind; [apply eqf_refl|]. intros s _ _. apply IH; [|apply tails_add, T].
      intros p I. apply K. right. exact I.
  Qed.

  Ltac same_read T := first [apply eqf_eq, uint_from, tails_firstn, T
                            |apply eqf_eq, uint_from, tails_firstn, tails_add, T].

  Lemma shift_obj c attrs b1 o1 b2 o2 : not_stats_request c = true -> tails b1 o1 b2 o2 ->
    eqf (unpack_obj rec size c attrs b1 o1) (unpack_obj rec size c attrs b2 o2).
  Proof.
    intros K T. unfold not_stats_request in K. unfold unpack_obj. destruct (kind c) eqn:Kc; try discriminate K.
    - apply shift_structure, T.
    - apply eqf_bind; [apply shift_message, T|]. intros; apply eqf_refl.
    - unfold len_unpack. apply eqf_bind; [destruct pos as [|[|[|[|[|]]]]]; same_read T|]. intros _ _ _.
      apply eqf_bind; [same_read T|]. intros l _ _. apply eqf_bind; [apply eqf_refl|]. intros z _ _.
      apply shift_structure, tails_cut, T.
    - unfold typed_unpack. apply eqf_bind; [same_read T|]. intros t _ _. apply eqf_bind; [apply eqf_refl|]. intros tz _ _.
      apply eqf_bind; [apply eqf_refl|]. intros c' _ _. apply eqf_bind; [same_read T|]. intros l _ _.
      apply eqf_bind; [apply eqf_refl|]. intros z _ _. apply shift_structure, tails_cut, T.
    - unfold action01_unpack. apply eqf_bind; [same_read T|]. intros t _ _. apply eqf_bind; [apply eqf_refl|]. intros tz _ _.
      apply shift_structure, T.
    - unfold action04_unpack. apply eqf_bind; [same_read T|]. intros t _ _. apply eqf_bind; [same_read T|]. intros l _ _.
      apply eqf_bind; [apply eqf_refl|]. intros tz _ _. apply eqf_bind; [apply eqf_refl|]. intros z _ _.
      apply shift_structure, tails_cut, T.
    - unfold action04_unpack. apply eqf_bind; [same_read T|]. intros t _ _. apply eqf_bind; [same_read T|]. intros l _ _.
      apply eqf_bind; [apply eqf_refl|]. intros tz _ _. apply eqf_bind; [apply eqf_refl|]. intros z _ _.
      apply shift_structure, tails_cut, T.
    - unfold oxm_unpack. eapply eqo_eqf; [apply shift_fields; [apply okv_attr|exact T]|]. intros at1 k _ _. cbn [fst].
      apply eqf_bind; [apply eqf_refl|]. intros fm _ _. apply eqf_bind; [apply eqf_refl|]. intros cls _ _.
      apply eqf_bind; [apply eqf_refl|]. intros f _ _. apply eqf_bind; [apply eqf_refl|]. intros len _ _.
      rewrite !slice_from, (tails_firstn _ _ _ _ _ (tails_add _ _ _ _ 4 T)). apply eqf_refl.
    - unfold match04_unpack. eapply eqo_eqf.
      + apply shift_fields; [|exact T]. intros p I. apply (okv_attr c).
        clear -I. induction (class_attrs c) as [|q l IH]; [destruct I|]. cbn in I. destruct l; [destruct I|].
        destruct I as [<-|I]; [left; reflexivity|right; exact (IH I)].
      + intros at1 k _ _. cbn [fst snd]. apply eqf_bind; [apply eqf_refl|]. intros len _ _.
        eapply eqo_eqf; [|intros; cbn [fst]; apply eqf_refl]. apply shift_fields.
        * intros p I. destruct (get_attr "oxm_match_fields" (class_attrs c)) as [cv|] eqn:E; [|destruct I].
          destruct I as [<-|[]]. apply (okv_attr c). apply get_attr_In. exact E.
        * apply tails_add, tails_cut, T.
    - unfold match01_unpack. eapply eqo_eqf; [apply shift_fields; [apply okv_attr|exact T]|]. intros at1 k _ _. cbn [fst].
      apply eqf_bind; [same_read T|]. intros; apply eqf_refl.
    - unfold bucket_unpack. apply eqf_bind; [same_read T|]. intros l _ _. apply eqf_bind; [apply eqf_refl|]. intros z _ _.
      apply shift_structure, tails_cut, T.
    - apply eqf_bind; [apply shift_packet_out; [apply message_okv|exact T]|]. intros; apply eqf_refl.
    - apply eqf_bind; [apply shift_packet_out; [apply message_okv|exact T]|]. intros; apply eqf_refl.
    - unfold error_unpack. apply eqf_bind; [apply shift_message, T|]. intros; apply eqf_refl.
    - unfold error_unpack. apply eqf_bind; [apply shift_message, T|]. intros; apply eqf_refl.
    - apply eqf_refl.
    - unfold stats_reply_unpack. destruct T as (E & _). rewrite E. apply eqf_refl.
    - unfold multipart_unpack. destruct T as (E & _). rewrite E. apply eqf_refl.
    - unfold multipart_unpack. destruct T as (E & _). rewrite E. apply eqf_refl.
  Qed.
End Shift.

Lemma shift_all n : shifts (unpack0 n).
Proof.
  induction n as [|n IH]; intros v b1 o1 b2 o2 K T; [left; reflexivity|].
  destruct v as [| | | | | |w er x|k|len x|x msk|x|x|x|c attrs|lc pc items]; cbn [unpack0]; try apply eqf_refl.
  - apply eqf_eq, uint_from, tails_firstn, T.
  - apply eqf_eq, char_from, tails_firstn, T.
  - apply eqf_eq, ip_from, tails_firstn, T.
  - apply eqf_eq, hw_from, tails_firstn, T.
  - apply eqf_eq, dpid_from, tails_firstn, T.
  - destruct T as (E & _). rewrite E. apply eqf_refl.
  - apply shift_obj; assumption.
  - apply eqf_bind; [|intros; apply eqf_refl]. apply shift_items; assumption.
Qed.

(** Every object but a StatsRequest, at two positive offsets. *)
Lemma shift_unpack v b1 o1 b2 o2 : uok 11 v = true -> okv v = true -> wf_bytes b1 -> wf_bytes b2 ->
  tails b1 o1 b2 o2 -> unpack v b1 o1 = unpack v b2 o2.
Proof.
  intros U K W1 W2 T. apply eqf_use; [exact (shift_all FUEL v b1 o1 b2 o2 K T)| |];
    apply uok_unpack; auto.
Qed.

(** ** The same bytes up to an end *)
Definition win (w : nat) (b1 : bytes) (o1 : nat) (b2 : bytes) (o2 : nat) : Prop :=
  firstn w (skipn o1 b1) = firstn w (skipn o2 b2) /\
  (w <= List.length (skipn o1 b1))%nat /\ (w <= List.length (skipn o2 b2))%nat.
Lemma win_le w w' b1 o1 b2 o2 : (w' <= w)%nat -> win w b1 o1 b2 o2 -> win w' b1 o1 b2 o2.
Proof.
  intros L (E & A & B). repeat split; [|lia|lia].
  replace w' with (Nat.min w' w) by lia. now rewrite <- !firstn_firstn, E.
Qed.
Lemma win_add w k b1 o1 b2 o2 : win (k + w) b1 o1 b2 o2 -> win w b1 (o1 + k) b2 (o2 + k).
Proof.
  intros (E & A & B). rewrite skipn_length in A, B. unfold win. rewrite !skipn_length. split; [|lia].
  rewrite !skipn_add. apply (firstn_sub k w (k + w)); [lia|exact E].
Qed.

(** Widths of fields of one size, one level of structures inside. *)
Fixpoint widths (fields : list (string * pyval)) : option nat :=
  match fields with
  | [] => Some O
  | (_, cv) :: tl =>
      match leaf_width cv, widths tl with Some x, Some y => Some (x + y)%nat | _, _ => None end
  end.
Definition flat_kind (c : cid) : bool := match kind c with KStruct | KMatch01 => true | _ => false end.
Definition fw (v : pyval) : option nat :=
  match v with
  | VObj c a =>
      if flat_kind c && forallb (fun p => existsb (String.eqb (fst p)) (map fst a)) (class_attrs c) &&
         Nat.eqb (List.length (filter (fun p => is_class_attr c (fst p)) a)) (List.length (class_attrs c)) &&
         match class_attrs c with ("wildcards", VUInt 4%nat _ _) :: _ => true | _ => match kind c with KStruct => true | _ => false end end
      then match class_attrs c with [] => None | l => widths l end else None
  | _ => leaf_width v
  end.
Fixpoint fixed (fields : list (string * pyval)) : option nat :=
  match fields with
  | [] => Some O
  | (_, cv) :: tl =>
      match fw (deepcopy cv), fixed tl with Some x, Some y => Some (x + y)%nat | _, _ => None end
  end.

Lemma leaf_copy cv : leaf_width cv <> None -> deepcopy cv = cv.
Proof. destruct cv; try reflexivity; intros H; exfalso; apply H; reflexivity. Qed.

Lemma leaf_win m v w b1 o1 b2 o2 : leaf_width v = Some w -> win w b1 o1 b2 o2 ->
  unpack0 m v b1 o1 = unpack0 m v b2 o2.
Proof.
  intros L (E & _). destruct m as [|m]; [reflexivity|].
  destruct v as [| | | | | |w' er x|k|[|len] x|x msk|x|x|x|c attrs|lc pc items]; try discriminate L; injection L as <-;
    cbn [unpack0].
  - apply uint_from, E.
  - reflexivity.
  - apply char_from, E.
  - apply ip_from, E.
  - apply hw_from, E.
  - apply dpid_from, E.
Qed.
Lemma leaf_size m v w b o a : leaf_width v = Some w -> unpack0 m v b o = Ok a -> size0 m a = Ok (Z.of_nat w).
Proof.
  intros L H. destruct m as [|m]; [discriminate|].
  destruct v as [| | | | | |w' er x|k|[|len] x|x msk|x|x|x|c attrs|lc pc items]; try discriminate L; injection L as <-;
    cbn [unpack0] in H.
  - unfold uint_unpack in H. destruct (struct_unpack_u w' b o) as [z|e]; cbn [bind] in H.
    + destruct er as [er|]; [|injection H as <-; reflexivity].
      destruct (enum_call er z) as [q|e]; cbn [bind recast] in H; [injection H as <-; reflexivity|].
      destruct e; discriminate.
    + destruct e; discriminate.
  - injection H as <-. reflexivity.
  - unfold char_unpack in H. cbv zeta in H. destruct (Nat.eqb _ _); [|discriminate]. destruct (forallb _ _); [|discriminate].
    injection H as <-. reflexivity.
  - unfold ip_unpack in H. peel H. injection H as <-. reflexivity.
  - unfold hw_unpack in H. peel H. injection H as <-. reflexivity.
  - unfold dpid_unpack in H. peel H. injection H as <-. reflexivity.
Qed.
Lemma leaf_size1 m v w iv : leaf_width v = Some w -> size1 (size0 (S m)) v iv = Ok (Z.of_nat w).
Proof.
  intros L. destruct v as [| | | | | |w' er x|k|[|len] x|x msk|x|x|x|c attrs|lc pc items]; try discriminate L; injection L as <-;
    reflexivity.
Qed.

(** All leaves. *)
Lemma leaf_fields m fields : forall W attrs b1 o1 b2 o2, widths fields = Some W -> win W b1 o1 b2 o2 -> b1 <> [] -> b2 <> [] ->
  exists r, unpack_fields (unpack0 m) (size0 m) fields attrs b1 o1 = (do a <- r; Ok (a, (o1 + W)%nat)) /\
            unpack_fields (unpack0 m) (size0 m) fields attrs b2 o2 = (do a <- r; Ok (a, (o2 + W)%nat)).
Proof.
  induction fields as [|[name cv] tl IH]; intros W attrs b1 o1 b2 o2 E T N1 N2; cbn [widths unpack_fields] in *.
  { injection E as <-. exists (Ok attrs). rewrite !Nat.add_0_r. split; reflexivity. }
  destruct (leaf_width cv) as [x|] eqn:L; [|discriminate]. destruct (widths tl) as [y|]; [|discriminate]. injection E as <-.
  rewrite leaf_copy by congruence.
  assert (T1 : win x b1 o1 b2 o2) by (apply (win_le (x + y)); [lia|exact T]).
  pose proof (leaf_win m cv x b1 o1 b2 o2 L T1) as Q.
  destruct b1 as [|h1 t1]; [congruence|]. destruct b2 as [|h2 t2]; [congruence|].
  rewrite Q. destruct (unpack0 m cv (h2 :: t2) o2) as [a|e] eqn:U; cbn [bind]; [|exists (Err e); split; reflexivity].
  rewrite (leaf_size m cv x _ _ _ L U). cbn [bind]. rewrite Nat2Z.id.
  destruct (IH y (set_attr name a attrs) (h1 :: t1) (o1 + x)%nat (h2 :: t2) (o2 + x)%nat eq_refl) as (r & R1 & R2);
    [apply win_add, T|discriminate|discriminate|].
  exists r. rewrite R1, R2. split; destruct r; cbn [bind]; try reflexivity; do 2 f_equal; lia.
Qed.

Lemma set_keys name x (l : list (string * pyval)) : existsb (String.eqb name) (map fst l) = true ->
  map fst (set_attr name x l) = map fst l.
Proof.
  induction l as [|[k v] l IH]; [discriminate|]. cbn [map fst existsb set_attr]. rewrite String.eqb_sym.
  destruct (String.eqb_spec k name) as [->|N]; [reflexivity|]. cbn [orb map fst]. intros H. f_equal. exact (IH H).
Qed.
Lemma fields_same_keys rec size fields b : forall attrs o attrs' o',
  (forall p, In p fields -> existsb (String.eqb (fst p)) (map fst attrs) = true) ->
  unpack_fields rec size fields attrs b o = Ok (attrs', o') -> map fst attrs' = map fst attrs.
Proof.
  pose proof set_keys as K.
  induction fields as [|[name cv] tl IH]; intros attrs o attrs' o' I H; cbn [unpack_fields] in H.
  - injection H as <- _. reflexivity.
  - assert (ST : forall x oo, unpack_fields rec size tl (set_attr name x attrs) b oo = Ok (attrs', o') -> map fst attrs' = map fst attrs).
    { intros x oo E. pose proof (K name x attrs (I (name, cv) (or_introl eq_refl))) as Kn. rewrite <- Kn.
      refine (IH _ _ _ _ _ E). intros p J. rewrite Kn. apply I. right. exact J. }
    destruct b; [eapply ST, H|]. peel H. peel H. eapply ST, H.
Qed.

Lemma struct_leaf_size m c attrs W : widths (class_attrs c) = Some W ->
  List.length (filter (fun p => is_class_attr c (fst p)) attrs) = List.length (class_attrs c) ->
  struct_size (size0 (S m)) c attrs = Ok (Z.of_nat W).
Proof.
  unfold struct_size, zip_attrs. generalize (filter (fun p => is_class_attr c (fst p)) attrs) as l. intros l.
  revert l W. induction (class_attrs c) as [|[n cv] tl IH]; intros l W E L; cbn [widths] in E.
  { injection E as <-. reflexivity. }
  destruct (leaf_width cv) as [x|] eqn:Lw; [|discriminate]. destruct (widths tl) as [y|] eqn:Wy; [|discriminate]. injection E as <-.
  destruct l as [|[k iv] l]; [discriminate|]. cbn [map combine sumM fst snd]. rewrite (leaf_size1 m cv x iv Lw).
  cbn [bind]. cbn [List.length] in L. rewrite (IH l y eq_refl ltac:(lia)). cbn [bind]. f_equal. lia.
Qed.

Lemma filter_keys (f : string -> bool) (l l' : list (string * pyval)) : map fst l = map fst l' ->
  List.length (filter (fun p => f (fst p)) l) = List.length (filter (fun p => f (fst p)) l').
Proof.
  revert l'. induction l as [|[k v] l IH]; intros [|[k' v'] l'] H; try discriminate; [reflexivity|].
  cbn [map fst] in H. injection H as -> H. cbn [filter fst]. destruct (f k'); cbn [List.length]; rewrite (IH l' H); reflexivity.
Qed.

(** ** Fields of one size, structures included *)
Lemma obj_kind_eq n c a b o : unpack0 (S n) (VObj c a) b o = unpack_obj (unpack0 n) (size0 n) c a b o.
Proof. reflexivity. Qed.

Lemma fw_obj c a w : fw (VObj c a) = Some w ->
  widths (class_attrs c) = Some w /\ class_attrs c <> [] /\
  (forall p, In p (class_attrs c) -> existsb (String.eqb (fst p)) (map fst a) = true) /\
  List.length (filter (fun p => is_class_attr c (fst p)) a) = List.length (class_attrs c) /\
  (kind c = KStruct \/ kind c = KMatch01 /\ (4 <= w)%nat /\ existsb (String.eqb "wildcards") (map fst a) = true).
Proof.
  cbn [fw]. unfold flat_kind. intros H.
  destruct (forallb (fun p => existsb (String.eqb (fst p)) (map fst a)) (class_attrs c)) eqn:F; [|now rewrite andb_false_r in H].
  rewrite forallb_forall in F. rewrite andb_true_r in H.
  destruct (Nat.eqb_spec (List.length (filter (fun p => is_class_attr c (fst p)) a)) (List.length (class_attrs c))) as [L|L];
    [|now rewrite andb_false_r in H]. rewrite andb_true_r in H.
  assert (G : forall k, kind c = k -> (k = KStruct \/ k = KMatch01) ->
    (k = KStruct \/ match class_attrs c with ("wildcards", VUInt 4%nat _ _) :: _ => True | _ => False end) ->
    match class_attrs c with [] => None | _ :: _ => widths (class_attrs c) end = Some w ->
    widths (class_attrs c) = Some w /\ class_attrs c <> [] /\
    (forall p, In p (class_attrs c) -> existsb (String.eqb (fst p)) (map fst a) = true) /\
    List.length (filter (fun p => is_class_attr c (fst p)) a) = List.length (class_attrs c) /\
    (kind c = KStruct \/ kind c = KMatch01 /\ (4 <= w)%nat /\ existsb (String.eqb "wildcards") (map fst a) = true)).
  { intros k K K2 K3 Wd. assert (NE : class_attrs c <> []) by (intros X; rewrite X in Wd; discriminate Wd).
    assert (Wd' : widths (class_attrs c) = Some w) by (destruct (class_attrs c); [congruence|exact Wd]).
    repeat (split; [assumption|]). rewrite K. destruct K3 as [->|K3]; [left; reflexivity|]. destruct K2 as [->| ->]; [left; reflexivity|].
    right. split; [reflexivity|]. destruct (class_attrs c) as [|[nm cv] tl]; [destruct K3|].
    destruct (String.eqb_spec nm "wildcards") as [->|NW].
    - destruct cv as [| | | | | |[|[|[|[|[|w']]]]] er x| | | | | | | |]; try contradiction.
      split; [|apply (F ("wildcards", VUInt 4 er x)); left; reflexivity].
      cbn [widths leaf_width] in Wd'. destruct (widths tl); [|discriminate]. injection Wd' as <-. lia.
    - exfalso. revert K3 NW. clear. intros K3 NW.
      repeat match type of K3 with
             | match ?s with _ => _ end => destruct s; try contradiction
             end. }
  destruct (kind c) eqn:K; try discriminate H.
  - apply (G KStruct eq_refl (or_introl eq_refl) (or_introl eq_refl)). destruct (class_attrs c) as [|[nm cv] tl]; [discriminate H|].
    cbn [andb] in H. revert H.
    match goal with |- (if ?x then _ else _) = _ -> _ => destruct x; [exact (fun h => h)|discriminate] end.
  - apply (G KMatch01 eq_refl (or_intror eq_refl)).
    + right. destruct (class_attrs c) as [|[nm cv] tl]; [discriminate H|]. revert H. clear.
      cbn [andb]. intros H.
      repeat match type of H with
             | (if match ?s with _ => _ end then _ else _) = _ => destruct s; try discriminate H
             end; exact I.
    + destruct (class_attrs c) as [|[nm cv] tl]; [discriminate H|]. cbn [andb] in H. revert H.
      match goal with |- (if ?x then _ else _) = _ -> _ => destruct x; [exact (fun h => h)|discriminate] end.
Qed.

Lemma fw_win m v w b1 o1 b2 o2 : fw v = Some w -> win w b1 o1 b2 o2 -> b1 <> [] -> b2 <> [] ->
  unpack0 m v b1 o1 = unpack0 m v b2 o2.
Proof.
  intros F T N1 N2.
  assert (D : (exists c a, v = VObj c a) \/ leaf_width v = Some w) by (destruct v; auto; left; eauto).
  destruct D as [(c & a & ->)|L]; [|apply (leaf_win m v w); assumption].
  destruct m as [|m]; [reflexivity|]. rewrite !obj_kind_eq. unfold unpack_obj.
  apply fw_obj in F as (Wd & NE & Keys & Len & K).
  destruct (leaf_fields m (class_attrs c) w a b1 o1 b2 o2 Wd T N1 N2) as (r & R1 & R2).
  destruct K as [-> | (-> & W4 & _)].
  - unfold unpack_structure. rewrite R1, R2. destruct r; reflexivity.
  - unfold match01_unpack. rewrite R1, R2. destruct r as [at1|]; [|reflexivity]. cbn [bind fst].
    rewrite (uint_from 4 (Some E_FlowWildCards01) b1 o1 b2 o2); [reflexivity|].
    apply (win_le w 4) in T; [exact (proj1 T)|exact W4].
Qed.
Lemma fw_size m v w b o a : fw v = Some w -> b <> [] -> unpack0 m v b o = Ok a -> size0 m a = Ok (Z.of_nat w).
Proof.
  intros F N H.
  assert (D : (exists c a, v = VObj c a) \/ leaf_width v = Some w) by (destruct v; auto; left; eauto).
  destruct D as [(c & at0 & ->)|L]; [|apply (leaf_size m v w b o); assumption].
  destruct m as [|m]; [discriminate|]. rewrite obj_kind_eq in H. unfold unpack_obj in H.
  apply fw_obj in F as (Wd & NE & Keys & Len & K).
  assert (P : forall at1 o1, unpack_fields (unpack0 m) (size0 m) (class_attrs c) at0 b o = Ok (at1, o1) ->
    map fst at1 = map fst at0 /\ exists m', m = S m').
  { intros at1 o1 E. split; [eapply fields_same_keys; eauto|]. destruct m as [|m']; [|eauto].
    destruct (class_attrs c) as [|[nm cv] tl]; [congruence|]. destruct b; [congruence|]. discriminate E. }
  assert (Q : forall at1 x, map fst at1 = map fst at0 -> (exists m', m = S m') -> size0 (S m) (VObj c at1) = x ->
    struct_size (size0 m) c at1 = Ok (Z.of_nat w)).
  { intros at1 x E (m' & ->) _. apply struct_leaf_size; [exact Wd|]. rewrite <- Len.
    apply (filter_keys (is_class_attr c)). exact E. }
  destruct K as [K | (K & W4 & Kw)]; rewrite K in H.
  - unfold unpack_structure in H. peel H. destruct x as [at1 o1]. injection H as <-. destruct (P _ _ eq_refl) as [P1 P2].
    rewrite size0_obj, K. eapply Q; eauto.
  - unfold match01_unpack in H. peel H. destruct x as [at1 o1]. peel H. injection H as <-. destruct (P _ _ eq_refl) as [P1 P2].
    rewrite size0_obj, K. eapply Q; eauto. cbn [fst]. rewrite <- P1.
    apply set_keys. rewrite P1. exact Kw.
Qed.

Lemma fixed_fields m fields : forall W attrs b1 o1 b2 o2, fixed fields = Some W -> win W b1 o1 b2 o2 -> b1 <> [] -> b2 <> [] ->
  exists r, unpack_fields (unpack0 m) (size0 m) fields attrs b1 o1 = (do a <- r; Ok (a, (o1 + W)%nat)) /\
            unpack_fields (unpack0 m) (size0 m) fields attrs b2 o2 = (do a <- r; Ok (a, (o2 + W)%nat)).
Proof.
  induction fields as [|[name cv] tl IH]; intros W attrs b1 o1 b2 o2 E T N1 N2; cbn [fixed unpack_fields] in *.
  { injection E as <-. exists (Ok attrs). rewrite !Nat.add_0_r. split; reflexivity. }
  destruct (fw (deepcopy cv)) as [x|] eqn:L; [|discriminate]. destruct (fixed tl) as [y|]; [|discriminate]. injection E as <-.
  assert (T1 : win x b1 o1 b2 o2) by (apply (win_le (x + y)); [lia|exact T]).
  pose proof (fw_win m (deepcopy cv) x b1 o1 b2 o2 L T1 N1 N2) as Q.
  destruct b1 as [|h1 t1]; [congruence|]. destruct b2 as [|h2 t2]; [congruence|].
  rewrite Q. destruct (unpack0 m (deepcopy cv) (h2 :: t2) o2) as [a|e] eqn:U; cbn [bind]; [|exists (Err e); split; reflexivity].
  rewrite (fw_size m (deepcopy cv) x _ _ _ L N2 U). cbn [bind]. rewrite Nat2Z.id.
  destruct (IH y (set_attr name a attrs) (h1 :: t1) (o1 + x)%nat (h2 :: t2) (o2 + x)%nat eq_refl) as (r & R1 & R2);
    [apply win_add, T|discriminate|discriminate|].
  exists r. rewrite R1, R2. split; destruct r; cbn [bind]; try reflexivity; do 2 f_equal; lia.
Qed.

(** ** At the start of the buffer *)
Definition near (b1 : bytes) (o1 : nat) (b2 : bytes) (o2 : nat) : Prop :=
  skipn o1 b1 = skipn o2 b2 /\ b1 <> [] /\ b2 <> [].
Definition lead (fields : list (string * pyval)) : bool :=
  match fields with
  | (_, cv) :: _ => match fw (deepcopy cv) with Some (S _) => true | _ => false end
  | [] => false
  end.
Definition leading_leaf (v : pyval) : bool :=
  match v with
  | VObj c _ => match class_attrs c with (_, cv) :: _ => match leaf_width cv with Some (S _) => true | _ => false end | [] => false end
  | _ => true
  end.
Definition leadf (fields : list (string * pyval)) : bool :=
  lead fields && match fields with (_, cv) :: _ => leading_leaf (deepcopy cv) | [] => false end.

Lemma near_leaf m v w b1 o1 b2 o2 : leaf_width v = Some w -> near b1 o1 b2 o2 -> unpack0 m v b1 o1 = unpack0 m v b2 o2.
Proof.
  intros L (E & _). destruct m as [|m]; [reflexivity|].
  destruct v as [| | | | | |w' er x|k|[|len] x|x msk|x|x|x|c attrs|lc pc items]; try discriminate L; cbn [unpack0];
    first [reflexivity|apply uint_from|apply char_from|apply ip_from|apply hw_from|apply dpid_from]; now rewrite E.
Qed.
Lemma near_shift w b1 o1 b2 o2 : near b1 o1 b2 o2 -> tails b1 (o1 + S w) b2 (o2 + S w).
Proof. intros (E & N1 & N2). repeat split; try assumption; try lia. now rewrite !skipn_add, E. Qed.

Lemma near_leaf_fields m fields attrs b1 o1 b2 o2 :
  match fields with (_, cv) :: _ => match leaf_width cv with Some (S _) => true | _ => false end | [] => false end = true ->
  (forall p, In p fields -> okv (deepcopy (snd p)) = true) -> near b1 o1 b2 o2 ->
  eqo o1 o2 (unpack_fields (unpack0 m) (size0 m) fields attrs b1 o1) (unpack_fields (unpack0 m) (size0 m) fields attrs b2 o2).
Proof.
  intros Ld K T. destruct fields as [|[name cv] tl]; [discriminate|]. cbn [unpack_fields].
  destruct (leaf_width cv) as [[|w]|] eqn:L; try discriminate. rewrite leaf_copy by congruence.
  pose proof (near_leaf m cv _ b1 o1 b2 o2 L T) as Q. pose proof (near_shift w _ _ _ _ T) as S1.
  destruct T as (E & N1 & N2). destruct b1 as [|h1 t1]; [congruence|]. destruct b2 as [|h2 t2]; [congruence|].
  rewrite Q. destruct (unpack0 m cv (h2 :: t2) o2) as [a|e] eqn:U; cbn [bind]; [|right; right; reflexivity].
  rewrite (leaf_size m cv _ _ _ _ L U). cbn [bind]. rewrite Nat2Z.id.
  pose proof (shift_fields (unpack0 m) (size0 m) (shift_all m) tl (fun p I => K p (or_intror I)) (set_attr name a attrs) _ _ _ _ S1) as R.
  destruct R as [-> | [-> | R] ]; [left; reflexivity|right; left; reflexivity|]. right; right.
  destruct (unpack_fields _ _ tl _ (h1 :: t1) _) as [[? ?]|], (unpack_fields _ _ tl _ (h2 :: t2) _) as [[? ?]|]; try exact R.
  destruct R as [-> [k [-> ->]]]. split; [reflexivity|]. exists (S w + k)%nat. lia.
Qed.
Lemma near_fields m fields attrs b1 o1 b2 o2 : leadf fields = true ->
  (forall p, In p fields -> okv (deepcopy (snd p)) = true) -> near b1 o1 b2 o2 ->
  eqo o1 o2 (unpack_fields (unpack0 m) (size0 m) fields attrs b1 o1) (unpack_fields (unpack0 m) (size0 m) fields attrs b2 o2).
Proof.
  intros Ld K T. unfold leadf, lead in Ld. destruct fields as [|[name cv] tl]; [discriminate|]. cbn [unpack_fields].
  destruct (fw (deepcopy cv)) as [[|w]|] eqn:L; try discriminate. cbn [andb] in Ld.
  assert (Q : eqf (unpack0 m (deepcopy cv) b1 o1) (unpack0 m (deepcopy cv) b2 o2)).
  { destruct (deepcopy cv) as [| | | | | |w' er x|k|len x|x msk|x|x|x|c a|lc pc items] eqn:Dc;
      try (apply eqf_eq, (near_leaf m _ (S w)); assumption).
    destruct m as [|m]; [left; reflexivity|]. rewrite !obj_kind_eq. unfold unpack_obj.
    apply fw_obj in L as (Wd & NE & Keys & Len & [-> | (-> & W4 & Kw)]).
    - unfold unpack_structure. eapply eqo_eqf; [apply near_leaf_fields; [exact Ld|apply okv_attr|exact T]|]. intros; apply eqf_refl.
    - unfold match01_unpack. eapply eqo_eqf; [apply near_leaf_fields; [exact Ld|apply okv_attr|exact T]|]. intros at1 k _ _. cbn [fst].
      apply eqf_bind; [|intros; apply eqf_refl]. apply eqf_eq, uint_from. destruct T as (E & _). now rewrite E. }
  pose proof (near_shift w _ _ _ _ T) as S1.
  destruct T as (E & N1 & N2). destruct b1 as [|h1 t1]; [congruence|]. destruct b2 as [|h2 t2]; [congruence|].
  destruct Q as [-> | [-> | ->] ]; [left; reflexivity|right; left; reflexivity|].
  destruct (unpack0 m (deepcopy cv) (h2 :: t2) o2) as [a|e] eqn:U; cbn [bind]; [|right; right; reflexivity].
  rewrite (fw_size m _ _ _ _ _ L N2 U). cbn [bind]. rewrite Nat2Z.id.
  pose proof (shift_fields (unpack0 m) (size0 m) (shift_all m) tl (fun p I => K p (or_intror I)) (set_attr name a attrs) _ _ _ _ S1) as R.
  destruct R as [-> | [-> | R] ]; [left; reflexivity|right; left; reflexivity|]. right; right.
  destruct (unpack_fields _ _ tl _ (h1 :: t1) _) as [[? ?]|], (unpack_fields _ _ tl _ (h2 :: t2) _) as [[? ?]|]; try exact R.
  destruct R as [-> [k [-> ->]]]. split; [reflexivity|]. exists (S w + k)%nat. lia.
Qed.
Lemma near_structure m c attrs b1 o1 b2 o2 : leadf (class_attrs c) = true -> near b1 o1 b2 o2 ->
  eqf (unpack_structure (unpack0 m) (size0 m) c attrs b1 o1) (unpack_structure (unpack0 m) (size0 m) c attrs b2 o2).
Proof.
  intros L T. unfold unpack_structure. eapply eqo_eqf; [apply near_fields; [exact L|apply okv_attr|exact T]|]. intros; apply eqf_refl.
Qed.
