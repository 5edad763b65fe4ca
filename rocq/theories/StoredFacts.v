(** pack() changes nothing but what it computes. *)
From Coq Require Import ZArith List Bool String Lia.
From Verif Require Import Base PyText Ids PyVal Classes Interp Mutation SpecMutation SpecShared ClassFacts StructFacts DispatchFacts
  FuelFacts Totality MutationFacts MutationFacts2 MutationFacts3 SharedFacts.
Import ListNotations.
Open Scope string_scope.
Open Scope list_scope.
Open Scope Z_scope.

Lemma forall2_trans_in {A} (R : A -> A -> Prop) l1 l2 l3 : (forall x y z, In x l1 -> R x y -> R y z -> R x z) ->
  Forall2 R l1 l2 -> Forall2 R l2 l3 -> Forall2 R l1 l3.
Proof.
  intros H F. revert l3 H. induction F as [|x y l1 l2 R1 F IH]; intros l3 H F3; inversion F3 as [|y' z l2' l3' R2 F3']; subst; [constructor|].
  constructor; [eapply H; [left; reflexivity|exact R1|exact R2]|]. apply IH; [|exact F3']. intros a b c I. apply H. right. exact I.
Qed.

Lemma sb_inv b v v' : same_but b v v' ->
  match v with
  | VBin x => exists x', v' = VBin x' /\ same_but false x x'
  | VList lc pc l => exists l', v' = VList lc pc l' /\ Forall2 (same_but false) l l'
  | VObj c attrs => exists attrs', v' = VObj c attrs' /\
      Forall2 (fun p q => fst p = fst q /\ ((if b then computed c (fst p) else recomputed c (fst p)) = true \/
         same_but (header_of c (fst p)) (snd p) (snd q))) attrs attrs'
  | _ => v' = v
  end.
Proof.
  destruct 1 as [v|x x' H|lc pc l l' H|c a a' H]; eauto.
  destruct v; try reflexivity; eexists; (split; [reflexivity|]); try constructor.
  - apply forall2_refl. split; [reflexivity|right; constructor].
  - apply forall2_refl. constructor.
Qed.
Lemma sb_trans_h h : forall b v1 v2 v3, (height v1 <= h)%nat -> same_but b v1 v2 -> same_but b v2 v3 -> same_but b v1 v3.
Proof.
  induction h as [|h IH]; intros b v1 v2 v3 Hh U V; pose proof (sb_inv _ _ _ U) as I; pose proof (sb_inv _ _ _ V) as J;
    destruct v1 as [| | | | | | | | | | | |x|c attrs|lc pc l]; try (subst v2; exact V); try (cbn in Hh; lia).
  - destruct I as (x' & -> & I). destruct J as (x'' & -> & J). constructor. eapply IH; [cbn in Hh; lia|exact I|exact J].
  - destruct I as (x' & -> & I). destruct J as (x'' & -> & J). constructor. eapply forall2_trans_in; [|exact I|exact J].
    intros [k x] [k' y] [k'' z] K (E & R) (E' & R'). cbn [fst snd] in *. subst k'' k'. split; [reflexivity|].
    destruct R as [R|R]; [left; exact R|]. destruct R' as [R'|R']; [left; exact R'|right].
    pose proof (height_attr c attrs k x K). eapply IH; [|exact R|exact R']. lia.
  - destruct I as (x' & -> & I). destruct J as (x'' & -> & J). constructor. eapply forall2_trans_in; [|exact I|exact J].
    intros x y z K R R'. pose proof (height_item lc pc l x K). eapply IH; [|exact R|exact R']. lia.
Qed.
Lemma sb_trans b v1 v2 v3 : same_but b v1 v2 -> same_but b v2 v3 -> same_but b v1 v3.
Proof. apply (sb_trans_h (height v1)), le_n. Qed.
Lemma attr_up_trans c l1 l2 l3 : Forall2 (attr_up c) l1 l2 -> Forall2 (attr_up c) l2 l3 -> Forall2 (attr_up c) l1 l3.
Proof.
  apply forall2_trans_in. intros p q r _ R R'. apply attr_up_sb in R as (E & R), R' as (E' & R'). apply attr_up_sb. split; [congruence|].
  rewrite <- E in R'. destruct R as [R|R]; [left; exact R|]. destruct R' as [R'|R']; [left; exact R'|right; eapply sb_trans; eassumption].
Qed.

Lemma rec_header c : recomputed c "header" = false.
Proof.
  destruct (recomputed c "header") eqn:R; [|reflexivity]. exfalso. apply rec_names in R. cbn in R. intuition discriminate.
Qed.
Lemma sb_header_ok b v v' : same_but b v v' -> header_ok ("header", v) = true -> header_ok ("header", v') = true.
Proof. destruct 1; auto. Qed.
Lemma up_good c attrs attrs' : good c attrs -> Forall2 (attr_up c) attrs attrs' -> forallb (fun p => built (snd p)) attrs' = true -> good c attrs'.
Proof.
  intros (A & Hh & B) F B'. split; [|split; [|exact B']].
  - rewrite (has_attributes_names c attrs attrs'); [exact A|]. clear - F. induction F as [|p q l l' (E & _) F IH]; cbn; congruence.
  - clear A B B'. induction F as [|p q l l' R F IH]; [reflexivity|]. cbn [forallb] in *. apply andb_prop in Hh as [Hp Hh]. rewrite (IH Hh), andb_true_r.
    destruct p as [k x], q as [k' x']. apply attr_up_sb in R as (E & R). cbn [fst snd] in *. subst k'.
    unfold header_ok in *. cbn [fst snd] in *. destruct (String.eqb_spec k "header") as [->|]; [|reflexivity].
    destruct R as [R|R]; [rewrite rec_header in R; discriminate|]. exact (sb_header_ok _ _ _ R Hp).
Qed.

Definition fin (c : cid) (attrs attrs' : list (string * pyval)) : Prop := Forall2 (attr_up c) attrs attrs' /\ good c attrs'.
Lemma fin_refl c attrs : good c attrs -> fin c attrs attrs.
Proof. intros G. split; [apply forall2_refl, attr_up_refl|exact G]. Qed.
Lemma fin_trans c a1 a2 a3 : fin c a1 a2 -> fin c a2 a3 -> fin c a1 a3.
Proof. intros (F & _) (F' & G). split; [eapply attr_up_trans; eassumption|exact G]. Qed.

Lemma set_fin c n x y attrs : good c attrs -> get_attr n attrs = Some y ->
  recomputed c n = true \/ same_but (header_of c n) y x -> built x = true -> header_ok (n, x) = true -> fin c attrs (set_attr n x attrs).
Proof.
  intros G E R B Hh. split; [|apply good_set; [exact G|congruence|exact B|exact Hh]].
  clear G B Hh. revert E. induction attrs as [|[k z] l IH]; [discriminate|]. cbn [get_attr set_attr]. destruct (String.eqb_spec k n) as [->|N]; intros E.
  - injection E as ->. constructor; [apply attr_up_sb; split; [reflexivity|exact R]|apply forall2_refl, attr_up_refl].
  - constructor; [apply attr_up_refl|apply IH, E].
Qed.
Lemma restore c n b x x2 attrs : forall a2, get_attr n attrs = Some x -> attr_up c (n, x) (n, x2) ->
  Forall2 (attr_up c) (set_attr n b attrs) a2 -> Forall2 (attr_up c) attrs (set_attr n x2 a2).
Proof.
  induction attrs as [|[k z] l IH]; [discriminate|]. intros a2. cbn [get_attr set_attr]. destruct (String.eqb_spec k n) as [->|N]; intros E R F;
    inversion F as [|p [k' z'] l1 l2 (E' & R') F']; subst; cbn in E'; subst k'; cbn [set_attr].
  - rewrite String.eqb_refl. injection E as ->. constructor; [exact R|exact F'].
  - destruct (String.eqb_spec k n); [contradiction|]. constructor; [split; [reflexivity|exact R']|]. apply IH; assumption.
Qed.

Lemma header_fin c attrs hc a s : msg c = true -> good c attrs -> get_attr "header" attrs = Some (VObj hc a) ->
  fin c attrs (set_attr "header" (VObj hc (set_attr "length" (VInt s) a)) attrs).
Proof.
  intros M G E.
    destruct (good_get c attrs _ _ G E) as (Bh & Oh).
    assert (Hc : hc = Header01 \/ hc = Header04) by (unfold header_ok in Oh; cbn in Oh; destruct hc; try discriminate; auto).
    apply good_built in Bh as Gh. assert (Ml : is_class_attr hc "length" = true) by (destruct Hc as [-> | ->]; reflexivity).
    destruct (good_has hc a "length" Gh Ml) as (y & Gy).
    eapply set_fin; [exact G|exact E| |apply good_built, good_set; [exact Gh|congruence|reflexivity|reflexivity]|destruct Hc as [-> | ->]; reflexivity].
      right. assert (Hf : header_of c "header" = true) by (unfold header_of; change (has_header c && true = true); rewrite (proj1 (header_kind c)), M; reflexivity).
      rewrite Hf. constructor. clear - Hc Gy. revert Gy. induction a as [|[k z] l IH]; [discriminate|]. cbn [get_attr set_attr].
      destruct (String.eqb_spec k "length") as [->|N]; intros Gy.
      - constructor; [split; [reflexivity|left; destruct Hc as [-> | ->]; reflexivity]|]. apply forall2_refl. split; [reflexivity|right; constructor].
      - constructor; [split; [reflexivity|right; constructor]|apply IH, Gy].
Qed.

Definition rec_own (c : cid) : bool :=
  match kind c with
  | KLen _ true | KTyped TInstruction | KTyped TProperty | KSetField04 | KMatch04 => recomputed c "length"
  | KOxmTLV => recomputed c "oxm_length" && recomputed c "oxm_field_and_mask" && is_class_attr c "oxm_value"
  | KPacketOut01 | KPacketOut04 => recomputed c "actions_len"
  | _ => true
  end.
Lemma rec_own_ok c : rec_own c = true.
Proof. revert c. apply all_classes. vm_compute. reflexivity. Qed.

Section Store.
  Variable st : pyval -> pyval.
  Hypothesis Hst : forall v, built v = true -> up_to_lengths v (st v) /\ built (st v) = true.

  Definition ok (v v' : pyval) : Prop := up_to_lengths v v' /\ built v' = true.
  Lemma ok_same v : built v = true -> ok v v.
  Proof. intros B. split; [constructor|exact B]. Qed.
  Lemma leaves_up_h h : forall v, (height v <= h)%nat -> built v = true -> ok v (leaves st v).
  Proof.
    assert (L : forall v, built v = true -> match v with VList _ _ _ => True | _ => ok v (leaves st v) end).
    { intros v B. destruct v; try exact I; apply Hst, B. }
    induction h as [|h IH]; intros v Hh B; pose proof (L v B) as L'; destruct v as [| | | | | | | | | | | |x|c attrs|lc pc l]; try exact L'; try (cbn in Hh; lia).
    cbn [leaves built] in *. rewrite forallb_forall in B.
    assert (E : forall x, In x l -> ok x (leaves st x)) by (intros x J; apply IH; [pose proof (height_item lc pc l x J); lia|apply B, J]).
    split.
    - constructor. clear - E. induction l as [|x l IHl]; [constructor|]. cbn [map]. constructor; [apply E; left; reflexivity|]. apply IHl. intros y J. apply E. right. exact J.
    - cbn [built]. apply forallb_forall. intros y J. apply in_map_iff in J as (x & <- & J). apply E, J.
  Qed.
  Lemma leaves_up v : built v = true -> ok v (leaves st v).
  Proof. apply (leaves_up_h (height v)), le_n. Qed.

  Lemma store1_up cv iv : built iv = true -> ok iv (store1 st cv iv).
  Proof.
    intros B. pose proof (ok_same iv B) as Sm. pose proof (Hst iv B) as Up. change (ok iv (st iv)) in Up.
    pose proof (leaves_up iv B) as Lv.
    destruct cv as [| | | | | | | | | | | |x|c a|lc pc l]; cbn [store1]; try exact Sm.
    - destruct (has_pack iv); assumption.
    - destruct iv; try exact Sm; destruct (kind c); try exact Sm; try (destruct (subclass _ c); assumption); destruct (has_pack _); assumption.
    - destruct iv; try exact Sm; (destruct (subclass _ lc); [exact Up|]); destruct (cid_eqb lc CFixedTypeList); assumption.
  Qed.

  Lemma store_fin c attrs : good c attrs -> fin c attrs (store_attrs st c attrs).
  Proof.
    intros G. pose proof G as (_ & _ & B). rewrite forallb_forall in B.
    assert (E : forall p, In p attrs -> attr_up c p (match get_attr (fst p) (class_attrs c) with Some cv => (fst p, store1 st cv (snd p)) | None => p end) /\
      built (snd (match get_attr (fst p) (class_attrs c) with Some cv => (fst p, store1 st cv (snd p)) | None => p end)) = true).
    { intros p J. specialize (B p J). destruct (get_attr (fst p) (class_attrs c)) as [cv|]; [|split; [apply attr_up_refl|exact B]].
      destruct (store1_up cv (snd p) B) as (U & B'). split; [split; [reflexivity|right; left; exact U]|exact B']. }
    assert (F : Forall2 (attr_up c) attrs (store_attrs st c attrs)).
    { unfold store_attrs. clear - E. induction attrs as [|p l IH]; [constructor|]. cbn [map]. constructor; [apply E; left; reflexivity|apply IH; intros q J; apply E; right; exact J]. }
    split; [exact F|]. eapply up_good; [exact G|exact F|]. apply forallb_forall. intros q J. apply in_map_iff in J as (p & <- & J). apply (E p J).
  Qed.

  Lemma message_fin size c attrs : msg c = true -> good c attrs -> fin c attrs (message_store st size c attrs).
  Proof.
    intros M G. unfold message_store. destruct (size (VObj c attrs)) as [s|]; [|apply fin_refl, G].
    destruct (get_attr "header" attrs) as [h|] eqn:E; [|apply fin_refl, G].
    destruct h as [| | | | | | | | | | | | |hc a|]; try (apply fin_refl, G).
    assert (F : fin c attrs (set_attr "header" (VObj hc (set_attr "length" (VInt s) a)) attrs)) by (apply header_fin; assumption).
    eapply fin_trans; [exact F|]. apply store_fin, F.
  Qed.

  Lemma swapped_fin size c n b x x2 attrs : msg c = true -> good c attrs -> n <> "header" -> get_attr n attrs = Some x -> built b = true -> ok x x2 ->
    fin c attrs (swapped st size c n b x2 attrs).
  Proof.
    intros M G N E Bb (U & B2). unfold swapped.
    assert (Hh : forall y, header_ok (n, y) = true) by (intros y; unfold header_ok; cbn [fst]; destruct (String.eqb_spec n "header"); [contradiction|reflexivity]).
    assert (G1 : good c (set_attr n b attrs)) by (apply good_set; [exact G|congruence|exact Bb|apply Hh]).
    destruct (message_fin size c _ M G1) as (F & G2).
    split; [eapply restore; [exact E| |exact F]; split; [reflexivity|right; left; exact U]|].
    apply good_set; [exact G2| |exact B2|apply Hh].
    assert (X : get_attr n (message_store st size c (set_attr n b attrs)) <> None).
    { assert (Y : get_attr n (set_attr n b attrs) <> None) by (rewrite get_set_same; discriminate). revert F Y. generalize (message_store st size c (set_attr n b attrs)) as l2.
      generalize (set_attr n b attrs) as l1. induction 1 as [|[k z] [k' z'] l1 l2 (E1 & _) F IH]; [auto|]. cbn in E1. subst k'. cbn [get_attr].
      destruct (String.eqb k n); [discriminate|exact IH]. }
    exact X.
  Qed.

  Lemma body_fin (reply : bool) rec size' size c attrs : msg c = true -> good c attrs ->
    fin c attrs (match get_attr "body" attrs with
      | Some body =>
          match truthy size' body with
          | Ok true =>
              match body with
              | VList _ _ _ =>
                  match get_attr "multipart_type" attrs with
                  | Some mt =>
                      match body_instance reply mt with
                      | Ok (VList lc pc _) =>
                          match list_extend pc body with
                          | Ok items =>
                              match rec (VList lc pc items) with
                              | Ok b => swapped st size c "body" (VBytes b) (leaves st body) attrs
                              | Err _ => attrs
                              end
                          | Err _ => attrs
                          end
                      | _ => attrs
                      end
                  | None => attrs
                  end
              | _ =>
                  match rec body with
                  | Ok b => swapped st size c "body" (VBytes b) (st body) attrs
                  | Err _ => attrs
                  end
              end
          | Ok false => message_store st size c attrs
          | Err _ => attrs
          end
      | None => attrs
      end).
  Proof.
    intros M G. pose proof (fin_refl c attrs G) as Rf. destruct (get_attr "body" attrs) as [d|] eqn:E; [|exact Rf].
    destruct (truthy size' d) as [[|]|]; [|apply message_fin; assumption|exact Rf].
    assert (Bd : built d = true) by apply (good_get c attrs _ _ G E).
    assert (Main : fin c attrs (match rec d with Ok b => swapped st size c "body" (VBytes b) (st d) attrs | Err _ => attrs end)).
    { destruct (rec d); [|exact Rf]. eapply swapped_fin; [exact M|exact G|discriminate|exact E|reflexivity|apply Hst, Bd]. }
    destruct d as [| | | | | | | | | | | | | |lc0 pc0 l0]; try exact Main. destruct (get_attr "multipart_type" attrs) as [mt|]; [|exact Rf].
    destruct (body_instance reply mt) as [i|]; [|exact Rf]. destruct i as [| | | | | | | | | | | | | |lc pc l]; try exact Rf.
    destruct (list_extend pc (VList lc0 pc0 l0)) as [items|]; [|exact Rf]. destruct (rec (VList lc pc items)); [|exact Rf].
    eapply swapped_fin; [exact M|exact G|discriminate|exact E|reflexivity|apply leaves_up, Bd].
  Qed.

  Lemma store_obj_fin rec size' size c attrs : good c attrs -> fin c attrs (store_obj st rec size' size c attrs).
  Proof.
    intros G. pose proof (fin_refl c attrs G) as Rf. pose proof (store_fin c attrs G) as Sf.
    assert (Msg : match kind c with
      | KMessage | KErrorMsg01 | KErrorMsg04 | KErrorExp04 | KPacketOut01 | KPacketOut04 | KStatsRequest | KStatsReply
      | KMultipartRequest | KMultipartReply => msg c = true
      | _ => True
      end) by (unfold msg; destruct (kind c); auto).
    pose proof (own_kind c) as OK.
    assert (Set1 : forall n s a, good c a -> recomputed c n = true -> is_class_attr c n = true -> n <> "header" -> fin c a (set_attr n (VInt s) a)).
    { intros n s a Ga R M N. destruct (good_has c a n Ga M) as (y & Gy). eapply set_fin; [exact Ga|exact Gy|left; exact R|reflexivity|].
      unfold header_ok. cbn [fst]. destruct (String.eqb_spec n "header"); [contradiction|reflexivity]. }
    assert (Len : forall s, recomputed c "length" = true -> is_class_attr c "length" = true -> fin c attrs (store_attrs st c (set_attr "length" (VInt s) attrs))).
    { intros s R M. destruct (Set1 "length" s attrs G R M) as (F1 & G1); [discriminate|]. eapply fin_trans; [split; [exact F1|exact G1]|apply store_fin, G1]. }
    assert (Get : forall n x, get_attr n attrs = Some x -> built x = true) by (intros n x E; apply (good_get c attrs n x G E)).
    pose proof (rec_own_ok c) as RO. unfold rec_own in RO. unfold store_obj.
    destruct (kind c) as [| |s b|f| | | | | | | | | | | | | | | |] eqn:K; rewrite ?K in *; try exact Sf; try (apply message_fin; assumption).
    - destruct b; [|exact Sf]. destruct (size (VObj c attrs)); [apply Len; assumption|exact Rf].
    - destruct f; [| |exact Sf]; (destruct (size (VObj c attrs)); [apply Len; assumption|exact Rf]).
    - destruct (get_attr "field" attrs) as [f|] eqn:E; [|exact Rf]. destruct (rec f) as [fb|]; [|exact Rf].
      destruct (Hst f (Get _ _ E)) as (U & B).
      assert (F1 : fin c attrs (set_attr "field" (st f) attrs)) by (eapply set_fin; [exact G|exact E|right; apply sb_weak, U|exact B|reflexivity]).
      eapply fin_trans; [exact F1|]. destruct F1 as (_ & G1). pose proof (Set1 "length" (ceil8 (4 + zlen fb)) _ G1 RO OK ltac:(discriminate)) as F2.
      eapply fin_trans; [exact F2|]. apply store_fin, F2.
    - destruct (get_attr "oxm_class" attrs) as [cls|]; [|exact Rf]. destruct (get_attr "oxm_field" attrs) as [field|]; [|exact Rf].
      destruct (get_attr "oxm_hasmask" attrs) as [hm|]; [|exact Rf]. destruct (get_attr "oxm_value" attrs) as [val|] eqn:E; [|exact Rf].
      destruct (oxm_field_int cls field) as [fi|]; [|exact Rf]. destruct (num_of hm) as [h|]; [|exact Rf]. destruct (bin_pack rec val) as [pl|]; [|exact Rf].
      apply andb_prop in RO as [RO Rv]. apply andb_prop in RO as [Rl Rm]. destruct OK as (Ml & Mm).
      assert (Ok : ok val (if has_pack val then st val else val)) by (destruct (has_pack val); [apply Hst, (Get _ _ E)|apply ok_same, (Get _ _ E)]).
      destruct Ok as (U & B).
      pose proof (Set1 "oxm_field_and_mask" (fi * 2 + Z.land h 1) attrs G Rm Mm ltac:(discriminate)) as F1.
      eapply fin_trans; [exact F1|]. destruct F1 as (_ & G1).
      set (a1 := set_attr "oxm_field_and_mask" (VInt (fi * 2 + Z.land h 1)) attrs) in *.
      assert (E1 : get_attr "oxm_value" a1 = Some val) by (unfold a1; rewrite StructFacts.get_set_other; [exact E|discriminate]).
      assert (F2 : fin c a1 (set_attr "oxm_value" (if has_pack val then st val else val) a1)) by (eapply set_fin; [exact G1|exact E1|right; apply sb_weak, U|exact B|reflexivity]).
      eapply fin_trans; [exact F2|]. destruct F2 as (_ & G2). pose proof (Set1 "oxm_length" (zlen pl) _ G2 Rl Ml ltac:(discriminate)) as F3.
      eapply fin_trans; [exact F3|]. apply store_fin, F3.
    - destruct (struct_size size' c attrs); [apply Len; assumption|exact Rf].
    - destruct (get_attr "actions" attrs) as [acts|]; [|exact Rf].
      match goal with |- context [match ?e with Ok _ => _ | Err _ => _ end] => destruct e as [alen|] end; [|exact Rf].
      pose proof (Set1 "actions_len" alen attrs G RO OK ltac:(discriminate)) as F1. eapply fin_trans; [exact F1|]. apply message_fin; [exact Msg|apply F1].
    - destruct (get_attr "actions" attrs) as [acts|]; [|exact Rf].
      match goal with |- context [match ?e with Ok _ => _ | Err _ => _ end] => destruct e as [alen|] end; [|exact Rf].
      pose proof (Set1 "actions_len" alen attrs G RO OK ltac:(discriminate)) as F1. eapply fin_trans; [exact F1|]. apply message_fin; [exact Msg|apply F1].
    - destruct (get_attr "data" attrs) as [d|] eqn:E; [|exact Rf].
      assert (Main : fin c attrs (match rec d with Ok b => swapped st size c "data" (VBytes b) (st d) attrs | Err _ => attrs end)).
      { destruct (rec d); [|exact Rf]. eapply swapped_fin; [exact Msg|exact G|discriminate|exact E|reflexivity|apply Hst, (Get _ _ E)]. }
      destruct d; try exact Main; apply message_fin; assumption.
    - destruct (get_attr "body" attrs) as [d|] eqn:E; [|exact Rf]. destruct (has_pack d); [|apply message_fin; assumption].
      destruct (rec d); [|exact Rf]. eapply swapped_fin; [exact Msg|exact G|discriminate|exact E|reflexivity|apply Hst, (Get _ _ E)].
    - destruct (get_attr "body" attrs) as [d|] eqn:E; [|exact Rf]. destruct (truthy size' d) as [t|]; [|exact Rf].
      destruct (t && has_pack d); [|apply message_fin; assumption].
      destruct (rec d); [|exact Rf]. eapply swapped_fin; [exact Msg|exact G|discriminate|exact E|reflexivity|apply Hst, (Get _ _ E)].
    - apply (body_fin false); assumption.
    - apply (body_fin true); assumption.
  Qed.
End Store.

Lemma stored0_up n : forall v, built v = true -> up_to_lengths v (stored0 n v) /\ built (stored0 n v) = true.
Proof.
  induction n as [|n IH]; [intros v B; split; [constructor|exact B]|]. intros v B.
  destruct v as [| | | | | | | | | | | |x|c attrs|lc pc l]; try (split; [constructor|exact B]).
  - cbn [stored0]. destruct (has_pack x); [|split; [constructor|exact B]]. destruct (IH x B) as (U & B'). split; [constructor; exact U|exact B'].
  - cbn [stored0]. apply good_built in B. destruct (store_obj_fin (stored0 n) IH (pack0 n) (size0 n) (size0 (S n)) c attrs B) as (F & G).
    split; [apply up_obj_intro, F|apply good_built, G].
  - cbn [stored0 built] in *. rewrite forallb_forall in B. split.
    + constructor. clear -B IH. induction l as [|x l IHl]; [constructor|]. cbn [map]. constructor; [apply IH, B; left; reflexivity|].
      apply IHl. intros y J. apply B. right. exact J.
    + apply forallb_forall. intros y J. apply in_map_iff in J as (x & <- & J). apply IH, B, J.
Qed.
Lemma stored_up v : built v = true -> up_to_lengths v (stored v) /\ built (stored v) = true.
Proof. intros B. unfold stored. exact (stored0_up _ v B). Qed.

Lemma touched_up : forall v v', touched v v' -> built v = true -> up_to_lengths v v' /\ built v' = true.
Proof.
  fix IH 3. intros v v' T. destruct T as [v|v b P|x x' T|lc pc l l' F|c attrs attrs' F|c attrs hc h s M E|v1 v2 v3 T1 T2]; intros B.
  - split; [constructor|exact B].
  - apply stored_up, B.
  - destruct (IH x x' T B) as (U & B'). split; [constructor; exact U|exact B'].
  - cbn [built] in *. assert (X : Forall2 up_to_lengths l l' /\ forallb built l' = true).
    { induction F as [|y y' l l' R F IHF]; [split; [constructor|reflexivity]|]. cbn [forallb] in B. apply andb_prop in B as [By Bl].
      destruct (IH y y' R By) as (U & By'). destruct (IHF Bl) as (U2 & Bl'). split; [constructor; assumption|]. cbn [forallb]. rewrite By', Bl'. reflexivity. }
    destruct X as (X & B'). split; [constructor; exact X|exact B'].
  - apply good_built in B as G. cbn [built] in B. apply andb_prop in B as [_ B].
    assert (X : Forall2 (attr_up c) attrs attrs' /\ forallb (fun p => built (snd p)) attrs' = true).
    { clear G. induction F as [|p q l l' (E & R) F IHF]; [split; [constructor|reflexivity]|]. cbn [forallb] in B. apply andb_prop in B as [By Bl].
      destruct (IH _ _ R By) as (U & By'). destruct (IHF Bl) as (U2 & Bl'). split; [constructor; [split; [exact E|right; left; exact U]|exact U2]|].
      cbn [forallb]. rewrite By', Bl'. reflexivity. }
    destruct X as (X & B'). split; [apply up_obj_intro, X|]. apply good_built. eapply up_good; eassumption.
  - apply good_built in B. destruct (header_fin c attrs hc h s) as (F & G); [rewrite <- (proj1 (header_kind c)); exact M|exact B|exact E|].
    split; [apply up_obj_intro, F|apply good_built, G].
  - destruct (IH _ _ T1 B) as (U1 & B1). destruct (IH _ _ T2 B1) as (U2 & B2). split; [eapply sb_trans; eassumption|exact B2].
Qed.

Lemma touched_pack v v' : built v = true -> touched v v' -> pack v' = pack v /\ get_size v' = get_size v.
Proof. intros B T. destruct (touched_up v v' T B) as (U & _). split; [apply up_pack; assumption|apply up_size; assumption]. Qed.
