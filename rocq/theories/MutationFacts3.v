(** pack() of an object that has been packed: every kind of object. *)
From Coq Require Import ZArith List Bool String Lia.
From Verif Require Import Base PyText Ids PyVal Classes Interp Mutation SpecMutation ClassFacts StructFacts DispatchFacts
  FuelFacts Totality MutationFacts MutationFacts2.
Import ListNotations.
Open Scope string_scope.
Open Scope list_scope.
Open Scope Z_scope.

Lemma ok_le {A} (r r' : res A) x : le_res r r' -> r = Ok x -> r' = Ok x.
Proof. intros [->|E] H; congruence. Qed.

Lemma stored_shape m v : is_list (stored0 m v) = is_list v.
Proof. destruct m; [reflexivity|]. destruct v; try reflexivity. cbn [stored0]. destruct (has_pack v); reflexivity. Qed.
Lemma stored_bytes m b : stored0 m (VBin (VBytes b)) = VBin (VBytes b).
Proof. destruct m; reflexivity. Qed.

Definition header_class (c : cid) : Prop := c = Header01 \/ c = Header04.
Lemma stored_header m c a x : header_class c -> get_attr "length" a = Some x ->
  exists a', stored0 m (VObj c a) = VObj c a' /\ get_attr "length" a' = Some x.
Proof.
  intros H G. destruct m as [|m]; [exists a; auto|]. eexists. split; [reflexivity|].
  destruct H as [-> | ->]; unfold store_obj; [change (kind Header01) with KStruct|change (kind Header04) with KStruct]; cbn iota; rewrite get_store, G; reflexivity.
Qed.

Section Obj.
  Variables n m : nat.
  Hypothesis Hnm : (n <= m)%nat.
  Notation rec := (pack0 n).
  Notation st := (stored0 m).
  Hypothesis Hst : forall v b, built v = true -> rec v = Ok b ->
    rec (st v) = Ok b /\ only_computed v (st v) /\ built (st v) = true.
  Hypothesis Hlist : forall lc pc l b, forallb built l = true -> rec (VList lc pc l) = Ok b ->
    rec (VList lc pc (map st l)) = Ok b /\ Forall2 only_computed l (map st l) /\ forallb built (map st l) = true.

  Lemma sz_up v s : size0 (S n) v = Ok s -> size0 (S m) v = Ok s.
  Proof. apply ok_le, size0_mono. lia. Qed.
  Lemma pk_up v b : rec v = Ok b -> pack0 m v = Ok b.
  Proof. apply ok_le, pack0_mono. lia. Qed.
  Lemma sizes_le : le_fun (size0 n) (size0 m).
  Proof. intros v. apply size0_mono. exact Hnm. Qed.
  Lemma packs_le : le_fun rec (pack0 m).
  Proof. intros v. apply pack0_mono. exact Hnm. Qed.

  Definition fine (c : cid) (attrs attrs' : list (string * pyval)) : Prop := Forall2 (attr_rel c) attrs attrs' /\ good c attrs'.
  Lemma fine_trans c a b d : Forall2 (attr_rel c) a b -> fine c b d -> fine c a d.
  Proof. intros F (F' & G). split; [eapply attr_rel_trans; eassumption|exact G]. Qed.
  Lemma fine_size k c a a' : good c a -> fine c a a' -> size0 k (VObj c a') = size0 k (VObj c a).
  Proof. intros G (F & _). apply oc_size; [apply good_built, G|constructor; exact F]. Qed.
  Lemma store_fine c attrs b : good c attrs -> struct_pack rec c attrs = Ok b ->
    struct_pack rec c (store_attrs st c attrs) = Ok b /\ fine c attrs (store_attrs st c attrs).
  Proof.
    intros G H. destruct (store_good rec st Hst Hlist (stored_shape m) c attrs b G H) as (H' & F & G'). split; [exact H'|]. split; assumption.
  Qed.

  Definition kept_at (c : cid) (name : string) (attrs attrs' : list (string * pyval)) : Prop :=
    get_attr name attrs' = match get_attr name attrs with
                           | Some x => Some (match get_attr name (class_attrs c) with Some cv => store1 st cv x | None => x end)
                           | None => None
                           end.

  Definition header_table (c : cid) : bool :=
    match get_attr "header" (class_attrs c) with
    | None => true | Some (VObj (Header01 | Header04) _) => true | _ => false end.
  Lemma header_table_ok c : header_table c = true.
  Proof. revert c. apply all_classes. vm_compute. reflexivity. Qed.

  Lemma good_get c attrs name x : good c attrs -> get_attr name attrs = Some x -> built x = true /\ header_ok (name, x) = true.
  Proof.
    intros (_ & Hh & B) G. rewrite forallb_forall in Hh, B.
    assert (I : In (name, x) attrs).
    { clear - G. induction attrs as [|[k y] l IH]; [discriminate|]. cbn in G. destruct (String.eqb_spec k name) as [->|]; [left; congruence|right; apply IH, G]. }
    split; [apply (B _ I)|apply (Hh _ I)].
  Qed.

  Lemma message_ok c attrs b : good c attrs -> message_pack rec (size0 (S n)) c attrs = Ok b ->
    let attrs' := message_store st (size0 (S m)) c attrs in
    message_pack rec (size0 (S n)) c attrs' = Ok b /\ fine c attrs attrs' /\
    (forall name, name <> "header" -> kept_at c name attrs attrs').
  Proof.
    intros G. unfold message_pack at 1, message_store. destruct (size0 (S n) (VObj c attrs)) as [s|] eqn:Sz; [|discriminate].
    cbn [bind]. rewrite (sz_up _ _ Sz). unfold attr_or_error at 1. destruct (get_attr "header" attrs) as [h|] eqn:Gh; [|discriminate]. cbn [bind].
    destruct h as [| | | | | | | | | | | | |hc hattrs|]; try discriminate. intros P.
    destruct (good_get c attrs _ _ G Gh) as (Bh & Hh).
    assert (Hc : header_class hc) by (unfold header_ok in Hh; cbn in Hh; unfold header_class; destruct hc; try discriminate; auto).
    apply good_built in Bh as Gdh.
    assert (Ml : is_class_attr hc "length" = true /\ computed hc "length" = true) by (destruct Hc as [-> | ->]; split; reflexivity).
    destruct Ml as (Ml & Cl). destruct (good_has hc hattrs "length" Gdh Ml) as (x & Gx).
    set (h1 := VObj hc (set_attr "length" (VInt s) hattrs)) in *.
    assert (Gh1 : good hc (set_attr "length" (VInt s) hattrs)) by (apply good_set; [exact Gdh|congruence|reflexivity|reflexivity]).
    assert (Oh : only_computed (VObj hc hattrs) h1) by (constructor; eapply set_rel; [exact Gx|left; exact Cl]).
    assert (Gd1 : good c (set_attr "header" h1 attrs)).
    { apply good_set; [exact G|congruence|apply good_built, Gh1|]. destruct Hc as [-> | ->]; reflexivity. }
    assert (F1 : Forall2 (attr_rel c) attrs (set_attr "header" h1 attrs)) by (eapply set_rel; [exact Gh|right; exact Oh]).
    destruct (store_fine c _ b Gd1 P) as (P' & F').
    set (attrs' := store_attrs st c (set_attr "header" h1 attrs)) in *.
    assert (F : fine c attrs attrs') by (eapply fine_trans; eassumption).
    assert (Hh' : exists a', get_attr "header" attrs' = Some (VObj hc a') /\ get_attr "length" a' = Some (VInt s)).
    { unfold attrs'. rewrite get_store, get_set_same. pose proof (header_table_ok c) as T. unfold header_table in T.
      assert (Gl : get_attr "length" (set_attr "length" (VInt s) hattrs) = Some (VInt s)) by apply get_set_same.
      destruct (stored_header m hc _ _ Hc Gl) as (a' & E & Ga).
      destruct (get_attr "header" (class_attrs c)) as [cv|]; [|eexists; split; [reflexivity|exact Gl]].
      destruct cv as [| | | | | | | | | | | | |kc ka|]; try discriminate.
      assert (Es : store1 st (VObj kc ka) h1 = if subclass hc kc then st h1 else h1).
      { destruct kc; try discriminate; reflexivity. }
      rewrite Es. destruct (subclass hc kc); [exists a'; rewrite <- E; auto|eexists; split; [reflexivity|exact Gl]]. }
    destruct Hh' as (a' & Ga & Gl'). split; [|split].
    - unfold message_pack. rewrite (fine_size (S n) c attrs attrs' G F), Sz. cbn [bind]. unfold attr_or_error. rewrite Ga. cbn [bind].
      rewrite (set_same _ _ _ Gl'), (set_same _ _ _ Ga). exact P'.
    - exact F.
    - intros name Nn. unfold kept_at, attrs'. rewrite get_store, get_set_other by exact Nn. reflexivity.
  Qed.

  (** An attribute that is packed first and put back at the end. *)
  Lemma swap_ok c name y d x attrs b :
    good c attrs -> get_attr name attrs = Some d -> name <> "header" ->
    (forall cv, get_attr name (class_attrs c) = Some cv -> store1 st cv y = y) -> built y = true -> header_ok (name, y) = true ->
    only_computed d x -> built x = true -> header_ok (name, x) = true ->
    message_pack rec (size0 (S n)) c (set_attr name y attrs) = Ok b ->
    let attrs' := swapped st (size0 (S m)) c name y x attrs in
    message_pack rec (size0 (S n)) c (set_attr name y attrs') = Ok b /\ fine c attrs attrs' /\
    get_attr name attrs' = Some x /\ (forall k, k <> "header" -> k <> name -> kept_at c k attrs attrs').
  Proof.
    intros G Gd Nh Hy By Hhy O Bx Hx P. unfold swapped. cbn zeta.
    assert (G1 : good c (set_attr name y attrs)) by (apply good_set; congruence).
    destruct (message_ok c _ b G1 P) as (P' & (F & G') & K). set (a1 := message_store _ _ _ _) in *.
    assert (Gy : get_attr name a1 = Some y).
    { rewrite (K name Nh), get_set_same. destruct (get_attr name (class_attrs c)) as [cv|]; [rewrite (Hy cv eq_refl)|]; reflexivity. }
    split; [|split; [|split]].
    - rewrite set_twice, (set_same _ _ _ Gy). exact P'.
    - split.
      + clearbody a1. clear - F Gd O. revert a1 F. induction attrs as [|[k z] l IH]; intros a1 F; [discriminate|]. cbn in *.
        destruct (String.eqb_spec k name) as [->|N].
        * injection Gd as ->. inversion F as [|p q t t' R F' E1 E2]; subst. destruct q as [k' z']. destruct R as (E & _). cbn in E. subst k'.
          cbn. rewrite String.eqb_refl. constructor; [split; [reflexivity|right; exact O]|exact F'].
        * inversion F as [|p q t t' R F' E1 E2]; subst. destruct q as [k' z']. destruct R as (E & R). cbn in E. subst k'.
          cbn. destruct (String.eqb_spec k name); [congruence|]. constructor; [split; [reflexivity|exact R]|]. apply IH; assumption.
      + apply good_set; [exact G'|congruence|exact Bx|exact Hx].
    - apply get_set_same.
    - intros k N1 N2. unfold kept_at. rewrite get_set_other by exact N2. rewrite (K k N1). rewrite get_set_other by exact N2. reflexivity.
  Qed.

  Definition table (c : cid) : bool :=
    match kind c with
    | KLen _ true | KTyped TInstruction | KTyped TProperty | KMatch04 | KSetField04 =>
        computed c "length" && is_class_attr c "length"
    | KOxmTLV => cid_eqb c OxmTLV04
    | KPacketOut01 => cid_eqb c PacketOut01
    | KPacketOut04 => cid_eqb c PacketOut04
    | KErrorMsg01 => cid_eqb c ErrorMsg01
    | KStatsRequest => cid_eqb c StatsRequest01
    | KStatsReply => cid_eqb c StatsReply01
    | KMultipartRequest => cid_eqb c MultipartRequest04
    | KMultipartReply => cid_eqb c MultipartReply04
    | _ => true
    end.
  Lemma table_ok c : table c = true.
  Proof. revert c. apply all_classes. vm_compute. reflexivity. Qed.
  Lemma table_setfield c : kind c = KSetField04 -> exists a, get_attr "field" (class_attrs c) = Some (VObj OxmTLV04 a).
  Proof.
    intros K.
    assert (T : match kind c with KSetField04 => cid_eqb c ActionSetField04 | _ => true end = true)
      by (clear K; revert c; apply all_classes; vm_compute; reflexivity).
    rewrite K in T. apply cid_eqb_eq in T. subst c. eexists. reflexivity.
  Qed.

  Definition result (c : cid) (attrs : list (string * pyval)) (b : bytes) (attrs' : list (string * pyval)) : Prop :=
    pack_obj rec (size0 n) (size0 (S n)) c attrs' = Ok b /\ fine c attrs attrs'.

  (** Objects that store their length first. *)
  Lemma computed_store c name z attrs b : good c attrs -> computed c name = true -> is_class_attr c name = true ->
    struct_pack rec c (set_attr name (VInt z) attrs) = Ok b ->
    let attrs' := store_attrs st c (set_attr name (VInt z) attrs) in
    struct_pack rec c attrs' = Ok b /\ fine c attrs attrs' /\ set_attr name (VInt z) attrs' = attrs'.
  Proof.
    intros G C M P. destruct (good_has c attrs name G M) as (x & Gx). cbn zeta.
    assert (Nh : name <> "header").
    { intros ->. clear - C. revert C. assert (T : negb (computed c "header") = true) by (revert c; apply all_classes; vm_compute; reflexivity).
      apply negb_true_iff in T. congruence. }
    assert (G1 : good c (set_attr name (VInt z) attrs)).
    { apply good_set; [exact G|congruence|reflexivity|]. unfold header_ok. cbn [fst snd]. destruct (String.eqb name "header"); reflexivity. }
    destruct (store_fine c _ b G1 P) as (P' & F'). split; [exact P'|]. split.
    - eapply fine_trans; [|exact F']. eapply set_rel; [exact Gx|left; exact C].
    - apply set_same. rewrite get_store, get_set_same. destruct (computed_uint c name C M) as (w & er & d & E).
      apply lookup_some in M. rewrite M, E. reflexivity.
  Qed.

  Lemma header_ok_other name x : name <> "header" -> header_ok (name, x) = true.
  Proof. intros N. unfold header_ok. cbn [fst]. destruct (String.eqb_spec name "header"); [congruence|reflexivity]. Qed.

  Lemma setfield_ok c attrs b : good c attrs -> kind c = KSetField04 -> setfield_pack rec c attrs = Ok b ->
    let attrs' := store_obj st (pack0 m) (size0 m) (size0 (S m)) c attrs in
    setfield_pack rec c attrs' = Ok b /\ fine c attrs attrs'.
  Proof.
    intros G K P. pose proof (table_ok c) as T. unfold table in T. rewrite K in T. apply andb_prop in T as [C M].
    destruct (table_setfield c K) as (ca & Ef).
    unfold setfield_pack, attr_or_error in P. destruct (get_attr "field" attrs) as [f|] eqn:Gf; [|discriminate]. cbn [bind] in P.
    destruct (has_pack f) eqn:Hp; [|discriminate]. destruct (rec f) as [fb|] eqn:Rf; [|discriminate]. cbn [bind] in P. cbn zeta in P.
    set (len := ceil8 (4 + zlen fb)) in *.
    destruct (struct_pack rec c (set_attr "length" (VInt len) attrs)) as [p|] eqn:Ps; [|discriminate].
    cbn zeta. unfold store_obj. rewrite K, Gf, (pk_up _ _ Rf). fold len.
    destruct (good_get c attrs _ _ G Gf) as (Bf & _). destruct (Hst f fb Bf Rf) as (Rf' & Of & Bf').
    assert (G1 : good c (set_attr "field" (st f) attrs)).
    { apply good_set; [exact G|congruence|exact Bf'|apply header_ok_other; discriminate]. }
    assert (Ps1 : struct_pack rec c (set_attr "length" (VInt len) (set_attr "field" (st f) attrs)) = Ok p).
    { destruct (good_has c attrs "length" G M) as (x & Gx).
      assert (G2 : good c (set_attr "length" (VInt len) attrs)) by (apply good_set; [exact G|congruence|reflexivity|reflexivity]).
      assert (R12 : Forall2 (attr_rel c) (set_attr "length" (VInt len) attrs) (set_attr "length" (VInt len) (set_attr "field" (st f) attrs)) /\
                    Forall2 (packs_like rec c) (set_attr "length" (VInt len) attrs) (set_attr "length" (VInt len) (set_attr "field" (st f) attrs))).
      { assert (Each : forall R : (string * pyval) -> (string * pyval) -> Prop, (forall q, R q q) -> R ("field", f) ("field", st f) ->
          Forall2 R (set_attr "length" (VInt len) attrs) (set_attr "length" (VInt len) (set_attr "field" (st f) attrs))).
        { intros R Rr Rff. clear - Rr Rff Gf. induction attrs as [|[k z] l IH]; [discriminate|]. cbn in *.
          destruct (String.eqb_spec k "field") as [->|N].
          - injection Gf as ->. cbn. constructor; [exact Rff|]. apply forall2_refl, Rr.
          - cbn. destruct (String.eqb_spec k "length").
            + constructor; [apply Rr|]. clear - Rr Rff Gf. induction l as [|[k z] l IH]; [discriminate|]. cbn in *.
              destruct (String.eqb_spec k "field") as [->|N]; [injection Gf as ->; constructor; [exact Rff|apply forall2_refl, Rr]|].
              constructor; [apply Rr|apply IH, Gf].
            + constructor; [apply Rr|]. apply IH, Gf. }
        split; apply Each.
        - apply attr_rel_refl.
        - split; [reflexivity|right; exact Of].
        - intros q. split; auto.
        - split; [reflexivity|]. cbn [fst snd]. unfold lookup. rewrite Ef. intros b'.
          assert (Nf : f <> VNone) by (destruct f; discriminate).
          assert (Nf' : st f <> VNone) by (intros E; apply Nf, (oc_none _ _ Of), E).
          rewrite !pack1_obj by assumption. change (kind OxmTLV04) with KOxmTLV. cbn iota.
          rewrite (oc_has_pack _ _ Of), Hp. congruence. }
      destruct R12 as (R1 & R2). eapply struct_pack_like; [apply G2|exact R2|apply valid_rel, R1|exact Ps]. }
    destruct (computed_store c "length" len _ p G1 C M Ps1) as (P' & F' & E'). set (a' := store_attrs _ _ _) in *.
    split.
    - unfold setfield_pack, attr_or_error.
      assert (Gf' : get_attr "field" a' = Some (st (st f))).
      { unfold a'. rewrite get_store, get_set_other by discriminate. rewrite get_set_same, Ef.
        cbn [store1]. change (kind OxmTLV04) with KOxmTLV. cbn iota. rewrite (oc_has_pack _ _ Of), Hp.
        assert (Nf : st f <> VNone) by (intros E; apply (oc_none _ _ Of) in E; subst f; discriminate).
        destruct (st f); try reflexivity. congruence. }
      rewrite Gf'. cbn [bind]. destruct (Hst (st f) fb Bf' Rf') as (Rf2 & Of2 & _).
      rewrite (oc_has_pack _ _ Of2), (oc_has_pack _ _ Of), Hp, Rf2. cbn [bind]. fold len. rewrite E', P'. exact P.
    - eapply fine_trans; [|exact F']. eapply set_rel; [exact Gf|right; exact Of].
  Qed.

  (** Replacing one attribute by one that packs alike. *)
  Lemma replace_like c name x x' attrs b : good c attrs -> get_attr name attrs = Some x -> only_computed x x' ->
    (forall b, pack1 rec (lookup c name) x = Ok b -> pack1 rec (lookup c name) x' = Ok b) ->
    struct_pack rec c attrs = Ok b -> struct_pack rec c (set_attr name x' attrs) = Ok b.
  Proof.
    intros G Gx O L P.
    assert (Each : forall R : (string * pyval) -> (string * pyval) -> Prop, (forall q, R q q) -> R (name, x) (name, x') ->
      Forall2 R attrs (set_attr name x' attrs)).
    { intros R Rr Rx. clear - Rr Rx Gx. induction attrs as [|[k z] l IH]; [discriminate|]. cbn in *.
      destruct (String.eqb_spec k name) as [->|N]; [injection Gx as ->; constructor; [exact Rx|apply forall2_refl, Rr]|].
      constructor; [apply Rr|apply IH, Gx]. }
    eapply struct_pack_like; [apply G| |apply valid_rel, Each|exact P].
    - apply Each; [intros q; split; auto|split; [reflexivity|exact L]].
    - apply attr_rel_refl.
    - split; [reflexivity|right; exact O].
  Qed.

  Lemma set_comm k k' x x' attrs : k <> k' -> get_attr k attrs <> None ->
    set_attr k x (set_attr k' x' attrs) = set_attr k' x' (set_attr k x attrs).
  Proof.
    intros N. induction attrs as [|[a z] l IH]; cbn; [congruence|]. intros G.
    destruct (String.eqb_spec a k') as [->|N1].
    - destruct (String.eqb_spec k' k); [congruence|]. cbn.
      destruct (String.eqb_spec k' k); [congruence|]. rewrite String.eqb_refl. reflexivity.
    - destruct (String.eqb_spec a k) as [->|N2]; cbn.
      + rewrite String.eqb_refl. destruct (String.eqb_spec k k'); [congruence|]. reflexivity.
      + destruct (String.eqb_spec a k); [congruence|]. destruct (String.eqb_spec a k'); [congruence|]. f_equal. apply IH, G.
  Qed.

  Lemma oxm_ok_again attrs b : good OxmTLV04 attrs -> oxm_pack rec OxmTLV04 attrs = Ok b ->
    let attrs' := store_obj st (pack0 m) (size0 m) (size0 (S m)) OxmTLV04 attrs in
    oxm_pack rec OxmTLV04 attrs' = Ok b /\ fine OxmTLV04 attrs attrs'.
  Proof.
    intros G P. unfold oxm_pack, attr_or_error in P.
    destruct (get_attr "oxm_class" attrs) as [cls|] eqn:Gc; [|discriminate]. cbn [bind] in P.
    destruct (get_attr "oxm_field" attrs) as [fld|] eqn:Gf; [|discriminate]. cbn [bind] in P.
    destruct (oxm_field_int cls fld) as [fi|e] eqn:Fi; [|destruct e; discriminate]. cbn [recast bind] in P.
    destruct (get_attr "oxm_hasmask" attrs) as [hm|] eqn:Gm; [|discriminate]. cbn [bind] in P.
    destruct (num_of hm) as [h|] eqn:Nh; [|discriminate]. cbn [bind] in P.
    destruct (get_attr "oxm_value" attrs) as [val|] eqn:Gv; [|discriminate]. cbn [bind] in P.
    destruct (bin_pack rec val) as [payload|] eqn:Pv; [|discriminate]. cbn [bind] in P.
    cbn zeta. unfold store_obj. change (kind OxmTLV04) with KOxmTLV. cbn iota. rewrite Gc, Gf, Gm, Gv, Fi, Nh.
    rewrite (ok_le _ _ _ (le_bin_pack _ _ val packs_le) Pv).
    set (fam := fi * 2 + Z.land h 1) in *. set (c := OxmTLV04) in *.
    destruct (good_get c attrs _ _ G Gv) as (Bv & _).
    destruct (bin_ok rec st Hst val payload Bv Pv) as (Pv' & Ov & Bv'). cbn zeta in Pv', Ov, Bv'.
    set (val' := if has_pack val then st val else val) in *.
    destruct (good_has c attrs "oxm_field_and_mask" G eq_refl) as (xf & Gxf).
    destruct (good_has c attrs "oxm_length" G eq_refl) as (xl & Gxl).
    assert (G1 : good c (set_attr "oxm_field_and_mask" (VInt fam) attrs)) by (apply good_set; [exact G|congruence|reflexivity|reflexivity]).
    assert (G2 : good c (set_attr "oxm_length" (VInt (zlen payload)) (set_attr "oxm_field_and_mask" (VInt fam) attrs))).
    { apply good_set; [exact G1|rewrite get_set_other by discriminate; congruence|reflexivity|reflexivity]. }
    assert (Like : forall x x' p, bin_pack rec x = Ok p -> bin_pack rec x' = Ok p -> only_computed x x' ->
      forall b, pack1 rec (lookup c "oxm_value") x = Ok b -> pack1 rec (lookup c "oxm_value") x' = Ok b).
    { intros x x' p X X' O b'. change (lookup c "oxm_value") with (VBin VNone).
      assert (N : x = VNone \/ x <> VNone) by (destruct x; auto; right; discriminate). destruct N as [->|N].
      - apply oc_inv in O. subst x'. auto.
      - rewrite !pack1_bin; [congruence| |exact N]. intros ->. apply N, (oc_none _ _ O). reflexivity. }
    assert (P1 : struct_pack rec c (set_attr "oxm_value" val' (set_attr "oxm_length" (VInt (zlen payload)) (set_attr "oxm_field_and_mask" (VInt fam) attrs))) = Ok b).
    { eapply replace_like with (x := val); [exact G2| |exact Ov|exact (Like _ _ _ Pv Pv' Ov)|exact P].
      rewrite !get_set_other by discriminate. exact Gv. }
    rewrite set_comm in P1 by (try discriminate; rewrite get_set_other by discriminate; congruence).
    set (a1 := set_attr "oxm_value" val' (set_attr "oxm_field_and_mask" (VInt fam) attrs)) in *.
    assert (Ga1 : good c a1).
    { apply good_set; [exact G1|rewrite get_set_other by discriminate; congruence|exact Bv'|reflexivity]. }
    destruct (computed_store c "oxm_length" (zlen payload) a1 b Ga1 eq_refl eq_refl P1) as (P' & F' & E'). set (a' := store_attrs _ _ _) in *.
    assert (Fam : set_attr "oxm_field_and_mask" (VInt fam) a' = a').
    { apply set_same. unfold a', a1. rewrite get_store. rewrite !get_set_other by discriminate. rewrite get_set_same. reflexivity. }
    split.
    - unfold oxm_pack, attr_or_error.
      assert (K : forall k, In k ["oxm_class"; "oxm_field"; "oxm_hasmask"] -> get_attr k a' = get_attr k attrs).
      { intros k I. unfold a', a1. rewrite get_store. destruct I as [<-|[<-|[<-|[]]]];
          rewrite !get_set_other by discriminate; rewrite ?Gc, ?Gf, ?Gm; reflexivity. }
      rewrite !K by (cbn; auto). rewrite Gc, Gf, Gm. cbn [bind]. rewrite Fi. cbn [recast bind]. rewrite Nh. cbn [bind].
      assert (Gv' : get_attr "oxm_value" a' = Some (if has_pack val' then st val' else val')).
      { unfold a', a1. rewrite get_store. rewrite get_set_other by discriminate. rewrite get_set_same. reflexivity. }
      rewrite Gv'. cbn [bind]. destruct (bin_ok rec st Hst val' payload Bv' Pv') as (Pv2 & _). cbn zeta in Pv2. rewrite Pv2. cbn [bind].
      fold fam. rewrite Fam, E'. exact P'.
    - eapply fine_trans; [|exact F']. unfold a1. eapply attr_rel_trans.
      + eapply set_rel; [exact Gxf|left; reflexivity].
      + eapply set_rel; [rewrite get_set_other by discriminate; exact Gv|right; exact Ov].
  Qed.

  Lemma size_struct c attrs attrs' : good c attrs -> fine c attrs attrs' ->
    struct_size (size0 n) c attrs' = struct_size (size0 n) c attrs.
  Proof. intros (A & _ & B) (F & _). apply oc_struct_size; [apply oc_size|exact A|exact B|exact F]. Qed.

  Lemma match_ok_again c attrs b : good c attrs -> kind c = KMatch04 -> match04_pack rec (size0 n) (size0 (S n)) c attrs = Ok b ->
    let attrs' := store_obj st (pack0 m) (size0 m) (size0 (S m)) c attrs in
    match04_pack rec (size0 n) (size0 (S n)) c attrs' = Ok b /\ fine c attrs attrs'.
  Proof.
    intros G K P. pose proof (table_ok c) as T. unfold table in T. rewrite K in T. apply andb_prop in T as [C M].
    unfold match04_pack in P. destruct (struct_size (size0 n) c attrs) as [s|] eqn:Sz; [|discriminate]. cbn [bind] in P. cbn zeta in P.
    destruct (struct_pack rec c (set_attr "length" (VInt s) attrs)) as [p|] eqn:Ps; [|discriminate]. cbn [bind] in P.
    cbn zeta. unfold store_obj. rewrite K. rewrite (ok_le _ _ _ (le_struct_size _ _ c attrs sizes_le) Sz).
    destruct (computed_store c "length" s attrs p G C M Ps) as (P' & F' & E'). set (a' := store_attrs _ _ _) in *.
    split; [|exact F']. unfold match04_pack. rewrite (size_struct c attrs a' G F'), Sz. cbn [bind]. cbn zeta. rewrite E', P'. cbn [bind].
    rewrite (fine_size (S n) c attrs a' G F').
    destruct (good_has c attrs "length" G M) as (x & Gx).
    rewrite <- (fine_size (S n) c attrs (set_attr "length" (VInt s) attrs) G); [exact P|].
    split; [eapply set_rel; [exact Gx|left; exact C]|]. apply good_set; [exact G|congruence|reflexivity|reflexivity].
  Qed.

  Lemma len_ok_again c attrs b : good c attrs -> computed c "length" = true -> is_class_attr c "length" = true ->
    (do s <- size0 (S n) (VObj c attrs); struct_pack rec c (set_attr "length" (VInt s) attrs)) = Ok b ->
    let attrs' := match size0 (S m) (VObj c attrs) with
                  | Ok s => store_attrs st c (set_attr "length" (VInt s) attrs) | Err _ => attrs end in
    (do s <- size0 (S n) (VObj c attrs'); struct_pack rec c (set_attr "length" (VInt s) attrs')) = Ok b /\ fine c attrs attrs'.
  Proof.
    intros G C M P. destruct (size0 (S n) (VObj c attrs)) as [s|] eqn:Sz; [|discriminate]. cbn [bind] in P.
    cbn zeta. rewrite (sz_up _ _ Sz). destruct (computed_store c "length" s attrs b G C M P) as (P' & F' & E'). set (a' := store_attrs _ _ _) in *.
    split; [|exact F']. rewrite (fine_size (S n) c attrs a' G F'), Sz. cbn [bind]. rewrite E'. exact P'.
  Qed.

  Lemma kept_rel c k attrs attrs' : fine c attrs attrs' -> computed c k = false ->
    match get_attr k attrs with
    | Some x => exists x', get_attr k attrs' = Some x' /\ only_computed x x'
    | None => get_attr k attrs' = None
    end.
  Proof. intros (F & _) C. exact (rel_get c attrs attrs' k F C). Qed.

  Definition actions_size (f : pyval -> res Z) (lc : cid) (acts : pyval) : res Z :=
    if subclass (class_of acts) lc then f acts
    else match list_item lc with
         | Some pc => do items <- list_init f pc acts; f (VList lc pc items)
         | None => Err TypeError
         end.
  Lemma actions_size_oc lc acts acts' : built acts = true -> only_computed acts acts' ->
    actions_size (size0 n) lc acts' = actions_size (size0 n) lc acts.
  Proof.
    intros B O. unfold actions_size. rewrite (oc_class _ _ O). rewrite (oc_size n _ _ B O).
    destruct (subclass _ _); [reflexivity|]. destruct (list_item lc) as [pc|]; [|reflexivity].
    pose proof (oc_list_init (size0 n) pc _ _ O (oc_size n _ _ B O)) as L.
    destruct (list_init (size0 n) pc acts) as [items|] eqn:E; [|rewrite L; reflexivity].
    destruct L as (items' & -> & F). cbn [bind]. apply oc_size; [|constructor; exact F]. cbn [built]. eapply list_init_built; eassumption.
  Qed.
  Lemma actions_size_up lc acts s : actions_size (size0 n) lc acts = Ok s -> actions_size (size0 m) lc acts = Ok s.
  Proof.
    apply ok_le. unfold actions_size. destruct (subclass _ _); [apply sizes_le|]. destruct (list_item lc); [|apply le_refl].
    apply le_bind; [apply le_list_init, sizes_le|]. intros a. apply sizes_le.
  Qed.

  Lemma packet_out_again c lc attrs b : good c attrs -> computed c "actions_len" = true -> computed c "actions" = false ->
    is_class_attr c "actions_len" = true ->
    packet_out_pack rec (size0 n) (size0 (S n)) lc c attrs = Ok b ->
    let attrs' := match get_attr "actions" attrs with
        | Some acts => match actions_size (size0 m) lc acts with
                       | Ok alen => message_store st (size0 (S m)) c (set_attr "actions_len" (VInt alen) attrs)
                       | Err _ => attrs end
        | None => attrs end in
    packet_out_pack rec (size0 n) (size0 (S n)) lc c attrs' = Ok b /\ fine c attrs attrs'.
  Proof.
    intros G C Ca M P. unfold packet_out_pack, attr_or_error in P. destruct (get_attr "actions" attrs) as [acts|] eqn:Ga; [|discriminate].
    cbn [bind] in P. fold (actions_size (size0 n) lc acts) in P. destruct (actions_size (size0 n) lc acts) as [alen|] eqn:As; [|discriminate]. cbn [bind] in P.
    cbn zeta. rewrite (actions_size_up _ _ _ As). destruct (good_has c attrs "actions_len" G M) as (x & Gx).
    assert (G1 : good c (set_attr "actions_len" (VInt alen) attrs)) by (apply good_set; [exact G|congruence|reflexivity|reflexivity]).
    assert (F1 : Forall2 (attr_rel c) attrs (set_attr "actions_len" (VInt alen) attrs)) by (eapply set_rel; [exact Gx|left; exact C]).
    destruct (message_ok c _ b G1 P) as (P' & F' & K). set (a' := message_store _ _ _ _) in *.
    assert (F : fine c attrs a') by (eapply fine_trans; eassumption).
    split; [|exact F]. unfold packet_out_pack, attr_or_error.
    pose proof (kept_rel c "actions" attrs a' F Ca) as Ka. rewrite Ga in Ka. destruct Ka as (acts' & -> & Oa). cbn [bind].
    fold (actions_size (size0 n) lc acts'). rewrite (actions_size_oc lc acts acts'); [|apply (good_get c attrs _ _ G Ga)|exact Oa].
    rewrite As. cbn [bind]. rewrite (set_same "actions_len" (VInt alen) a'); [exact P'|].
    rewrite (K "actions_len") by discriminate. rewrite get_set_same.
    destruct (computed_uint c "actions_len" C M) as (w & er & d & E). apply lookup_some in M. rewrite M, E. reflexivity.
  Qed.

  Lemma bytes_store c name z : get_attr name (class_attrs c) = Some (VBin z) ->
    forall y, In y [VBytes []] \/ (exists b, y = VBytes b \/ y = VBin (VBytes b)) ->
    forall cv, get_attr name (class_attrs c) = Some cv -> store1 st cv y = y.
  Proof.
    intros E y Hy cv E'. assert (cv = VBin z) by congruence. subst cv.
    destruct Hy as [[<-|[]]|(b & [-> | ->])]; [reflexivity|reflexivity|]. cbn [store1 has_pack is_generic_type]. apply stored_bytes.
  Qed.

  (** The body or data of a message is an object with pack(). *)
  Lemma body_again c name z y d bd attrs b : good c attrs -> get_attr name (class_attrs c) = Some (VBin z) -> name <> "header" ->
    get_attr name attrs = Some d -> rec d = Ok bd -> y = VBytes bd \/ y = VBin (VBytes bd) ->
    message_pack rec (size0 (S n)) c (set_attr name y attrs) = Ok b ->
    let attrs' := swapped st (size0 (S m)) c name y (st d) attrs in
    message_pack rec (size0 (S n)) c (set_attr name y attrs') = Ok b /\ fine c attrs attrs' /\
    get_attr name attrs' = Some (st d) /\ (forall k, k <> "header" -> k <> name -> kept_at c k attrs attrs') /\
    rec (st d) = Ok bd /\ only_computed d (st d).
  Proof.
    intros G E Nh Gd Rd Hy P. destruct (good_get c attrs _ _ G Gd) as (Bd & _). destruct (Hst d bd Bd Rd) as (Rd' & Od & Bd').
    destruct (swap_ok c name y d (st d) attrs b G Gd Nh) as (P' & F & Gx & K); try assumption.
    - apply (bytes_store c name z E). right. exists bd. exact Hy.
    - destruct Hy as [-> | ->]; reflexivity.
    - apply header_ok_other, Nh.
    - apply header_ok_other, Nh.
    - cbn zeta. repeat split; try assumption; try apply F.
  Qed.

  Lemma truthy_up v t : truthy (size0 n) v = Ok t -> truthy (size0 m) v = Ok t.
  Proof. apply ok_le, le_truthy, sizes_le. Qed.
  Lemma truthy_oc v v' : built v = true -> only_computed v v' -> truthy (size0 n) v' = truthy (size0 n) v.
  Proof. intros B O. apply (oc_truthy _ (size0 n)); [exact O|]. apply oc_size; assumption. Qed.

  Lemma error_again attrs b : good ErrorMsg01 attrs -> error_pack01 rec (size0 (S n)) ErrorMsg01 attrs = Ok b ->
    let attrs' := store_obj st (pack0 m) (size0 m) (size0 (S m)) ErrorMsg01 attrs in
    error_pack01 rec (size0 (S n)) ErrorMsg01 attrs' = Ok b /\ fine ErrorMsg01 attrs attrs'.
  Proof.
    intros G P. unfold error_pack01, attr_or_error in P. destruct (get_attr "data" attrs) as [d|] eqn:Gd; [|discriminate]. cbn [bind] in P.
    cbn zeta. unfold store_obj. change (kind ErrorMsg01) with KErrorMsg01. cbn iota. rewrite Gd.
    assert (Cases : (d = VNone \/ exists x, d = VBytes x) \/ (d <> VNone /\ forall x, d <> VBytes x)).
    { destruct d; eauto; right; split; intros; discriminate. }
    destruct Cases as [Cs|(N1 & N2)].
    - assert (P1 : message_pack rec (size0 (S n)) ErrorMsg01 attrs = Ok b) by (destruct Cs as [->|(x & ->)]; exact P).
      destruct (message_ok ErrorMsg01 attrs b G P1) as (P' & F & K). set (a' := message_store _ _ _ _) in *.
      assert (E : match d with VNone | VBytes _ => a' | _ => match pack0 m d with Ok b0 => swapped st (size0 (S m)) ErrorMsg01 "data" (VBytes b0) (st d) attrs | Err _ => attrs end end = a')
        by (destruct Cs as [->|(x & ->)]; reflexivity).
      rewrite E. split; [|exact F]. unfold error_pack01, attr_or_error. rewrite (K "data") by discriminate. rewrite Gd.
      destruct Cs as [->|(x & ->)]; exact P'.
    - assert (P1 : (if has_pack d then do b0 <- rec d; message_pack rec (size0 (S n)) ErrorMsg01 (set_attr "data" (VBytes b0) attrs) else Err AttributeError) = Ok b).
      { destruct d; try exact P; [congruence|edestruct N2; reflexivity]. }
      destruct (has_pack d) eqn:Hp; [|discriminate]. destruct (rec d) as [bd|] eqn:Rd; [|discriminate]. cbn [bind] in P1.
      destruct (body_again ErrorMsg01 "data" VNone (VBytes bd) d bd attrs b G eq_refl ltac:(discriminate) Gd Rd (or_introl eq_refl) P1) as (P' & F & Gx & K & Rd' & Od).
      rewrite (pk_up _ _ Rd). set (a' := swapped _ _ _ _ _ _ _) in *.
      assert (E : match d with VNone | VBytes _ => message_store st (size0 (S m)) ErrorMsg01 attrs | _ => a' end = a').
      { destruct d; try reflexivity; [congruence|edestruct N2; reflexivity]. }
      rewrite E. split; [|exact F]. unfold error_pack01, attr_or_error. rewrite Gx. cbn [bind].
      assert (X : (if has_pack (st d) then do b0 <- rec (st d); message_pack rec (size0 (S n)) ErrorMsg01 (set_attr "data" (VBytes b0) a') else Err AttributeError) = Ok b).
      { rewrite (oc_has_pack _ _ Od), Hp, Rd'. exact P'. }
      assert (M1 : st d <> VNone) by (intros E2; apply N1, (oc_none _ _ Od), E2).
      assert (M2 : forall x, st d <> VBytes x).
      { intros x E2. pose proof (oc_has_pack _ _ Od) as H2. rewrite E2 in H2. cbn in H2. congruence. }
      destruct (st d) eqn:E3; try exact X; [congruence|edestruct M2; reflexivity].
  Qed.

  Lemma stats_request_again attrs b : good StatsRequest01 attrs -> stats_request_pack rec (size0 (S n)) StatsRequest01 attrs = Ok b ->
    let attrs' := store_obj st (pack0 m) (size0 m) (size0 (S m)) StatsRequest01 attrs in
    stats_request_pack rec (size0 (S n)) StatsRequest01 attrs' = Ok b /\ fine StatsRequest01 attrs attrs'.
  Proof.
    intros G P. unfold stats_request_pack, attr_or_error in P. destruct (get_attr "body" attrs) as [d|] eqn:Gd; [|discriminate]. cbn [bind] in P.
    cbn zeta. unfold store_obj. change (kind StatsRequest01) with KStatsRequest. cbn iota. rewrite Gd.
    destruct (has_pack d) eqn:Hp.
    - destruct (rec d) as [bd|] eqn:Rd; [|discriminate]. cbn [bind] in P.
      destruct (body_again StatsRequest01 "body" VNone (VBytes bd) d bd attrs b G eq_refl ltac:(discriminate) Gd Rd (or_introl eq_refl) P) as (P' & F & Gx & K & Rd' & Od).
      rewrite (pk_up _ _ Rd). split; [|exact F]. unfold stats_request_pack, attr_or_error. rewrite Gx. cbn [bind].
      rewrite (oc_has_pack _ _ Od), Hp, Rd'. exact P'.
    - destruct (message_ok StatsRequest01 attrs b G P) as (P' & F & K). split; [|exact F].
      unfold stats_request_pack, attr_or_error. rewrite (K "body") by discriminate. rewrite Gd. cbn [bind].
      change (get_attr "body" (class_attrs StatsRequest01)) with (Some (VBin VNone)). cbn iota. cbn [store1]. rewrite Hp, Hp. exact P'.
  Qed.

  Lemma stats_reply_again attrs b : good StatsReply01 attrs -> stats_reply_pack rec (size0 n) (size0 (S n)) StatsReply01 attrs = Ok b ->
    let attrs' := store_obj st (pack0 m) (size0 m) (size0 (S m)) StatsReply01 attrs in
    stats_reply_pack rec (size0 n) (size0 (S n)) StatsReply01 attrs' = Ok b /\ fine StatsReply01 attrs attrs'.
  Proof.
    intros G P. unfold stats_reply_pack, attr_or_error in P. destruct (get_attr "body" attrs) as [d|] eqn:Gd; [|discriminate]. cbn [bind] in P.
    destruct (truthy (size0 n) d) as [t|] eqn:Td; [|discriminate]. cbn [bind] in P.
    destruct (good_get StatsReply01 attrs _ _ G Gd) as (Bd & _).
    cbn zeta. unfold store_obj. change (kind StatsReply01) with KStatsReply. cbn iota. rewrite Gd, (truthy_up _ _ Td).
    destruct (t && has_pack d) eqn:Hp.
    - destruct (rec d) as [bd|] eqn:Rd; [|discriminate]. cbn [bind] in P.
      destruct (body_again StatsReply01 "body" VNone (VBin (VBytes bd)) d bd attrs b G eq_refl ltac:(discriminate) Gd Rd (or_intror eq_refl) P) as (P' & F & Gx & K & Rd' & Od).
      rewrite (pk_up _ _ Rd). split; [|exact F]. unfold stats_reply_pack, attr_or_error. rewrite Gx. cbn [bind].
      rewrite (truthy_oc _ _ Bd Od), Td. cbn [bind]. rewrite (oc_has_pack _ _ Od), Hp, Rd'. exact P'.
    - destruct (message_ok StatsReply01 attrs b G P) as (P' & F & K). split; [|exact F].
      unfold stats_reply_pack, attr_or_error. pose proof (kept_rel StatsReply01 "body" attrs _ F eq_refl) as Kb. rewrite Gd in Kb.
      destruct Kb as (d' & -> & Od). cbn [bind]. rewrite (truthy_oc _ _ Bd Od), Td. cbn [bind]. rewrite (oc_has_pack _ _ Od), Hp. exact P'.
  Qed.

  Definition multipart_store (reply : bool) (c : cid) (attrs : list (string * pyval)) : list (string * pyval) :=
    match get_attr "body" attrs with
        | Some body =>
            match truthy (size0 m) body with
            | Ok true =>
                match body with
                | VList _ _ _ =>
                    match get_attr "multipart_type" attrs with
                    | Some mt =>
                        match body_instance reply mt with
                        | Ok (VList lc pc _) =>
                            match list_extend pc body with
                            | Ok items =>
                                match pack0 m (VList lc pc items) with
                                | Ok b => swapped st (size0 (S m)) c "body" (VBytes b) (leaves st body) attrs
                                | Err _ => attrs
                                end
                            | Err _ => attrs
                            end
                        | _ => attrs
                        end
                    | None => attrs
                    end
                | _ =>
                    match pack0 m body with
                    | Ok b => swapped st (size0 (S m)) c "body" (VBytes b) (st body) attrs
                    | Err _ => attrs
                    end
                end
            | Ok false => message_store st (size0 (S m)) c attrs
            | Err _ => attrs
            end
        | None => attrs
        end.

  Lemma multipart_again reply c attrs b : good c attrs -> get_attr "body" (class_attrs c) = Some (VBin VNone) ->
    (exists w er d, get_attr "multipart_type" (class_attrs c) = Some (VUInt w er d)) -> computed c "body" = false ->
    multipart_pack rec (size0 n) (size0 (S n)) reply c attrs = Ok b ->
    multipart_pack rec (size0 n) (size0 (S n)) reply c (multipart_store reply c attrs) = Ok b /\ fine c attrs (multipart_store reply c attrs).
  Proof.
    intros G Eb (w & er & dd & Et) Cb P. unfold multipart_store.
    unfold multipart_pack, attr_or_error in P. destruct (get_attr "body" attrs) as [d|] eqn:Gd; [|discriminate]. cbn [bind] in P.
    destruct (truthy (size0 n) d) as [t|] eqn:Td; [|discriminate]. cbn [bind] in P. rewrite (truthy_up _ _ Td).
    destruct (good_get c attrs _ _ G Gd) as (Bd & _). destruct t.
    - destruct (is_list d) eqn:Ld.
      + destruct d as [| | | | | | | | | | | | | |lc0 pc0 l]; try discriminate.
        destruct (get_attr "multipart_type" attrs) as [mt|] eqn:Gt; [|discriminate]. cbn [bind] in P.
        destruct (body_instance reply mt) as [inst|] eqn:Bi; [|discriminate]. cbn [bind] in P.
        destruct inst as [| | | | | | | | | | | | | |lc pc ci]; try discriminate.
        unfold list_extend in *. cbn [iterate bind] in P |- *.
        destruct (check_items pc (flat_map flat l)) as [items|] eqn:Ck; [|discriminate]. cbn [bind] in P.
        pose proof (check_ok _ _ _ Ck). subst items.
        destruct (rec (VList lc pc (flat_map flat l))) as [bd|] eqn:Rd; [|discriminate]. cbn [bind] in P.
        rewrite (pk_up _ _ Rd). assert (Bl : forallb built l = true) by exact Bd.
        destruct (leaves_ok rec st Hlist (stored_shape m) lc pc pc lc0 l bd Bl Rd Ck) as (Ck' & Rd' & O0 & B0).
        assert (O : only_computed (VList lc0 pc0 l) (leaves st (VList lc0 pc0 l)) /\ built (leaves st (VList lc0 pc0 l)) = true).
        { cbn [leaves built] in *. split; [|exact B0]. apply oc_inv in O0 as (l'' & E2 & F2). injection E2 as E2. subst l''. constructor. exact F2. }
        destruct O as (O & Bl').
        destruct (swap_ok c "body" (VBytes bd) (VList lc0 pc0 l) (leaves st (VList lc0 pc0 l)) attrs b G Gd ltac:(discriminate)) as (P' & F & Gx & K);
          try assumption; try reflexivity.
        { apply (bytes_store c "body" VNone Eb). right. eauto. }
        split; [|exact F]. set (a' := swapped _ _ _ _ _ _ _) in *.
        unfold multipart_pack, attr_or_error. rewrite Gx. cbn [bind]. rewrite (truthy_oc _ _ Bd O), Td. cbn [bind leaves].
        rewrite (K "multipart_type") by discriminate. rewrite Gt, Et. cbn [store1 bind]. rewrite Bi. cbn [bind].
        unfold list_extend. cbn [iterate bind]. rewrite Ck'. cbn [bind]. rewrite Rd'. exact P'.
      + assert (P1 : (if has_pack d then do b0 <- rec d; message_pack rec (size0 (S n)) c (set_attr "body" (VBytes b0) attrs) else Err UnboundLocalError) = Ok b)
          by (destruct d; try exact P; discriminate).
        destruct (has_pack d) eqn:Hp; [|discriminate]. destruct (rec d) as [bd|] eqn:Rd; [|discriminate]. cbn [bind] in P1.
        destruct (body_again c "body" VNone (VBytes bd) d bd attrs b G Eb ltac:(discriminate) Gd Rd (or_introl eq_refl) P1) as (P' & F & Gx & K & Rd' & Od).
        rewrite (pk_up _ _ Rd). set (a' := swapped _ _ _ _ _ _ _) in *.
        match goal with |- multipart_pack _ _ _ _ _ ?X = _ /\ _ => assert (E : X = a') by (destruct d; try reflexivity; discriminate) end.
        rewrite E. split; [|exact F].
        unfold multipart_pack, attr_or_error. rewrite Gx. cbn [bind]. rewrite (truthy_oc _ _ Bd Od), Td. cbn [bind].
        assert (X : (if has_pack (st d) then do b0 <- rec (st d); message_pack rec (size0 (S n)) c (set_attr "body" (VBytes b0) a') else Err UnboundLocalError) = Ok b)
          by (rewrite (oc_has_pack _ _ Od), Hp, Rd'; exact P').
        pose proof (stored_shape m d) as Sh. rewrite Ld in Sh. destruct (st d); try exact X; discriminate.
    - destruct (message_ok c attrs b G P) as (P' & F & K). split; [|exact F].
      unfold multipart_pack, attr_or_error. pose proof (kept_rel c "body" attrs _ F Cb) as Kb. rewrite Gd in Kb.
      destruct Kb as (d' & -> & Od). cbn [bind]. rewrite (truthy_oc _ _ Bd Od), Td. cbn [bind]. exact P'.
  Qed.

  Lemma obj_again c attrs b : good c attrs -> pack_obj rec (size0 n) (size0 (S n)) c attrs = Ok b ->
    result c attrs b (store_obj st (pack0 m) (size0 m) (size0 (S m)) c attrs).
  Proof.
    intros G P. unfold result. pose proof (table_ok c) as T. unfold table in T.
    unfold pack_obj in P |- *. destruct (kind c) as [| |pos upd|f| | | | | | | | | | | | | | | |] eqn:K.
    - unfold store_obj; rewrite K. exact (store_fine c attrs b G P).
    - unfold store_obj; rewrite K. destruct (message_ok c attrs b G P) as (P' & F & _). auto.
    - destruct upd; unfold store_obj; rewrite K; [|exact (store_fine c attrs b G P)].
      apply andb_prop in T as [C M]. exact (len_ok_again c attrs b G C M P).
    - destruct f; unfold store_obj; rewrite K; [| |exact (store_fine c attrs b G P)];
        apply andb_prop in T as [C M]; exact (len_ok_again c attrs b G C M P).
    - unfold store_obj; rewrite K. exact (store_fine c attrs b G P).
    - unfold store_obj; rewrite K. exact (store_fine c attrs b G P).
    - exact (setfield_ok c attrs b G K P).
    - apply cid_eqb_eq in T. subst c. exact (oxm_ok_again attrs b G P).
    - exact (match_ok_again c attrs b G K P).
    - unfold store_obj; rewrite K. exact (store_fine c attrs b G P).
    - unfold store_obj; rewrite K. exact (store_fine c attrs b G P).
    - apply cid_eqb_eq in T. subst c. exact (packet_out_again PacketOut01 ListOfActions01 attrs b G eq_refl eq_refl eq_refl P).
    - apply cid_eqb_eq in T. subst c. exact (packet_out_again PacketOut04 ListOfActions04 attrs b G eq_refl eq_refl eq_refl P).
    - apply cid_eqb_eq in T. subst c. exact (error_again attrs b G P).
    - unfold store_obj; rewrite K. destruct (message_ok c attrs b G P) as (P' & F & _). auto.
    - unfold store_obj; rewrite K. destruct (message_ok c attrs b G P) as (P' & F & _). auto.
    - apply cid_eqb_eq in T. subst c. exact (stats_request_again attrs b G P).
    - apply cid_eqb_eq in T. subst c. exact (stats_reply_again attrs b G P).
    - apply cid_eqb_eq in T. subst c.
      exact (multipart_again false MultipartRequest04 attrs b G eq_refl (ex_intro _ _ (ex_intro _ _ (ex_intro _ _ eq_refl))) eq_refl P).
    - apply cid_eqb_eq in T. subst c.
      exact (multipart_again true MultipartReply04 attrs b G eq_refl (ex_intro _ _ (ex_intro _ _ (ex_intro _ _ eq_refl))) eq_refl P).
  Qed.
End Obj.

Lemma concatM_map {A B} (f : A -> res bytes) (g : B -> res bytes) (h : A -> B) l b :
  (forall x b, In x l -> f x = Ok b -> g (h x) = Ok b) -> concatM f l = Ok b -> concatM g (map h l) = Ok b.
Proof.
  revert b. induction l as [|x l IH]; intros b H P; [exact P|]. cbn [map concatM] in *.
  destruct (f x) as [b1|] eqn:E1; [|discriminate]. destruct (concatM f l) as [b2|] eqn:E2; [|discriminate].
  rewrite (H x b1 (or_introl eq_refl) E1). rewrite (IH b2); [exact P| |reflexivity]. intros y by' J. apply H. right. exact J.
Qed.
Lemma concatM_each {A} (f : A -> res bytes) l b x : concatM f l = Ok b -> In x l -> exists b', f x = Ok b'.
Proof.
  revert b. induction l as [|y l IH]; intros b P I; [destruct I|]. cbn [concatM] in P.
  destruct (f y) as [b1|] eqn:E1; [|discriminate]. destruct (concatM f l) as [b2|] eqn:E2; [|discriminate].
  destruct I as [->|I]; [eauto|]. eapply IH; eauto.
Qed.

Lemma again n : forall m v b, (n <= m)%nat -> built v = true -> pack0 n v = Ok b ->
  pack0 n (stored0 m v) = Ok b /\ only_computed v (stored0 m v) /\ built (stored0 m v) = true.
Proof.
  induction n as [n IHn] using lt_wf_ind. intros m v b L B P. destruct n as [|n]; [discriminate|].
  assert (ListStep : forall k m lc pc l b, (S k <= S n)%nat -> (k <= m)%nat -> forallb built l = true -> pack0 (S k) (VList lc pc l) = Ok b ->
    pack0 (S k) (VList lc pc (map (stored0 m) l)) = Ok b /\ Forall2 only_computed l (map (stored0 m) l) /\ forallb built (map (stored0 m) l) = true).
  { clear v b B P L m. intros k m lc pc l b Lk Lm Bl P. cbn [pack0] in *. destruct (cid_eqb lc CList); [discriminate|].
    rewrite forallb_forall in Bl.
    assert (Each : forall x, In x l -> exists b', pack0 k x = Ok b').
    { intros x I. destruct (concatM_each _ _ _ x P I) as (b' & E). destruct (has_pack x); [eauto|discriminate]. }
    assert (Ok1 : forall x, In x l -> forall b', pack0 k x = Ok b' -> pack0 k (stored0 m x) = Ok b' /\ only_computed x (stored0 m x) /\ built (stored0 m x) = true).
    { intros x I b' E. apply IHn; [lia|exact Lm|apply Bl, I|exact E]. }
    split; [|split].
    - revert P. apply concatM_map. intros x b' I E. destruct (has_pack x) eqn:Hp; [|discriminate].
      destruct (Ok1 x I b' E) as (E' & O & _). rewrite (oc_has_pack _ _ O), Hp. exact E'.
    - clear - Each Ok1. induction l as [|x l IH]; [constructor|]. cbn. constructor.
      + destruct (Each x (or_introl eq_refl)) as (b' & E). apply (Ok1 x (or_introl eq_refl) b' E).
      + apply IH; intros; [apply Each|apply Ok1]; try right; assumption.
    - rewrite forallb_forall. intros y J. apply in_map_iff in J as (x & <- & I). destruct (Each x I) as (b' & E). apply (Ok1 x I b' E). }
  destruct m as [|m]; [lia|]. assert (Lm : (n <= m)%nat) by lia.
  assert (Hst : forall v b, built v = true -> pack0 n v = Ok b ->
    pack0 n (stored0 m v) = Ok b /\ only_computed v (stored0 m v) /\ built (stored0 m v) = true).
  { intros v' b' B' P'. apply IHn; [lia|exact Lm|exact B'|exact P']. }
  destruct v as [| | | | | | | | | | | |x|c attrs|lc pc l]; try (split; [exact P|split; [constructor|exact B]]).
  - cbn [stored0 pack0] in *. unfold bin_pack in P. destruct (has_pack x) eqn:Hp.
    + destruct (Hst x b B P) as (P' & O & B'). split; [|split; [constructor; exact O|exact B']].
      cbn [pack0]. unfold bin_pack. rewrite (oc_has_pack _ _ O), Hp. exact P'.
    + split; [cbn [pack0]; unfold bin_pack; rewrite Hp; exact P|]. split; [constructor|exact B].
  - assert (Hlist : forall lc pc l b, forallb built l = true -> pack0 n (VList lc pc l) = Ok b ->
      pack0 n (VList lc pc (map (stored0 m) l)) = Ok b /\ Forall2 only_computed l (map (stored0 m) l) /\ forallb built (map (stored0 m) l) = true).
    { intros lc pc l b' B' P'. destruct n as [|k]; [discriminate|]. apply ListStep; [lia|lia|exact B'|exact P']. }
    change (pack_obj (pack0 n) (size0 n) (size0 (S n)) c attrs = Ok b) in P.
    destruct (obj_again n m Lm Hst Hlist c attrs b (proj2 (good_built c attrs) B) P) as (P' & F & G).
    split; [exact P'|]. split; [constructor; exact F|]. apply good_built, G.
  - cbn [stored0]. destruct (ListStep n m lc pc l b (le_n _) Lm B P) as (P' & F & B'). split; [exact P'|]. split; [constructor; exact F|exact B'].
Qed.

Lemma pack_eq v b : pack v = Ok b -> pack0 (FUEL + height v) v = Ok b.
Proof. unfold pack. intros P. exact P. Qed.
Lemma stored_eq v : stored v = stored0 (FUEL + height v) v.
Proof. unfold stored. reflexivity. Qed.
Lemma pack_again v b : built v = true -> pack v = Ok b ->
  pack (stored v) = Ok b /\ only_computed v (stored v) /\ built (stored v) = true.
Proof.
  intros B P.
  assert (X : forall N w, w = stored0 N v -> pack0 N v = Ok b -> pack w = Ok b /\ only_computed v w /\ built w = true).
  { intros N w -> P0. destruct (again N N v b (le_n _) B P0) as (P' & O & B'). split; [|split; assumption].
    rewrite (pack_of N); [exact P'|rewrite P'; discriminate]. }
  exact (X _ _ (stored_eq v) (pack_eq v b P)).
Qed.
Lemma pack_times k v b : built v = true -> pack v = Ok b ->
  pack (Nat.iter k stored v) = Ok b /\ only_computed v (Nat.iter k stored v) /\ built (Nat.iter k stored v) = true.
Proof.
  intros B P. induction k as [|k (P' & O & B')]; [split; [exact P|split; [constructor|exact B]]|].
  cbn [Nat.iter nat_rect]. fold (Nat.iter k stored v). destruct (pack_again _ b B' P') as (P2 & O2 & B2).
  split; [exact P2|]. split; [eapply oc_trans; eassumption|exact B2].
Qed.

Lemma size_again v v' : built v = true -> only_computed v v' -> get_size v' = get_size v.
Proof.
  intros B O. pose proof (size_fuel v) as N. set (k := (FUEL + height v)%nat) in *. clearbody k.
  pose proof (oc_size k v v' B O) as E. rewrite (size_of k v N). rewrite <- E. apply size_of. rewrite E. exact N.
Qed.

Lemma new_built c v : new_instance c = Some v -> built v = true.
Proof.
  intros N. assert (T : forallb (fun c => match new_instance c with Some v => built v | None => true end) all_cids = true) by (vm_compute; reflexivity).
  pose proof (all_classes (fun c => match new_instance c with Some v => built v | None => true end) T c) as H. cbn beta in H. rewrite N in H. exact H.
Qed.
