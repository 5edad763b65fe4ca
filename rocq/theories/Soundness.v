(** The model implements the wire format of [Spec]: for every value related to
    bytes by [enc], pack produces the bytes, get_size their number, and unpack
    of the bytes, anywhere in a buffer, gives the decoded value. *)
From Coq Require Import ZArith List Bool String Lia ZifyBool.
From Verif Require Import Base PyText Ids PyVal Classes Interp Spec BaseFacts TextFacts ClassFacts
  LeafFacts StructFacts.
Import ListNotations.
Open Scope string_scope.
Open Scope list_scope.
Open Scope Z_scope.

Definition P_enc (n : nat) (k : delim) (sz : bool) (cv iv : pyval) (bs : bytes) (out : pyval) : Prop :=
  pack1 (pack0 n) cv iv = Ok bs /\
  (sz = true -> size1 (size0 n) cv iv = Ok (zlen bs)) /\
  (forall pre suf, (k = TAIL -> suf = []) -> pre ++ bs ++ suf <> [] ->
     unpack0 n (deepcopy cv) (pre ++ bs ++ suf) (List.length pre) = Ok out) /\
  size0 n out = Ok (zlen bs) /\
  (sz = true -> size1 (size0 n) cv out = Ok (zlen bs)).

Definition P_payload (n : nat) (v : pyval) (bs : bytes) : Prop :=
  bin_pack (pack0 n) v = Ok bs /\ bin_size (size0 n) v = Ok (zlen bs).

Definition P_fields (n : nat) (k : delim) (sz : bool) (fields : list (string * pyval))
           (vals : list pyval) (bs : bytes) (outs : list pyval) : Prop :=
  List.length vals = List.length fields /\ List.length outs = List.length fields /\
  concatM (fun p => pack1 (pack0 n) (fst p) (snd p)) (combine (map snd fields) vals) = Ok bs /\
  (sz = true -> sumM (fun p => size1 (size0 n) (fst p) (snd p)) (combine (map snd fields) vals)
                = Ok (zlen bs)) /\
  (sz = true -> sumM (fun p => size1 (size0 n) (fst p) (snd p)) (combine (map snd fields) outs)
                = Ok (zlen bs)) /\
  (forall pre suf attrs, (k = TAIL -> suf = []) -> pre ++ bs ++ suf <> [] ->
     unpack_fields (unpack0 n) (size0 n) fields attrs (pre ++ bs ++ suf) (List.length pre)
     = Ok (set_all (map fst fields) outs attrs, (List.length pre + List.length bs)%nat)).

Definition P_items (n : nat) (pc : cid) (vs : list pyval) (bs : bytes) (outs : list pyval) : Prop :=
  Forall (obj_of pc) vs /\ Forall (obj_of pc) outs /\
  (vs <> [] -> pc <> CNone) /\ (outs <> [] -> pc <> CNone) /\
  concatM (fun x => if has_pack x then pack0 n x else Err AttributeError) vs = Ok bs /\
  sumM (size0 n) vs = Ok (zlen bs) /\ sumM (size0 n) outs = Ok (zlen bs) /\
  (forall pre j, (List.length bs <= j)%nat ->
     unpack_items (unpack0 n) (size0 n) pc j (pre ++ bs) (List.length pre) = Ok outs).

Definition P_obj (n : nat) (k : delim) (sz : bool) (base : cid) (v : pyval) (bs : bytes)
           (out : pyval) : Prop :=
  obj_of base v /\ obj_of base out /\
  (bs <> [] -> class_attrs base <> []) /\
  pack0 n v = Ok bs /\
  (sz = true -> size0 n v = Ok (zlen bs)) /\ (sz = true -> size0 n out = Ok (zlen bs)) /\
  (forall attrs0 pre suf, map fst attrs0 = start_keys base ->
     (k = TAIL -> suf = []) -> pre ++ bs ++ suf <> [] ->
     unpack0 n (VObj base attrs0) (pre ++ bs ++ suf) (List.length pre) = Ok out).

Lemma obj_of_self c a : obj_of c (VObj c a).
Proof. exists c, a. split; auto. apply subclass_refl. Qed.
Lemma obj_of_in c d a : subclass c d = true -> obj_of d (VObj c a).
Proof. intros. exists c, a. auto. Qed.

(** ** Structures as a whole *)

(** Decoding the fields of a new object. *)
Lemma unpack_struct n k sz c vals bs outs attrs0 r pre suf :
  P_fields n k sz (class_attrs c) vals bs outs ->
  field_names c = map fst attrs0 ++ r ->
  (k = TAIL -> suf = []) -> pre ++ bs ++ suf <> [] ->
  (do x <- unpack_fields (unpack0 n) (size0 n) (class_attrs c) attrs0 (pre ++ bs ++ suf)
             (List.length pre); Ok (VObj c (fst x))) = Ok (mk c outs).
Proof.
  intros (L1 & L2 & _ & _ & _ & U) E Hk Hne.
  rewrite U by assumption. cbn [bind fst]. unfold mk. f_equal. f_equal.
  fold (field_names c). eapply set_all_fresh.
  - apply names_nodup.
  - unfold field_names. rewrite map_length. exact L2.
  - exact E.
Qed.

Lemma struct_size_vals n k sz c attrs bs outs :
  P_fields n k sz (class_attrs c) (values c attrs) bs outs -> sz = true ->
  struct_size (size0 n) c attrs = Ok (zlen bs).
Proof. intros (_ & _ & _ & S & _ & _) H. apply S. exact H. Qed.
Lemma struct_size_outs n k sz c vals bs outs :
  P_fields n k sz (class_attrs c) vals bs outs -> sz = true ->
  struct_size (size0 n) c (combine (field_names c) outs) = Ok (zlen bs).
Proof.
  intros (_ & L & _ & _ & S & _) H. unfold struct_size. rewrite zip_attrs_values.
  rewrite values_mk by exact L. apply S. exact H.
Qed.
Lemma struct_pack_vals n k sz c attrs bs outs :
  P_fields n k sz (class_attrs c) (values c attrs) bs outs ->
  kind c <> KPacketOut01 -> kind c <> KPacketOut04 ->
  struct_pack (pack0 n) c attrs = Ok bs.
Proof. intros (_ & _ & P & _) K1 K2. rewrite struct_pack_eq by assumption. exact P. Qed.

Lemma fields_nonempty n k sz c vals bs outs :
  P_fields n k sz (class_attrs c) vals bs outs -> bs <> [] -> class_attrs c <> [].
Proof.
  intros (L & _ & P & _) H E. apply H. rewrite E in P. cbn in P. congruence.
Qed.

Lemma u16_nonempty p bs z : u16_at p bs z -> (p + 2 <= List.length bs)%nat.
Proof. intros (b1 & b2 & -> & L & _). rewrite !app_length, be_encode_length. lia. Qed.
Lemma nonempty_app (pre bs suf : bytes) : (0 < List.length bs)%nat -> pre ++ bs ++ suf <> [].
Proof. intros H E. apply (f_equal (@List.length Z)) in E. rewrite !app_length in E. cbn in E. lia. Qed.
Lemma firstn_mid (pre bs suf : bytes) :
  firstn (List.length pre + Z.to_nat (zlen bs)) (pre ++ bs ++ suf) = pre ++ bs ++ [].
Proof.
  rewrite zlen_to_nat, app_nil_r, app_assoc. apply firstn_app_exact. rewrite app_length. reflexivity.
Qed.

(** ** Cases for fields *)

Lemma S_uint n w er d iv z :
  (0 < w)%nat ->
  (iv <> VNone /\ int_value iv z) \/ (iv = VNone /\ int_value (VUInt w er d) z) ->
  0 <= z < ulimit w -> allowed_int er z ->
  P_enc (S n) SD true (VUInt w er d) iv (be_encode w z) (VUInt w er (decoded_int er z)).
Proof.
  intros Hw Hv Hz Ha. unfold P_enc.
  cbn [pack1 size1 size0 deepcopy unpack0]. rewrite zlen_be.
  repeat split; auto.
  - destruct Hv as [(Hn & Hv)|(-> & Hv)].
    + rewrite (int_value_pack _ _ _ _ z) by assumption. apply uint_struct_ok. assumption.
    + rewrite (int_value_default _ _ _ z) by assumption. apply uint_struct_ok. assumption.
  - intros. apply uint_unpack_mid; assumption.
Qed.

Lemma S_pad n len iv : P_enc (S n) SD true (VPad len) iv (repeat 0 len) (VPad len).
Proof.
  unfold P_enc. cbn [pack1 size1 size0 deepcopy unpack0]. rewrite zlen_repeat.
  repeat split; auto.
Qed.

Lemma S_char n len d iv s pad :
  iv = VStr s \/ iv = VChar len (VStr s) \/ (iv = VNone /\ d = VStr s) ->
  ascii_text s -> rstrip 0 s = s -> len = (List.length s + pad)%nat -> (0 < pad)%nat ->
  P_enc (S n) SD true (VChar len d) iv (s ++ repeat 0 pad) (VChar len (VStr s)).
Proof.
  intros Hv Ha Hr -> Hp. unfold P_enc. cbn [pack1 size1 size0 deepcopy unpack0].
  rewrite zlen_app, zlen_repeat.
  assert (E : Ok (Z.of_nat (List.length s + pad)) = Ok (zlen s + Z.of_nat pad))
    by (unfold zlen; f_equal; lia).
  repeat split; auto.
  - unfold char_pack1. destruct Hv as [-> | [-> | [-> ->] ] ]; apply char_bytes_ok; assumption.
  - intros. apply char_unpack_mid; assumption.
Qed.

Lemma S_ip n d m iv m' bs :
  iv = VStr (dotted bs) \/ iv = VIP (VStr (dotted bs)) m' \/ (iv = VNone /\ d = VStr (dotted bs)) ->
  wf_bytes bs -> List.length bs = 4%nat ->
  P_enc (S n) SD true (VIP d m) iv bs (VIP (VStr (dotted bs)) m).
Proof.
  intros Hv W L. unfold P_enc. cbn [pack1 size1 size0 deepcopy unpack0].
  assert (E : Ok 4 = Ok (zlen bs)) by (unfold zlen; rewrite L; reflexivity).
  repeat split; auto.
  - unfold ip_pack1. destruct Hv as [-> | [-> | [-> ->] ] ]; apply ip_bytes_ok; assumption.
  - intros. apply ip_unpack_mid; assumption.
Qed.

Lemma S_hw n d iv bs :
  (exists s, (iv = VStr s \/ iv = VHW (VStr s) \/ (iv = VNone /\ d = VStr s)) /\ hex_text s bs) \/
  ((iv = VInt 0 \/ iv = VHW (VInt 0)) /\ bs = [0; 0; 0; 0; 0; 0]) ->
  List.length bs = 6%nat ->
  P_enc (S n) SD true (VHW d) iv bs (VHW (VStr (hex_canonical bs))).
Proof.
  intros Hv L. unfold P_enc. cbn [pack1 size1 size0 deepcopy unpack0].
  assert (E : Ok 6 = Ok (zlen bs)) by (unfold zlen; rewrite L; reflexivity).
  assert (W : wf_bytes bs).
  { destruct Hv as [(s & _ & H) | (_ & ->)].
    - apply (hex_text_ints s); [exact H|]. destruct bs; discriminate.
    - apply wf_zeros with (n := 6%nat). }
  repeat split; auto.
  - unfold hw_pack1. destruct Hv as [(s & Hv & H) | ([-> | ->] & ->)].
    + destruct Hv as [-> | [-> | [-> ->] ] ]; apply hw_bytes_ok; assumption.
    + apply hw_bytes_zero.
    + apply hw_bytes_zero.
  - intros. apply hw_unpack_mid; assumption.
Qed.

Lemma S_dpid n d iv s bs :
  iv = VStr s \/ iv = VDPID (VStr s) \/ (iv = VNone /\ d = VStr s) ->
  hex_text s bs -> List.length bs = 8%nat ->
  P_enc (S n) SD true (VDPID d) iv bs (VDPID (VStr (hex_canonical bs))).
Proof.
  intros Hv H L. unfold P_enc. cbn [pack1 size1 size0 deepcopy unpack0].
  assert (E : Ok 8 = Ok (zlen bs)) by (unfold zlen; rewrite L; reflexivity).
  assert (W : wf_bytes bs) by (apply (hex_text_ints s); [exact H|destruct bs; discriminate]).
  repeat split; auto.
  - unfold dpid_pack1. destruct Hv as [-> | [-> | [-> ->] ] ]; apply dpid_bytes_ok; assumption.
  - intros. apply dpid_unpack_mid; assumption.
Qed.

Lemma S_bin n d iv bs :
  (iv <> VNone /\ P_payload (S n) iv bs) \/ (iv = VNone /\ P_payload (S n) d bs) ->
  P_enc (S n) TAIL true (VBin d) iv bs (VBin (VBytes bs)).
Proof.
  intros Hv. unfold P_enc. cbn [pack1 size1 deepcopy unpack0].
  assert (E : P_payload (S n) (match iv with VNone => d | _ => iv end) bs).
  { destruct Hv as [(Hn & Hv)|(-> & Hv)]; [|exact Hv]. destruct iv; auto. contradiction. }
  destruct E as [E1 E2].
  repeat split; auto.
  - intros pre suf Hs _. rewrite Hs by reflexivity. rewrite app_nil_r, skipn_length_app. reflexivity.
Qed.

(** ** Lists *)

Lemma list_class lc : subclass lc CFixedTypeList = true -> lc <> CList.
Proof. intros H ->. discriminate. Qed.

Lemma S_list n lc pc lc' pc' items bs outs :
  lc <> CFixedTypeList -> subclass lc CFixedTypeList = true ->
  P_items n pc items bs outs ->
  P_enc (S n) TAIL true (VList lc pc []) (VList lc' pc' items) bs (VList CFixedTypeList pc outs).
Proof.
  intros H1 H2' (F1 & F2 & N1 & N2 & PK & S1 & S2 & U). unfold P_enc.
  pose proof (list_class _ H2') as H2.
  assert (X : subclass CList lc = true -> False).
  { intros X. assert (G : (subclass CList lc && subclass lc CFixedTypeList) = false).
    { clear. revert lc. intros c. apply negb_true_iff.
      revert c. apply all_classes. vm_compute. reflexivity. }
    rewrite X, H2' in G. discriminate. }
  assert (CK : check_items pc items = Ok items).
  { destruct items as [|v vs]; [reflexivity|]. apply check_objs; auto. apply N1. discriminate. }
  assert (CKo : check_items pc outs = Ok outs).
  { destruct outs as [|v vs]; [reflexivity|]. apply check_objs; auto. apply N2. discriminate. }
  repeat split.
  - cbn [pack1 class_of]. destruct (subclass lc' lc) eqn:E.
    + rewrite pack0_list; [exact PK|]. intros ->. auto.
    + rewrite cid_eqb_neq by exact H1. unfold list_extend. cbn [iterate bind].
      rewrite (flat_objs pc) by exact F1. rewrite CK. cbn [bind].
      rewrite pack0_list by exact H2. exact PK.
  - intros _. cbn [size1]. rewrite cid_eqb_neq by exact H1. unfold list_init.
    rewrite (flat_objs pc) by exact F1. rewrite CK. cbn [bind].
    rewrite (size0_list _ _ _ _ pc) by assumption. exact S1.
  - intros pre suf Hs _. rewrite Hs by reflexivity. rewrite app_nil_r.
    cbn [deepcopy map unpack0]. rewrite cid_eqb_neq by exact H2.
    rewrite U by (rewrite app_length; lia). reflexivity.
  - rewrite (size0_list _ _ _ _ pc) by (auto; discriminate). exact S2.
  - intros _. cbn [size1]. rewrite cid_eqb_neq by exact H1. unfold list_init.
    rewrite (flat_objs pc) by exact F2. rewrite CKo. cbn [bind].
    rewrite (size0_list _ _ _ _ pc) by assumption. exact S2.
Qed.

Lemma S_list_plain n pc lc' pc' items bs outs :
  subclass lc' CFixedTypeList = true ->
  P_items n pc items bs outs ->
  P_enc (S n) TAIL (match items with [] => true | _ => false end)
        (VList CFixedTypeList pc []) (VList lc' pc' items) bs (VList CFixedTypeList pc outs).
Proof.
  intros H (F1 & F2 & N1 & N2 & PK & S1 & S2 & U). unfold P_enc.
  assert (E : items = [] -> bs = []) by (intros ->; cbn in PK; congruence).
  repeat split.
  - cbn [pack1 class_of]. rewrite H. rewrite pack0_list; [exact PK|]. intros ->. discriminate.
  - intros Hz. cbn [size1]. destruct items; [|discriminate]. rewrite E by reflexivity. reflexivity.
  - intros pre suf Hs _. rewrite Hs by reflexivity. rewrite app_nil_r.
    cbn [deepcopy map unpack0]. change (cid_eqb CFixedTypeList CList) with false. cbv iota.
    rewrite U by (rewrite app_length; lia). reflexivity.
  - rewrite (size0_list _ _ _ _ pc) by (auto; discriminate). exact S2.
  - intros Hz. cbn [size1]. destruct items; [|discriminate]. rewrite E by reflexivity. reflexivity.
Qed.

Lemma S_list_none n lc pc :
  subclass lc CFixedTypeList = true ->
  P_enc (S n) TAIL true (VList lc pc []) VNone [] (VList CFixedTypeList pc []).
Proof.
  intros H'. pose proof (list_class _ H') as H. unfold P_enc. repeat split.
  - cbn [pack1]. rewrite pack0_list by exact H. reflexivity.
  - intros _. cbn [size1 size0]. rewrite cid_eqb_neq by exact H. reflexivity.
  - intros pre suf Hs _. rewrite Hs by reflexivity. cbn [app]. rewrite app_nil_r.
    cbn [deepcopy map unpack0]. rewrite cid_eqb_neq by exact H.
    cbn [unpack_items]. rewrite Nat.ltb_irrefl. reflexivity.
  - intros _. cbn [size1]. destruct (cid_eqb lc CFixedTypeList); auto.
    cbn [list_init flat_map check_items bind size0]. rewrite cid_eqb_neq by exact H. reflexivity.
Qed.

(** ** Items *)

Lemma S_item n k pc v bs out vs b2 outs :
  P_obj n k true pc v bs out -> bs <> [] ->
  (k = TAIL -> b2 = []) ->
  P_items n pc vs b2 outs ->
  P_items n pc (v :: vs) (bs ++ b2) (out :: outs).
Proof.
  intros (O1 & O2 & NE & PK & S1 & S2 & U) Hne Hk (F1 & F2 & N1 & N2 & PKs & T1 & T2 & Us).
  destruct (instantiable pc (NE Hne)) as (a & NI & KA).
  assert (NN : pc <> CNone) by (intros ->; discriminate).
  pose proof O1 as (c1 & a1 & E1 & _). pose proof O2 as (c2 & a2 & E2 & SC2).
  unfold P_items. repeat split; auto.
  - cbn [concatM]. rewrite E1 at 1. cbn [has_pack]. rewrite PK. cbn [bind]. rewrite PKs. reflexivity.
  - cbn [sumM]. rewrite S1 by reflexivity. cbn [bind]. rewrite T1. cbn [bind]. rewrite zlen_app. reflexivity.
  - cbn [sumM]. rewrite S2 by reflexivity. cbn [bind]. rewrite T2. cbn [bind]. rewrite zlen_app. reflexivity.
  - intros pre j Hj. rewrite app_length in Hj.
    assert (LB : (0 < List.length bs)%nat) by (destruct bs; [contradiction|cbn; lia]).
    destruct j as [|j]; [lia|]. cbn [unpack_items].
    replace (Nat.ltb (List.length pre) (List.length (pre ++ bs ++ b2))) with true
      by (symmetry; apply Nat.ltb_lt; rewrite !app_length; lia).
    rewrite NI. rewrite U; auto using nonempty_app. cbn [bind].
    rewrite E2. cbn [flat check_items]. rewrite cid_eqb_neq by exact NN. cbn [class_of].
    rewrite SC2. cbn [bind]. rewrite <- E2, S2 by reflexivity. cbn [bind].
    rewrite zlen_to_nat, <- app_length, app_assoc.
    rewrite Us by lia. reflexivity.
Qed.

Lemma S_items_nil n pc : P_items n pc [] [] [].
Proof.
  unfold P_items. repeat split; auto; try (intros H; exfalso; apply H; reflexivity).
  intros pre j _. rewrite app_nil_r. destruct j; cbn [unpack_items]; rewrite Nat.ltb_irrefl; reflexivity.
Qed.

(** ** Field sequences *)

Lemma S_fields_nil n : P_fields n SD true [] [] [] [].
Proof.
  unfold P_fields. repeat split; auto. intros. cbn. rewrite Nat.add_0_r. reflexivity.
Qed.

Lemma S_fields_last n sz name cv iv bs out :
  P_enc n TAIL sz cv iv bs out -> P_fields n TAIL sz [(name, cv)] [iv] bs [out].
Proof.
  intros (PK & S1 & U & S2 & S3). unfold P_fields. repeat split.
  - cbn. rewrite PK. cbn. rewrite app_nil_r. reflexivity.
  - intros H. cbn. rewrite S1 by exact H. cbn. rewrite Z.add_0_r. reflexivity.
  - intros H. cbn. rewrite S3 by exact H. cbn. rewrite Z.add_0_r. reflexivity.
  - intros pre suf attrs Hs Hne. cbn [unpack_fields map fst set_all].
    rewrite U by auto. cbn [bind]. rewrite S2. cbn [bind]. rewrite zlen_to_nat.
    destruct (pre ++ bs ++ suf); [contradiction|]. reflexivity.
Qed.

Lemma S_fields_cons n k sz name cv iv b1 out fs ivs b2 outs :
  P_enc n SD true cv iv b1 out -> P_fields n k sz fs ivs b2 outs ->
  P_fields n k sz ((name, cv) :: fs) (iv :: ivs) (b1 ++ b2) (out :: outs).
Proof.
  intros (PK & S1 & U & S2 & S3) (L1 & L2 & PKs & T1 & T2 & Us). unfold P_fields. repeat split.
  - cbn. congruence.
  - cbn. congruence.
  - cbn. rewrite PK. cbn. rewrite PKs. reflexivity.
  - intros H. cbn. rewrite S1 by auto. cbn. rewrite T1 by exact H. cbn. rewrite zlen_app. reflexivity.
  - intros H. cbn. rewrite S3 by auto. cbn. rewrite T2 by exact H. cbn. rewrite zlen_app. reflexivity.
  - intros pre suf attrs Hs Hne. cbn [unpack_fields map fst set_all].
    replace (pre ++ (b1 ++ b2) ++ suf) with (pre ++ b1 ++ b2 ++ suf) in * by (rewrite !app_assoc; reflexivity).
    rewrite U by (auto; discriminate). cbn [bind]. rewrite S2. cbn [bind]. rewrite zlen_to_nat.
    assert (G : unpack_fields (unpack0 n) (size0 n) fs (set_attr name out attrs)
                  (pre ++ b1 ++ b2 ++ suf) (List.length pre + List.length b1)
                = Ok (set_all (map fst fs) outs (set_attr name out attrs),
                      (List.length pre + List.length (b1 ++ b2))%nat)).
    { rewrite app_assoc in *. rewrite <- app_length. rewrite Us by assumption.
      rewrite !app_length, Nat.add_assoc. reflexivity. }
    rewrite G. destruct (pre ++ b1 ++ b2 ++ suf); [contradiction|]. reflexivity.
Qed.

(** ** Objects *)

Lemma kind_not_oxm c : kind c <> KOxmTLV -> start_keys c = field_names c.
Proof.
  intros H. apply start_keys_names. intros ->. apply H. reflexivity.
Qed.
Lemma prefix_self (l : list string) : l = l ++ [].
Proof. rewrite app_nil_r. reflexivity. Qed.

Lemma S_plain n k sz c attrs bs outs :
  kind c = KStruct ->
  P_fields n k sz (class_attrs c) (values c attrs) bs outs ->
  P_obj (S n) k sz c (VObj c attrs) bs (mk c outs).
Proof.
  intros K F. unfold P_obj. repeat split; try apply obj_of_self.
  - eapply fields_nonempty; eauto.
  - rewrite pack0_plain by (rewrite K; reflexivity).
    eapply struct_pack_vals; eauto; rewrite K; discriminate.
  - intros H. rewrite size0_simple by (rewrite K; reflexivity). eapply struct_size_vals; eauto.
  - intros H. unfold mk. rewrite size0_simple by (rewrite K; reflexivity). eapply struct_size_outs; eauto.
  - intros attrs0 pre suf HK Hs Hne. rewrite unpack0_struct by exact K.
    eapply unpack_struct; eauto. rewrite HK, kind_not_oxm by (rewrite K; discriminate).
    apply prefix_self.
Qed.

Lemma S_len n k pos (upd : bool) c attrs bs outs :
  kind c = KLen pos upd ->
  complete c attrs ->
  P_fields n k true (class_attrs c)
    (values c (if upd then set_attr "length" (VInt (zlen bs)) attrs else attrs)) bs outs ->
  u16_at pos bs (zlen bs) ->
  P_obj (S n) SD true c (VObj c attrs) bs (mk c outs).
Proof.
  intros K C F Hu. pose proof (u16_nonempty _ _ _ Hu) as HL.
  assert (SZ : struct_size (size0 n) c attrs = Ok (zlen bs)).
  { destruct upd.
    - destruct (len_class_ok c pos K) as (w & er & d & G).
      rewrite <- (struct_size_set _ _ "length" (VInt (zlen bs)) _ _ _ _ C G).
      eapply struct_size_vals; eauto.
    - eapply struct_size_vals; eauto. }
  unfold P_obj. repeat split; try apply obj_of_self.
  - eapply fields_nonempty; eauto.
  - destruct upd.
    + rewrite pack0_upd by (rewrite K; reflexivity).
      rewrite size0_simple by (rewrite K; reflexivity). rewrite SZ. cbn [bind].
      eapply struct_pack_vals; eauto; rewrite K; discriminate.
    + rewrite pack0_plain by (rewrite K; reflexivity).
      eapply struct_pack_vals; eauto; rewrite K; discriminate.
  - intros _. rewrite size0_simple by (rewrite K; reflexivity). exact SZ.
  - intros _. unfold mk. rewrite size0_simple by (rewrite K; reflexivity). eapply struct_size_outs; eauto.
  - intros attrs0 pre suf HK Hs Hne. rewrite (unpack0_len _ _ _ _ _ _ _ K).
    assert (U1 : exists x, uint_unpack 2 None (pre ++ bs ++ suf)
                   (match pos with 4%nat => List.length pre | _ => (List.length pre + pos)%nat end)
                 = Ok x).
    { assert (U0 : exists x, uint_unpack 2 None (pre ++ bs ++ suf) (List.length pre) = Ok x).
      { unfold uint_unpack, struct_unpack_u.
        replace (List.length (slice (List.length pre) (List.length pre + 2) (pre ++ bs ++ suf))) with 2%nat.
        - eexists. reflexivity.
        - rewrite slice_length, !app_length. lia. }
      destruct U0 as (x & U0).
      pose proof (uint_unpack_u16 None _ _ _ pre suf Hu I) as U2.
      do 5 (destruct pos as [|pos]; eauto). }
    destruct U1 as (x & ->). cbn [bind].
    rewrite (uint_unpack_u16 None _ _ _ pre suf Hu I). cbn [bind].
    rewrite num_of_decoded. cbn [bind]. rewrite firstn_mid.
    eapply unpack_struct; eauto using nonempty_app.
    + rewrite HK, kind_not_oxm by (rewrite K; discriminate). apply prefix_self.
    + apply nonempty_app. lia.
Qed.

Lemma S_typed n k f t c attrs bs outs :
  In (t, c) (typed_table f) ->
  complete c attrs ->
  P_fields n k true (class_attrs c)
    (values c (match f with TMeterBand => attrs
               | _ => set_attr "length" (VInt (zlen bs)) attrs end)) bs outs ->
  u16_at 0 bs t -> u16_at 2 bs (zlen bs) ->
  P_obj (S n) SD true (typed_root f) (VObj c attrs) bs (mk c outs).
Proof.
  intros HI C F Ht Hu. pose proof (u16_nonempty _ _ _ Hu) as HL.
  pose proof (typed_table_ok _ _ _ HI) as OK. unfold typed_ok in OK.
  repeat (apply andb_prop in OK as [OK ?]).
  rename H into G, H0 into PFX, H1 into SUB, H2 into KR, H3 into KC, H4 into NM, H5 into MEM.
  destruct (find_class f t) as [c'|] eqn:FC; [|discriminate]. apply cid_eqb_eq in OK. subst c'.
  assert (K : kind c = KTyped f).
  { destruct (kind c); try discriminate. destruct f0, f; try discriminate; reflexivity. }
  assert (KRo : kind (typed_root f) = KTyped f).
  { destruct (kind (typed_root f)); try discriminate. destruct f0, f; try discriminate; reflexivity. }
  destruct (get_attr "length" (class_attrs c)) as [[]|] eqn:GL; try discriminate.
  apply prefixb_ok in PFX as (r & PFX).
  assert (SZ : struct_size (size0 n) c attrs = Ok (zlen bs)).
  { destruct f;
      [rewrite <- (struct_size_set _ _ "length" (VInt (zlen bs)) _ _ _ _ C GL)
      |rewrite <- (struct_size_set _ _ "length" (VInt (zlen bs)) _ _ _ _ C GL)
      |]; eapply struct_size_vals; eauto. }
  assert (NE : class_attrs (typed_root f) <> []) by (destruct f; discriminate).
  unfold P_obj. repeat split; try (apply obj_of_in; assumption); auto.
  - destruct f.
    1,2: rewrite pack0_upd by (rewrite K; reflexivity);
      rewrite size0_simple by (rewrite K; reflexivity); rewrite SZ; cbn [bind];
      eapply struct_pack_vals; eauto; rewrite K; discriminate.
    rewrite pack0_plain by (rewrite K; reflexivity).
      eapply struct_pack_vals; eauto; rewrite K; discriminate.
  - intros _. rewrite size0_simple by (rewrite K; reflexivity). exact SZ.
  - intros _. unfold mk. rewrite size0_simple by (rewrite K; reflexivity). eapply struct_size_outs; eauto.
  - intros attrs0 pre suf HK Hs Hne. rewrite (unpack0_typed _ _ _ _ _ _ KRo).
    pose proof (uint_unpack_u16 (Some (family_enum f)) _ _ _ pre suf Ht) as U0.
    rewrite Nat.add_0_r in U0. rewrite U0 by (right; exact MEM). cbn [bind].
    rewrite num_of_decoded. cbn [bind]. rewrite FC. cbn [bind].
    rewrite (uint_unpack_u16 None _ _ _ pre suf Hu I). cbn [bind].
    rewrite num_of_decoded. cbn [bind]. rewrite firstn_mid.
    eapply unpack_struct; eauto.
    + rewrite HK, kind_not_oxm by (rewrite KRo; discriminate). exact PFX.
    + apply nonempty_app. lia.
Qed.

Lemma S_action01 n t c attrs bs outs :
  In (t, c) action01_table ->
  P_fields n SD true (class_attrs c) (values c attrs) bs outs ->
  u16_at 0 bs t ->
  P_obj (S n) SD true ActionHeader01 (VObj c attrs) bs (mk c outs).
Proof.
  intros HI F Ht. pose proof (u16_nonempty _ _ _ Ht) as HL.
  pose proof (action01_table_ok _ _ HI) as OK. unfold action01_ok in OK.
  repeat (apply andb_prop in OK as [OK ?]).
  rename H into PFX, H0 into SUB, H1 into KC. apply cid_eqb_eq in OK.
  assert (K : kind c = KAction01) by (destruct (kind c); try discriminate; reflexivity).
  apply prefixb_ok in PFX as (r & PFX).
  unfold P_obj. repeat split; try (apply obj_of_in; assumption); try discriminate.
  - rewrite pack0_plain by (rewrite K; reflexivity).
    eapply struct_pack_vals; eauto; rewrite K; discriminate.
  - intros _. rewrite size0_simple by (rewrite K; reflexivity). eapply struct_size_vals; eauto.
  - intros _. unfold mk. rewrite size0_simple by (rewrite K; reflexivity). eapply struct_size_outs; eauto.
  - intros attrs0 pre suf HK Hs Hne. rewrite unpack0_action01 by reflexivity.
    pose proof (uint_unpack_u16 (Some E_ActionType01) _ _ _ pre suf Ht) as U0.
    rewrite Nat.add_0_r in U0. rewrite U0 by (left; reflexivity). cbn [bind].
    rewrite num_of_decoded. cbn [bind]. rewrite OK.
    eapply unpack_struct; eauto.
    rewrite set_attr_keys; rewrite HK; [exact PFX|]. left. reflexivity.
Qed.

Lemma S_action04 n k t c attrs bs outs :
  In (t, c) action04_table -> c <> ActionSetField04 ->
  P_fields n k true (class_attrs c) (values c attrs) bs outs ->
  u16_at 0 bs t -> u16_at 2 bs (zlen bs) -> zlen bs mod 8 = 0 ->
  P_obj (S n) SD true ActionHeader04 (VObj c attrs) bs (mk c outs).
Proof.
  intros HI Hc F Ht Hu Hm. pose proof (u16_nonempty _ _ _ Ht) as HL.
  pose proof (action04_table_ok _ _ HI) as OK. unfold action04_ok in OK.
  repeat (apply andb_prop in OK as [OK ?]).
  rename H into PFX, H0 into SUB, H1 into KC, H2 into MEM. apply cid_eqb_eq in OK.
  assert (K : kind c = KAction04).
  { destruct (kind c); try discriminate; [reflexivity|]. apply cid_eqb_eq in KC. contradiction. }
  apply prefixb_ok in PFX as (r & PFX).
  unfold P_obj. repeat split; try (apply obj_of_in; assumption); try discriminate.
  - rewrite pack0_plain by (rewrite K; reflexivity).
    eapply struct_pack_vals; eauto; rewrite K; discriminate.
  - intros _. rewrite size0_ceil by auto. erewrite struct_size_vals by eauto. cbn [bind].
    rewrite ceil8_mult by exact Hm. reflexivity.
  - intros _. unfold mk. rewrite size0_ceil by auto. erewrite struct_size_outs by eauto. cbn [bind].
    rewrite ceil8_mult by exact Hm. reflexivity.
  - intros attrs0 pre suf HK Hs Hne. rewrite unpack0_action04 by reflexivity.
    pose proof (uint_unpack_u16 (Some E_ActionType04) _ _ _ pre suf Ht) as U0.
    rewrite Nat.add_0_r in U0. rewrite U0 by (right; exact MEM). cbn [bind].
    rewrite (uint_unpack_u16 None _ _ _ pre suf Hu I). cbn [bind].
    rewrite !num_of_decoded. cbn [bind]. rewrite OK. rewrite firstn_mid.
    eapply unpack_struct; eauto.
    + assert (A : map fst (set_attr "action_type" (VUInt 2 (Some E_ActionType04)
                    (decoded_int (Some E_ActionType04) t)) attrs0) = map fst attrs0)
        by (apply set_attr_keys; rewrite HK; left; reflexivity).
      rewrite set_attr_keys; rewrite A, HK; [exact PFX|]. right. left. reflexivity.
    + apply nonempty_app. lia.
Qed.

Lemma kind_match04 c : kind c = KMatch04 -> c = Match04.
Proof.
  intros H. apply cid_eqb_eq.
  assert (G : (match kind c with KMatch04 => cid_eqb c Match04 | _ => true end) = true).
  { clear H. revert c. apply all_classes. vm_compute. reflexivity. }
  rewrite H in G. exact G.
Qed.

Lemma size1_obj n c cattrs x : obj_of c x ->
  (match kind c with KBucket | KAction04 | KSetField04 => false | _ => true end) = true ->
  size1 (size0 n) (VObj c cattrs) x = size0 n x.
Proof.
  intros (c1 & a1 & -> & SC) K. cbn [size1 class_of].
  destruct (kind c) eqn:KK; try discriminate; rewrite ?SC; try reflexivity.
  apply kind_match04 in KK. subst c. rewrite SC. reflexivity.
Qed.
Lemma pack1_obj n c cattrs x : obj_of c x ->
  (match kind c with KBucket | KAction04 | KSetField04 => false | _ => true end) = true ->
  pack1 (pack0 n) (VObj c cattrs) x = pack0 n x.
Proof.
  intros (c1 & a1 & -> & SC) K. cbn [pack1 class_of has_pack].
  destruct (kind c) eqn:KK; try discriminate; rewrite ?SC; reflexivity.
Qed.

Lemma S_obj n k c cattrs v bs out iv :
  P_obj n k true c v bs out -> map fst cattrs = start_keys c ->
  (match kind c with KBucket | KAction04 | KSetField04 => false | _ => true end) = true ->
  (iv = v \/ (iv = VNone /\ v = VObj c cattrs)) ->
  P_enc n k true (VObj c cattrs) iv bs out.
Proof.
  intros (O1 & O2 & NE & PK & S1 & S2 & U) HK Kc Hiv. unfold P_enc. repeat split.
  - destruct Hiv as [-> | [-> ->] ]; [rewrite pack1_obj by assumption|]; exact PK.
  - intros _. destruct Hiv as [-> | [-> ->] ]; [rewrite size1_obj by assumption|]; auto.
  - intros pre suf Hs Hne. destruct (deepcopy_obj c cattrs) as (a & -> & Ha).
    apply U; auto. congruence.
  - auto.
  - intros _. rewrite size1_obj by assumption. auto.
Qed.

(** ** Inversion *)

Lemma fields_inv n k sz nm cv f2 fs vals bs outs :
  enc_fields n k sz ((nm, cv) :: f2 :: fs) vals bs outs ->
  exists iv ivs b1 b2 out outs',
    vals = iv :: ivs /\ bs = b1 ++ b2 /\ outs = out :: outs' /\
    enc n SD true cv iv b1 out /\ enc_fields n k sz (f2 :: fs) ivs b2 outs'.
Proof. intros H. inversion H; subst. repeat eexists; eauto. Qed.
Lemma fields_inv1 n k sz nm cv vals bs outs :
  enc_fields n k sz [(nm, cv)] vals bs outs ->
  exists iv out, vals = [iv] /\ outs = [out] /\ enc n k sz cv iv bs out.
Proof.
  intros H. inversion H; subst.
  - eauto.
  - match goal with E : enc_fields _ _ _ [] _ _ _ |- _ => inversion E; subst end.
    rewrite app_nil_r. eauto.
Qed.
Lemma uint_inv n k sz w er d iv bs out :
  enc n k sz (VUInt w er d) iv bs out ->
  exists z, (0 < w)%nat /\
    ((iv <> VNone /\ int_value iv z) \/ (iv = VNone /\ int_value (VUInt w er d) z)) /\
    0 <= z < ulimit w /\ allowed_int er z /\ bs = be_encode w z /\
    out = VUInt w er (decoded_int er z) /\ exists n', n = S n'.
Proof. intros H. inversion H; subst. eexists. repeat split; eauto; lia. Qed.

(** ** Objects with a layout of their own *)

(** Shape of a dictionary that has all the fields of a class. *)
Lemma own_shape c attrs names : complete c attrs -> field_names c = names ->
  List.length (own c attrs) = List.length names.
Proof. intros C <-. unfold complete in C. rewrite <- C, map_length. reflexivity. Qed.

Ltac own_cases H l :=
  let E := fresh in
  match type of H with complete ?c ?a =>
    unfold complete in H; remember (own c a) as l eqn:E; cbn in H
  end.

Lemma S_match01 n k sz attrs bs outs :
  complete Match01 attrs ->
  enc_fields n k sz (class_attrs Match01) (values Match01 attrs) bs outs ->
  P_fields n k sz (class_attrs Match01) (values Match01 attrs) bs outs ->
  P_obj (S n) k sz Match01 (VObj Match01 attrs) bs (mk Match01 outs).
Proof.
  intros C D F. unfold P_obj. repeat split; try apply obj_of_self; try discriminate.
  - rewrite pack0_plain by reflexivity. eapply struct_pack_vals; eauto; discriminate.
  - intros H. rewrite size0_simple by reflexivity. eapply struct_size_vals; eauto.
  - intros H. unfold mk. rewrite size0_simple by reflexivity. eapply struct_size_outs; eauto.
  - intros attrs0 pre suf HK Hs Hne. rewrite unpack0_match01 by reflexivity.
    pose proof (unpack_struct _ _ _ _ _ _ _ attrs0 [] pre suf F) as U.
    rewrite HK, app_nil_r in U. specialize (U eq_refl Hs Hne).
    apply bind_ok in U as (x & U1 & U2). rewrite U1. cbn [bind].
    assert (E : fst x = combine (field_names Match01) outs) by (unfold mk in U2; congruence).
    rewrite E. cbn [class_attrs attrs_Match01] in D.
    apply fields_inv in D as (iv & ivs & b1 & b2 & out & outs' & EV & -> & -> & D & _).
    apply uint_inv in D as (z & _ & _ & Hz & Ha & -> & -> & _).
    rewrite <- !app_assoc. rewrite uint_unpack_mid by assumption. cbn [bind].
    rewrite set_attr_same; [reflexivity|].
    eapply get_attr_combine with (i := 0%nat); [apply names_nodup|reflexivity|reflexivity].
Qed.

(** Position of a named field. *)
Lemma values_set c attrs n x : complete c attrs -> In n (field_names c) ->
  values c (set_attr n x attrs) = map snd (set_attr n x (own c attrs)).
Proof. intros C I. unfold values. rewrite own_set; eauto using complete_in. Qed.

Lemma S_setfield n attrs fattrs body outs pad :
  let bs := body ++ repeat 0 pad in
  complete ActionSetField04 attrs ->
  get_attr "field" attrs = Some (VObj OxmTLV04 fattrs) ->
  enc_fields n SD true (class_attrs ActionSetField04)
    (values ActionSetField04 (set_attr "length" (VInt (zlen bs)) attrs)) body outs ->
  P_fields n SD true (class_attrs ActionSetField04)
    (values ActionSetField04 (set_attr "length" (VInt (zlen bs)) attrs)) body outs ->
  u16_at 0 body 25 ->
  zlen bs mod 8 = 0 -> (pad < 8)%nat ->
  P_obj (S n) SD true ActionHeader04 (VObj ActionSetField04 attrs) bs (mk ActionSetField04 outs).
Proof.
  intros bs C GF D F Ht Hm Hp. pose proof (u16_nonempty _ _ _ Ht) as HL.
  assert (LB : zlen bs = zlen body + Z.of_nat pad) by (unfold bs; rewrite zlen_app, zlen_repeat; reflexivity).
  assert (SZ : struct_size (size0 n) ActionSetField04 attrs = Ok (zlen body)).
  { rewrite <- (struct_size_set _ _ "length" (VInt (zlen bs)) _ 2 None VNone C eq_refl).
    eapply struct_size_vals; eauto. }
  assert (CE : ceil8 (zlen body) = zlen bs).
  { rewrite LB. apply ceil8_pad; [rewrite <- LB; exact Hm|lia]. }
  (* the two leading integers and the field *)
  pose proof F as (_ & _ & PK & _).
  rewrite values_set in PK by (auto; right; left; reflexivity).
  rewrite values_set in D by (auto; right; left; reflexivity).
  pose proof GF as GF0. rewrite <- (get_own ActionSetField04) in GF by (right; right; left; reflexivity).
  pose proof C as C'. unfold complete in C'.
  destruct (own ActionSetField04 attrs) as [|[k1 v1] [|[k2 v2] [|[k3 v3] [|] ] ] ]; try discriminate.
  cbn in C'. injection C' as -> -> ->. cbn in GF. injection GF as ->.
  cbn [set_attr String.eqb Ascii.eqb Bool.eqb map snd] in D, PK.
  cbn [class_attrs attrs_ActionSetField04] in D.
  apply fields_inv in D as (iv1 & ivs1 & b1 & r1 & o1 & outs1 & EV1 & EB1 & EO1 & D1 & D).
  apply fields_inv in D as (iv2 & ivs2 & b2 & r2 & o2 & outs2 & EV2 & EB2 & EO2 & D2 & D).
  apply fields_inv1 in D as (iv3 & o3 & EV3 & EO3 & D3).
  apply uint_inv in D1 as (z1 & _ & Hv1 & Hz1 & Ha1 & Eb1 & _ & _).
  apply uint_inv in D2 as (z2 & _ & Hv2 & Hz2 & Ha2 & Eb2 & _ & _).
  rewrite EV2 in EV1. rewrite EV3 in EV1. injection EV1 as <- <- <-.
  assert (z2 = zlen bs).
  { destruct Hv2 as [(_ & Hv2)|(X & _)]; [|discriminate]. inversion Hv2. reflexivity. }
  subst z2 r1 b1 b2. rename r2 into fb.
  assert (PF : pack0 n (VObj OxmTLV04 fattrs) = Ok fb).
  { cbn [class_attrs attrs_ActionSetField04 map snd combine concatM fst] in PK.
    apply bind_ok in PK as (x1 & P1 & PK). apply bind_ok in PK as (y1 & PK & E1).
    apply bind_ok in PK as (x2 & P2 & PK). apply bind_ok in PK as (y2 & PK & E2).
    apply bind_ok in PK as (x3 & P3 & PK). cbn [bind] in PK.
    injection PK as <-. injection E2 as <-. injection E1 as E1.
    unfold new_OxmTLV04 in P3. rewrite pack1_obj in P3 by (auto using obj_of_self).
    cbn [pack1] in P1, P2.
    assert (X1 : x1 = be_encode 2 z1).
    { destruct Hv1 as [(Hn & Hv1)|(-> & Hv1)].
      - rewrite (int_value_pack _ _ _ _ z1), uint_struct_ok in P1 by assumption. congruence.
      - rewrite (int_value_default _ _ _ z1), uint_struct_ok in P1 by assumption. congruence. }
    assert (X2 : x2 = be_encode 2 (zlen bs)).
    { rewrite (int_value_pack _ _ _ _ (zlen bs)), uint_struct_ok in P2
        by (auto using iv_int; discriminate). congruence. }
    subst x1 x2. rewrite <- E1 in EB1. apply app_inv_head in EB1. apply app_inv_head in EB1.
    rewrite app_nil_r in EB1. rewrite P3, EB1. reflexivity. }
  assert (LF : zlen body = 4 + zlen fb).
  { rewrite EB1, !zlen_app, !zlen_be. lia. }
  unfold P_obj. repeat split; try (apply obj_of_in; reflexivity); try discriminate.
  - change (pack0 (S n) (VObj ActionSetField04 attrs)) with
      (do f <- attr_or_error "field" attrs;
       do fb <- (if has_pack f then pack0 n f else Err AttributeError);
       let len := ceil8 (4 + zlen fb) in
       do p <- struct_pack (pack0 n) ActionSetField04 (set_attr "length" (VInt len) attrs);
       Ok (p ++ zeros (Z.to_nat (len - zlen p)))%list).
    unfold attr_or_error. rewrite GF0. cbn [bind has_pack]. rewrite PF. cbn [bind].
    rewrite <- LF, CE. cbv zeta.
    erewrite struct_pack_vals by (eauto; discriminate). cbn [bind].
    unfold bs at 2, zeros. do 3 f_equal. lia.
  - intros _. rewrite size0_ceil by auto. rewrite SZ. cbn [bind]. rewrite CE. reflexivity.
  - intros _. unfold mk. rewrite size0_ceil by auto. erewrite struct_size_outs by eauto. cbn [bind].
    rewrite CE. reflexivity.
  - intros attrs0 pre suf HK Hs Hne. rewrite unpack0_action04 by reflexivity.
    assert (Hu : u16_at 2 body (zlen bs)).
    { exists (be_encode 2 z1), fb. rewrite be_encode_length. repeat split; auto; rewrite ulimit2 in Hz2; lia. }
    assert (Ht' : u16_at 0 bs 25 /\ u16_at 2 bs (zlen bs)).
    { split.
      - destruct Ht as (x & y & E & L & R). exists x, (y ++ repeat 0 pad). unfold bs.
        rewrite E at 1. rewrite <- !app_assoc. auto.
      - destruct Hu as (x & y & E & L & R). exists x, (y ++ repeat 0 pad). unfold bs at 1.
        rewrite E at 1. rewrite <- !app_assoc. auto. }
    destruct Ht' as [Ht1 Hu1].
    pose proof (uint_unpack_u16 (Some E_ActionType04) _ _ _ pre suf Ht1) as U0.
    rewrite Nat.add_0_r in U0. rewrite U0 by (right; reflexivity). cbn [bind].
    rewrite (uint_unpack_u16 None _ _ _ pre suf Hu1 I). cbn [bind].
    rewrite !num_of_decoded. cbn [bind].
    change (action_class ActionHeader04 action_classes_04 25) with ActionSetField04.
    rewrite firstn_mid, app_nil_r. unfold bs.
    eapply unpack_struct; eauto.
    + assert (A : map fst (set_attr "action_type" (VUInt 2 (Some E_ActionType04)
                    (decoded_int (Some E_ActionType04) 25)) attrs0) = map fst attrs0)
        by (apply set_attr_keys; rewrite HK; left; reflexivity).
      rewrite set_attr_keys; rewrite A, HK; [reflexivity|]. right. left. reflexivity.
    + discriminate.
    + apply nonempty_app. lia.
Qed.

Lemma unpack_fields_cons rec size name cv tl attrs buff b : buff <> [] ->
  unpack_fields rec size ((name, cv) :: tl) attrs buff b
  = (do a' <- rec (deepcopy cv) buff b; do s <- size a';
     unpack_fields rec size tl (set_attr name a' attrs) buff (b + Z.to_nat s)).
Proof. intros H. destruct buff; [contradiction|reflexivity]. Qed.

Lemma land1 m : Z.land m 1 = m mod 2.
Proof. change 1 with (Z.ones 1). rewrite Z.land_ones by lia. reflexivity. Qed.

Lemma oxm_member_bound f : is_member E_OxmOfbMatchField04 f = true -> 0 <= f <= 127.
Proof.
  intros H. unfold is_member in H. apply existsb_exists in H as (x & I & E).
  apply Z.eqb_eq in E. subst x.
  assert (G : forallb (fun z => (0 <=? z) && (z <=? 127)) (enum_values (enum_def E_OxmOfbMatchField04)) = true)
    by reflexivity.
  rewrite forallb_forall in G. apply G in I. lia.
Qed.
Lemma oxm_class_bound c : is_member E_OxmClass04 c = true -> 0 <= c < 65536.
Proof.
  intros H. unfold is_member in H. apply existsb_exists in H as (x & I & E).
  apply Z.eqb_eq in E. subst x.
  assert (G : forallb (fun z => (0 <=? z) && (z <? 65536)) (enum_values (enum_def E_OxmClass04)) = true)
    by reflexivity.
  rewrite forallb_forall in G. apply G in I. lia.
Qed.

Lemma S_oxm n attrs ic cl ifd f im m ipv payload :
  complete OxmTLV04 attrs ->
  get_attr "oxm_class" attrs = Some ic -> int_exact ic cl ->
  is_member E_OxmClass04 cl = true ->
  get_attr "oxm_field" attrs = Some ifd -> int_exact ifd f ->
  (if cl =? 0x8000 then is_member E_OxmOfbMatchField04 f = true
   else 0 <= f <= 127 /\ exists z, ifd = VInt z) ->
  get_attr "oxm_hasmask" attrs = Some im -> int_exact im m ->
  get_attr "oxm_value" attrs = Some ipv ->
  P_payload (S n) ipv payload -> zlen payload <= 255 ->
  P_obj (S (S n)) SD true OxmTLV04 (VObj OxmTLV04 attrs)
    (be_encode 2 cl ++ [2 * f + m mod 2] ++ [zlen payload] ++ payload)
    (VObj OxmTLV04
       [("oxm_class", VUInt 2 (Some E_OxmClass04) (VEnum E_OxmClass04 cl));
        ("oxm_field_and_mask", VUInt 1 None (VInt (2 * f + m mod 2)));
        ("oxm_length", VUInt 1 None (VInt (zlen payload)));
        ("oxm_value", VBytes payload);
        ("oxm_field", if cl =? 0x8000 then VEnum E_OxmOfbMatchField04 f else VInt f);
        ("oxm_hasmask", VInt (m mod 2))]).
Proof.
  intros C G1 X1 M1 G2 X2 M2 G3 X3 G4 (PP & PS) HL.
  pose proof (oxm_class_bound _ M1) as Bc.
  assert (Bf : 0 <= f <= 127).
  { destruct (cl =? 0x8000); [apply oxm_member_bound; exact M2|tauto]. }
  pose proof (Z.mod_pos_bound m 2 ltac:(lia)) as Bm.
  set (fm := 2 * f + m mod 2) in *.
  assert (Bfm : 0 <= fm < 256) by (unfold fm; lia).
  pose proof (zlen_nonneg payload) as Bp.
  assert (PP1 : bin_pack (pack0 (S n)) (match ipv with VNone => VNone | _ => ipv end) = Ok payload).
  { destruct ipv; exact PP. }
  assert (PS1 : bin_size (size0 (S n)) (match ipv with VNone => VNone | _ => ipv end) = Ok (zlen payload)).
  { destruct ipv; exact PS. }
  (* the declared fields of the object *)
  pose proof G1 as G1'. pose proof G4 as G4'.
  rewrite <- (get_own OxmTLV04) in G1' by (left; reflexivity).
  rewrite <- (get_own OxmTLV04) in G4' by (right; right; right; left; reflexivity).
  pose proof C as C'. unfold complete in C'.
  destruct (own OxmTLV04 attrs) as [|[k1 v1] [|[k2 v2] [|[k3 v3] [|[k4 v4] [|] ] ] ] ] eqn:EO; try discriminate.
  cbn in C'. injection C' as -> -> -> ->. cbn in G1', G4'. injection G1' as ->. injection G4' as ->.
  assert (BS : zlen (be_encode 2 cl ++ [fm] ++ [zlen payload] ++ payload) = 4 + zlen payload).
  { rewrite !zlen_app, zlen_be. unfold zlen at 1 2. cbn [List.length]. lia. }
  unfold P_obj. repeat split; try apply obj_of_self; try discriminate.
  - change (pack0 (S (S n)) (VObj OxmTLV04 attrs)) with
      (do cls <- attr_or_error "oxm_class" attrs;
       do field <- attr_or_error "oxm_field" attrs;
       do fi <- recast ValueError PackException (oxm_field_int cls field);
       do hm <- attr_or_error "oxm_hasmask" attrs;
       do h <- num_of hm;
       do val <- attr_or_error "oxm_value" attrs;
       do payload <- bin_pack (pack0 (S n)) val;
       struct_pack (pack0 (S n)) OxmTLV04
         (set_attr "oxm_length" (VInt (zlen payload))
            (set_attr "oxm_field_and_mask" (VInt (fi * 2 + Z.land h 1)) attrs))).
    unfold attr_or_error. rewrite G1, G2, G3, G4. cbn [bind].
    assert (FI : oxm_field_int ic ifd = Ok f).
    { unfold oxm_field_int. rewrite (int_exact_num _ _ X1).
      destruct (Z.eqb_spec cl 32768) as [->|N].
      - rewrite (int_exact_num _ _ X2), M2. reflexivity.
      - destruct M2 as (_ & z & ->). inversion X2; subst.
        cbn [as_int]. replace (127 <? f) with false by lia.
        destruct cl as [|q|q]; try reflexivity.
        do 16 (destruct q as [q|q|]; try reflexivity). exfalso. apply N. reflexivity. }
    rewrite FI. cbn [recast bind]. rewrite (int_exact_num _ _ X3). cbn [bind].
    rewrite PP. cbn [bind]. rewrite land1.
    rewrite struct_pack_eq by discriminate.
    assert (I2 : In "oxm_field_and_mask" (field_names OxmTLV04)) by (right; left; reflexivity).
    assert (I3 : In "oxm_length" (field_names OxmTLV04)) by (right; right; left; reflexivity).
    unfold values. rewrite own_set by (eauto using complete_in, complete_set).
    rewrite own_set by (eauto using complete_in).
    rewrite EO. cbn [set_attr String.eqb Ascii.eqb Bool.eqb map snd].
    replace (f * 2 + m mod 2) with fm by (unfold fm; lia).
    cbn [class_attrs attrs_OxmTLV04 map snd combine concatM fst pack1].
    destruct (int_exact_value _ _ X1) as [V1 N1].
    rewrite (int_value_pack _ _ _ _ cl), uint_struct_ok by (auto; rewrite ?ulimit2; lia).
    cbn [bind].
    rewrite (int_value_pack _ _ _ _ fm), uint_struct_ok
      by (auto using iv_int; try discriminate; change (ulimit 1) with 256; lia).
    cbn [bind].
    rewrite (int_value_pack _ _ _ _ (zlen payload)), uint_struct_ok
      by (auto using iv_int; try discriminate; change (ulimit 1) with 256; lia).
    cbn [bind]. rewrite PP1. cbn [bind]. rewrite app_nil_r.
    rewrite !be1 by (unfold is_byte; lia). reflexivity.
  - intros _. rewrite size0_simple by reflexivity. unfold struct_size. rewrite zip_attrs_values.
    unfold values. rewrite EO.
    cbn [class_attrs attrs_OxmTLV04 map snd combine sumM fst size1].
    assert (RU : forall w er d, size0 (S n) (VUInt w er d) = Ok (Z.of_nat w)) by reflexivity.
    rewrite !RU, PS1. cbn [bind]. rewrite BS. f_equal. lia.
  - intros _. rewrite size0_simple by reflexivity. unfold struct_size, zip_attrs.
    cbn [class_attrs attrs_OxmTLV04 map snd combine sumM fst size1 size0 filter is_class_attr existsb
         String.eqb Ascii.eqb Bool.eqb orb bin_size has_pack is_generic_type].
    cbn [bind]. rewrite BS. f_equal. lia.
  - intros attrs0 pre suf HK Hs Hne.
    change (start_keys OxmTLV04) with
      ["oxm_class"; "oxm_field_and_mask"; "oxm_length"; "oxm_value"; "oxm_field"; "oxm_hasmask"] in HK.
    destruct attrs0 as [|[q1 w1] [|[q2 w2] [|[q3 w3] [|[q4 w4] [|[q5 w5] [|[q6 w6] [|] ] ] ] ] ] ];
      try discriminate.
    cbn [map fst] in HK. injection HK as -> -> -> -> -> ->.
    set (attrs0 := [_; _; _; _; _; _]).
    set (buff := pre ++ _ ++ suf) in *.
    change (unpack0 (S (S n)) (VObj OxmTLV04 attrs0) buff (List.length pre)) with
      (do r <- unpack_fields (unpack0 (S n)) (size0 (S n)) (class_attrs OxmTLV04) attrs0 buff (List.length pre);
       let at1 := fst r in
       do fm <- attr_num "oxm_field_and_mask" at1;
       do cls <- attr_num "oxm_class" at1;
       do field <- (if cls =? 32768
                    then recast ValueError UnpackException
                                (enum_call E_OxmOfbMatchField04 (fm / 2))
                    else Ok (VInt (fm / 2)));
       do len <- attr_num "oxm_length" at1;
       Ok (VObj OxmTLV04
             (set_attr "oxm_value" (VBytes (slice (List.length pre + 4) (List.length pre + 4 + Z.to_nat len) buff))
                (set_attr "oxm_hasmask" (VInt (if Z.land fm 1 =? 1 then 1 else 0))
                   (set_attr "oxm_field" field at1))))).
    change (class_attrs OxmTLV04) with attrs_OxmTLV04. unfold attrs_OxmTLV04.
    assert (E1 : uint_unpack 2 (Some E_OxmClass04) buff (List.length pre)
                 = Ok (VUInt 2 (Some E_OxmClass04) (VEnum E_OxmClass04 cl))).
    { unfold buff. rewrite <- app_assoc. rewrite uint_unpack_mid; auto.
      right. exact M1. }
    assert (E2 : uint_unpack 1 None buff (List.length pre + 2) = Ok (VUInt 1 None (VInt fm))).
    { replace buff with ((pre ++ be_encode 2 cl) ++ be_encode 1 fm ++ ([zlen payload] ++ payload) ++ suf)
        by (unfold buff; rewrite be1 by exact Bfm; rewrite <- !app_assoc; reflexivity).
      replace (List.length pre + 2)%nat with (List.length (pre ++ be_encode 2 cl))
        by (rewrite app_length, be_encode_length; reflexivity).
      rewrite uint_unpack_mid; auto. exact I. }
    assert (E3 : uint_unpack 1 None buff (List.length pre + 2 + 1) = Ok (VUInt 1 None (VInt (zlen payload)))).
    { replace buff with ((pre ++ be_encode 2 cl ++ [fm]) ++ be_encode 1 (zlen payload) ++ payload ++ suf)
        by (unfold buff; rewrite be1 by (unfold is_byte; lia); rewrite <- !app_assoc; reflexivity).
      replace (List.length pre + 2 + 1)%nat with (List.length (pre ++ be_encode 2 cl ++ [fm]))
        by (rewrite !app_length, be_encode_length; cbn; lia).
      rewrite uint_unpack_mid; auto; [|exact I]. change (ulimit 1) with 256. lia. }
    assert (E4 : slice (List.length pre + 4) (List.length pre + 4 + Z.to_nat (zlen payload)) buff = payload).
    { replace buff with ((pre ++ be_encode 2 cl ++ [fm] ++ [zlen payload]) ++ payload ++ suf)
        by (unfold buff; rewrite <- !app_assoc; reflexivity).
      apply slice_mid; rewrite ?zlen_to_nat, !app_length, be_encode_length; cbn; lia. }
    assert (LM : Z.land fm 1 = m mod 2).
    { rewrite land1. unfold fm. rewrite Z.add_comm, Z.mul_comm, Z.mod_add by lia. apply Z.mod_mod. lia. }
    assert (DV : fm / 2 = f).
    { unfold fm. rewrite Z.mul_comm, Z.div_add_l by lia. rewrite (Z.div_small (m mod 2)) by lia. lia. }
    assert (RU : forall w er d, size0 (S n) (VUInt w er d) = Ok (Z.of_nat w)) by reflexivity.
    assert (RB : forall b, size0 (S n) (VBin (VBytes b)) = Ok (zlen b)) by reflexivity.
    assert (UU : forall w er d b o, unpack0 (S n) (VUInt w er d) b o = uint_unpack w er b o) by reflexivity.
    assert (UB : forall d b o, unpack0 (S n) (VBin d) b o = Ok (VBin (VBytes (skipn o b)))) by reflexivity.
    rewrite unpack_fields_cons by exact Hne. cbn [deepcopy]. rewrite UU, E1. cbn [bind]. rewrite RU. cbn [bind].
    change (Z.to_nat (Z.of_nat 2)) with 2%nat.
    rewrite unpack_fields_cons by exact Hne. cbn [deepcopy]. rewrite UU, E2. cbn [bind]. rewrite RU. cbn [bind].
    change (Z.to_nat (Z.of_nat 1)) with 1%nat.
    rewrite unpack_fields_cons by exact Hne. cbn [deepcopy]. rewrite UU, E3. cbn [bind]. rewrite RU. cbn [bind].
    rewrite unpack_fields_cons by exact Hne. cbn [deepcopy]. rewrite UB. cbn [bind]. rewrite RB. cbn [bind].
    cbn [unpack_fields bind fst]. unfold attrs0.
    cbn [set_attr String.eqb Ascii.eqb Bool.eqb attr_num attr_or_error get_attr bind].
    change (num_of (VUInt 1 None (VInt fm))) with (@Ok Z fm).
    change (num_of (VUInt 2 (Some E_OxmClass04) (VEnum E_OxmClass04 cl))) with (@Ok Z cl).
    change (num_of (VUInt 1 None (VInt (zlen payload)))) with (@Ok Z (zlen payload)).
    cbn [bind]. rewrite DV, LM.
    assert (FD : (if cl =? 32768 then recast ValueError UnpackException (enum_call E_OxmOfbMatchField04 f)
                  else Ok (VInt f))
                 = Ok (if cl =? 0x8000 then VEnum E_OxmOfbMatchField04 f else VInt f)).
    { destruct (cl =? 32768); auto. rewrite enum_call_ok by (right; exact M2). reflexivity. }
    rewrite FD. cbn [bind].
    cbn [set_attr String.eqb Ascii.eqb Bool.eqb attr_num attr_or_error get_attr bind].
    change (num_of (VUInt 1 None (VInt (zlen payload)))) with (@Ok Z (zlen payload)).
    cbn [bind]. rewrite E4.
    replace (if m mod 2 =? 1 then 1 else 0) with (m mod 2) by (destruct (m mod 2 =? 1) eqn:?; lia).
    reflexivity.
Qed.

Lemma S_match04 n k attrs body outs pad :
  let bs := body ++ repeat 0 pad in
  complete Match04 attrs ->
  enc_fields n k true (class_attrs Match04)
    (values Match04 (set_attr "length" (VInt (zlen body)) attrs)) body outs ->
  P_fields n k true (class_attrs Match04)
    (values Match04 (set_attr "length" (VInt (zlen body)) attrs)) body outs ->
  zlen bs mod 8 = 0 -> (pad < 8)%nat ->
  P_obj (S n) SD true Match04 (VObj Match04 attrs) bs (mk Match04 outs).
Proof.
  intros bs C D F Hm Hp.
  assert (LB : zlen bs = zlen body + Z.of_nat pad) by (unfold bs; rewrite zlen_app, zlen_repeat; reflexivity).
  assert (SZ : forall x, struct_size (size0 n) Match04 (set_attr "length" x attrs) = Ok (zlen body)).
  { intros x. rewrite (struct_size_set _ _ "length" x _ 2 None VNone C eq_refl).
    rewrite <- (struct_size_set _ _ "length" (VInt (zlen body)) _ 2 None VNone C eq_refl).
    eapply struct_size_vals; eauto. }
  assert (SZ0 : struct_size (size0 n) Match04 attrs = Ok (zlen body)).
  { rewrite <- (struct_size_set _ _ "length" (VInt (zlen body)) _ 2 None VNone C eq_refl). apply SZ. }
  assert (CE : ceil8 (zlen body) = zlen bs).
  { rewrite LB. apply ceil8_pad; [rewrite <- LB; exact Hm|lia]. }
  pose proof F as (_ & LO & _ & _ & _ & UF).
  rewrite values_set in D by (auto; right; left; reflexivity).
  pose proof C as C'. unfold complete in C'.
  destruct (own Match04 attrs) as [|[k1 v1] [|[k2 v2] [|[k3 v3] [|] ] ] ]; try discriminate.
  cbn in C'. injection C' as -> -> ->.
  cbn [set_attr String.eqb Ascii.eqb Bool.eqb map snd] in D.
  change (class_attrs Match04) with attrs_Match04 in D. unfold attrs_Match04 in D.
  apply fields_inv in D as (iv1 & ivs1 & b1 & r1 & o1 & outs1 & EV1 & EB1 & EO1 & D1 & D).
  apply fields_inv in D as (iv2 & ivs2 & b2 & r2 & o2 & outs2 & EV2 & EB2 & EO2 & D2 & D).
  apply fields_inv1 in D as (iv3 & o3 & EV3 & EO3 & D3).
  apply uint_inv in D1 as (z1 & _ & _ & Hz1 & Ha1 & Eb1 & EO1' & n' & Hn).
  apply uint_inv in D2 as (z2 & _ & Hv2 & Hz2 & Ha2 & Eb2 & EO2' & _).
  rewrite EV2 in EV1. rewrite EV3 in EV1. injection EV1 as <- <- <-.
  assert (z2 = zlen body).
  { destruct Hv2 as [(_ & Hv2)|(X & _)]; [|discriminate]. inversion Hv2. reflexivity. }
  subst z2 r1 b1 b2 outs1 outs2 o1 o2. rename r2 into fb.
  assert (HL : (4 <= List.length body)%nat).
  { rewrite EB1, !app_length, !be_encode_length. lia. }
  unfold P_obj. repeat split; try apply obj_of_self; try discriminate.
  - change (pack0 (S n) (VObj Match04 attrs)) with
      (do s <- struct_size (size0 n) Match04 attrs;
       let attrs' := set_attr "length" (VInt s) attrs in
       do p <- struct_pack (pack0 n) Match04 attrs';
       do padded <- size0 (S n) (VObj Match04 attrs');
       Ok (p ++ zeros (Z.to_nat (padded - zlen p)))%list).
    rewrite SZ0. cbn [bind]. cbv zeta.
    erewrite struct_pack_vals by (eauto; discriminate). cbn [bind].
    rewrite size0_ceil by auto. rewrite SZ. cbn [bind]. rewrite CE.
    unfold zeros, bs at 2. do 3 f_equal. lia.
  - intros _. rewrite size0_ceil by auto. rewrite SZ0. cbn [bind]. rewrite CE. reflexivity.
  - intros _. unfold mk. rewrite size0_ceil by auto. erewrite struct_size_outs by eauto. cbn [bind].
    rewrite CE. reflexivity.
  - intros attrs0 pre suf HK Hs Hne.
    set (buff := pre ++ bs ++ suf) in *.
    change (unpack0 (S n) (VObj Match04 attrs0) buff (List.length pre)) with
      (do r <- unpack_fields (unpack0 n) (size0 n) (removelast (class_attrs Match04)) attrs0 buff (List.length pre);
       do len <- attr_num "length" (fst r);
       do r2 <- unpack_fields (unpack0 n) (size0 n)
                  [("oxm_match_fields", VList OxmMatchFields04 OxmTLV04 [])]
                  (fst r) (firstn (List.length pre + Z.to_nat len) buff) (snd r);
       Ok (VObj Match04 (fst r2))).
    assert (HB1 : pre ++ body ++ [] <> []) by (apply nonempty_app; lia).
    specialize (UF pre [] attrs0 (fun _ => eq_refl) HB1).
    change (class_attrs Match04) with attrs_Match04 in *. unfold attrs_Match04 in *.
    change (removelast _) with
      [("match_type", VUInt 2 (Some E_MatchType04) VNone); ("length", VUInt 2 None VNone)].
    assert (EF : firstn (List.length pre + Z.to_nat (zlen body)) buff = pre ++ body ++ []).
    { unfold buff, bs. rewrite <- app_assoc. apply firstn_mid. }
    assert (RU : forall w er d, size0 n (VUInt w er d) = Ok (Z.of_nat w)) by (rewrite Hn; reflexivity).
    assert (UU : forall w er d b o, unpack0 n (VUInt w er d) b o = uint_unpack w er b o)
      by (rewrite Hn; reflexivity).
    assert (E1 : forall x, uint_unpack 2 (Some E_MatchType04) (pre ++ body ++ x) (List.length pre)
                 = Ok (VUInt 2 (Some E_MatchType04) (decoded_int (Some E_MatchType04) z1))).
    { intros x. rewrite EB1, <- !app_assoc. apply uint_unpack_mid; assumption. }
    assert (E2 : forall x, uint_unpack 2 None (pre ++ body ++ x) (List.length pre + 2)
                 = Ok (VUInt 2 None (VInt (zlen body)))).
    { intros x.
      replace (pre ++ body ++ x) with ((pre ++ be_encode 2 z1) ++ be_encode 2 (zlen body) ++ fb ++ x)
        by (rewrite EB1 at 2; rewrite <- !app_assoc; reflexivity).
      replace (List.length pre + 2)%nat with (List.length (pre ++ be_encode 2 z1))
        by (rewrite app_length, be_encode_length; reflexivity).
      rewrite uint_unpack_mid; auto. }
    rewrite unpack_fields_cons in UF by exact HB1. cbn [deepcopy] in UF.
    rewrite UU, E1 in UF. cbn [bind] in UF. rewrite RU in UF. cbn [bind] in UF.
    change (Z.to_nat (Z.of_nat 2)) with 2%nat in UF.
    rewrite unpack_fields_cons in UF by exact HB1. cbn [deepcopy] in UF.
    rewrite UU, E2 in UF. cbn [bind] in UF. rewrite RU in UF. cbn [bind] in UF.
    change (Z.to_nat (Z.of_nat 2)) with 2%nat in UF.
    assert (EB : buff = pre ++ body ++ (repeat 0 pad ++ suf))
      by (unfold buff, bs; rewrite <- app_assoc; reflexivity).
    rewrite unpack_fields_cons by exact Hne. cbn [deepcopy].
    rewrite UU. rewrite EB at 1. rewrite E1. cbn [bind]. rewrite RU. cbn [bind].
    change (Z.to_nat (Z.of_nat 2)) with 2%nat.
    rewrite unpack_fields_cons by exact Hne. cbn [deepcopy].
    rewrite UU. rewrite EB at 1. rewrite E2. cbn [bind]. rewrite RU. cbn [bind].
    change (Z.to_nat (Z.of_nat 2)) with 2%nat.
    assert (UN : forall at0 b o, unpack_fields (unpack0 n) (size0 n) [] at0 b o = Ok (at0, o)) by reflexivity.
    rewrite UN. cbn [bind fst snd].
    unfold attr_num, attr_or_error. rewrite get_set_same. cbn [bind].
    change (num_of (VUInt 2 None (VInt (zlen body)))) with (@Ok Z (zlen body)). cbn [bind].
    rewrite EF. rewrite UF. cbn [bind fst]. unfold mk. do 2 f_equal.
    apply (set_all_fresh (field_names Match04) _ _ []).
    + apply names_nodup.
    + exact LO.
    + rewrite HK. reflexivity.
Qed.

Lemma S_bucket n k sz attrs il bs outs :
  complete Bucket04 attrs ->
  get_attr "length" attrs = Some il -> int_exact il (zlen bs) ->
  enc_fields n k sz (class_attrs Bucket04) (values Bucket04 attrs) bs outs ->
  P_fields n k sz (class_attrs Bucket04) (values Bucket04 attrs) bs outs ->
  P_obj (S n) SD true Bucket04 (VObj Bucket04 attrs) bs (mk Bucket04 outs).
Proof.
  intros C G X D F.
  pose proof (int_exact_value _ _ X) as [XV XN].
  pose proof G as G'. rewrite <- (get_own Bucket04) in G' by (left; reflexivity).
  pose proof C as C'. unfold complete in C'. unfold values in D.
  change (class_attrs Bucket04) with attrs_Bucket04 in D. unfold attrs_Bucket04 in D.
  apply fields_inv in D as (iv1 & ivs1 & b1 & r1 & o1 & outs1 & EV1 & EB1 & EO1 & D1 & D).
  destruct (own Bucket04 attrs) as [|[k1 v1] rest]; [discriminate|].
  cbn [map snd] in EV1. injection EV1 as -> _. cbn in C'. injection C' as -> C'.
  cbn in G'. injection G' as ->.
  apply uint_inv in D1 as (z1 & _ & Hv1 & Hz1 & _ & Eb1 & EO1' & _).
  assert (z1 = zlen bs).
  { destruct Hv1 as [(_ & Hv1)|(-> & _)]; [|contradiction]. eapply int_value_fun; eauto. }
  subst z1 b1 o1.
  assert (HL : (2 <= List.length bs)%nat) by (rewrite EB1, app_length, be_encode_length; lia).
  unfold P_obj. repeat split; try apply obj_of_self; try discriminate.
  - rewrite pack0_plain by reflexivity. eapply struct_pack_vals; eauto; discriminate.
  - intros _. rewrite size0_bucket. unfold attr_or_error. rewrite G. cbn [bind].
    rewrite (int_exact_num _ _ X). destruct il; try reflexivity. contradiction.
  - intros _. unfold mk. rewrite size0_bucket. unfold attr_or_error. rewrite EO1. reflexivity.
  - intros attrs0 pre suf HK Hs Hne. rewrite unpack0_bucket by reflexivity.
    assert (U : uint_unpack 2 None (pre ++ bs ++ suf) (List.length pre) = Ok (VUInt 2 None (VInt (zlen bs)))).
    { rewrite EB1 at 1. rewrite <- app_assoc. apply uint_unpack_mid; [exact Hz1|exact I]. }
    rewrite U. cbn [bind]. change (num_of (VUInt 2 None (VInt (zlen bs)))) with (@Ok Z (zlen bs)). cbn [bind].
    rewrite firstn_mid. eapply unpack_struct with (r := []); eauto.
    + rewrite HK. reflexivity.
    + apply nonempty_app. lia.
Qed.

(** ** Soundness *)

Lemma kind_match01 c : kind c = KMatch01 -> c = Match01.
Proof.
  intros H. apply cid_eqb_eq.
  assert (G : (match kind c with KMatch01 => cid_eqb c Match01 | _ => true end) = true).
  { clear H. revert c. apply all_classes. vm_compute. reflexivity. }
  rewrite H in G. exact G.
Qed.

Theorem soundness :
  (forall n k sz cv iv bs out, enc n k sz cv iv bs out -> P_enc n k sz cv iv bs out) /\
  (forall n v bs, enc_payload n v bs -> P_payload n v bs) /\
  (forall n k sz fields vals bs outs,
     enc_fields n k sz fields vals bs outs -> P_fields n k sz fields vals bs outs) /\
  (forall n pc vs bs outs, enc_items n pc vs bs outs -> P_items n pc vs bs outs) /\
  (forall n k sz base v bs out, enc_obj n k sz base v bs out -> P_obj n k sz base v bs out).
Proof.
  apply enc_mut.
  - intros. apply S_uint; assumption.
  - intros. apply S_pad.
  - intros. apply S_char; assumption.
  - intros. eapply S_ip; eauto.
  - intros. apply S_hw; [|reflexivity]. left. eauto.
  - intros. apply S_hw; [|reflexivity]. right. auto.
  - intros. eapply S_dpid; eauto.
  - intros. apply S_bin. left. auto.
  - intros. apply S_bin. right. auto.
  - intros. eapply S_obj; eauto.
  - intros. eapply S_obj; eauto.
  - intros. apply S_list; assumption.
  - intros. apply S_list_plain; assumption.
  - intros. apply S_list_none; assumption.
  - intros. split; reflexivity.
  - intros. split; reflexivity.
  - intros n v bs _ (PK & SZ). split; unfold bin_pack, bin_size; cbn [has_pack is_generic_type].
    + exact PK.
    + exact SZ.
  - intros n k c attrs bs out _ (_ & _ & _ & PK & SZ & _). split; unfold bin_pack, bin_size; cbn [has_pack]; auto.
  - intros. apply S_fields_nil.
  - intros. apply S_fields_last; assumption.
  - intros. apply S_fields_cons; assumption.
  - intros. apply S_items_nil.
  - intros n k pc v bs out _ H Hne. rewrite <- (app_nil_r bs).
    eapply S_item; eauto. apply S_items_nil.
  - intros. eapply S_item; eauto. discriminate.
  - intros n k sz c attrs bs outs [K|K] C D F.
    + apply S_plain; assumption.
    + apply kind_match01 in K. subst c. apply S_match01; assumption.
  - intros. eapply S_len; eauto.
  - intros. eapply S_typed; eauto.
  - intros. eapply S_action01; eauto.
  - intros. eapply S_action04; eauto.
  - intros. eapply S_setfield; eauto.
  - intros. eapply S_oxm; eauto.
  - intros. eapply S_match04; eauto.
  - intros. eapply S_bucket; eauto.
Qed.

