(** The bodies of messages: [enc_body] is what the model does. *)
From Coq Require Import ZArith List Bool String Lia ZifyBool.
From Verif Require Import Base PyText Ids PyVal Classes Interp Utils Spec SpecMsg BaseFacts TextFacts
  ClassFacts LeafFacts StructFacts Soundness Closure FuelFacts Totality UnpackTotal MsgFacts.
Import ListNotations.
Open Scope string_scope.
Open Scope list_scope.
Open Scope Z_scope.

Definition B_body (n : nat) (v : of_version) (t x : Z) (c : cid) (attrs : list (string * pyval))
           (body : bytes) (outs : list pyval) : Prop :=
  pack0 (S (S (S n))) (VObj c attrs) = framed v t x body /\
  size0 (S (S (S n))) (VObj c attrs) = Ok (8 + zlen body) /\
  (forall h a, map fst a = map fst (body_fields c) ->
     unpack0 (S (S (S n))) (VObj c (("header", h) :: a)) body 0
     = Ok (VObj c (("header", h) :: combine (map fst (body_fields c)) outs))).

Lemma pack0_obj n c attrs :
  pack0 (S n) (VObj c attrs) = pack_obj (pack0 n) (size0 n) (size0 (S n)) c attrs.
Proof. reflexivity. Qed.

(** ** Decoding the fields *)

Lemma body_nodup v t c : In (t, c) (openflow_types v) ->
  NoDup ("header" :: map fst (body_fields c)).
Proof.
  intros I. destruct (message_class _ _ _ I) as (_ & _ & _ & (h & CA) & _).
  pose proof (names_nodup c) as N. unfold field_names in N. rewrite CA in N. exact N.
Qed.

Lemma set_all_body v t c h a outs : In (t, c) (openflow_types v) ->
  map fst a = map fst (body_fields c) -> List.length outs = List.length (body_fields c) ->
  set_all (map fst (body_fields c)) outs (("header", h) :: a)
  = ("header", h) :: combine (map fst (body_fields c)) outs.
Proof.
  intros I K L. apply (set_all_prefix (map fst (body_fields c)) outs [("header", h)] a).
  - apply (body_nodup _ _ _ I).
  - rewrite map_length. exact L.
  - exists []. rewrite app_nil_r. congruence.
Qed.

Lemma decode_fields n k v t c vals body outs h a : In (t, c) (openflow_types v) ->
  enc_fields n k true (body_fields c) vals body outs -> body <> [] ->
  map fst a = map fst (body_fields c) ->
  unpack_message_fields (unpack0 n) (size0 n) c (("header", h) :: a) body 0
  = Ok (("header", h) :: combine (map fst (body_fields c)) outs).
Proof.
  intros I D NE K. destruct (message_class _ _ _ I) as (_ & _ & _ & _ & MF & _).
  apply soundness in D as (_ & L & _ & _ & _ & U).
  unfold unpack_message_fields. rewrite MF.
  specialize (U [] [] (("header", h) :: a) (fun _ => eq_refl)). cbn [app List.length] in U.
  rewrite app_nil_r in U. rewrite (U NE). cbn [bind fst]. f_equal. eapply set_all_body; eauto.
Qed.

Lemma unpack_fields_empty rec size fields attrs o :
  unpack_fields rec size fields attrs [] o
  = Ok (set_all (map fst fields) (map (fun p => deepcopy (snd p)) fields) attrs, o).
Proof.
  revert attrs. induction fields as [|[k cv] fields IH]; intros attrs; [reflexivity|].
  cbn [unpack_fields map fst snd set_all]. apply IH.
Qed.

(** ** Ordinary messages *)

Section Cases.
  Context (n : nat) (v : of_version) (t x : Z) (c : cid) (attrs : list (string * pyval)) (body : bytes).
  Hypothesis HI : In (t, c) (openflow_types v).
  Hypothesis HS : sendable v t x c attrs.

  Lemma pack_fields k outs : special c = false ->
    enc_fields (S (S n)) k true (body_fields c) (body_values c attrs) body outs ->
    pack0 (S (S (S n))) (VObj c attrs) = framed v t x body /\
    size0 (S (S (S n))) (VObj c attrs) = Ok (8 + zlen body).
  Proof.
    intros SP D. apply soundness in D as (_ & _ & P & S1 & _ & _). specialize (S1 eq_refl).
    destruct (message_class _ _ _ HI) as (_ & _ & _ & _ & _ & _ & K & _). specialize (K SP).
    split; [|apply (message_size_ok n v t x c attrs body); assumption].
    rewrite pack0_obj. unfold pack_obj. rewrite K.
    apply message_pack_ok; auto. intros h. apply is_valid_plain; rewrite K; discriminate.
  Qed.

  Lemma B_fields k outs : special c = false ->
    enc_fields (S (S n)) k true (body_fields c) (body_values c attrs) body outs -> body <> [] ->
    B_body n v t x c attrs body outs.
  Proof.
    intros SP D NE. destruct (pack_fields _ _ SP D) as [P Z]. split; [exact P|]. split; [exact Z|].
    intros h a K. destruct (message_class _ _ _ HI) as (_ & _ & _ & _ & _ & _ & KK & _).
    rewrite unpack0_obj. unfold unpack_obj. rewrite (KK SP).
    erewrite decode_fields by eauto. reflexivity.
  Qed.

  Lemma B_empty k outs : special c = false -> body = [] ->
    enc_fields (S (S n)) k true (body_fields c) (body_values c attrs) [] outs ->
    B_body n v t x c attrs body (map (fun p => deepcopy (snd p)) (body_fields c)).
  Proof.
    intros SP E D. rewrite <- E in D. destruct (pack_fields _ _ SP D) as [P Z].
    split; [exact P|]. split; [exact Z|].
    intros h a K. destruct (message_class _ _ _ HI) as (_ & _ & _ & _ & MF & _ & KK & _).
    rewrite unpack0_obj. unfold unpack_obj. rewrite (KK SP).
    unfold unpack_message_fields. rewrite MF, E, unpack_fields_empty. cbn [bind fst].
    do 2 f_equal. eapply set_all_body; eauto. rewrite map_length. reflexivity.
  Qed.
End Cases.

(** ** Reading and replacing a field of a message *)

Lemma body_own v t x c attrs : In (t, c) (openflow_types v) -> sendable v t x c attrs ->
  exists h, own c attrs = ("header", h) :: combine (map fst (body_fields c)) (body_values c attrs).
Proof.
  intros I (C & hattrs & G & _).
  destruct (message_class _ _ _ I) as (_ & _ & _ & (hh & CA) & _).
  destruct (split_values _ _ _ _ I C _ G) as (E & _ & _).
  exists (VObj (header_class v) hattrs). rewrite E at 1. f_equal.
  unfold complete, field_names in C. rewrite CA, E in C. cbn [map fst] in C.
  injection C as C. unfold body_values, values. rewrite E. cbn [map tl snd]. rewrite <- C.
  apply combine_self.
Qed.

Lemma body_names v t c name : In (t, c) (openflow_types v) -> In name (map fst (body_fields c)) ->
  name <> "header" /\ In name (field_names c).
Proof.
  intros I N. pose proof (body_nodup _ _ _ I) as ND.
  destruct (message_class _ _ _ I) as (_ & _ & _ & (hh & CA) & _). split.
  - intros ->. inversion ND. contradiction.
  - unfold field_names. rewrite CA. right. exact N.
Qed.

Lemma body_get v t x c attrs name : In (t, c) (openflow_types v) -> sendable v t x c attrs ->
  In name (map fst (body_fields c)) ->
  get_attr name attrs = get_attr name (combine (map fst (body_fields c)) (body_values c attrs)).
Proof.
  intros I S N. destruct (body_names _ _ _ _ I N) as [NH NF].
  destruct (body_own _ _ _ _ _ I S) as (h & E). rewrite <- (get_own c) by exact NF. rewrite E.
  cbn [get_attr]. destruct (String.eqb_spec "header" name); [congruence|reflexivity].
Qed.

Lemma body_set v t x c attrs name y : In (t, c) (openflow_types v) -> sendable v t x c attrs ->
  In name (map fst (body_fields c)) ->
  sendable v t x c (set_attr name y attrs) /\
  body_values c (set_attr name y attrs)
  = map snd (set_attr name y (combine (map fst (body_fields c)) (body_values c attrs))).
Proof.
  intros I S N. destruct (body_names _ _ _ _ I N) as [NH NF].
  destruct (body_own _ _ _ _ _ I S) as (h & E). destruct S as (C & hattrs & G & R). split.
  - split; [apply complete_set; auto|]. exists hattrs. split; [|exact R].
    rewrite get_set_other by congruence. exact G.
  - unfold body_values at 1. rewrite values_set by auto. rewrite E. cbn [set_attr].
    destruct (String.eqb_spec "header" name); [congruence|]. reflexivity.
Qed.

(** message_pack() of fields known to be encodable. *)
Lemma fields_message_pack n v t x c attrs body k outs :
  In (t, c) (openflow_types v) -> sendable v t x c attrs ->
  enc_fields (S (S n)) k true (body_fields c) (body_values c attrs) body outs ->
  (forall h, is_valid c (set_attr "header" h attrs) = Ok true) ->
  message_pack (pack0 (S (S n))) (size0 (S (S (S n)))) c attrs
  = framed v t x body /\
  size0 (S (S (S n))) (VObj c attrs) = Ok (8 + zlen body).
Proof.
  intros HI HS D HV. apply soundness in D as (_ & _ & P & S1 & _ & _). specialize (S1 eq_refl).
  split; [apply message_pack_ok|apply (message_size_ok n v t x)]; assumption.
Qed.

(** ** Error messages *)

Lemma error_names v : map fst (body_fields (error_class v)) = ["error_type"; "code"; "data"].
Proof. destruct v; reflexivity. Qed.

Definition error_enum (v : of_version) : eid := match v with V01 => E_ErrorType01 | V04 => E_ErrorType04 end.
Lemma error_fields v : body_fields (error_class v)
  = [("error_type", VUInt 2 (Some (error_enum v)) VNone); ("code", VUInt 2 None VNone); ("data", VBin VNone)].
Proof. destruct v; reflexivity. Qed.

Lemma error_codes_ok v t e : In (t, e) (error_codes v) ->
  error_code_enum (match v with V01 => false | V04 => true end) t = e /\
  is_mask_enum e = false /\ is_member (error_enum v) t = true /\ 0 <= t < 256.
Proof.
  intros I.
  assert (G : Forall (fun p => error_code_enum (match v with V01 => false | V04 => true end) (fst p) = snd p /\
     is_mask_enum (snd p) = false /\ is_member (error_enum v) (fst p) = true /\ 0 <= fst p < 256) (error_codes v)).
  { unfold error_codes. destruct v; repeat apply Forall_cons; try apply Forall_nil; cbn [fst snd];
      (split; [reflexivity|split; [reflexivity|split; [reflexivity|lia]]]). }
  rewrite Forall_forall in G. exact (G _ I).
Qed.

(** A BinaryData field: what it holds can be replaced by its bytes. *)
Lemma bin_inv n k sz d iv bs out : enc n k sz (VBin d) iv bs out ->
  k = TAIL /\ sz = true /\ out = VBin (VBytes bs) /\ (exists n', n = S n') /\
  enc_payload n (match iv with VNone => d | _ => iv end) bs.
Proof.
  intros H. inversion H; subst.
  - repeat split; eauto. destruct iv; try assumption. contradiction.
  - repeat split; eauto.
Qed.

Lemma enc_bytes n d bs : enc (S n) TAIL true (VBin d) (VBytes bs) bs (VBin (VBytes bs)).
Proof. apply e_bin; [discriminate|constructor]. Qed.

Lemma b_error_ok n v t x attrs body er1 d1 ty e code data :
  In (t, error_class v) (openflow_types v) -> sendable v t x (error_class v) attrs ->
  forall k,
  enc_fields (S (S n)) k true (body_fields (error_class v)) (body_values (error_class v) attrs) body
      [VUInt 2 er1 d1; VUInt 2 None (VInt code); data] ->
  int_exact (VUInt 2 er1 d1) ty -> In (ty, e) (error_codes v) -> is_member e code = true ->
  B_body n v t x (error_class v) attrs body [VUInt 2 er1 d1; VEnum e code; data].
Proof.
  intros HI HS k D X IE M. pose proof D as D0.
  destruct (error_codes_ok _ _ _ IE) as (EC & EM & ET & Rt).
  rewrite error_fields in D.
  apply fields_inv in D as (i1 & r1 & b1 & b1' & o1 & s1 & V1 & -> & O1 & E1 & D).
  injection O1 as <- <-.
  apply fields_inv in D as (i2 & r2 & b2 & b3 & o2 & s2 & -> & -> & O2 & E2 & D).
  injection O2 as <- <-.
  apply fields_inv1 in D as (i3 & o3 & -> & O3 & E3). injection O3 as <-.
  destruct (bin_inv _ _ _ _ _ _ _ E3) as (-> & _ & -> & _ & PL).
  assert (V : forall h at', is_valid (error_class v) (set_attr "header" h at') = Ok true)
    by (intros; apply is_valid_plain; destruct v; discriminate).
  pose proof (fields_message_pack n v t x _ attrs _ _ _ HI HS D0 (fun h => V h attrs)) as [P Z].
  split; [|split; [exact Z|]].
  - rewrite pack0_obj. unfold pack_obj.
    destruct v; cbn [error_class kind] in *; [|exact P].
    unfold error_pack01, attr_or_error.
    assert (ND : In "data" (map fst (body_fields ErrorMsg01))) by (cbn; auto).
    rewrite (body_get V01 t x _ _ _ HI HS ND), V1. cbn [map fst body_fields tl class_attrs attrs_ErrorMsg01
      combine get_attr String.eqb Ascii.eqb Bool.eqb bind].
    pose proof PL as PL2. apply soundness in PL2 as [PP _].
    destruct (body_set V01 t x _ attrs "data" (VBytes b3) HI HS ND) as [HS' BV].
    rewrite V1 in BV. cbn in BV.
    assert (R : message_pack (pack0 (S (S n))) (size0 (S (S (S n)))) ErrorMsg01
                  (set_attr "data" (VBytes b3) attrs)
                = framed V01 t x (b1 ++ b2 ++ b3)).
    { eapply (fields_message_pack n V01 t x ErrorMsg01); [exact HI|exact HS'| |].
      - rewrite BV. change (body_fields ErrorMsg01) with (body_fields (error_class V01)).
        rewrite error_fields. apply f_cons; [exact E1|]. apply f_cons; [exact E2|].
        apply f_last. apply enc_bytes.
      - intros h. apply V. }
    inversion PL; subst; try exact P;
      destruct i3; try discriminate; try exact P;
      match goal with H : VBin _ = VBin _ |- _ => idtac | _ => idtac end;
      cbn [has_pack is_generic_type bin_pack] in *; unfold bin_pack in PP; cbn [has_pack is_generic_type] in PP;
      rewrite PP; cbn [bind]; exact R.
  - intros h a K. rewrite unpack0_obj. unfold unpack_obj.
    assert (NE : b1 ++ b2 ++ b3 <> []).
    { apply uint_inv in E1 as (z & _ & _ & _ & _ & -> & _). destruct b2; discriminate. }
    pose proof (decode_fields _ _ v t _ _ _ _ h a HI D0 NE K) as U.
    rewrite error_names in *. cbn [combine] in U.
    assert (UE : error_unpack (unpack0 (S (S n))) (size0 (S (S n)))
              (match v with V01 => false | V04 => true end) (error_class v) (("header", h) :: a)
              (b1 ++ b2 ++ b3) 0
             = Ok (VObj (error_class v) (("header", h) ::
                   combine ["error_type"; "code"; "data"] [VUInt 2 er1 d1; VEnum e code; VBin (VBytes b3)]))).
    { unfold error_unpack. rewrite U. cbn [bind]. unfold attr_enum, attr_or_error.
      cbn [get_attr String.eqb Ascii.eqb Bool.eqb bind].
      rewrite (int_exact_num _ _ X). cbn [bind].
      replace (if match v with V01 => false | V04 => true end then E_ErrorType04 else E_ErrorType01)
        with (error_enum v) by (destruct v; reflexivity).
      rewrite enum_call_ok by (right; exact ET). cbn [bind].
      change (num_of (VUInt 2 None (VInt code))) with (Ok code). cbn [bind]. rewrite EC.
      rewrite enum_call_ok by (right; exact M). unfold decoded_int. rewrite EM. reflexivity. }
    destruct v; exact UE.
Qed.

(** ** PacketOut *)

Lemma concatM_app {A} (f : A -> res bytes) l1 l2 b1 b2 :
  concatM f l1 = Ok b1 -> concatM f l2 = Ok b2 -> concatM f (l1 ++ l2) = Ok (b1 ++ b2).
Proof.
  revert b1. induction l1 as [|a l1 IH]; cbn [concatM app]; intros b1 H1 H2.
  - injection H1 as <-. exact H2.
  - apply bind_ok in H1 as (x & H & H1). apply bind_ok in H1 as (s & H1 & E). injection E as <-.
    rewrite H. cbn [bind]. rewrite (IH s H1 H2). cbn [bind]. rewrite app_assoc. reflexivity.
Qed.
Lemma sumM_app {A} (f : A -> res Z) l1 l2 b1 b2 :
  sumM f l1 = Ok b1 -> sumM f l2 = Ok b2 -> sumM f (l1 ++ l2) = Ok (b1 + b2).
Proof.
  revert b1. induction l1 as [|a l1 IH]; cbn [sumM app]; intros b1 H1 H2.
  - injection H1 as <-. exact H2.
  - apply bind_ok in H1 as (x & H & H1). apply bind_ok in H1 as (s & H1 & E). injection E as <-.
    rewrite H. cbn [bind]. rewrite (IH s H1 H2). cbn [bind]. rewrite Z.add_assoc. reflexivity.
Qed.
Lemma combine_app {A B} (a1 a2 : list A) (b1 b2 : list B) :
  List.length b1 = List.length a1 -> combine (a1 ++ a2) (b1 ++ b2) = combine a1 b1 ++ combine a2 b2.
Proof.
  revert b1. induction a1 as [|x a1 IH]; destruct b1; cbn; intros L; try discriminate; auto.
  rewrite IH by lia. reflexivity.
Qed.

(** Before the actions, PacketOut.unpack is the ordinary loop. *)
Lemma packet_out_split rec size fs rest : forall at1 buff b,
  buff <> [] -> ~ In "actions" (map fst fs) ->
  packet_out_fields rec size (fs ++ rest) at1 buff b
  = do r <- unpack_fields rec size fs at1 buff b;
    packet_out_fields rec size rest (fst r) buff (snd r).
Proof.
  induction fs as [|[k cv] fs IH]; intros at1 buff b NE NI; [reflexivity|].
  cbn [packet_out_fields app unpack_fields map fst] in *.
  assert (K : k <> "actions") by (intros ->; apply NI; left; reflexivity).
  destruct (String.eqb_spec k "actions"); [contradiction|].
  destruct buff as [|b0 buff]; [contradiction|].
  destruct (rec (deepcopy cv) (b0 :: buff) b) as [y|]; [|reflexivity]. cbn [bind].
  destruct (size y); [|reflexivity]. cbn [bind]. apply IH; [discriminate|].
  intros H; apply NI; right; exact H.
Qed.

Lemma items_nonempty n pc items bs outs : enc_items n pc items bs outs -> bs = [] -> items = [] /\ outs = [].
Proof.
  intros H E. destruct H; auto; try congruence.
  apply app_eq_nil in E as [E _]. contradiction.
Qed.

(** A list field of which the decoder is given exactly the bytes. *)
Lemma list_exact n lc pc iv bs out : lc <> CList ->
  enc (S n) TAIL true (VList lc pc []) iv bs out ->
  unpack0 (S n) (deepcopy (VList lc pc [])) bs 0 = Ok out.
Proof.
  intros NC D. destruct bs as [|b bs].
  - assert (O : out = VList CFixedTypeList pc []).
    { inversion D; subst; auto;
        match goal with H : enc_items _ _ _ _ _ |- _ =>
          destruct (items_nonempty _ _ _ _ _ H eq_refl) as [-> ->] end; reflexivity. }
    subst out. cbn [deepcopy]. rewrite cid_eqb_neq by exact NC. reflexivity.
  - apply soundness in D as (_ & _ & U & _). specialize (U [] [] (fun _ => eq_refl)).
    cbn [app List.length] in U. rewrite app_nil_r in U. apply U. discriminate.
Qed.

Lemma sending_valid v ip p : int_exact ip p -> sending_port v p ->
  match v with
  | V01 => valid_in_port 0xff00 [0xfffe; 0xfffd; 0xffff] ip
  | V04 => valid_in_port 0xffffff00 [0xfffffffe; 0xfffffffd; 0xffffffff] ip
  end = Ok true.
Proof.
  intros X S. unfold valid_in_port. rewrite (int_exact_num _ _ X). cbn [bind existsb].
  destruct v; cbn [sending_port] in S; f_equal; lia.
Qed.

Lemma actions_size n lc pc iv ab aout :
  lc <> CFixedTypeList -> list_item lc = Some pc -> lc <> CList ->
  subclass CNone lc = false ->
  enc (S n) TAIL true (VList lc pc []) iv ab aout ->
  (if subclass (class_of iv) lc then size0 (S n) iv
   else match list_item lc with
        | Some pc => do items <- list_init (size0 (S n)) pc iv; size0 (S n) (VList lc pc items)
        | None => Err TypeError
        end) = Ok (zlen ab).
Proof.
  intros NL LI NC NN D. rewrite LI. inversion D; subst; try contradiction.
  - match goal with H : enc_items _ _ _ _ _ |- _ => pose proof H as HI end.
    apply soundness in HI as (F & _ & NP & _ & _ & SM & _).
    destruct (subclass (class_of (VList lc' pc' items)) lc) eqn:SC.
    + rewrite (size0_list _ _ _ _ pc); auto. intros ->. cbn in SC.
      destruct lc; try discriminate; contradiction.
    + destruct items as [|i items].
      * match goal with H : enc_items _ _ _ _ _ |- _ => inversion H; subst end.
        cbn [list_init flat_map check_items bind]. cbn [size0]. rewrite cid_eqb_neq by exact NC. reflexivity.
      * rewrite list_init_objs by (auto; apply NP; discriminate). cbn [bind].
        rewrite (size0_list _ _ _ _ pc); auto.
  - cbn [class_of]. replace (subclass _ lc) with false by (symmetry; exact NN).
    cbn [list_init truthy bind]. cbn [size0]. rewrite cid_eqb_neq by exact NC. reflexivity.
Qed.

Definition out_fixed (v : of_version) : list (string * pyval) :=
  match v with
  | V01 => [("buffer_id", VUInt 4 None VNone); ("in_port", VUInt 2 None VNone);
            ("actions_len", VUInt 2 None VNone)]
  | V04 => [("buffer_id", VUInt 4 None VNone); ("in_port", VUInt 4 None VNone);
            ("actions_len", VUInt 2 None VNone); ("pad", VPad 6)]
  end.
Definition out_list (v : of_version) : cid := match v with V01 => ListOfActions01 | V04 => ListOfActions04 end.
Definition out_item (v : of_version) : cid := match v with V01 => ActionHeader01 | V04 => ActionHeader04 end.
Lemma out_fields v : body_fields (out_class v)
  = out_fixed v ++ [("actions", VList (out_list v) (out_item v) []); ("data", VBin VNone)].
Proof. destruct v; reflexivity. Qed.

(** The decoded number of action bytes. *)
Lemma out_len n v vals pb pouts z : enc_fields n SD true (out_fixed v) vals pb pouts ->
  nth_error vals 2 = Some (VInt z) ->
  get_attr "actions_len" (combine (map fst (out_fixed v)) pouts) = Some (VUInt 2 None (VInt z)) /\ pb <> [].
Proof.
  intros D NV. destruct v; unfold out_fixed in *.
  - apply fields_inv in D as (i1 & r1 & b1 & b1' & o1 & s1 & -> & -> & -> & E1 & D).
    apply fields_inv in D as (i2 & r2 & b2 & b2' & o2 & s2 & -> & -> & -> & E2 & D).
    apply fields_inv1 in D as (i3 & o3 & -> & -> & E3).
    cbn in NV. injection NV as ->.
    apply uint_inv in E3 as (z' & _ & [(_ & V)|(V & _)] & _ & _ & _ & -> & _); [|discriminate].
    inversion V; subst. split; [reflexivity|].
    apply uint_inv in E1 as (y & _ & _ & _ & _ & -> & _). destruct b2, b2'; discriminate.
  - apply fields_inv in D as (i1 & r1 & b1 & b1' & o1 & s1 & -> & -> & -> & E1 & D).
    apply fields_inv in D as (i2 & r2 & b2 & b2' & o2 & s2 & -> & -> & -> & E2 & D).
    apply fields_inv in D as (i3 & r3 & b3 & b3' & o3 & s3 & -> & -> & -> & E3 & D).
    apply fields_inv1 in D as (i4 & o4 & -> & -> & E4).
    cbn in NV. injection NV as ->.
    apply uint_inv in E3 as (z' & _ & [(_ & V)|(V & _)] & _ & _ & _ & -> & _); [|discriminate].
    inversion V; subst. split; [reflexivity|].
    apply uint_inv in E1 as (y & _ & _ & _ & _ & -> & _). destruct b2, b3, b3'; discriminate.
Qed.

Lemma body_length v t x c attrs : In (t, c) (openflow_types v) -> sendable v t x c attrs ->
  List.length (body_values c attrs) = List.length (body_fields c).
Proof.
  intros I S. destruct (message_class _ _ _ I) as (_ & _ & _ & (hh & CA) & _).
  destruct S as (C & hattrs & G & _). destruct (split_values _ _ _ _ I C _ G) as (E & EV & _).
  unfold complete, field_names in C. rewrite CA in C. apply (f_equal (@List.length _)) in C.
  cbn [map List.length] in C. rewrite !map_length in C.
  unfold body_values, values. rewrite E in *. cbn [map tl List.length] in *. rewrite map_length. lia.
Qed.

Lemma out_values v t x attrs y : In (t, out_class v) (openflow_types v) ->
  sendable v t x (out_class v) attrs ->
  exists fixed a d, body_values (out_class v) attrs = fixed ++ [a; d] /\
    List.length fixed = List.length (out_fixed v) /\
    get_attr "actions" attrs = Some a /\
    sendable v t x (out_class v) (set_attr "actions_len" y attrs) /\
    exists fixed', body_values (out_class v) (set_attr "actions_len" y attrs) = fixed' ++ [a; d] /\
      List.length fixed' = List.length (out_fixed v) /\ nth_error fixed' 2 = Some y.
Proof.
  intros I S. pose proof (body_length _ _ _ _ _ I S) as L.
  assert (N1 : In "actions" (map fst (body_fields (out_class v)))) by (destruct v; cbn; tauto).
  assert (N2 : In "actions_len" (map fst (body_fields (out_class v)))) by (destruct v; cbn; tauto).
  destruct (body_set _ _ _ _ _ _ y I S N2) as [S' BV]. rewrite (body_get _ _ _ _ _ _ I S N1).
  remember (body_values (out_class v) attrs) as bv eqn:E. clear E. rewrite out_fields in *.
  destruct v; cbn [out_fixed app List.length map fst] in *.
  - destruct bv as [|v1 [|v2 [|v3 [|v4 [|v5 [|] ] ] ] ] ]; try discriminate.
    exists [v1; v2; v3], v4, v5. repeat split; try apply S'.
    exists [v1; v2; y]. repeat split. exact BV.
  - destruct bv as [|v1 [|v2 [|v3 [|v4 [|v5 [|v6 [|] ] ] ] ] ] ]; try discriminate.
    exists [v1; v2; v3; v4], v5, v6. repeat split; try apply S'.
    exists [v1; v2; y; v4]. repeat split. exact BV.
Qed.

Lemma out_kind v : kind (out_class v) = match v with V01 => KPacketOut01 | V04 => KPacketOut04 end.
Proof. destruct v; reflexivity. Qed.

Lemma app_inj_len {A} (a b c d : list A) : a ++ b = c ++ d -> List.length b = List.length d -> a = c /\ b = d.
Proof.
  revert c. induction a as [|x a IH]; intros [|y c] H L; cbn in *.
  - auto.
  - subst b. cbn in L. rewrite app_length in L. lia.
  - subst d. cbn in L. rewrite app_length in L. lia.
  - injection H as -> H. destruct (IH _ H L) as [-> ->]. auto.
Qed.

Lemma b_packet_out_ok n v t x attrs ip p alen fs vals pb pouts lc pc aiv ab aout dcv div db dout :
  In (t, out_class v) (openflow_types v) -> sendable v t x (out_class v) attrs ->
  get_attr "in_port" attrs = Some ip -> int_exact ip p -> sending_port v p ->
  body_fields (out_class v) = fs ++ [("actions", VList lc pc []); ("data", dcv)] ->
  body_values (out_class v) (set_attr "actions_len" (VInt alen) attrs) = vals ++ [aiv; div] ->
  enc_fields (S (S n)) SD true fs vals pb pouts ->
  enc (S (S n)) TAIL true (VList lc pc []) aiv ab aout -> alen = zlen ab ->
  enc (S (S n)) TAIL true dcv div db dout ->
  B_body n v t x (out_class v) attrs (pb ++ ab ++ db) (pouts ++ [aout; dout]).
Proof.
  intros HI HS GP X SP BF BV DF DA EL DD.
  rewrite out_fields in BF. apply app_inj_len in BF as [<- BF]; [|reflexivity].
  injection BF as <- <- <-.
  destruct (out_values v t x attrs (VInt alen) HI HS)
    as (fixed & a0 & d0 & BV0 & L0 & GA & HS' & fixed' & BV' & L' & NV).
  rewrite BV' in BV. apply app_inj_len in BV as [<- BV]; [|reflexivity]. injection BV as -> ->.
  assert (VAL : forall h y, is_valid (out_class v) (set_attr "header" h (set_attr "actions_len" y attrs)) = Ok true).
  { intros h y. unfold is_valid. rewrite out_kind. unfold attr_or_error.
    rewrite !get_set_other by discriminate. rewrite GP. pose proof (sending_valid _ _ _ X SP) as V.
    destruct v; exact V. }
  pose proof DF as DF0. apply soundness in DF as (_ & LO & PF & SF & _ & UF). specialize (SF eq_refl).
  pose proof DA as DA0. apply soundness in DA as (PA & SA & _ & SAO & _). specialize (SA eq_refl).
  pose proof DD as DD0. apply soundness in DD as (PD & SD1 & UD & _ & _). specialize (SD1 eq_refl).
  assert (LN : out_list v <> CList) by (destruct v; discriminate).
  assert (HP : forall f, List.length f = List.length (out_fixed v) ->
     combine (map snd (body_fields (out_class v))) (f ++ [aiv; div])
     = combine (map snd (out_fixed v)) f ++ [(VList (out_list v) (out_item v) [], aiv); (VBin VNone, div)]).
  { intros f Lf. rewrite out_fields, map_app, combine_app by (rewrite map_length; exact Lf). reflexivity. }
  assert (SZ : zlen (pb ++ ab ++ db) = zlen pb + (zlen ab + (zlen db + 0))) by (rewrite !zlen_app; lia).
  assert (FIX : forall f, List.length f = List.length (out_fixed v) ->
     sumM (fun q => size1 (size0 (S (S n))) (fst q) (snd q)) (combine (map snd (out_fixed v)) f) = Ok (zlen pb)).
  { intros f Lf. rewrite <- SF. destruct v; cbn [out_fixed List.length] in *.
    - destruct f as [|? [|? [|? [|] ] ] ]; try discriminate.
      destruct fixed' as [|? [|? [|? [|] ] ] ]; try discriminate. reflexivity.
    - destruct f as [|? [|? [|? [|? [|] ] ] ] ]; try discriminate.
      destruct fixed' as [|? [|? [|? [|? [|] ] ] ] ]; try discriminate. reflexivity. }
  assert (SUM : forall f, List.length f = List.length (out_fixed v) ->
     sumM (fun q => size1 (size0 (S (S n))) (fst q) (snd q))
       (combine (map snd (body_fields (out_class v))) (f ++ [aiv; div])) = Ok (zlen (pb ++ ab ++ db))).
  { intros f Lf. rewrite HP by exact Lf. rewrite SZ. apply sumM_app; [apply FIX; exact Lf|].
    cbn [sumM fst snd]. rewrite SA. cbn [bind]. rewrite SD1. reflexivity. }
  assert (PK : concatM (fun q => pack1 (pack0 (S (S n))) (fst q) (snd q))
       (combine (map snd (body_fields (out_class v))) (fixed' ++ [aiv; div])) = Ok (pb ++ ab ++ db)).
  { rewrite HP by exact L'. apply concatM_app; [exact PF|]. cbn [concatM fst snd]. rewrite PA. cbn [bind].
    rewrite PD. cbn [bind]. rewrite app_nil_r. reflexivity. }
  split; [|split].
  - rewrite pack0_obj. unfold pack_obj. rewrite out_kind.
    assert (PO : packet_out_pack (pack0 (S (S n))) (size0 (S (S n))) (size0 (S (S (S n)))) (out_list v)
                   (out_class v) attrs
                 = framed v t x (pb ++ ab ++ db)).
    { unfold packet_out_pack. unfold attr_or_error at 1. rewrite GA. cbn [bind].
      rewrite (actions_size _ _ (out_item v) _ ab aout); try assumption;
        try (destruct v; (reflexivity || discriminate)). cbn [bind]. rewrite <- EL.
      apply (message_pack_ok n v t x); try assumption.
      - rewrite BV'. exact PK.
      - rewrite BV'. apply SUM. exact L'.
      - intros h. apply VAL. }
    destruct v; exact PO.
  - apply (message_size_ok n v t x); try assumption. rewrite BV0. apply SUM. exact L0.
  - intros h a K. rewrite unpack0_obj. unfold unpack_obj. rewrite out_kind.
    destruct (out_len _ _ _ _ _ _ DF0 NV) as [GL PN].
    assert (U : packet_out_fields (unpack0 (S (S n))) (size0 (S (S n))) (message_fields (out_class v))
              (("header", h) :: a) (pb ++ ab ++ db) 0
            = Ok (("header", h) :: combine (map fst (body_fields (out_class v))) (pouts ++ [aout; dout]))).
    { destruct (message_class _ _ _ HI) as (_ & _ & _ & _ & MF & _). rewrite MF, out_fields.
      rewrite packet_out_split.
      2: { destruct pb; [contradiction|discriminate]. }
      2: { destruct v; cbn; intuition discriminate. }
      specialize (UF [] (ab ++ db) (("header", h) :: a)). cbn [app List.length Nat.add] in UF.
      rewrite UF; [|discriminate|destruct pb; [contradiction|discriminate] ]. cbn [bind fst snd].
      rewrite out_fields, map_app in K. cbn [map fst] in K.
      assert (SA1 : exists rest, set_all (map fst (out_fixed v)) pouts (("header", h) :: a)
                = (("header", h) :: combine (map fst (out_fixed v)) pouts) ++ rest /\
                  map fst rest = ["actions"; "data"]).
      { clear - K LO. destruct v; cbn [out_fixed map fst app List.length] in *.
        - destruct pouts as [|? [|? [|? [|] ] ] ]; try discriminate.
          destruct a as [|[? ?] [|[? ?] [|[? ?] [|[? ?] [|[? ?] [|] ] ] ] ] ]; try discriminate.
          cbn [map fst] in K. injection K as -> -> -> -> ->. eexists [_; _]. split; reflexivity.
        - destruct pouts as [|? [|? [|? [|? [|] ] ] ] ]; try discriminate.
          destruct a as [|[? ?] [|[? ?] [|[? ?] [|[? ?] [|[? ?] [|[? ?] [|] ] ] ] ] ] ]; try discriminate.
          cbn [map fst] in K. injection K as -> -> -> -> -> ->. eexists [_; _]. split; reflexivity. }
      destruct SA1 as (rest & E1 & E2). rewrite E1.
      destruct rest as [|[k1 x1] [|[k2 x2] [|] ] ]; try discriminate. injection E2 as -> ->.
      cbn [packet_out_fields String.eqb Ascii.eqb Bool.eqb].
      assert (GL2 : attr_num "actions_len" ((("header", h) :: combine (map fst (out_fixed v)) pouts) ++
                      [("actions", x1); ("data", x2)]) = Ok alen).
      { unfold attr_num, attr_or_error. clear - GL LO. destruct v; cbn [out_fixed map fst List.length] in *.
        - destruct pouts as [|? [|? [|? [|] ] ] ]; try discriminate. cbn in GL. injection GL as ->. reflexivity.
        - destruct pouts as [|? [|? [|? [|? [|] ] ] ] ]; try discriminate. cbn in GL. injection GL as ->. reflexivity. }
      rewrite GL2. cbn [bind].
      assert (SL : slice (List.length pb) (List.length pb + Z.to_nat alen) (pb ++ ab ++ db) = ab).
      { rewrite EL. apply slice_mid; unfold zlen; lia. }
      rewrite SL, (list_exact _ _ _ _ _ _ LN DA0). cbn [bind]. rewrite SAO. cbn [bind].
      specialize (UD (pb ++ ab) [] (fun _ => eq_refl)). rewrite app_nil_r, <- app_assoc in UD.
      rewrite app_length in UD.
      replace (List.length pb + Z.to_nat (zlen ab))%nat with (List.length pb + List.length ab)%nat
        by (unfold zlen; lia).
      rewrite UD; [|destruct pb; [contradiction|discriminate] ]. cbn [bind].
      destruct (bin_inv _ _ _ _ _ _ _ DD0) as (_ & _ & -> & _). cbn [size0 bin_size has_pack is_generic_type bind].
      f_equal. clear - LO. destruct v; cbn [out_fixed map fst List.length] in *.
        - destruct pouts as [|? [|? [|? [|] ] ] ]; try discriminate. reflexivity.
        - destruct pouts as [|? [|? [|? [|? [|] ] ] ] ]; try discriminate. reflexivity. }
    rewrite U. destruct v; reflexivity.
Qed.

(** ** Statistics *)

Definition form_instance (form : body_form) : option pyval :=
  match form with
  | BStruct c => new_instance c
  | BList c => Some (VList CFixedTypeList c [])
  | BRaw => Some (VBin (VBytes []))
  end.

Definition S_stats (m : nat) (form : body_form) (iv : pyval) (bb : bytes) (out : pyval) : Prop :=
  size1 (size0 (S m)) (VBin VNone) iv = Ok (zlen bb) /\
  pack1 (pack0 (S m)) (VBin VNone) iv = Ok bb /\
  (has_pack iv = true -> pack0 (S m) iv = Ok bb) /\
  (exists b, truthy (size0 (S m)) iv = Ok b /\ (b = true -> has_pack iv = true)) /\
  (forall lc pc items, iv = VList lc pc items ->
     exists c, form = BList c /\ (items <> [] -> list_extend c iv = Ok items) /\
               pack0 (S m) (VList CFixedTypeList c items) = Ok bb) /\
  (forall inst, form_instance form = Some inst -> unpack0 (S m) inst bb 0 = Ok out).

Lemma fixed_not_list lc : subclass lc CFixedTypeList = true -> lc <> CList.
Proof. intros S ->. discriminate. Qed.

Lemma pack0_up m v b : pack0 m v = Ok b -> pack0 (S m) v = Ok b.
Proof.
  intros H. destruct (pack0_mono m (S m) v) as [E|E]; [lia|rewrite E in H; discriminate|congruence].
Qed.
Lemma size0_up m v b : size0 m v = Ok b -> size0 (S m) v = Ok b.
Proof.
  intros H. destruct (size0_mono m (S m) v) as [E|E]; [lia|rewrite E in H; discriminate|congruence].
Qed.

Lemma stats_ok m form iv bb out : enc_stats m form iv bb out -> S_stats m form iv bb out.
Proof.
  intros H. destruct H as [k c v bs out H NE|c lc pc items bs outs SC H|k c v bs out H NE|c v [->| ->]|v [->| ->]|bs].
  - apply soundness in H as ((c1 & a1 & -> & SC) & _ & CA & P & S1 & _ & U). specialize (S1 eq_refl).
    split; [exact S1|]. split; [exact P|]. split; [intros _; exact P|].
    split; [exists true; split; reflexivity|]. split; [discriminate|].
    intros inst FI. cbn [form_instance] in FI.
    destruct (instantiable c (CA NE)) as (a & NI & K). rewrite NI in FI. injection FI as <-.
    specialize (U a [] [] K (fun _ => eq_refl)). cbn [app List.length] in U. rewrite app_nil_r in U.
    exact (U NE).
  - pose proof H as H0. apply soundness in H as (F & _ & NP & _ & P & S1 & _ & U).
    pose proof (fixed_not_list _ SC) as NC.
    assert (HP : has_pack (VList lc pc items) = true) by (cbn [has_pack]; rewrite cid_eqb_neq; auto).
    assert (PP : pack0 (S m) (VList lc pc items) = Ok bs) by (rewrite pack0_list; auto).
    split; [|split; [|split; [intros _; exact PP|split; [|split] ] ] ].
    + cbn [size1]. unfold bin_size. rewrite HP. rewrite (size0_list _ _ _ _ c); auto.
    + cbn [pack1]. unfold bin_pack. rewrite HP. exact PP.
    + eexists. split; [reflexivity|]. intros _; exact HP.
    + intros ? ? ? E. injection E as <- <- <-. exists c. split; [reflexivity|]. split.
      * intros N. apply list_extend_objs; auto.
      * rewrite pack0_list by discriminate. exact P.
    + intros inst FI. cbn [form_instance] in FI. injection FI as <-. cbn [unpack0].
      specialize (U [] (S (List.length bs)) (le_S _ _ (le_n _))). cbn [app List.length] in U.
      rewrite U. reflexivity.
  - assert (HI : enc_items m c [v] bs [out]) by (eapply i_last; eauto).
    apply soundness in H as ((c1 & a1 & -> & SC) & _ & CA & P & S1 & _ & U). specialize (S1 eq_refl).
    apply pack0_up in P. apply size0_up in S1.
    split; [exact S1|]. split; [exact P|]. split; [intros _; exact P|].
    split; [exists true; split; reflexivity|]. split; [discriminate|].
    intros inst FI. cbn [form_instance] in FI. injection FI as <-.
    apply soundness in HI as (_ & _ & _ & _ & _ & _ & _ & UI). cbn [unpack0].
    specialize (UI [] (S (List.length bs)) (le_S _ _ (le_n _))). cbn [app List.length] in UI.
    rewrite UI. reflexivity.
  - repeat split; try discriminate; [exists false; split; [reflexivity|discriminate]|].
    intros inst FI. injection FI as <-. reflexivity.
  - repeat split; try discriminate; [exists false; split; [reflexivity|discriminate]|].
    intros inst FI. injection FI as <-. reflexivity.
  - repeat split; try discriminate; [exists false; split; [reflexivity|discriminate]|].
    intros inst FI. injection FI as <-. reflexivity.
  - repeat split; try discriminate; [exists false; split; [reflexivity|discriminate]|].
    intros inst FI. injection FI as <-. reflexivity.
  - repeat split; try discriminate.
    + eexists. split; [reflexivity|]. reflexivity.
    + intros inst FI. injection FI as <-. reflexivity.
Qed.

Definition stats_fixed (f : stats_family) : list (string * pyval) :=
  match f with
  | FStatsRequest | FStatsReply =>
      [("body_type", VUInt 2 (Some E_StatsType01) VNone); ("flags", VUInt 2 None VNone)]
  | FMultipartRequest =>
      [("multipart_type", VUInt 2 (Some E_MultipartType04) VNone);
       ("flags", VUInt 2 (Some E_MultipartRequestFlags04) VNone); ("pad", VPad 4)]
  | FMultipartReply =>
      [("multipart_type", VUInt 2 (Some E_MultipartType04) VNone);
       ("flags", VUInt 2 None VNone); ("pad", VPad 4)]
  end.
Lemma stats_fields f : body_fields (stats_class f) = stats_fixed f ++ [("body", VBin VNone)].
Proof. destruct f; reflexivity. Qed.

Definition stats_instance (f : stats_family) (m : pyval) (t : Z) : res pyval :=
  match f with
  | FStatsRequest => Ok (VList CFixedTypeList (match stats_body false t with Some bc => bc | None => CNone end) [])
  | FStatsReply => match stats_body true t with
                   | None => Ok (VBin (VBytes []))
                   | Some DescStats01 => Ok new_DescStats01
                   | Some bc => Ok (VList CFixedTypeList bc [])
                   end
  | FMultipartRequest => body_instance false m
  | FMultipartReply => body_instance true m
  end.

Lemma stats_forms_ok f t form : In (t, form) (stats_forms f) ->
  is_member (stats_type_enum f) t = true /\ 0 <= t < 65536 /\
  exists inst, form_instance form = Some inst /\
    stats_instance f (VEnum (stats_type_enum f) t) t = Ok inst /\ forall ti, type_given f t ti -> stats_instance f ti t = Ok inst.
Proof.
  intros I.
  assert (G : Forall (fun p => is_member (stats_type_enum f) (fst p) = true /\ 0 <= fst p < 65536 /\
     exists inst, form_instance (snd p) = Some inst /\
       stats_instance f (VEnum (stats_type_enum f) (fst p)) (fst p) = Ok inst /\
       forall ti, type_given f (fst p) ti -> stats_instance f ti (fst p) = Ok inst) (stats_forms f)).
  { destruct f; cbn [stats_forms]; repeat apply Forall_cons; try apply Forall_nil; cbn [fst snd];
      (split; [reflexivity|]); (split; [lia|]); eexists; (split; [reflexivity|]); (split; [reflexivity|]);
      intros ti [-> |[-> |[-> | ->] ] ]; reflexivity. }
  rewrite Forall_forall in G. exact (G _ I).
Qed.

Lemma stats_values v f t x attrs : In (t, stats_class f) (openflow_types v) ->
  sendable v t x (stats_class f) attrs ->
  exists fixed b, body_values (stats_class f) attrs = fixed ++ [b] /\
    List.length fixed = List.length (stats_fixed f) /\ get_attr "body" attrs = Some b /\
    nth_error fixed 0 = get_attr (stats_type_name f) attrs /\
    forall y, sendable v t x (stats_class f) (set_attr "body" y attrs) /\
              body_values (stats_class f) (set_attr "body" y attrs) = fixed ++ [y].
Proof.
  intros I S. pose proof (body_length _ _ _ _ _ I S) as L.
  assert (N1 : In "body" (map fst (body_fields (stats_class f)))) by (destruct f; cbn; tauto).
  assert (N2 : In (stats_type_name f) (map fst (body_fields (stats_class f)))) by (destruct f; cbn; tauto).
  pose proof (fun y => body_set _ _ _ _ _ _ y I S N1) as BV.
  rewrite (body_get _ _ _ _ _ _ I S N1), (body_get _ _ _ _ _ _ I S N2).
  remember (body_values (stats_class f) attrs) as bv eqn:E. clear E. rewrite stats_fields in *.
  destruct f; cbn [stats_fixed app List.length map fst] in *;
    first [destruct bv as [|v1 [|v2 [|v3 [|] ] ] ]; try discriminate;
           exists [v1; v2], v3; repeat split; intros; apply BV
          |destruct bv as [|v1 [|v2 [|v3 [|v4 [|] ] ] ] ]; try discriminate;
           exists [v1; v2; v3], v4; repeat split; intros; apply BV].
Qed.

Lemma stats_kind f : kind (stats_class f)
  = match f with FStatsRequest => KStatsRequest | FStatsReply => KStatsReply
    | FMultipartRequest => KMultipartRequest | FMultipartReply => KMultipartReply end.
Proof. destruct f; reflexivity. Qed.

Lemma stats_enum_plain f : is_mask_enum (stats_type_enum f) = false.
Proof. destruct f; reflexivity. Qed.

Lemma b_stats_ok n v t x f attrs ti ty form vals fs pb tout pouts bcv biv bb bout :
  In (t, stats_class f) (openflow_types v) -> sendable v t x (stats_class f) attrs ->
  get_attr (stats_type_name f) attrs = Some ti ->
  type_given f ty ti ->
  body_fields (stats_class f) = fs ++ [("body", bcv)] ->
  body_values (stats_class f) attrs = vals ++ [biv] ->
  enc_fields (S (S n)) SD true fs vals pb (VUInt 2 (Some (stats_type_enum f)) tout :: pouts) ->
  tout = VEnum (stats_type_enum f) ty -> In (ty, form) (stats_forms f) ->
  enc_stats (S n) form biv bb bout ->
  B_body n v t x (stats_class f) attrs (pb ++ bb) (tout :: pouts ++ [bout]).
Proof.
  intros HI HS GT TI BF BV DF -> IF ST.
  rewrite stats_fields in BF. apply app_inj_len in BF as [<- BF]; [|reflexivity]. injection BF as <-.
  destruct (stats_values v f t x attrs HI HS) as (fixed & b0 & BV0 & L0 & GB & _ & SET).
  rewrite BV0 in BV. apply app_inj_len in BV as [<- BV]; [|reflexivity]. injection BV as ->.
  destruct (stats_forms_ok _ _ _ IF) as (MEM & RT & inst & FI & SI1 & SI2).
  destruct (stats_ok _ _ _ _ _ ST) as (SZ & PK & HPK & (tb & TR & TH) & LS & UB).
  pose proof DF as DF0. apply soundness in DF as (_ & LO & PF & SF & _ & UF). specialize (SF eq_refl).
  assert (CMB : forall y, combine (map snd (body_fields (stats_class f))) (fixed ++ [y])
     = combine (map snd (stats_fixed f)) fixed ++ [(VBin VNone, y)]).
  { intros y. rewrite stats_fields, map_app, combine_app by (rewrite map_length; exact L0). reflexivity. }
  assert (SUM : forall y, size1 (size0 (S (S n))) (VBin VNone) y = Ok (zlen bb) ->
     sumM (fun q => size1 (size0 (S (S n))) (fst q) (snd q))
       (combine (map snd (body_fields (stats_class f))) (fixed ++ [y])) = Ok (zlen (pb ++ bb))).
  { intros y Hy. rewrite CMB, zlen_app. apply sumM_app; [exact SF|].
    cbn [sumM fst snd]. rewrite Hy. cbn [bind]. f_equal. lia. }
  assert (PCK : forall y, pack1 (pack0 (S (S n))) (VBin VNone) y = Ok bb ->
     concatM (fun q => pack1 (pack0 (S (S n))) (fst q) (snd q))
       (combine (map snd (body_fields (stats_class f))) (fixed ++ [y])) = Ok (pb ++ bb)).
  { intros y Hy. rewrite CMB. apply concatM_app; [exact PF|].
    cbn [concatM fst snd]. rewrite Hy. cbn [bind]. rewrite app_nil_r. reflexivity. }
  assert (VAL : forall h at', is_valid (stats_class f) (set_attr "header" h at') = Ok true)
    by (intros; apply is_valid_plain; destruct f; discriminate).
  assert (MP : forall y, size1 (size0 (S (S n))) (VBin VNone) y = Ok (zlen bb) ->
     pack1 (pack0 (S (S n))) (VBin VNone) y = Ok bb ->
     message_pack (pack0 (S (S n))) (size0 (S (S (S n)))) (stats_class f) (set_attr "body" y attrs)
     = framed v t x (pb ++ bb)).
  { intros y H1 H2. destruct (SET y) as [HS' BV']. apply message_pack_ok; auto; rewrite BV'; auto. }
  assert (MP0 : message_pack (pack0 (S (S n))) (size0 (S (S (S n)))) (stats_class f) attrs
     = framed v t x (pb ++ bb)).
  { rewrite <- (set_attr_same "body" biv attrs) by exact GB. apply MP; assumption. }
  assert (MPB : message_pack (pack0 (S (S n))) (size0 (S (S (S n)))) (stats_class f) (set_attr "body" (VBytes bb) attrs)
     = framed v t x (pb ++ bb)) by (apply MP; reflexivity).
  assert (MPN : message_pack (pack0 (S (S n))) (size0 (S (S (S n)))) (stats_class f) (set_attr "body" (VBin (VBytes bb)) attrs)
     = framed v t x (pb ++ bb)) by (apply MP; reflexivity).
  assert (MUL : forall reply, (forall m, stats_instance f m ty = body_instance reply m) ->
     stats_type_name f = "multipart_type" ->
     multipart_pack (pack0 (S (S n))) (size0 (S (S n))) (size0 (S (S (S n)))) reply (stats_class f) attrs
     = framed v t x (pb ++ bb)).
  { intros reply SI TN. unfold multipart_pack. unfold attr_or_error at 1. rewrite GB. cbn [bind].
    rewrite TR. cbn [bind]. destruct tb; [|exact MP0]. specialize (TH eq_refl).
    rewrite <- TN. destruct biv; try (rewrite TH, (HPK TH); exact MPB).
    destruct (LS _ _ _ eq_refl) as (c & -> & LE & PL). cbn [form_instance] in FI. injection FI as <-.
    unfold attr_or_error. rewrite GT. cbn [bind].
    assert (BI : body_instance reply ti = Ok (VList CFixedTypeList c [])).
    { rewrite <- SI. apply SI2, TI. }
    rewrite BI. cbn [bind].
    assert (NI : items <> []).
    { intros ->. cbn in TR. discriminate. }
    rewrite (LE NI). cbn [bind]. rewrite PL. exact MPB. }
  split; [|split].
  - rewrite pack0_obj. unfold pack_obj. rewrite stats_kind. destruct f.
    + unfold stats_request_pack. unfold attr_or_error. rewrite GB. cbn [bind].
      destruct (has_pack biv); [|exact MP0]. rewrite (HPK eq_refl). exact MPB.
    + unfold stats_reply_pack. unfold attr_or_error. rewrite GB. cbn [bind]. rewrite TR. cbn [bind].
      destruct tb; [|exact MP0]. cbn [andb]. rewrite TH, HPK by auto. exact MPN.
    + apply MUL; reflexivity.
    + apply MUL; reflexivity.
  - apply (message_size_ok n v t x); auto. rewrite BV0. apply SUM. exact SZ.
  - intros h a K. rewrite unpack0_obj. unfold unpack_obj. rewrite stats_kind.
    assert (NE : pb ++ bb <> []).
    { clear - DF0. destruct f; cbn [stats_fixed] in DF0;
        apply fields_inv in DF0 as (i1 & r1 & b1 & b1' & o1 & s1 & _ & -> & _ & E1 & _);
        apply uint_inv in E1 as (y & _ & _ & _ & _ & -> & _); discriminate. }
    assert (UM : unpack_message_fields (unpack0 (S (S n))) (size0 (S (S n))) (stats_class f)
        (("header", h) :: a) (pb ++ bb) 0
      = Ok (("header", h) :: combine (map fst (body_fields (stats_class f)))
             (VUInt 2 (Some (stats_type_enum f)) (VEnum (stats_type_enum f) ty) :: pouts ++ [VBin (VBytes bb)]))).
    { destruct (message_class _ _ _ HI) as (_ & _ & _ & _ & MF & _).
      unfold unpack_message_fields. rewrite MF.
      assert (FA : forall fs1 fs2 at1 bf o, unpack_fields (unpack0 (S (S n))) (size0 (S (S n))) (fs1 ++ fs2) at1 bf o
         = do r <- unpack_fields (unpack0 (S (S n))) (size0 (S (S n))) fs1 at1 bf o;
           unpack_fields (unpack0 (S (S n))) (size0 (S (S n))) fs2 (fst r) bf (snd r)).
      { clear. induction fs1 as [|[k cv] fs1 IH]; intros; [reflexivity|]. cbn [unpack_fields app].
        destruct bf; [apply IH|]. destruct (unpack0 _ _ _ _); [|reflexivity]. cbn [bind].
        destruct (size0 _ _); [|reflexivity]. cbn [bind]. apply IH. }
      rewrite stats_fields, FA.
      specialize (UF [] bb (("header", h) :: a)). cbn [app List.length Nat.add] in UF.
      rewrite UF; [|discriminate|exact NE]. cbn [bind fst snd unpack_fields].
      remember (pb ++ bb) as buf eqn:EB. destruct buf as [|b' buf]; [congruence|]. rewrite EB. clear EB.
      change (deepcopy (VBin VNone)) with (VBin VNone).
      assert (UV : unpack0 (S (S n)) (VBin VNone) (pb ++ bb) (List.length pb) = Ok (VBin (VBytes bb))).
      { cbn [unpack0]. rewrite skipn_length_app. reflexivity. }
      rewrite UV. cbn [bind]. cbn [size0 bin_size has_pack is_generic_type bind fst]. f_equal.
      rewrite stats_fields in K. clear - K LO. cbn [List.length] in LO.
      destruct f; cbn [stats_fixed map fst app List.length] in *;
      first [destruct pouts as [|p1 [|] ]; try discriminate LO;
             destruct a as [|[? ?] [|[? ?] [|[? ?] [|] ] ] ]; try discriminate K;
             cbn [map fst] in K; injection K as -> -> ->; reflexivity
            |destruct pouts as [|p1 [|p2 [|] ] ]; try discriminate LO;
             destruct a as [|[? ?] [|[? ?] [|[? ?] [|[? ?] [|] ] ] ] ]; try discriminate K;
             cbn [map fst] in K; injection K as -> -> -> ->; reflexivity]. }
    pose proof (stats_enum_plain f) as PL.
    assert (EN : enum_call (stats_type_enum f) ty = Ok (VEnum (stats_type_enum f) ty)).
    { rewrite enum_call_ok by (right; exact MEM). unfold decoded_int. rewrite PL. reflexivity. }
    assert (NUM : num_of (VUInt 2 (Some (stats_type_enum f)) (VEnum (stats_type_enum f) ty)) = Ok ty).
    { apply int_exact_num. constructor. exact PL. }
    specialize (UB inst FI). clear - UM EN NUM UB SI1 LO.
    rewrite stats_fields in *. cbn [List.length] in LO.
    destruct f; cbn [stats_fixed map fst app List.length] in *;
      destruct pouts as [|p1 [|p2 [|p3 q] ] ]; try discriminate LO;
      cbn [combine app stats_class stats_type_enum stats_instance] in *;
      unfold stats_request_unpack, stats_reply_unpack, multipart_unpack;
      rewrite ?skipn_O; rewrite UM; cbn [bind]; unfold attr_enum, attr_bytes, attr_or_error;
      cbn [get_attr String.eqb Ascii.eqb Bool.eqb bind]; rewrite NUM; cbn [bind]; rewrite EN; cbn [bind].
    + assert (E : VList CFixedTypeList (match stats_body false ty with Some bc => bc | None => CNone end) [] = inst)
        by congruence.
      rewrite E, UB. reflexivity.
    + rewrite SI1. cbn [bind]. rewrite UB. reflexivity.
    + rewrite SI1. cbn [bind]. rewrite UB. reflexivity.
    + rewrite SI1. cbn [bind]. rewrite UB. reflexivity.
Qed.
