(** Encoding decoded messages again: lemmas for C43. *)
From Coq Require Import ZArith List Bool String Lia.
From Verif Require Import Base PyText Ids PyVal Classes Interp Utils Spec SpecMsg SpecBasic SpecLayout SpecDecode SpecReencode ClassFacts BaseFacts TextFacts IntFacts LeafFacts
  AddrFacts StructFacts StructThm RaisesFacts DispatchFacts NetFacts2 FuelFacts MutationFacts LayoutFacts WindowFacts LengthFacts MsgFacts MsgMain DecodeFacts DecodeFacts2 ReencodeFacts.
Import ListNotations.
Open Scope string_scope.
Open Scope list_scope.
Open Scope Z_scope.

(** ** Padding only *)
Scheme cleared_mut := Induction for cleared Sort Prop with cleared_all_mut := Induction for cleared_all Sort Prop.
Combined Scheme cleared_both from cleared_mut, cleared_all_mut.

Lemma repeat_wf k : wf_bytes (repeat 0 k).
Proof. apply Forall_forall. intros x I. apply repeat_spec in I. subst. unfold is_byte. lia. Qed.
Lemma wf_app a b : wf_bytes a -> wf_bytes b -> wf_bytes (a ++ b).
Proof. apply Forall_app_intro || (intros A B; apply Forall_app; auto). Qed.
Lemma cleared_keep :
  (forall d bs bs', cleared d bs bs' -> List.length bs' = List.length bs /\ (wf_bytes bs -> wf_bytes bs')) /\
  (forall A bs bs', cleared_all A bs bs' -> List.length bs' = List.length bs /\ (wf_bytes bs -> wf_bytes bs')).
Proof.
  apply (cleared_both (fun d bs bs' _ => List.length bs' = List.length bs /\ (wf_bytes bs -> wf_bytes bs'))
                      (fun A bs bs' _ => List.length bs' = List.length bs /\ (wf_bytes bs -> wf_bytes bs'))); intros; auto.
  - rewrite repeat_length. split; [congruence|]. intros _. apply repeat_wf.
  - destruct H as [L1 W1], H0 as [L2 W2]. rewrite !app_length. split; [lia|]. intros W. apply Forall_app in W as [Wa Wb]. apply wf_app; auto.
Qed.
Lemma records_keep c bs bs' : cleared_records c bs bs' -> List.length bs' = List.length bs /\ (wf_bytes bs -> wf_bytes bs').
Proof.
  induction 1 as [|b1 b1' b2 b2' C _ [L W]]; [auto|]. apply cleared_keep in C as [L1 W1]. rewrite !app_length. split; [lia|].
  intros X. apply Forall_app in X as [Xa Xb]. apply wf_app; auto.
Qed.
Lemma body_keep A bs bs' : cleared_body A bs bs' -> List.length bs' = List.length bs /\ (wf_bytes bs -> wf_bytes bs').
Proof.
  intros [A0 b b' C|A0 n d b b' r C|A0 n lc pc i b b' r r' C R]; apply cleared_keep in C as [L W]; [auto| |].
  - rewrite !app_length. split; [lia|]. intros X. apply Forall_app in X as [Xa Xb]. apply wf_app; auto.
  - apply records_keep in R as [L1 W1]. rewrite !app_length. split; [lia|]. intros X. apply Forall_app in X as [Xa Xb]. apply wf_app; auto.
Qed.

(** ** Records *)
Lemma nul_item lc pc x items : ends_in_nul (VList lc pc (x :: items)) = ends_in_nul x && ends_in_nul (VList lc pc items).
Proof. reflexivity. Qed.
Lemma records_enc n m c a k b : new_instance c = Some (VObj c a) -> fw (VObj c a) = Some k -> (0 < k)%nat -> complete c a -> wf_bytes b ->
  forall K o items lc pc, unpack_items (unpack0 (S m)) (size0 (S m)) c K b o = Ok items -> (o + List.length items * k)%nat = List.length b -> ends_in_nul (VList lc pc items) = true ->
  exists bs' outs, enc_items (S (S n)) c items bs' outs /\ cleared_records c (skipn o b) bs'.
Proof.
  intros NI F Pk Cp Wf. induction K as [|K IH]; intros o items lc pc U Lb Nul; cbn [unpack_items] in U; destruct (Nat.ltb_spec o (List.length b)) as [L|L]; try discriminate U.
  - injection U as <-. exists [], []. split; [constructor|]. rewrite skipn_all2 by exact L. constructor.
  - rewrite NI in U. apply bind_ok in U as (v & Uv & U). apply bind_ok in U as (l0 & CI & U). apply bind_ok in U as (s & SZ & U). apply bind_ok in U as (rest & R & U). injection U as <-.
    assert (NE : b <> []) by (intros ->; cbn in L; lia).
    rewrite (fw_size _ _ _ _ _ _ F NE Uv) in SZ. injection SZ as <-. rewrite Nat2Z.id in R. destruct (fw_class _ _ _ _ _ _ _ F Uv) as (attrs & ->).
    cbn [flat check_items] in CI. destruct (cid_eqb c CNone); [discriminate|]. destruct (subclass _ c); [|discriminate]. cbn [bind] in CI. injection CI as <-. cbn [app] in *.
    rewrite (nul_item lc pc) in Nul. apply andb_prop in Nul as [N1 N2]. cbn [List.length] in Lb.
    destruct (IH _ _ lc pc R ltac:(lia) N2) as (bs' & outs & E & C).
    destruct (struct_enc n (S m) c a k b o _ NE Wf F Cp Uv ltac:(lia) N1) as (at1 & b1 & o1 & _ & E1 & C1).
    exists (b1 ++ bs'), (mk c o1 :: outs). split.
    + apply i_cons; [exact E1| |exact E]. intros ->. apply cleared_keep in C1 as [L1 _]. rewrite slice_len in L1 by lia. cbn in L1. lia.
    + replace (skipn o b) with (slice o (o + k) b ++ skipn (o + k) b); [apply cr_cons; assumption|].
      rewrite slice_from, WindowFacts.skipn_add. apply firstn_skipn.
  - injection U as <-. exists [], []. split; [constructor|]. rewrite skipn_all2 by exact L. constructor.
Qed.

(** ** Packets *)
Lemma keys_complete c attrs : map fst attrs = field_names c -> complete c attrs.
Proof.
  intros H. unfold complete, own. rewrite StructFacts.filter_all; [exact H|]. intros [k x] I. cbn [fst]. apply is_class_attr_in. rewrite <- H. apply (in_map fst) in I. exact I.
Qed.
Lemma packet_start p m : unpack_packet p = Ok m -> exists v t c a h, In (t, c) (openflow_types v) /\ complete c a /\
  get_attr "header" a = Some (VObj (header_class v) h) /\ complete (header_class v) h /\ unpack (VObj c a) (skipn 8 p) 0 = Ok m.
Proof.
  unfold unpack_packet. intros H. apply bind_ok in H as (u & _ & H). destruct (version_lib (hd 0 p)) as [v|]; [|discriminate].
  destruct (unpack_message v p) as [m'|e] eqn:UM; cbn [recast] in H; [injection H as ->|destruct (exn_eqb e ValueError); discriminate].
  rewrite unpack_message_eq in UM. apply bind_ok in UM as (hdr & _ & UM). apply bind_ok in UM as (msg & NM & UM).
  unfold new_message_from_header in NM. apply bind_ok in NM as (mt & _ & NM). apply bind_ok in NM as (t & _ & NM).
  apply bind_ok in NM as (m1 & N1 & NM). unfold new_message_from_message_type in N1. destruct (lookup_type t (message_types v)) as [c|] eqn:L; [|discriminate].
  apply types_agree in L. destruct (new_message_shape _ _ _ L) as (a & h & NI & KH & _). rewrite NI in N1. injection N1 as <-.
  apply bind_ok in NM as (xid & _ & NM). apply bind_ok in NM as (m2 & S1 & NM). apply bind_ok in NM as (len & _ & NM).
  cbn [set_header get_attr String.eqb Ascii.eqb Bool.eqb set_attr] in S1. injection S1 as <-. unfold set_header in NM.
  cbn [get_attr String.eqb Ascii.eqb Bool.eqb set_attr] in NM. injection NM as <-.
  exists v, t, c, (("header", VObj (header_class v) (set_attr "length" len (set_attr "xid" xid h))) :: a), (set_attr "length" len (set_attr "xid" xid h)).
  split; [exact L|]. split; [|split; [reflexivity|split; [|exact UM]]].
  - apply keys_complete. assert (NX : c <> OxmTLV04) by (intros ->; destruct (message_kind_ok _ _ _ L) as [X _]; discriminate X).
    pose proof (start_keys_names c NX) as Sk. unfold start_keys in Sk. rewrite NI in Sk. exact Sk.
  - apply keys_complete. rewrite !set_attr_keys; [rewrite KH; destruct v; reflexivity|rewrite KH; cbn; tauto|].
    rewrite set_attr_keys; rewrite KH; cbn; tauto.
Qed.
Lemma header_class_inj v v' : header_class v = header_class v' -> v = v'.
Proof. destruct v, v'; (reflexivity || discriminate). Qed.

(** An accepted packet is a message that can be sent: only its body is still
    to be encoded. *)
Lemma packet_sendable p c attrs : wf_bytes p -> unpack_packet p = Ok (VObj c attrs) -> c <> QueueGetConfigRequest04 -> c <> QueueGetConfigReply04 ->
  exists v a, nth 0 p 0 = version_number v /\ In (nth 1 p 0, c) (openflow_types v) /\ ~ misfiled v (nth 1 p 0) /\ complete c a /\
    unpack (VObj c a) (skipn 8 p) 0 = Ok (VObj c attrs) /\ 8 <= zlen p < 65536 /\
    (complete c attrs -> sendable v (nth 1 p 0) (place_value (slice 4 8 p)) c attrs).
Proof.
  intros Wf U N1 N2. destruct (packet_start _ _ U) as (v' & t & c' & a & h' & I' & Ca & Gh' & Ch & Ub). destruct (kept_class _ _ _ _ _ _ _ _ I' Ub) as [Mk ->].
  destruct (packet_class _ _ Wf U) as (v & c0 & at0 & h & Hv & I & [= <- <-] & Gh & H1 & H2 & H3 & H4).
  assert (Eh : get_attr "header" attrs = Some (VObj (header_class v') h')).
  { rewrite unpack_object in Ub. destruct (message_kind_ok _ _ _ I') as [K NH]. apply message_keeps in Ub as (x & [= <-] & G); [congruence|exact K|exact NH]. }
  rewrite Gh in Eh. injection Eh as Hc <-. apply header_class_inj in Hc. subst v'.
  assert (Nm : ~ misfiled v (nth 1 p 0)).
  { intros (-> & [E|E]); rewrite E in I; cbn in I; repeat (destruct I as [[=]|I]); try congruence; destruct I. }
  assert (Wfr : well_framed p).
  { assert (V : validate_any (VBytes p) = Ok tt).
    { unfold unpack_packet in U. apply bind_ok in U as (u & V & _). destruct u. exact V. }
    apply validate_exact in V as (b & [= <-] & Wr); [exact Wr|]. intros b [= <-]. exact Wf. }
  exists v, a. repeat split; auto; try (unfold well_framed in Wfr; lia).
  - exists h. split; [exact Gh|]. split; [exact Ch|]. split; [exact H1|]. split; [apply H4, Nm|]. split; [exact H2|].
    destruct (packet_header p v Wf ltac:(unfold well_framed in Wfr; lia) Hv) as (_ & _ & _ & X). exact X.
Qed.

Lemma recode0 n p c attrs v body' outs : wf_bytes p -> nth 0 p 0 = version_number v -> In (nth 1 p 0, c) (openflow_types v) -> ~ misfiled v (nth 1 p 0) ->
  8 <= zlen p < 65536 -> sendable v (nth 1 p 0) (place_value (slice 4 8 p)) c attrs -> enc_body n v c attrs body' outs ->
  wf_bytes body' -> (List.length body' <= List.length p - 8)%nat ->
  exists p', pack (VObj c attrs) = Ok p' /\ same_header p p' /\ skipn 8 p' = body'.
Proof.
  intros Wf Hv I Nm Lp Sd Eb Wb Lb. unfold zlen in *.
  assert (Lt : 8 + zlen body' < 65536) by (unfold zlen; lia).
  pose proof (enc_message n v _ _ c attrs body' outs I Nm Sd Eb Wb Lt) as M. destruct (message_sound _ _ _ _ _ _ _ M) as (P & _ & _).
  eexists. split; [exact P|]. destruct (packet_header p v Wf ltac:(unfold zlen; lia) Hv) as (F8 & Ht & Hl & Hx). cbv zeta in F8.
  assert (E2 : be_encode 1 (version_number v) ++ be_encode 1 (nth 1 p 0) = firstn 2 p).
  { transitivity (firstn 2 (firstn 8 p)); [rewrite F8; unfold wire_header; destruct v; cbn; reflexivity|rewrite firstn_firstn; reflexivity]. }
  assert (E4 : be_encode 4 (place_value (slice 4 8 p)) = slice 4 8 p).
  { rewrite place_value_decode. pose proof (be_encode_decode (slice 4 8 p) (slice_wf 4 8 p Wf)) as X. rewrite slice_length in X.
    replace (Nat.min 8 (List.length p) - 4)%nat with 4%nat in X by lia. exact X. }
  unfold wire_header. repeat rewrite <- app_assoc. unfold same_header.
  pose proof (be_encode_length 1 (version_number v)) as B1. pose proof (be_encode_length 1 (nth 1 p 0)) as B2. pose proof (be_encode_length 2 (8 + zlen body')) as B3. pose proof (be_encode_length 4 (place_value (slice 4 8 p))) as B4.
  assert (Bw : wf_bytes (be_encode 2 (8 + zlen body')) /\ be_decode (be_encode 2 (8 + zlen body')) = 8 + zlen body').
  { split; [apply be_encode_wf|apply be_decode_encode; rewrite ulimit2; unfold zlen in *; lia]. }
  rewrite E4 in *. rewrite <- E2.
  destruct (be_encode 1 (version_number v)) as [|x1 [|] ]; try discriminate B1. destruct (be_encode 1 (nth 1 p 0)) as [|x2 [|] ]; try discriminate B2.
  destruct (be_encode 2 (8 + zlen body')) as [|x3 [|x4 [|] ] ]; try discriminate B3. destruct (slice 4 8 p) as [|x5 [|x6 [|x7 [|x8 [|] ] ] ] ]; try discriminate B4.
  cbn [app]. split; [|reflexivity]. split; [reflexivity|]. split; [|reflexivity].
  cbn. split; [reflexivity|]. split; [apply Bw|]. rewrite place_value_decode. destruct Bw as [_ ->]. unfold zlen. cbn [List.length]. lia.
Qed.

Lemma recode n p c attrs v body body' outs : wf_bytes p -> nth 0 p 0 = version_number v -> In (nth 1 p 0, c) (openflow_types v) -> ~ misfiled v (nth 1 p 0) ->
  8 <= zlen p < 65536 -> sendable v (nth 1 p 0) (place_value (slice 4 8 p)) c attrs -> enc_body n v c attrs body' outs ->
  cleared_body (tl (class_attrs c)) body body' -> wf_bytes body -> (List.length body <= List.length p - 8)%nat ->
  exists p', pack (VObj c attrs) = Ok p' /\ recoded c p body p'.
Proof.
  intros Wf Hv I Nm Lp Sd Eb Cb Wb Lb. pose proof (body_keep _ _ _ Cb) as [L W].
  destruct (recode0 n p c attrs v body' outs Wf Hv I Nm Lp Sd Eb (W Wb) ltac:(lia)) as (p' & P & Sh & <-). exists p'. split; [exact P|]. split; assumption.
Qed.

Lemma plain_message v t c a b attrs : In (t, c) (openflow_types v) -> special c = false -> complete c a -> unpack (VObj c a) b 0 = Ok (VObj c attrs) ->
  complete c attrs /\ body_values c attrs = map (attr_of attrs) (map fst (body_fields c)) /\
  exists m o1, unpack_fields (unpack0 (S (S m))) (size0 (S (S m))) (body_fields c) a b 0 = Ok (attrs, o1).
Proof.
  intros I Sp Ca U. destruct (message_class _ _ _ I) as (_ & _ & _ & (h & CA) & MF & _ & KM & _). specialize (KM Sp).
  rewrite unpack_object in U. unfold unpack_obj in U. rewrite KM in U. apply bind_ok in U as (at1 & U & X). injection X as ->.
  unfold unpack_message_fields in U. apply bind_ok in U as ([at2 o1] & U & X). injection X as ->. cbn [fst] in U. rewrite MF in U.
  assert (C : complete c attrs).
  { apply (fields_complete c _ _ (body_fields c)) in U; [exact U| |exact Ca]. intros p J. unfold field_names. rewrite CA. right. apply in_map, J. }
  split; [exact C|]. split.
  - unfold body_values. rewrite values_get by exact C. unfold field_names. rewrite CA. reflexivity.
  - exists 97%nat, o1. exact U.
Qed.

Definition starts_header (c : cid) : bool :=
  match openflow_layout c with
  | Some (l, _) => match l with ("header", 8%nat) :: l' => forallb (fun q => Nat.ltb 0 (snd q)) l' | _ => false end
  | None => true
  end.
Lemma message_layout v t c l tt : In (t, c) (openflow_types v) -> openflow_layout c = Some (l, tt) ->
  exists l', l = ("header", 8%nat) :: l' /\ heads l' (body_fields c) = true /\ forall q, In q l' -> (0 < snd q)%nat.
Proof.
  intros I E. assert (G : forallb (fun q => starts_header (snd q)) (openflow_types v) = true) by (destruct v; vm_compute; reflexivity).
  rewrite forallb_forall in G. specialize (G _ I). unfold starts_header in G. cbn [snd] in G. rewrite E in G.
  destruct (message_class _ _ _ I) as (_ & _ & _ & _ & MF & _).
  pose proof (message_body_ok c) as T. unfold message_body in T. rewrite E in T.
  destruct l as [|[h k] l]; [discriminate|]. destruct (String.eqb_spec h "header") as [->|N].
  2: { exfalso. repeat (destruct h as [|[ [] [] [] [] [] [] [] [] ] h]; try discriminate G). apply N. reflexivity. }
  do 8 (destruct k as [|k]; [discriminate G|]). destruct k; [|discriminate G].
  exists l. split; [reflexivity|]. rewrite MF in T. apply andb_prop in T as [T _]. apply andb_prop in T as [T _]. split; [exact T|].
  rewrite forallb_forall in G. intros q J. apply Nat.ltb_lt, G, J.
Qed.
Lemma heads_prefix l : forall A A2, heads l (A ++ A2) = true -> List.length A = List.length l -> heads l A = true.
Proof.
  induction l as [|[n k] l IH]; intros [|[n' cv] A] A2 H L; try discriminate L; [reflexivity|]. cbn [app heads] in *. rewrite !andb_true_iff in *.
  destruct H as (H & H2). split; [exact H|]. eapply IH; [exact H2|]. cbn in L. lia.
Qed.
Lemma header_sum l' : list_sum (map snd (("header", 8%nat) :: l')) = (8 + list_sum (map snd l'))%nat.
Proof. reflexivity. Qed.

Lemma body_choice n v c attrs k body outs : special c = false -> enc_fields (S (S n)) k true (body_fields c) (body_values c attrs) body outs ->
  exists outs', enc_body n v c attrs body outs'.
Proof.
  intros Sp E. destruct body as [|x body].
  - eexists. eapply b_empty; eassumption.
  - eexists. eapply b_fields; [exact Sp|exact E|discriminate].
Qed.

(** The fields before the last one. *)
Lemma fixed_part n m v t c a b attrs o1 l' A A2 : In (t, c) (openflow_types v) -> wf_bytes b -> b <> [] ->
  heads l' (body_fields c) = true -> body_fields c = A ++ A2 -> List.length A = List.length l' -> (list_sum (map snd l') <= List.length b)%nat ->
  unpack_fields (unpack0 (S m)) (size0 (S m)) (body_fields c) a b 0 = Ok (attrs, o1) -> ends_in_nul (VObj c attrs) = true ->
  (exists a', unpack_fields (unpack0 (S m)) (size0 (S m)) A2 a' b (list_sum (map snd l')) = Ok (attrs, o1)) /\
  exists bs' outs, enc_fields (S (S n)) SD true A (map (attr_of attrs) (map fst A)) bs' outs /\ cleared_all A (firstn (list_sum (map snd l')) b) bs'.
Proof.
  intros I Wf NE H Eb La Ls U Nul. rewrite Eb in *. destruct (message_class _ _ _ I) as (_ & _ & _ & (h & CA) & _).
  assert (D : NoDup (map fst (A ++ A2))) by (rewrite <- Eb; pose proof (class_names_nodup c) as D; rewrite CA in D; inversion D; assumption).
  destruct (heads_enc (S (S n)) (S m) b NE l' A A2 (heads_prefix _ _ _ H La) La D) with (attrs := a) (o := O) (r := (attrs, o1)) as (R & bs' & outs & E & C).
  - intros nm cv k x o J F Lo Ux Nx. eapply field_enc; [|exact NE|exact Wf|exact F|exact Ux|exact Lo|exact Nx]. rewrite CA. right. rewrite Eb. apply in_or_app. left. exact J.
  - exact U.
  - exact Ls.
  - intros nm x _ G. eapply nul_attr; [exact Nul|exact G].
  - split; [exact R|]. exists bs', outs. split; [exact E|]. exact C.
Qed.

Lemma sum_zero (l : list (string * nat)) : (forall q, In q l -> (0 < snd q)%nat) -> list_sum (map snd l) = O -> l = [].
Proof. destruct l as [|q l]; [reflexivity|]. intros H E. specialize (H q (or_introl eq_refl)). cbn in E. lia. Qed.

Lemma slice_body {A} k (p : list A) : slice 8 (8 + k) p = firstn k (skipn 8 p).
Proof. apply slice_from. Qed.
Lemma skip_wf k p : wf_bytes p -> wf_bytes (skipn k p).
Proof. apply wf_bytes_skipn. Qed.

Lemma misfiled_class v t c : In (t, c) (openflow_types v) -> special c = true -> In c [ErrorMsg01; ErrorMsg04; PacketOut01; PacketOut04; StatsRequest01; StatsReply01; MultipartRequest04; MultipartReply04].
Proof. intros _. destruct c; intros H; try discriminate H; cbn; tauto. Qed.
Lemma fixed_plain c l t : openflow_layout c = Some (l, t) -> List.length l = List.length (class_attrs c) -> special c = false.
Proof.
  intros E L. destruct (special c) eqn:Sp; [|reflexivity]. exfalso.
  destruct c; try discriminate Sp; vm_compute in E; injection E as <- <-; vm_compute in L; discriminate L.
Qed.

Theorem reencode_fixed p c attrs l t : wf_bytes p -> unpack_packet p = Ok (VObj c attrs) -> openflow_layout c = Some (l, t) ->
  List.length l = List.length (class_attrs c) -> (list_sum (map snd l) <= List.length p)%nat -> c <> QueueGetConfigRequest04 -> c <> QueueGetConfigReply04 ->
  ends_in_nul (VObj c attrs) = true ->
  exists p', pack (VObj c attrs) = Ok p' /\ recoded c p (slice 8 (list_sum (map snd l)) p) p'.
Proof.
  intros Wf U E Ll Lp N1 N2 Nul. pose proof (fixed_plain _ _ _ E Ll) as Sp.
  destruct (packet_sendable p c attrs Wf U N1 N2) as (v & a & Hv & I & Nm & Ca & Ub & Lp8 & Sd).
  destruct (message_layout _ _ _ _ _ I E) as (l' & -> & Hh & Pos). rewrite header_sum in *.
  destruct (plain_message _ _ _ _ _ _ I Sp Ca Ub) as (C & Bv & m & o1 & Uf). destruct (message_class _ _ _ I) as (_ & _ & _ & (h & CA) & _).
  assert (Lb : List.length (body_fields c) = List.length l') by (rewrite CA in Ll; cbn in Ll; lia).
  assert (exists bs' outs, enc_fields 2 SD true (body_fields c) (body_values c attrs) bs' outs /\ cleared_all (body_fields c) (firstn (list_sum (map snd l')) (skipn 8 p)) bs')
    as (bs' & outs & Ef & Cf).
  { destruct (skipn 8 p) as [|x0 q] eqn:Eq.
    - apply (f_equal (@List.length Z)) in Eq. rewrite skipn_length in Eq. cbn in Eq. rewrite (sum_zero l' Pos) in * by lia. destruct (body_fields c); [|discriminate].
      rewrite Bv. exists [], []. split; constructor.
    - rewrite <- Eq in *. rewrite Bv. rewrite <- (app_nil_r (body_fields c)) in Uf.
      assert (NE : skipn 8 p <> []) by congruence.
      destruct (fixed_part 0 (S m) v _ c a (skipn 8 p) attrs o1 l' (body_fields c) [] I (skip_wf _ _ Wf) NE Hh (eq_sym (app_nil_r _)) Lb) as (_ & R); [rewrite skipn_length; lia|rewrite app_nil_r in Uf; exact Uf|exact Nul|exact R]. }
  destruct (body_choice 0 v c attrs _ _ _ Sp Ef) as (outs' & Eb).
  rewrite slice_body. eapply (recode 0 p c attrs v); try eassumption; [apply Sd, C|apply cb_fixed; exact Cf|apply wf_bytes_firstn, skip_wf, Wf|].
  rewrite firstn_length, skipn_length. lia.
Qed.
