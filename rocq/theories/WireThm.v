(** Sender and receiver agree; streams; different contents have different
    encodings: lemmas for C53 to C55. *)
From Coq Require Import ZArith List Bool String Lia.
From Verif Require Import Base PyText Ids PyVal Classes Interp Utils Spec SpecMsg SpecBasic SpecMutation SpecLayout SpecSize SpecDecode SpecWire
  ClassFacts BaseFacts IntFacts StructFacts DispatchFacts FuelFacts Totality MutationFacts MutationFacts2 MutationFacts3 LayoutFacts SizeFacts SizeFacts2 SizeThm
  DecodeFacts DecodeFacts2 DecodeFacts3 WireFacts.
From Verif Require ConstructThm4.
Import ListNotations.
Open Scope string_scope.
Open Scope list_scope.
Open Scope Z_scope.

(** ** Numbers *)
Lemma big_endian_fun w z z' bs : big_endian w z bs -> big_endian w z' bs -> z = z'.
Proof. intros (_ & _ & <-) (_ & _ & <-). reflexivity. Qed.
Lemma big_endian_inj w z bs bs' : big_endian w z bs -> big_endian w z bs' -> bs = bs'.
Proof.
  intros (L & W & V) (L' & W' & V'). rewrite <- (be_encode_decode bs W), <- (be_encode_decode bs' W'). rewrite <- !place_value_decode, V, V', L, L'. reflexivity.
Qed.

(** ** Streams *)
Lemma cut_unique s ms ms' : cut s ms -> cut s ms' -> ms = ms'.
Proof.
  intros C. revert ms'. induction C as [|m rest ms L B C IH]; intros ms' C'.
  - inversion C' as [|m' rest' ms0 L' B' C0 E]; [reflexivity|]. destruct m'; [cbn in L'; lia|discriminate].
  - inversion C' as [E|m' rest' ms0 L' B' C0 E]; [destruct m; [cbn in L; lia|discriminate]|].
    assert (Sl : slice 2 4 m = slice 2 4 m').
    { assert (X : forall a b : bytes, (4 <= List.length a)%nat -> slice 2 4 (a ++ b) = slice 2 4 a).
      { intros a b La. unfold slice. rewrite firstn_app. replace (4 - List.length a)%nat with O by lia. rewrite firstn_O, app_nil_r. reflexivity. }
      rewrite <- (X m rest L), <- (X m' rest' L'). f_equal. symmetry. exact E. }
    rewrite Sl in B. pose proof (big_endian_fun _ _ _ _ B B') as Z. unfold zlen in Z. apply Nat2Z.inj in Z.
    assert (m' = m).
    { transitivity (firstn (List.length m) (m ++ rest)); [rewrite <- E; symmetry; apply firstn_app_exact, Z|apply firstn_app_exact; reflexivity]. }
    subst m'. apply app_inv_head in E. subst rest'. f_equal. apply IH, C0.
Qed.

(** A message as the theorems on sizes need it. *)
Lemma stream_cut os bss : Forall2 (fun o bs => exists c attrs l t hc h, o = VObj c attrs /\ openflow_layout c = Some (("header", 8%nat) :: l, t) /\
    built o = true /\ regular o = true /\ measurable o = true /\ get_attr "header" attrs = Some (VObj hc h) /\ pack o = Ok bs) os bss ->
  cut (List.concat bss) bss /\ forall ps, cut (List.concat bss) ps -> ps = bss.
Proof.
  intros F. assert (C : cut (List.concat bss) bss).
  { induction F as [|o bs os bss (c & attrs & l & t & hc & h & -> & L & B & R & M & G & P) F IH]; [constructor|]. cbn [List.concat]. constructor.
    - destruct (layout c _ _ attrs bs L B R P) as (Lt & _). pose proof (layouts_ok c) as T. rewrite L in T. apply andb_prop in T as [T _]. apply andb_prop in T as [_ T].
      apply Nat.eqb_eq in T. subst t. cbn [map snd list_sum fold_right] in Lt. lia.
    - eapply any_header_length; eassumption.
    - exact IH. }
  split; [exact C|]. intros ps Hp. eapply cut_unique; eassumption.
Qed.

(** ** Leaves *)
Lemma stands_received w er x z : stands_for (VUInt w er x) z <-> plain_int x z \/ exists e, x = VMask e z.
Proof.
  split.
  - intros [A|(y & H & A)]; [inversion A|]. inversion H; subst. exact A.
  - intros A. right. exists x. split; [constructor|exact A].
Qed.
Lemma removelast_firstn {A} n (l : list A) : (n < List.length l)%nat -> removelast (firstn (S n) l) = firstn n l.
Proof. intros H. rewrite removelast_firstn by lia. reflexivity. Qed.
Lemma char_text n d iv bs : same_char (VChar n d) iv = true -> pack (match iv with VChar _ _ => iv | _ => VChar n (or_default d iv) end) = Ok bs ->
  exists s, has_text (or_default d iv) s /\ bs = firstn (pred n) (s ++ repeat 0 n) ++ [0].
Proof.
  intros Sm P.
  assert (X : forall x, pack (VChar n x) = Ok bs -> exists s, x = VStr s /\ bs = firstn (pred n) (s ++ repeat 0 n) ++ [0]).
  { intros x Q. apply pack1_step in Q; [|apply nf_char_pack1]. cbn [pack0 char_pack1] in Q. unfold char_bytes in Q. destruct x; try discriminate.
    destruct (forallb _ s); [|discriminate]. cbv zeta in Q. injection Q as <-. exists s. split; [reflexivity|]. f_equal.
    destruct n as [|n]; [reflexivity|]. unfold zeros. cbn [pred]. apply removelast_firstn. rewrite app_length, repeat_length. lia. }
  destruct iv; try (destruct (X _ P) as (s0 & E & ->); exists s0; split; [rewrite E; constructor|reflexivity]).
  cbn [same_char] in Sm. apply Nat.eqb_eq in Sm. subst len. destruct (X _ P) as (s0 & -> & ->). exists s0. split; [constructor|reflexivity].
Qed.
Lemma leaf_agrees d iv bs v w : leaf_width d = Some w -> same_char d iv = true -> carried d iv bs -> reads d bs v -> agrees d iv v.
Proof.
  intros Lw Sm C R.
  inversion C as [w0 er d0 iv0 z bs0 St B|k iv0|len d0 iv0 bs0 P|d0 m iv0 bs0 P|d0 iv0 bs0 P|d0 iv0 bs0 P| | | | | | | |]; subst; try discriminate Lw.
  - apply ag_number with z; [destruct iv; exact St|].
    inversion R as [? ? z' ? B'|? e ? z' ? B' De Ne|? e ? z' ? B' Me| | | | | |]; subst; rewrite (big_endian_fun _ _ _ _ B B'); apply stands_received; [left; constructor|left; constructor|right; eauto].
  - constructor.
  - destruct (char_text _ _ _ _ Sm P) as (s & T & E). inversion R as [| | | |? ? s' k A N Ln Eb| | | |]; subst. eapply ag_text; [exact T|]. split; [exists k|exact N]. symmetry. assumption.
  - inversion R as [| | | | |? ? ? Wb Ln| | |]; subst. constructor. exact P.
  - inversion R as [| | | | | |? ? Wb Ln| |]; subst. constructor. exact P.
  - inversion R as [| | | | | | |? ? Wb Ln|]; subst. constructor. exact P.
Qed.

(** ** Structures inside structures *)
Lemma nested_obj kc w v : nested_width kc = Some w -> regular v = true -> subclass (class_of v) kc = true -> exists attrs, v = VObj kc attrs.
Proof.
  unfold nested_width. intros H R Sc.
  destruct (forallb _ all_cids) eqn:H1; [|discriminate]. destruct (subclass kc CList) eqn:H2; [discriminate|].
  destruct (cid_eqb kc Match04) eqn:H3; [discriminate|]. destruct (subclass kc ActionSetField04) eqn:H4; [discriminate|].
  destruct (cid_eqb kc OxmTLV04) eqn:H5; [discriminate|]. destruct (existsb _ _) eqn:H6; [discriminate|]. cbn in H.
  pose proof (all_classes _ H1 (class_of v)) as E. cbn beta in E. rewrite Sc in E. cbn in E. apply cid_eqb_eq in E.
  assert (Nb : ~ In kc [CNone; CInt; CStr; CBytes; CEnumMember; CMaskObj; CUBInt8; CUBInt16; CUBInt32; CUBInt64;
          CUBIntOther; CPad; CChar; CIPAddress; CHWAddress; CDPID; CBinaryData]).
  { intros I. assert (X : existsb (cid_eqb kc) [CNone; CInt; CStr; CBytes; CEnumMember; CMaskObj; CUBInt8; CUBInt16; CUBInt32; CUBInt64;
          CUBIntOther; CPad; CChar; CIPAddress; CHWAddress; CDPID; CBinaryData] = true) by (apply existsb_exists; exists kc; split; [exact I|apply cid_eqb_refl]). congruence. }
  destruct v as [| | | | | |w0 er x| | | | | | |c attrs|lc pc items]; cbn [class_of] in E;
    try (exfalso; apply Nb; rewrite <- E; cbn; tauto).
  - exfalso. apply Nb. rewrite <- E. destruct w0 as [|[|[|[|[|[|[|[|[|]]]]]]]]]; cbn; tauto.
  - subst c. eauto.
  - subst lc. cbn [regular] in R. apply andb_prop in R as [R _]. congruence.
Qed.
Lemma widths_leaf l name cv w : widths l = Some w -> In (name, cv) l -> exists x, leaf_width cv = Some x.
Proof.
  revert w. induction l as [|[n c] l IH]; intros w W I; [destruct I|]. cbn [widths] in W. destruct (leaf_width c) as [x|] eqn:L; [|discriminate].
  destruct (widths l) as [y|]; [|discriminate]. destruct I as [E|I]; [injection E as <- <-; eauto|eapply IH; [reflexivity|exact I] ].
Qed.
Lemma nested_widths kc w : nested_width kc = Some w -> widths (class_attrs kc) = Some w.
Proof. unfold nested_width. destruct (_ && _); [auto|discriminate]. Qed.
Lemma nested_oxm kc w : nested_width kc = Some w -> kc <> OxmTLV04.
Proof. intros W ->. unfold nested_width in W. rewrite (cid_eqb_refl OxmTLV04) in W. cbn [negb] in W. rewrite !andb_false_r in W. discriminate W. Qed.
Lemma leaf_not_header c name cv x : In (name, cv) (class_attrs c) -> leaf_width cv = Some x -> name <> "header".
Proof. intros I L ->. pose proof (header_table_ok c) as T. unfold header_table in T. rewrite (class_get _ _ _ I) in T. destruct cv; discriminate. Qed.

(** One field: what the sender's attribute contributes, read by the receiver. *)
Lemma field_agrees c attrs name cv iv bs v w : built (VObj c attrs) = true -> regular (VObj c attrs) = true -> In (name, cv) (class_attrs c) ->
  get_attr name attrs = Some iv -> attr_width cv = Some w -> carried cv iv bs -> reads cv bs v -> agrees cv iv v.
Proof.
  intros B R I G W C Rd. destruct (regular_attr c attrs name iv cv R G (class_get _ _ _ I)) as (Sm & Ri).
  assert (Lf : leaf_width cv = Some w -> agrees cv iv v) by (intros L; eapply leaf_agrees; eassumption).
  destruct cv as [| | | | | | | | | | | | |kc ka|]; try (apply Lf; exact W). clear Lf. unfold attr_width in W.
  destruct (built (VObj kc ka)) eqn:Bc; [|discriminate]. destruct (regular (VObj kc ka)) eqn:Rc; [|discriminate]. cbn [andb] in W.
  pose proof B as B0. apply good_built in B0. destruct (good_get c attrs name iv B0 G) as (Bi & _).
  inversion C as [| | | | | | | | | |c0 a0 iv0 bs0 Sc Pk| | |]; subst. destruct Sc as [Sc|Sc]; [|exfalso; eapply nested_oxm; eassumption].
  assert (Bo : built (or_default (VObj kc ka) iv) = true) by (destruct iv; assumption). assert (Ro : regular (or_default (VObj kc ka) iv) = true) by (destruct iv; assumption).
  destruct (nested_obj kc w _ W Ro Sc) as (at1 & E). rewrite E in *. clear Sc C.
  inversion Rd as [| | | | | | | |? ? l t ? at2 L Ll F]; subst. apply ag_struct with at1 l t; [exact E|exact L|]. intros nm at_ w0 Pl Nc.
  destruct (F nm at_ w0 Pl) as (d & y & Gd & Gy & Ry). destruct (layout kc l t at1 bs L Bo Ro Pk) as (_ & _ & La). destruct (La nm at_ w0 Pl) as (d' & Gd' & x & Gx & Px).
  rewrite Gd in Gd'. injection Gd' as <-. cbn [fst snd] in *. rewrite Nc in Px. destruct (widths_leaf _ nm d w (nested_widths _ _ W) (get_attr_In _ _ _ Gd)) as (z & Lz).
  destruct Px as [Px|(-> & _)]; [|exfalso; eapply leaf_not_header; [apply get_attr_In, Gd|exact Lz|reflexivity] ].
  destruct (regular_attr kc at1 nm x d Ro Gx Gd) as (Sx & _). exists d, x, y. repeat split; try assumption. eapply leaf_agrees; eassumption.
Qed.

(** ** Messages *)
Lemma nth_slice0 bs : (1 <= List.length bs)%nat -> slice 0 1 bs = [nth 0 bs 0].
Proof. destruct bs; [cbn; lia|]. reflexivity. Qed.
Lemma nth_slice1 bs : (2 <= List.length bs)%nat -> slice 1 2 bs = [nth 1 bs 0].
Proof. destruct bs as [|x [|y bs] ]; [cbn; lia|cbn; lia|]. reflexivity. Qed.
Lemma be_byte z b : big_endian 1 z [b] -> z = b.
Proof. intros (_ & _ & V). cbn in V. lia. Qed.

Lemma types_layout v t c : In (t, c) (openflow_types v) -> exists l k, openflow_layout c = Some (("header", 8%nat) :: l, k).
Proof.
  intros I. assert (T : forallb (fun p : Z * cid => match openflow_layout (snd p) with Some ((n, w) :: _, _) => String.eqb n "header" && Nat.eqb w 8 | _ => false end) (openflow_types v) = true)
    by (destruct v; vm_compute; reflexivity).
  rewrite forallb_forall in T. specialize (T _ I). cbn [snd] in T. destruct (openflow_layout c) as [[[|[n w] l] k]|]; try discriminate. apply andb_prop in T as [T1 T2].
  apply String.eqb_eq in T1. apply Nat.eqb_eq in T2. subst. eauto.
Qed.
Lemma types_fun v t c c' : In (t, c) (openflow_types v) -> In (t, c') (openflow_types v) -> c = c'.
Proof.
  intros I J. assert (T : forallb (fun p => forallb (fun q => implb (Z.eqb (fst p) (fst q)) (cid_eqb (snd p) (snd q))) (openflow_types v)) (openflow_types v) = true) by (destruct v; vm_compute; reflexivity).
  rewrite forallb_forall in T. specialize (T _ I). cbn beta in T. rewrite forallb_forall in T. specialize (T _ J). cbn [fst snd] in T. rewrite Z.eqb_refl in T. apply cid_eqb_eq, T.
Qed.
Lemma version_inj v v' : version_number v = version_number v' -> v = v'.
Proof. destruct v, v'; cbn; congruence. Qed.

Lemma header_carried hc h n w bs z : hc = Header01 \/ hc = Header04 -> In (n, w) [("version", 1%nat); ("message_type", 1%nat); ("xid", 4%nat)] ->
  (exists cv iv, get_attr n (class_attrs hc) = Some cv /\ get_attr n h = Some iv /\ carried cv iv bs) -> holds h n z -> big_endian w z bs.
Proof.
  intros Hc I (cv & iv & G1 & G2 & C) (iv' & G3 & V). rewrite G2 in G3. injection G3 as <-.
  assert (U : exists er d, cv = VUInt w er d).
  { destruct Hc as [-> | ->]; cbn in I; destruct I as [I|[I|[I|[] ] ] ]; injection I as <- <-; cbn in G1; injection G1 as <-; eauto. }
  destruct U as (er & d & ->). inversion C as [? ? ? ? z' ? St B| | | | | | | | | | | | |]; subst.
  assert (N : iv <> VNone) by (intros ->; inversion V). replace z with z'; [exact B|]. symmetry. eapply ConstructThm4.stands_int; [exact V|exact N|]. destruct iv; congruence.
Qed.
Lemma sent_header v t x c attrs l k bs : openflow_layout c = Some (("header", 8%nat) :: l, k) -> built (VObj c attrs) = true -> regular (VObj c attrs) = true -> headed attrs v t x ->
  pack (VObj c attrs) = Ok bs -> (8 <= List.length bs)%nat /\ big_endian 1 (version_number v) (slice 0 1 bs) /\ big_endian 1 t (slice 1 2 bs) /\ big_endian 4 x (slice 4 8 bs).
Proof.
  intros L B R (hc & h & G & V & T & X) P. pose proof B as B0. apply good_built in B0. destruct (good_get c attrs _ _ B0 G) as (_ & Hh).
  assert (Hc : hc = Header01 \/ hc = Header04) by (unfold header_ok in Hh; cbn in Hh; destruct hc; try discriminate; auto).
  destruct (layout c _ _ attrs bs L B R P) as (Lt & _). pose proof (layouts_ok c) as Tb. rewrite L in Tb. apply andb_prop in Tb as [Tb _]. apply andb_prop in Tb as [_ Tb].
  apply Nat.eqb_eq in Tb. subst k. cbn [map snd list_sum fold_right] in Lt. split; [lia|].
  assert (Q : forall name at_ w, placed 0 [("version", 1); ("message_type", 1); ("length", 2); ("xid", 4)]%nat name at_ w -> name <> "length" ->
     exists cv iv, get_attr name (class_attrs hc) = Some cv /\ get_attr name h = Some iv /\ carried cv iv (slice at_ (at_ + w) bs)) by (intros; eapply message_header; eassumption).
  split; [|split].
  - eapply (header_carried hc h "version"); [exact Hc|cbn; tauto| |exact V]. apply (Q "version" 0%nat 1%nat); [cbn; tauto|discriminate].
  - eapply (header_carried hc h "message_type"); [exact Hc|cbn; tauto| |exact T]. apply (Q "message_type" 1%nat 1%nat); [cbn; tauto|discriminate].
  - eapply (header_carried hc h "xid"); [exact Hc|cbn; tauto| |exact X]. apply (Q "xid" 4%nat 4%nat); [cbn; tauto|discriminate].
Qed.

Lemma framed p m : wf_bytes p -> unpack_packet p = Ok m -> well_framed p.
Proof.
  intros W H. unfold unpack_packet in H. apply bind_ok in H as (u & V & _). destruct u.
  destruct (validate_exact (VBytes p)) as [[F _] _]; [intros b0 E; injection E as <-; exact W|].
  destruct F as (b0 & E & F); [exact V|]. injection E as <-. exact F.
Qed.

Lemma same_message v t x c attrs bs m : In (t, c) (openflow_types v) -> built (VObj c attrs) = true -> regular (VObj c attrs) = true -> octets (VObj c attrs) = true ->
  headed attrs v t x -> pack (VObj c attrs) = Ok bs -> unpack_packet bs = Ok m ->
  exists attrs' h, m = VObj c attrs' /\ get_attr "header" attrs' = Some (VObj (SpecMsg.header_class v) h) /\ holds h "version" (version_number v) /\ holds h "xid" x /\
    holds h "length" (zlen bs) /\ (~ misfiled v t -> holds h "message_type" t).
Proof.
  intros I B R O H P U. destruct (types_layout _ _ _ I) as (l & k & L). pose proof (pack_bytes _ _ O P) as W.
  destruct (sent_header _ _ _ _ _ _ _ _ L B R H P) as (L8 & Bv & Bt & Bx). destruct (packet_class bs m W U) as (v' & c' & attrs' & h & Nv & It & -> & G & Hv & Hx & Hl & Ht).
  rewrite nth_slice0 in Bv by lia. rewrite nth_slice1 in Bt by lia. apply be_byte in Bv, Bt. rewrite <- Bv in Nv. apply version_inj in Nv. subst v'. rewrite <- Bt in *.
  rewrite (types_fun _ _ _ _ It I) in *. exists attrs', h. split; [reflexivity|]. split; [exact G|]. split; [exact Hv|]. destruct Bx as (_ & _ & <-). split; [exact Hx|].
  destruct (framed bs _ W U) as (_ & <- & _). split; [exact Hl|exact Ht].
Qed.

Lemma layout_positive c l k name at_ w off : openflow_layout c = Some (l, k) -> placed off l name at_ w -> (0 < w)%nat.
Proof.
  assert (T : match openflow_layout c with Some (l, _) => forallb (fun p : string * nat => Nat.ltb 0 (snd p)) l | None => true end = true) by (revert c; apply all_classes; vm_compute; reflexivity).
  intros E. rewrite E in T. clear E. revert off. induction l as [|[n j] l IH]; intros off Pl; [destruct Pl|]. cbn in T. apply andb_prop in T as [T1 T2]. cbn [placed] in Pl.
  destruct Pl as [(_ & _ & ->)|Pl]; [apply Nat.ltb_lt, T1|eapply IH; eassumption].
Qed.
Lemma placed_in off l name at_ w : placed off l name at_ w -> In (name, w) l /\ (off + w <= off + list_sum (map snd l))%nat.
Proof.
  revert off. induction l as [|[n j] l IH]; intros off Pl; [destruct Pl|]. cbn [placed] in Pl. cbn [map snd list_sum fold_right]. destruct Pl as [(<- & -> & ->)|Pl].
  - split; [left; reflexivity|lia].
  - destruct (IH _ Pl) as (J & K). unfold list_sum in *. split; [right; exact J|lia].
Qed.
Lemma layout_attr c l k name at_ w off : openflow_layout c = Some (l, k) -> placed off l name at_ w -> exists cv, In (name, cv) (class_attrs c) /\ attr_width cv = Some w.
Proof.
  intros L Pl. pose proof (layouts_ok c) as T. rewrite L in T. apply andb_prop in T as [T _]. apply andb_prop in T as [T _].
  assert (G : forall l A off, layout_ok l A = true -> placed off l name at_ w -> exists cv, In (name, cv) A /\ attr_width cv = Some w).
  { clear. induction l as [|[n j] l IH]; intros A off T Pl; [destruct Pl|]. destruct A as [|[m cv] A]; [discriminate|]. cbn [layout_ok] in T. apply andb_prop in T as [T T3]. apply andb_prop in T as [T1 T2].
    apply String.eqb_eq in T1. subst m. destruct (attr_width cv) as [x|] eqn:W; [|discriminate]. apply Nat.eqb_eq in T2. subst x. cbn [placed] in Pl. destruct Pl as [(<- & _ & ->)|Pl].
    - exists cv. split; [left; reflexivity|exact W].
    - destruct (IH A _ T3 Pl) as (cv' & J & W'). exists cv'. split; [right; exact J|exact W']. }
  exact (G _ _ _ T Pl).
Qed.

Lemma message_reads_agrees c attrs name cv iv bs v w : built (VObj c attrs) = true -> regular (VObj c attrs) = true -> In (name, cv) (class_attrs c) ->
  get_attr name attrs = Some iv -> attr_width cv = Some w -> carried cv iv bs -> message_reads name cv bs v -> agrees cv iv v.
Proof.
  intros B R I G W C [Rd|(_ & w0 & er & d & e & z & -> & Bz & -> & _)]; [eapply field_agrees; eassumption|].
  inversion C as [? ? ? ? z' ? St Bz'| | | | | | | | | | | | |]; subst. rewrite (big_endian_fun _ _ _ _ Bz Bz'). apply ag_number with z'; [destruct iv; exact St|]. left. constructor.
Qed.

Lemma same_fields v t x c attrs bs attrs' l k : In (t, c) (openflow_types v) -> built (VObj c attrs) = true -> regular (VObj c attrs) = true -> octets (VObj c attrs) = true ->
  headed attrs v t x -> pack (VObj c attrs) = Ok bs -> unpack_packet bs = Ok (VObj c attrs') -> openflow_layout c = Some (("header", 8%nat) :: l, k) ->
  forall name at_ w, placed 8 l name at_ w -> computed c name = false ->
    exists d sent got, get_attr name (class_attrs c) = Some d /\ get_attr name attrs = Some sent /\ get_attr name attrs' = Some got /\ agrees d sent got.
Proof.
  intros I B R O H P U L name at_ w Pl Nc. pose proof (pack_bytes _ _ O P) as W. destruct (layout c _ _ attrs bs L B R P) as (Lt & _ & La).
  assert (Pl0 : placed 0 (("header", 8%nat) :: l) name at_ w) by (right; exact Pl).
  pose proof (layout_positive _ _ _ _ _ _ _ L Pl0) as Wp. destruct (placed_in _ _ _ _ _ Pl) as (_ & Ws).
  assert (Len : (8 < List.length bs)%nat).
  { pose proof (layouts_ok c) as Tb. rewrite L in Tb. apply andb_prop in Tb as [Tb _]. apply andb_prop in Tb as [_ Tb]. apply Nat.eqb_eq in Tb. cbn [map snd list_sum fold_right] in Tb. unfold list_sum in *. lia. }
  destruct (message_decoded bs c attrs' l k W Len U L name at_ w Pl) as (d & got & Gd & Gg & Rd). destruct (La name at_ w Pl0) as (d' & Gd' & sent & Gs & Ps). rewrite Gd in Gd'. injection Gd' as <-.
  cbn [fst snd] in *. rewrite Nc in Ps. destruct (layout_attr _ _ _ _ _ _ _ L Pl0) as (cv & Ic & Wc). rewrite (class_get _ _ _ Ic) in Gd. injection Gd as <-.
  exists cv, sent, got. split; [apply class_get, Ic|]. split; [exact Gs|]. split; [exact Gg|].
  destruct Ps as [Ps|(-> & _)]; [eapply message_reads_agrees; eassumption|].
  (* the header is not among the other fields *)
  exfalso. assert (Hn : forall c, match openflow_layout c with Some ((n, _) :: l, _) => negb (String.eqb n "header") || negb (existsb (fun p => String.eqb (fst p) "header") l) | _ => true end = true)
    by (clear; apply all_classes; vm_compute; reflexivity).
  specialize (Hn c). rewrite L in Hn. cbn [String.eqb Ascii.eqb Bool.eqb negb orb] in Hn. destruct (placed_in _ _ _ _ _ Pl) as (Jn & _).
  assert (X : existsb (fun p : string * nat => String.eqb (fst p) "header") l = true) by (apply existsb_exists; exists ("header", w); split; [exact Jn|reflexivity]). rewrite X in Hn. discriminate.
Qed.
