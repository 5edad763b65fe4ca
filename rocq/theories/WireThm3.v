(** Equal encodings; from the arguments of a constructor to the received
    message. *)
From Coq Require Import ZArith List Bool String Lia.
From Verif Require Import Base PyText Ids PyVal Classes Interp Utils Spec SpecMsg SpecBasic SpecMutation SpecLayout SpecSize SpecDecode SpecWire
  ClassFacts BaseFacts IntFacts StructFacts DispatchFacts FuelFacts Totality MutationFacts MutationFacts2 MutationFacts3 LayoutFacts SizeFacts SizeFacts2 SizeThm
  DecodeFacts DecodeFacts2 DecodeFacts3 WireFacts WireThm WireThm2.
From Verif Require SpecInit Construct ConstructFacts ConstructThm ConstructThm2 ConstructThm3 ConstructThm4.
Import ListNotations.
Open Scope string_scope.
Open Scope list_scope.
Open Scope Z_scope.

(** ** Equal encodings *)
Lemma leaf_alike d x y bs w : leaf_width d = Some w -> same_char d x = true -> same_char d y = true -> carried d x bs -> carried d y bs -> alike d x y.
Proof.
  intros Lw Sx Sy C C'.
  inversion C as [w0 er d0 iv0 z bs0 St B|k iv0|len d0 iv0 bs0 P|d0 m iv0 bs0 P|d0 iv0 bs0 P|d0 iv0 bs0 P| | | | | | | |]; subst; try discriminate Lw.
  - inversion C' as [w1 er1 d1 iv1 z' bs1 St' B'| | | | | | | | | | | | |]; subst. rewrite (big_endian_fun _ _ _ _ B' B) in St'. apply al_number with z; [destruct x; exact St|destruct y; exact St'].
  - constructor.
  - inversion C' as [| |len1 d1 iv1 bs1 P'| | | | | | | | | | |]; subst. destruct (char_text _ _ _ _ Sx P) as (s & T & E). destruct (char_text _ _ _ _ Sy P') as (s' & T' & E').
    eapply al_text; [exact T|exact T'|]. rewrite E in E'. apply app_inj_tail in E' as [E' _]. exact E'.
  - inversion C' as [| | |d1 m1 iv1 bs1 P'| | | | | | | | | |]; subst. econstructor; eassumption.
  - inversion C' as [| | | |d1 iv1 bs1 P'| | | | | | | | |]; subst. econstructor; eassumption.
  - inversion C' as [| | | | |d1 iv1 bs1 P'| | | | | | | |]; subst. econstructor; eassumption.
Qed.
Lemma nested_layout c l t name kc ka w at_ off : openflow_layout c = Some (l, t) -> placed off l name at_ w -> get_attr name (class_attrs c) = Some (VObj kc ka) ->
  exists l' t', openflow_layout kc = Some (l', t').
Proof.
  intros L Pl G. assert (T : match openflow_layout c with Some (l, _) => forallb (fun p : string * nat => match get_attr (fst p) (class_attrs c) with
      Some (VObj kc ka) => match openflow_layout kc with Some _ => true | None => false end | _ => true end) l | None => true end = true) by (clear; revert c; apply all_classes; vm_compute; reflexivity).
  rewrite L in T. rewrite forallb_forall in T. destruct (placed_in _ _ _ _ _ Pl) as (J & _). specialize (T _ J). cbn [fst] in T. rewrite G in T. destruct (openflow_layout kc) as [[l' t']|]; [eauto|discriminate].
Qed.
Lemma obj_part c attrs name kc ka iv bs w : built (VObj c attrs) = true -> regular (VObj c attrs) = true -> get_attr name (class_attrs c) = Some (VObj kc ka) ->
  get_attr name attrs = Some iv -> attr_width (VObj kc ka) = Some w -> carried (VObj kc ka) iv bs ->
  nested_width kc = Some w /\ exists at1, or_default (VObj kc ka) iv = VObj kc at1 /\ built (VObj kc at1) = true /\ regular (VObj kc at1) = true /\ pack (VObj kc at1) = Ok bs.
Proof.
  intros B R I G W C. destruct (regular_attr c attrs name iv _ R G I) as (Sm & Ri). unfold attr_width in W.
  destruct (built (VObj kc ka)) eqn:Bc; [|discriminate]. destruct (regular (VObj kc ka)) eqn:Rc; [|discriminate]. cbn [andb] in W. split; [exact W|].
  pose proof B as B0. apply good_built in B0. destruct (good_get c attrs name iv B0 G) as (Bi & _).
  inversion C as [| | | | | | | | | |c0 a0 iv0 bs0 Sc Pk| | |]; subst. destruct Sc as [Sc|Sc]; [|exfalso; eapply nested_oxm; eassumption].
  assert (Bo : built (or_default (VObj kc ka) iv) = true) by (destruct iv; assumption). assert (Ro : regular (or_default (VObj kc ka) iv) = true) by (destruct iv; assumption).
  destruct (nested_obj kc w _ W Ro Sc) as (at1 & E). rewrite E in *. exists at1. auto.
Qed.
Lemma field_alike c attrs attrs' l t name at_ w off cv x y bs : built (VObj c attrs) = true -> regular (VObj c attrs) = true -> built (VObj c attrs') = true -> regular (VObj c attrs') = true ->
  openflow_layout c = Some (l, t) -> placed off l name at_ w -> In (name, cv) (class_attrs c) -> attr_width cv = Some w ->
  get_attr name attrs = Some x -> get_attr name attrs' = Some y -> carried cv x bs -> carried cv y bs -> alike cv x y.
Proof.
  intros B R B' R' L Pl I W G G' C C'. pose proof (class_get _ _ _ I) as Gc. destruct (regular_attr c attrs name x cv R G Gc) as (Sm & _). destruct (regular_attr c attrs' name y cv R' G' Gc) as (Sm' & _).
  assert (Lf : leaf_width cv = Some w -> alike cv x y) by (intros Lw; eapply leaf_alike; eassumption).
  destruct cv as [| | | | | | | | | | | | |kc ka|]; try (apply Lf; exact W). clear Lf.
  destruct (obj_part _ _ _ _ _ _ _ _ B R Gc G W C) as (Nw & at1 & E1 & B1 & R1 & P1). destruct (obj_part _ _ _ _ _ _ _ _ B' R' Gc G' W C') as (_ & at2 & E2 & B2 & R2 & P2).
  destruct (nested_layout _ _ _ _ _ _ _ _ _ L Pl Gc) as (l' & t' & L'). apply al_struct with at1 at2 l' t'; [exact E1|exact E2|exact L'|]. intros nm a0 w0 Pl' Nc.
  destruct (layout kc l' t' at1 bs L' B1 R1 P1) as (_ & _ & La). destruct (La nm a0 w0 Pl') as (d & Gd & u & Gu & Pu).
  destruct (layout kc l' t' at2 bs L' B2 R2 P2) as (_ & _ & La'). destruct (La' nm a0 w0 Pl') as (d' & Gd' & v & Gv & Pv). rewrite Gd in Gd'. injection Gd' as <-.
  cbn [fst snd] in *. rewrite Nc in Pu, Pv. destruct (widths_leaf _ nm d w (nested_widths _ _ Nw) (get_attr_In _ _ _ Gd)) as (z & Lz).
  destruct Pu as [Pu|(-> & _)]; [|exfalso; eapply leaf_not_header; [apply get_attr_In, Gd|exact Lz|reflexivity] ].
  destruct Pv as [Pv|(-> & _)]; [|exfalso; eapply leaf_not_header; [apply get_attr_In, Gd|exact Lz|reflexivity] ].
  destruct (regular_attr kc at1 nm u d R1 Gu Gd) as (Su & _). destruct (regular_attr kc at2 nm v d R2 Gv Gd) as (Sv & _). exists d, u, v. repeat split; try assumption. eapply leaf_alike; eassumption.
Qed.
Lemma equal_fields c attrs attrs' bs l t : openflow_layout c = Some (l, t) -> built (VObj c attrs) = true -> regular (VObj c attrs) = true -> built (VObj c attrs') = true -> regular (VObj c attrs') = true ->
  pack (VObj c attrs) = Ok bs -> pack (VObj c attrs') = Ok bs ->
  forall name at_ w, placed 0 l name at_ w -> name <> "header" -> computed c name = false ->
    exists d x y, get_attr name (class_attrs c) = Some d /\ get_attr name attrs = Some x /\ get_attr name attrs' = Some y /\ alike d x y.
Proof.
  intros L B R B' R' P P' name at_ w Pl Nh Nc. destruct (layout_attr _ _ _ _ _ _ _ L Pl) as (cv & Ic & Wc).
  destruct (layout c l t attrs bs L B R P) as (_ & _ & La). destruct (La name at_ w Pl) as (d & Gd & x & Gx & Px).
  destruct (layout c l t attrs' bs L B' R' P') as (_ & _ & La'). destruct (La' name at_ w Pl) as (d' & Gd' & y & Gy & Py). cbn [fst snd] in *.
  rewrite (class_get _ _ _ Ic) in Gd, Gd'. injection Gd as <-. injection Gd' as <-. rewrite Nc in Px, Py. exists cv, x, y. split; [apply class_get, Ic|]. split; [exact Gx|]. split; [exact Gy|].
  destruct Px as [Px|(Eh & _)]; [|contradiction]. destruct Py as [Py|(Eh & _)]; [|contradiction]. eapply (field_alike c attrs attrs' l t); eassumption.
Qed.
(** Messages with equal encodings are of one version, class and transaction. *)
Lemma equal_messages v t x c attrs v' t' x' c' attrs' bs : In (t, c) (openflow_types v) -> In (t', c') (openflow_types v') ->
  built (VObj c attrs) = true -> regular (VObj c attrs) = true -> built (VObj c' attrs') = true -> regular (VObj c' attrs') = true -> headed attrs v t x -> headed attrs' v' t' x' ->
  pack (VObj c attrs) = Ok bs -> pack (VObj c' attrs') = Ok bs -> v = v' /\ t = t' /\ x = x' /\ c = c'.
Proof.
  intros I I' B R B' R' H H' P P'. destruct (types_layout _ _ _ I) as (l & k & L). destruct (types_layout _ _ _ I') as (l' & k' & L').
  destruct (sent_header _ _ _ _ _ _ _ _ L B R H P) as (_ & V1 & T1 & X1). destruct (sent_header _ _ _ _ _ _ _ _ L' B' R' H' P') as (_ & V2 & T2 & X2).
  pose proof (version_inj _ _ (big_endian_fun _ _ _ _ V1 V2)) as <-. pose proof (big_endian_fun _ _ _ _ T1 T2) as <-. pose proof (big_endian_fun _ _ _ _ X1 X2) as <-.
  repeat split; try reflexivity. eapply types_fun; eassumption.
Qed.

(** ** From the arguments of a constructor to the received message *)
Lemma constructed_octets rnd c pos kw o : c <> Match01 -> c <> CGenericStruct -> Construct.construct rnd c pos kw = Ok o ->
  (forall p v, SpecInit.given c pos kw p v -> octets v = true) -> octets o = true.
Proof.
  intros N NS H HG. destruct (ConstructThm2.core _ _ _ _ _ N H) as (ps & env & st & b & d & P & B & PL & -> & F). pose proof (ConstructThm3.check _ _ _ _ N P PL) as CK. clear P PL H.
  pose proof (ConstructThm3.forall2_names _ _ _ F) as EN. assert (ND : NoDup (map fst d)) by (rewrite <- EN; apply (ConstructThm3.ck_stnodup _ _ _ CK)).
  assert (DO : forall p v, get_attr p (ConstructThm2.default_attrs c) = Some v -> octets v = true).
  { intros p v G. unfold ConstructThm2.default_attrs in G. destruct (new_instance c) as [nv|] eqn:NI; [|discriminate]. pose proof (new_octets c nv NI) as O.
    destruct nv; try discriminate. cbn [octets] in O. rewrite forallb_forall in O. exact (O _ (get_attr_In _ _ _ G)). }
  assert (FT : forall n x, In (n, x) d -> n <> "header" -> octets x = true).
  { apply (ConstructThm3.entries (fun _ x => octets x = true) rnd c ps st env d pos kw CK B F HG DO); reflexivity. }
  cbn [octets]. apply forallb_forall. intros [n x] I. cbn [snd]. destruct (string_dec n "header") as [->|Nn]; [|eapply FT; eassumption].
  destruct (SpecInit.is_message c) eqn:M.
  2:{ exfalso. apply (ConstructThm3.ck_plain _ _ _ CK M). rewrite EN. change "header" with (fst ("header", x)). apply in_map, I. }
  destruct (ConstructThm3.bound_xid _ _ _ _ _ (ConstructThm3.ck_names _ _ _ CK) B M) as [a KA]. destruct (ConstructThm3.header_xid _ _ _ _ _ _ _ CK F M KA) as (hc & h0 & D & HC & IX & G).
  rewrite ConstructFacts.get_attr_key, (ConstructThm.in_key _ _ _ ND I) in G. injection G as ->.
  assert (OA : octets (ConstructFacts.none_default (VInt rnd) a) = true).
  { assert (E : octets a = true -> octets (ConstructFacts.none_default (VInt rnd) a) = true) by (destruct a; auto). apply E. clear E.
    destruct (ConstructThm3.bind_origin _ _ _ _ _ _ B (ConstructThm.key_in _ _ _ KA)) as [(i & C1 & C2)|[C|C]].
    - apply (HG "xid"). left. exists i. rewrite (ConstructThm3.ck_names _ _ _ CK) in C1. auto.
    - apply (HG "xid"). right. exact C.
    - pose proof (ConstructThm3.ck_default _ _ _ CK _ C) as Q. cbn [ConstructThm3.good_default] in Q. apply andb_prop in Q as [_ Q]. rewrite M in Q. cbn [andb String.eqb Ascii.eqb Bool.eqb] in Q. apply ConstructFacts.veqb_eq in Q. subst a. reflexivity. }
  pose proof (DO _ _ D) as OH. cbn [octets] in OH |- *. rewrite forallb_forall in OH |- *. intros q J. rewrite ConstructFacts.set_attr_put in J.
  assert (X : forall (l : list (string * pyval)), In q (ConstructFacts.put "xid" (ConstructFacts.none_default (VInt rnd) a) l) -> In q l \/ snd q = ConstructFacts.none_default (VInt rnd) a).
  { clear. induction l as [|[k v] l IH]; cbn; [intros [<-|[] ]; right; reflexivity|]. destruct (String.eqb k "xid"); cbn; [intros [<-|I]; auto|intros [I|I]; [auto|]; destruct (IH I); auto]. }
  destruct (X _ J) as [J'|E]; [apply OH, J'|rewrite E; exact OA].
Qed.
Lemma constructed_headed rnd v t c pos kw o x : In (t, c) (openflow_types v) -> ~ misfiled v t -> Construct.construct rnd c pos kw = Ok o ->
  SpecInit.given c pos kw "xid" (VInt x) \/ SpecInit.omitted c pos kw "xid" /\ x = rnd -> exists attrs, o = VObj c attrs /\ headed attrs v t x.
Proof.
  intros I NM H HX. destruct (ConstructThm4.message_facts _ _ _ I) as (M & N & S0 & l & k & L).
  destruct (ConstructThm2.core _ _ _ _ _ N H) as (ps & env & st & b & d & P & Bd & PLn & -> & F). pose proof (ConstructThm3.check _ _ _ _ N P PLn) as CK.
  destruct (ConstructThm3.bound_xid _ _ _ _ _ (ConstructThm3.ck_names _ _ _ CK) Bd M) as [a KA]. destruct (ConstructThm3.header_xid _ _ _ _ _ _ _ CK F M KA) as (hc & h0 & D & HC & IX & G).
  destruct (new_message_shape _ _ _ I) as (a0 & h & NI & HN & HV & HT). specialize (HT NM).
  pose proof (ConstructThm4.new_default c S0 N) as ND. rewrite NI in ND. injection ND as ND. rewrite <- ND in D. cbn [get_attr String.eqb Ascii.eqb Bool.eqb] in D. injection D as <- <-.
  exists d. split; [reflexivity|]. eexists _, _. split; [exact G|].
  assert (FR : forall n, n <> "xid" -> get_attr n (set_attr "xid" (ConstructFacts.none_default (VInt rnd) a) h) = get_attr n h) by (intros n Nx; apply StructFacts.get_set_other, Nx).
  split; [|split].
  - eexists. split; [rewrite FR by discriminate; exact HV|constructor].
  - eexists. split; [rewrite FR by discriminate; exact HT|constructor].
  - assert (E : ConstructFacts.none_default (VInt rnd) a = VInt x).
    { destruct HX as [Gz|[OM ->]].
      - rewrite (ConstructThm2.given_bound _ _ _ _ _ _ _ (ConstructThm3.ck_names _ _ _ CK) (ConstructThm3.ck_nodup _ _ _ CK) Bd Gz) in KA. injection KA as <-. reflexivity.
      - destruct (ConstructThm2.omitted_bound _ _ _ _ _ _ (ConstructThm3.ck_names _ _ _ CK) (ConstructThm3.ck_nodup _ _ _ CK) Bd OM) as (dv & Id & Kd). rewrite KA in Kd. injection Kd as <-.
        pose proof (ConstructThm3.ck_default _ _ _ CK _ Id) as GD. cbn [ConstructThm3.good_default] in GD. apply andb_prop in GD as [_ GD]. rewrite M in GD. cbn [andb String.eqb Ascii.eqb Bool.eqb] in GD. apply ConstructFacts.veqb_eq in GD. subst a. reflexivity. }
    exists (VInt x). split; [|constructor]. rewrite E, ConstructFacts.get_attr_key, ConstructFacts.set_attr_put, ConstructThm3.put_key. reflexivity.
Qed.
Lemma call_received rnd v t c pos kw o bs m x : In (t, c) (openflow_types v) -> ~ misfiled v t -> Construct.construct rnd c pos kw = Ok o ->
  (forall p a, SpecInit.given c pos kw p a -> SpecInit.suits c p a = true /\ octets a = true) ->
  SpecInit.given c pos kw "xid" (VInt x) \/ SpecInit.omitted c pos kw "xid" /\ x = rnd ->
  pack o = Ok bs -> unpack_packet bs = Ok m ->
  exists attrs h, m = VObj c attrs /\ get_attr "header" attrs = Some (VObj (SpecMsg.header_class v) h) /\
    holds h "version" (version_number v) /\ holds h "message_type" t /\ holds h "xid" x /\
    forall l k p a at_ w, openflow_layout c = Some (("header", 8%nat) :: l, k) -> placed 8 l p at_ w -> computed c p = false ->
      SpecInit.given c pos kw p a -> SpecInit.kept_argument c p a = true ->
      exists d got, get_attr p (class_attrs c) = Some d /\ get_attr p attrs = Some got /\ agrees d a got.
Proof.
  intros I NM H HG HX P U. destruct (ConstructThm4.message_facts _ _ _ I) as (M & N & S0 & l0 & k0 & L0).
  destruct (ConstructThm4.complete_structure _ _ _ _ _ S0 N H (fun p a G => proj1 (HG p a G))) as (B & R & _).
  pose proof (constructed_octets _ _ _ _ _ N (proj2 (proj2 S0)) H (fun p a G => proj2 (HG p a G))) as O.
  destruct (constructed_headed _ _ _ _ _ _ _ _ I NM H HX) as (attrs & -> & Hd). destruct (same_message _ _ _ _ _ _ _ I B R O Hd P U) as (attrs' & h & -> & G & H1 & H2 & H3 & H4).
  exists attrs', h. split; [reflexivity|]. split; [exact G|]. split; [exact H1|]. split; [exact (H4 NM)|]. split; [exact H2|].
  intros l k p a at_ w L Pl Nc Gv KA. destruct (same_fields _ _ _ _ _ _ _ _ _ I B R O Hd P U L p at_ w Pl Nc) as (d & sent & got & G1 & G2 & G3 & A).
  exists d, got. split; [exact G1|]. split; [exact G3|]. destruct (ConstructThm4.keeps _ _ _ _ _ _ _ N H Gv KA) as (c' & d' & E & RD). injection E as <- <-.
  destruct (SpecInit.is_message c && String.eqb p "xid") eqn:X.
  - exfalso. apply andb_prop in X as [_ X]. apply String.eqb_eq in X. subst p.
    assert (T : match openflow_layout c with Some ((n, _) :: l, _) => negb (String.eqb n "header") || negb (existsb (fun p => String.eqb (fst p) "xid") l) | _ => true end = true)
      by (clear; revert c; apply all_classes; vm_compute; reflexivity).
    rewrite L in T. cbn [String.eqb Ascii.eqb Bool.eqb negb orb] in T. destruct (placed_in _ _ _ _ _ Pl) as (J & _).
    assert (Y : existsb (fun p : string * nat => String.eqb (fst p) "xid") l = true) by (apply existsb_exists; exists ("xid", w); split; [exact J|reflexivity]). rewrite Y in T. discriminate.
  - rewrite RD in G2. injection G2 as <-. exact A.
Qed.

(** ** What agreement means for the usual values *)
Lemma agree_number w er d z got : agrees (VUInt w er d) (VInt z) got -> stands_for got z.
Proof. intros A. inversion A as [? ? ? ? ? z' St Sg| | | | | |]; subst. cbn [or_default] in St. rewrite (ConstructThm4.stands_fun (VInt z) z z' (pi_int z) St). exact Sg. Qed.
Lemma agree_ip d m b got : wf_bytes b -> List.length b = 4%nat -> agrees (VIP d m) (VStr (dotted_dec b)) got -> got = VIP (VStr (dotted_dec b)) m.
Proof.
  intros W L A. inversion A as [| | |? ? ? bs P| | |]; subst. cbn [or_default] in P.
  destruct (AddrFacts.ip_roundtrip VNone m [] b [] W L) as (_ & Q & _). rewrite Q in P. injection P as <-. reflexivity.
Qed.
Lemma agree_hw d b got : wf_bytes b -> List.length b = 6%nat -> agrees (VHW d) (VStr (colon_hex b)) got -> got = VHW (VStr (colon_hex b)).
Proof.
  intros W L A. inversion A as [| | | |? ? bs P| |]; subst. cbn [or_default] in P.
  destruct (AddrFacts.hw_roundtrip VNone [] b [] W L) as (_ & Q & _). rewrite Q in P. injection P as <-. reflexivity.
Qed.
Lemma agree_dpid d b got : wf_bytes b -> List.length b = 8%nat -> agrees (VDPID d) (VStr (colon_hex b)) got -> got = VDPID (VStr (colon_hex b)).
Proof.
  intros W L A. inversion A as [| | | | |? ? bs P|]; subst. cbn [or_default] in P.
  destruct (AddrFacts.dpid_roundtrip VNone [] b [] W L) as (_ & Q & _). rewrite Q in P. injection P as <-. reflexivity.
Qed.
Lemma no_trailing (s s' : text) j k : s ++ repeat 0 j = s' ++ repeat 0 k -> (forall x, s <> x ++ [0]) -> (forall x, s' <> x ++ [0]) -> s = s'.
Proof.
  revert k s'. induction j as [|j IH]; intros k s' E N N'.
  - cbn [repeat] in E. rewrite app_nil_r in E. destruct k as [|k]; [cbn in E; rewrite app_nil_r in E; exact E|].
    exfalso. replace (S k) with (k + 1)%nat in E by lia. rewrite repeat_app in E. cbn [repeat] in E. rewrite app_assoc in E. exact (N _ E).
  - replace (S j) with (j + 1)%nat in E by lia. rewrite repeat_app in E. cbn [repeat] in E. rewrite app_assoc in E. destruct k as [|k].
    + cbn [repeat] in E. rewrite app_nil_r in E. exfalso. exact (N' _ (eq_sym E)).
    + replace (S k) with (k + 1)%nat in E by lia. rewrite repeat_app in E. cbn [repeat] in E. rewrite app_assoc in E. apply app_inj_tail in E as [E _]. exact (IH k s' E N N').
Qed.
Lemma agree_text n d s got : agrees (VChar n d) (VStr s) got -> (List.length s < n)%nat -> (forall x, s <> x ++ [0]) -> got = VChar n (VStr s).
Proof.
  intros A L N. inversion A as [| |? ? ? s1 s' T (Ex & N')| | | |]; subst. cbn [or_default] in T. inversion T; subst. destruct Ex as (k & E). f_equal. f_equal. symmetry.
  apply (no_trailing s1 s' (n - List.length s1) k); [|exact N|exact N']. rewrite <- E. rewrite firstn_app, firstn_all2 by lia. rewrite <- app_assoc. f_equal.
  replace (pred n - List.length s1)%nat with (n - 1 - List.length s1)%nat by lia.
  assert (F : forall a b, (a <= b)%nat -> firstn a (repeat 0 b) = repeat 0 a) by (clear; induction a; intros [|b] H; cbn; try lia; try reflexivity; f_equal; apply IHa; lia).
  rewrite F by lia. replace (n - List.length s1)%nat with (n - 1 - List.length s1 + 1)%nat by lia. rewrite repeat_app. reflexivity.
Qed.
