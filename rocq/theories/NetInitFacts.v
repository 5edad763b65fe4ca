(** Lemmas for C66. *)
From Coq Require Import ZArith List Bool String Lia.
From Verif Require Import Base PyText Ids PyVal Classes Interp Addr Spec SpecBasic NetTypes SpecNet
  UnpackTotal TextFacts LeafFacts AddrFacts NetFacts NetFacts2 NetInit SpecNetInit.
Import ListNotations.
Open Scope string_scope.
Open Scope list_scope.
Open Scope Z_scope.

Lemma given_int w o z d : fits w d -> or_else (int_of w) o z d -> int_of w (given o (VInt d)) z.
Proof. intros F. destruct o as [v|]; cbn; [auto|]. intros ->. apply int_of_int, F. Qed.
Lemma given_exact o z d : or_else int_exact o z d -> int_exact (given o (VInt d)) z.
Proof. destruct o as [v|]; cbn; [auto|]. intros ->. constructor. Qed.

Lemma zeros_mac : mac_of (VStr (txt "00:00:00:00:00:00")) [0; 0; 0; 0; 0; 0].
Proof.
  split; [reflexivity|]. exists (txt "00:00:00:00:00:00"). split; [|left; reflexivity].
  change (hex_text (hex_canonical [0; 0; 0; 0; 0; 0]) [0; 0; 0; 0; 0; 0]). apply hex_canonical_text.
  apply wf_bytesb_ok. reflexivity.
Qed.
Lemma given_mac o bs : or_else mac_of o bs [0; 0; 0; 0; 0; 0] ->
  mac_of (given o (VStr (txt "00:00:00:00:00:00"))) bs.
Proof. destruct o as [v|]; cbn [or_else given]; [auto|]. intros ->. exact zeros_mac. Qed.
Lemma zeros_ip : ip_text (VStr (txt "0.0.0.0")) [0; 0; 0; 0].
Proof. split; [reflexivity|]. split; [apply wf_bytesb_ok; reflexivity|reflexivity]. Qed.
Lemma text_ip v bs : ip_text v bs -> ip_of v bs.
Proof. intros (L & W & V). split; [exact L|]. split; [exact W|left; exact V]. Qed.
Lemma given_ip o bs : or_else ip_of o bs [0; 0; 0; 0] -> ip_of (given o (VStr (txt "0.0.0.0"))) bs.
Proof. destruct o as [v|]; cbn [or_else given]; [auto|]. intros ->. apply text_ip, zeros_ip. Qed.
Lemma given_ip_text o bs : or_else ip_text o bs [0; 0; 0; 0] -> ip_text (given o (VStr (txt "0.0.0.0"))) bs.
Proof. destruct o as [v|]; cbn [or_else given]; [auto|]. intros ->. exact zeros_ip. Qed.

Lemma arp_built h p hl pl o sha spa tha tpa zhl zpl zo bsha bspa btha btpa :
  or_else int_exact h 1 1 -> or_else int_exact p 0x0800 0x0800 ->
  or_else (int_of 1) hl zhl 6 -> or_else (int_of 1) pl zpl 4 -> or_else (int_of 2) o zo 1 ->
  or_else mac_of sha bsha [0; 0; 0; 0; 0; 0] -> or_else ip_of spa bspa [0; 0; 0; 0] ->
  or_else mac_of tha btha [0; 0; 0; 0; 0; 0] -> or_else ip_of tpa btpa [0; 0; 0; 0] ->
  arp_pack (arp_new h p hl pl o sha spa tha tpa) = Ok (arp_wire zhl zpl zo bsha bspa btha btpa).
Proof.
  intros H P HL PL O SH SP TH TP. unfold arp_new.
  apply given_exact in H. apply given_exact in P. apply given_int in HL; [|split; [discriminate|reflexivity] ].
  apply given_int in PL; [|split; [discriminate|reflexivity] ]. apply given_int in O; [|split; [discriminate|reflexivity] ].
  apply given_mac in SH. apply given_mac in TH. apply given_ip in SP. apply given_ip in TP.
  destruct (arp_roundtrip _ _ _ _ _ _ _ _ _ _ _ _ _ _ _ _ H P HL PL O SH SP TH TP) as (_ & E & _). exact E.
Qed.

Lemma mac_none_packs v bs : mac_or_none v bs -> exists v', mac_of v' bs /\ pack1 pack hw_attr v = pack1 pack hw_attr v'.
Proof.
  intros [[-> ->]|M]; [|exists v; auto]. exists (VStr (txt "00:00:00:00:00:00")). split; [exact zeros_mac|].
  vm_compute. reflexivity.
Qed.
Lemma given_none o bs : or_else mac_or_none o bs [0; 0; 0; 0; 0; 0] -> mac_or_none (given o VNone) bs.
Proof. destruct o as [v|]; cbn [or_else given]; [auto|]. intros ->. left. auto. Qed.

Lemma eth_built d s vs ls t x dst src ty data :
  or_else mac_or_none d dst [0; 0; 0; 0; 0; 0] -> or_else mac_or_none s src [0; 0; 0; 0; 0; 0] ->
  or_else (Forall2 tags_of) vs ls [] -> int_of 2 t ty -> or_else data_of x data [] ->
  snd (eth_pack (eth_new d s vs (Some t) x)) = Ok (frame dst src (List.concat ls) ty data).
Proof.
  intros D So V T X. unfold eth_new. apply given_none in D. apply given_none in So.
  destruct (mac_none_packs _ _ D) as (d' & D' & ED). destruct (mac_none_packs _ _ So) as (s' & S' & ES).
  assert (V' : Forall2 tags_of (given vs []) ls).
  { destruct vs; cbn [or_else given] in *; [exact V|]. subst. constructor. }
  assert (X' : data_of (given x (VBytes [])) data).
  { destruct x; cbn [or_else given] in *; [exact X|]. subst. left. reflexivity. }
  pose proof (eth_packs d' s' _ _ t _ _ _ _ _ D' S' V' T X') as E. rewrite <- E.
  unfold eth_pack. cbn [e_destination e_source e_vlans e_ether_type e_data given]. rewrite ED, ES.
  destruct (do d <- pack1 pack hw_attr d'; do s <- pack1 pack hw_attr s'; Ok (d ++ s)); reflexivity.
Qed.

Lemma arg_value v bs : tlv_arg v bs -> value_of (or_empty v) bs.
Proof.
  intros [[-> ->]|V]; [right; left; auto|].
  destruct v; try exact V. destruct V as [V|[[V _]|(w & z & V & _)] ]; discriminate V.
Qed.
Lemma given_arg o bs : or_else tlv_arg o bs [] ->
  value_of (or_empty (given o VNone)) bs.
Proof.
  destruct o as [v|]; cbn [or_else given]; [apply arg_value|]. intros ->. right. left. auto.
Qed.
Lemma given_z o z d : or_else (@eq Z) o z d -> given o d = z.
Proof. destruct o; cbn; auto. Qed.

Lemma tlv_built ty v t value :
  or_else (@eq Z) ty t 127 -> or_else tlv_arg v value [] -> 0 <= t <= 127 -> zlen value <= 511 ->
  carries (tlv_new ty v) t value.
Proof.
  intros T V R L. split; [exact R|]. split; [exact L|]. cbn [tlv_new]. split; [apply given_z, T|apply given_arg, V].
Qed.
Lemma sub_tlv_built ty st v t s rest :
  or_else (@eq Z) ty t 1 -> or_else (@eq Z) st s 7 -> or_else tlv_arg v rest [] ->
  0 <= t <= 127 -> is_byte s -> zlen rest <= 510 ->
  carries (sub_tlv_new ty st v) t (s :: rest).
Proof.
  intros T St V R B L. split; [exact R|]. split; [unfold zlen in *; cbn [List.length]; lia|]. cbn [sub_tlv_new].
  split; [apply given_z, T|]. exists rest. rewrite (given_z _ _ _ St). split; [reflexivity|]. split; [exact B|apply given_arg, V].
Qed.

Lemma lldp_built c p t vc vp vt :
  or_else value_of c vc [] -> or_else value_of p vp [] -> or_else tlv_arg t vt [0; 120] ->
  zlen vc <= 510 -> zlen vp <= 510 -> zlen vt <= 511 ->
  lldp_pack (lldp_new c p t) = Ok (tlv_wire 1 (7 :: vc) ++ tlv_wire 2 (7 :: vp) ++ tlv_wire 3 vt ++ [0; 0]).
Proof.
  intros C P T LC LP LT.
  assert (B7 : is_byte 7) by (split; [discriminate|reflexivity]).
  assert (S0 : forall n o v, 0 <= n <= 127 -> or_else value_of o v [] -> zlen v <= 510 ->
    carries (match o with Some x => set_sub_value x (SubTlv n 7 (VBin VNone)) | None => SubTlv n 7 (VBin VNone) end) n (7 :: v)).
  { intros n o v N O L. split; [exact N|]. split; [unfold zlen in *; cbn [List.length]; lia|].
    destruct o as [x|]; cbn [or_else set_sub_value] in *; (split; [reflexivity|]); exists v;
      (split; [reflexivity|]); (split; [exact B7|]); [exact O|]. subst. right. left. auto. }
  unfold lldp_new. cbn [lldp_default l_chassis l_port l_ttl l_end].
  pose proof (S0 1 c vc ltac:(lia) C LC) as K1. pose proof (S0 2 p vp ltac:(lia) P LP) as K2.
  assert (K3 : carries (match t with Some v => tlv_new (Some 3) (Some v) | None => Tlv 3 (VUInt 2 None (VInt 120)) end) 3 vt).
  { destruct t as [v|]; cbn [or_else] in T.
    - apply tlv_built; [reflexivity|exact T|lia|exact LT].
    - subst vt. split; [lia|]. split; [exact LT|]. split; [reflexivity|]. right. right. exists 2%nat, 120.
      split; [reflexivity|]. split; [lia|]. split; [reflexivity|]. split; [apply wf_bytesb_ok; reflexivity|reflexivity]. }
  assert (K4 : carries (Tlv 0 (VBin VNone)) 0 []).
  { split; [lia|]. split; [discriminate|]. split; [reflexivity|]. right. left. auto. }
  assert (IS : forall o n, is_sub (match o with Some x => set_sub_value x (SubTlv n 7 (VBin VNone)) | None => SubTlv n 7 (VBin VNone) end) = true)
    by (intros [x|] n; reflexivity).
  assert (IT : is_sub (match t with Some v => tlv_new (Some 3) (Some v) | None => Tlv 3 (VUInt 2 None (VInt 120)) end) = false)
    by (destruct t; reflexivity).
  destruct (lldp_roundtrip _ _ _ _ _ _ _ _ _ _ _ _ [] [] K1 K2 K3 K4 (IS _ _) (IS _ _) IT eq_refl) as [E _].
  exact E.
Qed.

Lemma ipv4_built version dscp ecn length ident flags offset ttl proto sum0 s d options data
    zv zd ze zi zf zo zt zp src dst k opts payload :
  or_else (@eq Z) version zv 4 -> or_else (@eq Z) dscp zd 0 -> or_else (@eq Z) ecn ze 0 ->
  or_else (@eq Z) ident zi 0 -> or_else (@eq Z) flags zf 0 -> or_else (@eq Z) offset zo 0 ->
  or_else (@eq Z) ttl zt 255 -> or_else (@eq Z) proto zp 0 ->
  0 <= zv <= 15 -> 0 <= zd <= 63 -> 0 <= ze <= 3 -> 0 <= zi <= 65535 -> 0 <= zf <= 7 -> 0 <= zo <= 8191 ->
  0 <= zt <= 255 -> 0 <= zp <= 255 ->
  or_else ip_text s src [0; 0; 0; 0] -> or_else ip_text d dst [0; 0; 0; 0] ->
  or_else (@eq bytes) options opts [] -> or_else (@eq bytes) data payload [] ->
  wf_bytes opts -> wf_bytes payload -> zlen opts = 4 * k -> 0 <= k <= 10 -> 20 + 4 * k + zlen payload <= 65535 ->
  exists sum, 0 <= sum < 65535 /\
    let bs := [zv * 16 + (5 + k); zd * 4 + ze] ++ two (20 + 4 * k + zlen payload) ++ two zi ++ two (zf * 8192 + zo)
              ++ [zt; zp] ++ two sum ++ src ++ dst ++ opts ++ payload in
    snd (ipv4_pack (ipv4_new version None dscp ecn length ident flags offset ttl proto sum0 s d options data)) = Ok bs /\
    oc_sum (words_of (firstn 20 bs)) = 65535.
Proof.
  intros V D E I F O T P RV RD RE RI RF RO RT RP HS HD HO HX W1 W2 L K LT.
  apply given_z in V, D, E, I, F, O, T, P. apply given_ip_text in HS. apply given_ip_text in HD.
  assert (EO : given options [] = opts) by (destruct options; cbn in *; auto).
  assert (EX : given data [] = payload) by (destruct data; cbn in *; auto).
  set (p := ipv4_new version None dscp ecn length ident flags offset ttl proto sum0 s d options data).
  assert (OK : ipv4_ok p src dst).
  { unfold ipv4_ok, p, ipv4_new. cbn [i_version i_dscp i_ecn i_identification i_flags i_offset i_ttl i_protocol i_source i_destination i_options i_data].
    rewrite V, D, E, I, F, O, T, P, EO, EX.
    repeat (split; [assumption|]). split; [apply text_ip, HS|]. split; [apply text_ip, HD|].
    split; [eexists; apply HS|]. split; [eexists; apply HD|]. split; assumption. }
  destruct (ipv4_roundtrip p src dst k OK) as (sum & R & Q & _ & C & _).
  - reflexivity.
  - unfold p, ipv4_new. cbn [i_options]. rewrite EO. exact L.
  - exact K.
  - unfold p, ipv4_new. cbn [i_data]. rewrite EX. exact LT.
  - exists sum. split; [exact R|]. rewrite Q. cbn [snd].
    assert (B : ipv4_wire p (5 + k) (20 + 4 * k + zlen (i_data p)) sum src dst
      = [zv * 16 + (5 + k); zd * 4 + ze] ++ two (20 + 4 * k + zlen payload) ++ two zi ++ two (zf * 8192 + zo)
              ++ [zt; zp] ++ two sum ++ src ++ dst ++ opts ++ payload).
    { unfold ipv4_wire, p, ipv4_new. cbn [i_version i_dscp i_ecn i_identification i_flags i_offset i_ttl i_protocol i_options i_data].
      rewrite V, D, E, I, F, O, T, P, EO, EX. reflexivity. }
    rewrite B in C |- *. split; [reflexivity|exact C].
Qed.

(** Eight groups contain no [::]. *)
Lemma no_double_char c t r : no_char c t -> t <> [] -> has_double c (t ++ r) = has_double c r.
Proof.
  intros N. induction N as [|x t X N IH]; [contradiction|]. intros _.
  destruct t as [|y t].
  - cbn [app]. destruct r as [|z r]; [reflexivity|]. cbn [has_double].
    destruct (x =? c) eqn:E; [apply Z.eqb_eq in E; contradiction|reflexivity].
  - cbn [app] in *. cbn [has_double]. destruct (x =? c) eqn:E; [apply Z.eqb_eq in E; contradiction|].
    cbn [andb orb]. apply IH. discriminate.
Qed.
Lemma no_double_sep t r c : no_char c t -> t <> [] -> has_double c (c :: t ++ r) = has_double c r.
Proof.
  intros N E. rewrite <- (no_double_char c t r N E). destruct t as [|x t]; [contradiction|]. inversion N; subst.
  cbn [app has_double]. destruct (x =? c) eqn:Q; [apply Z.eqb_eq in Q; contradiction|]. rewrite andb_false_r. reflexivity.
Qed.
Lemma no_double parts : Forall (no_char colon) parts -> Forall (fun t => t <> []) parts ->
  has_double colon (separated 58 parts) = false.
Proof.
  intros N E. change 58 with colon. assert (G : forall p tl, Forall (no_char colon) (p :: tl) -> Forall (fun t => t <> []) (p :: tl) ->
    has_double colon (separated colon (p :: tl)) = false).
  { intros p tl. revert p. induction tl as [|q tl IH]; intros p F1 F2; inversion F1; inversion F2; subst.
    - cbn [separated]. rewrite <- (app_nil_r p), no_double_char by assumption. reflexivity.
    - change (separated colon (p :: q :: tl)) with (p ++ [colon] ++ separated colon (q :: tl)).
      rewrite no_double_char by assumption. inversion H2; inversion H6; subst.
      specialize (IH q H2 H6). cbn [app].
      destruct tl as [|r tl].
      + cbn [separated] in *. rewrite <- (app_nil_r q), no_double_sep by assumption. reflexivity.
      + change (separated colon (q :: r :: tl)) with (q ++ [colon] ++ separated colon (r :: tl)) in *.
        rewrite no_double_sep by assumption. rewrite no_double_char in IH by assumption. exact IH. }
  destruct parts as [|p tl]; [reflexivity|]. apply G; assumption.
Qed.
Lemma text_groups s zs : ip6_text s zs -> exists x, ip6_init s None = Ok x /\ ip6_groups (A6Obj x) zs.
Proof.
  intros (L & W & [(parts & F & ->)|(l & r & zl & zr & FL & FR & N & E & ->)]).
  - exists (mk_ipv6 (separated 58 parts) 128). split.
    + unfold ip6_init, split_prefix. rewrite has_char_no.
      2: { apply no_char_separated; [discriminate|]. eapply Forall2_left; [apply hex_no_slash|exact F]. }
      cbn [bind fst snd]. f_equal. f_equal. unfold expand6.
      assert (NE : Forall (fun t => t <> []) parts).
      { eapply Forall2_left; [|exact F]. intros a b H. apply hex_numeral_digits in H. tauto. }
      rewrite no_double; [|eapply Forall2_left; [apply hex_no_colon|exact F]|exact NE].
      destruct (text_eqb _ _) eqn:T; [|reflexivity]. exfalso. apply text_eqb_eq in T.
      apply (f_equal (has_double colon)) in T. rewrite no_double in T; [discriminate T| |exact NE].
      eapply Forall2_left; [apply hex_no_colon|exact F].
    + split; [exact L|]. split; [exact W|]. left. exists parts. split; [exact F|]. right. exists 128. reflexivity.
  - pose proof (Forall2_length _ _ _ FL) as LL. pose proof (Forall2_length _ _ _ FR) as LR.
    destruct (ip6_double_colon l r zl zr None FL FR) as (x & X & _).
    + rewrite LL, LR. exact N.
    + rewrite E in W. apply Forall_app in W as [W1 W2]. apply Forall_app in W2 as [_ W2]. apply Forall_app. auto.
    + exists x. split; [exact X|]. split; [exact L|]. split; [exact W|]. right. exists l, r, zl, zr, None, x. auto 10.
Qed.
Lemma zeros_ip6 : ip6_text (txt "0:0:0:0:0:0:0:0") [0; 0; 0; 0; 0; 0; 0; 0].
Proof.
  split; [reflexivity|]. split; [repeat constructor; discriminate|]. left.
  exists (repeat [48] 8). split; [|reflexivity]. apply (Forall2_repeat hex_numeral [48] 0 8 hex_zero).
Qed.
Lemma given_ip6 o zs : or_else ip6_text o zs [0; 0; 0; 0; 0; 0; 0; 0] ->
  exists x, ip6_init (given o (txt "0:0:0:0:0:0:0:0")) None = Ok x /\ ip6_groups (A6Obj x) zs.
Proof. destruct o as [v|]; cbn [or_else given]; intros H; apply text_groups; [exact H|]. subst. exact zeros_ip6. Qed.

Lemma ipv6_built version tclass flabel length nh hl s d data zv zc zf zn zh src dst payload :
  or_else (@eq Z) version zv 6 -> or_else (@eq Z) tclass zc 0 -> or_else (@eq Z) flabel zf 0 ->
  or_else (@eq Z) nh zn 0 -> or_else (@eq Z) hl zh 255 ->
  0 <= zv <= 15 -> 0 <= zc <= 255 -> 0 <= zf <= 1048575 -> 0 <= zn <= 255 -> 0 <= zh <= 255 ->
  or_else ip6_text s src [0; 0; 0; 0; 0; 0; 0; 0] -> or_else ip6_text d dst [0; 0; 0; 0; 0; 0; 0; 0] ->
  or_else (@eq bytes) data payload [] -> wf_bytes payload -> zlen payload <= 65535 ->
  exists p, ipv6_new version tclass flabel length nh hl s d data = Ok p /\
    snd (ipv6_pack p) = Ok (two ((zv * 268435456 + zc * 1048576 + zf) / 65536)
      ++ two ((zv * 268435456 + zc * 1048576 + zf) mod 65536) ++ two (zlen payload) ++ [zn; zh]
      ++ words src ++ words dst ++ payload).
Proof.
  intros V C F N H RV RC RF RN RH HS HD HX W L. apply given_z in V, C, F, N, H.
  assert (EX : given data [] = payload) by (destruct data; cbn in *; auto).
  destruct (given_ip6 _ _ HS) as (x & X1 & X2). destruct (given_ip6 _ _ HD) as (y & Y1 & Y2).
  unfold ipv6_new, ipv6_init. rewrite X1, Y1, V, C, F, N, H, EX. cbn [bind]. eexists. split; [reflexivity|].
  match goal with |- snd (ipv6_pack ?p) = _ => pose proof (ipv6_roundtrip p src dst) as R end.
  destruct R as [E _].
  - unfold ipv6_ok. cbn. auto 10.
  - exact L.
  - rewrite E. reflexivity.
Qed.

Lemma ipv4_attributes version ihl dscp ecn length ident flags offset ttl proto sum0 s d options data :
  let p := ipv4_new version ihl dscp ecn length ident flags offset ttl proto sum0 s d options data in
  or_else (@eq Z) version (i_version p) 4 /\ or_else (@eq Z) ihl (i_ihl p) 5 /\
  or_else (@eq Z) dscp (i_dscp p) 0 /\ or_else (@eq Z) ecn (i_ecn p) 0 /\
  or_else (@eq Z) length (i_length p) 0 /\ or_else (@eq Z) ident (i_identification p) 0 /\
  or_else (@eq Z) flags (i_flags p) 0 /\ or_else (@eq Z) offset (i_offset p) 0 /\
  or_else (@eq Z) ttl (i_ttl p) 255 /\ or_else (@eq Z) proto (i_protocol p) 0 /\
  or_else (@eq Z) sum0 (i_checksum p) 0 /\
  or_else (@eq pyval) s (i_source p) (VStr (txt "0.0.0.0")) /\
  or_else (@eq pyval) d (i_destination p) (VStr (txt "0.0.0.0")) /\
  or_else (@eq bytes) options (i_options p) [] /\ or_else (@eq bytes) data (i_data p) [].
Proof.
  cbv zeta. unfold ipv4_new, given.
  cbn [i_version i_ihl i_dscp i_ecn i_length i_identification i_flags i_offset i_ttl i_protocol i_checksum
       i_source i_destination i_options i_data].
  repeat split;
    match goal with |- or_else _ ?o _ _ => destruct o; reflexivity end.
Qed.

Lemma ipv6_attributes version tclass flabel length nh hl s d data p :
  ipv6_new version tclass flabel length nh hl s d data = Ok p ->
  or_else (@eq Z) version (s_version p) 6 /\ or_else (@eq Z) tclass (s_tclass p) 0 /\
  or_else (@eq Z) flabel (s_flabel p) 0 /\ or_else (@eq Z) length (s_length p) 0 /\
  or_else (@eq Z) nh (s_next_header p) 0 /\ or_else (@eq Z) hl (s_hop_limit p) 255 /\
  or_else (@eq bytes) data (s_data p) [].
Proof.
  unfold ipv6_new, ipv6_init, given.
  destruct (ip6_init _ None) as [a|]; cbn [bind]; [|discriminate].
  destruct (ip6_init _ None) as [b|]; cbn [bind]; [|discriminate]. intros H. injection H as <-.
  cbn [s_version s_tclass s_flabel s_length s_next_header s_hop_limit s_data].
  repeat split; match goal with |- or_else _ ?o _ _ => destruct o; reflexivity end.
Qed.
