(** Lemmas for C68. *)
From Coq Require Import ZArith List Bool String Lia.
From Verif Require Import Base PyText Ids PyVal Classes Interp Addr NetTypes SpecBasic SpecMutation SpecLayout SpecReject SpecNetRefuse
  NetFacts2 RejectFacts.
Import ListNotations.
Open Scope string_scope.
Open Scope list_scope.
Open Scope Z_scope.

Lemma step {A B} (x : res A) (K : A -> res B) (s : exn -> Prop) (r : list (exn -> Prop)) e :
  (forall e, x = Err e <-> s e) -> (forall a, x = Ok a -> (K a = Err e <-> first_of r e)) -> (do a <- x; K a) = Err e <-> first_of (s :: r) e.
Proof.
  intros X H. destruct x as [a|e']; cbn [bind first_of].
  - rewrite (H a eq_refl). split.
    + intros F. right. split; [|exact F]. intros e' S1. apply X in S1. discriminate S1.
    + intros [S1|[_ F]]; [apply X in S1; discriminate S1|exact F].
  - pose proof (proj1 (X e') eq_refl) as S1. split.
    + intros [= ->]. left. exact S1.
    + intros [S2|[N _]]; [apply X in S2; injection S2 as ->; reflexivity|destruct (N e' S1)].
Qed.
Lemma step_last {A B} (x : res A) (K : A -> B) (s : exn -> Prop) e : (forall e, x = Err e <-> s e) -> (do a <- x; Ok (K a)) = Err e <-> first_of [s] e.
Proof. intros X. apply step; [exact X|]. intros a _. cbn. split; [discriminate|intros []]. Qed.
Lemma steps_app l r e : first_of (l ++ r) e <-> first_of l e \/ (forall e', ~ first_of l e') /\ first_of r e.
Proof.
  revert e. induction l as [|s l IH]; intros e; cbn [app first_of].
  - split; [intros H; right; split; [intros _ []|exact H]|]. intros [[]|[_ H]]; exact H.
  - rewrite IH. split.
    + intros [H|[N [H|[M H]]]]; [auto|auto|]. right. split; [|exact H]. intros e' [X|[_ X]]; [exact (N e' X)|exact (M e' X)].
    + intros [[H|[N H]]|[N H]]; [auto|auto|]. right. assert (N' : forall e', ~ s e') by (intros e' X; apply (N e'); left; exact X).
      split; [exact N'|]. right. split; [|exact H]. intros e' X. apply (N e'). right. split; [exact N'|exact X].
Qed.
Lemma concat_steps {A} (f : A -> res bytes) l ss : Forall2 (fun p s => forall e, f p = Err e <-> s e) l ss ->
  forall e, concatM f l = Err e <-> first_of ss e.
Proof.
  induction 1 as [|p s l ss P F IH]; intros e; cbn [concatM]; [cbn; split; [discriminate|intros []]|].
  apply step; [exact P|]. intros a _. rewrite <- IH. destruct (concatM f l); cbn [bind]; split; intros H; first [discriminate H|injection H as ->; reflexivity].
Qed.

(** ** Numbers put together *)
Lemma lor_below n a b : 0 <= n -> below (2 ^ n) (Z.lor a b) <-> below (2 ^ n) a /\ below (2 ^ n) b.
Proof.
  intros N. assert (S0 : forall x, below (2 ^ n) x <-> Z.shiftr x n = 0).
  { intros x. unfold below. rewrite Z.shiftr_div_pow2 by exact N. pose proof (Z.pow_pos_nonneg 2 n ltac:(lia) N) as P.
    rewrite Z.div_small_iff by lia. lia. }
  rewrite !S0, Z.shiftr_lor, Z.lor_eq_0_iff. tauto.
Qed.
Lemma shl_below n k a : 0 <= k <= n -> below (2 ^ n) (Z.shiftl a k) <-> below (2 ^ (n - k)) a.
Proof.
  intros K. unfold below. rewrite Z.shiftl_mul_pow2 by lia. replace (2 ^ n) with (2 ^ (n - k) * 2 ^ k) by (rewrite <- Z.pow_add_r by lia; f_equal; lia).
  pose proof (Z.pow_pos_nonneg 2 k ltac:(lia) ltac:(lia)). nia.
Qed.
Lemma uint_needs w z e : uint_struct w (VInt z) = Err e <-> needs (below (256 ^ Z.of_nat w) z) PackException e.
Proof.
  unfold uint_struct, needs, below, struct_pack_u, ulimit. cbn [as_int]. destruct (Z.leb_spec 0 z), (Z.ltb_spec z (256 ^ Z.of_nat w)); cbn [andb recast];
    (split; [first [discriminate|intros [= <-]; split; [lia|reflexivity]]|intros [X ->]; first [reflexivity|destruct X; lia]]).
Qed.

(** ** Fields *)
Lemma u16_field d v e : pack1 pack (VUInt 2 None d) v = Err e <-> refused (VUInt 2 None d) v e.
Proof. apply uint_refused. Qed.
Lemma u8_field v e : pack1 pack (VUInt 1 None VNone) v = Err e <-> no_u8 v e.
Proof. apply uint_refused. Qed.
Lemma hw_field v e : pack1 pack (VHW (VStr (txt "00:00:00:00:00:00"))) v = Err e <-> no_hw v e.
Proof. apply hw_refused. Qed.
Lemma ip_field v e : pack1 pack (VIP (VStr (txt "0.0.0.0")) 32) v = Err e <-> no_ip v e.
Proof. apply ip_refused. Qed.
Lemma data_field v e : pack1 pack (VBin VNone) v = Err e <-> no_data v e.
Proof. apply raw_refused. Qed.
Lemma int_field w z e : pack1 pack (VUInt w None VNone) (VInt z) = Err e <-> needs (below (256 ^ Z.of_nat w) z) PackException e.
Proof. rewrite <- uint_needs. reflexivity. Qed.
Lemma is_number_iff v k : equals_int v k = true <-> is_number v k.
Proof.
  unfold is_number. rewrite number_iff.
  assert (Z0 : forall x, match as_int x with Some z => z =? k | None => false end = true <-> as_int x = Some k).
  { intros x. destruct (as_int x) as [z|]; [|split; discriminate]. rewrite Z.eqb_eq. split; congruence. }
  destruct v as [| | | |e z| | | | | | | | | |]; unfold equals_int, reads; cbv zeta;
    try (match goal with |- context [dot_value ?v] => destruct (dot_value v) end; rewrite Z0; (split; [intros H; split; [exact H|intros; discriminate]|intros [H _]; exact H])).
  cbn [dot_value as_int]. destruct (is_int_enum e) eqn:E.
  - rewrite Z.eqb_eq. split; [intros Ez; split; [congruence|]; intros e' z' Ev; injection Ev as <- _; apply int_enum_spec, E|intros [H _]; congruence].
  - split; [discriminate|]. intros [_ H]. pose proof (proj1 (int_enum_spec e) (H e z eq_refl)). congruence.
Qed.

(** ** ARP *)
Lemma arp_refused htype ptype hlen plen oper sha spa tha tpa e :
  arp_pack (arp_init htype ptype hlen plen oper sha spa tha tpa) = Err e <-> arp_raises htype ptype hlen plen oper sha spa tha tpa e.
Proof.
  unfold arp_pack, arp_raises.
  assert (V : arp_valid (arp_init htype ptype hlen plen oper sha spa tha tpa) = Ok (equals_int htype 1 && equals_int ptype 0x0800)).
  { unfold arp_valid, arp_init, attr_or_error. cbn [get_attr String.eqb Ascii.eqb Bool.eqb bind]. destruct (equals_int htype 1); reflexivity. }
  rewrite V. cbn [bind]. clear V.
  assert (N : is_number htype 1 /\ is_number ptype 0x0800 <-> equals_int htype 1 && equals_int ptype 0x0800 = true) by (rewrite andb_true_iff, !is_number_iff; reflexivity).
  destruct (equals_int htype 1 && equals_int ptype 0x0800).
  - unfold net_pack. rewrite (concat_steps _ _ [no_u16 htype; no_u16 ptype; no_u8 hlen; no_u8 plen; no_u16 oper; no_hw sha; no_ip spa; no_hw tha; no_ip tpa]).
    + change (first_of (needs (is_number htype 1 /\ is_number ptype 2048) ValidationError :: [no_u16 htype; no_u16 ptype; no_u8 hlen; no_u8 plen; no_u16 oper; no_hw sha; no_ip spa; no_hw tha; no_ip tpa]) e) with
        (needs (is_number htype 1 /\ is_number ptype 2048) ValidationError e \/ (forall e', ~ needs (is_number htype 1 /\ is_number ptype 2048) ValidationError e') /\ first_of [no_u16 htype; no_u16 ptype; no_u8 hlen; no_u8 plen; no_u16 oper; no_hw sha; no_ip spa; no_hw tha; no_ip tpa] e).
      unfold needs. split; [intros F; right; split; [intros e' [X _]; apply X, N; reflexivity|exact F]|]. intros [[X _]|[_ F]]; [destruct X; apply N; reflexivity|exact F].
    + change (net_zip arp_fields (arp_init htype ptype hlen plen oper sha spa tha tpa)) with
        [(VUInt 2 None VNone, htype); (VUInt 2 None VNone, ptype); (VUInt 1 None VNone, hlen); (VUInt 1 None VNone, plen); (VUInt 2 None VNone, oper);
         (VHW (VStr (txt "00:00:00:00:00:00")), sha); (VIP (VStr (txt "0.0.0.0")) 32, spa); (VHW (VStr (txt "00:00:00:00:00:00")), tha); (VIP (VStr (txt "0.0.0.0")) 32, tpa)].
      repeat (constructor; [intros e'; cbn [fst snd]; first [apply u16_field|apply u8_field|apply hw_field|apply ip_field]|]). constructor.
  - split.
    + intros [= <-]. left. split; [intros X; apply N in X; discriminate X|reflexivity].
    + intros [[_ ->]|[X _]]; [reflexivity|]. destruct (X ValidationError). split; [intros Y; apply N in Y; discriminate Y|reflexivity].
Qed.

(** ** VLAN and Ethernet *)
Lemma tag_refused v e : snd (vlan_pack v) = Err e <-> tag_raises v e.
Proof.
  unfold tag_raises.
  assert (G : forall p c i, concatM (fun p => pack1 pack (fst p) (snd p)) (net_zip vlan_fields
      (vlan_dict (mk_vlan (vl_tpid v) (VInt (Z.lor (Z.lor (Z.shiftl (or0 p) 13) (Z.shiftl (or0 c) 12)) (or0 i))) (Some (or0 p)) (Some (or0 c)) (Some (or0 i))))) = Err e <->
    first_of [refused (VUInt 2 None (VInt 0x8100)) (vl_tpid v); needs (below 8 (or0 p) /\ below 16 (or0 c) /\ below 65536 (or0 i)) PackException] e).
  { intros p c i. apply concat_steps. cbn [vlan_dict vl_tpid vl_tci]. set (t := Z.lor _ _).
    change (net_zip vlan_fields [("tpid", vl_tpid v); ("_tci", VInt t)]) with [(VUInt 2 None (VInt 0x8100), vl_tpid v); (VUInt 2 None VNone, VInt t)].
    constructor; [intros e'; apply u16_field|]. constructor; [|constructor]. intros e'. etransitivity; [apply (int_field 2 t e')|]. unfold needs.
    change (256 ^ Z.of_nat 2) with (2 ^ 16). unfold t. rewrite !lor_below, !shl_below by lia. change (2 ^ (16 - 13)) with 8. change (2 ^ (16 - 12)) with 16. change (2 ^ 16) with 65536. tauto. }
  destruct v as [tp tc p c i]. unfold vlan_pack. cbn [vl_pcp vl_cfi vl_vid vl_tpid] in *.
  destruct p as [p|], c as [c|], i as [i|]; cbn [snd]; unfold net_pack; try rewrite G;
    try (split; [intros H; split; [first [left; discriminate|right; left; discriminate|right; right; discriminate]|exact H]|intros [_ H]; exact H]).
  split; [discriminate|]. intros [[X|[X|X]] _]; destruct X; reflexivity.
Qed.
Lemma tags_refused l e : snd (vlans_pack l) = Err e <-> first_of (map tag_raises l) e.
Proof.
  revert e. induction l as [|v l IH]; intros e; cbn [vlans_pack map]; [cbn; split; [discriminate|intros []]|].
  transitivity ((do b <- snd (vlan_pack v); do bs <- snd (vlans_pack l); Ok (b ++ bs)) = Err e).
  { destruct (vlan_pack v) as [v' [b|x]]; reflexivity. }
  apply step; [apply tag_refused|]. intros b _. rewrite <- IH. destruct (snd (vlans_pack l)); cbn [bind]; split; intros H; first [discriminate H|injection H as ->; reflexivity].
Qed.
Lemma ethernet_refused f e : snd (eth_pack f) = Err e <-> ethernet_raises f e.
Proof.
  unfold ethernet_raises, eth_pack.
  transitivity ((do d <- pack1 pack hw_attr (e_destination f); do s <- pack1 pack hw_attr (e_source f);
    do v <- snd (vlans_pack (e_vlans f)); do t <- pack1 pack type_attr (e_ether_type f); do d' <- pack1 pack data_attr (e_data f); Ok ((d ++ s) ++ v ++ t ++ d')) = Err e).
  { destruct (pack1 pack hw_attr (e_destination f)); cbn [bind]; [|reflexivity]. destruct (pack1 pack hw_attr (e_source f)); reflexivity. }
  apply step; [apply hw_field|]. intros d _. apply step; [apply hw_field|]. intros s _.
  rewrite steps_app. rewrite <- tags_refused.
  assert (T : forall v, (do t <- pack1 pack type_attr (e_ether_type f); do d' <- pack1 pack data_attr (e_data f); Ok ((d ++ s) ++ v ++ t ++ d')) = Err e <->
    first_of [no_u16 (e_ether_type f); no_data (e_data f)] e).
  { intros v. apply step; [apply u16_field|]. intros t _. apply step_last, data_field. }
  destruct (snd (vlans_pack (e_vlans f))) as [v|x] eqn:P; cbn [bind].
  - rewrite T. split; [intros H; right; split; [|exact H]|].
    + intros e' X. apply tags_refused in X. congruence.
    + intros [X|[_ H]]; [discriminate X|exact H].
  - split; [intros [= ->]; left; reflexivity|]. intros [[= ->]|[X _]]; [reflexivity|]. destruct (X x). apply tags_refused, P.
Qed.

(** ** LLDP *)
Lemma value_refused v e : call_pack v = Err e <-> value_raises v e.
Proof.
  unfold call_pack, value_raises. rewrite no_object_pack. destruct (has_pack v); cbn [negb].
  - split; [auto|]. intros [[H _]|[_ H]]; [discriminate H|exact H].
  - split; [intros [= <-]; auto|]. intros [[_ ->]|[H _]]; [reflexivity|discriminate H].
Qed.
Lemma tlv_refused x e : tlv_pack x = Err e <-> some_tlv_raises x e.
Proof.
  assert (H : tlv_pack x = Err e <-> tlv_value x = Err e).
  { unfold tlv_pack. destruct (tlv_value x) as [v|x']; cbn [bind]; [|split; intros H; exact (f_equal _ (eq_sym (f_equal (fun r => match r with Err z => z | _ => e end) (eq_sym H)))) || (injection H as ->; reflexivity)].
    destruct (uint_struct 2 (VInt (Z.lor (Z.shiftl (Z.land (tlv_type x) 127) 9) (Z.land (zlen v) 511)))) as [h|e'] eqn:U; cbn [bind]; [split; discriminate|].
    apply uint_needs in U as [U _]. destruct U. change (256 ^ Z.of_nat 2) with (2 ^ 16). rewrite lor_below, shl_below by lia. change (2 ^ (16 - 9)) with 128. change (2 ^ 16) with 65536.
    change 127 with (Z.ones 7). change 511 with (Z.ones 9). rewrite !Z.land_ones by lia. unfold below.
    pose proof (Z.mod_pos_bound (tlv_type x) (2 ^ 7) ltac:(lia)). pose proof (Z.mod_pos_bound (zlen v) (2 ^ 9) ltac:(lia)). change (2 ^ 7) with 128 in *. change (2 ^ 9) with 512 in *. lia. }
  rewrite H. destruct x as [t v|t st v]; cbn [tlv_value some_tlv_raises]; [apply value_refused|].
  apply step; [intros e'; apply uint_needs|]. intros a _. apply step_last, value_refused.
Qed.
Lemma lldp_refused p e : lldp_pack p = Err e <-> lldp_raises p e.
Proof.
  unfold lldp_pack, lldp_raises. cbn [lldp_default l_chassis l_port l_ttl l_end].
  assert (Q : forall t st v x e, tlv_pack1 (SubTlv t st v) x = Err e <-> sub_tlv_raises x e).
  { intros t st v [t' v'|t' st' v'] e'; cbn [tlv_pack1 sub_tlv_raises]; [split; [intros [= <-]; reflexivity|intros ->; reflexivity]|apply tlv_refused]. }
  assert (R : forall t v x e, tlv_pack1 (Tlv t v) x = Err e <-> some_tlv_raises x e) by (intros t v x e'; apply tlv_refused).
  apply step; [intros; apply Q|]. intros a _. apply step; [intros; apply Q|]. intros b _. apply step; [intros; apply R|]. intros c _. apply step_last. intros; apply R.
Qed.

(** ** IPv4 *)
Lemma octets_refused v e : octets v = Err e <-> no_octets v e.
Proof.
  unfold octets. split.
  - destruct v as [| |s|b| | | | | | | | | | |]; try (intros [= <-]; constructor; discriminate).
    intros M. apply mapM_int_err in M as [-> N]. apply no_part, N.
  - intros [b|x Ns Nb|s N].
    + reflexivity.
    + destruct x; try reflexivity; exfalso; [eapply Ns|eapply Nb]; reflexivity.
    + exact (proj2 (mapM_int_err 10 _ ValueError) (conj eq_refl N)).
Qed.
Lemma four_refused v zs e : octets v = Ok zs -> first_four zs = Err e <-> too_few v e.
Proof.
  intros O. unfold too_few. split.
  - intros F. destruct v as [| |s| | | | | | | | | | | |]; try discriminate O. cbn [octets] in O. apply mapM_int_ok in O.
    exists s, zs. split; [reflexivity|]. split; [exact O|].
    destruct zs as [|a [|b [|c [|d zs]]]]; try discriminate F; injection F as <-; (split; [cbn; lia|reflexivity]).
  - intros (s & zs' & -> & N & L & ->). cbn [octets] in O. apply mapM_int_ok in N. assert (zs' = zs) as -> by congruence.
    destruct zs as [|a [|b [|c [|d zs]]]]; try reflexivity. cbn in L. lia.
Qed.
Lemma carry_total s : exists r, fold_carry (S (Z.to_nat (Z.log2 s))) s = Ok r.
Proof.
  destruct (Z.le_gt_cases 0 s) as [H|H].
  - destruct (fold_carry_full s H) as (r & E & _). exists r. exact E.
  - exists s. cbn [fold_carry]. destruct (Z.ltb_spec 65535 s); [lia|reflexivity].
Qed.
Definition never (_ : exn) : Prop := False.
Lemma drop_never l r e : first_of (l ++ never :: r) e <-> first_of (l ++ r) e.
Proof.
  rewrite !steps_app. cbn [first_of]. unfold never. split.
  - intros [H|[N [[]|[_ H]]]]; auto.
  - intros [H|[N H]]; [auto|]. right. split; [exact N|]. right. split; [intros _ []|exact H].
Qed.
Lemma needs_iff (P Q : Prop) x e : (P <-> Q) -> needs P x e <-> needs Q x e.
Proof. unfold needs. tauto. Qed.
Lemma ipv4_refused p e : snd (ipv4_pack p) = Err e <-> ipv4_raises p e.
Proof.
  unfold ipv4_raises, ipv4_pack. set (q := ipv4_prepare p).
  transitivity ((do z <- ipv4_checksum q; net_pack ipv4_fields (ipv4_dict (set_checksum q z))) = Err e).
  { destruct (ipv4_checksum q); reflexivity. }
  unfold ipv4_checksum.
  transitivity ((do sl <- octets (i_source p); do dl <- octets (i_destination p); do s <- first_four sl; do d <- first_four dl;
     do z <- (let '(s0, s1, s2, s3) := s in let '(d0, d1, d2, d3) := d in
       let block_sum := Z.lor (Z.shiftl (version_ihl q) 8) (dscp_ecn q) + i_length q + i_identification q
         + flags_offset q + Z.lor (Z.shiftl (i_ttl q) 8) (i_protocol q)
         + (Z.shiftl s0 8 + s1) + (Z.shiftl s2 8 + s3) + (Z.shiftl d0 8 + d1) + (Z.shiftl d2 8 + d3) in
       do r <- fold_carry (S (Z.to_nat (Z.log2 block_sum))) block_sum; Ok (Z.land (Z.lnot r) 65535));
     net_pack ipv4_fields (ipv4_dict (set_checksum q z))) = Err e).
  { change (i_source q) with (i_source p). change (i_destination q) with (i_destination p).
    destruct (octets (i_source p)) as [sl|]; cbn [bind]; [|reflexivity]. destruct (octets (i_destination p)) as [dl|]; cbn [bind]; [|reflexivity].
    destruct (first_four sl); cbn [bind]; [|reflexivity]. destruct (first_four dl); reflexivity. }
  apply step; [intros e'; apply octets_refused|]. intros sl Os. apply step; [intros e'; apply octets_refused|]. intros dl Od.
  apply step; [intros e'; apply four_refused, Os|]. intros [[[s0 s1] s2] s3] _. apply step; [intros e'; apply four_refused, Od|]. intros [[[d0 d1] d2] d3] _. cbv zeta.
  match goal with |- context [fold_carry _ ?x] => destruct (carry_total x) as (r & C); rewrite C end. cbn [bind]. set (z := Z.land (Z.lnot r) 65535).
  assert (B : below 65536 z).
  { unfold z, below. change 65535 with (Z.ones 16). rewrite Z.land_ones by lia. apply Z.mod_pos_bound. lia. }
  transitivity (first_of ([needs (below 16 (i_version p) /\ below 256 (words_of p)) PackException;
            needs (below 64 (i_dscp p) /\ below 256 (i_ecn p)) PackException;
            needs (below 65536 (4 * words_of p + zlen (i_data p))) PackException;
            needs (below 65536 (i_identification p)) PackException;
            needs (below 8 (i_flags p) /\ below 65536 (i_offset p)) PackException;
            needs (below 256 (i_ttl p)) PackException; needs (below 256 (i_protocol p)) PackException] ++ never ::
            [no_ip (i_source p); no_ip (i_destination p)] ++ never :: [] ++ never :: []) e).
  2:{ rewrite drop_never. rewrite app_assoc. rewrite drop_never. cbn [app]. 
      match goal with |- first_of ?l e <-> _ => change l with ((removelast l) ++ never :: []) end. cbn [removelast]. rewrite drop_never. reflexivity. }
  apply concat_steps. change (net_zip ipv4_fields (ipv4_dict (set_checksum q z))) with
    [(VUInt 1 None VNone, VInt (version_ihl q)); (VUInt 1 None VNone, VInt (dscp_ecn q)); (VUInt 2 None VNone, VInt (i_length q)); (VUInt 2 None VNone, VInt (i_identification q));
     (VUInt 2 None VNone, VInt (flags_offset q)); (VUInt 1 None VNone, VInt (i_ttl q)); (VUInt 1 None VNone, VInt (i_protocol q)); (VUInt 2 None VNone, VInt z);
     (VIP (VStr (txt "0.0.0.0")) 32, i_source q); (VIP (VStr (txt "0.0.0.0")) 32, i_destination q); (VBin VNone, VBytes (i_options q)); (VBin VNone, VBytes (i_data q))].
  assert (W : i_ihl q = words_of p).
  { unfold q, ipv4_prepare, words_of. cbn [i_ihl]. destruct (i_options p); [cbn; lia|reflexivity]. }
  assert (L : i_length q = 4 * words_of p + zlen (i_data p)) by (rewrite <- W; change (i_length q) with (i_ihl q * 4 + zlen (i_data p)); lia).
  assert (T : forall d x, (forall e', pack1 pack (VBin d) (VBytes x) = Err e' <-> never e')) by (intros d x e'; cbn; split; [discriminate|intros []]).
  repeat (apply Forall2_cons; [intros e'; cbn [fst snd]|]); try apply Forall2_nil; try apply ip_field; try apply T;
    (etransitivity; [apply int_field|]).
  - apply needs_iff. change (256 ^ Z.of_nat 1) with (2 ^ 8). unfold version_ihl. rewrite lor_below, shl_below, W by lia. reflexivity.
  - apply needs_iff. change (256 ^ Z.of_nat 1) with (2 ^ 8). unfold dscp_ecn. rewrite lor_below, shl_below by lia. reflexivity.
  - rewrite L. reflexivity.
  - reflexivity.
  - apply needs_iff. change (256 ^ Z.of_nat 2) with (2 ^ 16). unfold flags_offset. rewrite lor_below, shl_below by lia. reflexivity.
  - reflexivity.
  - reflexivity.
  - change (256 ^ Z.of_nat 2) with 65536. unfold needs, never. tauto.
Qed.

(** ** IPv6 *)
Lemma pack_us2_err zs e : struct_pack_us 2 zs = Err e <-> e = StructError /\ ~ Forall (below 65536) zs.
Proof.
  induction zs as [|z zs IH]; cbn [struct_pack_us].
  - split; [discriminate|]. intros [_ H]. exfalso. apply H. constructor.
  - unfold struct_pack_u at 1. change (ulimit 2) with 65536. destruct ((0 <=? z) && (z <? 65536)) eqn:E; cbn [bind].
    + apply andb_prop in E as [E1 E2]. apply Z.leb_le in E1. apply Z.ltb_lt in E2.
      assert (F : Forall (below 65536) (z :: zs) <-> Forall (below 65536) zs) by (split; [intros H; inversion H; assumption|intros H; constructor; [unfold below; lia|exact H]]).
      rewrite F, <- IH. destruct (struct_pack_us 2 zs); cbn [bind]; split; intros H; first [discriminate H|injection H as ->; reflexivity].
    + split; [|intros [-> _]; reflexivity]. intros [= <-]. split; [reflexivity|]. intros H. inversion H as [|? ? [X Y] _]; subst.
      apply andb_false_iff in E as [E|E]; [apply Z.leb_gt in E|apply Z.ltb_ge in E]; lia.
Qed.
Lemma groups_refused s e : ip6_bytes s = Err e <-> no_groups s e.
Proof.
  unfold ip6_bytes, no_groups. cbv zeta. pose proof (slash_cut s) as C. set (t := if has_char slash s then hd [] (split slash s) else s) in *.
  assert (P : forall zs e, recast StructError PackException (struct_pack_seq 2 8 zs) = Err e <-> ~ (List.length zs = 8%nat /\ Forall (below 65536) zs) /\ e = PackException).
  { intros zs e'. unfold struct_pack_seq. destruct (Nat.eqb_spec (List.length zs) 8) as [E|E].
    - destruct (struct_pack_us 2 zs) as [b|x] eqn:U; cbn [recast].
      + split; [discriminate|]. intros [H _]. destruct H. split; [exact E|]. destruct (Forall_dec (below 65536)) with (l := zs) as [F|F]; [intros z; unfold below; destruct (Z_le_dec 0 z), (Z_lt_dec z 65536); [left|right..]; lia|exact F|].
        pose proof (proj2 (pack_us2_err zs StructError) (conj eq_refl F)). congruence.
      + apply pack_us2_err in U as [-> F]. cbn. split; [intros [= <-]; split; [intros [_ G]; exact (F G)|reflexivity]|intros [_ ->]; reflexivity].
    - cbn. split; [intros [= <-]; split; [intros [F _]; exact (E F)|reflexivity]|intros [_ ->]; reflexivity]. }
  split.
  - intros H. exists t. split; [exact C|]. destruct (mapM (py_int 16) (split colon t)) as [zs|x] eqn:M; cbn [bind] in H.
    + right. exists zs. split; [apply mapM_int_ok, M|]. apply P, H.
    + injection H as ->. apply mapM_int_err in M as [-> N]. left. auto.
  - intros (t' & C' & H). rewrite (before_slash_fun s t' t C' C) in H. destruct H as [[N ->]|(zs & N & H)].
    + rewrite (proj2 (mapM_int_err 16 _ ValueError) (conj eq_refl N)). reflexivity.
    + apply mapM_int_ok in N. rewrite N. cbn [bind]. apply P, H.
Qed.
Lemma ipv6_refused p e : snd (ipv6_pack p) = Err e <-> ipv6_raises p e.
Proof.
  unfold ipv6_raises, ipv6_pack. cbn [snd s_version s_tclass s_flabel s_length s_next_header s_hop_limit s_source s_destination s_data].
  assert (A : forall a e, a6_pack a = Err e <-> no_groups (address_text a) e) by (intros [a|s] e'; apply groups_refused).
  apply step.
  { intros e'. rewrite uint_needs. apply needs_iff. change (256 ^ Z.of_nat 4) with (2 ^ 32). rewrite !lor_below, !shl_below by lia. change (2 ^ (32 - 28)) with 16. change (2 ^ (32 - 20)) with 4096. tauto. }
  intros a _. apply step.
  { intros e'. rewrite uint_needs. apply needs_iff. change (256 ^ Z.of_nat 2) with 65536. unfold below, zlen. lia. }
  intros b _. apply step; [intros e'; apply uint_needs|]. intros c _. apply step; [intros e'; apply uint_needs|]. intros d _.
  apply step; [apply A|]. intros s _. apply step_last, A.
Qed.
