(** Facts about the network packet classes. *)
From Coq Require Import ZArith List Bool String Lia ZifyBool ZifyNat.
From Verif Require Import Base PyText Ids PyVal Classes Interp Addr BaseFacts TextFacts Spec SpecBasic
  ClassFacts LeafFacts StructFacts Soundness FuelFacts Totality IntFacts AddrFacts NetTypes SpecNet.
Import ListNotations.
Open Scope string_scope.
Open Scope list_scope.
Open Scope Z_scope.
Ltac Zify.zify_post_hook ::= Z.div_mod_to_equations.

(** ** Bits *)

Lemma lor_shift a n b : 0 <= n -> 0 <= b < 2 ^ n -> Z.lor (Z.shiftl a n) b = a * 2 ^ n + b.
Proof.
  intros N B. assert (L : Z.land (Z.shiftl a n) b = 0).
  { apply Z.bits_inj'. intros k K. rewrite Z.land_spec, Z.bits_0, Z.shiftl_spec by lia.
    destruct (Z.lt_ge_cases k n) as [H|H].
    - rewrite Z.testbit_neg_r by lia. reflexivity.
    - rewrite <- (Z.mod_small b (2 ^ n)) by lia. rewrite Z.mod_pow2_bits_high by lia. apply andb_false_r. }
  rewrite <- Z.lxor_lor, <- Z.add_nocarry_lxor by exact L. rewrite Z.shiftl_mul_pow2 by lia. reflexivity.
Qed.
Lemma land_ones' a n m : 0 <= n -> m = 2 ^ n - 1 -> Z.land a m = a mod 2 ^ n.
Proof. intros N ->. rewrite <- Z.land_ones by lia. rewrite Z.ones_equiv, Z.sub_1_r. reflexivity. Qed.
Lemma shr a n : 0 <= n -> Z.shiftr a n = a / 2 ^ n.
Proof. apply Z.shiftr_div_pow2. Qed.

Lemma be2 z : 0 <= z < 65536 -> be_encode 2 z = two z.
Proof.
  intros H. unfold two. cbn [be_encode].
  change (256 ^ Z.of_nat 1) with 256. change (256 ^ Z.of_nat 0) with 1.
  rewrite (Z.mod_small (z / 256)) by lia. rewrite Z.div_1_r. reflexivity.
Qed.
Lemma be4 z : 0 <= z < 2 ^ 32 -> be_encode 4 z = two (z / 65536) ++ two (z mod 65536).
Proof.
  change (2 ^ 32) with 4294967296. intros H. unfold two. cbn [be_encode app].
  change (256 ^ Z.of_nat 3) with 16777216. change (256 ^ Z.of_nat 2) with 65536.
  change (256 ^ Z.of_nat 1) with 256. change (256 ^ Z.of_nat 0) with 1.
  rewrite Z.div_div by lia. change (65536 * 256) with 16777216.
  assert (E1 : z / 16777216 mod 256 = z / 16777216) by (apply Z.mod_small; lia).
  assert (E2 : z / 256 mod 256 = z mod 65536 / 256) by lia.
  assert (E3 : z / 1 mod 256 = z mod 65536 mod 256) by (rewrite Z.div_1_r; lia).
  rewrite E1, E2, E3. reflexivity.
Qed.
Lemma two_wf z : 0 <= z < 65536 -> wf_bytes (two z).
Proof. intros H. unfold two. repeat constructor; unfold is_byte; lia. Qed.
Lemma fits1 z : fits 1 z <-> is_byte z.
Proof. unfold fits, is_byte. change (2 ^ (8 * Z.of_nat 1)) with 256. tauto. Qed.
Lemma fits2 z : fits 2 z <-> 0 <= z < 65536.
Proof. unfold fits. change (2 ^ (8 * Z.of_nat 2)) with 65536. tauto. Qed.

(** ** Structures made of fields *)

Lemma oof_dec {A} (r : res A) : r = Err OutOfFuel \/ r <> Err OutOfFuel.
Proof. destruct r as [a|e]; [right; discriminate|]. destruct e; try (right; discriminate). left. reflexivity. Qed.
Lemma le_pack_full n : le_fun (pack0 n) pack.
Proof.
  intros v. destruct (oof_dec (pack0 n v)) as [E|E]; [left; exact E|right].
  rewrite (pack_of n v E). reflexivity.
Qed.
Lemma le_size_full n : le_fun (size0 n) get_size.
Proof.
  intros v. destruct (oof_dec (size0 n v)) as [E|E]; [left; exact E|right].
  rewrite (size_of n v E). reflexivity.
Qed.
Lemma le_ok {A} (r r' : res A) a : le_res r r' -> r = Ok a -> r' = Ok a.
Proof. intros [H|H] E; congruence. Qed.

Lemma net_fields n k sz fields vals bs outs : (n <= FUEL)%nat ->
  enc_fields n k sz fields vals bs outs ->
  List.length vals = List.length fields /\ List.length outs = List.length fields /\
  concatM (fun p => pack1 pack (fst p) (snd p)) (combine (map snd fields) vals) = Ok bs /\
  (forall pre suf attrs, (k = TAIL -> suf = []) -> pre ++ bs ++ suf <> [] ->
     unpack_fields unpack get_size fields attrs (pre ++ bs ++ suf) (List.length pre)
     = Ok (set_all (map fst fields) outs attrs, (List.length pre + List.length bs)%nat)).
Proof.
  intros N H. destruct (proj1 (proj2 (proj2 soundness)) _ _ _ _ _ _ _ H) as (L1 & L2 & P & _ & _ & U).
  split; [exact L1|]. split; [exact L2|]. split.
  - eapply le_ok; [|exact P]. apply le_concatM. intros p. apply le_pack1. apply le_pack_full.
  - intros pre suf attrs K NE. specialize (U pre suf attrs K NE). eapply le_ok; [|exact U].
    apply le_unpack_fields; [|apply le_size_full]. intros v b o. unfold unpack. apply unpack0_mono. exact N.
Qed.

Lemma enc_int n w v z d : (0 < w)%nat -> int_of w v z ->
  enc (S n) SD true (VUInt w None d) v (be_encode w z) (got_int w z).
Proof.
  intros W (N & I & F). apply (e_uint n w None d v z W); [left; auto| |exact Logic.I].
  rewrite ulimit_pow. exact F.
Qed.
Lemma enc_mac n v bs d : mac_of v bs -> enc (S n) SD true (VHW d) v bs (got_mac bs).
Proof.
  intros (L & s & H & V). assert (W : wf_bytes bs).
  { destruct H as (ps & _ & H). clear - H. induction H; constructor; [eapply hex_byte_wf; eauto|auto]. }
  unfold got_mac. rewrite colon_hex_canonical by exact W.
  destruct bs as [|b1 [|b2 [|b3 [|b4 [|b5 [|b6 [|] ] ] ] ] ] ]; try discriminate L.
  apply (e_hw n d v s); [tauto|exact H].
Qed.
Lemma enc_ip n v bs d : ip_of v bs -> enc (S n) SD true (VIP d 32) v bs (got_ip bs).
Proof.
  intros (L & W & V). unfold got_ip. rewrite dotted_dec_canonical in * by exact W.
  destruct bs as [|b1 [|b2 [|b3 [|b4 [|] ] ] ] ]; try discriminate L.
  destruct V as [V|[m' V] ].
  - apply (e_ip n d 32 v 0); auto.
  - apply (e_ip n d 32 v m'); auto.
Qed.
Lemma enc_data n v bs : data_of v bs -> enc (S (S n)) TAIL true (VBin VNone) v bs (got_data bs).
Proof.
  unfold got_data. intros [-> | [-> | (-> & [-> | ->])] ].
  - apply e_bin; [discriminate|apply p_bytes].
  - apply e_bin; [discriminate|apply p_bin, p_bytes].
  - apply e_bin_default, p_none.
  - apply e_bin; [discriminate|apply p_bin, p_none].
Qed.
Lemma int_of_int w z : fits w z -> int_of w (VInt z) z.
Proof. intros F. split; [discriminate|]. split; [constructor|exact F]. Qed.

(** ** ARP *)


Lemma arp_enc h p hl pl o sha spa tha tpa zh zp zhl zpl zo bsha bspa btha btpa :
  int_of 2 h zh -> int_of 2 p zp -> int_of 1 hl zhl -> int_of 1 pl zpl -> int_of 2 o zo ->
  mac_of sha bsha -> ip_of spa bspa -> mac_of tha btha -> ip_of tpa btpa ->
  enc_fields 1 SD true arp_fields [h; p; hl; pl; o; sha; spa; tha; tpa]
    (be_encode 2 zh ++ be_encode 2 zp ++ be_encode 1 zhl ++ be_encode 1 zpl ++ be_encode 2 zo
     ++ bsha ++ bspa ++ btha ++ btpa ++ [])
    [got_int 2 zh; got_int 2 zp; got_int 1 zhl; got_int 1 zpl; got_int 2 zo;
     got_mac bsha; got_ip bspa; got_mac btha; got_ip btpa].
Proof.
  intros. unfold arp_fields.
  apply f_cons; [apply enc_int; [lia|assumption]|].
  apply f_cons; [apply enc_int; [lia|assumption]|].
  apply f_cons; [apply enc_int; [lia|assumption]|].
  apply f_cons; [apply enc_int; [lia|assumption]|].
  apply f_cons; [apply enc_int; [lia|assumption]|].
  apply f_cons; [apply enc_mac; assumption|].
  apply f_cons; [apply enc_ip; assumption|].
  apply f_cons; [apply enc_mac; assumption|].
  apply f_cons; [apply enc_ip; assumption|].
  apply f_nil.
Qed.

Lemma int_exact_equals v z y : int_exact v z -> equals_int v y = (z =? y).
Proof.
  destruct 1; cbn [equals_int as_int dot_value]; try reflexivity.
  - rewrite H. reflexivity.
  - rewrite generic_int. reflexivity.
  - rewrite generic_enum by assumption. reflexivity.
Qed.

Lemma arp_pack_any h p hl pl o sha spa tha tpa :
  arp_pack (arp_init h p hl pl o sha spa tha tpa) =
  if equals_int h 1 then
    if equals_int p ET_IPV4 then
      concatM (fun p => pack1 pack (fst p) (snd p))
        (combine (map snd arp_fields) [h; p; hl; pl; o; sha; spa; tha; tpa])
    else Err ValidationError
  else Err ValidationError.
Proof.
  unfold arp_pack, arp_valid, arp_init, attr_or_error. cbn [get_attr String.eqb Ascii.eqb Bool.eqb bind].
  destruct (equals_int h 1); [|reflexivity]. cbn [bind]. destruct (equals_int p ET_IPV4); reflexivity.
Qed.

Lemma arp_refuses h p hl pl o sha spa tha tpa zh zp :
  int_exact h zh -> int_exact p zp -> ~ (zh = 1 /\ zp = 0x0800) ->
  arp_pack (arp_init h p hl pl o sha spa tha tpa) = Err ValidationError.
Proof.
  intros H P N. rewrite arp_pack_any, (int_exact_equals _ _ _ H), (int_exact_equals _ _ _ P).
  destruct (Z.eqb_spec zh 1); [|reflexivity]. destruct (Z.eqb_spec zp ET_IPV4) as [E|]; [|reflexivity].
  unfold ET_IPV4 in E. tauto.
Qed.

Lemma set_all_arp a1 a2 a3 a4 a5 a6 a7 a8 a9 b1 b2 b3 b4 b5 b6 b7 b8 b9 :
  set_all (map fst arp_fields) [b1; b2; b3; b4; b5; b6; b7; b8; b9]
          (arp_init a1 a2 a3 a4 a5 a6 a7 a8 a9) = arp_init b1 b2 b3 b4 b5 b6 b7 b8 b9.
Proof. reflexivity. Qed.

Lemma app_ne {A} (pre bs suf : list A) : bs <> [] -> pre ++ bs ++ suf <> [].
Proof. intros H E. apply app_eq_nil in E as [_ E]. apply app_eq_nil in E as [E _]. auto. Qed.

Lemma arp_decode old pre suf zh zp zhl zpl zo bsha bspa btha btpa :
  (exists a1 a2 a3 a4 a5 a6 a7 a8 a9, old = arp_init a1 a2 a3 a4 a5 a6 a7 a8 a9) ->
  fits 2 zh -> fits 2 zp -> is_byte zhl -> is_byte zpl -> fits 2 zo ->
  wf_bytes bsha -> List.length bsha = 6%nat -> wf_bytes bspa -> List.length bspa = 4%nat ->
  wf_bytes btha -> List.length btha = 6%nat -> wf_bytes btpa -> List.length btpa = 4%nat ->
  arp_unpack old (pre ++ (two zh ++ two zp ++ [zhl] ++ [zpl] ++ two zo ++ bsha ++ bspa ++ btha ++ btpa) ++ suf)
    (List.length pre)
  = if (zh =? 1) && (zp =? 0x0800)
    then Ok (arp_got zh zp zhl zpl zo bsha bspa btha btpa) else Err UnpackException.
Proof.
  intros (a1 & a2 & a3 & a4 & a5 & a6 & a7 & a8 & a9 & ->) F1 F2 B1 B2 F3 W1 L1 W2 L2 W3 L3 W4 L4.
  assert (MO : forall bs, wf_bytes bs -> List.length bs = 6%nat -> mac_of (VStr (hex_canonical bs)) bs).
  { intros bs W L. split; [exact L|]. exists (hex_canonical bs). split; [apply hex_canonical_text, W|auto]. }
  assert (IO : forall bs, wf_bytes bs -> List.length bs = 4%nat -> ip_of (VStr (dotted_dec bs)) bs).
  { intros bs W L. split; [exact L|]. split; [exact W|auto]. }
  pose proof (arp_enc _ _ _ _ _ _ _ _ _ _ _ _ _ _ _ _ _ _ (int_of_int _ _ F1) (int_of_int _ _ F2)
    (int_of_int 1 zhl ltac:(apply fits1; exact B1)) (int_of_int 1 zpl ltac:(apply fits1; exact B2)) (int_of_int _ _ F3)
    (MO _ W1 L1) (IO _ W2 L2) (MO _ W3 L3) (IO _ W4 L4)) as E.
  apply net_fields in E; [|unfold FUEL; lia]. destruct E as (_ & _ & _ & U).
  apply fits2 in F1, F2, F3.
  rewrite !be2, (be1 _ B1), (be1 _ B2), app_nil_r in U by assumption.
  unfold arp_unpack, net_unpack. rewrite U; [|discriminate|].
  2:{ apply app_ne. discriminate. }
  cbn [bind fst]. rewrite set_all_arp. unfold arp_valid, arp_init, attr_or_error.
  cbn [get_attr String.eqb Ascii.eqb Bool.eqb bind].
  assert (Q : forall z y, equals_int (got_int 2 z) y = (z =? y)) by (intros; apply int_exact_equals; constructor).
  rewrite !Q. unfold ET_IPV4. destruct (Z.eqb_spec zh 1); [|reflexivity]. cbn [bind andb].
  destruct (Z.eqb_spec zp 2048); reflexivity.
Qed.

Lemma arp_roundtrip h p hl pl o sha spa tha tpa zhl zpl zo bsha bspa btha btpa :
  int_exact h 1 -> int_exact p 0x0800 -> int_of 1 hl zhl -> int_of 1 pl zpl -> int_of 2 o zo ->
  mac_of sha bsha -> ip_of spa bspa -> mac_of tha btha -> ip_of tpa btpa ->
  let bs := arp_wire zhl zpl zo bsha bspa btha btpa in
  List.length bs = 28%nat /\
  arp_pack (arp_init h p hl pl o sha spa tha tpa) = Ok bs /\
  forall old pre suf, (exists a1 a2 a3 a4 a5 a6 a7 a8 a9, old = arp_init a1 a2 a3 a4 a5 a6 a7 a8 a9) ->
    arp_unpack old (pre ++ bs ++ suf) (List.length pre)
    = Ok (arp_got 1 0x0800 zhl zpl zo bsha bspa btha btpa).
Proof.
  intros H P HL PL O M1 I1 M2 I2.
  destruct (int_exact_value _ _ H) as [H' Hn]. destruct (int_exact_value _ _ P) as [P' Pn].
  assert (IH : int_of 2 h 1) by (split; [exact Hn|split; [exact H'|apply fits2; lia] ]).
  assert (IP : int_of 2 p 2048) by (split; [exact Pn|split; [exact P'|apply fits2; lia] ]).
  assert (B1 : is_byte zhl) by (apply fits1; apply HL). assert (B2 : is_byte zpl) by (apply fits1; apply PL).
  assert (F3 : 0 <= zo < 65536) by (apply fits2; apply O).
  assert (E0 : arp_wire zhl zpl zo bsha bspa btha btpa
    = two 1 ++ two 2048 ++ [zhl] ++ [zpl] ++ two zo ++ bsha ++ bspa ++ btha ++ btpa) by reflexivity.
  cbv zeta. split; [|split].
  - rewrite E0, !app_length. rewrite (proj1 M1), (proj1 I1), (proj1 M2), (proj1 I2). reflexivity.
  - rewrite arp_pack_any, (int_exact_equals _ _ _ H), (int_exact_equals _ _ _ P).
    change (1 =? 1) with true. change (2048 =? ET_IPV4) with true. cbv iota.
    pose proof (arp_enc _ _ _ _ _ _ _ _ _ _ _ _ _ _ _ _ _ _ IH IP HL PL O M1 I1 M2 I2) as E.
    apply net_fields in E; [|unfold FUEL; lia]. destruct E as (_ & _ & Pk & _). rewrite Pk, E0.
    rewrite !be2, (be1 _ B1), (be1 _ B2), app_nil_r by lia. reflexivity.
  - intros old pre suf OLD. rewrite E0.
    assert (HW : forall v bs, mac_of v bs -> wf_bytes bs).
    { intros v bs (_ & s & (ps & _ & X) & _). clear - X. induction X; constructor; [eapply hex_byte_wf; eauto|auto]. }
    rewrite arp_decode; try assumption; try (apply fits2; lia).
    + reflexivity.
    + eapply HW, M1.
    + apply M1.
    + apply I1.
    + apply I1.
    + eapply HW, M2.
    + apply M2.
    + apply I2.
    + apply I2.
Qed.

Lemma two_pair a b : is_byte a -> is_byte b -> two (a * 256 + b) = [a; b].
Proof.
  unfold is_byte, two. intros A B. f_equal; [lia|]. f_equal. lia.
Qed.
Lemma pair_fits a b : is_byte a -> is_byte b -> fits 2 (a * 256 + b).
Proof. intros A B. apply fits2. unfold is_byte in *. lia. Qed.
Lemma place2 a b : place_value [a; b] = a * 256 + b.
Proof. cbn [place_value List.length]. change (2 ^ (8 * Z.of_nat 1)) with 256. change (2 ^ (8 * Z.of_nat 0)) with 1. lia. Qed.
Lemma place1 a : place_value [a] = a.
Proof. cbn [place_value List.length]. change (2 ^ (8 * Z.of_nat 0)) with 1. lia. Qed.

Lemma wf_cut n (bs : bytes) : wf_bytes bs -> (n <= List.length bs)%nat ->
  exists a b, bs = a ++ b /\ List.length a = n /\ wf_bytes a /\ wf_bytes b /\ a = firstn n bs /\ b = skipn n bs.
Proof.
  intros W L. exists (firstn n bs), (skipn n bs). rewrite firstn_skipn, firstn_length.
  repeat split; [lia|apply wf_bytes_firstn, W|apply wf_bytes_skipn, W].
Qed.


Lemma arp_any old pre bs suf :
  (exists a1 a2 a3 a4 a5 a6 a7 a8 a9, old = arp_init a1 a2 a3 a4 a5 a6 a7 a8 a9) ->
  wf_bytes bs -> List.length bs = 28%nat ->
  arp_unpack old (pre ++ bs ++ suf) (List.length pre)
  = if (place_value (slice 0 2 bs) =? 1) && (place_value (slice 2 4 bs) =? 0x0800)
    then Ok (arp_parse bs) else Err UnpackException.
Proof.
  intros O W L.
  destruct bs as [|x0 bs]; [discriminate|]. destruct bs as [|x1 bs]; [discriminate|].
  destruct bs as [|x2 bs]; [discriminate|]. destruct bs as [|x3 bs]; [discriminate|].
  destruct bs as [|x4 bs]; [discriminate|]. destruct bs as [|x5 bs]; [discriminate|].
  destruct bs as [|x6 bs]; [discriminate|]. destruct bs as [|x7 bs]; [discriminate|].
  cbn [List.length] in L. 
  assert (B : Forall is_byte [x0; x1; x2; x3; x4; x5; x6; x7] /\ wf_bytes bs).
  { apply Forall_app. exact W. }
  destruct B as [B Wb]. rewrite Forall_forall in B. cbn [In] in B.
  assert (B0 : is_byte x0) by (apply B; tauto). assert (B1 : is_byte x1) by (apply B; tauto).
  assert (B2 : is_byte x2) by (apply B; tauto). assert (B3 : is_byte x3) by (apply B; tauto).
  assert (B4 : is_byte x4) by (apply B; tauto). assert (B5 : is_byte x5) by (apply B; tauto).
  assert (B6 : is_byte x6) by (apply B; tauto). assert (B7 : is_byte x7) by (apply B; tauto). clear B.
  destruct (wf_cut 6 bs Wb ltac:(lia)) as (a & r1 & -> & La & Wa & Wr1 & _).
  rewrite app_length in L. destruct (wf_cut 4 r1 Wr1 ltac:(lia)) as (b & r2 & -> & Lb & Wbb & Wr2 & _).
  rewrite app_length in L. destruct (wf_cut 6 r2 Wr2 ltac:(lia)) as (c & d & -> & Lc & Wc & Wd & _).
  rewrite app_length in L. assert (Ld : List.length d = 4%nat) by lia.
  replace (x0 :: x1 :: x2 :: x3 :: x4 :: x5 :: x6 :: x7 :: a ++ b ++ c ++ d)
    with (two (x0 * 256 + x1) ++ two (x2 * 256 + x3) ++ [x4] ++ [x5] ++ two (x6 * 256 + x7) ++ a ++ b ++ c ++ d).
  2:{ rewrite !two_pair by assumption. reflexivity. }
  rewrite arp_decode; try assumption; try (apply pair_fits; assumption).
  rewrite !two_pair by assumption.
  assert (S1 : slice 0 2 ([x0; x1] ++ [x2; x3] ++ [x4] ++ [x5] ++ [x6; x7] ++ a ++ b ++ c ++ d) = [x0; x1]) by reflexivity.
  assert (S2 : slice 2 4 ([x0; x1] ++ [x2; x3] ++ [x4] ++ [x5] ++ [x6; x7] ++ a ++ b ++ c ++ d) = [x2; x3]) by reflexivity.
  unfold arp_parse. rewrite S1, S2, !place2.
  destruct ((x0 * 256 + x1 =? 1) && (x2 * 256 + x3 =? 2048)); [|reflexivity]. f_equal.
  change (slice 4 5 _) with [x4]. change (slice 5 6 _) with [x5]. change (slice 6 8 _) with [x6; x7].
  rewrite !place1, place2. f_equal.
  - symmetry. apply (slice_mid ([x0; x1] ++ [x2; x3] ++ [x4] ++ [x5] ++ [x6; x7]) a (b ++ c ++ d)); cbn; lia.
  - symmetry. change ([x0; x1] ++ [x2; x3] ++ [x4] ++ [x5] ++ [x6; x7] ++ a ++ b ++ c ++ d)
      with (([x0; x1; x2; x3; x4; x5; x6; x7] ++ a ++ b ++ c ++ d)). rewrite app_assoc.
    apply slice_mid; rewrite app_length; cbn; lia.
  - symmetry. change ([x0; x1] ++ [x2; x3] ++ [x4] ++ [x5] ++ [x6; x7] ++ a ++ b ++ c ++ d)
      with (([x0; x1; x2; x3; x4; x5; x6; x7] ++ a ++ b ++ c ++ d)). rewrite !app_assoc. rewrite <- (app_assoc _ c d).
    apply slice_mid; rewrite !app_length; cbn; lia.
  - symmetry. change ([x0; x1] ++ [x2; x3] ++ [x4] ++ [x5] ++ [x6; x7] ++ a ++ b ++ c ++ d)
      with (([x0; x1; x2; x3; x4; x5; x6; x7] ++ a ++ b ++ c ++ d)). rewrite !app_assoc.
    rewrite <- (app_nil_r d) at 1. rewrite app_assoc. rewrite <- (app_assoc _ d []).
    apply slice_mid; rewrite !app_length; cbn; lia.
Qed.

(** Buffers that end too early. *)
Inductive leaf_width : pyval -> nat -> Prop :=
| lw_int w d : leaf_width (VUInt w None d) w
| lw_hw d : leaf_width (VHW d) 6
| lw_ip d m : leaf_width (VIP d m) 4.

Lemma leaf_step cv w buff off : leaf_width cv w ->
  ((List.length buff < off + w)%nat -> (0 < w)%nat -> unpack (deepcopy cv) buff off = Err UnpackException) /\
  ((off + w <= List.length buff)%nat ->
     exists out, unpack (deepcopy cv) buff off = Ok out /\ get_size out = Ok (Z.of_nat w)).
Proof.
  intros H. destruct H as [w d|d|d m].
  - change (unpack (deepcopy (VUInt w None d)) buff off) with (uint_unpack w None buff off).
    unfold uint_unpack, struct_unpack_u. split.
    + intros L P. rewrite (proj2 (Nat.eqb_neq _ _)); [reflexivity|]. rewrite slice_length. lia.
    + intros L. rewrite (proj2 (Nat.eqb_eq _ _)) by (rewrite slice_length; lia). eexists. split; reflexivity.
  - change (unpack (deepcopy (VHW d)) buff off) with (hw_unpack buff off).
    unfold hw_unpack, struct_unpack_seq. split.
    + intros L P. rewrite (proj2 (Nat.eqb_neq _ _)); [reflexivity|]. rewrite slice_length. lia.
    + intros L. rewrite (proj2 (Nat.eqb_eq _ _)) by (rewrite slice_length; lia). eexists. split; reflexivity.
  - change (unpack (deepcopy (VIP d m)) buff off) with (ip_unpack m buff off).
    unfold ip_unpack, struct_unpack_seq. split.
    + intros L P. rewrite (proj2 (Nat.eqb_neq _ _)); [reflexivity|]. rewrite slice_length. lia.
    + intros L. rewrite (proj2 (Nat.eqb_eq _ _)) by (rewrite slice_length; lia). eexists. split; reflexivity.
Qed.

Lemma fields_short fields : forall ws attrs buff off,
  Forall2 (fun p w => leaf_width (snd p) w /\ (0 < w)%nat) fields ws -> buff <> [] ->
  (List.length buff < off + list_sum ws)%nat -> (off <= List.length buff)%nat ->
  unpack_fields unpack get_size fields attrs buff off = Err UnpackException.
Proof.
  induction fields as [|[name cv] tl IH]; intros ws attrs buff off F NE L O.
  - inversion F; subst. cbn in L. lia.
  - inversion F as [|? w ? ws' [LW P] F']; subst. cbn [snd] in LW. cbn [unpack_fields].
    destruct buff as [|b0 bt] eqn:EB; [congruence|]. rewrite <- EB in *.
    destruct (leaf_step cv w buff off LW) as [SH LO].
    destruct (Nat.lt_ge_cases (List.length buff) (off + w)) as [S|G].
    + rewrite (SH S P). reflexivity.
    + destruct (LO G) as (out & U & SZ). rewrite U. cbn [bind]. rewrite SZ. cbn [bind].
      rewrite Nat2Z.id. apply (IH ws'); [exact F'|exact NE| |lia]. change (list_sum (w :: ws')) with (w + list_sum ws')%nat in L. lia.
Qed.

Lemma arp_short old buff off :
  (exists a1 a2 a3 a4 a5 a6 a7 a8 a9, old = arp_init a1 a2 a3 a4 a5 a6 a7 a8 a9) ->
  (List.length buff < off + 28)%nat -> arp_unpack old buff off = Err UnpackException.
Proof.
  intros (a1 & a2 & a3 & a4 & a5 & a6 & a7 & a8 & a9 & ->) L. unfold arp_unpack, net_unpack.
  destruct buff as [|b0 bt] eqn:EB; [reflexivity|]. rewrite <- EB in *.
  assert (NE : buff <> []) by (subst; discriminate).
  assert (F : Forall2 (fun p w => leaf_width (snd p) w /\ (0 < w)%nat) arp_fields [2; 2; 1; 1; 2; 6; 4; 6; 4]%nat).
  { unfold arp_fields. repeat (constructor; [split; [constructor|lia]|]). constructor. }
  destruct (Nat.le_gt_cases off (List.length buff)) as [O|O].
  - rewrite (fields_short _ _ _ buff off F NE); [reflexivity|exact L|exact O].
  - subst buff. cbn [arp_fields unpack_fields].
    destruct (leaf_step (VUInt 2 None VNone) 2 (b0 :: bt) off (lw_int _ _)) as [SH _].
    rewrite SH; [reflexivity|lia|lia].
Qed.

(** ** VLAN *)

Lemma tci_bits p c v : 0 <= p -> 0 <= c <= 1 -> 0 <= v <= 4095 ->
  Z.lor (Z.lor (Z.shiftl p 13) (Z.shiftl c 12)) v = p * 8192 + c * 4096 + v.
Proof.
  intros P C V.
  assert (E : 0 <= Z.shiftl c 12 < 2 ^ 13).
  { rewrite Z.shiftl_mul_pow2 by lia. change (2 ^ 12) with 4096. change (2 ^ 13) with 8192. lia. }
  rewrite (lor_shift p 13) by (lia || exact E).
  rewrite Z.shiftl_mul_pow2 by lia. change (2 ^ 13) with 8192. change (2 ^ 12) with 4096.
  replace (p * 8192 + c * 4096) with (Z.shiftl (p * 2 + c) 12).
  2:{ rewrite Z.shiftl_mul_pow2 by lia. change (2 ^ 12) with 4096. lia. }
  rewrite lor_shift by (lia || (change (2 ^ 12) with 4096; lia)). rewrite Z.shiftl_mul_pow2 by lia. reflexivity.
Qed.

Lemma vlan_enc tp tc ztp ztc : int_of 2 tp ztp -> int_of 2 tc ztc ->
  enc_fields 1 SD true vlan_fields [tp; tc] (be_encode 2 ztp ++ be_encode 2 ztc ++ [])
    [got_int 2 ztp; got_int 2 ztc].
Proof.
  intros. unfold vlan_fields.
  apply f_cons; [apply enc_int; [lia|assumption]|].
  apply f_cons; [apply enc_int; [lia|assumption]|]. apply f_nil.
Qed.


Lemma unset_or0 o z : unset0 o z -> or0 o = z.
Proof. intros [-> | [-> ->] ]; reflexivity. Qed.

Lemma vlan_pack_tag v t : tags_of v [t] -> vlan_pack v = (touched v t, Ok (tag_wire t)).
Proof.
  intros [[_ E]|(A & t' & E & TO & TP & P & C & V)]; [discriminate|]. injection E as <-.
  apply unset_or0 in P, C, V. destruct TO as (T & RP & RC & RV).
  assert (G : vlan_pack v =
    let v' := mk_vlan (vl_tpid v)
      (VInt (Z.lor (Z.lor (Z.shiftl (or0 (vl_pcp v)) 13) (Z.shiftl (or0 (vl_cfi v)) 12)) (or0 (vl_vid v))))
      (Some (or0 (vl_pcp v))) (Some (or0 (vl_cfi v))) (Some (or0 (vl_vid v))) in
    (v', net_pack vlan_fields (vlan_dict v'))).
  { unfold vlan_pack. destruct (vl_pcp v) eqn:E1, (vl_cfi v) eqn:E2, (vl_vid v) eqn:E3; try reflexivity.
    exfalso. apply A. split; [exact E1|split; [exact E2|exact E3] ]. }
  rewrite G, P, C, V, tci_bits by lia. cbv zeta. f_equal.
  assert (T2 : fits 2 (t_tpid t)) by (apply fits2; lia).
  assert (T3 : fits 2 (tci_of t)) by (apply fits2; unfold tci_of; lia).
  pose proof (vlan_enc (VInt (t_tpid t)) (VInt (tci_of t)) _ _ (int_of_int _ _ T2) (int_of_int _ _ T3)) as E.
  apply net_fields in E; [|unfold FUEL; lia]. destruct E as (_ & _ & Pk & _).
  unfold net_pack, net_zip, vlan_dict, vlan_fields. cbn [filter existsb fst snd String.eqb Ascii.eqb Bool.eqb orb vl_tpid vl_tci map].
  rewrite TP. unfold vlan_fields in Pk. cbn [map snd] in Pk. unfold tci_of in *. rewrite Pk, app_nil_r. unfold tag_wire.
  apply fits2 in T2, T3. rewrite !be2 by assumption. reflexivity.
Qed.
Lemma vlan_pack_none v : tags_of v [] -> vlan_pack v = (v, Ok []).
Proof.
  intros [[(P & C & V) _]|(_ & t & E & _)]; [|discriminate]. unfold vlan_pack. rewrite P, C, V. reflexivity.
Qed.

(** Any four bytes. *)
Lemma vlan_any old pre a b c d suf : is_byte a -> is_byte b -> is_byte c -> is_byte d ->
  let tpid := a * 256 + b in let tci := c * 256 + d in
  vlan_unpack old (pre ++ [a; b; c; d] ++ suf) (List.length pre) =
  if tpid =? 0 then Ok (mk_vlan (VInt 0x8100) (got_int 2 tci) None None None)
  else if (tpid =? 0x8100) || (tpid =? 0x88a8)
  then Ok (mk_vlan (VInt tpid) (got_int 2 tci)
             (Some (tci / 8192)) (Some (tci / 4096 mod 2)) (Some (tci mod 4096)))
  else Err UnpackException.
Proof.
  intros A B C D. cbv zeta. set (tpid := a * 256 + b). set (tci := c * 256 + d).
  assert (F1 : fits 2 tpid) by (apply pair_fits; assumption).
  assert (F2 : fits 2 tci) by (apply pair_fits; assumption).
  pose proof (vlan_enc (VInt tpid) (VInt tci) _ _ (int_of_int _ _ F1) (int_of_int _ _ F2)) as E.
  apply net_fields in E; [|unfold FUEL; lia]. destruct E as (_ & _ & _ & U).
  apply fits2 in F1, F2. rewrite !be2, app_nil_r in U by assumption.
  rewrite (two_pair a b A B : two tpid = [a; b]) in U. rewrite (two_pair c d C D : two tci = [c; d]) in U. cbn [app] in U.
  unfold vlan_unpack, net_unpack. cbn [app]. rewrite U; [|discriminate|].
  2:{ apply (app_ne pre [a; b; c; d] suf). discriminate. }
  cbn [bind fst]. unfold vlan_dict, vlan_fields. cbn [map fst set_all set_attr String.eqb Ascii.eqb Bool.eqb].
  unfold field_int, field_value, attr_or_error. cbn [get_attr String.eqb Ascii.eqb Bool.eqb bind dot_value].
  change (generic_value None (VInt tpid)) with (VInt tpid). unfold got_int at 1. cbn [dot_value].
  change (generic_value None (VInt tpid)) with (VInt tpid). cbn [as_int bind].
  destruct (tpid =? 0); [reflexivity|].
  change ET_VLAN with 0x8100. change ET_QINQ with 0x88a8.
  destruct ((tpid =? 0x8100) || (tpid =? 0x88a8)); [|reflexivity].
  change (dot_value (got_int 2 tci)) with (Some (VInt tci)). cbn [bind as_int].
  rewrite !shr by lia. rewrite (land_ones' _ 1 1), (land_ones' _ 12 4095) by (reflexivity || lia). reflexivity.
Qed.

Lemma tag_wire_4 t : tag_ok t -> exists a b c d, tag_wire t = [a; b; c; d] /\
  is_byte a /\ is_byte b /\ is_byte c /\ is_byte d /\ a * 256 + b = t_tpid t /\ c * 256 + d = tci_of t /\
  is_tag a b = true.
Proof.
  intros (T & P & C & V). unfold tag_wire, two, tci_of. cbn [app].
  set (x := t_pcp t * 8192 + t_cfi t * 4096 + t_vid t).
  assert (X : 0 <= x < 65536) by (unfold x; lia).
  exists (t_tpid t / 256), (t_tpid t mod 256), (x / 256), (x mod 256). split; [reflexivity|].
  unfold is_byte. destruct T as [-> | ->].
  - change (0x8100 / 256) with 0x81. change (0x8100 mod 256) with 0. repeat split; lia.
  - change (0x88a8 / 256) with 0x88. change (0x88a8 mod 256) with 0xa8. repeat split; lia.
Qed.

Lemma vlan_decode old pre t suf : tag_ok t ->
  vlan_unpack old (pre ++ tag_wire t ++ suf) (List.length pre) = Ok (got_vlan t).
Proof.
  intros TO. destruct (tag_wire_4 t TO) as (a & b & c & d & -> & A & B & C & D & E1 & E2 & _).
  rewrite vlan_any by assumption. rewrite E1, E2. destruct TO as (T & P & Cf & V). unfold got_vlan, got_int, tci_of in *.
  set (x := t_pcp t * 8192 + t_cfi t * 4096 + t_vid t).
  assert (X1 : x / 8192 = t_pcp t) by (unfold x; lia).
  assert (X2 : x / 4096 mod 2 = t_cfi t) by (unfold x; lia).
  assert (X3 : x mod 4096 = t_vid t) by (unfold x; lia).
  rewrite X1, X2, X3. destruct T as [-> | ->]; reflexivity.
Qed.

(** ** Ethernet *)

Lemma vlans_pack_tags vs ls : Forall2 tags_of vs ls ->
  snd (vlans_pack vs) = Ok (flat_map tag_wire (List.concat ls)).
Proof.
  induction 1 as [|v l vs ls T F IH]; [reflexivity|]. cbn [vlans_pack List.concat].
  destruct T as [[A E]|(A & t & E & T)].
  - subst l. rewrite (vlan_pack_none v) by (left; auto). cbn [snd]. rewrite IH. reflexivity.
  - subst l. rewrite (vlan_pack_tag v t) by (right; eauto). cbn [snd]. rewrite IH. reflexivity.
Qed.

Lemma got_vlan_size t : vlan_size (got_vlan t) = Ok 4.
Proof. reflexivity. Qed.

Lemma vlans_unpack_tags tags : Forall tag_ok tags -> forall k pre,
  (List.length tags <= k)%nat ->
  vlans_unpack k (pre ++ flat_map tag_wire tags) (List.length pre) = Ok (map got_vlan tags).
Proof.
  induction 1 as [|t tags T F IH]; intros k pre K.
  - cbn [flat_map map]. rewrite app_nil_r. destruct k; cbn [vlans_unpack]; rewrite Nat.ltb_irrefl; reflexivity.
  - cbn [List.length] in K. destruct k as [|k]; [lia|]. cbn [vlans_unpack flat_map map].
    destruct (tag_wire_4 t T) as (a & b & c & d & E & _).
    rewrite (proj2 (Nat.ltb_lt _ _)) by (rewrite E, !app_length; cbn [List.length]; lia).
    rewrite vlan_decode by exact T. cbn [bind]. rewrite got_vlan_size. cbn [bind].
    replace (List.length pre + Z.to_nat 4)%nat with (List.length (pre ++ tag_wire t))
      by (rewrite app_length, E; cbn [List.length]; lia).
    rewrite app_assoc, IH by lia. reflexivity.
Qed.

Lemma tag_wire_len t : tag_ok t -> List.length (tag_wire t) = 4%nat.
Proof. intros. reflexivity. Qed.
Lemma tags_len tags : List.length (flat_map tag_wire tags) = (4 * List.length tags)%nat.
Proof. induction tags as [|t tags IH]; [reflexivity|]. cbn [flat_map]. rewrite app_length, IH. cbn [List.length]. change (List.length (tag_wire t)) with 4%nat. lia. Qed.

Lemma tag_bytes_tags tags x y rest : Forall tag_ok tags -> is_tag x y = false ->
  tag_bytes (flat_map tag_wire tags ++ x :: y :: rest) = (4 * List.length tags)%nat.
Proof.
  intros F N. induction F as [|t tags T F IH].
  - cbn [flat_map app tag_bytes List.length]. rewrite N. destruct rest as [|z [|w tl] ]; reflexivity.
  - cbn [flat_map]. destruct (tag_wire_4 t T) as (a & b & c & d & E & _ & _ & _ & _ & _ & _ & IT).
    rewrite E. cbn [app tag_bytes]. rewrite IT, IH. cbn [List.length]. lia.
Qed.

Lemma sum_sizes tags : sumM vlan_size (map got_vlan tags) = Ok (4 * zlen tags).
Proof.
  induction tags as [|t tags IH]; [reflexivity|]. cbn [map sumM]. rewrite got_vlan_size, IH. cbn [bind].
  rewrite zlen_cons. f_equal. lia.
Qed.

Lemma leaf_of_enc n cv iv bs out k : (n <= FUEL)%nat -> enc n k true cv iv bs out ->
  pack1 pack cv iv = Ok bs /\
  (forall pre suf, (k = TAIL -> suf = []) -> pre ++ bs ++ suf <> [] ->
     unpack (deepcopy cv) (pre ++ bs ++ suf) (List.length pre) = Ok out) /\
  get_size out = Ok (zlen bs).
Proof.
  intros N H. destruct (proj1 soundness _ _ _ _ _ _ _ H) as (P & _ & U & S & _). split; [|split].
  - eapply le_ok; [|exact P]. apply le_pack1, le_pack_full.
  - intros pre suf K NE. eapply le_ok; [|exact (U pre suf K NE)]. unfold unpack. apply unpack0_mono, N.
  - eapply le_ok; [|exact S]. apply le_size_full.
Qed.


Lemma eth_packs d s vs ls t x dst src ty data :
  mac_of d dst -> mac_of s src -> Forall2 tags_of vs ls -> int_of 2 t ty -> data_of x data ->
  snd (eth_pack (mk_eth d s vs t x)) = Ok (frame dst src (List.concat ls) ty data).
Proof.
  intros D S V T X. unfold eth_pack, hw_attr, type_attr, data_attr. cbn [e_destination e_source e_vlans e_ether_type e_data].
  destruct (leaf_of_enc 1 _ _ _ _ _ ltac:(unfold FUEL; lia) (enc_mac 0 d dst (VStr (txt "00:00:00:00:00:00")) D)) as (-> & _).
  destruct (leaf_of_enc 1 _ _ _ _ _ ltac:(unfold FUEL; lia) (enc_mac 0 s src (VStr (txt "00:00:00:00:00:00")) S)) as (-> & _).
  cbn [bind snd]. rewrite (vlans_pack_tags _ _ V). cbn [bind].
  destruct (leaf_of_enc 1 _ _ _ _ _ ltac:(unfold FUEL; lia) (enc_int 0 2 t ty VNone ltac:(lia) T)) as (-> & _).
  destruct (leaf_of_enc 2 _ _ _ _ _ ltac:(unfold FUEL; lia) (enc_data 0 x data X)) as (-> & _).
  cbn [bind]. unfold frame. rewrite be2 by (apply fits2; apply T). rewrite <- app_assoc. reflexivity.
Qed.

Lemma eth_decodes dst src tags ty data :
  wf_bytes dst -> List.length dst = 6%nat -> wf_bytes src -> List.length src = 6%nat ->
  Forall tag_ok tags -> 0 <= ty < 65536 -> ty <> 0x8100 -> ty <> 0x88a8 ->
  eth_unpack (frame dst src tags ty data) 0 = Ok (eth_got dst src tags ty data).
Proof.
  intros W1 L1 W2 L2 TO T N1 N2.
  assert (MO : forall bs, wf_bytes bs -> List.length bs = 6%nat -> mac_of (VStr (hex_canonical bs)) bs).
  { intros bs W L. split; [exact L|]. exists (hex_canonical bs). split; [apply hex_canonical_text, W|auto]. }
  unfold eth_unpack, frame. set (buff := dst ++ src ++ flat_map tag_wire tags ++ two ty ++ data).
  assert (VL : vlan_length buff = (4 * List.length tags)%nat).
  { unfold vlan_length, buff. rewrite app_assoc, skipn_app_exact by (rewrite app_length; lia).
    unfold two. cbn [app]. apply tag_bytes_tags; [exact TO|]. unfold is_tag. lia. }
  rewrite VL.
  destruct (leaf_of_enc 1 _ _ _ _ _ ltac:(unfold FUEL; lia) (enc_mac 0 _ dst (VStr (txt "00:00:00:00:00:00")) (MO _ W1 L1))) as (_ & U1 & S1).
  destruct (leaf_of_enc 1 _ _ _ _ _ ltac:(unfold FUEL; lia) (enc_mac 0 _ src (VStr (txt "00:00:00:00:00:00")) (MO _ W2 L2))) as (_ & U2 & S2).
  assert (T2 : fits 2 ty) by (apply fits2; lia).
  destruct (leaf_of_enc 1 _ _ _ _ _ ltac:(unfold FUEL; lia) (enc_int 0 2 (VInt ty) ty VNone ltac:(lia) (int_of_int _ _ T2))) as (_ & U3 & S3).
  destruct (leaf_of_enc 2 _ _ _ _ _ ltac:(unfold FUEL; lia) (enc_data 0 (VBytes data) data (or_introl eq_refl))) as (_ & U4 & S4).
  cbn [deepcopy] in U1, U2, U3, U4. rewrite be2 in U3, S3 by exact T.
  specialize (U1 [] (src ++ flat_map tag_wire tags ++ two ty ++ data) ltac:(discriminate)).
  cbn [app List.length] in U1. fold buff in U1.
  assert (NE : buff <> []). { unfold buff. destruct dst; discriminate. }
  change hw_attr with (VHW (VStr (txt "00:00:00:00:00:00"))).
  rewrite (U1 NE). cbn [bind]. rewrite S1. cbn [bind]. rewrite zlen_to_nat. cbn [plus].
  specialize (U2 dst (flat_map tag_wire tags ++ two ty ++ data) ltac:(discriminate)). fold buff in U2.
  rewrite (U2 NE). cbn [bind]. rewrite S2. cbn [bind]. rewrite zlen_to_nat.
  assert (SL : slice (List.length dst + List.length src) (List.length dst + List.length src + 4 * List.length tags) buff
               = flat_map tag_wire tags).
  { unfold buff. rewrite app_assoc. apply slice_mid; rewrite app_length; [lia|]. rewrite tags_len. lia. }
  rewrite SL. rewrite (vlans_unpack_tags tags TO _ []).
  2:{ rewrite tags_len. lia. }
  cbn [bind]. rewrite sum_sizes. cbn [bind].
  specialize (U3 (dst ++ src ++ flat_map tag_wire tags) data ltac:(discriminate)).
  rewrite <- !app_assoc in U3. fold buff in U3. change type_attr with (VUInt 2 None VNone).
  replace (List.length dst + List.length src + Z.to_nat (4 * zlen tags))%nat
    with (List.length (dst ++ src ++ flat_map tag_wire tags))
    by (rewrite !app_length, tags_len; unfold zlen; lia).
  rewrite (U3 NE). cbn [bind]. rewrite S3. cbn [bind].
  specialize (U4 (dst ++ src ++ flat_map tag_wire tags ++ two ty) [] ltac:(auto)).
  rewrite app_nil_r, <- !app_assoc in U4. fold buff in U4. change data_attr with (VBin VNone).
  replace (List.length (dst ++ src ++ flat_map tag_wire tags) + Z.to_nat (zlen (two ty)))%nat
    with (List.length (dst ++ src ++ flat_map tag_wire tags ++ two ty))
    by (rewrite !app_length; unfold zlen; lia).
  rewrite (U4 NE). cbn [bind]. rewrite S4. reflexivity.
Qed.

Lemma hex_text_wf s bs : hex_text s bs -> wf_bytes bs.
Proof. intros (ps & _ & H). induction H; constructor; [eapply hex_byte_wf; eauto|auto]. Qed.

Lemma tags_concat vs ls : Forall2 tags_of vs ls -> Forall tag_ok (List.concat ls).
Proof.
  induction 1 as [|v l vs ls T F IH]; [constructor|]. cbn [List.concat]. apply Forall_app. split; [|exact IH].
  destruct T as [[_ ->]|(_ & t & -> & TO & _)]; [constructor|]. constructor; [exact TO|constructor].
Qed.

Lemma eth_roundtrip d s vs ls t x dst src ty data :
  mac_of d dst -> mac_of s src -> Forall2 tags_of vs ls -> int_of 2 t ty ->
  ty <> 0x8100 -> ty <> 0x88a8 -> data_of x data ->
  exists bs, snd (eth_pack (mk_eth d s vs t x)) = Ok bs /\ bs = frame dst src (List.concat ls) ty data /\
  eth_unpack bs 0 = Ok (eth_got dst src (List.concat ls) ty data).
Proof.
  intros D S V T N1 N2 X. exists (frame dst src (List.concat ls) ty data).
  split; [apply eth_packs; assumption|]. split; [reflexivity|].
  destruct D as (L1 & s1 & H1 & _). destruct S as (L2 & s2 & H2 & _).
  apply eth_decodes; try assumption.
  - eapply hex_text_wf; eauto.
  - eapply hex_text_wf; eauto.
  - eapply tags_concat; eauto.
  - apply fits2. apply T.
Qed.

Lemma vlan_repeat v : vlan_pack (fst (vlan_pack v)) = vlan_pack v.
Proof.
  unfold vlan_pack at 2 3. destruct (vl_pcp v) eqn:E1, (vl_cfi v) eqn:E2, (vl_vid v) eqn:E3; try reflexivity.
  cbn [fst]. unfold vlan_pack. rewrite E1, E2, E3. reflexivity.
Qed.
Lemma vlans_repeat l : vlans_pack (fst (vlans_pack l)) = vlans_pack l.
Proof.
  induction l as [|v l IH]; [reflexivity|]. cbn [vlans_pack]. pose proof (vlan_repeat v) as R.
  destruct (vlan_pack v) as [v' [b|e] ] eqn:E; cbn [fst] in *; cbn [vlans_pack]; rewrite R.
  - rewrite IH. reflexivity.
  - reflexivity.
Qed.
Lemma eth_repeat e : eth_pack (fst (eth_pack e)) = eth_pack e.
Proof.
  unfold eth_pack at 2 3.
  destruct (do d <- pack1 pack hw_attr (e_destination e); do s <- pack1 pack hw_attr (e_source e); Ok (d ++ s)) as [hd0|x] eqn:E.
  - cbn [fst]. unfold eth_pack. cbn [e_destination e_source e_vlans e_ether_type e_data].
    rewrite E, vlans_repeat. reflexivity.
  - cbn [fst]. unfold eth_pack. rewrite E. reflexivity.
Qed.

(** ** TLVs *)

Lemma value_packs v bs : value_of v bs -> call_pack v = Ok bs.
Proof.
  intros [-> | [(-> & ->)|(w & z & -> & W & B)] ].
  - reflexivity.
  - reflexivity.
  - apply big_endian_unique in B as [-> F]. unfold call_pack. cbn [has_pack].
    destruct (uint_pack_unpack w z W F) as (bs & P & B & _). rewrite P.
    apply big_endian_unique in B as [-> _]. reflexivity.
Qed.

Lemma tlv_value_carries x t value : carries x t value -> tlv_value x = Ok value /\ tlv_type x = t.
Proof.
  intros (T & L & H). destruct x as [t' v|t' st sv].
  - destruct H as [-> H]. split; [exact (value_packs _ _ H)|reflexivity].
  - destruct H as (-> & rest & -> & B & H). split; [|reflexivity]. cbn [tlv_value].
    rewrite uint_struct_ok by (unfold ulimit; change (256 ^ Z.of_nat 1) with 256; exact B).
    rewrite (value_packs _ _ H), be1 by exact B. reflexivity.
Qed.

Lemma tlv_head t n : 0 <= t <= 127 -> 0 <= n <= 511 ->
  Z.lor (Z.shiftl (Z.land t 127) 9) (Z.land n 511) = t * 512 + n.
Proof.
  intros T N. rewrite (land_ones' t 7 127), (land_ones' n 9 511) by (reflexivity || lia).
  change (2 ^ 7) with 128. change (2 ^ 9) with 512. rewrite !Z.mod_small by lia.
  rewrite lor_shift; change (2 ^ 9) with 512; lia.
Qed.

Lemma tlv_packs x t value : carries x t value ->
  tlv_pack x = Ok (tlv_wire t value) /\ tlv_size x = Ok (2 + zlen value).
Proof.
  intros C. destruct (tlv_value_carries _ _ _ C) as [V T]. destruct C as (T7 & L & _).
  unfold tlv_pack, tlv_size. rewrite V, T. cbn [bind]. split; [|reflexivity].
  pose proof (zlen_nonneg value). rewrite tlv_head by lia.
  rewrite uint_struct_ok by (rewrite ulimit2; lia). cbn [bind]. unfold tlv_wire. rewrite be2 by lia. reflexivity.
Qed.

Lemma head_unpack pre z rest : 0 <= z < 65536 ->
  struct_unpack_u 2 (slice (List.length pre) (List.length pre + 2) (pre ++ two z ++ rest)) 0 = Ok z.
Proof.
  intros H. rewrite (slice_mid pre (two z) rest) by (unfold two; cbn [List.length]; lia).
  rewrite <- be2 by lia. unfold struct_unpack_u. cbn [plus]. unfold slice.
  rewrite firstn_all2 by (rewrite be_encode_length; lia). cbn [skipn]. rewrite be_encode_length. cbn [Nat.eqb].
  rewrite be_decode_encode by (rewrite ulimit2; lia). reflexivity.
Qed.

Lemma tlv_decodes x x0 t value pre suf : carries x t value -> is_sub x0 = is_sub x ->
  tlv_unpack x0 (pre ++ tlv_wire t value ++ suf) (List.length pre) = Ok (got_tlv x t value).
Proof.
  intros (T & L & C) I. pose proof (zlen_nonneg value). unfold tlv_unpack, tlv_wire. rewrite <- app_assoc.
  rewrite head_unpack by lia. cbn [recast bind].
  rewrite shr, (land_ones' _ 9 511) by (reflexivity || lia). change (2 ^ 9) with 512.
  replace ((t * 512 + zlen value) / 512) with t by lia.
  replace ((t * 512 + zlen value) mod 512) with (zlen value) by lia. rewrite zlen_to_nat.
  set (h := two (t * 512 + zlen value)). assert (LH : List.length h = 2%nat) by reflexivity.
  assert (SL : forall b m r, value = b ++ m ++ r ->
    slice (List.length pre + 2 + List.length b) (List.length pre + 2 + List.length b + List.length m) (pre ++ h ++ value ++ suf) = m).
  { intros b m r ->. rewrite !app_assoc. rewrite <- !app_assoc. rewrite (app_assoc pre h), (app_assoc (pre ++ h) b).
    apply slice_mid; rewrite !app_length; lia. }
  destruct x0 as [t0 v0|t0 st0 sv0], x as [t1 v1|t1 st1 sv1]; try discriminate I.
  - specialize (SL [] value [] ltac:(rewrite app_nil_r; reflexivity)). cbn [List.length] in SL. rewrite !Nat.add_0_r in SL.
    rewrite SL. reflexivity.
  - destruct C as (-> & rest & EV & B & _).
    pose proof (SL [] [st1] rest EV) as S1. cbn [List.length] in S1. rewrite !Nat.add_0_r in S1. rewrite S1.
    unfold struct_unpack_u at 1. cbn [slice plus firstn skipn List.length Nat.eqb recast bind].
    pose proof (SL [st1] rest [] ltac:(rewrite app_nil_r; exact EV)) as S2. cbn [List.length] in S2.
    replace (List.length pre + 2 + List.length value)%nat with (List.length pre + 2 + 1 + List.length rest)%nat
      by (rewrite EV; cbn [List.length]; lia).
    rewrite S2, EV. reflexivity.
Qed.

Lemma value_of_got t x value : carries x t value -> carries (got_tlv x t value) t value.
Proof.
  intros (T & L & C). destruct x as [t' v|t' st sv]; (split; [exact T|split; [exact L|]]).
  - split; [reflexivity|]. left. reflexivity.
  - destruct C as (-> & rest & -> & B & _). split; [reflexivity|]. exists rest. cbn [hd tl].
    split; [reflexivity|]. split; [exact B|]. left. reflexivity.
Qed.

(** ** LLDP *)

Lemma lldp_attr_ok cv x t value pre suf : carries x t value -> is_sub cv = is_sub x ->
  lldp_attr cv (pre ++ tlv_wire t value ++ suf) (List.length pre)
  = Ok (got_tlv x t value, List.length (pre ++ tlv_wire t value)).
Proof.
  intros C I. unfold lldp_attr. destruct (pre ++ tlv_wire t value ++ suf) as [|b0 bt] eqn:E.
  - exfalso. revert E. apply app_ne. discriminate.
  - rewrite <- E. rewrite (tlv_decodes x cv t value pre suf C I). cbn [bind].
    rewrite (proj2 (tlv_packs _ _ _ (value_of_got _ _ _ C))). cbn [bind]. f_equal. f_equal.
    rewrite app_length. unfold tlv_wire. rewrite app_length. change (List.length (two (t * 512 + zlen value))) with 2%nat.
    unfold zlen. lia.
Qed.

Lemma lldp_roundtrip a b c d ta tb tc td va vb vc vd pre suf :
  carries a ta va -> carries b tb vb -> carries c tc vc -> carries d td vd ->
  is_sub a = true -> is_sub b = true -> is_sub c = false -> is_sub d = false ->
  let bs := tlv_wire ta va ++ tlv_wire tb vb ++ tlv_wire tc vc ++ tlv_wire td vd in
  lldp_pack (mk_lldp a b c d) = Ok bs /\
  lldp_unpack (pre ++ bs ++ suf) (List.length pre)
  = Ok (mk_lldp (got_tlv a ta va) (got_tlv b tb vb) (got_tlv c tc vc) (got_tlv d td vd)).
Proof.
  intros A B C D IA IB IC ID bs. split.
  - unfold lldp_pack. cbn [l_chassis l_port l_ttl l_end lldp_default].
    destruct a; [discriminate|]. destruct b; [discriminate|]. cbn [tlv_pack1].
    rewrite (proj1 (tlv_packs _ _ _ A)), (proj1 (tlv_packs _ _ _ B)), (proj1 (tlv_packs _ _ _ C)),
      (proj1 (tlv_packs _ _ _ D)). reflexivity.
  - unfold lldp_unpack. cbn [l_chassis l_port l_ttl l_end lldp_default]. unfold bs. rewrite <- !app_assoc.
    rewrite (lldp_attr_ok _ a ta va pre _ A) by (rewrite IA; reflexivity). cbn [bind snd fst].
    rewrite (app_assoc pre).
    rewrite (lldp_attr_ok _ b tb vb _ _ B) by (rewrite IB; reflexivity). cbn [bind snd fst].
    rewrite (app_assoc (pre ++ _)).
    rewrite (lldp_attr_ok _ c tc vc _ _ C) by (rewrite IC; reflexivity). cbn [bind snd fst].
    rewrite (app_assoc ((pre ++ _) ++ _)).
    rewrite (lldp_attr_ok _ d td vd _ _ D) by (rewrite ID; reflexivity). reflexivity.
Qed.
