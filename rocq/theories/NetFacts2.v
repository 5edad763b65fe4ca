(** Facts about the IPv4 and IPv6 packet classes. *)
From Coq Require Import ZArith List Bool String Lia ZifyBool ZifyNat.
From Verif Require Import MsgBody Base PyText Ids PyVal Classes Interp Addr BaseFacts TextFacts Spec SpecBasic
  ClassFacts LeafFacts StructFacts Soundness FuelFacts Totality IntFacts AddrFacts NetTypes SpecNet NetFacts.
Import ListNotations.
Open Scope string_scope.
Open Scope list_scope.
Open Scope Z_scope.
Ltac Zify.zify_post_hook ::= Z.div_mod_to_equations.

(** ** One's complement sums *)

Lemma fold_step s : 0 <= s -> Z.land s 65535 + Z.shiftr s 16 = s mod 65536 + s / 65536.
Proof.
  intros H. rewrite (land_ones' s 16 65535), shr by (reflexivity || lia). change (2 ^ 16) with 65536. reflexivity.
Qed.
Lemma fold_carry_ok k : forall s, 0 <= s <= 65535 * 2 ^ Z.of_nat k ->
  exists r, fold_carry k s = Ok r /\ 0 <= r <= 65535 /\ (exists q, s = r + 65535 * q) /\ (0 < s <-> 0 < r).
Proof.
  induction k as [|k IH]; intros s H.
  - change (2 ^ Z.of_nat 0) with 1 in H. exists s. cbn [fold_carry].
    destruct (Z.ltb_spec 65535 s); [lia|]. split; [reflexivity|]. split; [lia|]. split; [exists 0; lia|lia].
  - cbn [fold_carry]. destruct (Z.ltb_spec 65535 s) as [G|G].
    2:{ exists s. split; [reflexivity|]. split; [lia|]. split; [exists 0; lia|lia]. }
    rewrite fold_step by lia. rewrite Nat2Z.inj_succ, Z.pow_succ_r in H by lia.
    pose proof (Z.pow_pos_nonneg 2 (Z.of_nat k) ltac:(lia) ltac:(lia)) as P. set (t := 2 ^ Z.of_nat k) in *.
    destruct (IH (s mod 65536 + s / 65536)) as (r & E & R & (q & Q) & Pos); [lia|].
    exists r. split; [exact E|]. split; [exact R|]. split; [|lia].
    exists (q + s / 65536). lia.
Qed.
Lemma fold_carry_full s : 0 <= s ->
  exists r, fold_carry (S (Z.to_nat (Z.log2 s))) s = Ok r /\ 0 <= r <= 65535 /\
    (exists q, s = r + 65535 * q) /\ (0 < s <-> 0 < r).
Proof.
  intros H. apply fold_carry_ok. split; [exact H|].
  destruct (Z.eq_dec s 0) as [->|N]; [lia|]. destruct (Z.log2_spec s ltac:(lia)) as [_ L].
  rewrite Nat2Z.inj_succ, Z2Nat.id by apply Z.log2_nonneg. lia.
Qed.
Lemma complement r : 0 <= r <= 65535 -> Z.land (Z.lnot r) 65535 = 65535 - r.
Proof.
  intros H. rewrite (land_ones' _ 16 65535) by (reflexivity || lia). change (2 ^ 16) with 65536.
  unfold Z.lnot. lia.
Qed.

Definition zsum (l : list Z) : Z := fold_right Z.add 0 l.
Lemma oc_sum_ok l : Forall is_word l ->
  0 <= oc_sum l <= 65535 /\ 0 <= zsum l /\ (exists q, zsum l = oc_sum l + 65535 * q) /\ (0 < zsum l -> 0 < oc_sum l).
Proof.
  induction 1 as [|x l X F (R & S & (q & Q) & P)].
  - cbn. split; [lia|]. split; [lia|]. split; [exists 0; lia|lia].
  - unfold is_word in X. cbn [oc_sum zsum fold_right]. fold (zsum l). unfold oc_add.
    destruct (Z.ltb_spec (x + oc_sum l) 65536); (split; [lia|]); (split; [lia|]).
    + split; [exists q; lia|lia].
    + split; [exists (q + 1); lia|lia].
Qed.
Lemma oc_sum_total l : Forall is_word l -> 0 < zsum l -> (exists q, zsum l = 65535 * q) -> oc_sum l = 65535.
Proof. intros F P (q & Q). destruct (oc_sum_ok l F) as (R & _ & (q' & Q') & P'). specialize (P' P). lia. Qed.

(** ** IPv4 *)

Lemma octets_ok bs : wf_bytes bs ->
  forall a b c d, bs = [a; b; c; d] -> octets (VStr (dotted_dec bs)) = Ok [a; b; c; d].
Proof.
  intros W a b c d E. unfold octets. pose proof (dec_bytes_numerals bs W) as F.
  assert (S : split dot (dotted_dec bs) = map dec_byte bs).
  { unfold dotted_dec. rewrite separated_join. apply split_join.
    - subst bs. discriminate.
    - clear E W. induction F; constructor; auto. eapply dec_no_dot; eauto. }
  rewrite S. assert (M : mapM (py_int 10) (map dec_byte bs) = Ok bs).
  { clear S E. induction F as [|t z ts zs N F IH]; [reflexivity|]. cbn [mapM]. rewrite (py_int_dec _ _ N).
    inversion W; subst. rewrite IH by assumption. reflexivity. }
  rewrite M, E. reflexivity.
Qed.


Definition head_words (p : ipv4) (ihl total sum : Z) (s d : bytes) : list Z :=
  [(i_version p * 16 + ihl) * 256 + (i_dscp p * 4 + i_ecn p); total; i_identification p;
   i_flags p * 8192 + i_offset p; i_ttl p * 256 + i_protocol p; sum] ++ words_of s ++ words_of d.

Lemma lor_add8 a b : 0 <= b < 256 -> Z.lor (Z.shiftl a 8) b = a * 256 + b.
Proof. intros H. rewrite lor_shift; [reflexivity|lia|]. change (2 ^ 8) with 256. lia. Qed.

Lemma four_list (bs : bytes) : List.length bs = 4%nat -> exists a b c d, bs = [a; b; c; d].
Proof. destruct bs as [|a [|b [|c [|d [|] ] ] ] ]; try discriminate. intros _. exists a, b, c, d. reflexivity. Qed.

Lemma str_ip v bs : ip_of v bs -> (exists s, v = VStr s) -> v = VStr (dotted_dec bs) /\ wf_bytes bs /\ List.length bs = 4%nat.
Proof.
  intros (L & W & [->|(m & ->)]) (s & E); [auto|discriminate].
Qed.

Lemma version_ihl_ok p ihl : 0 <= ihl <= 15 -> Z.lor (Z.shiftl (i_version p) 4) ihl = i_version p * 16 + ihl.
Proof. intros H. rewrite lor_shift; [reflexivity|lia|]. change (2 ^ 4) with 16. lia. Qed.

Lemma ipv4_checksum_ok p src dst ihl total sum0 : ipv4_ok p src dst -> 0 <= ihl <= 15 -> 0 <= total <= 65535 ->
  exists sum, 0 <= sum <= 65535 /\ (0 < ihl -> sum < 65535) /\ ipv4_checksum (ipv4_after p ihl total sum0) = Ok sum /\
    oc_sum (head_words p ihl total sum src dst) = 65535.
Proof.
  intros (V & D & E & I & F & O & T & P & S1 & S2 & T1 & T2 & _) IH TO.
  destruct (str_ip _ _ S1 T1) as (A1 & W1 & L1). destruct (str_ip _ _ S2 T2) as (A2 & W2 & L2).
  destruct (four_list _ L1) as (s0 & s1 & s2 & s3 & E1). destruct (four_list _ L2) as (d0 & d1 & d2 & d3 & E2).
  unfold ipv4_checksum, ipv4_after. cbn [i_source i_destination i_length i_identification i_ttl i_protocol].
  rewrite A1, A2, (octets_ok src W1 _ _ _ _ E1), (octets_ok dst W2 _ _ _ _ E2). cbn [bind first_four].
  unfold version_ihl, dscp_ecn, flags_offset. cbn [i_version i_ihl i_dscp i_ecn i_flags i_offset].
  rewrite version_ihl_ok by lia.
  rewrite (lor_shift (i_dscp p) 2) by (change (2 ^ 2) with 4; lia).
  rewrite (lor_shift (i_flags p) 13) by (change (2 ^ 13) with 8192; lia).
  change (2 ^ 2) with 4. change (2 ^ 13) with 8192. rewrite !lor_add8 by lia.
  rewrite !Z.shiftl_mul_pow2 by lia. change (2 ^ 8) with 256.
  assert (B : forall x, In x (src ++ dst) -> 0 <= x < 256).
  { intros x X. apply in_app_or in X as [X|X]; [exact (proj1 (Forall_forall _ _) W1 x X)|exact (proj1 (Forall_forall _ _) W2 x X)]. }
  rewrite E1, E2 in B. cbn [app] in B.
  assert (B0 := B s0 ltac:(cbn; tauto)). assert (B1 := B s1 ltac:(cbn; tauto)).
  assert (B2 := B s2 ltac:(cbn; tauto)). assert (B3 := B s3 ltac:(cbn; tauto)).
  assert (C0 := B d0 ltac:(cbn; tauto)). assert (C1 := B d1 ltac:(cbn; tauto)).
  assert (C2 := B d2 ltac:(cbn; tauto)). assert (C3 := B d3 ltac:(cbn; tauto)). clear B.
  match goal with |- context [fold_carry _ ?x] => set (sm := x) end.
  assert (SM : 0 <= sm) by (unfold sm; lia).
  destruct (fold_carry_full sm SM) as (r & FC & R & (q & Q) & Pos).
  exists (65535 - r). split; [lia|]. split; [intros; assert (0 < sm) by (unfold sm; lia); lia|]. split.
  - rewrite FC. cbn [bind]. rewrite complement by lia. reflexivity.
  - unfold head_words. rewrite E1, E2. cbn [words_of app].
    set (l := [_; _; _; _; _; _; _; _; _; _]).
    assert (Z1 : zsum l = sm + (65535 - r)) by (unfold l, zsum, sm; cbn [fold_right]; lia).
    apply oc_sum_total.
    + unfold l. repeat (constructor; [unfold is_word; lia|]). constructor.
    + rewrite Z1. lia.
    + exists (q + 1). rewrite Z1, Q. lia.
Qed.

Lemma unpack_fields_app rec size A B : forall attrs buff o,
  unpack_fields rec size (A ++ B) attrs buff o
  = do r <- unpack_fields rec size A attrs buff o; unpack_fields rec size B (fst r) buff (snd r).
Proof.
  induction A as [|[name cv] A IH]; intros attrs buff o; [reflexivity|]. cbn [app unpack_fields].
  destruct buff; [apply IH|]. destruct (rec (deepcopy cv) (z :: buff) o); [|reflexivity]. cbn [bind].
  destruct (size a); [|reflexivity]. cbn [bind]. apply IH.
Qed.

Definition ipv4_head : dict := firstn 10 ipv4_fields.
Lemma ipv4_enc vi de len id fo ttl proto sum s d src dst :
  fits 1 vi -> fits 1 de -> fits 2 len -> fits 2 id -> fits 2 fo -> fits 1 ttl -> fits 1 proto -> fits 2 sum ->
  ip_of s src -> ip_of d dst ->
  enc_fields 1 SD true ipv4_head
    [VInt vi; VInt de; VInt len; VInt id; VInt fo; VInt ttl; VInt proto; VInt sum; s; d]
    (be_encode 1 vi ++ be_encode 1 de ++ be_encode 2 len ++ be_encode 2 id ++ be_encode 2 fo
     ++ be_encode 1 ttl ++ be_encode 1 proto ++ be_encode 2 sum ++ src ++ dst ++ [])
    [got_int 1 vi; got_int 1 de; got_int 2 len; got_int 2 id; got_int 2 fo; got_int 1 ttl; got_int 1 proto;
     got_int 2 sum; got_ip src; got_ip dst].
Proof.
  intros. unfold ipv4_head, ipv4_fields. cbn [firstn].
  do 8 (apply f_cons; [apply enc_int; [lia|apply int_of_int; assumption]|]).
  do 2 (apply f_cons; [apply enc_ip; assumption|]).
  apply f_nil.
Qed.

Lemma bin_tail pre bs : pre ++ bs <> [] ->
  unpack (VBin VNone) (pre ++ bs) (List.length pre) = Ok (VBin (VBytes bs)) /\ get_size (VBin (VBytes bs)) = Ok (zlen bs).
Proof.
  intros NE. destruct (leaf_of_enc 2 _ _ _ _ _ ltac:(unfold FUEL; lia) (enc_data 0 (VBytes bs) bs (or_introl eq_refl)))
    as (_ & U & S). specialize (U pre [] ltac:(auto)). rewrite app_nil_r in U. split; [exact (U NE)|exact S].
Qed.

Definition wire4 (vi de len id fo ttl proto sum : Z) (src dst rest : bytes) : bytes :=
  [vi; de] ++ two len ++ two id ++ two fo ++ [ttl; proto] ++ two sum ++ src ++ dst ++ rest.

Lemma ipv4_decode pre vi de len id fo ttl proto sum src dst rest :
  is_byte vi -> is_byte de -> 0 <= len < 65536 -> 0 <= id < 65536 -> 0 <= fo < 65536 -> is_byte ttl ->
  is_byte proto -> 0 <= sum < 65536 ->
  wf_bytes src -> List.length src = 4%nat -> wf_bytes dst -> List.length dst = 4%nat ->
  ipv4_unpack (pre ++ wire4 vi de len id fo ttl proto sum src dst rest) (List.length pre)
  = let n := (if 5 <? vi mod 16 then Z.to_nat ((vi mod 16 - 5) * 4) else O) in
    Ok (mk_ipv4 (vi / 16) (vi mod 16) (de / 4) (de mod 4) len id (fo / 8192) (fo mod 8192) ttl proto sum
         (VStr (dotted_dec src)) (VStr (dotted_dec dst)) (firstn n rest) (skipn n rest)).
Proof.
  intros B1 B2 F1 F2 F3 B3 B4 F4 W1 L1 W2 L2.
  assert (IO : forall bs, wf_bytes bs -> List.length bs = 4%nat -> ip_of (VStr (dotted_dec bs)) bs).
  { intros bs W L. split; [exact L|]. split; [exact W|auto]. }
  pose proof (ipv4_enc vi de len id fo ttl proto sum _ _ src dst
    ltac:(apply fits1; assumption) ltac:(apply fits1; assumption) ltac:(apply fits2; lia) ltac:(apply fits2; lia)
    ltac:(apply fits2; lia) ltac:(apply fits1; assumption) ltac:(apply fits1; assumption) ltac:(apply fits2; lia)
    (IO _ W1 L1) (IO _ W2 L2)) as E.
  apply net_fields in E; [|unfold FUEL; lia]. destruct E as (_ & _ & _ & U).
  rewrite !be2, (be1 _ B1), (be1 _ B2), (be1 _ B3), (be1 _ B4), app_nil_r in U by assumption.
  unfold ipv4_unpack, net_unpack.
  change (unpack_fields unpack get_size ipv4_fields) with
    (unpack_fields unpack get_size (ipv4_head ++ [("options", VBin VNone); ("data", VBin VNone)])).
  rewrite unpack_fields_app.
  set (h := [vi] ++ [de] ++ two len ++ two id ++ two fo ++ [ttl] ++ [proto] ++ two sum ++ src ++ dst) in *.
  assert (EQ : wire4 vi de len id fo ttl proto sum src dst rest = h ++ rest)
    by (unfold wire4, h; rewrite <- !app_assoc; reflexivity).
  rewrite EQ. rewrite (U pre rest ipv4_fields ltac:(discriminate) ltac:(apply app_ne; discriminate)).
  cbn [bind fst snd].
  assert (NE : pre ++ h ++ rest <> []) by (apply app_ne; discriminate).
  rewrite unpack_fields_cons by exact NE.
  assert (NE2 : (pre ++ h) ++ rest <> []) by (rewrite <- app_assoc; exact NE).
  destruct (bin_tail (pre ++ h) rest NE2) as [T1 S1].
  rewrite <- app_assoc, app_length in T1. cbn [deepcopy]. rewrite T1. cbn [bind]. rewrite S1. cbn [bind].
  rewrite unpack_fields_cons by exact NE. rewrite zlen_to_nat.
  destruct (bin_tail (pre ++ h ++ rest) [] ltac:(rewrite app_nil_r; exact NE)) as [T2 S2].
  rewrite app_nil_r, !app_length in T2. cbn [deepcopy].
  replace (List.length pre + List.length h + List.length rest)%nat
    with (List.length pre + (List.length h + List.length rest))%nat by lia.
  rewrite T2. cbn [bind]. rewrite S2. cbn [bind unpack_fields fst].
  set (st := set_attr "data" _ _).
  change st with [("_version_ihl", got_int 1 vi); ("_dscp_ecn", got_int 1 de); ("length", got_int 2 len);
    ("identification", got_int 2 id); ("_flags_offset", got_int 2 fo); ("ttl", got_int 1 ttl);
    ("protocol", got_int 1 proto); ("checksum", got_int 2 sum); ("source", got_ip src);
    ("destination", got_ip dst); ("options", VBin (VBytes rest)); ("data", VBin (VBytes []))].
  clear st. unfold field_int, field_value, attr_or_error.
  cbn [get_attr String.eqb Ascii.eqb Bool.eqb bind].
  assert (DV : forall w z, dot_value (got_int w z) = Some (VInt z)) by reflexivity.
  rewrite !DV. cbn [bind as_int].
  change (dot_value (got_ip src)) with (Some (VStr (dotted_dec src))).
  change (dot_value (got_ip dst)) with (Some (VStr (dotted_dec dst))).
  change (dot_value (VBin (VBytes rest))) with (Some (VBytes rest)). cbn [bind].
  rewrite (land_ones' vi 4 15), (land_ones' de 2 3), (land_ones' fo 13 8191), !shr by (reflexivity || lia).
  reflexivity.
Qed.

Lemma ipv4_prepare_ok p k : i_ihl p = 5 -> zlen (i_options p) = 4 * k -> 
  ipv4_prepare p = ipv4_after p (5 + k) (20 + 4 * k + zlen (i_data p)) (i_checksum p).
Proof.
  intros I L. unfold ipv4_prepare, ipv4_after. rewrite I.
  assert (E : match i_options p with [] => 5 | _ :: _ => 5 + zlen (i_options p) / 4 end = 5 + k).
  { destruct (i_options p) as [|o l] eqn:O; [change (zlen (@nil Z)) with 0 in L; lia|]. rewrite L. lia. }
  destruct (i_options p) as [|o l]; rewrite E; f_equal; lia.
Qed.

Lemma ipv4_net_pack p src dst ihl total sum :
  ipv4_ok p src dst -> 0 <= ihl <= 15 -> 0 <= total <= 65535 -> 0 <= sum <= 65535 ->
  net_pack ipv4_fields (ipv4_dict (ipv4_after p ihl total sum)) = Ok (ipv4_wire p ihl total sum src dst).
Proof.
  intros (V & D & E & I & F & O & T & P & S1 & S2 & T1 & T2 & WO & WD) IH TO SU.
  unfold net_pack.
  change (net_zip ipv4_fields (ipv4_dict (ipv4_after p ihl total sum)))
    with (combine (map snd ipv4_head)
      [VInt (version_ihl (ipv4_after p ihl total sum)); VInt (dscp_ecn (ipv4_after p ihl total sum)); VInt total;
       VInt (i_identification p); VInt (flags_offset (ipv4_after p ihl total sum)); VInt (i_ttl p);
       VInt (i_protocol p); VInt sum; i_source p; i_destination p]
      ++ [(VBin VNone, VBytes (i_options p)); (VBin VNone, VBytes (i_data p))]).
  unfold version_ihl, dscp_ecn, flags_offset. cbn [ipv4_after i_version i_ihl i_dscp i_ecn i_flags i_offset].
  rewrite version_ihl_ok by lia.
  rewrite (lor_shift (i_dscp p) 2) by (change (2 ^ 2) with 4; lia).
  rewrite (lor_shift (i_flags p) 13) by (change (2 ^ 13) with 8192; lia).
  change (2 ^ 2) with 4. change (2 ^ 13) with 8192.
  assert (EN := ipv4_enc (i_version p * 16 + ihl) (i_dscp p * 4 + i_ecn p) total (i_identification p)
    (i_flags p * 8192 + i_offset p) (i_ttl p) (i_protocol p) sum _ _ src dst
    ltac:(apply fits1; unfold is_byte; lia) ltac:(apply fits1; unfold is_byte; lia) ltac:(apply fits2; lia) ltac:(apply fits2; lia)
    ltac:(apply fits2; lia) ltac:(apply fits1; unfold is_byte; lia) ltac:(apply fits1; unfold is_byte; lia) ltac:(apply fits2; lia)
    S1 S2).
  apply net_fields in EN; [|unfold FUEL; lia]. destruct EN as (_ & _ & EN & _).
  destruct (leaf_of_enc 2 _ _ _ _ _ ltac:(unfold FUEL; lia) (enc_data 0 (VBytes (i_options p)) _ (or_introl eq_refl))) as (P1 & _).
  destruct (leaf_of_enc 2 _ _ _ _ _ ltac:(unfold FUEL; lia) (enc_data 0 (VBytes (i_data p)) _ (or_introl eq_refl))) as (P2 & _).
  rewrite (concatM_app _ _ _ _ (i_options p ++ i_data p) EN).
  - rewrite !be2, !be1, app_nil_r by (unfold is_byte; lia).
    unfold ipv4_wire. rewrite <- !app_assoc. reflexivity.
  - cbn [concatM fst snd]. rewrite P1, P2. cbn [bind]. rewrite app_nil_r. reflexivity.
Qed.

Lemma ipv4_roundtrip p src dst k : ipv4_ok p src dst -> i_ihl p = 5 -> zlen (i_options p) = 4 * k -> 0 <= k <= 10 ->
  20 + 4 * k + zlen (i_data p) <= 65535 ->
  let total := 20 + 4 * k + zlen (i_data p) in
  exists sum, 0 <= sum < 65535 /\
    let bs := ipv4_wire p (5 + k) total sum src dst in
    ipv4_pack p = (ipv4_after p (5 + k) total sum, Ok bs) /\
    zlen bs = total /\
    oc_sum (words_of (firstn 20 bs)) = 65535 /\
    forall pre, ipv4_unpack (pre ++ bs) (List.length pre) = Ok (ipv4_after p (5 + k) total sum).
Proof.
  intros OK I L K TL total. pose proof (zlen_nonneg (i_data p)) as ND.
  destruct (ipv4_checksum_ok p src dst (5 + k) total (i_checksum p) OK ltac:(lia) ltac:(lia)) as (sum & SU & SN & CK & OC).
  exists sum. split; [lia|]. cbn zeta. split; [|split; [|split] ].
  - unfold ipv4_pack. rewrite (ipv4_prepare_ok p k I L). fold total. rewrite CK.
    change (set_checksum (ipv4_after p (5 + k) total (i_checksum p)) sum) with (ipv4_after p (5 + k) total sum).
    rewrite (ipv4_net_pack p src dst) by (assumption || lia). reflexivity.
  - destruct OK as (_ & _ & _ & _ & _ & _ & _ & _ & (L1 & _) & (L2 & _) & _).
    unfold ipv4_wire, zlen in *. rewrite !app_length. unfold two. cbn [List.length]. lia.
  - destruct OK as (V & D & E & Id & F & O & T & P & (L1 & W1 & _) & (L2 & W2 & _) & _ & _ & WO & WD).
    rewrite <- OC. f_equal. unfold head_words.
    destruct (four_list _ L1) as (a & b & c & d & ->). destruct (four_list _ L2) as (a' & b' & c' & d' & ->).
    unfold ipv4_wire, two. cbn [app firstn words_of].
    repeat (f_equal; try lia).
  - intros pre. destruct OK as (V & D & E & Id & F & O & T & P & S1 & S2 & T1 & T2 & WO & WD).
    destruct (str_ip _ _ S1 T1) as (A1 & W1 & L1). destruct (str_ip _ _ S2 T2) as (A2 & W2 & L2).
    pose proof (ipv4_decode pre (i_version p * 16 + (5 + k)) (i_dscp p * 4 + i_ecn p) total (i_identification p)
      (i_flags p * 8192 + i_offset p) (i_ttl p) (i_protocol p) sum src dst (i_options p ++ i_data p)) as DEC.
    unfold wire4 in DEC. unfold ipv4_wire. rewrite DEC by (assumption || unfold is_byte; lia). cbn zeta.
    unfold ipv4_after. rewrite A1, A2.
    replace ((i_version p * 16 + (5 + k)) mod 16) with (5 + k) by lia.
    replace ((i_version p * 16 + (5 + k)) / 16) with (i_version p) by lia.
    replace ((i_dscp p * 4 + i_ecn p) / 4) with (i_dscp p) by lia.
    replace ((i_dscp p * 4 + i_ecn p) mod 4) with (i_ecn p) by lia.
    replace ((i_flags p * 8192 + i_offset p) / 8192) with (i_flags p) by lia.
    replace ((i_flags p * 8192 + i_offset p) mod 8192) with (i_offset p) by lia.
    assert (N : (if 5 <? 5 + k then Z.to_nat ((5 + k - 5) * 4) else 0%nat) = List.length (i_options p)).
    { unfold zlen in L. destruct (Z.ltb_spec 5 (5 + k)); lia. }
    rewrite N, firstn_app_exact, skipn_app_exact by reflexivity. reflexivity.
Qed.

Lemma ipv4_repeat p : i_options p = [] -> ipv4_pack (fst (ipv4_pack p)) = ipv4_pack p.
Proof.
  intros O. assert (PP : forall z, ipv4_prepare (set_checksum (ipv4_prepare p) z) = set_checksum (ipv4_prepare p) z).
  { intros z. unfold ipv4_prepare, set_checksum. rewrite O.
    cbn [i_version i_ihl i_dscp i_ecn i_length i_identification i_flags i_offset i_ttl i_protocol i_source i_destination i_options i_data i_checksum].
    reflexivity. }
  assert (PQ : ipv4_prepare (ipv4_prepare p) = ipv4_prepare p).
  { unfold ipv4_prepare. rewrite O.
    cbn [i_version i_ihl i_dscp i_ecn i_length i_identification i_flags i_offset i_ttl i_protocol i_source i_destination i_options i_data i_checksum].
    reflexivity. }
  assert (CC : forall q z, ipv4_checksum (set_checksum q z) = ipv4_checksum q) by reflexivity.
  unfold ipv4_pack. destruct (ipv4_checksum (ipv4_prepare p)) as [z|e] eqn:E; cbn [fst].
  - rewrite PP, CC, E. reflexivity.
  - rewrite PQ, E. reflexivity.
Qed.


Lemma ipv4_any pre bs : wf_bytes bs -> (20 <= List.length bs)%nat ->
  ipv4_unpack (pre ++ bs) (List.length pre) = Ok (ipv4_parse bs).
Proof.
  intros W L.
  destruct (wf_cut 20 bs W L) as (h & rest & -> & LH & WH & _ & _ & _). clear L W.
  assert (B : forall n, (n < 20)%nat -> is_byte (nth n h 0)).
  { intros n N. apply (proj1 (Forall_forall _ _) WH). apply nth_In. lia. }
  do 20 (destruct h as [|? h]; [discriminate|]). destruct h; [|discriminate]. clear LH.
  assert (B0 := B 0%nat ltac:(lia)). assert (B1 := B 1%nat ltac:(lia)). assert (B2 := B 2%nat ltac:(lia)).
  assert (B3 := B 3%nat ltac:(lia)). assert (B4 := B 4%nat ltac:(lia)). assert (B5 := B 5%nat ltac:(lia)).
  assert (B6 := B 6%nat ltac:(lia)). assert (B7 := B 7%nat ltac:(lia)). assert (B8 := B 8%nat ltac:(lia)).
  assert (B9 := B 9%nat ltac:(lia)). assert (B10 := B 10%nat ltac:(lia)). assert (B11 := B 11%nat ltac:(lia)).
  assert (B12 := B 12%nat ltac:(lia)). assert (B13 := B 13%nat ltac:(lia)). assert (B14 := B 14%nat ltac:(lia)).
  assert (B15 := B 15%nat ltac:(lia)). assert (B16 := B 16%nat ltac:(lia)). assert (B17 := B 17%nat ltac:(lia)).
  assert (B18 := B 18%nat ltac:(lia)). assert (B19 := B 19%nat ltac:(lia)). clear B WH.
  cbn [nth] in *.
  match goal with |- ipv4_unpack (pre ++ [?a0; ?a1; ?a2; ?a3; ?a4; ?a5; ?a6; ?a7; ?a8; ?a9; ?a10; ?a11; ?a12; ?a13; ?a14; ?a15; ?a16; ?a17; ?a18; ?a19] ++ rest) _ = _ =>
    pose proof (ipv4_decode pre a0 a1 (a2 * 256 + a3) (a4 * 256 + a5) (a6 * 256 + a7) a8 a9 (a10 * 256 + a11)
      [a12; a13; a14; a15] [a16; a17; a18; a19] rest) as D end.
  unfold wire4 in D. rewrite !two_pair in D by assumption. cbn [app] in D. cbn [app].
  rewrite D; try assumption; try reflexivity; try (unfold is_byte in *; lia).
  - repeat (constructor; [assumption|]). constructor.
  - repeat (constructor; [assumption|]). constructor.
Qed.

Lemma ipv4_short buff off : buff <> [] -> (List.length buff < off + 20)%nat ->
  ipv4_unpack buff off = Err UnpackException.
Proof.
  intros NE L. unfold ipv4_unpack, net_unpack.
  change (unpack_fields unpack get_size ipv4_fields) with
    (unpack_fields unpack get_size (ipv4_head ++ [("options", VBin VNone); ("data", VBin VNone)])).
  rewrite unpack_fields_app.
  assert (F : Forall2 (fun p w => leaf_width (snd p) w /\ (0 < w)%nat) ipv4_head [1; 1; 2; 2; 2; 1; 1; 2; 4; 4]%nat).
  { unfold ipv4_head, ipv4_fields. cbn [firstn]. repeat (constructor; [split; [constructor|lia]|]). constructor. }
  destruct (Nat.le_gt_cases off (List.length buff)) as [O|O].
  - rewrite (fields_short _ _ _ buff off F NE); [reflexivity|exact L|exact O].
  - destruct buff as [|b0 bt] eqn:EB; [congruence|]. unfold ipv4_head. cbn [ipv4_fields firstn unpack_fields].
    destruct (leaf_step (VUInt 1 None VNone) 1 (b0 :: bt) off (lw_int _ _)) as [SH _].
    rewrite SH; [reflexivity|lia|lia].
Qed.

(** ** IPv6 *)

Lemma a6_pack_ok a zs : ip6_groups a zs -> a6_pack a = Ok (words zs).
Proof.
  intros (L & W & [(parts & F & A)|(l & r & zl & zr & nm & x & FL & FR & LE & -> & I & ->)]).
  2:{ destruct (ip6_double_colon l r zl zr nm FL FR) as (x' & I' & _ & P).
      - rewrite (Forall2_length _ _ _ FL), (Forall2_length _ _ _ FR). exact LE.
      - apply Forall_app in W as [W1 W]. apply Forall_app in W as [_ W2]. apply Forall_app. auto.
      - rewrite I in I'. injection I' as <-. exact P. }
  rewrite <- (words_eq zs W).
  assert (N : parts <> []) by (intros ->; inversion F; subst; discriminate L).
  assert (P : ip6_bytes (separated 58 parts) = Ok (words_bytes zs)).
  { rewrite (ip6_text_pack _ zs F N). rewrite L.
    assert (X : forallb (fun z => z <? 65536) zs = true).
    { apply forallb_forall. intros z Z0. pose proof (proj1 (Forall_forall _ _) W z Z0) as H. unfold is_word in H. lia. }
    rewrite X. reflexivity. }
  destruct A as [->|(m & ->)]; exact P.
Qed.

Lemma unpack_at w z pre suf : (0 < w)%nat -> fits w z ->
  struct_unpack_u w (pre ++ be_encode w z ++ suf) (List.length pre) = Ok z.
Proof.
  intros P F. unfold struct_unpack_u. rewrite slice_mid by (rewrite ?be_encode_length; lia).
  rewrite be_encode_length, Nat.eqb_refl, be_decode_encode; [reflexivity|]. unfold fits in F. rewrite ulimit_pow. exact F.
Qed.
Lemma unpack_at' w z pre suf buff n : (0 < w)%nat -> fits w z -> buff = pre ++ be_encode w z ++ suf -> n = List.length pre ->
  struct_unpack_u w buff n = Ok z.
Proof. intros P F -> ->. apply unpack_at; assumption. Qed.
Lemma ip6_at zs pre suf buff n : List.length zs = 8%nat -> Forall is_word zs -> buff = pre ++ words zs ++ suf ->
  n = List.length pre ->
  exists b, ip6_unpack ip6_default buff n = Ok b /\ ip6_value b = separated 58 (map hex_quad zs).
Proof.
  intros L W -> ->. rewrite <- (words_eq zs W). destruct (ip6_roundtrip ip6_default pre zs suf L W) as (b & D & V & _).
  exists b. auto.
Qed.


Lemma words_len zs : List.length (words zs) = (2 * List.length zs)%nat.
Proof. unfold words. induction zs as [|z zs IH]; [reflexivity|]. cbn [flat_map]. rewrite app_length, IH. cbn [List.length]. lia. Qed.

Definition wire6 (w len nh hl : Z) (src dst : list Z) (data : bytes) : bytes :=
  be_encode 4 w ++ be_encode 2 len ++ be_encode 1 nh ++ be_encode 1 hl ++ words src ++ words dst ++ data.

Lemma ipv6_decode pre w len nh hl src dst data :
  fits 4 w -> fits 2 len -> fits 1 nh -> fits 1 hl ->
  List.length src = 8%nat -> Forall is_word src -> List.length dst = 8%nat -> Forall is_word dst ->
  ipv6_unpack (pre ++ wire6 w len nh hl src dst data) (List.length pre)
  = Ok (mk_ipv6p (w / 268435456) (w / 1048576 mod 256) (w mod 1048576) len nh hl (got_ip6 src) (got_ip6 dst) data).
Proof.
  intros F1 F2 F3 F4 L1 W1 L2 W2. set (buff := pre ++ wire6 w len nh hl src dst data).
  unfold ipv6_unpack. destruct buff as [|b0 bt] eqn:EB.
  - exfalso. unfold buff, wire6 in EB. apply app_eq_nil in EB as [_ EB]. apply app_eq_nil in EB as [EB _].
    apply (f_equal (@List.length Z)) in EB. rewrite be_encode_length in EB. discriminate.
  - rewrite <- EB. clear EB b0 bt.
    set (h4 := be_encode 4 w). set (h2 := be_encode 2 len). set (h1 := be_encode 1 nh). set (h1' := be_encode 1 hl).
    assert (LL4 : List.length h4 = 4%nat) by apply be_encode_length.
    assert (LL2 : List.length h2 = 2%nat) by apply be_encode_length.
    assert (LL1 : List.length h1 = 1%nat) by apply be_encode_length.
    assert (LL1' : List.length h1' = 1%nat) by apply be_encode_length.
    assert (LS := words_len src). assert (LD := words_len dst).
    assert (BF : buff = pre ++ h4 ++ h2 ++ h1 ++ h1' ++ words src ++ words dst ++ data) by reflexivity.
    rewrite (unpack_at' 4 w pre (h2 ++ h1 ++ h1' ++ words src ++ words dst ++ data)) by (assumption || lia || reflexivity).
    rewrite (unpack_at' 2 len (pre ++ h4) (h1 ++ h1' ++ words src ++ words dst ++ data))
      by (rewrite ?BF, ?app_length, <- ?app_assoc; assumption || lia || reflexivity).
    rewrite (unpack_at' 1 nh (pre ++ h4 ++ h2) (h1' ++ words src ++ words dst ++ data))
      by (rewrite ?BF, ?app_length, <- ?app_assoc; assumption || lia || reflexivity).
    rewrite (unpack_at' 1 hl (pre ++ h4 ++ h2 ++ h1) (words src ++ words dst ++ data))
      by (rewrite ?BF, ?app_length, <- ?app_assoc; assumption || lia || reflexivity).
    cbn [recast bind].
    destruct (ip6_at src (pre ++ h4 ++ h2 ++ h1 ++ h1') (words dst ++ data) buff (List.length pre + 8) L1 W1) as (s & S1 & S2).
    { rewrite BF, <- !app_assoc. reflexivity. }
    { rewrite !app_length. lia. }
    destruct (ip6_at dst (pre ++ h4 ++ h2 ++ h1 ++ h1' ++ words src) data buff (List.length pre + 24) L2 W2) as (d & D1 & D2).
    { rewrite BF, <- !app_assoc. reflexivity. }
    { rewrite !app_length. lia. }
    rewrite S1. cbn [bind]. rewrite D1. cbn [bind].
    rewrite (land_ones' _ 8 255), (land_ones' _ 20 1048575), !shr by (reflexivity || lia).
    change (2 ^ 28) with 268435456. change (2 ^ 20) with 1048576. change (2 ^ 8) with 256.
    unfold got_ip6. rewrite S2, D2.
    assert (SK : skipn (List.length pre + 40) buff = data).
    { rewrite BF. rewrite !app_assoc. apply skipn_app_exact. rewrite !app_length. lia. }
    rewrite SK. reflexivity.
Qed.

Lemma ipv6_packs p src dst : ipv6_ok p src dst -> zlen (s_data p) <= 65535 ->
  ipv6_pack p = (ipv6_after p, Ok (ipv6_wire p src dst)) /\
  ipv6_wire p src dst = wire6 (s_version p * 268435456 + s_tclass p * 1048576 + s_flabel p) (zlen (s_data p))
                              (s_next_header p) (s_hop_limit p) src dst (s_data p).
Proof.
  intros (V & T & F & N & H & S & D & W) L. pose proof (zlen_nonneg (s_data p)) as NN.
  unfold ipv6_pack. fold (ipv6_after p). cbn [s_length s_next_header s_hop_limit s_source s_destination s_data ipv6_after].
  assert (E : Z.lor (Z.lor (Z.shiftl (s_version p) 28) (Z.shiftl (s_tclass p) 20)) (s_flabel p)
              = s_version p * 268435456 + s_tclass p * 1048576 + s_flabel p).
  { rewrite (lor_shift (s_version p) 28).
    2: lia.
    2:{ rewrite Z.shiftl_mul_pow2 by lia. change (2 ^ 20) with 1048576. change (2 ^ 28) with 268435456. lia. }
    rewrite Z.shiftl_mul_pow2 by lia. change (2 ^ 20) with 1048576. change (2 ^ 28) with 268435456.
    transitivity (Z.lor (Z.shiftl (s_version p * 256 + s_tclass p) 20) (s_flabel p)).
    { f_equal. rewrite Z.shiftl_mul_pow2 by lia. change (2 ^ 20) with 1048576. lia. }
    rewrite lor_shift; change (2 ^ 20) with 1048576; lia. }
  rewrite E. set (w := s_version p * 268435456 + s_tclass p * 1048576 + s_flabel p).
  assert (WR : 0 <= w < 2 ^ 32) by (change (2 ^ 32) with 4294967296; unfold w; lia).
  rewrite !uint_struct_ok.
  - rewrite (a6_pack_ok _ _ S), (a6_pack_ok _ _ D). cbn [bind].
    unfold ipv6_wire, wire6. fold w. rewrite be4 by exact WR. rewrite be2, !be1 by (unfold is_byte; lia).
    split; [rewrite <- !app_assoc; reflexivity|]. rewrite <- !app_assoc. reflexivity.
  - unfold ulimit. change (256 ^ Z.of_nat 1) with 256. lia.
  - unfold ulimit. change (256 ^ Z.of_nat 1) with 256. lia.
  - rewrite ulimit2. lia.
  - unfold ulimit. change (256 ^ Z.of_nat 4) with 4294967296. exact WR.
Qed.

Lemma ipv6_roundtrip p src dst : ipv6_ok p src dst -> zlen (s_data p) <= 65535 ->
  ipv6_pack p = (ipv6_after p, Ok (ipv6_wire p src dst)) /\
  zlen (ipv6_wire p src dst) = 40 + zlen (s_data p) /\
  forall pre, ipv6_unpack (pre ++ ipv6_wire p src dst) (List.length pre) = Ok (ipv6_got p src dst).
Proof.
  intros OK L. destruct (ipv6_packs p src dst OK L) as [P E]. split; [exact P|].
  destruct OK as (V & T & F & N & H & (LS & WS & _) & (LD & WD & _) & W). pose proof (zlen_nonneg (s_data p)).
  split.
  - rewrite E. unfold wire6, zlen. rewrite !app_length, !be_encode_length, !words_len. lia.
  - intros pre. rewrite E, ipv6_decode.
    + unfold ipv6_got. set (w := s_version p * 268435456 + s_tclass p * 1048576 + s_flabel p).
      replace (w / 268435456) with (s_version p) by (unfold w; lia).
      replace (w / 1048576 mod 256) with (s_tclass p) by (unfold w; lia).
      replace (w mod 1048576) with (s_flabel p) by (unfold w; lia). reflexivity.
    + unfold fits. change (2 ^ (8 * Z.of_nat 4)) with 4294967296. lia.
    + apply fits2. lia.
    + apply fits1. unfold is_byte. lia.
    + apply fits1. unfold is_byte. lia.
    + exact LS.
    + exact WS.
    + exact LD.
    + exact WD.
Qed.
Lemma ipv6_repeat p : ipv6_pack (fst (ipv6_pack p)) = ipv6_pack p.
Proof. reflexivity. Qed.
Lemma ipv6_too_long p src dst : ipv6_ok p src dst -> 65535 < zlen (s_data p) ->
  snd (ipv6_pack p) = Err PackException.
Proof.
  intros (V & T & F & N & H & S & D & W) L. unfold ipv6_pack. cbn [snd s_length].
  assert (X : uint_struct 2 (VInt (zlen (s_data p))) = Err PackException).
  { unfold uint_struct, struct_pack_u. cbn [as_int]. rewrite ulimit2.
    destruct (0 <=? zlen (s_data p)), (zlen (s_data p) <? 65536) eqn:Y; try reflexivity; lia. }
  rewrite X. unfold uint_struct at 1. cbn [as_int]. unfold struct_pack_u.
  destruct ((0 <=? _) && _); reflexivity.
Qed.

Lemma iter_repeat {A B} (f : A -> A * B) (x : A) n : f (fst (f x)) = f x ->
  f (Nat.iter n (fun y => fst (f y)) x) = f x.
Proof. intros H. induction n as [|n IH]; [reflexivity|].
  change (f (fst (f (Nat.iter n (fun y => fst (f y)) x))) = f x). rewrite IH. exact H. Qed.

Lemma ipv6_any pre bs : wf_bytes bs -> (40 <= List.length bs)%nat ->
  exists src dst, List.length src = 8%nat /\ Forall is_word src /\ words src = slice 8 24 bs /\
    List.length dst = 8%nat /\ Forall is_word dst /\ words dst = slice 24 40 bs /\
    let w := place_value (slice 0 4 bs) in
    ipv6_unpack (pre ++ bs) (List.length pre)
    = Ok (mk_ipv6p (w / 268435456) (w / 1048576 mod 256) (w mod 1048576) (place_value (slice 4 6 bs))
            (place_value (slice 6 7 bs)) (place_value (slice 7 8 bs)) (got_ip6 src) (got_ip6 dst) (skipn 40 bs)).
Proof.
  intros W L.
  destruct (wf_cut 4 bs W ltac:(lia)) as (a & r & -> & La & Wa & Wr & _). rewrite app_length in L.
  destruct (wf_cut 2 r Wr ltac:(lia)) as (b & r1 & -> & Lb & Wb & Wr1 & _). rewrite app_length in L.
  destruct (wf_cut 1 r1 Wr1 ltac:(lia)) as (c & r2 & -> & Lc & Wc & Wr2 & _). rewrite app_length in L.
  destruct (wf_cut 1 r2 Wr2 ltac:(lia)) as (d & r3 & -> & Ld & Wd & Wr3 & _). rewrite app_length in L.
  destruct (wf_cut 16 r3 Wr3 ltac:(lia)) as (s & r4 & -> & Ls & Ws & Wr4 & _). rewrite app_length in L.
  destruct (wf_cut 16 r4 Wr4 ltac:(lia)) as (t & data & -> & Lt & Wt & Wdata & _).
  destruct (words_of_bytes 8 s Ws Ls) as (src & A1 & B1 & C1).
  destruct (words_of_bytes 8 t Wt Lt) as (dst & A2 & B2 & C2).
  rewrite words_eq in C1, C2 by assumption. exists src, dst.
  assert (SL : forall n m (x y z : bytes), n = List.length x -> m = List.length (x ++ y) -> slice n m (x ++ y ++ z) = y).
  { intros n m x y z -> ->. rewrite app_length. apply slice_mid; reflexivity. }
  set (buff := a ++ b ++ c ++ d ++ s ++ t ++ data).
  assert (E0 : slice 0 4 buff = a) by (apply (SL _ _ [] a); cbn; lia).
  assert (E1 : slice 4 6 buff = b) by (apply SL; rewrite ?app_length; lia).
  assert (E2 : slice 6 7 buff = c) by (unfold buff; rewrite app_assoc; apply SL; rewrite ?app_length; lia).
  assert (E3 : slice 7 8 buff = d).
  { unfold buff. rewrite (app_assoc a), (app_assoc (a ++ b)). apply SL; rewrite ?app_length; lia. }
  assert (E4 : slice 8 24 buff = s).
  { unfold buff. rewrite (app_assoc a), (app_assoc (a ++ b)), (app_assoc ((a ++ b) ++ c)). apply SL; rewrite ?app_length; lia. }
  assert (E5 : slice 24 40 buff = t).
  { unfold buff. rewrite (app_assoc a), (app_assoc (a ++ b)), (app_assoc ((a ++ b) ++ c)), (app_assoc (((a ++ b) ++ c) ++ d)).
    apply SL; rewrite ?app_length; lia. }
  assert (E6 : skipn 40 buff = data).
  { unfold buff. rewrite !app_assoc. apply skipn_app_exact. rewrite ?app_length. lia. }
  rewrite E0, E1, E2, E3, E4, E5, E6.
  split; [exact A1|]. split; [exact B1|]. split; [exact C1|]. split; [exact A2|]. split; [exact B2|]. split; [exact C2|].
  cbn zeta. unfold buff. clear E0 E1 E2 E3 E4 E5 E6 SL buff.
  assert (PV : forall x n, wf_bytes x -> List.length x = n -> fits n (place_value x) /\ x = be_encode n (place_value x)).
  { intros x n Wx Lx. subst n. rewrite place_value_decode. split.
    - unfold fits. rewrite <- ulimit_pow. apply be_decode_bound, Wx.
    - symmetry. apply be_encode_decode, Wx. }
  destruct (PV a 4%nat Wa La) as [Fa Ea]. destruct (PV b 2%nat Wb Lb) as [Fb Eb].
  destruct (PV c 1%nat Wc Lc) as [Fc Ec]. destruct (PV d 1%nat Wd Ld) as [Fd Ed].
  rewrite <- (ipv6_decode pre (place_value a) (place_value b) (place_value c) (place_value d) src dst data)
    by assumption.
  unfold wire6. rewrite <- Ea, <- Eb, <- Ec, <- Ed, C1, C2. reflexivity.
Qed.

Lemma ipv6_short buff off : buff <> [] -> (List.length buff < off + 40)%nat ->
  ipv6_unpack buff off = Err UnpackException.
Proof.
  intros NE L. unfold ipv6_unpack. destruct buff as [|b0 bt] eqn:EB; [congruence|]. rewrite <- EB in *.
  assert (ST : forall w o, struct_unpack_u w buff o = Err StructError \/ exists z, struct_unpack_u w buff o = Ok z).
  { intros w o. unfold struct_unpack_u. destruct (Nat.eqb _ _); eauto. }
  destruct (ST 4%nat off) as [->|(z1 & ->)]; [reflexivity|].
  destruct (ST 2%nat (off + 4)%nat) as [->|(z2 & ->)]; [reflexivity|].
  destruct (ST 1%nat (off + 6)%nat) as [->|(z3 & ->)]; [reflexivity|].
  destruct (ST 1%nat (off + 7)%nat) as [->|(z4 & ->)]; [reflexivity|]. cbn [recast bind].
  destruct (ip6_unpack ip6_default buff (off + 8)) as [s|e] eqn:E; cbn [bind].
  - rewrite ip6_short by lia. reflexivity.
  - unfold ip6_unpack, struct_unpack_seq in E. destruct (Nat.eqb _ _); cbn in E; [discriminate|congruence].
Qed.

Lemma ipv4_repeat_any p n : i_options p = [] ->
  ipv4_pack (Nat.iter n (fun q => fst (ipv4_pack q)) p) = ipv4_pack p.
Proof. intros O. apply iter_repeat, ipv4_repeat, O. Qed.
Lemma vlan_repeat_any v n : vlan_pack (Nat.iter n (fun q => fst (vlan_pack q)) v) = vlan_pack v.
Proof. apply iter_repeat, vlan_repeat. Qed.
Lemma eth_repeat_any e n : eth_pack (Nat.iter n (fun q => fst (eth_pack q)) e) = eth_pack e.
Proof. apply iter_repeat, eth_repeat. Qed.
Lemma ipv6_repeat_any p n : ipv6_pack (Nat.iter n (fun q => fst (ipv6_pack q)) p) = ipv6_pack p.
Proof. apply iter_repeat, ipv6_repeat. Qed.

Lemma ipv4_plain p src dst : ipv4_ok p src dst -> i_ihl p = 5 -> i_options p = [] ->
  20 + zlen (i_data p) <= 65535 ->
  let total := 20 + zlen (i_data p) in
  exists sum, 0 <= sum < 65535 /\
    let bs := ipv4_wire p 5 total sum src dst in
    ipv4_pack p = (ipv4_after p 5 total sum, Ok bs) /\ zlen bs = total /\
    oc_sum (words_of (firstn 20 bs)) = 65535 /\
    forall pre, ipv4_unpack (pre ++ bs) (List.length pre) = Ok (ipv4_after p 5 total sum).
Proof.
  intros OK I O L. apply (ipv4_roundtrip p src dst 0 OK I).
  - rewrite O. reflexivity.
  - lia.
  - exact L.
Qed.
