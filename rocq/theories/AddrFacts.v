(** Facts about addresses and strings, stated with [SpecBasic]. *)
From Coq Require Import ZArith List Bool String Lia ZifyBool.
From Verif Require Import Base BaseFacts PyText TextFacts Ids PyVal Classes Interp Spec SpecBasic
  ClassFacts LeafFacts IntFacts Addr.
Import ListNotations.
Open Scope string_scope.
Open Scope list_scope.
Open Scope Z_scope.

(** ** Text *)

Lemma separated_join c parts : separated c parts = join c parts.
Proof. induction parts as [|p [|q tl] IH]; auto. Qed.

Lemma hex_char_digit d : hex_char d = digit_char d.
Proof. unfold hex_char, digit_char. destruct (d <? 10); lia. Qed.

Lemma hex_pair_digits b : is_byte b -> hex_pair b = fixed_digits 16 2 b.
Proof.
  intros H. unfold hex_pair. cbn [fixed_digits]. rewrite !hex_char_digit.
  change (16 ^ Z.of_nat 1) with 16. change (16 ^ Z.of_nat 0) with 1.
  rewrite Z.div_1_r. rewrite (Z.mod_small (b / 16)); [reflexivity|].
  unfold is_byte in H. split; [apply Z.div_pos; lia|apply Z.div_lt_upper_bound; lia].
Qed.

Lemma hex_quad_digits z : 0 <= z < 65536 -> hex_quad z = fixed_digits 16 4 z.
Proof.
  intros H. unfold hex_quad. cbn [fixed_digits]. rewrite !hex_char_digit.
  change (16 ^ Z.of_nat 3) with 4096. change (16 ^ Z.of_nat 2) with 256.
  change (16 ^ Z.of_nat 1) with 16. change (16 ^ Z.of_nat 0) with 1.
  rewrite Z.div_1_r. rewrite (Z.mod_small (z / 4096)); [reflexivity|].
  split; [apply Z.div_pos; lia|apply Z.div_lt_upper_bound; lia].
Qed.

Lemma colon_hex_canonical bs : wf_bytes bs -> colon_hex bs = hex_canonical bs.
Proof.
  intros W. unfold colon_hex, hex_canonical. rewrite separated_join. f_equal.
  apply map_ext_in. intros b Hb. apply hex_pair_digits.
  unfold wf_bytes in W. rewrite Forall_forall in W. auto.
Qed.

Lemma all_bytes (P : Z -> bool) :
  forallb P (map Z.of_nat (seq 0 256)) = true -> forall b, is_byte b -> P b = true.
Proof.
  intros H b Hb. rewrite forallb_forall in H. apply H. apply in_map_iff.
  exists (Z.to_nat b). unfold is_byte in Hb. split; [lia|]. apply in_seq. lia.
Qed.

Lemma text_eqb_eq a b : text_eqb a b = true <-> a = b.
Proof.
  revert b. induction a as [|x a IH]; intros [|y b]; cbn; try (split; [discriminate|congruence]).
  - tauto.
  - rewrite andb_true_iff, IH, Z.eqb_eq. split; [intros [-> ->]; auto|intros E; inversion E; auto].
Qed.

Lemma dec_byte_str b : is_byte b -> dec_byte b = str_dec b.
Proof.
  intros H. apply text_eqb_eq.
  apply (all_bytes (fun b => text_eqb (dec_byte b) (str_dec b))); [vm_compute; reflexivity|exact H].
Qed.

Lemma dotted_dec_canonical bs : wf_bytes bs -> dotted_dec bs = dotted bs.
Proof.
  intros W. unfold dotted_dec, dotted. rewrite separated_join. f_equal.
  apply map_ext_in. intros b Hb. apply dec_byte_str.
  unfold wf_bytes in W. rewrite Forall_forall in W. auto.
Qed.

(** ** Numerals *)

Lemma digits_val_app base a s t : digits_val base a (s ++ t) = digits_val base (digits_val base a s) t.
Proof. revert a. induction s as [|c s IH]; intros a; cbn; auto. Qed.

Lemma hex_digit_of_val c d : hex_digit_of c d -> is_digit c /\ digit_val c = d /\ d < 16.
Proof.
  intros [(H & ->)|(H & [-> | ->])]; unfold is_digit, digit_val; (split; [lia|split; [|lia] ]).
  - destruct ((48 <=? 48 + d) && (48 + d <=? 57)) eqn:E; lia.
  - replace ((48 <=? 97 + (d - 10)) && (97 + (d - 10) <=? 57)) with false by lia.
    replace ((97 <=? 97 + (d - 10)) && (97 + (d - 10) <=? 122)) with true by lia. lia.
  - replace ((48 <=? 65 + (d - 10)) && (65 + (d - 10) <=? 57)) with false by lia.
    replace ((97 <=? 65 + (d - 10)) && (65 + (d - 10) <=? 122)) with false by lia.
    replace ((65 <=? 65 + (d - 10)) && (65 + (d - 10) <=? 90)) with true by lia. lia.
Qed.

Lemma dec_digit_of_val c d : dec_digit_of c d -> is_digit c /\ digit_val c = d /\ d < 10.
Proof.
  intros (H & ->). unfold is_digit, digit_val. split; [lia|split; [|lia] ].
  destruct ((48 <=? 48 + d) && (48 + d <=? 57)) eqn:E; lia.
Qed.

Lemma numeral_digits base (digit : Z -> Z -> Prop) t z :
  (forall c d, digit c d -> is_digit c /\ digit_val c = d /\ d < base) ->
  numeral base digit t z ->
  Forall is_digit t /\ Forall (fun c => digit_val c < base) t /\ t <> [] /\ digits_val base 0 t = z.
Proof.
  intros HD N. induction N as [c d H|t z c d N (I1 & I2 & I3 & I4) H]; apply HD in H as (H1 & H2 & H3).
  - repeat split; try discriminate.
    + constructor; auto.
    + constructor; [lia|auto].
    + cbn. lia.
  - repeat split.
    + apply Forall_app. auto.
    + apply Forall_app. split; auto. constructor; [lia|auto].
    + destruct t; discriminate.
    + rewrite digits_val_app, I4. cbn. lia.
Qed.

Lemma hex_numeral_digits t z : hex_numeral t z ->
  Forall is_digit t /\ Forall (fun c => digit_val c < 16) t /\ t <> [] /\ digits_val 16 0 t = z.
Proof. apply numeral_digits. apply hex_digit_of_val. Qed.
Lemma dec_numeral_digits t z : dec_numeral t z ->
  Forall is_digit t /\ Forall (fun c => digit_val c < 10) t /\ t <> [] /\ digits_val 10 0 t = z.
Proof. apply numeral_digits. apply dec_digit_of_val. Qed.

Lemma py_int_hex t z : hex_numeral t z -> py_int 16 t = Ok z.
Proof.
  intros N. apply hex_numeral_digits in N as (A & B & C & <-). apply py_int_digits; auto. lia.
Qed.
Lemma py_int_dec t z : dec_numeral t z -> py_int 10 t = Ok z.
Proof.
  intros N. apply dec_numeral_digits in N as (A & B & C & <-). apply py_int_digits; auto. lia.
Qed.
Lemma numeral_nonneg base (digit : Z -> Z -> Prop) t z :
  0 <= base -> (forall c d, digit c d -> 0 <= d) -> numeral base digit t z -> 0 <= z.
Proof. intros B HD N. induction N; [eauto|]. apply HD in H. nia. Qed.
Lemma hex_numeral_nonneg t z : hex_numeral t z -> 0 <= z.
Proof.
  apply numeral_nonneg; [lia|]. intros c d [(H & _)|(H & _)]; lia.
Qed.
Lemma dec_numeral_nonneg t z : dec_numeral t z -> 0 <= z.
Proof. apply numeral_nonneg; [lia|]. intros c d (H & _); lia. Qed.

Lemma Forall2_imp {A B} (P Q : A -> B -> Prop) l r :
  (forall a b, P a b -> Q a b) -> Forall2 P l r -> Forall2 Q l r.
Proof. intros H F. induction F; constructor; auto. Qed.

Lemma split_hex s parts zs : Forall2 hex_numeral parts zs -> parts <> [] ->
  s = separated 58 parts -> mapM (py_int 16) (split colon s) = Ok zs.
Proof.
  intros F N ->. rewrite separated_join, split_join; auto.
  - apply mapM_Forall2. eapply Forall2_imp; [|exact F]. apply py_int_hex.
  - clear N. induction F; constructor; auto. apply hex_numeral_digits in H as (D & _).
    apply digit_no_char; [apply colon_not_digit|exact D].
Qed.

Lemma dec_no_dot t z : dec_numeral t z -> no_char dot t.
Proof. intros H. apply dec_numeral_digits in H as (D & _). apply digit_no_char; [apply dot_not_digit|exact D]. Qed.
Lemma dec_no_slash t z : dec_numeral t z -> no_char slash t.
Proof. intros H. apply dec_numeral_digits in H as (D & _). apply digit_no_char; [apply slash_not_digit|exact D]. Qed.
Lemma hex_no_colon t z : hex_numeral t z -> no_char colon t.
Proof. intros H. apply hex_numeral_digits in H as (D & _). apply digit_no_char; [apply colon_not_digit|exact D]. Qed.
Lemma hex_no_slash t z : hex_numeral t z -> no_char slash t.
Proof. intros H. apply hex_numeral_digits in H as (D & _). apply digit_no_char; [apply slash_not_digit|exact D]. Qed.

Lemma Forall2_left {A B} (P : A -> B -> Prop) (Q : A -> Prop) l r :
  (forall a b, P a b -> Q a) -> Forall2 P l r -> Forall Q l.
Proof. intros H F. induction F; constructor; eauto. Qed.

Lemma no_char_separated c sep parts : sep <> c -> Forall (no_char c) parts -> no_char c (separated sep parts).
Proof. intros. rewrite separated_join. apply no_char_join; auto. Qed.

Lemma split_prefix_text c a r : no_char c a -> split c (a ++ c :: r) = a :: split c r.
Proof. intros H. unfold split at 1. rewrite split_acc_sep by exact H. reflexivity. Qed.

Lemma has_char_mid c a r : has_char c (a ++ c :: r) = true.
Proof. unfold has_char. rewrite existsb_app. cbn. rewrite Z.eqb_refl. apply orb_true_r. Qed.

(** ** struct.pack of several numbers *)

Lemma struct_pack_us_1 zs bs : struct_pack_us 1 zs = Ok bs -> zs = bs /\ wf_bytes bs.
Proof.
  revert bs. induction zs as [|z zs IH]; intros bs; cbn [struct_pack_us].
  - intros E. injection E as <-. split; constructor.
  - unfold struct_pack_u. change (ulimit 1) with 256.
    destruct ((0 <=? z) && (z <? 256)) eqn:R; [|discriminate]. cbn [bind].
    destruct (struct_pack_us 1 zs) as [b|e]; [|discriminate]. cbn [bind].
    intros E. injection E as <-. destruct (IH b eq_refl) as [-> W].
    rewrite Z.div_1_r, Z.mod_small by lia. split; [reflexivity|constructor; [unfold is_byte; lia|exact W] ].
Qed.

Lemma struct_pack_us_err w zs : Forall (fun z => 0 <= z) zs ->
  Exists (fun z => ulimit w <= z) zs -> struct_pack_us w zs = Err StructError.
Proof.
  induction zs as [|z zs IH]; intros P E; [inversion E|]. inversion P; subst.
  cbn [struct_pack_us]. unfold struct_pack_u.
  destruct ((0 <=? z) && (z <? ulimit w)) eqn:R; [|reflexivity].
  cbn [bind]. rewrite IH; auto. inversion E; subst; auto. lia.
Qed.

Lemma struct_pack_us_wf zs : wf_bytes zs -> struct_pack_us 1 zs = Ok zs.
Proof.
  induction 1 as [|z zs H _ IH]; auto. cbn [struct_pack_us]. unfold struct_pack_u.
  change (ulimit 1) with 256. unfold is_byte in H.
  replace ((0 <=? z) && (z <? 256)) with true by lia.
  cbn [bind]. rewrite IH. cbn. rewrite Z.div_1_r, Z.mod_small by lia. reflexivity.
Qed.

(** Outcome of packing [n] bytes given as non-negative numbers. *)
Lemma pack_groups n zs : Forall (fun z => 0 <= z) zs ->
  recast StructError PackException (struct_pack_seq 1 n zs)
  = if Nat.eqb (List.length zs) n && forallb (fun z => z <? 256) zs then Ok zs else Err PackException.
Proof.
  intros P. unfold struct_pack_seq. destruct (Nat.eqb (List.length zs) n); [|reflexivity].
  cbn [andb]. destruct (forallb (fun z => z <? 256) zs) eqn:F.
  - rewrite struct_pack_us_wf; [reflexivity|]. rewrite forallb_forall in F.
    unfold wf_bytes. rewrite Forall_forall in *. intros z Hz. specialize (F z Hz). specialize (P z Hz).
    unfold is_byte. cbn in *. lia.
  - rewrite struct_pack_us_err; [reflexivity|exact P|].
    rewrite <- not_true_iff_false, forallb_forall in F. apply Exists_exists.
    change (ulimit 1) with 256.
    destruct (existsb (fun z => 256 <=? z) zs) eqn:X.
    + apply existsb_exists in X as (z & A & B). exists z. split; auto. lia.
    + exfalso. apply F. intros z Hz. destruct (z <? 256) eqn:Y; auto.
      rewrite <- not_true_iff_false, existsb_exists in X. exfalso. apply X. exists z. split; auto. lia.
Qed.

(** ** HWAddress *)

Lemma hw_text_pack parts zs :
  Forall2 hex_numeral parts zs -> parts <> [] ->
  pack (VHW (VStr (separated 58 parts)))
  = if Nat.eqb (List.length zs) 6 && forallb (fun z => z <? 256) zs then Ok zs else Err PackException.
Proof.
  intros F N. change (pack (VHW (VStr (separated 58 parts)))) with (hw_bytes (VStr (separated 58 parts))).
  unfold hw_bytes. cbn [equals_zero dot_value as_int]. rewrite (split_hex _ _ _ F N eq_refl). cbn [bind].
  apply pack_groups. clear N. induction F; constructor; auto. eapply hex_numeral_nonneg; eauto.
Qed.

Lemma hw_roundtrip old pre bs suf : wf_bytes bs -> List.length bs = 6%nat ->
  unpack (VHW old) (pre ++ bs ++ suf) (List.length pre) = Ok (VHW (VStr (colon_hex bs))) /\
  pack (VHW (VStr (colon_hex bs))) = Ok bs /\ get_size (VHW (VStr (colon_hex bs))) = Ok 6.
Proof.
  intros W L. rewrite colon_hex_canonical by exact W. split; [|split].
  - change (unpack (VHW old)) with hw_unpack. apply hw_unpack_mid; auto.
  - change (hw_bytes (VStr (hex_canonical bs)) = Ok bs). apply hw_bytes_ok; auto.
    apply hex_canonical_text, W.
  - reflexivity.
Qed.

Lemma seq_short w n s : List.length s <> (w * n)%nat -> struct_unpack_seq w n s = Err StructError.
Proof. intros H. unfold struct_unpack_seq. apply Nat.eqb_neq in H. rewrite H. reflexivity. Qed.

Lemma hw_short old buff off : (List.length buff < off + 6)%nat ->
  unpack (VHW old) buff off = Err UnpackException.
Proof.
  intros H. change (unpack (VHW old)) with hw_unpack. unfold hw_unpack.
  rewrite seq_short; [reflexivity|]. rewrite slice_length. lia.
Qed.

(** ** IPAddress *)

Lemma ip_text s r parts zs :
  Forall2 dec_numeral parts zs -> parts <> [] -> s = separated 46 parts ->
  pack (VIP (VStr s) r)
  = (if Nat.eqb (List.length zs) 4 && forallb (fun z => z <? 256) zs then Ok zs else Err PackException) /\
  forall q, pack (VIP (VStr (s ++ 47 :: q)) r) = pack (VIP (VStr s) r).
Proof.
  intros F N E.
  assert (NS : no_char slash s).
  { subst. apply no_char_separated; [discriminate|]. eapply Forall2_left; [apply dec_no_slash|exact F]. }
  change (pack (VIP (VStr s) r)) with (ip_bytes (VStr s)).
  split.
  - unfold ip_bytes. rewrite has_char_no by exact NS. subst s.
    rewrite separated_join, split_join; auto; [|eapply Forall2_left; [apply dec_no_dot|exact F] ].
    erewrite mapM_Forall2 by (eapply Forall2_imp; [apply py_int_dec|exact F]). cbn [bind].
    apply pack_groups. clear N NS. induction F; constructor; auto. eapply dec_numeral_nonneg; eauto.
  - intros q. change (ip_bytes (VStr (s ++ slash :: q)) = ip_bytes (VStr s)).
    unfold ip_bytes. rewrite has_char_mid, split_prefix_text by exact NS. cbn [hd].
    rewrite has_char_no by exact NS. reflexivity.
Qed.

Lemma dec_byte_numeral b : is_byte b -> dec_numeral (dec_byte b) b.
Proof.
  intros H. unfold is_byte in H. unfold dec_byte, dec_numeral.
  assert (one : forall d, 0 <= d <= 9 -> numeral 10 dec_digit_of [48 + d] d).
  { intros d Hd. constructor. split; auto. }
  pose proof (Z.div_mod b 10 ltac:(lia)) as E1. pose proof (Z.mod_pos_bound b 10 ltac:(lia)) as E2.
  pose proof (Z.div_mod (b / 10) 10 ltac:(lia)) as E3.
  pose proof (Z.mod_pos_bound (b / 10) 10 ltac:(lia)) as E4.
  rewrite Z.div_div in E3 by lia. change (10 * 10) with 100 in E3.
  remember (b / 10) as q. remember (b mod 10) as r. remember (b / 100) as q2. remember (q mod 10) as r2.
  destruct (b <? 10) eqn:B1; [apply one; lia|].
  destruct (b <? 100) eqn:B2.
  - rewrite E1. apply (num_more 10 dec_digit_of [48 + q] q); [|split; [lia|reflexivity] ].
    apply one. lia.
  - rewrite E1. apply (num_more 10 dec_digit_of [48 + q2; 48 + r2] q); [|split; [lia|reflexivity] ].
    rewrite E3. apply (num_more 10 dec_digit_of [48 + q2] q2); [|split; [lia|reflexivity] ].
    apply one. lia.
Qed.

Lemma dec_bytes_numerals bs : wf_bytes bs -> Forall2 dec_numeral (map dec_byte bs) bs.
Proof. induction 1; constructor; auto. apply dec_byte_numeral, H. Qed.

Lemma bytes_small bs : wf_bytes bs -> forallb (fun z => z <? 256) bs = true.
Proof.
  intros W. apply forallb_forall. intros z Hz. unfold wf_bytes in W. rewrite Forall_forall in W.
  specialize (W z Hz). unfold is_byte in W. lia.
Qed.

Lemma ip_roundtrip old m pre bs suf : wf_bytes bs -> List.length bs = 4%nat ->
  unpack (VIP old m) (pre ++ bs ++ suf) (List.length pre) = Ok (VIP (VStr (dotted_dec bs)) m) /\
  (forall m', pack (VIP (VStr (dotted_dec bs)) m') = Ok bs) /\
  (forall m' q, pack (VIP (VStr (dotted_dec bs ++ 47 :: q)) m') = Ok bs).
Proof.
  intros W L.
  assert (P : forall m', pack (VIP (VStr (dotted_dec bs)) m') = Ok bs /\
              forall q, pack (VIP (VStr (dotted_dec bs ++ 47 :: q)) m') = pack (VIP (VStr (dotted_dec bs)) m')).
  { intros m'. destruct (ip_text (dotted_dec bs) m' (map dec_byte bs) bs) as [A B]; auto.
    - apply dec_bytes_numerals, W.
    - destruct bs; discriminate.
    - split; [|exact B]. rewrite A, L, bytes_small by exact W. reflexivity. }
  split; [|split].
  - rewrite dotted_dec_canonical by exact W. change (unpack (VIP old m)) with (ip_unpack m).
    apply ip_unpack_mid; auto.
  - intros m'. exact (proj1 (P m')).  
  - intros m' q. destruct (P m') as [A B]. rewrite B. exact A.
Qed.

Lemma ip_short old m buff off : (List.length buff < off + 4)%nat ->
  unpack (VIP old m) buff off = Err UnpackException.
Proof.
  intros H. change (unpack (VIP old m)) with (ip_unpack m). unfold ip_unpack.
  rewrite seq_short; [reflexivity|]. rewrite slice_length. lia.
Qed.

Lemma split_no c s : no_char c s -> split c s = [s].
Proof. intros H. unfold split. rewrite split_acc_no by exact H. reflexivity. Qed.

Lemma split_prefix_ok dflt a t n nm : no_char slash a -> dec_numeral t n ->
  split_prefix dflt (a ++ 47 :: t) nm = Ok (a, n) /\
  split_prefix dflt a nm = Ok (a, match nm with Some m => m | None => dflt end).
Proof.
  intros NA D. unfold split_prefix. change (a ++ 47 :: t) with (a ++ slash :: t).
  rewrite has_char_mid, split_prefix_text by exact NA.
  rewrite split_no by (eapply dec_no_slash; eauto). rewrite (py_int_dec _ _ D).
  rewrite has_char_no by exact NA. split; reflexivity.
Qed.

Lemma ip_construct bs t n nm : wf_bytes bs -> dec_numeral t n ->
  ip_init (dotted_dec bs ++ 47 :: t) nm = Ok (VIP (VStr (dotted_dec bs)) n) /\
  ip_init (dotted_dec bs) nm
  = Ok (VIP (VStr (dotted_dec bs)) (match nm with Some m => m | None => 32 end)).
Proof.
  intros W D.
  assert (NS : no_char slash (dotted_dec bs)).
  { apply no_char_separated; [discriminate|]. apply dec_bytes_numerals in W.
    eapply Forall2_left; [apply dec_no_slash|exact W]. }
  unfold ip_init. destruct (split_prefix_ok 32 _ _ _ nm NS D) as [-> ->]. split; reflexivity.
Qed.

(** ** DPID *)

Lemma dpid_roundtrip old pre bs suf : wf_bytes bs -> List.length bs = 8%nat ->
  unpack (VDPID old) (pre ++ bs ++ suf) (List.length pre) = Ok (VDPID (VStr (colon_hex bs))) /\
  pack (VDPID (VStr (colon_hex bs))) = Ok bs /\ get_size (VDPID (VStr (colon_hex bs))) = Ok 8.
Proof.
  intros W L. rewrite colon_hex_canonical by exact W. split; [|split].
  - change (unpack (VDPID old)) with dpid_unpack. apply dpid_unpack_mid; auto.
  - change (dpid_bytes (VStr (hex_canonical bs)) = Ok bs). apply dpid_bytes_ok; auto.
    apply hex_canonical_text, W.
  - reflexivity.
Qed.

(** ** Char *)

Lemma removelast_firstn_zeros len (s : text) : (0 < len)%nat ->
  removelast (firstn len (s ++ repeat 0 len)) = firstn (len - 1) (s ++ repeat 0 len).
Proof.
  intros H. destruct len as [|len]; [lia|]. rewrite removelast_firstn.
  - f_equal. lia.
  - rewrite app_length, repeat_length. lia.
Qed.

Lemma firstn_repeat' {A} (x : A) n m : firstn n (repeat x m) = repeat x (Nat.min n m).
Proof. revert m. induction n as [|n IH]; intros [|m]; cbn; auto. rewrite IH. reflexivity. Qed.

Lemma char_pack_exact len s : (0 < len)%nat -> ascii_text s ->
  let kept := firstn (len - 1) s in
  pack (VChar len (VStr s)) = Ok (kept ++ repeat 0 (len - List.length kept)).
Proof.
  intros H A kept. change (char_bytes len (VStr s) = Ok (kept ++ repeat 0 (len - List.length kept))).
  unfold char_bytes. rewrite forallb_ascii by exact A. unfold zeros.
  rewrite removelast_firstn_zeros by exact H. f_equal.
  rewrite firstn_app, firstn_repeat'. rewrite <- app_assoc. unfold kept. f_equal.
  change [0] with (repeat 0 1). rewrite <- repeat_app. f_equal. rewrite firstn_length. lia.
Qed.

Lemma rstrip_last (s : text) : (forall t, s <> t ++ [0]) -> rstrip 0 s = s.
Proof.
  intros H. apply rstrip_id. destruct s as [|x s] using rev_ind; [auto|]. right. exists s, x. split; auto.
  intros ->. apply (H s). reflexivity.
Qed.

Lemma char_roundtrip len s old pre suf :
  (List.length s < len)%nat -> ascii_text s -> (forall t, s <> t ++ [0]) ->
  pack (VChar len (VStr s)) = Ok (s ++ repeat 0 (len - List.length s)) /\
  unpack (VChar len old) (pre ++ (s ++ repeat 0 (len - List.length s)) ++ suf) (List.length pre)
  = Ok (VChar len (VStr s)).
Proof.
  intros L A R. split.
  - rewrite char_pack_exact by (auto; lia). rewrite firstn_all2 by lia. reflexivity.
  - change (unpack (VChar len old)) with (char_unpack len).
    pose proof (char_unpack_mid s (len - List.length s) pre suf A (rstrip_last s R)) as H.
    replace (List.length s + (len - List.length s))%nat with len in H by lia. exact H.
Qed.

(** Any bytes below 128 in the field decode to the text before the trailing
    NUL bytes. *)
Lemma char_decode len old pre s k suf :
  ascii_text s -> (forall t, s <> t ++ [0]) -> len = (List.length s + k)%nat ->
  unpack (VChar len old) (pre ++ (s ++ repeat 0 k) ++ suf) (List.length pre) = Ok (VChar len (VStr s)).
Proof.
  intros A R ->. change (unpack (VChar (List.length s + k) old)) with (char_unpack (List.length s + k)).
  apply char_unpack_mid; auto. apply rstrip_last, R.
Qed.

(** ** IPv6Address *)

Lemma split_join_app c parts r : parts <> [] -> Forall (no_char c) parts ->
  split c (join c parts ++ c :: r) = parts ++ split c r.
Proof.
  induction parts as [|p [|q tl] IH]; intros N F; [contradiction| |]; inversion F; subst.
  - cbn [join app]. rewrite split_prefix_text by assumption. reflexivity.
  - change (join c (p :: q :: tl)) with (p ++ c :: join c (q :: tl)). rewrite <- app_assoc. cbn [app].
    rewrite split_prefix_text by assumption. rewrite IH by (auto; discriminate). reflexivity.
Qed.

Lemma has_double_mid c a r : has_double c (a ++ c :: c :: r) = true.
Proof.
  induction a as [|x a IH].
  - cbn. rewrite Z.eqb_refl. reflexivity.
  - cbn [app has_double]. destruct (a ++ c :: c :: r) eqn:E; [destruct a; discriminate|].
    rewrite IH. apply orb_true_r.
Qed.

Lemma index_empty_app l r : Forall (fun t => t <> []) l -> index_empty (l ++ [] :: r) = List.length l.
Proof.
  induction l as [|t l IH]; intros F; auto. inversion F; subst. cbn. destruct t; [contradiction|].
  rewrite IH by assumption. reflexivity.
Qed.

Lemma filter_nonempty l : Forall (fun t => t <> []) l -> filter is_nonempty l = l.
Proof.
  induction l as [|t l IH]; intros F; auto. inversion F; subst. cbn. destruct t; [contradiction|].
  cbn. rewrite IH by assumption. reflexivity.
Qed.

Lemma expand6_ok left_ right_ zl zr :
  Forall2 hex_numeral left_ zl -> Forall2 hex_numeral right_ zr ->
  expand6 (separated 58 left_ ++ [58; 58] ++ separated 58 right_)
  = separated 58 (left_ ++ repeat [48] (8 - (List.length left_ + List.length right_)) ++ right_).
Proof.
  intros FL FR. rewrite (separated_join 58 left_), (separated_join 58 right_), (separated_join 58 (left_ ++ _)).
  change 58 with colon.
  assert (NL : Forall (no_char colon) left_) by (eapply Forall2_left; [apply hex_no_colon|exact FL]).
  assert (NR : Forall (no_char colon) right_) by (eapply Forall2_left; [apply hex_no_colon|exact FR]).
  assert (EL : Forall (fun t => t <> []) left_).
  { eapply Forall2_left; [|exact FL]. intros a b H. apply hex_numeral_digits in H. tauto. }
  assert (ER : Forall (fun t => t <> []) right_).
  { eapply Forall2_left; [|exact FR]. intros a b H. apply hex_numeral_digits in H. tauto. }
  unfold expand6. destruct (text_eqb _ _) eqn:T.
  - apply text_eqb_eq in T. change (txt "::") with [colon; colon] in T.
    apply (f_equal (@List.length Z)) in T. rewrite !app_length in T. cbn [List.length] in T.
    assert (EmL : left_ = []).
    { destruct left_ as [|a tl]; auto. exfalso. inversion EL; subst.
      destruct a; [contradiction|]. destruct tl; cbn in T; lia. }
    assert (EmR : right_ = []).
    { destruct right_ as [|a tl]; auto. exfalso. inversion ER; subst.
      destruct a; [contradiction|]. destruct tl; cbn in T; lia. }
    subst. reflexivity.
  - change ([colon; colon] ++ join colon right_) with (colon :: colon :: join colon right_).
    rewrite has_double_mid.
    assert (X : exists extra, split colon (join colon left_ ++ colon :: colon :: join colon right_)
                  = left_ ++ [] :: extra /\ filter is_nonempty extra = right_).
    { destruct left_ as [|a tl].
      - cbn [join app]. change (colon :: colon :: join colon right_) with ([] ++ colon :: ([] ++ colon :: join colon right_)).
        rewrite split_prefix_text by constructor. rewrite split_prefix_text by constructor.
        eexists. split; [reflexivity|]. cbn.
        destruct right_ as [|b tl]; [reflexivity|]. rewrite split_join by (auto; discriminate).
        apply filter_nonempty, ER.
      - rewrite split_join_app by (auto; discriminate).
        change (colon :: join colon right_) with ([] ++ colon :: join colon right_).
        rewrite split_prefix_text by constructor. eexists. split; [reflexivity|].
        destruct right_ as [|b tr]; [reflexivity|]. rewrite split_join by (auto; discriminate).
        apply filter_nonempty, ER. }
    destruct X as (extra & -> & FE). cbv zeta.
    rewrite index_empty_app by exact EL. rewrite filter_app. cbn [filter is_nonempty].
    rewrite filter_nonempty, FE by exact EL.
    rewrite firstn_length_app, skipn_length_app, app_length. reflexivity.
Qed.

Definition words_bytes (zs : list Z) : bytes := flat_map (be_encode 2) zs.

Lemma struct_pack_us_2 zs : Forall (fun z => 0 <= z < 65536) zs ->
  struct_pack_us 2 zs = Ok (words_bytes zs).
Proof.
  induction 1 as [|z zs H _ IH]; auto. cbn [struct_pack_us].
  rewrite struct_pack_u_ok by (rewrite ulimit2; exact H). cbn [bind]. rewrite IH. reflexivity.
Qed.

Lemma pack_words n zs : Forall (fun z => 0 <= z) zs ->
  recast StructError PackException (struct_pack_seq 2 n zs)
  = if Nat.eqb (List.length zs) n && forallb (fun z => z <? 65536) zs
    then Ok (words_bytes zs) else Err PackException.
Proof.
  intros P. unfold struct_pack_seq. destruct (Nat.eqb (List.length zs) n); [|reflexivity].
  cbn [andb]. destruct (forallb (fun z => z <? 65536) zs) eqn:F.
  - rewrite struct_pack_us_2; [reflexivity|]. rewrite forallb_forall in F.
    rewrite Forall_forall in *. intros z Hz. specialize (F z Hz). specialize (P z Hz). cbn in *. lia.
  - rewrite struct_pack_us_err; [reflexivity|exact P|].
    rewrite <- not_true_iff_false, forallb_forall in F. apply Exists_exists.
    rewrite ulimit2.
    destruct (existsb (fun z => 65536 <=? z) zs) eqn:X.
    + apply existsb_exists in X as (z & A & B). exists z. split; auto. lia.
    + exfalso. apply F. intros z Hz. destruct (z <? 65536) eqn:Y; auto.
      rewrite <- not_true_iff_false, existsb_exists in X. exfalso. apply X. exists z. split; auto. lia.
Qed.

Lemma ip6_text_pack parts zs : Forall2 hex_numeral parts zs -> parts <> [] ->
  ip6_bytes (separated 58 parts)
  = if Nat.eqb (List.length zs) 8 && forallb (fun z => z <? 65536) zs
    then Ok (words_bytes zs) else Err PackException.
Proof.
  intros F N. unfold ip6_bytes. rewrite has_char_no.
  2: { apply no_char_separated; [discriminate|]. eapply Forall2_left; [apply hex_no_slash|exact F]. }
  rewrite (split_hex _ _ _ F N eq_refl). cbn [bind].
  apply pack_words. clear N. induction F; constructor; auto. eapply hex_numeral_nonneg; eauto.
Qed.

Lemma Forall2_length {A B} (P : A -> B -> Prop) l r : Forall2 P l r -> List.length l = List.length r.
Proof. intros F. induction F; cbn; auto. Qed.

Lemma hex_zero : hex_numeral [48] 0.
Proof. constructor. left. split; [lia|reflexivity]. Qed.

Lemma Forall2_repeat {A B} (P : A -> B -> Prop) a b n : P a b -> Forall2 P (repeat a n) (repeat b n).
Proof. intros H. induction n; constructor; auto. Qed.

Lemma ip6_construct left_ right_ zl zr nm :
  Forall2 hex_numeral left_ zl -> Forall2 hex_numeral right_ zr ->
  (List.length left_ + List.length right_ <= 7)%nat ->
  Forall (fun z => z < 65536) (zl ++ zr) ->
  exists a, ip6_init (separated 58 left_ ++ [58; 58] ++ separated 58 right_) nm = Ok a /\
    ip6_netmask a = (match nm with Some m => m | None => 128 end) /\
    ip6_pack a = Ok (words_bytes (zl ++ repeat 0 (8 - (List.length zl + List.length zr)) ++ zr)).
Proof.
  intros FL FR L B. eexists. split; [|split].
  - unfold ip6_init, split_prefix. rewrite has_char_no; [reflexivity|].
    apply Forall_app. split.
    + apply no_char_separated; [discriminate|]. eapply Forall2_left; [apply hex_no_slash|exact FL].
    + cbn [app]. constructor; [discriminate|]. constructor; [discriminate|].
      apply no_char_separated; [discriminate|]. eapply Forall2_left; [apply hex_no_slash|exact FR].
  - reflexivity.
  - cbn [fst]. unfold ip6_pack. cbn [ip6_value]. rewrite (expand6_ok _ _ _ _ FL FR).
    pose proof (Forall2_length _ _ _ FL) as LL. pose proof (Forall2_length _ _ _ FR) as LR.
    set (k := (8 - (List.length left_ + List.length right_))%nat).
    replace (8 - (List.length zl + List.length zr))%nat with k by (unfold k; lia).
    rewrite (ip6_text_pack _ (zl ++ repeat 0 k ++ zr)).
    + rewrite !app_length, repeat_length.
      replace (List.length zl + (k + List.length zr))%nat with 8%nat by (unfold k; lia). cbn [Nat.eqb andb].
      rewrite !forallb_app.
      apply Forall_app in B as [B1 B2].
      assert (T : forall l, Forall (fun z => z < 65536) l -> forallb (fun z => z <? 65536) l = true).
      { intros l H. apply forallb_forall. rewrite Forall_forall in H. intros z Hz. specialize (H z Hz). lia. }
      rewrite (T _ B1), (T _ B2), (T (repeat 0 k)); [reflexivity|].
      apply Forall_forall. intros z Hz. apply repeat_spec in Hz. lia.
    + apply Forall2_app; [exact FL|]. apply Forall2_app; [|exact FR]. apply Forall2_repeat, hex_zero.
    + unfold k. destruct left_; [|discriminate]. cbn [app List.length] in *.
      destruct (8 - (0 + List.length right_))%nat eqn:E; [lia|discriminate].
Qed.

Lemma ip6_prefix a t n nm : no_char slash a -> dec_numeral t n ->
  exists x, ip6_init (a ++ 47 :: t) nm = Ok x /\ ip6_netmask x = n /\
            forall nm', exists y, ip6_init a nm' = Ok y /\ ip6_pack y = ip6_pack x.
Proof.
  intros NA D. unfold ip6_init. destruct (split_prefix_ok 128 _ _ _ nm NA D) as [-> _].
  eexists. split; [reflexivity|]. split; [reflexivity|].
  intros nm'. destruct (split_prefix_ok 128 _ _ _ nm' NA D) as [_ ->].
  eexists. split; reflexivity.
Qed.

(** 16-bit words of a byte string. *)
Lemma be_groups_words zs : Forall (fun z => 0 <= z < 65536) zs ->
  be_groups 2 (List.length zs) (words_bytes zs) = zs.
Proof.
  induction 1 as [|z zs H _ IH]; auto. cbn [List.length be_groups words_bytes flat_map].
  rewrite firstn_app_exact, skipn_app_exact by (symmetry; apply be_encode_length).
  rewrite be_decode_encode by (rewrite ulimit2; exact H).
  f_equal. exact IH.
Qed.

Lemma words_length zs : List.length (words_bytes zs) = (2 * List.length zs)%nat.
Proof.
  induction zs as [|z zs IH]; auto.
  change (words_bytes (z :: zs)) with (be_encode 2 z ++ words_bytes zs).
  rewrite app_length, be_encode_length, IH. cbn [List.length]. lia.
Qed.

Lemma hex_quad_numeral z : 0 <= z < 65536 -> hex_numeral (hex_quad z) z.
Proof.
  intros H. unfold hex_quad, hex_numeral.
  assert (D : forall d, 0 <= d <= 15 -> hex_digit_of (hex_char d) d).
  { intros d Hd. unfold hex_digit_of, hex_char. destruct (d <? 10) eqn:E; lia. }
  pose proof (Z.div_mod z 16 ltac:(lia)) as E1. pose proof (Z.mod_pos_bound z 16 ltac:(lia)) as B1.
  pose proof (Z.div_mod (z / 16) 16 ltac:(lia)) as E2. pose proof (Z.mod_pos_bound (z / 16) 16 ltac:(lia)) as B2.
  rewrite Z.div_div in E2 by lia. change (16 * 16) with 256 in E2.
  pose proof (Z.div_mod (z / 256) 16 ltac:(lia)) as E3. pose proof (Z.mod_pos_bound (z / 256) 16 ltac:(lia)) as B3.
  rewrite Z.div_div in E3 by lia. change (256 * 16) with 4096 in E3.
  remember (z / 16) as q1. remember (z / 256) as q2. remember (z / 4096) as q3.
  remember (z mod 16) as r1. remember (q1 mod 16) as r2. remember (q2 mod 16) as r3.
  rewrite E1. apply (num_more 16 hex_digit_of [hex_char q3; hex_char r3; hex_char r2] q1); [|apply D; lia].
  rewrite E2. apply (num_more 16 hex_digit_of [hex_char q3; hex_char r3] q2); [|apply D; lia].
  rewrite E3. apply (num_more 16 hex_digit_of [hex_char q3] q3); [|apply D; lia].
  constructor. apply D. lia.
Qed.

Lemma ip6_roundtrip a pre zs suf : List.length zs = 8%nat -> Forall (fun z => 0 <= z < 65536) zs ->
  exists b, ip6_unpack a (pre ++ words_bytes zs ++ suf) (List.length pre) = Ok b /\
    ip6_value b = separated 58 (map hex_quad zs) /\ ip6_netmask b = ip6_netmask a /\
    ip6_pack b = Ok (words_bytes zs).
Proof.
  intros L W.
  assert (EQ : map hex_quad zs = map (fixed_digits 16 4) zs).
  { apply map_ext_in. intros z Hz. apply hex_quad_digits. rewrite Forall_forall in W. auto. }
  eexists. split; [|split; [|split] ].
  - unfold ip6_unpack. rewrite slice_mid with (mid := words_bytes zs); [|reflexivity|rewrite words_length, L; reflexivity].
    unfold struct_unpack_seq. rewrite words_length, L. cbn [Nat.eqb Nat.mul Nat.add recast bind].
    rewrite <- L at 1. rewrite be_groups_words by exact W. reflexivity.
  - cbn [ip6_value]. rewrite EQ. reflexivity.
  - reflexivity.
  - unfold ip6_pack. cbn [ip6_value].
    rewrite <- EQ. change (ip6_bytes (separated 58 (map hex_quad zs)) = Ok (words_bytes zs)).
    rewrite (ip6_text_pack _ zs).
    + rewrite L. cbn [Nat.eqb andb].
      replace (forallb (fun z => z <? 65536) zs) with true; [reflexivity|].
      symmetry. apply forallb_forall. rewrite Forall_forall in W. intros z Hz. specialize (W z Hz). lia.
    + clear L EQ. induction W; constructor; auto. apply hex_quad_numeral; auto.
    + destruct zs; discriminate.
Qed.

(** Every 16-byte string is the encoding of eight words. *)
Lemma words_of_bytes n bs : wf_bytes bs -> List.length bs = (2 * n)%nat ->
  exists zs, List.length zs = n /\ Forall (fun z => 0 <= z < 65536) zs /\ words_bytes zs = bs.
Proof.
  revert bs. induction n as [|n IH]; intros bs W L.
  - destruct bs; [|discriminate]. exists []. repeat split; constructor.
  - destruct bs as [|a [|b bs] ]; try (cbn in L; lia). inversion W; subst. inversion H2; subst.
    destruct (IH bs) as (zs & A & B & C); [assumption|cbn in L; lia|].
    exists (be_decode [a; b] :: zs). repeat split.
    + cbn. lia.
    + constructor; auto. rewrite <- ulimit2. apply (be_decode_bound [a; b]). constructor; auto.
    + cbn [words_bytes flat_map]. change 2%nat with (List.length [a; b]).
      rewrite be_encode_decode by (constructor; auto). cbn. f_equal. f_equal. exact C.
Qed.

Lemma ip6_roundtrip_bytes a pre bs suf : wf_bytes bs -> List.length bs = 16%nat ->
  exists b zs, List.length zs = 8%nat /\ Forall (fun z => 0 <= z < 65536) zs /\
    words_bytes zs = bs /\
    ip6_unpack a (pre ++ bs ++ suf) (List.length pre) = Ok b /\
    ip6_value b = separated 58 (map hex_quad zs) /\ ip6_pack b = Ok bs.
Proof.
  intros W L. destruct (words_of_bytes 8 bs W L) as (zs & A & B & C).
  destruct (ip6_roundtrip a pre zs suf A B) as (b & D & E & _ & F). subst bs.
  exists b, zs. repeat split; auto.
Qed.

(** ** Statements with [words] *)

Lemma words_eq zs : Forall is_word zs -> words_bytes zs = words zs.
Proof.
  induction 1 as [|z zs H _ IH]; auto. unfold is_word in H.
  change (words (z :: zs)) with ([z / 256; z mod 256] ++ words zs). rewrite <- IH.
  change (words_bytes (z :: zs)) with (be_encode 2 z ++ words_bytes zs). f_equal. cbn [be_encode].
  change (256 ^ Z.of_nat 1) with 256. change (256 ^ Z.of_nat 0) with 1. rewrite Z.div_1_r.
  rewrite (Z.mod_small (z / 256)); [reflexivity|].
  split; [apply Z.div_pos; lia|apply Z.div_lt_upper_bound; lia].
Qed.

Lemma ip6_unpack_any a pre bs suf : wf_bytes bs -> List.length bs = 16%nat ->
  exists b zs, List.length zs = 8%nat /\ Forall is_word zs /\ words zs = bs /\
    ip6_unpack a (pre ++ bs ++ suf) (List.length pre) = Ok b /\
    ip6_value b = separated 58 (map hex_quad zs) /\ ip6_netmask b = ip6_netmask a /\
    ip6_pack b = Ok bs.
Proof.
  intros W L. destruct (words_of_bytes 8 bs W L) as (zs & A & B & C).
  destruct (ip6_roundtrip a pre zs suf A B) as (b & D & E & G & F). subst bs.
  exists b, zs. rewrite (words_eq zs B) in *. auto 8.
Qed.

Lemma word_lt z t : hex_numeral t z -> z < 65536 -> is_word z.
Proof. intros H L. apply hex_numeral_nonneg in H. split; assumption. Qed.

Lemma ip6_double_colon left_ right_ zl zr nm :
  Forall2 hex_numeral left_ zl -> Forall2 hex_numeral right_ zr ->
  (List.length left_ + List.length right_ <= 7)%nat ->
  Forall is_word (zl ++ zr) ->
  exists a, ip6_init (separated 58 left_ ++ [58; 58] ++ separated 58 right_) nm = Ok a /\
    ip6_netmask a = (match nm with Some m => m | None => 128 end) /\
    ip6_pack a = Ok (words (zl ++ repeat 0 (8 - (List.length zl + List.length zr)) ++ zr)).
Proof.
  intros FL FR L B.
  destruct (ip6_construct left_ right_ zl zr nm FL FR L) as (a & E1 & E2 & E3).
  - eapply Forall_impl; [|exact B]. intros z Hz. apply Hz.
  - exists a. split; [exact E1|]. split; [exact E2|]. rewrite E3, words_eq; [reflexivity|].
    apply Forall_app in B as [B1 B2]. apply Forall_app. split; auto. apply Forall_app. split; auto.
    apply Forall_forall. intros z Hz. apply repeat_spec in Hz. subst. split; reflexivity || discriminate.
Qed.

Lemma ip6_eight_groups parts zs :
  Forall2 hex_numeral parts zs -> parts <> [] ->
  ip6_pack (mk_ipv6 (separated 58 parts) 128)
  = if Nat.eqb (List.length zs) 8 && forallb (fun z => z <? 65536) zs
    then Ok (words zs) else Err PackException.
Proof.
  intros F N. unfold ip6_pack. cbn [ip6_value]. rewrite (ip6_text_pack _ _ F N).
  destruct (Nat.eqb (List.length zs) 8); [|reflexivity]. cbn [andb].
  destruct (forallb (fun z => z <? 65536) zs) eqn:E; [|reflexivity]. rewrite words_eq; [reflexivity|].
  rewrite forallb_forall in E. clear N. induction F; constructor.
  - eapply word_lt; eauto. specialize (E y (or_introl eq_refl)). lia.
  - apply IHF. intros z Hz. apply E. right. exact Hz.
Qed.

Lemma ip6_short a buff off : (List.length buff < off + 16)%nat ->
  ip6_unpack a buff off = Err UnpackException.
Proof.
  intros H. unfold ip6_unpack. rewrite seq_short; [reflexivity|]. rewrite slice_length. lia.
Qed.

Lemma nth_repeat' {A} (x d : A) n i : (i < n)%nat -> nth i (repeat x n) d = x.
Proof. revert i. induction n as [|n IH]; intros [|i] H; cbn; try lia; auto. apply IH. lia. Qed.

Lemma char_last len s bs : (0 < len)%nat -> ascii_text s ->
  pack (VChar len (VStr s)) = Ok bs ->
  List.length bs = len /\ nth (len - 1) bs 1 = 0 /\
  firstn (Nat.min (len - 1) (List.length s)) bs = firstn (len - 1) s.
Proof.
  intros H A E. rewrite char_pack_exact in E by assumption. injection E as <-.
  set (kept := firstn (len - 1) s).
  assert (K : List.length kept = Nat.min (len - 1) (List.length s)) by (unfold kept; apply firstn_length).
  split; [|split].
  - rewrite app_length, repeat_length. lia.
  - rewrite app_nth2 by lia. rewrite nth_repeat'; [reflexivity|lia].
  - rewrite <- K. apply firstn_length_app.
Qed.
