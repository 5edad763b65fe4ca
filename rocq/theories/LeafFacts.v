(** Packing and unpacking of the basic types, against the wire formats of
    [Spec]. *)
From Coq Require Import ZArith List Bool String Lia ZifyBool.
From Verif Require Import Base PyText Ids PyVal Classes Interp Spec BaseFacts TextFacts ClassFacts.
Import ListNotations.
Open Scope string_scope.
Open Scope list_scope.
Open Scope Z_scope.

(** ** Integers *)

Lemma generic_mask e v : is_mask_enum e = true ->
  generic_value (Some e) v = match v with VMask _ z => VInt z | _ => v end.
Proof.
  unfold is_mask_enum, generic_value. destruct (enum_def e); intros; try discriminate. reflexivity.
Qed.
Lemma generic_enum e z : is_mask_enum e = false -> generic_value (Some e) (VEnum e z) = VInt z.
Proof.
  unfold is_mask_enum, generic_value. rewrite eid_eqb_refl.
  destruct (enum_def e); intros; try discriminate; reflexivity.
Qed.
Lemma generic_int er z : generic_value er (VInt z) = VInt z.
Proof. unfold generic_value. destruct er; auto. destruct (enum_def e); reflexivity. Qed.

Lemma int_value_pack w er d iv z :
  iv <> VNone -> int_value iv z -> uint_pack1 w er d iv = uint_struct w (VInt z).
Proof.
  intros Hn H. inversion H; subst; unfold uint_pack1; cbn [dot_value]; auto.
  - unfold generic_value. destruct er0; auto. destruct (enum_def e); reflexivity.
  - rewrite generic_enum by assumption. reflexivity.
  - rewrite generic_mask by assumption. reflexivity.
Qed.
Lemma int_value_default w er d z :
  int_value (VUInt w er d) z -> uint_pack1 w er d VNone = uint_struct w (VInt z).
Proof.
  intros H. unfold uint_pack1. inversion H; subst.
  - rewrite generic_int. reflexivity.
  - rewrite generic_enum by assumption. reflexivity.
  - rewrite generic_mask by assumption. reflexivity.
Qed.
Lemma uint_struct_ok w z : 0 <= z < ulimit w -> uint_struct w (VInt z) = Ok (be_encode w z).
Proof. intros. unfold uint_struct. cbn [as_int]. rewrite struct_pack_u_ok by assumption. reflexivity. Qed.

Lemma decoded_int_value w er z : int_value (VUInt w er (decoded_int er z)) z.
Proof.
  destruct er as [e|]; cbn [decoded_int]; [|constructor].
  destruct (is_mask_enum e) eqn:E; constructor; assumption.
Qed.
Lemma num_of_decoded w er z : num_of (VUInt w er (decoded_int er z)) = Ok z.
Proof.
  unfold num_of. destruct er as [e|]; cbn [decoded_int].
  - destruct (is_mask_enum e) eqn:E; [rewrite generic_mask|rewrite generic_enum]; auto.
  - reflexivity.
Qed.
Lemma int_value_fun v a b : int_value v a -> int_value v b -> a = b.
Proof. intros H1 H2. inversion H1; subst; inversion H2; subst; congruence. Qed.
Lemma int_exact_value v z : int_exact v z -> int_value v z /\ v <> VNone.
Proof. intros H; inversion H; subst; split; try constructor; try discriminate; assumption. Qed.
Lemma int_exact_num v z : int_exact v z -> num_of v = Ok z.
Proof.
  intros H; inversion H; subst; unfold num_of; auto.
  - cbn [as_int]. rewrite H0. reflexivity.
  - rewrite generic_int. reflexivity.
  - rewrite generic_enum by assumption. reflexivity.
Qed.

Lemma enum_call_ok e z : is_mask_enum e = true \/ is_member e z = true ->
  enum_call e z = Ok (decoded_int (Some e) z).
Proof.
  unfold enum_call, decoded_int, is_mask_enum.
  destruct (enum_def e); intros [H|H]; try discriminate; try rewrite H; reflexivity.
Qed.

Lemma uint_unpack_mid w er z pre suf :
  0 <= z < ulimit w -> allowed_int er z ->
  uint_unpack w er (pre ++ be_encode w z ++ suf) (List.length pre)
  = Ok (VUInt w er (decoded_int er z)).
Proof.
  intros Hz Ha. unfold uint_unpack.
  rewrite struct_unpack_u_mid by apply be_encode_length. cbn [bind].
  rewrite be_decode_encode by assumption.
  destruct er as [e|]; auto. cbn [allowed_int] in Ha.
  rewrite enum_call_ok by assumption. reflexivity.
Qed.

Lemma ulimit2 : ulimit 2 = 65536.
Proof. reflexivity. Qed.

Lemma uint_unpack_u16 er p z bs pre suf :
  u16_at p bs z -> allowed_int er z ->
  uint_unpack 2 er (pre ++ bs ++ suf) (List.length pre + p) = Ok (VUInt 2 er (decoded_int er z)).
Proof.
  intros (b1 & b2 & -> & L & Hz) Ha.
  replace (pre ++ (b1 ++ be_encode 2 z ++ b2) ++ suf)
    with ((pre ++ b1) ++ be_encode 2 z ++ (b2 ++ suf)) by (rewrite !app_assoc; reflexivity).
  replace (List.length pre + p)%nat with (List.length (pre ++ b1)) by (rewrite app_length; lia).
  apply uint_unpack_mid; auto.
Qed.

(** ** Char *)

Lemma forallb_ascii s : ascii_text s -> forallb (fun c => c <? 128) s = true.
Proof. unfold ascii_text. induction 1; cbn; auto. rewrite IHForall. lia. Qed.

Lemma removelast_zeros n : (0 < n)%nat -> removelast (repeat 0 n) ++ [0] = repeat 0 n.
Proof.
  intros H. destruct n as [|n]; [lia|]. clear H.
  replace (S n) with (n + 1)%nat by lia. rewrite repeat_app. cbn [repeat].
  rewrite removelast_app by discriminate. cbn. rewrite app_nil_r. reflexivity.
Qed.

Lemma char_bytes_ok s pad :
  ascii_text s -> (0 < pad)%nat ->
  char_bytes (List.length s + pad) (VStr s) = Ok (s ++ repeat 0 pad).
Proof.
  intros Ha Hp. unfold char_bytes. rewrite forallb_ascii by assumption. f_equal.
  unfold zeros. rewrite firstn_app.
  rewrite firstn_all2 by lia.
  replace (List.length s + pad - List.length s)%nat with pad by lia.
  rewrite (Nat.add_comm (List.length s) pad), repeat_app.
  rewrite firstn_app, repeat_length, Nat.sub_diag. cbn [firstn].
  rewrite app_nil_r. rewrite (firstn_all2 (repeat 0 pad)) by (rewrite repeat_length; lia).
  rewrite removelast_app.
  - rewrite <- app_assoc. rewrite removelast_zeros by assumption. reflexivity.
  - destruct pad; [lia|discriminate].
Qed.

Lemma char_unpack_mid s pad pre suf :
  ascii_text s -> rstrip 0 s = s ->
  char_unpack (List.length s + pad) (pre ++ (s ++ repeat 0 pad) ++ suf) (List.length pre)
  = Ok (VChar (List.length s + pad) (VStr s)).
Proof.
  intros Ha Hr. unfold char_unpack.
  rewrite slice_mid with (mid := s ++ repeat 0 pad)
    by (rewrite ?app_length, ?repeat_length; lia).
  rewrite app_length, repeat_length, Nat.eqb_refl.
  rewrite forallb_ascii.
  - rewrite rstrip_zeros, Hr. reflexivity.
  - apply Forall_app. split; [exact Ha|].
    clear. induction pad; constructor; auto. lia.
Qed.

(** ** Dotted and colon-separated text *)

Lemma byte_small b : is_byte b -> 0 <= b.
Proof. unfold is_byte. lia. Qed.

Lemma dotted_no_slash bs : no_char slash (dotted bs).
Proof.
  apply no_char_join; [discriminate|]. apply Forall_map, Forall_forall. intros b _.
  apply digit_no_char; [exact slash_not_digit|apply str_dec_digits].
Qed.

Lemma dotted_split bs : bs <> [] -> split dot (dotted bs) = map str_dec bs.
Proof.
  intros H. apply split_join.
  - destruct bs; [contradiction|discriminate].
  - apply Forall_map, Forall_forall. intros b _.
    apply digit_no_char; [exact dot_not_digit|apply str_dec_digits].
Qed.

Lemma ip_bytes_ok bs : wf_bytes bs -> List.length bs = 4%nat -> ip_bytes (VStr (dotted bs)) = Ok bs.
Proof.
  intros W L. unfold ip_bytes. rewrite has_char_no by apply dotted_no_slash.
  rewrite dotted_split by (destruct bs; discriminate).
  rewrite mapM_map with (h := fun b => b).
  - cbn [bind]. rewrite map_id, struct_pack_seq1_ok by assumption. reflexivity.
  - intros x Hx. apply py_int_str_dec, byte_small.
    unfold wf_bytes in W. rewrite Forall_forall in W. auto.
Qed.

Lemma ip_unpack_mid m bs pre suf : wf_bytes bs -> List.length bs = 4%nat ->
  ip_unpack m (pre ++ bs ++ suf) (List.length pre) = Ok (VIP (VStr (dotted bs)) m).
Proof.
  intros W L. unfold ip_unpack. rewrite slice_mid with (mid := bs) by lia.
  rewrite <- L, struct_unpack_seq1_ok by assumption. reflexivity.
Qed.

(** Hexadecimal digits. *)
Lemma hex_digit_is c d : hex_digit c d ->
  is_digit c \/ (65 <= c <= 70).
Proof. intros H; inversion H; subst; unfold is_digit; lia. Qed.
Lemma hex_digit_val c d : hex_digit c d -> digit_val c = d /\ 0 <= d < 16.
Proof.
  intros H; inversion H; subst; unfold digit_val; split; try lia;
    repeat match goal with |- context [if ?b then _ else _] => destruct b eqn:? end; lia.
Qed.

Lemma hex_byte_wf p b : hex_byte p b -> is_byte b.
Proof.
  unfold is_byte. intros H; inversion H; subst;
    repeat match goal with Hd : hex_digit _ _ |- _ => apply hex_digit_val in Hd end; lia.
Qed.

Ltac pos_cases q :=
  first [reflexivity | lia | destruct q as [q|q|]; [pos_cases q|pos_cases q|first [reflexivity|lia]]].

Lemma py_int_hex_byte p b : hex_byte p b -> py_int 16 p = Ok b.
Proof.
  intros H; inversion H; subst.
  - pose proof (hex_digit_val _ _ H0) as [V1 B1].
    assert (S1 : 48 <= c /\ c <= 102 /\ c <> underscore) by (inversion H0; subst; unfold underscore; lia).
    assert (G : scan_digits 16 0 false [c] = Some b).
    { cbn [scan_digits]. rewrite V1. rewrite (proj2 (Z.eqb_neq c _)) by lia.
      replace (b <? 16) with true by lia. f_equal. }
    assert (G2 : scan_prefixed 16 [c] = Some b).
    { unfold scan_prefixed. rewrite G.
      destruct c as [|q|q]; try reflexivity. pos_cases q. }
    unfold py_int, strip_space. cbn [rev app drop_space].
    replace (is_space c) with false by (unfold is_space; lia). cbn [rev app drop_space].
    replace (is_space c) with false by (unfold is_space; lia). cbn [rev app].
    rewrite G2. destruct c as [|q|q]; try reflexivity. pos_cases q.
  - pose proof (hex_digit_val _ _ H0) as [V1 B1].
    pose proof (hex_digit_val _ _ H1) as [V2 B2].
    assert (S1 : 48 <= c1 /\ c1 <= 102 /\ c1 <> underscore) by (inversion H0; subst; unfold underscore; lia).
    assert (S2 : 48 <= c2 /\ c2 <= 102 /\ c2 <> underscore) by (inversion H1; subst; unfold underscore; lia).
    assert (G : scan_digits 16 0 false [c1; c2] = Some (16 * d1 + d2)).
    { cbn [scan_digits]. rewrite V1, V2.
      rewrite (proj2 (Z.eqb_neq c1 _)) by lia. rewrite (proj2 (Z.eqb_neq c2 _)) by lia.
      replace (d1 <? 16) with true by lia. replace (d2 <? 16) with true by lia. f_equal. lia. }
    assert (G2 : scan_prefixed 16 [c1; c2] = Some (16 * d1 + d2)).
    { assert (c2 <> 120 /\ c2 <> 88).
      { inversion H1; subst; lia. }
      unfold scan_prefixed. rewrite G.
      replace ((c2 =? 120) || (c2 =? 88)) with false by lia.
      rewrite andb_false_r.
      destruct c1 as [|q|q]; try reflexivity. pos_cases q. }
    unfold py_int, strip_space. cbn [rev app drop_space].
    replace (is_space c1) with false by (unfold is_space; lia). cbn [rev app drop_space].
    replace (is_space c2) with false by (unfold is_space; lia). cbn [rev app].
    rewrite G2. destruct c1 as [|q|q]; try reflexivity. pos_cases q.
Qed.

Lemma hex_byte_no_colon p b : hex_byte p b -> no_char colon p.
Proof.
  assert (D : forall c d, hex_digit c d -> c <> colon)
    by (intros c d H; inversion H; subst; unfold colon; lia).
  intros H; inversion H; subst; repeat constructor; eauto.
Qed.

Lemma hex_text_split s bs : hex_text s bs -> bs <> [] ->
  exists parts, split colon s = parts /\ Forall2 hex_byte parts bs.
Proof.
  intros (parts & -> & F) Hne. exists parts. split; [|exact F].
  apply split_join.
  - intros ->. inversion F; subst. contradiction.
  - clear Hne. induction F; constructor; eauto using hex_byte_no_colon.
Qed.

Lemma hex_text_ints s bs : hex_text s bs -> bs <> [] ->
  mapM (py_int 16) (split colon s) = Ok bs /\ wf_bytes bs.
Proof.
  intros H Hne. destruct (hex_text_split _ _ H Hne) as (parts & -> & F).
  split.
  - apply mapM_Forall2. clear -F. induction F; constructor; eauto using py_int_hex_byte.
  - clear -F. induction F; constructor; eauto using hex_byte_wf.
Qed.

Lemma hw_bytes_ok s bs : hex_text s bs -> List.length bs = 6%nat -> hw_bytes (VStr s) = Ok bs.
Proof.
  intros H L. destruct (hex_text_ints _ _ H) as [E W]; [destruct bs; discriminate|].
  unfold hw_bytes. cbn [equals_zero dot_value as_int]. rewrite E. cbn [bind].
  rewrite struct_pack_seq1_ok by assumption. reflexivity.
Qed.
Lemma hw_bytes_zero : hw_bytes (VInt 0) = Ok [0; 0; 0; 0; 0; 0].
Proof. vm_compute. reflexivity. Qed.
Lemma hw_unpack_mid bs pre suf : wf_bytes bs -> List.length bs = 6%nat ->
  hw_unpack (pre ++ bs ++ suf) (List.length pre) = Ok (VHW (VStr (hex_canonical bs))).
Proof.
  intros W L. unfold hw_unpack. rewrite slice_mid with (mid := bs) by lia.
  rewrite <- L, struct_unpack_seq1_ok by assumption. reflexivity.
Qed.

Lemma dpid_bytes_ok s bs : hex_text s bs -> List.length bs = 8%nat -> dpid_bytes (VStr s) = Ok bs.
Proof.
  intros H L. destruct (hex_text_ints _ _ H) as [E W]; [destruct bs; discriminate|].
  unfold dpid_bytes. rewrite E. cbn [bind].
  rewrite struct_pack_seq1_ok by assumption. reflexivity.
Qed.
Lemma slice_one (l : bytes) pre b suf :
  l = pre ++ b :: suf -> slice (List.length pre) (List.length pre + 1) l = [b].
Proof. intros ->. change (b :: suf) with ([b] ++ suf). apply slice_mid; reflexivity. Qed.
Lemma skipn_add {A} a b (l : list A) : skipn a (skipn b l) = skipn (a + b) l.
Proof.
  revert l. induction b as [|b IH]; intros l; [rewrite Nat.add_0_r; reflexivity|].
  rewrite Nat.add_succ_r. destruct l; [rewrite !skipn_nil; reflexivity|]. cbn [skipn]. apply IH.
Qed.
Lemma dpid_unpack_mid bs pre suf : wf_bytes bs -> List.length bs = 8%nat ->
  dpid_unpack (pre ++ bs ++ suf) (List.length pre) = Ok (VDPID (VStr (hex_canonical bs))).
Proof.
  intros W L. unfold dpid_unpack.
  assert (G : forall bs pre i buff,
             skipn (pre + i) buff = bs ++ suf -> (pre + i <= List.length buff)%nat ->
             mapM (fun i => do l <- struct_unpack_seq 1 1 (slice (pre + i) (pre + i + 1) buff);
                            Ok (hd 0 l)) (seq i (List.length bs)) = Ok bs).
  { clear. induction bs as [|b bs IH]; intros pre i buff Hs Hl; cbn [List.length seq mapM]; auto.
    assert (E : slice (pre + i) (pre + i + 1) buff = [b]).
    { pose proof (firstn_skipn (pre + i) buff) as F. rewrite Hs in F.
      assert (Lf : List.length (firstn (pre + i) buff) = (pre + i)%nat) by (apply firstn_length_le; exact Hl).
      rewrite <- Lf at 1 2. apply slice_one with (suf := bs ++ suf). symmetry. exact F. }
    rewrite E. cbn [struct_unpack_seq List.length Nat.eqb Nat.mul Nat.add bind be_groups hd firstn].
    replace (be_decode [b]) with b by (cbn; lia).
    assert (Hs' : skipn (pre + S i) buff = bs ++ suf).
    { replace (pre + S i)%nat with (1 + (pre + i))%nat by lia.
      rewrite <- skipn_add, Hs. reflexivity. }
    assert (Hl' : (pre + S i <= List.length buff)%nat).
    { assert (List.length (skipn (pre + i) buff) = List.length ((b :: bs) ++ suf)) by congruence.
      rewrite skipn_length in H. cbn in H. lia. }
    rewrite (IH pre (S i) buff Hs' Hl'). reflexivity. }
  rewrite <- L. rewrite (G bs (List.length pre) O (pre ++ bs ++ suf)).
  - reflexivity.
  - rewrite Nat.add_0_r, skipn_length_app. reflexivity.
  - rewrite app_length. lia.
Qed.

Lemma hex_canonical_text bs : wf_bytes bs -> hex_text (hex_canonical bs) bs.
Proof.
  intros W. exists (map hex2 bs). split; [reflexivity|].
  induction W as [|b bs Hb _ IH]; cbn; constructor; auto.
  unfold hex2, is_byte in *. cbn [fixed_digits].
  change (16 ^ Z.of_nat 1) with 16. change (16 ^ Z.of_nat 0) with 1. rewrite Z.div_1_r.
  assert (D : forall d, 0 <= d < 16 -> hex_digit (digit_char d) d).
  { intros d Hd. unfold digit_char. destruct (d <? 10) eqn:E.
    - rewrite Z.add_comm. constructor. lia.
    - rewrite Z.add_comm. constructor. lia. }
  replace b with (16 * ((b / 16) mod 16) + b mod 16) at 3.
  - constructor; apply D; apply Z.mod_pos_bound; lia.
  - rewrite (Z.mod_small (b / 16)).
    + symmetry. apply Z.div_mod. lia.
    + split; [apply Z.div_pos; lia|apply Z.div_lt_upper_bound; lia].
Qed.
