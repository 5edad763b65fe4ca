(** Facts about the wildcards of the OpenFlow 1.0 match. *)
From Coq Require Import ZArith List Bool String Lia ZifyBool.
From Verif Require Import Base PyText Ids PyVal Classes Interp Addr Operators Match01 BaseFacts TextFacts Spec
  SpecBasic SpecOps SpecMatch ClassFacts LeafFacts IntFacts AddrFacts StructFacts OperatorsFacts.
Import ListNotations.
Open Scope string_scope.
Open Scope list_scope.
Open Scope Z_scope.

(** ** The wildcards as a number *)

Lemma wild_op v w op x : v = VInt w \/ (exists n er, v = VUInt n er (VInt w)) ->
  py_op op v (VInt x) = int_op op w x.
Proof. intros [->|(n & er & ->)]; [reflexivity|]. apply op_left. constructor. Qed.

Lemma update_num op x m w r : wildcards_are m w -> int_op op w x = Ok (VInt r) ->
  exists m', update op x m = Ok m' /\ wildcards_are m' r /\
    m' = set_attr "wildcards" (VInt r) m.
Proof.
  intros (v & G & V) E. exists (set_attr "wildcards" (VInt r) m). unfold update, attr_or_error.
  rewrite G. cbn [bind]. rewrite (wild_op v w op x V), E. cbn [bind].
  split; [reflexivity|]. split; [|reflexivity]. exists (VInt r). rewrite get_set_same. auto.
Qed.

Lemma pow2_bit k i : 0 <= k -> 0 <= i -> Z.testbit (2 ^ k) i = (i =? k).
Proof. intros. rewrite Z.pow2_bits_eqb by lia. apply Z.eqb_sym. Qed.

Lemma land_pow2 w k : 0 <= k -> plain_eq (VInt (Z.land w (2 ^ k))) (VInt 0) = negb (Z.testbit w k).
Proof.
  intros K. change (plain_eq (VInt (Z.land w (2 ^ k))) (VInt 0)) with (Z.land w (2 ^ k) =? 0).
  destruct (Z.testbit w k) eqn:T.
  - apply Z.eqb_neq. intros E. assert (X : Z.testbit (Z.land w (2 ^ k)) k = false) by (rewrite E; apply Z.bits_0).
    rewrite Z.land_spec, T, pow2_bit, Z.eqb_refl in X by lia. discriminate X.
  - apply Z.eqb_eq. apply Z.bits_inj'. intros i I. rewrite Z.land_spec, pow2_bit, Z.bits_0 by lia.
    destruct (i =? k) eqn:E; [|apply andb_false_r]. apply Z.eqb_eq in E. subst. rewrite T. reflexivity.
Qed.

Lemma toggles_spec v d wv w k b : 0 <= k ->
  wv = VInt w \/ (exists n er, wv = VUInt n er (VInt w)) ->
  py_eq v d = Ok b -> py_ne v d = negb b ->
  toggles v d wv (2 ^ k) = Ok (xorb b (Z.testbit w k)).
Proof.
  intros K W E N. unfold toggles. rewrite E, N, (wild_op wv w BAnd (2 ^ k) W). cbn [bind int_op].
  unfold nonzero. destruct b; cbn [bind negb xorb]; rewrite ?land_pow2 by lia;
    destruct (Z.testbit w k); reflexivity.
Qed.

(** A field with a wildcard bit. *)
Lemma fill_flag name k d v m w b : 0 <= k -> String.eqb name "wildcards" = false ->
  (forall x y, d <> VIP x y) -> (forall x, v <> VPad x) ->
  class_member E_FlowWildCards01 ("OFPFW_" ++ upper name)%string = Ok (2 ^ k) ->
  py_eq v d = Ok b -> py_ne v d = negb b -> wildcards_are m w ->
  exists m' w', fill_wildcards name v d m = (m', None) /\ wildcards_are m' w' /\
    (forall i, 0 <= i -> Z.testbit w' i = if i =? k then b else Z.testbit w i) /\
    (m' = m \/ exists x, m' = set_attr "wildcards" x m).
Proof.
  intros K NW ND NP C E N W. unfold fill_wildcards.
  assert (T : (do wv <- attr_or_error "wildcards" m; toggles v d wv (2 ^ k)) = Ok (xorb b (Z.testbit w k))).
  { destruct W as (wv & G & V). unfold attr_or_error. rewrite G. cbn [bind]. apply toggles_spec; auto. }
  assert (R : exists m' w',
    match (do wv <- attr_or_error "wildcards" m; toggles v d wv (2 ^ k)) with
    | Err e => (m, Some e)
    | Ok false => (m, None)
    | Ok true => match update BXor (2 ^ k) m with Err e => (m, Some e) | Ok m' => (m', None) end
    end = (m', None) /\ wildcards_are m' w' /\
    (forall i, 0 <= i -> Z.testbit w' i = if i =? k then b else Z.testbit w i) /\
    (m' = m \/ exists x, m' = set_attr "wildcards" x m)).
  { rewrite T. destruct (xorb b (Z.testbit w k)) eqn:X.
    - destruct (update_num BXor (2 ^ k) m w (Z.lxor w (2 ^ k)) W eq_refl) as (m' & U & W' & EM).
      rewrite U. exists m', (Z.lxor w (2 ^ k)). split; [reflexivity|]. split; [exact W'|].
      split; [|right; eauto]. intros i I. rewrite Z.lxor_spec, pow2_bit by lia.
      destruct (i =? k) eqn:IK.
      + apply Z.eqb_eq in IK. subst. destruct b, (Z.testbit w k); auto; discriminate.
      + apply xorb_false_r.
    - exists m, w. split; [reflexivity|]. split; [exact W|]. split; [|left; reflexivity].
      intros i I. destruct (i =? k) eqn:IK; [|reflexivity]. apply Z.eqb_eq in IK. subst.
      destruct b, (Z.testbit w k); auto; discriminate. }
  rewrite NW, C.
  destruct v; try (exfalso; eapply NP; reflexivity); destruct d; try (exfalso; eapply ND; reflexivity); exact R.
Qed.

Lemma ones_bits n i : 0 <= n -> 0 <= i -> Z.testbit (Z.ones n) i = (i <? n).
Proof. intros. rewrite Z.testbit_ones_nonneg by lia. reflexivity. Qed.

(** An address field. *)
Lemma fill_prefix name v p d m w : String.eqb name "wildcards" = false ->
  (exists x y, d = VIP x y) -> 0 <= p <= 32 -> wildcards_are m w ->
  (forall i, 22 <= i -> Z.testbit w i = false) ->
  let shift := if String.eqb name "nw_dst" then 14 else 8 in
  exists m' w', fill_wildcards name (VIP v p) d m = (m', None) /\ wildcards_are m' w' /\
    (forall i, 0 <= i -> Z.testbit w' i = if (shift <=? i) && (i <? shift + 6)
                                          then Z.testbit (32 - p) (i - shift) else Z.testbit w i) /\
    (exists x, m' = set_attr "wildcards" x m).
Proof.
  intros NW (x & y & ->) P W HI shift. unfold fill_wildcards. rewrite NW.
  set (sh := if String.eqb name "nw_dst" then DST_SHIFT else SRC_SHIFT).
  set (mask := if String.eqb name "nw_dst" then DST_MASK else SRC_MASK).
  assert (SH : sh = shift) by (unfold sh, shift, DST_SHIFT, SRC_SHIFT; destruct (String.eqb name "nw_dst"); reflexivity).
  assert (S14 : shift = 14 \/ shift = 8) by (unfold shift; destruct (String.eqb name "nw_dst"); auto).
  assert (MK : forall i, 0 <= i -> Z.testbit mask i = (shift <=? i) && (i <? shift + 6)).
  { intros i I. assert (ME : mask = Z.shiftl (Z.ones 6) shift)
      by (unfold mask, shift, DST_MASK, SRC_MASK; destruct (String.eqb name "nw_dst"); reflexivity).
    rewrite ME, Z.shiftl_spec by lia. destruct (shift <=? i) eqn:L; cbn [andb].
    - rewrite ones_bits by lia. lia.
    - apply Z.testbit_neg_r. lia. }
  destruct (update_num BAnd (Z.lxor ALL_BITS mask) m w _ W eq_refl) as (m1 & U1 & W1 & E1). rewrite U1.
  destruct (update_num BOr (Z.shiftl (32 - p) sh) m1 _ _ W1 eq_refl) as (m2 & U2 & W2 & E2). rewrite U2.
  eexists m2, _. split; [reflexivity|]. split; [exact W2|]. split.
  - intros i I. rewrite Z.lor_spec, Z.land_spec, Z.lxor_spec, Z.shiftl_spec, (MK i I), SH by lia.
    change ALL_BITS with (Z.ones 22). rewrite (ones_bits 22) by lia.
    destruct ((shift <=? i) && (i <? shift + 6)) eqn:R.
    + assert (i <? 22 = true) by lia. rewrite H. cbn. rewrite andb_false_r. reflexivity.
    + rewrite xorb_false_r. assert (Z.testbit (32 - p) (i - shift) = false) as ->.
      { destruct (shift <=? i) eqn:L; [|apply Z.testbit_neg_r; lia].
        destruct (Z.eq_dec (32 - p) 0) as [->|NZ]; [apply Z.bits_0|].
        apply Z.bits_above_log2; [lia|].
        assert (Z.log2 (32 - p) <= Z.log2 32) by (apply Z.log2_le_mono; lia).
        change (Z.log2 32) with 5 in *. lia. }
      rewrite orb_false_r. destruct (i <? 22) eqn:Q; [apply andb_true_r|].
      rewrite (HI i) by lia. reflexivity.
  - exists (VInt (Z.lor (Z.land w (Z.lxor ALL_BITS mask)) (Z.shiftl (32 - p) sh))).
    rewrite E2, E1. clear.
    induction m as [|[k u] m IH]; cbn [set_attr].
    + rewrite String.eqb_refl. reflexivity.
    + destruct (String.eqb k "wildcards") eqn:E; cbn [set_attr]; [rewrite String.eqb_refl; reflexivity|].
      rewrite E, IH. reflexivity.
Qed.

(** ** Comparison with the default *)

Lemma zero_fits w : fits w 0.
Proof. split; [lia|]. apply Z.pow_pos_nonneg; lia. Qed.

Lemma stands_compare w v z : stands w v z ->
  py_eq v (VUInt w None (VInt 0)) = Ok (z =? 0) /\ py_ne v (VUInt w None (VInt 0)) = negb (z =? 0) /\
  (forall x, v <> VPad x) /\ (forall d, (forall x y, d <> VIP x y) -> (forall x, d <> VHW x) -> convert d v = Ok v).
Proof.
  assert (CV : forall u d, (forall x y, d <> VIP x y) -> (forall x, d <> VHW x) -> convert d u = Ok u).
  { intros u d A B. destruct d; try reflexivity; [exfalso; eapply A|exfalso; eapply B]; reflexivity. }
  assert (OZ : ordered (VUInt w None (VInt 0)) 0) by constructor.
  intros H; inversion H as [z' |e m z' D|v' z' O F]; subst.
  - destruct (compare_uint_int _ 0 z OZ) as (_ & (E & N & _)). rewrite E, N.
    repeat split; auto. congruence.
  - assert (I : as_int (VEnum e z) = Some z) by (unfold as_int, is_int_enum; rewrite D; reflexivity).
    split; [|split; [|split; [congruence|auto]]].
    + unfold py_eq. change (is_generic_type (VEnum e z)) with false.
      change (is_generic_type (VUInt w None (VInt 0))) with true. cbn iota.
      unfold generic_eq. cbn [same_type dot_value value_of generic_value].
      change (plain_eq (VInt 0) (VInt z)) with (0 =? z). rewrite Z.eqb_sym. reflexivity.
    + apply ne_int; [exact I|reflexivity].
  - assert (FF : width_of v = width_of (VUInt w None (VInt 0)) -> fits (width_of v) z /\ fits (width_of (VUInt w None (VInt 0))) 0).
    { cbn [width_of]. intros E. rewrite E. split; [auto|apply zero_fits]. }
    destruct (compare_uint_uint v z _ 0 O OZ FF) as (E & N & _). rewrite E, N.
    destruct (ordered_uint v z O) as (? & ? & ? & ->). repeat split; auto. congruence.
Qed.

Lemma other_compare w v : v = VNone \/ (exists s, v = VStr s) \/ (exists b, v = VBytes b) ->
  py_eq v (VUInt w None (VInt 0)) = Ok false /\ py_ne v (VUInt w None (VInt 0)) = true /\
  (forall x, v <> VPad x) /\ (forall d, (forall x y, d <> VIP x y) -> (forall x, d <> VHW x) -> convert d v = Ok v).
Proof.
  assert (CV : forall u d, (forall x y, d <> VIP x y) -> (forall x, d <> VHW x) -> convert d u = Ok u).
  { intros u d A B. destruct d; try reflexivity; [exfalso; eapply A|exfalso; eapply B]; reflexivity. }
  intros [->|[(s & ->)|(b & ->)]]; repeat split; auto; congruence.
Qed.

Lemma hw_eq s bs : pack (VHW (VStr s)) = Ok bs ->
  py_eq (VHW (VStr s)) (VHW (VStr zero_mac)) = Ok (text_eqb bs zero6).
Proof.
  intros P. unfold py_eq. change (is_generic_type (VHW (VStr s))) with true. cbn iota. unfold generic_eq.
  cbn [same_type]. rewrite P. cbn [bind].
  replace (pack (VHW (VStr zero_mac))) with (@Ok bytes zero6) by (vm_compute; reflexivity). reflexivity.
Qed.
Lemma hw_ne s : py_ne (VHW (VStr s)) (VHW (VStr zero_mac)) = negb (text_eqb s zero_mac).
Proof. reflexivity. Qed.
Lemma text_eqb_neq a b : a <> b -> text_eqb a b = false.
Proof. intros H. destruct (text_eqb a b) eqn:E; [|reflexivity]. apply text_eqb_eq in E. contradiction. Qed.

Lemma hw_zero_compare : py_eq (VHW (VStr zero_mac)) (VHW (VStr zero_mac)) = Ok true /\
  py_ne (VHW (VStr zero_mac)) (VHW (VStr zero_mac)) = negb true.
Proof. split; vm_compute; reflexivity. Qed.
Lemma hw_other_compare s bs : pack (VHW (VStr s)) = Ok bs -> bs <> zero6 ->
  py_eq (VHW (VStr s)) (VHW (VStr zero_mac)) = Ok false /\
  py_ne (VHW (VStr s)) (VHW (VStr zero_mac)) = negb false.
Proof.
  intros P N. rewrite (hw_eq s bs P), hw_ne, (text_eqb_neq bs zero6 N). split; [reflexivity|].
  rewrite text_eqb_neq; [reflexivity|]. intros ->. apply N.
  assert (Q : pack (VHW (VStr zero_mac)) = Ok zero6) by (vm_compute; reflexivity). congruence.
Qed.

Lemma mapM_hex2 bs : wf_bytes bs -> mapM py_hex2 (map VInt bs) = Ok (map (fixed_digits 16 2) bs).
Proof.
  induction 1 as [|b bs B _ IH]; [reflexivity|]. cbn [map mapM]. unfold is_byte in B.
  replace (py_hex2 (VInt b)) with (@Ok text (fixed_digits 16 2 b))
    by (cbn [py_hex2]; destruct (b <? 0) eqn:X; [lia|]; destruct (b <? 256) eqn:Y; [reflexivity|lia]).
  rewrite IH. reflexivity.
Qed.

Lemma zeros_forallb bs : List.length bs = 6%nat -> forallb (Z.eqb 0) bs = text_eqb bs zero6.
Proof.
  intros L. do 6 (destruct bs as [|? bs]; [discriminate L|]). destruct bs; [|discriminate L].
  unfold zero6. cbn [forallb text_eqb].
  repeat match goal with |- context [Z.eqb 0 ?x] => lazymatch x with 0 => fail | _ => rewrite (Z.eqb_sym 0 x) end end.
  reflexivity.
Qed.

Lemma canonical_join bs : wf_bytes bs -> join colon (map (fixed_digits 16 2) bs) = colon_hex bs.
Proof. intros W. rewrite (colon_hex_canonical bs W). reflexivity. Qed.

Lemma mapM_str bs : wf_bytes bs -> mapM py_str (map VInt bs) = Ok (map str_dec bs).
Proof.
  induction 1 as [|b bs B _ IH]; [reflexivity|]. cbn [map mapM]. unfold is_byte in B.
  replace (py_str (VInt b)) with (@Ok text (str_dec b)) by (cbn [py_str]; destruct (b <? 0) eqn:X; [lia|reflexivity]).
  rewrite IH. reflexivity.
Qed.

Lemma no_slash_in a : ~ In 47 a -> no_char slash a.
Proof.
  intros H. apply Forall_forall. intros c I E. apply H. unfold slash in E. subst. exact I.
Qed.

Lemma ip_convert v p x y : ip_prefix v p -> exists u, convert (VIP x y) v = Ok (VIP u p).
Proof.
  intros H; inversion H as [u q|a N|a t q N D|lc pc bs W]; subst.
  - exists u. reflexivity.
  - exists (VStr a). cbn [convert to_ip]. unfold ip_init.
    destruct (split_prefix_ok 32 a [48] 0 None (no_slash_in a N)) as [_ ->]; [|reflexivity].
    apply (num_one 10 dec_digit_of 48 0). unfold dec_digit_of. lia.
  - exists (VStr a). cbn [convert to_ip]. unfold ip_init.
    destruct (split_prefix_ok 32 a t p None (no_slash_in a N) D) as [-> _]. reflexivity.
  - exists (VStr (dotted_dec bs)). cbn [convert]. rewrite (mapM_str bs W). cbn [bind to_ip].
    replace (join dot (map str_dec bs)) with (dotted_dec bs).
    2:{ rewrite (dotted_dec_canonical bs W). reflexivity. }
    destruct (ip_construct bs [48] 0 None W) as [_ ->]; [|reflexivity].
    apply (num_one 10 dec_digit_of 48 0). unfold dec_digit_of. lia.
Qed.

(** ** The invariant *)

Definition expected (flag : string -> bool) (src dst : Z) (i : Z) : bool :=
  match find (fun q => snd q =? i) flag_bits with
  | Some (n, _) => flag n
  | None => if (8 <=? i) && (i <? 14) then Z.testbit (32 - src) (i - 8)
            else if (14 <=? i) && (i <? 20) then Z.testbit (32 - dst) (i - 14)
            else false
  end.

Definition kept (flag : string -> bool) (src dst : Z) (m : dict) : Prop :=
  exists w, wildcards_are m w /\ forall i, 0 <= i -> Z.testbit w i = expected flag src dst i.

Definition apply_flag (flag : string -> bool) (e : effect) : string -> bool :=
  match e with Flag n b => fun x => if String.eqb n x then b else flag x | _ => flag end.
Definition apply_src (src : Z) (e : effect) : Z := match e with Prefix false p => p | _ => src end.
Definition apply_dst (dst : Z) (e : effect) : Z := match e with Prefix true p => p | _ => dst end.

Lemma expected_ext f g src dst i : (forall n, f n = g n) -> expected f src dst i = expected g src dst i.
Proof. intros E. unfold expected. destruct (find _ _) as [[n k]|]; [apply E|reflexivity]. Qed.

Lemma expected_high f src dst i : 22 <= i -> expected f src dst i = false.
Proof.
  intros H. unfold expected.
  replace (find (fun q : string * Z => snd q =? i) flag_bits) with (@None (string * Z)).
  - replace ((8 <=? i) && (i <? 14)) with false by lia. replace ((14 <=? i) && (i <? 20)) with false by lia. reflexivity.
  - unfold flag_bits. cbn [find snd].
    replace (0 =? i) with false by lia. replace (1 =? i) with false by lia. replace (2 =? i) with false by lia.
    replace (3 =? i) with false by lia. replace (4 =? i) with false by lia. replace (5 =? i) with false by lia.
    replace (6 =? i) with false by lia. replace (7 =? i) with false by lia. replace (20 =? i) with false by lia.
    replace (21 =? i) with false by lia. reflexivity.
Qed.

Lemma find_bit i n k : find (fun q => snd q =? i) flag_bits = Some (n, k) -> In (n, k) flag_bits /\ k = i.
Proof. intros H. apply find_some in H as [I E]. cbn [snd] in E. split; [exact I|lia]. Qed.

Lemma flag_bits_fun n k k' : In (n, k) flag_bits -> In (n, k') flag_bits -> k = k'.
Proof.
  intros A B. assert (E : forallb (fun p => forallb (fun q => implb (String.eqb (fst p) (fst q)) (snd p =? snd q)) flag_bits) flag_bits = true) by reflexivity.
  rewrite forallb_forall in E. specialize (E _ A). cbn [fst snd] in E. rewrite forallb_forall in E. specialize (E _ B).
  cbn [fst snd] in E. rewrite String.eqb_refl in E. cbn in E. lia.
Qed.

Lemma expected_set f src dst name k b i : In (name, k) flag_bits ->
  expected (apply_flag f (Flag name b)) src dst i = if i =? k then b else expected f src dst i.
Proof.
  intros I. unfold expected. destruct (find _ flag_bits) as [[n k']|] eqn:F.
  - apply find_bit in F as [I' ->]. cbn [apply_flag]. destruct (String.eqb name n) eqn:E.
    + apply String.eqb_eq in E. subst n. rewrite (flag_bits_fun _ _ _ I I'), Z.eqb_refl. reflexivity.
    + destruct (i =? k) eqn:IK; [|reflexivity]. apply Z.eqb_eq in IK. subst k.
      exfalso. apply String.eqb_neq in E. apply E.
      assert (U : forallb (fun p => forallb (fun q => implb (snd p =? snd q) (String.eqb (fst p) (fst q))) flag_bits) flag_bits = true) by reflexivity.
      rewrite forallb_forall in U. specialize (U _ I). cbn [fst snd] in U. rewrite forallb_forall in U. specialize (U _ I').
      cbn [fst snd] in U. rewrite Z.eqb_refl in U. apply String.eqb_eq. exact U.
  - destruct (i =? k) eqn:IK; [|reflexivity]. apply Z.eqb_eq in IK. subst k.
    pose proof (find_none _ _ F _ I) as Q. cbn [snd] in Q. rewrite Z.eqb_refl in Q. discriminate.
Qed.

Lemma find_range i : 8 <= i < 20 -> find (fun q : string * Z => snd q =? i) flag_bits = None.
Proof.
  intros H. unfold flag_bits. cbn [find snd].
  replace (0 =? i) with false by lia. replace (1 =? i) with false by lia. replace (2 =? i) with false by lia.
  replace (3 =? i) with false by lia. replace (4 =? i) with false by lia. replace (5 =? i) with false by lia.
  replace (6 =? i) with false by lia. replace (7 =? i) with false by lia. replace (20 =? i) with false by lia.
  replace (21 =? i) with false by lia. reflexivity.
Qed.

Lemma wild_other m n v w : n <> "wildcards" -> wildcards_are m w -> wildcards_are (set_attr n v m) w.
Proof. intros N (x & G & V). exists x. split; [|exact V]. rewrite get_set_other; [exact G|congruence]. Qed.

Definition number_ok (p : string * nat) : bool :=
  match get_attr (fst p) (class_attrs Match01) with
  | Some (VUInt w None (VInt 0)) => Nat.eqb w (snd p)
  | _ => false
  end
  && existsb (fun q => String.eqb (fst q) (fst p) &&
                match class_member E_FlowWildCards01 ("OFPFW_" ++ upper (fst p))%string with
                | Ok z => z =? 2 ^ snd q | Err _ => false end) flag_bits
  && negb (String.eqb (fst p) "wildcards").
Lemma number_fields_ok p : In p number_fields -> number_ok p = true.
Proof.
  assert (E : forallb number_ok number_fields = true) by (vm_compute; reflexivity).
  rewrite forallb_forall in E. apply E.
Qed.
Lemma number_field name w : In (name, w) number_fields ->
  get_attr name (class_attrs Match01) = Some (VUInt w None (VInt 0)) /\
  (exists k, 0 <= k /\ In (name, k) flag_bits /\ class_member E_FlowWildCards01 ("OFPFW_" ++ upper name)%string = Ok (2 ^ k)) /\
  String.eqb name "wildcards" = false.
Proof.
  intros I. apply number_fields_ok in I. unfold number_ok in I. cbn [fst snd] in I.
  apply andb_true_iff in I as [I NW]. apply andb_true_iff in I as [G B].
  split; [|split].
  - destruct (get_attr name (class_attrs Match01)) as [d|]; [|discriminate G].
    destruct d as [| | | | | |w' er x| | | | | | | |]; try discriminate G. destruct er; [discriminate G|].
    destruct x as [|z| | | | | | | | | | | | |]; try discriminate G. destruct z; try discriminate G.
    apply Nat.eqb_eq in G. subst. reflexivity.
  - apply existsb_exists in B as ((n & k) & I & E). cbn [fst snd] in E. apply andb_true_iff in E as [E1 E2].
    apply String.eqb_eq in E1. subst n. exists k.
    destruct (class_member _ _) as [z|]; [|discriminate E2]. apply Z.eqb_eq in E2. subst z.
    split; [|auto]. assert (K : forallb (fun q => 0 <=? snd q) flag_bits = true) by reflexivity.
    rewrite forallb_forall in K. specialize (K _ I). cbn in K. lia.
  - apply negb_true_iff. exact NW.
Qed.

Lemma flag_step name k d v u m f src dst b : 0 <= k -> In (name, k) flag_bits ->
  get_attr name (class_attrs Match01) = Some d -> String.eqb name "wildcards" = false ->
  class_member E_FlowWildCards01 ("OFPFW_" ++ upper name)%string = Ok (2 ^ k) ->
  convert d v = Ok u -> (forall x y, d <> VIP x y) -> (forall x, u <> VPad x) ->
  py_eq u d = Ok b -> py_ne u d = negb b -> kept f src dst m ->
  snd (match_set name v m) = None /\
  kept (apply_flag f (Flag name b)) src dst (fst (match_set name v m)) /\
  get_attr name (fst (match_set name v m)) = Some u.
Proof.
  intros K I G NW C CV ND NP E N (w & W & B). unfold match_set. rewrite G, CV.
  assert (NW' : name <> "wildcards") by (apply String.eqb_neq; exact NW).
  destruct (fill_flag name k d u (set_attr name u m) w b K NW ND NP C E N (wild_other m name u w NW' W))
    as (m' & w' & F & W' & B' & SH).
  rewrite F. cbn [fst snd]. split; [reflexivity|]. split.
  - exists w'. split; [exact W'|]. intros i HI. rewrite (B' i HI), (expected_set f src dst name k b i I), (B i HI). reflexivity.
  - destruct SH as [->|(x & ->)]; [apply get_set_same|]. rewrite get_set_other by exact NW'. apply get_set_same.
Qed.

Lemma mac_field name : In name ["dl_src"; "dl_dst"] ->
  get_attr name (class_attrs Match01) = Some (VHW (VStr zero_mac)) /\
  (exists k, 0 <= k /\ In (name, k) flag_bits /\ class_member E_FlowWildCards01 ("OFPFW_" ++ upper name)%string = Ok (2 ^ k)) /\
  String.eqb name "wildcards" = false.
Proof.
  intros [<-|[<-|[] ] ]; (split; [vm_compute; reflexivity|]; split; [|reflexivity]).
  - exists 2. split; [lia|]. split; [cbn; tauto|reflexivity].
  - exists 3. split; [lia|]. split; [cbn; tauto|reflexivity].
Qed.

Lemma meaning_step name v e m f src dst : meaning name v e -> kept f src dst m ->
  (forall n b, e = Flag n b -> snd (match_set name v m) = None) /\
  (forall d p, e = Prefix d p -> snd (match_set name v m) = None) /\
  kept (apply_flag f e) (apply_src src e) (apply_dst dst e) (fst (match_set name v m)).
Proof.
  intros ME KP.
  inversion ME as [nm w v' z I S1|nm w v' I O|nm v' I O|nm v' s bs I O P NZ|nm lc pc bs I W L|nm v' p I IP R|nm k I|nm v' NI]; subst.
  - destruct (number_field name w I) as (G & (k & K & IK & C) & NW).
    destruct (stands_compare w v z S1) as (E & N & NP & CV).
    destruct (flag_step name k _ v v m f src dst (z =? 0) K IK G NW C) as (A & B & _); try assumption; try congruence.
    { apply CV; congruence. }
    split; [auto|]. split; [congruence|]. exact B.
  - destruct (number_field name w I) as (G & (k & K & IK & C) & NW).
    destruct (other_compare w v O) as (E & N & NP & CV).
    destruct (flag_step name k _ v v m f src dst false K IK G NW C) as (A & B & _); try assumption; try congruence.
    { apply CV; congruence. }
    split; [auto|]. split; [congruence|]. exact B.
  - destruct (mac_field name I) as (G & (k & K & IK & C) & NW). destruct hw_zero_compare as [E N].
    destruct (flag_step name k _ v (VHW (VStr zero_mac)) m f src dst true K IK G NW C) as (A & B & _);
      try assumption; try congruence.
    { destruct O as [->| ->]; reflexivity. }
    split; [auto|]. split; [congruence|]. exact B.
  - destruct (mac_field name I) as (G & (k & K & IK & C) & NW). destruct (hw_other_compare s bs P NZ) as [E N].
    destruct (flag_step name k _ v (VHW (VStr s)) m f src dst false K IK G NW C) as (A & B & _);
      try assumption; try congruence.
    { destruct O as [->| ->]; reflexivity. }
    split; [auto|]. split; [congruence|]. exact B.
  - destruct (mac_field name I) as (G & (k & K & IK & C) & NW).
    destruct (hw_roundtrip VNone [] bs [] W L) as (_ & P & _).
    assert (CV : convert (VHW (VStr zero_mac)) (VList lc pc (map VInt bs)) = Ok (VHW (VStr (colon_hex bs)))).
    { cbn [convert]. rewrite (mapM_hex2 bs W). cbn [bind]. rewrite (canonical_join bs W). reflexivity. }
    assert (EN : py_eq (VHW (VStr (colon_hex bs))) (VHW (VStr zero_mac)) = Ok (forallb (Z.eqb 0) bs) /\
                 py_ne (VHW (VStr (colon_hex bs))) (VHW (VStr zero_mac)) = negb (forallb (Z.eqb 0) bs)).
    { rewrite (zeros_forallb bs L). destruct (text_eqb bs zero6) eqn:T.
      - apply text_eqb_eq in T. subst bs. split; vm_compute; reflexivity.
      - apply (hw_other_compare _ bs P). intros ->. vm_compute in T. discriminate. }
    destruct EN as [E N].
    destruct (flag_step name k _ _ _ m f src dst (forallb (Z.eqb 0) bs) K IK G NW C CV) as (A & B & _); try eassumption; try congruence.
    split; [auto|]. split; [congruence|]. exact B.
  - split; [congruence|].
    assert (GD : exists x y, get_attr name (class_attrs Match01) = Some (VIP x y)).
    { destruct I as [<-|[<-|[] ] ]; (eexists _, _; vm_compute; reflexivity). }
    destruct GD as (x & y & G). destruct (ip_convert v p x y IP) as (u & CV).
    assert (NW : String.eqb name "wildcards" = false) by (destruct I as [<-|[<-|[] ] ]; reflexivity).
    assert (NW' : name <> "wildcards") by (apply String.eqb_neq; exact NW).
    destruct KP as (w & W & B). unfold match_set. rewrite G, CV.
    assert (HI : forall i, 22 <= i -> Z.testbit w i = false)
      by (intros i HI; rewrite B by lia; apply expected_high; exact HI).
    destruct (fill_prefix name u p (VIP x y) (set_attr name (VIP u p) m) w NW (ex_intro _ x (ex_intro _ y eq_refl)) R
                (wild_other _ _ _ _ NW' W) HI) as (m' & w' & F & W' & B' & _).
    rewrite F. cbn [fst snd]. split; [auto|]. exists w'. split; [exact W'|]. intros i I0. rewrite (B' i I0).
    cbn [apply_flag]. destruct I as [<-|[<-|[] ] ].
    + change (String.eqb "nw_src" "nw_dst") with false. cbn iota. cbn [apply_src apply_dst].
      destruct ((8 <=? i) && (i <? 8 + 6)) eqn:Q.
      * unfold expected. rewrite find_range by lia. replace ((8 <=? i) && (i <? 14)) with true by lia. reflexivity.
      * rewrite (B i I0). unfold expected. destruct (find _ flag_bits) as [[n k]|]; [reflexivity|].
        replace ((8 <=? i) && (i <? 14)) with false by lia. reflexivity.
    + change (String.eqb "nw_dst" "nw_dst") with true. cbn iota. cbn [apply_src apply_dst].
      destruct ((14 <=? i) && (i <? 14 + 6)) eqn:Q.
      * unfold expected. rewrite find_range by lia. replace ((8 <=? i) && (i <? 14)) with false by lia.
        replace ((14 <=? i) && (i <? 20)) with true by lia. reflexivity.
      * rewrite (B i I0). unfold expected. destruct (find _ flag_bits) as [[n k]|]; [reflexivity|].
        destruct ((8 <=? i) && (i <? 14)); [reflexivity|].
        replace ((14 <=? i) && (i <? 20)) with false by lia. reflexivity.
  - split; [congruence|]. split; [congruence|]. cbn [apply_flag apply_src apply_dst].
    destruct KP as (w & W & B). exists w. split; [|exact B].
    destruct I as [<-|[<-|[] ] ].
    + change (fst (match_set "pad1" (VPad k) m)) with (set_attr "pad1" (VPad k) m). apply wild_other; [discriminate|exact W].
    + change (fst (match_set "pad2" (VPad k) m)) with (set_attr "pad2" (VPad k) m). apply wild_other; [discriminate|exact W].
  - split; [congruence|]. split; [congruence|]. cbn [apply_flag apply_src apply_dst].
    unfold match_set. destruct (get_attr name (class_attrs Match01)) as [d|] eqn:G; [|exact KP].
    exfalso. apply NI. clear -G. revert G. generalize (class_attrs Match01). intros l.
    induction l as [|[k x] l IH]; cbn [get_attr map fst In]; [discriminate|].
    destruct (String.eqb k name) eqn:E; [apply String.eqb_eq in E; auto|]. auto.
Qed.

Lemma run_kept l effs m f src dst : history l effs -> kept f src dst m ->
  kept (fold_left apply_flag effs f) (fold_left apply_src effs src) (fold_left apply_dst effs dst) (match_run l m).
Proof.
  intros H. revert m f src dst. induction H as [|[name v] e l effs M _ IH]; intros m f src dst K.
  - exact K.
  - cbn [match_run fold_left]. apply IH. apply meaning_step; assumption.
Qed.

Lemma new_kept : kept (fun _ => true) 0 0 match_new.
Proof.
  exists 0x3820ff. split.
  - exists (VInt 0x3820ff). split; [vm_compute; reflexivity|auto].
  - intros i I. destruct (Z_lt_le_dec i 22) as [L|L].
    + assert (E : forallb (fun n => Bool.eqb (Z.testbit 0x3820ff (Z.of_nat n)) (expected (fun _ => true) 0 0 (Z.of_nat n))) (seq 0 22) = true)
        by (vm_compute; reflexivity).
      rewrite forallb_forall in E. specialize (E (Z.to_nat i)). rewrite Z2Nat.id in E by lia.
      apply eqb_prop, E. apply in_seq. lia.
    + rewrite expected_high by exact L. apply Z.bits_above_log2; [lia|]. change (Z.log2 0x3820ff) with 21. lia.
Qed.

Lemma fold_flag effs f name : fold_left apply_flag effs f name = last_flag name (f name) effs.
Proof.
  revert f. induction effs as [|e effs IH]; intros f; cbn [fold_left last_flag]; [reflexivity|].
  rewrite IH. destruct e; reflexivity.
Qed.
Lemma fold_src effs src : fold_left apply_src effs src = last_prefix false src effs.
Proof.
  revert src. induction effs as [|e effs IH]; intros src; cbn [fold_left last_prefix]; [reflexivity|].
  rewrite IH. destruct e as [|[]|]; reflexivity.
Qed.
Lemma fold_dst effs dst : fold_left apply_dst effs dst = last_prefix true dst effs.
Proof.
  revert dst. induction effs as [|e effs IH]; intros dst; cbn [fold_left last_prefix]; [reflexivity|].
  rewrite IH. destruct e as [|[]|]; reflexivity.
Qed.

Lemma bits_bound w : (forall i, 22 <= i -> Z.testbit w i = false) -> 0 <= w < 2 ^ 22.
Proof.
  intros H. assert (E : Z.land w (Z.ones 22) = w).
  { apply Z.bits_inj'. intros i I. rewrite Z.land_spec, ones_bits by lia.
    destruct (i <? 22) eqn:L; [apply andb_true_r|]. rewrite (H i) by lia. reflexivity. }
  rewrite Z.land_ones in E by lia. rewrite <- E. apply Z.mod_pos_bound. reflexivity.
Qed.

Lemma history_flags l effs : history l effs ->
  exists w, wildcards_are (match_run l match_new) w /\ 0 <= w < 2 ^ 22 /\
    forall name k, In (name, k) flag_bits -> Z.testbit w k = last_flag name true effs.
Proof.
  intros H. destruct (run_kept _ _ _ _ _ _ H new_kept) as (w & W & B). exists w. split; [exact W|].
  split.
  - apply bits_bound. intros i I. rewrite B by lia. apply expected_high, I.
  - intros name k I.
    assert (K : 0 <= k) by (assert (KK : forallb (fun q => 0 <=? snd q) flag_bits = true) by reflexivity;
      rewrite forallb_forall in KK; specialize (KK _ I); cbn in KK; lia).
    rewrite (B k K), <- (fold_flag effs (fun _ => true) name).
    set (f := fold_left apply_flag effs (fun _ => true)).
    rewrite <- (expected_ext (apply_flag f (Flag name (f name))) f).
    + rewrite (expected_set f _ _ name k (f name) k I), Z.eqb_refl. reflexivity.
    + intros n. cbn [apply_flag]. destruct (String.eqb name n) eqn:E; [|reflexivity].
      apply String.eqb_eq in E. subst. reflexivity.
Qed.

Lemma six_bits w p s : 0 <= s -> 0 <= p <= 32 -> (forall i, s <= i < s + 6 -> Z.testbit w i = Z.testbit (32 - p) (i - s)) ->
  (w / 2 ^ s) mod 64 = 32 - p.
Proof.
  intros S0 P H. change 64 with (2 ^ 6). rewrite <- Z.shiftr_div_pow2, <- Z.land_ones by lia.
  apply Z.bits_inj'. intros i I. rewrite Z.land_spec, Z.shiftr_spec, ones_bits by lia.
  destruct (i <? 6) eqn:L.
  - rewrite H by lia. rewrite andb_true_r. f_equal. lia.
  - rewrite andb_false_r. symmetry. destruct (Z.eq_dec (32 - p) 0) as [->|NZ]; [apply Z.bits_0|].
    apply Z.bits_above_log2; [lia|].
    assert (Z.log2 (32 - p) <= Z.log2 32) by (apply Z.log2_le_mono; lia).
    change (Z.log2 32) with 5 in *. lia.
Qed.

Lemma prefix_range l effs : history l effs -> forall d acc, 0 <= acc <= 32 -> 0 <= last_prefix d acc effs <= 32.
Proof.
  intros H d. induction H as [|[name v] e l effs M _ IH]; intros acc A; cbn [last_prefix]; [exact A|].
  destruct e as [|d' p|]; [apply IH, A| |apply IH, A].
  apply IH. destruct (Bool.eqb d' d); [|exact A]. inversion M; subst; assumption.
Qed.

Lemma history_prefixes l effs : history l effs ->
  exists w, wildcards_are (match_run l match_new) w /\
    (w / 2 ^ 8) mod 64 = 32 - last_prefix false 0 effs /\
    (w / 2 ^ 14) mod 64 = 32 - last_prefix true 0 effs.
Proof.
  intros H. destruct (run_kept _ _ _ _ _ _ H new_kept) as (w & W & B). exists w. split; [exact W|].
  assert (R0 : 0 <= 0 <= 32) by lia.
  split; apply six_bits; try lia; try (apply (prefix_range l effs H); exact R0).
  - intros i I. rewrite B by lia. unfold expected. rewrite find_range by lia.
    replace ((8 <=? i) && (i <? 14)) with true by lia. rewrite fold_src. reflexivity.
  - intros i I. rewrite B by lia. unfold expected. rewrite find_range by lia.
    replace ((8 <=? i) && (i <? 14)) with false by lia. replace ((14 <=? i) && (i <? 20)) with true by lia.
    rewrite fold_dst. reflexivity.
Qed.

(** ** One address assignment *)

Lemma address_frame name v p m w m' e : In name ["nw_src"; "nw_dst"] -> ip_prefix v p -> 0 <= p <= 32 ->
  wildcards_are m w -> 0 <= w < 2 ^ 22 -> match_set name v m = (m', e) ->
  e = None /\ exists w', wildcards_are m' w' /\
    forall i, 0 <= i ->
      (if String.eqb name "nw_dst" then 14 <= i < 20 else 8 <= i < 14) \/ Z.testbit w' i = Z.testbit w i.
Proof.
  intros I IP R W HW E.
  assert (GD : exists x y, get_attr name (class_attrs Match01) = Some (VIP x y)).
  { destruct I as [<-|[<-|[] ] ]; (eexists _, _; vm_compute; reflexivity). }
  destruct GD as (x & y & G). destruct (ip_convert v p x y IP) as (u & CV).
  assert (NW : String.eqb name "wildcards" = false) by (destruct I as [<-|[<-|[] ] ]; reflexivity).
  assert (NW' : name <> "wildcards") by (apply String.eqb_neq; exact NW).
  unfold match_set in E. rewrite G, CV in E.
  assert (HI : forall i, 22 <= i -> Z.testbit w i = false).
  { intros i HI. destruct (Z.eq_dec w 0) as [->|NZ]; [apply Z.bits_0|]. apply Z.bits_above_log2; [lia|].
    assert (Z.log2 w < 22) by (apply Z.log2_lt_pow2; lia). lia. }
  destruct (fill_prefix name u p (VIP x y) (set_attr name (VIP u p) m) w NW (ex_intro _ x (ex_intro _ y eq_refl)) R
              (wild_other _ _ _ _ NW' W) HI) as (m2 & w' & F & W' & B' & _).
  rewrite F in E. injection E as <- <-. split; [reflexivity|]. exists w'. split; [exact W'|].
  intros i I0. rewrite (B' i I0). destruct (String.eqb name "nw_dst").
  - destruct ((14 <=? i) && (i <? 14 + 6)) eqn:Q; [left; lia|auto].
  - destruct ((8 <=? i) && (i <? 8 + 6)) eqn:Q; [left; lia|auto].
Qed.

(** Only the assigned attribute and wildcards change. *)
Lemma fill_frame field v d m n : n <> "wildcards" -> get_attr n (fst (fill_wildcards field v d m)) = get_attr n m.
Proof.
  intros N. assert (U : forall op x m m', update op x m = Ok m' -> get_attr n m' = get_attr n m).
  { intros op x m0 m' E. unfold update in E. destruct (attr_or_error _ m0); [|discriminate E]. cbn [bind] in E.
    destruct (py_op _ _ _); [|discriminate E]. cbn [bind] in E. injection E as <-. apply get_set_other. exact N. }
  assert (FL : get_attr n (fst
               match class_member E_FlowWildCards01 ("OFPFW_" ++ upper field)%string with
               | Err e => (m, Some e)
               | Ok bit =>
                   match (do w <- attr_or_error "wildcards" m; toggles v d w bit) with
                   | Err e => (m, Some e)
                   | Ok false => (m, None)
                   | Ok true => match update BXor bit m with
                                | Err e => (m, Some e)
                                | Ok m' => (m', None)
                                end
                   end
               end) = get_attr n m).
  { destruct (class_member _ _) as [bit|]; [|reflexivity].
    destruct (do w <- attr_or_error "wildcards" m; toggles v d w bit) as [[]|]; try reflexivity.
    destruct (update BXor bit m) as [m'|] eqn:E; [|reflexivity]. exact (U _ _ _ _ E). }
  assert (IPC : get_attr n (fst
               match update BAnd (Z.lxor ALL_BITS (if String.eqb field "nw_dst" then DST_MASK else SRC_MASK)) m with
               | Err e => (m, Some e)
               | Ok m1 =>
                   match v with
                   | VIP _ prefix =>
                       match update BOr (Z.shiftl (32 - prefix) (if String.eqb field "nw_dst" then DST_SHIFT else SRC_SHIFT)) m1 with
                       | Err e => (m1, Some e)
                       | Ok m2 => (m2, None)
                       end
                   | _ => (m1, Some AttributeError)
                   end
               end) = get_attr n m).
  { destruct (update BAnd _ m) as [m1|] eqn:E1; [|reflexivity]. apply U in E1.
    destruct v; try exact E1. destruct (update BOr _ m1) as [m2|] eqn:E2; [|exact E1].
    apply U in E2. cbn [fst]. congruence. }
  unfold fill_wildcards. destruct (String.eqb field "wildcards").
  - destruct v; reflexivity.
  - destruct v; try reflexivity; destruct d; first [exact FL|exact IPC].
Qed.
Lemma match_set_frame name v m m' e n : match_set name v m = (m', e) -> n <> name -> n <> "wildcards" ->
  get_attr n m' = get_attr n m.
Proof.
  intros E NN NW. unfold match_set in E. destruct (get_attr name (class_attrs Match01)) as [d|]; [|congruence].
  destruct (convert d v) as [u|]; [|congruence].
  assert (m' = fst (fill_wildcards name u d (set_attr name u m))) as -> by (rewrite E; reflexivity).
  rewrite fill_frame by exact NW. apply get_set_other. congruence.
Qed.

Lemma number_stored name w v m : In (name, w) number_fields -> get_attr name (fst (match_set name v m)) = Some v.
Proof.
  intros I. destruct (number_field name w I) as (G & _ & NW). unfold match_set. rewrite G.
  change (convert (VUInt w None (VInt 0)) v) with (@Ok pyval v). cbn iota.
  rewrite fill_frame by (apply String.eqb_neq; exact NW). apply get_set_same.
Qed.
