(** Proofs about conversions of basic types. *)
From Coq Require Import ZArith List Bool String Lia.
From Verif Require Import Base PyText Ids PyVal Classes Interp NetTypes Match01 Operators Convert SpecBasic SpecMatch SpecNet SpecLayout SpecConvert IntFacts TextFacts AddrFacts MatchAddrFacts LayoutFacts OperatorsFacts ClassFacts NetFacts2 NetRelayFacts.
Import ListNotations.
Open Scope string_scope.
Open Scope list_scope.
Open Scope Z_scope.

Lemma int_enum_class e : is_int_enum e = true <-> exists l, enum_def e = EInt l.
Proof. unfold is_int_enum. destruct (enum_def e); split; try discriminate; eauto; intros (l & [=]). Qed.

Lemma nan_int x w er : not_a_number x -> to_int (VUInt w er x) = Err TypeError.
Proof.
  intros [e z|e z (l & P)]; [reflexivity|]. cbn [to_int]. unfold is_int_enum. rewrite P. reflexivity.
Qed.

Lemma as_int_to v z : as_int v = Some z -> to_int v = Ok z.
Proof. destruct v; cbn; try discriminate; [congruence|]. destruct (is_int_enum e); congruence. Qed.

Lemma int_packed w er x bs : pack (VUInt w er x) = Ok bs ->
  (not_a_number x -> to_int (VUInt w er x) = Err TypeError) /\
  (~ not_a_number x -> to_int (VUInt w er x) = Ok (place_value bs)).
Proof.
  rewrite pack_uint_value. intros H. apply uint_ok in H as (z & A & (_ & _ & V)). rewrite V.
  split; [apply nan_int|]. intros N. cbn [to_int]. revert A. unfold generic_value. cbv zeta.
  assert (M : as_int (match x with VMask _ z => VInt z | _ => x end) = Some z -> to_int x = Ok z).
  { destruct x; try apply as_int_to. exfalso. apply N. constructor. }
  destruct er as [e|]; [|exact M]. destruct (enum_def e) eqn:D; try exact M;
    (destruct x as [| | | |e0 z0| | | | | | | | | |]; try apply as_int_to; destruct (eid_eqb e e0) eqn:E; try apply as_int_to;
     cbn [as_int]; intros [= ->]; apply eid_eqb_eq in E; subst e0; cbn [to_int]; unfold is_int_enum; rewrite D; try reflexivity).
  exfalso. apply N. constructor. eexists. exact D.
Qed.

Lemma int_unpacked w er old pre bs suf v : wf_bytes bs -> List.length bs = w ->
  unpack (VUInt w er old) (pre ++ bs ++ suf) (List.length pre) = Ok v ->
  (number_field er -> to_int v = Ok (place_value bs)) /\ (~ number_field er -> to_int v = Err TypeError).
Proof.
  intros W L U. destruct er as [e|].
  - cbn [number_field]. destruct (enum_def e) as [l|l|l] eqn:D.
    + destruct (enum_unpack_exact w e old pre bs suf W L) as [(_ & E)|(_ & E)];
        [intros (l' & E'); congruence| |congruence].
      assert (v = VUInt w (Some e) (VEnum e (place_value bs))) as -> by congruence.
      split; [|intros N; destruct N; eauto]. intros _. cbn [to_int]. unfold is_int_enum. rewrite D. reflexivity.
    + destruct (enum_unpack_exact w e old pre bs suf W L) as [(_ & E)|(_ & E)];
        [intros (l' & E'); congruence| |congruence].
      assert (v = VUInt w (Some e) (VEnum e (place_value bs))) as -> by congruence.
      split; [intros (l' & [=])|]. intros _. cbn [to_int]. unfold is_int_enum. rewrite D. reflexivity.
    + destruct (mask_unpack_total w e old pre bs suf W L) as (E & _); [eexists; exact D|].
      assert (v = VUInt w (Some e) (VMask e (place_value bs))) as -> by congruence.
      split; [intros (l' & [=])|reflexivity].
  - destruct (uint_unpack_value w old pre bs suf W L) as (E & _).
    assert (v = VUInt w None (VInt (place_value bs))) as -> by congruence.
    split; [reflexivity|intros N; destruct N; exact I].
Qed.

Lemma int_text_dec z : dec_item z (if z <? 0 then 45 :: str_dec (- z) else str_dec z).
Proof.
  destruct (z <? 0) eqn:E; [right|left]; (split; [lia|]).
  - eexists. split; [reflexivity|]. apply (digits_natural 10); [lia|exact dec_digits|lia].
  - apply (digits_natural 10); [lia|exact dec_digits|lia].
Qed.

Lemma text_number v z : (exists w er, v = VUInt w er (VInt z)) \/ (exists e, v = VMask e z) \/ (exists w er e, v = VUInt w er (VMask e z)) ->
  exists t, to_str v = Some (Ok t) /\ dec_item z t.
Proof.
  intros [(w & er & ->)|[(e & ->)|(w & er & e & ->)]]; (eexists; split; [reflexivity|apply int_text_dec]).
Qed.

Lemma address_text old m pre bs suf : wf_bytes bs ->
  (forall v, List.length bs = 4%nat -> unpack (VIP old m) (pre ++ bs ++ suf) (List.length pre) = Ok v -> to_str v = Some (Ok (dotted_dec bs))) /\
  (forall v, List.length bs = 6%nat -> unpack (VHW old) (pre ++ bs ++ suf) (List.length pre) = Ok v -> to_str v = Some (Ok (colon_hex bs))) /\
  (forall v, List.length bs = 8%nat -> unpack (VDPID old) (pre ++ bs ++ suf) (List.length pre) = Ok v -> to_str v = Some (Ok (colon_hex bs))).
Proof.
  intros W. split; [|split]; intros v L U.
  - destruct (ip_roundtrip old m pre bs suf W L) as (E & _). assert (v = VIP (VStr (dotted_dec bs)) m) as -> by congruence. reflexivity.
  - destruct (hw_roundtrip old pre bs suf W L) as (E & _). assert (v = VHW (VStr (colon_hex bs))) as -> by congruence. reflexivity.
  - destruct (dpid_roundtrip old pre bs suf W L) as (E & _). assert (v = VDPID (VStr (colon_hex bs))) as -> by congruence. reflexivity.
Qed.

Lemma broadcast_text s : is_broadcast (VHW (VStr s)) = true -> pack (VHW (VStr s)) = Ok everyone.
Proof.
  unfold is_broadcast. cbn [is_text]. intros H. apply text_eqb_eq in H as ->. vm_compute. reflexivity.
Qed.

Lemma broadcast_unpacked old pre bs suf v : wf_bytes bs -> List.length bs = 6%nat ->
  unpack (VHW old) (pre ++ bs ++ suf) (List.length pre) = Ok v -> (is_broadcast v = true <-> bs = everyone).
Proof.
  intros W L U. destruct (hw_roundtrip old pre bs suf W L) as (E & P & _).
  assert (v = VHW (VStr (colon_hex bs))) as -> by congruence. split.
  - intros B. apply broadcast_text in B. congruence.
  - intros ->. vm_compute. reflexivity.
Qed.

Lemma hash_unpacked hash bs e : wf_bytes bs -> eth_unpack bs 0 = Ok e -> snd (get_hash hash e) = Ok (hash bs).
Proof. intros W U. unfold get_hash. cbn [snd]. rewrite (eth_relay _ _ W U). reflexivity. Qed.

Lemma hash_same hash e1 e2 : snd (eth_pack e1) = snd (eth_pack e2) -> snd (get_hash hash e1) = snd (get_hash hash e2).
Proof. intros H. unfold get_hash. cbn [snd]. rewrite H. reflexivity. Qed.

Lemma hash_repeat hash e n : get_hash hash (Nat.iter n (fun q => fst (get_hash hash q)) e) = get_hash hash e.
Proof.
  assert (I : Nat.iter n (fun q => fst (get_hash hash q)) e = Nat.iter n (fun q => fst (eth_pack q)) e).
  { induction n as [|n IH]; [reflexivity|]. cbn [Nat.iter nat_rect] in *. unfold Nat.iter in *. cbn [nat_rect]. rewrite IH. reflexivity. }
  rewrite I. unfold get_hash. rewrite eth_repeat_any. reflexivity.
Qed.

Lemma hash_apart hash e1 e2 h : (forall a b, hash a = hash b -> a = b) ->
  snd (get_hash hash e1) = Ok h -> snd (get_hash hash e2) = Ok h -> snd (eth_pack e1) = snd (eth_pack e2).
Proof.
  intros I. unfold get_hash. cbn [snd]. destruct (snd (eth_pack e1)) as [b1|]; [|discriminate].
  destruct (snd (eth_pack e2)) as [b2|]; [|discriminate]. cbn [bind]. intros A B. f_equal. apply I. congruence.
Qed.

Lemma dir_members meta own e name members : enum_def e = EMask members -> 
  (In name (map fst members) -> In name (class_dir meta own e) /\ exists z, class_member e name = Ok z /\ In (name, z) members) /\
  (In name (class_dir meta own e) -> In name meta \/ In name own \/ In name (map fst members)).
Proof.
  intros D. unfold class_dir, class_member, class_enum. rewrite D. split.
  - intros I. split; [rewrite !in_app_iff; auto|].
    induction members as [|(k, z) l IH] in I |- *; [destruct I|]. cbn [assoc].
    destruct (String.eqb_spec k name) as [->|N]; [exists z; split; [reflexivity|left; reflexivity]|].
    destruct I as [I|I]; [destruct (N I)|]. destruct (IH I) as (z' & A & B). exists z'. split; [exact A|right; exact B].
  - rewrite !in_app_iff. tauto.
Qed.

Lemma minus_int t z : dec_numeral t z -> py_int 10 (45 :: t) = Ok (- z).
Proof.
  intros N. apply dec_numeral_digits in N as (A & B & C & <-). unfold py_int.
  assert (T : strip_space (45 :: t) = 45 :: t).
  { unfold strip_space. change (drop_space (45 :: t)) with (45 :: t). cbn [rev].
    pose proof (Forall_rev A) as R. destruct (rev t) as [|c u] eqn:E; [destruct C; rewrite <- (rev_involutive t), E; reflexivity|].
    cbn [app drop_space]. inversion R; subst. replace (is_space c) with false by (unfold is_space, is_digit in *; lia).
    change (c :: u ++ [45]) with ((c :: u) ++ [45]). rewrite <- E, rev_app_distr, rev_involutive. reflexivity. }
  rewrite T. cbn iota. rewrite (scan_prefixed_digits 10 t A B ltac:(lia) C). reflexivity.
Qed.
Lemma int_text w er t z : dec_numeral t z ->
  to_int (VUInt w er (VStr t)) = Ok z /\ to_int (VUInt w er (VBytes t)) = Ok z /\
  to_int (VUInt w er (VStr (45 :: t))) = Ok (- z) /\ to_int (VUInt w er (VBytes (45 :: t))) = Ok (- z).
Proof. intros N. cbn [to_int]. rewrite (py_int_dec t z N), (minus_int t z N). auto. Qed.
Lemma text_held v : 
  (held VNone v -> v <> VDPID VNone -> to_str v = Some (Ok (txt "None"))) /\
  (forall s, held (VStr s) v -> to_str v = Some (Ok s)).
Proof. split; [|intros s]; intros H; [intros N|]; inversion H; subst; try reflexivity. elim N; reflexivity. Qed.
Lemma dpid_text y : (forall s, y <> VStr s) -> to_str (VDPID y) = Some (Err TypeError).
Proof. intros N. destruct y; try reflexivity. elim (N s). reflexivity. Qed.
Lemma pad_text n : exists t, to_str (VPad n) = Some (Ok t) /\ List.length t = n /\ Forall (fun c => c = 48) t.
Proof.
  exists (List.repeat 48 n). split; [reflexivity|]. split; [apply repeat_length|]. apply Forall_forall. intros c I. exact (repeat_spec _ _ _ I).
Qed.
Lemma broadcast_held x : (forall y, ~ held y x) -> is_broadcast (VHW x) = true <-> x = VStr (txt "ff:ff:ff:ff:ff:ff").
Proof.
  intros H. unfold is_broadcast. cbn [is_text].
  destruct x; cbn [is_text]; try (split; [discriminate|intros [=]]; fail); try (edestruct H; constructor; fail).
  split; [intros E; apply text_eqb_eq in E as ->; reflexivity|intros [= ->]; vm_compute; reflexivity].
Qed.
