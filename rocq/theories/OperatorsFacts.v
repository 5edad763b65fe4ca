(** Facts about the operators of the basic types. *)
From Coq Require Import ZArith List Bool String Lia ZifyBool.
From Verif Require Import Base PyText Ids PyVal Classes Interp Operators Utils BaseFacts TextFacts Spec SpecBasic
  SpecSame SpecOps ClassFacts LeafFacts IntFacts AddrFacts StructFacts Soundness Closure FuelFacts SameFacts TopFacts.
Import ListNotations.
Open Scope string_scope.
Open Scope list_scope.
Open Scope Z_scope.

Lemma holds_generic v a : holds v a -> is_generic_type v = true.
Proof. intros H; inversion H; reflexivity. Qed.


Lemma holds_value v a : holds v a -> value_of v = VInt a.
Proof.
  intros H; inversion H as [w er a'|w e a' NB|w er e a' M]; subst; cbn [value_of]; unfold generic_value.
  - destruct er as [e|]; [destruct (enum_def e)|]; reflexivity.
  - destruct (enum_def e) eqn:D; [| |exfalso; apply NB; exists members; exact D];
      rewrite eid_eqb_refl; reflexivity.
  - destruct er as [f|]; [|reflexivity]. destruct M as (m & D). rewrite D. reflexivity.
Qed.

Lemma op_left op v a b : holds v a -> py_op op v (VInt b) = int_op op a b.
Proof.
  intros H. unfold py_op. rewrite (holds_generic v a H), (holds_value v a H). reflexivity.
Qed.

Lemma ops_left v a b : holds v a ->
  py_op BAdd v (VInt b) = Ok (VInt (a + b)) /\
  py_op BSub v (VInt b) = Ok (VInt (a - b)) /\
  py_op BOr v (VInt b) = Ok (VInt (Z.lor a b)) /\
  py_op BAnd v (VInt b) = Ok (VInt (Z.land a b)) /\
  py_op BXor v (VInt b) = Ok (VInt (Z.lxor a b)) /\
  (0 <= b -> py_op BShl v (VInt b) = Ok (VInt (a * 2 ^ b)) /\
             py_op BShr v (VInt b) = Ok (VInt (a / 2 ^ b))).
Proof.
  intros H. rewrite !(op_left _ v a b H). cbn [int_op]. do 5 (split; [reflexivity|]).
  intros B. destruct (b <? 0) eqn:L; [lia|].
  rewrite Z.shiftl_mul_pow2, Z.shiftr_div_pow2 by lia. split; reflexivity.
Qed.

Lemma op_right op x v a : holds v a -> is_generic_type x = false ->
  py_op op x v = match op with BShl | BShr => Err TypeError | _ => plain_op op (VInt a) x end.
Proof.
  intros H NG. unfold py_op. rewrite NG, (holds_generic v a H). unfold reflected.
  rewrite (holds_value v a H). reflexivity.
Qed.

Lemma ops_right v a b : holds v a ->
  py_op BAdd (VInt b) v = Ok (VInt (b + a)) /\
  py_op BOr (VInt b) v = Ok (VInt (Z.lor b a)) /\
  py_op BAnd (VInt b) v = Ok (VInt (Z.land b a)) /\
  py_op BXor (VInt b) v = Ok (VInt (Z.lxor b a)).
Proof.
  intros H. rewrite !(op_right _ (VInt b) v a H eq_refl). unfold plain_op, as_int, int_op.
  rewrite (Z.add_comm b a), (Z.lor_comm b a), (Z.land_comm b a), (Z.lxor_comm b a). auto.
Qed.

Lemma ops_both v a u b : holds v a -> holds u b ->
  py_op BAdd v u = Ok (VInt (a + b)) /\
  py_op BOr v u = Ok (VInt (Z.lor a b)) /\
  py_op BAnd v u = Ok (VInt (Z.land a b)) /\
  py_op BXor v u = Ok (VInt (Z.lxor a b)).
Proof.
  intros H K. unfold py_op. rewrite (holds_generic v a H), (holds_generic u b K), (holds_value v a H).
  unfold reflected. rewrite (holds_value u b K). unfold plain_op, as_int, int_op.
  rewrite (Z.add_comm a b), (Z.lor_comm a b), (Z.land_comm a b), (Z.lxor_comm a b). auto.
Qed.

Lemma sub_reversed v a b : holds v a -> py_op BSub (VInt b) v = Ok (VInt (a - b)).
Proof. intros H. rewrite (op_right _ (VInt b) v a H eq_refl). reflexivity. Qed.

Lemma sub_both_reversed v a u b : holds v a -> holds u b -> py_op BSub v u = Ok (VInt (b - a)).
Proof.
  intros H K. unfold py_op. rewrite (holds_generic v a H), (holds_generic u b K), (holds_value v a H).
  unfold reflected. rewrite (holds_value u b K). reflexivity.
Qed.

Lemma shift_right_operand v a x : holds v a -> is_generic_type x = false \/ (exists c, holds x c) ->
  py_op BShl x v = Err TypeError /\ py_op BShr x v = Err TypeError.
Proof.
  intros H _. unfold py_op. rewrite (holds_generic v a H). split; reflexivity.
Qed.

(** ** Comparisons *)

Lemma ordered_inner v a : ordered v a -> as_int (inner v) = Some a /\ is_generic_type v = true.
Proof.
  intros H; inversion H as [w er a'|w er e m a' D]; subst; cbn [inner as_int]; split; auto.
  unfold is_int_enum. rewrite D. reflexivity.
Qed.

Lemma ordered_value v a : ordered v a -> as_int (value_of v) = Some a.
Proof.
  intros H; inversion H as [w er a'|w er e m a' D]; subst; cbn [value_of]; unfold generic_value.
  - destruct er as [e|]; [destruct (enum_def e)|]; reflexivity.
  - assert (K : as_int (VEnum e a) = Some a) by (unfold as_int, is_int_enum; rewrite D; reflexivity).
    destruct er as [f|]; [|exact K]. destruct (enum_def f); [| |exact K];
      destruct (eid_eqb f e); auto.
Qed.

Lemma cmp_int op a b x y : as_int (inner a) = Some x -> as_int (inner b) = Some y ->
  py_cmp op a b = Ok (int_cmp op x y).
Proof. intros A B. unfold py_cmp, plain_cmp. rewrite A, B. reflexivity. Qed.

Lemma ne_int a b x y : as_int (inner a) = Some x -> as_int (inner b) = Some y ->
  py_ne a b = negb (x =? y).
Proof. intros A B. unfold py_ne, plain_eq. rewrite A, B. reflexivity. Qed.

Lemma plain_eq_int a b x y : as_int a = Some x -> as_int b = Some y -> plain_eq a b = (x =? y).
Proof. intros A B. unfold plain_eq. rewrite A, B. reflexivity. Qed.

Lemma ordered_uint v a : ordered v a -> exists w er x, v = VUInt w er x.
Proof. intros H; inversion H; eauto. Qed.

Lemma eq_uint_int v a b : ordered v a ->
  py_eq v (VInt b) = Ok (a =? b) /\ py_eq (VInt b) v = Ok (b =? a).
Proof.
  intros H. destruct (ordered_uint v a H) as (w & er & x & E).
  pose proof (ordered_value v a H) as V.
  unfold py_eq. destruct (ordered_inner v a H) as [_ G]. rewrite G.
  change (is_generic_type (VInt b)) with false. cbn iota.
  replace (generic_eq v (VInt b)) with (@Ok bool (plain_eq (value_of v) (VInt b)))
    by (subst v; reflexivity).
  rewrite (plain_eq_int _ (VInt b) a b V eq_refl), (Z.eqb_sym b a). auto.
Qed.

Lemma compare_uint_int v a b : ordered v a ->
  (py_eq v (VInt b) = Ok (a =? b) /\ py_ne v (VInt b) = negb (a =? b) /\
   py_cmp CLt v (VInt b) = Ok (a <? b) /\ py_cmp CLe v (VInt b) = Ok (a <=? b) /\
   py_cmp CGt v (VInt b) = Ok (b <? a) /\ py_cmp CGe v (VInt b) = Ok (b <=? a)) /\
  (py_eq (VInt b) v = Ok (b =? a) /\ py_ne (VInt b) v = negb (b =? a) /\
   py_cmp CLt (VInt b) v = Ok (b <? a) /\ py_cmp CLe (VInt b) v = Ok (b <=? a) /\
   py_cmp CGt (VInt b) v = Ok (a <? b) /\ py_cmp CGe (VInt b) v = Ok (a <=? b)).
Proof.
  intros H. destruct (ordered_inner v a H) as [I _]. destruct (eq_uint_int v a b H) as [E1 E2].
  assert (J : as_int (inner (VInt b)) = Some b) by reflexivity.
  rewrite !(cmp_int _ v (VInt b) a b I J), !(cmp_int _ (VInt b) v b a J I),
    (ne_int v (VInt b) a b I J), (ne_int (VInt b) v b a J I).
  repeat (split; auto).
Qed.

Lemma pack_uint_value w er x : pack (VUInt w er x) = uint_struct w (generic_value er x).
Proof. reflexivity. Qed.

Lemma struct_pack_inj w x y bx by0 :
  struct_pack_u w x = Ok bx -> struct_pack_u w y = Ok by0 -> text_eqb bx by0 = (x =? y).
Proof.
  unfold struct_pack_u, ulimit.
  destruct ((0 <=? x) && (x <? 256 ^ Z.of_nat w)) eqn:X; [|discriminate].
  destruct ((0 <=? y) && (y <? 256 ^ Z.of_nat w)) eqn:Y; [|discriminate].
  intros A B. injection A as <-. injection B as <-.
  destruct (x =? y) eqn:E.
  - apply Z.eqb_eq in E. subst. apply text_eqb_eq. reflexivity.
  - destruct (text_eqb _ _) eqn:T; [|reflexivity]. apply text_eqb_eq in T.
    assert (be_decode (be_encode w x) = be_decode (be_encode w y)) as D by (rewrite T; reflexivity).
    rewrite !be_decode_encode in D by (unfold ulimit; lia). lia.
Qed.

Lemma pow256 w : 2 ^ (8 * Z.of_nat w) = 256 ^ Z.of_nat w.
Proof. rewrite Z.pow_mul_r by lia. reflexivity. Qed.

Lemma uint_struct_fits w v z : as_int v = Some z -> fits w z -> 
  uint_struct w v = Ok (be_encode w z) /\ struct_pack_u w z = Ok (be_encode w z).
Proof.
  intros A [F1 F2]. rewrite pow256 in F2. unfold uint_struct. rewrite A.
  unfold struct_pack_u, ulimit. 
  replace ((0 <=? z) && (z <? 256 ^ Z.of_nat w)) with true by lia. auto.
Qed.

Lemma eq_uint_uint v a u b : ordered v a -> ordered u b ->
  (width_of v = width_of u -> fits (width_of v) a /\ fits (width_of u) b) ->
  py_eq v u = Ok (a =? b).
Proof.
  intros H K F. pose proof (ordered_value v a H) as V. pose proof (ordered_value u b K) as U.
  destruct (ordered_uint v a H) as (w & er & x & ->). destruct (ordered_uint u b K) as (w' & er' & y & ->).
  unfold py_eq. change (is_generic_type (VUInt w er x)) with true. cbn iota.
  unfold generic_eq. cbn [same_type]. cbn [value_of] in V, U. destruct (Nat.eqb w w') eqn:W.
  - apply Nat.eqb_eq in W. subst w'. cbn [width_of] in F. destruct (F eq_refl) as [FA FB].
    rewrite !pack_uint_value.
    destruct (uint_struct_fits w _ a V FA) as [-> PA]. destruct (uint_struct_fits w _ b U FB) as [-> PB].
    cbn [bind]. rewrite (struct_pack_inj w a b _ _ PA PB). reflexivity.
  - cbn [dot_value value_of]. rewrite (plain_eq_int _ _ a b V U). reflexivity.
Qed.

Lemma compare_uint_uint v a u b : ordered v a -> ordered u b ->
  (width_of v = width_of u -> fits (width_of v) a /\ fits (width_of u) b) ->
  py_eq v u = Ok (a =? b) /\ py_ne v u = negb (a =? b) /\
  py_cmp CLt v u = Ok (a <? b) /\ py_cmp CLe v u = Ok (a <=? b) /\
  py_cmp CGt v u = Ok (b <? a) /\ py_cmp CGe v u = Ok (b <=? a).
Proof.
  intros H K F. destruct (ordered_inner v a H) as [I _]. destruct (ordered_inner u b K) as [J _].
  rewrite !(cmp_int _ v u a b I J), (ne_int v u a b I J). split; [apply eq_uint_uint; auto|].
  repeat (split; auto).
Qed.

(** A decoded bit mask field. *)
Lemma mask_field_compare w e old pre bs suf z : bit_mask_class e -> big_endian w z bs ->
  (0 < w)%nat ->
  exists v, unpack (VUInt w (Some e) old) (pre ++ bs ++ suf) (List.length pre) = Ok v /\
    py_eq v (VInt z) = Ok true /\ py_ne v (VInt z) = true /\ py_cmp CLt v (VInt z) = Err TypeError.
Proof.
  intros (m & D) B W. destruct B as (L & WB & P).
  exists (VUInt w (Some e) (VMask e z)). split.
  - change (uint_unpack w (Some e) (pre ++ bs ++ suf) (List.length pre)
            = Ok (VUInt w (Some e) (VMask e z))).
    pose proof (uint_unpack_value w VNone pre bs suf WB L) as (U & _ & _).
    change (uint_unpack w None (pre ++ bs ++ suf) (List.length pre)
            = Ok (VUInt w None (VInt (place_value bs)))) in U.
    unfold uint_unpack in *. destruct (struct_unpack_u w _ _) as [x|] eqn:SU.
    + cbn [bind recast] in *. injection U as ->. unfold enum_call. rewrite D, P. reflexivity.
    + exfalso. cbn in U. destruct e0; discriminate U.
  - assert (V : value_of (VUInt w (Some e) (VMask e z)) = VInt z)
      by (cbn [value_of]; unfold generic_value; rewrite D; reflexivity).
    split; [|split; reflexivity].
    unfold py_eq. change (is_generic_type (VUInt w (Some e) (VMask e z))) with true. cbn iota.
    unfold generic_eq. cbn [same_type dot_value]. rewrite V.
    unfold plain_eq, as_int. rewrite Z.eqb_refl. reflexivity.
Qed.

(** ** is_valid *)

Lemma is_valid_true v : type_is_valid v = Ok true <-> exists bs, pack v = Ok bs.
Proof.
  unfold type_is_valid. destruct (pack v) as [bs|e]; split.
  - eauto. - reflexivity.
  - destruct e; discriminate.
  - intros (bs & H). discriminate H.
Qed.

Lemma uint_struct_err w v e : uint_struct w v = Err e -> e = PackException.
Proof.
  unfold uint_struct. destruct (as_int v); [|congruence].
  unfold struct_pack_u. destruct (_ && _); cbn; congruence.
Qed.

Lemma is_valid_never_false w er x : type_is_valid (VUInt w er x) <> Ok false.
Proof.
  unfold type_is_valid. rewrite pack_uint_value.
  destruct (uint_struct w _) as [bs|e] eqn:E; [discriminate|].
  apply uint_struct_err in E. subst. discriminate.
Qed.

Lemma is_valid_raises w er x : type_is_valid (VUInt w er x) = Ok true \/
  type_is_valid (VUInt w er x) = Err PackException.
Proof.
  unfold type_is_valid. rewrite pack_uint_value.
  destruct (uint_struct w _) as [bs|e] eqn:E; [auto|].
  apply uint_struct_err in E. subst. auto.
Qed.

(** ** UBInt128 *)

Lemma u128_never_packs er x : u128_pack er x = Err PackException.
Proof. unfold u128_pack. destruct (as_int _); reflexivity. Qed.

Lemma be_decode2 a b : be_decode [a; b] = a * 256 + b.
Proof. unfold be_decode. cbn [be_decode_acc]. lia. Qed.

Lemma u128_unpack_first pre a b bs suf : wf_bytes (a :: b :: bs) -> List.length bs = 14%nat ->
  u128_unpack (pre ++ (a :: b :: bs) ++ suf) (List.length pre) = Ok (VInt (a * 256 + b)).
Proof.
  intros _ L. unfold u128_unpack.
  assert (SL : slice (List.length pre) (List.length pre + 16) (pre ++ (a :: b :: bs) ++ suf) = a :: b :: bs).
  { unfold slice. rewrite app_assoc, firstn_app.
    replace (List.length pre + 16 - List.length (pre ++ a :: b :: bs))%nat with 0%nat
      by (rewrite app_length; cbn; lia).
    rewrite firstn_all2 by (rewrite app_length; cbn; lia).
    rewrite firstn_O, app_nil_r. rewrite skipn_app, skipn_all, Nat.sub_diag. reflexivity. }
  rewrite SL. unfold struct_unpack_seq.
  replace (Nat.eqb (List.length (a :: b :: bs)) (2 * 8)) with true
    by (symmetry; apply Nat.eqb_eq; cbn [List.length]; lia).
  change (be_groups 2 8 (a :: b :: bs)) with (be_decode [a; b] :: be_groups 2 7 bs).
  rewrite be_decode2. reflexivity.
Qed.

(** ** Names of a bit mask *)

Lemma names_in_selected l bits :
  exists names, names_in l (VInt bits) = Ok names /\ selected bits l names.
Proof.
  induction l as [|[k z] l (names & E & S1)].
  - exists []. split; [reflexivity|constructor].
  - cbn [names_in]. change (plain_op BAnd (VInt z) (VInt bits)) with (@Ok pyval (VInt (Z.land z bits))).
    cbn [bind]. rewrite E. cbn [bind].
    change (plain_eq (VInt (Z.land z bits)) (VInt 0)) with (Z.land z bits =? 0).
    destruct (Z.land z bits =? 0) eqn:Q.
    + exists names. split; [reflexivity|]. apply se_out; [|exact S1]. apply Z.eqb_eq in Q.
      intros i I T. assert (X : Z.testbit (Z.land z bits) i = false) by (rewrite Q; apply Z.bits_0).
      rewrite Z.land_spec, T in X. exact X.
    + exists (k :: names). split; [reflexivity|]. apply se_in; [|exact S1]. apply Z.eqb_neq in Q.
      destruct (Z_lt_le_dec (Z.land z bits) 0) as [N|N].
      * (* negative: every high enough bit is set *)
        set (i := Z.log2 (Z.pred (- Z.land z bits)) + 1).
        assert (0 <= i) as I by (unfold i; pose proof (Z.log2_nonneg (Z.pred (- Z.land z bits))); lia).
        assert (T : Z.testbit (Z.land z bits) i = true)
          by (apply Z.bits_above_log2_neg; [exact N|unfold i; lia]).
        exists i. rewrite Z.land_spec in T. apply andb_true_iff in T. tauto.
      * assert (T : Z.testbit (Z.land z bits) (Z.log2 (Z.land z bits)) = true)
          by (apply Z.bit_log2; lia).
        exists (Z.log2 (Z.land z bits)). rewrite Z.land_spec in T. apply andb_true_iff in T.
        split; [apply Z.log2_nonneg|tauto].
Qed.

Lemma mask_names_empty e bits : mask_names (mask_init e bits) = Ok [].
Proof. reflexivity. Qed.

Lemma assoc_in name l z : NoDup (map fst l) -> (assoc name l = Ok z <-> In (name, z) l).
Proof.
  induction l as [|[k y] l IH]; cbn [assoc map fst In]; intros N.
  - split; [discriminate|tauto].
  - inversion N as [|? ? NI N']; subst. destruct (String.eqb k name) eqn:Q.
    + apply String.eqb_eq in Q. subst. split.
      * intros X. injection X as ->. auto.
      * intros [X|X]; [congruence|]. exfalso. apply NI. apply in_map_iff. exists (name, z). auto.
    + apply String.eqb_neq in Q. rewrite (IH N'). split; [auto|]. intros [X|X]; [congruence|auto].
Qed.

(** ** Equality of structures *)

Lemma struct_eq_spec a b x y : pack a = Ok x -> has_pack b = true -> pack b = Ok y ->
  exists r, struct_eq a b = Ok r /\ (r = true <-> x = y).
Proof.
  intros A H B. unfold struct_eq. rewrite A, H, B. cbn [bind]. exists (text_eqb x y).
  split; [reflexivity|apply text_eqb_eq].
Qed.

Lemma struct_eq_refl c attrs x : pack (VObj c attrs) = Ok x ->
  struct_eq (VObj c attrs) (VObj c attrs) = Ok true.
Proof.
  intros A. unfold struct_eq. change (has_pack (VObj c attrs)) with true. rewrite A. cbn [bind].
  replace (text_eqb x x) with true by (symmetry; apply text_eqb_eq; reflexivity). reflexivity.
Qed.

Lemma struct_eq_true a b : struct_eq a b = Ok true <->
  has_pack b = true /\ exists x, pack a = Ok x /\ pack b = Ok x.
Proof.
  unfold struct_eq. destruct (pack a) as [x|]; cbn [bind].
  - destruct (has_pack b).
    + destruct (pack b) as [y|]; cbn [bind].
      * split.
        -- intros H. split; [reflexivity|]. exists x. injection H as H. apply text_eqb_eq in H. subst. auto.
        -- intros (_ & z & X & Y). injection X as ->. injection Y as ->. f_equal. apply text_eqb_eq. reflexivity.
      * split; [discriminate|]. intros (_ & z & _ & Y). discriminate Y.
    + split; [discriminate|]. intros (Y & _). discriminate Y.
  - split; [discriminate|]. intros (_ & z & Y & _). discriminate Y.
Qed.

Lemma struct_eq_sym c1 a1 c2 a2 :
  struct_eq (VObj c1 a1) (VObj c2 a2) = Ok true -> struct_eq (VObj c2 a2) (VObj c1 a1) = Ok true.
Proof.
  intros H. apply struct_eq_true in H as (_ & x & A & B). apply struct_eq_true.
  split; [reflexivity|]. exists x. auto.
Qed.

Lemma struct_eq_trans c1 a1 c2 a2 c3 a3 :
  struct_eq (VObj c1 a1) (VObj c2 a2) = Ok true -> struct_eq (VObj c2 a2) (VObj c3 a3) = Ok true ->
  struct_eq (VObj c1 a1) (VObj c3 a3) = Ok true.
Proof.
  intros H K. apply struct_eq_true in H as (_ & x & A & B). apply struct_eq_true in K as (_ & y & C & D).
  apply struct_eq_true. split; [reflexivity|]. exists x. rewrite B in C. injection C as <-. auto.
Qed.

Lemma struct_eq_other a b : has_pack b = false -> (exists x, pack a = Ok x) ->
  struct_eq a b = Err AttributeError.
Proof. intros H (x & A). unfold struct_eq. rewrite A, H. reflexivity. Qed.

Lemma struct_eq_decodes n n' k k' sz sz' base a b bsa bsb outa outb :
  enc_obj n k sz base a bsa outa -> enc_obj n' k' sz' base b bsb outb -> bsa <> [] ->
  struct_eq a b = Ok true -> outa = outb /\ same_obj a outa /\ same_obj b outa.
Proof.
  intros A B N E.
  assert (outa = outb) as <-.
  { pose proof (obj_pack _ _ _ _ _ _ _ A) as PA. pose proof (obj_pack _ _ _ _ _ _ _ B) as PB.
    apply struct_eq_true in E as (_ & x & PA' & PB').
    assert (bsb = bsa) by congruence. subst bsb.
    apply soundness in A as (_ & _ & CA & _ & _ & _ & UA).
    apply soundness in B as (_ & _ & _ & _ & _ & _ & UB).
    destruct (instantiable _ (CA N)) as (a0 & I' & KA).
    specialize (UA _ [] [] KA (fun _ => eq_refl)). specialize (UB _ [] [] KA (fun _ => eq_refl)).
    rewrite app_nil_r in UA, UB. cbn [app] in UA, UB. specialize (UA N). specialize (UB N).
    pose proof (unpack0_agree n n' (VObj base a0) bsa 0) as AG.
    cbn [List.length] in UA, UB. rewrite UA, UB in AG.
    enough (@Ok pyval outa = Ok outb) as X by congruence. apply AG; discriminate. }
  split; [reflexivity|]. split; eapply obj_same; eassumption.
Qed.

Lemma eid_in e : In e all_eids.
Proof. eapply nth_error_In. apply eid_nth. Qed.

Lemma class_enum_nodup e : NoDup (map fst (class_enum e)).
Proof.
  apply nodupb_ok. pose proof (eid_in e) as I.
  assert (K : forallb (fun e => nodupb (map fst (class_enum e))) all_eids = true) by (vm_compute; reflexivity).
  rewrite forallb_forall in K. apply K, I.
Qed.

Lemma class_member_declared e name z : bit_mask_class e ->
  (class_member e name = Ok z <-> exists members, enum_def e = EMask members /\ In (name, z) members).
Proof.
  intros (m & D). unfold class_member. rewrite (assoc_in _ _ _ (class_enum_nodup e)).
  unfold class_enum. rewrite D. split; [eauto|]. intros (m' & E & I). congruence.
Qed.
