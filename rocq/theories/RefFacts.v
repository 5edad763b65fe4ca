(** The reference encoders only return what the wire relations allow. *)
From Coq Require Import ZArith List Bool String Lia ZifyBool.
From Verif Require Import Base PyText Ids PyVal Classes Interp Utils Spec SpecMsg Ref BaseFacts ClassFacts
  LeafFacts StructFacts Soundness MsgFacts MsgBody.
Import ListNotations.
Open Scope string_scope.
Open Scope list_scope.
Open Scope Z_scope.

Lemma text_eqb_eq a b : text_eqb a b = true -> a = b.
Proof. unfold text_eqb. destruct (list_eq_dec Z.eq_dec a b); intros; congruence. Qed.
Lemma same_names_eq a b : same_names a b = true -> a = b.
Proof. unfold same_names. destruct (list_eq_dec string_dec a b); intros; congruence. Qed.
Lemma guard_some {A} b (x : option A) y : guard b x = Some y -> b = true /\ x = Some y.
Proof. destruct b; cbn; intros H; [auto|discriminate]. Qed.
Lemma obind_some {A B} (x : option A) (f : A -> option B) y :
  obind x f = Some y -> exists a, x = Some a /\ f a = Some y.
Proof. destruct x as [a|]; cbn; [eauto|intros; discriminate]. Qed.

Ltac gsplit H := let E := fresh in apply guard_some in H as [E H];
  repeat match type of E with
         | (_ && _)%bool = true => apply andb_prop in E as [E ?]
         end.
Ltac osplit H x E := apply obind_some in H as (x & E & H).

Lemma ref_int_ok v z : ref_int v = Some z -> int_value v z.
Proof.
  destruct v; cbn [ref_int]; intros H; try discriminate.
  - injection H as <-. constructor.
  - injection H as <-. constructor.
  - destruct v.
    all: destruct er; try discriminate; try (injection H as <-; constructor).
    all: gsplit H.
    + gsplit H. apply eid_eqb_eq in H1. subst. injection H as <-. constructor.
      apply negb_true_iff. assumption.
    + injection H as <-. constructor. assumption.
Qed.
Lemma ref_exact_ok v z : ref_exact v = Some z -> int_exact v z.
Proof.
  destruct v; cbn [ref_exact]; intros H; try discriminate.
  - injection H as <-. constructor.
  - gsplit H. injection H as <-. constructor. assumption.
  - destruct v.
    all: destruct er; try discriminate; try (injection H as <-; constructor).
    gsplit H. gsplit H. apply eid_eqb_eq in H1. subst. injection H as <-. constructor.
    apply negb_true_iff. assumption.
Qed.
Lemma ref_allowed_ok er z : ref_allowed er z = true -> allowed_int er z.
Proof. destruct er; cbn; auto. intros H. apply orb_prop in H. exact H. Qed.

Lemma ref_hex_digit_ok c d : ref_hex_digit c = Some d -> hex_digit c d.
Proof.
  unfold ref_hex_digit. intros H.
  destruct ((48 <=? c) && (c <=? 57)) eqn:E1.
  { injection H as <-. replace c with (48 + (c - 48)) at 1 by lia. constructor. lia. }
  destruct ((97 <=? c) && (c <=? 102)) eqn:E2.
  { injection H as <-. replace c with (87 + (c - 87)) at 1 by lia. constructor. lia. }
  destruct ((65 <=? c) && (c <=? 70)) eqn:E3; [|discriminate].
  injection H as <-. replace c with (55 + (c - 55)) at 1 by lia. constructor. lia.
Qed.
Lemma ref_hex_byte_ok p b : ref_hex_byte p = Some b -> hex_byte p b.
Proof.
  destruct p as [|c1 [|c2 [|] ] ]; cbn [ref_hex_byte]; intros H; try discriminate.
  - constructor. apply ref_hex_digit_ok. exact H.
  - osplit H a Ea. osplit H b' Eb. injection H as <-. constructor; apply ref_hex_digit_ok; assumption.
Qed.
Lemma omap_forall2 {A B} (f : A -> option B) l r : omap f l = Some r -> Forall2 (fun a b => f a = Some b) l r.
Proof.
  revert r. induction l as [|a l IH]; cbn [omap]; intros r H.
  - injection H as <-. constructor.
  - osplit H x Ex. osplit H xs Exs. injection H as <-. constructor; auto.
Qed.
Lemma ref_hex_ok s bs : ref_hex s = Some bs -> hex_text s bs.
Proof.
  unfold ref_hex. intros H. gsplit H. apply text_eqb_eq in H0. apply omap_forall2 in H.
  exists (split colon s). split; [auto|]. clear H0. induction H; constructor; auto using ref_hex_byte_ok.
Qed.

Lemma byte_forall bs : forallb (fun b => (0 <=? b) && (b <? 256)) bs = true -> wf_bytes bs.
Proof.
  rewrite forallb_forall. intros H. apply Forall_forall. intros b I. specialize (H b I).
  unfold is_byte. lia.
Qed.
Lemma ref_dotted_ok s bs : ref_dotted s = Some bs -> s = dotted bs /\ wf_bytes bs.
Proof.
  unfold ref_dotted. intros H. gsplit H. injection H as <-. apply text_eqb_eq in H0.
  split; [congruence|]. apply byte_forall. assumption.
Qed.

Lemma is_u16_ok p bs z : is_u16 p bs z = true -> u16_at p bs z.
Proof.
  unfold is_u16. intros H. repeat (apply andb_prop in H as [H ?]). apply text_eqb_eq in H.
  exists (firstn p bs), (skipn (p + 2) bs). repeat split; try lia.
  - rewrite <- H. unfold slice. rewrite <- (firstn_skipn (p + 2) bs) at 1.
    rewrite app_assoc. f_equal.
    rewrite <- (firstn_skipn p (firstn (p + 2) bs)) at 1. f_equal.
    rewrite firstn_firstn. f_equal. lia.
  - apply firstn_length_le. lia.
Qed.

Lemma completeb_ok c attrs : completeb c attrs = true -> complete c attrs.
Proof. apply same_names_eq. Qed.

Lemma ref_text_ok iv d s : ref_text iv d = Some s -> iv = VStr s \/ (iv = VNone /\ d = VStr s).
Proof.
  destruct iv; cbn; intros H; try discriminate; [|left; congruence].
  destruct d; try discriminate. right. split; congruence.
Qed.

Definition coded_ok (n : nat) (cv iv : pyval) (r : coded) : Prop :=
  match r with (k, sz, bs, out) => enc n k sz cv iv bs out end.
Definition fields_ok (n : nat) (fs : list (string * pyval)) (ivs : list pyval)
           (r : delim * bool * bytes * list pyval) : Prop :=
  match r with (k, sz, bs, outs) => enc_fields n k sz fs ivs bs outs end.
Definition obj_ok (n : nat) (base : cid) (v : pyval) (r : coded) : Prop :=
  match r with (k, sz, bs, out) => enc_obj n k sz base v bs out end.

Lemma ref_leaf_ok n cv iv r : ref_leaf cv iv = Some r -> coded_ok (S n) cv iv r.
Proof.
  destruct cv; cbn [ref_leaf]; intros H; try discriminate.
  - (* integers *)
    osplit H z Ez. gsplit H. injection H as <-. cbn [coded_ok].
    apply e_uint; try lia; [|apply ref_allowed_ok; assumption].
    destruct iv; try (left; split; [discriminate|apply ref_int_ok; exact Ez]).
    right. split; [reflexivity|apply ref_int_ok; exact Ez].
  - injection H as <-. cbn. constructor.
  - (* strings *)
    osplit H s Es. gsplit H. injection H as <-. cbn [coded_ok]. eapply e_char; try lia.
    + destruct iv; try (apply ref_text_ok in Es as [Es|Es]; [left; exact Es|right; right; exact Es]).
      destruct iv; try discriminate. gsplit Es. injection Es as <-.
      right. left. f_equal. lia.
    + apply Forall_forall. rewrite forallb_forall in H0. intros c Ic. specialize (H0 c Ic). lia.
    + apply text_eqb_eq. assumption.
  - (* IP *)
    osplit H s Es. osplit H bs Eb. apply ref_dotted_ok in Eb as [-> W].
    destruct bs as [|b1 [|b2 [|b3 [|b4 [|] ] ] ] ]; try discriminate. injection H as <-. cbn [coded_ok].
    destruct iv; try (apply ref_text_ok in Es as [Es|Es];
      [eapply (e_ip n _ _ _ 0); [left; exact Es|exact W]|eapply (e_ip n _ _ _ 0); [right; right; exact Es|exact W] ]).
    destruct iv; try discriminate. injection Es as ->.
    eapply e_ip; [right; left; reflexivity|exact W].
  - (* HW *)
    assert (Z : iv = VInt 0 \/ iv = VHW (VInt 0) ->
       r = (SD, true, [0; 0; 0; 0; 0; 0], VHW (VStr (hex_canonical [0; 0; 0; 0; 0; 0]))) ->
       coded_ok (S n) (VHW cv) iv r).
    { intros E ->. cbn [coded_ok]. apply e_hw_zero. exact E. }
    assert (T : forall s, iv = VStr s \/ iv = VHW (VStr s) \/ (iv = VNone /\ cv = VStr s) ->
       (let? bs := ref_hex s in
          match bs with
          | [b1; b2; b3; b4; b5; b6] => Some (SD, true, bs, VHW (VStr (hex_canonical bs)))
          | _ => None
          end) = Some r -> coded_ok (S n) (VHW cv) iv r).
    { intros s Es E. osplit E bs Eb. apply ref_hex_ok in Eb.
      destruct bs as [|b1 [|b2 [|b3 [|b4 [|b5 [|b6 [|] ] ] ] ] ] ]; try discriminate. injection E as <-.
      cbn [coded_ok]. eapply e_hw; eauto. }
    destruct iv as [|z|s|b|e z|e z|w er y|k|l y|y m0|y|y|y|c a|lc pc its];
      try (osplit H s' Es; discriminate Es).
    + osplit H s' Es. apply ref_text_ok in Es as [Es|Es]; [discriminate|]. apply (T s'); auto.
    + destruct z; try (osplit H s' Es; discriminate Es). apply Z; [auto|congruence].
    + osplit H s' Es. injection Es as <-. apply (T s); auto.
    + destruct y as [|z|s|b|e z|e z|w er y|k|l y|y m0|y|y|y|c a|lc pc its];
        try (osplit H s' Es; discriminate Es).
      * destruct z; try (osplit H s' Es; discriminate Es). apply Z; [auto|congruence].
      * osplit H s' Es. injection Es as <-. apply (T s); auto.
  - (* DPID *)
    osplit H s Es. osplit H bs Eb. gsplit H. apply ref_hex_ok in Eb. injection H as <-. cbn [coded_ok].
    eapply e_dpid; [|exact Eb|lia].
    destruct iv; try (apply ref_text_ok in Es as [Es|Es]; [left; exact Es|right; right; exact Es]).
    destruct iv; try discriminate. injection Es as <-. auto.
Qed.

Definition objs_ok (n : nat) (robj : cid -> pyval -> option coded) : Prop :=
  forall base v r, robj base v = Some r -> obj_ok n base v r.

Lemma objs_none n : objs_ok n (fun _ _ => None).
Proof. intros b v r H. discriminate. Qed.

Lemma obj_head n k sz base v bs out : enc_obj n k sz base v bs out -> exists c attrs, v = VObj c attrs.
Proof. intros H. destruct H; eauto. Qed.

Lemma ref_payload_ok n robj v bs :
  objs_ok (S n) robj -> ref_payload robj v = Some bs -> enc_payload (S n) v bs.
Proof.
  intros R H. destruct v; cbn [ref_payload] in H; try discriminate.
  - injection H as <-. constructor.
  - injection H as <-. constructor.
  - destruct v; try discriminate; injection H as <-; constructor; constructor.
  - destruct (robj c (VObj c attrs)) as [[[[k [|]] b] o]|] eqn:E; try discriminate.
    injection H as <-. apply R in E. econstructor. exact E.
Qed.

Lemma ref_items_ok n robj pc vs : objs_ok n robj -> forall r,
  ref_items robj pc vs = Some r -> enc_items n pc vs (fst r) (snd r).
Proof.
  intros R. induction vs as [|v tl IH]; intros r H; cbn [ref_items] in H.
  - injection H as <-. constructor.
  - osplit H x Ex. destruct x as [[[k sz] bs] out]. destruct sz; [|discriminate].
    destruct bs as [|b bs]; [discriminate|]. apply R in Ex. cbn [obj_ok] in Ex.
    destruct tl as [|v2 tl].
    + injection H as <-. econstructor; [exact Ex|discriminate].
    + destruct k; [|discriminate]. osplit H r2 E2. injection H as <-. cbn [fst snd].
      apply (i_cons n pc v (b :: bs) out (v2 :: tl) (fst r2) (snd r2)); [exact Ex|discriminate|]. apply IH. exact E2.
Qed.

Lemma as_struct_some x k sz bs out : as_struct x = Some (k, sz, bs, out) ->
  sz = true /\ x = Some (k, true, bs, out).
Proof.
  destruct x as [[[[k' [|]] b'] o']|]; cbn; intros H; try discriminate.
  injection H as <- <- <- <-. auto.
Qed.

Lemma ref_enc_ok n robj robj' cv iv r :
  objs_ok n robj -> objs_ok (pred n) robj' -> ref_enc n robj robj' cv iv = Some r -> coded_ok n cv iv r.
Proof.
  intros R R' H. destruct n as [|n]; [discriminate|]. cbn [Nat.pred] in R'.
  destruct cv as [|z|s|b|e z|e z|w er y|k|l y|y m0|y|y|y|c a|lc pc its];
    try (apply ref_leaf_ok; exact H); cbn [ref_enc] in H.
  - osplit H bs E. injection H as <-. cbn [coded_ok].
    apply (ref_payload_ok n) in E; [|exact R].
    destruct iv; try (apply e_bin; [discriminate|exact E]). apply e_bin_default. exact E.
  - gsplit H. apply same_names_eq in H0.
    destruct iv; try discriminate.
    + destruct r as [[[k sz] bs] out]. apply as_struct_some in H as [-> H]. apply R in H.
      apply e_obj_default; assumption.
    + gsplit H. apply cid_eqb_eq in H2. subst.
      destruct r as [[[k sz] bs] out]. apply as_struct_some in H as [-> H]. apply R in H.
      apply e_obj; assumption.
  - destruct its; [|discriminate]. gsplit H. destruct iv; try discriminate.
    + injection H as <-. apply e_list_none. assumption.
    + osplit H x E. apply (ref_items_ok n) in E; [|exact R'].
      destruct (cid_eqb lc CFixedTypeList) eqn:L.
      * apply cid_eqb_eq in L. subst. gsplit H. injection H as <-. apply e_list_plain; assumption.
      * injection H as <-. apply e_list; [|assumption|assumption].
        intros ->. vm_compute in L. discriminate.
Qed.

Lemma ref_fields_ok n renc : (forall cv iv r, renc cv iv = Some r -> coded_ok n cv iv r) ->
  forall fs ivs r, ref_fields renc fs ivs = Some r -> fields_ok n fs ivs r.
Proof.
  intros R. induction fs as [|[nm cv] fs IH]; intros ivs r H; destruct ivs as [|iv ivs]; cbn [ref_fields] in H;
    try discriminate.
  - injection H as <-. constructor.
  - osplit H x Ex. destruct x as [[[k sz] bs] out]. apply R in Ex. cbn [coded_ok] in Ex.
    destruct k.
    + destruct sz; [|discriminate]. osplit H r2 E2. destruct r2 as [[[k sz] bs2] outs].
      injection H as <-. cbn [fields_ok]. constructor; [exact Ex|]. apply (IH _ _ E2).
    + destruct fs; [|discriminate]. destruct ivs; [|discriminate]. injection H as <-.
      cbn [fields_ok]. constructor. exact Ex.
Qed.

Lemma with_length_some go c attrs total k bs outs : with_length go c attrs total = Some (k, bs, outs) ->
  go (values c (set_attr "length" (VInt (total (zlen bs))) attrs)) = Some (k, true, bs, outs).
Proof.
  unfold with_length. intros H. osplit H r E. destruct r as [[[k0 s0] bs0] o0].
  osplit H r2 E2. destruct r2 as [[[k2 [|]] bs2] o2]; [|discriminate].
  gsplit H. injection H as <- <- <-. assert (L : zlen bs2 = zlen bs0) by lia. rewrite L. exact E2.
Qed.

Lemma pairb_in l t c : pairb l t c = true -> In (t, c) l.
Proof.
  unfold pairb. intros H. apply existsb_exists in H as ([k d] & I & E). cbn in E.
  apply andb_prop in E as [E1 E2]. apply cid_eqb_eq in E2. assert (k = t) by lia. subst. exact I.
Qed.

Lemma pad8_small z : (pad8 z < 8)%nat.
Proof. unfold pad8. pose proof (Z.mod_pos_bound (- z) 8). lia. Qed.
Lemma pad8_mod bs : zlen (bs ++ repeat 0 (pad8 (zlen bs))) mod 8 = 0.
Proof.
  unfold zlen. rewrite app_length, repeat_length. unfold pad8.
  pose proof (Z.mod_pos_bound (- Z.of_nat (List.length bs)) 8).
  rewrite Nat2Z.inj_add, Z2Nat.id by lia.
  rewrite Zplus_mod_idemp_r. rewrite Z.add_opp_diag_r. reflexivity.
Qed.
Lemma pad8_len bs : zlen (bs ++ repeat 0 (pad8 (zlen bs))) = zlen bs + Z.of_nat (pad8 (zlen bs)).
Proof. unfold zlen. rewrite app_length, repeat_length. lia. Qed.

Section OneObject.
Variables (n : nat) (c : cid) (go : fields_enc).
Hypothesis G : forall ivs r, go ivs = Some r -> fields_ok n (class_attrs c) ivs r.

Lemma ref_action01_ok attrs r : ref_action01 go c attrs = Some r -> obj_ok (S n) ActionHeader01 (VObj c attrs) r.
Proof.
  unfold ref_action01. intros H. gsplit H. apply completeb_ok in H0. osplit H x E. apply G in E.
  destruct x as [[[k sz] bs] outs]. destruct k; [|discriminate]. destruct sz; [|discriminate].
  osplit H t Et. gsplit H. injection H as <-. cbn [obj_ok].
  eapply o_action01; [apply pairb_in; eassumption|assumption|exact E|apply is_u16_ok; assumption].
Qed.

Lemma ref_action04_ok attrs r : ref_action04 go c attrs = Some r -> obj_ok (S n) ActionHeader04 (VObj c attrs) r.
Proof.
  unfold ref_action04. intros H. gsplit H. apply completeb_ok in H0.
  destruct (cid_eqb c ActionSetField04) eqn:C.
  - apply cid_eqb_eq in C. subst c.
    destruct (get_attr "field" attrs) as [[| | | | | | | | | | | | |fc fattrs|]|] eqn:F; try discriminate.
    destruct fc; try discriminate.
    osplit H x E. destruct x as [[k body] outs]. destruct k; [|discriminate].
    apply with_length_some in E. apply G in E. gsplit H. injection H as <-. cbn [obj_ok].
    eapply o_setfield; [assumption|exact F| |apply is_u16_ok; assumption|apply pad8_mod|apply pad8_small].
    rewrite pad8_len. exact E.
  - osplit H x E. apply G in E.
    destruct x as [[[k sz] bs] outs]. destruct sz; [|discriminate].
    osplit H t Et. gsplit H. injection H as <-. cbn [obj_ok].
    eapply o_action04; [apply pairb_in; eassumption| |assumption|exact E|apply is_u16_ok; assumption
                       |apply is_u16_ok; assumption|lia].
    intros ->. vm_compute in C. discriminate.
Qed.

Lemma ref_match04_ok attrs r : ref_match04 go c attrs = Some r -> obj_ok (S n) Match04 (VObj c attrs) r.
Proof.
  unfold ref_match04. intros H. gsplit H. apply completeb_ok in H0. apply cid_eqb_eq in H1. subst c.
  osplit H x E. destruct x as [[k body] outs]. apply with_length_some in E. apply G in E.
  injection H as <-. cbn [obj_ok]. eapply o_match04; [assumption|exact E|apply pad8_mod|apply pad8_small].
Qed.

Lemma ref_bucket_ok attrs r : ref_bucket go c attrs = Some r -> obj_ok (S n) Bucket04 (VObj c attrs) r.
Proof.
  unfold ref_bucket. intros H. gsplit H. apply completeb_ok in H0. apply cid_eqb_eq in H1. subst c.
  osplit H il Eil. osplit H l El. osplit H x E. destruct x as [[[k sz] bs] outs]. apply G in E.
  gsplit H. injection H as <-. cbn [obj_ok].
  eapply o_bucket; [assumption|exact Eil| |exact E]. apply ref_exact_ok in El.
  replace (zlen bs) with l by lia. exact El.
Qed.

Lemma maybe_length_some upd attrs k bs outs : maybe_length upd go c attrs = Some (k, bs, outs) ->
  enc_fields n k true (class_attrs c)
    (values c (if upd then set_attr "length" (VInt (zlen bs)) attrs else attrs)) bs outs.
Proof.
  unfold maybe_length. intros H. destruct upd.
  - apply with_length_some in H. apply G in H. exact H.
  - osplit H x E. apply G in E. destruct x as [[[k' [|]] bs'] outs']; [|discriminate].
    injection H as <- <- <-. exact E.
Qed.

Lemma ref_struct_ok base attrs r : ref_struct go base c attrs = Some r -> obj_ok (S n) base (VObj c attrs) r.
Proof.
  unfold ref_struct. intros H.
  assert (Plain : kind base = KStruct \/ kind base = KMatch01 ->
    guard (completeb c attrs && cid_eqb c base)
        (let? r := go (values c attrs) in
         match r with (k, sz, bs, outs) => Some (k, sz, bs, mk c outs) end) = Some r ->
    obj_ok (S n) base (VObj c attrs) r).
  { clear H. intros K H. gsplit H. apply completeb_ok in H0. apply cid_eqb_eq in H1. subst base.
    osplit H x E. apply G in E. destruct x as [[[k sz] bs] outs]. injection H as <-. cbn [obj_ok].
    apply o_plain; assumption. }
  destruct (kind base) eqn:K; try discriminate; auto; clear Plain.
  - gsplit H. apply completeb_ok in H0. apply cid_eqb_eq in H1. subst base.
    osplit H x E. destruct x as [[k bs] outs]. apply maybe_length_some in E.
    gsplit H. injection H as <-. cbn [obj_ok].
    eapply o_len; [exact K|assumption|exact E|apply is_u16_ok; assumption].
  - gsplit H. apply completeb_ok in H0. apply cid_eqb_eq in H1. subst base.
    osplit H x E. destruct x as [[k bs] outs]. apply maybe_length_some in E.
    osplit H t Et. gsplit H. injection H as <-. cbn [obj_ok].
    eapply o_typed; [apply pairb_in; eassumption|assumption| |apply is_u16_ok; assumption
                    |apply is_u16_ok; assumption].
    destruct f; exact E.
Qed.
End OneObject.

Lemma ref_oxm_ok n robj c attrs r : objs_ok (S n) robj -> ref_oxm robj c attrs = Some r ->
  obj_ok (S (S n)) OxmTLV04 (VObj c attrs) r.
Proof.
  unfold ref_oxm. intros R H. gsplit H. apply completeb_ok in H0. apply cid_eqb_eq in H1. subst c.
  osplit H ic Eic. osplit H cl Ecl. osplit H ifd Eifd. osplit H f Ef. osplit H im Eim. osplit H m Em.
  osplit H ipv Eipv. osplit H payload Ep. apply (ref_payload_ok n) in Ep; [|exact R].
  gsplit H. injection H as <-. cbn [obj_ok].
  eapply o_oxm; [assumption|exact Eic|apply ref_exact_ok; exact Ecl|assumption|exact Eifd
                |apply ref_exact_ok; exact Ef| |exact Eim|apply ref_exact_ok; exact Em|exact Eipv|exact Ep|lia|].
  - destruct (cl =? 32768); [assumption|]. destruct ifd; try (rewrite andb_false_r in *; discriminate).
    split; [lia|eauto].
  - apply Forall_forall. apply byte_forall. assumption.
Qed.

Lemma ref_step_ok n robj robj' :
  objs_ok n robj -> objs_ok (pred n) robj' -> objs_ok (S n) (ref_step n robj robj').
Proof.
  intros R R' b v r H. destruct v; try discriminate.
  assert (G : forall ivs r, ref_fields (ref_enc n robj robj') (class_attrs c) ivs = Some r ->
              fields_ok n (class_attrs c) ivs r).
  { intros ivs r0. apply ref_fields_ok. intros cv iv r1. apply ref_enc_ok; assumption. }
  destruct b; cbn [ref_step] in H;
    first [ exact (ref_struct_ok _ _ _ G _ _ _ H)
      | exact (ref_action01_ok _ _ _ G _ _ H) | exact (ref_action04_ok _ _ _ G _ _ H)
      | exact (ref_match04_ok _ _ _ G _ _ H) | exact (ref_bucket_ok _ _ _ G _ _ H)
      | destruct n; [discriminate H|exact (ref_oxm_ok _ _ _ _ _ R H)] ].
Qed.
Lemma ref_obj_levels n : objs_ok n (ref_obj n) /\ objs_ok (S n) (ref_obj (S n)).
Proof.
  induction n as [|n [IH1 IH2] ].
  - split; [intros b v r H; discriminate|]. apply ref_step_ok; apply objs_none.
  - split; [exact IH2|]. apply (ref_step_ok (S n) (ref_obj (S n)) (ref_obj n)); assumption.
Qed.
Lemma ref_obj_ok n : objs_ok n (ref_obj n).
Proof. exact (proj1 (ref_obj_levels n)). Qed.

(** ** Messages *)

Lemma level_enc_ok n cv iv r : level_enc n cv iv = Some r -> coded_ok n cv iv r.
Proof.
  unfold level_enc. intros H.
  apply (ref_enc_ok n (ref_obj n) (match n with S n' => ref_obj n' | O => fun _ _ => None end));
    [apply ref_obj_ok| |exact H].
  destruct n; [apply objs_none|apply ref_obj_ok].
Qed.
Lemma level_fields_ok n fs ivs r : ref_fields (level_enc n) fs ivs = Some r -> fields_ok n fs ivs r.
Proof. apply ref_fields_ok. apply level_enc_ok. Qed.

Lemma ref_stats_ok n form iv r : ref_stats n form iv = Some r -> enc_stats n form iv (fst r) (snd r).
Proof.
  destruct form as [c|c|]; cbn [ref_stats]; intros H.
  - osplit H x E. destruct x as [[[k sz] bs] out]. apply ref_obj_ok in E.
    destruct sz; [|discriminate]. destruct bs; [discriminate|]. injection H as <-.
    eapply st_struct; [exact E|discriminate].
  - assert (One : (let? r := ref_obj n c iv in
          match r with
          | (_, true, (_ :: _) as bs, out) => Some (bs, VList CFixedTypeList c [out])
          | _ => None end) = Some r -> enc_stats n (BList c) iv (fst r) (snd r)).
    { clear H. intros H. osplit H x E. destruct x as [[[k sz] bs] out]. apply ref_obj_ok in E.
      destruct sz; [|discriminate]. destruct bs; [discriminate|]. injection H as <-.
      eapply st_single; [exact E|discriminate]. }
    destruct iv; try (apply One; exact H).
    + injection H as <-. apply st_nothing. auto.
    + destruct b; [|apply One; exact H]. injection H as <-. apply st_nothing. auto.
    + gsplit H. osplit H x E. injection H as <-. cbn [fst snd].
      apply st_list; [assumption|]. apply (ref_items_ok n (ref_obj n)); [apply ref_obj_ok|exact E].
  - destruct iv; try discriminate.
    + injection H as <-. apply st_raw_none. auto.
    + destruct b; [|discriminate]. injection H as <-. apply st_raw_none. auto.
    + destruct iv; try discriminate. injection H as <-. apply st_raw.
Qed.

Lemma lookup_form_in {A} t (l : list (Z * A)) a : lookup_form t l = Some a -> In (t, a) l.
Proof.
  induction l as [|[k b] l IH]; cbn [lookup_form]; intros H; [discriminate|].
  destruct (k =? t) eqn:E; [injection H as <-; left; f_equal; lia|right; auto].
Qed.

Lemma sending_portb_ok v p : sending_portb v p = true -> sending_port v p.
Proof. destruct v; cbn; lia. Qed.

Lemma split_last_eq {A} (l : list A) r : split_last l = Some r -> l = fst r ++ [snd r].
Proof.
  unfold split_last. intros H. rewrite <- (rev_involutive l). destruct (rev l) as [|a tl]; [discriminate|].
  injection H as <-. reflexivity.
Qed.

Lemma ref_packet_out_ok n v attrs r :
  ref_packet_out n v attrs = Some r -> enc_body n v (out_class v) attrs (fst r) (snd r).
Proof.
  unfold ref_packet_out. intros H. osplit H ip Eip. osplit H p Ep. osplit H acts Ea.
  osplit H fd Efd. osplit H fa Efa. apply split_last_eq in Efd. apply split_last_eq in Efa.
  destruct fd as [fd1 [dn dcv]]. destruct fa as [fs [an acv]]. cbn [fst snd] in *.
  destruct acv; try discriminate. destruct items; [|discriminate].
  gsplit H. apply String.eqb_eq in H1, H2. subst an dn.
  osplit H r1 E1. osplit H r2 E2. gsplit H. injection H as <-.
  clear E1. osplit E2 vd Evd. osplit E2 va Eva. apply split_last_eq in Evd. apply split_last_eq in Eva.
  osplit E2 x Ex. osplit E2 a Ea'. osplit E2 d Ed.
  apply level_fields_ok in Ex. apply level_enc_ok in Ea'. apply level_enc_ok in Ed.
  destruct x as [[[[|] [|]] pb] pouts]; try discriminate.
  destruct a as [[[[|] [|]] ab] aout]; try discriminate.
  destruct d as [[[[|] [|]] db] dout]; try discriminate.
  injection E2 as <-. cbn [fst snd] in *.
  assert (L : zlen ab = fst r1) by lia.
  apply (b_packet_out n v attrs ip p (zlen ab) fs (fst va) pb pouts lc pc (snd va) ab aout dcv (snd vd) db dout); auto.
  - apply ref_exact_ok. exact Ep.
  - apply sending_portb_ok. assumption.
  - rewrite Efd, Efa, <- app_assoc. reflexivity.
  - rewrite L, Evd, Eva, <- app_assoc. reflexivity.
Qed.

Lemma ref_stats_body_ok n f v attrs r : (v = V01 <-> f = FStatsRequest \/ f = FStatsReply) ->
  ref_stats_body n f attrs = Some r -> enc_body n v (stats_class f) attrs (fst r) (snd r).
Proof.
  intros V. unfold ref_stats_body. intros H. osplit H ti Eti. osplit H t Et. osplit H form Ef.
  osplit H fl Efl. osplit H vl Evl. osplit H x Ex.
  apply split_last_eq in Efl. apply split_last_eq in Evl. apply level_fields_ok in Ex.
  apply lookup_form_in in Ef.
  destruct x as [[[[|] [|]] pb] outs]; try discriminate.
  destruct outs as [|o pouts]; [discriminate|].
  destruct o as [| | | | | |w er y| | | | | | | |]; try discriminate.
  destruct w as [|[|[|w]]]; try discriminate. destruct er as [e|]; [|discriminate].
  destruct y as [| | | |e' t'| | | | | | | | | |]; try discriminate.
  osplit H s Es. apply ref_stats_ok in Es. gsplit H. injection H as <-. cbn [fst snd] in *.
  apply String.eqb_eq in H0. apply eid_eqb_eq in H2, H3. assert (t' = t) by lia. subst e e' t'.
  destruct fl as [fs [bn bcv]]. cbn [fst snd] in *. subst bn.
  eapply (b_stats n v f attrs ti t form (fst vl) fs pb); [exact V|exact Eti| |exact Efl|exact Evl|exact Ex|reflexivity|exact Ef|exact Es].
  unfold type_given. destruct ti; try discriminate; [injection Et as <-; auto|].
  gsplit Et. injection Et as <-. match goal with H : eid_eqb _ _ = true |- _ => apply eid_eqb_eq in H end. subst. auto.
Qed.

Lemma ref_error_ok n v attrs r :
  ref_error n v attrs = Some r -> enc_body n v (error_class v) attrs (fst r) (snd r).
Proof.
  unfold ref_error, ref_plain. intros H. osplit H x Ex. apply level_fields_ok in Ex.
  destruct x as [[[k [|]] body] outs]; [|discriminate].
  destruct outs as [|o1 outs]; [discriminate|].
  destruct o1 as [| | | | | |w er1 d1| | | | | | | |]; try discriminate.
  destruct w as [|[|[|w]]]; try discriminate.
  destruct outs as [|o2 outs]; [discriminate|].
  destruct o2 as [| | | | | |w er2 d2| | | | | | | |]; try discriminate.
  destruct w as [|[|[|w]]]; try discriminate. destruct er2; [discriminate|].
  destruct d2 as [|code| | | | | | | | | | | | |]; try discriminate.
  destruct outs as [|data [|] ]; try discriminate.
  osplit H t Et. osplit H e Ee. gsplit H. injection H as <-. cbn [fst snd].
  eapply b_error; [exact Ex|apply ref_exact_ok; exact Et|apply lookup_form_in; exact Ee|assumption|reflexivity].
Qed.

Lemma ref_ordinary_ok n v c attrs r :
  ref_ordinary n c attrs = Some r -> enc_body n v c attrs (fst r) (snd r).
Proof.
  unfold ref_ordinary, ref_plain. intros H. gsplit H. apply negb_true_iff in H0. osplit H x Ex.
  apply level_fields_ok in Ex. destruct x as [[[k [|]] body] outs]; [|destruct body; discriminate].
  destruct body as [|b body]; injection H as <-; cbn [fst snd].
  - eapply b_empty; [assumption|exact Ex].
  - eapply b_fields; [assumption|exact Ex|discriminate].
Qed.

Lemma ref_body_ok n v c attrs r : ref_body n v c attrs = Some r -> enc_body n v c attrs (fst r) (snd r).
Proof.
  intros H. destruct v, c; cbn [ref_body] in H;
    first [ exact (ref_ordinary_ok _ _ _ _ _ H)
          | exact (ref_error_ok n V01 attrs r H) | exact (ref_error_ok n V04 attrs r H)
          | exact (ref_packet_out_ok n V01 attrs r H) | exact (ref_packet_out_ok n V04 attrs r H)
          | apply (ref_stats_body_ok n FStatsRequest V01 attrs r); [intuition|exact H]
          | apply (ref_stats_body_ok n FStatsReply V01 attrs r); [intuition|exact H]
          | apply (ref_stats_body_ok n FMultipartRequest V04 attrs r); [intuition discriminate|exact H]
          | apply (ref_stats_body_ok n FMultipartReply V04 attrs r); [intuition discriminate|exact H] ].
Qed.

Lemma ref_holds_ok attrs name z : ref_holds attrs name = Some z -> holds attrs name z.
Proof. unfold ref_holds. intros H. osplit H iv E. apply ref_int_ok in H. exists iv. auto. Qed.

Theorem ref_msg_ok n v m t x bs out :
  ref_msg n v m = Some (t, x, bs, out) -> enc_msg n v t x m bs out.
Proof.
  unfold ref_msg. intros H. destruct m; try discriminate.
  destruct (get_attr "header" attrs) as [[| | | | | | | | | | | | |hc hattrs|]|] eqn:Eh; try discriminate.
  osplit H t' Et. osplit H ver Ev. osplit H x' Ex. osplit H r Er. gsplit H.
  injection H as <- <- <- <-. apply ref_body_ok in Er.
  apply ref_holds_ok in Et, Ev, Ex.
  repeat match goal with
  | H : cid_eqb _ _ = true |- _ => apply cid_eqb_eq in H
  | H : completeb _ _ = true |- _ => apply completeb_ok in H
  end. subst hc. assert (ver = version_number v) by lia. subst ver.
  apply enc_message; auto.
  - apply pairb_in. assumption.
  - intros [-> M]. match goal with H : negb _ = true |- _ => apply negb_true_iff in H; cbn in H end. lia.
  - split; [assumption|]. exists hattrs. repeat split; auto; lia.
  - apply byte_forall. assumption.
  - lia.
Qed.
