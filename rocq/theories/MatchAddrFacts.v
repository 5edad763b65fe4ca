(** What the OpenFlow 1.0 match stores when an address is assigned. *)
From Coq Require Import ZArith List Bool String Lia.
From Verif Require Import Base PyText Ids PyVal Classes Interp Addr Match01 SpecBasic SpecOps SpecMatch TextFacts
  LeafFacts AddrFacts StructFacts MatchFacts.
Import ListNotations.
Open Scope string_scope.
Open Scope list_scope.
Open Scope Z_scope.

Lemma separated_join c l : separated c l = join c l.
Proof. induction l as [|a l IH]; [reflexivity|]. destruct l; [reflexivity|]. cbn [separated join] in *. rewrite IH. reflexivity. Qed.

Lemma fixed_digits_numeral base (digit : Z -> Z -> Prop) n z :
  1 < base -> (forall d, 0 <= d < base -> digit (digit_char d) d) ->
  0 <= z < base ^ Z.of_nat (S n) -> numeral base digit (fixed_digits base (S n) z) z.
Proof.
  intros Hb D. revert z.
  enough (G : forall t y n z, numeral base digit t y -> numeral base digit (t ++ fixed_digits base n z) (y * base ^ Z.of_nat n + z mod base ^ Z.of_nat n)).
  { intros z Hz. cbn [fixed_digits].
    assert (P : 0 < base ^ Z.of_nat n) by (apply Z.pow_pos_nonneg; lia).
    rewrite Nat2Z.inj_succ, Z.pow_succ_r in Hz by lia.
    assert (Q : 0 <= z / base ^ Z.of_nat n < base).
    { split; [apply Z.div_pos; lia|apply Z.div_lt_upper_bound; lia]. }
    rewrite Z.mod_small by exact Q.
    replace z with ((z / base ^ Z.of_nat n) * base ^ Z.of_nat n + z mod base ^ Z.of_nat n) at 3
      by (rewrite Z.mul_comm; symmetry; apply Z.div_mod; lia).
    apply (G [_]). constructor. apply D. exact Q. }
  intros t y m z. revert t y. induction m as [|m IH]; intros t y N; cbn [fixed_digits].
  - cbn. rewrite app_nil_r, Z.mod_1_r, Z.mul_1_r, Z.add_0_r. exact N.
  - set (d := (z / base ^ Z.of_nat m) mod base).
    assert (Q : 0 <= d < base) by (apply Z.mod_pos_bound; lia).
    assert (P : 0 < base ^ Z.of_nat m) by (apply Z.pow_pos_nonneg; lia).
    replace (t ++ digit_char d :: fixed_digits base m z) with ((t ++ [digit_char d]) ++ fixed_digits base m z)
      by (rewrite <- app_assoc; reflexivity).
    replace (y * base ^ Z.of_nat (S m) + z mod base ^ Z.of_nat (S m))
      with ((y * base + d) * base ^ Z.of_nat m + z mod base ^ Z.of_nat m).
    + apply IH. first [apply num_more; [exact N|apply D; exact Q] | replace (y*base+d) with (base*y+d) by ring; apply num_more; [exact N|apply D; exact Q]].
    + rewrite Nat2Z.inj_succ, Z.pow_succ_r by lia. rewrite (Z.mul_comm base (base ^ _)).
      rewrite (Z.rem_mul_r z) by lia. unfold d. ring.
Qed.

Lemma num_digits_least base fuel z : 1 < base -> 0 <= z -> (1 < num_digits base fuel z)%nat ->
  base ^ Z.of_nat (num_digits base fuel z - 1) <= z.
Proof.
  intros Hb. revert z. induction fuel as [|f IH]; intros z Hz; cbn [num_digits]; [lia|].
  destruct (z <? base) eqn:E; [lia|]. intros _.
  assert (0 <= z / base) by (apply Z.div_pos; lia).
  pose proof (Z.div_mod z base). pose proof (Z.mod_pos_bound z base).
  destruct (Nat.eq_dec (num_digits base f (z / base)) 1) as [->|N].
  - cbn [Nat.sub]. change (Z.of_nat 1) with 1. rewrite Z.pow_1_r. lia.
  - pose proof (num_digits_pos base f (z / base)). specialize (IH (z / base) ltac:(lia) ltac:(lia)).
    replace (S (num_digits base f (z / base)) - 1)%nat with (S (num_digits base f (z / base) - 1)) by lia.
    rewrite Nat2Z.inj_succ, Z.pow_succ_r by lia. nia.
Qed.

Lemma digits_natural base (digit : Z -> Z -> Prop) z :
  1 < base <= 16 -> (forall d, 0 <= d < base -> digit (digit_char d) d) -> 0 <= z ->
  let t := fixed_digits base (num_digits base (Z.to_nat (Z.log2 z)) z) z in
  numeral base digit t z /\ shortest t.
Proof.
  intros Hb D Hz. set (f := Z.to_nat (Z.log2 z)).
  pose proof (num_digits_bound base f z ltac:(lia) (log2_pow base z ltac:(lia) Hz)) as B.
  pose proof (num_digits_pos base f z) as P. pose proof (num_digits_least base f z ltac:(lia) Hz) as L.
  destruct (num_digits base f z) as [|n]; [lia|]. cbn zeta. split.
  - apply fixed_digits_numeral; [lia|exact D|lia].
  - cbn [fixed_digits]. eexists _, _. split; [reflexivity|].
    destruct n as [|n]; [right; reflexivity|left].
    specialize (L ltac:(lia)). replace (S (S n) - 1)%nat with (S n) in L by lia.
    assert (Q0 : 0 < base ^ Z.of_nat (S n)) by (apply Z.pow_pos_nonneg; lia).
    rewrite Nat2Z.inj_succ, Z.pow_succ_r in B by lia.
    assert (Q : 1 <= z / base ^ Z.of_nat (S n) < base).
    { split; [apply Z.div_le_lower_bound; lia|apply Z.div_lt_upper_bound; lia]. }
    rewrite Z.mod_small by lia. unfold digit_char. destruct (_ <? 10); lia.
Qed.

Lemma dec_digits d : 0 <= d < 10 -> dec_digit_of (digit_char d) d.
Proof. intros H. unfold digit_char, dec_digit_of. destruct (d <? 10) eqn:E; lia. Qed.
Lemma hex_digits d : 0 <= d < 16 -> lower_digit (digit_char d) d.
Proof. intros H. unfold digit_char, lower_digit. destruct (d <? 10) eqn:E; lia. Qed.

Lemma str_items zs : exists ts, mapM py_str (map VInt zs) = Ok ts /\ Forall2 dec_item zs ts.
Proof.
  induction zs as [|z zs (ts & M & F)]; [exists []; split; [reflexivity|constructor]|].
  cbn [map mapM py_str bind]. rewrite M. eexists. split; [reflexivity|]. constructor; [|exact F].
  destruct (z <? 0) eqn:E; [right|left]; (split; [lia|]).
  - eexists. split; [reflexivity|]. apply (digits_natural 10); [lia|exact dec_digits|lia].
  - apply (digits_natural 10); [lia|exact dec_digits|lia].
Qed.

Lemma hex_items zs : exists ts, mapM py_hex2 (map VInt zs) = Ok ts /\ Forall2 hex_item zs ts.
Proof.
  induction zs as [|z zs (ts & M & F)]; [exists []; split; [reflexivity|constructor]|].
  cbn [map mapM py_hex2 bind]. rewrite M. eexists. split; [reflexivity|]. constructor; [|exact F].
  destruct (z <? 0) eqn:E; [|destruct (z <? 256) eqn:E2].
  - right. split; [lia|]. right. split; [lia|]. eexists. split; [reflexivity|].
    apply (digits_natural 16); [lia|exact hex_digits|lia].
  - cbn [fixed_digits]. change (16 ^ Z.of_nat 1) with 16. change (16 ^ Z.of_nat 0) with 1. rewrite Z.div_1_r.
    destruct (Z_lt_dec z 16) as [H|H].
    + left. split; [lia|]. exists (digit_char z). rewrite (Z.div_small z 16), (Z.mod_small z 16) by lia.
      split; [reflexivity|apply hex_digits; lia].
    + right. split; [lia|]. left. split; [lia|].
      assert (1 <= z / 16 < 16) by (split; [apply Z.div_le_lower_bound; lia|apply Z.div_lt_upper_bound; lia]).
      rewrite (Z.mod_small (z / 16)) by lia. split.
      * replace z with (z / 16 * 16 + z mod 16) at 3 by (rewrite Z.mul_comm; symmetry; apply Z.div_mod; lia).
        pose proof (Z.mod_pos_bound z 16 ltac:(lia)).
        first [ apply (num_more 16 lower_digit [_]) | replace (z / 16 * 16 + z mod 16) with (16 * (z / 16) + z mod 16) by ring; apply (num_more 16 lower_digit [_]) ];
          [constructor; apply hex_digits; lia|apply hex_digits; lia].
      * eexists _, _. split; [reflexivity|]. left. unfold digit_char. destruct (_ <? 10); lia.
  - right. split; [lia|]. left. split; [lia|]. apply (digits_natural 16); [lia|exact hex_digits|lia].
Qed.

Lemma mac_field name : In name ["dl_src"; "dl_dst"] ->
  (exists x, get_attr name (class_attrs Match01) = Some (VHW x)) /\ name <> "wildcards".
Proof. intros [<-|[<-|[]]]; (split; [eexists; vm_compute; reflexivity|discriminate]). Qed.
Lemma ip_field name : In name ["nw_src"; "nw_dst"] ->
  (exists x p, get_attr name (class_attrs Match01) = Some (VIP x p)) /\ name <> "wildcards".
Proof. intros [<-|[<-|[]]]; (split; [eexists _, _; vm_compute; reflexivity|discriminate]). Qed.

Lemma set_stores name d v w m : get_attr name (class_attrs Match01) = Some d -> name <> "wildcards" ->
  convert d v = Ok w -> get_attr name (fst (match_set name v m)) = Some w.
Proof.
  intros G N C. unfold match_set. rewrite G, C.
  rewrite fill_frame by exact N. apply get_set_same.
Qed.

Lemma mac_list_stored name lc pc zs m : In name ["dl_src"; "dl_dst"] ->
  exists ts, Forall2 hex_item zs ts /\
    get_attr name (fst (match_set name (VList lc pc (map VInt zs)) m)) = Some (VHW (VStr (separated 58 ts))).
Proof.
  intros I. destruct (mac_field name I) as ((x & G) & N). destruct (hex_items zs) as (ts & M & F).
  exists ts. split; [exact F|]. apply (set_stores _ _ _ _ _ G N). cbn [convert]. rewrite M, separated_join. reflexivity.
Qed.

Lemma dec_item_plain z t : dec_item z t -> no_char slash t.
Proof.
  intros [(_ & D & _)|(_ & u & -> & D & _)].
  - apply dec_numeral_digits in D as (D & _). apply digit_no_char; [exact slash_not_digit|exact D].
  - constructor; [unfold slash; lia|]. apply dec_numeral_digits in D as (D & _). apply digit_no_char; [exact slash_not_digit|exact D].
Qed.

Lemma separated_plain zs ts : Forall2 dec_item zs ts -> no_char slash (separated 46 ts).
Proof.
  induction 1 as [|z t zs ts D F IH]; [constructor|]. apply dec_item_plain in D.
  destruct ts as [|t' ts]; [exact D|]. change (separated 46 (t :: t' :: ts)) with (t ++ [46] ++ separated 46 (t' :: ts)).
  apply Forall_app. split; [exact D|]. constructor; [unfold slash; lia|exact IH].
Qed.

Lemma ip_list_stored name lc pc zs m : In name ["nw_src"; "nw_dst"] ->
  exists ts, Forall2 dec_item zs ts /\
    get_attr name (fst (match_set name (VList lc pc (map VInt zs)) m)) = Some (VIP (VStr (separated 46 ts)) 32).
Proof.
  intros I. destruct (ip_field name I) as ((x & p & G) & N). destruct (str_items zs) as (ts & M & F).
  exists ts. split; [exact F|]. apply (set_stores _ _ _ _ _ G N). cbn [convert]. rewrite M. cbn [bind to_ip].
  change dot with 46. rewrite <- separated_join.
  unfold ip_init, split_prefix. rewrite has_char_no by (eapply separated_plain; eauto). reflexivity.
Qed.

Lemma mac_text_stored name s m : In name ["dl_src"; "dl_dst"] ->
  get_attr name (fst (match_set name (VStr s) m)) = Some (VHW (VStr s)).
Proof. intros I. destruct (mac_field name I) as ((x & G) & N). apply (set_stores _ _ _ _ _ G N). reflexivity. Qed.

Lemma ip_text_stored name a m : In name ["nw_src"; "nw_dst"] -> ~ In 47 a ->
  get_attr name (fst (match_set name (VStr a) m)) = Some (VIP (VStr a) 32) /\
  forall t p, dec_numeral t p ->
    get_attr name (fst (match_set name (VStr (a ++ 47 :: t)) m)) = Some (VIP (VStr a) p).
Proof.
  intros I NA. destruct (ip_field name I) as ((x & q & G) & N). apply no_slash_in in NA. split; [|intros t p D].
  - apply (set_stores _ _ _ _ _ G N). cbn [convert to_ip]. unfold ip_init, split_prefix.
    rewrite has_char_no by exact NA. reflexivity.
  - apply (set_stores _ _ _ _ _ G N). cbn [convert to_ip]. unfold ip_init.
    destruct (split_prefix_ok 32 a t p None NA D) as [-> _]. reflexivity.
Qed.

Lemma object_stored name m :
  (In name ["dl_src"; "dl_dst"] -> forall x, get_attr name (fst (match_set name (VHW x) m)) = Some (VHW x)) /\
  (In name ["nw_src"; "nw_dst"] -> forall x p, get_attr name (fst (match_set name (VIP x p) m)) = Some (VIP x p)).
Proof.
  split; intros I.
  - destruct (mac_field name I) as ((y & G) & N). intros x. apply (set_stores _ _ _ _ _ G N). reflexivity.
  - destruct (ip_field name I) as ((y & q & G) & N). intros x p. apply (set_stores _ _ _ _ _ G N). reflexivity.
Qed.
