(** int() reads exactly the texts of [SpecLiteral]. *)
From Coq Require Import ZArith List Bool String Lia ZifyBool.
From Verif Require Import Base PyText Ids PyVal Classes Interp Spec SpecBasic Addr TextFacts AddrFacts SpecReject RejectFacts SpecLiteral.
Import ListNotations.
Open Scope string_scope.
Open Scope list_scope.
Open Scope Z_scope.

Definition ok_base (base : Z) : Prop := base = 10 \/ base = 16.

Lemma digit_in_val base c d : ok_base base ->
  (digit_in base c d <-> c <> 95 /\ digit_val c = d /\ digit_val c < base).
Proof.
  intros B. unfold digit_in, hex_digit_of, digit_val. split.
  - intros [[[H ->]|[H [->| ->]]] K].
    + destruct ((48 <=? 48 + d) && (48 + d <=? 57)) eqn:E; lia.
    + destruct ((48 <=? _) && _) eqn:E; [lia|]. destruct ((97 <=? _) && _) eqn:E2; lia.
    + destruct ((48 <=? _) && _) eqn:E; [lia|]. destruct ((97 <=? _) && _) eqn:E2; [lia|].
      destruct ((65 <=? _) && _) eqn:E3; lia.
  - unfold ok_base in B. intros (N & <- & L).
    destruct ((48 <=? c) && (c <=? 57)) eqn:E; [lia|].
    destruct ((97 <=? c) && (c <=? 122)) eqn:E2; [lia|].
    destruct ((65 <=? c) && (c <=? 90)) eqn:E3; lia.
Qed.

(** ** Digits *)

Definition state (base acc : Z) (prev : bool) (p : text) : Prop :=
  if prev then grouped base p acc
  else (p = [] /\ acc = 0) \/ exists q, p = q ++ [95] /\ grouped base q acc.

Lemma scan_sound base : ok_base base -> forall s acc prev p z, state base acc prev p ->
  scan_digits base acc prev s = Some z -> grouped base (p ++ s) z.
Proof.
  intros B. induction s as [|c s IH]; intros acc prev p z H; cbn [scan_digits].
  - destruct prev; [|discriminate]. intros [= <-]. rewrite app_nil_r. exact H.
  - unfold underscore. destruct (c =? 95) eqn:E.
    + destruct prev; [|discriminate]. intros K. replace c with 95 by lia.
      change (95 :: s) with ([95] ++ s). rewrite app_assoc. apply (IH acc false); [|exact K].
      right. exists p. split; [reflexivity|exact H].
    + destruct (digit_val c <? base) eqn:D; [|discriminate]. intros K.
      assert (G : digit_in base c (digit_val c)) by (apply (digit_in_val _ _ _ B); lia).
      change (c :: s) with ([c] ++ s). rewrite app_assoc.
      apply (IH (acc * base + digit_val c) true); [|exact K]. cbn [state].
      replace (acc * base + digit_val c) with (base * acc + digit_val c) by ring.
      destruct prev; cbn [state] in H.
      * apply gr_more; assumption.
      * destruct H as [[-> ->]|(q & -> & H)].
        -- rewrite Z.mul_0_r. apply gr_one, G.
        -- rewrite <- app_assoc. apply gr_under; assumption.
Qed.

Lemma scan_step base acc prev c d s : ok_base base -> digit_in base c d ->
  scan_digits base acc prev (c :: s) = scan_digits base (base * acc + d) true s.
Proof.
  intros B G. apply (digit_in_val _ _ _ B) in G as (N & V & L). cbn [scan_digits]. unfold underscore.
  destruct (c =? 95) eqn:E; [lia|]. destruct (digit_val c <? base) eqn:D; [|lia].
  f_equal. rewrite V. ring.
Qed.

Lemma scan_complete base t z : ok_base base -> grouped base t z -> forall s,
  scan_digits base 0 false (t ++ s) = scan_digits base z true s.
Proof.
  intros B. induction 1 as [c d G|t z c d H IH G|t z c d H IH G]; intros s.
  - cbn [app]. rewrite (scan_step _ _ _ _ _ _ B G). f_equal. lia.
  - rewrite <- app_assoc, IH. apply (scan_step _ _ _ _ _ _ B G).
  - rewrite <- app_assoc, IH. cbn [app].
    transitivity (scan_digits base z false (c :: s)); [reflexivity|]. apply (scan_step _ _ _ _ _ _ B G).
Qed.

Lemma scan_iff base t z : ok_base base -> (scan_digits base 0 false t = Some z <-> grouped base t z).
Proof.
  intros B. split.
  - intros H. apply (scan_sound base B t 0 false [] z); [left; auto|exact H].
  - intros H. rewrite <- (app_nil_r t), (scan_complete base t z B H). reflexivity.
Qed.

(** ** The prefix and the sign *)

Lemma scan_prefixed_eq base s : scan_prefixed base s =
  match s with
  | a :: x :: tl =>
      if (a =? 48) && ((base =? 16) && ((x =? 120) || (x =? 88))) then
        match tl with
        | u :: tl' => if u =? 95 then scan_digits base 0 false tl' else scan_digits base 0 false tl
        | [] => None
        end
      else scan_digits base 0 false s
  | _ => scan_digits base 0 false s
  end.
Proof.
  unfold scan_prefixed. destruct s as [|a s]; [reflexivity|].
  destruct (a =? 48) eqn:E.
  - replace a with 48 by lia. destruct s as [|x tl]; reflexivity.
  - destruct s as [|x tl]; (destruct a as [|p|p]; [reflexivity| |reflexivity];
      repeat (destruct p as [p|p|]; try reflexivity; try lia)).
Qed.

Lemma grouped_no_hex base x tl z : ok_base base -> x = 120 \/ x = 88 -> ~ grouped base (48 :: x :: tl) z.
Proof.
  intros B X H. apply (scan_iff _ _ _ B) in H. cbn [scan_digits] in H. unfold underscore in H.
  change (48 =? 95) with false in H. cbn [digit_val] in H.
  assert (K : (digit_val 48 <? base) = true) by (change (digit_val 48) with 0; unfold ok_base in B; lia).
  rewrite K in H. destruct (x =? 95) eqn:E; [lia|].
  destruct (digit_val x <? base) eqn:D; [|discriminate].
  assert (33 <= digit_val x) by (destruct X as [->| ->]; vm_compute; discriminate). unfold ok_base in B. lia.
Qed.
Lemma grouped_no_under base t z : ok_base base -> ~ grouped base (95 :: t) z.
Proof. intros B H. apply (scan_iff _ _ _ B) in H. discriminate H. Qed.
Lemma grouped_some base t z : ok_base base -> grouped base t z -> t <> [].
Proof. intros B H ->. apply (scan_iff _ _ _ B) in H. discriminate H. Qed.

Lemma prefixed_iff base t z : ok_base base -> (scan_prefixed base t = Some z <-> unsigned base t z).
Proof.
  intros B. rewrite scan_prefixed_eq. split.
  - intros H. destruct t as [|a [|x tl]]; try (apply un_plain, (scan_iff _ _ _ B), H).
    destruct ((a =? 48) && _) eqn:E; [|apply un_plain, (scan_iff _ _ _ B), H].
    replace a with 48 by lia. destruct tl as [|u tl]; [discriminate|].
    destruct (u =? 95) eqn:U.
    + replace u with 95 by lia. apply un_hex_under; [lia|lia|apply (scan_iff _ _ _ B), H].
    + apply un_hex; [lia|lia|apply (scan_iff _ _ _ B), H].
  - intros [t' z' G|x t' z' E X G|x t' z' E X G].
    + destruct t' as [|a [|x tl]]; try (apply (scan_iff _ _ _ B), G).
      destruct ((a =? 48) && _) eqn:E; [|apply (scan_iff _ _ _ B), G].
      exfalso. replace a with 48 in G by lia. apply (grouped_no_hex base x tl z' B) in G; [exact G|lia].
    + destruct ((48 =? 48) && _) eqn:Q; [|lia]. pose proof (grouped_some _ _ _ B G) as NE.
      destruct t' as [|u tl]; [congruence|]. destruct (u =? 95) eqn:U.
      * exfalso. replace u with 95 in G by lia. apply (grouped_no_under _ _ _ B G).
      * apply (scan_iff _ _ _ B), G.
    + destruct ((48 =? 48) && _) eqn:Q; [|lia]. change (95 =? 95) with true. cbv iota.
      apply (scan_iff _ _ _ B), G.
Qed.

Lemma sign_eq {A} (f g : text -> A) (h : text -> A) s :
  match s with 43 :: tl => f tl | 45 :: tl => g tl | _ => h s end
  = match s with
    | c :: tl => if c =? 43 then f tl else if c =? 45 then g tl else h s
    | [] => h s
    end.
Proof.
  destruct s as [|c s]; [reflexivity|]. destruct (c =? 43) eqn:E; [replace c with 43 by lia; reflexivity|].
  destruct (c =? 45) eqn:E2; [replace c with 45 by lia; reflexivity|].
  destruct c as [|p|p]; [reflexivity| |reflexivity].
  repeat (destruct p as [p|p|]; try reflexivity; try lia).
Qed.

(** The first and the last character. *)
Lemma digit_solid base c d : digit_in base c d -> is_space c = false /\ c <> 43 /\ c <> 45.
Proof. unfold digit_in, hex_digit_of, is_space. lia. Qed.
Lemma grouped_first base t z : grouped base t z ->
  exists c tl, t = c :: tl /\ is_space c = false /\ c <> 43 /\ c <> 45.
Proof.
  induction 1 as [c d G|t z c d H (a & tl & -> & IH) G|t z c d H (a & tl & -> & IH) G].
  - exists c, []. split; [reflexivity|]. eapply digit_solid, G.
  - exists a, (tl ++ [c]). split; [reflexivity|exact IH].
  - exists a, (tl ++ [95; c]). split; [reflexivity|exact IH].
Qed.
Lemma grouped_last base t z : grouped base t z -> exists q c, t = q ++ [c] /\ is_space c = false.
Proof.
  intros [c d G|t' z' c d H G|t' z' c d H G].
  - exists [], c. split; [reflexivity|]. eapply digit_solid, G.
  - exists t', c. split; [reflexivity|]. eapply digit_solid, G.
  - exists (t' ++ [95]), c. rewrite <- app_assoc. split; [reflexivity|]. eapply digit_solid, G.
Qed.
Lemma unsigned_first base t z : unsigned base t z ->
  exists c tl, t = c :: tl /\ is_space c = false /\ c <> 43 /\ c <> 45.
Proof.
  intros [t' z' G|x t' z' E X G|x t' z' E X G]; [eapply grouped_first, G| |];
    (eexists _, _; split; [reflexivity|]; unfold is_space; lia).
Qed.
Lemma unsigned_last base t z : unsigned base t z -> exists q c, t = q ++ [c] /\ is_space c = false.
Proof.
  intros [t' z' G|x t' z' E X G|x t' z' E X G]; apply grouped_last in G as (q & c & -> & L).
  - exists q, c. auto.
  - exists (48 :: x :: q), c. auto.
  - exists (48 :: x :: 95 :: q), c. auto.
Qed.
Lemma signed_ends base t z : signed base t z ->
  (exists c tl, t = c :: tl /\ is_space c = false) /\ exists q c, t = q ++ [c] /\ is_space c = false.
Proof.
  intros [t' z' U|t' z' U|t' z' U]; pose proof (unsigned_last _ _ _ U) as (q & c & E & L).
  - split; [|eauto]. apply unsigned_first in U as (a & tl & -> & H & _). eauto.
  - split; [eexists _, _; split; reflexivity|]. exists (43 :: q), c. rewrite E. auto.
  - split; [eexists _, _; split; reflexivity|]. exists (45 :: q), c. rewrite E. auto.
Qed.

Lemma signed_iff base s z : ok_base base ->
  ((match s with
    | 43 :: tl => scan_prefixed base tl
    | 45 :: tl => option_map Z.opp (scan_prefixed base tl)
    | _ => scan_prefixed base s
    end) = Some z <-> signed base s z).
Proof.
  intros B.
  rewrite (sign_eq (scan_prefixed base) (fun tl => option_map Z.opp (scan_prefixed base tl)) (scan_prefixed base) s).
  split.
  - destruct s as [|c tl]; [intros H; apply si_none, (prefixed_iff _ _ _ B), H|].
    destruct (c =? 43) eqn:E; [|destruct (c =? 45) eqn:E2]; intros H.
    + replace c with 43 by lia. apply si_plus, (prefixed_iff _ _ _ B), H.
    + replace c with 45 by lia. destruct (scan_prefixed base tl) as [y|] eqn:Q; [|discriminate].
      injection H as <-. apply si_minus, (prefixed_iff _ _ _ B), Q.
    + apply si_none, (prefixed_iff _ _ _ B), H.
  - intros [t' z' U|t' z' U|t' z' U].
    + pose proof (unsigned_first _ _ _ U) as (c & tl & -> & _ & N1 & N2).
      destruct (c =? 43) eqn:E; [lia|]. destruct (c =? 45) eqn:E2; [lia|]. apply (prefixed_iff _ _ _ B), U.
    + apply (prefixed_iff _ _ _ B), U.
    + change (45 =? 43) with false. change (45 =? 45) with true. cbv iota.
      apply (prefixed_iff _ _ _ B) in U. rewrite U. reflexivity.
Qed.

(** ** Blanks *)

Lemma space_blank c : is_space c = true <-> blank c.
Proof. unfold is_space, blank. lia. Qed.
Lemma drop_some s : exists l, Forall blank l /\ s = l ++ drop_space s.
Proof.
  induction s as [|c s (l & F & E)]; [exists []; auto|]. cbn [drop_space]. destruct (is_space c) eqn:Q.
  - exists (c :: l). split; [constructor; [apply space_blank, Q|exact F]|]. cbn [app]. congruence.
  - exists []. auto.
Qed.
Lemma drop_blank l c s : Forall blank l -> is_space c = false -> drop_space (l ++ c :: s) = c :: s.
Proof.
  intros F N. induction F as [|x l B F IH]; cbn [app drop_space]; [rewrite N; reflexivity|].
  apply space_blank in B. rewrite B. exact IH.
Qed.
Lemma strip_some t : exists l r, Forall blank l /\ Forall blank r /\ t = l ++ strip_space t ++ r.
Proof.
  unfold strip_space. destruct (drop_some t) as (l & F & E).
  destruct (drop_some (rev (drop_space t))) as (r & G & K).
  exists l, (rev r). split; [exact F|]. split; [apply Forall_rev, G|].
  rewrite <- rev_app_distr, <- K, rev_involutive. exact E.
Qed.
Lemma strip_text base l s r z : Forall blank l -> Forall blank r -> signed base s z ->
  strip_space (l ++ s ++ r) = s.
Proof.
  intros F G H. apply signed_ends in H as [(a & tl & E & A) (q & c & K & C)]. unfold strip_space.
  replace (drop_space (l ++ s ++ r)) with (s ++ r).
  2:{ rewrite E. cbn [app]. rewrite drop_blank by assumption. reflexivity. }
  rewrite rev_app_distr, K, rev_app_distr. cbn [rev app].
  rewrite drop_blank by (try apply Forall_rev; assumption).
  cbn [rev]. rewrite rev_involutive. reflexivity.
Qed.

(** ** int() *)

Lemma int_iff base t z : ok_base base -> (py_int base t = Ok z <-> int_text base t z).
Proof.
  intros B. unfold py_int, int_text. cbv zeta. split.
  - intros H. destruct (strip_some t) as (l & r & F & G & E). exists l, (strip_space t), r.
    repeat split; try assumption. apply (signed_iff _ _ _ B).
    destruct (match strip_space t with 43 :: tl => _ | 45 :: tl => _ | _ => _ end) as [y|]; congruence.
  - intros (l & s & r & F & G & -> & K). rewrite (strip_text base l s r z F G K).
    apply (signed_iff _ _ _ B) in K. rewrite K. reflexivity.
Qed.
Lemma int_refused base t : ok_base base -> (forall z, ~ int_text base t z) -> py_int base t = Err ValueError.
Proof.
  intros B N. destruct (py_int base t) as [z|e] eqn:E; [apply (int_iff _ _ _ B) in E; destruct (N z E)|].
  unfold py_int in E. cbv zeta in E.
  destruct (match strip_space t with 43 :: tl => _ | 45 :: tl => _ | _ => _ end); congruence.
Qed.

(** ** Addresses *)

Definition mark (c : Z) : Prop := c = 46 \/ c = 47 \/ c = 58.

Lemma grouped_chars base t z c : mark c -> grouped base t z -> no_char c t.
Proof.
  intros M. unfold mark in M. induction 1 as [x d G|t z x d H IH G|t z x d H IH G].
  - constructor; [|constructor]. unfold digit_in, hex_digit_of in G. lia.
  - apply Forall_app. split; [exact IH|]. constructor; [|constructor]. unfold digit_in, hex_digit_of in G. lia.
  - apply Forall_app. split; [exact IH|]. constructor; [lia|]. constructor; [|constructor].
    unfold digit_in, hex_digit_of in G. lia.
Qed.
Lemma unsigned_chars base t z c : mark c -> unsigned base t z -> no_char c t.
Proof.
  intros M [t' z' G|x t' z' E X G|x t' z' E X G]; apply (grouped_chars _ _ _ _ M) in G; unfold mark in M;
    [exact G| |]; repeat constructor; try lia; exact G.
Qed.
Lemma int_chars base t z c : mark c -> int_text base t z -> no_char c t.
Proof.
  intros M (l & s & r & F & G & -> & H).
  assert (B : forall q, Forall blank q -> no_char c q).
  { intros q Q. unfold no_char. eapply Forall_impl; [|exact Q]. unfold blank, mark in *. intros a. lia. }
  apply Forall_app. split; [apply B, F|]. apply Forall_app. split; [|apply B, G].
  destruct H as [t' z' U|t' z' U|t' z' U]; apply (unsigned_chars _ _ _ _ M) in U; unfold mark in M;
    [exact U| |]; constructor; try lia; exact U.
Qed.

Lemma split_acc_shape sep s : forall acc, split_acc sep acc s <> [] /\ join sep (split_acc sep acc s) = rev acc ++ s.
Proof.
  induction s as [|c s IH]; intros acc; cbn [split_acc].
  - split; [discriminate|]. cbn [join]. rewrite app_nil_r. reflexivity.
  - destruct (c =? sep) eqn:E.
    + destruct (IH []) as [N J]. split; [discriminate|]. cbn [join].
      destruct (split_acc sep [] s) as [|p tl] eqn:Q; [congruence|]. rewrite J. cbn [rev app]. repeat f_equal. lia.
    + destruct (IH (c :: acc)) as [N J]. split; [exact N|]. rewrite J. cbn [rev]. rewrite <- app_assoc. reflexivity.
Qed.
Lemma split_shape sep s : split sep s <> [] /\ s = separated sep (split sep s).
Proof.
  destruct (split_acc_shape sep s []) as [N J]. split; [exact N|]. rewrite separated_join. symmetry. exact J.
Qed.

Lemma numbers_iff base parts zs : ok_base base -> (mapM (py_int base) parts = Ok zs <-> Forall2 (int_text base) parts zs).
Proof.
  intros B. rewrite mapM_int_ok. unfold numbers. split; apply Forall2_imp; intros a b; apply (int_iff _ _ _ B).
Qed.

Lemma recast_seq_ok n zs bs :
  recast StructError PackException (struct_pack_seq 1 n zs) = Ok bs <->
  bs = zs /\ List.length zs = n /\ wf_bytes zs.
Proof.
  split.
  - intros H. destruct (struct_pack_seq 1 n zs) as [b|e] eqn:E; [|destruct e; discriminate H].
    injection H as ->. unfold struct_pack_seq in E. destruct (Nat.eqb_spec (List.length zs) n) as [L|]; [|discriminate].
    assert (W : wf_bytes zs /\ bs = zs).
    { clear L. revert bs E. induction zs as [|z zs IH]; intros bs E; cbn [struct_pack_us] in E.
      - injection E as <-. split; [constructor|reflexivity].
      - unfold struct_pack_u at 1 in E. change (ulimit 1) with 256 in E.
        destruct ((0 <=? z) && (z <? 256)) eqn:Q; cbn [bind] in E; [|discriminate].
        destruct (struct_pack_us 1 zs) as [b|] eqn:P; cbn [bind] in E; [|discriminate].
        destruct (IH b eq_refl) as [W ->]. injection E as <-. split.
        + constructor; [unfold is_byte; lia|exact W].
        + cbn. f_equal. rewrite Z.div_1_r. apply Z.mod_small. lia. }
    destruct W as [W ->]. auto.
  - intros (-> & L & W). unfold struct_pack_seq. rewrite L, Nat.eqb_refl. rewrite struct_pack_us_wf by exact W. reflexivity.
Qed.

Lemma text_iff base n sep s bs : ok_base base -> mark sep -> (0 < n)%nat ->
  (do zs <- mapM (py_int base) (split sep s); recast StructError PackException (struct_pack_seq 1 n zs)) = Ok bs <->
  exists parts, s = separated sep parts /\ Forall2 (int_text base) parts bs /\ List.length bs = n /\ wf_bytes bs.
Proof.
  intros B M N. split.
  - intros H. destruct (mapM (py_int base) (split sep s)) as [zs|] eqn:Q; cbn [bind] in H; [|discriminate].
    apply recast_seq_ok in H as (-> & L & W). apply (numbers_iff _ _ _ B) in Q.
    exists (split sep s). split; [apply split_shape|]. auto.
  - intros (parts & -> & F & L & W).
    assert (S0 : split sep (separated sep parts) = parts).
    { rewrite separated_join. apply split_join.
      - intros ->. inversion F; subst. cbn in N. lia.
      - eapply Forall2_left; [|exact F]. intros a b. apply int_chars, M. }
    rewrite S0. apply (numbers_iff _ _ _ B) in F. rewrite F. cbn [bind]. apply recast_seq_ok. auto.
Qed.

Lemma ip_reads a m bs : ~ In 47 a ->
  (pack (VIP (VStr a) m) = Ok bs <->
   exists parts, a = separated 46 parts /\ Forall2 (int_text 10) parts bs /\ List.length bs = 4%nat /\ wf_bytes bs).
Proof.
  intros N. change (pack (VIP (VStr a) m)) with (ip_bytes (VStr a)). unfold ip_bytes.
  rewrite has_char_no by (apply Forall_forall; intros x I ->; exact (N I)).
  apply (text_iff 10 4 46); [left; reflexivity|left; reflexivity|lia].
Qed.
Lemma hw_reads s bs :
  pack (VHW (VStr s)) = Ok bs <->
  exists parts, s = separated 58 parts /\ Forall2 (int_text 16) parts bs /\ List.length bs = 6%nat /\ wf_bytes bs.
Proof.
  change (pack (VHW (VStr s))) with (hw_bytes (VStr s)). unfold hw_bytes. cbn [equals_zero dot_value as_int].
  apply (text_iff 16 6 58); [right; reflexivity|right; right; reflexivity|lia].
Qed.

(** ** The prefix length *)

Lemma split_many sep a b c : exists x y z tl, split sep (a ++ sep :: b ++ sep :: c) = x :: y :: z :: tl.
Proof.
  unfold split.
  assert (A : forall u acc v, exists x tl, split_acc sep acc (u ++ sep :: v) = x :: tl /\ (List.length (split_acc sep [] v) <= List.length tl)%nat).
  { induction u as [|h u IH]; intros acc v; cbn [app split_acc].
    - rewrite Z.eqb_refl. eexists _, _. split; [reflexivity|lia].
    - destruct (h =? sep).
      + destruct (IH [] v) as (x & tl & E & L). rewrite E. eexists _, _. split; [reflexivity|]. cbn [List.length]. lia.
      + apply IH. }
  destruct (A a [] (b ++ sep :: c)) as (x & tl & E & L).
  destruct (A b [] c) as (y & tl2 & E2 & L2). rewrite E2 in L. cbn [List.length] in L.
  destruct (split_acc_shape sep c []) as [N _].
  destruct (split_acc sep [] c) as [|p q]; [congruence|]. cbn [List.length] in L2.
  destruct tl as [|y' [|z' tl]]; cbn [List.length] in L; [lia|lia|]. rewrite E. eauto.
Qed.

Lemma prefix_none dflt a nm : ~ In 47 a ->
  split_prefix dflt a nm = Ok (a, match nm with Some m => m | None => dflt end).
Proof.
  intros N. unfold split_prefix. rewrite has_char_no by (apply Forall_forall; intros x I ->; exact (N I)). reflexivity.
Qed.
Lemma prefix_one dflt a t nm : ~ In 47 a -> ~ In 47 t ->
  split_prefix dflt (a ++ 47 :: t) nm = do n <- py_int 10 t; Ok (a, n).
Proof.
  intros N T. assert (P : forall q, ~ In 47 q -> no_char slash q) by (intros q Q; apply Forall_forall; intros x I ->; exact (Q I)).
  unfold split_prefix. change (a ++ 47 :: t) with (a ++ slash :: t).
  rewrite has_char_mid, split_prefix_text by (apply P, N). rewrite split_no by (apply P, T). reflexivity.
Qed.
Lemma prefix_many dflt a b c nm : split_prefix dflt (a ++ 47 :: b ++ 47 :: c) nm = Err ValueError.
Proof.
  unfold split_prefix. change (a ++ 47 :: b ++ 47 :: c) with (a ++ slash :: b ++ slash :: c).
  rewrite has_char_mid. destruct (split_many slash a b c) as (x & y & z & tl & ->). reflexivity.
Qed.
Lemma text_no_slash t z : int_text 10 t z -> ~ In 47 t.
Proof.
  intros H I. apply (int_chars 10 t z 47) in H; [|right; left; reflexivity].
  unfold no_char in H. rewrite Forall_forall in H. exact (H 47 I eq_refl).
Qed.

Lemma ip_prefix_any a t b c nm : ~ In 47 a ->
  ip_init a nm = Ok (VIP (VStr a) (match nm with Some m => m | None => 32 end)) /\
  (forall n, int_text 10 t n -> ip_init (a ++ 47 :: t) nm = Ok (VIP (VStr a) n)) /\
  (~ In 47 t -> (forall n, ~ int_text 10 t n) -> ip_init (a ++ 47 :: t) nm = Err ValueError) /\
  ip_init (a ++ 47 :: b ++ 47 :: c) nm = Err ValueError.
Proof.
  intros N. unfold ip_init. rewrite prefix_many, prefix_none by exact N. split; [reflexivity|].
  split; [|split; [|reflexivity]].
  - intros n H. rewrite prefix_one by (try exact N; eapply text_no_slash, H).
    apply int_iff in H; [|left; reflexivity]. rewrite H. reflexivity.
  - intros T H. rewrite prefix_one by assumption. rewrite int_refused by (try (left; reflexivity); exact H). reflexivity.
Qed.
Lemma ip6_prefix_any a t b c nm : ~ In 47 a ->
  (exists x, ip6_init a nm = Ok x /\ ip6_netmask x = match nm with Some m => m | None => 128 end /\
    (forall n, int_text 10 t n -> exists y, ip6_init (a ++ 47 :: t) nm = Ok y /\ ip6_netmask y = n /\ ip6_value y = ip6_value x)) /\
  (~ In 47 t -> (forall n, ~ int_text 10 t n) -> ip6_init (a ++ 47 :: t) nm = Err ValueError) /\
  ip6_init (a ++ 47 :: b ++ 47 :: c) nm = Err ValueError.
Proof.
  intros N. unfold ip6_init. rewrite prefix_many, prefix_none by exact N.
  split; [|split; [|reflexivity]].
  - eexists. split; [reflexivity|]. split; [reflexivity|].
    intros n H. rewrite prefix_one by (try exact N; eapply text_no_slash, H).
    apply int_iff in H; [|left; reflexivity]. rewrite H. eexists. split; [reflexivity|]. split; reflexivity.
  - intros T H. rewrite prefix_one by assumption. rewrite int_refused by (try (left; reflexivity); exact H). reflexivity.
Qed.

Lemma dpid_reads s bs :
  pack (VDPID (VStr s)) = Ok bs <->
  exists parts, s = separated 58 parts /\ Forall2 (int_text 16) parts bs /\ List.length bs = 8%nat /\ wf_bytes bs.
Proof.
  change (pack (VDPID (VStr s))) with (dpid_bytes (VStr s)). unfold dpid_bytes.
  rewrite <- (text_iff 16 8 58); [|right; reflexivity|right; right; reflexivity|lia].
  destruct (mapM (py_int 16) (split 58 s)) as [zs|] eqn:Q; unfold colon; rewrite Q; cbn [bind]; [|tauto].
  destruct (struct_pack_seq 1 8 zs) as [b|e]; [tauto|]. split; [discriminate|]. destruct e; discriminate.
Qed.

Lemma recast_words_ok n zs bs :
  recast StructError PackException (struct_pack_seq 2 n zs) = Ok bs <->
  bs = words zs /\ List.length zs = n /\ Forall is_word zs.
Proof.
  assert (C : Forall is_word zs -> struct_pack_us 2 zs = Ok (words zs)).
  { intros W. rewrite <- words_eq by exact W. apply struct_pack_us_2. exact W. }
  split.
  - intros H. destruct (struct_pack_seq 2 n zs) as [b|e] eqn:E; [|destruct e; discriminate H].
    injection H as ->. unfold struct_pack_seq in E. destruct (Nat.eqb_spec (List.length zs) n) as [L|]; [|discriminate].
    assert (W : Forall is_word zs).
    { clear L C. revert bs E. induction zs as [|z zs IH]; intros bs E; cbn [struct_pack_us] in E; [constructor|].
      unfold struct_pack_u at 1 in E. change (ulimit 2) with 65536 in E.
      destruct ((0 <=? z) && (z <? 65536)) eqn:Q; cbn [bind] in E; [|discriminate].
      destruct (struct_pack_us 2 zs) as [b|] eqn:P; cbn [bind] in E; [|discriminate].
      constructor; [unfold is_word; lia|]. apply (IH b eq_refl). }
    rewrite (C W) in E. injection E as <-. auto.
  - intros (-> & L & W). unfold struct_pack_seq. rewrite L, Nat.eqb_refl, (C W). reflexivity.
Qed.
Lemma ip6_reads a m bs : ~ In 47 a ->
  (ip6_pack (mk_ipv6 a m) = Ok bs <->
   exists parts zs, a = separated 58 parts /\ Forall2 (int_text 16) parts zs /\ List.length zs = 8%nat /\
     Forall is_word zs /\ bs = words zs).
Proof.
  intros N. unfold ip6_pack, ip6_bytes. cbn [ip6_value]. cbv zeta.
  rewrite has_char_no by (apply Forall_forall; intros x I ->; exact (N I)).
  assert (B : ok_base 16) by (right; reflexivity). split.
  - intros H. destruct (mapM (py_int 16) (split colon a)) as [zs|] eqn:Q; cbn [bind] in H; [|discriminate].
    apply recast_words_ok in H as (-> & L & W). apply (numbers_iff _ _ _ B) in Q.
    exists (split colon a), zs. split; [apply split_shape|]. auto.
  - intros (parts & zs & -> & F & L & W & ->).
    assert (S0 : split colon (separated 58 parts) = parts).
    { rewrite separated_join. apply split_join.
      - intros ->. inversion F; subst. discriminate L.
      - eapply Forall2_left; [|exact F]. intros x y. apply int_chars. right; right; reflexivity. }
    rewrite S0. apply (numbers_iff _ _ _ B) in F. rewrite F. cbn [bind]. apply recast_words_ok. auto.
Qed.

Lemma ip_after_slash a q m : ~ In 47 a -> pack (VIP (VStr (a ++ 47 :: q)) m) = pack (VIP (VStr a) m).
Proof.
  intros N. assert (NS : no_char slash a) by (apply Forall_forall; intros x I ->; exact (N I)).
  change (ip_bytes (VStr (a ++ slash :: q)) = ip_bytes (VStr a)).
  unfold ip_bytes. rewrite has_char_mid, split_prefix_text by exact NS. cbn [hd].
  rewrite has_char_no by exact NS. reflexivity.
Qed.
Lemma ip6_after_slash a q m : ~ In 47 a -> ip6_pack (mk_ipv6 (a ++ 47 :: q) m) = ip6_pack (mk_ipv6 a m).
Proof.
  intros N. assert (NS : no_char slash a) by (apply Forall_forall; intros x I ->; exact (N I)).
  change (ip6_bytes (a ++ slash :: q) = ip6_bytes a).
  unfold ip6_bytes. rewrite has_char_mid, split_prefix_text by exact NS. cbn [hd].
  rewrite has_char_no by exact NS. reflexivity.
Qed.
Lemma after_slash a q m : ~ In 47 a ->
  pack (VIP (VStr (a ++ 47 :: q)) m) = pack (VIP (VStr a) m) /\
  ip6_pack (mk_ipv6 (a ++ 47 :: q) m) = ip6_pack (mk_ipv6 a m).
Proof. intros N. split; [apply ip_after_slash, N|apply ip6_after_slash, N]. Qed.
