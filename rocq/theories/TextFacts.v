(** Lemmas about [PyText]. *)
From Coq Require Import ZArith List Bool Lia ZifyBool.
From Verif Require Import Base PyText BaseFacts.
Import ListNotations.
Open Scope Z_scope.

(** ** split and join *)

Definition no_char (c : Z) (s : text) : Prop := Forall (fun x => x <> c) s.

Lemma split_acc_no sep acc s :
  no_char sep s -> split_acc sep acc s = [rev acc ++ s].
Proof.
  intros H. revert acc. induction H as [|c s Hc _ IH]; intros acc; cbn.
  - rewrite app_nil_r. reflexivity.
  - destruct (Z.eqb_spec c sep); [contradiction|].
    rewrite IH. cbn. rewrite <- app_assoc. reflexivity.
Qed.

Lemma split_acc_sep sep acc s r :
  no_char sep s -> split_acc sep acc (s ++ sep :: r) = (rev acc ++ s) :: split sep r.
Proof.
  intros H. revert acc. induction H as [|c s Hc _ IH]; intros acc; cbn.
  - rewrite Z.eqb_refl, app_nil_r. reflexivity.
  - destruct (Z.eqb_spec c sep); [contradiction|].
    rewrite IH. cbn. rewrite <- app_assoc. reflexivity.
Qed.

Lemma split_join sep parts :
  parts <> [] -> Forall (no_char sep) parts -> split sep (join sep parts) = parts.
Proof.
  intros Hne H. induction H as [|p ps Hp Hps IH]; [contradiction|].
  destruct ps as [|q ps].
  - cbn. unfold split. rewrite split_acc_no by exact Hp. reflexivity.
  - cbn [join]. unfold split. rewrite split_acc_sep by exact Hp. cbn [rev app].
    f_equal. apply IH. discriminate.
Qed.

Lemma has_char_no c s : no_char c s -> has_char c s = false.
Proof.
  unfold has_char. induction 1 as [|x s Hx _ IH]; cbn; auto. rewrite IH.
  destruct (Z.eqb_spec c x); [congruence|reflexivity].
Qed.

Lemma no_char_join c sep parts :
  sep <> c -> Forall (no_char c) parts -> no_char c (join sep parts).
Proof.
  intros Hs. induction 1 as [|p ps Hp Hps IH]; cbn; [constructor|].
  destruct ps; [exact Hp|]. apply Forall_app. split; [exact Hp|]. constructor; auto.
Qed.

(** ** digits *)

Lemma digit_val_char base d :
  0 <= d < base -> base <= 36 -> digit_val (digit_char d) = d.
Proof.
  intros. unfold digit_val, digit_char.
  destruct (d <? 10) eqn:E.
  - replace ((48 <=? d + 48) && (d + 48 <=? 57)) with true by lia. lia.
  - replace ((48 <=? d + 87) && (d + 87 <=? 57)) with false by lia.
    replace ((97 <=? d + 87) && (d + 87 <=? 122)) with true by lia. lia.
Qed.

(** Characters of a number in a base up to 16. *)
Definition is_digit (c : Z) : Prop :=
  48 <= c <= 57 \/ 97 <= c <= 102 \/ 65 <= c <= 70.

Lemma digit_char_is d : 0 <= d < 16 -> is_digit (digit_char d).
Proof. intros. unfold is_digit, digit_char. destruct (d <? 10) eqn:E; lia. Qed.

Lemma fixed_digits_length base n z : length (fixed_digits base n z) = n.
Proof. induction n; cbn; congruence. Qed.

Lemma fixed_digits_are base n z :
  0 < base <= 16 -> Forall is_digit (fixed_digits base n z).
Proof.
  intros Hb. induction n; cbn [fixed_digits]; constructor; auto.
  apply digit_char_is. pose proof (Z.mod_pos_bound (z / base ^ Z.of_nat n) base). lia.
Qed.

Lemma digit_no_char c s :
  ~ is_digit c -> Forall is_digit s -> no_char c s.
Proof.
  intros Hc. induction 1; constructor; auto. intros ->. contradiction.
Qed.

Lemma colon_not_digit : ~ is_digit colon. Proof. unfold is_digit, colon. lia. Qed.
Lemma dot_not_digit : ~ is_digit dot. Proof. unfold is_digit, dot. lia. Qed.
Lemma slash_not_digit : ~ is_digit slash. Proof. unfold is_digit, slash. lia. Qed.

(** Value of a digit string. *)
Fixpoint digits_val (base acc : Z) (s : text) : Z :=
  match s with
  | [] => acc
  | c :: tl => digits_val base (acc * base + digit_val c) tl
  end.

Lemma scan_digits_ok base acc s prev :
  Forall is_digit s -> Forall (fun c => digit_val c < base) s ->
  (s <> [] \/ prev = true) ->
  scan_digits base acc prev s = Some (digits_val base acc s).
Proof.
  intros Hd. revert acc prev. induction Hd as [|c s Hc Hs IH]; intros acc prev Hv Hne.
  - destruct Hne as [H | ->]; [contradiction|]. reflexivity.
  - inversion Hv; subst. cbn [scan_digits digits_val].
    replace (c =? underscore) with false by (unfold underscore, is_digit in *; lia).
    replace (digit_val c <? base) with true by lia.
    apply IH; auto.
Qed.

Lemma drop_space_digit s : Forall is_digit s -> drop_space s = s.
Proof.
  intros H. destruct H as [|c s Hc _]; auto. cbn.
  replace (is_space c) with false by (unfold is_space, is_digit in *; lia). reflexivity.
Qed.

Lemma strip_space_digits s : Forall is_digit s -> strip_space s = s.
Proof.
  intros H. unfold strip_space. rewrite (drop_space_digit s H).
  rewrite drop_space_digit by (apply Forall_rev; exact H). apply rev_involutive.
Qed.

Lemma scan_prefixed_digits base s :
  Forall is_digit s -> Forall (fun c => digit_val c < base) s -> base <= 16 -> s <> [] ->
  scan_prefixed base s = Some (digits_val base 0 s).
Proof.
  intros Hd Hv Hb Hne.
  assert (G : scan_digits base 0 false s = Some (digits_val base 0 s))
    by (apply scan_digits_ok; auto).
  unfold scan_prefixed.
  destruct s as [|a s]; [contradiction|].
  destruct (Z.eq_dec a 48) as [->|Ha].
  - destruct s as [|x tl]; [exact G|].
    assert (Hx : is_digit x) by (inversion Hd; subst; inversion H2; subst; assumption).
    replace ((x =? 120) || (x =? 88)) with false by (unfold is_digit in Hx; lia).
    rewrite andb_false_r. exact G.
  - repeat (match goal with |- (match ?x with _ => _ end) = _ => destruct x end; try exact G; try lia).
Qed.

Lemma py_int_digits base s :
  Forall is_digit s -> Forall (fun c => digit_val c < base) s -> base <= 16 -> s <> [] ->
  py_int base s = Ok (digits_val base 0 s).
Proof.
  intros Hd Hv Hb Hne. unfold py_int. rewrite strip_space_digits by exact Hd.
  pose proof (scan_prefixed_digits base s Hd Hv Hb Hne) as G.
  destruct s as [|a s]; [contradiction|].
  assert (Ha : is_digit a) by (inversion Hd; assumption). unfold is_digit in Ha.
  destruct (Z.eq_dec a 43) as [->|N1]; [lia|].
  destruct (Z.eq_dec a 45) as [->|N2]; [lia|].
  assert (E : match a :: s with
              | 43 :: tl => scan_prefixed base tl
              | 45 :: tl => option_map Z.opp (scan_prefixed base tl)
              | _ => scan_prefixed base (a :: s)
              end = scan_prefixed base (a :: s)).
  { destruct a as [|p|p]; try reflexivity.
    repeat (destruct p as [p|p|]; try reflexivity; try lia). }
  rewrite E, G. reflexivity.
Qed.

Lemma fixed_digits_small base n z :
  1 < base <= 16 -> Forall (fun c => digit_val c < base) (fixed_digits base n z).
Proof.
  intros Hb. induction n; cbn [fixed_digits]; constructor; auto.
  pose proof (Z.mod_pos_bound (z / base ^ Z.of_nat n) base).
  rewrite (digit_val_char base) by lia. lia.
Qed.

Lemma digits_val_fixed base n z acc :
  1 < base <= 16 ->
  digits_val base acc (fixed_digits base n z) = acc * base ^ Z.of_nat n + z mod base ^ Z.of_nat n.
Proof.
  intros Hb. revert acc. induction n as [|n IH]; intros acc; cbn [fixed_digits digits_val].
  - cbn. rewrite Z.mod_1_r. lia.
  - pose proof (Z.mod_pos_bound (z / base ^ Z.of_nat n) base).
    rewrite (digit_val_char base) by lia.
    rewrite IH. rewrite Nat2Z.inj_succ, Z.pow_succ_r by lia.
    assert (0 < base ^ Z.of_nat n) by (apply Z.pow_pos_nonneg; lia).
    rewrite (Z.mul_comm base (base ^ _)). rewrite (Z.rem_mul_r z) by lia. ring.
Qed.

(** Fixed-width hexadecimal text read back. *)
Lemma py_int_fixed base n z :
  1 < base <= 16 -> (0 < n)%nat -> 0 <= z < base ^ Z.of_nat n ->
  py_int base (fixed_digits base n z) = Ok z.
Proof.
  intros Hb Hn Hz. rewrite py_int_digits.
  - rewrite digits_val_fixed by exact Hb. rewrite Z.mod_small by exact Hz. reflexivity.
  - apply fixed_digits_are. lia.
  - apply fixed_digits_small. exact Hb.
  - lia.
  - destruct n; [lia|]. discriminate.
Qed.

Lemma num_digits_bound base fuel z :
  1 < base -> 0 <= z < base ^ Z.of_nat (S fuel) -> z < base ^ Z.of_nat (num_digits base fuel z).
Proof.
  intros Hb. revert z. induction fuel as [|f IH]; intros z Hz; cbn [num_digits].
  - rewrite Z.pow_1_r in *. lia.
  - destruct (z <? base) eqn:E.
    + rewrite Z.pow_1_r. lia.
    + rewrite Nat2Z.inj_succ, Z.pow_succ_r by lia.
      assert (z / base < base ^ Z.of_nat (num_digits base f (z / base))).
      { apply IH. split; [apply Z.div_pos; lia|].
        apply Z.div_lt_upper_bound; [lia|].
        rewrite Nat2Z.inj_succ, Z.pow_succ_r in Hz by lia. lia. }
      pose proof (Z.div_mod z base). pose proof (Z.mod_pos_bound z base). nia.
Qed.

Lemma num_digits_pos base fuel z : (0 < num_digits base fuel z)%nat.
Proof. destruct fuel; cbn; [lia|]. destruct (z <? base); lia. Qed.

Lemma log2_pow base z : 1 < base -> 0 <= z -> 0 <= z < base ^ Z.of_nat (S (Z.to_nat (Z.log2 z))).
Proof.
  intros Hb Hz. split; [exact Hz|]. pose proof (Z.log2_nonneg z).
  rewrite Nat2Z.inj_succ, Z2Nat.id by lia.
  apply Z.lt_le_trans with (2 ^ Z.succ (Z.log2 z)).
  - destruct (Z.eq_dec z 0) as [->|N]; [reflexivity|]. apply Z.log2_spec. lia.
  - apply Z.pow_le_mono_l. lia.
Qed.

Lemma py_int_str_dec z : 0 <= z -> py_int 10 (str_dec z) = Ok z.
Proof.
  intros Hz. unfold str_dec. apply py_int_fixed; [lia|apply num_digits_pos|].
  split; [lia|]. apply num_digits_bound; [lia|]. apply log2_pow; lia.
Qed.

Lemma str_dec_digits z : Forall is_digit (str_dec z).
Proof. unfold str_dec. apply fixed_digits_are. lia. Qed.

Lemma str_dec_nonempty z : str_dec z <> [].
Proof.
  unfold str_dec. generalize (Z.to_nat (Z.log2 z)). intros f.
  pose proof (num_digits_pos 10 f z). destruct (num_digits 10 f z); [lia|discriminate].
Qed.

Lemma mapM_map {A B C} (f : B -> res C) (g : A -> B) (h : A -> C) l :
  (forall x, In x l -> f (g x) = Ok (h x)) -> mapM f (map g l) = Ok (map h l).
Proof.
  induction l as [|a l IH]; intros H; cbn; auto.
  rewrite H by (left; reflexivity). cbn. rewrite IH; [reflexivity|]. intros; apply H; right; assumption.
Qed.

Lemma mapM_Forall2 {A B} (f : A -> res B) l r :
  Forall2 (fun a b => f a = Ok b) l r -> mapM f l = Ok r.
Proof.
  induction 1 as [|a b l r H _ IH]; cbn; auto. rewrite H. cbn. rewrite IH. reflexivity.
Qed.

(** ** rstrip *)

Lemma drop_lead_repeat c n s : drop_lead c (repeat c n ++ s) = drop_lead c s.
Proof. induction n; cbn; auto. rewrite Z.eqb_refl. assumption. Qed.

Lemma rev_repeat {A} (x : A) n : rev (repeat x n) = repeat x n.
Proof.
  induction n as [|n IH]; cbn; auto. rewrite IH.
  clear IH. induction n as [|n IH]; cbn; auto. f_equal. exact IH.
Qed.

Lemma rstrip_zeros c s n : rstrip c (s ++ repeat c n) = rstrip c s.
Proof. unfold rstrip. rewrite rev_app_distr, rev_repeat, drop_lead_repeat. reflexivity. Qed.

Lemma rstrip_split c s : exists n, s = rstrip c s ++ repeat c n.
Proof.
  unfold rstrip.
  assert (G : forall t, exists n, t = repeat c n ++ drop_lead c t).
  { induction t as [|x t [n IH]]; cbn; [exists 0%nat; reflexivity|].
    destruct (Z.eqb_spec x c) as [->|]; [|exists 0%nat; reflexivity].
    exists (S n). cbn. f_equal. exact IH. }
  destruct (G (rev s)) as [n E]. exists n.
  rewrite <- (rev_involutive s) at 1. rewrite E at 1. rewrite rev_app_distr, rev_repeat. reflexivity.
Qed.

Lemma drop_lead_idem c s : drop_lead c (drop_lead c s) = drop_lead c s.
Proof.
  induction s as [|x s IH]; cbn; auto.
  destruct (x =? c) eqn:E; auto. cbn. rewrite E. reflexivity.
Qed.
Lemma rstrip_idem c s : rstrip c (rstrip c s) = rstrip c s.
Proof. unfold rstrip. rewrite rev_involutive, drop_lead_idem. reflexivity. Qed.

Lemma rstrip_id c s : (s = [] \/ exists a x, s = a ++ [x] /\ x <> c) -> rstrip c s = s.
Proof.
  intros [-> | (a & x & -> & Hx)]; auto. unfold rstrip. rewrite rev_app_distr. cbn.
  destruct (Z.eqb_spec x c); [contradiction|]. cbn. rewrite rev_involutive. reflexivity.
Qed.
