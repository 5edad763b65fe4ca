(** Comparison and concatenation of text: lemmas for C57. *)
From Coq Require Import ZArith List Bool String Lia.
From Verif Require Import Base PyText Ids PyVal Classes Interp Operators SpecText TextFacts AddrFacts ClassFacts.
Import ListNotations.
Open Scope Z_scope.

Lemma ltb_before a : forall b, seq_ltb a b = true <-> before a b.
Proof.
  induction a as [|x a IH]; intros [|y b]; cbn [seq_ltb].
  - split; [discriminate|]. intros [(x & r & E)|(p & x & y & a' & b' & E & _)]; [discriminate E|destruct p; discriminate E].
  - split; [intros _; left; exists y, b; reflexivity|reflexivity].
  - split; [discriminate|]. intros [(z & r & E)|(p & z & y & a' & b' & _ & E & _)]; [discriminate E|destruct p; discriminate E].
  - rewrite orb_true_iff, andb_true_iff, Z.ltb_lt, Z.eqb_eq, IH. split.
    + intros [L|[-> [(z & r & ->)|(p & z & w & a' & b' & -> & -> & L)] ] ].
      * right. exists [], x, y, a, b. auto.
      * left. exists z, r. reflexivity.
      * right. exists (y :: p), z, w, a', b'. auto.
    + intros [(z & r & E)|(p & z & w & a' & b' & Ea & Eb & L)].
      * injection E as -> ->. right. split; [reflexivity|]. left. eauto.
      * destruct p as [|q p]; cbn in Ea, Eb; injection Ea as -> ->; injection Eb as -> ->; [left; exact L|]. right. split; [reflexivity|]. right. exists p, z, w, a', b'. auto.
Qed.
Lemma ltb_same a b : seq_ltb a b = false -> seq_ltb b a = false -> a = b.
Proof.
  revert b. induction a as [|x a IH]; intros [|y b] H1 H2; try reflexivity; try discriminate. cbn [seq_ltb] in *.
  apply orb_false_iff in H1 as [H1 H3]. apply orb_false_iff in H2 as [H2 H4]. apply Z.ltb_ge in H1, H2. assert (x = y) as -> by lia.
  rewrite Z.eqb_refl in H3, H4. cbn [andb] in *. f_equal. apply IH; assumption.
Qed.
Lemma before_self a : ~ before a a.
Proof. intros H. apply ltb_before in H. induction a as [|x a IH]; [discriminate|]. cbn [seq_ltb] in H. rewrite Z.ltb_irrefl, Z.eqb_refl in H. cbn in H. apply IH, H. Qed.
Lemma before_other a b : before a b -> ~ before b a.
Proof.
  intros H1 H2. apply ltb_before in H1, H2. revert b H1 H2. induction a as [|x a IH]; intros [|y b] H1 H2; try discriminate. cbn [seq_ltb] in *.
  apply orb_true_iff in H1. apply orb_true_iff in H2. rewrite andb_true_iff, Z.ltb_lt, Z.eqb_eq in H1, H2. destruct H1 as [H1|[-> H1] ], H2 as [H2|[E H2] ]; try lia. eapply IH; eassumption.
Qed.
Lemma before_total a b : before a b \/ a = b \/ before b a.
Proof.
  destruct (seq_ltb a b) eqn:E1; [left; apply ltb_before, E1|]. destruct (seq_ltb b a) eqn:E2; [right; right; apply ltb_before, E2|]. right. left. apply ltb_same; assumption.
Qed.

Lemma text_inner v s : has_text v s -> inner v = VStr s.
Proof. intros []; reflexivity. Qed.
Lemma bytes_inner v s : has_bytes v s -> inner v = VBytes s.
Proof. intros []; reflexivity. Qed.
Lemma le_before a b : negb (seq_ltb b a) = true <-> before a b \/ a = b.
Proof.
  rewrite negb_true_iff. split.
  - intros H. destruct (before_total a b) as [L|[->|L] ]; auto. apply ltb_before in L. congruence.
  - intros [L| ->]; (destruct (seq_ltb b _) eqn:E; [|reflexivity]); apply ltb_before in E; [elim (before_other _ _ L E)|elim (before_self _ E)].
Qed.
Lemma text_compares v u s t : has_text v s -> has_text u t -> compares v u s t.
Proof.
  intros H1 H2. unfold compares, py_cmp. rewrite (text_inner _ _ H1), (text_inner _ _ H2). cbn [plain_cmp as_int].
  exists (seq_ltb s t), (negb (seq_ltb t s)), (seq_ltb t s), (negb (seq_ltb s t)). repeat (split; [reflexivity|]).
  split; [apply ltb_before|]. split; [apply ltb_before|]. split; [apply le_before|]. rewrite le_before. intuition congruence.
Qed.
Lemma bytes_compares v u s t : has_bytes v s -> has_bytes u t -> compares v u s t.
Proof.
  intros H1 H2. unfold compares, py_cmp. rewrite (bytes_inner _ _ H1), (bytes_inner _ _ H2). cbn [plain_cmp as_int].
  exists (seq_ltb s t), (negb (seq_ltb t s)), (seq_ltb t s), (negb (seq_ltb s t)). repeat (split; [reflexivity|]).
  split; [apply ltb_before|]. split; [apply ltb_before|]. split; [apply le_before|]. rewrite le_before. intuition congruence.
Qed.
Lemma text_eqb_refl s : text_eqb s s = true.
Proof. apply text_eqb_eq. reflexivity. Qed.
Lemma text_ne v u s t : has_text v s -> has_text u t -> (py_ne v u = true <-> s <> t).
Proof.
  intros H1 H2. unfold py_ne. rewrite (text_inner _ _ H1), (text_inner _ _ H2). cbn [plain_eq as_int].
  rewrite negb_true_iff. split.
  - intros H ->. rewrite text_eqb_refl in H. discriminate.
  - intros H. destruct (text_eqb s t) eqn:E; [apply text_eqb_eq in E; contradiction|reflexivity].
Qed.
Lemma text_value v s : has_text v s -> is_generic_type v = true -> value_of v = VStr s.
Proof. intros [] G; try discriminate G; reflexivity. Qed.
Lemma text_eq_str v s t : has_text v s -> exists b, py_eq v (VStr t) = Ok b /\ py_eq (VStr t) v = Ok b /\ (b = true <-> s = t).
Proof.
  intros H. exists (text_eqb s t). destruct (is_generic_type v) eqn:G.
  - assert (V := text_value _ _ H G). unfold py_eq. rewrite G. cbn [is_generic_type]. unfold generic_eq. replace (same_type v (VStr t)) with false by (destruct v; reflexivity). cbn [dot_value]. rewrite V.
    cbn [plain_eq as_int]. split; [reflexivity|]. split; [reflexivity|]. apply text_eqb_eq.
  - destruct H; try discriminate G. unfold py_eq. cbn [is_generic_type plain_eq as_int]. split; [reflexivity|]. split; [|apply text_eqb_eq]. f_equal. destruct (text_eqb s t) eqn:E.
    + apply text_eqb_eq in E. subst. apply text_eqb_refl.
    + destruct (text_eqb t s) eqn:E2; [|reflexivity]. apply text_eqb_eq in E2. subst. rewrite text_eqb_refl in E. discriminate.
Qed.
Lemma text_add v s t : has_text v s -> is_generic_type v = true -> py_op BAdd v (VStr t) = Ok (VStr (s ++ t)) /\ py_op BAdd (VStr t) v = Ok (VStr (s ++ t)).
Proof. intros H G. unfold py_op. rewrite G. cbn [is_generic_type]. unfold reflected. rewrite (text_value _ _ H G). split; reflexivity. Qed.
Lemma text_op v s t op : has_text v s -> op <> BAdd -> py_op op v (VStr t) = Err TypeError.
Proof.
  intros H N. unfold py_op. cbn [is_generic_type]. assert (E : (if is_generic_type v then value_of v else v) = VStr s) by (destruct H; reflexivity). rewrite E.
  destruct op; try reflexivity. congruence.
Qed.
Lemma text_int v s z op : has_text v s -> py_cmp op v (VInt z) = Err TypeError /\ py_cmp op (VInt z) v = Err TypeError /\ py_eq v (VInt z) = Ok false /\ py_ne v (VInt z) = true.
Proof. intros H. unfold py_cmp, py_ne. rewrite (text_inner _ _ H). repeat split; destruct H; reflexivity. Qed.
Lemma text_eq_other v s u t : has_text v s -> has_text u t -> is_generic_type v = true -> is_generic_type u = true -> same_type v u = false ->
  exists b, py_eq v u = Ok b /\ (b = true <-> s = t).
Proof.
  intros H1 H2 G1 G2 T. exists (text_eqb s t). split; [|apply text_eqb_eq]. unfold py_eq. rewrite G1. unfold generic_eq. rewrite T, (text_value _ _ H1 G1).
  replace (dot_value u) with (Some (VStr t)) by (destruct H2; try discriminate G2; reflexivity). reflexivity.
Qed.
Lemma type_eq v u : same_type v u = true -> py_eq v u = do x <- pack v; do y <- pack u; Ok (text_eqb x y).
Proof. intros T. unfold py_eq. replace (is_generic_type v) with true by (destruct v, u; try discriminate T; reflexivity). unfold generic_eq. rewrite T. reflexivity. Qed.

(** ** Any two plain values *)
Lemma int_like_iff x z : int_like x z <-> as_int x = Some z.
Proof.
  split.
  - intros [z'|e z' [l E]]; [reflexivity|]. unfold as_int, is_int_enum. rewrite E. reflexivity.
  - destruct x as [| | | |e m| | | | | | | | | |]; cbn [as_int]; try discriminate; [intros [= <-]; constructor|].
    unfold is_int_enum. destruct (enum_def e) as [l|l|l] eqn:E; try discriminate. intros [= <-]. constructor. exists l. exact E.
Qed.
Lemma plain_same x y : plain x -> plain y -> plain_eq x y = true <-> same_plain x y.
Proof.
  intros P Q. split.
  - unfold plain_eq. destruct (as_int x) as [a|] eqn:A, (as_int y) as [b|] eqn:B.
    { intros E. apply Z.eqb_eq in E as ->. apply sp_number with b; apply int_like_iff; assumption. }
    all: destruct P, Q; try discriminate; intros E; try (apply text_eqb_eq in E as ->); try constructor;
      try (apply andb_prop in E as [E1 E2]; apply Z.eqb_eq in E2 as ->; apply eid_eqb_eq in E1 as ->; constructor).
  - intros [x' y' z H K| |s|s|e z]; unfold plain_eq.
    + rewrite (proj1 (int_like_iff _ _) H), (proj1 (int_like_iff _ _) K). apply Z.eqb_refl.
    + reflexivity.
    + apply text_eqb_refl.
    + apply text_eqb_refl.
    + destruct (as_int (VEnum e z)); [apply Z.eqb_refl|]. rewrite (proj2 (eid_eqb_eq e e) eq_refl). apply Z.eqb_refl.
Qed.
Lemma carries_inner v x : carries v x -> inner v = x /\ plain x.
Proof. intros [y P|w er y P|n|n y P|y m P|y P|y P|y P]; split; try exact P; try reflexivity; [destruct P; reflexivity|constructor]. Qed.
Lemma ne_any v u x y : carries v x -> carries u y -> (py_ne v u = true <-> ~ same_plain x y).
Proof.
  intros H K. destruct (carries_inner _ _ H) as [I P], (carries_inner _ _ K) as [J Q]. unfold py_ne. rewrite I, J, negb_true_iff, <- (plain_same x y P Q).
  destruct (plain_eq x y); intuition congruence.
Qed.
Lemma carries_value v x : carries v x -> is_generic_type v = true -> no_enumeration v -> value_of v = x.
Proof.
  intros [y P|w er y P|n|n y P|y m P|y P|y P|y P] G N; try (destruct P; first [discriminate G|reflexivity]); [|reflexivity].
  destruct er as [e|]; [exfalso; exact (N _ _ _ eq_refl)|]. destruct P; reflexivity.
Qed.
Lemma eq_any v x y : carries v x -> is_generic_type v = true -> no_enumeration v -> plain y -> (forall e z, y <> VEnum e z) ->
  exists b, py_eq v y = Ok b /\ py_eq y v = Ok b /\ (b = true <-> same_plain x y).
Proof.
  intros H G N Q M. destruct (carries_inner _ _ H) as [_ P]. pose proof (carries_value _ _ H G N) as V. exists (plain_eq x y).
  assert (Y : is_generic_type y = false) by (destruct Q; reflexivity).
  assert (E : generic_eq v y = Ok (plain_eq x y)).
  { unfold generic_eq. replace (same_type v y) with false by (destruct Q, v; reflexivity).
    replace (dot_value y) with (@None pyval) by (destruct Q; try reflexivity; destruct (M _ _ eq_refl)). rewrite V. reflexivity. }
  unfold py_eq. rewrite G, Y, E. split; [reflexivity|]. split; [reflexivity|]. apply plain_same; assumption.
Qed.
Lemma eq_member v x e z : carries v x -> is_generic_type v = true -> no_enumeration v ->
  exists b, py_eq v (VEnum e z) = Ok b /\ py_eq (VEnum e z) v = Ok b /\ (b = true <-> same_plain x (VInt z)).
Proof.
  intros H G N. destruct (carries_inner _ _ H) as [_ P]. pose proof (carries_value _ _ H G N) as V. exists (plain_eq x (VInt z)).
  assert (E : generic_eq v (VEnum e z) = Ok (plain_eq x (VInt z))).
  { unfold generic_eq. replace (same_type v (VEnum e z)) with false by (destruct v; reflexivity). cbn [dot_value]. rewrite V. reflexivity. }
  unfold py_eq. rewrite G, E. split; [reflexivity|]. split; [reflexivity|]. apply plain_same; [assumption|constructor].
Qed.
