(** The recursion bound of the model: a result other than [OutOfFuel] does not
    depend on it. *)
From Coq Require Import ZArith List Bool String Lia.
From Verif Require Import Base BaseFacts PyText Ids PyVal Classes Interp.
Import ListNotations.
Open Scope string_scope.
Open Scope list_scope.
Open Scope Z_scope.

Definition le_res {A} (r r' : res A) : Prop := r = Err OutOfFuel \/ r' = r.

Lemma le_refl {A} (r : res A) : le_res r r.
Proof. right. reflexivity. Qed.
Lemma le_oof {A} (r : res A) : le_res (Err OutOfFuel) r.
Proof. left. reflexivity. Qed.
Lemma le_trans {A} (a b c : res A) : le_res a b -> le_res b c -> le_res a c.
Proof. intros [-> | ->]; [left; reflexivity|]. auto. Qed.
Lemma le_bind {A B} (r r' : res A) (f f' : A -> res B) :
  le_res r r' -> (forall a, le_res (f a) (f' a)) -> le_res (bind r f) (bind r' f').
Proof.
  intros [-> | ->] H; [left; reflexivity|]. destruct r as [a|e]; cbn; [apply H|apply le_refl].
Qed.
Lemma le_recast {A} x y (r r' : res A) :
  x <> OutOfFuel -> le_res r r' -> le_res (recast x y r) (recast x y r').
Proof.
  intros Hx [-> | ->]; [|apply le_refl]. left. cbn. destruct x; try reflexivity. contradiction.
Qed.

Definition le_fun {A B} (f f' : A -> res B) : Prop := forall a, le_res (f a) (f' a).

Lemma le_sumM {A} (f f' : A -> res Z) l : le_fun f f' -> le_res (sumM f l) (sumM f' l).
Proof.
  intros H. induction l as [|a l IH]; cbn [sumM]; [apply le_refl|].
  apply le_bind; [apply H|intros x]. apply le_bind; [apply IH|intros; apply le_refl].
Qed.
Lemma le_concatM {A} (f f' : A -> res bytes) l : le_fun f f' -> le_res (concatM f l) (concatM f' l).
Proof.
  intros H. induction l as [|a l IH]; cbn [concatM]; [apply le_refl|].
  apply le_bind; [apply H|intros x]. apply le_bind; [apply IH|intros; apply le_refl].
Qed.

(** Solve goals made of binds and matches on the same value. *)
Ltac le_step :=
  match goal with
  | |- le_res ?r ?r => apply le_refl
  | |- le_res (Err OutOfFuel) _ => apply le_oof
  | H : le_fun ?f ?g |- le_res (?f _) (?g _) => apply H
  | |- le_res (sumM _ _) (sumM _ _) => apply le_sumM; intros ?
  | |- le_res (concatM _ _) (concatM _ _) => apply le_concatM; intros ?
  | |- le_res (recast _ _ _) (recast _ _ _) => apply le_recast; [discriminate|]
  | |- le_res (bind _ _) (bind _ _) => apply le_bind; [|intros ?]
  | |- le_res (match ?x with _ => _ end) (match ?x with _ => _ end) => destruct x
  end.
Ltac le_solve := repeat le_step.

Lemma le_bin_size f f' v : le_fun f f' -> le_res (bin_size f v) (bin_size f' v).
Proof. intros H. unfold bin_size. le_solve. Qed.
Lemma le_bin_pack f f' v : le_fun f f' -> le_res (bin_pack f v) (bin_pack f' v).
Proof. intros H. unfold bin_pack. le_solve. Qed.
Lemma le_truthy f f' v : le_fun f f' -> le_res (truthy f v) (truthy f' v).
Proof. intros H. unfold truthy. le_solve. Qed.
Lemma le_list_init f f' pc v : le_fun f f' -> le_res (list_init f pc v) (list_init f' pc v).
Proof.
  intros H. unfold list_init. destruct v; try apply le_refl;
  (apply le_bind; [apply le_truthy, H|intros; apply le_refl]).
Qed.
Lemma le_size1 f f' cv iv : le_fun f f' -> le_res (size1 f cv iv) (size1 f' cv iv).
Proof.
  intros H. unfold size1. destruct cv; try apply H.
  - apply le_bin_size, H.
  - le_solve.
  - assert (L : forall v, le_res (do items <- list_init f pc v; f (VList lc pc items))
                        (do items <- list_init f' pc v; f' (VList lc pc items))).
    { intros v. apply le_bind; [apply le_list_init, H|intros; apply H]. }
    destruct iv; try apply H; destruct (cid_eqb lc CFixedTypeList); try apply le_refl; apply L.
Qed.
Lemma le_struct_size f f' c attrs : le_fun f f' -> le_res (struct_size f c attrs) (struct_size f' c attrs).
Proof. intros H. unfold struct_size. apply le_sumM. intros p. apply le_size1, H. Qed.

Lemma size0_step n : le_fun (size0 n) (size0 (S n)).
Proof.
  induction n as [|n IH]; intros v; [apply le_oof|].
  change (size0 (S (S n)) v) with (size0 (S (S n)) v). cbn [size0].
  fold (size0 (S n)). fold (size0 n).
  destruct v; try apply le_refl.
  - apply le_bin_size, IH.
  - pose proof (le_struct_size (size0 n) (size0 (S n)) c attrs IH) as S.
    destruct (kind c); try exact S;
    try (apply le_bind; [exact S|intros; apply le_refl]).
    apply le_bind; [apply le_refl|]. intros l. destruct l; try apply le_refl. exact S.
  - destruct (cid_eqb lc CList); [apply le_refl|]. destruct items as [|x l]; [apply le_refl|].
    destruct (is_generic_type x).
    + apply le_bind; [apply IH|intros; apply le_refl].
    + apply le_sumM, IH.
Qed.

Lemma le_pack1 f f' cv iv : le_fun f f' -> le_res (pack1 f cv iv) (pack1 f' cv iv).
Proof.
  intros H. unfold pack1. destruct cv; try apply le_refl.
  - apply le_bin_pack, H.
  - le_solve.
  - destruct iv; le_solve.
Qed.
Lemma le_struct_pack f f' c attrs : le_fun f f' -> le_res (struct_pack f c attrs) (struct_pack f' c attrs).
Proof.
  intros H. unfold struct_pack. apply le_bind; [apply le_refl|]. intros ok. destruct ok; [|apply le_refl].
  apply le_concatM. intros p. apply le_pack1, H.
Qed.
Lemma le_message_pack f f' s s' c attrs : le_fun f f' -> le_fun s s' ->
  le_res (message_pack f s c attrs) (message_pack f' s' c attrs).
Proof.
  intros H S. unfold message_pack. apply le_bind; [apply S|]. intros sz0. apply le_bind; [apply le_refl|].
  intros h. destruct h; try apply le_refl. apply le_struct_pack, H.
Qed.

Section pack_obj.
  Context (f f' : pyval -> res bytes) (s1 s1' s2 s2' : pyval -> res Z) (c : cid).
  Context (H : le_fun f f') (S1 : le_fun s1 s1') (S2 : le_fun s2 s2').

  Lemma le_message attrs : le_res (message_pack f s2 c attrs) (message_pack f' s2' c attrs).
  Proof. apply le_message_pack; assumption. Qed.

  Lemma le_packed x (g : bytes -> list (string * pyval)) :
    le_res (do b <- f x; message_pack f s2 c (g b)) (do b <- f' x; message_pack f' s2' c (g b)).
  Proof. apply le_bind; [apply H|intros; apply le_message]. Qed.

  Lemma le_multipart_pack reply attrs :
    le_res (multipart_pack f s1 s2 reply c attrs) (multipart_pack f' s1' s2' reply c attrs).
  Proof.
    unfold multipart_pack. apply le_bind; [apply le_refl|]. intros body.
    apply le_bind; [apply le_truthy, S1|]. intros t. destruct t; [|apply le_message].
    destruct body; try (destruct (has_pack _); [apply le_packed|apply le_refl]).
    apply le_bind; [apply le_refl|]. intros mt. apply le_bind; [apply le_refl|]. intros inst.
    destruct inst; try apply le_refl.
    apply le_bind; [apply le_refl|]. intros it. apply le_packed.
  Qed.

  Lemma le_pack_obj attrs : le_res (pack_obj f s1 s2 c attrs) (pack_obj f' s1' s2' c attrs).
  Proof.
    assert (SP : forall a, le_res (struct_pack f c a) (struct_pack f' c a))
      by (intros; apply le_struct_pack, H).
    assert (PO : forall lc, le_res (packet_out_pack f s1 s2 lc c attrs) (packet_out_pack f' s1' s2' lc c attrs)).
    { intros lc. unfold packet_out_pack. apply le_bind; [apply le_refl|]. intros acts.
      apply le_bind; [|intros; apply le_message].
      destruct (subclass (class_of acts) lc); [apply S1|]. destruct (list_item lc); [|apply le_refl].
      apply le_bind; [apply le_list_init, S1|intros; apply S1]. }
    unfold pack_obj. destruct (kind c).
    - apply SP.
    - apply le_message.
    - destruct upd; [|apply SP]. apply le_bind; [apply S2|intros; apply SP].
    - destruct f0; try apply SP; (apply le_bind; [apply S2|intros; apply SP]).
    - apply SP.
    - apply SP.
    - unfold setfield_pack. apply le_bind; [apply le_refl|]. intros fl.
      apply le_bind; [destruct (has_pack fl); [apply H|apply le_refl]|].
      intros fb. cbv zeta. apply le_bind; [apply SP|intros; apply le_refl].
    - unfold oxm_pack. do 6 (apply le_bind; [apply le_refl|intros ?]).
      apply le_bind; [apply le_bin_pack, H|intros; apply SP].
    - unfold match04_pack. apply le_bind; [apply le_struct_size, S1|]. intros s. cbv zeta.
      apply le_bind; [apply SP|]. intros p. apply le_bind; [apply S2|intros; apply le_refl].
    - apply SP.
    - apply SP.
    - apply PO.
    - apply PO.
    - unfold error_pack01. apply le_bind; [apply le_refl|]. intros d.
      destruct d; try apply le_message; (destruct (has_pack _); [apply le_packed|apply le_refl]).
    - apply le_message.
    - apply le_message.
    - unfold stats_request_pack. apply le_bind; [apply le_refl|]. intros d.
      destruct (has_pack d); [apply le_packed|apply le_message].
    - unfold stats_reply_pack. apply le_bind; [apply le_refl|]. intros d.
      apply le_bind; [apply le_truthy, S1|]. intros t.
      destruct (t && has_pack d); [apply le_packed|apply le_message].
    - apply le_multipart_pack.
    - apply le_multipart_pack.
  Qed.
End pack_obj.

Lemma pack0_step n : le_fun (pack0 n) (pack0 (S n)).
Proof.
  induction n as [|n IH]; intros v; [apply le_oof|].
  pose proof (size0_step n) as S0. pose proof (size0_step (S n)) as S1.
  destruct v; try apply le_refl.
  - apply (le_bin_pack _ _ v IH).
  - apply (le_pack_obj (pack0 n) (pack0 (S n)) (size0 n) (size0 (S n)) (size0 (S n)) (size0 (S (S n)))); assumption.
  - change (le_res
      (if cid_eqb lc CList then Err AttributeError
       else concatM (fun x => if has_pack x then pack0 n x else Err AttributeError) items)
      (if cid_eqb lc CList then Err AttributeError
       else concatM (fun x => if has_pack x then pack0 (S n) x else Err AttributeError) items)).
    destruct (cid_eqb lc CList); [apply le_refl|]. apply le_concatM. intros x.
    destruct (has_pack x); [apply IH|apply le_refl].
Qed.

(** ** unpack *)

Lemma le_unpack_fields f f' s s' fields : (forall v b o, le_res (f v b o) (f' v b o)) -> le_fun s s' ->
  forall attrs b o, le_res (unpack_fields f s fields attrs b o) (unpack_fields f' s' fields attrs b o).
Proof.
  intros F S. induction fields as [|[name cv] tl IH]; intros attrs b o; cbn [unpack_fields]; [apply le_refl|].
  destruct b; [apply IH|]. apply le_bind; [apply F|]. intros a. apply le_bind; [apply S|]. intros sz0. apply IH.
Qed.

Lemma le_unpack_items f f' s s' pc : (forall v b o, le_res (f v b o) (f' v b o)) -> le_fun s s' ->
  forall k b o, le_res (unpack_items f s pc k b o) (unpack_items f' s' pc k b o).
Proof.
  intros F S. induction k as [|k IH]; intros b o; cbn [unpack_items];
    destruct (Nat.ltb o (List.length b)); try apply le_refl.
  destruct (new_instance pc); [|apply le_refl].
  apply le_bind; [apply F|]. intros a. apply le_bind; [apply le_refl|]. intros l.
  apply le_bind; [apply S|]. intros sz0. apply le_bind; [apply IH|intros; apply le_refl].
Qed.

Definition le_dec (f f' : decoder) : Prop := forall v b o, le_res (f v b o) (f' v b o).

Section unpack_obj.
  Context (f f' : decoder) (s s' : pyval -> res Z) (F : le_dec f f') (S : le_fun s s').

  Lemma le_fields fs at0 b o : le_res (unpack_fields f s fs at0 b o) (unpack_fields f' s' fs at0 b o).
  Proof. apply le_unpack_fields; assumption. Qed.
  Lemma le_structure c at0 b o : le_res (unpack_structure f s c at0 b o) (unpack_structure f' s' c at0 b o).
  Proof. unfold unpack_structure. apply le_bind; [apply le_fields|intros; apply le_refl]. Qed.
  Lemma le_msg_fields c at0 b o :
    le_res (unpack_message_fields f s c at0 b o) (unpack_message_fields f' s' c at0 b o).
  Proof. unfold unpack_message_fields. apply le_bind; [apply le_fields|intros; apply le_refl]. Qed.

  Lemma le_packet_out b fs : forall at0 o,
    le_res (packet_out_fields f s fs at0 b o) (packet_out_fields f' s' fs at0 b o).
  Proof.
    induction fs as [|[name cv] tl IH]; intros at0 o; [apply le_refl|]. cbn [packet_out_fields].
    apply le_bind; [destruct (String.eqb name "actions"); [apply le_bind; [apply le_refl|intros; apply F]|apply F]|].
    intros a. apply le_bind; [apply S|]. intros sz0. apply IH.
  Qed.

  Lemma le_unpack_obj c at0 b o : le_res (unpack_obj f s c at0 b o) (unpack_obj f' s' c at0 b o).
  Proof.
    unfold unpack_obj. destruct (kind c);
      try (unfold len_unpack, bucket_unpack, typed_unpack, action01_unpack, action04_unpack,
             error_unpack, multipart_unpack, oxm_unpack, match04_unpack, match01_unpack,
             stats_request_unpack, stats_reply_unpack; cbv zeta;
           repeat first [ apply le_refl | apply le_structure | apply le_msg_fields | apply le_fields
                        | apply le_packet_out | apply F
                        | apply le_bind; [|intros ?] ]; fail).
  Qed.
End unpack_obj.

Lemma unpack0_step n : le_dec (unpack0 n) (unpack0 (S n)).
Proof.
  induction n as [|n IH]; intros v b o; [apply le_oof|].
  pose proof (size0_step n) as S0.
  destruct v; try apply le_refl.
  - apply (le_unpack_obj (unpack0 n) (unpack0 (S n)) (size0 n) (size0 (S n))); assumption.
  - change (le_res
         (do l <- unpack_items (unpack0 n) (size0 n) pc (S (List.length b)) b o; Ok (VList lc pc (items ++ l)))
         (do l <- unpack_items (unpack0 (S n)) (size0 (S n)) pc (S (List.length b)) b o;
          Ok (VList lc pc (items ++ l)))).
    apply le_bind; [apply le_unpack_items; assumption|intros; apply le_refl].
Qed.

(** ** Any two amounts of fuel *)

Lemma size0_mono n m v : (n <= m)%nat -> le_res (size0 n v) (size0 m v).
Proof. induction 1; [apply le_refl|]. eapply le_trans; [exact IHle|apply size0_step]. Qed.
Lemma pack0_mono n m v : (n <= m)%nat -> le_res (pack0 n v) (pack0 m v).
Proof. induction 1; [apply le_refl|]. eapply le_trans; [exact IHle|apply pack0_step]. Qed.
Lemma unpack0_mono n m v b o : (n <= m)%nat -> le_res (unpack0 n v b o) (unpack0 m v b o).
Proof. induction 1; [apply le_refl|]. eapply le_trans; [exact IHle|apply unpack0_step]. Qed.

Lemma size0_agree n m v : size0 n v <> Err OutOfFuel -> size0 m v <> Err OutOfFuel -> size0 n v = size0 m v.
Proof.
  intros A B. destruct (Nat.le_ge_cases n m) as [L|L].
  - destruct (size0_mono n m v L); congruence.
  - destruct (size0_mono m n v L); congruence.
Qed.
Lemma pack0_agree n m v : pack0 n v <> Err OutOfFuel -> pack0 m v <> Err OutOfFuel -> pack0 n v = pack0 m v.
Proof.
  intros A B. destruct (Nat.le_ge_cases n m) as [L|L].
  - destruct (pack0_mono n m v L); congruence.
  - destruct (pack0_mono m n v L); congruence.
Qed.
Lemma unpack0_agree n m v b o : unpack0 n v b o <> Err OutOfFuel -> unpack0 m v b o <> Err OutOfFuel ->
  unpack0 n v b o = unpack0 m v b o.
Proof.
  intros A B. destruct (Nat.le_ge_cases n m) as [L|L].
  - destruct (unpack0_mono n m v b o L); congruence.
  - destruct (unpack0_mono m n v b o L); congruence.
Qed.
