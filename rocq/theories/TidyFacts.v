(** Well-formed bytes come back from the decoder and encoder: lemmas for C57. *)
From Coq Require Import ZArith List Bool String Lia.
From Verif Require Import Base PyText Ids PyVal Classes Interp Utils Spec SpecMsg SpecBasic SpecLayout SpecDecode SpecStruct SpecReencode SpecTidy ClassFacts BaseFacts TextFacts IntFacts LeafFacts
  AddrFacts StructFacts Soundness Closure StructThm RaisesFacts DispatchFacts NetFacts2 FuelFacts MutationFacts LayoutFacts WindowFacts LengthFacts DecodeFacts DecodeFacts2 ReencodeFacts ReencodeFacts2.
Import ListNotations.
Open Scope string_scope.
Open Scope list_scope.
Open Scope Z_scope.

Scheme tidy_mut := Minimality for tidy Sort Prop
with tidy_fields_mut := Minimality for tidy_fields Sort Prop
with tidy_items_mut := Minimality for tidy_items Sort Prop
with tidy_obj_mut := Minimality for tidy_obj Sort Prop.
Combined Scheme tidy_all from tidy_mut, tidy_fields_mut, tidy_items_mut, tidy_obj_mut.

(** ** Lengths *)
Definition same_len (bs bs' : bytes) : Prop := List.length bs' = List.length bs /\ (wf_bytes bs -> wf_bytes bs').
Lemma same_refl bs : same_len bs bs.
Proof. split; auto. Qed.
Lemma same_app a a' b b' : same_len a a' -> same_len b b' -> same_len (a ++ b) (a' ++ b').
Proof.
  intros [L W] [L2 W2]. split; [rewrite !app_length; lia|]. intros X. apply Forall_app in X as [Xa Xb]. apply wf_app; auto.
Qed.
Lemma same_pad pad : same_len pad (repeat 0 (List.length pad)).
Proof. split; [apply repeat_length|]. intros _. apply repeat_wf. Qed.
Lemma tidy_len :
  (forall k d bs bs', tidy k d bs bs' -> same_len bs bs') /\ (forall k A bs bs', tidy_fields k A bs bs' -> same_len bs bs') /\
  (forall pc bs bs', tidy_items pc bs bs' -> same_len bs bs') /\ (forall k c bs bs', tidy_obj k c bs bs' -> same_len bs bs').
Proof.
  apply tidy_all; intros; auto using same_refl, same_app, same_pad. subst k. apply same_pad.
Qed.
Lemma zlen_len (a b : bytes) : List.length a = List.length b -> zlen a = zlen b.
Proof. unfold zlen. congruence. Qed.

(** ** More depth does no harm *)
Lemma enc_deeper :
  (forall n k sz cv iv bs out, enc n k sz cv iv bs out -> forall m, (n <= m)%nat -> enc m k sz cv iv bs out) /\
  (forall n v bs, enc_payload n v bs -> forall m, (n <= m)%nat -> enc_payload m v bs) /\
  (forall n k sz fs ivs bs outs, enc_fields n k sz fs ivs bs outs -> forall m, (n <= m)%nat -> enc_fields m k sz fs ivs bs outs) /\
  (forall n pc vs bs outs, enc_items n pc vs bs outs -> forall m, (n <= m)%nat -> enc_items m pc vs bs outs) /\
  (forall n k sz base v bs out, enc_obj n k sz base v bs out -> forall m, (n <= m)%nat -> enc_obj m k sz base v bs out).
Proof.
  apply enc_mut; intros;
    repeat match goal with
    | H : (S ?n <= ?m)%nat |- _ => is_var m; destruct m as [|m]; [exfalso; lia|]; apply le_S_n in H
    end; try (econstructor; eauto using le_n_S; fail).
Qed.

(** ** Sizes do not depend on fuel *)
Lemma size_agree a b v x y : size0 a v = Ok x -> size0 b v = Ok y -> x = y.
Proof.
  intros A B. pose proof (size0_mono a (a + b) v ltac:(lia)) as [E|E]; [congruence|].
  pose proof (size0_mono b (a + b) v ltac:(lia)) as [E2|E2]; congruence.
Qed.
Lemma unpack_agree a b v buf o x y : unpack0 a v buf o = Ok x -> unpack0 b v buf o = Ok y -> x = y.
Proof.
  intros A B. pose proof (unpack0_mono a (a + b) v buf o ltac:(lia)) as [E|E]; [congruence|].
  pose proof (unpack0_mono b (a + b) v buf o ltac:(lia)) as [E2|E2]; congruence.
Qed.

(** ** Declarations *)
Definition decl_ok (d : pyval) : bool :=
  match d with
  | VObj c a => names_eqb (map fst a) (start_keys c) &&
      (match kind c with KBucket | KAction04 | KSetField04 | KAction01 | KTyped _ => false | _ => true end) &&
      (match deepcopy d with VObj c' a' => cid_eqb c c' && names_eqb (map fst a') (start_keys c) | _ => false end)
  | VList lc pc items => subclass lc CFixedTypeList && match items with [] => true | _ => false end
  | VUInt O _ _ | VChar O _ => false
  | _ => true
  end.
Lemma decls_ok c : forallb (fun p => decl_ok (snd p)) (class_attrs c) = true.
Proof. revert c. apply all_classes. vm_compute. reflexivity. Qed.

(** ** Front of a structure *)
Fixpoint number_at (A : list (string * pyval)) (p : nat) (nm : string) : bool :=
  match A with
  | (n, VUInt w er _) :: A => if Nat.eqb p 0 then String.eqb n nm && Nat.eqb w 2 && (match er with None => true | _ => false end) else Nat.leb w p && number_at A (p - w) nm
  | _ => false
  end.
Fixpoint numbers (A : list (string * pyval)) (p : nat) : bool :=
  Nat.eqb p 0 || match A with (n, VUInt w er _) :: A => Nat.leb w p && numbers A (p - w) | _ => false end.
Lemma front_kept A : forall k bs bs' p, tidy_fields k A bs bs' -> numbers A p = true -> firstn p bs' = firstn p bs.
Proof.
  induction A as [|[nm d] A IH]; intros k bs bs' p T H.
  - inversion T; subst. reflexivity.
  - destruct p as [|p]; [reflexivity|]. cbn [numbers Nat.eqb orb] in H. destruct d; try discriminate H. apply andb_prop in H as [H1 H2]. apply Nat.leb_le in H1.
    inversion T as [|? ? ? ? X|? ? ? ? b1 b1' b2 b2' X Y]; subst; inversion X as [? ? K| | | |]; subst. cbn in K. injection K as K. rewrite !firstn_app. f_equal. apply (IH k); [exact Y|]. rewrite <- K. exact H2.
Qed.
Lemma u16_front p bs bs' z : u16_at p bs z -> firstn (p + 2) bs' = firstn (p + 2) bs -> u16_at p bs' z.
Proof.
  intros (b1 & b2 & -> & L & B) E. exists b1, (skipn (p + 2) bs'). split; [|auto]. rewrite <- (firstn_skipn (p + 2) bs') at 1. rewrite E.
  rewrite firstn_app. rewrite firstn_all2 by lia. replace (p + 2 - List.length b1)%nat with 2%nat by lia. rewrite firstn_app.
  rewrite firstn_all2 by (rewrite be_encode_length; lia). rewrite be_encode_length. cbn [Nat.sub firstn]. rewrite app_nil_r, <- app_assoc. reflexivity.
Qed.
Lemma u16_in_app p bs b2 z : u16_at p bs z -> u16_at p (bs ++ b2) z.
Proof. apply u16_app. Qed.
Lemma u16_fun p bs z z' : u16_at p bs z -> u16_at p bs z' -> z = z'.
Proof.
  intros (a & b & E & L & B) (a' & b' & E' & L' & B'). rewrite E in E'.
  assert (be_encode 2 z = be_encode 2 z').
  { apply (f_equal (fun l => firstn 2 (skipn p l))) in E'.
    assert (G : forall x y w, List.length x = p -> firstn 2 (skipn p (x ++ be_encode 2 w ++ y)) = be_encode 2 w).
    { intros x y w Lx. rewrite skipn_app, skipn_all2 by lia. rewrite Lx, Nat.sub_diag. cbn [skipn app]. rewrite firstn_app, be_encode_length, Nat.sub_diag, firstn_O.
      rewrite app_nil_r. apply firstn_all2. rewrite be_encode_length. lia. }
    rewrite !G in E' by assumption. exact E'. }
  apply (f_equal be_decode) in H. rewrite !be_decode_encode in H by (rewrite ulimit2; lia). exact H.
Qed.
Lemma u16_start z r w : u16_at 0 (be_encode 2 w ++ r) z -> 0 <= w < 65536 -> z = w.
Proof. intros H B. apply (u16_fun 0 (be_encode 2 w ++ r)); [exact H|]. exists [], r. repeat split; auto; lia. Qed.
Lemma u16_skip p b1 b2 z : u16_at (List.length b1 + p) (b1 ++ b2) z -> u16_at p b2 z.
Proof.
  intros (a & b & E & L & B). exists (skipn (List.length b1) a), b. rewrite skipn_length. split; [|split; [lia|exact B]].
  apply (f_equal (skipn (List.length b1))) in E. rewrite skipn_app, skipn_all2, Nat.sub_diag in E by lia. cbn [skipn app] in E.
  rewrite E, skipn_app. replace (List.length b1 - List.length a)%nat with O by lia. reflexivity.
Qed.
Lemma number_value A : forall n k sz vals bs p nm z, number_at A p nm = true -> NoDup (map fst A) -> enc_fields n k sz A vals bs vals -> u16_at p bs z ->
  get_attr nm (combine (map fst A) vals) = Some (VUInt 2 None (VInt z)) /\ exists d, get_attr nm A = Some (VUInt 2 None d).
Proof.
  induction A as [|[nm0 d] A IH]; intros n k sz vals bs p nm z H D E U; [discriminate|]. cbn [number_at] in H. destruct d as [| | | | | |width er x| | | | | | | |]; try discriminate H.
  cbn [map fst] in D. inversion D as [|? ? N D']; subst.
  inversion E as [|? ? ? ? ? ? ? X|? ? ? ? ? iv b1 out fs ivs b2 outs X Y]; subst; [inversion X|]. apply uint_inv in X as (z1 & Pw & _ & B & _ & -> & -> & _).
  destruct (Nat.eqb_spec p 0) as [->|Np].
  - apply andb_prop in H as [H H3]. apply andb_prop in H as [H1 H2]. apply String.eqb_eq in H1. apply Nat.eqb_eq in H2. subst. destruct er; [discriminate|].
    cbn [map fst combine get_attr]. rewrite String.eqb_refl. rewrite ulimit2 in B. apply u16_start in U; [|exact B]. subst. split; [reflexivity|eexists; reflexivity].
  - apply andb_prop in H as [H1 H2]. apply Nat.leb_le in H1. replace p with (List.length (be_encode width z1) + (p - width))%nat in U by (rewrite be_encode_length; lia).
    apply u16_skip in U. destruct (IH _ _ _ _ _ _ _ _ H2 D' Y U) as (G & d & G2).
    assert (nm0 <> nm). { intros ->. apply N. eapply get_attr_in. exact G2. }
    cbn [map fst combine get_attr]. destruct (String.eqb_spec nm0 nm); [contradiction|]. split; [exact G|]. exists d. exact G2.
Qed.
(** The number itself in place of the decoded one. *)
Lemma enc_set n k sz A : forall vals bs outs nm w d z, enc_fields n k sz A vals bs outs -> NoDup (map fst A) ->
  get_attr nm (combine (map fst A) vals) = Some (VUInt w None (VInt z)) -> get_attr nm A = Some (VUInt w None d) ->
  enc_fields n k sz A (map snd (set_attr nm (VInt z) (combine (map fst A) vals))) bs outs.
Proof.
  induction A as [|[nm0 d0] A IH]; intros vals bs outs nm w d z E D G GA; [discriminate|]. cbn [map fst] in D. inversion D as [|? ? N D']; subst.
  assert (R : forall iv b1 out, enc n SD true d0 iv b1 out -> d0 = VUInt w None d -> iv = VUInt w None (VInt z) -> enc n SD true d0 (VInt z) b1 out).
  { intros iv b1 out X -> ->. apply uint_inv in X as (z' & Pw & [(_ & V)|(V & _)] & B & Al & -> & -> & n' & ->); [|discriminate].
    assert (z' = z) as -> by (inversion V; subst; congruence). apply e_uint; auto. left. split; [discriminate|constructor]. }
  inversion E as [|? ? ? ? iv ? out X|? ? ? ? ? iv b1 out fs ivs b2 outs' X Y]; subst.
  - cbn [map fst combine get_attr set_attr] in *. destruct (String.eqb_spec nm0 nm); [|discriminate]. injection GA as ->. injection G as ->. inversion X.
  - cbn [map fst combine get_attr set_attr] in *. destruct (String.eqb_spec nm0 nm).
    + injection GA as ->. injection G as ->. cbn [map snd]. apply f_cons; [eapply R; eauto|]. rewrite combine_snd; [exact Y|]. rewrite map_length. pose proof closure as (_ & _ & C & _). apply C in Y as (_ & L & _). lia.
    + cbn [map snd]. apply f_cons; [exact X|]. eapply IH; eassumption.
Qed.
