(** Facts about class creation. *)
From Coq Require Import ZArith List Bool String Lia.
From Verif Require Import Base PyText Ids PyVal Classes Interp Bodies Meta SpecMeta AddrFacts StructFacts DispatchFacts.
Import ListNotations.
Open Scope string_scope.
Open Scope list_scope.
Open Scope Z_scope.

(** ** Module names *)

Lemma after_spec p s r : after p s = Some r <-> s = p ++ r.
Proof.
  revert s. induction p as [|a p IH]; intros s; cbn; [split; congruence|].
  destruct s as [|b s]; [split; discriminate|].
  destruct (Z.eqb_spec a b) as [->|N].
  - rewrite IH. split; [intros ->; reflexivity|intros [= ->]; reflexivity].
  - split; [discriminate|intros [= -> ->]; congruence].
Qed.
Lemma after_none p s : after p s = None -> forall r, s <> p ++ r.
Proof. intros H r E. apply after_spec in E. congruence. Qed.

Lemma is_digit_spec c : is_digit c = true <-> 48 <= c <= 57.
Proof. unfold is_digit. rewrite Bool.andb_true_iff, !Z.leb_le. reflexivity. Qed.
Lemma take_digits_spec s d r : take_digits s = (d, r) ->
  s = d ++ r /\ Forall (fun c => 48 <= c <= 57) d /\ match r with c :: _ => ~ (48 <= c <= 57) | [] => True end.
Proof.
  revert d r. induction s as [|c s IH]; cbn; intros d r H.
  - injection H as <- <-. repeat split. constructor.
  - destruct (is_digit c) eqn:D.
    + destruct (take_digits s) as [d' r'] eqn:T. injection H as <- <-.
      destruct (IH d' r' eq_refl) as (-> & F & R). apply is_digit_spec in D.
      repeat split; [constructor; assumption|exact R].
    + injection H as <- <-. repeat split; [constructor|]. rewrite <- is_digit_spec. congruence.
Qed.
Lemma take_digits_app d r : Forall (fun c => 48 <= c <= 57) d ->
  match r with c :: _ => ~ (48 <= c <= 57) | [] => True end -> take_digits (d ++ r) = (d, r).
Proof.
  induction 1 as [|c d H F IH]; intros R; cbn.
  - destruct r as [|c r]; [reflexivity|]. cbn. rewrite <- is_digit_spec in R. destruct (is_digit c); [destruct R|]; reflexivity.
  - apply is_digit_spec in H. rewrite H, IH by exact R. reflexivity.
Qed.

Lemma module_version_some m v : module_version m = Some v <-> exists rest, in_version v rest m.
Proof.
  unfold module_version. split.
  - destruct (after _ m) as [s|] eqn:A; [|discriminate]. apply after_spec in A.
    destruct (take_digits s) as [d r] eqn:T. apply take_digits_spec in T as (-> & F & R).
    destruct d as [|c d]; [discriminate|]. destruct r as [|x r]; [discriminate|].
    intros H. assert (x = 46 /\ Some (txt "v0x" ++ c :: d) = Some v) as [-> [= <-]].
    { destruct x as [|p|p]; try discriminate; repeat (destruct p as [p|p|]; try discriminate). split; [reflexivity|exact H]. }
    exists r. split; [exists (c :: d); split; [split; [discriminate|exact F]|reflexivity]|].
    rewrite A. change (txt "pyof.v0x") with (txt "pyof." ++ txt "v0x"). rewrite <- !app_assoc. reflexivity.
  - intros (rest & (d & (N & F) & ->) & ->).
    replace (txt "pyof." ++ (txt "v0x" ++ d) ++ txt "." ++ rest) with (txt "pyof.v0x" ++ (d ++ 46 :: rest))
      by (change (txt "pyof.v0x") with (txt "pyof." ++ txt "v0x"); rewrite <- !app_assoc; reflexivity).
    destruct (after _ _) as [s|] eqn:A.
    + apply after_spec in A. apply app_inv_head in A. subst s.
      rewrite take_digits_app by (try exact F; lia). destruct d; [congruence|reflexivity].
    + exfalso. eapply after_none; [exact A|reflexivity].
Qed.
Lemma module_version_none m : module_version m = None <-> forall v rest, ~ in_version v rest m.
Proof.
  split.
  - intros H v rest I. assert (module_version m = Some v) by (apply module_version_some; eauto). congruence.
  - intros H. destruct (module_version m) as [v|] eqn:E; [|reflexivity].
    apply module_version_some in E as [rest I]. destruct (H _ _ I).
Qed.

(** ** Replacing *)

Lemma replace_none k old new s : ~ occurs old s -> old <> [] -> (k = 0)%nat -> replace_from k old new s = s.
Proof.
  intros H N ->. induction s as [|c s IH]; [reflexivity|].
  cbn [replace_from]. destruct (after old (c :: s)) as [r|] eqn:A.
  - apply after_spec in A. destruct H. exists [], r. exact A.
  - rewrite IH; [reflexivity|]. intros (a & b & E). apply H. exists (c :: a), b. rewrite E. reflexivity.
Qed.
Lemma replace_skip old new p s : replace_from (List.length p) old new (p ++ s) = replace_from 0 old new s.
Proof. induction p as [|c p IH]; [reflexivity|]. cbn. exact IH. Qed.
Lemma replace_here old new s : old <> [] -> replace old new (old ++ s) = new ++ replace old new s.
Proof.
  intros N. destruct old as [|c o]; [congruence|]. unfold replace. cbn [app].
  cbn [replace_from]. destruct (after (c :: o) (c :: o ++ s)) as [r|] eqn:A.
  - f_equal. cbn [List.length]. rewrite PeanoNat.Nat.sub_succ, PeanoNat.Nat.sub_0_r. apply replace_skip.
  - exfalso. eapply (after_none (c :: o)); [exact A|reflexivity].
Qed.

Lemma replace_module v v' rest m : in_version v rest m -> ~ occurs v (txt "." ++ rest) ->
  replace v v' m = txt "pyof." ++ v' ++ txt "." ++ rest.
Proof.
  intros ((d & (N & F) & ->) & ->) H.
  assert (E : replace (txt "v0x" ++ d) v' (txt "pyof." ++ (txt "v0x" ++ d) ++ txt "." ++ rest) =
              txt "pyof." ++ replace (txt "v0x" ++ d) v' ((txt "v0x" ++ d) ++ txt "." ++ rest)).
  { unfold replace. reflexivity. }
  rewrite E, replace_here by discriminate. do 2 f_equal. apply replace_none; [exact H|discriminate|reflexivity].
Qed.

Lemma replace_version_other v v' rest m : in_version v rest m -> ~ occurs v (txt "." ++ rest) -> v <> v' ->
  replace_version m v' = Some (txt "pyof." ++ v' ++ txt "." ++ rest).
Proof.
  intros I O N. unfold replace_version.
  replace (module_version m) with (Some v) by (symmetry; apply module_version_some; eauto).
  destruct (text_eqb v v') eqn:E; [apply text_eqb_eq in E; congruence|].
  f_equal. eapply replace_module; eassumption.
Qed.
Lemma replace_version_none m v' : replace_version m v' = None <->
  (forall v rest, ~ in_version v rest m) \/ exists rest, in_version v' rest m.
Proof.
  unfold replace_version. destruct (module_version m) as [v|] eqn:E.
  - pose proof E as E'. apply module_version_some in E'.
    destruct (text_eqb v v') eqn:T.
    + apply text_eqb_eq in T. subst. split; auto.
    + split; [discriminate|]. intros [H|H].
      * destruct E' as [r I]. destruct (H _ _ I).
      * apply module_version_some in H. assert (v = v') by congruence. subst.
        assert (text_eqb v' v' = true) by (apply text_eqb_eq; reflexivity). congruence.
  - split; [|reflexivity]. intros _. left. apply module_version_none, E.
Qed.

(** No module of the library contains its version twice. *)
Definition occursb (w s : text) : bool :=
  existsb (fun k => match after w (skipn k s) with Some _ => true | None => false end) (seq 0 (S (List.length s))).
Lemma occursb_spec w s : occursb w s = false -> ~ occurs w s.
Proof.
  intros H (a & b & ->). assert (X : occursb w (a ++ w ++ b) = true); [|congruence].
  apply existsb_exists. exists (List.length a). split.
  - apply in_seq. rewrite app_length. lia.
  - rewrite skipn_app, PeanoNat.Nat.sub_diag, skipn_all. cbn.
    destruct (after w (w ++ b)) eqn:A; [reflexivity|]. exfalso. eapply after_none; [exact A|reflexivity].
Qed.
Lemma once c v rest : in_version v rest (txt (snd (class_place c))) -> ~ occurs v (txt "." ++ rest).
Proof.
  intros I. assert (V : module_version (txt (snd (class_place c))) = Some v) by (apply module_version_some; eauto).
  destruct I as (_ & E). apply occursb_spec.
  assert (C : match module_version (txt (snd (class_place c))) with
              | Some v => match after (txt "pyof." ++ v) (txt (snd (class_place c))) with
                          | Some r => negb (occursb v r) | None => true end
              | None => true end = true) by (destruct c; vm_compute; reflexivity).
  rewrite V in C. rewrite app_assoc in E. apply after_spec in E. rewrite E in C.
  apply Bool.negb_true_iff in C. exact C.
Qed.

Lemma new_version_ok o version o' : new_version_of o version = Some o' ->
  match version with None => o' = o | Some v => at_version v o o' end.
Proof.
  unfold new_version_of. destruct version as [v|]; [|congruence].
  destruct (class_place (class_of o)) as [name m] eqn:P.
  destruct (replace_version (txt m) v) as [m'|] eqn:R.
  - destruct (find_class name m') as [c|] eqn:F; [|discriminate].
    apply find_some in F as [_ F]. apply Bool.andb_true_iff in F as [F1 F2].
    apply String.eqb_eq in F1. apply text_eqb_eq in F2. intros H.
    destruct (module_version (txt m)) as [w|] eqn:V; [|unfold replace_version in R; rewrite V in R; discriminate].
    assert (W : w <> v).
    { intros ->. unfold replace_version in R. rewrite V in R.
      assert (text_eqb v v = true) as T by (apply text_eqb_eq; reflexivity). rewrite T in R. discriminate. }
    apply module_version_some in V as [rest I].
    assert (O : ~ occurs w (txt "." ++ rest)) by (apply (once (class_of o)); rewrite P; exact I).
    rewrite (replace_version_other w v rest (txt m) I O W) in R. injection R as <-.
    eapply other_version with (c := c); rewrite ?P; cbn [fst snd]; eauto.
  - intros [= <-]. apply replace_version_none in R as [U|[rest I]].
    + apply unversioned. rewrite P. exact U.
    + eapply same_version. rewrite P. exact I.
Qed.

(** ** Headers *)

Lemma member_name_in e z n : member_name e z = Some n -> In (n, z) (members_of e).
Proof.
  unfold member_name. change (members e) with (members_of e). destruct (find _ _) as [[k y]|] eqn:F; [|discriminate].
  intros [= <-]. apply find_some in F as [I E]. apply Z.eqb_eq in E. cbn in *. subst. exact I.
Qed.
Lemma member_named_in e z n : member_named e n = Some z -> In (n, z) (members_of e).
Proof.
  unfold member_named. change (members e) with (members_of e). destruct (find _ _) as [[k y]|] eqn:F; [|discriminate].
  intros [= <-]. apply find_some in F as [I E]. apply String.eqb_eq in E. cbn in *. subst. exact I.
Qed.
Lemma header_update_ok old h h' :
  header_update old h = Some h' -> header_for old h h'.
Proof.
  unfold header_update. destruct old as [| | | | | | | | | | | | |oc oa|]; try discriminate.
  destruct h as [| | | | | | | | | | | | |hc ha|]; try discriminate.
  destruct (get_attr "message_type" oa) as [t|] eqn:G; [|discriminate].
  destruct (get_attr "message_type" (class_attrs hc)) as [x|] eqn:K; [|discriminate].
  destruct x as [| | | | | |w er k| | | | | | | |]; try discriminate. destruct er as [e|]; [|discriminate].
  assert (T : has_type (VObj oc oa) t) by (exists oc, oa; auto).
  assert (Easy : In t [VNone; VInt 0; VStr []; VBytes []] -> Some (VObj hc ha) = Some h' -> header_for (VObj oc oa) (VObj hc ha) h').
  { intros I [= <-]. eapply no_type; eauto. }
  destruct t as [|[|?|?]|[|? ?]|[|? ?]|e0 z| | | | | | | | | |]; try discriminate;
    try (intros H; apply Easy; [cbn; auto|exact H]).
  destruct (is_int_enum e0 && (z =? 0)) eqn:Z0.
  - apply Bool.andb_true_iff in Z0 as [_ Z0]. apply Z.eqb_eq in Z0. subst z.
    intros [= <-]. eapply zero_type; eauto.
  - destruct (member_name e0 z) as [name|] eqn:Nm; [|discriminate].
    destruct (member_named e name) as [z'|] eqn:Nd; [|discriminate].
    intros [= <-].
    eapply named_type with (e0 := e0) (z := z) (name := name) (z' := z') (e := e);
      eauto using member_name_in, member_named_in.
    + apply get_set_same.
    + intros n Hn. apply get_set_other. congruence.
Qed.

Lemma inherited_ok version p q : inherited version p = Some q -> inherits version p q.
Proof.
  unfold inherited, inherits. destruct (new_version_of (snd p) version) as [o|] eqn:N; [|discriminate].
  apply new_version_ok in N. destruct (String.eqb (fst p) "header") eqn:H.
  - destruct (header_update (snd p) o) as [o'|] eqn:U; [|discriminate]. intros [= <-].
    split; [reflexivity|]. exists o. split; [destruct version; congruence|]. apply header_update_ok, U.
  - intros [= <-]. split; [reflexivity|]. exists o. split; [destruct version; congruence|reflexivity].
Qed.
Lemma map_opt_some {A B : Type} (f : A -> option B) l l' : map_opt f l = Some l' -> Forall2 (fun x y => f x = Some y) l l'.
Proof.
  revert l'. induction l as [|x l IH]; cbn; intros l' H; [injection H as <-; constructor|].
  destruct (f x) eqn:E; [|discriminate]. destruct (map_opt f l); [|discriminate]. injection H as <-.
  constructor; [exact E|apply IH; reflexivity].
Qed.
Lemma map_opt_none {A B : Type} (f : A -> option B) l : map_opt f l = None <-> exists x, In x l /\ f x = None.
Proof.
  induction l as [|x l IH]; cbn.
  - split; [discriminate|]. intros (x & [] & _).
  - destruct (f x) eqn:E.
    + destruct (map_opt f l).
      * split; [discriminate|]. intros (y & [->|I] & H); [congruence|]. assert (Some l0 = None) by (apply IH; eauto). discriminate.
      * split; [|reflexivity]. intros _. destruct (proj1 IH eq_refl) as (y & I & H). eauto.
    + split; [|reflexivity]. eauto.
Qed.

(** ** Order *)

Lemma existsb_ext_in l l' n : (forall x : string, In x l <-> In x l') -> existsb (String.eqb n) l = existsb (String.eqb n) l'.
Proof.
  intros H. destruct (existsb (String.eqb n) l) eqn:E, (existsb (String.eqb n) l') eqn:E'; try reflexivity; exfalso.
  - apply existsb_exists in E as (x & I & X). apply H in I.
    assert (existsb (String.eqb n) l' = true) by (apply existsb_exists; eauto). congruence.
  - apply existsb_exists in E' as (x & I & X). apply H in I.
    assert (existsb (String.eqb n) l = true) by (apply existsb_exists; eauto). congruence.
Qed.
Lemma existsb_in n l : existsb (String.eqb n) l = true <-> In n l.
Proof.
  rewrite existsb_exists. split.
  - intros (x & I & E). apply String.eqb_eq in E. congruence.
  - intros I. exists n. split; [exact I|apply String.eqb_refl].
Qed.
Lemma first_names_ext {A : Type} (l : list (string * A)) s s' : (forall x, In x s <-> In x s') -> first_names s l = first_names s' l.
Proof.
  revert s s'. induction l as [|[n a] l IH]; intros s s' H; [reflexivity|]. cbn.
  rewrite (existsb_ext_in s s' n H). destruct (existsb _ s'); [apply IH, H|].
  f_equal. apply IH. intros x. cbn. rewrite H. reflexivity.
Qed.

Lemma first_names_out {A : Type} (l : list (string * A)) s n : In n (first_names s l) <-> ~ In n s /\ In n (map fst l).
Proof.
  revert s. induction l as [|[k x] l IH]; intros s; cbn; [tauto|].
  destruct (existsb (String.eqb k) s) eqn:E.
  - apply existsb_in in E. rewrite IH. split; [tauto|]. intros [H [->|J]]; tauto.
  - assert (~ In k s) by (rewrite <- existsb_in; congruence). cbn. rewrite IH. cbn. split.
    + intros [->|]; tauto.
    + intros [H1 [->|J]]; [auto|]. destruct (string_dec k n); tauto.
Qed.

Definition rebind (l : list entry) (p : entry) : entry :=
  (fst p, match last_binding (fst p) l with Some x => x | None => snd p end).
Definition bind (l : list entry) (n : string) : entry :=
  (n, match last_binding n l with Some x => x | None => None end).

Lemma put_in n x d : In n (map fst d) -> NoDup (map fst d) ->
  put n x d = map (fun p => (fst p, if String.eqb n (fst p) then x else snd p)) d.
Proof.
  induction d as [|[k y] d IH]; cbn; intros I D; [destruct I|]. inversion D; subst.
  rewrite String.eqb_sym. destruct (String.eqb_spec n k) as [->|N].
  - f_equal. symmetry. rewrite <- (map_id d) at 2. apply map_ext_in. intros [a b] J. cbn.
    destruct (String.eqb_spec k a) as [->|]; [|reflexivity]. exfalso. apply H1, in_map_iff. exists (a, b). auto.
  - f_equal. apply IH; [|assumption]. destruct I; congruence.
Qed.
Lemma put_out n x d : ~ In n (map fst d) -> put n x d = d ++ [(n, x)].
Proof.
  induction d as [|[k y] d IH]; cbn; intros I; [reflexivity|].
  destruct (String.eqb_spec k n) as [->|N]; [tauto|]. f_equal. apply IH. tauto.
Qed.

Lemma put_all_spec l d : NoDup (map fst d) ->
  put_all l d = map (rebind l) d ++ map (bind l) (first_names (map fst d) l).
Proof.
  revert d. induction l as [|[n x] l IH]; intros d D.
  - cbn. rewrite app_nil_r. symmetry. rewrite <- (map_id d) at 2. apply map_ext. intros []; reflexivity.
  - change (put_all ((n, x) :: l) d) with (put_all l (put n x d)). cbn [first_names].
    destruct (existsb (String.eqb n) (map fst d)) eqn:E.
    + apply existsb_in in E. rewrite put_in by assumption.
      match goal with |- put_all l ?e = _ => remember e as d' eqn:Ed end.
      assert (K : map fst d' = map fst d) by (rewrite Ed, map_map; reflexivity).
      rewrite IH by (rewrite K; exact D). rewrite K, Ed, map_map. f_equal.
      * apply map_ext. intros [a b]. unfold rebind. cbn. destruct (last_binding a l); [reflexivity|].
        destruct (String.eqb n a); reflexivity.
      * apply map_ext_in. intros a J. unfold bind. cbn.
        destruct (last_binding a l) eqn:L; [reflexivity|].
        destruct (String.eqb_spec n a) as [->|]; [|reflexivity].
        exfalso. apply first_names_out in J. tauto.
    + assert (N : ~ In n (map fst d)) by (rewrite <- existsb_in; congruence).
      rewrite put_out by exact N.
      assert (K : map fst (d ++ [(n, x)]) = map fst d ++ [n]) by (rewrite map_app; reflexivity).
      assert (D' : NoDup (map fst d ++ [n])).
      { clear - D N. revert D N. generalize (map fst d). induction l as [|a l IHl]; cbn; intros D N; [constructor; [auto|constructor]|].
        inversion D; subst. constructor; [rewrite in_app_iff; cbn; intuition congruence|apply IHl; tauto]. }
      rewrite IH by (rewrite K; exact D'). rewrite K, map_app, <- app_assoc. cbn [map app].
      rewrite (first_names_ext l (map fst d ++ [n]) (n :: map fst d)) by (intros y; rewrite in_app_iff; cbn; tauto).
      f_equal; [|f_equal].
      * apply map_ext_in. intros [a b] J. unfold rebind. cbn. destruct (last_binding a l); [reflexivity|].
        destruct (String.eqb_spec n a) as [->|]; [|reflexivity]. exfalso. apply N, in_map_iff. exists (a, b). auto.
      * unfold rebind, bind. cbn. rewrite String.eqb_refl. destruct (last_binding n l); reflexivity.
      * apply map_ext_in. intros a J. unfold bind. cbn. destruct (last_binding a l) eqn:L; [reflexivity|].
        destruct (String.eqb_spec n a) as [->|]; [|reflexivity].
        exfalso. apply first_names_out in J. cbn in J. tauto.
Qed.

Lemma first_names_nodup {A : Type} (l : list (string * A)) s : NoDup (first_names s l).
Proof.
  revert s. induction l as [|[k x] l IH]; intros s; cbn; [constructor|].
  destruct (existsb _ s); [apply IH|]. constructor; [|apply IH]. rewrite first_names_out. cbn. tauto.
Qed.
Lemma first_names_twice {A B : Type} (g : string -> B) (l : list (string * A)) s0 s : (forall x, In x s0 -> In x s) ->
  first_names s (map (fun n => (n, g n)) (first_names s0 l)) = first_names s l.
Proof.
  revert s0 s. induction l as [|[k x] l IH]; intros s0 s H; [reflexivity|]. cbn [first_names].
  destruct (existsb (String.eqb k) s0) eqn:E0.
  - apply existsb_in in E0. apply H in E0 as E. apply existsb_in in E. rewrite E. apply IH, H.
  - cbn [map first_names]. destruct (existsb (String.eqb k) s) eqn:E.
    + apply IH. intros y [<-|J]; [apply existsb_in, E|apply H, J].
    + f_equal. apply IH. intros y [<-|J]; [left; reflexivity|right; apply H, J].
Qed.
Lemma last_binding_none {A : Type} n (l : list (string * A)) : last_binding n l = None <-> ~ In n (map fst l).
Proof.
  induction l as [|[k x] l IH]; cbn; [tauto|]. destruct (last_binding n l).
  - split; [discriminate|]. intros H. assert (Some a = None) by (apply IH; tauto). discriminate.
  - destruct (String.eqb_spec k n).
    + split; [discriminate|tauto].
    + split; [|reflexivity]. intros _ [?|J]; [congruence|]. apply (proj1 IH eq_refl), J.
Qed.
Lemma last_binding_unique {A : Type} (g : string -> A) ns n : NoDup ns ->
  last_binding n (map (fun k => (k, g k)) ns) = if existsb (String.eqb n) ns then Some (g n) else None.
Proof.
  induction ns as [|k ns IH]; intros D; [reflexivity|]. inversion D; subst. cbn. rewrite IH by assumption.
  rewrite (String.eqb_sym k n). destruct (existsb (String.eqb n) ns) eqn:E; [rewrite orb_true_r; reflexivity|].
  rewrite orb_false_r. destruct (String.eqb_spec n k) as [->|]; reflexivity.
Qed.

Lemma dict_binding l n : last_binding n (put_all l []) = last_binding n l.
Proof.
  rewrite put_all_spec by constructor. cbn [map app]. unfold bind at 1.
  rewrite (last_binding_unique (fun n => match last_binding n l with Some x => x | None => None end))
    by apply first_names_nodup.
  destruct (existsb (String.eqb n) (first_names [] l)) eqn:E.
  - apply existsb_in, first_names_out in E as [_ I]. destruct (last_binding n l) eqn:L; [reflexivity|].
    apply last_binding_none in L. tauto.
  - destruct (last_binding n l) eqn:L; [|reflexivity]. exfalso.
    assert (X : existsb (String.eqb n) (first_names [] l) = true); [|congruence].
    apply existsb_in, first_names_out. split; [tauto|].
    destruct (in_dec string_dec n (map fst l)) as [J|J]; [exact J|]. apply last_binding_none in J. congruence.
Qed.
Lemma dict_names l s : first_names s (put_all l []) = first_names s l.
Proof.
  rewrite put_all_spec by constructor. cbn [map app]. unfold bind. apply first_names_twice. intros x [].
Qed.

Lemma pops removed d : fold_left pop removed d = filter (fun p => negb (existsb (String.eqb (fst p)) removed)) d.
Proof.
  revert d. induction removed as [|n r IH]; intros d; cbn.
  - induction d as [|p d IHd]; cbn; [reflexivity|]. rewrite <- IHd. reflexivity.
  - rewrite IH. unfold pop. induction d as [|p d IHd]; [reflexivity|]. cbn.
    destruct (String.eqb (fst p) n); cbn; [exact IHd|]. destruct (existsb _ r); cbn; [exact IHd|]. f_equal. exact IHd.
Qed.
Lemma attributes_app a b : attributes (a ++ b) = attributes a ++ attributes b.
Proof. induction a as [|[n [o|]] a IH]; cbn; [reflexivity| |exact IH]. rewrite IH. reflexivity. Qed.
Lemma filter_entries removed (l : list (string * pyval)) :
  filter (fun p : entry => negb (existsb (String.eqb (fst p)) removed)) (map (fun p => (fst p, Some (snd p))) l) =
  map (fun p => (fst p, Some (snd p))) (kept removed l).
Proof. unfold kept. induction l as [|p l IH]; [reflexivity|]. cbn. destruct (existsb _ _); cbn; [exact IH|]. f_equal. exact IH. Qed.
Lemma nodup_filter {A B : Type} (g : A -> B) f l : NoDup (map g l) -> NoDup (map g (filter f l)).
Proof.
  induction l as [|x l IH]; cbn; intros D; [exact D|]. inversion D; subst. destruct (f x); [|auto]. cbn. constructor; [|auto].
  intros H. apply H1. apply in_map_iff in H as (y & E & I). apply filter_In in I as [I _]. rewrite <- E. apply in_map, I.
Qed.

Lemma update_order base removed body : NoDup (map fst base) ->
  attributes (put_all (put_all body []) (fold_left pop removed (put_all (map (fun p => (fst p, Some (snd p))) base) []))) =
  fields_of base removed body.
Proof.
  intros D. set (ent := map (fun p : string * pyval => (fst p, Some (snd p))) base).
  assert (De : NoDup (map fst ent)) by (unfold ent; rewrite map_map; exact D).
  assert (E : put_all ent [] = ent).
  { change ent with ([] ++ ent) at 2. clear D. unfold put_all. 
    assert (G : forall d, NoDup (map fst (d ++ ent)) -> fold_left (fun d p => put (fst p) (snd p) d) ent d = d ++ ent); [|apply G; exact De].
    clearbody ent. clear De. induction ent as [|[n x] ent IH]; intros d D; cbn; [rewrite app_nil_r; reflexivity|].
    rewrite map_app in D. cbn in D. rewrite put_out.
    - rewrite IH, <- app_assoc; [reflexivity|]. rewrite <- app_assoc, map_app. exact D.
    - intros I. apply NoDup_remove_2 in D. apply D, in_or_app. left. exact I. }
  rewrite E, pops. unfold ent. rewrite filter_entries. clear E De ent.
  assert (Dk : NoDup (map fst (kept removed base))) by (apply nodup_filter, D).
  set (k := kept removed base) in *.
  assert (K : map fst (map (fun p : string * pyval => (fst p, Some (snd p))) k) = map fst k) by (rewrite map_map; reflexivity).
  rewrite put_all_spec by (rewrite K; exact Dk).
  rewrite K, attributes_app. unfold fields_of. fold k. f_equal.
  - clear. induction k as [|[n o] k IH]; [reflexivity|]. cbn [map flat_map]. unfold rebind at 1, base_field at 1. cbn [fst snd].
    rewrite dict_binding. destruct (last_binding n body) as [[x|]|]; cbn [attributes app]; [f_equal; exact IH|exact IH|f_equal; exact IH].
  - rewrite dict_names.
    generalize (first_names (map fst k) body) as ns.
    induction ns as [|n ns IH]; [reflexivity|]. cbn [map flat_map]. unfold bind at 1, body_field at 1.
    rewrite dict_binding. destruct (last_binding n body) as [[x|]|]; cbn [attributes app]; [f_equal; exact IH|exact IH|exact IH].
Qed.

Lemma inherits_names version base inh : Forall2 (inherits version) base inh -> map fst inh = map fst base.
Proof. induction 1 as [|p q b i [H _] F IH]; cbn; congruence. Qed.

Lemma layout_some version base removed body l : NoDup (map fst base) ->
  layout version base removed body = Some l ->
  exists inh, Forall2 (inherits version) base inh /\ l = fields_of inh removed body.
Proof.
  intros D. unfold layout, class_dict. destruct (map_opt (inherited version) base) as [inh|] eqn:M; [|discriminate].
  intros [= <-]. apply map_opt_some in M.
  assert (F : Forall2 (inherits version) base inh) by (clear - M; induction M; constructor; [apply inherited_ok|]; assumption).
  exists inh. split; [exact F|]. apply update_order. rewrite (inherits_names _ _ _ F). exact D.
Qed.
Lemma layout_none version base removed body :
  layout version base removed body = None <-> exists p, In p base /\ inherited version p = None.
Proof.
  unfold layout, class_dict. destruct (map_opt (inherited version) base) as [inh|] eqn:M.
  - split; [discriminate|]. intros H. apply map_opt_none in H. congruence.
  - split; [|reflexivity]. intros _. apply map_opt_none, M.
Qed.

Lemma tables_layout c : class_body c <> None -> class_layout 6 c = Some (class_attrs c).
Proof. destruct c; intros H; try (vm_compute; reflexivity); exfalso; apply H; reflexivity. Qed.

Lemma order version base removed body fields : NoDup (map fst base) ->
  layout version base removed (map (fun p => (fst p, Some (snd p))) body) = Some fields ->
  map fst fields = filter (fun n => negb (existsb (String.eqb n) removed)) (map fst base) ++
                   first_names (filter (fun n => negb (existsb (String.eqb n) removed)) (map fst base)) body.
Proof.
  intros D H. apply layout_some in H as (inh & F & ->); [|exact D]. rewrite <- (inherits_names _ _ _ F).
  set (b := map (fun p : string * pyval => (fst p, Some (snd p))) body).
  assert (K : map fst (kept removed inh) = filter (fun n => negb (existsb (String.eqb n) removed)) (map fst inh)).
  { clear. unfold kept. induction inh as [|p l IH]; [reflexivity|]. cbn. destruct (existsb _ _); cbn; congruence. }
  assert (L : forall n, match last_binding n b with Some None => False | Some (Some _) => In n (map fst body) | None => ~ In n (map fst body) end).
  { intros n. unfold b. clear. induction body as [|[k x] l IH]; cbn; [tauto|].
    destruct (last_binding n _) as [[o|]|]; [tauto|tauto|].
    destruct (String.eqb_spec k n); cbn; tauto. }
  assert (N : first_names (map fst (kept removed inh)) b = first_names (map fst (kept removed inh)) body).
  { unfold b. clear. generalize (map fst (kept removed inh)) as s. induction body as [|[k x] l IH]; intros s; [reflexivity|].
    cbn. rewrite !IH. reflexivity. }
  unfold fields_of. rewrite map_app, N, <- K. f_equal.
  - clear - L. induction (kept removed inh) as [|[n o] l IH]; [reflexivity|]. cbn [flat_map map]. rewrite map_app, IH.
    unfold base_field. cbn [fst]. specialize (L n). destruct (last_binding n b) as [[x|]|]; [reflexivity|destruct L|reflexivity].
  - assert (G : forall n, In n (first_names (map fst (kept removed inh)) body) -> In n (map fst body))
      by (intros n J; apply first_names_out in J; tauto).
    revert G. generalize (first_names (map fst (kept removed inh)) body) as ns.
    clear - L. induction ns as [|n ns IH]; intros G; [reflexivity|]. cbn [flat_map]. rewrite map_app, IH by (intros; apply G; right; assumption).
    unfold body_field. specialize (L n). destruct (last_binding n b) as [[x|]|]; [reflexivity|destruct L|].
    destruct L. apply G. left. reflexivity.
Qed.
