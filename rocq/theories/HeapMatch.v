(** Which objects a match of OpenFlow 1.0 made with arguments takes over. *)
From Coq Require Import ZArith List Bool String Lia.
From Verif Require Import Base PyText Ids PyVal Classes Interp Addr Operators Match01 Inits Construct Heap SpecHeap HeapFacts HeapThm.
Import ListNotations.
Open Scope string_scope.
Open Scope list_scope.

Lemma own_form_eq p v default : get_attr p (class_attrs Match01) = Some default -> stored_as_given default v = own_form p v.
Proof.
  intros E. set (l := class_attrs Match01) in E. vm_compute in l. subst l. cbn [get_attr] in E.
  repeat match type of E with
  | (if String.eqb ?k p then _ else _) = _ =>
      let Q := fresh in destruct (String.eqb k p) eqn:Q;
      [apply String.eqb_eq in Q; rewrite <- Q; injection E as <-; destruct v; reflexivity|clear Q]
  end.
  discriminate E.
Qed.

Lemma hset_names n r d : NoDup (map fst d) -> NoDup (map fst (hset n r d)).
Proof.
  induction d as [|[k x] d IH]; intros N; cbn [hset].
  - constructor; [intros []|constructor].
  - cbn [map fst] in N. inversion N as [|? ? N1 N2]; subst. destruct (String.eqb k n) eqn:Q; cbn [map fst].
    + constructor; assumption.
    + constructor; [|exact (IH N2)]. intros I. apply in_map_iff in I as ([k' x'] & E & I). cbn in E. subst k'.
      assert (X : forall d, In (k, x') (hset n r d) -> In k (map fst d) \/ k = n).
      { clear. induction d as [|[a b] d IH]; cbn [hset]; [intros [E|[] ]; right; congruence|].
        destruct (String.eqb a n); intros [E|I]; cbn [map fst In].
        - left. left. congruence.
        - left. right. apply (in_map fst) in I. exact I.
        - left. left. congruence.
        - destruct (IH I); auto. }
      destruct (X d I) as [Y| ->]; [exact (N1 Y)|]. rewrite String.eqb_refl in Q. discriminate Q.
Qed.

Lemma match_set_shape n r h d h' d' : hmatch_set n r h d = Ok (h', d') ->
  exists default v r1, get_attr n (class_attrs Match01) = Some default /\ view h r = Ok v /\ extends h h' (fun _ => True) /\
    (if stored_as_given default v then r1 = r else exists x, convert default v = Ok x /\ alloc x h = (h', r1)) /\
    (d' = hset n r1 d \/ exists z, d' = hset "wildcards" (HImm (VInt z)) (hset n r1 d)).
Proof.
  intros E. unfold hmatch_set in E. destruct (get_attr n (class_attrs Match01)) as [default|]; [|discriminate E].
  destruct (view h r) as [v|]; cbn [bind] in E; [|discriminate E].
  destruct (convert default v) as [x|] eqn:C; cbn [bind] in E; [|discriminate E].
  cbv zeta in E.
  assert (A : exists h1 r1, (if stored_as_given default v then (h, r) else alloc x h) = (h1, r1) /\ extends h h1 (fun _ => True) /\
     (if stored_as_given default v then r1 = r else exists x, convert default v = Ok x /\ alloc x h = (h1, r1))).
  { destruct (stored_as_given default v).
    - exists h, r. split; [reflexivity|]. split; [apply extends_refl|reflexivity].
    - destruct (alloc x h) as [h1 r1] eqn:A. exists h1, r1. split; [reflexivity|]. split.
      + eapply extends_weaken; [|exact (proj1 (alloc_fresh x h h1 r1 A))]. auto.
      + exists x. split; [exact C|exact A]. }
  destruct A as (h1 & r1 & A & X & K). rewrite A in E. cbn [fst snd] in E.
  destruct (view_dict h1 (hset n r1 d)) as [m|]; cbn [bind] in E; [|discriminate E].
  destruct (fill_wildcards n x default m) as [m' [e|]]; [discriminate E|].
  assert (H' : h' = h1) by congruence. subst h'. exists default, v, r1. split; [reflexivity|]. split; [reflexivity|]. split; [exact X|].
  split; [exact K|]. injection E as <-. destruct (get_attr "wildcards" m') as [[]|]; try (left; reflexivity). right. eexists. reflexivity.
Qed.

Lemma set_each_other kw : forall h d h' d' p, hset_each kw h d = Ok (h', d') -> p <> "wildcards" -> ~ In p (map fst kw) ->
  hget p d' = hget p d.
Proof.
  induction kw as [|[n r] kw IH]; intros h d h' d' p E W NI; cbn [hset_each] in E; [congruence|].
  destruct (hmatch_set n r h d) as [[h1 d1]|] eqn:A; cbn [bind fst snd] in E; [|discriminate E].
  cbn [map fst In] in NI. rewrite (IH _ _ _ _ p E W) by tauto.
  assert (NP : String.eqb n p = false) by (apply String.eqb_neq; intros ->; tauto).
  assert (NW : String.eqb "wildcards" p = false) by (apply String.eqb_neq; congruence).
  destruct (match_set_shape _ _ _ _ _ _ A) as (_ & _ & r1 & _ & _ & _ & _ & [-> |[z ->] ]); rewrite ?hget_hset, ?NW, ?NP; reflexivity.
Qed.
Lemma set_each_names kw : forall h d h' d', hset_each kw h d = Ok (h', d') -> NoDup (map fst d) -> NoDup (map fst d') /\ extends h h' (fun _ => True).
Proof.
  induction kw as [|[n r] kw IH]; intros h d h' d' E N; cbn [hset_each] in E; [injection E as <- <-; split; [exact N|apply extends_refl]|].
  destruct (hmatch_set n r h d) as [[h1 d1]|] eqn:A; cbn [bind fst snd] in E; [|discriminate E].
  destruct (match_set_shape _ _ _ _ _ _ A) as (_ & _ & r1 & _ & _ & X & _ & D).
  destruct (IH _ _ _ _ E) as [N' X'].
  - destruct D as [-> |[z ->] ]; repeat apply hset_names; exact N.
  - split; [exact N'|]. eapply extends_trans; eassumption.
Qed.

Lemma convert_address default v x : stored_as_given default v = false -> convert default v = Ok x ->
  (exists a n, x = VIP a n) \/ exists a, x = VHW a.
Proof.
  intros K E.
  assert (IP : forall s, ip_init s None = Ok x -> exists a n, x = VIP a n).
  { intros s Q. unfold ip_init in Q.
    repeat match type of Q with
    | (let _ := _ in _) = _ => cbv zeta in Q
    | bind ?a _ = _ => destruct a; cbn [bind] in Q; [|discriminate Q]
    | (if ?b then _ else _) = _ => destruct b
    | match ?b with _ => _ end = _ => destruct b
    end; try discriminate Q; do 2 eexists; injection Q as <-; reflexivity. }
  assert (TO : forall w, to_ip w = Ok x -> exists a n, x = VIP a n) by (intros w Q; unfold to_ip in Q; destruct w; try discriminate Q; eapply IP, Q).
  destruct default; try (destruct v; discriminate K).
  - left. destruct v; cbn [convert] in E; try (eapply TO; exact E); try discriminate K.
    destruct (mapM py_str items) as [l|]; cbn [bind] in E; [|discriminate E]. eapply TO, E.
  - right. destruct v; cbn [convert] in E; try (eexists; injection E as <-; reflexivity); try discriminate K.
    destruct (mapM py_hex2 items) as [l|]; cbn [bind] in E; [|discriminate E]. eexists; injection E as <-; reflexivity.
Qed.

Lemma set_each_given kw : forall h d h' d' p r v, hset_each kw h d = Ok (h', d') -> NoDup (map fst kw) -> p <> "wildcards" ->
  In (p, r) kw -> holds h r v ->
  if own_form p v then hget p d' = Some r
  else exists k, hget p d' = Some (HRef k) /\ (List.length h <= k)%nat.
Proof.
  induction kw as [|[n r0] kw IH]; intros h d h' d' p r v E N W I H; [destruct I|]. cbn [hset_each] in E.
  destruct (hmatch_set n r0 h d) as [[h1 d1]|] eqn:A; cbn [bind fst snd] in E; [|discriminate E].
  cbn [map fst] in N. inversion N as [|? ? N1 N2]; subst.
  destruct (match_set_shape _ _ _ _ _ _ A) as (default & w & r1 & G & V & X & K & D). destruct I as [I|I].
  - injection I as -> ->. rewrite (view_holds _ _ _ H) in V. injection V as <-.
    rewrite (set_each_other _ _ _ _ _ p E W N1).
    assert (NW : String.eqb "wildcards" p = false) by (apply String.eqb_neq; congruence).
    assert (HG : hget p d1 = Some r1) by (destruct D as [-> |[z ->] ]; rewrite ?hget_hset, ?NW, ?String.eqb_refl; reflexivity).
    rewrite HG. pose proof (own_form_eq p v default G) as OF. rewrite OF in K. destruct (own_form p v); [congruence|].
    destruct K as (x & C & AL). destruct (convert_address _ _ _ OF C) as [(a & m & ->)|[a ->] ]; cbn [alloc immutable] in AL;
      injection AL as <- <-; eexists; (split; [reflexivity|lia]).
  - pose proof (IH _ _ _ _ p r v E N2 W I (holds_ext _ _ _ _ _ X H)) as Q. destruct (own_form p v); [exact Q|].
    destruct Q as (k & Q & L). exists k. split; [exact Q|]. pose proof (extends_len _ _ _ X). lia.
Qed.

Lemma hget_named p r d : hget p d = Some r -> In (p, r) d.
Proof.
  induction d as [|[k x] d IH]; cbn [hget]; [discriminate|]. destruct (String.eqb k p) eqn:Q; [|intros E; right; exact (IH E)].
  apply String.eqb_eq in Q. subst k. intros E. left. congruence.
Qed.
Lemma alloc_dict_names l : forall h, map fst (snd (alloc_dict l h)) = map fst l.
Proof. induction l as [|[n x] l IH]; intros h; cbn [alloc_dict snd map fst]; [reflexivity|]. f_equal. apply IH. Qed.
Lemma match_names : NoDup (map fst match_new).
Proof. set (l := map fst match_new). vm_compute in l. subst l. repeat constructor; cbn; intuition discriminate. Qed.

Lemma match_given shared rnd kw h h' l p r v : hconstruct shared rnd Match01 [] kw h = Ok (h', l) -> NoDup (map fst kw) ->
  p <> "wildcards" -> In (p, r) kw -> holds h r v ->
  if own_form p v then attribute h' l p r
  else exists k, attribute h' l p (HRef k) /\ (List.length h <= k)%nat.
Proof.
  intros E N W I H.
  change (hconstruct shared rnd Match01 [] kw h) with
    (do a <- hset_each kw (fst (alloc_dict match_new h)) (snd (alloc_dict match_new h)); Ok (fst a ++ [StructCell Match01 (snd a)], List.length (fst a))) in E.
  pose proof (proj1 (alloc_dict_fresh match_new h)) as X. pose proof (alloc_dict_names match_new h) as NM.
  destruct (alloc_dict match_new h) as [h0 d0]. cbn [fst snd] in *.
  destruct (hset_each kw h0 d0) as [[h1 d1]|] eqn:A; cbn [bind fst snd] in E; [|discriminate E].
  assert (E1 : h' = h1 ++ [StructCell Match01 d1]) by congruence. assert (E2 : l = List.length h1) by congruence. subst h' l.
  destruct (set_each_names _ _ _ _ _ A) as [ND _]; [rewrite NM; exact match_names|].
  pose proof (set_each_given _ _ _ _ _ p r v A N W I (holds_ext _ _ _ _ _ X H)) as Q.
  assert (AT : forall s, hget p d1 = Some s -> attribute (h1 ++ [StructCell Match01 d1]) (List.length h1) p s).
  { intros s HG. exists Match01, d1. split; [apply nth_last|]. split; [exact ND|apply hget_named, HG]. }
  destruct (own_form p v); [apply AT, Q|]. destruct Q as (k & Q & L). exists k. split; [apply AT, Q|].
  pose proof (extends_len _ _ _ X). lia.
Qed.

(** ** Two calls with arguments *)

Lemma common_objects shared rnd rnd' c c' pos pos' kw kw' h h1 h2 l1 l2 : closed h ->
  roots_inside shared c pos kw h -> roots_inside shared c' pos' kw' h ->
  hconstruct shared rnd c pos kw h = Ok (h1, l1) -> hconstruct shared rnd' c' pos' kw' h1 = Ok (h2, l2) ->
  forall k, reach h2 (HRef l1) k -> reach h2 (HRef l2) k ->
  exists r r', roots shared c pos kw r /\ roots shared c' pos' kw' r' /\ reach h r k /\ reach h r' k.
Proof.
  intros C RI RI' E1 E2 k R1 R2.
  destruct (construct_fresh _ _ _ _ _ _ _ _ C RI E1) as (O1 & L1 & C1 & F1).
  assert (RI1 : roots_inside shared c' pos' kw' h1) by (intros r X; eapply inside_extends; [exact O1|exact (RI' r X)]).
  destruct (construct_fresh _ _ _ _ _ _ _ _ C1 RI1 E2) as (O2 & L2 & C2 & F2).
  destruct (hconstruct_grown _ _ _ _ _ _ _ _ E1) as [_ B1].
  apply (reach_stable h1) in R1; [|exact C1|cbn; lia|exact O2].
  assert (K1 : (k < List.length h1)%nat) by (eapply reach_inside; [exact C1| |exact R1]; cbn; lia).
  destruct (F2 k R2) as [Y|(r' & Y & Q')]; [lia|].
  apply (reach_stable h) in Q'; [|exact C|exact (RI' r' Y)|exact O1].
  assert (K : (k < List.length h)%nat) by (eapply reach_inside; [exact C|exact (RI' r' Y)|exact Q']).
  destruct (F1 k R1) as [X|(r & X & Q)]; [lia|]. exists r, r'. repeat split; assumption.
Qed.
