(** Facts about constructors with object identity. *)
From Coq Require Import ZArith List Bool String Lia.
From Verif Require Import Base PyText Ids PyVal Classes Interp Match01 Inits Construct Heap SpecHeap.
Import ListNotations.
Open Scope string_scope.
Open Scope list_scope.

Scheme holds_ind' := Induction for holds Sort Prop
with holds_dict_ind' := Induction for holds_dict Sort Prop
with holds_items_ind' := Induction for holds_items Sort Prop.
Combined Scheme holds_mutind from holds_ind', holds_dict_ind', holds_items_ind'.

(** ** alloc makes new cells at the end *)

(** [h'] is [h] with cells behind it; every reference in them is immediate or to a new cell satisfying [P]. *)
Definition fresh_ref (lo hi : nat) (r : hval) : Prop := match r with HImm _ => True | HRef l => (lo <= l < hi)%nat end.
Definition extends (h h' : heap) (P : hval -> Prop) : Prop :=
  exists new, h' = h ++ new /\ forall c r, In c new -> In r (kids c) -> P r.

Lemma extends_refl h P : extends h h P.
Proof. exists []. rewrite app_nil_r. split; [reflexivity|intros c r []]. Qed.
Lemma extends_len h h' P : extends h h' P -> (List.length h <= List.length h')%nat.
Proof. intros (new & -> & _). rewrite app_length. lia. Qed.
Lemma extends_weaken h h' (P Q : hval -> Prop) : (forall r, P r -> Q r) -> extends h h' P -> extends h h' Q.
Proof. intros I (new & E & K). exists new. split; [exact E|]. intros c r A B. apply I. eapply K; eassumption. Qed.
Lemma extends_trans h h1 h2 P : extends h h1 P -> extends h1 h2 P -> extends h h2 P.
Proof.
  intros (n1 & -> & K1) (n2 & -> & K2). exists (n1 ++ n2). rewrite app_assoc. split; [reflexivity|].
  intros c r A B. apply in_app_or in A as [A|A]; [eapply K1|eapply K2]; eassumption.
Qed.
Lemma extends_cell h c (P : hval -> Prop) : (forall r, In r (kids c) -> P r) -> extends h (h ++ [c]) P.
Proof. intros K. exists [c]. split; [reflexivity|]. intros c' r [<-|[]] B. apply K, B. Qed.

Lemma fresh_wider lo lo' hi hi' r : (lo' <= lo)%nat -> (hi <= hi')%nat -> fresh_ref lo hi r -> fresh_ref lo' hi' r.
Proof. destruct r; cbn; lia. Qed.

Definition alloc_ok (v : pyval) : Prop := forall h h' r, alloc v h = (h', r) ->
  extends h h' (fresh_ref (List.length h) (List.length h')) /\ fresh_ref (List.length h) (List.length h') r.

Lemma alloc_obj c attrs h : alloc (VObj c attrs) h
  = (fst (alloc_dict attrs h) ++ [StructCell c (snd (alloc_dict attrs h))], HRef (List.length (fst (alloc_dict attrs h)))).
Proof.
  assert (E : forall l h, (fix go (l : list (string * pyval)) (h : heap) : heap * hdict :=
                  match l with
                  | [] => (h, [])
                  | (n, x) :: tl => let a := alloc x h in let b := go tl (fst a) in (fst b, (n, snd a) :: snd b)
                  end) l h = alloc_dict l h).
  { clear. induction l as [|[n x] l IH]; intros h; cbn [alloc_dict]; [reflexivity|]. rewrite IH. reflexivity. }
  cbn [alloc]. rewrite E. reflexivity.
Qed.
Fixpoint alloc_list (l : list pyval) (h : heap) : heap * list hval :=
  match l with
  | [] => (h, [])
  | x :: tl => let a := alloc x h in let b := alloc_list tl (fst a) in (fst b, snd a :: snd b)
  end.
Lemma alloc_vlist lc pc items h : alloc (VList lc pc items) h
  = (fst (alloc_list items h) ++ [ListCell lc pc (snd (alloc_list items h))], HRef (List.length (fst (alloc_list items h)))).
Proof.
  assert (E : forall l h, (fix go (l : list pyval) (h : heap) : heap * list hval :=
                  match l with
                  | [] => (h, [])
                  | x :: tl => let a := alloc x h in let b := go tl (fst a) in (fst b, snd a :: snd b)
                  end) l h = alloc_list l h).
  { clear. induction l as [|x l IH]; intros h; cbn [alloc_list]; [reflexivity|]. rewrite IH. reflexivity. }
  cbn [alloc]. rewrite E. reflexivity.
Qed.

Lemma alloc_step h h1 h2 r (rs : list hval) :
  extends h h1 (fresh_ref (List.length h) (List.length h1)) -> fresh_ref (List.length h) (List.length h1) r ->
  extends h1 h2 (fresh_ref (List.length h1) (List.length h2)) -> Forall (fresh_ref (List.length h1) (List.length h2)) rs ->
  extends h h2 (fresh_ref (List.length h) (List.length h2)) /\ Forall (fresh_ref (List.length h) (List.length h2)) (r :: rs).
Proof.
  intros X1 F1 X2 F2. pose proof (extends_len _ _ _ X1). pose proof (extends_len _ _ _ X2). split.
  - apply extends_trans with h1; [eapply extends_weaken; [|exact X1]|eapply extends_weaken; [|exact X2] ];
      intros x; apply fresh_wider; lia.
  - constructor; [eapply fresh_wider; [| |exact F1]; lia|].
    eapply Forall_impl; [|exact F2]. intros x. apply fresh_wider; lia.
Qed.

Lemma cell_step h h1 c rs : extends h h1 (fresh_ref (List.length h) (List.length h1)) ->
  Forall (fresh_ref (List.length h) (List.length h1)) rs -> (forall r, In r (kids c) -> In r rs) ->
  extends h (h1 ++ [c]) (fresh_ref (List.length h) (List.length (h1 ++ [c]))) /\
  fresh_ref (List.length h) (List.length (h1 ++ [c])) (HRef (List.length h1)).
Proof.
  intros X F K. pose proof (extends_len _ _ _ X). rewrite app_length. cbn [List.length]. split; [|cbn; lia].
  apply extends_trans with h1.
  - eapply extends_weaken; [|exact X]. intros x. apply fresh_wider; lia.
  - apply extends_cell. intros r I. rewrite Forall_forall in F. eapply fresh_wider; [| |exact (F r (K r I))]; lia.
Qed.

Lemma alloc_fresh : forall v, alloc_ok v.
Proof.
  fix IH 1. intros v h h' r.
  assert (LEAF : (if immutable v then (h, HImm v) else (h ++ [LeafCell v], HRef (List.length h))) = (h', r) ->
    extends h h' (fresh_ref (List.length h) (List.length h')) /\ fresh_ref (List.length h) (List.length h') r).
  { destruct (immutable v); intros E; injection E as <- <-.
    - split; [apply extends_refl|exact Logic.I].
    - split; [apply extends_cell; intros x []|]. cbn. rewrite app_length. cbn. lia. }
  destruct v as [| | | | | | | | | | | | |c attrs|lc pc items]; try exact LEAF; clear LEAF.
  - rewrite alloc_obj. intros E. injection E as <- <-.
    assert (D : forall h, extends h (fst (alloc_dict attrs h)) (fresh_ref (List.length h) (List.length (fst (alloc_dict attrs h)))) /\
      Forall (fresh_ref (List.length h) (List.length (fst (alloc_dict attrs h)))) (map snd (snd (alloc_dict attrs h)))).
    { induction attrs as [|[n x] l IHl]; intros k; cbn [alloc_dict fst snd map].
      - split; [apply extends_refl|constructor].
      - destruct (alloc x k) as [k1 r1] eqn:A. destruct (IH x _ _ _ A) as [X F]. destruct (IHl k1) as [X' F'].
        cbn [fst snd]. eapply alloc_step; eassumption. }
    destruct (D h) as [X F]. apply cell_step with (rs := map snd (snd (alloc_dict attrs h))); [exact X|exact F|].
    intros x Q. exact Q.
  - rewrite alloc_vlist. intros E. injection E as <- <-.
    assert (D : forall h, extends h (fst (alloc_list items h)) (fresh_ref (List.length h) (List.length (fst (alloc_list items h)))) /\
      Forall (fresh_ref (List.length h) (List.length (fst (alloc_list items h)))) (snd (alloc_list items h))).
    { induction items as [|x l IHl]; intros k; cbn [alloc_list fst snd].
      - split; [apply extends_refl|constructor].
      - destruct (alloc x k) as [k1 r1] eqn:A. destruct (IH x _ _ _ A) as [X F]. destruct (IHl k1) as [X' F'].
        cbn [fst snd]. eapply alloc_step; eassumption. }
    destruct (D h) as [X F]. apply cell_step with (rs := snd (alloc_list items h)); [exact X|exact F|].
    intros x Q. exact Q.
Qed.

Lemma alloc_dict_fresh l : forall h,
  extends h (fst (alloc_dict l h)) (fresh_ref (List.length h) (List.length (fst (alloc_dict l h)))) /\
  Forall (fresh_ref (List.length h) (List.length (fst (alloc_dict l h)))) (map snd (snd (alloc_dict l h))).
Proof.
  induction l as [|[n x] l IHl]; intros k; cbn [alloc_dict fst snd map].
  - split; [apply extends_refl|constructor].
  - destruct (alloc x k) as [k1 r1] eqn:A. destruct (alloc_fresh x _ _ _ A) as [X F]. destruct (IHl k1) as [X' F'].
    cbn [fst snd]. eapply alloc_step; eassumption.
Qed.

(** ** Constructors *)

Lemma no_header_set : forall k ps code, init_code k = Some (ps, code) ->
  forall n e, In (ISet n e) code -> String.eqb n "header" = false.
Proof.
  assert (T : forall k, match init_code k with
    | Some (_, code) => forallb (fun s => match s with ISet n _ => negb (String.eqb n "header") | _ => true end) code
    | None => true end = true) by (intros k; destruct k; vm_compute; reflexivity).
  intros k ps code E n e I. specialize (T k). rewrite E in T. rewrite forallb_forall in T.
  specialize (T _ I). cbn in T. destruct (String.eqb n "header"); [discriminate T|reflexivity].
Qed.

Lemma hget_in n d r : hget n d = Some r -> In r (map snd d).
Proof.
  induction d as [|[k v] d IH]; cbn; [discriminate|]. destruct (String.eqb k n); intros E; [left; congruence|right; auto].
Qed.
Lemma hset_in n r d x : In x (map snd (hset n r d)) -> x = r \/ In x (map snd d).
Proof.
  induction d as [|[k v] d IH]; cbn.
  - intros [<-|[]]. auto.
  - destruct (String.eqb k n); cbn; intros [<-|H]; auto. destruct (IH H); auto.
Qed.
Lemma hget_hset n m r d : hget m (hset n r d) = if String.eqb n m then Some r else hget m d.
Proof.
  induction d as [|[k v] d IH]; cbn [hset hget].
  - reflexivity.
  - destruct (String.eqb k n) eqn:E; cbn [hget].
    + apply String.eqb_eq in E as ->. destruct (String.eqb n m); reflexivity.
    + rewrite IH. destruct (String.eqb k m) eqn:F; [|reflexivity].
      apply String.eqb_eq in F as ->. rewrite String.eqb_sym, E. reflexivity.
Qed.
Lemma write_app l c a b : (List.length a <= l)%nat -> write l c (a ++ b) = a ++ write (l - List.length a)%nat c b.
Proof.
  revert l. induction a as [|x a IH]; intros l L; cbn [app List.length].
  - rewrite Nat.sub_0_r. reflexivity.
  - destruct l as [|l]; cbn in L; [lia|]. cbn [write Nat.sub]. rewrite IH by lia. reflexivity.
Qed.
Lemma write_in l c h x : In x (write l c h) -> x = c \/ In x h.
Proof.
  revert l. induction h as [|y h IH]; intros [|l]; cbn; auto; intros [<-|H]; auto. destruct (IH _ H); auto.
Qed.
Lemma write_length l c h : List.length (write l c h) = List.length h.
Proof. revert l. induction h as [|y h IH]; intros [|l]; cbn; auto. Qed.

Lemma bind_args_in {A} (ps : list (string * A)) : forall pos kw env (P : A -> Prop),
  bind_args ps pos kw = Ok env -> Forall P (map snd ps) -> Forall P pos -> Forall P (map snd kw) -> Forall P (map snd env).
Proof.
  assert (KEY : forall n (kw : list (string * A)) v (P : A -> Prop), key n kw = Some v -> Forall P (map snd kw) -> P v).
  { induction kw as [|[k x] kw IH]; cbn; [discriminate|]. intros v P E F. apply Forall_cons_iff in F as [F1 F2].
    destruct (String.eqb k n); [injection E as <-; exact F1|eapply IH; eassumption]. }
  assert (DROP : forall n (kw : list (string * A)) (P : A -> Prop), Forall P (map snd kw) -> Forall P (map snd (drop_key n kw))).
  { induction kw as [|[k x] kw IH]; cbn; [auto|]. intros P F. apply Forall_cons_iff in F as [F1 F2].
    destruct (String.eqb k n); [exact F2|constructor; [exact F1|apply IH, F2] ]. }
  induction ps as [|[n d] ps IH]; intros pos kw env P E F1 F2 F3; cbn [bind_args] in E.
  - destruct pos, kw; try discriminate E. injection E as <-. constructor.
  - inversion F1; subst. destruct pos as [|v pos].
    + destruct (key n kw) as [v|] eqn:K.
      * destruct (bind_args ps [] (drop_key n kw)) as [e|] eqn:B; cbn [bind] in E; [|discriminate E]. injection E as <-.
        cbn [map snd]. constructor; [eapply KEY; eassumption|]. eapply IH; eauto.
      * destruct (bind_args ps [] kw) as [e|] eqn:B; cbn [bind] in E; [|discriminate E]. injection E as <-.
        cbn [map snd]. constructor; [assumption|]. eapply IH; eauto.
    + inversion F2; subst. destruct (bind_args ps pos kw) as [e|] eqn:B; cbn [bind] in E; [|discriminate E]. injection E as <-.
      cbn [map snd]. constructor; [assumption|]. eapply IH; eauto.
Qed.

Section Inv.
Variable size : pyval -> res Z.
Variable plain_size : cid -> dict -> res Z.
Variable h0 : heap.
Variable R : hval -> Prop.
Variable shared : cid -> string -> loc.
Variable rnd : Z.
Variable self : cid.

Definition okv (h : heap) (r : hval) : Prop := R r \/ fresh_ref (List.length h0) (List.length h) r.
Definition grown (h : heap) : Prop := extends h0 h (okv h).
Definition okd (h : heap) (d : hdict) : Prop :=
  Forall (okv h) (map snd d) /\ forall r, hget "header" d = Some r -> fresh_ref (List.length h0) (List.length h) r.

Lemma okv_more h h' r : (List.length h <= List.length h')%nat -> okv h r -> okv h' r.
Proof. intros L [H|H]; [left; exact H|right]. eapply fresh_wider; [| |exact H]; lia. Qed.
Lemma okvs_more h h' rs : (List.length h <= List.length h')%nat -> Forall (okv h) rs -> Forall (okv h') rs.
Proof. intros L. apply Forall_impl. intros r. apply okv_more, L. Qed.
Lemma okd_more h h' d : (List.length h <= List.length h')%nat -> okd h d -> okd h' d.
Proof.
  intros L [A B]. split; [eapply okvs_more; eassumption|]. intros r E. eapply fresh_wider; [| |exact (B r E)]; lia.
Qed.
Lemma grown_len h : grown h -> (List.length h0 <= List.length h)%nat.
Proof. apply extends_len. Qed.

Lemma grown_ext h h' : grown h -> extends h h' (okv h') -> grown h'.
Proof.
  intros G X. apply extends_trans with h; [|exact X]. eapply extends_weaken; [|exact G].
  intros r. apply okv_more. eapply extends_len, X.
Qed.
Lemma grown_alloc v h h' r : grown h -> alloc v h = (h', r) ->
  grown h' /\ fresh_ref (List.length h0) (List.length h') r /\ (List.length h <= List.length h')%nat.
Proof.
  intros G A. destruct (alloc_fresh v h h' r A) as [X F]. pose proof (grown_len _ G). pose proof (extends_len _ _ _ X). split.
  - eapply grown_ext; [exact G|]. eapply extends_weaken; [|exact X]. intros x Q. right. eapply fresh_wider; [| |exact Q]; lia.
  - split; [eapply fresh_wider; [| |exact F]; lia|assumption].
Qed.

Definition good (h h' : heap) : Prop := grown h' /\ (List.length h <= List.length h')%nat.
Lemma good_refl h : grown h -> good h h.
Proof. split; [assumption|lia]. Qed.

Lemma heval_ok h env e h' r : grown h -> Forall (okv h) (map snd env) -> heval size h env e = Ok (h', r) -> good h h' /\ okv h' r.
Proof.
  intros G F E. assert (AL : forall v, Ok (alloc v h) = Ok (h', r) -> good h h' /\ okv h' r).
  { intros v Q. assert (Q' : alloc v h = (h', r)) by congruence.
    destruct (grown_alloc v h h' r G Q') as (A & B & C). split; [split; assumption|right; exact B]. }
  assert (ENV : forall n x, hget n env = Some x -> Ok (h, x) = Ok (h', r) -> good h h' /\ okv h' r).
  { intros n x Q Q'. injection Q' as <- <-. split; [apply good_refl, G|]. rewrite Forall_forall in F. apply F, (hget_in n), Q. }
  destruct e as [n|v|n v|n v]; cbn [heval] in E.
  - destruct (hget n env) as [x|] eqn:Q; [|discriminate E]. eapply ENV; eassumption.
  - apply (AL v E).
  - destruct (hget n env) as [x|] eqn:Q; [|discriminate E].
    destruct x as [w|l]; [destruct w; first [apply (AL v E)|eapply ENV; eassumption]|eapply ENV; eassumption].
  - destruct (hget n env) as [x|] eqn:Q; [|discriminate E]. destruct (view h x) as [a|]; cbn [bind] in E; [|discriminate E].
    destruct (truthy size a) as [t|]; cbn [bind] in E; [|discriminate E].
    destruct t; [eapply ENV; eassumption|apply (AL v E)].
Qed.
Lemma heval_list_ok env es : forall h h' rs, grown h -> Forall (okv h) (map snd env) -> heval_list size h env es = Ok (h', rs) ->
  good h h' /\ Forall (okv h') rs.
Proof.
  induction es as [|e es IH]; intros h h' rs G F E; cbn [heval_list] in E.
  - injection E as <- <-. split; [apply good_refl, G|constructor].
  - destruct (heval size h env e) as [[h1 r]|] eqn:A; cbn [bind fst snd] in E; [|discriminate E].
    destruct (heval_list size h1 env es) as [[h2 rs']|] eqn:B; cbn [bind fst snd] in E; [|discriminate E]. injection E as <- <-.
    destruct (heval_ok _ _ _ _ _ G F A) as [[G1 L1] V1].
    destruct (IH h1 h2 rs' G1 (okvs_more _ _ _ L1 F) B) as [[G2 L2] V2].
    split; [split; [exact G2|lia]|]. constructor; [eapply okv_more; eassumption|exact V2].
Qed.
Lemma heval_dict_ok env es : forall h h' rs, grown h -> Forall (okv h) (map snd env) -> heval_dict size h env es = Ok (h', rs) ->
  good h h' /\ Forall (okv h') (map snd rs).
Proof.
  induction es as [|[n e] es IH]; intros h h' rs G F E; cbn [heval_dict] in E.
  - injection E as <- <-. split; [apply good_refl, G|constructor].
  - destruct (heval size h env e) as [[h1 r]|] eqn:A; cbn [bind fst snd] in E; [|discriminate E].
    destruct (heval_dict size h1 env es) as [[h2 rs']|] eqn:B; cbn [bind fst snd] in E; [|discriminate E]. injection E as <- <-.
    destruct (heval_ok _ _ _ _ _ G F A) as [[G1 L1] V1].
    destruct (IH h1 h2 rs' G1 (okvs_more _ _ _ L1 F) B) as [[G2 L2] V2].
    split; [split; [exact G2|lia]|]. cbn [map snd]. constructor; [eapply okv_more; eassumption|exact V2].
Qed.

Lemma okd_set h d n r : String.eqb n "header" = false -> okd h d -> okv h r -> okd h (hset n r d).
Proof.
  intros N [A B] V. split.
  - rewrite Forall_forall in *. intros x I. apply hset_in in I as [->|I]; auto.
  - intros x. rewrite hget_hset, N. apply B.
Qed.

Lemma set_header_ok h d n r h' : grown h -> okd h d -> okv h r -> hset_header n r h d = Ok h' ->
  grown h' /\ List.length h' = List.length h.
Proof.
  intros (new & E & K) [_ HD] V S. unfold hset_header in S. destruct (hget "header" d) as [[v|l]|] eqn:Q; try discriminate S.
  specialize (HD _ eq_refl). cbn in HD. destruct (nth_error h l) as [[v|c fs|lc pc items]|] eqn:N; try discriminate S.
  assert (S' : h' = write l (StructCell c (hset n r fs)) h) by congruence. clear S.
  assert (LEN : List.length h' = List.length h) by (subst h'; apply write_length). split; [|exact LEN].
  rewrite E in S'. rewrite write_app in S' by lia. exists (write (l - List.length h0)%nat (StructCell c (hset n r fs)) new).
  split; [exact S'|]. intros c' x I J. unfold okv. rewrite LEN. apply write_in in I as [->|I].
  - cbn [kids] in J. apply hset_in in J as [->|J]; [exact V|]. apply (K (StructCell c fs)); [|exact J].
    rewrite E, nth_error_app2 in N by lia. eapply nth_error_In, N.
  - apply (K c'); assumption.
Qed.

Definition super_ok (sup : list hval -> hdict -> heap -> hdict -> res (heap * hdict)) : Prop :=
  forall pos kw h d h' d', grown h -> okd h d -> Forall (okv h) pos -> Forall (okv h) (map snd kw) ->
    sup pos kw h d = Ok (h', d') -> good h h' /\ okd h' d'.

Lemma hstep_ok sup env s h d h' d' : super_ok sup -> (forall n e, s = ISet n e -> String.eqb n "header" = false) ->
  grown h -> okd h d -> Forall (okv h) (map snd env) -> hstep size plain_size self sup env s h d = Ok (h', d') -> good h h' /\ okd h' d'.
Proof.
  intros SUP NH G D F E. destruct s as [pos kw|n e|n e| |]; cbn [hstep] in E.
  - destruct (heval_list size h env pos) as [[h1 ps]|] eqn:A; cbn [bind fst snd] in E; [|discriminate E].
    destruct (heval_dict size h1 env kw) as [[h2 ks]|] eqn:B; cbn [bind fst snd] in E; [|discriminate E].
    destruct (heval_list_ok _ _ _ _ _ G F A) as [[G1 L1] V1].
    destruct (heval_dict_ok _ _ _ _ _ G1 (okvs_more _ _ _ L1 F) B) as [[G2 L2] V2].
    destruct (SUP ps ks h2 d h' d' G2) as [[G3 L3] D3]; [eapply okd_more; [|exact D]; lia|eapply okvs_more; eassumption|exact V2|exact E|].
    split; [split; [exact G3|lia]|exact D3].
  - destruct (heval size h env e) as [[h1 r]|] eqn:A; cbn [bind fst snd] in E; [|discriminate E]. injection E as <- <-.
    destruct (heval_ok _ _ _ _ _ G F A) as [[G1 L1] V1]. split; [split; assumption|].
    apply okd_set; [eapply NH; reflexivity|eapply okd_more; eassumption|exact V1].
  - destruct (heval size h env e) as [[h1 r]|] eqn:A; cbn [bind fst snd] in E; [|discriminate E].
    destruct (heval_ok _ _ _ _ _ G F A) as [[G1 L1] V1].
    destruct (hset_header n r h1 d) as [h2|] eqn:B; cbn [bind] in E; [|discriminate E]. injection E as <- <-.
    destruct (set_header_ok _ _ _ _ _ G1 (okd_more _ _ _ L1 D) V1 B) as [G2 L2].
    split; [split; [exact G2|lia]|]. eapply okd_more; [|exact D]. lia.
  - destruct (view_dict h d) as [v|]; cbn [bind] in E; [|discriminate E].
    destruct (size (VObj self v)) as [z|]; cbn [bind] in E; [|discriminate E]. injection E as <- <-.
    split; [apply good_refl, G|]. apply okd_set; [reflexivity|exact D|right; exact Logic.I].
  - destruct (view_dict h d) as [v|]; cbn [bind] in E; [|discriminate E].
    destruct (plain_size self v) as [z|]; cbn [bind] in E; [|discriminate E]. injection E as <- <-.
    split; [apply good_refl, G|]. apply okd_set; [reflexivity|exact D|right; exact Logic.I].
Qed.
Lemma hsteps_ok sup env code : super_ok sup -> (forall n e, In (ISet n e) code -> String.eqb n "header" = false) ->
  forall h d h' d', grown h -> okd h d -> Forall (okv h) (map snd env) -> hsteps size plain_size self sup env code h d = Ok (h', d') ->
  good h h' /\ okd h' d'.
Proof.
  intros SUP. induction code as [|s code IH]; intros NH h d h' d' G D F E; cbn [hsteps] in E.
  - injection E as <- <-. split; [apply good_refl, G|exact D].
  - destruct (hstep size plain_size self sup env s h d) as [[h1 d1]|] eqn:A; cbn [bind fst snd] in E; [|discriminate E].
    destruct (hstep_ok sup env s h d h1 d1 SUP) as [[G1 L1] D1]; auto; [intros n e ->; apply (NH n e); left; reflexivity|].
    destruct (IH (fun n e I => NH n e (or_intror I)) h1 d1 h' d' G1 D1 (okvs_more _ _ _ L1 F) E) as [[G2 L2] D2].
    split; [split; [exact G2|lia]|exact D2].
Qed.

Lemma copies_ok h d : grown h -> okd h d ->
  let a := alloc_dict (copies self) h in
  good h (fst a) /\ okd (fst a) (fold_left (fun d p => hset (fst p) (snd p) d) (snd a) d).
Proof.
  intros G D a. destruct (alloc_dict_fresh (copies self) h) as [X F]. fold a in X, F.
  pose proof (extends_len _ _ _ X) as L. pose proof (grown_len _ G) as L0.
  assert (GG : good h (fst a)).
  { split; [|exact L]. eapply grown_ext; [exact G|]. eapply extends_weaken; [|exact X].
    intros r Q. right. eapply fresh_wider; [| |exact Q]; lia. }
  split; [exact GG|].
  assert (FF : Forall (fresh_ref (List.length h0) (List.length (fst a))) (map snd (snd a))).
  { eapply Forall_impl; [|exact F]. intros r. apply fresh_wider; lia. }
  assert (DD : okd (fst a) d) by (eapply okd_more; eassumption). clear F X D.
  revert d DD. induction (snd a) as [|[n r] l IH]; intros d DD; cbn [fold_left]; [exact DD|].
  cbn [map snd] in FF. apply Forall_cons_iff in FF as [F1 F2]. apply IH; [exact F2|]. cbn [fst snd].
  destruct DD as [A B]. split.
  - rewrite Forall_forall in *. intros x I. apply hset_in in I as [->|I]; [right; exact F1|auto].
  - intros x. rewrite hget_hset. destruct (String.eqb n "header"); [intros Q; injection Q as <-; exact F1|apply B].
Qed.

Definition generic_run (n : nat) (k : cid) (pos : list hval) (kw : hdict) (h : heap) (d : hdict) : res (heap * hdict) :=
  match class_base k with
  | None => Err TypeError
  | Some b =>
      match init_code k with
      | None => hrun_init size plain_size shared rnd self n b pos kw h d
      | Some (ps, code) =>
          do env <- bind_args (map (hdefault shared k) ps) pos kw;
          hsteps size plain_size self (hrun_init size plain_size shared rnd self n b) env code h d
      end
  end.
Lemma hrun_cases k : k = CGenericStruct \/ k = CGenericMessage \/
  forall n pos kw h d, hrun_init size plain_size shared rnd self (S n) k pos kw h d = generic_run n k pos kw h d.
Proof.
  assert (X : forall n pos kw h d, exists A B, hrun_init size plain_size shared rnd self (S n) k pos kw h d =
    match k with CGenericStruct => A | CGenericMessage => B | _ => generic_run n k pos kw h d end).
  { intros. eexists. eexists. reflexivity. }
  revert X. generalize (generic_run) (hrun_init size plain_size shared rnd self). intros g f X.
  destruct k; first [left; reflexivity|right; left; reflexivity|right; right; intros n pos kw h d; destruct (X n pos kw h d) as (A & B & E); exact E].
Qed.
Lemma no_defaults_struct n : mutable_defaults_n n CGenericStruct = [].
Proof. destruct n as [|[|n] ]; reflexivity. Qed.

Lemma hrun_ok : forall n k, (forall p, In p (mutable_defaults_n n k) -> R (HRef (shared (fst p) (snd p)))) ->
  super_ok (hrun_init size plain_size shared rnd self n k).
Proof.
  induction n as [|n IH]; intros k MD pos kw h d h' d' G D FP FK E; [discriminate E|].
  assert (BASE : forall b, class_base k = Some b -> super_ok (hrun_init size plain_size shared rnd self n b)).
  { intros b B. apply IH. intros p I. apply MD. cbn [mutable_defaults_n]. rewrite B. apply in_or_app. right. exact I. }
  assert (GEN : generic_run n k pos kw h d = Ok (h', d') -> good h h' /\ okd h' d').
  { clear E. intros E. unfold generic_run in E. destruct (class_base k) as [b|] eqn:B; [|discriminate E].
    destruct (init_code k) as [[ps code]|] eqn:C.
    - destruct (bind_args (map (hdefault shared k) ps) pos kw) as [env|] eqn:A; cbn [bind] in E; [|discriminate E].
      eapply (hsteps_ok (hrun_init size plain_size shared rnd self n b) env code); [apply BASE; reflexivity| |exact G|exact D| |exact E].
      + intros m e. eapply no_header_set, C.
      + eapply bind_args_in; [exact A| |exact FP|exact FK]. rewrite Forall_forall. intros x I. rewrite map_map in I.
        apply in_map_iff in I as ([m v] & <- & I). unfold hdefault. cbn [fst snd].
        destruct (immutable v) eqn:IM; [right; exact Logic.I|left]. apply (MD (k, m)).
        cbn [mutable_defaults_n]. rewrite C. apply in_or_app. left. apply in_map_iff. exists (m, v). split; [reflexivity|].
        apply filter_In. split; [exact I|]. cbn [snd]. rewrite IM. reflexivity.
    - exact (BASE b eq_refl pos kw h d h' d' G D FP FK E). }
  destruct (hrun_cases k) as [-> |[-> |U] ]; [| |rewrite U in E; exact (GEN E)].
  - clear GEN. cbn [hrun_init] in E. destruct (bind_args [] pos kw); cbn [bind] in E; [|discriminate E].
    assert (E' := E). clear E. injection E' as <- <-. apply copies_ok; assumption.
  - clear GEN. cbn [hrun_init] in E. destruct (bind_args [("xid", HImm VNone)] pos kw) as [env|] eqn:A; cbn [bind] in E; [|discriminate E].
    destruct (hrun_init size plain_size shared rnd self n CGenericStruct [] [] h d) as [[h1 d1]|] eqn:B; cbn [bind fst snd] in E; [|discriminate E].
    destruct (heval size h1 env (XIfNone "xid" (VInt rnd))) as [[h2 r]|] eqn:C; cbn [bind fst snd] in E; [|discriminate E].
    destruct (hset_header "xid" r h2 d1) as [h3|] eqn:H; cbn [bind] in E; [|discriminate E]. injection E as <- <-.
    assert (SG : super_ok (hrun_init size plain_size shared rnd self n CGenericStruct)).
    { apply IH. intros p I. rewrite no_defaults_struct in I. destruct I. }
    destruct (SG [] [] h d h1 d1 G D) as [[G1 L1] D1]; [constructor|constructor|exact B|].
    assert (FE : Forall (okv h1) (map snd env)).
    { eapply bind_args_in; [exact A| |exact (okvs_more _ _ _ L1 FP)|exact (okvs_more _ _ _ L1 FK)].
      constructor; [right; exact Logic.I|constructor]. }
    destruct (heval_ok _ _ _ _ _ G1 FE C) as [[G2 L2] V2].
    destruct (set_header_ok _ _ _ _ _ G2 (okd_more _ _ _ L2 D1) V2 H) as [G3 L3].
    split; [split; [exact G3|lia]|]. eapply okd_more; [|exact D1]. lia.
Qed.
End Inv.

(** ** Reachability *)

(** An object is reached through new cells only, or through a root in the old heap. *)
Lemma reach_old h0 new r l : closed h0 -> inside h0 r -> reach (h0 ++ new) r l -> reach h0 r l.
Proof.
  intros C I H. induction H as [l|l c r l' N K H IH]; [constructor|].
  rewrite nth_error_app1 in N by exact I. eapply reach_step; [exact N|exact K|]. apply IH. eapply C; eassumption.
Qed.
Lemma reach_inside h r l : closed h -> inside h r -> reach h r l -> (l < List.length h)%nat.
Proof. intros C I H. induction H as [l|l c r l' N K H IH]; [exact I|]. apply IH. eapply C; eassumption. Qed.

Lemma reach_grown h0 (R : hval -> Prop) h r l : closed h0 -> (forall x, R x -> inside h0 x) -> grown h0 R h ->
  okv h0 R h r -> reach h r l -> (List.length h0 <= l < List.length h)%nat \/ exists x, R x /\ reach h0 x l.
Proof.
  intros C RI (new & E & K) V H. induction H as [l|l c r l' N J H IH].
  - destruct V as [V|V]; [right; exists (HRef l); split; [exact V|constructor]|left; exact V].
  - destruct V as [V|V].
    + right. exists (HRef l). split; [exact V|]. apply (reach_old h0 new); [exact C|apply RI, V|]. rewrite <- E.
      eapply reach_step; eassumption.
    + apply IH. cbn in V. rewrite E, nth_error_app2 in N by lia. eapply K; [eapply nth_error_In, N|exact J].
Qed.

(** Assignments to a match. *)
Lemma match_set_ok h0 R name r h d h' d' : grown h0 R h -> okd h0 R h d -> okv h0 R h r ->
  hmatch_set name r h d = Ok (h', d') -> good h0 R h h' /\ okd h0 R h' d'.
Proof.
  intros G D V E. unfold hmatch_set in E.
  assert (NH : forall w, get_attr name (class_attrs Match01) = Some w -> String.eqb name "header" = false).
  { intros w Q. destruct (String.eqb name "header") eqn:X; [|reflexivity]. apply String.eqb_eq in X. subst name. vm_compute in Q. discriminate Q. }
  destruct (get_attr name (class_attrs Match01)) as [default|]; [|discriminate E]. specialize (NH _ eq_refl).
  destruct (view h r) as [v|]; cbn [bind] in E; [|discriminate E].
  destruct (convert default v) as [x|]; cbn [bind] in E; [|discriminate E].
  assert (A : exists h1 r1, (if stored_as_given default v then (h, r) else alloc x h) = (h1, r1) /\ good h0 R h h1 /\ okv h0 R h1 r1).
  { destruct (stored_as_given default v); [exists h, r; split; [reflexivity|]; split; [apply good_refl, G|exact V]|].
    destruct (alloc x h) as [h1 r1] eqn:A. destruct (grown_alloc h0 R _ _ _ _ G A) as (G1 & F & L).
    exists h1, r1. split; [reflexivity|]. split; [split; assumption|right; exact F]. }
  destruct A as (h1 & r1 & A & [G1 L1] & V1). rewrite A in E. cbv zeta in E. cbn [fst snd] in E.
  destruct (view_dict h1 (hset name r1 d)) as [m|]; cbn [bind] in E; [|discriminate E].
  destruct (fill_wildcards name x default m) as [m' [e|]]; [discriminate E|].
  assert (D1 : okd h0 R h1 (hset name r1 d)) by (apply okd_set; [exact NH|eapply okd_more; eassumption|exact V1]).
  assert (H' : h' = h1) by congruence. subst h'. split; [split; assumption|].
  injection E as <-. destruct (get_attr "wildcards" m') as [[]|]; try exact D1.
  apply okd_set; [reflexivity|exact D1|right; exact Logic.I].
Qed.
Lemma set_each_ok h0 R kw : forall h d h' d', grown h0 R h -> okd h0 R h d -> Forall (okv h0 R h) (map snd kw) ->
  hset_each kw h d = Ok (h', d') -> good h0 R h h' /\ okd h0 R h' d'.
Proof.
  induction kw as [|[n r] kw IH]; intros h d h' d' G D F E; cbn [hset_each] in E.
  - injection E as <- <-. split; [apply good_refl, G|exact D].
  - cbn [map snd] in F. inversion F as [|? ? F1 F2]; subst.
    destruct (hmatch_set n r h d) as [[h1 d1]|] eqn:A; cbn [bind fst snd] in E; [|discriminate E].
    destruct (match_set_ok _ _ _ _ _ _ _ _ G D F1 A) as [[G1 L1] D1].
    destruct (IH h1 d1 h' d' G1 D1 (okvs_more _ _ _ _ _ L1 F2) E) as [[G2 L2] D2]. split; [split; [exact G2|lia]|exact D2].
Qed.

Lemma hconstruct_grown shared rnd c pos kw h h' l : hconstruct shared rnd c pos kw h = Ok (h', l) ->
  grown h (roots shared c pos kw) h' /\ (List.length h <= l < List.length h')%nat.
Proof.
  set (R := roots shared c pos kw). intros E.
  assert (FIN : forall h1 d, good h R h h1 -> okd h R h1 d ->
    Ok (h1 ++ [StructCell c d], List.length h1) = Ok (h', l) -> grown h R h' /\ (List.length h <= l < List.length h')%nat).
  { intros h1 d [G L] [D _] Q. assert (Q1 : h' = h1 ++ [StructCell c d]) by congruence. assert (Q2 : l = List.length h1) by congruence.
    subst. rewrite app_length. cbn [List.length]. split; [|lia].
    eapply grown_ext; [exact G|]. apply extends_cell. intros r I. apply (okv_more h R h1); [rewrite app_length; lia|].
    rewrite Forall_forall in D. apply D, I. }
  assert (G0 : grown h R h) by apply extends_refl.
  assert (D0 : okd h R h []) by (split; [constructor|discriminate]).
  assert (GEN : forall size plain, (do a <- hrun_init size plain shared rnd c INIT_DEPTH c pos kw h [];
         Ok (fst a ++ [StructCell c (snd a)], List.length (fst a))) = Ok (h', l) ->
         grown h R h' /\ (List.length h <= l < List.length h')%nat).
  { clear E. intros size plain E.
    destruct (hrun_init size plain shared rnd c INIT_DEPTH c pos kw h []) as [[h1 d]|] eqn:A; cbn [bind fst snd] in E; [|discriminate E].
    destruct (hrun_ok size plain h R shared rnd c INIT_DEPTH c) with (pos := pos) (kw := kw) (h := h) (d := @nil (string * hval)) (h' := h1) (d' := d) as [GD D]; auto.
    - intros p I. right. right. apply in_map_iff. exists p. split; [reflexivity|exact I].
    - rewrite Forall_forall. intros x I. left. left. exact I.
    - rewrite Forall_forall. intros x I. left. right. left. exact I.
    - eapply FIN; eassumption. }
  unfold hconstruct in E.
  specialize (GEN get_size (fun c d => struct_size get_size c d)). revert E GEN.
  generalize (hrun_init get_size (fun c d => struct_size get_size c d) shared rnd c INIT_DEPTH c pos kw h []). intros run E GEN.
  destruct c; try exact (GEN E). clear GEN.
  unfold hmatch_init in E. destruct pos; [|discriminate E]. cbv zeta in E.
  destruct (alloc_dict_fresh match_new h) as [X F]. pose proof (extends_len _ _ _ X) as L.
  destruct (hset_each kw (fst (alloc_dict match_new h)) (snd (alloc_dict match_new h))) as [[h1 d1]|] eqn:A; cbn [bind fst snd] in E; [|discriminate E].
  destruct (set_each_ok h R kw (fst (alloc_dict match_new h)) (snd (alloc_dict match_new h)) h1 d1) as [[G1 L1] D1]; [| | |exact A|].
  - eapply extends_weaken; [|exact X]. intros r Q. right. exact Q.
  - split.
    + eapply Forall_impl; [|exact F]. intros r Q. right. exact Q.
    + intros r Q. apply hget_in in Q. rewrite Forall_forall in F. apply F, Q.
  - rewrite Forall_forall. intros x I. left. right. left. exact I.
  - eapply FIN; [split; [exact G1|lia]|exact D1|exact E].
Qed.

Lemma construct_fresh shared rnd c pos kw h h' l : closed h -> roots_inside shared c pos kw h ->
  hconstruct shared rnd c pos kw h = Ok (h', l) ->
  (forall k cl, nth_error h k = Some cl -> nth_error h' k = Some cl) /\
  (List.length h <= l)%nat /\ closed h' /\
  forall k, reach h' (HRef l) k ->
    (List.length h <= k < List.length h')%nat \/ exists r, roots shared c pos kw r /\ reach h r k.
Proof.
  intros C RI E. destruct (hconstruct_grown _ _ _ _ _ _ _ _ E) as [G L].
  assert (OLD : forall k cl, nth_error h k = Some cl -> nth_error h' k = Some cl).
  { destruct G as (new & -> & _). intros k cl N. rewrite nth_error_app1; [exact N|]. apply nth_error_Some. congruence. }
  split; [exact OLD|]. split; [lia|]. split.
  - intros k cl r N I. destruct (Nat.lt_ge_cases k (List.length h)) as [Q|Q].
    + destruct (nth_error h k) as [cl'|] eqn:N'; [|apply nth_error_None in N'; lia]. rewrite (OLD _ _ N') in N. injection N as ->.
      pose proof (C _ _ _ N' I) as X. pose proof (grown_len _ _ _ G). destruct r; cbn in *; [exact X|lia].
    + destruct G as (new & GE & K). rewrite GE, nth_error_app2 in N by exact Q. apply nth_error_In in N.
      destruct (K cl r N I) as [X|X].
      * apply RI in X. destruct r; cbn in *; [exact X|lia].
      * destruct r; cbn in *; [exact Logic.I|lia].
  - intros k H. eapply (reach_grown h (roots shared c pos kw) h' (HRef l)); try eassumption. right. cbn. lia.
Qed.

(** ** Contents *)

Lemma holds_frame h h' :
  (forall r v, holds h r v -> (forall l c, reach h r l -> nth_error h l = Some c -> nth_error h' l = Some c) -> holds h' r v) /\
  (forall d v, holds_dict h d v -> (forall r l c, In r (map snd d) -> reach h r l -> nth_error h l = Some c -> nth_error h' l = Some c) -> holds_dict h' d v) /\
  (forall rs v, holds_items h rs v -> (forall r l c, In r rs -> reach h r l -> nth_error h l = Some c -> nth_error h' l = Some c) -> holds_items h' rs v).
Proof.
  apply (holds_mutind h
    (fun r v _ => (forall l c, reach h r l -> nth_error h l = Some c -> nth_error h' l = Some c) -> holds h' r v)
    (fun d v _ => (forall r l c, In r (map snd d) -> reach h r l -> nth_error h l = Some c -> nth_error h' l = Some c) -> holds_dict h' d v)
    (fun rs v _ => (forall r l c, In r rs -> reach h r l -> nth_error h l = Some c -> nth_error h' l = Some c) -> holds_items h' rs v)).
  - intros v IM _. constructor. exact IM.
  - intros l v N BO K. apply holds_leaf; [|exact BO]. apply K; [constructor|exact N].
  - intros l c fs attrs N D IH K. eapply holds_struct; [apply K; [constructor|exact N]|]. apply IH.
    intros r l' c' I H. apply K. eapply reach_step; eassumption.
  - intros l lc pc rs items N D IH K. eapply holds_list; [apply K; [constructor|exact N]|]. apply IH.
    intros r l' c' I H. apply K. eapply reach_step; eassumption.
  - intros _. constructor.
  - intros n r v fs attrs H IH D IHD K. constructor.
    + apply IH. intros l c. apply K. left. reflexivity.
    + apply IHD. intros r' l c I. apply K. right. exact I.
  - intros _. constructor.
  - intros r v rs vs H IH D IHD K. constructor.
    + apply IH. intros l c. apply K. left. reflexivity.
    + apply IHD. intros r' l c I. apply K. right. exact I.
Qed.

Lemma inside_extends h h' r : (forall k cl, nth_error h k = Some cl -> nth_error h' k = Some cl) -> inside h r -> inside h' r.
Proof.
  intros O. destruct r as [v|l]; [auto|]. cbn. intros L. destruct (nth_error h l) as [c|] eqn:N; [|apply nth_error_None in N; lia].
  apply nth_error_Some. rewrite (O _ _ N). discriminate.
Qed.
Lemma reach_stable h h' r l : closed h -> inside h r -> (forall k cl, nth_error h k = Some cl -> nth_error h' k = Some cl) ->
  reach h' r l -> reach h r l.
Proof.
  intros C I O H. induction H as [l|l c r l' N K H IH]; [constructor|]. cbn in I.
  destruct (nth_error h l) as [c'|] eqn:N'; [|apply nth_error_None in N'; lia].
  assert (c' = c) by (rewrite (O _ _ N') in N; congruence). subst c'.
  eapply reach_step; [exact N'|exact K|]. apply IH. eapply C; eassumption.
Qed.

(** Two objects made one after the other without arguments share nothing. *)
Lemma construct_separate shared rnd rnd' c c' h h1 h2 l1 l2 : closed h ->
  mutable_defaults c = [] -> mutable_defaults c' = [] ->
  hconstruct shared rnd c [] [] h = Ok (h1, l1) -> hconstruct shared rnd' c' [] [] h1 = Ok (h2, l2) ->
  forall k, reach h2 (HRef l1) k -> reach h2 (HRef l2) k -> False.
Proof.
  intros C M M' E1 E2 k R1 R2.
  assert (N : forall r, ~ roots shared c [] [] r) by (intros r [I|[I|I] ]; [exact I|exact I|rewrite M in I; exact I]).
  assert (N' : forall r, ~ roots shared c' [] [] r) by (intros r [I|[I|I] ]; [exact I|exact I|rewrite M' in I; exact I]).
  destruct (construct_fresh _ _ _ _ _ _ _ _ C (fun r X => False_ind _ (N r X)) E1) as (O1 & L1 & C1 & F1).
  destruct (construct_fresh _ _ _ _ _ _ _ _ C1 (fun r X => False_ind _ (N' r X)) E2) as (O2 & L2 & C2 & F2).
  destruct (hconstruct_grown _ _ _ _ _ _ _ _ E1) as [_ B1].
  apply (reach_stable h1) in R1; [|exact C1|cbn; lia|exact O2].
  destruct (F1 k R1) as [X|(r & X & _)]; [|exact (N r X)]. destruct (F2 k R2) as [Y|(r & Y & _)]; [|exact (N' r Y)]. lia.
Qed.

Lemma changed_elsewhere h h' r r' v : (forall k, reach h r k -> reach h r' k -> False) -> changed_through r' h h' ->
  holds h r v -> holds h' r v.
Proof.
  intros S CH H. apply (proj1 (holds_frame h h') r v H). intros l c R N. apply CH; [exact N|]. intros X. exact (S l R X).
Qed.

Lemma separate_unchanged shared rnd rnd' c c' h h1 h2 l1 l2 : closed h ->
  mutable_defaults c = [] -> mutable_defaults c' = [] ->
  hconstruct shared rnd c [] [] h = Ok (h1, l1) -> hconstruct shared rnd' c' [] [] h1 = Ok (h2, l2) ->
  (forall h3 v, changed_through (HRef l2) h2 h3 -> holds h2 (HRef l1) v -> holds h3 (HRef l1) v) /\
  (forall h3 v, changed_through (HRef l1) h2 h3 -> holds h2 (HRef l2) v -> holds h3 (HRef l2) v).
Proof.
  intros C M M' E1 E2. pose proof (construct_separate _ _ _ _ _ _ _ _ _ _ C M M' E1 E2) as S.
  split; intros h3 v; apply changed_elsewhere; [exact S|]. intros k A B. exact (S k B A).
Qed.

Lemma defaults_table c : mutable_defaults c = match c with AggregateStatsRequest01 => [(AggregateStatsRequest01, "match")] | _ => [] end.
Proof. destruct c; vm_compute; reflexivity. Qed.
