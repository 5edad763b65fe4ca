(** Constructors with object identity give the objects that Construct.v computes. *)
From Coq Require Import ZArith List Bool String Lia.
From Verif Require Import Base PyText Ids PyVal Classes Interp Operators Match01 Inits Construct Heap SpecHeap HeapFacts.
Import ListNotations.
Open Scope string_scope.
Open Scope list_scope.

(** ** Contents are determined, and view computes them *)

Lemma holds_functional h :
  (forall r v, holds h r v -> forall w, holds h r w -> v = w) /\
  (forall d v, holds_dict h d v -> forall w, holds_dict h d w -> v = w) /\
  (forall rs v, holds_items h rs v -> forall w, holds_items h rs w -> v = w).
Proof.
  apply (holds_mutind h (fun r v _ => forall w, holds h r w -> v = w)
    (fun d v _ => forall w, holds_dict h d w -> v = w) (fun rs v _ => forall w, holds_items h rs w -> v = w)).
  - intros v IM w H. inversion H; subst. reflexivity.
  - intros l v N BO w H. inversion H; subst; congruence.
  - intros l c fs attrs N D IH w H. inversion H; subst; try congruence. rewrite N in *.
    match goal with X : Some _ = Some _ |- _ => injection X as -> -> end. f_equal. apply IH. assumption.
  - intros l lc pc rs items N D IH w H. inversion H; subst; try congruence. rewrite N in *.
    match goal with X : Some _ = Some _ |- _ => injection X as -> -> -> end. f_equal. apply IH. assumption.
  - intros w H. inversion H. reflexivity.
  - intros n r v fs attrs H IH D IHD w K. inversion K; subst. f_equal; [f_equal; apply IH; assumption|apply IHD; assumption].
  - intros w H. inversion H. reflexivity.
  - intros r v rs vs H IH D IHD w K. inversion K; subst. f_equal; [apply IH; assumption|apply IHD; assumption].
Qed.

Lemma nodup_bound (vis : list nat) n : NoDup vis -> (forall l, In l vis -> (l < n)%nat) -> (List.length vis <= n)%nat.
Proof.
  intros N B. rewrite <- (seq_length n 0). apply NoDup_incl_length; [exact N|]. intros l I. apply in_seq. specialize (B l I). lia.
Qed.

Definition above (h : heap) (vis : list loc) (k : nat) : Prop :=
  NoDup vis /\ (forall l, In l vis -> (l < List.length h)%nat) /\
  forall l, In l vis -> exists w, holds h (HRef l) w /\ (k < height w)%nat.

Lemma above_less h vis k k' : (k' <= k)%nat -> above h vis k -> above h vis k'.
Proof.
  intros L (A & B & C). split; [exact A|]. split; [exact B|]. intros l I. destruct (C l I) as (w & H & K). exists w. split; [exact H|lia].
Qed.
Lemma above_more h vis l v k : holds h (HRef l) v -> (l < List.length h)%nat -> (k < height v)%nat ->
  above h vis (height v) -> above h (l :: vis) k /\ exists n, (List.length h - List.length vis)%nat = S n /\ n = (List.length h - List.length (l :: vis))%nat.
Proof.
  intros H L K (A & B & C).
  assert (NI : ~ In l vis).
  { intros I. destruct (C l I) as (w & W & X). rewrite (proj1 (holds_functional h) _ _ H _ W) in X. lia. }
  assert (AB : NoDup (l :: vis)) by (constructor; assumption).
  assert (BB : forall x, In x (l :: vis) -> (x < List.length h)%nat) by (intros x [<-|I]; [exact L|apply B, I]).
  pose proof (nodup_bound _ _ AB BB) as LB. cbn [List.length] in LB. split.
  - split; [exact AB|]. split; [exact BB|]. intros x [<-|I]; [exists v; auto|].
    destruct (C x I) as (w & W & X). exists w. split; [exact W|lia].
  - cbn [List.length]. exists (List.length h - S (List.length vis))%nat. unfold loc in *. split; [lia|reflexivity].
Qed.

Lemma view_n_holds h :
  (forall r v, holds h r v -> forall vis, above h vis (height v) -> view_n (List.length h - List.length vis) h r = Some v) /\
  (forall d v, holds_dict h d v -> forall vis, above h vis (list_max (map (fun p => height (snd p)) v)) ->
     all_some (map (fun p => option_map (pair (fst p)) (view_n (List.length h - List.length vis) h (snd p))) d) = Some v) /\
  (forall rs v, holds_items h rs v -> forall vis, above h vis (list_max (map height v)) ->
     all_some (map (view_n (List.length h - List.length vis) h) rs) = Some v).
Proof.
  apply (holds_mutind h
    (fun r v _ => forall vis, above h vis (height v) -> view_n (List.length h - List.length vis) h r = Some v)
    (fun d v _ => forall vis, above h vis (list_max (map (fun p => height (snd p)) v)) ->
     all_some (map (fun p => option_map (pair (fst p)) (view_n (List.length h - List.length vis) h (snd p))) d) = Some v)
    (fun rs v _ => forall vis, above h vis (list_max (map height v)) ->
     all_some (map (view_n (List.length h - List.length vis) h) rs) = Some v)).
  - intros v IM vis A. destruct (List.length h - List.length vis)%nat; reflexivity.
  - intros l v N BO vis (A & B & C). assert (L : (l < List.length h)%nat) by (apply nth_error_Some; congruence).
    assert (H : holds h (HRef l) v) by (apply holds_leaf; assumption).
    assert (NI : ~ In l vis).
    { intros I. destruct (C l I) as (w & W & X). rewrite (proj1 (holds_functional h) _ _ H _ W) in X. lia. }
    assert (LB : (List.length (l :: vis) <= List.length h)%nat).
    { apply nodup_bound; [constructor; assumption|]. intros x [<-|I]; [exact L|apply B, I]. }
    cbn [List.length] in LB. unfold loc in *. destruct (List.length h - List.length vis)%nat as [|n] eqn:E; [lia|].
    cbn [view_n]. rewrite N. reflexivity.
  - intros l c fs attrs N D IH vis A. assert (L : (l < List.length h)%nat) by (apply nth_error_Some; congruence).
    assert (H : holds h (HRef l) (VObj c attrs)) by (eapply holds_struct; eassumption).
    destruct (above_more h vis l _ (list_max (map (fun p => height (snd p)) attrs)) H L ltac:(cbn [height]; lia) A) as (A' & n & E & E').
    rewrite E. cbn [view_n]. rewrite N. specialize (IH _ A'). rewrite <- E' in IH. rewrite IH. reflexivity.
  - intros l lc pc rs items N D IH vis A. assert (L : (l < List.length h)%nat) by (apply nth_error_Some; congruence).
    assert (H : holds h (HRef l) (VList lc pc items)) by (eapply holds_list; eassumption).
    destruct (above_more h vis l _ (list_max (map height items)) H L ltac:(cbn [height]; lia) A) as (A' & n & E & E').
    rewrite E. cbn [view_n]. rewrite N. specialize (IH _ A'). rewrite <- E' in IH. rewrite IH. reflexivity.
  - reflexivity.
  - intros n r v fs attrs H IH D IHD vis A. cbn [map snd list_max fold_right] in A. cbn [map fst snd all_some].
    unfold list_max in *. rewrite IH by (eapply above_less; [|exact A]; lia). cbn [option_map].
    rewrite IHD by (eapply above_less; [|exact A]; lia). reflexivity.
  - reflexivity.
  - intros r v rs vs H IH D IHD vis A. cbn [map list_max fold_right] in A. cbn [map all_some].
    unfold list_max in *. rewrite IH by (eapply above_less; [|exact A]; lia). cbn [option_map].
    rewrite IHD by (eapply above_less; [|exact A]; lia). reflexivity.
Qed.

Lemma view_holds h r v : holds h r v -> view h r = Ok v.
Proof.
  intros H. unfold view. pose proof (proj1 (view_n_holds h) r v H []) as E. cbn [List.length] in E. rewrite Nat.sub_0_r in E.
  rewrite E; [reflexivity|]. split; [constructor|]. split; intros l [].
Qed.
Lemma view_dict_holds h d v : holds_dict h d v -> view_dict h d = Ok v.
Proof.
  intros H. unfold view_dict. induction H as [|n r v fs attrs H D IH]; cbn [mapM fst snd]; [reflexivity|].
  rewrite (view_holds _ _ _ H). cbn [bind]. rewrite IH. reflexivity.
Qed.

(** ** New objects hold the value they were made from *)

Lemma holds_app h new :
  (forall r v, holds h r v -> holds (h ++ new) r v) /\
  (forall d v, holds_dict h d v -> holds_dict (h ++ new) d v) /\
  (forall rs v, holds_items h rs v -> holds_items (h ++ new) rs v).
Proof.
  assert (N : forall l c, nth_error h l = Some c -> nth_error (h ++ new) l = Some c).
  { intros l c E. rewrite nth_error_app1; [exact E|]. apply nth_error_Some. congruence. }
  destruct (holds_frame h (h ++ new)) as (A & B & C). split; [|split].
  - intros r v H. apply A; [exact H|]. intros l c _. apply N.
  - intros r v H. apply B; [exact H|]. intros x l c _ _. apply N.
  - intros r v H. apply C; [exact H|]. intros x l c _ _. apply N.
Qed.
Lemma holds_ext h h' P r v : extends h h' P -> holds h r v -> holds h' r v.
Proof. intros (new & -> & _). apply holds_app. Qed.
Lemma dict_ext h h' P r v : extends h h' P -> holds_dict h r v -> holds_dict h' r v.
Proof. intros (new & -> & _). apply holds_app. Qed.
Lemma items_ext h h' P r v : extends h h' P -> holds_items h r v -> holds_items h' r v.
Proof. intros (new & -> & _). apply holds_app. Qed.

Lemma nth_last {A} (h : list A) c : nth_error (h ++ [c]) (List.length h) = Some c.
Proof. rewrite nth_error_app2 by lia. rewrite Nat.sub_diag. reflexivity. Qed.

Lemma alloc_holds : forall v h, holds (fst (alloc v h)) (snd (alloc v h)) v.
Proof.
  fix IH 1. intros v h.
  assert (LEAF : match v with VObj _ _ | VList _ _ _ => True | _ =>
    holds (fst (if immutable v then (h, HImm v) else (h ++ [LeafCell v], HRef (List.length h))))
          (snd (if immutable v then (h, HImm v) else (h ++ [LeafCell v], HRef (List.length h)))) v end).
  { destruct v; try exact Logic.I; cbn [immutable fst snd]; first [constructor; reflexivity|apply holds_leaf; [apply nth_last|reflexivity] ]. }
  destruct v as [| | | | | | | | | | | | |c attrs|lc pc items]; try exact LEAF; clear LEAF.
  - rewrite alloc_obj. cbn [fst snd].
    assert (D : forall h, holds_dict (fst (alloc_dict attrs h)) (snd (alloc_dict attrs h)) attrs).
    { induction attrs as [|[n x] l IHl]; intros k; cbn [alloc_dict fst snd]; [constructor|]. constructor; [|apply IHl].
      eapply holds_ext; [|apply IH]. apply (proj1 (alloc_dict_fresh l (fst (alloc x k)))). }
    eapply holds_struct; [apply nth_last|]. apply holds_app, D.
  - rewrite alloc_vlist. cbn [fst snd].
    assert (X : forall l h, extends h (fst (alloc_list l h)) (fun _ => True)).
    { clear. induction l as [|x l IHl]; intros h; cbn [alloc_list fst]; [apply extends_refl|].
      eapply extends_trans; [|apply IHl]. destruct (alloc x h) as [h1 r] eqn:A.
      eapply extends_weaken; [|exact (proj1 (alloc_fresh x h h1 r A))]. auto. }
    assert (D : forall h, holds_items (fst (alloc_list items h)) (snd (alloc_list items h)) items).
    { induction items as [|x l IHl]; intros k; cbn [alloc_list fst snd]; [constructor|]. constructor; [|apply IHl].
      eapply holds_ext; [|apply IH]. apply (X l (fst (alloc x k))). }
    eapply holds_list; [apply nth_last|]. apply holds_app, D.
Qed.
Lemma alloc_dict_holds l : forall h, holds_dict (fst (alloc_dict l h)) (snd (alloc_dict l h)) l.
Proof.
  induction l as [|[n x] l IHl]; intros k; cbn [alloc_dict fst snd]; [constructor|]. constructor; [|apply IHl].
  eapply holds_ext; [|apply alloc_holds]. apply (proj1 (alloc_dict_fresh l (fst (alloc x k)))).
Qed.

(** ** The header is referred to by the new object only *)

Definition unreferenced (h : heap) (l : loc) : Prop := forall c, In c h -> ~ In (HRef l) (kids c).
(** [r] is not the header of the object under construction. *)
Definition apart (d : hdict) (r : hval) : Prop := forall l, hget "header" d = Some (HRef l) -> r <> HRef l.
Definition owned (h : heap) (d : hdict) : Prop :=
  closed h /\ forall l, hget "header" d = Some (HRef l) ->
    unreferenced h l /\ ~ In (HRef l) (map snd (drop_key "header" d)).

Lemma unreferenced_reach h l r : unreferenced h l -> reach h r l -> r = HRef l.
Proof.
  intros U H. induction H as [l|k c r l N I H IH]; [reflexivity|]. specialize (IH U). subst r.
  exfalso. exact (U c (nth_error_In _ _ N) I).
Qed.
Lemma inside_holds h r v : holds h r v -> inside h r.
Proof. intros H. destruct H; cbn; try exact Logic.I; apply nth_error_Some; congruence. Qed.

Lemma nth_write l c h k : (k < List.length h)%nat -> nth_error (write l c h) k = if Nat.eqb k l then Some c else nth_error h k.
Proof.
  revert l k. induction h as [|x h IH]; intros [|l] [|k] L; cbn in L; try lia; cbn [write nth_error Nat.eqb]; auto. apply IH. lia.
Qed.
Lemma closed_ext h h' : closed h -> extends h h' (fresh_ref (List.length h) (List.length h')) -> closed h'.
Proof.
  intros C X. pose proof (extends_len _ _ _ X) as L. destruct X as (new & E & K). intros l c r N I.
  destruct (Nat.lt_ge_cases l (List.length h)) as [Q|Q].
  - rewrite E, nth_error_app1 in N by exact Q. specialize (C _ _ _ N I). destruct r; cbn in *; [exact C|lia].
  - rewrite E, nth_error_app2 in N by exact Q. specialize (K c r (nth_error_In _ _ N) I). destruct r; cbn in *; [exact K|lia].
Qed.
Lemma unreferenced_ext h h' l : unreferenced h l -> (l < List.length h)%nat ->
  extends h h' (fresh_ref (List.length h) (List.length h')) -> unreferenced h' l.
Proof.
  intros U L (new & E & K) c I J. rewrite E in I. apply in_app_or in I as [I|I]; [exact (U c I J)|].
  specialize (K c _ I J). cbn in K. lia.
Qed.

(** What a step keeps. *)
Definition keeps (h : heap) (d : hdict) (h' : heap) (d' : hdict) : Prop :=
  (List.length h <= List.length h')%nat /\
  (forall r v, holds h r v -> apart d r -> holds h' r v) /\
  (forall r, inside h r -> apart d r -> apart d' r).
Lemma keeps_refl h d : keeps h d h d.
Proof. repeat split; auto. Qed.
Lemma keeps_trans h d h1 d1 h2 d2 : keeps h d h1 d1 -> keeps h1 d1 h2 d2 -> keeps h d h2 d2.
Proof.
  intros (L1 & H1 & A1) (L2 & H2 & A2). split; [lia|]. split.
  - intros r v H A. apply H2; [apply H1; assumption|]. apply A1; [eapply inside_holds, H|exact A].
  - intros r I A. apply A2; [destruct r; cbn in *; [exact I|lia]|]. apply A1; assumption.
Qed.

Lemma get_holds h d v n : holds_dict h d v ->
  match get_attr n v with Some x => exists r, hget n d = Some r /\ holds h r x | None => hget n d = None end.
Proof.
  intros H. induction H as [|m r x fs attrs H D IH]; cbn [get_attr hget]; [reflexivity|].
  destruct (String.eqb m n); [exists r; auto|exact IH].
Qed.
Lemma set_holds h d v n r x : holds_dict h d v -> holds h r x -> holds_dict h (hset n r d) (set_attr n x v).
Proof.
  intros H X. induction H as [|m r' x' fs attrs H D IH]; cbn [set_attr hset]; [constructor; [exact X|constructor]|].
  destruct (String.eqb m n) eqn:E; [apply String.eqb_eq in E as ->|]; constructor; assumption.
Qed.
Lemma dict_holds_in h d v r : holds_dict h d v -> In r (map snd d) -> exists x, holds h r x.
Proof.
  intros H. induction H as [|m r' x' fs attrs H D IH]; cbn [map snd]; [intros []|]. intros [<-|I]; [exists x'; exact H|auto].
Qed.
Lemma items_holds_in h d v r : holds_items h d v -> In r d -> exists x, holds h r x.
Proof.
  intros H. induction H as [|r' x' fs attrs H D IH]; [intros []|]. intros [<-|I]; [exists x'; exact H|auto].
Qed.

Lemma drop_in {A} n (d : list (string * A)) x : In x (map snd (drop_key n d)) -> In x (map snd d).
Proof. induction d as [|[m y] d IH]; cbn; [auto|]. destruct (String.eqb m n); cbn; intuition. Qed.
Lemma drop_hset n r d x : String.eqb n "header" = false -> In x (map snd (drop_key "header" (hset n r d))) ->
  x = r \/ In x (map snd (drop_key "header" d)).
Proof.
  intros N. induction d as [|[m y] d IH]; cbn [hset drop_key].
  - rewrite N. cbn. intuition.
  - destruct (String.eqb m n) eqn:E.
    + apply String.eqb_eq in E as ->. cbn [drop_key]. rewrite N. cbn. intuition.
    + cbn [drop_key]. destruct (String.eqb m "header"); cbn [map snd In].
      * intros I. apply hset_in in I. exact I.
      * intros [<-|I]; [auto|]. destruct (IH I); auto.
Qed.
Lemma drop_hset_header r d x : In x (map snd (drop_key "header" (hset "header" r d))) -> In x (map snd d).
Proof.
  induction d as [|[m y] d IH]; cbn [hset drop_key].
  - cbn. auto.
  - destruct (String.eqb m "header") eqn:E; cbn [drop_key]; rewrite E; cbn [map snd In]; [auto|].
    intros [<-|I]; auto.
Qed.

Section Sim.
Variable size : pyval -> res Z.
Variable plain_size : cid -> dict -> res Z.
Variable shared : cid -> string -> loc.
Variable rnd : Z.
Variable self : cid.

Definition sim_value (h : heap) (rs : list hval) (x : res pyval) (y : res (heap * hval)) : Prop :=
  match x with
  | Ok v => exists h' r, y = Ok (h', r) /\ extends h h' (fresh_ref (List.length h) (List.length h')) /\ holds h' r v /\
              (In r rs \/ fresh_ref (List.length h) (List.length h') r)
  | Err e => y = Err e
  end.

Lemma sim_alloc h rs v : sim_value h rs (Ok v) (Ok (alloc v h)).
Proof.
  destruct (alloc v h) as [h' r] eqn:A. destruct (alloc_fresh v h h' r A) as [X F]. exists h', r.
  split; [reflexivity|]. split; [exact X|]. split; [|right; exact F]. pose proof (alloc_holds v h) as H. rewrite A in H. exact H.
Qed.

Lemma eval_sim h env venv e : holds_dict h env venv -> sim_value h (map snd env) (eval size venv e) (heval size h env e).
Proof.
  intros H.
  assert (ENV : forall n r v, hget n env = Some r -> holds h r v -> sim_value h (map snd env) (Ok v) (Ok (h, r))).
  { intros n r v Q X. exists h, r. split; [reflexivity|]. split; [apply extends_refl|]. split; [exact X|left; eapply hget_in, Q]. }
  destruct e as [n|v|n v|n v]; cbn [eval heval].
  - pose proof (get_holds h env venv n H) as G. destruct (get_attr n venv) as [x|]; [destruct G as (r & G & X)|]; rewrite G.
    + eapply ENV; eassumption.
    + reflexivity.
  - apply sim_alloc.
  - pose proof (get_holds h env venv n H) as G. destruct (get_attr n venv) as [x|]; [destruct G as (r & G & X)|]; rewrite G; [|reflexivity].
    destruct r as [w|l].
    + inversion X; subst. destruct x; first [apply sim_alloc|eapply ENV; eassumption].
    + assert (NN : x <> VNone) by (intros ->; inversion X; subst; discriminate).
      destruct x; try congruence; eapply ENV; eassumption.
  - pose proof (get_holds h env venv n H) as G. destruct (get_attr n venv) as [x|]; [destruct G as (r & G & X)|]; rewrite G; [|reflexivity].
    rewrite (view_holds _ _ _ X). cbn [bind]. destruct (truthy size x) as [t|e]; cbn [bind]; [|reflexivity].
    destruct t; [eapply ENV; eassumption|apply sim_alloc].
Qed.

(** A list of expressions. *)
Lemma eval_list_sim env venv es : forall h, holds_dict h env venv ->
  match mapM (eval size venv) es with
  | Ok vs => exists h' rs, heval_list size h env es = Ok (h', rs) /\ extends h h' (fresh_ref (List.length h) (List.length h')) /\
               holds_items h' rs vs /\ forall r, In r rs -> In r (map snd env) \/ fresh_ref (List.length h) (List.length h') r
  | Err e => heval_list size h env es = Err e
  end.
Proof.
  induction es as [|e es IH]; intros h H; cbn [mapM heval_list].
  - exists h, []. split; [reflexivity|]. split; [apply extends_refl|]. split; [constructor|intros r []].
  - pose proof (eval_sim h env venv e H) as E. unfold sim_value in E. destruct (eval size venv e) as [v|x]; cbn [bind].
    2: { rewrite E. reflexivity. }
    destruct E as (h1 & r & E & X & V & R). rewrite E. cbn [bind fst snd].
    specialize (IH h1 (dict_ext _ _ _ _ _ X H)). destruct (mapM (eval size venv) es) as [vs|x]; cbn [bind].
    2: { rewrite IH. reflexivity. }
    destruct IH as (h2 & rs & E2 & X2 & V2 & R2). rewrite E2. cbn [bind fst snd]. exists h2, (r :: rs).
    pose proof (extends_len _ _ _ X). pose proof (extends_len _ _ _ X2).
    split; [reflexivity|]. split.
    + eapply extends_trans; (eapply extends_weaken; [|eassumption]); intros z; apply fresh_wider; lia.
    + split; [constructor; [eapply holds_ext; eassumption|exact V2]|].
      intros z [<-|I].
      * destruct R as [R|R]; [left; exact R|right; eapply fresh_wider; [| |exact R]; lia].
      * destruct (R2 z I) as [Q|Q]; [left; exact Q|right; eapply fresh_wider; [| |exact Q]; lia].
Qed.
Lemma eval_dict_sim env venv es : forall h, holds_dict h env venv ->
  match mapM (fun p => do v <- eval size venv (snd p); Ok (fst p, v)) es with
  | Ok vs => exists h' rs, heval_dict size h env es = Ok (h', rs) /\ extends h h' (fresh_ref (List.length h) (List.length h')) /\
               holds_dict h' rs vs /\ forall r, In r (map snd rs) -> In r (map snd env) \/ fresh_ref (List.length h) (List.length h') r
  | Err e => heval_dict size h env es = Err e
  end.
Proof.
  induction es as [|[n e] es IH]; intros h H; cbn [mapM heval_dict fst snd].
  - exists h, []. split; [reflexivity|]. split; [apply extends_refl|]. split; [constructor|intros r []].
  - pose proof (eval_sim h env venv e H) as E. unfold sim_value in E. destruct (eval size venv e) as [v|x]; cbn [bind].
    2: { rewrite E. reflexivity. }
    destruct E as (h1 & r & E & X & V & R). rewrite E. cbn [bind fst snd].
    specialize (IH h1 (dict_ext _ _ _ _ _ X H)).
    destruct (mapM (fun p => do v <- eval size venv (snd p); Ok (fst p, v)) es) as [vs|x]; cbn [bind].
    2: { rewrite IH. reflexivity. }
    destruct IH as (h2 & rs & E2 & X2 & V2 & R2). rewrite E2. cbn [bind fst snd]. exists h2, ((n, r) :: rs).
    pose proof (extends_len _ _ _ X). pose proof (extends_len _ _ _ X2).
    split; [reflexivity|]. split.
    + eapply extends_trans; (eapply extends_weaken; [|eassumption]); intros z; apply fresh_wider; lia.
    + split; [constructor; [eapply holds_ext; eassumption|exact V2]|].
      intros z [<-|I].
      * destruct R as [R|R]; [left; exact R|right; eapply fresh_wider; [| |exact R]; lia].
      * destruct (R2 z I) as [Q|Q]; [left; exact Q|right; eapply fresh_wider; [| |exact Q]; lia].
Qed.

(** New cells behind the heap keep everything. *)
Lemma header_inside h d vd l : holds_dict h d vd -> hget "header" d = Some (HRef l) -> (l < List.length h)%nat.
Proof. intros H E. apply hget_in in E. destruct (dict_holds_in _ _ _ _ H E) as (x & X). exact (inside_holds _ _ _ X). Qed.
Lemma keeps_ext h h' d : extends h h' (fresh_ref (List.length h) (List.length h')) -> keeps h d h' d.
Proof.
  intros X. split; [eapply extends_len, X|]. split; [|auto]. intros r v H _. eapply holds_ext; eassumption.
Qed.
Lemma owned_ext h h' d vd : holds_dict h d vd -> owned h d -> extends h h' (fresh_ref (List.length h) (List.length h')) -> owned h' d.
Proof.
  intros H [C U] X. split; [eapply closed_ext; eassumption|]. intros l E. destruct (U l E) as [A B]. split; [|exact B].
  eapply unreferenced_ext; [exact A|eapply header_inside; eassumption|exact X].
Qed.
Lemma apart_fresh h (h' : heap) d vd r : holds_dict h d vd -> fresh_ref (List.length h) (List.length h') r -> apart d r.
Proof.
  intros H F l E X. subst r. pose proof (header_inside _ _ _ _ H E). cbn in F. lia.
Qed.

Lemma set_sim h d vd n r v : String.eqb n "header" = false -> holds_dict h d vd -> owned h d -> holds h r v -> apart d r ->
  holds_dict h (hset n r d) (set_attr n v vd) /\ owned h (hset n r d) /\ keeps h d h (hset n r d).
Proof.
  intros N H [C U] V A. split; [apply set_holds; assumption|].
  assert (G : hget "header" (hset n r d) = hget "header" d) by (rewrite hget_hset, N; reflexivity). split.
  - split; [exact C|]. intros l E. rewrite G in E. destruct (U l E) as [X Y]. split; [exact X|].
    intros I. apply drop_hset in I as [I|I]; [|exact (Y I)|exact N]. exact (A l E (eq_sym I)).
  - split; [lia|]. split; [auto|]. intros x _ B l E. rewrite G in E. exact (B l E).
Qed.

Lemma header_sim h d vd n r v : holds_dict h d vd -> owned h d -> holds h r v -> apart d r ->
  match set_header n v vd with
  | Ok vd' => exists h', hset_header n r h d = Ok h' /\ holds_dict h' d vd' /\ owned h' d /\ keeps h d h' d
  | Err e => hset_header n r h d = Err e
  end.
Proof.
  intros H [C U] V A. unfold set_header, hset_header. pose proof (get_holds h d vd "header" H) as G.
  destruct (get_attr "header" vd) as [x|] eqn:GA; [destruct G as (rh & G & X)|rewrite G; reflexivity]. rewrite G.
  destruct rh as [w|l]; [inversion X; subst; destruct x; try reflexivity; discriminate|].
  destruct (U l G) as [UR ND].
  assert (L : (l < List.length h)%nat) by exact (inside_holds _ _ _ X).
  inversion X as [|? ? N BO|? c fs attrs N D|? lc pc rs items N D]; subst; rewrite N.
  - destruct x; try reflexivity; discriminate.
  - set (h' := write l (StructCell c (hset n r fs)) h). exists h'. split; [reflexivity|].
    assert (LEN : List.length h' = List.length h) by apply write_length.
    assert (OTHER : forall r0 l0 c0, r0 <> HRef l -> reach h r0 l0 -> nth_error h l0 = Some c0 -> nth_error h' l0 = Some c0).
    { intros r0 l0 c0 NE R E. unfold h'. rewrite nth_write by (apply nth_error_Some; congruence).
      destruct (Nat.eqb l0 l) eqn:Q; [|exact E]. apply Nat.eqb_eq in Q. subst l0. elim NE. eapply unreferenced_reach; eassumption. }
    assert (KEEP : forall r0 v0, holds h r0 v0 -> r0 <> HRef l -> holds h' r0 v0).
    { intros r0 v0 Q NE. apply (proj1 (holds_frame h h') r0 v0 Q). intros l0 c0. apply OTHER, NE. }
    assert (KD : forall d0 v0, holds_dict h d0 v0 -> ~ In (HRef l) (map snd d0) -> holds_dict h' d0 v0).
    { intros d0 v0 Q NE. apply (proj1 (proj2 (holds_frame h h')) d0 v0 Q). intros r0 l0 c0 I. apply OTHER. intros ->. exact (NE I). }
    assert (HH : holds h' (HRef l) (VObj c (set_attr n v attrs))).
    { eapply holds_struct.
      - unfold h'. rewrite nth_write by exact L. rewrite Nat.eqb_refl. reflexivity.
      - apply set_holds; [apply KD; [exact D|]|apply KEEP; [exact V|exact (A l G)]].
        intros I. exact (UR _ (nth_error_In _ _ N) I). }
    split.
    { clear - H G ND KD HH. induction H as [|m r' x' fs' attrs' Hr D IH]; cbn [hget set_attr drop_key] in *; [discriminate G|].
      destruct (String.eqb m "header") eqn:E.
      - injection G as ->. apply String.eqb_eq in E as ->. constructor; [exact HH|]. apply KD; assumption.
      - cbn [map snd In] in ND. constructor; [|apply IH; [exact G|intros I; apply ND; right; exact I]].
        assert (Q : holds_dict h' [(m, r')] [(m, x')]).
        { apply KD; [constructor; [exact Hr|constructor]|]. intros [I|[] ]. apply ND. left. exact I. }
        inversion Q; assumption. }
    split; [|split; [lia|]; split; [intros r0 v0 Q Z; apply KEEP; [exact Q|exact (Z l G)]|auto] ].
    split.
    + intros k cl r0 E I. assert (inside h r0); [|destruct r0; cbn in *; [exact Logic.I|lia] ].
      assert (KL : (k < List.length h)%nat) by (rewrite <- LEN; apply nth_error_Some; congruence).
      unfold h' in E. rewrite nth_write in E by exact KL. destruct (Nat.eqb k l).
      * injection E as <-. cbn [kids] in I. apply hset_in in I as [->|I]; [eapply inside_holds, V|]. eapply (C l); [exact N|exact I].
      * eapply C; eassumption.
    + intros l0 E. rewrite G in E. injection E as <-. split; [|exact ND]. intros cl I J.
      apply write_in in I as [->|I]; [|exact (UR cl I J)]. cbn [kids] in J. apply hset_in in J as [J|J].
      * exact (A l G (eq_sym J)).
      * exact (UR _ (nth_error_In _ _ N) J).
  - reflexivity.
Qed.

Definition sim_run (x : res dict) (y : res (heap * hdict)) (h : heap) (d : hdict) : Prop :=
  match x with
  | Ok vd' => exists h' d', y = Ok (h', d') /\ holds_dict h' d' vd' /\ owned h' d' /\ keeps h d h' d'
  | Err e => y = Err e
  end.
Definition sim_super (vsup : list pyval -> dict -> dict -> res dict)
    (sup : list hval -> hdict -> heap -> hdict -> res (heap * hdict)) (h0 : heap) : Prop :=
  forall pos kw h d vpos vkw vd, (forall k n v, holds h0 (HRef (shared k n)) v -> holds h (HRef (shared k n)) v /\ apart d (HRef (shared k n))) ->
    holds_items h pos vpos -> holds_dict h kw vkw -> holds_dict h d vd -> owned h d ->
    (forall r, In r pos -> apart d r) -> (forall r, In r (map snd kw) -> apart d r) ->
    sim_run (vsup vpos vkw vd) (sup pos kw h d) h d.

Lemma keeps_apart h d h' d' vals : keeps h d h' d' -> (forall r, In r vals -> exists v, holds h r v) ->
  (forall r, In r vals -> apart d r) -> forall r, In r vals -> apart d' r.
Proof.
  intros (_ & _ & K) H A r I. destruct (H r I) as (v & V). apply K; [eapply inside_holds, V|apply A, I].
Qed.
Lemma keeps_dict h d h' d' x vx : keeps h d h' d' -> holds_dict h x vx -> (forall r, In r (map snd x) -> apart d r) -> holds_dict h' x vx.
Proof.
  intros (_ & K & _) H. induction H as [|m r v fs attrs H D IH]; intros A; constructor.
  - apply K; [exact H|apply A; left; reflexivity].
  - apply IH. intros r' I. apply A. right. exact I.
Qed.

(** The defaults stay what they are. *)
Definition defaults_kept (h0 : heap) (h : heap) (d : hdict) : Prop :=
  forall k n v, holds h0 (HRef (shared k n)) v -> holds h (HRef (shared k n)) v /\ apart d (HRef (shared k n)).
Lemma defaults_keep h0 h d h' d' : keeps h d h' d' -> defaults_kept h0 h d -> defaults_kept h0 h' d'.
Proof.
  intros (L & K & A) D k n v H. destruct (D k n v H) as [X Y]. split; [apply K; assumption|]. apply A; [eapply inside_holds, X|exact Y].
Qed.

Lemma step_sim h0 vsup sup env venv s h d vd : sim_super vsup sup h0 -> (forall n e, s = ISet n e -> String.eqb n "header" = false) ->
  defaults_kept h0 h d -> holds_dict h env venv -> (forall r, In r (map snd env) -> apart d r) -> holds_dict h d vd -> owned h d ->
  sim_run (istep size plain_size self vsup venv s vd) (hstep size plain_size self sup env s h d) h d.
Proof.
  intros SUP NH DK HE AE HD OD. destruct s as [pos kw|n e|n e| |]; cbn [istep hstep].
  - pose proof (eval_list_sim env venv pos h HE) as E. destruct (mapM (eval size venv) pos) as [vs|x]; cbn [bind].
    2: { rewrite E. reflexivity. }
    destruct E as (h1 & ps & E & X & V & R). rewrite E. cbn [bind fst snd].
    pose proof (eval_dict_sim env venv kw h1 (dict_ext _ _ _ _ _ X HE)) as E2.
    destruct (mapM (fun p => do v <- eval size venv (snd p); Ok (fst p, v)) kw) as [ks|x]; cbn [bind].
    2: { rewrite E2. reflexivity. }
    destruct E2 as (h2 & rs & E2 & X2 & V2 & R2). rewrite E2. cbn [bind fst snd].
    assert (HD1 : holds_dict h1 d vd) by (eapply dict_ext; eassumption).
    assert (K1 : keeps h d h1 d) by (apply keeps_ext, X). assert (K2 : keeps h1 d h2 d) by (apply keeps_ext, X2).
    assert (K : keeps h d h2 d) by (eapply keeps_trans; eassumption).
    pose proof (extends_len _ _ _ X) as L1. pose proof (extends_len _ _ _ X2) as L2.
    assert (S : sim_run (vsup vs ks vd) (sup ps rs h2 d) h2 d).
    { apply SUP.
      - eapply (defaults_keep h0 h d); eassumption.
      - eapply items_ext; eassumption.
      - exact V2.
      - eapply dict_ext; eassumption.
      - eapply owned_ext; [exact HD1|eapply owned_ext; [exact HD|exact OD|exact X]|exact X2].
      - intros r I. destruct (R r I) as [Q|Q]; [apply AE, Q|]. exact (apart_fresh h h1 d vd r HD Q).
      - intros r I. destruct (R2 r I) as [Q|Q]; [apply AE, Q|]. exact (apart_fresh h1 h2 d vd r HD1 Q). }
    unfold sim_run in *. destruct (vsup vs ks vd) as [vd'|x]; [|exact S].
    destruct S as (h3 & d3 & S1 & S2 & S3 & S4). exists h3, d3. split; [exact S1|]. split; [exact S2|]. split; [exact S3|]. eapply keeps_trans; eassumption.
  - pose proof (eval_sim h env venv e HE) as E. unfold sim_value in E. destruct (eval size venv e) as [v|x]; cbn [bind].
    2: { rewrite E. reflexivity. }
    destruct E as (h1 & r & E & X & V & R). rewrite E. cbn [bind fst snd].
    destruct (set_sim h1 d vd n r v) as (A & B & C); [eapply NH; reflexivity|eapply dict_ext; eassumption|eapply owned_ext; eassumption|exact V| |].
    { destruct R as [R|R]; [apply AE, R|eapply apart_fresh; eassumption]. }
    exists h1, (hset n r d). split; [reflexivity|]. split; [exact A|]. split; [exact B|]. eapply keeps_trans; [apply keeps_ext, X|exact C].
  - pose proof (eval_sim h env venv e HE) as E. unfold sim_value in E. destruct (eval size venv e) as [v|x]; cbn [bind].
    2: { rewrite E. reflexivity. }
    destruct E as (h1 & r & E & X & V & R). rewrite E. cbn [bind fst snd].
    assert (S : match set_header n v vd with
      | Ok vd' => exists h', hset_header n r h1 d = Ok h' /\ holds_dict h' d vd' /\ owned h' d /\ keeps h1 d h' d
      | Err e => hset_header n r h1 d = Err e end).
    { apply header_sim; [eapply dict_ext; eassumption|eapply owned_ext; eassumption|exact V|].
      destruct R as [R|R]; [apply AE, R|eapply apart_fresh; eassumption]. }
    unfold sim_run. destruct (set_header n v vd) as [vd'|x]; [|rewrite S; reflexivity].
    destruct S as (h2 & S1 & S2 & S3 & S4). rewrite S1. cbn [bind]. exists h2, d. split; [reflexivity|]. split; [exact S2|]. split; [exact S3|].
    eapply keeps_trans; [apply keeps_ext, X|exact S4].
  - rewrite (view_dict_holds _ _ _ HD). cbn [bind]. destruct (size (VObj self vd)) as [z|x]; cbn [bind]; [|reflexivity].
    destruct (set_sim h d vd "length" (HImm (VInt z)) (VInt z)) as (A & B & C); auto; [constructor; reflexivity|intros l _; discriminate|].
    exists h, (hset "length" (HImm (VInt z)) d). auto.
  - rewrite (view_dict_holds _ _ _ HD). cbn [bind]. destruct (plain_size self vd) as [z|x]; cbn [bind]; [|reflexivity].
    destruct (set_sim h d vd "length" (HImm (VInt z)) (VInt z)) as (A & B & C); auto; [constructor; reflexivity|intros l _; discriminate|].
    exists h, (hset "length" (HImm (VInt z)) d). auto.
Qed.

Lemma steps_sim h0 vsup sup env venv code : sim_super vsup sup h0 -> (forall n e, In (ISet n e) code -> String.eqb n "header" = false) ->
  forall h d vd, defaults_kept h0 h d -> holds_dict h env venv -> (forall r, In r (map snd env) -> apart d r) -> holds_dict h d vd -> owned h d ->
  sim_run (isteps size plain_size self vsup venv code vd) (hsteps size plain_size self sup env code h d) h d.
Proof.
  intros SUP. induction code as [|s code IH]; intros NH h d vd DK HE AE HD OD; cbn [isteps hsteps].
  - exists h, d. split; [reflexivity|]. split; [exact HD|]. split; [exact OD|]. apply keeps_refl.
  - pose proof (step_sim h0 vsup sup env venv s h d vd SUP) as S.
    specialize (S (fun n e Q => NH n e (or_introl Q)) DK HE AE HD OD). unfold sim_run in S.
    destruct (istep size plain_size self vsup venv s vd) as [vd1|x]; cbn [bind]; [|rewrite S; reflexivity].
    destruct S as (h1 & d1 & S1 & S2 & S3 & S4). rewrite S1. cbn [bind fst snd].
    assert (S : sim_run (isteps size plain_size self vsup venv code vd1) (hsteps size plain_size self sup env code h1 d1) h1 d1).
    { apply IH; auto.
      - intros n e I. apply (NH n e). right. exact I.
      - exact (defaults_keep _ _ _ _ _ S4 DK).
      - exact (keeps_dict _ _ _ _ _ _ S4 HE AE).
      - eapply keeps_apart; [exact S4| |exact AE]. intros r I. exact (dict_holds_in _ _ _ _ HE I). }
    unfold sim_run in *. destruct (isteps size plain_size self vsup venv code vd1) as [vd2|x]; [|exact S].
    destruct S as (h2 & d2 & T1 & T2 & T3 & T4). exists h2, d2. split; [exact T1|]. split; [exact T2|]. split; [exact T3|]. eapply keeps_trans; eassumption.
Qed.

(** Binding arguments. *)
Lemma key_sim h n kw vkw : holds_dict h kw vkw ->
  match key n vkw with Some v => exists r, key n kw = Some r /\ holds h r v /\ In r (map snd kw) | None => key n kw = None end /\
  holds_dict h (drop_key n kw) (drop_key n vkw).
Proof.
  intros H. induction H as [|m r v fs attrs H D [IH1 IH2] ]; cbn [key drop_key map snd].
  - split; [reflexivity|constructor].
  - destruct (String.eqb m n).
    + split; [|exact D]. exists r. cbn. auto.
    + split; [|constructor; assumption]. destruct (key n attrs) as [x|]; [|exact IH1].
      destruct IH1 as (r' & A & B & C). exists r'. cbn. auto.
Qed.
Lemma bind_sim h ps vps : holds_dict h ps vps -> forall pos kw vpos vkw, holds_items h pos vpos -> holds_dict h kw vkw ->
  match bind_args vps vpos vkw with
  | Ok venv => exists env, bind_args ps pos kw = Ok env /\ holds_dict h env venv
  | Err e => bind_args ps pos kw = Err e
  end.
Proof.
  intros H. induction H as [|n r v fs attrs H D IH]; intros pos kw vpos vkw HP HK; cbn [bind_args].
  - destruct HP; [destruct HK|]; [|reflexivity|reflexivity]. exists []. split; [reflexivity|constructor].
  - destruct HP as [|r' v' rs vs HR HP].
    + destruct (key_sim h n kw vkw HK) as [K1 K2]. destruct (key n vkw) as [x|].
      * destruct K1 as (r' & K1 & K3 & _). rewrite K1. specialize (IH [] (drop_key n kw) [] (drop_key n vkw) ltac:(constructor) K2).
        destruct (bind_args attrs [] (drop_key n vkw)) as [e|e]; cbn [bind]; [|rewrite IH; reflexivity].
        destruct IH as (env & A & B). rewrite A. cbn [bind]. eexists. split; [reflexivity|]. constructor; assumption.
      * rewrite K1. specialize (IH [] kw [] vkw ltac:(constructor) HK).
        destruct (bind_args attrs [] vkw) as [e|e]; cbn [bind]; [|rewrite IH; reflexivity].
        destruct IH as (env & A & B). rewrite A. cbn [bind]. eexists. split; [reflexivity|]. constructor; assumption.
    + specialize (IH rs kw vs vkw HP HK).
      destruct (bind_args attrs vs vkw) as [e|e]; cbn [bind]; [|rewrite IH; reflexivity].
      destruct IH as (env & A & B). rewrite A. cbn [bind]. eexists. split; [reflexivity|]. constructor; assumption.
Qed.

(** The deep copies of the class attributes. *)
Definition not_cell (rs : list hval) (r : hval) : Prop := match r with HImm _ => True | HRef _ => ~ In r rs end.
Fixpoint distinct (rs : list hval) : Prop := match rs with [] => True | r :: tl => not_cell tl r /\ distinct tl end.

Lemma alloc_top v h h' l : closed h -> alloc v h = (h', HRef l) -> unreferenced h' l.
Proof.
  intros C A. assert (X : exists h1 c, h' = h1 ++ [c] /\ l = List.length h1 /\ extends h h1 (fresh_ref (List.length h) (List.length h1)) /\
    forall r, In r (kids c) -> fresh_ref (List.length h) (List.length h1) r).
  { destruct v; cbn [alloc immutable] in A; try discriminate A;
      try (injection A as <- <-; eexists; eexists; split; [reflexivity|]; split; [reflexivity|]; split; [apply extends_refl|intros r []]).
    - change (alloc (VObj c attrs) h = (h', HRef l)) in A. rewrite alloc_obj in A. injection A as <- <-.
      destruct (alloc_dict_fresh attrs h) as [X F]. eexists. eexists. split; [reflexivity|]. split; [reflexivity|]. split; [exact X|].
      intros r I. rewrite Forall_forall in F. apply F, I.
    - change (alloc (VList lc pc items) h = (h', HRef l)) in A. rewrite alloc_vlist in A. injection A as <- <-.
      assert (Q : forall ls h, extends h (fst (alloc_list ls h)) (fresh_ref (List.length h) (List.length (fst (alloc_list ls h)))) /\
        Forall (fresh_ref (List.length h) (List.length (fst (alloc_list ls h)))) (snd (alloc_list ls h))).
      { clear. induction ls as [|x ls IH]; intros h; cbn [alloc_list fst snd]; [split; [apply extends_refl|constructor]|].
        destruct (alloc x h) as [h1 r] eqn:A. destruct (alloc_fresh x _ _ _ A) as [X F]. destruct (IH h1) as [X' F'].
        cbn [fst snd]. exact (alloc_step _ _ _ _ _ X F X' F'). }
      destruct (Q items h) as [X F]. eexists. eexists. split; [reflexivity|]. split; [reflexivity|]. split; [exact X|].
      intros r I. rewrite Forall_forall in F. apply F, I. }
  destruct X as (h1 & c & -> & -> & X & K). intros c' I J. pose proof (extends_len _ _ _ X) as L.
  pose proof (closed_ext _ _ C X) as C1. apply in_app_or in I as [I|[<-|[] ]].
  - apply In_nth_error in I as (k & N). specialize (C1 _ _ _ N J). cbn in C1. lia.
  - specialize (K _ J). cbn in K. lia.
Qed.
Lemma alloc_dict_top ls : forall h, closed h ->
  let a := alloc_dict ls h in closed (fst a) /\ distinct (map snd (snd a)) /\
  forall l, In (HRef l) (map snd (snd a)) -> unreferenced (fst a) l.
Proof.
  induction ls as [|[n x] ls IH]; intros h C; cbn [alloc_dict fst snd map].
  - split; [exact C|]. split; [exact Logic.I|intros l []].
  - destruct (alloc x h) as [h1 r] eqn:A. destruct (alloc_fresh x _ _ _ A) as [X F]. cbn [fst snd].
    pose proof (closed_ext _ _ C X) as C1. destruct (IH h1 C1) as (D1 & D2 & D3).
    destruct (alloc_dict_fresh ls h1) as [X1 F1]. split; [exact D1|]. split.
    + cbn [distinct]. split; [|exact D2]. destruct r as [v|l]; [exact Logic.I|]. intros I.
      rewrite Forall_forall in F1. specialize (F1 _ I). cbn in F, F1. lia.
    + intros l [->|I]; [|apply D3, I]. eapply unreferenced_ext; [exact (alloc_top _ _ _ _ C A)|cbn in F; unfold loc in *; lia|exact X1].
Qed.

Lemma fold_sim h : forall l vl, holds_dict h l vl -> distinct (map snd l) -> (forall k, In (HRef k) (map snd l) -> unreferenced h k) ->
  forall d vd, holds_dict h d vd -> owned h d -> (forall k, In (HRef k) (map snd l) -> ~ In (HRef k) (map snd d)) ->
  let d' := fold_left (fun d p => hset (fst p) (snd p) d) l d in
  holds_dict h d' (fold_left (fun d p => set_attr (fst p) (snd p) d) vl vd) /\ owned h d' /\
  forall k, hget "header" d' = Some (HRef k) -> hget "header" d = Some (HRef k) \/ In (HRef k) (map snd l).
Proof.
  intros l vl H. induction H as [|n r v fs attrs H D IH]; intros DI UN d vd HD OD NI; cbn [fold_left fst snd].
  - split; [exact HD|]. split; [exact OD|auto].
  - cbn [map snd distinct] in *. destruct DI as [DI1 DI2].
    destruct (IH DI2 (fun k I => UN k (or_intror I)) (hset n r d) (set_attr n v vd)) as (A & B & Q).
    + apply set_holds; assumption.
    + destruct OD as [C U]. split; [exact C|]. intros k E. rewrite hget_hset in E. destruct (String.eqb n "header") eqn:N.
      * injection E as ->. apply String.eqb_eq in N as ->. split; [apply UN; left; reflexivity|].
        intros I. apply drop_hset_header in I. exact (NI k (or_introl eq_refl) I).
      * destruct (U k E) as [U1 U2]. split; [exact U1|]. intros I. apply drop_hset in I as [I|I]; [|exact (U2 I)|exact N].
        subst r. apply (NI k (or_introl eq_refl)). eapply hget_in, E.
    + intros k I J. apply hset_in in J as [J|J]; [|exact (NI k (or_intror I) J)]. subst r. exact (DI1 I).
    + split; [exact A|]. split; [exact B|]. intros k E. destruct (Q k E) as [Z|Z]; [|right; right; exact Z].
      rewrite hget_hset in Z. destruct (String.eqb n "header"); [right; left; congruence|left; exact Z].
Qed.

Lemma copies_sim h d vd : holds_dict h d vd -> owned h d ->
  let a := alloc_dict (copies self) h in
  let d' := fold_left (fun d p => hset (fst p) (snd p) d) (snd a) d in
  holds_dict (fst a) d' (fold_left (fun d p => set_attr (fst p) (snd p) d) (copies self) vd) /\ owned (fst a) d' /\ keeps h d (fst a) d'.
Proof.
  intros HD OD a. destruct (alloc_dict_fresh (copies self) h) as [X F]. fold a in X, F.
  destruct (alloc_dict_top (copies self) h (proj1 OD)) as (C & DI & UN). fold a in C, DI, UN.
  pose proof (alloc_dict_holds (copies self) h) as HA. fold a in HA. pose proof (extends_len _ _ _ X) as L.
  destruct (fold_sim (fst a) (snd a) (copies self) HA DI UN d vd) as (A & B & Q).
  - eapply dict_ext; eassumption.
  - eapply owned_ext; eassumption.
  - intros k I J. rewrite Forall_forall in F. specialize (F _ I). cbn in F. destruct (dict_holds_in _ _ _ _ HD J) as (x & V).
    pose proof (inside_holds _ _ _ V) as W. cbn in W. lia.
  - split; [exact A|]. split; [exact B|]. split; [exact L|]. split.
    + intros r v V _. eapply holds_ext; eassumption.
    + intros r I AP k E ->. destruct (Q k E) as [Z|Z]; [exact (AP k Z eq_refl)|].
      rewrite Forall_forall in F. specialize (F _ Z). cbn in F, I. lia.
Qed.
End Sim.

(** ** Running an __init__ *)

Section Run.
Variable size : pyval -> res Z.
Variable plain_size : cid -> dict -> res Z.
Variable shared : cid -> string -> loc.
Variable rnd : Z.
Variable self : cid.

Definition plain_run n k pos kw d : res dict :=
  match class_base k with
  | None => Err TypeError
  | Some b => match init_code k with
              | None => run_init size plain_size rnd self n b pos kw d
              | Some (ps, code) => do env <- bind_args ps pos kw; isteps size plain_size self (run_init size plain_size rnd self n b) env code d
              end
  end.
Lemma run_cases k : k = CGenericStruct \/ k = CGenericMessage \/
  ((forall n pos kw d, run_init size plain_size rnd self (S n) k pos kw d = plain_run n k pos kw d) /\
   forall n pos kw h d, hrun_init size plain_size shared rnd self (S n) k pos kw h d = generic_run size plain_size shared rnd self n k pos kw h d).
Proof.
  assert (X : forall n pos kw d, exists A B, run_init size plain_size rnd self (S n) k pos kw d =
    match k with CGenericStruct => A | CGenericMessage => B | _ => plain_run n k pos kw d end).
  { intros. eexists. eexists. reflexivity. }
  destruct (hrun_cases size plain_size shared rnd self k) as [->|[->|Y] ]; auto.
  revert X Y. generalize (plain_run) (run_init size plain_size rnd self) (generic_run size plain_size shared rnd self) (hrun_init size plain_size shared rnd self).
  intros g f g' f' X Y.
  destruct k; first [left; reflexivity|right; left; reflexivity|right; right; split; [intros n pos kw d; destruct (X n pos kw d) as (A & B & E); exact E|exact Y] ].
Qed.

Lemma defaults_sim h0 h d k ps : defaults_kept shared h0 h d ->
  (forall m v, In (m, v) ps -> immutable v = false -> holds h0 (HRef (shared k m)) v) ->
  holds_dict h (map (hdefault shared k) ps) ps /\ forall r, In r (map snd (map (hdefault shared k) ps)) -> apart d r.
Proof.
  intros DK. induction ps as [|[m v] ps IH]; intros H; cbn [map snd]; [split; [constructor|intros r []]|].
  destruct IH as [A B]; [intros m' v' I; apply H; right; exact I|]. unfold hdefault at 1 3. cbn [fst snd].
  destruct (immutable v) eqn:IM.
  - split; [constructor; [constructor; exact IM|exact A]|]. intros r [<-|I]; [intros l _; discriminate|apply B, I].
  - destruct (DK k m v (H m v (or_introl eq_refl) IM)) as [X Y]. split; [constructor; assumption|]. intros r [<-|I]; [exact Y|apply B, I].
Qed.

Lemma run_sim h0 : forall n k, defaults_hold shared h0 (mutable_defaults_n n k) ->
  sim_super shared (run_init size plain_size rnd self n k) (hrun_init size plain_size shared rnd self n k) h0.
Proof.
  induction n as [|n IH]; intros k MD pos kw h d vpos vkw vd DK HP HK HD OD AP AK; [reflexivity|].
  assert (GEN : sim_run (plain_run n k vpos vkw vd) (generic_run size plain_size shared rnd self n k pos kw h d) h d).
  { unfold plain_run, generic_run. destruct (class_base k) as [b|] eqn:B; [|reflexivity].
    assert (BASE : sim_super shared (run_init size plain_size rnd self n b) (hrun_init size plain_size shared rnd self n b) h0).
    { apply IH. intros k' m ps code v I. apply (MD k'). cbn [mutable_defaults_n]. rewrite B. apply in_or_app. right. exact I. }
    destruct (init_code k) as [[ps code]|] eqn:C; [|apply BASE; assumption].
    destruct (defaults_sim h0 h d k ps DK) as [DA DB].
    { intros m v I IM. eapply (MD k m ps code v); [|exact C|exact I].
      cbn [mutable_defaults_n]. rewrite C. apply in_or_app. left. apply in_map_iff. exists (m, v). split; [reflexivity|].
      apply filter_In. split; [exact I|]. cbn [snd]. rewrite IM. reflexivity. }
    pose proof (bind_sim h _ _ DA pos kw vpos vkw HP HK) as BA.
    destruct (bind_args ps vpos vkw) as [venv|e]; cbn [bind]; [|rewrite BA; reflexivity].
    destruct BA as (env & BA & BE). rewrite BA. cbn [bind].
    apply (steps_sim size plain_size shared self h0); try assumption.
    - intros m e. eapply no_header_set, C.
    - assert (FE : Forall (apart d) (map snd env)).
      { eapply bind_args_in; [exact BA| | |]; apply Forall_forall; assumption. }
      rewrite Forall_forall in FE. exact FE. }
  destruct (run_cases k) as [-> |[-> |[U1 U2] ] ]; [| |rewrite U1, U2; exact GEN].
  - clear GEN. cbn [run_init hrun_init]. pose proof (bind_sim h [] [] ltac:(constructor) pos kw vpos vkw HP HK) as BA.
    destruct (bind_args [] vpos vkw) as [venv|e]; cbn [bind]; [|rewrite BA; reflexivity].
    destruct BA as (env & BA & _). rewrite BA. cbn [bind].
    destruct (copies_sim self h d vd HD OD) as (A & B & C).
    eexists. eexists. split; [reflexivity|]. split; [exact A|]. split; [exact B|exact C].
  - clear GEN. cbn [run_init hrun_init].
    assert (HX : holds_dict h [("xid", HImm VNone)] [("xid", VNone)]) by (constructor; [constructor; reflexivity|constructor]).
    pose proof (bind_sim h _ _ HX pos kw vpos vkw HP HK) as BA.
    destruct (bind_args [("xid", VNone)] vpos vkw) as [venv|e]; cbn [bind]; [|rewrite BA; reflexivity].
    destruct BA as (env & BA & BE). rewrite BA. cbn [bind].
    assert (AE : forall r, In r (map snd env) -> apart d r).
    { assert (FE : Forall (apart d) (map snd env)).
      { eapply bind_args_in; [exact BA| | |]; apply Forall_forall; try assumption. intros r [<-|[] ] l _; discriminate. }
      rewrite Forall_forall in FE. exact FE. }
    assert (SG : sim_run (run_init size plain_size rnd self n CGenericStruct [] [] vd) (hrun_init size plain_size shared rnd self n CGenericStruct [] [] h d) h d).
    { apply IH.
      - intros k' m ps code v I. rewrite no_defaults_struct in I. destruct I.
      - exact DK.
      - constructor.
      - constructor.
      - exact HD.
      - exact OD.
      - intros r [].
      - intros r []. }
    unfold sim_run in SG. destruct (run_init size plain_size rnd self n CGenericStruct [] [] vd) as [vd1|e]; cbn [bind]; [|rewrite SG; reflexivity].
    destruct SG as (h1 & d1 & S1 & S2 & S3 & S4). rewrite S1. cbn [bind fst snd].
    assert (BE1 : holds_dict h1 env venv) by exact (keeps_dict _ _ _ _ _ _ S4 BE AE).
    assert (AE1 : forall r, In r (map snd env) -> apart d1 r).
    { eapply keeps_apart; [exact S4| |exact AE]. intros r I. exact (dict_holds_in _ _ _ _ BE I). }
    pose proof (step_sim size plain_size shared self h0 _ _ env venv (IHeader "xid" (XIfNone "xid" (VInt rnd))) h1 d1 vd1 (IH CGenericStruct ltac:(intros k' m ps code v I; rewrite no_defaults_struct in I; destruct I))) as ST.
    specialize (ST ltac:(discriminate) (defaults_keep shared h0 _ _ _ _ S4 DK) BE1 AE1 S2 S3).
    cbn [istep hstep] in ST. unfold sim_run in *.
    match type of ST with match ?x with _ => _ end => destruct x as [vd2|e] end; [|exact ST].
    destruct ST as (h2 & d2 & T1 & T2 & T3 & T4). exists h2, d2. split; [exact T1|]. split; [exact T2|]. split; [exact T3|]. eapply keeps_trans; eassumption.
Qed.
End Run.

Lemma construct_run shared rnd c pos kw h vpos vkw size plain n :
  closed h -> holds_items h pos vpos -> holds_dict h kw vkw -> defaults_hold shared h (mutable_defaults_n n c) ->
  match run_init size plain rnd c n c vpos vkw [] with
  | Ok v => exists h' d', hrun_init size plain shared rnd c n c pos kw h [] = Ok (h', d') /\ holds_dict h' d' v
  | Err e => hrun_init size plain shared rnd c n c pos kw h [] = Err e
  end.
Proof.
  intros C HP HK MD. pose proof (run_sim size plain shared rnd c h n c MD pos kw h [] vpos vkw []) as S.
  assert (NA : forall r, apart [] r) by (intros r l E; discriminate E).
  specialize (S (fun k m v H => conj H (NA _)) HP HK ltac:(constructor)).
  assert (OW : owned h []) by (split; [exact C|intros l E; discriminate E]).
  specialize (S OW (fun r _ => NA r) (fun r _ => NA r)).
  unfold sim_run in S. destruct (run_init size plain rnd c n c vpos vkw []) as [d|e]; [|exact S].
  destruct S as (h' & d' & S1 & S2 & _). exists h', d'. auto.
Qed.

Definition finish (c : cid) (a : res dict) : res pyval :=
  do d <- a; Ok (VObj c d).
Definition hfinish (c : cid) (a : res (heap * hdict)) : res (heap * loc) :=
  do a <- a; Ok (fst a ++ [StructCell c (snd a)], List.length (fst a)).
Lemma finish_value c a b :
  match a with Ok v => exists h' d', b = Ok (h', d') /\ holds_dict h' d' v | Err e => b = Err e end ->
  match finish c a with
  | Ok v => exists h' l, hfinish c b = Ok (h', l) /\ holds h' (HRef l) v
  | Err e => hfinish c b = Err e
  end.
Proof.
  destruct a as [v|e]; [|intros ->; reflexivity]. intros (h' & d' & -> & H). cbn [finish hfinish bind fst snd].
  eexists. eexists. split; [reflexivity|]. eapply holds_struct; [apply nth_last|]. apply holds_app, H.
Qed.
Lemma not_match c : c <> Match01 -> forall shared rnd pos kw vpos vkw h,
  construct rnd c vpos vkw = finish c (run_init get_size (fun c d => struct_size get_size c d) rnd c INIT_DEPTH c vpos vkw []) /\
  hconstruct shared rnd c pos kw h = hfinish c (hrun_init get_size (fun c d => struct_size get_size c d) shared rnd c INIT_DEPTH c pos kw h []).
Proof.
  intros NE shared rnd pos kw vpos vkw h. unfold construct, hconstruct, finish, hfinish.
  generalize (run_init get_size (fun c d => struct_size get_size c d)) (hrun_init get_size (fun c d => struct_size get_size c d)).
  intros f g. destruct c; first [split; reflexivity|elim NE; reflexivity].
Qed.

(** ** The match of OpenFlow 1.0 with arguments *)

Lemma convert_kept default v x : stored_as_given default v = true -> convert default v = Ok x -> x = v.
Proof. intros K E. destruct default; destruct v; cbn in K, E; congruence. Qed.
Lemma set_attr_twice n x y l : set_attr n y (set_attr n x l) = set_attr n y l.
Proof.
  induction l as [|[k v] l IH]; cbn [set_attr]; [cbn [set_attr]; rewrite String.eqb_refl; reflexivity|].
  destruct (String.eqb k n) eqn:Q; cbn [set_attr]; [rewrite String.eqb_refl; reflexivity|]. rewrite Q, IH. reflexivity.
Qed.
Lemma set_attr_own n x l : get_attr n l = Some x -> set_attr n x l = l.
Proof.
  induction l as [|[k v] l IH]; cbn [get_attr set_attr]; [discriminate|].
  destruct (String.eqb k n) eqn:Q; [apply String.eqb_eq in Q; congruence|]. intros H. rewrite (IH H). reflexivity.
Qed.
Lemma get_attr_set n x l : get_attr n (set_attr n x l) = Some x.
Proof.
  induction l as [|[k v] l IH]; cbn [get_attr set_attr]; [rewrite String.eqb_refl; reflexivity|].
  destruct (String.eqb k n) eqn:Q; cbn [get_attr]; [rewrite String.eqb_refl; reflexivity|rewrite Q; exact IH].
Qed.
Lemma update_int op z m m' : op <> BAdd -> update op z m = Ok m' -> exists y, m' = set_attr "wildcards" (VInt y) m.
Proof.
  intros NA E. unfold update in E. destruct (attr_or_error "wildcards" m) as [w|]; cbn [bind] in E; [|discriminate E].
  destruct (py_op op w (VInt z)) as [r|] eqn:P; cbn [bind] in E; [|discriminate E].
  assert (Y : exists y, r = VInt y).
  { unfold py_op in P. cbn [is_generic_type] in P. unfold plain_op in P. cbn [as_int] in P.
    destruct (as_int (if is_generic_type w then value_of w else w)) as [a|].
    - unfold int_op in P. destruct op; try (injection P as <-; eexists; reflexivity); destruct (z <? 0)%Z; try discriminate P; injection P as <-; eexists; reflexivity.
    - destruct op; try discriminate P. elim NA; reflexivity. }
  destruct Y as [y ->]. exists y. congruence.
Qed.
Lemma fill_int n v default m m' : fill_wildcards n v default m = (m', None) ->
  m' = m \/ exists y, m' = set_attr "wildcards" (VInt y) m.
Proof.
  intros E. unfold fill_wildcards in E.
  assert (E' : (if String.eqb n "wildcards" then (m, None)
      else match default with
           | VIP _ _ =>
               let shift := if String.eqb n "nw_dst" then DST_SHIFT else SRC_SHIFT in
               let mask := if String.eqb n "nw_dst" then DST_MASK else SRC_MASK in
               match update BAnd (Z.lxor ALL_BITS mask) m with
               | Err e => (m, Some e)
               | Ok m1 =>
                   match v with
                   | VIP _ prefix =>
                       match update BOr (Z.shiftl (32 - prefix)%Z shift) m1 with
                       | Err e => (m1, Some e)
                       | Ok m2 => (m2, None)
                       end
                   | _ => (m1, Some AttributeError)
                   end
               end
           | _ =>
               match class_member E_FlowWildCards01 ("OFPFW_" ++ upper n)%string with
               | Err e => (m, Some e)
               | Ok bit =>
                   match (do w <- attr_or_error "wildcards" m; toggles v default w bit) with
                   | Err e => (m, Some e)
                   | Ok false => (m, None)
                   | Ok true => match update BXor bit m with
                                | Err e => (m, Some e)
                                | Ok m' => (m', None)
                                end
                   end
               end
           end) = (m', None) \/ (m, None) = (m', @None exn)) by (destruct v; first [left; exact E|right; exact E]).
  clear E. destruct E' as [E|E]; [|left; congruence].
  destruct (String.eqb n "wildcards"); [left; congruence|].
  set (other := match class_member E_FlowWildCards01 ("OFPFW_" ++ upper n)%string with
               | Err e => (m, Some e)
               | Ok bit =>
                   match (do w <- attr_or_error "wildcards" m; toggles v default w bit) with
                   | Err e => (m, Some e)
                   | Ok false => (m, None)
                   | Ok true => match update BXor bit m with
                                | Err e => (m, Some e)
                                | Ok m' => (m', None)
                                end
                   end
               end) in *.
  assert (O : other = (m', None) -> m' = m \/ exists y, m' = set_attr "wildcards" (VInt y) m).
  { clear E. unfold other. clear other. destruct (class_member E_FlowWildCards01 ("OFPFW_" ++ upper n)%string) as [bit|]; [|discriminate].
    destruct (do w <- attr_or_error "wildcards" m; toggles v default w bit) as [[|]|]; [| |discriminate].
    - destruct (update BXor bit m) as [m1|] eqn:U; [|discriminate]. intros Q. right.
      apply (update_int BXor bit m m'); [discriminate|congruence].
    - intros Q. left. congruence. }
  assert (I : (exists a b, default = VIP a b) \/ other = (m', None)) by (destruct default; first [left; do 2 eexists; reflexivity|right; exact E]).
  destruct I as [(a & b & ->)|I]; [|exact (O I)]. clear O other. cbv zeta in E.
  destruct (update BAnd (Z.lxor ALL_BITS (if String.eqb n "nw_dst" then DST_MASK else SRC_MASK)) m) as [m1|] eqn:U; [|discriminate E].
  destruct (update_int BAnd _ m m1 ltac:(discriminate) U) as [y ->].
  assert (I : exists x p, v = VIP x p) by (destruct v; try discriminate E; do 2 eexists; reflexivity). destruct I as (x & p & ->).
  destruct (update BOr (Z.shiftl (32 - p)%Z (if String.eqb n "nw_dst" then DST_SHIFT else SRC_SHIFT)) (set_attr "wildcards" (VInt y) m)) as [m2|] eqn:U2; [|discriminate E].
  destruct (update_int BOr _ _ m2 ltac:(discriminate) U2) as [y2 ->]. right. exists y2. rewrite set_attr_twice in E. congruence.
Qed.

Lemma match_set_value n r v h d vd : holds h r v -> holds_dict h d vd ->
  match match_set n v vd with
  | (vd', None) => exists h' d', hmatch_set n r h d = Ok (h', d') /\ holds_dict h' d' vd' /\ extends h h' (fun _ => True)
  | (_, Some e) => hmatch_set n r h d = Err e
  end.
Proof.
  intros H D. unfold match_set, hmatch_set. destruct (get_attr n (class_attrs Match01)) as [default|]; [|reflexivity].
  rewrite (view_holds _ _ _ H). cbn [bind]. destruct (convert default v) as [x|] eqn:C; cbn [bind]; [|reflexivity].
  assert (A : exists h1 r1, (if stored_as_given default v then (h, r) else alloc x h) = (h1, r1) /\ holds h1 r1 x /\ extends h h1 (fun _ => True)).
  { destruct (stored_as_given default v) eqn:K.
    - exists h, r. rewrite (convert_kept _ _ _ K C). split; [reflexivity|]. split; [exact H|apply extends_refl].
    - pose proof (alloc_holds x h) as Y. destruct (alloc x h) as [h1 r1] eqn:A. exists h1, r1. split; [reflexivity|]. split; [exact Y|].
      eapply extends_weaken; [|exact (proj1 (alloc_fresh x h h1 r1 A))]. auto. }
  destruct A as (h1 & r1 & A & H1 & X). rewrite A. cbv zeta. cbn [fst snd].
  pose proof (set_holds h1 d vd n r1 x (dict_ext _ _ _ _ _ X D) H1) as D1.
  rewrite (view_dict_holds _ _ _ D1). cbn [bind].
  destruct (fill_wildcards n x default (set_attr n x vd)) as [m' [e|]] eqn:F; [reflexivity|].
  eexists. eexists. split; [reflexivity|]. split; [|exact X].
  destruct (fill_int _ _ _ _ _ F) as [-> |[y ->] ].
  - destruct (get_attr "wildcards" (set_attr n x vd)) as [[]|] eqn:W; try exact D1.
    rewrite <- (set_attr_own _ _ _ W). apply set_holds; [exact D1|constructor; reflexivity].
  - rewrite get_attr_set. apply set_holds; [exact D1|constructor; reflexivity].
Qed.
Lemma set_each_value kw : forall vkw h d vd, holds_dict h kw vkw -> holds_dict h d vd ->
  match set_each vkw vd with
  | Ok vd' => exists h' d', hset_each kw h d = Ok (h', d') /\ holds_dict h' d' vd'
  | Err e => hset_each kw h d = Err e
  end.
Proof.
  induction kw as [|[n r] kw IH]; intros vkw h d vd HK D; inversion HK as [|? ? v ? vkw' H HK']; subst; cbn [set_each hset_each].
  - exists h, d. split; [reflexivity|exact D].
  - pose proof (match_set_value n r v h d vd H D) as M. destruct (match_set n v vd) as [vd1 [e|]].
    + rewrite M. reflexivity.
    + destruct M as (h1 & d1 & -> & D1 & X). cbn [bind fst snd]. apply IH; [exact (dict_ext _ _ _ _ _ X HK')|exact D1].
Qed.
Lemma match_init_value pos kw h vpos vkw : holds_items h pos vpos -> holds_dict h kw vkw ->
  match match_init vpos vkw with
  | Ok vd => exists h' d', hmatch_init pos kw h = Ok (h', d') /\ holds_dict h' d' vd
  | Err e => hmatch_init pos kw h = Err e
  end.
Proof.
  intros HP HK. unfold match_init, hmatch_init. inversion HP; subst; [|reflexivity]. cbv zeta.
  apply set_each_value; [|apply alloc_dict_holds].
  eapply dict_ext; [exact (proj1 (alloc_dict_fresh match_new h))|exact HK].
Qed.

Lemma construct_value shared rnd c pos kw h vpos vkw :
  closed h -> holds_items h pos vpos -> holds_dict h kw vkw -> defaults_hold shared h (mutable_defaults c) ->
  match construct rnd c vpos vkw with
  | Ok v => exists h' l, hconstruct shared rnd c pos kw h = Ok (h', l) /\ holds h' (HRef l) v
  | Err e => hconstruct shared rnd c pos kw h = Err e
  end.
Proof.
  intros C HP HK MD.
  assert (Y : c = Match01 \/ c <> Match01) by (clear; destruct c; first [left; reflexivity|right; discriminate]).
  destruct Y as [-> |NE].
  - change (construct rnd Match01 vpos vkw) with (finish Match01 (match_init vpos vkw)).
    change (hconstruct shared rnd Match01 pos kw h) with (hfinish Match01 (hmatch_init pos kw h)).
    apply finish_value, match_init_value; assumption.
  - destruct (not_match c NE shared rnd pos kw vpos vkw h) as [-> ->]. apply finish_value.
    apply construct_run; [assumption|assumption|assumption|]. exact MD.
Qed.
