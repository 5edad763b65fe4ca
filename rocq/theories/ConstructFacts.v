(** Constructors: symbolic execution of Inits.v, and that it is correct. *)
From Coq Require Import ZArith List Bool String Lia.
From Verif Require Import Base PyText Ids PyVal Classes Interp Match01 Inits Construct ClassFacts.
Import ListNotations.
Open Scope string_scope.
Open Scope list_scope.
Open Scope Z_scope.

(** ** Equality of values *)

Fixpoint veqb (a b : pyval) : bool :=
  match a, b with
  | VNone, VNone => true
  | VInt x, VInt y => x =? y
  | VStr x, VStr y | VBytes x, VBytes y => if list_eq_dec Z.eq_dec x y then true else false
  | VEnum e x, VEnum f y | VMask e x, VMask f y => eid_eqb e f && (x =? y)
  | VUInt w er x, VUInt w' er' y =>
      Nat.eqb w w' && match er, er' with Some e, Some e' => eid_eqb e e' | None, None => true | _, _ => false end && veqb x y
  | VPad n, VPad m => Nat.eqb n m
  | VChar n x, VChar m y => Nat.eqb n m && veqb x y
  | VIP x n, VIP y m => (n =? m) && veqb x y
  | VHW x, VHW y | VDPID x, VDPID y | VBin x, VBin y => veqb x y
  | VObj c l, VObj c' l' =>
      cid_eqb c c' &&
      (fix go (l l' : list (string * pyval)) : bool :=
         match l, l' with
         | [], [] => true
         | (n, x) :: l, (m, y) :: l' => String.eqb n m && veqb x y && go l l'
         | _, _ => false
         end) l l'
  | VList c p l, VList c' p' l' =>
      cid_eqb c c' && cid_eqb p p' &&
      (fix go (l l' : list pyval) : bool :=
         match l, l' with
         | [], [] => true
         | x :: l, y :: l' => veqb x y && go l l'
         | _, _ => false
         end) l l'
  | _, _ => false
  end.

Fixpoint veqb_eq (a b : pyval) {struct a} : veqb a b = true -> a = b.
Proof.
  destruct a as [|x|x|x|e x|e x|w er x|n|n x|x n|x|x|x|c l|c p l], b as [|y|y|y|f y|f y|w' er' y|m|m y|y m|y|y|y|c' l'|c' p' l'];
    cbn [veqb]; try discriminate; intros H.
  - reflexivity.
  - apply Z.eqb_eq in H. congruence.
  - destruct (list_eq_dec _ _ _); congruence.
  - destruct (list_eq_dec _ _ _); congruence.
  - apply andb_prop in H as [H1 H2]. apply eid_eqb_eq in H1. apply Z.eqb_eq in H2. congruence.
  - apply andb_prop in H as [H1 H2]. apply eid_eqb_eq in H1. apply Z.eqb_eq in H2. congruence.
  - apply andb_prop in H as [H H3]. apply andb_prop in H as [H1 H2]. apply Nat.eqb_eq in H1. apply veqb_eq in H3. subst.
    destruct er as [e|], er' as [e'|]; try discriminate; [apply eid_eqb_eq in H2; congruence|reflexivity].
  - apply Nat.eqb_eq in H. congruence.
  - apply andb_prop in H as [H1 H2]. apply Nat.eqb_eq in H1. apply veqb_eq in H2. congruence.
  - apply andb_prop in H as [H1 H2]. apply Z.eqb_eq in H1. apply veqb_eq in H2. congruence.
  - apply veqb_eq in H. congruence.
  - apply veqb_eq in H. congruence.
  - apply veqb_eq in H. congruence.
  - apply andb_prop in H as [H1 H2]. apply cid_eqb_eq in H1. subst. f_equal. revert l' H2.
    induction l as [|[n x] l IH]; intros [|[m y] l'] H2; try discriminate; [reflexivity|].
    apply andb_prop in H2 as [H2 H3]. apply andb_prop in H2 as [H1 H2]. apply String.eqb_eq in H1. apply veqb_eq in H2. apply IH in H3. congruence.
  - apply andb_prop in H as [H H2]. apply andb_prop in H as [H1 H3]. apply cid_eqb_eq in H1, H3. subst. f_equal. revert l' H2.
    induction l as [|x l IH]; intros [|y l'] H2; try discriminate; [reflexivity|].
    apply andb_prop in H2 as [H1 H2]. apply veqb_eq in H1. apply IH in H2. congruence.
Qed.

(** ** Symbolic values *)

Inductive src : Type :=
| FArg (n : string)
| FConst (v : pyval)
| FIfNone (n : string) (v : pyval)
| FOr (n : string) (v : pyval)
| FXid (n : string)
| FDrawn
| FLen.
Inductive sval : Type := Leaf (s : src) | Head (hc : cid) (l : list (string * src)).
Definition state : Type := list (string * sval).

Fixpoint put {A} (n : string) (x : A) (l : list (string * A)) : list (string * A) :=
  match l with
  | [] => [(n, x)]
  | (k, v) :: tl => if String.eqb k n then (n, x) :: tl else (k, v) :: put n x tl
  end.
Lemma set_attr_put n x l : set_attr n x l = put n x l.
Proof. induction l as [|[k v] l IH]; [reflexivity|]. cbn. rewrite IH. reflexivity. Qed.
Lemma get_attr_key n l : get_attr n l = key n l.
Proof. induction l as [|[k v] l IH]; [reflexivity|]. cbn. rewrite IH. reflexivity. Qed.

Definition seval (senv : list (string * src)) (e : iexpr) : option src :=
  match e with
  | XConst v => Some (FConst v)
  | XArg n => key n senv
  | XIfNone n v => match key n senv with
                   | Some (FArg m) => Some (FIfNone m v)
                   | Some (FConst VNone) => Some (FConst v)
                   | Some (FConst a) => Some (FConst a)
                   | _ => None
                   end
  | XOr n v => match key n senv with Some (FArg m) => Some (FOr m v) | _ => None end
  end.
Fixpoint sevals (senv : list (string * src)) (l : list iexpr) : option (list src) :=
  match l with
  | [] => Some []
  | e :: tl => match seval senv e, sevals senv tl with Some s, Some r => Some (s :: r) | _, _ => None end
  end.
Definition sset_header (n : string) (s : src) (st : state) : option state :=
  match key "header" st with
  | Some (Head hc l) => Some (put "header" (Head hc (put n s l)) st)
  | _ => None
  end.
Definition sres : Type := option (state * bool).
Definition uses_size (e : iexpr) : bool := match e with XOr _ _ => true | _ => false end.

Section Sym.
Variable self : cid.
Definition sstep (super : list src -> list (string * src) -> state -> sres) (senv : list (string * src)) (s : istmt) (st : state) : sres :=
  match s with
  | ISuper pos kw =>
      match sevals senv pos, sevals senv (map snd kw) with
      | Some ps, Some ks =>
          match super ps (combine (map fst kw) ks) st with
          | Some (st', b) => Some (st', existsb uses_size (pos ++ map snd kw) || b)
          | None => None
          end
      | _, _ => None
      end
  | ISet n e => match seval senv e with Some s => Some (put n (Leaf s) st, uses_size e) | None => None end
  | IHeader n e => match seval senv e with
                   | Some s => match sset_header n s st with Some st' => Some (st', uses_size e) | None => None end
                   | None => None
                   end
  | IUpdateLength | IMatchLength => Some (put "length" (Leaf FLen) st, true)
  end.
Fixpoint ssteps (super : list src -> list (string * src) -> state -> sres) (senv : list (string * src)) (code : list istmt) (st : state) : sres :=
  match code with
  | [] => Some (st, false)
  | s :: tl => match sstep super senv s st with
               | Some (st', b) => match ssteps super senv tl st' with Some (st'', b') => Some (st'', b || b') | None => None end
               | None => None
               end
  end.
Definition scopy (f : string * pyval) : string * sval :=
  (fst f, if String.eqb (fst f) "header"
          then match deepcopy (snd f) with VObj hc l => Head hc (map (fun p => (fst p, FConst (snd p))) l) | v => Leaf (FConst v) end
          else Leaf (FConst (deepcopy (snd f)))).
Definition consts (ps : list (string * pyval)) : list (string * src) := map (fun p => (fst p, FConst (snd p))) ps.
Definition okay {A} (r : res A) : option A := match r with Ok a => Some a | Err _ => None end.
Fixpoint srun (n : nat) (k : cid) (pos : list src) (kw : list (string * src)) (st : state) : sres :=
  match n with
  | O => None
  | S n' =>
      match k with
      | CGenericStruct =>
          match bind_args [] pos kw with
          | Ok _ => Some (fold_left (fun d p => put (fst p) (snd p) d) (map scopy (class_attrs self)) st, false)
          | Err _ => None
          end
      | CGenericMessage =>
          match bind_args [("xid", FConst VNone)] pos kw with
          | Ok senv =>
              match srun n' CGenericStruct [] [] st with
              | Some (st1, b) =>
                  match (match key "xid" senv with
                         | Some (FArg m) => Some (FXid m)
                         | Some (FConst VNone) => Some FDrawn
                         | _ => None
                         end) with
                  | Some s => match sset_header "xid" s st1 with Some st2 => Some (st2, b) | None => None end
                  | None => None
                  end
              | None => None
              end
          | Err _ => None
          end
      | _ =>
          match class_base k with
          | None => None
          | Some b =>
              match init_code k with
              | None => srun n' b pos kw st
              | Some (ps, code) =>
                  match bind_args (consts ps) pos kw with
                  | Ok senv => ssteps (srun n' b) senv code st
                  | Err _ => None
                  end
              end
          end
      end
  end.
End Sym.

(** ** What they stand for *)

Section Sound.
Variable size : pyval -> res Z.
Variable plain_size : cid -> dict -> res Z.
Variable rnd : Z.
Variable self : cid.
Variable top : dict.

Definition none_default (d iv : pyval) : pyval := match iv with VNone => d | _ => iv end.
Definition means (s : src) (x : pyval) : Prop :=
  match s with
  | FArg n => key n top = Some x
  | FConst v => x = v
  | FIfNone n v => exists a, key n top = Some a /\ x = none_default v a
  | FOr n v => exists a t, key n top = Some a /\ truthy size a = Ok t /\ x = (if t then a else v)
  | FXid n => exists a, key n top = Some a /\ x = none_default (VInt rnd) a
  | FDrawn => x = VInt rnd
  | FLen => exists s, x = VInt s
  end.
Definition entry {A B} (R : A -> B -> Prop) (p : string * A) (q : string * B) : Prop := fst p = fst q /\ R (snd p) (snd q).
Definition vmeans (s : sval) (x : pyval) : Prop :=
  match s with
  | Leaf s => means s x
  | Head hc l => exists attrs, x = VObj hc attrs /\ Forall2 (entry means) l attrs
  end.

Lemma entry_key {A B} (R : A -> B -> Prop) l l' n : Forall2 (entry R) l l' ->
  match key n l, key n l' with Some a, Some b => R a b | None, None => True | _, _ => False end.
Proof.
  induction 1 as [|[k a] [k' b] l l' [E H] _ IH]; [exact I|]. cbn in E, H |- *. subst k'. destruct (String.eqb k n); [exact H|exact IH].
Qed.
Lemma entry_put {A B} (R : A -> B -> Prop) l l' n a b : Forall2 (entry R) l l' -> R a b -> Forall2 (entry R) (put n a l) (put n b l').
Proof.
  intros H HR. induction H as [|[k x] [k' y] l l' [E H] F IH]; cbn.
  - constructor; [split; [reflexivity|exact HR]|constructor].
  - cbn in E. subst k'. destruct (String.eqb k n); constructor; try assumption; split; try reflexivity; assumption.
Qed.
Lemma entry_drop {A B} (R : A -> B -> Prop) l l' n : Forall2 (entry R) l l' -> Forall2 (entry R) (drop_key n l) (drop_key n l').
Proof.
  induction 1 as [|[k x] [k' y] l l' [E H] F IH]; cbn; [constructor|]. cbn in E. subst k'.
  destruct (String.eqb k n); [exact F|]. constructor; [split; [reflexivity|exact H]|exact IH].
Qed.
Lemma bind_related {A B} (R : A -> B -> Prop) ps ps' : Forall2 (entry R) ps ps' -> forall pos pos' kw kw',
  Forall2 R pos pos' -> Forall2 (entry R) kw kw' ->
  match bind_args ps pos kw, bind_args ps' pos' kw' with
  | Ok e, Ok e' => Forall2 (entry R) e e'
  | Err x, Err x' => x = x'
  | _, _ => False
  end.
Proof.
  induction 1 as [|[k a] [k' a'] ps ps' [E H] F IH]; intros pos pos' kw kw' HP HK.
  - cbn. destruct HP; [destruct HK|]; try reflexivity; constructor.
  - cbn in E, H. subst k'. cbn [bind_args].
    destruct HP as [|v v' pos pos' Hv HP].
    + pose proof (entry_key R _ _ k HK) as Q. destruct (key k kw) as [v|], (key k kw') as [v'|]; try contradiction.
      * specialize (IH [] [] _ _ (Forall2_nil _) (entry_drop R _ _ k HK)). destruct (bind_args ps [] _), (bind_args ps' [] _); cbn; try contradiction; try assumption.
        constructor; [split; [reflexivity|exact Q]|exact IH].
      * specialize (IH [] [] _ _ (Forall2_nil _) HK). destruct (bind_args ps [] _), (bind_args ps' [] _); cbn; try contradiction; try assumption.
        constructor; [split; [reflexivity|exact H]|exact IH].
    + specialize (IH _ _ _ _ HP HK). destruct (bind_args ps pos kw), (bind_args ps' pos' kw'); cbn; try contradiction; try assumption.
      constructor; [split; [reflexivity|exact Hv]|exact IH].
Qed.

Lemma seval_sound senv env e s : Forall2 (entry means) senv env -> seval senv e = Some s ->
  match eval size env e with Ok x => means s x | Err _ => uses_size e = true end.
Proof.
  intros F H. destruct e as [n|v|n v|n v]; cbn in H |- *.
  - rewrite get_attr_key. pose proof (entry_key means _ _ n F) as Q. rewrite H in Q. destruct (key n env); [exact Q|contradiction].
  - injection H as <-. reflexivity.
  - rewrite get_attr_key. pose proof (entry_key means _ _ n F) as Q. destruct (key n senv) as [a|]; [|discriminate]. destruct (key n env) as [x|]; [|contradiction].
    destruct a as [m|a|? ?|? ?|?| |]; try discriminate.
    + injection H as <-. cbn in Q. destruct x; (eexists; split; [exact Q|reflexivity]).
    + cbn in Q. subst x. destruct a; injection H as <-; reflexivity.
  - rewrite get_attr_key. pose proof (entry_key means _ _ n F) as Q. destruct (key n senv) as [a|]; [|discriminate]. destruct (key n env) as [x|]; [|contradiction].
    destruct a as [m|a|? ?|? ?|?| |]; try discriminate. injection H as <-. cbn in Q. destruct (truthy size x) as [t|] eqn:T; cbn; [|reflexivity].
    exists x, t. auto.
Qed.
Lemma sevals_sound senv env l r : Forall2 (entry means) senv env -> sevals senv l = Some r ->
  match mapM (eval size env) l with Ok xs => Forall2 means r xs | Err _ => existsb uses_size l = true end.
Proof.
  intros F. revert r. induction l as [|e l IH]; intros r H; cbn in H |- *.
  - injection H as <-. constructor.
  - destruct (seval senv e) as [s|] eqn:E; [|discriminate]. destruct (sevals senv l) as [r'|]; [|discriminate]. injection H as <-.
    pose proof (seval_sound _ _ _ _ F E) as Q. destruct (eval size env e) as [x|]; cbn; [|rewrite Q; reflexivity].
    specialize (IH _ eq_refl). destruct (mapM (eval size env) l); cbn; [constructor; assumption|]. rewrite IH. apply orb_true_r.
Qed.
Lemma kw_sound senv env kw r : Forall2 (entry means) senv env -> sevals senv (map snd kw) = Some r ->
  match mapM (fun p => do v <- eval size env (snd p); Ok (fst p, v)) kw with
  | Ok xs => Forall2 (entry means) (combine (map fst kw) r) xs
  | Err _ => existsb uses_size (map snd kw) = true
  end.
Proof.
  intros F. revert r. induction kw as [|[k e] l IH]; intros r H; cbn in H |- *.
  - injection H as <-. constructor.
  - destruct (seval senv e) as [s|] eqn:E; [|discriminate]. destruct (sevals senv (map snd l)) as [r'|]; [|discriminate]. injection H as <-.
    pose proof (seval_sound _ _ _ _ F E) as Q. destruct (eval size env e) as [x|]; cbn; [|rewrite Q; reflexivity].
    specialize (IH _ eq_refl). match goal with |- context [mapM ?f l] => destruct (mapM f l) end; cbn; [|rewrite IH; apply orb_true_r].
    constructor; [split; [reflexivity|exact Q]|exact IH].
Qed.
Lemma set_header_sound st d n s x st' : Forall2 (entry vmeans) st d -> means s x -> sset_header n s st = Some st' ->
  exists d', set_header n x d = Ok d' /\ Forall2 (entry vmeans) st' d'.
Proof.
  intros F M H. unfold sset_header in H. unfold set_header. rewrite get_attr_key. pose proof (entry_key vmeans _ _ "header" F) as Q.
  destruct (key "header" st) as [[?|hc l]|]; try discriminate. injection H as <-. destruct (key "header" d) as [y|]; [|contradiction].
  destruct Q as (attrs & -> & Fa). eexists. split; [reflexivity|]. rewrite !set_attr_put. apply entry_put; [exact F|].
  exists (put n x attrs). split; [reflexivity|]. apply entry_put; assumption.
Qed.

Definition runs (r : res dict) (o : sres) : Prop :=
  match o with
  | Some (st, b) => match r with Ok d => Forall2 (entry vmeans) st d | Err _ => b = true end
  | None => True
  end.

Lemma steps_sound super ssuper senv env : Forall2 (entry means) senv env ->
  (forall ps sps ks sks d st, Forall2 means sps ps -> Forall2 (entry means) sks ks -> Forall2 (entry vmeans) st d -> runs (super ps ks d) (ssuper sps sks st)) ->
  forall code st d, Forall2 (entry vmeans) st d -> runs (isteps size plain_size self super env code d) (ssteps ssuper senv code st).
Proof.
  intros F HS code. induction code as [|s code IH]; intros st d FD; cbn [isteps ssteps]; [exact FD|].
  assert (Q : runs (istep size plain_size self super env s d) (sstep ssuper senv s st)).
  { destruct s as [pos kw|n e|n e| |]; cbn [istep sstep].
    - destruct (sevals senv pos) as [ps|] eqn:E1; [|exact I]. destruct (sevals senv (map snd kw)) as [ks|] eqn:E2; [|exact I].
      pose proof (sevals_sound _ _ _ _ F E1) as Q1. pose proof (kw_sound _ _ _ _ F E2) as Q2.
      destruct (ssuper ps (combine (map fst kw) ks) st) as [[st' b]|] eqn:E3; [|exact I]. cbn. rewrite existsb_app.
      destruct (mapM (eval size env) pos) as [xs|]; cbn; [|rewrite Q1; reflexivity].
      match goal with |- context [mapM ?f kw] => destruct (mapM f kw) as [ys|] end; cbn; [|rewrite Q2, orb_true_r; reflexivity].
      specialize (HS _ _ _ _ _ _ Q1 Q2 FD). rewrite E3 in HS. cbn in HS. destruct (super xs ys d); [exact HS|]. rewrite HS. apply orb_true_r.
    - destruct (seval senv e) as [s|] eqn:E; [|exact I]. pose proof (seval_sound _ _ _ _ F E) as Q. cbn.
      destruct (eval size env e) as [x|]; cbn; [|exact Q]. rewrite set_attr_put. apply entry_put; [exact FD|exact Q].
    - destruct (seval senv e) as [s|] eqn:E; [|exact I]. destruct (sset_header n s st) as [st'|] eqn:E2; [|exact I]. pose proof (seval_sound _ _ _ _ F E) as Q. cbn.
      destruct (eval size env e) as [x|]; cbn; [|exact Q]. destruct (set_header_sound _ _ _ _ _ _ FD Q E2) as (d' & -> & FD'). exact FD'.
    - cbn. destruct (size (VObj self d)) as [z|]; cbn; [|reflexivity]. rewrite set_attr_put. apply entry_put; [exact FD|]. exists z. reflexivity.
    - cbn. destruct (plain_size self d) as [z|]; cbn; [|reflexivity]. rewrite set_attr_put. apply entry_put; [exact FD|]. exists z. reflexivity. }
  destruct (sstep ssuper senv s st) as [[st1 b1]|]; [|exact I]. cbn in Q.
  destruct (istep size plain_size self super env s d) as [d1|]; cbn.
  - specialize (IH _ _ Q). destruct (ssteps ssuper senv code st1) as [[st2 b2]|]; [|exact I]. cbn in IH |- *.
    destruct (isteps _ _ _ _ _ _ _); [exact IH|]. rewrite IH. apply orb_true_r.
  - subst b1. destruct (ssteps ssuper senv code st1) as [[st2 b2]|]; [reflexivity|exact I].
Qed.

Lemma consts_related ps : Forall2 (entry means) (consts ps) ps.
Proof. induction ps as [|[k v] ps IH]; constructor; [split; reflexivity|exact IH]. Qed.

Lemma copies_sound st d : Forall2 (entry vmeans) st d ->
  Forall2 (entry vmeans) (fold_left (fun d p => put (fst p) (snd p) d) (map scopy (class_attrs self)) st)
          (fold_left (fun d p => set_attr (fst p) (snd p) d) (copies self) d).
Proof.
  unfold copies. generalize (class_attrs self). intros l. revert st d. induction l as [|[n v] l IH]; intros st d F; [exact F|].
  cbn [map fold_left]. apply IH. rewrite set_attr_put. cbn [fst snd]. apply entry_put; [exact F|].
  unfold scopy; cbn [fst snd]. destruct (String.eqb n "header"); [|reflexivity].
  destruct (deepcopy v); try reflexivity. eexists. split; [reflexivity|]. apply consts_related.
Qed.

Lemma run_sound n : forall k pos kw d spos skw st,
  Forall2 means spos pos -> Forall2 (entry means) skw kw -> Forall2 (entry vmeans) st d ->
  runs (run_init size plain_size rnd self n k pos kw d) (srun self n k spos skw st).
Proof.
  induction n as [|n IH]; intros k pos kw d spos skw st HP HK HD; [exact I|].
  assert (Own : runs
     match class_base k with
     | None => Err TypeError
     | Some b => match init_code k with
                 | None => run_init size plain_size rnd self n b pos kw d
                 | Some (ps, code) => do env <- bind_args ps pos kw; isteps size plain_size self (run_init size plain_size rnd self n b) env code d
                 end
     end
     match class_base k with
     | None => None
     | Some b => match init_code k with
                 | None => srun self n b spos skw st
                 | Some (ps, code) => match bind_args (consts ps) spos skw with
                                      | Ok senv => ssteps (srun self n b) senv code st
                                      | Err _ => None
                                      end
                 end
     end).
  { destruct (class_base k) as [b|]; [|exact I]. destruct (init_code k) as [[ps code]|]; [|apply IH; assumption].
    pose proof (bind_related means _ _ (consts_related ps) _ _ _ _ HP HK) as Q.
    destruct (bind_args (consts ps) spos skw) as [senv|]; [|exact I]. destruct (bind_args ps pos kw) as [env|]; [|contradiction]. cbn [bind].
    apply steps_sound; [exact Q| |exact HD]. intros. apply IH; assumption. }
  destruct k; try exact Own; cbn [run_init srun].
  - pose proof (bind_related means [] [] (Forall2_nil _) _ _ _ _ HP HK) as Q. destruct (bind_args [] spos skw); [|exact I]. destruct (bind_args [] pos kw); [|contradiction]. cbn.
    apply copies_sound, HD.
  - pose proof (bind_related means [("xid", FConst VNone)] [("xid", VNone)] ltac:(constructor; [split; reflexivity|constructor]) _ _ _ _ HP HK) as Q.
    destruct (bind_args [("xid", FConst VNone)] spos skw) as [senv|]; [|exact I]. destruct (bind_args [("xid", VNone)] pos kw) as [env|]; [|contradiction].
    cbn [bind]. specialize (IH CGenericStruct [] [] d [] [] st (Forall2_nil _) (Forall2_nil _) HD).
    destruct (srun self n CGenericStruct [] [] st) as [[st1 b]|]; [|exact I]. cbn in IH.
    pose proof (entry_key means _ _ "xid" Q) as K. cbn [eval]. rewrite get_attr_key.
    destruct (key "xid" senv) as [s|]; [|exact I]. destruct (key "xid" env) as [x|]; [|contradiction].
    assert (M : forall s', match s with FArg m => Some (FXid m) | FConst VNone => Some FDrawn | _ => None end = Some s' -> means s' (none_default (VInt rnd) x)).
    { intros s' E. destruct s as [m|a|? ?|? ?|?| |]; try discriminate.
      - injection E as <-. exists x. auto.
      - destruct a; try discriminate. injection E as <-. cbn in K. subst x. reflexivity. }
    destruct (match s with FArg m => Some (FXid m) | FConst VNone => Some FDrawn | _ => None end) as [s'|]; [|exact I]. specialize (M _ eq_refl).
    destruct (run_init size plain_size rnd self n CGenericStruct [] [] d) as [d1|]; cbn [bind].
    + destruct (sset_header "xid" s' st1) as [st2|] eqn:SH; [|exact I]. destruct (set_header_sound _ _ _ _ _ _ IH M SH) as (d2 & E2 & F2). cbn.
      assert (E : (do v <- match x with VNone => Ok (VInt rnd) | _ => Ok x end; set_header "xid" v d1) = Ok d2) by (destruct x; exact E2).
      rewrite E. exact F2.
    + subst b. destruct (sset_header "xid" s' st1); [reflexivity|exact I].
Qed.
End Sound.
