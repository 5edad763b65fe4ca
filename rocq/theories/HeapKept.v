(** Arguments are stored themselves, not copies of them (C62). *)
From Coq Require Import ZArith List Bool String Lia.
From Verif Require Import Base PyText PyVal Ids Classes Interp Match01 Inits Construct Heap SpecHeap SpecInit ClassFacts HeapFacts HeapThm
  ConstructFacts ConstructThm ConstructThm2 ConstructThm3 ConstructThm4.
Import ListNotations.
Open Scope string_scope.
Open Scope list_scope.

Lemma hset_put n r d : hset n r d = put n r d.
Proof. induction d as [|[k x] d IH]; [reflexivity|]. cbn. destruct (String.eqb_spec k n) as [->|]; [reflexivity|]. rewrite IH. reflexivity. Qed.
Lemma hget_key n d : hget n d = key n d.
Proof. induction d as [|[k x] d IH]; [reflexivity|]. cbn. rewrite IH. reflexivity. Qed.

Definition anything (_ : hval) : Prop := True.

Section Track.
Variable size : pyval -> res Z.
Variable plain_size : cid -> dict -> res Z.
Variable shared : cid -> string -> loc.
Variable rnd : Z.
Variable self : cid.
Variable h0 : heap.
Variable top : hdict.

Definition tracks (s : src) (r : hval) : Prop :=
  match s with
  | FArg n => key n top = Some r
  | FIfNone n _ => forall a, key n top = Some a -> a <> HImm VNone -> r = a
  | FOr n _ => forall a v, key n top = Some a -> holds h0 a v -> truthy size v <> Ok false -> r = a
  | _ => True
  end.
Definition vtracks (s : sval) (r : hval) : Prop := match s with Leaf s => tracks s r | Head _ _ => True end.
Let grown := grown h0 anything.
Let okd := okd h0 anything.

Lemma any_ok h rs : Forall (okv h0 anything h) rs.
Proof. induction rs; constructor; [left; exact Logic.I|assumption]. Qed.

Lemma heval_tracks senv env e s h h' r : grown h -> Forall2 (entry tracks) senv env -> seval senv e = Some s ->
  heval size h env e = Ok (h', r) -> tracks s r.
Proof.
  intros G F S0 E. destruct e as [n|v|n v|n v]; cbn [seval heval] in S0, E.
  - rewrite hget_key in E. pose proof (entry_key tracks _ _ n F) as Q. rewrite S0 in Q. destruct (key n env) as [x|]; [|discriminate E].
    injection E as _ <-. exact Q.
  - injection S0 as <-. exact Logic.I.
  - rewrite hget_key in E. pose proof (entry_key tracks _ _ n F) as Q. destruct (key n senv) as [a|]; [|discriminate S0].
    destruct (key n env) as [x|]; [|contradiction]. destruct a as [m|a|? ?|? ?|?| |]; try discriminate S0.
    + injection S0 as <-. cbn in Q. intros a K NN. assert (x = a) by congruence. subst x.
      destruct a as [w|l]; [destruct w; try (injection E as _ <-; reflexivity); congruence|injection E as _ <-; reflexivity].
    + destruct a; injection S0 as <-; exact Logic.I.
  - rewrite hget_key in E. pose proof (entry_key tracks _ _ n F) as Q. destruct (key n senv) as [a|]; [|discriminate S0].
    destruct (key n env) as [x|]; [|contradiction]. destruct a as [m|a|? ?|? ?|?| |]; try discriminate S0.
    injection S0 as <-. cbn in Q. intros a w K H T. assert (x = a) by congruence. subst x.
    rewrite (view_holds h a w (holds_ext _ _ _ _ _ G H)) in E. cbn [bind] in E. destruct (truthy size w) as [t|]; cbn [bind] in E; [|discriminate E].
    destruct t; [injection E as _ <-; reflexivity|congruence].
Qed.
Lemma heval_list_tracks senv env es : Forall2 (entry tracks) senv env -> forall h h' rs ss, grown h -> sevals senv es = Some ss ->
  heval_list size h env es = Ok (h', rs) -> Forall2 tracks ss rs.
Proof.
  intros F. induction es as [|e es IH]; intros h h' rs ss G S0 E; cbn [sevals heval_list] in S0, E.
  - injection S0 as <-. injection E as _ <-. constructor.
  - destruct (seval senv e) as [s|] eqn:S1; [|discriminate S0]. destruct (sevals senv es) as [ss'|]; [|discriminate S0]. injection S0 as <-.
    destruct (heval size h env e) as [[h1 r]|] eqn:A; cbn [bind fst snd] in E; [|discriminate E].
    destruct (heval_list size h1 env es) as [[h2 rs']|] eqn:B; cbn [bind fst snd] in E; [|discriminate E]. injection E as _ <-.
    destruct (heval_ok size h0 anything _ _ _ _ _ G (any_ok _ _) A) as [[G1 _] _].
    constructor; [exact (heval_tracks _ _ _ _ _ _ _ G F S1 A)|exact (IH _ _ _ _ G1 eq_refl B)].
Qed.
Lemma heval_dict_tracks senv env es : Forall2 (entry tracks) senv env -> forall h h' rs ss, grown h -> sevals senv (map snd es) = Some ss ->
  heval_dict size h env es = Ok (h', rs) -> Forall2 (entry tracks) (combine (map fst es) ss) rs.
Proof.
  intros F. induction es as [|[n e] es IH]; intros h h' rs ss G S0 E; cbn [sevals heval_dict map fst snd] in S0, E.
  - injection S0 as <-. injection E as _ <-. constructor.
  - destruct (seval senv e) as [s|] eqn:S1; [|discriminate S0]. destruct (sevals senv (map snd es)) as [ss'|]; [|discriminate S0]. injection S0 as <-.
    destruct (heval size h env e) as [[h1 r]|] eqn:A; cbn [bind fst snd] in E; [|discriminate E].
    destruct (heval_dict size h1 env es) as [[h2 rs']|] eqn:B; cbn [bind fst snd] in E; [|discriminate E]. injection E as _ <-.
    destruct (heval_ok size h0 anything _ _ _ _ _ G (any_ok _ _) A) as [[G1 _] _].
    cbn [map fst combine]. constructor; [split; [reflexivity|exact (heval_tracks _ _ _ _ _ _ _ G F S1 A)]|exact (IH _ _ _ _ G1 eq_refl B)].
Qed.

(** Writing into the header changes no attribute of the object. *)
Lemma put_tracks m hc l st d : Forall2 (entry vtracks) st d -> key m st <> None -> Forall2 (entry vtracks) (put m (Head hc l) st) d.
Proof.
  intros F. induction F as [|[k x] [k' r] st d [E H] F IH]; intros K; [cbn in K; congruence|]. cbn in E, H, K |- *. subst k'.
  destruct (String.eqb_spec k m) as [->|NE].
  - constructor; [split; [reflexivity|exact Logic.I]|exact F].
  - constructor; [split; [reflexivity|exact H]|apply IH, K].
Qed.
Lemma header_tracks n s st st' d : Forall2 (entry vtracks) st d -> sset_header n s st = Some st' -> Forall2 (entry vtracks) st' d.
Proof.
  intros F S0. unfold sset_header in S0. destruct (key "header" st) as [[?|hc l]|] eqn:K; try discriminate S0. injection S0 as <-.
  apply put_tracks; [exact F|]. rewrite K. discriminate.
Qed.

Definition track_super (sup : list hval -> hdict -> heap -> hdict -> res (heap * hdict))
    (ssup : list src -> list (string * src) -> state -> sres) : Prop :=
  forall pos kw h d h' d' sp sk st st' b, grown h -> okd h d -> Forall2 tracks sp pos -> Forall2 (entry tracks) sk kw -> Forall2 (entry vtracks) st d ->
    sup pos kw h d = Ok (h', d') -> ssup sp sk st = Some (st', b) -> Forall2 (entry vtracks) st' d'.

Lemma hstep_tracks sup ssup env senv s h d h' d' st st' b : track_super sup ssup -> grown h -> okd h d ->
  Forall2 (entry tracks) senv env -> Forall2 (entry vtracks) st d ->
  hstep size plain_size self sup env s h d = Ok (h', d') -> sstep ssup senv s st = Some (st', b) -> Forall2 (entry vtracks) st' d'.
Proof.
  intros SUP G D F FD E S0. destruct s as [pos kw|n e|n e| |]; cbn [hstep sstep] in E, S0.
  - destruct (sevals senv pos) as [ps|] eqn:P1; [|discriminate S0]. destruct (sevals senv (map snd kw)) as [ks|] eqn:P2; [|discriminate S0].
    destruct (heval_list size h env pos) as [[h1 rs]|] eqn:A; cbn [bind fst snd] in E; [|discriminate E].
    destruct (heval_dict size h1 env kw) as [[h2 rk]|] eqn:B; cbn [bind fst snd] in E; [|discriminate E].
    destruct (heval_list_ok size h0 anything _ _ _ _ _ G (any_ok _ _) A) as [[G1 L1] _].
    destruct (heval_dict_ok size h0 anything _ _ _ _ _ G1 (any_ok _ _) B) as [[G2 L2] _].
    destruct (ssup ps (combine (map fst kw) ks) st) as [[st1 b1]|] eqn:P3; [|discriminate S0]. injection S0 as <- _.
    refine (SUP rs rk h2 d h' d' _ _ _ _ _ G2 _ (heval_list_tracks _ _ _ F _ _ _ _ G P1 A) (heval_dict_tracks _ _ _ F _ _ _ _ G1 P2 B) FD E P3).
    eapply okd_more; [|exact D]. lia.
  - destruct (seval senv e) as [x|] eqn:P; [|discriminate S0]. injection S0 as <- _.
    destruct (heval size h env e) as [[h1 r]|] eqn:A; cbn [bind fst snd] in E; [|discriminate E]. injection E as _ <-.
    rewrite hset_put. apply entry_put; [exact FD|]. exact (heval_tracks _ _ _ _ _ _ _ G F P A).
  - destruct (seval senv e) as [x|] eqn:P; [|discriminate S0]. destruct (sset_header n x st) as [st1|] eqn:P2; [|discriminate S0]. injection S0 as <- _.
    destruct (heval size h env e) as [[h1 r]|] eqn:A; cbn [bind fst snd] in E; [|discriminate E].
    destruct (hset_header n r h1 d) as [h2|]; cbn [bind] in E; [|discriminate E]. injection E as _ <-.
    eapply header_tracks; eassumption.
  - injection S0 as <- _. destruct (view_dict h d) as [v|]; cbn [bind] in E; [|discriminate E].
    destruct (size (VObj self v)) as [z|]; cbn [bind] in E; [|discriminate E]. injection E as _ <-.
    rewrite hset_put. apply entry_put; [exact FD|exact Logic.I].
  - injection S0 as <- _. destruct (view_dict h d) as [v|]; cbn [bind] in E; [|discriminate E].
    destruct (plain_size self v) as [z|]; cbn [bind] in E; [|discriminate E]. injection E as _ <-.
    rewrite hset_put. apply entry_put; [exact FD|exact Logic.I].
Qed.
Lemma hsteps_tracks sup ssup env senv code : super_ok h0 anything sup -> track_super sup ssup ->
  (forall n e, In (ISet n e) code -> String.eqb n "header" = false) -> Forall2 (entry tracks) senv env ->
  forall h d h' d' st st' b, grown h -> okd h d -> Forall2 (entry vtracks) st d ->
  hsteps size plain_size self sup env code h d = Ok (h', d') -> ssteps ssup senv code st = Some (st', b) -> Forall2 (entry vtracks) st' d'.
Proof.
  intros OK SUP NH F. induction code as [|s code IH]; intros h d h' d' st st' b G D FD E S0; cbn [hsteps ssteps] in E, S0.
  - injection E as _ <-. injection S0 as <- _. exact FD.
  - destruct (hstep size plain_size self sup env s h d) as [[h1 d1]|] eqn:A; cbn [bind fst snd] in E; [|discriminate E].
    destruct (sstep ssup senv s st) as [[st1 b1]|] eqn:P; [|discriminate S0].
    destruct (ssteps ssup senv code st1) as [[st2 b2]|] eqn:P2; [|discriminate S0]. injection S0 as <- _.
    destruct (hstep_ok size plain_size h0 anything self sup env s h d h1 d1 OK) as [[G1 L1] D1]; auto.
    + intros n e ->. apply (NH n e). left. reflexivity.
    + apply any_ok.
    + eapply (IH (fun n e I => NH n e (or_intror I)) h1 d1 h' d'); [exact G1|exact D1| |exact E|exact P2].
      exact (hstep_tracks _ _ _ _ _ _ _ _ _ _ _ _ SUP G D F FD A P).
Qed.

Lemma copies_track : forall attrs h st d, Forall2 (entry vtracks) st d ->
  Forall2 (entry vtracks) (fold_left (fun d p => put (fst p) (snd p) d) (map scopy attrs) st)
    (fold_left (fun d p => hset (fst p) (snd p) d) (snd (alloc_dict (map (fun p => (fst p, deepcopy (snd p))) attrs) h)) d).
Proof.
  induction attrs as [|[n v] attrs IH]; intros h st d F; [exact F|]. cbn [map alloc_dict]. cbv zeta. cbn [fst snd fold_left].
  apply IH. rewrite hset_put. apply entry_put; [exact F|]. unfold scopy. cbn [fst snd].
  destruct (String.eqb n "header"); [|exact Logic.I]. destruct (deepcopy v); exact Logic.I.
Qed.

Lemma defaults_track k ps : Forall2 (entry tracks) (consts ps) (map (hdefault shared k) ps).
Proof. induction ps as [|[n v] ps IH]; constructor; [split; [reflexivity|exact Logic.I]|exact IH]. Qed.

Definition plain_srun (n : nat) (k : cid) (pos : list src) (kw : list (string * src)) (st : state) : sres :=
  match class_base k with
  | None => None
  | Some b =>
      match init_code k with
      | None => srun self n b pos kw st
      | Some (ps, code) =>
          match bind_args (consts ps) pos kw with
          | Ok senv => ssteps (srun self n b) senv code st
          | Err _ => None
          end
      end
  end.
Lemma srun_cases k : k = CGenericStruct \/ k = CGenericMessage \/
  forall n pos kw h d spos skw st, hrun_init size plain_size shared rnd self (S n) k pos kw h d = generic_run size plain_size shared rnd self n k pos kw h d /\
    srun self (S n) k spos skw st = plain_srun n k spos skw st.
Proof.
  assert (X : forall n pos kw h d, exists A B, hrun_init size plain_size shared rnd self (S n) k pos kw h d =
    match k with CGenericStruct => A | CGenericMessage => B | _ => generic_run size plain_size shared rnd self n k pos kw h d end).
  { intros. eexists. eexists. reflexivity. }
  assert (Y : forall n pos kw st, exists A B, srun self (S n) k pos kw st =
    match k with CGenericStruct => A | CGenericMessage => B | _ => plain_srun n k pos kw st end).
  { intros. eexists. eexists. reflexivity. }
  revert X Y. generalize (generic_run size plain_size shared rnd self) (hrun_init size plain_size shared rnd self) plain_srun (srun self). intros g f g' f' X Y.
  destruct k; first [left; reflexivity|right; left; reflexivity|right; right; intros n pos kw h d sp sk st; split;
    [destruct (X n pos kw h d) as (A & B & E); exact E|destruct (Y n sp sk st) as (A & B & E); exact E] ].
Qed.

Lemma hrun_tracks : forall n k, track_super (hrun_init size plain_size shared rnd self n k) (srun self n k).
Proof.
  induction n as [|n IH]; intros k pos kw h d h' d' sp sk st st' b G D FP FK FD E S0; [discriminate E|].
  assert (OK : forall m k, super_ok h0 anything (hrun_init size plain_size shared rnd self m k)) by (intros m j; apply hrun_ok; intros; exact Logic.I).
  destruct (srun_cases k) as [-> |[-> |U] ].
  - cbn [hrun_init srun] in E, S0. destruct (bind_args [] sp sk); [|discriminate S0]. injection S0 as <- _.
    destruct (bind_args [] pos kw); cbn [bind] in E; [|discriminate E]. cbv zeta in E.
    assert (E' : d' = fold_left (fun d p => hset (fst p) (snd p) d) (snd (alloc_dict (copies self) h)) d) by congruence.
    rewrite E'. unfold copies. apply copies_track, FD.
  - cbn [hrun_init srun] in E, S0.
    destruct (bind_args [("xid", FConst VNone)] sp sk) as [senv|]; [|discriminate S0].
    destruct (srun self n CGenericStruct [] [] st) as [[st1 b1]|] eqn:P; [|discriminate S0].
    destruct (bind_args [("xid", HImm VNone)] pos kw) as [env|]; cbn [bind] in E; [|discriminate E].
    destruct (hrun_init size plain_size shared rnd self n CGenericStruct [] [] h d) as [[h1 d1]|] eqn:A; cbn [bind fst snd] in E; [|discriminate E].
    destruct (heval size h1 env (XIfNone "xid" (VInt rnd))) as [[h2 r]|]; cbn [bind fst snd] in E; [|discriminate E].
    destruct (hset_header "xid" r h2 d1) as [h3|]; cbn [bind] in E; [|discriminate E]. injection E as _ <-.
    pose proof (IH CGenericStruct [] [] h d h1 d1 [] [] st st1 b1 G D (Forall2_nil _) (Forall2_nil _) FD A P) as F1.
    destruct (match key "xid" senv with Some (FArg m) => Some (FXid m) | Some (FConst VNone) => Some FDrawn | _ => None end) as [s|]; [|discriminate S0].
    destruct (sset_header "xid" s st1) as [st2|] eqn:Q; [|discriminate S0]. injection S0 as <- _.
    exact (header_tracks _ _ _ _ _ F1 Q).
  - destruct (U n pos kw h d sp sk st) as [UE US]. rewrite UE in E. rewrite US in S0. clear U UE US.
    unfold generic_run in E. unfold plain_srun in S0. destruct (class_base k) as [c|]; [|discriminate E].
    destruct (init_code k) as [[ps code]|] eqn:C; [|exact (IH c pos kw h d h' d' sp sk st st' b G D FP FK FD E S0)].
    pose proof (bind_related tracks _ _ (defaults_track k ps) _ _ _ _ FP FK) as Q.
    destruct (bind_args (consts ps) sp sk) as [senv|]; [|discriminate S0].
    destruct (bind_args (map (hdefault shared k) ps) pos kw) as [env|]; cbn [bind] in E; [|discriminate E].
    refine (hsteps_tracks _ _ env senv code (OK n c) (IH c) _ Q h d h' d' st st' b G D FD E S0). intros m e. eapply no_header_set, C.
Qed.
End Track.

(** ** All arguments given by position *)

Section Full.
Variable size : pyval -> res Z.
Variable plain_size : cid -> dict -> res Z.
Variable shared : cid -> string -> loc.
Variable rnd : Z.
Variable self : cid.

Fixpoint hown_params (n : nat) (k : cid) : list (string * hval) :=
  match n with
  | O => []
  | S n' =>
      match k with
      | CGenericStruct => []
      | CGenericMessage => [("xid", HImm VNone)]
      | _ => match class_base k with
             | None => []
             | Some b => match init_code k with Some (ps, _) => map (hdefault shared k) ps | None => hown_params n' b end
             end
      end
  end.
Lemma hown_names n : forall k ps, own_params n k = Some ps -> map fst (hown_params n k) = map fst ps.
Proof.
  induction n as [|n IH]; intros k ps H; [discriminate H|].
  assert (Own : match class_base k with
             | None => None
             | Some b => match init_code k with Some (ps, _) => Some ps | None => own_params n b end
             end = Some ps -> map fst match class_base k with
             | None => []
             | Some b => match init_code k with Some (ps, _) => map (hdefault shared k) ps | None => hown_params n b end
             end = map fst ps).
  { destruct (class_base k) as [b|]; [|discriminate]. destruct (init_code k) as [[qs code]|]; [|apply IH].
    intros [= <-]. rewrite map_map. apply map_ext. reflexivity. }
  destruct k; try exact (Own H); cbn [own_params] in H; injection H as <-; reflexivity.
Qed.

Lemma hrun_full n : forall k pos kw h d, own_params n k <> None ->
  hrun_init size plain_size shared rnd self n k pos kw h d =
  (do env <- bind_args (hown_params n k) pos kw; hrun_init size plain_size shared rnd self n k (map snd env) [] h d).
Proof.
  induction n as [|n IH]; intros k pos kw h d O; [exfalso; apply O; reflexivity|].
  assert (Own : match class_base k with
             | None => None
             | Some b => match init_code k with Some (ps, _) => Some ps | None => own_params n b end
             end <> None -> generic_run size plain_size shared rnd self n k pos kw h d =
     (do env <- bind_args match class_base k with
             | None => []
             | Some b => match init_code k with Some (ps, _) => map (hdefault shared k) ps | None => hown_params n b end
             end pos kw; generic_run size plain_size shared rnd self n k (map snd env) [] h d)).
  { clear O. intros O. unfold generic_run. destruct (class_base k) as [b|]; [|congruence].
    destruct (init_code k) as [[ps code]|]; [|apply IH, O].
    destruct (bind_args (map (hdefault shared k) ps) pos kw) as [env|] eqn:E; [|reflexivity]. cbn [bind].
    rewrite (bind_again _ env (bind_fst _ _ _ _ E)). reflexivity. }
  destruct (hrun_cases size plain_size shared rnd self k) as [-> |[-> |U] ].
  - clear Own. cbn [hrun_init hown_params]. destruct (bind_args [] pos kw) as [env|] eqn:E; [|reflexivity]. cbn [bind].
    rewrite (bind_again _ env (bind_fst _ _ _ _ E)). reflexivity.
  - clear Own. cbn [hrun_init hown_params]. destruct (bind_args [("xid", HImm VNone)] pos kw) as [env|] eqn:E; [|reflexivity]. cbn [bind].
    rewrite (bind_again _ env (bind_fst _ _ _ _ E)). reflexivity.
  - destruct (own_params (S n) k) eqn:P; [|congruence].
    assert (PO : k = CGenericStruct \/ k = CGenericMessage \/
      own_params (S n) k = match class_base k with
             | None => None
             | Some b => match init_code k with Some (ps, _) => Some ps | None => own_params n b end
             end /\ hown_params (S n) k = match class_base k with
             | None => []
             | Some b => match init_code k with Some (ps, _) => map (hdefault shared k) ps | None => hown_params n b end
             end).
    { clear. destruct k; first [left; reflexivity|right; left; reflexivity|right; right; split; reflexivity]. }
    destruct PO as [-> |[-> |[P1 P2] ] ].
    + cbn [hrun_init hown_params]. destruct (bind_args [] pos kw) as [env|] eqn:E; [|reflexivity]. cbn [bind].
      rewrite (bind_again _ env (bind_fst _ _ _ _ E)). reflexivity.
    + cbn [hrun_init hown_params]. destruct (bind_args [("xid", HImm VNone)] pos kw) as [env|] eqn:E; [|reflexivity]. cbn [bind].
      rewrite (bind_again _ env (bind_fst _ _ _ _ E)). reflexivity.
    + rewrite U, P2, Own by (rewrite <- P1, P; discriminate).
      match goal with |- context [bind_args ?x pos kw] => destruct (bind_args x pos kw) as [env|] end; [|reflexivity]. cbn [bind]. rewrite U. reflexivity.
Qed.
End Full.

Lemma args_track size h0 env : NoDup (map fst env) -> Forall2 (tracks size h0 env) (map (fun p => FArg (fst p)) env) (map snd env).
Proof.
  intros ND. assert (H : forall l, incl l env -> Forall2 (tracks size h0 env) (map (fun p => FArg (fst p)) l) (map snd l)).
  { induction l as [|[n v] l IH]; intros I; [constructor|]. cbn. constructor; [|apply IH; intros x Ix; apply I; right; exact Ix].
    cbn. apply in_key; [exact ND|apply I; left; reflexivity]. }
  apply H, incl_refl.
Qed.

Lemma hcore0 size plain shared rnd n c ps pos kw h h' d st b :
  own_params n c = Some ps -> NoDup (map fst ps) -> srun c n c (map (fun p => FArg (fst p)) ps) [] [] = Some (st, b) ->
  hrun_init size plain shared rnd c n c pos kw h [] = Ok (h', d) ->
  exists env, bind_args (hown_params shared n c) pos kw = Ok env /\ Forall2 (entry (vtracks size h env)) st d.
Proof.
  intros P ND PL E. rewrite hrun_full in E by congruence.
  destruct (bind_args (hown_params shared n c) pos kw) as [env|] eqn:B; cbn [bind] in E; [|discriminate E].
  exists env. split; [reflexivity|]. pose proof (bind_fst _ _ _ _ B) as EN. rewrite (hown_names shared n c ps P) in EN.
  assert (PE : srun c n c (map (fun p => FArg (fst p)) env) [] [] = Some (st, b)).
  { rewrite <- PL. f_equal. rewrite <- !(map_map fst FArg). rewrite EN. reflexivity. }
  refine (hrun_tracks size plain shared rnd c h env n c (map snd env) [] h [] h' d _ [] [] st b _ _ _ _ _ E PE).
  - apply extends_refl.
  - split; [constructor|discriminate].
  - apply args_track. rewrite EN. exact ND.
  - constructor.
  - constructor.
Qed.

Lemma hconstruct_eq shared rnd c pos kw h : c <> Match01 ->
  hconstruct shared rnd c pos kw h =
  (do a <- hrun_init get_size (fun c d => struct_size get_size c d) shared rnd c INIT_DEPTH c pos kw h [];
   Ok (fst a ++ [StructCell c (snd a)], List.length (fst a))).
Proof.
  unfold hconstruct. generalize (hrun_init get_size (fun c d => struct_size get_size c d) shared rnd c INIT_DEPTH c pos kw h []).
  intros a N. destruct c; try reflexivity. congruence.
Qed.

Lemma hcore1 size plain shared rnd n c ps pos kw h h' l st b :
  own_params n c = Some ps -> NoDup (map fst ps) -> srun c n c (map (fun p => FArg (fst p)) ps) [] [] = Some (st, b) ->
  (do a <- hrun_init size plain shared rnd c n c pos kw h []; Ok (fst a ++ [StructCell c (snd a)], List.length (fst a))) = Ok (h', l) ->
  exists env d, bind_args (hown_params shared n c) pos kw = Ok env /\ Forall2 (entry (vtracks size h env)) st d /\
    nth_error h' l = Some (StructCell c d).
Proof.
  intros P ND PL E.
  destruct (hrun_init size plain shared rnd c n c pos kw h []) as [[h1 d]|] eqn:A; cbn [bind fst snd] in E; [|discriminate E].
  destruct (hcore0 _ _ _ _ _ _ _ _ _ _ _ _ _ _ P ND PL A) as (env & B & F).
  exists env, d. split; [exact B|]. split; [exact F|].
  assert (E1 : h' = h1 ++ [StructCell c d]) by congruence. assert (E2 : l = List.length h1) by congruence. subst. apply nth_last.
Qed.
Lemma hcore shared rnd c ps st b pos kw h h' l : c <> Match01 -> own_params INIT_DEPTH c = Some ps -> NoDup (map fst ps) -> plan c = Some (st, b) ->
  hconstruct shared rnd c pos kw h = Ok (h', l) ->
  exists env d, bind_args (hown_params shared INIT_DEPTH c) pos kw = Ok env /\ Forall2 (entry (vtracks get_size h env)) st d /\
    nth_error h' l = Some (StructCell c d).
Proof.
  intros N P ND PL E. rewrite hconstruct_eq in E by exact N.
  assert (PL' : srun c INIT_DEPTH c (map (fun p => FArg (fst p)) ps) [] [] = Some (st, b)) by (rewrite <- PL; unfold plan; rewrite P; reflexivity).
  exact (hcore1 _ _ _ _ _ _ _ _ _ _ _ _ _ _ P ND PL' E).
Qed.

Lemma entry_names {A B} (R : A -> B -> Prop) l l' : Forall2 (entry R) l l' -> map fst l = map fst l'.
Proof. induction 1 as [|x y l l' [E _] _ IH]; [reflexivity|]. cbn. congruence. Qed.

Lemma kept_itself shared rnd c pos kw h h' l p r v : structure c -> c <> Match01 -> hconstruct shared rnd c pos kw h = Ok (h', l) ->
  (exists i, nth_error (parameters c) i = Some p /\ nth_error pos i = Some r) \/ In (p, r) kw ->
  is_message c && String.eqb p "xid" = false -> holds h r v -> kept_argument c p v = true -> attribute h' l p r.
Proof.
  intros S0 N E GI X H KA. destruct (structure_params c S0) as [ps P]. destruct S0 as (_ & N2 & _).
  destruct (planned c ps P N N2) as (st & b & PL). pose proof (check _ _ _ _ N P PL) as CK.
  destruct (hcore shared rnd c ps st b pos kw h h' l N P ltac:(rewrite (ck_names _ _ _ CK); apply (ck_nodup _ _ _ CK)) PL E) as (env & d & B & F & L).
  destruct (bind_value (hown_params shared INIT_DEPTH c) ltac:(rewrite (hown_names shared _ c ps P), (ck_names _ _ _ CK); apply (ck_nodup _ _ _ CK)) _ _ _ B) as (H1 & H2 & _).
  rewrite (hown_names shared _ c ps P), (ck_names _ _ _ CK) in H1.
  assert (K : key p env = Some r) by (destruct GI as [(i & Hi & Hv)|I]; [eapply H1; eassumption|apply H2, I]).
  assert (Ip : In p (parameters c)).
  { apply key_in, (in_map fst) in K. cbn in K. rewrite (bind_fst _ _ _ _ B), (hown_names shared _ c ps P), (ck_names _ _ _ CK) in K. exact K. }
  clear H1 H2 GI B E. destruct (good_parts _ _ _ _ N P PL) as (_ & _ & _ & _ & _ & NDS & _).
  exists c, d. split; [exact L|]. split; [rewrite <- (entry_names _ _ _ F); exact NDS|]. apply key_in.
  pose proof (ck_param _ _ _ CK p Ip) as GP. unfold good_param in GP. rewrite X in GP. unfold kept_argument in KA. rewrite X in KA. apply negb_true_iff in KA.
  pose proof (good3_eq c _ PL) as G3. cbv beta iota delta [good3] in G3. rewrite (cid_eqb_neq _ _ N), orb_false_l in G3. rewrite forallb_forall in G3.
  pose proof (entry_key _ _ _ p F) as Q.
  destruct (key p st) as [s|] eqn:KS; [|discriminate GP]. specialize (G3 (p, s) (key_in _ _ _ KS)). cbn [fst snd] in G3.
  destruct (key p d) as [x|]; [|contradiction]. f_equal.
  destruct s as [s|]; try discriminate GP. destruct s as [q|?|q w|q w|?| |]; try discriminate GP.
  - apply String.eqb_eq in GP. subst q. cbn in Q. congruence.
  - apply andb_prop in GP as [GP _]. apply String.eqb_eq in GP. subst q. rewrite G3 in KA. cbn in KA. apply (Q r K).
    intros ->. inversion H; subst. discriminate KA.
  - apply andb_prop in GP as [GP _]. apply String.eqb_eq in GP. subst q. rewrite G3 in KA. cbn in KA. apply (Q r v K H).
    intros T. pose proof (nonempty_truthy _ _ KA T). discriminate.
Qed.
