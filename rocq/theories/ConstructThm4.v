(** Constructors: what P21_Construct.v states. *)
From Coq Require Import ZArith List Bool String Lia.
From Verif Require Import Base PyText Ids PyVal Classes Interp Utils Match01 Inits Construct SpecBasic SpecMsg SpecMutation SpecLayout SpecInit ClassFacts DispatchFacts MutationFacts LayoutFacts
  StructFacts ConstructFacts ConstructThm ConstructThm2 ConstructThm3.
Import ListNotations.
Open Scope string_scope.
Open Scope list_scope.
Open Scope Z_scope.

Definition has_params (c : cid) (ps : option (list (string * pyval))) : bool := negb (subclass c CGenericStruct) || match ps with Some _ => true | None => false end.
Lemma all_params : forall c, has_params c (own_params INIT_DEPTH c) = true.
Proof. apply (all_classes (fun c => has_params c (own_params INIT_DEPTH c))). vm_compute. reflexivity. Qed.
Lemma params_eq c ps : own_params INIT_DEPTH c = ps -> has_params c ps = true.
Proof. intros <-. exact (all_params c). Qed.
Lemma structure_params c : structure c -> exists ps, own_params INIT_DEPTH c = Some ps.
Proof.
  intros (H & N & _). destruct (own_params INIT_DEPTH c) as [ps|] eqn:P; [eauto|]. apply params_eq in P. unfold has_params in P. rewrite H in P. discriminate.
Qed.

Definition good3 (c : cid) (pl : sres) : bool :=
  match pl with
  | Some (st, _) => cid_eqb c Match01 || forallb (fun f => match snd f with Leaf (FIfNone q _) | Leaf (FOr q _) => container c (fst f) | _ => true end) st
  | None => true
  end.
Lemma all_good3 : forall c, good3 c (plan c) = true.
Proof. apply (all_classes (fun c => good3 c (plan c))). vm_compute. reflexivity. Qed.
Lemma good3_eq c pl : plan c = pl -> good3 c pl = true.
Proof. intros <-. exact (all_good3 c). Qed.

Lemma callable_bind c (ps : dict) pos kw : map fst ps = parameters c -> NoDup (parameters c) -> (callable c pos kw <-> exists env, bind_args ps pos kw = Ok env).
Proof.
  intros E ND. unfold callable. rewrite bind_accepts by (rewrite E; exact ND). rewrite <- E, map_length. tauto.
Qed.

Lemma error_core rnd c pos kw ps st b e : c <> Match01 -> own_params INIT_DEPTH c = Some ps -> NoDup (map fst ps) -> plan c = Some (st, b) -> construct rnd c pos kw = Err e ->
  e = TypeError /\ bind_args ps pos kw = Err TypeError \/ b = true.
Proof.
  intros N P ND PL H.
  assert (PL' : srun c INIT_DEPTH c (map (fun p => FArg (fst p)) ps) [] [] = Some (st, b)) by (rewrite <- PL; unfold plan; rewrite P; reflexivity).
  pose proof (core0 get_size (fun c d => struct_size get_size c d) rnd INIT_DEPTH c ps pos kw [] st b P ND PL') as Q.
  rewrite construct_eq in H by exact N. destruct (run_init _ _ _ _ _ _ _ _ _) as [d|e']; [discriminate|]. injection H as <-. apply Q. reflexivity.
Qed.

Lemma called rnd c pos kw o : c <> Match01 -> construct rnd c pos kw = Ok o -> callable c pos kw.
Proof.
  intros N H. destruct (core _ _ _ _ _ N H) as (ps & env & st & b & d & P & B & PL & -> & F). pose proof (check _ _ _ _ N P PL) as CK.
  apply (callable_bind c ps); [apply (ck_names _ _ _ CK)|apply (ck_nodup _ _ _ CK)|eauto].
Qed.
Lemma wrong_args size plain_size rnd n c ps pos kw d : own_params n c = Some ps -> bind_args ps pos kw = Err TypeError ->
  run_init size plain_size rnd c n c pos kw d = Err TypeError.
Proof. intros P B. rewrite run_full, P, B. reflexivity. Qed.
Lemma refuses rnd c pos kw : structure c -> c <> Match01 -> ~ callable c pos kw -> construct rnd c pos kw = Err TypeError.
Proof.
  intros S0 N NC. destruct (structure_params c S0) as [ps P]. destruct S0 as (_ & N2 & _). destruct (planned c ps P N N2) as (st & b & PL). pose proof (check _ _ _ _ N P PL) as CK.
  destruct (bind_args ps pos kw) as [env|e] eqn:B; [exfalso; apply NC, (callable_bind c ps); [apply (ck_names _ _ _ CK)|apply (ck_nodup _ _ _ CK)|eauto]|].
  pose proof (bind_error _ _ _ _ B). subst e. rewrite construct_eq by exact N.
  rewrite (wrong_args get_size (fun c d => struct_size get_size c d) rnd INIT_DEPTH c ps pos kw [] P B). reflexivity.
Qed.
Lemma accepts rnd c pos kw : structure c -> c <> Match01 -> measures c = false -> callable c pos kw -> exists o, construct rnd c pos kw = Ok o.
Proof.
  intros S0 N NM NC. destruct (structure_params c S0) as [ps P]. destruct S0 as (_ & N2 & _). destruct (planned c ps P N N2) as (st & b & PL). pose proof (check _ _ _ _ N P PL) as CK.
  destruct (good_parts _ _ _ _ N P PL) as (_ & _ & _ & _ & EB & _).
  destruct (proj1 (callable_bind c ps pos kw (ck_names _ _ _ CK) (ck_nodup _ _ _ CK)) NC) as [env B].
  destruct (construct rnd c pos kw) as [o|e] eqn:H; [eauto|]. exfalso.
  destruct (error_core _ _ _ _ _ _ _ _ N P ltac:(rewrite (ck_names _ _ _ CK); apply (ck_nodup _ _ _ CK)) PL H) as [[_ C]|C]; congruence.
Qed.

(** ** What is stored *)

Lemma keeps rnd c pos kw o p v : c <> Match01 -> construct rnd c pos kw = Ok o -> given c pos kw p v -> kept_argument c p v = true -> reads o p v.
Proof.
  intros N H G KA. destruct (empty_value v) eqn:EV; [|eapply stores; eassumption].
  destruct (core _ _ _ _ _ N H) as (ps & env & st & b & d & P & B & PL & -> & F). pose proof (check _ _ _ _ N P PL) as CK.
  pose proof (given_param _ _ _ _ _ _ _ (ck_names _ _ _ CK) (ck_nodup _ _ _ CK) B G) as Ip. pose proof (given_bound _ _ _ _ _ _ _ (ck_names _ _ _ CK) (ck_nodup _ _ _ CK) B G) as K.
  unfold kept_argument in KA. rewrite EV, andb_true_r in KA. destruct (is_message c && String.eqb p "xid") eqn:X.
  - destruct (param_reads _ _ _ _ _ _ _ F (ck_param _ _ _ CK p Ip) K) as (x & R & V). unfold param_value in V. rewrite X in V. destruct v; try discriminate; cbn in V; subst x; exact R.
  - apply negb_true_iff in KA. pose proof (good3_eq c _ PL) as G3. cbv beta iota delta [good3] in G3. rewrite (cid_eqb_neq _ _ N), orb_false_l in G3. rewrite forallb_forall in G3.
    pose proof (ck_param _ _ _ CK p Ip) as GP. unfold good_param in GP. rewrite X in GP. pose proof (entry_key _ _ _ p F) as Q.
    destruct (key p st) as [s|] eqn:KS; [|discriminate]. specialize (G3 (p, s) (key_in _ _ _ KS)). cbn [fst snd] in G3.
    destruct s as [s|]; try discriminate. destruct s as [q|?|q w|q w|?| |]; try discriminate; try congruence.
    destruct (key p d) as [x|] eqn:KD; [|contradiction]. apply String.eqb_eq in GP. subst q. cbn in Q. exists c, d. rewrite X, get_attr_key. split; [reflexivity|congruence].
Qed.

Lemma new_default c : structure c -> c <> Match01 -> new_instance c = Some (VObj c (default_attrs c)).
Proof.
  intros S0 N. destruct (structure_params c S0) as [ps P]. destruct S0 as (_ & N1 & N2). apply default_new; try assumption. congruence.
Qed.

(** An omitted argument: as in a call without arguments. *)
Lemma omitted_is_new rnd c pos kw o p : structure c -> c <> Match01 -> construct rnd c pos kw = Ok o -> omitted c pos kw p ->
  (is_message c = true -> p = "xid" -> reads o p (VInt rnd)) /\
  (is_message c = false \/ p <> "xid" -> exists n x, new_instance c = Some n /\ reads n p x /\ reads o p x).
Proof.
  intros S0 N H OM. destruct (core _ _ _ _ _ N H) as (ps & env & st & b & d & P & B & PL & -> & F). pose proof (check _ _ _ _ N P PL) as CK.
  destruct (omitted_bound _ _ _ _ _ _ (ck_names _ _ _ CK) (ck_nodup _ _ _ CK) B OM) as (dv & I & K). destruct (omitted_reads _ _ _ _ _ _ _ _ CK F I K) as [H1 H2].
  split.
  - intros M ->. apply H1. rewrite M. reflexivity.
  - intros NX. assert (X : is_message c && String.eqb p "xid" = false) by (destruct NX as [->|NX]; [reflexivity|]; apply String.eqb_neq in NX; rewrite NX; apply andb_false_r).
    destruct (H2 X) as (x & D & R). exists (VObj c (default_attrs c)), x. split; [apply new_default; assumption|]. split; [|exact R]. exists c, (default_attrs c). rewrite X. auto.
Qed.

(** Everything that is not a parameter. *)
Lemma others_are_new rnd c pos kw o : structure c -> c <> Match01 -> construct rnd c pos kw = Ok o ->
  exists attrs new, o = VObj c attrs /\ new_instance c = Some (VObj c new) /\ map fst attrs = map fst new /\
    forall n, ~ In n (parameters c) -> n <> "header" -> (computes_length c = true -> n <> "length") -> get_attr n attrs = get_attr n new.
Proof.
  intros S0 N H. destruct (core _ _ _ _ _ N H) as (ps & env & st & b & d & P & B & PL & -> & F). pose proof (check _ _ _ _ N P PL) as CK.
  exists d, (default_attrs c). split; [reflexivity|]. split; [apply new_default; assumption|]. split; [rewrite <- (forall2_names _ _ _ F); apply (ck_stnames _ _ _ CK)|].
  intros n N1 N2 N3. eapply other_reads; eassumption.
Qed.
Lemma header_is_new rnd c pos kw o : structure c -> c <> Match01 -> is_message c = true -> construct rnd c pos kw = Ok o ->
  exists attrs new hc h x, o = VObj c attrs /\ new_instance c = Some (VObj c new) /\ get_attr "header" new = Some (VObj hc h) /\
    get_attr "header" attrs = Some (VObj hc (set_attr "xid" x h)).
Proof.
  intros S0 N M H. destruct (core _ _ _ _ _ N H) as (ps & env & st & b & d & P & B & PL & -> & F). pose proof (check _ _ _ _ N P PL) as CK.
  destruct (header_built _ _ _ _ _ _ CK F M) as (hc & h0 & x & D & HC & G). exists d, (default_attrs c), hc, h0, x. split; [reflexivity|]. split; [apply new_default; assumption|]. auto.
Qed.

(** Types and lengths that the class fixes. *)
(** Types and lengths that the class fixes. *)
Definition fixed_ok (c : cid) (n : string) (t : Z) : bool :=
  negb (existsb (String.eqb n) (parameters c)) && negb (String.eqb n "header") && negb (computes_length c && String.eqb n "length") &&
  negb (cid_eqb c Match01) && (subclass c CGenericStruct && negb (cid_eqb c CGenericStruct) && negb (cid_eqb c CGenericMessage)) &&
  match new_instance c with
  | Some (VObj _ new) => match get_attr n new with
                         | Some (VInt z) | Some (VEnum _ z) | Some (VUInt _ _ (VInt z)) => z =? t
                         | _ => false
                         end
  | _ => false
  end.
Lemma fixed_types : forall c, match own_type c with Some (n, t) => fixed_ok c n t | None => true end = true.
Proof. apply (all_classes (fun c => match own_type c with Some (n, t) => fixed_ok c n t | None => true end)). vm_compute. reflexivity. Qed.
Lemma fixed_lengths : forall c, match own_length c with Some t => fixed_ok c "length" t | None => true end = true.
Proof. apply (all_classes (fun c => match own_length c with Some t => fixed_ok c "length" t | None => true end)). vm_compute. reflexivity. Qed.
Lemma fixed_holds rnd c pos kw attrs n t : construct rnd c pos kw = Ok (VObj c attrs) -> fixed_ok c n t = true -> holds attrs n t.
Proof.
  intros H G. unfold fixed_ok in G. apply andb_prop in G as [G G6]. apply andb_prop in G as [G G5]. apply andb_prop in G as [G G4]. apply andb_prop in G as [G G3]. apply andb_prop in G as [G1 G2].
  apply andb_prop in G5 as [G5 G5c]. apply andb_prop in G5 as [G5a G5b]. apply negb_true_iff in G1, G2, G3, G4, G5b, G5c.
  assert (N : c <> Match01) by (intros ->; discriminate). assert (S0 : structure c) by (split; [exact G5a|split; intros ->; discriminate]).
  destruct (others_are_new _ _ _ _ _ S0 N H) as (attrs' & new & E & NI & _ & O). injection E as <-. rewrite NI in G6.
  assert (Q : get_attr n attrs = get_attr n new).
  { apply O; [apply not_in_names, G1|intros ->; discriminate|]. intros CL ->. rewrite CL in G3. discriminate. }
  unfold holds. rewrite Q. destruct (get_attr n new) as [iv|]; [|discriminate]. exists iv. split; [reflexivity|].
  destruct iv as [| | | | | |? ? x| | | | | | | |]; try discriminate; [| |destruct x; try discriminate]; apply Z.eqb_eq in G6; subst; first [apply Spec.iv_int|apply Spec.iv_enum|apply Spec.iv_uint].
Qed.
Lemma own_types rnd c pos kw attrs : construct rnd c pos kw = Ok (VObj c attrs) ->
  (forall n t, own_type c = Some (n, t) -> holds attrs n t) /\ (forall z, own_length c = Some z -> holds attrs "length" z).
Proof.
  intros H. split.
  - intros n t E. pose proof (fixed_types c) as G. rewrite E in G. eapply fixed_holds; eassumption.
  - intros z E. pose proof (fixed_lengths c) as G. rewrite E in G. eapply fixed_holds; eassumption.
Qed.

(** ** The bytes *)

Lemma complete_structure rnd c pos kw o : structure c -> c <> Match01 -> construct rnd c pos kw = Ok o -> (forall p v, given c pos kw p v -> suits c p v = true) ->
  built o = true /\ regular o = true /\ exists attrs, o = VObj c attrs.
Proof.
  intros S0 N H HG. destruct (others_are_new _ _ _ _ _ S0 N H) as (attrs & _ & -> & _). destruct S0 as (_ & _ & S0).
  destruct (complete _ _ _ _ _ N S0 H HG) as [B R]. eauto.
Qed.
Lemma wire rnd c pos kw o bs l t p v at_ w : structure c -> c <> Match01 -> openflow_layout c = Some (l, t) ->
  construct rnd c pos kw = Ok o -> (forall p v, given c pos kw p v -> suits c p v = true) -> pack o = Ok bs ->
  given c pos kw p v -> kept_argument c p v = true -> computed c p = false -> placed 0 l p at_ w ->
  exists cv, get_attr p (class_attrs c) = Some cv /\ carried cv v (slice at_ (at_ + w) bs).
Proof.
  intros S0 N L H HG PK G KA NC PL. destruct (complete_structure _ _ _ _ _ S0 N H HG) as (B & R & attrs & ->).
  destruct (layout _ _ _ _ _ L B R PK) as (_ & _ & Q). destruct (Q _ _ _ PL) as (cv & CV & iv & IV & PT). exists cv. split; [exact CV|]. cbn [fst snd] in *.
  rewrite NC in PT. pose proof (keeps _ _ _ _ _ _ _ N H G KA) as (c' & d' & E & RD). injection E as <- <-.
  destruct (core _ _ _ _ _ N H) as (ps & env & st & b & d & P & Bd & PLn & E & F). injection E as <-. pose proof (check _ _ _ _ N P PLn) as CK.
  pose proof (given_param _ _ _ _ _ _ _ (ck_names _ _ _ CK) (ck_nodup _ _ _ CK) Bd G) as Ip.
  destruct (is_message c && String.eqb p "xid") eqn:X.
  - exfalso. apply andb_prop in X as [M X]. apply String.eqb_eq in X. subst p. apply (ck_noxid _ _ _ CK M). rewrite (forall2_names _ _ _ F). rewrite get_attr_key in IV. apply key_in in IV.
    change "xid" with (fst ("xid", iv)). apply in_map, IV.
  - rewrite RD in IV. injection IV as <-. destruct PT as [PT|[-> _]]; [exact PT|]. exfalso. exact (ck_noheader _ _ _ CK Ip).
Qed.

Definition message_ok (c : cid) : bool :=
  is_message c && negb (cid_eqb c Match01) && (subclass c CGenericStruct && negb (cid_eqb c CGenericStruct) && negb (cid_eqb c CGenericMessage)) &&
  match openflow_layout c with Some ((n, 8%nat) :: _, _) => String.eqb n "header" | _ => false end.
Lemma messages_ok v t c : In (t, c) (openflow_types v) -> message_ok c = true.
Proof.
  intros I. assert (G : forallb (fun p => message_ok (snd p)) (openflow_types v) = true) by (destruct v; vm_compute; reflexivity).
  rewrite forallb_forall in G. exact (G _ I).
Qed.
Lemma message_facts v t c : In (t, c) (openflow_types v) -> is_message c = true /\ c <> Match01 /\ structure c /\ exists l k, openflow_layout c = Some (("header", 8%nat) :: l, k).
Proof.
  intros I. pose proof (messages_ok _ _ _ I) as G. unfold message_ok in G. apply andb_prop in G as [G G4]. apply andb_prop in G as [G G3]. apply andb_prop in G as [G1 G2].
  apply andb_prop in G3 as [G3 G3c]. apply andb_prop in G3 as [G3a G3b]. apply negb_true_iff in G2, G3b, G3c.
  split; [exact G1|]. split; [intros ->; discriminate|]. split; [split; [exact G3a|split; intros ->; discriminate]|].
  destruct (openflow_layout c) as [[[|[n w] l] k]|]; try discriminate. do 8 (destruct w as [|w]; [discriminate|]). destruct w; [|discriminate]. apply String.eqb_eq in G4. subst n. eauto.
Qed.

Lemma plain_fun v z z' : plain_int v z -> plain_int v z' -> z = z'.
Proof. intros A B. inversion A; subst; inversion B; reflexivity. Qed.
Lemma stands_fun v z z' : plain_int v z -> stands_for v z' -> z = z'.
Proof. intros A [B|(x & C & _)]; [eapply plain_fun; eassumption|]. inversion A; subst; inversion C. Qed.
Lemma stands_uint w er x z z' : plain_int x z -> stands_for (VUInt w er x) z' -> z = z'.
Proof.
  intros A [B|(y & C & [D|[e ->] ])]; [inversion B| |]; inversion C; subst; [eapply plain_fun; eassumption|inversion A].
Qed.
Lemma uint_class hc n w : hc = Header01 \/ hc = Header04 -> In (n, w) [("version", 1%nat); ("message_type", 1%nat); ("xid", 4%nat)] ->
  exists er d, get_attr n (class_attrs hc) = Some (VUInt w er d).
Proof. intros [-> | ->]; cbn; intros [I|[I|[I|[] ] ] ]; injection I as <- <-; eauto. Qed.

Lemma message_wire rnd v t c pos kw o bs : In (t, c) (openflow_types v) -> ~ misfiled v t -> construct rnd c pos kw = Ok o ->
  (forall p x, given c pos kw p x -> suits c p x = true) -> pack o = Ok bs ->
  big_endian 1 (version_number v) (slice 0 1 bs) /\ big_endian 1 t (slice 1 2 bs) /\
  (forall z, given c pos kw "xid" (VInt z) -> big_endian 4 z (slice 4 8 bs)) /\ (omitted c pos kw "xid" -> big_endian 4 rnd (slice 4 8 bs)).
Proof.
  intros I NM H HG PK. destruct (message_facts _ _ _ I) as (M & N & S0 & l & k & L). destruct (complete_structure _ _ _ _ _ S0 N H HG) as (B & R & attrs & ->).
  destruct (core _ _ _ _ _ N H) as (ps & env & st & b & d & P & Bd & PLn & E & F). injection E as <-. pose proof (check _ _ _ _ N P PLn) as CK.
  destruct (bound_xid _ _ _ _ _ (ck_names _ _ _ CK) Bd M) as [a KA]. destruct (header_xid _ _ _ _ _ _ _ CK F M KA) as (hc & h0 & D & HC & IX & G).
  destruct (new_message_shape _ _ _ I) as (a0 & h & NI & HN & HV & HT). specialize (HT NM).
  pose proof (new_default c S0 N) as ND. rewrite NI in ND. injection ND as ND. rewrite <- ND in D. cbn [get_attr String.eqb Ascii.eqb Bool.eqb] in D. injection D as <- <-.
  assert (Q : forall name at_ w, placed 0 [("version", 1); ("message_type", 1); ("length", 2); ("xid", 4)]%nat name at_ w -> name <> "length" ->
     exists cv iv, get_attr name (class_attrs (header_class v)) = Some cv /\ get_attr name (set_attr "xid" (none_default (VInt rnd) a) h) = Some iv /\ carried cv iv (slice at_ (at_ + w) bs))
    by (intros name at_ w Pl NL; eapply message_header; eassumption).
  assert (FR : forall n, n <> "xid" -> get_attr n (set_attr "xid" (none_default (VInt rnd) a) h) = get_attr n h) by (intros n Nx; apply StructFacts.get_set_other, Nx).
  assert (X : forall z, none_default (VInt rnd) a = VInt z -> big_endian 4 z (slice 4 8 bs)).
  { intros z Ea. destruct (Q "xid" 4%nat 4%nat ltac:(cbn; tauto) ltac:(discriminate)) as (cv & iv & C1 & C2 & C3). destruct (uint_class _ "xid" 4 HC ltac:(cbn; tauto)) as (er & dd & C4). rewrite C4 in C1. injection C1 as <-.
    rewrite get_attr_key, set_attr_put, put_key in C2. injection C2 as <-. rewrite Ea in C3. inversion C3 as [? ? ? ? z' ? ST BE| | | | | | | | | | | | |]; subst. rewrite (stands_fun (VInt z) z z' (pi_int z) ST). exact BE. }
  split; [|split; [|split] ].
  - destruct (Q "version" 0%nat 1%nat ltac:(cbn; tauto) ltac:(discriminate)) as (cv & iv & C1 & C2 & C3). destruct (uint_class _ "version" 1 HC ltac:(cbn; tauto)) as (er & dd & C4). rewrite C4 in C1. injection C1 as <-.
    rewrite FR, HV in C2 by discriminate. injection C2 as <-. inversion C3 as [? ? ? ? z' ? ST BE| | | | | | | | | | | | |]; subst. rewrite (stands_uint _ _ _ _ z' (pi_int _) ST). exact BE.
  - destruct (Q "message_type" 1%nat 1%nat ltac:(cbn; tauto) ltac:(discriminate)) as (cv & iv & C1 & C2 & C3). destruct (uint_class _ "message_type" 1 HC ltac:(cbn; tauto)) as (er & dd & C4). rewrite C4 in C1. injection C1 as <-.
    rewrite FR, HT in C2 by discriminate. injection C2 as <-. inversion C3 as [? ? ? ? z' ? ST BE| | | | | | | | | | | | |]; subst. rewrite (stands_fun (VEnum _ _) _ z' (pi_enum _ _) ST). exact BE.
  - intros z Gz. apply X. rewrite (given_bound _ _ _ _ _ _ _ (ck_names _ _ _ CK) (ck_nodup _ _ _ CK) Bd Gz) in KA. injection KA as <-. reflexivity.
  - intros OM. apply X. destruct (omitted_bound _ _ _ _ _ _ (ck_names _ _ _ CK) (ck_nodup _ _ _ CK) Bd OM) as (dv & Id & Kd). rewrite KA in Kd. injection Kd as <-.
    pose proof (ck_default _ _ _ CK _ Id) as GD. cbn [good_default] in GD. apply andb_prop in GD as [_ GD]. rewrite M in GD. cbn [andb String.eqb Ascii.eqb Bool.eqb] in GD. apply veqb_eq in GD. subst a. reflexivity.
Qed.

(** Type and length of actions, instructions and meter bands. *)
Definition typed_ok (c : cid) (n : string) (at_ : nat) : bool :=
  negb (computed c n) &&
  match openflow_layout c with
  | Some (l, _) => match n, l with
                   | n, (m, 2%nat) :: tl => if Nat.eqb at_ 0 then String.eqb n m
                                            else match tl with (k, 2%nat) :: _ => Nat.eqb at_ 2 && String.eqb n k | _ => false end
                   | _, _ => false
                   end
  | None => false
  end &&
  match get_attr n (class_attrs c) with Some (VUInt 2 _ _) => true | _ => false end.
Lemma typed_types : forall c, match own_type c with Some (n, _) => typed_ok c n 0 | None => true end = true.
Proof. apply (all_classes (fun c => match own_type c with Some (n, _) => typed_ok c n 0 | None => true end)). vm_compute. reflexivity. Qed.
Lemma typed_lengths : forall c, match own_length c with Some _ => typed_ok c "length" 2 | None => true end = true.
Proof. apply (all_classes (fun c => match own_length c with Some _ => typed_ok c "length" 2 | None => true end)). vm_compute. reflexivity. Qed.
Lemma stands_int v z z' : Spec.int_value v z -> v <> VNone -> stands_for v z' -> z = z'.
Proof.
  intros A _ B. destruct A as [z|e z|w er z|w e z _|w e e' z _].
  - eapply stands_fun; [constructor|exact B].
  - eapply stands_fun; [constructor|exact B].
  - eapply stands_uint; [constructor|exact B].
  - eapply stands_uint; [constructor|exact B].
  - destruct B as [B|(y & C & [D|[e2 E] ])]; [inversion B| |]; inversion C; subst; [inversion D|]. congruence.
Qed.
Lemma typed_wire rnd c pos kw o bs n t at_ : (forall p x, given c pos kw p x -> suits c p x = true) -> construct rnd c pos kw = Ok o -> pack o = Ok bs ->
  fixed_ok c n t = true -> typed_ok c n at_ = true -> big_endian 2 t (slice at_ (at_ + 2) bs).
Proof.
  intros HG H PK FO TO. pose proof FO as G. unfold fixed_ok in G. apply andb_prop in G as [G _]. apply andb_prop in G as [G G5]. apply andb_prop in G as [_ G4].
  apply andb_prop in G5 as [G5 G5c]. apply andb_prop in G5 as [G5a G5b]. apply negb_true_iff in G4, G5b, G5c.
  assert (N : c <> Match01) by (intros ->; discriminate). assert (S0 : structure c) by (split; [exact G5a|split; intros ->; discriminate]).
  destruct (complete_structure _ _ _ _ _ S0 N H HG) as (B & R & attrs & ->). destruct (fixed_holds _ _ _ _ _ _ _ H FO) as (iv & GI & IV).
  unfold typed_ok in TO. apply andb_prop in TO as [TO T3]. apply andb_prop in TO as [T1 T2]. apply negb_true_iff in T1.
  destruct (openflow_layout c) as [[l k]|] eqn:L; [|discriminate]. destruct (layout _ _ _ _ _ L B R PK) as (_ & _ & Q).
  assert (PL : placed 0 l n at_ 2).
  { destruct l as [|[m w] tl]; [discriminate|]. do 2 (destruct w as [|w]; [discriminate|]). destruct w; [|discriminate]. cbn [placed].
    destruct (Nat.eqb_spec at_ 0) as [->|_]; [left; apply String.eqb_eq in T2; auto|]. right. destruct tl as [|[m' w] tl]; [discriminate|]. do 2 (destruct w as [|w]; [discriminate|]). destruct w; [|discriminate].
    apply andb_prop in T2 as [T2 T4]. apply Nat.eqb_eq in T2. apply String.eqb_eq in T4. subst. cbn. auto. }
  destruct (Q _ _ _ PL) as (cv & CV & iv' & IV' & PT). cbn [fst snd] in *. rewrite T1 in PT. rewrite GI in IV'. injection IV' as <-. rewrite CV in T3.
  destruct cv as [| | | | | |w er d| | | | | | | |]; try discriminate. do 2 (destruct w as [|w]; [discriminate|]). destruct w; [|discriminate].
  destruct PT as [PT|(E & hc & h & z & E2 & _)]; [|exfalso; subst iv; inversion IV].
  inversion PT as [? ? ? ? z' ? ST BE| | | | | | | | | | | | |]; subst. assert (NV : iv <> VNone) by (intros ->; inversion IV).
  assert (ST' : stands_for iv z') by (destruct iv; try exact ST; contradiction). rewrite (stands_int _ _ _ IV NV ST'). exact BE.
Qed.
Lemma own_wire rnd c pos kw o bs : (forall p x, given c pos kw p x -> suits c p x = true) -> construct rnd c pos kw = Ok o -> pack o = Ok bs ->
  (forall n t, own_type c = Some (n, t) -> big_endian 2 t (slice 0 2 bs)) /\ (forall z, own_length c = Some z -> big_endian 2 z (slice 2 4 bs)).
Proof.
  intros HG H PK. split.
  - intros n t E. pose proof (fixed_types c) as G. pose proof (typed_types c) as G'. rewrite E in G, G'. exact (typed_wire _ _ _ _ _ _ _ _ 0%nat HG H PK G G').
  - intros z E. pose proof (fixed_lengths c) as G. pose proof (typed_lengths c) as G'. rewrite E in G, G'. exact (typed_wire _ _ _ _ _ _ _ _ 2%nat HG H PK G G').
Qed.

(** The match of OpenFlow 1.0: its keywords are assignments. *)
Lemma set_each_run kw : forall d d', set_each kw d = Ok d' -> d' = match_run kw d.
Proof.
  induction kw as [|[n v] kw IH]; intros d d' H; cbn in H |- *; [congruence|]. destruct (match_set n v d) as [d1 [e|]]; [discriminate|]. apply IH, H.
Qed.
Lemma match_keywords rnd pos kw o : construct rnd Match01 pos kw = Ok o -> pos = [] /\ o = VObj Match01 (match_run kw match_new).
Proof.
  cbn [construct]. destruct pos; [|discriminate]. unfold match_init. destruct (set_each kw match_new) as [d|] eqn:E; [|discriminate]. intros H. injection H as <-.
  split; [reflexivity|]. f_equal. apply set_each_run, E.
Qed.
Lemma no_arguments_all rnd c n : structure c -> new_instance c = Some n -> construct rnd c [] [] = Ok (with_xid (VInt rnd) n).
Proof. intros S0 E. apply no_arguments; [exact E|]. destruct (structure_params c S0) as [ps ->]. discriminate. Qed.
Lemma match_positional rnd pos kw : pos <> [] -> construct rnd Match01 pos kw = Err TypeError.
Proof. destruct pos; [congruence|reflexivity]. Qed.
Lemma set_each_fails kw : forall d e, set_each kw d = Err e -> exists before n v after, kw = before ++ (n, v) :: after /\ snd (match_set n v (match_run before d)) = Some e.
Proof.
  induction kw as [|[n v] kw IH]; intros d e H; cbn [set_each] in H; [discriminate|]. destruct (match_set n v d) as [d1 [e1|] ] eqn:E.
  - injection H as <-. exists [], n, v, kw. cbn [app match_run]. rewrite E. auto.
  - apply IH in H as (b & n' & v' & a & -> & H). exists ((n, v) :: b), n', v', a. cbn [app match_run]. rewrite E. auto.
Qed.
Lemma match_fails rnd kw e : construct rnd Match01 [] kw = Err e ->
  exists before n v after, kw = before ++ (n, v) :: after /\ snd (match_set n v (match_run before match_new)) = Some e.
Proof.
  cbn [construct]. unfold match_init. destruct (set_each kw match_new) eqn:E; [discriminate|]. intros H. injection H as <-. apply set_each_fails, E.
Qed.
