(** Constructors: the checks of the tables and the properties of C52. *)
From Coq Require Import ZArith List Bool String Lia.
From Verif Require Import Base PyText Ids PyVal Classes Interp Utils Match01 Inits Construct SpecMsg SpecMutation SpecLayout SpecInit ClassFacts ConstructFacts ConstructThm.
Import ListNotations.
Open Scope string_scope.
Open Scope list_scope.
Open Scope Z_scope.

Fixpoint own_params (n : nat) (k : cid) : option (list (string * pyval)) :=
  match n with
  | O => None
  | S n' =>
      match k with
      | CGenericStruct => Some []
      | CGenericMessage => Some [("xid", VNone)]
      | _ => match class_base k with
             | None => None
             | Some b => match init_code k with Some (ps, _) => Some ps | None => own_params n' b end
             end
      end
  end.

Section Full.
Variable size : pyval -> res Z.
Variable plain_size : cid -> dict -> res Z.
Variable rnd : Z.
Variable self : cid.
Lemma run_full n : forall k pos kw d,
  run_init size plain_size rnd self n k pos kw d =
  match own_params n k with
  | Some ps => do env <- bind_args ps pos kw; run_init size plain_size rnd self n k (map snd env) [] d
  | None => run_init size plain_size rnd self n k pos kw d
  end.
Proof.
  induction n as [|n IH]; intros k pos kw d; [reflexivity|].
  assert (Own : match class_base k with
     | None => Err TypeError
     | Some b => match init_code k with
                 | None => run_init size plain_size rnd self n b pos kw d
                 | Some (ps, code) => do env <- bind_args ps pos kw; isteps size plain_size self (run_init size plain_size rnd self n b) env code d
                 end
     end = match match class_base k with
             | None => None
             | Some b => match init_code k with Some (ps, _) => Some ps | None => own_params n b end
             end with
           | Some ps => do env <- bind_args ps pos kw;
     match class_base k with
     | None => Err TypeError
     | Some b => match init_code k with
                 | None => run_init size plain_size rnd self n b (map snd env) [] d
                 | Some (ps, code) => do env <- bind_args ps (map snd env) []; isteps size plain_size self (run_init size plain_size rnd self n b) env code d
                 end
     end
           | None => match class_base k with
     | None => Err TypeError
     | Some b => match init_code k with
                 | None => run_init size plain_size rnd self n b pos kw d
                 | Some (ps, code) => do env <- bind_args ps pos kw; isteps size plain_size self (run_init size plain_size rnd self n b) env code d
                 end
     end end).
  { destruct (class_base k) as [b|]; [|reflexivity]. destruct (init_code k) as [[ps code]|]; [|apply IH].
    destruct (bind_args ps pos kw) as [env|] eqn:E; [|reflexivity]. cbn [bind]. rewrite (bind_again ps env (bind_fst _ _ _ _ E)). reflexivity. }
  destruct k; try exact Own; cbn [run_init own_params].
  - destruct (bind_args [] pos kw) as [env|] eqn:E; [|reflexivity]. cbn [bind]. rewrite (bind_again [] env (bind_fst _ _ _ _ E)). reflexivity.
  - destruct (bind_args [("xid", VNone)] pos kw) as [env|] eqn:E; [|reflexivity]. cbn [bind]. rewrite (bind_again [("xid", VNone)] env (bind_fst _ _ _ _ E)). reflexivity.
Qed.
Lemma run_none n : forall k pos kw d, own_params n k = None -> exists e, run_init size plain_size rnd self n k pos kw d = Err e.
Proof.
  induction n as [|n IH]; intros k pos kw d H; [eexists; reflexivity|].
  assert (Own : match class_base k with
             | None => None
             | Some b => match init_code k with Some (ps, _) => Some ps | None => own_params n b end
             end = None -> exists e,  match class_base k with
     | None => Err TypeError
     | Some b => match init_code k with
                 | None => run_init size plain_size rnd self n b pos kw d
                 | Some (ps, code) => do env <- bind_args ps pos kw; isteps size plain_size self (run_init size plain_size rnd self n b) env code d
                 end
     end = Err e).
  { destruct (class_base k) as [b|]; [|eexists; reflexivity]. destruct (init_code k) as [[ps code]|]; [discriminate|apply IH]. }
  destruct k; try exact (Own H); discriminate.
Qed.
End Full.

(** ** Checks over all classes *)

Definition plan (c : cid) : sres :=
  match own_params INIT_DEPTH c with
  | Some ps => srun c INIT_DEPTH c (map (fun p => FArg (fst p)) ps) [] []
  | None => None
  end.

Fixpoint nodup_names (l : list string) : bool :=
  match l with [] => true | n :: l => negb (existsb (String.eqb n) l) && nodup_names l end.
Lemma nodup_names_ok l : nodup_names l = true -> NoDup l.
Proof.
  induction l as [|n l IH]; intros H; [constructor|]. cbn in H. apply andb_prop in H as [H1 H2]. constructor; [|apply IH, H2].
  intros C. apply negb_true_iff in H1. rewrite <- not_true_iff_false in H1. apply H1. apply existsb_exists. exists n. split; [exact C|apply String.eqb_refl].
Qed.

Definition default_attrs (c : cid) : dict := match new_instance c with Some (VObj _ d) => d | _ => [] end.
Definition same_default (c : cid) (n : string) (v : pyval) : bool :=
  match get_attr n (default_attrs c) with Some w => veqb v w | None => false end.

(** The source of a parameter. *)
Definition good_param (c : cid) (st : state) (p : string) : bool :=
  if is_message c && String.eqb p "xid"
  then match key "header" st with
       | Some (Head _ l) => match key "xid" l with Some (FXid q) => String.eqb q "xid" | _ => false end
       | _ => false
       end
  else match key p st with
       | Some (Leaf (FArg q)) => String.eqb q p
       | Some (Leaf (FIfNone q v)) | Some (Leaf (FOr q v)) => String.eqb q p && same_default c p v
       | _ => false
       end.
(** The header of a new message, but for the transaction id. *)
Fixpoint same_header (l : list (string * src)) (h : dict) : bool :=
  match l, h with
  | [], [] => true
  | (k, s) :: l, (k', v) :: h => String.eqb k k' && (String.eqb k "xid" || match s with FConst w => veqb w v | _ => false end) && same_header l h
  | _, _ => false
  end.
(** The source of any other attribute. *)
Definition good_other (c : cid) (f : string * sval) : bool :=
  let (n, s) := f in
  existsb (String.eqb n) (parameters c) ||
  match s with
  | Leaf (FConst v) => same_default c n v && negb (String.eqb n "header")
  | Leaf FLen => computes_length c && String.eqb n "length"
  | Head hc l => String.eqb n "header" &&
      match get_attr "header" (default_attrs c) with
      | Some (VObj hc' h) => cid_eqb hc hc' && (cid_eqb hc Header01 || cid_eqb hc Header04) &&
          same_header l h
      | _ => false
      end
  | _ => false
  end.
Definition good_with (c : cid) (params : option (list (string * pyval))) (pl : sres) : bool :=
  match params with
  | None => true
  | Some ps =>
      cid_eqb c Match01 ||
      match pl with
      | Some (st, b) =>
          (if list_eq_dec string_dec (map fst ps) (parameters c) then true else false) && nodup_names (map fst ps) &&
          forallb (good_param c st) (parameters c) && forallb (good_other c) st && Bool.eqb b (measures c) &&
          nodup_names (map fst st) &&
          (if list_eq_dec string_dec (map fst st) (map fst (default_attrs c)) then true else false) &&
          (cid_eqb c CGenericStruct || has_attributes c (map (fun p => (fst p, VNone)) st)) &&
          forallb (fun p => built (snd p)) ps && forallb (fun p => built (snd p)) (default_attrs c)
      | None => cid_eqb c CGenericMessage
      end
  end.
Lemma all_good : forall c, good_with c (own_params INIT_DEPTH c) (plan c) = true.
Proof. apply (all_classes (fun c => good_with c (own_params INIT_DEPTH c) (plan c))). vm_compute. reflexivity. Qed.
Lemma good_eq c ps pl : own_params INIT_DEPTH c = ps -> plan c = pl -> good_with c ps pl = true.
Proof. intros <- <-. exact (all_good c). Qed.

Lemma good_parts c ps st b : c <> Match01 -> own_params INIT_DEPTH c = Some ps -> plan c = Some (st, b) ->
  map fst ps = parameters c /\ NoDup (parameters c) /\ (forall p, In p (parameters c) -> good_param c st p = true) /\
  (forall f, In f st -> good_other c f = true) /\ b = measures c /\ NoDup (map fst st) /\ map fst st = map fst (default_attrs c) /\
  (c = CGenericStruct \/ has_attributes c (map (fun p => (fst p, VNone)) st) = true) /\
  (forall p, In p ps -> built (snd p) = true) /\ (forall p, In p (default_attrs c) -> built (snd p) = true).
Proof.
  intros N E1 E2. pose proof (good_eq c _ _ E1 E2) as H. clear E1 E2. cbv beta iota delta [good_with] in H. rewrite (cid_eqb_neq _ _ N) in H. cbn [orb] in H.
  apply andb_prop in H as [H H9]. apply andb_prop in H as [H H8]. apply andb_prop in H as [H H7]. apply andb_prop in H as [H H6]. apply andb_prop in H as [H H5].
  apply andb_prop in H as [H H4]. apply andb_prop in H as [H H3]. apply andb_prop in H as [H H2]. apply andb_prop in H as [H0 H1].
  destruct (list_eq_dec string_dec (map fst ps) (parameters c)) as [E|]; [|discriminate]. destruct (list_eq_dec string_dec (map fst st) (map fst (default_attrs c))) as [E'|]; [|discriminate].
  rewrite forallb_forall in H2, H3, H8, H9. apply eqb_prop in H4. apply orb_prop in H7.
  repeat split; try assumption.
  - rewrite <- E. apply nodup_names_ok, H1.
  - apply nodup_names_ok, H5.
  - destruct H7 as [H7|H7]; [left; apply cid_eqb_eq, H7|right; exact H7].
Qed.

Lemma construct_eq rnd c pos kw : c <> Match01 ->
  construct rnd c pos kw = (do d <- run_init get_size (fun c d => struct_size get_size c d) rnd c INIT_DEPTH c pos kw []; Ok (VObj c d)).
Proof. intros N. destruct c; try reflexivity. congruence. Qed.

Lemma args_mean size rnd env : NoDup (map fst env) -> Forall2 (means size rnd env) (map (fun p => FArg (fst p)) env) (map snd env).
Proof.
  intros ND. assert (H : forall l, incl l env -> Forall2 (means size rnd env) (map (fun p => FArg (fst p)) l) (map snd l)).
  { induction l as [|[n v] l IH]; intros I; [constructor|]. cbn. constructor; [|apply IH; intros x Ix; apply I; right; exact Ix].
    cbn. apply in_key; [exact ND|apply I; left; reflexivity]. }
  apply H, incl_refl.
Qed.

Definition stands (rnd : Z) (env : dict) := Forall2 (entry (vmeans get_size rnd env)).

Lemma planned c ps : own_params INIT_DEPTH c = Some ps -> c <> Match01 -> c <> CGenericMessage -> exists st b, plan c = Some (st, b).
Proof.
  intros E N N2. destruct (plan c) as [[st b]|] eqn:PL; [eauto|]. pose proof (good_eq c _ _ E PL) as H. cbv beta iota delta [good_with] in H. rewrite (cid_eqb_neq _ _ N), orb_false_l in H. apply cid_eqb_eq in H. contradiction.
Qed.
Lemma generic_message rnd pos kw o : construct rnd CGenericMessage pos kw = Ok o -> False.
Proof.
  rewrite construct_eq by discriminate. change INIT_DEPTH with (S (S 4)). cbn [run_init].
  destruct (bind_args [("xid", VNone)] pos kw); cbn [bind]; [|discriminate]. cbn [bind_args bind copies class_attrs map fold_left].
  destruct (eval _ _ _); cbn [bind]; [|discriminate]. discriminate.
Qed.

Lemma core0 size plain_size rnd n c ps pos kw d st b :
  own_params n c = Some ps -> NoDup (map fst ps) -> srun c n c (map (fun p => FArg (fst p)) ps) [] [] = Some (st, b) ->
  match run_init size plain_size rnd c n c pos kw d with
  | Ok d' => d = [] -> exists env, bind_args ps pos kw = Ok env /\ Forall2 (entry (vmeans size rnd env)) st d'
  | Err e => d = [] -> e = TypeError /\ bind_args ps pos kw = Err TypeError \/ b = true
  end.
Proof.
  intros P ND PL. rewrite run_full, P. destruct (bind_args ps pos kw) as [env|e] eqn:B; cbn [bind].
  2:{ intros _. apply bind_error in B. subst e. auto. }
  pose proof (bind_fst _ _ _ _ B) as E.
  assert (PE : srun c n c (map (fun p => FArg (fst p)) env) [] [] = Some (st, b)).
  { rewrite <- PL. f_equal. rewrite <- !(map_map fst FArg). rewrite E. reflexivity. }
  pose proof (run_sound size plain_size rnd c env n c (map snd env) [] d (map (fun p => FArg (fst p)) env) [] []) as S1. rewrite PE in S1.
  destruct (run_init size plain_size rnd c n c (map snd env) [] d) as [d'|e]; intros ->; cbn in S1.
  - exists env. split; [reflexivity|]. apply S1; try constructor. apply args_mean. rewrite E. exact ND.
  - right. apply S1; try constructor. apply args_mean. rewrite E. exact ND.
Qed.

Lemma core rnd c pos kw o : c <> Match01 -> construct rnd c pos kw = Ok o ->
  exists ps env st b d, own_params INIT_DEPTH c = Some ps /\ bind_args ps pos kw = Ok env /\ plan c = Some (st, b) /\ o = VObj c d /\ stands rnd env st d.
Proof.
  intros N H. assert (N2 : c <> CGenericMessage) by (intros ->; eapply generic_message, H).
  destruct (own_params INIT_DEPTH c) as [ps|] eqn:P.
  2:{ destruct (run_none get_size (fun c d => struct_size get_size c d) rnd c INIT_DEPTH c pos kw [] P) as [e E]. rewrite construct_eq, E in H by exact N. discriminate. }
  destruct (planned c ps P N N2) as (st & b & PL). destruct (good_parts c ps st b N P PL) as (E & ND & _).
  assert (PL' : srun c INIT_DEPTH c (map (fun p => FArg (fst p)) ps) [] [] = Some (st, b)) by (rewrite <- PL; unfold plan; rewrite P; reflexivity).
  pose proof (core0 get_size (fun c d => struct_size get_size c d) rnd INIT_DEPTH c ps pos kw [] st b P ltac:(rewrite E; exact ND) PL') as Q.
  rewrite construct_eq in H by exact N. destruct (run_init _ _ _ _ _ _ _ _ _) as [d|]; [|discriminate]. injection H as <-.
  destruct (Q eq_refl) as (env & B & F). exists ps, env, st, b, d. repeat split; try assumption.
Qed.

Lemma nonempty_truthy v t : empty_value v = false -> truthy get_size v = Ok t -> t = true.
Proof.
  destruct v as [|z|s|s|e z|e z|w er x|n|n x|x m|x|x|x|k l|lc pc l]; cbn [empty_value]; intros E H; try discriminate.
  - destruct z; [discriminate| |]; cbn in H; congruence.
  - destruct s; [discriminate|]. cbn in H. congruence.
  - destruct s; [discriminate|]. cbn in H. congruence.
  - cbn in H. destruct (is_int_enum e); [|congruence]. destruct z; [discriminate| |]; cbn in H; congruence.
  - cbn in H. congruence.
  - destruct w as [|w]; [discriminate|]. change (truthy get_size (VUInt (S w) er x)) with (Ok (negb (Z.of_nat (S w) =? 0))) in H. injection H as <-. reflexivity.
  - destruct n as [|n]; [discriminate|]. change (truthy get_size (VPad (S n))) with (Ok (negb (Z.of_nat (S n) =? 0))) in H. injection H as <-. reflexivity.
  - destruct n as [|n]; [discriminate|]. change (truthy get_size (VChar (S n) x)) with (Ok (negb (Z.of_nat (S n) =? 0))) in H. injection H as <-. reflexivity.
  - change (truthy get_size (VIP x m)) with (Ok true) in H. congruence.
  - change (truthy get_size (VHW x)) with (Ok true) in H. congruence.
  - change (truthy get_size (VDPID x)) with (Ok true) in H. congruence.
  - cbn in H. congruence.
  - destruct l; [discriminate|]. cbn in H. congruence.
Qed.

Lemma given_bound c ps env pos kw p v : map fst ps = parameters c -> NoDup (parameters c) -> bind_args ps pos kw = Ok env -> given c pos kw p v -> key p env = Some v.
Proof.
  intros E ND B G. destruct (bind_value ps ltac:(rewrite E; exact ND) _ _ _ B) as (H1 & H2 & _). rewrite E in H1.
  destruct G as [(i & Hi & Hv)|I]; [eapply H1; eassumption|apply H2, I].
Qed.
Lemma given_param c ps env pos kw p v : map fst ps = parameters c -> NoDup (parameters c) -> bind_args ps pos kw = Ok env -> given c pos kw p v -> In p (parameters c).
Proof. intros E ND B G. pose proof (given_bound _ _ _ _ _ _ _ E ND B G) as K. apply key_in, (in_map fst) in K. cbn in K. rewrite (bind_fst _ _ _ _ B), E in K. exact K. Qed.
Lemma omitted_bound c ps env pos kw p : map fst ps = parameters c -> NoDup (parameters c) -> bind_args ps pos kw = Ok env -> omitted c pos kw p ->
  exists d, In (p, d) ps /\ key p env = Some d.
Proof.
  intros E ND B [Ip NG]. destruct (bind_value ps ltac:(rewrite E; exact ND) _ _ _ B) as (_ & _ & H3). rewrite <- E in Ip. apply in_map_iff in Ip as ([q d] & Eq & Id). cbn in Eq. subst q.
  exists d. split; [exact Id|]. apply H3; [exact Id| |].
  - intros i Hi. destruct (nth_error pos i) as [v|] eqn:Ev; [|reflexivity]. exfalso. apply (NG v). left. exists i. rewrite <- E. auto.
  - intros C. apply in_map_iff in C as ([q v] & Eq & C). cbn in Eq. subst q. apply (NG v). right. exact C.
Qed.

(** The value of a parameter, when its argument is [a]. *)
Definition param_value (rnd : Z) (c : cid) (p : string) (a x : pyval) : Prop :=
  if is_message c && String.eqb p "xid" then x = none_default (VInt rnd) a
  else x = a \/ (a = VNone \/ truthy get_size a = Ok false) /\ get_attr p (default_attrs c) = Some x.
Lemma param_reads rnd c st env d p a : stands rnd env st d -> good_param c st p = true -> key p env = Some a ->
  exists x, reads (VObj c d) p x /\ param_value rnd c p a x.
Proof.
  intros F G K. unfold good_param in G. unfold reads, param_value. destruct (is_message c && String.eqb p "xid") eqn:X.
  - apply andb_prop in X as [M X]. apply String.eqb_eq in X. subst p.
    pose proof (entry_key _ _ _ "header" F) as Q. destruct (key "header" st) as [[?|hc l]|]; try discriminate. destruct (key "header" d) as [y|] eqn:KD; [|contradiction].
    destruct Q as (h & -> & Fh). pose proof (entry_key _ _ _ "xid" Fh) as Q. destruct (key "xid" l) as [s|]; [|discriminate]. destruct s as [?|?|? ?|? ?|q| |]; try discriminate.
    apply String.eqb_eq in G. subst q. destruct (key "xid" h) as [x|] eqn:KH; [|contradiction]. destruct Q as (a' & K' & ->). rewrite K in K'. injection K' as <-.
    eexists. split; [|reflexivity]. exists c, d. split; [reflexivity|]. rewrite M, String.eqb_refl. cbn. exists hc, h. rewrite !get_attr_key. auto.
  - pose proof (entry_key _ _ _ p F) as Q. destruct (key p st) as [[s|]|]; try discriminate. destruct (key p d) as [x|] eqn:KD; [|contradiction].
    exists x. split; [exists c, d; rewrite X, get_attr_key; auto|]. cbn in Q. destruct s as [q|?|q v|q v|?| |]; try discriminate.
    + apply String.eqb_eq in G. subst q. cbn in Q. left. congruence.
    + apply andb_prop in G as [G D]. apply String.eqb_eq in G. subst q. destruct Q as (a' & K' & ->). rewrite K in K'. injection K' as <-.
      destruct a; try (left; reflexivity). right. split; [left; reflexivity|]. unfold same_default in D. destruct (get_attr p (default_attrs c)); [|discriminate]. apply veqb_eq in D. cbn. congruence.
    + apply andb_prop in G as [G D]. apply String.eqb_eq in G. subst q. destruct Q as (a' & t & K' & T & ->). rewrite K in K'. injection K' as <-.
      destruct t; [left; reflexivity|]. right. split; [right; exact T|]. unfold same_default in D. destruct (get_attr p (default_attrs c)); [|discriminate]. apply veqb_eq in D. congruence.
Qed.

(** ** Properties *)

Lemma stores rnd c pos kw o p v : c <> Match01 -> construct rnd c pos kw = Ok o -> given c pos kw p v -> empty_value v = false -> reads o p v.
Proof.
  intros N H G NE. destruct (core _ _ _ _ _ N H) as (ps & env & st & b & d & P & B & PL & -> & F). destruct (good_parts _ _ _ _ N P PL) as (E & ND & GP & _).
  destruct (param_reads _ _ _ _ _ p v F (GP p (given_param _ _ _ _ _ _ _ E ND B G)) (given_bound _ _ _ _ _ _ _ E ND B G)) as (x & R & V).
  assert (x = v) as ->; [|exact R]. unfold param_value in V. destruct (is_message c && String.eqb p "xid").
  - rewrite V. destruct v; try reflexivity. discriminate.
  - destruct V as [V|[[->|T] _]]; [exact V|discriminate|]. pose proof (nonempty_truthy _ _ NE T). discriminate.
Qed.

Lemma default_new c : c <> Match01 -> own_params INIT_DEPTH c <> None -> c <> CGenericMessage -> c <> CGenericStruct -> new_instance c = Some (VObj c (default_attrs c)).
Proof. intros A B C D. destruct c; try congruence; try reflexivity; exfalso; apply B; reflexivity. Qed.

Lemma stores_empty rnd c pos kw o p v : c <> Match01 -> construct rnd c pos kw = Ok o -> given c pos kw p v -> v <> VNone \/ p <> "xid" ->
  reads o p v \/ exists n x, new_instance c = Some n /\ reads n p x /\ reads o p x.
Proof.
  intros N H G NE. destruct (core _ _ _ _ _ N H) as (ps & env & st & b & d & P & B & PL & -> & F). destruct (good_parts _ _ _ _ N P PL) as (E & ND & GP & _).
  pose proof (given_param _ _ _ _ _ _ _ E ND B G) as Ip.
  assert (N2 : c <> CGenericMessage) by (intros ->; eapply generic_message, H).
  assert (N3 : c <> CGenericStruct) by (intros ->; destruct Ip).
  destruct (param_reads _ _ _ _ _ p v F (GP p Ip) (given_bound _ _ _ _ _ _ _ E ND B G)) as (x & R & V). unfold param_value in V.
  destruct (is_message c && String.eqb p "xid") eqn:X.
  - left. assert (x = v) as ->; [|exact R]. rewrite V. destruct NE as [NE|NE]; [destruct v; try reflexivity; congruence|]. apply andb_prop in X as [_ X]. apply String.eqb_eq in X. contradiction.
  - destruct V as [->|[_ D]]; [left; exact R|]. right. exists (VObj c (default_attrs c)), x. split; [apply default_new; try assumption; congruence|].
    split; [|exact R]. exists c, (default_attrs c). rewrite X. auto.
Qed.

(** Calls without arguments. *)
Lemma no_arguments rnd c n : new_instance c = Some n -> own_params INIT_DEPTH c <> None -> construct rnd c [] [] = Ok (with_xid (VInt rnd) n).
Proof.
  intros E H. destruct c; try discriminate; injection E as <-; try (exfalso; apply H; reflexivity); vm_compute; reflexivity.
Qed.
