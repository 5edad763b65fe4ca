(** Constructors: the other attributes, acceptance, and the bytes. *)
From Coq Require Import ZArith List Bool String Lia.
From Verif Require Import Base PyText Ids PyVal Classes Interp Utils Match01 Inits Construct SpecMsg SpecMutation SpecLayout SpecInit ClassFacts ConstructFacts ConstructThm ConstructThm2.
Import ListNotations.
Open Scope string_scope.
Open Scope list_scope.
Open Scope Z_scope.

Lemma bind_origin {A} (ps : list (string * A)) : forall pos kw env q a, bind_args ps pos kw = Ok env -> In (q, a) env ->
  (exists i, nth_error (map fst ps) i = Some q /\ nth_error pos i = Some a) \/ In (q, a) kw \/ In (q, a) ps.
Proof.
  induction ps as [|[n d] ps IH]; intros pos kw env q a H I; cbn [bind_args] in H.
  - destruct pos, kw; try discriminate. injection H as <-. destruct I.
  - destruct pos as [|v pos].
    + destruct (key n kw) as [v|] eqn:K.
      * destruct (bind_args ps [] (drop_key n kw)) as [env'|] eqn:B; [|discriminate]. injection H as <-. destruct I as [I|I].
        -- injection I as <- <-. right. left. apply key_in, K.
        -- destruct (IH _ _ _ _ _ B I) as [(i & _ & C)|[C|C]]; [destruct i; discriminate|right; left; eapply drop_in, C|right; right; right; exact C].
      * destruct (bind_args ps [] kw) as [env'|] eqn:B; [|discriminate]. injection H as <-. destruct I as [I|I].
        -- injection I as <- <-. right. right. left. reflexivity.
        -- destruct (IH _ _ _ _ _ B I) as [(i & _ & C)|[C|C]]; [destruct i; discriminate|right; left; exact C|right; right; right; exact C].
    + destruct (bind_args ps pos kw) as [env'|] eqn:B; [|discriminate]. injection H as <-. destruct I as [I|I].
      * injection I as <- <-. left. exists O. auto.
      * destruct (IH _ _ _ _ _ B I) as [(i & C1 & C2)|[C|C]]; [left; exists (S i); auto|right; left; exact C|right; right; right; exact C].
Qed.

(** ** More checks over all classes *)

(** The default of a parameter gives what a call without arguments gives. *)
Definition good_default (c : cid) (st : state) (f : string * pyval) : bool :=
  let (p, d) := f in
  (veqb d VNone || same_default c p d) &&
  if is_message c && String.eqb p "xid" then veqb d VNone
  else match key p st with
       | Some (Leaf (FArg _)) => same_default c p d
       | Some (Leaf (FIfNone _ v)) | Some (Leaf (FOr _ v)) => (veqb d VNone && same_default c p v) || same_default c p d
       | _ => false
       end.
Definition header_of (d : dict) : dict := match get_attr "header" d with Some (VObj _ h) => h | _ => [] end.
Definition good2 (c : cid) (params : option (list (string * pyval))) (pl : sres) : bool :=
  match params, pl with
  | Some ps, Some (st, _) =>
      cid_eqb c Match01 ||
      forallb (good_default c st) ps &&
      negb (existsb (String.eqb "xid") (map fst st) && is_message c) &&
      negb (existsb (String.eqb "header") (parameters c)) &&
      (negb (is_message c) ||
        match key "header" st with
        | Some (Head _ _) => nodup_names (map fst (header_of (default_attrs c))) && existsb (String.eqb "xid") (map fst (header_of (default_attrs c)))
        | _ => false
        end) &&
      (is_message c || negb (existsb (String.eqb "header") (map fst st))) &&
      (cid_eqb c CGenericStruct || has_attributes c (default_attrs c)) &&
      forallb header_ok (default_attrs c) &&
      regular (VObj c (default_attrs c))
  | _, _ => true
  end.
Lemma all_good2 : forall c, good2 c (own_params INIT_DEPTH c) (plan c) = true.
Proof. apply (all_classes (fun c => good2 c (own_params INIT_DEPTH c) (plan c))). vm_compute. reflexivity. Qed.
Lemma good2_eq c ps pl : own_params INIT_DEPTH c = ps -> plan c = pl -> good2 c ps pl = true.
Proof. intros <- <-. exact (all_good2 c). Qed.
Lemma not_in_names n l : existsb (String.eqb n) l = false -> ~ In n l.
Proof. intros H C. rewrite <- not_true_iff_false in H. apply H. apply existsb_exists. exists n. split; [exact C|apply String.eqb_refl]. Qed.
Lemma in_names n l : existsb (String.eqb n) l = true -> In n l.
Proof. intros H. apply existsb_exists in H as (m & I & E). apply String.eqb_eq in E. congruence. Qed.

Record checked (c : cid) (ps : list (string * pyval)) (st : state) : Prop := {
  ck_names : map fst ps = parameters c;
  ck_nodup : NoDup (parameters c);
  ck_param : forall p, In p (parameters c) -> good_param c st p = true;
  ck_other : forall f, In f st -> good_other c f = true;
  ck_stnodup : NoDup (map fst st);
  ck_stnames : map fst st = map fst (default_attrs c);
  ck_psbuilt : forall p, In p ps -> built (snd p) = true;
  ck_dbuilt : forall p, In p (default_attrs c) -> built (snd p) = true;
  ck_default : forall f, In f ps -> good_default c st f = true;
  ck_noxid : is_message c = true -> ~ In "xid" (map fst st);
  ck_noheader : ~ In "header" (parameters c);
  ck_header : is_message c = true -> exists hc l, key "header" st = Some (Head hc l) /\ NoDup (map fst (header_of (default_attrs c))) /\
                In "xid" (map fst (header_of (default_attrs c)));
  ck_plain : is_message c = false -> ~ In "header" (map fst st);
  ck_attrs : c = CGenericStruct \/ has_attributes c (default_attrs c) = true;
  ck_hok : forallb header_ok (default_attrs c) = true;
  ck_regular : regular (VObj c (default_attrs c)) = true }.
Lemma check c ps st b : c <> Match01 -> own_params INIT_DEPTH c = Some ps -> plan c = Some (st, b) -> checked c ps st.
Proof.
  intros N P PL. destruct (good_parts c ps st b N P PL) as (E & ND & GP & GO & _ & SN & SE & _ & PB & DB).
  pose proof (good2_eq c _ _ P PL) as H. clear P PL. cbv beta iota delta [good2] in H. rewrite (cid_eqb_neq _ _ N), orb_false_l in H.
  apply andb_prop in H as [H H8]. apply andb_prop in H as [H H7]. apply andb_prop in H as [H H6]. apply andb_prop in H as [H H5]. apply andb_prop in H as [H H4].
  apply andb_prop in H as [H H3]. apply andb_prop in H as [H1 H2]. rewrite forallb_forall in H1. apply negb_true_iff in H2, H3.
  constructor; try assumption.
  - intros M. rewrite M, andb_true_r in H2. apply not_in_names, H2.
  - apply not_in_names, H3.
  - intros M. rewrite M in H4. cbn [negb orb] in H4. destruct (key "header" st) as [[?|hc l]|]; try discriminate. exists hc, l. apply andb_prop in H4 as [A B].
    split; [reflexivity|]. split; [apply nodup_names_ok, A|apply in_names, B].
  - intros M. rewrite M in H5. cbn [orb] in H5. apply negb_true_iff in H5. apply not_in_names, H5.
  - apply orb_prop in H6 as [H6|H6]; [left; apply cid_eqb_eq, H6|right; exact H6].
Qed.

(** ** The attributes *)

Lemma put_same (size : pyval -> res Z) rnd env l attrs h x : Forall2 (entry (means size rnd env)) l attrs -> same_header l h = true -> NoDup (map fst h) -> In "xid" (map fst h) ->
  key "xid" attrs = Some x -> attrs = put "xid" x h.
Proof.
  intros F. revert h. induction F as [|[k s] [k' y] l attrs [E M] F IH]; intros h G ND I K; [discriminate|]. cbn in E, M. subst k'. destruct h as [|[k' v] h]; [discriminate|].
  cbn [same_header] in G. apply andb_prop in G as [G G3]. apply andb_prop in G as [G1 G2]. apply String.eqb_eq in G1. subst k'. cbn [key] in K. cbn [put]. cbn in ND, I. inversion ND as [|? ? NI ND']; subst.
  destruct (String.eqb_spec k "xid") as [->|NE].
  - injection K as ->. f_equal. clear IH I M G2 ND. revert h G3 NI ND'. induction F as [|[k1 s1] [k2 y2] l attrs [E M] F IH]; intros h G NI ND; destruct h as [|[k3 v3] h]; try discriminate; [reflexivity|].
    cbn in E, M. subst k2. cbn [same_header] in G. apply andb_prop in G as [G G3]. apply andb_prop in G as [G1 G2]. apply String.eqb_eq in G1. subst k3. cbn in NI, ND. inversion ND as [|? ? NI2 ND2]; subst.
    destruct (String.eqb_spec k1 "xid") as [->|NE]; [exfalso; apply NI; auto|]. cbn [orb] in G2. destruct s1; try discriminate. apply veqb_eq in G2. cbn in M. subst. f_equal. apply IH; auto.
  - cbn [orb] in G2. destruct s; try discriminate. apply veqb_eq in G2. cbn in M. subst. f_equal. apply IH; try assumption. destruct I as [I|I]; [congruence|exact I].
Qed.

(** The header of a constructed message. *)
Lemma header_built rnd c ps st env d : checked c ps st -> stands rnd env st d -> is_message c = true ->
  exists hc h0 x, get_attr "header" (default_attrs c) = Some (VObj hc h0) /\ (hc = Header01 \/ hc = Header04) /\
    get_attr "header" d = Some (VObj hc (set_attr "xid" x h0)).
Proof.
  intros CK F M. destruct (ck_header _ _ _ CK M) as (hc & l & K & ND & IX). pose proof (entry_key _ _ _ "header" F) as Q. rewrite K in Q.
  destruct (key "header" d) as [y|] eqn:KD; [|contradiction]. destruct Q as (h & -> & Fh).
  pose proof (ck_other _ _ _ CK ("header", Head hc l) (key_in _ _ _ K)) as G. cbn [good_other] in G.
  assert (X : existsb (String.eqb "header") (parameters c) = false).
  { apply not_true_iff_false. intros C. apply in_names in C. exact (ck_noheader _ _ _ CK C). }
  rewrite X, String.eqb_refl in G. cbn [orb andb] in G. unfold header_of in ND, IX.
  destruct (get_attr "header" (default_attrs c)) as [[| | | | | | | | | | | | |hc' h0|]|]; try discriminate.
  apply andb_prop in G as [G SH]. apply andb_prop in G as [G1 G2]. apply cid_eqb_eq in G1. subst hc'.
  assert (KX : exists x, key "xid" h = Some x).
  { destruct (key "xid" h) as [x|] eqn:KX; [eauto|]. exfalso. apply (proj1 (key_none _ _) KX).
    assert (E : map fst h = map fst h0); [|rewrite E; exact IX]. clear - Fh SH. revert h0 SH. induction Fh as [|[k s] [k' y] l attrs [E M] F IH]; intros [|[k2 v2] h0] G; try discriminate; [reflexivity|].
    cbn in E. subst k'. cbn [same_header] in G. apply andb_prop in G as [G G3]. apply andb_prop in G as [G1 G2]. apply String.eqb_eq in G1. cbn. f_equal; auto. }
  destruct KX as [x KX]. exists hc, h0, x. split; [reflexivity|]. split; [apply orb_prop in G2 as [G2|G2]; apply cid_eqb_eq in G2; auto|].
  rewrite get_attr_key, KD, set_attr_put. f_equal. f_equal. eapply put_same; eassumption.
Qed.

(** The other attributes, which are not parameters. *)
Lemma other_reads rnd c ps st env d n : checked c ps st -> stands rnd env st d -> ~ In n (parameters c) -> n <> "header" ->
  (computes_length c = true -> n <> "length") -> get_attr n d = get_attr n (default_attrs c).
Proof.
  intros CK F NP NH NL. rewrite get_attr_key. pose proof (entry_key _ _ _ n F) as Q. destruct (key n st) as [s|] eqn:K.
  - destruct (key n d) as [y|] eqn:KD; [|contradiction]. pose proof (ck_other _ _ _ CK (n, s) (key_in _ _ _ K)) as G. cbn [good_other] in G.
    assert (X : existsb (String.eqb n) (parameters c) = false) by (apply not_true_iff_false; intros C; apply in_names in C; contradiction).
    rewrite X in G. cbn [orb] in G. destruct s as [[?|v|? ?|? ?|?| |]|hc l]; try discriminate.
    + apply andb_prop in G as [G _]. unfold same_default in G. destruct (get_attr n (default_attrs c)); [|discriminate]. apply veqb_eq in G. cbn in Q. congruence.
    + apply andb_prop in G as [G1 G2]. apply String.eqb_eq in G2. exfalso. exact (NL G1 G2).
    + apply andb_prop in G as [G1 _]. apply String.eqb_eq in G1. contradiction.
  - destruct (key n d); [contradiction|]. symmetry. rewrite get_attr_key. apply key_none. rewrite <- (ck_stnames _ _ _ CK). apply key_none, K.
Qed.
Lemma length_reads rnd c ps st env d : checked c ps st -> stands rnd env st d -> computes_length c = true -> ~ In "length" (parameters c) ->
  forall y, get_attr "length" d = Some y -> get_attr "length" (default_attrs c) = Some y \/ exists s, y = VInt s.
Proof.
  intros CK F CL NP y H. rewrite get_attr_key in H. pose proof (entry_key _ _ _ "length" F) as Q. rewrite H in Q. destruct (key "length" st) as [s|] eqn:K; [|contradiction].
  pose proof (ck_other _ _ _ CK ("length", s) (key_in _ _ _ K)) as G. cbn [good_other] in G.
  assert (X : existsb (String.eqb "length") (parameters c) = false) by (apply not_true_iff_false; intros C; apply in_names in C; contradiction).
  rewrite X in G. cbn [orb] in G. destruct s as [[?|v|? ?|? ?|?| |]|hc l]; try discriminate.
  - left. apply andb_prop in G as [G _]. unfold same_default in G. destruct (get_attr "length" (default_attrs c)); [|discriminate]. apply veqb_eq in G. cbn in Q. congruence.
  - right. exact Q.
Qed.

Lemma omitted_reads rnd c ps st env d p dv : checked c ps st -> stands rnd env st d -> In (p, dv) ps -> key p env = Some dv ->
  (is_message c && String.eqb p "xid" = true -> reads (VObj c d) p (VInt rnd)) /\
  (is_message c && String.eqb p "xid" = false -> exists x, get_attr p (default_attrs c) = Some x /\ reads (VObj c d) p x).
Proof.
  intros CK F I K. pose proof (ck_default _ _ _ CK _ I) as G. cbn [good_default] in G. apply andb_prop in G as [_ G].
  assert (Ip : In p (parameters c)) by (rewrite <- (ck_names _ _ _ CK); change p with (fst (p, dv)); apply in_map, I).
  pose proof (ck_param _ _ _ CK p Ip) as GP. destruct (is_message c && String.eqb p "xid") eqn:X; split; intros E; try discriminate.
  - destruct (param_reads _ _ _ _ _ _ _ F GP K) as (x & R & V). unfold param_value in V. rewrite X in V. apply veqb_eq in G. subst dv. cbn in V. subst x. exact R.
  - unfold good_param in GP. rewrite X in GP. pose proof (entry_key _ _ _ p F) as Q. destruct (key p st) as [[s|]|]; try discriminate. destruct (key p d) as [x|] eqn:KD; [|contradiction].
    assert (D : get_attr p (default_attrs c) = Some x).
    { unfold same_default in *. cbn in Q. destruct s as [q|?|q v|q v|?| |]; try discriminate.
      - apply String.eqb_eq in GP. subst q. cbn in Q. destruct (get_attr p (default_attrs c)); [|discriminate]. apply veqb_eq in G. congruence.
      - apply andb_prop in GP as [GP D]. apply String.eqb_eq in GP. subst q. destruct Q as (a' & K' & ->). rewrite K in K'. injection K' as <-. destruct (get_attr p (default_attrs c)); [|discriminate]. apply veqb_eq in D. subst v.
        apply orb_prop in G as [G|G]; [apply andb_prop in G as [G _]; apply veqb_eq in G; subst dv; reflexivity|]. apply veqb_eq in G. subst dv. destruct p0; reflexivity.
      - apply andb_prop in GP as [GP D]. apply String.eqb_eq in GP. subst q. destruct Q as (a' & t & K' & T & ->). rewrite K in K'. injection K' as <-. destruct (get_attr p (default_attrs c)); [|discriminate]. apply veqb_eq in D. subst v.
        apply orb_prop in G as [G|G]; [apply andb_prop in G as [G _]; apply veqb_eq in G; subst dv; injection T as <-; reflexivity|]. apply veqb_eq in G. subst dv. destruct t; reflexivity. }
    exists x. split; [exact D|]. exists c, d. rewrite X, get_attr_key. auto.
Qed.

(** ** Complete objects *)

Lemma forall2_names {A B} (R : A -> B -> Prop) l l' : Forall2 (entry R) l l' -> map fst l = map fst l'.
Proof. induction 1 as [|p q l l' [E _] _ IH]; cbn; congruence. Qed.

Lemma entries (P : string -> pyval -> Prop) rnd c ps st env d pos kw : checked c ps st -> bind_args ps pos kw = Ok env -> stands rnd env st d ->
  (forall p v, given c pos kw p v -> P p v) -> (forall p v, get_attr p (default_attrs c) = Some v -> P p v) -> (forall p, P p VNone) -> (forall s, P "length" (VInt s)) ->
  forall n x, In (n, x) d -> n <> "header" -> P n x.
Proof.
  intros CK B F HG HD HN HL n x I NH. pose proof (forall2_names _ _ _ F) as EN.
  assert (ND : NoDup (map fst d)) by (rewrite <- EN; apply (ck_stnodup _ _ _ CK)). pose proof (in_key _ _ _ ND I) as K.
  destruct (in_dec string_dec n (parameters c)) as [Ip|NP].
  - destruct (is_message c && String.eqb n "xid") eqn:X.
    + exfalso. apply andb_prop in X as [M X]. apply String.eqb_eq in X. subst n. apply (ck_noxid _ _ _ CK M). rewrite EN. change "xid" with (fst ("xid", x)). apply in_map, I.
    + destruct (key n env) as [a|] eqn:KE.
      2:{ exfalso. apply key_none in KE. apply KE. rewrite (bind_fst _ _ _ _ B), (ck_names _ _ _ CK). exact Ip. }
      destruct (param_reads _ _ _ _ _ _ _ F (ck_param _ _ _ CK n Ip) KE) as (y & R & V). destruct R as (c' & d' & E & R). injection E as <- <-. rewrite X in R. rewrite get_attr_key, K in R. injection R as <-.
      unfold param_value in V. rewrite X in V. destruct V as [->|[_ V]]; [|apply HD, V].
      destruct (bind_origin _ _ _ _ _ _ B (key_in _ _ _ KE)) as [(i & C1 & C2)|[C|C]].
      * apply HG. left. exists i. rewrite (ck_names _ _ _ CK) in C1. auto.
      * apply HG. right. exact C.
      * pose proof (ck_default _ _ _ CK _ C) as G. cbn [good_default] in G. apply andb_prop in G as [G _]. apply orb_prop in G as [G|G].
        -- apply veqb_eq in G. subst a. apply HN.
        -- unfold same_default in G. destruct (get_attr n (default_attrs c)) as [w|] eqn:D; [|discriminate]. apply veqb_eq in G. subst a. apply HD, D.
  - destruct (computes_length c) eqn:CL; [destruct (String.eqb_spec n "length") as [->|NL]|].
    + destruct (length_reads _ _ _ _ _ _ CK F CL NP x ltac:(rewrite get_attr_key; exact K)) as [D|[s ->]]; [apply HD, D|apply HL].
    + apply HD. rewrite <- (other_reads _ _ _ _ _ _ n CK F NP NH ltac:(auto)), get_attr_key. exact K.
    + apply HD. rewrite <- (other_reads _ _ _ _ _ _ n CK F NP NH ltac:(congruence)), get_attr_key. exact K.
Qed.

Lemma has_names c a b : map fst a = map fst b -> has_attributes c a = has_attributes c b.
Proof.
  intros E. unfold has_attributes.
  assert (H : map fst (filter (fun p => existsb (fun q => String.eqb (fst q) (fst p)) (class_attrs c)) a) = map fst (filter (fun p => existsb (fun q => String.eqb (fst q) (fst p)) (class_attrs c)) b)).
  { revert b E. induction a as [|[n x] a IH]; intros [|[m y] b] E; try discriminate; [reflexivity|]. cbn in E. injection E as -> E. cbn [filter fst].
    destruct (existsb _ _); cbn; [f_equal|]; apply IH, E. }
  rewrite H. reflexivity.
Qed.
Lemma put_names {A} n (x : A) l : In n (map fst l) -> map fst (put n x l) = map fst l.
Proof. induction l as [|[k v] l IH]; [intros []|]. cbn. intros I. destruct (String.eqb_spec k n) as [->|NE]; [reflexivity|]. cbn. f_equal. apply IH. destruct I; [congruence|assumption]. Qed.
Lemma put_in {A} n (x : A) l p : In p (put n x l) -> p = (n, x) \/ In p l.
Proof. induction l as [|[k v] l IH]; cbn; [intros [<-|[]]; auto|]. destruct (String.eqb k n); cbn; intros [<-|I]; auto. destruct (IH I); auto. Qed.
Lemma put_key {A} n (x : A) l : key n (put n x l) = Some x.
Proof. induction l as [|[k v] l IH]; cbn; [rewrite String.eqb_refl; reflexivity|]. destruct (String.eqb_spec k n) as [->|NE]; cbn; [rewrite String.eqb_refl; reflexivity|]. destruct (String.eqb_spec k n); [contradiction|exact IH]. Qed.

Lemma message_xid c : is_message c = true -> c <> OxmTLV04 -> In "xid" (parameters c).
Proof. intros M N. unfold parameters. rewrite M. destruct c; try congruence; left; reflexivity. Qed.
Lemma bound_xid (ps : dict) pos kw env c : map fst ps = parameters c -> bind_args ps pos kw = Ok env -> is_message c = true -> exists a, key "xid" env = Some a.
Proof.
  intros E B M. destruct (key "xid" env) as [a|] eqn:K; [eauto|]. exfalso. apply key_none in K. apply K. rewrite (bind_fst _ _ _ _ B), E. apply message_xid; [exact M|intros ->; discriminate].
Qed.

(** The header, with what the transaction id is. *)
Lemma header_xid rnd c ps st env d a : checked c ps st -> stands rnd env st d -> is_message c = true -> key "xid" env = Some a ->
  exists hc h0, get_attr "header" (default_attrs c) = Some (VObj hc h0) /\ (hc = Header01 \/ hc = Header04) /\ In "xid" (map fst h0) /\
    get_attr "header" d = Some (VObj hc (set_attr "xid" (none_default (VInt rnd) a) h0)).
Proof.
  intros CK F M K. destruct (header_built _ _ _ _ _ _ CK F M) as (hc & h0 & x & D & HC & G). exists hc, h0. split; [exact D|]. split; [exact HC|].
  destruct (ck_header _ _ _ CK M) as (_ & _ & _ & _ & IX). unfold header_of in IX. rewrite D in IX. split; [exact IX|].
  destruct (param_reads _ _ _ _ _ _ _ F (ck_param _ _ _ CK "xid" ltac:(apply message_xid; [exact M|intros ->; discriminate])) K) as (y & (c' & d' & E & R) & V). injection E as <- <-.
  unfold param_value in V. rewrite M in V, R. cbn [andb String.eqb Ascii.eqb Bool.eqb] in V, R. destruct R as (hc' & h' & R1 & R2). rewrite G in R1. injection R1 as <- <-.
  rewrite get_attr_key, set_attr_put, put_key in R2. injection R2 as <-. rewrite G, V. reflexivity.
Qed.

Lemma complete rnd c pos kw o : c <> Match01 -> c <> CGenericStruct -> construct rnd c pos kw = Ok o -> (forall p v, given c pos kw p v -> suits c p v = true) -> built o = true /\ regular o = true.
Proof.
  intros N NS H HG. destruct (core _ _ _ _ _ N H) as (ps & env & st & b & d & P & B & PL & -> & F). pose proof (check _ _ _ _ N P PL) as CK. clear P PL H.
  pose proof (forall2_names _ _ _ F) as EN. assert (ND : NoDup (map fst d)) by (rewrite <- EN; apply (ck_stnodup _ _ _ CK)).
  pose proof (ck_regular _ _ _ CK) as RG. cbn [regular] in RG. apply andb_prop in RG as [RG1 RG2]. rewrite forallb_forall in RG2.
  assert (HD : forall p v, get_attr p (default_attrs c) = Some v -> suits c p v = true).
  { intros p v G. rewrite get_attr_key in G. apply key_in in G. unfold suits. rewrite (ck_dbuilt _ _ _ CK _ G : built v = true). specialize (RG2 _ G). cbn [fst snd] in RG2. apply andb_prop in RG2 as [R1 R2]. rewrite R2. exact R1. }
  assert (FT : forall n x, In (n, x) d -> n <> "header" -> suits c n x = true).
  { apply (entries (fun n x => suits c n x = true) rnd c ps st env d pos kw CK B F HG HD).
    - intros p. unfold suits. cbn. destruct (get_attr p (class_attrs c)) as [[]|]; reflexivity.
    - intros s. unfold suits. cbn. destruct (get_attr _ (class_attrs c)) as [[]|]; reflexivity. }
  assert (HH : forall x, In ("header", x) d -> header_ok ("header", x) = true /\ built x = true /\ regular x = true /\ exists hc h, x = VObj hc h).
  { intros x I. destruct (is_message c) eqn:M.
    2:{ exfalso. apply (ck_plain _ _ _ CK M). rewrite EN. change "header" with (fst ("header", x)). apply in_map, I. }
    destruct (bound_xid _ _ _ _ _ (ck_names _ _ _ CK) B M) as [a KA]. destruct (header_xid _ _ _ _ _ _ _ CK F M KA) as (hc & h0 & D & HC & IX & G).
    rewrite get_attr_key, (in_key _ _ _ ND I) in G. injection G as ->.
    assert (FA : built (none_default (VInt rnd) a) = true /\ regular (none_default (VInt rnd) a) = true).
    { destruct (bind_origin _ _ _ _ _ _ B (key_in _ _ _ KA)) as [(i & C1 & C2)|[C|C]].
      - assert (E : suits c "xid" a = true) by (apply HG; left; exists i; rewrite (ck_names _ _ _ CK) in C1; auto). unfold suits in E. apply andb_prop in E as [E _]. apply andb_prop in E as [E1 E2]. destruct a; cbn [none_default]; auto.
      - assert (E : suits c "xid" a = true) by (apply HG; right; exact C). unfold suits in E. apply andb_prop in E as [E _]. apply andb_prop in E as [E1 E2]. destruct a; cbn [none_default]; auto.
      - pose proof (ck_default _ _ _ CK _ C) as Q. cbn [good_default] in Q. apply andb_prop in Q as [_ Q]. rewrite M in Q. cbn [andb String.eqb Ascii.eqb Bool.eqb] in Q. apply veqb_eq in Q. subst a. cbn. auto. }
    destruct FA as [FA1 FA2]. generalize dependent (none_default (VInt rnd) a). intros y I FA1 FA2. specialize (HD _ _ D). unfold suits in HD. apply andb_prop in HD as [HD _]. apply andb_prop in HD as [HB HR].
    split; [destruct HC as [->| ->]; reflexivity|]. rewrite set_attr_put. split; [|split; [|eauto]].
    - cbn [built] in HB |- *. apply andb_prop in HB as [HB B3]. apply andb_prop in HB as [B1 B2].
      rewrite (has_names hc (put "xid" y h0) h0 (put_names _ _ _ IX)), B1. cbn [andb]. apply andb_true_intro. split; apply forallb_forall; rewrite forallb_forall in B2, B3; intros [k z] J; apply put_in in J as [J|J].
      + injection J as -> ->. reflexivity.
      + apply B2, J.
      + injection J as -> ->. exact FA1.
      + apply (B3 _ J).
    - cbn [regular] in HR |- *. apply andb_prop in HR as [R1 R2]. rewrite R1. cbn [andb]. apply forallb_forall. rewrite forallb_forall in R2. intros [k z] J. apply put_in in J as [J|J]; [|apply (R2 _ J)].
      injection J as -> ->. cbn [fst snd]. rewrite FA2. destruct HC as [->| ->]; reflexivity. }
  split.
  - cbn [built]. rewrite (has_names c d (default_attrs c)) by (rewrite <- EN; apply (ck_stnames _ _ _ CK)). destruct (ck_attrs _ _ _ CK) as [A|A]; [contradiction|]. rewrite A. cbn [andb].
    apply andb_true_intro. split; apply forallb_forall; intros [n x] I.
    + destruct (String.eqb_spec n "header") as [->|NH]; [apply HH, I|]. unfold header_ok. cbn [fst]. apply String.eqb_neq in NH. rewrite NH. reflexivity.
    + cbn [snd]. destruct (String.eqb_spec n "header") as [->|NH]; [apply HH, I|]. specialize (FT _ _ I NH). unfold suits in FT. apply andb_prop in FT as [FT _]. apply andb_prop in FT as [FT _]. exact FT.
  - cbn [regular]. rewrite RG1. cbn [andb]. apply forallb_forall. intros [n x] I. cbn [fst snd]. destruct (String.eqb_spec n "header") as [->|NH].
    + destruct (HH _ I) as (_ & _ & R & hc & h & ->). rewrite R. destruct (get_attr "header" (class_attrs c)) as [[]|]; reflexivity.
    + specialize (FT _ _ I NH). unfold suits in FT. apply andb_prop in FT as [FT1 FT2]. apply andb_prop in FT1 as [_ FT1]. rewrite FT1, FT2. reflexivity.
Qed.
