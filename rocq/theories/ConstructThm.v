(** Constructors: from the symbolic execution to C52. *)
From Coq Require Import ZArith List Bool String Lia.
From Verif Require Import Base PyText Ids PyVal Classes Interp Utils Match01 Inits Construct SpecMsg SpecMutation SpecLayout SpecInit ClassFacts ConstructFacts Totality.
Import ListNotations.
Open Scope string_scope.
Open Scope list_scope.
Open Scope Z_scope.

(** ** Binding *)

Lemma bind_fst {A} (ps : list (string * A)) : forall pos kw env, bind_args ps pos kw = Ok env -> map fst env = map fst ps.
Proof.
  induction ps as [|[n d] ps IH]; intros pos kw env H; cbn [bind_args] in H.
  - destruct pos, kw; try discriminate. injection H as <-. reflexivity.
  - destruct pos as [|v pos].
    + destruct (key n kw) as [v|].
      * destruct (bind_args ps [] (drop_key n kw)) eqn:E; [|discriminate]. injection H as <-. cbn. f_equal. eapply IH, E.
      * destruct (bind_args ps [] kw) eqn:E; [|discriminate]. injection H as <-. cbn. f_equal. eapply IH, E.
    + destruct (bind_args ps pos kw) eqn:E; [|discriminate]. injection H as <-. cbn. f_equal. eapply IH, E.
Qed.
Lemma bind_again {A} (ps : list (string * A)) : forall env, map fst env = map fst ps -> bind_args ps (map snd env) [] = Ok env.
Proof.
  induction ps as [|[n d] ps IH]; intros [|[m v] env] H; try discriminate; [reflexivity|]. cbn in H |- *. injection H as -> H. rewrite IH by exact H. reflexivity.
Qed.
Lemma bind_error {A} (ps : list (string * A)) : forall pos kw e, bind_args ps pos kw = Err e -> e = TypeError.
Proof.
  induction ps as [|[n d] ps IH]; intros pos kw e H; cbn [bind_args] in H.
  - destruct pos, kw; congruence.
  - destruct pos as [|v pos].
    + destruct (key n kw) as [v|].
      * destruct (bind_args ps [] (drop_key n kw)) eqn:E; [discriminate|]. injection H as <-. eapply IH, E.
      * destruct (bind_args ps [] kw) eqn:E; [discriminate|]. injection H as <-. eapply IH, E.
    + destruct (bind_args ps pos kw) eqn:E; [discriminate|]. injection H as <-. eapply IH, E.
Qed.

Lemma key_in {A} n (l : list (string * A)) v : key n l = Some v -> In (n, v) l.
Proof. induction l as [|[k x] l IH]; [discriminate|]. cbn. destruct (String.eqb_spec k n) as [->|]; [intros [= ->]; left; reflexivity|right; auto]. Qed.
Lemma in_key {A} n (l : list (string * A)) v : NoDup (map fst l) -> In (n, v) l -> key n l = Some v.
Proof.
  induction l as [|[k x] l IH]; intros ND I; [destruct I|]. cbn in ND |- *. inversion ND as [|? ? NI ND']; subst. destruct (String.eqb_spec k n) as [->|NE].
  - destruct I as [I|I]; [congruence|]. exfalso. apply NI. change n with (fst (n, v)). apply in_map, I.
  - destruct I as [I|I]; [congruence|]. apply IH; assumption.
Qed.
Lemma key_none {A} n (l : list (string * A)) : key n l = None <-> ~ In n (map fst l).
Proof.
  induction l as [|[k x] l IH]; cbn; [split; auto|]. destruct (String.eqb_spec k n) as [->|NE]; [split; [discriminate|intros C; exfalso; apply C; auto]|].
  rewrite IH. split; [intros H [C|C]; auto|auto].
Qed.
Lemma drop_in {A} n (l : list (string * A)) p : In p (drop_key n l) -> In p l.
Proof. induction l as [|[k x] l IH]; [auto|]. cbn. destruct (String.eqb k n); [right; assumption|]. intros [I|I]; [left; assumption|right; auto]. Qed.
Lemma drop_keeps {A} n (l : list (string * A)) m v : m <> n -> In (m, v) l -> In (m, v) (drop_key n l).
Proof.
  intros NE. induction l as [|[k x] l IH]; [auto|]. cbn. destruct (String.eqb_spec k n) as [->|]; intros [I|I]; try congruence; auto.
  - left. assumption.
  - right. auto.
Qed.
Lemma drop_fst {A} n (l : list (string * A)) m : NoDup (map fst l) -> (In m (map fst (drop_key n l)) <-> In m (map fst l) /\ m <> n).
Proof.
  induction l as [|[k x] l IH]; intros ND; [cbn; tauto|]. cbn in ND. inversion ND as [|? ? NI ND']; subst. cbn. destruct (String.eqb_spec k n) as [->|NE].
  - split; [intros I; split; [auto|intros ->; auto]|intros [[C|I] N]; [congruence|exact I]].
  - cbn. rewrite IH by exact ND'. split; [intros [->|[I N]]; auto|intros [[->|I] N]; auto].
Qed.
Lemma drop_nodup {A} n (l : list (string * A)) : NoDup (map fst l) -> NoDup (map fst (drop_key n l)).
Proof.
  induction l as [|[k x] l IH]; intros ND; [constructor|]. cbn in ND |- *. inversion ND as [|? ? NI ND']; subst. destruct (String.eqb k n); [exact ND'|].
  cbn. constructor; [|apply IH, ND']. intros C. apply drop_fst in C; [|exact ND']. tauto.
Qed.

(** What the names are bound to. *)
Lemma bind_value {A} (ps : list (string * A)) : NoDup (map fst ps) -> forall pos kw env, bind_args ps pos kw = Ok env ->
  (forall i p v, nth_error (map fst ps) i = Some p -> nth_error pos i = Some v -> key p env = Some v) /\
  (forall p v, In (p, v) kw -> key p env = Some v) /\
  (forall p d, In (p, d) ps -> (forall i, nth_error (map fst ps) i = Some p -> nth_error pos i = None) -> ~ In p (map fst kw) -> key p env = Some d).
Proof.
  induction ps as [|[n d] ps IH]; intros ND pos kw env H; cbn [bind_args] in H.
  - destruct pos, kw; try discriminate. injection H as <-. split; [|split].
    + intros [|i] p v E; discriminate.
    + intros ? ? [].
    + intros ? ? [].
  - cbn in ND. inversion ND as [|? ? NI ND']; subst. destruct pos as [|w pos].
    + assert (Nil : forall (l : list string) i (p : string) (v : A), nth_error l i = Some p -> nth_error (@nil A) i = Some v -> False) by (intros ? [|] ? ? ? ?; discriminate).
      destruct (key n kw) as [w|] eqn:K.
      * destruct (bind_args ps [] (drop_key n kw)) as [e|] eqn:E; [|discriminate]. injection H as <-. destruct (IH ND' _ _ _ E) as (_ & H2 & H3).
        assert (Hk : forall p, In p (map fst e) -> p <> n) by (intros p I ->; rewrite (bind_fst _ _ _ _ E) in I; auto).
        split; [|split].
        -- intros i p v P Q. exfalso. eapply Nil; eassumption.
        -- intros p v I. cbn. destruct (String.eqb_spec n p) as [->|NE].
           ++ apply in_split in I as (l1 & l2 & ->).
              (* the dropped key is the first; a second one is refused *)
              assert (C : ~ In p (map fst (drop_key p (l1 ++ (p, v) :: l2)))).
              { intros C. apply in_map_iff in C as ([q x] & Eq & I). cbn in Eq. subst q. apply H2 in I. apply key_in in I. apply (in_map fst) in I. cbn in I. eapply Hk in I. congruence. }
              clear -K C. induction l1 as [|[k x] l1 IHl]; cbn in *.
              ** rewrite String.eqb_refl in K. congruence.
              ** destruct (String.eqb_spec k p) as [->|]; [|apply IHl; [exact K|cbn in C; tauto]]. exfalso. apply C. rewrite map_app. apply in_or_app. right. left. reflexivity.
           ++ apply H2. apply drop_keeps; [congruence|exact I].
        -- intros p d' I F NK. cbn. destruct (String.eqb_spec n p) as [->|NE].
           ++ exfalso. apply NK. apply key_in in K. apply (in_map fst) in K. exact K.
           ++ destruct I as [I|I]; [congruence|]. apply H3; [exact I| |].
              ** intros [|i] _; reflexivity.
              ** intros C. apply NK. apply in_map_iff in C as (q & Eq & C). apply in_map_iff. exists q. split; [exact Eq|]. eapply drop_in, C.
      * destruct (bind_args ps [] kw) as [e|] eqn:E; [|discriminate]. injection H as <-. destruct (IH ND' _ _ _ E) as (_ & H2 & H3). split; [|split].
        -- intros i p v P Q. exfalso. eapply Nil; eassumption.
        -- intros p v I. cbn. destruct (String.eqb_spec n p) as [->|NE]; [|apply H2, I]. apply key_none in K. exfalso. apply K. apply (in_map fst) in I. exact I.
        -- intros p d' I F NK. cbn. destruct (String.eqb_spec n p) as [->|NE].
           ++ destruct I as [I|I]; [congruence|]. exfalso. apply NI. apply (in_map fst) in I. exact I.
           ++ destruct I as [I|I]; [congruence|]. apply H3; [exact I| |exact NK]. intros [|i] _; reflexivity.
    + destruct (bind_args ps pos kw) as [e|] eqn:E; [|discriminate]. injection H as <-. destruct (IH ND' _ _ _ E) as (H1 & H2 & H3).
      assert (Hk : forall p x, key p e = Some x -> p <> n).
      { intros p x K ->. apply key_in in K. apply (in_map fst) in K. cbn in K. rewrite (bind_fst _ _ _ _ E) in K. auto. }
      split; [|split].
      * intros [|i] p v P Q; cbn in P, Q |- *; [injection P as ->; injection Q as ->; rewrite String.eqb_refl; reflexivity|].
        pose proof (H1 _ _ _ P Q) as K. destruct (String.eqb_spec n p) as [->|]; [exfalso; eapply Hk; eauto|exact K].
      * intros p v I. cbn. pose proof (H2 _ _ I) as K. destruct (String.eqb_spec n p) as [->|]; [exfalso; eapply Hk; eauto|exact K].
      * intros p d' I F NK. cbn. destruct (String.eqb_spec n p) as [->|NE].
        -- specialize (F O eq_refl). discriminate.
        -- destruct I as [I|I]; [congruence|]. apply H3; [exact I| |exact NK]. intros i P. exact (F (S i) P).
Qed.

(** When binding succeeds. *)
Lemma bind_accepts {A} (ps : list (string * A)) : NoDup (map fst ps) -> forall pos kw,
  (exists env, bind_args ps pos kw = Ok env) <->
  (List.length pos <= List.length ps)%nat /\ NoDup (map fst kw) /\ incl (map fst kw) (skipn (List.length pos) (map fst ps)).
Proof.
  induction ps as [|[n d] ps IH]; intros ND pos kw.
  - cbn. split.
    + intros [env H]. destruct pos, kw; try discriminate. cbn. split; [lia|]. split; [constructor|intros ? []].
    + intros (L & _ & I). destruct pos; cbn in L; [|lia]. destruct kw as [|[k v] kw]; [eexists; reflexivity|]. destruct (I k (or_introl eq_refl)).
  - cbn in ND. inversion ND as [|? ? NI ND']; subst. cbn [bind_args]. destruct pos as [|w pos].
    + cbn [List.length skipn map]. specialize (IH ND' []). cbn [List.length skipn] in IH. destruct (key n kw) as [v|] eqn:K.
      * transitivity (exists env, bind_args ps [] (drop_key n kw) = Ok env).
        { split; intros [env H]; [destruct (bind_args ps [] (drop_key n kw)); [eexists; reflexivity|discriminate]|rewrite H; eexists; reflexivity]. }
        rewrite IH. split.
        -- intros (_ & N & I). split; [lia|].
           assert (C : ~ In n (map fst (drop_key n kw))) by (intros C; apply I in C; auto).
           assert (Q : forall m, In m (map fst kw) -> m = n \/ In m (map fst (drop_key n kw))).
           { intros m Im. apply in_map_iff in Im as ([q x] & <- & Im). cbn. destruct (string_dec q n) as [->|NE]; [left; reflexivity|right].
             apply (in_map fst) with (x := (q, x)). apply drop_keeps; assumption. }
           split.
           ++ clear - K N C. induction kw as [|[k x] kw IHk]; [constructor|]. cbn in *. destruct (String.eqb_spec k n) as [->|NE].
              ** constructor; assumption.
              ** cbn in N, C. inversion N; subst. constructor; [|apply IHk; try assumption; tauto]. intros C2. apply H1.
                 apply in_map_iff in C2 as ([q y] & Eq & C2). cbn in Eq. subst q. apply (in_map fst) with (x := (k, y)). apply drop_keeps; assumption.
           ++ intros m Im. cbn. destruct (Q _ Im) as [->|Im']; [left; reflexivity|right; apply I, Im'].
        -- intros (_ & N & I). split; [cbn; lia|]. split; [apply drop_nodup, N|]. intros m Im. apply drop_fst in Im as [Im NE]; [|exact N]. apply I in Im. cbn in Im. destruct Im; [congruence|assumption].
      * transitivity (exists env, bind_args ps [] kw = Ok env).
        { split; intros [env H]; [destruct (bind_args ps [] kw); [eexists; reflexivity|discriminate]|rewrite H; eexists; reflexivity]. }
        rewrite IH. apply key_none in K. split; intros (_ & N & I); (split; [cbn; lia|]); (split; [exact N|]); intros m Im; cbn.
        -- right. apply I, Im.
        -- destruct (I _ Im) as [C|C]; [cbn in C; subst m; contradiction|exact C].
    + transitivity (exists env, bind_args ps pos kw = Ok env).
      { split; intros [env H]; [destruct (bind_args ps pos kw); [eexists; reflexivity|discriminate]|rewrite H; eexists; reflexivity]. }
      rewrite IH by exact ND'. cbn. split; intros (L & R); (split; [lia|exact R]).
Qed.
