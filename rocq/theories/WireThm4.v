(** Equal contents, streams of well-formed messages. *)
From Coq Require Import ZArith List Bool String Lia.
From Verif Require Import Base PyText Ids PyVal Classes Interp Utils Spec SpecMsg SpecBasic SpecMutation SpecLayout SpecWire Ref SpecSame
  BaseFacts WireFacts WireThm WireThm2 WireThm3.
From Verif Require TopFacts ConstructThm4 AddrFacts.
Import ListNotations.
Open Scope string_scope.
Open Scope list_scope.
Open Scope Z_scope.

Lemma equal_contents n v m n' v' m' bs : wf_message n v m = true -> wf_message n' v' m' = true -> pack m = Ok bs -> pack m' = Ok bs ->
  exists out, unpack_packet bs = Ok out /\ same_msg m out /\ same_msg m' out.
Proof.
  intros H H' P P'. destruct (TopFacts.wf_roundtrip _ _ _ H) as (b1 & o1 & P1 & U1 & S1 & _). destruct (TopFacts.wf_roundtrip _ _ _ H') as (b2 & o2 & P2 & U2 & S2 & _).
  rewrite P in P1. injection P1 as <-. rewrite P' in P2. injection P2 as <-. rewrite U1 in U2. injection U2 as <-. eauto.
Qed.
Lemma alike_number w er d z z' : alike (VUInt w er d) (VInt z) (VInt z') -> z = z'.
Proof.
  intros A. inversion A as [? ? ? ? ? k S1 S2| | | | | |]; subst. cbn [or_default] in *.
  rewrite (ConstructThm4.stands_fun (VInt z) z k (pi_int z) S1). symmetry. apply (ConstructThm4.stands_fun (VInt z') z' k (pi_int z') S2).
Qed.
Lemma alike_values :
  (forall w er d z z', alike (VUInt w er d) (VInt z) (VInt z') -> z = z') /\
  (forall d m b b', wf_bytes b -> wf_bytes b' -> List.length b = 4%nat -> List.length b' = 4%nat -> alike (VIP d m) (VStr (dotted_dec b)) (VStr (dotted_dec b')) -> b = b') /\
  (forall d b b', wf_bytes b -> wf_bytes b' -> List.length b = 6%nat -> List.length b' = 6%nat -> alike (VHW d) (VStr (colon_hex b)) (VStr (colon_hex b')) -> b = b') /\
  (forall n d s s', (List.length s < n)%nat -> (List.length s' < n)%nat -> (forall x, s <> x ++ [0]) -> (forall x, s' <> x ++ [0]) -> alike (VChar n d) (VStr s) (VStr s') -> s = s').
Proof.
  split; [exact alike_number|]. split; [|split].
  - intros d m b b' W W' L L' A. inversion A as [| | |? ? ? ? bs P P'| | |]; subst. cbn [or_default] in *.
    destruct (AddrFacts.ip_roundtrip VNone m [] b [] W L) as (_ & Q & _). destruct (AddrFacts.ip_roundtrip VNone m [] b' [] W' L') as (_ & Q' & _). rewrite Q in P. rewrite Q' in P'. congruence.
  - intros d b b' W W' L L' A. inversion A as [| | | |? ? ? bs P P'| |]; subst. cbn [or_default] in *.
    destruct (AddrFacts.hw_roundtrip VNone [] b [] W L) as (_ & Q & _). destruct (AddrFacts.hw_roundtrip VNone [] b' [] W' L') as (_ & Q' & _). rewrite Q in P. rewrite Q' in P'. congruence.
  - intros n d s s' L L' N N' A. inversion A as [| |? ? ? ? s1 s2 T1 T2 E| | | |]; subst. cbn [or_default] in *. inversion T1; subst. inversion T2; subst.
    assert (F : forall t : text, (List.length t < n)%nat -> firstn (pred n) (t ++ repeat 0 n) = t ++ repeat 0 (pred n - List.length t)).
    { intros t Lt. rewrite firstn_app, firstn_all2 by lia. f_equal. assert (G : forall a b, (a <= b)%nat -> firstn a (repeat 0 b) = repeat 0 a) by (clear; induction a; intros [|b] H; cbn; try lia; try reflexivity; f_equal; apply IHa; lia).
      apply G. lia. }
    rewrite !F in E by assumption. eapply no_trailing; eassumption.
Qed.
Lemma stated_cut bss : Forall (fun bs => big_endian 2 (zlen bs) (slice 2 4 bs)) bss -> cut (List.concat bss) bss /\ forall ps, cut (List.concat bss) ps -> ps = bss.
Proof.
  intros F. assert (C : cut (List.concat bss) bss).
  { induction F as [|bs bss B F IH]; [constructor|]. cbn [List.concat]. constructor; [|exact B|exact IH]. destruct B as (L & _). unfold slice in L. rewrite skipn_length, firstn_length in L. lia. }
  split; [exact C|]. intros ps C'. eapply cut_unique; eassumption.
Qed.
Lemma wf_stream n os bss : Forall2 (fun o bs => (exists v, wf_message n v o = true) /\ pack o = Ok bs) os bss ->
  cut (List.concat bss) bss /\ forall ps, cut (List.concat bss) ps -> ps = bss.
Proof.
  intros F. apply stated_cut. induction F as [|o bs os bss ((v & H) & P) F IH]; constructor; [|exact IH].
  destruct (TopFacts.wf_message_length _ _ _ H) as (b & P' & B). rewrite P in P'. injection P' as <-. exact B.
Qed.
Lemma stream_refuted : exists o bs, pack o = Ok bs /\ forall ps, ~ cut bs [bs] /\ ~ cut (bs ++ bs) (bs :: ps).
Proof.
  destruct TopFacts.length_refuted as (bs & P & N). eexists _, bs. split; [exact P|]. intros ps. split; intros C; inversion C; subst; contradiction.
Qed.
