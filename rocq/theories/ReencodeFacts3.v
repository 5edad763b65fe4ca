(** Encoding decoded messages with data, records or a statistics body again:
    lemmas for C43. *)
From Coq Require Import ZArith List Bool String Lia.
From Verif Require Import Base PyText Ids PyVal Classes Interp Utils Spec SpecMsg SpecBasic SpecLayout SpecDecode SpecReencode ClassFacts BaseFacts TextFacts IntFacts LeafFacts
  AddrFacts StructFacts StructThm RaisesFacts DispatchFacts NetFacts2 FuelFacts MutationFacts LayoutFacts WindowFacts LengthFacts MsgFacts MsgMain DecodeFacts DecodeFacts2
  DecodeFacts3 ReencodeFacts ReencodeFacts2.
Import ListNotations.
Open Scope string_scope.
Open Scope list_scope.
Open Scope Z_scope.

Definition empty_default (c : cid) : bool :=
  match tl (class_attrs c) with
  | [(_, VBin d)] => match d with VBytes [] | VNone => true | _ => false end
  | _ => true
  end.
Lemma empty_defaults c : empty_default c = true.
Proof. revert c. apply all_classes. vm_compute. reflexivity. Qed.

Theorem reencode_data p c attrs l t A nm d : wf_bytes p -> unpack_packet p = Ok (VObj c attrs) -> openflow_layout c = Some (l, t) -> special c = false ->
  class_attrs c = A ++ [(nm, VBin d)] -> List.length A = List.length l -> (list_sum (map snd l) <= List.length p)%nat -> c <> QueueGetConfigRequest04 -> c <> QueueGetConfigReply04 ->
  ends_in_nul (VObj c attrs) = true ->
  exists p', pack (VObj c attrs) = Ok p' /\ recoded c p (skipn 8 p) p'.
Proof.
  intros Wf U E Sp Ec Ll Lp N1 N2 Nul.
  destruct (packet_sendable p c attrs Wf U N1 N2) as (v & a & Hv & I & Nm & Ca & Ub & Lp8 & Sd).
  destruct (message_layout _ _ _ _ _ I E) as (l' & -> & Hh & Pos). rewrite header_sum in *.
  destruct (plain_message _ _ _ _ _ _ I Sp Ca Ub) as (C & Bv & m & o1 & Uf). destruct (message_class _ _ _ I) as (_ & _ & _ & (h & CA) & _).
  destruct A as [|q A]; [discriminate Ll|]. cbn [app] in Ec. rewrite CA in Ec. injection Ec as <- Ec. cbn [List.length] in Ll.
  assert (exists bs' outs, enc_fields 2 TAIL true (body_fields c) (body_values c attrs) bs' outs /\ cleared_body (body_fields c) (skipn 8 p) bs')
    as (bs' & outs & Ef & Cf).
  { destruct (skipn 8 p) as [|x0 q] eqn:Eq.
    - apply (f_equal (@List.length Z)) in Eq. rewrite skipn_length in Eq. cbn in Eq. rewrite (sum_zero l' Pos) in * by lia. destruct A; [|discriminate Ll]. cbn [app] in Ec.
      rewrite Bv. pose proof (empty_defaults c) as T. unfold empty_default in T. fold (body_fields c) in T. rewrite Ec in *. cbn [unpack_fields] in Uf.
      assert (G : attr_of attrs nm = deepcopy (VBin d)) by (injection Uf as <- _; apply attr_set).
      exists [], [VBin (VBytes [])]. split; [|apply (cb_data [] nm d [] [] []); constructor].
      cbn [map fst]. rewrite G. apply f_last. cbn [deepcopy].
      destruct d as [| | |b0| | | | | | | | | | |]; try discriminate T; [|destruct b0; [|discriminate T]]; cbn [deepcopy]; (apply e_bin; [discriminate|apply p_bin; constructor]).
    - rewrite <- Eq in *. rewrite Bv.
      assert (NE : skipn 8 p <> []) by congruence.
      destruct (fixed_part 0 (S m) v _ c a (skipn 8 p) attrs o1 l' A [(nm, VBin d)] I (skip_wf _ _ Wf) NE Hh Ec ltac:(lia)) as ((a' & Ua) & b1 & o2 & E1 & C1);
        [rewrite skipn_length; lia|exact Uf|exact Nul|].
      destruct (first_read (S (S m)) (skipn 8 p) nm (VBin d) [] NE (fun x => x) _ _ _ Ua) as (x & Ux & Gx). cbn [fst deepcopy] in Ux, Gx. rewrite unpack0_bin in Ux. injection Ux as <-.
      exists (b1 ++ skipn (list_sum (map snd l')) (skipn 8 p)), (o2 ++ [VBin (VBytes (skipn (list_sum (map snd l')) (skipn 8 p)))]). split.
      + rewrite Ec, !map_app. apply enc_app; [exact E1|]. cbn [map fst]. rewrite (attr_of_get _ _ _ Gx). apply f_last, e_bin; [discriminate|]. apply p_bin, p_bytes.
      + rewrite Ec. rewrite <- (firstn_skipn (list_sum (map snd l')) (skipn 8 p)) at 1. apply cb_data, C1. }
  destruct (body_choice 0 v c attrs _ _ _ Sp Ef) as (outs' & Eb).
  eapply (recode 0 p c attrs v); try eassumption; [apply Sd, C|apply skip_wf, Wf|].
  rewrite skipn_length. lia.
Qed.

Lemma record_facts c l t : In c fixed_records -> openflow_layout c = Some (l, t) ->
  exists a, new_instance c = Some (VObj c a) /\ fw (VObj c a) = Some t /\ (0 < t)%nat /\ complete c a.
Proof.
  intros I E. pose proof records_ok as T. rewrite forallb_forall in T. specialize (T c I). unfold record_ok in T.
  destruct (new_instance c) as [[| | | | | | | | | | | | |c' a| ]|] eqn:NI; try discriminate T. rewrite E in T. rewrite !andb_true_iff in T. destruct T as (((T1 & T2) & _) & _).
  apply cid_eqb_eq in T1. subst c'. destruct (fw (VObj c a)) as [k|] eqn:F; [|discriminate]. apply andb_prop in T2 as [T2 T5]. apply Nat.eqb_eq in T2. subst k. apply Nat.ltb_lt in T5.
  exists a. repeat split; auto. apply keys_complete. assert (NX : c <> OxmTLV04) by (intros ->; cbn in I; repeat (destruct I as [X|I]; [discriminate X|]); destruct I).
  pose proof (start_keys_names c NX) as Sk. unfold start_keys in Sk. rewrite NI in Sk. exact Sk.
Qed.

Lemma whole_items m c a k j b items : new_instance c = Some (VObj c a) -> fw (VObj c a) = Some k -> (0 < k)%nat ->
  forall K o, unpack_items (unpack0 (S m)) (size0 (S m)) c K b o = Ok items -> List.length b = (o + j * k)%nat -> (o + List.length items * k)%nat = List.length b.
Proof.
  intros NI F Pk K o U Lb. destruct (items_at m c a k b NI F Pk K o items U) as (L1 & L2 & _).
  assert (List.length items = j); [|subst; lia].
  destruct L2 as [->|L2]; cbn [List.length] in *.
  - destruct j; [reflexivity|]. exfalso. cbn in *. lia.
  - destruct items as [|y items]; cbn [List.length] in *; [destruct j; cbn in *; lia|]. nia.
Qed.

(** Records up to the end. *)
Theorem reencode_records p c attrs l t A nm lc pc lr tr k : wf_bytes p -> unpack_packet p = Ok (VObj c attrs) -> openflow_layout c = Some (l, t) -> special c = false ->
  class_attrs c = A ++ [(nm, VList lc pc [])] -> lc <> CFixedTypeList -> subclass lc CFixedTypeList = true -> In pc fixed_records -> openflow_layout pc = Some (lr, tr) ->
  List.length A = List.length l ->
  List.length p = (list_sum (map snd l) + k * tr)%nat -> (8 < List.length p)%nat -> c <> QueueGetConfigRequest04 -> c <> QueueGetConfigReply04 ->
  ends_in_nul (VObj c attrs) = true ->
  exists p', pack (VObj c attrs) = Ok p' /\ recoded c p (skipn 8 p) p'.
Proof.
  intros Wf U E Sp Ec Nl Sl Ip Er Ll Lp L8 N1 N2 Nul.
  destruct (packet_sendable p c attrs Wf U N1 N2) as (v & a & Hv & I & Nm & Ca & Ub & Lp8 & Sd).
  destruct (message_layout _ _ _ _ _ I E) as (l' & -> & Hh & Pos). rewrite header_sum in *.
  destruct (plain_message _ _ _ _ _ _ I Sp Ca Ub) as (C & Bv & m & o1 & Uf). destruct (message_class _ _ _ I) as (_ & _ & _ & (h & CA) & _).
  destruct A as [|q A]; [discriminate Ll|]. cbn [app] in Ec. rewrite CA in Ec. injection Ec as <- Ec. cbn [List.length] in Ll.
  assert (NE : skipn 8 p <> []) by (intros X; apply (f_equal (@List.length _)) in X; rewrite skipn_length in X; cbn in X; lia).
  destruct (fixed_part 1 (S m) v _ c a (skipn 8 p) attrs o1 l' A [(nm, VList lc pc [])] I (skip_wf _ _ Wf) NE Hh Ec ltac:(lia)) as ((a' & Ua) & b1 & o2 & E1 & C1);
    [rewrite skipn_length; lia|exact Uf|exact Nul|].
  destruct (first_read (S (S m)) (skipn 8 p) nm _ [] NE (fun x => x) _ _ _ Ua) as (x & Ux & Gi). cbn [fst] in Gi.
  cbn [deepcopy map] in Ux. rewrite StructThm.unpack0_list in Ux.
  apply bind_ok in Ux as (l0 & Ux & X). assert (x = VList (if cid_eqb lc CList then CList else CFixedTypeList) pc l0) as -> by (cbn [app] in X; congruence). clear X.
  destruct (record_facts pc lr tr Ip Er) as (ap & NI & F & Pt & Cp).
  assert (Hr : exists bs' outs, enc_items 2 pc l0 bs' outs /\ cleared_records pc (skipn (list_sum (map snd l')) (skipn 8 p)) bs').
  { eapply (records_enc 0 m pc ap tr (skipn 8 p) NI F Pt Cp (skip_wf _ _ Wf)); [exact Ux|eapply (whole_items _ _ _ _ k); [eassumption..|rewrite skipn_length; lia]|].
    exact (nul_attr _ _ _ _ Nul Gi). }
  destruct Hr as (b2 & o3 & E2 & C2).
  assert (Ef : enc_fields 3 TAIL true (body_fields c) (body_values c attrs) (b1 ++ b2) (o2 ++ [VList CFixedTypeList pc o3])).
  { rewrite Bv, Ec, !map_app. apply enc_app; [exact E1|]. cbn [map fst]. rewrite (attr_of_get _ _ _ Gi). apply f_last. apply e_list; assumption. }
  destruct (body_choice 1 v c attrs _ _ _ Sp Ef) as (outs' & Eb).
  eapply (recode 1 p c attrs v); try eassumption; [apply Sd, C| |apply skip_wf, Wf|rewrite skipn_length; lia].
  unfold body_fields in Ec. rewrite Ec. rewrite <- (firstn_skipn (list_sum (map snd l')) (skipn 8 p)) at 1. apply cb_list; assumption.
Qed.
