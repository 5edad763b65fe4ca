(** The exceptions of pyof.utils.unpack (C15). *)
From Coq Require Import ZArith List Bool String Lia.
From Verif Require Import Base BaseFacts PyText Ids PyVal Classes Interp Utils Spec SpecMsg SpecBasic SpecRaises ClassFacts StructFacts
  FuelFacts Totality UnpackTotal MutationFacts Raises RaisesFacts MsgFacts IntFacts LeafFacts MsgMain DispatchFacts PacketFacts.
Import ListNotations.
Open Scope string_scope.
Open Scope list_scope.
Open Scope Z_scope.

Definition all_exn : list exn :=
  [PackException; UnpackException; ValidationError; WrongListItemType; MethodNotImplemented; StructError; ValueError;
   TypeError; KeyError; AttributeError; IndexError; UnboundLocalError; GenericException; BadValueException; OutOfFuel].
Lemma all_exn_ok e : In e all_exn.
Proof. destruct e; cbn; tauto. Qed.
Definition leakedb (v t : Z) (e : exn) : bool :=
  existsb (fun p => (fst (fst p) =? v) && (snd (fst p) =? t) && existsb (exn_eqb e) (snd p)) leaked_table.
Lemma exn_eqb_ok a b : exn_eqb a b = true -> a = b.
Proof. destruct a, b; cbn; intros; try discriminate; reflexivity. Qed.
Lemma leakedb_ok v t e : leakedb v t e = true -> leaked v t e.
Proof.
  intros H. apply existsb_exists in H as ([[v' t'] es] & I & H). cbn [fst snd] in H.
  apply andb_true_iff in H as [H X]. apply andb_true_iff in H as [A B]. apply Z.eqb_eq in A, B. subst v' t'.
  exists es. split; [exact I|]. apply existsb_exists in X as (e' & I' & X). apply exn_eqb_ok in X. subst e'. exact I'.
Qed.

Definition type_ok (v : of_version) (p : Z * cid) : bool :=
  match new_instance (snd p) with
  | Some (VObj c a) =>
      sok 12 (VObj c a) && negb (needs (VObj c a)) &&
      forallb (fun e => negb (may 12 e true (VObj c a)) || exn_eqb e UnpackException || exn_eqb e ValueError ||
                        leakedb (version_number v) (fst p) e) all_exn
  | _ => false
  end.
Lemma types_ok v : forallb (type_ok v) (openflow_types v) = true.
Proof. destruct v; vm_compute; reflexivity. Qed.

Lemma may_attrs n x z c a a' : may (S n) x z (VObj c a) = may (S n) x z (VObj c a').
Proof. reflexivity. Qed.
Lemma read_exceptions n k c a a' b e : sok (S n) (VObj c a) = true -> needs (VObj c a) = false -> map fst a = map fst a' ->
  unpack0 k (VObj c a') b 0 = Err e -> e = OutOfFuel \/ may (S n) e true (VObj c a) = true.
Proof.
  intros Sk ND KA U. rewrite (sok_keys n c _ _ KA) in Sk.
  destruct (all_read (S n) k true (VObj c a') b 0%nat Sk (or_intror ND) (or_introl eq_refl)) as [FL _].
  destruct (FL e U) as [->|X]; [left; reflexivity|right]. rewrite (may_attrs n e true c a a'). exact X.
Qed.
Lemma object_exceptions c a a' b e : sok 12 (VObj c a) = true -> needs (VObj c a) = false -> map fst a = map fst a' ->
  unpack (VObj c a') b 0 = Err e -> e = OutOfFuel \/ may 12 e true (VObj c a) = true.
Proof. exact (read_exceptions 11 FUEL c a a' b e). Qed.

Lemma packet_exceptions b e : wf_bytes b -> unpack_packet b = Err e ->
  e = UnpackException \/ leaked (nth 0 b 0) (nth 1 b 0) e.
Proof.
  intros W H. pose proof (unpack_packet_total b W) as TOT.
  assert (NO : e <> OutOfFuel) by (intros ->; contradiction). clear TOT. revert H. unfold unpack_packet.
  destruct (validate_exact (VBytes b)) as [[F _] D]; [intros b0 X; injection X as <-; exact W|].
  cbn [validate_any] in *. destruct D as [D|D]; [|rewrite D; cbn [bind]; intros [= <-]; left; reflexivity]. rewrite D. cbn [bind].
  destruct (F D) as (b0 & X & ((L8 & _) & _)). injection X as <-.
  destruct (version_lib (hd 0 b)) as [v|] eqn:VL; [|intros [= <-]; left; reflexivity].
  apply version_lib_ok in VL. rewrite hd_nth in VL.
  destruct (packet_header b v W L8 VL) as (FH & Ht & Hl & Hx). cbv zeta in *.
  rewrite unpack_message_eq, FH.
  destruct (is_member (type_enum v) (nth 1 b 0)) eqn:M.
  2: { pose proof (wf_bytes_firstn 8 b W) as W8. rewrite FH in W8.
       assert (EH : exists tl, wire_header v (nth 1 b 0) (place_value (slice 2 4 b)) (place_value (slice 4 8 b))
                    = version_number v :: nth 1 b 0 :: tl).
       { eexists. unfold wire_header. rewrite (be1 (nth 1 b 0)) by exact Ht.
         replace (be_encode 1 (version_number v)) with [version_number v] by (destruct v; reflexivity).
         reflexivity. }
       destruct EH as (tl & EH). rewrite EH in *.
       rewrite (header_refuses v _ _ _ M W8). cbn [bind recast exn_eqb]. intros [= <-]. left. reflexivity. }
  rewrite header_unpack by assumption. cbn [bind].
  unfold new_message_from_header, new_message_from_message_type.
  assert (FN : field_names (header_class v) = ["version"; "message_type"; "length"; "xid"])
      by (destruct v; reflexivity).
  unfold mk, header_outs. rewrite FN. unfold obj_attr, attr_or_error.
  cbn [combine get_attr String.eqb Ascii.eqb Bool.eqb bind].
  replace (type_code v (VUInt 1 (Some (type_enum v)) (VEnum (type_enum v) (nth 1 b 0)))) with (@Ok Z (nth 1 b 0))
      by (destruct v; reflexivity).
  cbn [bind].
  destruct (lookup_type (nth 1 b 0) (message_types v)) as [c|] eqn:LT; [|cbn; intros [= <-]; left; reflexivity].
  apply types_agree in LT.
  destruct (new_message_shape _ _ _ LT) as (a & h & NI & KH & _).
  rewrite NI. cbn [bind]. unfold set_header.
  cbn [get_attr set_attr String.eqb Ascii.eqb Bool.eqb bind].
  pose proof (types_ok v) as T. rewrite forallb_forall in T. specialize (T _ LT). unfold type_ok in T. cbn [fst snd] in T.
  rewrite NI in T. apply andb_true_iff in T as [T EX]. apply andb_true_iff in T as [Sk ND]. apply negb_true_iff in ND.
  match goal with |- context [unpack (VObj c ?at') _ _] => set (at1 := at') end.
  assert (KA : map fst (("header", VObj (header_class v) h) :: a) = map fst at1) by reflexivity.
  clearbody at1. clear - Sk ND KA EX NO VL.
  destruct (unpack (VObj c at1) (skipn 8 b) 0) as [r|x] eqn:U; cbn [recast]; [discriminate|].
  destruct (exn_eqb x ValueError) eqn:XV; intros [= <-]; [left; reflexivity|].
  destruct (object_exceptions _ _ _ _ _ Sk ND KA U) as [->|MX]; [contradiction NO; reflexivity|].
  rewrite forallb_forall in EX. specialize (EX x (all_exn_ok x)).
  rewrite MX, XV in EX. cbn [negb orb] in EX. rewrite orb_false_r in EX. apply orb_true_iff in EX as [EX|EX].
  - left. apply exn_eqb_ok, EX.
  - right. rewrite VL. apply leakedb_ok, EX.
Qed.

(** One packet for each entry of the table. *)
Lemma leaks_all v t e : leaked v t e ->
  exists b, wf_bytes b /\ well_framed b /\ nth 0 b 0 = v /\ nth 1 b 0 = t /\ unpack_packet b = Err e.
Proof.
  intros (es & I & Ie). unfold leaked_table in I. cbn [In] in I.
  repeat (destruct I as [I|I]; [injection I as <- <- <-; cbn [In] in Ie;
    repeat (destruct Ie as [<-|Ie]; [|]); try contradiction|]); try contradiction.
  - exists [1; 6; 0; 9; 0; 0; 0; 7; 0].
    split; [wfb|]. split; [framed|]. split; [reflexivity|]. split; [reflexivity|vm_compute; reflexivity].
  - exists [1; 6; 0; 41; 0; 0; 0; 7; 0; 0; 0; 0; 0; 0; 0; 0; 0; 0; 0; 0; 0; 0; 0; 0; 0; 0; 0; 0; 0; 0; 0; 0; 0; 1; 1; 2; 3; 4; 5; 6; 65].
    split; [wfb|]. split; [framed|]. split; [reflexivity|]. split; [reflexivity|vm_compute; reflexivity].
  - exists [1; 12; 0; 25; 0; 0; 0; 7; 0; 0; 0; 0; 0; 0; 0; 0; 0; 1; 1; 2; 3; 4; 5; 6; 65].
    split; [wfb|]. split; [framed|]. split; [reflexivity|]. split; [reflexivity|vm_compute; reflexivity].
  - exists [1; 16; 0; 13; 0; 0; 0; 7; 0; 0; 0; 0; 1].
    split; [wfb|]. split; [framed|]. split; [reflexivity|]. split; [reflexivity|vm_compute; reflexivity].
  - exists [1; 17; 0; 13; 0; 0; 0; 7; 0; 0; 0; 0; 65].
    split; [wfb|]. split; [framed|]. split; [reflexivity|]. split; [reflexivity|vm_compute; reflexivity].
  - exists [4; 6; 0; 9; 0; 0; 0; 7; 0].
    split; [wfb|]. split; [framed|]. split; [reflexivity|]. split; [reflexivity|vm_compute; reflexivity].
  - exists [4; 12; 0; 33; 0; 0; 0; 7; 0; 0; 0; 0; 0; 0; 0; 0; 0; 0; 0; 1; 0; 0; 0; 0; 1; 2; 3; 4; 5; 6; 0; 0; 65].
    split; [wfb|]. split; [framed|]. split; [reflexivity|]. split; [reflexivity|vm_compute; reflexivity].
  - exists [4; 14; 0; 64; 0; 0; 0; 7; 0; 0; 0; 0; 0; 0; 0; 0; 0; 0; 0; 0; 0; 0; 0; 0; 0; 0; 0; 0; 0; 0; 0; 0; 0; 0; 0; 0; 0; 0; 0; 0; 0; 0; 0; 0; 0; 0; 0; 0; 0; 1; 0; 4; 0; 0; 0; 0; 255; 255; 0; 8; 0; 0; 0; 0].
    split; [wfb|]. split; [framed|]. split; [reflexivity|]. split; [reflexivity|vm_compute; reflexivity].
  - exists [4; 18; 0; 88; 0; 0; 0; 7; 0; 12; 0; 0; 0; 0; 0; 0; 0; 72; 1; 0; 0; 0; 0; 0; 65; 65; 65; 65; 65; 65; 65; 65; 65; 65; 65; 65; 65; 65; 65; 65; 65; 65; 65; 65; 65; 65; 65; 65; 65; 65; 65; 65; 65; 65; 65; 0; 0; 0; 0; 0; 0; 0; 0; 0; 0; 0; 0; 0; 0; 0; 0; 0; 0; 0; 0; 0; 0; 0; 0; 0; 0; 0; 0; 8; 255; 255; 0; 4].
    split; [wfb|]. split; [framed|]. split; [reflexivity|]. split; [reflexivity|vm_compute; reflexivity].
  - exists [4; 18; 0; 26; 0; 0; 0; 7; 0; 12; 0; 0; 0; 0; 0; 0; 0; 10; 1; 0; 0; 0; 0; 0; 65; 66].
    split; [wfb|]. split; [framed|]. split; [reflexivity|]. split; [reflexivity|vm_compute; reflexivity].
  - exists [4; 19; 0; 88; 0; 0; 0; 7; 0; 12; 0; 0; 0; 0; 0; 0; 0; 72; 1; 0; 0; 0; 0; 0; 65; 65; 65; 65; 65; 65; 65; 65; 65; 65; 65; 65; 65; 65; 65; 65; 65; 65; 65; 65; 65; 65; 65; 65; 65; 65; 65; 65; 65; 65; 65; 0; 0; 0; 0; 0; 0; 0; 0; 0; 0; 0; 0; 0; 0; 0; 0; 0; 0; 0; 0; 0; 0; 0; 0; 0; 0; 0; 0; 8; 255; 255; 0; 4].
    split; [wfb|]. split; [framed|]. split; [reflexivity|]. split; [reflexivity|vm_compute; reflexivity].
  - exists [4; 19; 0; 28; 0; 0; 0; 7; 0; 10; 0; 0; 0; 0; 0; 0; 0; 12; 0; 1; 0; 0; 0; 5; 255; 255; 0; 4].
    split; [wfb|]. split; [framed|]. split; [reflexivity|]. split; [reflexivity|vm_compute; reflexivity].
  - exists [4; 19; 0; 17; 0; 0; 0; 7; 0; 0; 0; 0; 0; 0; 0; 0; 65].
    split; [wfb|]. split; [framed|]. split; [reflexivity|]. split; [reflexivity|vm_compute; reflexivity].
  - exists [4; 29; 0; 20; 0; 0; 0; 7; 0; 0; 0; 1; 0; 0; 0; 5; 255; 255; 0; 4].
    split; [wfb|]. split; [framed|]. split; [reflexivity|]. split; [reflexivity|vm_compute; reflexivity].
Qed.

Lemma exceptions_case :
  (exists b, wf_bytes b /\ well_framed b /\ nth 0 b 0 = 4 /\ nth 1 b 0 = 14 /\ unpack_packet b = Err TypeError) /\
  leaked 4 14 TypeError /\ ~ leaked 4 14 KeyError /\ (forall e, ~ leaked 1 14 e) /\
  unpack_packet [1; 14; 0; 9; 0; 0; 0; 0; 7] = Err UnpackException.
Proof.
  assert (L : leaked 4 14 TypeError) by (exists [TypeError]; cbn; tauto).
  split; [apply leaks_all, L|]. split; [exact L|]. split; [|split].
  - intros (es & I & Ie). cbn in I. decompose [or] I; try contradiction; try discriminate;
      match goal with H : _ = _ |- _ => injection H as <- end; cbn in Ie; intuition discriminate.
  - intros e (es & I & Ie). cbn in I. decompose [or] I; try contradiction; discriminate.
  - vm_compute. reflexivity.
Qed.
