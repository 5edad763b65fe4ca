(** Encodings are sequences of bytes: lemmas for C56. *)
From Coq Require Import ZArith List Bool String Lia.
From Verif Require Import Base PyText Ids PyVal Classes Interp SpecBasic SpecMutation SpecLayout SpecWire ClassFacts BaseFacts IntFacts
  StructFacts DispatchFacts FuelFacts Totality MutationFacts MutationFacts2 MutationFacts3 LayoutFacts.
Import ListNotations.
Open Scope string_scope.
Open Scope list_scope.
Open Scope Z_scope.

Lemma bytes_wf b : forallb (fun x => (0 <=? x) && (x <? 256)) b = true -> wf_bytes b.
Proof. intros H. apply Forall_forall. intros x I. rewrite forallb_forall in H. specialize (H x I). unfold is_byte. lia. Qed.
Lemma wf_octets b : wf_bytes b -> octets (VBytes b) = true.
Proof. intros H. cbn. apply forallb_forall. intros x I. unfold wf_bytes in H. rewrite Forall_forall in H. specialize (H x I). unfold is_byte in H. lia. Qed.

Lemma us_wf w l b : struct_pack_us w l = Ok b -> wf_bytes b.
Proof.
  revert b. induction l as [|z l IH]; intros b H; cbn [struct_pack_us] in H; [injection H as <-; constructor|].
  destruct (struct_pack_u w z) as [x|] eqn:E; [|discriminate]. cbn [bind] in H. destruct (struct_pack_us w l) as [y|]; [|discriminate].
  cbn [bind] in H. injection H as <-. apply wf_bytes_app. split; [|apply IH; reflexivity].
  unfold struct_pack_u in E. destruct (_ && _); [|discriminate]. injection E as <-. apply be_encode_wf.
Qed.
Lemma seq_wf w n l b : struct_pack_seq w n l = Ok b -> wf_bytes b.
Proof. unfold struct_pack_seq. destruct (Nat.eqb _ _); [|discriminate]. apply us_wf. Qed.
Lemma uint_wf w er d iv b : uint_pack1 w er d iv = Ok b -> wf_bytes b.
Proof. intros H. destruct (uint_some _ _ _ _ _ H) as (z & _ & W & _). exact W. Qed.
Lemma removelast_in {A} (l : list A) x : In x (removelast l) -> In x l.
Proof. induction l as [|y [|z l] IH]; [auto|intros []|]. intros [->|I]; [left; reflexivity|right; apply IH, I]. Qed.
Lemma char_wf n v b : octets v = true -> char_bytes n v = Ok b -> wf_bytes b.
Proof.
  unfold char_bytes. destruct v; try discriminate. cbn [octets]. intros O. destruct (forallb (fun c => c <? 128) s) eqn:A; [|discriminate]. cbv zeta. intros [= <-].
  apply wf_bytes_app. split; [|repeat constructor; unfold is_byte; lia]. apply Forall_forall. intros x I. apply removelast_in in I.
  assert (J : In x (s ++ zeros n)) by (rewrite <- (firstn_skipn n (s ++ zeros n)); apply in_or_app; left; exact I).
  apply in_app_or in J as [J|J].
  - rewrite forallb_forall in A, O. specialize (A x J). specialize (O x J). cbn beta in *. unfold is_byte. lia.
  - apply repeat_spec in J. subst. unfold is_byte. lia.
Qed.
Lemma ip_wf v b : ip_bytes v = Ok b -> wf_bytes b.
Proof. unfold ip_bytes. destruct v; try discriminate. cbv zeta. destruct (mapM _ _); [|discriminate]. cbn [bind]. intros H. apply recast_ok, seq_wf in H. exact H. Qed.
Lemma hw_wf v b : hw_bytes v = Ok b -> wf_bytes b.
Proof. unfold hw_bytes. cbv zeta. destruct (if equals_zero v then _ else _); try discriminate. destruct (mapM _ _); [|discriminate]. cbn [bind]. intros H. apply recast_ok, seq_wf in H. exact H. Qed.
Lemma dpid_wf v b : dpid_bytes v = Ok b -> wf_bytes b.
Proof. unfold dpid_bytes. destruct v; try discriminate. destruct (mapM _ _); [|discriminate]. cbn [bind]. intros H. apply seq_wf in H. exact H. Qed.
Lemma char1_wf n d iv b : octets d = true -> octets iv = true -> char_pack1 n d iv = Ok b -> wf_bytes b.
Proof. unfold char_pack1. intros D I. destruct iv; try (apply char_wf; assumption). Qed.
Lemma ip1_wf d iv b : ip_pack1 d iv = Ok b -> wf_bytes b.
Proof. unfold ip_pack1. destruct iv; apply ip_wf. Qed.
Lemma hw1_wf d iv b : hw_pack1 d iv = Ok b -> wf_bytes b.
Proof. unfold hw_pack1. destruct iv; apply hw_wf. Qed.
Lemma dpid1_wf d iv b : dpid_pack1 d iv = Ok b -> wf_bytes b.
Proof. unfold dpid_pack1. destruct iv; apply dpid_wf. Qed.

Definition makes_bytes (rec : pyval -> res bytes) : Prop := forall v b, octets v = true -> rec v = Ok b -> wf_bytes b.

Lemma concat_wf {A} (f : A -> res bytes) l b : (forall x y, In x l -> f x = Ok y -> wf_bytes y) -> concatM f l = Ok b -> wf_bytes b.
Proof.
  revert b. induction l as [|x l IH]; intros b H E; cbn [concatM] in E; [injection E as <-; constructor|].
  destruct (f x) as [y|] eqn:F; [|discriminate]. cbn [bind] in E. destruct (concatM f l) as [z|]; [|discriminate]. cbn [bind] in E. injection E as <-.
  apply wf_bytes_app. split; [apply (H x); [left; reflexivity|exact F]|]. apply IH; [|reflexivity]. intros u v I. apply H. right. exact I.
Qed.
Lemma bin_wf rec v b : makes_bytes rec -> octets v = true -> bin_pack rec v = Ok b -> wf_bytes b.
Proof.
  intros R O. unfold bin_pack. destruct (has_pack v); [apply R, O|]. destruct v; try discriminate; intros [= <-]; [constructor|apply bytes_wf, O].
Qed.

Lemma octets_flat_h h : forall v x, (height v <= h)%nat -> octets v = true -> In x (flat v) -> octets x = true.
Proof.
  induction h as [|h IH]; intros v x L O I; destruct v as [| | | | | | | | | | | | | |lc pc l]; try (cbn in I; destruct I as [<-|[]]; exact O); cbn [height] in L; [lia|].
  rewrite flat_list in I. apply in_flat_map in I as (y & J & I). cbn [octets] in O. rewrite forallb_forall in O. eapply (IH y); [|apply O, J|exact I].
  pose proof (list_max_in height l y J). lia.
Qed.
Lemma check_in pc : forall l items, check_items pc l = Ok items -> items = l.
Proof.
  induction l as [|x l IH]; intros items; cbn [check_items]; [congruence|]. destruct (cid_eqb pc CNone); [discriminate|]. destruct (subclass (class_of x) pc); [|discriminate].
  destruct (check_items pc l) as [r|]; [|discriminate]. cbn [bind]. intros [= <-]. rewrite (IH r eq_refl). reflexivity.
Qed.
Lemma octets_extend pc v items : octets v = true -> list_extend pc v = Ok items -> forallb octets items = true.
Proof.
  unfold list_extend. intros O H. destruct (iterate v) as [l|] eqn:I; [|discriminate]. cbn [bind] in H. apply check_in in H. subst items.
  apply forallb_forall. intros x J. apply in_flat_map in J as (y & J & K). eapply octets_flat_h; [apply le_n| |exact K].
  destruct v; try discriminate I; injection I as <-.
  - apply in_map_iff in J as (c & <- & J). cbn in *. rewrite forallb_forall in O. rewrite (O c J). reflexivity.
  - apply in_map_iff in J as (c & <- & J). reflexivity.
  - cbn [octets] in O. rewrite forallb_forall in O. apply O, J.
Qed.

Lemma pack1_wf rec cv iv b : makes_bytes rec -> octets cv = true -> octets iv = true -> pack1 rec cv iv = Ok b -> wf_bytes b.
Proof.
  intros R C I. destruct cv as [| | | | | |w er d|k|len d|d m|d|d|d|c a|lc pc items]; cbn [pack1]; try discriminate.
  - apply uint_wf.
  - intros [= <-]. apply wf_zeros.
  - apply char1_wf; assumption.
  - apply ip1_wf.
  - apply hw1_wf.
  - apply dpid1_wf.
  - apply bin_wf; [exact R|]. destruct iv; exact C || exact I.
  - assert (G : rec (VObj c a) = Ok b -> wf_bytes b) by (apply R, C). assert (J : rec iv = Ok b -> wf_bytes b) by (apply R, I).
    assert (K : match kind c with
          | KOxmTLV => if has_pack iv then rec iv else Err AttributeError
          | KSetField04 => rec (VObj c a)
          | _ => if subclass (class_of iv) c then rec iv else Err PackException
          end = Ok b -> wf_bytes b) by (destruct (kind c); [..]; try exact G; destruct (has_pack iv), (subclass (class_of iv) c); try discriminate; exact J).
    destruct iv; try exact K; exact G.
  - assert (G : rec (VList lc pc items) = Ok b -> wf_bytes b) by (apply R, C). assert (J : rec iv = Ok b -> wf_bytes b) by (apply R, I).
    assert (K : (if subclass (class_of iv) lc then rec iv else if cid_eqb lc CFixedTypeList then Err TypeError
          else do items <- list_extend pc iv; rec (VList lc pc items)) = Ok b -> wf_bytes b).
    { destruct (subclass (class_of iv) lc); [exact J|]. destruct (cid_eqb lc CFixedTypeList); [discriminate|].
      destruct (list_extend pc iv) as [l|] eqn:E; [|discriminate]. cbn [bind]. apply R. cbn [octets]. eapply octets_extend; eassumption. }
    destruct iv; try exact K; exact G.
Qed.

Lemma declared_octets : forall c, forallb (fun p => octets (snd p)) (class_attrs c) = true.
Proof. apply (all_classes (fun c => forallb (fun p => octets (snd p)) (class_attrs c))). vm_compute. reflexivity. Qed.

Lemma struct_wf rec c attrs b : makes_bytes rec -> forallb (fun p => octets (snd p)) attrs = true -> struct_pack rec c attrs = Ok b -> wf_bytes b.
Proof.
  intros R O. unfold struct_pack. destruct (is_valid c attrs) as [[]|]; [|discriminate|discriminate]. cbn [bind]. apply concat_wf. intros [cv iv] y I. cbn [fst snd].
  unfold zip_attrs in I. pose proof (in_combine_l _ _ _ _ I) as I1. pose proof (in_combine_r _ _ _ _ I) as I2.
  apply in_map_iff in I1 as ([n1 x1] & <- & I1). apply in_map_iff in I2 as ([n2 x2] & <- & I2). apply filter_In in I2 as [I2 _]. cbn [snd].
  pose proof (declared_octets c) as D. rewrite forallb_forall in O, D. apply pack1_wf; [exact R|apply (D _ I1)|apply (O _ I2)].
Qed.
Lemma octets_set name v attrs : octets v = true -> forallb (fun p => octets (snd p)) attrs = true -> forallb (fun p => octets (snd p)) (set_attr name v attrs) = true.
Proof.
  intros V O. apply forallb_forall. intros [k x] I. cbn [snd]. apply set_attr_in in I as [->|I]; [exact V|]. rewrite forallb_forall in O. apply (O _ I).
Qed.
Lemma octets_get name attrs v : forallb (fun p => octets (snd p)) attrs = true -> get_attr name attrs = Some v -> octets v = true.
Proof. intros O G. apply get_attr_In in G. rewrite forallb_forall in O. apply (O _ G). Qed.

Lemma message_wf rec size c attrs b : makes_bytes rec -> forallb (fun p => octets (snd p)) attrs = true -> message_pack rec size c attrs = Ok b -> wf_bytes b.
Proof.
  intros R O. unfold message_pack, attr_or_error. destruct (size (VObj c attrs)) as [s|]; [|discriminate]. cbn [bind].
  destruct (get_attr "header" attrs) as [h|] eqn:G; [|discriminate]. cbn [bind]. pose proof (octets_get _ _ _ O G) as H.
  destruct h as [| | | | | | | | | | | | |hc ha|]; try discriminate. apply struct_wf; [exact R|]. apply octets_set; [|exact O]. cbn [octets] in *. apply octets_set; [reflexivity|exact H].
Qed.

Lemma obj_wf rec size' size c attrs b : makes_bytes rec -> forallb (fun p => octets (snd p)) attrs = true -> pack_obj rec size' size c attrs = Ok b -> wf_bytes b.
Proof.
  intros R O. unfold pack_obj.
  assert (S0 : forall z, struct_pack rec c (set_attr "length" (VInt z) attrs) = Ok b -> wf_bytes b) by (intros z; apply struct_wf; [exact R|apply octets_set; [reflexivity|exact O] ]).
  assert (S1 : struct_pack rec c attrs = Ok b -> wf_bytes b) by (apply struct_wf; assumption).
  assert (S2 : (do s <- size (VObj c attrs); struct_pack rec c (set_attr "length" (VInt s) attrs)) = Ok b -> wf_bytes b) by (destruct (size (VObj c attrs)); [apply S0|discriminate]).
  assert (M : message_pack rec size c attrs = Ok b -> wf_bytes b) by (apply message_wf; assumption).
  assert (Mb : forall n v, octets v = true -> message_pack rec size c (set_attr n v attrs) = Ok b -> wf_bytes b) by (intros n v V; apply message_wf; [exact R|apply octets_set; [exact V|exact O] ]).
  assert (Sw : forall n x, octets x = true -> (do y <- rec x; message_pack rec size c (set_attr n (VBytes y) attrs)) = Ok b -> wf_bytes b).
  { intros n x X. destruct (rec x) as [y|] eqn:E; [|discriminate]. cbn [bind]. apply Mb, wf_octets. eapply R; eassumption. }
  assert (MP : forall r, multipart_pack rec size' size r c attrs = Ok b -> wf_bytes b).
  { intros r. unfold multipart_pack, attr_or_error. destruct (get_attr "body" attrs) as [body|] eqn:G; [|discriminate]. cbn [bind]. pose proof (octets_get _ _ _ O G) as Ob.
    destruct (truthy size' body) as [[]|]; [|exact M|discriminate]. cbn [bind].
    assert (P : (if has_pack body then do b0 <- rec body; message_pack rec size c (set_attr "body" (VBytes b0) attrs) else Err UnboundLocalError) = Ok b -> wf_bytes b)
      by (destruct (has_pack body); [apply Sw, Ob|discriminate]).
    destruct body as [| | | | | | | | | | | | | |lc pc items]; try exact P. clear P.
    destruct (get_attr "multipart_type" attrs) as [mt|]; [|discriminate]. cbn [bind]. destruct (body_instance r mt) as [inst|]; [|discriminate]. cbn [bind].
    destruct inst as [| | | | | | | | | | | | | |lc' pc' it']; try discriminate. destruct (list_extend pc' (VList lc pc items)) as [l|] eqn:E; [|discriminate]. cbn [bind].
    apply Sw. cbn [octets]. eapply octets_extend; eassumption. }
  assert (PO : forall lc, packet_out_pack rec size' size lc c attrs = Ok b -> wf_bytes b).
  { intros lc. unfold packet_out_pack, attr_or_error. destruct (get_attr "actions" attrs) as [acts|]; [|discriminate]. cbn [bind].
    match goal with |- bind ?r _ = _ -> _ => destruct r as [z|]; [|discriminate] end. apply Mb. reflexivity. }
  destruct (kind c); try exact S1; try exact S2; try exact M; try apply MP; try apply PO.
  - destruct upd; [exact S2|exact S1].
  - destruct f; [exact S2|exact S2|exact S1].
  - unfold setfield_pack, attr_or_error. destruct (get_attr "field" attrs) as [f|]; [|discriminate]. cbn [bind].
    match goal with |- bind ?r _ = _ -> _ => destruct r as [fb|]; [|discriminate] end. cbn [bind]. cbv zeta.
    match goal with |- bind ?r _ = _ -> _ => destruct r as [p|] eqn:E; [|discriminate] end. cbn [bind]. intros [= <-]. apply wf_bytes_app. split; [|apply wf_zeros].
    revert E. apply struct_wf; [exact R|apply octets_set; [reflexivity|exact O] ].
  - unfold oxm_pack, attr_or_error. destruct (get_attr "oxm_class" attrs) as [x1|]; [|discriminate]. cbn [bind]. destruct (get_attr "oxm_field" attrs) as [x2|]; [|discriminate]. cbn [bind].
    destruct (recast _ _ _) as [fi|]; [|discriminate]. cbn [bind]. destruct (get_attr "oxm_hasmask" attrs) as [x3|]; [|discriminate]. cbn [bind]. destruct (num_of x3) as [h|]; [|discriminate]. cbn [bind].
    destruct (get_attr "oxm_value" attrs) as [x4|]; [|discriminate]. cbn [bind]. destruct (bin_pack rec x4) as [pl|]; [|discriminate]. cbn [bind].
    apply struct_wf; [exact R|]. apply octets_set; [reflexivity|]. apply octets_set; [reflexivity|exact O].
  - unfold match04_pack. destruct (struct_size _ _ _) as [s|]; [|discriminate]. cbn [bind]. cbv zeta.
    match goal with |- bind ?r _ = _ -> _ => destruct r as [p|] eqn:E; [|discriminate] end. cbn [bind]. match goal with |- bind ?r _ = _ -> _ => destruct r as [pd|]; [|discriminate] end. cbn [bind]. intros [= <-]. apply wf_bytes_app. split; [|apply wf_zeros].
    revert E. apply struct_wf; [exact R|apply octets_set; [reflexivity|exact O] ].
  - unfold error_pack01, attr_or_error. destruct (get_attr "data" attrs) as [d|] eqn:G; [|discriminate]. cbn [bind]. pose proof (octets_get _ _ _ O G) as Od.
    destruct d; try exact M; (match goal with |- (if ?h then _ else _) = _ -> _ => destruct h end; [apply Sw, Od|discriminate]).
  - unfold stats_request_pack, attr_or_error. destruct (get_attr "body" attrs) as [d|] eqn:G; [|discriminate]. cbn [bind]. pose proof (octets_get _ _ _ O G) as Od.
    destruct (has_pack d); [apply Sw, Od|exact M].
  - unfold stats_reply_pack, attr_or_error. destruct (get_attr "body" attrs) as [d|] eqn:G; [|discriminate]. cbn [bind]. pose proof (octets_get _ _ _ O G) as Od.
    destruct (truthy size' d) as [t|]; [|discriminate]. cbn [bind]. destruct (t && has_pack d); [|exact M].
    destruct (rec d) as [y|] eqn:E; [|discriminate]. cbn [bind]. apply Mb. apply (wf_octets y). eapply R; eassumption.
Qed.

Lemma pack0_wf n : makes_bytes (pack0 n).
Proof.
  induction n as [|n IH]; intros v b O E; [discriminate|]. destruct v as [| | | | | |w er d|k|len d|d m|d|d|x|c attrs|lc pc items]; cbn [pack0] in E; try discriminate.
  - eapply uint_wf, E.
  - injection E as <-. apply wf_zeros.
  - eapply char1_wf; [| |exact E]; [exact O|reflexivity].
  - eapply ip1_wf, E.
  - eapply hw1_wf, E.
  - eapply dpid1_wf, E.
  - cbn [octets] in O. exact (bin_wf _ x b IH O E).
  - eapply obj_wf; [exact IH|exact O|exact E].
  - destruct (cid_eqb lc CList); [discriminate|]. revert E. apply concat_wf. intros x y I. destruct (has_pack x); [|discriminate]. apply IH.
    cbn [octets] in O. rewrite forallb_forall in O. apply O, I.
Qed.
Lemma pack_bytes v b : octets v = true -> pack v = Ok b -> wf_bytes b.
Proof. intros O P. apply pack_eq in P. eapply pack0_wf; eassumption. Qed.

Lemma new_octets c v : new_instance c = Some v -> octets v = true.
Proof.
  assert (T : match new_instance c with Some v => octets v | None => true end = true) by (revert c; apply all_classes; vm_compute; reflexivity).
  intros E. rewrite E in T. exact T.
Qed.
