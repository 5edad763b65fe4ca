(** What pack() refuses: lemmas for C65. *)
From Coq Require Import ZArith List Bool String Lia.
From Verif Require Import Base PyText Ids PyVal Classes Interp SpecBasic SpecMutation SpecLayout SpecReject ClassFacts BaseFacts IntFacts
  TextFacts AddrFacts StructFacts FuelFacts Totality MutationFacts MutationFacts2 MutationFacts3 LayoutFacts.
Import ListNotations.
Open Scope string_scope.
Open Scope list_scope.
Open Scope Z_scope.

(** ** Integers *)
Definition reads (v : pyval) : pyval := match dot_value v with Some x => x | None => v end.
Lemma int_enum_spec e : int_enumeration e <-> is_int_enum e = true.
Proof.
  unfold int_enumeration, is_int_enum. destruct (enum_def e); split; try discriminate; eauto; intros [x H]; discriminate H.
Qed.
Lemma mask_spec e : is_bit_mask e \/ ~ is_bit_mask e.
Proof. unfold is_bit_mask. destruct (enum_def e); [right|right|left; eauto]; intros [x H]; discriminate H. Qed.
Lemma plain_value v : generic_value None v = match v with VMask _ z => VInt z | _ => v end.
Proof. reflexivity. Qed.
Lemma mask_value e v : is_bit_mask e -> generic_value (Some e) v = match v with VMask _ z => VInt z | _ => v end.
Proof. intros [l H]. unfold generic_value. rewrite H. reflexivity. Qed.
Lemma enum_value e v : ~ is_bit_mask e -> generic_value (Some e) v = match v with VEnum e' z => if eid_eqb e e' then VInt z else v | _ => v end.
Proof. intros H. unfold generic_value. destruct (enum_def e) eqn:E; try reflexivity. exfalso. apply H. exists members. exact E. Qed.

Lemma number_as_int v z : number v z -> as_int (reads v) = Some z.
Proof.
  assert (I : forall er x z, as_int (generic_value er (VInt x)) = Some z <-> x = z).
  { intros [e|] x z'; [destruct (mask_spec e) as [M|M]; [rewrite (mask_value e _ M)|rewrite (enum_value e _ M)]|]; cbn; split; congruence. }
  assert (En : forall er e x, int_enumeration e -> as_int (generic_value er (VEnum e x)) = Some x).
  { intros er e x He. apply int_enum_spec in He. destruct er as [e'|]; [destruct (mask_spec e') as [M|M]; [rewrite (mask_value e' _ M)|rewrite (enum_value e' _ M)]|];
      cbn; rewrite ?He; try reflexivity. destruct (eid_eqb e' e); [reflexivity|]. cbn. rewrite He. reflexivity. }
  intros H. destruct H as [z|e z|v z H|v e z H He|w e z M|w e z|w e' e z M|v e z H N N']; unfold reads; try reflexivity.
  - inversion H; subst; cbn [dot_value]; first [apply I; reflexivity|reflexivity].
  - inversion H; subst; cbn [dot_value]; first [apply En; exact He|apply int_enum_spec in He; cbn [as_int]; rewrite He; reflexivity].
  - cbn [dot_value]. rewrite (enum_value e _ M). rewrite eid_eqb_refl. reflexivity.
  - cbn [dot_value]. rewrite (mask_value e' _ M). reflexivity.
  - inversion H; subst; try reflexivity; exfalso; [eapply N|eapply N']; reflexivity.
Qed.
Lemma as_int_number v z : as_int (reads v) = Some z -> number v z.
Proof.
  assert (G : forall x v', held x v' -> as_int x = Some z -> number v' z).
  { intros x v' H. destruct x; try discriminate; cbn.
    - intros [= ->]. apply nu_held, H.
    - destruct (is_int_enum e) eqn:E; [|discriminate]. intros [= ->]. eapply nu_held_member; [exact H|]. apply int_enum_spec, E. }
  assert (P : forall x v', held x v' -> (forall w er y, v' <> VUInt w er y) -> (forall y, v' <> VDPID y) -> as_int (generic_value None x) = Some z -> number v' z).
  { intros x v' H N N'. rewrite plain_value. destruct x; try (apply G, H). cbn. intros [= ->]. eapply nu_other_mask; [exact H|exact N|exact N']. }
  unfold reads. destruct v as [| | | | | |w er x|k|len x|x msk|x|x|x| |]; cbn [dot_value]; try discriminate; try (apply P; [constructor|intros; discriminate|intros; discriminate]).
  - cbn. intros [= ->]. constructor.
  - cbn. intros [= ->]. constructor.
  - destruct er as [e|].
    + destruct (mask_spec e) as [M|M]; [rewrite (mask_value e _ M)|rewrite (enum_value e _ M)].
      * destruct x; try (apply G; constructor). cbn. intros [= ->]. apply nu_own_mask, M.
      * destruct x; try (apply G; constructor). destruct (eid_eqb e e0) eqn:E; [|apply G; constructor]. cbn. intros [= ->].
        apply eid_eqb_eq in E. subst. apply nu_own_member, M.
    + rewrite plain_value. destruct x; try (apply G; constructor). cbn. intros [= ->]. apply nu_mask.
  - apply G. constructor.
Qed.
Lemma number_iff v z : number v z <-> as_int (reads v) = Some z.
Proof. split; [apply number_as_int|apply as_int_number]. Qed.
Lemma uint_read w er d iv : uint_pack1 w er d iv = uint_struct w (reads (match iv with VNone => VUInt w er d | _ => iv end)).
Proof. destruct iv; reflexivity. Qed.
Lemma uint_struct_err w v e : uint_struct w v = Err e <-> e = PackException /\ forall z, as_int v = Some z -> ~ fits w z.
Proof.
  unfold uint_struct. destruct (as_int v) as [z|]; [|split; [intros [= <-]; split; [reflexivity|discriminate]|intros [-> _]; reflexivity]].
  unfold struct_pack_u. destruct ((0 <=? z) && (z <? ulimit w)) eqn:E; cbn.
  - split; [discriminate|]. intros [_ H]. exfalso. apply (H z eq_refl). unfold fits. rewrite <- ulimit_pow. apply andb_prop in E as [E1 E2].
    apply Z.leb_le in E1. apply Z.ltb_lt in E2. split; assumption.
  - split; [|intros [-> _]; reflexivity]. intros [= <-]. split; [reflexivity|]. intros z' [= <-] F. unfold fits in F. rewrite <- ulimit_pow in F.
    apply andb_false_iff in E as [E|E]; [apply Z.leb_gt in E|apply Z.ltb_ge in E]; lia.
Qed.
Lemma uint_refused w er d iv e : uint_pack1 w er d iv = Err e <-> refused (VUInt w er d) iv e.
Proof.
  rewrite uint_read, uint_struct_err. split.
  - intros [-> H]. apply rf_int. intros z Hz. apply H, number_iff, Hz.
  - intros H. inversion H; subst. split; [reflexivity|]. intros z Hz. match goal with N : forall z, number _ z -> _ |- _ => apply N, number_iff, Hz end.
Qed.

(** ** Text *)
Lemma forallb_ascii s : forallb (fun c => c <? 128) s = false <-> Exists (fun c => 128 <= c) s.
Proof.
  rewrite Exists_exists. induction s as [|c s IH]; cbn; [split; [discriminate|intros (x & [] & _)]|]. rewrite andb_false_iff, IH, Z.ltb_ge. split.
  - intros [H|(x & I & H)]; eauto.
  - intros (x & [<-|I] & H); eauto.
Qed.
Lemma char_refused len d iv e : char_pack1 len d iv = Err e <-> refused (VChar len d) iv e.
Proof.
  assert (E : exists k, char_pack1 len d iv = char_bytes k (held_text d iv)) by (exists (match iv with VChar k _ => k | _ => len end); destruct iv; reflexivity).
  destruct E as [k ->]. split.
  - unfold char_bytes. destruct (held_text d iv) as [| |s| | | | | | | | | | | |] eqn:H; try (intros [= <-]; apply rf_text_type; rewrite H; intros; discriminate).
    destruct (forallb _ s) eqn:F; [discriminate|]. intros [= <-]. eapply rf_text_ascii; [exact H|]. apply forallb_ascii, F.
  - intros H. inversion H as [|n0 d0 iv0 N|n0 d0 iv0 s Hs Hx| | | | | | | | | | | | | | |]; subst; unfold char_bytes.
    + destruct (held_text d iv) as [| |s| | | | | | | | | | | |]; try reflexivity. exfalso. exact (N s eq_refl).
    + rewrite Hs. apply forallb_ascii in Hx. rewrite Hx. reflexivity.
Qed.

(** ** Addresses *)
Lemma py_int_err base p e : py_int base p = Err e -> e = ValueError.
Proof. unfold py_int. cbv zeta. destruct (match strip_space p with 43 :: tl => _ | 45 :: tl => _ | _ => _ end); congruence. Qed.
Lemma mapM_int_err base l e : mapM (py_int base) l = Err e <-> e = ValueError /\ some_part_no_number base l.
Proof.
  unfold some_part_no_number. induction l as [|p l IH]; cbn [mapM].
  - split; [discriminate|]. intros [_ H]. inversion H.
  - destruct (py_int base p) as [z|e1] eqn:P; cbn [bind].
    + destruct (mapM (py_int base) l) as [zs|e2]; cbn [bind].
      * split; [discriminate|]. intros [-> H]. inversion H as [? ? N|? ? N]; subst; [exfalso; apply (N z P)|]. discriminate (proj2 IH (conj eq_refl N)).
      * split; [intros [= ->]; destruct (proj1 IH eq_refl) as [-> N]; split; [reflexivity|right; exact N]|].
        intros [-> H]. inversion H as [? ? N|? ? N]; subst; [exfalso; apply (N z P)|]. rewrite (proj2 IH (conj eq_refl N)). reflexivity.
    + apply py_int_err in P as Q. subst. split; [|intros [-> _]; reflexivity]. intros [= <-]. split; [reflexivity|]. left. intros z Z. congruence.
Qed.
Lemma mapM_int_ok base l zs : mapM (py_int base) l = Ok zs <-> numbers base l zs.
Proof.
  unfold numbers. revert zs. induction l as [|p l IH]; intros zs; cbn [mapM].
  - split; [intros [= <-]; constructor|intros H; inversion H; reflexivity].
  - destruct (py_int base p) as [z|e1] eqn:P; cbn [bind].
    + destruct (mapM (py_int base) l) as [zs'|e2] eqn:M; cbn [bind].
      * split; [intros [= <-]; constructor; [exact P|apply IH; reflexivity]|]. intros H. inversion H as [|? z' ? zs2 A B]; subst. apply IH in B. congruence.
      * split; [discriminate|]. intros H. inversion H as [|? z' ? zs2 A B]; subst. apply IH in B. discriminate.
    + split; [discriminate|]. intros H. inversion H; congruence.
Qed.
Lemma pack_us_err zs e : struct_pack_us 1 zs = Err e <-> e = StructError /\ ~ Forall (fun z => 0 <= z < 256) zs.
Proof.
  induction zs as [|z zs IH]; cbn [struct_pack_us].
  - split; [discriminate|]. intros [_ H]. exfalso. apply H. constructor.
  - unfold struct_pack_u at 1. change (ulimit 1) with 256. destruct ((0 <=? z) && (z <? 256)) eqn:E; cbn [bind].
    + apply andb_prop in E as [E1 E2]. apply Z.leb_le in E1. apply Z.ltb_lt in E2.
      destruct (struct_pack_us 1 zs) as [b|e2]; cbn [bind].
      * split; [discriminate|]. intros [-> H]. exfalso. assert (N : ~ Forall (fun z => 0 <= z < 256) zs) by (intros N; apply H; constructor; [lia|exact N]).
        discriminate (proj2 IH (conj eq_refl N)).
      * split; [intros [= ->]; destruct (proj1 IH eq_refl) as [-> N]; split; [reflexivity|intros H; apply N; inversion H; assumption]|].
        intros [-> H]. assert (N : ~ Forall (fun z => 0 <= z < 256) zs) by (intros N; apply H; constructor; [lia|exact N]). exact (proj2 IH (conj eq_refl N)).
    + split; [|intros [-> _]; reflexivity]. intros [= <-]. split; [reflexivity|]. intros H. inversion H; subst.
      apply andb_false_iff in E as [E|E]; [apply Z.leb_gt in E|apply Z.ltb_ge in E]; lia.
Qed.
Lemma pack_seq_err n zs e : struct_pack_seq 1 n zs = Err e <-> e = StructError /\ ~ n_bytes n zs.
Proof.
  unfold struct_pack_seq, n_bytes. destruct (Nat.eqb_spec (List.length zs) n) as [E|E].
  - rewrite pack_us_err. split; intros [-> H]; (split; [reflexivity|]); [intros [_ F]; exact (H F)|intros F; apply H; split; assumption].
  - split; [intros [= <-]; split; [reflexivity|intros [F _]; exact (E F)]|intros [-> _]; reflexivity].
Qed.
Lemma recast_seq_err n zs e : recast StructError PackException (struct_pack_seq 1 n zs) = Err e <-> e = PackException /\ ~ n_bytes n zs.
Proof.
  destruct (struct_pack_seq 1 n zs) as [b|e'] eqn:E.
  - cbn. split; [discriminate|]. intros [-> N]. pose proof (proj2 (pack_seq_err n zs StructError) (conj eq_refl N)). congruence.
  - apply pack_seq_err in E as [-> N]. cbn. split; [intros [= <-]; auto|intros [-> _]; reflexivity].
Qed.

Lemma slash_cut s : before_slash s (if has_char slash s then hd [] (split slash s) else s).
Proof.
  destruct (has_char slash s) eqn:H.
  - assert (X : exists a r, s = (a ++ slash :: r)%list /\ ~ In slash a).
    { clear - H. induction s as [|c s IH]; [discriminate|]. cbn [has_char existsb] in H. destruct (Z.eq_dec c slash) as [->|N].
      - exists [], s. split; [reflexivity|intros []].
      - apply Z.eqb_neq in N as N'. rewrite Z.eqb_sym, N' in H. destruct (IH H) as (a & r & -> & Na). exists (c :: a), r. split; [reflexivity|].
        intros [->|I]; [congruence|exact (Na I)]. }
    destruct X as (a & r & -> & N).
    assert (Hs : split slash (a ++ slash :: r) = a :: split slash r).
    { apply split_prefix_text. apply Forall_forall. intros x I ->. exact (N I). }
    rewrite Hs. constructor. exact N.
  - constructor. intros I. assert (T : has_char slash s = true) by (apply existsb_exists; exists slash; split; [exact I|reflexivity]). congruence.
Qed.
Lemma before_slash_fun s t t' : before_slash s t -> before_slash s t' -> t = t'.
Proof.
  assert (U : forall a b r r', ~ In slash a -> ~ In slash b -> (a ++ slash :: r)%list = (b ++ slash :: r')%list -> a = b).
  { induction a as [|x a IH]; intros [|y b] r r' Na Nb E; try reflexivity; cbn in E; injection E as E1 E2.
    - exfalso. apply Nb. left. congruence.
    - exfalso. apply Na. left. congruence.
    - subst. f_equal. eapply IH; [intros I; apply Na; right; exact I|intros I; apply Nb; right; exact I|exact E2]. }
  intros H H'. destruct H as [s N|s r N].
  - inversion H' as [|s' r' N']; subst; [reflexivity|]. exfalso. apply N, in_or_app. right. left. reflexivity.
  - inversion H' as [s1 N' E|s1 r' N' E]; subst; [exfalso; apply N', in_or_app; right; left; reflexivity|].
    symmetry. eapply U; [exact N'|exact N|exact E].
Qed.

(** A text of numbers, read by [parts] and written with errors [er]. *)
Definition address (base : Z) (n : nat) (cast : res bytes -> res bytes) (parts : text -> list text) (v : pyval) : res bytes :=
  match v with
  | VStr s => do zs <- mapM (py_int base) (parts s); cast (struct_pack_seq 1 n zs)
  | VBytes _ => Err TypeError
  | _ => Err AttributeError
  end.
Lemma address_iff base n er cast parts (parts_of : text -> list text -> Prop) :
  (forall s p, parts_of s p <-> p = parts s) ->
  (forall zs e, cast (struct_pack_seq 1 n zs) = Err e <-> e = er /\ ~ n_bytes n zs) ->
  forall v e, address base n cast parts v = Err e <-> no_address base n er parts_of v e.
Proof.
  intros HP HC v e. unfold address. split.
  - destruct v as [| |s|b| | | | | | | | | | |]; try (intros [= <-]; first [apply ad_bytes | apply ad_other; intros; discriminate]).
    destruct (mapM (py_int base) (parts s)) as [zs|e'] eqn:M; cbn [bind]; intros H.
    + apply HC in H as [-> N]. eapply ad_range; [apply HP; reflexivity|apply mapM_int_ok, M|exact N].
    + injection H as ->. apply mapM_int_err in M as [-> N]. eapply ad_text; [apply HP; reflexivity|exact N].
  - intros [b|x Ns Nb|s p Hp N|s p zs Hp Hz N].
    + reflexivity.
    + destruct x; try reflexivity; exfalso; [eapply Ns|eapply Nb]; reflexivity.
    + apply HP in Hp as ->. rewrite (proj2 (mapM_int_err base _ ValueError) (conj eq_refl N)). reflexivity.
    + apply HP in Hp as ->. apply mapM_int_ok in Hz. rewrite Hz. cbn [bind]. apply HC. split; [reflexivity|exact N].
Qed.
Lemma ip_iff v e : ip_bytes v = Err e <-> no_address 10 4 PackException ip_parts v e.
Proof.
  rewrite <- (address_iff 10 4 PackException (recast StructError PackException)
    (fun s => split dot (if has_char slash s then hd [] (split slash s) else s)) ip_parts).
  - destruct v; reflexivity.
  - intros s p. unfold ip_parts. split.
    + intros (t & H & ->). rewrite (before_slash_fun s t _ H (slash_cut s)). reflexivity.
    + intros ->. eexists. split; [apply slash_cut|reflexivity].
  - apply recast_seq_err.
Qed.
Lemma dpid_iff v e : dpid_bytes v = Err e <-> no_address 16 8 StructError colon_parts v e.
Proof.
  rewrite <- (address_iff 16 8 StructError (fun r => r) (split colon) colon_parts).
  - destruct v; reflexivity.
  - reflexivity.
  - apply pack_seq_err.
Qed.
Lemma zero_iff v : equals_zero v = true <-> is_zero v.
Proof.
  unfold is_zero. rewrite number_iff.
  assert (Z0 : forall x, match as_int x with Some z => z =? 0 | None => false end = true <-> as_int x = Some 0).
  { intros x. destruct (as_int x) as [z|]; [|split; discriminate]. rewrite Z.eqb_eq. split; congruence. }
  destruct v as [| | | |e z| | | | | | | | | |]; unfold equals_zero, reads; cbv zeta;
    try (match goal with |- context [dot_value ?v] => destruct (dot_value v) end; rewrite Z0; (split; [intros H; split; [exact H|intros; discriminate]|intros [H _]; exact H])).
  cbn [dot_value as_int]. destruct (is_int_enum e) eqn:E.
  - rewrite Z.eqb_eq. split; [intros Ez; split; [congruence|]; intros e' z' Ev; injection Ev as <- _; apply int_enum_spec, E|intros [H _]; congruence].
  - split; [discriminate|]. intros [_ H]. pose proof (proj1 (int_enum_spec e) (H e z eq_refl)). congruence.
Qed.
Lemma hw_iff v e : hw_bytes v = Err e <-> ~ is_zero v /\ no_address 16 6 PackException colon_parts v e.
Proof.
  rewrite <- (address_iff 16 6 PackException (recast StructError PackException) (split colon) colon_parts); [|reflexivity|apply recast_seq_err].
  rewrite <- zero_iff. unfold hw_bytes. cbv zeta. destruct (equals_zero v) eqn:E.
  - split; [|intros [H _]; congruence]. intros H. exfalso. vm_compute in H. discriminate H.
  - split; [intros H; split; [discriminate|]|intros [_ H]]; destruct v; exact H.
Qed.

Lemma ip_refused d m iv e : ip_pack1 d iv = Err e <-> refused (VIP d m) iv e.
Proof.
  assert (E : ip_pack1 d iv = ip_bytes (held_ip d iv)) by (destruct iv; reflexivity). rewrite E, ip_iff.
  split; [apply rf_ip|]. intros H. inversion H. assumption.
Qed.
Lemma hw_refused d iv e : hw_pack1 d iv = Err e <-> refused (VHW d) iv e.
Proof.
  assert (E : hw_pack1 d iv = hw_bytes (held_hw d iv)) by (destruct iv; reflexivity). rewrite E, hw_iff.
  split; [intros [N H]; apply rf_hw; assumption|]. intros H. inversion H. split; assumption.
Qed.
Lemma dpid_refused d iv e : dpid_pack1 d iv = Err e <-> refused (VDPID d) iv e.
Proof.
  assert (E : dpid_pack1 d iv = dpid_bytes (held_dpid d iv)) by (destruct iv; reflexivity). rewrite E, dpid_iff.
  split; [apply rf_dpid|]. intros H. inversion H. assumption.
Qed.

(** ** Objects *)
Lemma no_object_pack v : no_object v = negb (has_pack v).
Proof. destruct v; try reflexivity. cbn. rewrite negb_involutive. reflexivity. Qed.
Lemma raw_refused d iv e : bin_pack pack (or_default d iv) = Err e <-> refused (VBin d) iv e.
Proof.
  unfold bin_pack. split.
  - destruct (has_pack (or_default d iv)) eqn:H.
    + intros P. apply rf_raw_object; [|exact P]. rewrite no_object_pack, H. reflexivity.
    + intros P. assert (e = ValueError) as -> by (destruct (or_default d iv); congruence).
      apply rf_raw; [rewrite no_object_pack, H; reflexivity|intros E; rewrite E in P; discriminate|intros b E; rewrite E in P; discriminate].
  - intros R. inversion R as [| | | | | |d0 iv0 Hn N1 N2|d0 iv0 e0 Hn P| | | | | | | | | |]; subst; rewrite no_object_pack in Hn; destruct (has_pack (or_default d iv)); try discriminate Hn.
    + destruct (or_default d iv); try reflexivity; [congruence|]. exfalso. eapply N2. reflexivity.
    + exact P.
Qed.

(** ** Lists *)
Lemma check_items_err pc l e : pc <> CNone -> check_items pc l = Err e <-> e = WrongListItemType /\ Exists (other_class pc) l.
Proof.
  intros N. unfold other_class. induction l as [|x l IH]; cbn [check_items].
  - split; [discriminate|]. intros [_ H]. inversion H.
  - destruct (cid_eqb pc CNone) eqn:E; [apply cid_eqb_eq in E; congruence|]. destruct (subclass (class_of x) pc) eqn:Sx.
    + destruct (check_items pc l) as [r|e']; cbn [bind].
      * split; [discriminate|]. intros [-> H]. inversion H as [? ? A|? ? A]; subst; [congruence|]. discriminate (proj2 IH (conj eq_refl A)).
      * split; [intros [= ->]; destruct (proj1 IH eq_refl) as [-> A]; split; [reflexivity|right; exact A]|].
        intros [-> H]. inversion H as [? ? A|? ? A]; subst; [congruence|]. exact (proj2 IH (conj eq_refl A)).
    + split; [intros [= <-]; split; [reflexivity|left; exact Sx]|intros [-> _]; reflexivity].
Qed.
Lemma check_items_ok pc l : pc <> CNone -> Forall (fun x => subclass (class_of x) pc = true) l <-> check_items pc l = Ok l.
Proof.
  intros N. induction l as [|x l IH]; cbn [check_items]; [split; [reflexivity|constructor]|].
  destruct (cid_eqb pc CNone) eqn:E; [apply cid_eqb_eq in E; congruence|]. destruct (subclass (class_of x) pc) eqn:Sx.
  - split.
    + intros H. inversion H; subst. rewrite (proj1 IH) by assumption. reflexivity.
    + intros H. constructor; [exact Sx|]. destruct (check_items pc l) as [r|] eqn:C; [|discriminate]. cbn [bind] in H. apply IH. congruence.
  - split; [intros H; inversion H; congruence|discriminate].
Qed.
Lemma leaf_fun v l : leaf_list v l -> l = flat v.
Proof.
  assert (A : forall h v l, (height v <= h)%nat -> leaf_list v l -> l = flat v).
  { clear. induction h as [|h IH]; intros v l L H; inversion H as [lc pc items ls F|x N]; subst;
      try (destruct v as [| | | | | | | | | | | | | |lc pc items]; try reflexivity; exfalso; exact (N lc pc items eq_refl)).
    - cbn [height] in L. lia.
    - rewrite flat_list, flat_map_concat_map. f_equal.
      assert (B : forall x, In x items -> forall l, leaf_list x l -> l = flat x).
      { intros x I k. apply IH. pose proof (height_item lc pc items x I). lia. }
      clear - F B. induction F as [|x k items ls Hx F IH]; [reflexivity|]. cbn. f_equal; [apply (B x); [left; reflexivity|exact Hx]|].
      apply IH. intros y I. apply B. right. exact I. }
  apply (A (height v)). apply le_n.
Qed.
Lemma iterated_iff iv items : iterated iv items <-> exists its, iterate iv = Ok its /\ items = flat_map flat its.
Proof.
  split.
  - intros [lc pc' its l H|b|s].
    + apply leaf_fun in H. rewrite flat_list in H. exists its. split; [reflexivity|exact H].
    + eexists. split; [reflexivity|]. induction b; [reflexivity|]. cbn in *. f_equal. exact IHb.
    + eexists. split; [reflexivity|]. induction s; [reflexivity|]. cbn in *. f_equal. exact IHs.
  - intros (its & H & ->). destruct iv as [| |s|b| | | | | | | | | | |lc pc' its']; try discriminate H; injection H as <-.
    + assert (E : flat_map flat (map (fun c => VStr [c]) s) = map (fun c => VStr [c]) s) by (induction s as [|c s IH]; [reflexivity|]; cbn in *; f_equal; exact IH). rewrite E. constructor.
    + assert (E : flat_map flat (map VInt b) = map VInt b) by (induction b as [|c s IH]; [reflexivity|]; cbn in *; f_equal; exact IH). rewrite E. constructor.
    + rewrite <- (flat_list lc pc'). constructor. eapply leaf_flat, le_n.
Qed.
Lemma not_iterable_iff iv e : iterate iv = Err e <-> e = TypeError /\ not_iterable iv.
Proof. destruct iv; cbn; split; try discriminate; try (intros [= <-]; auto); intros [-> H]; try reflexivity; destruct H. Qed.
