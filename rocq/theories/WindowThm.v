(** Structures that say where they end are read from anywhere (C14). *)
From Coq Require Import ZArith List Bool String Lia.
From Verif Require Import Base BaseFacts PyText Ids PyVal Classes Interp Spec ClassFacts StructFacts FuelFacts Totality
  UnpackTotal SpecLayout SpecWindow WindowFacts.
Import ListNotations.
Open Scope string_scope.
Open Scope list_scope.
Open Scope Z_scope.

Lemma skipn_pre {A} (pre l : list A) : skipn (List.length pre) (pre ++ l) = l.
Proof. apply skipn_app_exact. reflexivity. Qed.

Section Here.
  Variables pre b suf : bytes.
  Notation B := (pre ++ b ++ suf).
  Notation o := (List.length pre).

  Lemma win_here w : (w <= List.length b)%nat -> win w b 0 B o.
  Proof.
    intros L. unfold win. rewrite skipn_pre. cbn [skipn]. rewrite app_length. split; [|lia].
    rewrite firstn_app. replace (w - List.length b)%nat with O by lia. now rewrite firstn_O, app_nil_r.
  Qed.
  Lemma ne_here : b <> [] -> B <> [].
  Proof. intros N E. apply app_eq_nil in E as [_ E]. apply app_eq_nil in E as [E _]. exact (N E). Qed.
  Lemma cut_here k : (0 < k <= List.length b)%nat -> near (firstn (0 + k) b) 0 (firstn (o + k) B) o.
  Proof.
    intros L. destruct (win_here k (proj2 L)) as (E & _). repeat split.
    - rewrite !skipn_firstn_add. exact E.
    - destruct b; [cbn in L; lia|]. destruct k; [lia|]. discriminate.
    - intros X. assert (Z : List.length (firstn (o + k) B) = O) by now rewrite X.
      rewrite firstn_length, !app_length in Z. lia.
  Qed.
End Here.

Lemma u16_len p b z : u16_at p b z -> (p + 2 <= List.length b)%nat.
Proof. intros (b1 & b2 & -> & <- & _). rewrite !app_length, be_encode_length. lia. Qed.
Lemma u16_decode p b z : u16_at p b z -> be_decode (firstn 2 (skipn p b)) = z /\ List.length (firstn 2 (skipn p b)) = 2%nat.
Proof.
  intros (b1 & b2 & -> & <- & R). rewrite skipn_app_exact by reflexivity.
  rewrite firstn_app_exact by now rewrite be_encode_length. split; [|apply be_encode_length].
  apply be_decode_encode. exact R.
Qed.
Lemma u16_read p b z er : u16_at p b z -> uint_unpack 2 er b p =
  recast ValueError UnpackException (recast StructError UnpackException
    match er with None => Ok (VUInt 2 er (VInt z)) | Some e => do m <- enum_call e z; Ok (VUInt 2 er m) end).
Proof.
  intros H. destruct (u16_decode p b z H) as [D L]. unfold uint_unpack, struct_unpack_u. rewrite slice_from. cbv zeta.
  rewrite L, D. reflexivity.
Qed.

(** Fields one after the other. *)
Lemma fields_app rec size f1 f2 : forall attrs b o,
  unpack_fields rec size (f1 ++ f2) attrs b o =
  (do r <- unpack_fields rec size f1 attrs b o; unpack_fields rec size f2 (fst r) b (snd r)).
Proof.
  induction f1 as [|[name cv] tl IH]; intros attrs b o; [reflexivity|]. cbn [app unpack_fields].
  destruct b as [|x t]; [apply IH|]. destruct (rec (deepcopy cv) (x :: t) o) as [a|]; [|reflexivity]. cbn [bind].
  destruct (size a) as [s|]; [|reflexivity]. cbn [bind]. apply IH.
Qed.

(** ** Structures of one size *)
Definition fixed_check (c : cid) : bool :=
  match openflow_layout c, fixed (class_attrs c) with
  | Some (_, t), Some w =>
      Nat.eqb t w && match kind c with KStruct => Nat.leb 1 w | KMatch01 => Nat.leb 4 w | _ => false end
  | _, _ => false
  end.
Lemma fixed_checked : forallb fixed_check fixed_structs = true.
Proof. vm_compute. reflexivity. Qed.

Lemma fixed_case n c attrs l t pre b suf : In c fixed_structs -> openflow_layout c = Some (l, t) -> (t <= List.length b)%nat ->
  eqf (unpack0 n (VObj c attrs) (pre ++ b ++ suf) (List.length pre)) (unpack0 n (VObj c attrs) b 0).
Proof.
  intros I L T. pose proof fixed_checked as F. rewrite forallb_forall in F. specialize (F c I). unfold fixed_check in F.
  rewrite L in F. destruct (fixed (class_attrs c)) as [w|] eqn:W; [|discriminate]. apply andb_prop in F as [F1 F2].
  apply Nat.eqb_eq in F1. subst w.
  assert (NB : b <> []).
  { intros ->. cbn in T. destruct (kind c); try discriminate; apply Nat.leb_le in F2; lia. }
  destruct n as [|n]; [left; reflexivity|]. rewrite !obj_kind_eq.
  destruct (fixed_fields n (class_attrs c) t attrs b 0 (pre ++ b ++ suf) (List.length pre) W (win_here _ _ _ _ T) NB
              (ne_here _ _ _ NB)) as (r & R1 & R2).
  apply eqf_eq. unfold unpack_obj. destruct (kind c); try discriminate.
  - unfold unpack_structure. rewrite R1, R2. destruct r; reflexivity.
  - unfold match01_unpack. rewrite R1, R2. destruct r as [at1|]; [|reflexivity]. cbn [bind fst].
    apply Nat.leb_le in F2.
    rewrite (uint_from 4 (Some E_FlowWildCards01) (pre ++ b ++ suf) (List.length pre) b 0); [reflexivity|].
    symmetry. apply (win_here pre b suf 4). lia.
Qed.

(** ** Structures with a length *)
Definition length_check (x : cid * nat) : bool :=
  let (c, p) := x in
  cid_eqb c Match04 ||
  (forallb (fun c' => leadf (class_attrs c')) (targets c) &&
   match kind c with
   | KLen q _ => Nat.eqb p q
   | KBucket => Nat.eqb p 0
   | KTyped _ | KAction04 | KSetField04 => Nat.eqb p 2
   | _ => false
   end).
Lemma length_checked : forallb length_check length_structs = true.
Proof. vm_compute. reflexivity. Qed.

Lemma length_case n c attrs p len pre b suf : In (c, p) length_structs -> c <> Match04 -> u16_at p b len -> 0 < len <= zlen b ->
  eqf (unpack0 n (VObj c attrs) (pre ++ b ++ suf) (List.length pre)) (unpack0 n (VObj c attrs) b 0).
Proof.
  intros I NM U L. pose proof length_checked as F. rewrite forallb_forall in F. specialize (F _ I). unfold length_check in F.
  destruct (cid_eqb c Match04) eqn:CM; [apply cid_eqb_eq in CM; contradiction|]. cbn [orb] in F.
  apply andb_prop in F as [F1 F2]. rewrite forallb_forall in F1.
  destruct n as [|n]; [left; reflexivity|]. rewrite !obj_kind_eq.
  pose proof (u16_len _ _ _ U) as Lb.
  assert (N : near (firstn (0 + Z.to_nat len) b) 0 (firstn (List.length pre + Z.to_nat len) (pre ++ b ++ suf)) (List.length pre)).
  { apply cut_here. unfold zlen in L. lia. }
  assert (St : forall c' at', In c' (targets c) ->
    eqf (unpack_structure (unpack0 n) (size0 n) c' at' (firstn (List.length pre + Z.to_nat len) (pre ++ b ++ suf)) (List.length pre))
        (unpack_structure (unpack0 n) (size0 n) c' at' (firstn (0 + Z.to_nat len) b) 0)).
  { intros c' at' T. apply near_structure; [apply F1, T|]. destruct N as (E & N1 & N2). repeat split; auto. }
  assert (Rd : forall er q, (q + 2 <= List.length b)%nat ->
    uint_unpack 2 er (pre ++ b ++ suf) (List.length pre + q) = uint_unpack 2 er b (0 + q)).
  { intros er q Q. apply uint_from. symmetry.
    apply (win_add 2 q b 0 (pre ++ b ++ suf) (List.length pre)). apply win_here. exact Q. }
  assert (Rl : uint_unpack 2 None b (0 + p) = Ok (VUInt 2 None (VInt len))) by (cbn [Nat.add]; rewrite (u16_read p b len None U); reflexivity).
  unfold unpack_obj. unfold targets in F1, St. destruct (kind c) as [| |q upd|f| | | | | | | | | | | | | | | | ] eqn:K; try discriminate F2;
    apply Nat.eqb_eq in F2; subst p.
  - unfold len_unpack. apply eqf_bind.
    { destruct q as [|[|[|[|[|q]]]]]; apply eqf_eq; try (apply Rd; lia).
      rewrite <- (Nat.add_0_r (List.length pre)) at 1. apply Rd. lia. }
    intros _ _ _. rewrite Rd by lia. rewrite Rl. cbn [bind num_of as_int generic_value]. apply St. left. reflexivity.
  - unfold typed_unpack. rewrite <- (Nat.add_0_r (List.length pre)) at 1. rewrite Rd by lia. cbn [Nat.add].
    apply eqf_bind; [apply eqf_refl|]. intros t _ _. apply eqf_bind; [apply eqf_refl|]. intros tz _ _.
    apply eqf_bind; [apply eqf_refl|]. intros c' Fc _. rewrite Rd by lia. cbn [Nat.add] in Rl |- *. rewrite Rl.
    cbn [bind num_of as_int generic_value]. apply St. pose proof (find_class_in f tz c c' K Fc) as T. unfold targets in T. rewrite K in T. exact T.
  - unfold action04_unpack. rewrite <- (Nat.add_0_r (List.length pre)) at 1. rewrite Rd by lia. cbn [Nat.add].
    apply eqf_bind; [apply eqf_refl|]. intros t _ _. rewrite Rd by lia. cbn [Nat.add] in Rl |- *. rewrite Rl. cbn [bind].
    apply eqf_bind; [apply eqf_refl|]. intros tz _ _. cbn [bind num_of as_int generic_value]. apply St, action_class_in.
  - unfold action04_unpack. rewrite <- (Nat.add_0_r (List.length pre)) at 1. rewrite Rd by lia. cbn [Nat.add].
    apply eqf_bind; [apply eqf_refl|]. intros t _ _. rewrite Rd by lia. cbn [Nat.add] in Rl |- *. rewrite Rl. cbn [bind].
    apply eqf_bind; [apply eqf_refl|]. intros tz _ _. cbn [bind num_of as_int generic_value]. apply St, action_class_in.
  - unfold bucket_unpack. rewrite <- (Nat.add_0_r (List.length pre)) at 1. rewrite Rd by lia. cbn [Nat.add] in Rl |- *. rewrite Rl.
    cbn [bind num_of as_int generic_value]. apply St. left. reflexivity.
Qed.

(** ** Matches of OpenFlow 1.3 *)
Lemma match_shape : class_attrs Match04 = [("match_type", VUInt 2 (Some E_MatchType04) VNone); ("length", VUInt 2 None VNone);
   ("oxm_match_fields", VList OxmMatchFields04 OxmTLV04 [])].
Proof. reflexivity. Qed.

Lemma match_win n attrs b1 o1 b2 o2 len : uint_unpack 2 None b2 (o2 + 2) = Ok (VUInt 2 None (VInt len)) -> 0 < len ->
  b1 <> [] -> b2 <> [] -> win (Nat.max 4 (Z.to_nat len)) b1 o1 b2 o2 ->
  eqf (unpack0 n (VObj Match04 attrs) b1 o1) (unpack0 n (VObj Match04 attrs) b2 o2).
Proof.
  intros U P N1 N2 T. destruct n as [|n]; [left; reflexivity|]. rewrite !obj_kind_eq. unfold unpack_obj.
  change (kind Match04) with KMatch04. cbv iota. unfold match04_unpack. rewrite match_shape. cbn [removelast].
  change (get_attr "oxm_match_fields" _) with (Some (VList OxmMatchFields04 OxmTLV04 [])). cbv iota.
  set (f1 := [("match_type", VUInt 2 (Some E_MatchType04) VNone); ("length", VUInt 2 None VNone)]).
  assert (T4 : win 4 b1 o1 b2 o2) by (apply (win_le (Nat.max 4 (Z.to_nat len))); [lia|exact T]).
  destruct (leaf_fields n f1 4 attrs b1 o1 b2 o2 eq_refl T4 N1 N2) as (r & R1 & R2).
  rewrite R1. pose proof R2 as R2'. rewrite R2. destruct r as [at1|e]; [|apply eqf_refl]. cbn [bind fst snd] in R2' |- *.
  assert (G : attr_num "length" at1 = Ok len).
  { subst f1. cbn [unpack_fields deepcopy] in R2'. destruct b2 as [|h2 t2]; [congruence|]. destruct n as [|n]; [discriminate|].
    peel R2'. pose proof (leaf_size (S n) (VUInt 2 (Some E_MatchType04) VNone) 2 _ _ _ eq_refl E) as Sx.
    rewrite Sx in R2'. cbn [bind] in R2'. change (Z.to_nat (Z.of_nat 2)) with 2%nat in R2'.
    change (unpack0 (S n) (VUInt 2 None VNone) (h2 :: t2) (o2 + 2)) with (uint_unpack 2 None (h2 :: t2) (o2 + 2)) in R2'.
    rewrite U in R2'. cbn [bind] in R2'. peel R2'. injection R2' as <- _.
    unfold attr_num, attr_or_error. rewrite get_set_same. reflexivity. }
  rewrite G. cbn [bind].
  eapply eqo_eqf; [|intros; cbn [fst]; apply eqf_refl]. apply shift_fields; [apply shift_all| |].
  - intros p [<-|[]]. vm_compute. reflexivity.
  - destruct (win_le _ (Z.to_nat len) _ _ _ _ (Nat.le_max_r _ _) T) as (E & A & B). repeat split; try lia.
    + rewrite !skipn_add, !skipn_firstn_add, E. reflexivity.
    + intros X. apply (f_equal (@List.length Z)) in X. rewrite firstn_length in X. rewrite skipn_length in A. cbn in X. lia.
    + intros X. apply (f_equal (@List.length Z)) in X. rewrite firstn_length in X. rewrite skipn_length in B. cbn in X. lia.
Qed.

Lemma match_case n attrs len pre b suf : u16_at 2 b len -> 0 < len <= zlen b ->
  eqf (unpack0 n (VObj Match04 attrs) (pre ++ b ++ suf) (List.length pre)) (unpack0 n (VObj Match04 attrs) b 0).
Proof.
  intros U L. pose proof (u16_len _ _ _ U) as Lb. unfold zlen in L.
  assert (NB : b <> []) by (intros ->; cbn in Lb; lia).
  apply (match_win n attrs _ _ b 0 len); auto using ne_here; try lia.
  - cbn [Nat.add]. rewrite (u16_read 2 b len None U). reflexivity.
  - destruct (win_here pre b suf (Nat.max 4 (Z.to_nat len))) as (E & A & B); [lia|]. repeat split; auto.
Qed.

(** ** Statistics requests that end with a match *)
Lemma request_shape c : c = FlowStatsRequest04 \/ c = AggregateStatsRequest04 -> kind c = KStruct /\
  exists f m, class_attrs c = f ++ [("match", VObj Match04 m)] /\ fixed f = Some 32%nat.
Proof.
  intros [-> | ->]; (split; [reflexivity|]); eexists (removelast (class_attrs FlowStatsRequest04)), _; split; vm_compute; reflexivity.
Qed.
Lemma deepcopy_obj c a : exists a', deepcopy (VObj c a) = VObj c a'.
Proof. eexists. reflexivity. Qed.

Lemma request_case n c attrs len pre b suf : c = FlowStatsRequest04 \/ c = AggregateStatsRequest04 -> u16_at 34 b len ->
  0 < len -> 32 + len <= zlen b ->
  eqf (unpack0 n (VObj c attrs) (pre ++ b ++ suf) (List.length pre)) (unpack0 n (VObj c attrs) b 0).
Proof.
  intros C U P L. destruct (request_shape c C) as (K & f & m & Cs & W). pose proof (u16_len _ _ _ U) as Lb. unfold zlen in L.
  assert (NB : b <> []) by (intros ->; cbn in Lb; lia). pose proof (ne_here pre b suf NB) as NB2.
  destruct n as [|n]; [left; reflexivity|]. rewrite !obj_kind_eq. unfold unpack_obj. rewrite K. unfold unpack_structure.
  rewrite Cs, !fields_app.
  destruct (fixed_fields n f 32 attrs b 0 (pre ++ b ++ suf) (List.length pre) W (win_here pre b suf 32 ltac:(lia)) NB NB2) as (r & R1 & R2).
  rewrite R1, R2. destruct r as [at1|e]; [|apply eqf_refl]. cbn [bind fst snd unpack_fields].
  destruct (deepcopy_obj Match04 m) as (m' & ->).
  assert (Q : eqf (unpack0 n (VObj Match04 m') (pre ++ b ++ suf) (List.length pre + 32)) (unpack0 n (VObj Match04 m') b (0 + 32))).
  { apply (match_win n m' _ _ b _ len); auto.
    - cbn [Nat.add]. rewrite (u16_read 34 b len None U). reflexivity.
    - destruct (win_add (Nat.max 4 (Z.to_nat len)) 32 b 0 (pre ++ b ++ suf) (List.length pre)) as (E & A & B).
      + apply win_here. lia.
      + repeat split; auto. }
  destruct (pre ++ b ++ suf) as [|h2 t2]; [congruence|]. destruct b as [|h1 t1]; [congruence|].
  destruct Q as [-> | [-> | ->] ]; [left; reflexivity|right; left; reflexivity|].
  destruct (unpack0 n (VObj Match04 m') (h1 :: t1) (0 + 32)) as [a|e]; [|apply eqf_refl]. cbn [bind].
  destruct (size0 n a) as [s|e]; apply eqf_refl.
Qed.

(** ** Actions of OpenFlow 1.0 *)
Definition action_check : bool :=
  forallb (fun c => match kind c with KAction01 => true | _ => false end &&
    forallb (fun x => let (ty, c') := (x : Z * cid) in
      match enum_call E_ActionType01 ty with
      | Ok m => match num_of (VUInt 2 (Some E_ActionType01) m) with
                | Ok tz => cid_eqb (action_class c action_classes_01 tz) c'
                | Err _ => false
                end
      | Err _ => false
      end &&
      match openflow_layout c', fixed (class_attrs c') with Some (_, t), Some w => Nat.eqb t w | _, _ => false end)
    action01_table) actions_01.
Lemma action_checked : action_check = true.
Proof. vm_compute. reflexivity. Qed.

Lemma action_case n c attrs ty c' l t pre b suf : In c actions_01 -> u16_at 0 b ty -> In (ty, c') action01_table ->
  openflow_layout c' = Some (l, t) -> (t <= List.length b)%nat ->
  eqf (unpack0 n (VObj c attrs) (pre ++ b ++ suf) (List.length pre)) (unpack0 n (VObj c attrs) b 0).
Proof.
  intros I U It Lt T. pose proof action_checked as F. unfold action_check in F. rewrite forallb_forall in F.
  specialize (F c I). apply andb_prop in F as [K F]. rewrite forallb_forall in F. specialize (F _ It). cbv beta iota in F.
  apply andb_prop in F as [F1 F2]. rewrite Lt in F2. destruct (fixed (class_attrs c')) as [w|] eqn:W; [|discriminate].
  apply Nat.eqb_eq in F2. subst w. pose proof (u16_len _ _ _ U) as Lb.
  assert (NB : b <> []) by (intros ->; cbn in Lb; lia).
  destruct n as [|n]; [left; reflexivity|]. rewrite !obj_kind_eq. unfold unpack_obj. destruct (kind c); try discriminate.
  unfold action01_unpack.
  assert (Rd : uint_unpack 2 (Some E_ActionType01) (pre ++ b ++ suf) (List.length pre) = uint_unpack 2 (Some E_ActionType01) b 0).
  { apply uint_from. symmetry. apply (win_here pre b suf 2). lia. }
  rewrite Rd, (u16_read 0 b ty _ U). destruct (enum_call E_ActionType01 ty) as [m|]; [|discriminate]. cbn [bind recast].
  destruct (num_of (VUInt 2 (Some E_ActionType01) m)) as [tz|]; [|discriminate]. cbn [bind].
  apply cid_eqb_eq in F1. rewrite F1. unfold unpack_structure.
  destruct (fixed_fields n (class_attrs c') t (set_attr "action_type" (VUInt 2 (Some E_ActionType01) m) attrs) b 0
              (pre ++ b ++ suf) (List.length pre) W (win_here _ _ _ _ T) NB (ne_here _ _ _ NB)) as (r & R1 & R2).
  rewrite R1, R2. destruct r; apply eqf_refl.
Qed.

(** ** OXM TLVs *)
Lemma oxm_shape : class_attrs OxmTLV04 = [("oxm_class", VUInt 2 (Some E_OxmClass04) VNone);
   ("oxm_field_and_mask", VUInt 1 None VNone); ("oxm_length", VUInt 1 None VNone)] ++ [("oxm_value", VBin VNone)].
Proof. reflexivity. Qed.
Lemma set_comm k k' x x' attrs : k <> k' -> get_attr k attrs <> None ->
  set_attr k x (set_attr k' x' attrs) = set_attr k' x' (set_attr k x attrs).
Proof.
  intros N. induction attrs as [|[a z] l IH]; cbn [get_attr set_attr]; [congruence|]. intros G.
  destruct (String.eqb_spec a k') as [->|N1]; cbn [set_attr].
  - destruct (String.eqb_spec k' k) as [->|N2]; [congruence|]. cbn [set_attr]. rewrite String.eqb_refl. reflexivity.
  - destruct (String.eqb_spec a k) as [->|N2]; cbn [set_attr].
    + destruct (String.eqb_spec k k'); [congruence|reflexivity].
    + destruct (String.eqb_spec a k'); [congruence|]. f_equal. apply IH, G.
Qed.
Lemma set_twice n x y attrs : set_attr n x (set_attr n y attrs) = set_attr n x attrs.
Proof.
  induction attrs as [|[a z] l IH]; cbn [set_attr]; [rewrite String.eqb_refl; reflexivity|].
  destruct (String.eqb_spec a n) as [->|N]; cbn [set_attr]; [now rewrite String.eqb_refl|].
  destruct (String.eqb_spec a n); [congruence|]. f_equal. exact IH.
Qed.

Lemma oxm_case n attrs x y z len value rest pre suf : List.length value = Z.to_nat len -> get_attr "oxm_value" attrs <> None ->
  let b := [x; y; z; len] ++ value ++ rest in
  eqf (unpack0 n (VObj OxmTLV04 attrs) (pre ++ b ++ suf) (List.length pre)) (unpack0 n (VObj OxmTLV04 attrs) b 0).
Proof.
  intros Lv Gv b. assert (Lb : (4 + Z.to_nat len <= List.length b)%nat) by (subst b; rewrite !app_length, Lv; cbn; lia).
  assert (NB : b <> []) by discriminate. pose proof (ne_here pre b suf NB) as NB2.
  assert (Bl : uint_unpack 1 None b 3 = Ok (VUInt 1 None (VInt len))).
  { unfold uint_unpack, struct_unpack_u. rewrite slice_from. subst b. cbn. reflexivity. }
  clearbody b. destruct n as [|[|n]]; [left; reflexivity| |].
  { right; left. rewrite obj_kind_eq. unfold unpack_obj. change (kind OxmTLV04) with KOxmTLV. cbv iota. unfold oxm_unpack.
    rewrite oxm_shape. cbn [app unpack_fields]. destruct b; [congruence|]. reflexivity. }
  rewrite !obj_kind_eq. unfold unpack_obj. change (kind OxmTLV04) with KOxmTLV. cbv iota. unfold oxm_unpack.
  rewrite oxm_shape, !fields_app.
  set (f1 := [("oxm_class", VUInt 2 (Some E_OxmClass04) VNone); ("oxm_field_and_mask", VUInt 1 None VNone); ("oxm_length", VUInt 1 None VNone)]).
  destruct (leaf_fields (S n) f1 4 attrs b 0 (pre ++ b ++ suf) (List.length pre) eq_refl (win_here pre b suf 4 ltac:(lia)) NB NB2) as (r & R1 & R2).
  rewrite R1, R2. destruct r as [at1|e]; [|apply eqf_refl]. cbn [bind fst snd] in R1 |- *.
  assert (G1 : get_attr "oxm_value" at1 <> None).
  { apply fields_keys in R1 as [_ R1]. rewrite R1; [exact Gv|]. subst f1. cbn. intuition discriminate. }
  assert (Gl : get_attr "oxm_length" at1 = Some (VUInt 1 None (VInt len))).
  { subst f1. cbn [unpack_fields deepcopy] in R1. destruct b as [|h2 t2]; [congruence|].
    peel R1. pose proof (leaf_size (S n) (VUInt 2 (Some E_OxmClass04) VNone) 2 _ _ _ eq_refl E) as Sx.
    rewrite Sx in R1. cbn [bind] in R1. change (Z.to_nat (Z.of_nat 2)) with 2%nat in R1.
    peel R1. pose proof (leaf_size (S n) (VUInt 1 None VNone) 1 _ _ _ eq_refl E0) as Sy.
    rewrite Sy in R1. cbn [bind] in R1. change (0 + 2 + Z.to_nat (Z.of_nat 1))%nat with 3%nat in R1.
    change (unpack0 (S n) (VUInt 1 None VNone) (h2 :: t2) 3) with (uint_unpack 1 None (h2 :: t2) 3) in R1.
    rewrite Bl in R1. cbn [bind] in R1. peel R1. injection R1 as <-. apply get_set_same. }
  clear R1 R2.
  assert (V : forall B o, B <> [] -> unpack_fields (unpack0 (S n)) (size0 (S n)) [("oxm_value", VBin VNone)] at1 B o =
    Ok (set_attr "oxm_value" (VBin (VBytes (skipn o B))) at1, (o + Z.to_nat (zlen (skipn o B)))%nat)).
  { intros B o NE. destruct B as [|h t]; [congruence|]. reflexivity. }
  rewrite !V by assumption. cbn [bind fst snd].
  assert (A : forall nm v, nm <> "oxm_value" -> attr_num nm (set_attr "oxm_value" v at1) = attr_num nm at1).
  { intros nm v N. unfold attr_num, attr_or_error. rewrite get_set_other by exact N. reflexivity. }
  rewrite !A by discriminate.
  apply eqf_bind; [apply eqf_refl|]. intros fm _ _. apply eqf_bind; [apply eqf_refl|]. intros cls _ _.
  apply eqf_bind; [apply eqf_refl|]. intros fld _ _.
  assert (Gn : attr_num "oxm_length" at1 = Ok len) by (unfold attr_num, attr_or_error; rewrite Gl; reflexivity).
  rewrite Gn. cbn [bind]. apply eqf_eq. do 2 f_equal.
  assert (S1 : slice (List.length pre + 4) (List.length pre + 4 + Z.to_nat len) (pre ++ b ++ suf) = slice (0 + 4) (0 + 4 + Z.to_nat len) b).
  { rewrite !slice_from. symmetry. apply (win_add (Z.to_nat len) 4 b 0 (pre ++ b ++ suf) (List.length pre)). apply win_here. lia. }
  rewrite S1. set (sl := slice _ _ b). clearbody sl.
  assert (D : forall v, set_attr "oxm_value" (VBytes sl)
      (set_attr "oxm_hasmask" (VInt (if Z.land fm 1 =? 1 then 1 else 0)) (set_attr "oxm_field" fld (set_attr "oxm_value" v at1))) =
    set_attr "oxm_value" (VBytes sl) (set_attr "oxm_hasmask" (VInt (if Z.land fm 1 =? 1 then 1 else 0)) (set_attr "oxm_field" fld at1))).
  { intros v. rewrite <- (set_comm "oxm_value" "oxm_field") by (try discriminate; exact G1).
    rewrite <- (set_comm "oxm_value" "oxm_hasmask"); [apply set_twice|discriminate|].
    rewrite get_set_other by discriminate. exact G1. }
  rewrite !D. reflexivity.
Qed.

(** ** All of them *)
Definition delimited_classes : list cid :=
  fixed_structs ++ map fst length_structs ++ actions_01 ++ [OxmTLV04; FlowStatsRequest04; AggregateStatsRequest04].
Lemma delimited_in c b : delimited c b -> In c delimited_classes.
Proof.
  unfold delimited_classes. intros D. rewrite !in_app_iff.
  destruct D as [c l t b I|c p b len I|c ty c' l t b I| |c b len [-> | ->] ]; auto.
  - right; left. apply (in_map fst) in I. exact I.
  - right; right; right. cbn. auto.
  - right; right; right. cbn. auto.
  - right; right; right. cbn. auto.
Qed.
Lemma delimited_objects : forallb (fun c => match new_instance c with
    | Some (VObj c' a) => cid_eqb c' c && (negb (cid_eqb c OxmTLV04) || match get_attr "oxm_value" a with Some _ => true | None => false end)
    | _ => false end) delimited_classes = true.
Proof. vm_compute. reflexivity. Qed.

Theorem window c inst b pre suf : new_instance c = Some inst -> delimited c b -> wf_bytes (pre ++ b ++ suf) ->
  unpack inst (pre ++ b ++ suf) (List.length pre) = unpack inst b 0.
Proof.
  intros NI D W. assert (Wb : wf_bytes b) by (apply wf_bytes_app in W as [_ W]; apply wf_bytes_app in W as [W _]; exact W).
  pose proof (instance_uok c inst NI) as Ui.
  apply eqf_use; [|apply uok_unpack; auto|apply uok_unpack; auto].
  pose proof delimited_objects as T. rewrite forallb_forall in T. specialize (T c (delimited_in c b D)). rewrite NI in T.
  destruct inst as [| | | | | | | | | | | | |c' a|]; try discriminate T. apply andb_prop in T as [T1 T2]. apply cid_eqb_eq in T1. subst c'.
  generalize FUEL. intros n. clear W Wb Ui.
  destruct D as [c l t b I L Le|c p b len I U Le|c ty c' l t b I U It L Le|x y z len value rest Lv|c b len C U P Le].
  - eapply fixed_case; eauto.
  - destruct (cid_eqb c Match04) eqn:M.
    + apply cid_eqb_eq in M. subst c. assert (p = 2%nat) as ->.
      { clear -I. cbn in I. repeat (destruct I as [I|I]; [try discriminate I; injection I; congruence|]). destruct I. }
      eapply match_case; eauto.
    + eapply length_case; eauto. intros ->. rewrite cid_eqb_refl in M. discriminate.
  - eapply action_case; eauto.
  - apply oxm_case; [exact Lv|]. rewrite cid_eqb_refl in T2. cbn [negb orb] in T2. destruct (get_attr "oxm_value" a); [discriminate|discriminate T2].
  - eapply request_case; eauto.
Qed.

(** ** Two offsets, all classes *)
Lemma instances_okv c inst : new_instance c = Some inst -> c <> StatsRequest01 -> okv inst = true.
Proof.
  assert (T : forall c, (match new_instance c with Some v => cid_eqb c StatsRequest01 || okv v | None => true end) = true).
  { apply all_classes. vm_compute. reflexivity. }
  intros H N. specialize (T c). rewrite H in T. apply orb_prop in T as [T|T]; [apply cid_eqb_eq in T; contradiction|exact T].
Qed.
Theorem two_offsets c inst pre pre' b : new_instance c = Some inst -> c <> StatsRequest01 -> pre <> [] -> pre' <> [] ->
  wf_bytes (pre ++ b) -> wf_bytes (pre' ++ b) ->
  unpack inst (pre ++ b) (List.length pre) = unpack inst (pre' ++ b) (List.length pre').
Proof.
  intros NI N P P' W W'. apply shift_unpack; try assumption; [exact (instance_uok c inst NI)|exact (instances_okv c inst NI N)|].
  repeat split.
  - now rewrite !skipn_pre.
  - destruct pre; [congruence|discriminate].
  - destruct pre'; [congruence|discriminate].
  - destruct pre; [congruence|cbn; lia].
  - destruct pre'; [congruence|cbn; lia].
Qed.
