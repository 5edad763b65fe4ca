(** Sender and receiver agree: data, lists and bodies of statistics. *)
From Coq Require Import ZArith List Bool String Lia.
From Verif Require Import Base PyText Ids PyVal Classes Interp Utils Spec SpecMsg SpecBasic SpecMutation SpecLayout SpecSize SpecDecode SpecWire
  ClassFacts BaseFacts IntFacts StructFacts DispatchFacts FuelFacts Totality MutationFacts MutationFacts2 MutationFacts3 LayoutFacts SizeFacts SizeFacts2 SizeThm
  DecodeFacts DecodeFacts2 DecodeFacts3 WireFacts WireThm.
Import ListNotations.
Open Scope string_scope.
Open Scope list_scope.
Open Scope Z_scope.

(** ** Structures of fixed size *)
Lemma struct_agrees c a attrs bs l t attrs' : built (VObj c attrs) = true -> regular (VObj c attrs) = true -> openflow_layout c = Some (l, t) ->
  (forall l', l <> ("header", 8%nat) :: l') -> pack (VObj c attrs) = Ok bs ->
  (forall name at_ w, placed 0 l name at_ w -> exists d v, get_attr name (class_attrs c) = Some d /\ get_attr name attrs' = Some v /\ reads d (slice at_ (at_ + w) bs) v) ->
  agrees (VObj c a) (VObj c attrs) (VObj c attrs').
Proof.
  intros B R L Nh P F. apply ag_struct with attrs l t; [reflexivity|exact L|]. intros nm at_ w Pl Nc.
  destruct (F nm at_ w Pl) as (d & y & Gd & Gy & Ry). destruct (layout c l t attrs bs L B R P) as (_ & _ & La). destruct (La nm at_ w Pl) as (d' & Gd' & x & Gx & Px).
  rewrite Gd in Gd'. injection Gd' as <-. cbn [fst snd] in *. rewrite Nc in Px. destruct (layout_attr _ _ _ _ _ _ _ L Pl) as (cv & Ic & Wc). rewrite (class_get _ _ _ Ic) in Gd. injection Gd as <-.
  exists cv, x, y. split; [apply class_get, Ic|]. split; [exact Gx|]. split; [exact Gy|].
  destruct Px as [Px|(-> & _)]; [eapply field_agrees; eassumption|]. exfalso.
  assert (T : forall c, match openflow_layout c with Some (l, _) => match l with ("header", 8%nat) :: _ => true | _ => negb (existsb (fun p => String.eqb (fst p) "header") l) end | _ => true end = true)
    by (clear; apply all_classes; vm_compute; reflexivity).
  specialize (T c). rewrite L in T. destruct (placed_in _ _ _ _ _ Pl) as (J & _).
  assert (X : existsb (fun p : string * nat => String.eqb (fst p) "header") l = true) by (apply existsb_exists; exists ("header", w); split; [exact J|reflexivity]).
  rewrite X in T. cbn [negb] in T. destruct l as [|[n k] l]; [discriminate|].
  assert (Nm : n = "header" /\ k = 8%nat).
  { destruct (string_dec n "header") as [->|Nn]; [|exfalso].
    - split; [reflexivity|]. do 8 (destruct k as [|k]; [discriminate|]). destruct k; [reflexivity|discriminate].
    - clear - T Nn. repeat (destruct n as [|[[] [] [] [] [] [] [] []] n]; try discriminate; try congruence). }
  destruct Nm as [-> ->]. exact (Nh l eq_refl).
Qed.

(** ** Lists of records *)
Lemma concat_slice (parts : list bytes) t i p : (forall x, In x parts -> List.length x = t) -> nth_error parts i = Some p ->
  forall a w, (a + w <= t)%nat -> slice (i * t + a) (i * t + a + w) (List.concat parts) = slice a (a + w) p.
Proof.
  revert i. induction parts as [|x parts IH]; intros i H N a w Ha; [destruct i; discriminate|]. cbn [List.concat]. pose proof (H x (or_introl eq_refl)) as Lx.
  destruct i as [|i].
  - cbn [nth_error] in N. injection N as <-. cbn [Nat.mul Nat.add]. unfold slice. rewrite firstn_app. replace (a + w - List.length x)%nat with O by lia. rewrite firstn_O, app_nil_r. reflexivity.
  - cbn [nth_error] in N. rewrite <- (IH i (fun y J => H y (or_intror J)) N a w Ha).
    replace (S i * t + a)%nat with (t + (i * t + a))%nat by lia. rewrite <- Nat.add_assoc. rewrite <- slice_skip. f_equal.
    rewrite <- Lx. apply skipn_app_exact. reflexivity.
Qed.
Lemma parts_len (parts : list bytes) t : (forall x, In x parts -> List.length x = t) -> List.length (List.concat parts) = (List.length parts * t)%nat.
Proof. induction parts as [|x parts IH]; intros H; [reflexivity|]. cbn [List.concat List.length]. rewrite app_length, (H x (or_introl eq_refl)), (IH (fun y J => H y (or_intror J))). lia. Qed.
Lemma nth_Forall2 {A B} (P : A -> B -> Prop) : forall l l', List.length l = List.length l' -> (forall i x y, nth_error l i = Some x -> nth_error l' i = Some y -> P x y) -> Forall2 P l l'.
Proof.
  induction l as [|x l IH]; intros [|y l'] L H; try discriminate; constructor; [apply (H O); reflexivity|]. apply IH; [injection L as L; exact L|]. intros i u v. apply (H (S i)).
Qed.
Lemma Forall2_nth {A B} (P : A -> B -> Prop) l l' : Forall2 P l l' -> forall i x, nth_error l i = Some x -> exists y, nth_error l' i = Some y /\ P x y.
Proof. induction 1 as [|x y l l' H F IH]; intros [|i] z E; try discriminate; [injection E as <-; exists y; split; [reflexivity|exact H]|apply IH, E]. Qed.
Lemma Forall2_len {A B} (P : A -> B -> Prop) l l' : Forall2 P l l' -> List.length l = List.length l'.
Proof. induction 1; cbn; congruence. Qed.

Lemma record_layout c l t : In c fixed_records -> openflow_layout c = Some (l, t) -> List.length l = List.length (class_attrs c) /\ (0 < t)%nat /\ (forall l', l <> ("header", 8%nat) :: l').
Proof.
  assert (T : forallb (fun c => match openflow_layout c with Some (l, t) => Nat.eqb (List.length l) (List.length (class_attrs c)) && Nat.ltb 0 t && match l with ("header", _) :: _ => false | _ => true end | None => true end) fixed_records = true)
    by (vm_compute; reflexivity).
  intros I L. rewrite forallb_forall in T. specialize (T c I). rewrite L in T. apply andb_prop in T as [T T3]. apply andb_prop in T as [T1 T2]. apply Nat.eqb_eq in T1. apply Nat.ltb_lt in T2.
  split; [exact T1|]. split; [exact T2|]. intros l' ->. discriminate T3.
Qed.
Lemma records_core c a leaves items b off l t : In c fixed_records -> openflow_layout c = Some (l, t) ->
  (forall x, In x leaves -> built x = true /\ regular x = true /\ exists attrs, x = VObj c attrs) -> encodings leaves (skipn off b) -> (off <= List.length b)%nat ->
  (List.length b <= off + List.length items * t)%nat -> items = [] \/ (off + (List.length items - 1) * t < List.length b)%nat ->
  (forall i x, nth_error items i = Some x -> exists attrs, x = VObj c attrs /\ forall name at_ w, placed 0 l name at_ w -> field_at c attrs b name (off + i * t + at_) w) ->
  Forall2 (agrees (VObj c a)) leaves items.
Proof.
  intros I L A (parts & F & E) Lo L1 L2 N. destruct (record_layout c l t I L) as (Ll & Tp & Nh).
  assert (Lp : forall x, In x parts -> List.length x = t).
  { intros p J. apply In_nth_error in J as (i & Ni). assert (X : exists x, nth_error leaves i = Some x /\ pack x = Ok p).
    { clear - F Ni. revert i Ni. induction F as [|x y l l' H F IH]; intros [|i] N; try discriminate; [injection N as <-; exists x; split; [reflexivity|exact H]|apply IH, N]. }
    destruct X as (x & Nx & Px). destruct (A x (nth_error_In _ _ Nx)) as (Bx & Rx & at1 & ->). apply (layout c l t at1 p L Bx Rx Px), Ll. }
  pose proof (parts_len parts t Lp) as Lc. rewrite <- E, skipn_length in Lc. pose proof (Forall2_len _ _ _ F) as Lf.
  assert (Ln : List.length leaves = List.length items).
  { rewrite Lf. destruct L2 as [->|L2]; [cbn in L1 |- *; nia|]. nia. }
  apply nth_Forall2; [exact Ln|]. intros i x y Nx Ny. destruct (N i y Ny) as (at2 & -> & Fd). destruct (A x (nth_error_In _ _ Nx)) as (Bx & Rx & at1 & ->).
  destruct (Forall2_nth _ _ _ F i _ Nx) as (p & Np & Pp). eapply struct_agrees; [exact Bx|exact Rx|exact L|exact Nh|exact Pp|]. intros name at_ w Pl.
  destruct (Fd name at_ w Pl) as (d & v & Gd & Gv & Rv). exists d, v. split; [exact Gd|]. split; [exact Gv|].
  assert (Hw : (at_ + w <= t)%nat).
  { pose proof (layouts_ok c) as T. rewrite L in T. apply andb_prop in T as [T _]. apply andb_prop in T as [_ T]. apply Nat.eqb_eq in T. subst t.
    assert (G : forall l o, placed o l name at_ w -> (at_ + w <= o + list_sum (map snd l))%nat).
    { clear. induction l as [|[n k] l IH]; intros o Pl; [destruct Pl|]. cbn [placed] in Pl. cbn [map snd list_sum fold_right]. destruct Pl as [(_ & -> & ->)|Pl]; [lia|]. apply IH in Pl. unfold list_sum in *. lia. }
    apply (G l O Pl). }
  rewrite <- (concat_slice parts t i p Lp Np at_ w Hw), <- E, slice_skip. replace (off + (i * t + at_))%nat with (off + i * t + at_)%nat by lia.
  replace (off + (i * t + at_ + w))%nat with (off + i * t + at_ + w)%nat by lia. exact Rv.
Qed.
Lemma records_agree c a lc leaves items b off : In c fixed_records -> wf_bytes b ->
  (forall x, In x leaves -> built x = true /\ regular x = true /\ exists attrs, x = VObj c attrs) -> encodings leaves (skipn off b) -> (off <= List.length b)%nat ->
  unpack (VList lc c []) b off = Ok (VList lc c items) -> Forall2 (agrees (VObj c a)) leaves items.
Proof.
  intros I W A E Lo U. destruct (openflow_layout c) as [[l t]|] eqn:L.
  2:{ exfalso. pose proof records_ok as T. rewrite forallb_forall in T. specialize (T c I). unfold record_ok in T. rewrite L in T. destruct (new_instance c) as [[]|]; discriminate T. }
  destruct (list_fields c lc b off items l t I W U L) as (L1 & L2 & N). eapply records_core; eassumption.
Qed.

(** ** What follows the fixed fields *)
Lemma rest_part c attrs bs l k A nm cv : openflow_layout c = Some (l, k) -> built (VObj c attrs) = true -> regular (VObj c attrs) = true -> pack (VObj c attrs) = Ok bs ->
  ~ is_filled c -> class_attrs c = A ++ [(nm, cv)] -> List.length A = List.length l -> computed c nm = false -> nm <> "header" ->
  exists iv, get_attr nm attrs = Some iv /\ carried cv iv (skipn k bs) /\ (k <= List.length bs)%nat.
Proof.
  intros L B R P Nf Ca La Nc Nh. pose proof (layouts_ok c) as T. rewrite L in T. apply andb_prop in T as [T T3]. apply andb_prop in T as [T1 T2]. apply Nat.eqb_eq in T2.
  destruct (in_order c attrs bs B P) as (parts & j & -> & [Hk| ->] & F); [contradiction|]. cbn [repeat]. rewrite app_nil_r.
  pose proof Ca as Ca'. rewrite Ca in F, T1. apply Forall2_app_inv_l in F as (pA & pr & FA & Fr & ->). inversion Fr as [|? pd ? ? Pd Fn]; subst. inversion Fn; subst.
  assert (T1' : layout_ok l A = true).
  { clear - T1 La. revert A T1 La. induction l as [|[n w] l IH]; intros A T La; [reflexivity|]. destruct A as [|[m c] A]; [discriminate|]. cbn [app layout_ok] in T |- *.
    apply andb_prop in T as [T T3]. rewrite T. cbn [andb]. apply IH; [exact T3|injection La as La; exact La]. }
  destruct (placed_parts c attrs l A pA [] [] T1' (fun p J => eq_rect_r (fun q => In p q) (in_or_app _ _ _ (or_introl J)) Ca')
    (fun name cv part w I W Q => field_part c attrs name cv part w B R I W Q) FA) as (_ & S2 & _). specialize (S2 (eq_sym La)).
  destruct Pd as (iv & G & Q). cbn [fst snd] in *. rewrite Nc in Q. destruct Q as [Q|(-> & _)]; [|congruence]. exists iv. split; [exact G|].
  rewrite concat_app. cbn [List.concat]. rewrite app_nil_r, <- S2. split; [rewrite skipn_app_exact by reflexivity; exact Q|]. rewrite app_length. lia.
Qed.

Lemma message_unfilled v t c : In (t, c) (openflow_types v) -> ~ is_filled c.
Proof.
  intros I [->|F]; [destruct v; cbn in I; repeat (destruct I as [I|I]; [discriminate I|]); destruct I|].
  assert (T : forallb (fun p : Z * cid => negb (subclass (snd p) ActionSetField04)) (openflow_types v) = true) by (destruct v; vm_compute; reflexivity).
  rewrite forallb_forall in T. specialize (T _ I). cbn [snd] in T. rewrite F in T. discriminate.
Qed.
Lemma message_len c l k : openflow_layout c = Some (l, k) -> k = list_sum (map snd l).
Proof. intros L. pose proof (layouts_ok c) as T. rewrite L in T. apply andb_prop in T as [T _]. apply andb_prop in T as [_ T]. apply Nat.eqb_eq, T. Qed.

Lemma same_data v t x c attrs bs attrs' l k A nm d : In (t, c) (openflow_types v) -> built (VObj c attrs) = true -> regular (VObj c attrs) = true -> octets (VObj c attrs) = true ->
  headed attrs v t x -> pack (VObj c attrs) = Ok bs -> (8 < List.length bs)%nat -> unpack_packet bs = Ok (VObj c attrs') -> openflow_layout c = Some (l, k) ->
  class_attrs c = A ++ [(nm, VBin d)] -> List.length A = List.length l -> nm <> "body" ->
  exists sent data, get_attr nm attrs = Some sent /\ carried (VBin d) sent data /\ get_attr nm attrs' = Some (VBin (VBytes data)).
Proof.
  intros I B R O H P Lb U L Ca La Nb. pose proof (pack_bytes _ _ O P) as W. destruct (types_layout _ _ _ I) as (l' & k' & L'). rewrite L in L'. injection L' as -> ->.
  assert (Nc : computed c nm = false).
  { destruct (computed c nm) eqn:C; [|reflexivity]. assert (J : In (nm, VBin d) (class_attrs c)) by (rewrite Ca; apply in_or_app; right; left; reflexivity).
    destruct (computed_uint c nm C (in_class_attr _ _ _ J)) as (? & ? & ? & X). unfold lookup in X. rewrite (class_get _ _ _ J) in X. discriminate. }
  assert (Nh : nm <> "header").
  { intros ->. pose proof (header_table_ok c) as T. unfold header_table in T. assert (J : In ("header", VBin d) (class_attrs c)) by (rewrite Ca; apply in_or_app; right; left; reflexivity).
    rewrite (class_get _ _ _ J) in T. discriminate. }
  destruct (rest_part c attrs bs _ _ A nm _ L B R P (message_unfilled _ _ _ I) Ca La Nc Nh) as (sent & G & C & _). exists sent, (skipn k' bs). split; [exact G|]. split; [exact C|].
  rewrite (message_rest bs c attrs' _ _ A nm d W Lb U L (ex_intro _ l' eq_refl) Ca La Nb). rewrite <- (message_len _ _ _ L). reflexivity.
Qed.

(** ** Statistics *)
Definition stats_version (f : stats_family) : of_version := match f with FStatsRequest | FStatsReply => V01 | _ => V04 end.
Definition stats_code (f : stats_family) : Z := match f with FStatsRequest => 16 | FStatsReply => 17 | FMultipartRequest => 18 | FMultipartReply => 19 end.
Lemma stats_in f : In (stats_code f, stats_class f) (openflow_types (stats_version f)).
Proof. destruct f; cbn; tauto. Qed.
Lemma raise_unpack inst b o x : unpack0 99 inst b o = Ok x -> unpack inst b o = Ok x.
Proof. intros U. unfold unpack. rewrite FUEL_S. destruct (unpack0_step 99 inst b o) as [X|X]; rewrite ?X; [congruence|exact U]. Qed.

Lemma stats_sent f attrs bs x t : built (VObj (stats_class f) attrs) = true -> regular (VObj (stats_class f) attrs) = true ->
  headed attrs (stats_version f) (stats_code f) x -> holds attrs (stats_type_name f) t -> pack (VObj (stats_class f) attrs) = Ok bs ->
  (8 < List.length bs)%nat /\ (stats_at f <= List.length bs)%nat /\ big_endian 2 t (slice 8 10 bs) /\
  exists body, get_attr "body" attrs = Some body /\ carried (VBin VNone) body (skipn (stats_at f) bs).
Proof.
  intros B R H Ht P. destruct (body_is f) as (L & Mf & La & Ls & Pl).
  assert (Lc : computed (stats_class f) (stats_type_name f) = false) by (destruct f; reflexivity).
  destruct (layout _ _ _ attrs bs L B R P) as (Lt & _ & Lay).
  assert (Q : exists A, class_attrs (stats_class f) = A ++ [("body", VBin VNone)] /\ List.length A = List.length (("header", 8%nat) :: stats_layout f)).
  { exists (removelast (class_attrs (stats_class f))). destruct f; split; reflexivity. }
  destruct Q as (A & Ca & LA).
  destruct (rest_part _ attrs bs _ _ A "body" _ L B R P (message_unfilled _ _ _ (stats_in f)) Ca LA ltac:(destruct f; reflexivity) ltac:(discriminate)) as (body & Gb & Cb & _).
  split; [destruct f; cbn in Lt; lia|]. split; [exact Lt|]. split; [|exists body; auto].
  destruct (Lay (stats_type_name f) 8%nat 2%nat ltac:(right; exact Pl)) as (cv & Gc & iv & Gi & Q). cbn [fst snd] in *. rewrite Lc in Q.
  destruct Ht as (iv' & Gi' & V). rewrite Gi in Gi'. injection Gi' as <-. destruct Q as [Q|(X & _)]; [|destruct f; discriminate X].
  assert (U : exists er d, cv = VUInt 2 er d) by (clear - Gc; destruct f; cbn in Gc; injection Gc as <-; eauto). destruct U as (er & d & ->).
  inversion Q as [? ? ? ? z' ? St Bz| | | | | | | | | | | | |]; subst. assert (N : iv <> VNone) by (intros ->; inversion V).
  replace t with z'; [exact Bz|]. symmetry. eapply ConstructThm4.stands_int; [exact V|exact N|]. destruct iv; congruence.
Qed.

Lemma same_records f attrs bs x t c attrs' lc pc items leaves : built (VObj (stats_class f) attrs) = true -> regular (VObj (stats_class f) attrs) = true -> octets (VObj (stats_class f) attrs) = true ->
  headed attrs (stats_version f) (stats_code f) x -> holds attrs (stats_type_name f) t -> In (t, BList c) (stats_forms f) -> In c fixed_records ->
  get_attr "body" attrs = Some (VList lc pc items) -> leaf_list (VList lc pc items) leaves -> (forall y, In y leaves -> exists a, y = VObj c a) ->
  pack (VObj (stats_class f) attrs) = Ok bs -> unpack_packet bs = Ok (VObj (stats_class f) attrs') ->
  exists got, get_attr "body" attrs' = Some (VList CFixedTypeList c got) /\ Forall2 (agrees (VObj c [])) leaves got.
Proof.
  intros B R O H Ht If Ic Gb Ll Cl P U. pose proof (pack_bytes _ _ O P) as W. destruct (stats_sent f attrs bs x t B R H Ht P) as (Lb & Ls & Bt & body & Gb' & Cb).
  rewrite Gb in Gb'. injection Gb' as <-. destruct (stats_body f bs attrs' t _ W Lb U Bt If) as (inst & got & Fi & Uy & Gg). cbn [MsgBody.form_instance] in Fi. injection Fi as <-.
  apply raise_unpack in Uy. assert (X : exists its, got = VList CFixedTypeList c its).
  { pose proof Uy as Y. rewrite StructThm.unpack_list in Y. apply bind_ok in Y as (li & _ & Y). injection Y as <-. eauto. }
  destruct X as (its & ->). exists its. split; [exact Gg|].
  pose proof (leaf_unique _ _ _ (le_n _) Ll) as El. subst leaves.
  apply records_agree with (lc := CFixedTypeList) (b := skipn (stats_at f) bs) (off := 0%nat); [exact Ic|apply wf_bytes_skipn, W| | |lia|exact Uy].
  - intros y J. pose proof B as B0. apply good_built in B0. destruct (good_get _ attrs _ _ B0 Gb) as (Bl & _).
    assert (Rl : regular (VList lc pc items) = true).
    { cbn [regular] in R. apply andb_prop in R as [_ R]. rewrite forallb_forall in R. specialize (R _ (get_attr_In _ _ _ Gb)). cbn [snd] in R. apply andb_prop in R as [_ R]. exact R. }
    split; [eapply built_flat; [apply le_n|exact Bl|exact J]|]. split; [|apply Cl, J].
    eapply (prop_flat regular); [|apply le_n|exact Rl|exact J]. clear. intros lc pc items H. cbn [regular] in H. apply andb_prop in H as [_ H]. exact H.
  - cbn [skipn]. inversion Cb as [| | | | | |? ? ? E|? ? E|? ? ? E|? ? ? ? l' ? Ll' E| | | |]; subst; try discriminate E.
    + cbn [or_default] in E. apply pack_enc, E.
    + rewrite <- (leaf_unique _ _ _ (le_n _) Ll'). exact E.
Qed.

Lemma same_body_struct f attrs bs x t c attrs' a : built (VObj (stats_class f) attrs) = true -> regular (VObj (stats_class f) attrs) = true -> octets (VObj (stats_class f) attrs) = true ->
  headed attrs (stats_version f) (stats_code f) x -> holds attrs (stats_type_name f) t -> In (t, BStruct c) (stats_forms f) ->
  get_attr "body" attrs = Some (VObj c a) -> pack (VObj (stats_class f) attrs) = Ok bs -> unpack_packet bs = Ok (VObj (stats_class f) attrs') ->
  exists a', get_attr "body" attrs' = Some (VObj c a') /\ agrees (VObj c []) (VObj c a) (VObj c a').
Proof.
  intros B R O H Ht If Gb P U. pose proof (pack_bytes _ _ O P) as W. destruct (stats_sent f attrs bs x t B R H Ht P) as (Lb & Ls & Bt & body & Gb' & Cb).
  rewrite Gb in Gb'. injection Gb' as <-. assert (Pb : pack (VObj c a) = Ok (skipn (stats_at f) bs)) by (inversion Cb as [| | | | | |? ? ? E|? ? E|? ? ? E| | | | |]; subst; try discriminate E; exact E).
  assert (T : forallb (fun q => match snd q with BStruct c => match openflow_layout c with Some (l, t) => Nat.ltb 0 t && match l with ("header", _) :: _ => false | _ => true end | _ => false end | _ => true end) (stats_forms f) = true)
    by (destruct f; vm_compute; reflexivity).
  rewrite forallb_forall in T. specialize (T _ If). cbn [snd] in T. destruct (openflow_layout c) as [[l k]|] eqn:L; [|discriminate]. apply andb_prop in T as [T1 T2]. apply Nat.ltb_lt in T1.
  pose proof B as B0. apply good_built in B0. destruct (good_get _ attrs _ _ B0 Gb) as (Bl & _).
  assert (Rl : regular (VObj c a) = true).
  { cbn [regular] in R. apply andb_prop in R as [_ R]. rewrite forallb_forall in R. specialize (R _ (get_attr_In _ _ _ Gb)). cbn [snd] in R. apply andb_prop in R as [_ R]. exact R. }
  destruct (layout c l k a _ L Bl Rl Pb) as (Lk & _). rewrite skipn_length in Lk.
  destruct (stats_struct f bs attrs' t c W ltac:(lia) U Bt If) as (a' & Ga & Fd). exists a'. split; [exact Ga|].
  eapply struct_agrees; [exact Bl|exact Rl|exact L| |exact Pb|].
  - intros l' ->. discriminate T2.
  - intros name at_ w Pl. destruct (Fd l k name at_ w L Pl) as (d & v & Gd & Gv & Rv). exists d, v. split; [exact Gd|]. split; [exact Gv|]. rewrite slice_skip. rewrite Nat.add_assoc. exact Rv.
Qed.

Lemma same_body_raw f attrs bs x t attrs' : built (VObj (stats_class f) attrs) = true -> regular (VObj (stats_class f) attrs) = true -> octets (VObj (stats_class f) attrs) = true ->
  headed attrs (stats_version f) (stats_code f) x -> holds attrs (stats_type_name f) t -> In (t, BRaw) (stats_forms f) ->
  pack (VObj (stats_class f) attrs) = Ok bs -> unpack_packet bs = Ok (VObj (stats_class f) attrs') ->
  exists sent data, get_attr "body" attrs = Some sent /\ carried (VBin VNone) sent data /\ get_attr "body" attrs' = Some (VBin (VBytes data)).
Proof.
  intros B R O H Ht If P U. pose proof (pack_bytes _ _ O P) as W. destruct (stats_sent f attrs bs x t B R H Ht P) as (Lb & Ls & Bt & body & Gb & Cb).
  exists body, (skipn (stats_at f) bs). split; [exact Gb|]. split; [exact Cb|]. eapply stats_raw; eassumption.
Qed.

(** ** The ports of a switch *)
Lemma flat_parts lc pc items : built (VList lc pc items) = true -> regular (VList lc pc items) = true -> forall y, In y (flat (VList lc pc items)) -> built y = true /\ regular y = true.
Proof.
  intros Bl Rl y J. split; [eapply built_flat; [apply le_n|exact Bl|exact J]|].
  eapply (prop_flat regular); [|apply le_n|exact Rl|exact J]. clear. intros lc pc items H. cbn [regular] in H. apply andb_prop in H as [_ H]. exact H.
Qed.
Lemma same_ports x attrs bs attrs' lc pc items leaves : built (VObj FeaturesReply01 attrs) = true -> regular (VObj FeaturesReply01 attrs) = true -> octets (VObj FeaturesReply01 attrs) = true ->
  headed attrs V01 6 x -> get_attr "ports" attrs = Some (VList lc pc items) -> leaf_list (VList lc pc items) leaves -> (forall y, In y leaves -> exists a, y = VObj PhyPort01 a) ->
  pack (VObj FeaturesReply01 attrs) = Ok bs -> unpack_packet bs = Ok (VObj FeaturesReply01 attrs') ->
  exists got, get_attr "ports" attrs' = Some (VList CFixedTypeList PhyPort01 got) /\ Forall2 (agrees (VObj PhyPort01 [])) leaves got.
Proof.
  intros B R O H Gb Ll Cl P U. pose proof (pack_bytes _ _ O P) as W.
  destruct (openflow_layout FeaturesReply01) as [[l k]|] eqn:L; [|discriminate L]. assert (k = 32%nat) as -> by (injection L as _ <-; reflexivity).
  destruct (rest_part FeaturesReply01 attrs bs l 32 (removelast (class_attrs FeaturesReply01)) "ports" (VList ListOfPhyPorts01 PhyPort01 []) L B R P
    (message_unfilled V01 6 _ ltac:(cbn; tauto)) ltac:(reflexivity) ltac:(injection L as <-; reflexivity) ltac:(reflexivity) ltac:(discriminate)) as (iv & Gi & C & Lk).
  rewrite Gb in Gi. injection Gi as <-. destruct (ports_decoded bs FeaturesReply01 attrs' W ltac:(lia) U ltac:(cbn; tauto)) as (got & Gg & L1 & L2 & N).
  exists got. split; [exact Gg|]. pose proof (leaf_unique _ _ _ (le_n _) Ll) as El. subst leaves.
  destruct (openflow_layout PhyPort01) as [[lp tp]|] eqn:Lp; [|discriminate Lp]. assert (tp = 48%nat) as -> by (injection Lp as _ <-; reflexivity).
  apply (records_core PhyPort01 [] _ got bs 32 lp 48); [cbn; tauto|exact Lp| | |exact Lk|exact L1|exact L2|].
  - intros y J. pose proof B as B0. apply good_built in B0. destruct (good_get _ attrs _ _ B0 Gb) as (Bl & _).
    assert (Rl : regular (VList lc pc items) = true).
    { cbn [regular] in R. apply andb_prop in R as [_ R]. rewrite forallb_forall in R. specialize (R _ (get_attr_In _ _ _ Gb)). cbn [snd] in R. apply andb_prop in R as [_ R]. exact R. }
    destruct (flat_parts lc pc items Bl Rl y J) as (X1 & X2). split; [exact X1|]. split; [exact X2|]. apply Cl, J.
  - inversion C as [| | | | | | | | | | |? ? ? ? ? ? l' ? Ll' E|? ? ? ? E|]; subst.
    + rewrite <- (leaf_unique _ _ _ (le_n _) Ll'). exact E.
    + destruct E as [E|[E|E] ]; discriminate E.
  - intros i y Ny. destruct (N i y Ny) as (a & -> & F). exists a. split; [reflexivity|]. intros name at_ w Pl. apply (F lp 48%nat name at_ w eq_refl Pl).
Qed.
