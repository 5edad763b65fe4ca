(** C18, C19, C48: typed lists under any history of calls. *)
From Coq Require Import ZArith List Bool String.
From Verif Require Import Base PyText Ids PyVal Classes Interp Lists SpecLists ListsFacts.
Import ListNotations.
Open Scope string_scope.
Open Scope list_scope.
Open Scope Z_scope.

(** C18: after any calls, whether or not they raised, every element is an
    instance of the declared class. *)
Theorem c18_invariant : forall pc ops, pc <> CNone ->
  Forall (instance_of pc) (run (fixed_op pc) ops []).
Proof. exact fixed_run. Qed.
Print Assumptions c18_invariant.

(** append adds the leaves of its argument in order up to the first of another
    type, for which it raises WrongListItemType. *)
Theorem c18_append : forall pc v ls l l' e, pc <> CNone -> leaves v ls ->
  fixed_append pc v l = (l', e) -> added (instance_of pc) l ls l' e.
Proof. exact fixed_append_spec. Qed.
Print Assumptions c18_append.

Theorem c18_extend : forall pc v items ls l l' e, pc <> CNone -> iterate v = Ok items -> all_leaves items ls ->
  list_extend_with (fixed_append pc) v l = (l', e) -> added (instance_of pc) l ls l' e.
Proof. exact fixed_extend_spec. Qed.
Print Assumptions c18_extend.

Theorem c18_insert : forall pc i v l, pc <> CNone ->
  (instance_of pc v -> fixed_insert pc i v l = (list_insert i v l, None)) /\
  (~ instance_of pc v -> fixed_insert pc i v l = (l, Some WrongListItemType)).
Proof. exact fixed_insert_spec. Qed.
Print Assumptions c18_insert.

(** The position: counted from the front, from the back when negative, at an
    end when it is outside. *)
Theorem c18_insert_position : forall i x l,
  (0 <= i <= zlen l -> list_insert i x l = firstn (Z.to_nat i) l ++ x :: skipn (Z.to_nat i) l) /\
  (forall before after, l = before ++ after -> zlen after = - i -> 0 < zlen after ->
     list_insert i x l = before ++ x :: after) /\
  (i < - zlen l -> list_insert i x l = x :: l) /\
  (zlen l < i -> list_insert i x l = l ++ [x]).
Proof. exact insert_position. Qed.
Print Assumptions c18_insert_position.

Definition act (c : cid) : pyval := VObj c [].

Example c18_case :
  fixed_append ActionHeader04
    (VList CList CList [act ActionOutput04; VList CList CList [act ActionPush04; VInt 3; act ActionPush04]])
    [act ActionGroup04]
  = ([act ActionGroup04; act ActionOutput04; act ActionPush04], Some WrongListItemType) /\
  run (fixed_op ActionHeader04)
    [OInsert (-5) (act ActionOutput04); OAppend (VInt 3); OInsert 0 (act ActionPush04);
     OExtend (VStr (txt "ab")); OExtend VNone; OPop 7; OReverse] []
  = [act ActionOutput04; act ActionPush04] /\
  instance_of ActionHeader04 (act ActionOutput04) /\ ~ instance_of ActionHeader04 (VInt 3).
Proof.
  split; [vm_compute; reflexivity|]. split; [vm_compute; reflexivity|].
  split; [apply subclass_derives; vm_compute; reflexivity|].
  intros H. apply subclass_derives in H. discriminate H.
Qed.

(** C19: all elements of a ConstantTypeList have one class after any calls. *)
Theorem c19_invariant : forall ops x y,
  In x (run constant_op ops []) -> In y (run constant_op ops []) -> same_class x y.
Proof. exact constant_run. Qed.
Print Assumptions c19_invariant.

Theorem c19_append : forall v ls l l' e, leaves v ls -> constant_append v l = (l', e) ->
  added (fun x => forall h, hd_error (l ++ ls) = Some h -> same_class x h) l ls l' e.
Proof. exact constant_append_spec. Qed.
Print Assumptions c19_append.

Theorem c19_insert : forall i v l,
  (forall h, hd_error l = Some h -> same_class v h) ->
  constant_insert i v l = (match l with [] => [v] | _ => list_insert i v l end, None).
Proof. exact constant_insert_spec. Qed.
Print Assumptions c19_insert.

Theorem c19_insert_wrong : forall i v h t, ~ same_class v h ->
  constant_insert i v (h :: t) = (h :: t, Some WrongListItemType).
Proof. exact constant_insert_wrong. Qed.
Print Assumptions c19_insert_wrong.

Example c19_case :
  run constant_op [OAppend (VList CList CList []); OExtend (VBytes [1; 2]); OAppend (VStr (txt "x"));
                   OInsert 1 (VInt 9); OInsert 0 VNone] []
  = [VInt 1; VInt 9; VInt 2] /\
  same_class (VInt 1) (VInt 9) /\ ~ same_class (VInt 1) (VStr (txt "x")).
Proof.
  split; [vm_compute; reflexivity|].
  split; [apply class_eqb_same; reflexivity|]. intros H. apply class_eqb_same in H. discriminate H.
Qed.

(** C48 is false: item assignment and [+=] are those of the built-in list and
    check nothing. *)
Theorem c48_setitem_refuted : exists pc i v l l', pc <> CNone /\ Forall (instance_of pc) l /\
  list_setitem i v l = (l', None) /\ ~ Forall (instance_of pc) l'.
Proof.
  exists ActionHeader04, 0, (VInt 3), [act ActionOutput04], [VInt 3].
  split; [discriminate|]. split; [repeat constructor; apply subclass_derives; vm_compute; reflexivity|].
  split; [reflexivity|]. intros H. inversion H as [|? ? X]; subst.
  apply subclass_derives in X. discriminate X.
Qed.
Print Assumptions c48_setitem_refuted.

Theorem c48_iadd_refuted : exists pc v l l', pc <> CNone /\ Forall (instance_of pc) l /\
  list_iadd v l = (l', None) /\ ~ Forall (instance_of pc) l'.
Proof.
  exists ActionHeader04, (VList CList CList [VInt 3]), [], [VInt 3].
  split; [discriminate|]. split; [constructor|].
  split; [reflexivity|]. intros H. inversion H as [|? ? X]; subst.
  apply subclass_derives in X. discriminate X.
Qed.
Print Assumptions c48_iadd_refuted.

(** What item assignment and [+=] do keep: the elements are all instances
    afterwards exactly when what is put in is. *)
Theorem c48_setitem_keeps : forall pc i v l l', Forall (instance_of pc) l ->
  list_setitem i v l = (l', None) -> (Forall (instance_of pc) l' <-> instance_of pc v).
Proof. exact (fun pc => setitem_keeps (instance_of pc)). Qed.
Print Assumptions c48_setitem_keeps.

Theorem c48_iadd_keeps : forall pc v l, Forall (instance_of pc) l ->
  (forall items, iterate v = Ok items ->
     list_iadd v l = (l ++ items, None) /\
     (Forall (instance_of pc) (l ++ items) <-> Forall (instance_of pc) items)) /\
  (forall e, iterate v = Err e -> list_iadd v l = (l, Some e)).
Proof. exact (fun pc => iadd_keeps (instance_of pc)). Qed.
Print Assumptions c48_iadd_keeps.

(** The position, for pop (or del) and for item assignment: counted from the
    front, or from the back when negative; IndexError and no change outside. *)
Theorem c48_positions : forall before x after i v,
  i = zlen before \/ i = - zlen (x :: after) ->
  common_op (OPop i) (before ++ x :: after) = (before ++ after, None) /\
  list_setitem i v (before ++ x :: after) = (before ++ v :: after, None).
Proof. exact positions. Qed.
Print Assumptions c48_positions.

Theorem c48_positions_outside : forall l i v, i < - zlen l \/ zlen l <= i ->
  common_op (OPop i) l = (l, Some IndexError) /\ list_setitem i v l = (l, Some IndexError).
Proof. exact positions_outside. Qed.
Print Assumptions c48_positions_outside.

(** [del l[i:j]] takes out what is between, [l *= n] repeats. *)
Theorem c48_del_slice : forall before gone after,
  common_op (ODelSlice (zlen before) (zlen (before ++ gone))) (before ++ gone ++ after)
  = (before ++ after, None).
Proof. exact del_slice. Qed.
Print Assumptions c48_del_slice.
Theorem c48_del_slice_back : forall i j l, 0 <= j <= i -> i <= zlen l -> common_op (ODelSlice i j) l = (l, None).
Proof. exact del_slice_back. Qed.
Print Assumptions c48_del_slice_back.

Theorem c48_times : forall n l, 0 <= n ->
  common_op (OTimes (n + 1)) l = (l ++ fst (common_op (OTimes n) l), None) /\
  (forall m, m <= 0 -> common_op (OTimes m) l = ([], None)).
Proof. exact times_spec. Qed.
Print Assumptions c48_times.

Example c48_case :
  let l := [act ActionOutput04; act ActionPush04; act ActionGroup04] in
  list_setitem (-2) (VInt 3) l = ([act ActionOutput04; VInt 3; act ActionGroup04], None) /\
  list_setitem 3 (VInt 3) l = (l, Some IndexError) /\
  common_op (OPop (-3)) l = ([act ActionPush04; act ActionGroup04], None) /\
  common_op (ODelSlice 1 3) l = ([act ActionOutput04], None) /\
  common_op (ODelSlice 2 1) l = (l, None) /\
  common_op (OTimes 2) [VInt 1; VInt 2] = ([VInt 1; VInt 2; VInt 1; VInt 2], None).
Proof. repeat split; vm_compute; reflexivity. Qed.
