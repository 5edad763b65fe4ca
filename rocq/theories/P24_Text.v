(** Operators on text and binary values (C57). *)
From Coq Require Import ZArith List Bool String.
From Verif Require Import Base PyText Ids PyVal Classes Interp Operators SpecText TextOpsFacts.
Import ListNotations.
Open Scope string_scope.
Open Scope list_scope.
Open Scope Z_scope.

(** C57: ordering is dictionary order of what the operands hold ... *)
Theorem c57_text_order : forall v u s t, has_text v s -> has_text u t -> compares v u s t.
Proof. exact text_compares. Qed.
Print Assumptions c57_text_order.
Theorem c57_bytes_order : forall v u s t, has_bytes v s -> has_bytes u t -> compares v u s t.
Proof. exact bytes_compares. Qed.
Print Assumptions c57_bytes_order.
(** ... which is a total order. *)
Theorem c57_total : forall a b, (before a b \/ a = b \/ before b a) /\ ~ before a a /\ (before a b -> ~ before b a).
Proof. intros a b. exact (conj (before_total a b) (conj (before_self a) (before_other a b))). Qed.
Print Assumptions c57_total.

(** [!=] tells whether the texts differ; [==] with a str, or with a basic type
    of another class, whether they are the same. *)
Theorem c57_ne : forall v u s t, has_text v s -> has_text u t -> (py_ne v u = true <-> s <> t).
Proof. exact text_ne. Qed.
Print Assumptions c57_ne.
Theorem c57_eq_str : forall v s t, has_text v s -> exists b, py_eq v (VStr t) = Ok b /\ py_eq (VStr t) v = Ok b /\ (b = true <-> s = t).
Proof. exact text_eq_str. Qed.
Print Assumptions c57_eq_str.
Theorem c57_eq_other : forall v s u t, has_text v s -> has_text u t -> is_generic_type v = true -> is_generic_type u = true -> same_type v u = false ->
  exists b, py_eq v u = Ok b /\ (b = true <-> s = t).
Proof. exact text_eq_other. Qed.
Print Assumptions c57_eq_other.

(** Two objects of one class are equal when they are encoded alike ... *)
Theorem c57_eq_type : forall v u x y, same_type v u = true -> pack v = Ok x -> pack u = Ok y -> exists b, py_eq v u = Ok b /\ (b = true <-> x = y).
Proof.
  intros v u x y T P Q. exists (text_eqb x y). split; [rewrite (type_eq v u T), P, Q; reflexivity|apply AddrFacts.text_eqb_eq].
Qed.
Print Assumptions c57_eq_type.
(** ... so two hardware addresses can be both equal and different, two texts
    cut to the same characters too, and others equal to nothing. *)
Theorem c57_ne_refuted :
  (exists v u, has_text v (txt "AA:00:00:00:00:00") /\ has_text u (txt "aa:00:00:00:00:00") /\ py_eq v u = Ok true /\ py_ne v u = true) /\
  (exists v, has_text v (txt "zz") /\ same_type v v = true /\ py_eq v v = Err ValueError /\ py_ne v v = false).
Proof.
  split.
  - exists (VHW (VStr (txt "AA:00:00:00:00:00"))), (VHW (VStr (txt "aa:00:00:00:00:00"))). repeat (split; [constructor|]). split; vm_compute; reflexivity.
  - exists (VHW (VStr (txt "zz"))). split; [constructor|]. split; [reflexivity|]. split; vm_compute; reflexivity.
Qed.
Print Assumptions c57_ne_refuted.

(** [+] appends the other text, whichever side it stands on; no other
    arithmetic, and no order with a number. *)
Theorem c57_add : forall v s t, has_text v s -> is_generic_type v = true ->
  py_op BAdd v (VStr t) = Ok (VStr (s ++ t)) /\ py_op BAdd (VStr t) v = Ok (VStr (s ++ t)).
Proof. exact text_add. Qed.
Print Assumptions c57_add.
Theorem c57_add_refuted : exists v s t, has_text v s /\ py_op BAdd (VStr t) v <> Ok (VStr (t ++ s)).
Proof. exists (VChar 8 (VStr (txt "b"))), (txt "b"), (txt "a"). split; [constructor|vm_compute; discriminate]. Qed.
Print Assumptions c57_add_refuted.
Theorem c57_no_other : forall v s t op, has_text v s -> op <> BAdd -> py_op op v (VStr t) = Err TypeError.
Proof. exact text_op. Qed.
Print Assumptions c57_no_other.
Theorem c57_number : forall v s z op, has_text v s ->
  py_cmp op v (VInt z) = Err TypeError /\ py_cmp op (VInt z) v = Err TypeError /\ py_eq v (VInt z) = Ok false /\ py_ne v (VInt z) = true.
Proof. exact text_int. Qed.
Print Assumptions c57_number.

(** Values of any kind: [!=] says whether what the operands hold differs; so
    does [==] between a basic type declared without an enumeration and a plain
    value, but a member of an enumeration is replaced by its number. *)
Theorem c57_ne_any : forall v u x y, carries v x -> carries u y -> (py_ne v u = true <-> ~ same_plain x y).
Proof. exact ne_any. Qed.
Print Assumptions c57_ne_any.
Theorem c57_eq_any : forall v x y, carries v x -> is_generic_type v = true -> no_enumeration v -> plain y -> (forall e z, y <> VEnum e z) ->
  exists b, py_eq v y = Ok b /\ py_eq y v = Ok b /\ (b = true <-> same_plain x y).
Proof. exact eq_any. Qed.
Print Assumptions c57_eq_any.
Theorem c57_eq_member : forall v x e z, carries v x -> is_generic_type v = true -> no_enumeration v ->
  exists b, py_eq v (VEnum e z) = Ok b /\ py_eq (VEnum e z) v = Ok b /\ (b = true <-> same_plain x (VInt z)).
Proof. exact eq_member. Qed.
Print Assumptions c57_eq_member.
(** So with members of a plain Enum [==] and [!=] can both hold, or neither. *)
Theorem c57_member_refuted :
  (exists v e z, carries v (VInt z) /\ py_eq v (VEnum e z) = Ok true /\ py_ne v (VEnum e z) = true) /\
  (exists v e z, carries v (VEnum e z) /\ py_eq v (VEnum e z) = Ok false /\ py_ne v (VEnum e z) = false).
Proof.
  split.
  - exists (VUInt 2 (Some E_MultipartRequestFlags04) (VInt 1)), E_MultipartRequestFlags04, 1. repeat split; constructor; constructor.
  - exists (VUInt 2 None (VEnum E_MultipartRequestFlags04 1)), E_MultipartRequestFlags04, 1. repeat split; constructor; constructor.
Qed.
Print Assumptions c57_member_refuted.
Example c57_case_any :
  py_ne (VUInt 2 None VNone) VNone = false /\ py_ne (VBin VNone) (VBin (VBytes [])) = true /\ py_eq (VBin VNone) VNone = Ok true /\
  py_ne (VUInt 2 None (VEnum E_Type04 3)) (VInt 3) = false /\ py_eq (VUInt 2 None (VInt 3)) (VEnum E_Type04 3) = Ok true /\
  carries (VUInt 2 None (VEnum E_Type04 3)) (VEnum E_Type04 3) /\ same_plain (VEnum E_Type04 3) (VInt 3).
Proof.
  repeat split; try reflexivity; [constructor; constructor|]. apply sp_number with 3; constructor. eexists. reflexivity.
Qed.

Example c57_case :
  py_cmp CLt (VChar 16 (VStr (txt "eth1"))) (VStr (txt "eth10")) = Ok true /\ py_cmp CGe (VIP (VStr (txt "10.0.0.2")) 32) (VIP (VStr (txt "10.0.0.10")) 32) = Ok true /\
  before (txt "eth1") (txt "eth10") /\ before (txt "10.0.0.10") (txt "10.0.0.2") /\
  py_eq (VChar 16 (VStr (txt "eth1"))) (VStr (txt "eth1")) = Ok true /\ py_op BAdd (VChar 16 (VStr (txt "eth"))) (VStr (txt "1")) = Ok (VStr (txt "eth1")).
Proof.
  split; [vm_compute; reflexivity|]. split; [vm_compute; reflexivity|]. split; [left; exists 48, []; reflexivity|].
  split; [right; exists (txt "10.0.0."), 49, 50, [48], []; repeat split; reflexivity|]. split; vm_compute; reflexivity.
Qed.
