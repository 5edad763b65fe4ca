(** C15: the exceptions that reach the caller of pyof.utils.unpack. *)
From Coq Require Import ZArith List.
From Verif Require Import Base Ids PyVal Classes Interp Utils Spec SpecMsg SpecRaises DispatchFacts RaisesThm.
Import ListNotations.
Open Scope Z_scope.

(** Whatever the packet, the exception is UnpackException or one of those listed
    in [leaked_table] for the version and the type it carries; the table has
    no entry for the other 18 types of version 1 and 24 of version 4. *)
Theorem c15_exceptions_partial : forall b e, wf_bytes b -> unpack_packet b = Err e ->
  e = UnpackException \/ leaked (nth 0 b 0) (nth 1 b 0) e.
Proof. exact packet_exceptions. Qed.
Print Assumptions c15_exceptions_partial.

(** Every entry of the table is real: a well-framed packet of that version and
    type raises that exception. *)
Theorem c15_each_leak_refuted : forall v t e, leaked v t e ->
  exists b, wf_bytes b /\ well_framed b /\ nth 0 b 0 = v /\ nth 1 b 0 = t /\ unpack_packet b = Err e.
Proof. exact leaks_all. Qed.
Print Assumptions c15_each_leak_refuted.

Example c15_case :
  (exists b, wf_bytes b /\ well_framed b /\ nth 0 b 0 = 4 /\ nth 1 b 0 = 14 /\ unpack_packet b = Err TypeError) /\
  leaked 4 14 TypeError /\ ~ leaked 4 14 KeyError /\ (forall e, ~ leaked 1 14 e) /\
  unpack_packet [1; 14; 0; 9; 0; 0; 0; 0; 7] = Err UnpackException.
Proof. exact exceptions_case. Qed.
