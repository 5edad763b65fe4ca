(** The exceptions other than UnpackException that reach the caller of
    pyof.utils.unpack, by version and message type (first and second byte of
    the packet). *)
From Coq Require Import ZArith List.
From Verif Require Import Base.
Import ListNotations.
Open Scope Z_scope.

Definition leaked_table : list (Z * Z * list exn) :=
  [(1, 6, [StructError; GenericException]);      (* FEATURES_REPLY: datapath id, port names *)
   (1, 12, [GenericException]);                  (* PORT_STATUS: port name *)
   (1, 16, [TypeError]);                         (* STATS_REQUEST: types without a body class *)
   (1, 17, [GenericException]);                  (* STATS_REPLY: text of a description or table name *)
   (4, 6, [StructError]);                        (* FEATURES_REPLY: datapath id *)
   (4, 12, [GenericException]);                  (* PORT_STATUS: port name *)
   (4, 14, [TypeError]);                         (* FLOW_MOD: instruction without a class *)
   (4, 18, [TypeError; GenericException]);       (* MULTIPART_REQUEST: table features *)
   (4, 19, [TypeError; KeyError; GenericException]);  (* MULTIPART_REPLY *)
   (4, 29, [KeyError])].                         (* METER_MOD: band without a class *)

(** [e] is listed for version [v] and type [t]. *)
Definition leaked (v t : Z) (e : exn) : Prop :=
  exists es, In (v, t, es) leaked_table /\ In e es.
