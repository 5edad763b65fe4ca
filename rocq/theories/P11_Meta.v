(** Theorems: C42 (inherited structs keep field order).

    MetaStruct reports a failure by raising while the class statement is
    executed; that is [None] here. *)
From Coq Require Import ZArith List Bool String.
From Verif Require Import Base PyText Ids PyVal Classes Interp Bodies Meta SpecMeta MetaFacts.
Import ListNotations.
Open Scope string_scope.
Open Scope list_scope.
Open Scope Z_scope.

(** The layout of a subclass: the inherited fields in the order of the base and
    without the removed ones, redefined in place, then the new fields in
    order. *)
Theorem c42_layout : forall version base removed body fields,
  NoDup (map fst base) -> layout version base removed body = Some fields ->
  exists inh, Forall2 (inherits version) base inh /\ fields = fields_of inh removed body.
Proof. exact layout_some. Qed.
Print Assumptions c42_layout.

(** The names alone, for a body of fields. *)
Theorem c42_names : forall version base removed body fields,
  NoDup (map fst base) -> layout version base removed (map (fun p => (fst p, Some (snd p))) body) = Some fields ->
  let stay := filter (fun n => negb (existsb (String.eqb n) removed)) (map fst base) in
  map fst fields = stay ++ first_names stay body.
Proof. exact order. Qed.
Print Assumptions c42_names.

(** Module names: the version is the digits after "pyof.v0x", and only it is
    replaced when it does not occur in the rest of the name. *)
Theorem c42_module : forall v v' rest m,
  in_version v rest m -> v <> v' -> ~ occurs v (txt "." ++ rest) ->
  replace_version m v' = Some (txt "pyof." ++ v' ++ txt "." ++ rest).
Proof. exact (fun v v' rest m I N O => replace_version_other v v' rest m I O N). Qed.
Print Assumptions c42_module.

Theorem c42_module_unchanged : forall m v,
  replace_version m v = None <->
  (forall w rest, ~ in_version w rest m) \/ exists rest, in_version v rest m.
Proof. exact replace_version_none. Qed.
Print Assumptions c42_module_unchanged.

(** Every class of the library has the layout its class statement produces. *)
Theorem c42_classes : forall c, class_body c <> None -> class_layout 6 c = Some (class_attrs c).
Proof. exact tables_layout. Qed.
Print Assumptions c42_classes.

(** An OpenFlow 1.3 class derived from the 1.0 PortMod: header and message type
    move to 1.3, removed and redefined fields, one new field. *)
Example c42_case :
  map fst (class_attrs PortMod01) = ["header"; "port_no"; "hw_addr"; "config"; "mask"; "advertise"; "pad"] /\
  layout (Some (txt "v0x04")) (class_attrs PortMod01) ["hw_addr"; "pad"; "advertise"; "nothing"]
    [("__module__", None); ("extra", Some (VUInt 4 None VNone)); ("port_no", Some (VUInt 4 None VNone));
     ("mask", None); ("extra", Some (VUInt 8 None VNone))] =
    Some [("header", VObj Header04 [("version", VUInt 1 None (VInt 4)); ("message_type", VEnum E_Type04 16);
                                    ("length", VNone); ("xid", VNone)]);
          ("port_no", VUInt 4 None VNone); ("config", VUInt 4 (Some E_PortConfig01) VNone);
          ("extra", VUInt 8 None VNone)].
Proof. split; vm_compute; reflexivity. Qed.
Example c42_module_case :
  replace_version (txt "pyof.v0x01.common.header") (txt "v0x04") = Some (txt "pyof.v0x04.common.header") /\
  replace_version (txt "pyof.foundation.basic_types") (txt "v0x04") = None.
Proof. split; reflexivity. Qed.

(** The message type of a header is copied only when it is not zero: a class of
    another version derived from Hello has no message type. *)
Theorem c42_hello_refuted : exists old fields attrs,
  get_attr "header" (class_attrs Hello01) = Some old /\ has_type old (VEnum E_Type01 0) /\
  layout (Some (txt "v0x04")) (class_attrs Hello01) [] [] = Some fields /\
  get_attr "header" fields = Some (VObj Header04 attrs) /\ get_attr "message_type" attrs = Some VNone.
Proof.
  do 3 eexists. split; [vm_compute; reflexivity|]. split; [do 2 eexists; split; reflexivity|].
  split; [vm_compute; reflexivity|]. split; reflexivity.
Qed.
Print Assumptions c42_hello_refuted.

(** A name that has its version in it twice is replaced twice. *)
Theorem c42_module_refuted : exists v rest m, in_version v rest m /\
  replace_version m (txt "v0x04") <> Some (txt "pyof." ++ txt "v0x04" ++ txt "." ++ rest).
Proof.
  exists (txt "v0x01"), (txt "test_v0x01"), (txt "pyof.v0x01.test_v0x01"). split.
  - split; [|reflexivity]. exists (txt "01"). split; [|reflexivity].
    split; [discriminate|repeat constructor; discriminate].
  - vm_compute. discriminate.
Qed.
Print Assumptions c42_module_refuted.
