(** C52: constructors and the bytes of what they make. *)
From Coq Require Import ZArith List Bool String.
From Verif Require Import Base PyText Ids PyVal Classes Interp Utils Match01 Construct SpecBasic SpecMsg SpecMutation SpecLayout SpecInit
  ConstructThm2 ConstructThm3 ConstructThm4.
Import ListNotations.
Open Scope string_scope.
Open Scope list_scope.
Open Scope Z_scope.

(** A call with too many arguments, an unknown keyword or an argument given
    twice fails with a TypeError. *)
Theorem c52_refuses : forall rnd c pos kw, structure c -> c <> Match01 -> ~ callable c pos kw -> construct rnd c pos kw = Err TypeError.
Proof. exact refuses. Qed.
Print Assumptions c52_refuses.

(** Any other call succeeds, whatever the values.  Partial: except for the 18
    constructors that ask for the size of an argument, which may have none. *)
Theorem c52_accepts_partial : forall rnd c pos kw, structure c -> c <> Match01 -> measures c = false -> callable c pos kw ->
  exists o, construct rnd c pos kw = Ok o.
Proof. exact accepts. Qed.
Print Assumptions c52_accepts_partial.

(** An argument, by position or by keyword, is stored in the field of its
    name; only empty lists and objects may be replaced, by the empty ones of
    the class. *)
Theorem c52_stored : forall rnd c pos kw o p v, c <> Match01 -> construct rnd c pos kw = Ok o -> given c pos kw p v ->
  kept_argument c p v = true -> reads o p v.
Proof. exact keeps. Qed.
Print Assumptions c52_stored.
Theorem c52_empty : forall rnd c pos kw o p v, c <> Match01 -> construct rnd c pos kw = Ok o -> given c pos kw p v -> v <> VNone \/ p <> "xid" ->
  reads o p v \/ exists n x, new_instance c = Some n /\ reads n p x /\ reads o p x.
Proof. exact stores_empty. Qed.
Print Assumptions c52_empty.

(** Without an argument, a field is as in an object made without arguments,
    and the transaction id is the drawn number. *)
Theorem c52_omitted : forall rnd c pos kw o p, structure c -> c <> Match01 -> construct rnd c pos kw = Ok o -> omitted c pos kw p ->
  (is_message c = true -> p = "xid" -> reads o p (VInt rnd)) /\
  (is_message c = false \/ p <> "xid" -> exists n x, new_instance c = Some n /\ reads n p x /\ reads o p x).
Proof. exact omitted_is_new. Qed.
Print Assumptions c52_omitted.

(** So are the attributes that are no parameters, but for a computed length,
    and the header apart from the transaction id. *)
Theorem c52_others : forall rnd c pos kw o, structure c -> c <> Match01 -> construct rnd c pos kw = Ok o ->
  exists attrs new, o = VObj c attrs /\ new_instance c = Some (VObj c new) /\ map fst attrs = map fst new /\
    forall n, ~ In n (parameters c) -> n <> "header" -> (computes_length c = true -> n <> "length") -> get_attr n attrs = get_attr n new.
Proof. exact others_are_new. Qed.
Print Assumptions c52_others.
Theorem c52_header : forall rnd c pos kw o, structure c -> c <> Match01 -> is_message c = true -> construct rnd c pos kw = Ok o ->
  exists attrs new hc h x, o = VObj c attrs /\ new_instance c = Some (VObj c new) /\ get_attr "header" new = Some (VObj hc h) /\
    get_attr "header" attrs = Some (VObj hc (set_attr "xid" x h)).
Proof. exact header_is_new. Qed.
Print Assumptions c52_header.
Theorem c52_no_arguments : forall rnd c n, structure c -> new_instance c = Some n -> construct rnd c [] [] = Ok (with_xid (VInt rnd) n).
Proof. exact no_arguments_all. Qed.
Print Assumptions c52_no_arguments.

(** Constructed objects are complete, so that the theorems on [built] and
    [regular] objects hold for them. *)
Theorem c52_complete : forall rnd c pos kw o, structure c -> c <> Match01 -> construct rnd c pos kw = Ok o ->
  (forall p v, given c pos kw p v -> suits c p v = true) -> built o = true /\ regular o = true /\ exists attrs, o = VObj c attrs.
Proof. exact complete_structure. Qed.
Print Assumptions c52_complete.

(** The bytes: an argument is at the offset of its field in the OpenFlow
    standard, [computed] fields apart. *)
Theorem c52_bytes : forall rnd c pos kw o bs l t p v at_ w, structure c -> c <> Match01 -> openflow_layout c = Some (l, t) ->
  construct rnd c pos kw = Ok o -> (forall p v, given c pos kw p v -> suits c p v = true) -> pack o = Ok bs ->
  given c pos kw p v -> kept_argument c p v = true -> computed c p = false -> placed 0 l p at_ w ->
  exists cv, get_attr p (class_attrs c) = Some cv /\ carried cv v (slice at_ (at_ + w) bs).
Proof. exact wire. Qed.
Print Assumptions c52_bytes.

(** A message carries its version, the type of its class and the transaction
    id.  Partial: without the two classes that state the type of
    another message (C17). *)
Theorem c52_message_partial : forall rnd v t c pos kw o bs, In (t, c) (openflow_types v) -> ~ misfiled v t -> construct rnd c pos kw = Ok o ->
  (forall p x, given c pos kw p x -> suits c p x = true) -> pack o = Ok bs ->
  big_endian 1 (version_number v) (slice 0 1 bs) /\ big_endian 1 t (slice 1 2 bs) /\
  (forall z, given c pos kw "xid" (VInt z) -> big_endian 4 z (slice 4 8 bs)) /\ (omitted c pos kw "xid" -> big_endian 4 rnd (slice 4 8 bs)).
Proof. exact message_wire. Qed.
Print Assumptions c52_message_partial.

(** Actions, instructions and meter bands carry the type of their class and,
    where the constructor sets it, their length. *)
Theorem c52_type : forall rnd c pos kw o bs, (forall p x, given c pos kw p x -> suits c p x = true) -> construct rnd c pos kw = Ok o -> pack o = Ok bs ->
  (forall n t, own_type c = Some (n, t) -> big_endian 2 t (slice 0 2 bs)) /\ (forall z, own_length c = Some z -> big_endian 2 z (slice 2 4 bs)).
Proof. exact own_wire. Qed.
Print Assumptions c52_type.

(** The keywords of the match of OpenFlow 1.0 are assignments, the subject of
    C22 and C23. *)
Theorem c52_match : forall rnd pos kw o, construct rnd Match01 pos kw = Ok o -> pos = [] /\ o = VObj Match01 (match_run kw match_new).
Proof. exact match_keywords. Qed.
Print Assumptions c52_match.
(** It takes no positional arguments, and fails only as an assignment fails. *)
Theorem c52_match_refuses : forall rnd pos kw, pos <> [] -> construct rnd Match01 pos kw = Err TypeError.
Proof. exact match_positional. Qed.
Print Assumptions c52_match_refuses.
Theorem c52_match_fails : forall rnd kw e, construct rnd Match01 [] kw = Err e ->
  exists before n v after, kw = before ++ (n, v) :: after /\ snd (match_set n v (match_run before match_new)) = Some e.
Proof. exact match_fails. Qed.
Print Assumptions c52_match_fails.
(** GenericMessage itself has no header, so that no object of it can be
    made. *)
Theorem c52_bare : forall rnd x, construct rnd CGenericMessage [] [] = Err AttributeError /\ construct rnd CGenericMessage [x] [] = Err AttributeError /\
  construct rnd CGenericMessage [] [("xid", x)] = Err AttributeError.
Proof. intros rnd x. repeat split; destruct x; reflexivity. Qed.
Print Assumptions c52_bare.

(** A PortMod of OpenFlow 1.0, with some arguments by position. *)
Definition port_mod_pos : list pyval := [VInt 77; VInt 258; VStr (txt "01:02:03:04:05:06")].
Definition port_mod_kw : list (string * pyval) := [("mask", VInt 4); ("config", VInt 3)].
Example c52_case : exists o, construct 9 PortMod01 port_mod_pos port_mod_kw = Ok o /\
  callable PortMod01 port_mod_pos port_mod_kw /\
  given PortMod01 port_mod_pos port_mod_kw "port_no" (VInt 258) /\ given PortMod01 port_mod_pos port_mod_kw "config" (VInt 3) /\
  reads o "port_no" (VInt 258) /\ reads o "config" (VInt 3) /\ reads o "advertise" VNone /\
  suits PortMod01 "hw_addr" (VStr (txt "01:02:03:04:05:06")) = true.
Proof.
  eexists. split; [vm_compute; reflexivity|]. split.
  - split; [cbn; repeat constructor|]. split; [repeat constructor; cbn; intuition discriminate|]. intros x [<-|[<-|[] ] ]; cbn; auto.
  - split; [left; exists 1%nat; split; reflexivity|]. split; [right; right; left; reflexivity|].
    split; [|split; [|split; [|vm_compute; reflexivity] ] ]; (eexists _, _; split; [reflexivity|]; cbn; reflexivity).
Qed.
Example c52_bytes_case :
  (do o <- construct 9 PortMod01 port_mod_pos (("advertise", VInt 5) :: port_mod_kw); pack o) =
    Ok [1; 15; 0; 32; 0; 0; 0; 77;  1; 2;  1; 2; 3; 4; 5; 6;  0; 0; 0; 3;  0; 0; 0; 4;  0; 0; 0; 5;  0; 0; 0; 0] /\
  (do o <- construct 9 Hello01 [] []; pack o) = Ok [1; 0; 0; 8; 0; 0; 0; 9] /\
  (do o <- construct 9 ActionOutput01 [VInt 2] [("max_length", VInt 5)]; pack o) = Ok [0; 0; 0; 8; 0; 2; 0; 5].
Proof. repeat split; vm_compute; reflexivity. Qed.
Example c52_refused_case : construct 9 ActionOutput01 [VInt 2] [("port", VInt 5)] = Err TypeError /\
  construct 9 ActionOutput01 [VInt 2; VInt 3; VInt 4] [] = Err TypeError /\ construct 9 ActionOutput01 [] [("ports", VInt 5)] = Err TypeError.
Proof. repeat split; vm_compute; reflexivity. Qed.
Example c52_structures : structure PortMod01 /\ structure ActionOutput04 /\ own_type ActionOutput04 = Some ("action_type", 0) /\ own_length ActionOutput04 = Some 16.
Proof. repeat split; vm_compute; discriminate. Qed.

(** The full statements are false of the code: a list field that is given a
    number, in a constructor that computes the length ... *)
Theorem c52_accepts_refuted : structure MeterStats04 /\ callable MeterStats04 [] [("band_stats", VInt 5)] /\
  construct 9 MeterStats04 [] [("band_stats", VInt 5)] = Err WrongListItemType.
Proof.
  split; [repeat split; vm_compute; discriminate|]. split; [|vm_compute; reflexivity].
  split; [cbn; repeat constructor|]. split; [repeat constructor; cbn; intuition discriminate|]. intros x [<-|[] ]. vm_compute. tauto.
Qed.
Print Assumptions c52_accepts_refuted.
(** ... and the request for the configuration of a queue, type 22 in OpenFlow
    1.3, that says 7. *)
Theorem c52_message_refuted : exists o, In (22, QueueGetConfigRequest04) (openflow_types V04) /\
  construct 9 QueueGetConfigRequest04 [] [("port", VInt 1)] = Ok o /\ pack o = Ok [4; 7; 0; 16; 0; 0; 0; 9; 0; 0; 0; 1; 0; 0; 0; 0].
Proof. eexists. split; [cbn; tauto|]. split; [vm_compute; reflexivity|vm_compute; reflexivity]. Qed.
Print Assumptions c52_message_refuted.
