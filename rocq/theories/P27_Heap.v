(** C62: which objects a constructor call shares with the rest of the program. *)
From Coq Require Import ZArith List String.
From Verif Require Import Base PyVal Ids Classes PyText Inits Interp Construct Heap SpecHeap SpecInit HeapFacts HeapThm HeapKept HeapMatch HeapCases.
Import ListNotations.
Open Scope string_scope.
Open Scope list_scope.
Open Scope Z_scope.

(** A call changes no existing object.  What the new object leads to is new,
    or is led to by an argument or a mutable default. *)
Theorem c62_fresh : forall shared rnd c pos kw h h' l,
  closed h -> roots_inside shared c pos kw h -> hconstruct shared rnd c pos kw h = Ok (h', l) ->
  (forall k cl, nth_error h k = Some cl -> nth_error h' k = Some cl) /\
  (List.length h <= l)%nat /\ closed h' /\
  forall k, reach h' (HRef l) k ->
    (List.length h <= k < List.length h')%nat \/ exists r, roots shared c pos kw r /\ reach h r k.
Proof. exact construct_fresh. Qed.
Print Assumptions c62_fresh.

(** The only parameter with a mutable default. *)
Theorem c62_defaults : forall c,
  mutable_defaults c = match c with AggregateStatsRequest01 => [(AggregateStatsRequest01, "match"%string)] | _ => [] end.
Proof. exact defaults_table. Qed.
Print Assumptions c62_defaults.

(** Two objects made without arguments have no object in common, and no
    assignment through one of them changes the other. *)
Theorem c62_separate : forall shared rnd rnd' c c' h h1 h2 l1 l2, closed h ->
  c <> AggregateStatsRequest01 -> c' <> AggregateStatsRequest01 ->
  hconstruct shared rnd c [] [] h = Ok (h1, l1) -> hconstruct shared rnd' c' [] [] h1 = Ok (h2, l2) ->
  (forall k, reach h2 (HRef l1) k -> reach h2 (HRef l2) k -> False) /\
  (forall h3 v, changed_through (HRef l2) h2 h3 -> holds h2 (HRef l1) v -> holds h3 (HRef l1) v) /\
  (forall h3 v, changed_through (HRef l1) h2 h3 -> holds h2 (HRef l2) v -> holds h3 (HRef l2) v).
Proof. exact separate_objects. Qed.
Print Assumptions c62_separate.

(** The new object contains the value the constructor gives for the contents
    of the arguments; it raises the same exception. *)
Theorem c62_value : forall shared rnd c pos kw h vpos vkw,
  closed h -> holds_items h pos vpos -> holds_dict h kw vkw -> defaults_hold shared h (mutable_defaults c) ->
  match construct rnd c vpos vkw with
  | Ok v => exists h' l, hconstruct shared rnd c pos kw h = Ok (h', l) /\ holds h' (HRef l) v
  | Err e => hconstruct shared rnd c pos kw h = Err e
  end.
Proof. exact construct_value. Qed.
Print Assumptions c62_value.

(** An argument is taken over, not copied: the attribute of its name is the
    object given.  Not so for empty lists and the like, which may be replaced
    (SpecInit.v), and the transaction id, which goes to the header. *)
Theorem c62_kept : forall shared rnd c pos kw h h' l p r v,
  structure c -> c <> Match01 -> hconstruct shared rnd c pos kw h = Ok (h', l) ->
  (exists i, nth_error (parameters c) i = Some p /\ nth_error pos i = Some r) \/ In (p, r) kw ->
  (is_message c && String.eqb p "xid")%bool = false -> holds h r v -> kept_argument c p v = true -> attribute h' l p r.
Proof. exact kept_itself. Qed.
Print Assumptions c62_kept.

(** Two objects made one after the other share only what arguments or mutable
    defaults of both calls lead to. *)
Theorem c62_common : forall shared rnd rnd' c c' pos pos' kw kw' h h1 h2 l1 l2, closed h ->
  roots_inside shared c pos kw h -> roots_inside shared c' pos' kw' h ->
  hconstruct shared rnd c pos kw h = Ok (h1, l1) -> hconstruct shared rnd' c' pos' kw' h1 = Ok (h2, l2) ->
  forall k, reach h2 (HRef l1) k -> reach h2 (HRef l2) k ->
  exists r r', roots shared c pos kw r /\ roots shared c' pos' kw' r' /\ reach h r k /\ reach h r' k.
Proof. exact common_objects. Qed.
Print Assumptions c62_common.

(** A match of OpenFlow 1.0 takes any keywords.  What is given is taken over,
    except that an address in another form than an address object becomes a
    new object.  The wildcards are computed anew by the other assignments. *)
Theorem c62_match_kept : forall shared rnd kw h h' l p r v,
  hconstruct shared rnd Match01 [] kw h = Ok (h', l) -> NoDup (map fst kw) -> p <> "wildcards" ->
  In (p, r) kw -> holds h r v ->
  if own_form p v then attribute h' l p r
  else exists k, attribute h' l p (HRef k) /\ (List.length h <= k)%nat.
Proof. exact match_given. Qed.
Print Assumptions c62_match_kept.

(** Two requests for aggregate statistics made without arguments share one
    match: an assignment to it through one changes what the other packs to. *)
Theorem c62_shared_refuted : exists shared h h1 h2 h3 l1 l2 k v v' b b',
  closed h /\ defaults_hold shared h (mutable_defaults AggregateStatsRequest01) /\
  hconstruct shared 0 AggregateStatsRequest01 [] [] h = Ok (h1, l1) /\
  hconstruct shared 0 AggregateStatsRequest01 [] [] h1 = Ok (h2, l2) /\
  reach h2 (HRef l1) k /\ reach h2 (HRef l2) k /\
  changed_through (HRef l2) h2 h3 /\ holds h2 (HRef l1) v /\ holds h3 (HRef l1) v' /\
  pack v = Ok b /\ pack v' = Ok b' /\ b <> b'.
Proof. exact shared_match. Qed.
Print Assumptions c62_shared_refuted.

(** Bytes of the first request before and after the assignment through the second. *)
Example c62_case :
  packed (value_of (fst second_request) (snd first_request)) = [0; 56; 32; 255] ++ List.repeat 0 36 ++ [255; 0; 255; 255] /\
  packed (value_of after_set (snd first_request)) = [0; 56; 32; 254; 0; 7] ++ List.repeat 0 34 ++ [255; 0; 255; 255].
Proof. exact shared_match_case. Qed.
(** Two greetings made one after the other. *)
Example c62_case_separate :
  hconstruct defaults_at 1 Hello01 [] [] [] = Ok hello1 /\ hconstruct defaults_at 2 Hello01 [] [] (fst hello1) = Ok hello2 /\
  packed (value_of (fst hello2) (snd hello1)) = [1; 0; 0; 8; 0; 0; 0; 1] /\
  packed (value_of (fst hello2) (snd hello2)) = [1; 0; 0; 8; 0; 0; 0; 2].
Proof. exact separate_case. Qed.
(** A match given to a flow mod is taken over, not copied. *)
Example c62_case_argument :
  hconstruct defaults_at 1 FlowMod01 [] [("match", HRef default_loc); ("xid", HImm (VInt 3))] (fst default_match) = Ok with_match /\
  reach (fst with_match) (HRef (snd with_match)) default_loc.
Proof. exact argument_case. Qed.
(** A match made with a port, a hardware address object and an address in text:
    the hardware address is the object given, the other address a new one. *)
Example c62_case_match :
  hconstruct defaults_at 1 Match01 [] [("in_port", HImm (VInt 7)); ("dl_src", HRef O); ("nw_src", HImm (VStr (txt "10.0.0.0/8")))] given_address = Ok made_match /\
  attribute (fst made_match) (snd made_match) "dl_src" (HRef O) /\
  packed (value_of (fst made_match) (snd made_match)) =
    [0; 56; 24; 250; 0; 7; 0; 0; 0; 0; 0; 9] ++ List.repeat 0 16 ++ [10; 0; 0; 0] ++ List.repeat 0 8.
Proof. exact match_case. Qed.
(** Another match given the same address object: the two share it. *)
Example c62_case_common :
  hconstruct defaults_at 2 Match01 [] [("dl_dst", HRef O)] (fst made_match) = Ok other_match /\
  reach (fst other_match) (HRef (snd made_match)) O /\ reach (fst other_match) (HRef (snd other_match)) O.
Proof. exact common_case. Qed.
