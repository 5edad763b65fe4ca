(** Which exceptions unpack can raise, for every buffer (C15).

    [may n x v]: decoding into [v] may raise [x], computed from the class
    tables; [sok n v]: the shapes of the tables needed for that to be sound. *)
From Coq Require Import ZArith List Bool String Lia.
From Verif Require Import Base BaseFacts PyText Ids PyVal Classes Interp Utils Spec ClassFacts StructFacts
  FuelFacts Totality UnpackTotal.
Import ListNotations.
Open Scope string_scope.
Open Scope list_scope.
Open Scope Z_scope.

Definition extra (x : exn) (z : bool) (c : cid) : bool :=
  match kind c with
  | KStruct | KMessage | KMatch04 => false
  | KLen _ _ | KAction01 | KAction04 | KSetField04 | KOxmTLV | KMatch01 | KPacketOut01 | KPacketOut04 => exn_eqb x UnpackException
  | KBucket => exn_eqb x UnpackException || z && exn_eqb x TypeError
  | KTyped TInstruction => exn_eqb x UnpackException || exn_eqb x TypeError
  | KTyped TProperty => exn_eqb x UnpackException
  | KTyped TMeterBand => exn_eqb x UnpackException || exn_eqb x KeyError
  | KErrorMsg01 | KErrorMsg04 | KStatsRequest | KStatsReply | KMultipartRequest | KMultipartReply => exn_eqb x ValueError
  | KErrorExp04 => exn_eqb x MethodNotImplemented
  end.

Definition nestable (c : cid) : bool := listable c || match kind c with KMatch04 => true | _ => false end.
Definition advances (cv : pyval) : bool := match cv with VUInt (S _) _ _ => true | _ => false end.

(** Fields one after the other; [z] says that the offset may still be 0. *)
Fixpoint fields_may (f : bool -> pyval -> bool) (z : bool) (fields : list (string * pyval)) : bool :=
  match fields with
  | [] => false
  | (_, cv) :: tl => f z (deepcopy cv) || fields_may f (z && negb (advances cv)) tl
  end.
Definition has_body (c : cid) : bool :=
  match kind c with KStatsRequest | KStatsReply | KMultipartRequest | KMultipartReply => true | _ => false end.
(** Objects created to decode the body of a message of class [c]. *)
Definition bodies_of (c : cid) : list pyval :=
  let lists := map (fun c => VList CFixedTypeList c []) in
  match kind c with
  | KStatsRequest =>
      lists [CNone; FlowStatsRequest01; AggregateStatsRequest01; PortStatsRequest01; QueueStatsRequest01; VendorStats01]
  | KStatsReply =>
      VBin (VBytes []) :: new_DescStats01 ::
      lists [FlowStats01; AggregateStatsReply01; TableStats01; PortStats01; QueueStats01; VendorStats01]
  | KMultipartRequest =>
      VBin (VBytes []) ::
      instances [FlowStatsRequest04; AggregateStatsRequest04; PortStatsRequest04; QueueStatsRequest04; GroupStatsRequest04;
                 MeterMultipartRequest04; ExperimenterMultipartHeader04] ++
      lists [TableFeatures04]
  | KMultipartReply =>
      VBin (VBytes []) ::
      instances [Desc04; GroupFeatures04; MeterFeatures04; ExperimenterMultipartHeader04] ++
      lists [FlowStats04; AggregateStatsReply04; TableStats04; PortStats04; QueueStats04; GroupStats04;
             GroupDescStats04; MeterStats04; MeterConfig04; TableFeatures04; Port04]
  | _ => []
  end.
(** PacketOut reads its actions from a buffer of their own. *)
Definition out_of_order (c : cid) : bool :=
  match kind c with KPacketOut01 | KPacketOut04 => true | _ => false end.
Definition fields_of (c' : cid) : list (string * pyval) :=
  match kind c' with
  | KMessage | KPacketOut01 | KPacketOut04 | KErrorMsg01 | KErrorMsg04 | KErrorExp04
  | KStatsRequest | KStatsReply | KMultipartRequest | KMultipartReply => message_fields c'
  | _ => class_attrs c'
  end.

Fixpoint may (n : nat) (x : exn) (z : bool) (v : pyval) : bool :=
  match n with
  | O => true
  | S n' =>
      match v with
      | VUInt _ _ _ | VIP _ _ | VHW _ => exn_eqb x UnpackException
      | VPad _ | VBin _ => false
      | VChar _ _ => exn_eqb x ValueError || exn_eqb x GenericException
      | VDPID _ => exn_eqb x StructError
      | VList _ pc _ =>
          match new_instance pc with
          | None => exn_eqb x TypeError
          | Some it => may n' x z it
          end
      | VObj c _ =>
          extra x z c ||
          existsb (fun c' =>
            if out_of_order c then existsb (fun p => may n' x true (deepcopy (snd p))) (fields_of c')
            else fields_may (may n' x) (z || has_body c) (fields_of c')) (targets c) ||
          (has_body c && existsb (may n' x true) (bodies_of c))
      | _ => true
      end
  end.

(** ** Shapes *)
Definition leaf (v : pyval) : bool :=
  match v with VUInt _ _ _ | VPad _ | VChar _ _ | VIP _ _ | VHW _ | VDPID _ => true | _ => false end.
(** Structures that need at least one byte. *)
Definition needs (v : pyval) : bool :=
  match v with VObj c _ => match kind c with KOxmTLV | KMatch04 => true | _ => false end | _ => false end.

Fixpoint addkeys (keys names : list string) : list string :=
  match names with
  | [] => keys
  | k :: tl => addkeys (if existsb (String.eqb k) keys then keys else keys ++ [k]) tl
  end.
Definition presets (c : cid) : list string :=
  match kind c with KAction01 => ["action_type"] | KAction04 | KSetField04 => ["action_type"; "length"] | _ => [] end.
Definition postsets (c : cid) : list string :=
  match kind c with
  | KOxmTLV => ["oxm_field"; "oxm_hasmask"; "oxm_value"]
  | KMatch01 => ["wildcards"]
  | _ => []
  end.
Fixpoint nodupb (l : list string) : bool :=
  match l with [] => true | x :: tl => negb (existsb (String.eqb x) tl) && nodupb tl end.
Fixpoint aligned (C : list (string * pyval)) (keys : list string) : bool :=
  match C, keys with
  | (name, cv) :: C', k :: keys' => (leaf cv || String.eqb name k) && aligned C' keys'
  | _, _ => true
  end.
Definition order_ok (c : cid) (keys : list string) : bool :=
  nodupb keys && aligned (class_attrs c) (filter (is_class_attr c) keys).

(** A structure as an attribute: how GenericStruct.get_size measures it. *)
Definition direct (cv : pyval) : bool :=
  match cv with
  | VObj c _ =>
      nestable c && match kind c with
                    | KAction04 | KSetField04 | KBucket => false
                    | KMatch04 => cid_eqb c Match04
                    | _ => true
                    end
  | VList lc _ items => negb (cid_eqb lc CList) && match items with [] => true | _ => false end
  | VBin _ => true
  | _ => leaf cv
  end.
Definition default_ok (cv : pyval) : bool :=
  match size1 (size0 20) cv (deepcopy cv) with Ok _ => true | Err _ => false end.

Fixpoint sok (n : nat) (v : pyval) : bool :=
  match n with
  | O => false
  | S n' =>
      match v with
      | VObj c a =>
          forallb (fun c' =>
            nodupb (map fst (class_attrs c')) &&
            (negb (nestable c) ||
             subclass c' c && order_ok c' (addkeys (addkeys (addkeys (map fst a) (presets c)) (map fst (class_attrs c'))) (postsets c)) &&
             forallb (fun p => default_ok (snd p)) (class_attrs c')) &&
            forallb (fun p => direct (snd p) && sok n' (deepcopy (snd p))) (fields_of c')) (targets c) &&
          (negb (has_body c) || forallb (fun v => sok n' v && negb (needs v)) (bodies_of c)) &&
          match kind c with
          | KPacketOut01 | KPacketOut04 => forallb (fun p => negb (needs (deepcopy (snd p)))) (message_fields c)
          | KMatch04 => cid_eqb c Match04
          | KOxmTLV => cid_eqb c OxmTLV04
          | KMatch01 => cid_eqb c Match01
          | KBucket => cid_eqb c Bucket04
          | _ => true
          end
      | VList lc pc items =>
          match items with [] => true | _ => false end && negb (cid_eqb lc CList) &&
          match new_instance pc with
          | Some (VObj c' a) => cid_eqb c' pc && negb (cid_eqb pc CNone) && nestable pc && sok n' (VObj c' a)
          | Some _ => false
          | None => true
          end
      | VBin _ => true
      | _ => leaf v
      end
  end.
