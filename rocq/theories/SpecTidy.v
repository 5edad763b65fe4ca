(** Well-formed bytes and the same bytes with zeros for padding: for C57.

    What OpenFlow 1.0 (sections 5.2 and 5.3) and 1.3 (sections 7.2 and 7.3) say
    about how structures follow each other: fields in order, elements of a list
    one after the other up to the end, the class of an element by its type code,
    the end of an element by the length it holds, matches and set-field actions
    padded to a multiple of 8.  Nothing here says which numbers a field may
    hold.  [bs] is what was received; in [bs'] padding is zero. *)
From Coq Require Import ZArith List Bool String.
From Verif Require Import Base PyText Ids PyVal Classes Utils Spec SpecMsg SpecBasic SpecLayout SpecStruct SpecReencode.
Import ListNotations.
Open Scope string_scope.
Open Scope list_scope.
Open Scope Z_scope.

(** Structures that are nothing but their fields. *)
Definition plain_structures : list cid :=
  [Match01; PhyPort01; QueuePropHeader01; PacketQueue01; QueuePropMinRate01; AggregateStatsReply01; AggregateStatsRequest01; DescStats01;
   FlowStatsRequest01; PortStats01; PortStatsRequest01; QueueStats01; QueueStatsRequest01; TableStats01; VendorStats01;
   Port04; OxmExperimenterHeader04; QueuePropHeader04; PacketQueue04; QueuePropExperimenter04; QueuePropMaxRate04; QueuePropMinRate04;
   BucketCounter04; ExperimenterMultipartHeader04; AggregateStatsReply04; Desc04; PortStats04; QueueStats04; GroupDescStats04; GroupFeatures04;
   GroupStats04; MeterConfig04; MeterFeatures04; BandStats04; TableStats04; AggregateStatsRequest04; FlowStatsRequest04; PortStatsRequest04;
   QueueStatsRequest04; GroupStatsRequest04; MeterMultipartRequest04].

(** Structures that hold their length, and where. *)
Definition length_at (c : cid) : option nat :=
  match c with
  | FlowStats01 | FlowStats04 | TableFeatures04 => Some 0%nat
  | HelloElemHeader04 => Some 2%nat
  | MeterStats04 => Some 4%nat
  | _ => None
  end.

(** Elements of OpenFlow 1.3 that are told apart by a code at 0 and hold their
    length at 2. *)
Definition coded_04 (root : cid) : Prop := In root [ActionHeader04; Instruction04; Property04; MeterBandHeader04].

(** [SD] is for bytes that tell where they end, [TAIL] for bytes that go on to
    the end of what surrounds them. *)
Inductive tidy : delim -> pyval -> bytes -> bytes -> Prop :=
| td_same d bs : kept_width d = Some (List.length bs) -> tidy SD d bs bs
| td_pad k bs : List.length bs = k -> tidy SD (VPad k) bs (repeat 0 k)
| td_data d bs : tidy TAIL (VBin d) bs bs
| td_struct k c a bs bs' : tidy_obj k c bs bs' -> tidy k (VObj c a) bs bs'
| td_list lc pc bs bs' : lc <> CFixedTypeList \/ bs = [] -> tidy_items pc bs bs' -> tidy TAIL (VList lc pc []) bs bs'
with tidy_fields : delim -> list (string * pyval) -> bytes -> bytes -> Prop :=
| tf_nil : tidy_fields SD [] [] []
| tf_last n d bs bs' : tidy TAIL d bs bs' -> tidy_fields TAIL [(n, d)] bs bs'
| tf_cons k n d fs b1 b1' b2 b2' : tidy SD d b1 b1' -> tidy_fields k fs b2 b2' -> tidy_fields k ((n, d) :: fs) (b1 ++ b2) (b1' ++ b2')
with tidy_items : cid -> bytes -> bytes -> Prop :=
| ti_nil pc : tidy_items pc [] []
| ti_last k pc bs bs' : tidy_obj k pc bs bs' -> bs <> [] -> tidy_items pc bs bs'
| ti_cons pc b1 b1' b2 b2' : tidy_obj SD pc b1 b1' -> b1 <> [] -> tidy_items pc b2 b2' -> tidy_items pc (b1 ++ b2) (b1' ++ b2')
with tidy_obj : delim -> cid -> bytes -> bytes -> Prop :=
| to_plain k c bs bs' : In c plain_structures -> tidy_fields k (class_attrs c) bs bs' -> tidy_obj k c bs bs'
| to_length k c at_ bs bs' : length_at c = Some at_ -> tidy_fields k (class_attrs c) bs bs' -> u16_at at_ bs (zlen bs) -> tidy_obj SD c bs bs'
| to_action01 t c bs bs' : In (t, c) action01_table -> tidy_fields SD (class_attrs c) bs bs' -> u16_at 0 bs t -> tidy_obj SD ActionHeader01 bs bs'
| to_coded k root tbl t c bs bs' : coded_04 root -> coded root = Some tbl -> In (t, c) tbl -> c <> ActionSetField04 ->
    tidy_fields k (class_attrs c) bs bs' -> u16_at 0 bs t -> u16_at 2 bs (zlen bs) ->
    (root = ActionHeader04 -> zlen bs mod 8 = 0) -> tidy_obj SD root bs bs'
| to_set_field body body' pad : tidy_fields SD (class_attrs ActionSetField04) body body' -> u16_at 0 body 25 -> u16_at 2 body (zlen (body ++ pad)) ->
    zlen (body ++ pad) mod 8 = 0 -> (List.length pad < 8)%nat ->
    tidy_obj SD ActionHeader04 (body ++ pad) (body' ++ repeat 0 (List.length pad))
| to_oxm h1 h2 h3 value : tidy_obj SD OxmTLV04 ([h1; h2; h3; zlen value] ++ value) ([h1; h2; h3; zlen value] ++ value)
| to_match k body body' pad : tidy_fields k (class_attrs Match04) body body' -> u16_at 2 body (zlen body) ->
    zlen (body ++ pad) mod 8 = 0 -> (List.length pad < 8)%nat ->
    tidy_obj SD Match04 (body ++ pad) (body' ++ repeat 0 (List.length pad))
| to_bucket b1 b1' b2 b2' : tidy_fields SD (removelast (class_attrs Bucket04)) b1 b1' -> tidy_items ActionHeader04 b2 b2' ->
    u16_at 0 (b1 ++ b2) (zlen (b1 ++ b2)) -> tidy_obj SD Bucket04 (b1 ++ b2) (b1' ++ b2').

(** A statistics body, by its type. *)
Inductive tidy_body : body_form -> bytes -> bytes -> Prop :=
| tb_list c bs bs' : tidy_items c bs bs' -> tidy_body (BList c) bs bs'
| tb_struct k c bs bs' : tidy_obj k c bs bs' -> bs <> [] -> tidy_body (BStruct c) bs bs'
| tb_raw bs : tidy_body BRaw bs bs.

(** The body of a message: its fields; for a PACKET_OUT, fixed fields, as many
    bytes of actions as the length field before them says, and data, the ingress
    port being one a controller may name; for
    statistics, fixed fields and a body.  What follows the fields is [rest]. *)
Inductive tidy_message : cid -> bytes -> bytes -> bytes -> Prop :=
| tm_fields k c bs bs' rest : special c = false -> tidy_fields k (body_fields c) bs bs' -> (k = TAIL -> rest = []) -> tidy_message c bs bs' rest
| tm_packet_out v fs lc pc d b1 b1' b2 b2' data :
    body_fields (out_class v) = fs ++ [("actions", VList lc pc []); ("data", d)] ->
    tidy_fields SD fs b1 b1' -> u16_at (match v with V01 => 6 | V04 => 8 end) b1 (zlen b2) -> tidy_items pc b2 b2' ->
    sending_port v (place_value (slice 4 (match v with V01 => 6 | V04 => 8 end) b1)) ->
    tidy_message (out_class v) (b1 ++ b2 ++ data) (b1' ++ b2' ++ data) []
| tm_stats f fs d t form b1 b1' b2 b2' rest :
    body_fields (stats_class f) = fs ++ [("body", d)] -> tidy_fields SD fs b1 b1' -> u16_at 0 b1 t -> In (t, form) (stats_forms f) ->
    tidy_body form b2 b2' -> (rest = [] \/ exists c, form = BStruct c /\ tidy_obj SD c b2 b2') -> tidy_message (stats_class f) (b1 ++ b2) (b1' ++ b2') rest.
