(** Packets that follow the standard: for C58.

    The layout is that of SpecTidy.v.  Here the fields also hold values that the
    standard allows: a number of an enumeration is a declared one, text is ASCII
    and ends with a NUL, the class and field of a match field are declared. *)
From Coq Require Import ZArith List Bool String.
From Verif Require Import Base PyText Ids PyVal Classes Utils Spec SpecMsg SpecBasic SpecLayout SpecStruct SpecReencode SpecTidy.
Import ListNotations.
Open Scope string_scope.
Open Scope list_scope.
Open Scope Z_scope.

Definition allowed (d : pyval) (bs : bytes) : Prop :=
  match d with
  | VUInt _ (Some e) _ => bit_mask_class e \/ declared e (place_value bs)
  | VChar _ _ => Forall (fun b => b < 128) bs /\ exists s, bs = s ++ [0]
  | _ => True
  end.
(** Bytes 0 to 2 of a match field: its class, its field and whether there is a
    mask. *)
Definition allowed_match (h1 h2 h3 : Z) : Prop :=
  declared E_OxmClass04 (256 * h1 + h2) /\ (256 * h1 + h2 = 0x8000 -> declared E_OxmOfbMatchField04 (h3 / 2)).

Inductive fit : delim -> pyval -> bytes -> Prop :=
| ft_leaf d bs : kept_width d = Some (List.length bs) -> allowed d bs -> fit SD d bs
| ft_pad k bs : List.length bs = k -> fit SD (VPad k) bs
| ft_data d bs : fit TAIL (VBin d) bs
| ft_struct k c a bs : fit_obj k c bs -> fit k (VObj c a) bs
| ft_list lc pc bs : lc <> CFixedTypeList \/ bs = [] -> fit_items pc bs -> fit TAIL (VList lc pc []) bs
with fit_fields : delim -> list (string * pyval) -> bytes -> Prop :=
| ff_nil : fit_fields SD [] []
| ff_last n d bs : fit TAIL d bs -> fit_fields TAIL [(n, d)] bs
| ff_cons k n d fs b1 b2 : fit SD d b1 -> fit_fields k fs b2 -> fit_fields k ((n, d) :: fs) (b1 ++ b2)
with fit_items : cid -> bytes -> Prop :=
| fi_nil pc : fit_items pc []
| fi_last k pc bs : fit_obj k pc bs -> bs <> [] -> fit_items pc bs
| fi_cons pc b1 b2 : fit_obj SD pc b1 -> b1 <> [] -> fit_items pc b2 -> fit_items pc (b1 ++ b2)
with fit_obj : delim -> cid -> bytes -> Prop :=
| fo_plain k c bs : In c plain_structures -> fit_fields k (class_attrs c) bs -> fit_obj k c bs
| fo_length k c at_ bs : length_at c = Some at_ -> fit_fields k (class_attrs c) bs -> u16_at at_ bs (zlen bs) -> fit_obj SD c bs
| fo_action01 t c bs : In (t, c) action01_table -> fit_fields SD (class_attrs c) bs -> u16_at 0 bs t -> fit_obj SD ActionHeader01 bs
| fo_coded k root tbl t c bs : coded_04 root -> coded root = Some tbl -> In (t, c) tbl -> c <> ActionSetField04 ->
    fit_fields k (class_attrs c) bs -> u16_at 0 bs t -> u16_at 2 bs (zlen bs) ->
    (root = ActionHeader04 -> zlen bs mod 8 = 0) -> fit_obj SD root bs
| fo_set_field body pad : fit_fields SD (class_attrs ActionSetField04) body -> u16_at 0 body 25 -> u16_at 2 body (zlen (body ++ pad)) ->
    zlen (body ++ pad) mod 8 = 0 -> (List.length pad < 8)%nat -> fit_obj SD ActionHeader04 (body ++ pad)
| fo_oxm h1 h2 h3 value : allowed_match h1 h2 h3 -> fit_obj SD OxmTLV04 ([h1; h2; h3; zlen value] ++ value)
| fo_match k body pad : fit_fields k (class_attrs Match04) body -> u16_at 2 body (zlen body) ->
    zlen (body ++ pad) mod 8 = 0 -> (List.length pad < 8)%nat -> fit_obj SD Match04 (body ++ pad)
| fo_bucket b1 b2 : fit_fields SD (removelast (class_attrs Bucket04)) b1 -> fit_items ActionHeader04 b2 ->
    u16_at 0 (b1 ++ b2) (zlen (b1 ++ b2)) -> fit_obj SD Bucket04 (b1 ++ b2).

Inductive fit_body : body_form -> bytes -> Prop :=
| fb_list c bs : fit_items c bs -> fit_body (BList c) bs
| fb_struct k c bs : fit_obj k c bs -> bs <> [] -> fit_body (BStruct c) bs
| fb_raw bs : fit_body BRaw bs.

(** The body of a message and what follows it.  Here a message may also end
    with a list that the library declares as a plain FixedTypeList, and an error
    has one of the codes of its type. *)
Inductive fit_message : cid -> bytes -> bytes -> Prop :=
| fm_fields k c bs rest : special c = false -> fit_fields k (body_fields c) bs -> (k = TAIL -> rest = []) -> fit_message c bs rest
| fm_list c fs n lc pc b1 b2 : special c = false -> body_fields c = fs ++ [(n, VList lc pc [])] -> fit_fields SD fs b1 -> b1 <> [] -> fit_items pc b2 ->
    fit_message c (b1 ++ b2) []
| fm_error v t e code data : In (t, e) (error_codes v) -> declared e code ->
    fit_message (error_class v) (be_encode 2 t ++ be_encode 2 code ++ data) []
| fm_packet_out v fs lc pc d b1 b2 data :
    body_fields (out_class v) = fs ++ [("actions", VList lc pc []); ("data", d)] ->
    fit_fields SD fs b1 -> u16_at (match v with V01 => 6 | V04 => 8 end) b1 (zlen b2) -> fit_items pc b2 ->
    fit_message (out_class v) (b1 ++ b2 ++ data) []
| fm_stats f fs d t form b1 b2 rest :
    body_fields (stats_class f) = fs ++ [("body", d)] -> fit_fields SD fs b1 -> u16_at 0 b1 t -> In (t, form) (stats_forms f) ->
    fit_body form b2 -> (rest = [] \/ exists c, form = BStruct c /\ fit_obj SD c b2) -> fit_message (stats_class f) (b1 ++ b2) rest.
