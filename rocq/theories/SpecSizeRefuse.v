(** When get_size() fails, and with which exception (C67).

    [size_refused cv iv e]: a field declared as [cv] that holds [iv] makes
    get_size() raise [e]. *)
From Coq Require Import ZArith List Bool String.
From Verif Require Import Base PyText Ids PyVal Classes Interp SpecBasic SpecMutation SpecLayout SpecReject SpecReject2.
Import ListNotations.
Open Scope string_scope.
Open Scope list_scope.
Open Scope Z_scope.

Inductive size_refused : pyval -> pyval -> exn -> Prop :=
| zr_raw d iv : no_object (or_default d iv) = true -> or_default d iv <> VNone -> (forall b, or_default d iv <> VBytes b) ->
    size_refused (VBin d) iv ValueError
| zr_raw_object d iv e : no_object (or_default d iv) = false -> get_size (or_default d iv) = Err e -> size_refused (VBin d) iv e
| zr_default c ca e : get_size (VObj c ca) = Err e -> size_refused (VObj c ca) VNone e
| zr_class c ca iv : c <> Match04 -> iv <> VNone -> other_class c iv -> size_refused (VObj c ca) iv PackException
| zr_match ca iv : iv <> VNone -> other_class Match04 iv -> size_refused (VObj Match04 ca) iv ValueError
| zr_object c ca iv e : iv <> VNone -> subclass (class_of iv) c = true -> get_size iv = Err e -> size_refused (VObj c ca) iv e
| zr_list lc pc l iv e : lc <> CFixedTypeList -> iv <> VNone -> taken_size lc pc iv (Err e) -> size_refused (VList lc pc l) iv e.

(** The first field whose size cannot be told. *)
Definition first_unsized (c : cid) (attrs : list (string * pyval)) (e : exn) : Prop :=
  exists before f after iv, class_attrs c = before ++ f :: after /\
    Forall (fun g => exists v, get_attr (fst g) attrs = Some v /\ forall e', ~ size_refused (snd g) v e') before /\
    get_attr (fst f) attrs = Some iv /\ size_refused (snd f) iv e.

(** The first item whose size cannot be told; only the first one of a list that
    starts with an object of a basic type is asked. *)
Definition unsized_item (items : list pyval) (e : exn) : Prop :=
  exists before x after, items = before ++ x :: after /\ Forall (fun y => exists n, get_size y = Ok n) before /\ get_size x = Err e /\
    match before with [] => True | y :: _ => basic y = false end.
