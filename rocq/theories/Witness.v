(** Concrete objects used by the refutations and examples.  [with_attrs o l] is
    the object [o] (as its constructor leaves it) after the assignments [l]. *)
From Coq Require Import ZArith List Bool String.
From Verif Require Import Base PyText Ids PyVal Classes Interp.
Import ListNotations.
Open Scope string_scope.
Open Scope list_scope.
Open Scope Z_scope.

Definition with_attrs (o : pyval) (l : list (string * pyval)) : pyval :=
  match o with
  | VObj c attrs => VObj c (fold_left (fun a p => set_attr (fst p) (snd p) a) l attrs)
  | _ => o
  end.

(** MeterBandDrop(rate=100, burst_size=10) *)
Definition drop_band : pyval :=
  with_attrs new_MeterBandDrop04 [("rate", VInt 100); ("burst_size", VInt 10)].
(** MeterMod(xid=0, command=OFPMC_ADD, flags=OFPMF_KBPS, meter_id=5,
             bands=ListOfMeterBandHeader([MeterBandDrop(100, 10)])) *)
Definition meter_mod : pyval :=
  with_attrs new_MeterMod04
    [("command", VInt 0); ("flags", VInt 1); ("meter_id", VInt 5);
     ("bands", VList ListOfMeterBandHeader04 MeterBandHeader04 [drop_band])].

(** GroupDescStats(length=40, group_type=1, group_id=9,
                   buckets=ListOfBuckets([Bucket(length=32, weight=1, watch_port=1, watch_group=2,
                     actions=ListOfActions([ActionOutput(port=3)])])))
    for OpenFlow 1.3. *)
Definition output_action : pyval :=
  with_attrs new_ActionOutput04 [("port", VInt 3)].
Definition bucket : pyval :=
  with_attrs new_Bucket04
    [("length", VInt 32); ("weight", VInt 1); ("watch_port", VInt 1); ("watch_group", VInt 2);
     ("actions", VList ListOfActions04 ActionHeader04 [output_action])].
Definition group_desc : pyval :=
  with_attrs new_GroupDescStats04
    [("length", VInt 40); ("group_type", VInt 1); ("group_id", VInt 9);
     ("buckets", VList ListOfBuckets04 Bucket04 [bucket])].

(** QueueGetConfigRequest(xid=0, port=1), OpenFlow 1.0. *)
Definition queue_request01 : pyval := with_attrs new_QueueGetConfigRequest01 [("port", VInt 1)].
(** QueueGetConfigRequest(xid=0, port=OFPP_ANY), OpenFlow 1.3. *)
Definition queue_request04 : pyval := with_attrs new_QueueGetConfigRequest04 [("port", VInt 0xffffffff)].
