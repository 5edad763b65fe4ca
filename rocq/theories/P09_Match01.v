(** C22, C23: the wildcards of the OpenFlow 1.0 match under any history of
    assignments. *)
From Coq Require Import ZArith List Bool String Lia.
From Verif Require Import Base PyText Ids PyVal Classes Interp Samples Operators Match01 SpecBasic SpecOps SpecMatch MatchFacts MatchAddrFacts.
Import ListNotations.
Open Scope string_scope.
Open Scope list_scope.
Open Scope Z_scope.

(** C22: after any assignments with one of the meanings of [SpecMatch.meaning],
    the bit of every field is set exactly when the value last assigned is the
    default, and no other bit appears.  Partial: values without a meaning (see
    c22_*_refuted) are excluded, and so are assignments to wildcards itself. *)
Theorem c22_flags_partial : forall l effs, history l effs ->
  exists w, wildcards_are (match_run l match_new) w /\ 0 <= w < 2 ^ 22 /\
    forall name k, In (name, k) flag_bits -> Z.testbit w k = last_flag name true effs.
Proof. exact history_flags. Qed.
Print Assumptions c22_flags_partial.

(** The number field holds the assigned value, whatever it is. *)
Theorem c22_stored : forall name w v m, In (name, w) number_fields ->
  get_attr name (fst (match_set name v m)) = Some v.
Proof. exact number_stored. Qed.
Print Assumptions c22_stored.

(** An address given as a list of any integers is stored as their text. *)
Theorem c22_mac_list : forall name lc pc zs m, In name ["dl_src"; "dl_dst"] ->
  exists ts, Forall2 hex_item zs ts /\
    get_attr name (fst (match_set name (VList lc pc (map VInt zs)) m)) = Some (VHW (VStr (separated 58 ts))).
Proof. exact mac_list_stored. Qed.
Print Assumptions c22_mac_list.

Theorem c22_ip_list : forall name lc pc zs m, In name ["nw_src"; "nw_dst"] ->
  exists ts, Forall2 dec_item zs ts /\
    get_attr name (fst (match_set name (VList lc pc (map VInt zs)) m)) = Some (VIP (VStr (separated 46 ts)) 32).
Proof. exact ip_list_stored. Qed.
Print Assumptions c22_ip_list.

(** An address given as text is stored as it is, without its prefix length. *)
Theorem c22_mac_text : forall name s m, In name ["dl_src"; "dl_dst"] ->
  get_attr name (fst (match_set name (VStr s) m)) = Some (VHW (VStr s)).
Proof. exact mac_text_stored. Qed.
Print Assumptions c22_mac_text.

Theorem c22_ip_text : forall name a m, In name ["nw_src"; "nw_dst"] -> ~ In 47 a ->
  get_attr name (fst (match_set name (VStr a) m)) = Some (VIP (VStr a) 32) /\
  forall t p, dec_numeral t p ->
    get_attr name (fst (match_set name (VStr (a ++ 47 :: t)) m)) = Some (VIP (VStr a) p).
Proof. exact ip_text_stored. Qed.
Print Assumptions c22_ip_text.

(** An address object is stored itself. *)
Theorem c22_address : forall name m,
  (In name ["dl_src"; "dl_dst"] -> forall x, get_attr name (fst (match_set name (VHW x) m)) = Some (VHW x)) /\
  (In name ["nw_src"; "nw_dst"] -> forall x p, get_attr name (fst (match_set name (VIP x p) m)) = Some (VIP x p)).
Proof. exact object_stored. Qed.
Print Assumptions c22_address.

(** Nothing else changes but the wildcards, whatever the value. *)
Theorem c22_frame : forall name v m m' e n, match_set name v m = (m', e) ->
  n <> name -> n <> "wildcards" -> get_attr n m' = get_attr n m.
Proof. exact match_set_frame. Qed.
Print Assumptions c22_frame.

(** C23: the two counts are 32 minus the prefix length last assigned.  Partial:
    histories as above, in particular prefix lengths 0 to 32. *)
Theorem c23_counts_partial : forall l effs, history l effs ->
  exists w, wildcards_are (match_run l match_new) w /\
    (w / 2 ^ 8) mod 64 = 32 - last_prefix false 0 effs /\
    (w / 2 ^ 14) mod 64 = 32 - last_prefix true 0 effs.
Proof. exact history_prefixes. Qed.
Print Assumptions c23_counts_partial.

(** Assigning an address, from any state, leaves every bit outside its own count. *)
Theorem c23_frame : forall name v p m w m' e, In name ["nw_src"; "nw_dst"] -> ip_prefix v p -> 0 <= p <= 32 ->
  wildcards_are m w -> 0 <= w < 2 ^ 22 -> match_set name v m = (m', e) ->
  e = None /\ exists w', wildcards_are m' w' /\
    forall i, 0 <= i ->
      (if String.eqb name "nw_dst" then 14 <= i < 20 else 8 <= i < 14) \/ Z.testbit w' i = Z.testbit w i.
Proof. exact address_frame. Qed.
Print Assumptions c23_frame.

(** The full statement is false: a prefix length above 32 disturbs the other
    count, and the wildcards can be assigned like any field. *)
Theorem c23_refuted : (exists v m w, v = VStr (txt "10.0.0.1/33") /\ match_set "nw_src" v match_new = (m, None) /\
    wildcards_are match_new w /\ (w / 2 ^ 14) mod 64 = 32 /\
    exists w', wildcards_are m w' /\ (w' / 2 ^ 14) mod 64 <> 32) /\
  (exists m w, match_set "wildcards" (VInt 5) match_new = (m, None) /\ wildcards_are m w /\ (w / 2 ^ 8) mod 64 <> 32).
Proof.
  split.
  - eexists _, _, 0x3820ff. split; [reflexivity|]. split; [vm_compute; reflexivity|].
    split; [eexists; split; [vm_compute; reflexivity|left; reflexivity]|]. split; [reflexivity|].
    exists (-1). split; [eexists; split; [vm_compute; reflexivity|left; reflexivity]|discriminate].
  - eexists _, 5. split; [vm_compute; reflexivity|].
    split; [eexists; split; [vm_compute; reflexivity|left; reflexivity]|discriminate].
Qed.
Print Assumptions c23_refuted.

(** The constructor of the generated samples is this state machine. *)
Example c22_new : VObj Match01 match_new = new_Match01.
Proof. vm_compute. reflexivity. Qed.

Definition sample_history : list (string * pyval) :=
  [("in_port", VInt 7); ("nw_src", VStr (txt "10.1.0.0/16")); ("dl_src", VStr (txt "00:00:00:00:00:01"));
   ("in_port", VUInt 2 None (VInt 0)); ("tp_dst", VInt 80); ("nw_dst", VStr (txt "10.0.0.1"))].
Definition sample_effects : list effect :=
  [Flag "in_port" false; Prefix false 16; Flag "dl_src" false; Flag "in_port" true;
   Flag "tp_dst" false; Prefix true 32].
Example c22_sample : history sample_history sample_effects.
Proof.
  repeat apply Forall2_cons; try apply Forall2_nil.
  - apply (me_number "in_port" 2 (VInt 7) 7); [cbn; tauto|constructor].
  - apply (me_ip "nw_src" _ 16); [cbn; tauto| |lia].
    apply (ip_slash (txt "10.1.0.0") (txt "16") 16).
    + vm_compute. intuition discriminate.
    + apply (num_more 10 dec_digit_of [49] 1 54 6); [|unfold dec_digit_of; lia].
      apply num_one. unfold dec_digit_of. lia.
  - eapply (me_mac "dl_src"); [cbn; tauto|left; reflexivity|vm_compute; reflexivity|discriminate].
  - apply (me_number "in_port" 2 _ 0); [cbn; tauto|]. apply st_uint; [constructor|].
    intros _. unfold fits. cbn. lia.
  - apply (me_number "tp_dst" 2 (VInt 80) 80); [cbn; tauto|constructor].
  - apply (me_ip "nw_dst" _ 32); [cbn; tauto| |lia]. apply (ip_plain (txt "10.0.0.1")).
    vm_compute. intuition discriminate.
Qed.
Example c22_sample_value : wildcards_are (match_run sample_history match_new) 0x30107b.
Proof. eexists. split; [vm_compute; reflexivity|left; reflexivity]. Qed.

(** The full statements are false.  A prefix length above 32, which the
    constructor accepts, sets bits outside the 22. *)
Theorem c22_outside_refuted : exists v m e w, match_set "nw_dst" v match_new = (m, e) /\
  v = VStr (txt "10.0.0.1/33") /\ wildcards_are m w /\ ~ 0 <= w < 2 ^ 22.
Proof.
  eexists _, _, _, (-16384 + 0x0020ff). split; [|split; [reflexivity|split] ].
  - vm_compute. reflexivity.
  - eexists. split; [vm_compute; reflexivity|left; reflexivity].
  - lia.
Qed.
Print Assumptions c22_outside_refuted.

(** The default hardware address written in another way is both equal and
    unequal to the default, and every assignment toggles the bit. *)
Theorem c22_toggle_refuted : exists v m1 m2 w1 w2,
  pack v = Ok [0; 0; 0; 0; 0; 0] /\
  match_set "dl_src" v match_new = (m1, None) /\ wildcards_are m1 w1 /\ Z.testbit w1 2 = false /\
  match_set "dl_src" v m1 = (m2, None) /\ wildcards_are m2 w2 /\ Z.testbit w2 2 = true.
Proof.
  exists (VHW (VStr (txt "0:0:0:0:0:0"))). eexists _, _, 0x3820fb, 0x3820ff.
  split; [vm_compute; reflexivity|]. split; [vm_compute; reflexivity|].
  split; [eexists; split; [vm_compute; reflexivity|left; reflexivity]|]. split; [reflexivity|].
  split; [vm_compute; reflexivity|].
  split; [eexists; split; [vm_compute; reflexivity|left; reflexivity]|]. reflexivity.
Qed.
Print Assumptions c22_toggle_refuted.

(** An integer object out of range raises after the field is stored, and the
    bit stays that of the old value. *)
Theorem c22_range_refuted : exists v m w, match_set "in_port" v match_new = (m, Some PackException) /\
  get_attr "in_port" m = Some v /\ v = VUInt 2 None (VInt 65536) /\
  wildcards_are m w /\ Z.testbit w 0 = true.
Proof.
  eexists _, _, 0x3820ff. split; [|split; [|split; [reflexivity|split] ] ].
  - vm_compute. reflexivity.
  - vm_compute. reflexivity.
  - eexists. split; [vm_compute; reflexivity|left; reflexivity].
  - reflexivity.
Qed.
Print Assumptions c22_range_refuted.

Example c22_mac_list_case :
  get_attr "dl_src" (fst (match_set "dl_src" (VList CList CNone (map VInt [0; 171; -5; 300])) match_new)) =
  Some (VHW (VStr (txt "00:ab:-5:12c"))).
Proof. vm_compute. reflexivity. Qed.
Example c22_ip_list_case :
  get_attr "nw_dst" (fst (match_set "nw_dst" (VList CList CNone (map VInt [10; 0; -1; 123456789012345678901234567890])) match_new)) =
  Some (VIP (VStr (txt "10.0.-1.123456789012345678901234567890")) 32).
Proof. vm_compute. reflexivity. Qed.
