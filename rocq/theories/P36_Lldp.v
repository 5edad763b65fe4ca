(** Theorems: C69 (what is read from bytes taken for a TLV or an LLDP packet). *)
From Coq Require Import ZArith List Bool String.
From Verif Require Import Base PyText Ids PyVal NetTypes SpecNet SpecLldp LldpFacts.
Import ListNotations.
Open Scope list_scope.
Open Scope Z_scope.

Theorem c69_tlv : forall x pre bs, wf_bytes bs ->
  (exists y k, reads (is_sub x) bs y k /\ tlv_unpack x (pre ++ bs) (List.length pre) = Ok y /\ tlv_size y = Ok (Z.of_nat k) /\ (k <= List.length bs)%nat) \/
  ((forall y k, ~ reads (is_sub x) bs y k) /\ tlv_unpack x (pre ++ bs) (List.length pre) = Err UnpackException).
Proof. exact tlv_any. Qed.
Print Assumptions c69_tlv.

Theorem c69_lldp : forall pre bs, wf_bytes bs -> pre ++ bs <> [] ->
  (exists p, reads_lldp bs p /\ lldp_unpack (pre ++ bs) (List.length pre) = Ok p) \/
  ((forall p, ~ reads_lldp bs p) /\ lldp_unpack (pre ++ bs) (List.length pre) = Err UnpackException).
Proof. exact lldp_any. Qed.
Print Assumptions c69_lldp.

(** Only one reading is possible. *)
Theorem c69_unique : forall sub bs x k y l, reads sub bs x k -> reads sub bs y l -> x = y /\ k = l.
Proof. exact reads_fun. Qed.
Print Assumptions c69_unique.

(** Without any bytes the packet is the default one. *)
Theorem c69_empty : forall off, lldp_unpack [] off = Ok (mk_lldp (SubTlv 1 7 (VBin VNone)) (SubTlv 2 7 (VBin VNone)) (Tlv 3 (VUInt 2 None (VInt 120))) (Tlv 0 (VBin VNone))).
Proof. reflexivity. Qed.
Print Assumptions c69_empty.

(** A TLV with sub type and length 0 takes three bytes, one more than it says. *)
Theorem c69_overrun_refuted : exists bs x k, wf_bytes bs /\ reads true bs x k /\ k = 3%nat /\ firstn 2 bs = [2; 0].
Proof.
  exists [2; 0; 9], (SubTlv 1 9 (VBin (VBytes []))), 3%nat. split; [repeat constructor; discriminate|].
  split; [exact (reads_sub 2 0 9 [] 1 0 [] eq_refl (le_n_S _ _ (Nat.le_0_l _)) eq_refl)|split; reflexivity].
Qed.
Print Assumptions c69_overrun_refuted.

(** Cases: the last value is cut short by the end; the packet ends too early. *)
Example c69_case :
  lldp_unpack [0; 2; 3; 7; 49; 50; 4; 2; 5; 51; 6; 2; 0; 120; 10; 9; 1; 2] 1
  = Ok (mk_lldp (SubTlv 1 7 (VBin (VBytes [49; 50]))) (SubTlv 2 5 (VBin (VBytes [51]))) (Tlv 3 (VBin (VBytes [0; 120]))) (Tlv 5 (VBin (VBytes [1; 2])))) /\
  lldp_unpack [2; 3; 7; 49; 50; 4; 2; 5; 51; 6; 2; 0; 120; 10] 0 = Err UnpackException /\
  lldp_unpack [2; 3; 7; 49; 50; 4; 2] 0 = Err UnpackException /\
  reads true [2; 3; 7; 49; 50; 4; 2] (SubTlv 1 7 (VBin (VBytes [49; 50]))) 5.
Proof.
  split; [vm_compute; reflexivity|]. split; [vm_compute; reflexivity|]. split; [vm_compute; reflexivity|].
  refine (reads_sub 2 3 7 [49; 50; 4; 2] 1 3 [49; 50] eq_refl _ eq_refl). vm_compute. repeat constructor.
Qed.
