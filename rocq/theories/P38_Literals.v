(** C71: the texts accepted as addresses, whatever the text. *)
From Coq Require Import ZArith List Bool String.
From Verif Require Import Base PyText Ids PyVal Classes Interp Spec SpecBasic Addr SpecLiteral LiteralFacts.
Import ListNotations.
Open Scope string_scope.
Open Scope list_scope.
Open Scope Z_scope.

(** The numbers in an address are read by int(): exactly the texts of
    [SpecLiteral], with the value given there; ValueError for any other. *)
Theorem c71_int : forall base t z, base = 10 \/ base = 16 -> (py_int base t = Ok z <-> int_text base t z).
Proof. exact int_iff. Qed.
Print Assumptions c71_int.

Theorem c71_int_refused : forall base t, base = 10 \/ base = 16 ->
  (forall z, ~ int_text base t z) -> py_int base t = Err ValueError.
Proof. exact int_refused. Qed.
Print Assumptions c71_int_refused.

(** An IPv4 address is encoded exactly when it is four such numbers from 0 to
    255 with dots between them, and to these. *)
Theorem c71_ip : forall a m bs, ~ In 47 a ->
  (pack (VIP (VStr a) m) = Ok bs <->
   exists parts, a = separated 46 parts /\ Forall2 (int_text 10) parts bs /\ List.length bs = 4%nat /\ wf_bytes bs).
Proof. exact ip_reads. Qed.
Print Assumptions c71_ip.

(** A hardware address: six hexadecimal numbers with colons between them. *)
Theorem c71_hw : forall s bs,
  pack (VHW (VStr s)) = Ok bs <->
  exists parts, s = separated 58 parts /\ Forall2 (int_text 16) parts bs /\ List.length bs = 6%nat /\ wf_bytes bs.
Proof. exact hw_reads. Qed.
Print Assumptions c71_hw.

(** A datapath id: eight; and an IPv6 address without [::]: eight numbers of 16
    bits. *)
Theorem c71_dpid : forall s bs,
  pack (VDPID (VStr s)) = Ok bs <->
  exists parts, s = separated 58 parts /\ Forall2 (int_text 16) parts bs /\ List.length bs = 8%nat /\ wf_bytes bs.
Proof. exact dpid_reads. Qed.
Print Assumptions c71_dpid.

Theorem c71_ip6 : forall a m bs, ~ In 47 a ->
  (ip6_pack (mk_ipv6 a m) = Ok bs <->
   exists parts zs, a = separated 58 parts /\ Forall2 (int_text 16) parts zs /\ List.length zs = 8%nat /\
     Forall is_word zs /\ bs = words zs).
Proof. exact ip6_reads. Qed.
Print Assumptions c71_ip6.

(** What follows a slash does not matter to pack(). *)
Theorem c71_slash : forall a q m, ~ In 47 a ->
  pack (VIP (VStr (a ++ 47 :: q)) m) = pack (VIP (VStr a) m) /\
  ip6_pack (mk_ipv6 (a ++ 47 :: q) m) = ip6_pack (mk_ipv6 a m).
Proof. exact after_slash. Qed.
Print Assumptions c71_slash.

(** The constructors: the prefix length is the number after the only slash. *)
Theorem c71_ip_prefix : forall a t b c nm, ~ In 47 a ->
  ip_init a nm = Ok (VIP (VStr a) (match nm with Some m => m | None => 32 end)) /\
  (forall n, int_text 10 t n -> ip_init (a ++ 47 :: t) nm = Ok (VIP (VStr a) n)) /\
  (~ In 47 t -> (forall n, ~ int_text 10 t n) -> ip_init (a ++ 47 :: t) nm = Err ValueError) /\
  ip_init (a ++ 47 :: b ++ 47 :: c) nm = Err ValueError.
Proof. exact ip_prefix_any. Qed.
Print Assumptions c71_ip_prefix.

Theorem c71_ip6_prefix : forall a t b c nm, ~ In 47 a ->
  (exists x, ip6_init a nm = Ok x /\ ip6_netmask x = match nm with Some m => m | None => 128 end /\
    (forall n, int_text 10 t n -> exists y, ip6_init (a ++ 47 :: t) nm = Ok y /\ ip6_netmask y = n /\ ip6_value y = ip6_value x)) /\
  (~ In 47 t -> (forall n, ~ int_text 10 t n) -> ip6_init (a ++ 47 :: t) nm = Err ValueError) /\
  ip6_init (a ++ 47 :: b ++ 47 :: c) nm = Err ValueError.
Proof. exact ip6_prefix_any. Qed.
Print Assumptions c71_ip6_prefix.

(** So the usual four groups of one to three digits are not required. *)
Theorem c71_strict_refuted :
  (exists a bs, a = txt "+1_0. 0.00000.1" /\ pack (VIP (VStr a) 32) = Ok bs /\ bs = [10; 0; 0; 1]) /\
  (exists s bs, s = txt "0x1:0X_f: a :B:-0:0_0" /\ pack (VHW (VStr s)) = Ok bs /\ bs = [1; 15; 10; 11; 0; 0]) /\
  (exists a v, a = txt "10.0.0.0/-8" /\ ip_init a None = Ok v /\ v = VIP (VStr (txt "10.0.0.0")) (-8)).
Proof.
  split; [|split]; eexists _, _; (split; [reflexivity|]; split; [vm_compute; reflexivity|reflexivity]).
Qed.
Print Assumptions c71_strict_refuted.

Example c71_case :
  int_text 10 (txt " +1_0") 10 /\ int_text 16 (txt "-0X_fF") (-255) /\
  py_int 10 (txt "1__0") = Err ValueError /\ py_int 10 (txt "0x10") = Err ValueError /\
  py_int 16 (txt "_1") = Err ValueError /\ py_int 10 (txt "") = Err ValueError /\
  ip_init (txt "10.0.0.0/8/9") None = Err ValueError.
Proof.
  split; [|split; [|repeat split; vm_compute; reflexivity] ].
  - apply c71_int; [left; reflexivity|vm_compute; reflexivity].
  - apply c71_int; [right; reflexivity|vm_compute; reflexivity].
Qed.
