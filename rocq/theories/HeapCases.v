(** Cases for object identity. *)
From Coq Require Import ZArith List String Lia.
From Verif Require Import Base PyText PyVal Ids Classes Inits Interp Match01 Construct Heap SpecHeap HeapFacts HeapThm HeapMatch.
Import ListNotations.
Open Scope string_scope.
Open Scope list_scope.
Open Scope Z_scope.

Lemma separate_objects shared rnd rnd' c c' h h1 h2 l1 l2 : closed h ->
  c <> AggregateStatsRequest01 -> c' <> AggregateStatsRequest01 ->
  hconstruct shared rnd c [] [] h = Ok (h1, l1) -> hconstruct shared rnd' c' [] [] h1 = Ok (h2, l2) ->
  (forall k, reach h2 (HRef l1) k -> reach h2 (HRef l2) k -> False) /\
  (forall h3 v, changed_through (HRef l2) h2 h3 -> holds h2 (HRef l1) v -> holds h3 (HRef l1) v) /\
  (forall h3 v, changed_through (HRef l1) h2 h3 -> holds h2 (HRef l2) v -> holds h3 (HRef l2) v).
Proof.
  intros C N N' E1 E2.
  assert (M : forall c, c <> AggregateStatsRequest01 -> mutable_defaults c = []).
  { clear. intros c N. rewrite defaults_table. destruct c; first [reflexivity|elim N; reflexivity]. }
  split; [exact (construct_separate _ _ _ _ _ _ _ _ _ _ C (M c N) (M c' N') E1 E2)|].
  exact (separate_unchanged _ _ _ _ _ _ _ _ _ _ C (M c N) (M c' N') E1 E2).
Qed.
Definition get_ok {A} (d : A) (r : res A) : A := match r with Ok a => a | Err _ => d end.

(** The heap after the module was imported: the default match. *)
Definition default_match := alloc (VObj Match01 match_new) [].
Definition default_loc : loc := match snd default_match with HRef l => l | HImm _ => O end.
Definition defaults_at : cid -> string -> loc := fun _ _ => default_loc.
Definition first_request := get_ok ([], O) (hconstruct defaults_at 0 AggregateStatsRequest01 [] [] (fst default_match)).
Definition second_request := get_ok ([], O) (hconstruct defaults_at 0 AggregateStatsRequest01 [] [] (fst first_request)).
(** [second.match.in_port = 7], flow_match.py:83-98 *)
Definition new_match : dict := fst (match_set "in_port" (VInt 7) match_new).
Definition after_set : heap :=
  match nth_error (fst second_request) default_loc with
  | Some (StructCell c fs) =>
      write default_loc (StructCell c (hset "in_port" (HImm (VInt 7))
        (hset "wildcards" (match get_attr "wildcards" new_match with Some v => HImm v | None => HImm VNone end) fs))) (fst second_request)
  | _ => fst second_request
  end.
Definition value_of (h : heap) (l : loc) : pyval := get_ok VNone (view h (HRef l)).
Definition packed (v : pyval) : bytes := get_ok [] (pack v).

Ltac contents :=
  repeat first [ apply dict_nil | apply items_nil | apply dict_cons | apply items_cons
               | apply holds_imm; reflexivity | eapply holds_struct; [reflexivity|]
               | eapply holds_leaf; reflexivity | eapply holds_list; [reflexivity|] ].
Fixpoint all_cells (f : nat -> cell -> bool) (n : nat) (h : heap) : bool :=
  match h with [] => true | c :: tl => f n c && all_cells f (S n) tl end.
Lemma all_cells_nth f : forall h n, all_cells f n h = true -> forall l c, nth_error h l = Some c -> f (n + l)%nat c = true.
Proof.
  induction h as [|x h IH]; intros n E [|l] c N; cbn in *; try discriminate; apply andb_prop in E as [E1 E2].
  - injection N as ->. rewrite Nat.add_0_r. exact E1.
  - rewrite Nat.add_succ_r. exact (IH (S n) E2 l c N).
Qed.
Lemma closed_check h : all_cells (fun _ c => forallb (fun r => match r with HImm _ => true | HRef l => Nat.ltb l (List.length h) end) (kids c)) 0 h = true -> closed h.
Proof.
  intros E l c r N I. apply (all_cells_nth _ _ _ E) in N. rewrite forallb_forall in N. specialize (N r I). destruct r; cbn; [exact Logic.I|].
  apply Nat.ltb_lt, N.
Qed.
Lemma default_match_held : holds (fst default_match) (HRef default_loc) (VObj Match01 match_new).
Proof. exact (alloc_holds (VObj Match01 match_new) []). Qed.

Lemma shared_match : exists shared h h1 h2 h3 l1 l2 k v v' b b',
  closed h /\ defaults_hold shared h (mutable_defaults AggregateStatsRequest01) /\
  hconstruct shared 0 AggregateStatsRequest01 [] [] h = Ok (h1, l1) /\
  hconstruct shared 0 AggregateStatsRequest01 [] [] h1 = Ok (h2, l2) /\
  reach h2 (HRef l1) k /\ reach h2 (HRef l2) k /\
  changed_through (HRef l2) h2 h3 /\ holds h2 (HRef l1) v /\ holds h3 (HRef l1) v' /\
  pack v = Ok b /\ pack v' = Ok b' /\ b <> b'.
Proof.
  exists defaults_at, (fst default_match), (fst first_request), (fst second_request), after_set,
    (snd first_request), (snd second_request), default_loc,
    (value_of (fst second_request) (snd first_request)), (value_of after_set (snd first_request)),
    (packed (value_of (fst second_request) (snd first_request))), (packed (value_of after_set (snd first_request))).
  assert (R1 : reach (fst second_request) (HRef (snd first_request)) default_loc).
  { eapply reach_step with (r := HRef default_loc); [vm_compute; reflexivity|vm_compute; auto|apply reach_here]. }
  assert (R2 : reach (fst second_request) (HRef (snd second_request)) default_loc).
  { eapply reach_step with (r := HRef default_loc); [vm_compute; reflexivity|vm_compute; auto|apply reach_here]. }
  repeat match goal with |- _ /\ _ => split end.
  - apply closed_check. vm_compute. reflexivity.
  - intros k m ps code v I C P. rewrite defaults_table in I. destruct I as [I|[] ]. injection I as <- <-.
    vm_compute in C. injection C as <- <-. destruct P as [P|P].
    + injection P as <-. exact default_match_held.
    + repeat (destruct P as [P|P]; [discriminate P|]). destruct P.
  - vm_compute. reflexivity.
  - vm_compute. reflexivity.
  - exact R1.
  - exact R2.
  - intros l c N NR. assert (L : l <> default_loc) by (intros ->; exact (NR R2)).
    change after_set with (write default_loc (match nth_error after_set default_loc with Some c => c | None => LeafCell VNone end) (fst second_request)).
    rewrite nth_write by (apply nth_error_Some; congruence). rewrite (proj2 (Nat.eqb_neq l default_loc) L). exact N.
  - vm_compute. contents.
  - vm_compute. contents.
  - vm_compute. reflexivity.
  - vm_compute. reflexivity.
  - vm_compute. discriminate.
Qed.

(** What the first request contains afterwards is the changed match. *)
Example shared_match_case :
  packed (value_of (fst second_request) (snd first_request))
    = [0; 56; 32; 255] ++ List.repeat 0 36 ++ [255; 0; 255; 255] /\
  packed (value_of after_set (snd first_request))
    = [0; 56; 32; 254; 0; 7] ++ List.repeat 0 34 ++ [255; 0; 255; 255].
Proof. vm_compute. auto. Qed.

(** Two greetings: the header of the second is another object. *)
Definition hello1 := get_ok ([], O) (hconstruct defaults_at 1 Hello01 [] [] []).
Definition hello2 := get_ok ([], O) (hconstruct defaults_at 2 Hello01 [] [] (fst hello1)).
Example separate_case :
  hconstruct defaults_at 1 Hello01 [] [] [] = Ok hello1 /\ hconstruct defaults_at 2 Hello01 [] [] (fst hello1) = Ok hello2 /\
  packed (value_of (fst hello2) (snd hello1)) = [1; 0; 0; 8; 0; 0; 0; 1] /\
  packed (value_of (fst hello2) (snd hello2)) = [1; 0; 0; 8; 0; 0; 0; 2].
Proof. vm_compute. auto. Qed.

(** An argument is taken over, not copied: the flow mod leads to the match given. *)
Definition with_match := get_ok ([], O) (hconstruct defaults_at 1 FlowMod01 [] [("match", HRef default_loc); ("xid", HImm (VInt 3))] (fst default_match)).
Example argument_case :
  hconstruct defaults_at 1 FlowMod01 [] [("match", HRef default_loc); ("xid", HImm (VInt 3))] (fst default_match) = Ok with_match /\
  reach (fst with_match) (HRef (snd with_match)) default_loc.
Proof.
  split; [vm_compute; reflexivity|].
  eapply reach_step with (r := HRef default_loc); [vm_compute; reflexivity|vm_compute; auto 20|apply reach_here].
Qed.

(** A match made with arguments. *)
Definition given_address : heap := [LeafCell (VHW (VStr (txt "00:00:00:00:00:09")))].
Definition made_match := get_ok ([], O)
  (hconstruct defaults_at 1 Match01 [] [("in_port", HImm (VInt 7)); ("dl_src", HRef O); ("nw_src", HImm (VStr (txt "10.0.0.0/8")))] given_address).
Lemma match_case :
  hconstruct defaults_at 1 Match01 [] [("in_port", HImm (VInt 7)); ("dl_src", HRef O); ("nw_src", HImm (VStr (txt "10.0.0.0/8")))] given_address = Ok made_match /\
  attribute (fst made_match) (snd made_match) "dl_src" (HRef O) /\
  packed (value_of (fst made_match) (snd made_match)) =
    [0; 56; 24; 250; 0; 7; 0; 0; 0; 0; 0; 9] ++ List.repeat 0 16 ++ [10; 0; 0; 0] ++ List.repeat 0 8.
Proof.
  assert (E : hconstruct defaults_at 1 Match01 [] [("in_port", HImm (VInt 7)); ("dl_src", HRef O); ("nw_src", HImm (VStr (txt "10.0.0.0/8")))] given_address = Ok made_match)
    by (vm_compute; reflexivity).
  split; [exact E|]. split; [|vm_compute; reflexivity].
  destruct made_match as [h' l] eqn:M. cbn [fst snd].
  refine (match_given defaults_at 1 _ given_address h' l "dl_src" (HRef O) (VHW (VStr (txt "00:00:00:00:00:09"))) E _ _ _ _).
  - repeat constructor; cbn; intuition discriminate.
  - discriminate.
  - right. left. reflexivity.
  - apply holds_leaf; reflexivity.
Qed.

(** Another match given the same address object. *)
Definition other_match := get_ok ([], O) (hconstruct defaults_at 2 Match01 [] [("dl_dst", HRef O)] (fst made_match)).
Lemma common_case :
  hconstruct defaults_at 2 Match01 [] [("dl_dst", HRef O)] (fst made_match) = Ok other_match /\
  reach (fst other_match) (HRef (snd made_match)) O /\ reach (fst other_match) (HRef (snd other_match)) O.
Proof.
  split; [vm_compute; reflexivity|].
  split; (eapply reach_step with (r := HRef O); [vm_compute; reflexivity|vm_compute; auto 20|apply reach_here]).
Qed.
