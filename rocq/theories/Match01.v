(** Attribute assignment on the OpenFlow 1.0 Match and the wildcards it keeps,
    pyof/v0x01/common/flow_match.py:66-203.

    An assignment gives the new instance dictionary and the exception it
    raised, if any: the attribute is already stored when the wildcards are
    computed.  Not modelled: assigning to the name of a method; structures as
    values; items other than int and str in a list given as an IPv4 address, and
    members of enumerations, structures and lists in one given as a hardware
    address. *)
From Coq Require Import ZArith List Bool String Ascii.
From Verif Require Import Base PyText Ids PyVal Classes Interp Addr Operators.
Import ListNotations.
Open Scope string_scope.
Open Scope list_scope.
Open Scope Z_scope.

Definition dict : Type := list (string * pyval).

(** str(x) of an int or str. *)
Definition py_str (v : pyval) : res text :=
  match v with
  | VInt z => Ok (if z <? 0 then 45 :: str_dec (- z) else str_dec z)
  | VStr s => Ok s
  | _ => Err TypeError
  end.
(** "{0:0{1}x}".format(x, 2) *)
Definition hex_str (z : Z) : text := fixed_digits 16 (num_digits 16 (Z.to_nat (Z.log2 z)) z) z.
Definition py_hex2 (v : pyval) : res text :=
  match v with
  | VInt z => Ok (if z <? 0 then 45 :: hex_str (- z)
                  else if z <? 256 then fixed_digits 16 2 z else hex_str z)
  | VStr _ => Err ValueError
  | _ => Err TypeError
  end.

(** IPAddress(value): only a str has ['/' in value]. *)
Definition to_ip (v : pyval) : res pyval :=
  match v with VStr s => ip_init s None | _ => Err TypeError end.

(** First half of __setattr__, flow_match.py:125-139. *)
Definition convert (default value : pyval) : res pyval :=
  match default, value with
  | VIP _ _, VIP _ _ => Ok value
  | VIP _ _, VList _ _ items => do l <- mapM py_str items; to_ip (VStr (join dot l))
  | VIP _ _, _ => to_ip value
  | VHW _, VHW _ => Ok value
  | VHW _, VList _ _ items => do l <- mapM py_hex2 items; Ok (VHW (VStr (join colon l)))
  | VHW _, _ => Ok (VHW value)
  | _, _ => Ok value
  end.

(** field.upper(), ASCII letters. *)
Definition upper_char (c : ascii) : ascii :=
  let n := nat_of_ascii c in
  if (Nat.leb 97 n && Nat.leb n 122)%bool then ascii_of_nat (n - 32) else c.
Fixpoint upper (s : string) : string :=
  match s with
  | EmptyString => EmptyString
  | String c tl => String (upper_char c) (upper tl)
  end.

Definition ALL_BITS : Z := 0x3fffff.      (* OFPFW_ALL, flow_match.py:59-60 *)
Definition SRC_SHIFT : Z := 8.            (* flow_match.py:45-49 *)
Definition SRC_MASK : Z := Z.shiftl 63 8.
Definition DST_SHIFT : Z := 14.           (* flow_match.py:51-55 *)
Definition DST_MASK : Z := Z.shiftl 63 14.

(** [self.wildcards op= x]; assigning wildcards computes nothing
    (flow_match.py:173-174). *)
Definition update (op : binop) (x : Z) (m : dict) : res dict :=
  do w <- attr_or_error "wildcards" m;
  do r <- py_op op w (VInt x);
  Ok (set_attr "wildcards" r m).

(** bool of the outcome of [self.wildcards & wildcard]. *)
Definition nonzero (v : pyval) : bool := negb (plain_eq v (VInt 0)).

(** [value == default and not (self.wildcards & bit) or
     value != default and (self.wildcards & bit)], flow_match.py:201-202. *)
Definition toggles (value default w : pyval) (bit : Z) : res bool :=
  do e <- py_eq value default;
  do first <- (if e then do r <- py_op BAnd w (VInt bit); Ok (negb (nonzero r)) else Ok false);
  if first then Ok true
  else if py_ne value default then do r <- py_op BAnd w (VInt bit); Ok (nonzero r)
       else Ok false.

(** fill_wildcards, flow_match.py:163-203. *)
Definition fill_wildcards (field : string) (value default : pyval) (m : dict) : dict * option exn :=
  match value with
  | VPad _ => (m, None)
  | _ =>
      if String.eqb field "wildcards" then (m, None)
      else match default with
           | VIP _ _ =>
               let shift := if String.eqb field "nw_dst" then DST_SHIFT else SRC_SHIFT in
               let mask := if String.eqb field "nw_dst" then DST_MASK else SRC_MASK in
               match update BAnd (Z.lxor ALL_BITS mask) m with
               | Err e => (m, Some e)
               | Ok m1 =>
                   match value with
                   | VIP _ prefix =>
                       match update BOr (Z.shiftl (32 - prefix) shift) m1 with
                       | Err e => (m1, Some e)
                       | Ok m2 => (m2, None)
                       end
                   | _ => (m1, Some AttributeError)
                   end
               end
           | _ =>
               match class_member E_FlowWildCards01 ("OFPFW_" ++ upper field)%string with
               | Err e => (m, Some e)
               | Ok bit =>
                   match (do w <- attr_or_error "wildcards" m; toggles value default w bit) with
                   | Err e => (m, Some e)
                   | Ok false => (m, None)
                   | Ok true => match update BXor bit m with
                                | Err e => (m, Some e)
                                | Ok m' => (m', None)
                                end
                   end
               end
           end
  end.

(** __setattr__, flow_match.py:125-142. *)
Definition match_set (name : string) (value : pyval) (m : dict) : dict * option exn :=
  match get_attr name (class_attrs Match01) with
  | None => (m, Some AttributeError)
  | Some default =>
      match convert default value with
      | Err e => (m, Some e)
      | Ok v => fill_wildcards name v default (set_attr name v m)
      end
  end.

(** A sequence of assignments by a caller that goes on after exceptions. *)
Fixpoint match_run (l : list (string * pyval)) (m : dict) : dict :=
  match l with
  | [] => m
  | (name, v) :: tl => match_run tl (fst (match_set name v m))
  end.

(** GenericStruct.__init__, base.py:501-504, with this __setattr__. *)
Definition match_new : dict :=
  match_run (map (fun p => (fst p, deepcopy (snd p))) (class_attrs Match01)) [].
