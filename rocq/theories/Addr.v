(** Model of the constructors of IPAddress and IPv6Address and of
    IPv6Address.pack / unpack (pyof/foundation/basic_types.py). *)
From Coq Require Import ZArith List Bool String.
From Verif Require Import Base PyText Ids PyVal Classes Interp.
Import ListNotations.
Open Scope string_scope.
Open Scope list_scope.
Open Scope Z_scope.

(** [address, netmask = address.split('/')] then [int(netmask)], or the
    default: common part of basic_types.py:272-278 and 366-381.  Unpacking a
    list of the wrong length raises ValueError. The [netmask] argument is None
    or an int. *)
Definition split_prefix (dflt : Z) (address : text) (netmask : option Z) : res (text * Z) :=
  if has_char slash address then
    match split slash address with
    | [a; n] => do m <- py_int 10 n; Ok (a, m)
    | _ => Err ValueError
    end
  else Ok (address, match netmask with Some m => m | None => dflt end).

(** IPAddress.__init__, basic_types.py:266-278. *)
Definition ip_init (address : text) (netmask : option Z) : res pyval :=
  do r <- split_prefix 32 address netmask; Ok (VIP (VStr (fst r)) (snd r)).

(** [s in t] for a two-character string made of one repeated character. *)
Fixpoint has_double (c : Z) (s : text) : bool :=
  match s with
  | x :: (y :: _) as tl => ((x =? c) && (y =? c)) || has_double c tl
  | _ => false
  end.

(** [temp.index('')]; ValueError when absent is unreachable here. *)
Fixpoint index_empty (l : list text) : nat :=
  match l with
  | [] => O
  | [] :: _ => O
  | _ :: tl => S (index_empty tl)
  end.

Definition is_nonempty (t : text) : bool := match t with [] => false | _ => true end.

(** An IPv6Address object: [_value] and [netmask]. *)
Record ipv6 : Type := mk_ipv6 { ip6_value : text; ip6_netmask : Z }.

(** Expansion of '::', basic_types.py:371-378. *)
Definition expand6 (address : text) : text :=
  if text_eqb address (txt "::") then txt "0:0:0:0:0:0:0:0"
  else if has_double colon address then
    let temp := split colon address in
    let index := index_empty temp in
    let temp := filter is_nonempty temp in
    join colon (firstn index temp ++ repeat (txt "0") (8 - List.length temp) ++ skipn index temp)
  else address.

(** IPv6Address.__init__, basic_types.py:358-381. *)
Definition ip6_init (address : text) (netmask : option Z) : res ipv6 :=
  do r <- split_prefix 128 address netmask;
  Ok (mk_ipv6 (expand6 (fst r)) (snd r)).

(** IPv6Address.pack(), basic_types.py:383-414 (value None or text). *)
Definition ip6_bytes (s : text) : res bytes :=
  let s := if has_char slash s then hd [] (split slash s) else s in
  do zs <- mapM (py_int 16) (split colon s);
  recast StructError PackException (struct_pack_seq 2 8 zs).
Definition ip6_pack (a : ipv6) : res bytes := ip6_bytes (ip6_value a).

(** IPv6Address.unpack, basic_types.py:416-440. *)
Definition ip6_unpack (a : ipv6) (buff : bytes) (off : nat) : res ipv6 :=
  do zs <- recast StructError UnpackException
             (struct_unpack_seq 2 8 (slice off (off + 16) buff));
  Ok (mk_ipv6 (join colon (map (fixed_digits 16 4) zs)) (ip6_netmask a)).

(** IPv6Address.get_size, basic_types.py:442-454. *)
Definition ip6_size (a : ipv6) : Z := 16.
