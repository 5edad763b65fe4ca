(** Constructors with object identity: which objects are created and which
    are shared.  The same calls as in Construct.v, but objects are cells of a
    heap and attributes refer to them.

    GenericStruct.__init__ (base.py:501-504) stores deep copies of the class
    attributes, so objects made by it are new cells; a constructor called in
    an __init__ ([Match()]) makes new cells at every call; the default value
    of a parameter is evaluated once, when the class is defined, so one object
    is shared by all calls that omit the argument.  [self.header.n = v] writes
    into the cell of the header.

    Simplifications: what a basic type holds ([_value]) is part of its cell;
    the cell of the new object is made last; keywords of Match of OpenFlow 1.0
    are taken to be distinct, as Python checks at the call. *)
From Coq Require Import ZArith List Bool String.
From Verif Require Import Base PyText Ids PyVal Classes Interp Match01 Inits Construct.
Import ListNotations.
Open Scope string_scope.
Open Scope list_scope.
Open Scope Z_scope.

Definition loc := nat.
(** A value in an attribute, a list or an argument: an immutable object by
    value, any other by reference. *)
Inductive hval : Type :=
| HImm (v : pyval)
| HRef (l : loc).
Inductive cell : Type :=
| LeafCell (v : pyval)                                        (* basic types, bit masks *)
| StructCell (c : cid) (attrs : list (string * hval))
| ListCell (lc pc : cid) (items : list hval).
Definition heap := list cell.
Definition hdict := list (string * hval).

Definition immutable (v : pyval) : bool :=
  match v with VNone | VInt _ | VStr _ | VBytes _ | VEnum _ _ => true | _ => false end.

(** A new object with the contents [v]: deepcopy, or a constructor call. *)
Fixpoint alloc (v : pyval) (h : heap) {struct v} : heap * hval :=
  match v with
  | VObj c attrs =>
      let r := (fix go (l : list (string * pyval)) (h : heap) : heap * hdict :=
                  match l with
                  | [] => (h, [])
                  | (n, x) :: tl => let a := alloc x h in let b := go tl (fst a) in (fst b, (n, snd a) :: snd b)
                  end) attrs h in
      (fst r ++ [StructCell c (snd r)], HRef (List.length (fst r)))
  | VList lc pc items =>
      let r := (fix go (l : list pyval) (h : heap) : heap * list hval :=
                  match l with
                  | [] => (h, [])
                  | x :: tl => let a := alloc x h in let b := go tl (fst a) in (fst b, snd a :: snd b)
                  end) items h in
      (fst r ++ [ListCell lc pc (snd r)], HRef (List.length (fst r)))
  | _ => if immutable v then (h, HImm v) else (h ++ [LeafCell v], HRef (List.length h))
  end.
Fixpoint alloc_dict (l : dict) (h : heap) : heap * hdict :=
  match l with
  | [] => (h, [])
  | (n, x) :: tl => let a := alloc x h in let b := alloc_dict tl (fst a) in (fst b, (n, snd a) :: snd b)
  end.

(** The contents of an object; [None] for a structure that contains itself. *)
Fixpoint all_some {A} (l : list (option A)) : option (list A) :=
  match l with
  | [] => Some []
  | None :: _ => None
  | Some a :: tl => option_map (cons a) (all_some tl)
  end.
Fixpoint view_n (n : nat) (h : heap) (r : hval) : option pyval :=
  match r with
  | HImm v => Some v
  | HRef l =>
      match n with
      | O => None
      | S n' =>
          match nth_error h l with
          | None => None
          | Some (LeafCell v) => Some v
          | Some (StructCell c fs) =>
              option_map (VObj c) (all_some (map (fun p => option_map (pair (fst p)) (view_n n' h (snd p))) fs))
          | Some (ListCell lc pc items) =>
              option_map (VList lc pc) (all_some (map (view_n n' h) items))
          end
      end
  end.
Definition view (h : heap) (r : hval) : res pyval :=
  match view_n (List.length h) h r with Some v => Ok v | None => Err OutOfFuel end.
Definition view_dict (h : heap) (d : hdict) : res dict :=
  mapM (fun p => do v <- view h (snd p); Ok (fst p, v)) d.

(** Attributes of the object under construction. *)
Fixpoint hget (n : string) (d : hdict) : option hval :=
  match d with
  | [] => None
  | (k, v) :: tl => if String.eqb k n then Some v else hget n tl
  end.
Fixpoint hset (n : string) (v : hval) (d : hdict) : hdict :=
  match d with
  | [] => [(n, v)]
  | (k, x) :: tl => if String.eqb k n then (k, v) :: tl else (k, x) :: hset n v tl
  end.
Fixpoint write (l : loc) (c : cell) (h : heap) : heap :=
  match h, l with
  | [], _ => []
  | _ :: tl, O => c :: tl
  | x :: tl, S l' => x :: write l' c tl
  end.

(** Expressions of an __init__. *)
Section Init.
Variable size : pyval -> res Z.               (* get_size of an object *)
Variable plain_size : cid -> dict -> res Z.   (* GenericStruct.get_size *)

Definition heval (h : heap) (env : hdict) (e : iexpr) : res (heap * hval) :=
  match e with
  | XConst v => Ok (alloc v h)
  | XArg n => match hget n env with Some r => Ok (h, r) | None => Err UnboundLocalError end
  | XIfNone n v => match hget n env with
                   | Some (HImm VNone) => Ok (alloc v h)
                   | Some r => Ok (h, r)
                   | None => Err UnboundLocalError
                   end
  | XOr n v => match hget n env with
               | Some r => do a <- view h r; do t <- truthy size a; Ok (if t then (h, r) else alloc v h)
               | None => Err UnboundLocalError
               end
  end.
Fixpoint heval_list (h : heap) (env : hdict) (es : list iexpr) : res (heap * list hval) :=
  match es with
  | [] => Ok (h, [])
  | e :: tl => do a <- heval h env e; do b <- heval_list (fst a) env tl; Ok (fst b, snd a :: snd b)
  end.
Fixpoint heval_dict (h : heap) (env : hdict) (es : list (string * iexpr)) : res (heap * hdict) :=
  match es with
  | [] => Ok (h, [])
  | (n, e) :: tl => do a <- heval h env e; do b <- heval_dict (fst a) env tl; Ok (fst b, (n, snd a) :: snd b)
  end.

(** [self.header.n = r] *)
Definition hset_header (n : string) (r : hval) (h : heap) (d : hdict) : res heap :=
  match hget "header" d with
  | Some (HRef l) => match nth_error h l with
                     | Some (StructCell c fs) => Ok (write l (StructCell c (hset n r fs)) h)
                     | _ => Err AttributeError
                     end
  | _ => Err AttributeError
  end.

Variable shared : cid -> string -> loc.   (* where the default of a parameter of a class is *)
Variable rnd : Z.
Variable self : cid.

Definition hdefault (k : cid) (p : string * pyval) : string * hval :=
  (fst p, if immutable (snd p) then HImm (snd p) else HRef (shared k (fst p))).

Definition hstep (super : list hval -> hdict -> heap -> hdict -> res (heap * hdict))
    (env : hdict) (s : istmt) (h : heap) (d : hdict) : res (heap * hdict) :=
  match s with
  | ISuper pos kw =>
      do a <- heval_list h env pos;
      do b <- heval_dict (fst a) env kw;
      super (snd a) (snd b) (fst b) d
  | ISet n e => do a <- heval h env e; Ok (fst a, hset n (snd a) d)
  | IHeader n e => do a <- heval h env e; do h' <- hset_header n (snd a) (fst a) d; Ok (h', d)
  | IUpdateLength => do v <- view_dict h d; do s <- size (VObj self v); Ok (h, hset "length" (HImm (VInt s)) d)
  | IMatchLength => do v <- view_dict h d; do s <- plain_size self v; Ok (h, hset "length" (HImm (VInt s)) d)
  end.
Fixpoint hsteps (super : list hval -> hdict -> heap -> hdict -> res (heap * hdict))
    (env : hdict) (code : list istmt) (h : heap) (d : hdict) : res (heap * hdict) :=
  match code with
  | [] => Ok (h, d)
  | s :: tl => do a <- hstep super env s h d; hsteps super env tl (fst a) (snd a)
  end.

Fixpoint hrun_init (n : nat) (k : cid) (pos : list hval) (kw : hdict) (h : heap) (d : hdict) : res (heap * hdict) :=
  match n with
  | O => Err OutOfFuel
  | S n' =>
      match k with
      | CGenericStruct =>
          do _ <- bind_args [] pos kw;
          let a := alloc_dict (copies self) h in
          Ok (fst a, fold_left (fun d p => hset (fst p) (snd p) d) (snd a) d)
      | CGenericMessage =>
          do env <- bind_args [("xid", HImm VNone)] pos kw;
          do a <- hrun_init n' CGenericStruct [] [] h d;
          do b <- heval (fst a) env (XIfNone "xid" (VInt rnd));
          do h' <- hset_header "xid" (snd b) (fst b) (snd a);
          Ok (h', snd a)
      | _ =>
          match class_base k with
          | None => Err TypeError
          | Some b =>
              match init_code k with
              | None => hrun_init n' b pos kw h d
              | Some (ps, code) =>
                  do env <- bind_args (map (hdefault k) ps) pos kw;
                  hsteps (hrun_init n' b) env code h d
              end
          end
      end
  end.
End Init.

(** One assignment in the constructor of Match of OpenFlow 1.0,
    flow_match.py:120-142: an address given as an address object is stored as
    it is, one given in another form becomes a new object; the wildcards
    computed are an int, flow_match.py:163-203. *)
Definition stored_as_given (default value : pyval) : bool :=
  match default, value with
  | VIP _ _, VIP _ _ | VHW _, VHW _ => true
  | VIP _ _, _ | VHW _, _ => false
  | _, _ => true
  end.
Definition hmatch_set (name : string) (r : hval) (h : heap) (d : hdict) : res (heap * hdict) :=
  match get_attr name (class_attrs Match01) with
  | None => Err AttributeError
  | Some default =>
      do v <- view h r;
      do x <- convert default v;
      let a := if stored_as_given default v then (h, r) else alloc x h in
      let d1 := hset name (snd a) d in
      do m <- view_dict (fst a) d1;
      match fill_wildcards name x default m with
      | (_, Some e) => Err e
      | (m', None) => Ok (fst a, match get_attr "wildcards" m' with
                                 | Some (VInt z) => hset "wildcards" (HImm (VInt z)) d1
                                 | _ => d1
                                 end)
      end
  end.
Fixpoint hset_each (kw : hdict) (h : heap) (d : hdict) : res (heap * hdict) :=
  match kw with
  | [] => Ok (h, d)
  | (n, r) :: tl => do a <- hmatch_set n r h d; hset_each tl (fst a) (snd a)
  end.
Definition hmatch_init (pos : list hval) (kw : hdict) (h : heap) : res (heap * hdict) :=
  match pos with
  | [] => let a := alloc_dict match_new h in hset_each kw (fst a) (snd a)
  | _ => Err TypeError
  end.

(** The call [c( *pos, **kw )]: the heap after it and the new object. *)
Definition hconstruct (shared : cid -> string -> loc) (rnd : Z) (c : cid) (pos : list hval) (kw : hdict) (h : heap)
  : res (heap * loc) :=
  match c with
  | Match01 => do a <- hmatch_init pos kw h; Ok (fst a ++ [StructCell c (snd a)], List.length (fst a))
  | _ => do a <- hrun_init get_size (fun c d => struct_size get_size c d) shared rnd c INIT_DEPTH c pos kw h [];
         Ok (fst a ++ [StructCell c (snd a)], List.length (fst a))
  end.
