(** Calls of constructors with arguments: GenericStruct.__init__
    (base.py:501-504), GenericMessage.__init__ (base.py:765-768) and the
    __init__ methods of the classes (Inits.v).

    The number GenericMessage.__init__ draws with randint(0, MAXID) is the
    argument [rnd].  Simplifications: a constructor called in an __init__
    without arguments ([Match()], [ListOfActions()]) is the constant of
    Classes.v; a keyword given twice is a TypeError. *)
From Coq Require Import ZArith List Bool String.
From Verif Require Import Base PyText Ids PyVal Classes Interp Match01 Inits.
Import ListNotations.
Open Scope string_scope.
Open Scope list_scope.
Open Scope Z_scope.

(** Arguments of a call with positional and keyword arguments, for parameters
    that all have a default. *)
Fixpoint key {A} (n : string) (kw : list (string * A)) : option A :=
  match kw with
  | [] => None
  | (k, v) :: tl => if String.eqb k n then Some v else key n tl
  end.
Fixpoint drop_key {A} (n : string) (kw : list (string * A)) : list (string * A) :=
  match kw with
  | [] => []
  | (k, v) :: tl => if String.eqb k n then tl else (k, v) :: drop_key n tl
  end.
Fixpoint bind_args {A} (ps : list (string * A)) (pos : list A) (kw : list (string * A)) : res (list (string * A)) :=
  match ps with
  | [] => match pos, kw with [], [] => Ok [] | _, _ => Err TypeError end
  | (n, d) :: ps' =>
      match pos with
      | v :: pos' => do env <- bind_args ps' pos' kw; Ok ((n, v) :: env)
      | [] => match key n kw with
              | Some v => do env <- bind_args ps' [] (drop_key n kw); Ok ((n, v) :: env)
              | None => do env <- bind_args ps' [] kw; Ok ((n, d) :: env)
              end
      end
  end.

(** Expressions; [size] is get_size, which __len__ of the basic types calls. *)
Definition eval (size : pyval -> res Z) (env : dict) (e : iexpr) : res pyval :=
  match e with
  | XConst v => Ok v
  | XArg n => match get_attr n env with Some v => Ok v | None => Err UnboundLocalError end
  | XIfNone n v => match get_attr n env with
                   | Some VNone => Ok v
                   | Some a => Ok a
                   | None => Err UnboundLocalError
                   end
  | XOr n v => match get_attr n env with
               | Some a => do t <- truthy size a; Ok (if t then a else v)
               | None => Err UnboundLocalError
               end
  end.

(** [self.header.n = v] *)
Definition set_header (n : string) (v : pyval) (d : dict) : res dict :=
  match get_attr "header" d with
  | Some (VObj h attrs) => Ok (set_attr "header" (VObj h (set_attr n v attrs)) d)
  | _ => Err AttributeError
  end.

Section Init.
Variable size : pyval -> res Z.               (* get_size of an object *)
Variable plain_size : cid -> dict -> res Z.   (* GenericStruct.get_size *)
Variable rnd : Z.
Variable self : cid.                          (* type(self) *)

(** One statement; [super] calls __init__ of the base. *)
Definition istep (super : list pyval -> dict -> dict -> res dict) (env : dict) (s : istmt) (d : dict) : res dict :=
  match s with
  | ISuper pos kw =>
      do ps <- mapM (eval size env) pos;
      do ks <- mapM (fun p => do v <- eval size env (snd p); Ok (fst p, v)) kw;
      super ps ks d
  | ISet n e => do v <- eval size env e; Ok (set_attr n v d)
  | IHeader n e => do v <- eval size env e; set_header n v d
  | IUpdateLength => do s <- size (VObj self d); Ok (set_attr "length" (VInt s) d)
  | IMatchLength => do s <- plain_size self d; Ok (set_attr "length" (VInt s) d)
  end.
Fixpoint isteps (super : list pyval -> dict -> dict -> res dict) (env : dict) (code : list istmt) (d : dict) : res dict :=
  match code with
  | [] => Ok d
  | s :: tl => do d' <- istep super env s d; isteps super env tl d'
  end.

Definition copies : dict := map (fun p => (fst p, deepcopy (snd p))) (class_attrs self).

(** __init__ as found from class [k] on; the counter bounds the number of
    bases. *)
Fixpoint run_init (n : nat) (k : cid) (pos : list pyval) (kw d : dict) : res dict :=
  match n with
  | O => Err OutOfFuel
  | S n' =>
      match k with
      | CGenericStruct =>
          do _ <- bind_args [] pos kw;
          Ok (fold_left (fun d p => set_attr (fst p) (snd p) d) copies d)
      | CGenericMessage =>
          do env <- bind_args [("xid", VNone)] pos kw;
          do d1 <- run_init n' CGenericStruct [] [] d;
          do v <- eval size env (XIfNone "xid" (VInt rnd));
          set_header "xid" v d1
      | _ =>
          match class_base k with
          | None => Err TypeError
          | Some b =>
              match init_code k with
              | None => run_init n' b pos kw d
              | Some (ps, code) =>
                  do env <- bind_args ps pos kw;
                  isteps (run_init n' b) env code d
              end
          end
      end
  end.
End Init.

(** The constructor of Match of OpenFlow 1.0, which takes any keywords,
    flow_match.py:100-123: every assignment
    goes through __setattr__. *)
Fixpoint set_each (kw d : dict) : res dict :=
  match kw with
  | [] => Ok d
  | (n, v) :: tl => match match_set n v d with
                    | (d', None) => set_each tl d'
                    | (_, Some e) => Err e
                    end
  end.
Definition match_init (pos : list pyval) (kw : dict) : res dict :=
  match pos with [] => set_each kw match_new | _ => Err TypeError end.

Definition INIT_DEPTH : nat := 6.
Definition construct (rnd : Z) (c : cid) (pos : list pyval) (kw : dict) : res pyval :=
  match c with
  | Match01 => do d <- match_init pos kw; Ok (VObj c d)
  | _ => do d <- run_init get_size (fun c d => struct_size get_size c d) rnd c INIT_DEPTH c pos kw []; Ok (VObj c d)
  end.
