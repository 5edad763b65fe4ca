(** A computable form of the wire relation of [Spec] and [SpecMsg]: reference
    encoders that return the bytes and the decoded value of a well-formed
    value, [None] for others.  They follow the rules of the relations, not the
    model of the code; [RefFacts] proves that what they return is in the
    relations.  Used to state decidable well-formedness and for examples. *)
From Coq Require Import ZArith List Bool String.
From Verif Require Import Base PyText Ids PyVal Classes Interp Utils Spec SpecMsg.
Import ListNotations.
Open Scope string_scope.
Open Scope list_scope.
Open Scope Z_scope.

Definition text_eqb (a b : list Z) : bool := if list_eq_dec Z.eq_dec a b then true else false.
Definition guard {A} (b : bool) (x : option A) : option A := if b then x else None.
Definition obind {A B} (x : option A) (f : A -> option B) : option B :=
  match x with Some a => f a | None => None end.
Notation "'let?' x ':=' e 'in' k" := (obind e (fun x => k)) (at level 200, x name, k at level 200).

Definition ref_int (v : pyval) : option Z :=
  match v with
  | VInt z => Some z
  | VEnum _ z => Some z
  | VUInt _ _ (VInt z) => Some z
  | VUInt _ (Some e) (VEnum e' z) =>
      guard (negb (is_mask_enum e)) (guard (eid_eqb e e') (Some z))
  | VUInt _ (Some e) (VMask _ z) => guard (is_mask_enum e) (Some z)
  | _ => None
  end.
Definition ref_exact (v : pyval) : option Z :=
  match v with
  | VInt z => Some z
  | VEnum e z => guard (is_int_enum e) (Some z)
  | VUInt _ _ (VInt z) => Some z
  | VUInt _ (Some e) (VEnum e' z) =>
      guard (negb (is_mask_enum e)) (guard (eid_eqb e e') (Some z))
  | _ => None
  end.
Definition ref_allowed (er : option eid) (z : Z) : bool :=
  match er with None => true | Some e => is_mask_enum e || is_member e z end.

(** The text a field holds, directly or in an instance of its own type. *)
Definition ref_text (iv d : pyval) : option text :=
  match iv with
  | VStr s => Some s
  | VNone => match d with VStr s => Some s | _ => None end
  | _ => None
  end.

Definition ref_hex_digit (c : Z) : option Z :=
  if (48 <=? c) && (c <=? 57) then Some (c - 48)
  else if (97 <=? c) && (c <=? 102) then Some (c - 87)
  else if (65 <=? c) && (c <=? 70) then Some (c - 55)
  else None.
Definition ref_hex_byte (p : text) : option Z :=
  match p with
  | [c] => ref_hex_digit c
  | [c1; c2] => let? a := ref_hex_digit c1 in let? b := ref_hex_digit c2 in Some (16 * a + b)
  | _ => None
  end.
Fixpoint omap {A B} (f : A -> option B) (l : list A) : option (list B) :=
  match l with
  | [] => Some []
  | a :: tl => let? x := f a in let? xs := omap f tl in Some (x :: xs)
  end.
Definition ref_hex (s : text) : option bytes :=
  let parts := split colon s in
  guard (text_eqb (join colon parts) s) (omap ref_hex_byte parts).
Definition ref_dec (p : text) : Z := fold_left (fun a c => 10 * a + (c - 48)) p 0.
Definition ref_dotted (s : text) : option bytes :=
  let bs := map ref_dec (split dot s) in
  guard (text_eqb (dotted bs) s && forallb (fun b => (0 <=? b) && (b <? 256)) bs) (Some bs).

Definition ref_u16 (p : nat) (bs : bytes) : option Z :=
  guard (Nat.leb (p + 2) (List.length bs)) (Some (be_decode (slice p (p + 2) bs))).
Definition is_u16 (p : nat) (bs : bytes) (z : Z) : bool :=
  text_eqb (slice p (p + 2) bs) (be_encode 2 z) && Nat.leb (p + 2) (List.length bs)
  && (0 <=? z) && (z <? 65536).

Definition same_names (a b : list string) : bool :=
  if list_eq_dec string_dec a b then true else false.
Definition completeb (c : cid) (attrs : list (string * pyval)) : bool :=
  same_names (map fst (own c attrs)) (field_names c).

(** How the value ends, whether get_size() announces its length, bytes and
    decoded value. *)
Definition coded : Type := (delim * bool * bytes * pyval)%type.

Definition ref_leaf (cv iv : pyval) : option coded :=
  match cv with
  | VUInt w er d =>
      let? z := (match iv with VNone => ref_int cv | _ => ref_int iv end) in
      guard (Nat.ltb 0 w && (0 <=? z) && (z <? ulimit w) && ref_allowed er z)
        (Some (SD, true, be_encode w z, VUInt w er (decoded_int er z)))
  | VPad len => Some (SD, true, repeat 0 len, VPad len)
  | VChar len d =>
      let? s := (match iv with
                 | VChar l (VStr s) => guard (Nat.eqb l len) (Some s)
                 | _ => ref_text iv d
                 end) in
      let pad := (len - List.length s)%nat in
      guard (forallb (fun c => (0 <=? c) && (c <? 128)) s && text_eqb (rstrip 0 s) s &&
             Nat.ltb (List.length s) len)
        (Some (SD, true, s ++ repeat 0 pad, VChar len (VStr s)))
  | VIP d m =>
      let? s := (match iv with VIP (VStr s) _ => Some s | _ => ref_text iv d end) in
      let? bs := ref_dotted s in
      match bs with
      | [b1; b2; b3; b4] => Some (SD, true, bs, VIP (VStr s) m)
      | _ => None
      end
  | VHW d =>
      match iv with
      | VInt 0 | VHW (VInt 0) =>
          Some (SD, true, [0; 0; 0; 0; 0; 0], VHW (VStr (hex_canonical [0; 0; 0; 0; 0; 0])))
      | _ =>
          let? s := (match iv with VHW (VStr s) => Some s | _ => ref_text iv d end) in
          let? bs := ref_hex s in
          match bs with
          | [b1; b2; b3; b4; b5; b6] => Some (SD, true, bs, VHW (VStr (hex_canonical bs)))
          | _ => None
          end
      end
  | VDPID d =>
      let? s := (match iv with VDPID (VStr s) => Some s | _ => ref_text iv d end) in
      let? bs := ref_hex s in
      guard (Nat.eqb (List.length bs) 8) (Some (SD, true, bs, VDPID (VStr (hex_canonical bs))))
  | _ => None
  end.

Definition as_struct (x : option coded) : option coded :=
  match x with Some (k, true, bs, out) => Some (k, true, bs, out) | _ => None end.

Definition ref_payload (robj : cid -> pyval -> option coded) (v : pyval) : option bytes :=
  match v with
  | VBytes bs => Some bs
  | VNone => Some []
  | VBin (VBytes bs) => Some bs
  | VBin VNone => Some []
  | VObj c _ => match robj c v with Some (_, true, bs, _) => Some bs | _ => None end
  | _ => None
  end.

Fixpoint ref_items (robj : cid -> pyval -> option coded) (pc : cid) (vs : list pyval)
  : option (bytes * list pyval) :=
  match vs with
  | [] => Some ([], [])
  | v :: tl =>
      let? r := robj pc v in
      match r with
      | (k, true, (_ :: _) as bs, out) =>
          match tl with
          | [] => Some (bs, [out])
          | _ => match k with
                 | SD => let? r2 := ref_items robj pc tl in Some (bs ++ fst r2, out :: snd r2)
                 | TAIL => None
                 end
          end
      | _ => None
      end
  end.

(** A field: [robj] for the structures at this depth, [robj'] for the items of
    lists, one level deeper. *)
Definition ref_enc (n : nat) (robj robj' : cid -> pyval -> option coded) (cv iv : pyval) : option coded :=
  match n with
  | O => None
  | S _ =>
      match cv with
      | VBin d =>
          let? bs := ref_payload robj (match iv with VNone => d | _ => iv end) in
          Some (TAIL, true, bs, VBin (VBytes bs))
      | VObj c cattrs =>
          guard (same_names (map fst cattrs) (start_keys c) &&
                 match kind c with KBucket | KAction04 | KSetField04 => false | _ => true end)
            (match iv with
             | VNone => as_struct (robj c cv)
             | VObj c' _ => guard (cid_eqb c' c) (as_struct (robj c iv))
             | _ => None
             end)
      | VList lc pc [] =>
          guard (subclass lc CFixedTypeList)
            (match iv with
             | VNone => Some (TAIL, true, [], VList CFixedTypeList pc [])
             | VList lc' _ items =>
                 let? r := ref_items robj' pc items in
                 if cid_eqb lc CFixedTypeList
                 then guard (subclass lc' CFixedTypeList)
                        (Some (TAIL, match items with [] => true | _ => false end, fst r,
                               VList CFixedTypeList pc (snd r)))
                 else Some (TAIL, true, fst r, VList CFixedTypeList pc (snd r))
             | _ => None
             end)
      | _ => ref_leaf cv iv
      end
  end.

Fixpoint ref_fields (renc : pyval -> pyval -> option coded) (fs : list (string * pyval))
         (ivs : list pyval) : option (delim * bool * bytes * list pyval) :=
  match fs, ivs with
  | [], [] => Some (SD, true, [], [])
  | (_, cv) :: fs', iv :: ivs' =>
      let? r := renc cv iv in
      match r with
      | (TAIL, sz, bs, out) =>
          match fs', ivs' with [], [] => Some (TAIL, sz, bs, [out]) | _, _ => None end
      | (SD, true, bs, out) =>
          let? r2 := ref_fields renc fs' ivs' in
          match r2 with (k, sz, bs2, outs) => Some (k, sz, bs ++ bs2, out :: outs) end
      | (SD, false, _, _) => None
      end
  | _, _ => None
  end.

(** Fields of an object whose [length] attribute is the number of bytes. *)
Definition with_length (go : list pyval -> option (delim * bool * bytes * list pyval)) (c : cid)
           (attrs : list (string * pyval)) (total : Z -> Z)
  : option (delim * bytes * list pyval) :=
  let vals l := values c (set_attr "length" (VInt l) attrs) in
  let? r := go (vals 0) in
  match r with
  | (_, _, bs0, _) =>
      let? r2 := go (vals (total (zlen bs0))) in
      match r2 with
      | (k, true, bs, outs) => guard (zlen bs =? zlen bs0) (Some (k, bs, outs))
      | _ => None
      end
  end.

Definition pairb (l : list (Z * cid)) (t : Z) (c : cid) : bool :=
  existsb (fun p => (fst p =? t) && cid_eqb (snd p) c) l.
Definition pad8 (n : Z) : nat := Z.to_nat ((- n) mod 8).

(** One encoder per family; [go] encodes the fields of class [c]. *)
Definition fields_enc : Type := list pyval -> option (delim * bool * bytes * list pyval).

Definition ref_action01 (go : fields_enc) (c : cid) (attrs : list (string * pyval)) : option coded :=
  guard (completeb c attrs)
    (let? r := go (values c attrs) in
     match r with
     | (SD, true, bs, outs) =>
         let? t := ref_u16 0 bs in
         guard (is_u16 0 bs t && pairb action01_table t c) (Some (SD, true, bs, mk c outs))
     | _ => None
     end).

Definition ref_action04 (go : fields_enc) (c : cid) (attrs : list (string * pyval)) : option coded :=
  guard (completeb c attrs)
    (if cid_eqb c ActionSetField04 then
       match get_attr "field" attrs with
       | Some (VObj OxmTLV04 _) =>
           let? r := with_length go c attrs (fun l => l + Z.of_nat (pad8 l)) in
           match r with
           | (SD, body, outs) =>
               guard (is_u16 0 body 25)
                 (Some (SD, true, body ++ repeat 0 (pad8 (zlen body)), mk c outs))
           | _ => None
           end
       | _ => None
       end
     else
       let? r := go (values c attrs) in
       match r with
       | (k, true, bs, outs) =>
           let? t := ref_u16 0 bs in
           guard (is_u16 0 bs t && is_u16 2 bs (zlen bs) && (zlen bs mod 8 =? 0) &&
                  pairb action04_table t c)
             (Some (SD, true, bs, mk c outs))
       | _ => None
       end).

Definition ref_oxm (robj : cid -> pyval -> option coded) (c : cid) (attrs : list (string * pyval))
  : option coded :=
  guard (completeb OxmTLV04 attrs && cid_eqb c OxmTLV04)
    (let? ic := get_attr "oxm_class" attrs in
     let? cl := ref_exact ic in
     let? ifd := get_attr "oxm_field" attrs in
     let? f := ref_exact ifd in
     let? im := get_attr "oxm_hasmask" attrs in
     let? m := ref_exact im in
     let? ipv := get_attr "oxm_value" attrs in
     let? payload := ref_payload robj ipv in
     guard (is_member E_OxmClass04 cl &&
            (if cl =? 0x8000 then is_member E_OxmOfbMatchField04 f
             else (0 <=? f) && (f <=? 127) && match ifd with VInt _ => true | _ => false end) &&
            (zlen payload <=? 255) && forallb (fun b => (0 <=? b) && (b <? 256)) payload)
       (Some (SD, true, be_encode 2 cl ++ [2 * f + m mod 2] ++ [zlen payload] ++ payload,
              VObj OxmTLV04
                [("oxm_class", VUInt 2 (Some E_OxmClass04) (VEnum E_OxmClass04 cl));
                 ("oxm_field_and_mask", VUInt 1 None (VInt (2 * f + m mod 2)));
                 ("oxm_length", VUInt 1 None (VInt (zlen payload)));
                 ("oxm_value", VBytes payload);
                 ("oxm_field", if cl =? 0x8000 then VEnum E_OxmOfbMatchField04 f else VInt f);
                 ("oxm_hasmask", VInt (m mod 2))]))).

Definition ref_match04 (go : fields_enc) (c : cid) (attrs : list (string * pyval)) : option coded :=
  guard (completeb c attrs && cid_eqb c Match04)
    (let? r := with_length go c attrs (fun l => l) in
     match r with
     | (_, body, outs) => Some (SD, true, body ++ repeat 0 (pad8 (zlen body)), mk c outs)
     end).

Definition ref_bucket (go : fields_enc) (c : cid) (attrs : list (string * pyval)) : option coded :=
  guard (completeb c attrs && cid_eqb c Bucket04)
    (let? il := get_attr "length" attrs in
     let? l := ref_exact il in
     let? r := go (values c attrs) in
     match r with
     | (_, _, bs, outs) => guard (zlen bs =? l) (Some (SD, true, bs, mk c outs))
     end).

(** The fields as they are, or with the [length] attribute set. *)
Definition maybe_length (upd : bool) (go : fields_enc) (c : cid) (attrs : list (string * pyval))
  : option (delim * bytes * list pyval) :=
  if upd then with_length go c attrs (fun l => l)
  else let? r := go (values c attrs) in
       match r with (k, true, bs, outs) => Some (k, bs, outs) | _ => None end.

Definition ref_struct (go : fields_enc) (base c : cid) (attrs : list (string * pyval)) : option coded :=
  match kind base with
  | KStruct | KMatch01 =>
      guard (completeb c attrs && cid_eqb c base)
        (let? r := go (values c attrs) in
         match r with (k, sz, bs, outs) => Some (k, sz, bs, mk c outs) end)
  | KLen pos upd =>
      guard (completeb c attrs && cid_eqb c base)
        (let? r := maybe_length upd go c attrs in
         match r with
         | (_, bs, outs) => guard (is_u16 pos bs (zlen bs)) (Some (SD, true, bs, mk c outs))
         end)
  | KTyped f =>
      guard (completeb c attrs && cid_eqb base (typed_root f))
        (let? r := maybe_length (match f with TMeterBand => false | _ => true end) go c attrs in
         match r with
         | (_, bs, outs) =>
             let? t := ref_u16 0 bs in
             guard (is_u16 0 bs t && is_u16 2 bs (zlen bs) && pairb (typed_table f) t c)
               (Some (SD, true, bs, mk c outs))
         end)
  | _ => None
  end.

(** One nesting level: [robj] and [robj'] encode the objects one and two
    levels deeper. *)
Definition ref_step (n : nat) (robj robj' : cid -> pyval -> option coded) (base : cid) (v : pyval)
  : option coded :=
  match v with
  | VObj c attrs =>
      let go := ref_fields (ref_enc n robj robj') (class_attrs c) in
      match base with
      | ActionHeader01 => ref_action01 go c attrs
      | ActionHeader04 => ref_action04 go c attrs
      | OxmTLV04 => match n with O => None | S _ => ref_oxm robj c attrs end
      | Match04 => ref_match04 go c attrs
      | Bucket04 => ref_bucket go c attrs
      | _ => ref_struct go base c attrs
      end
  | _ => None
  end.
Fixpoint ref_obj (n : nat) : cid -> pyval -> option coded :=
  match n with
  | O => fun _ _ => None
  | S n' => ref_step n' (ref_obj n') (match n' with S n'' => ref_obj n'' | O => fun _ _ => None end)
  end.

Definition level_enc (n : nat) : pyval -> pyval -> option coded :=
  ref_enc n (ref_obj n) (match n with S n' => ref_obj n' | O => fun _ _ => None end).

(** ** Messages *)

Definition ref_stats (n : nat) (form : body_form) (iv : pyval) : option (bytes * pyval) :=
  match form with
  | BStruct c =>
      let? r := ref_obj (S n) c iv in
      match r with (_, true, (_ :: _) as bs, out) => Some (bs, out) | _ => None end
  | BList c =>
      match iv with
      | VList lc _ items =>
          guard (subclass lc CFixedTypeList)
            (let? r := ref_items (ref_obj n) c items in Some (fst r, VList CFixedTypeList c (snd r)))
      | VNone | VBytes [] => Some ([], VList CFixedTypeList c [])
      | _ =>
          let? r := ref_obj n c iv in
          match r with (_, true, (_ :: _) as bs, out) => Some (bs, VList CFixedTypeList c [out]) | _ => None end
      end
  | BRaw =>
      match iv with
      | VNone | VBytes [] => Some ([], VBin (VBytes []))
      | VBin (VBytes bs) => Some (bs, VBin (VBytes bs))
      | _ => None
      end
  end.

Fixpoint lookup_form {A} (t : Z) (l : list (Z * A)) : option A :=
  match l with
  | [] => None
  | (k, a) :: tl => if k =? t then Some a else lookup_form t tl
  end.

Definition sending_portb (v : of_version) (p : Z) : bool :=
  match v with
  | V01 => ((1 <=? p) && (p <=? 0xff00)) || (p =? 0xfffe) || (p =? 0xfffd) || (p =? 0xffff)
  | V04 => ((1 <=? p) && (p <=? 0xffffff00)) || (p =? 0xfffffffe) || (p =? 0xfffffffd) || (p =? 0xffffffff)
  end.

Definition split_last {A} (l : list A) : option (list A * A) :=
  match rev l with [] => None | a :: tl => Some (rev tl, a) end.

Definition ref_packet_out (n : nat) (v : of_version) (attrs : list (string * pyval))
  : option (bytes * list pyval) :=
  let c := out_class v in
  let? ip := get_attr "in_port" attrs in
  let? p := ref_exact ip in
  let? acts := get_attr "actions" attrs in
  let? fd := split_last (body_fields c) in
  let? fa := split_last (fst fd) in
  let go alen :=
    let? vd := split_last (body_values c (set_attr "actions_len" (VInt alen) attrs)) in
    let? va := split_last (fst vd) in
    let? r := ref_fields (level_enc (S (S n))) (fst fa) (fst va) in
    let? a := level_enc (S (S n)) (snd (snd fa)) (snd va) in
    let? d := level_enc (S (S n)) (snd (snd fd)) (snd vd) in
    match r, a, d with
    | (SD, true, pb, pouts), (TAIL, true, ab, aout), (TAIL, true, db, dout) =>
        Some (zlen ab, (pb ++ ab ++ db, pouts ++ [aout; dout]))
    | _, _, _ => None
    end in
  match snd (snd fa) with
  | VList _ _ [] =>
      guard (sending_portb v p && String.eqb (fst (snd fa)) "actions" && String.eqb (fst (snd fd)) "data")
        (let? r := go 0 in
         let? r2 := go (fst r) in
         guard (fst r2 =? fst r) (Some (snd r2)))
  | _ => None
  end.

Definition ref_plain (n : nat) (c : cid) (attrs : list (string * pyval)) :=
  ref_fields (level_enc (S (S n))) (body_fields c) (body_values c attrs).

Definition ref_stats_body (n : nat) (f : stats_family) (attrs : list (string * pyval))
  : option (bytes * list pyval) :=
  let c := stats_class f in
  let? ti := get_attr (stats_type_name f) attrs in
  let? t := (match ti with
             | VInt t => Some t
             | VEnum e t => guard (eid_eqb e (stats_type_enum f)) (Some t)
             | _ => None
             end) in
  let? form := lookup_form t (stats_forms f) in
  let? fl := split_last (body_fields c) in
  let? vl := split_last (body_values c attrs) in
  let? r := ref_fields (level_enc (S (S n))) (fst fl) (fst vl) in
  match r with
  | (SD, true, pb, VUInt 2 (Some e) (VEnum e' t') :: pouts) =>
      let? s := ref_stats (S n) form (snd vl) in
      guard (String.eqb (fst (snd fl)) "body" && (eid_eqb e (stats_type_enum f)) &&
             (eid_eqb e' (stats_type_enum f)) && (t' =? t))
        (Some (pb ++ fst s, VEnum e' t' :: pouts ++ [snd s]))
  | _ => None
  end.

Definition ref_error (n : nat) (v : of_version) (attrs : list (string * pyval))
  : option (bytes * list pyval) :=
  let? r := ref_plain n (error_class v) attrs in
  match r with
  | (k, true, body, [VUInt 2 er1 d1; VUInt 2 None (VInt code); data]) =>
      let? t := ref_exact (VUInt 2 er1 d1) in
      let? e := lookup_form t (error_codes v) in
      guard (is_member e code) (Some (body, [VUInt 2 er1 d1; VEnum e code; data]))
  | _ => None
  end.

Definition ref_ordinary (n : nat) (c : cid) (attrs : list (string * pyval))
  : option (bytes * list pyval) :=
  guard (negb (special c))
    (let? r := ref_plain n c attrs in
     match r with
     | (k, true, [], _) => Some ([], map (fun p => deepcopy (snd p)) (body_fields c))
     | (k, true, body, outs) => Some (body, outs)
     | _ => None
     end).

Definition ref_body (n : nat) (v : of_version) (c : cid) (attrs : list (string * pyval))
  : option (bytes * list pyval) :=
  match v, c with
  | V01, ErrorMsg01 | V04, ErrorMsg04 => ref_error n v attrs
  | V01, PacketOut01 | V04, PacketOut04 => ref_packet_out n v attrs
  | V01, StatsRequest01 => ref_stats_body n FStatsRequest attrs
  | V01, StatsReply01 => ref_stats_body n FStatsReply attrs
  | V04, MultipartRequest04 => ref_stats_body n FMultipartRequest attrs
  | V04, MultipartReply04 => ref_stats_body n FMultipartReply attrs
  | _, _ => ref_ordinary n c attrs
  end.

Definition misfiledb (v : of_version) (t : Z) : bool :=
  match v with V01 => false | V04 => (t =? 22) || (t =? 23) end.

Definition ref_holds (attrs : list (string * pyval)) (name : string) : option Z :=
  let? iv := get_attr name attrs in ref_int iv.

(** Type code, transaction id, bytes and decoded message. *)
Definition ref_msg (n : nat) (v : of_version) (m : pyval) : option (Z * Z * bytes * pyval) :=
  match m with
  | VObj c attrs =>
      match get_attr "header" attrs with
      | Some (VObj hc hattrs) =>
          let? t := ref_holds hattrs "message_type" in
          let? ver := ref_holds hattrs "version" in
          let? x := ref_holds hattrs "xid" in
          let? r := ref_body n v c attrs in
          let body := fst r in
          guard (pairb (openflow_types v) t c && negb (misfiledb v t) && completeb c attrs &&
                 cid_eqb hc (header_class v) && completeb hc hattrs && (ver =? version_number v) &&
                 (0 <=? x) && (x <? 2 ^ 32) && forallb (fun b => (0 <=? b) && (b <? 256)) body &&
                 (8 + zlen body <? 65536))
            (Some (t, x, wire_header v t (8 + zlen body) x ++ body,
                   decoded v t (8 + zlen body) x c (snd r)))
      | _ => None
      end
  | _ => None
  end.

(** Well-formed messages. *)
Definition wf_message (n : nat) (v : of_version) (m : pyval) : bool :=
  match ref_msg n v m with Some _ => true | None => false end.
