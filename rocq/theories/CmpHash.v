(** Model of comparison and hashing of saved structures (src/mr_extra.c:230-513).
    Memory is bytes of a little-endian machine; [None] is undefined behaviour:
    a read beyond an object or an unterminated text. *)
From Verif Require Import Base Bitfield HashStr Ptrs.
Local Open Scope Z_scope.

(** src/mr_protos.h:572-597, mr_ptrdes_t: the members in front of [data] and, as
    [c_data], the bytes from [data.ptr] to the end of the object it points into.
    The address [data.ptr] itself takes no part in comparison or hash. *)
Record cnode := CNode {
  c_fdp : Z; c_type : Z; c_aux : Z; c_flags : Z; c_vtype : Z; c_size : Z;
  c_idx : nat; c_parent : nat; c_next : nat; c_first : nat;
  c_data : list Z }.

(** What the code learns through [fdp] (src/metaresc.c:511-527, src/mr_extra.c:303-308):
    place and sign of a bit-field and, for an enumeration with a type descriptor,
    its [size_effective]. *)
Record fdesc := FDesc { f_shift : Z; f_width : Z; f_signed : bool; f_enum : option Z }.

(** The rest of the address space: texts by address ([None]: not a readable
    text) and field descriptors by address.
    What src/mr_extra.c:241, 394-400 and src/metaresc.c:511-512 read besides the nodes. *)
Record env := Env { text : Z -> option (list Z); fd : Z -> fdesc }.

(** Floating point formats of src/mr_extra.c:269-282, 476-477 on x86:
    binary32, binary64 and the 80-bit extended format. *)
Inductive fmt := F32 | F64 | F80.

(** src/mr_protos.h:91-126, mr_type_t, grouped by the cases of the two switches. *)
Inductive kind := KString | KCharArray | KBool | KInt (size : nat) (sgn : bool)
  | KFloat (f : fmt) | KComplex (f : fmt) | KCompound | KEnum | KFunc | KBitfield | KOther.

(** src/mr_protos.h:91-126: numbers of the types.  [char] is signed. *)
Definition kind_of (t : Z) : kind :=
  if t =? 1 then KString else if t =? 2 then KCharArray else if t =? 3 then KInt 1 true
  else if t =? 5 then KBool
  else if t =? 6 then KInt 1 true else if t =? 7 then KInt 1 false
  else if t =? 8 then KInt 2 true else if t =? 9 then KInt 2 false
  else if t =? 10 then KInt 4 true else if t =? 11 then KInt 4 false
  else if t =? 12 then KInt 8 true else if t =? 13 then KInt 8 false
  else if t =? 14 then KInt 16 true else if t =? 15 then KInt 16 false
  else if t =? 16 then KFloat F32 else if t =? 17 then KComplex F32
  else if t =? 18 then KFloat F64 else if t =? 19 then KComplex F64
  else if t =? 20 then KFloat F80 else if t =? 21 then KComplex F80
  else if t =? 22 then KCompound else if t =? 23 then KEnum
  else if (t =? 24) || (t =? 25) then KFunc else if t =? 26 then KBitfield
  else if (t =? 27) || (t =? 28) || (t =? 29) || (t =? 30) || (t =? 31) then KCompound
  else KOther.

(** The integer types listed for enumerations at src/mr_extra.c:482 (no [char]). *)
Definition enum_kind (aux : Z) : option (nat * bool) :=
  if (6 <=? aux) && (aux <=? 15) then
    match kind_of aux with KInt size sgn => Some (size, sgn) | _ => None end
  else None.

(** Bytes of an object read through a typed pointer.
    E.g. src/mr_extra.c:255, 414. *)
Definition bytes_at (mem : list Z) (pos size : nat) : option (list Z) :=
  if (pos + size <=? length mem)%nat then Some (take size (drop pos mem)) else None.

(** Unsigned number in bytes, least significant first.
    The read of an unsigned object in src/mr_extra.c:414-415. *)
Fixpoint le_num (bs : list Z) : Z :=
  match bs with [] => 0 | b :: bs => b + 256 * le_num bs end.

(** The same as a number of a signed type.
    The read of a signed object in src/mr_extra.c:414-415. *)
Definition le_int (sgn : bool) (bs : list Z) : Z :=
  let u := le_num bs in
  let w := 8 * Z.of_nat (length bs) in
  if sgn && (2 ^ (w - 1) <=? u) then u - 2 ^ w else u.

(** Bytes of a number in memory, least significant first.
    [&value] of src/mr_extra.c:316. *)
Fixpoint num_le (size : nat) (z : Z) : list Z :=
  match size with O => [] | S size => z mod 256 :: num_le size (z / 256) end.

(** Significant bytes of a format; src/mr_extra.c:273, MR_SIZEOF_LONG_DOUBLE
    (configure.ac:164-171) is 10 here. *)
Definition fmt_size (f : fmt) : nat := match f with F32 => 4 | F64 => 8 | F80 => 10 end.
(** Distance from the real to the imaginary part: [sizeof (long double)] is 16.
    src/mr_extra.c:278-279. *)
Definition fmt_step (f : fmt) : nat := match f with F32 => 4 | F64 => 8 | F80 => 16 end.

(** A floating point value as comparisons see it: not a number, or a place in
    the order.  IEEE 754 numbers are ordered like their sign-and-magnitude bit
    patterns, both zeros having place 0.  Simplification: for the 80-bit format
    this holds for the encodings the processor produces (integer bit set iff
    the exponent is not 0).
    src/mr_extra.c:425-431. *)
Inductive fval := FNan | FNum (place : Z).

(** [__builtin_isnan] and the order, from the bit pattern.
    src/mr_extra.c:260, 425-431. *)
Definition fval_of (f : fmt) (bits : Z) : fval :=
  let w := 8 * Z.of_nat (fmt_size f) in
  let m := bits mod 2 ^ (w - 1) in
  let nan := match f with
             | F32 => 2139095040 <? m
             | F64 => 9218868437227405312 <? m
             | F80 => (m / 2 ^ 64 =? 32767) && negb (m mod 2 ^ 63 =? 0)
             end in
  if nan then FNan else FNum (if 2 ^ (w - 1) <=? bits then - m else m).

(** Read of a floating point object.
    src/mr_extra.c:260, 423-424. *)
Definition rd_float (f : fmt) (mem : list Z) (pos : nat) : option fval :=
  bs ← bytes_at mem pos (fmt_size f); Some (fval_of f (le_num bs)).
(** [__builtin_isnan] of a value read.
    src/mr_extra.c:425, 431. *)
Definition isnan (x : fval) : bool := match x with FNan => true | FNum _ => false end.
(** The operator [<]: false as soon as one side is not a number.
    src/mr_extra.c:427, 450, 462. *)
Definition flt (x y : fval) : bool :=
  match x, y with FNum a, FNum b => a <? b | _, _ => false end.

(** C text in an object: the bytes in front of the first zero.
    src/mr_extra.c:245, 407. *)
Fixpoint text_at (mem : list Z) : option (list Z) :=
  match mem with
  | [] => None
  | b :: mem => if b =? 0 then Some [] else s ← text_at mem; Some (b :: s)
  end.

(** Read of a [bool]: other contents than 0 and 1 are a trap representation.
    src/mr_extra.c:249, 414. *)
Definition rd_bool (mem : list Z) : option Z :=
  b ← rd mem 0; if (b =? 0) || (b =? 1) then Some b else None.

(** [(x > y) - (x < y)], as at src/mr_extra.c:379 and 414. *)
Definition sgn3 (x y : Z) : Z := Z.b2z (y <? x) - Z.b2z (x <? y).
(** The same on floating point values, src/mr_extra.c:427. *)
Definition fsgn3 (x y : fval) : Z := Z.b2z (flt y x) - Z.b2z (flt x y).

(** memcmp, src/mr_extra.c:386: difference of the first differing bytes. *)
Fixpoint memcmp (a b : list Z) : Z :=
  match a, b with
  | x :: a, y :: b => if x =? y then memcmp a b else x - y
  | _, _ => 0
  end.

(** The bytes of mr_ptrdes_t in front of [data] (src/mr_protos.h:573-584; the
    enumerations are packed to one byte, there is no padding). *)
Definition header (n : cnode) : list Z :=
  num_le 8 (c_fdp n) ++ num_le 1 (c_type n) ++ num_le 1 (c_aux n) ++ num_le 1 (c_flags n) ++
  num_le 1 (c_vtype n) ++ num_le 4 (c_size n) ++ num_le 4 (Z.of_nat (c_idx n)) ++
  num_le 4 (Z.of_nat (c_parent n)) ++ num_le 4 (Z.of_nat (c_next n)) ++ num_le 4 (Z.of_nat (c_first n)).

(** src/mr_extra.c:392-404: two string pointers. *)
Definition cmp_string (e : env) (x y : list Z) : option Z :=
  px ← bytes_at x 0 8; py ← bytes_at y 0 8;
  let px := le_num px in let py := le_num py in
  if px =? py then Some 0
  else if (px =? 0) || (py =? 0) then Some (sgn3 px py)
  else tx ← text e px; ty ← text e py; Some (strcmp tx ty).

(** src/mr_extra.c:412-418, CASE_MR_TYPE_CMP. *)
Definition cmp_int (size : nat) (sgn : bool) (x y : list Z) : option Z :=
  bx ← bytes_at x 0 size; by' ← bytes_at y 0 size;
  Some (sgn3 (le_int sgn bx) (le_int sgn by')).

(** src/mr_extra.c:420-435, CASE_MR_TYPE_CMP_FLOAT. *)
Definition cmp_float (f : fmt) (x y : list Z) : option Z :=
  vx ← rd_float f x 0; vy ← rd_float f y 0;
  let diff := if negb (isnan vx) && negb (isnan vy) then fsgn3 vx vy else 0 in
  if negb (diff =? 0) then Some diff
  else Some (Z.b2z (negb (isnan vx)) - Z.b2z (negb (isnan vy))).

(** One component at src/mr_extra.c:448-459 and 460-471. *)
Definition cmp_part (vx vy : fval) : Z :=
  if negb (isnan vx) && negb (isnan vy) then fsgn3 vx vy
  else Z.b2z (negb (isnan vx)) - Z.b2z (negb (isnan vy)).

(** src/mr_extra.c:437-473, CASE_MR_TYPE_CMP_COMPLEX. *)
Definition cmp_complex (f : fmt) (x y : list Z) : option Z :=
  rx ← rd_float f x 0; ix ← rd_float f x (fmt_step f);
  ry ← rd_float f y 0; iy ← rd_float f y (fmt_step f);
  if (isnan rx || isnan ix) && (isnan ry || isnan iy) then Some 0
  else
    let diff := cmp_part rx ry in
    if negb (diff =? 0) then Some diff else Some (cmp_part ix iy).

(** src/mr_extra.c:490-496: two bit-fields. *)
Definition rd_bits (d : fdesc) (mem : list Z) : option Z :=
  save_bitfield mem 0 (f_shift d) (f_width d) (f_signed d).

(** src/mr_extra.c:390-510, the switch. *)
Definition cmp_value (e : env) (x y : cnode) : option Z :=
  match kind_of (c_type x) with
  | KString => cmp_string e (c_data x) (c_data y)
  | KCharArray => tx ← text_at (c_data x); ty ← text_at (c_data y); Some (strcmp tx ty)
  | KBool => bx ← rd_bool (c_data x); by' ← rd_bool (c_data y); Some (sgn3 bx by')
  | KInt size sgn => cmp_int size sgn (c_data x) (c_data y)
  | KFloat f => cmp_float f (c_data x) (c_data y)
  | KComplex f => cmp_complex f (c_data x) (c_data y)
  | KEnum =>
    match enum_kind (c_aux x) with
    | Some (size, sgn) => cmp_int size sgn (c_data x) (c_data y)
    | None => Some 0
    end
  | KBitfield =>
    vx ← rd_bits (fd e (c_fdp x)) (c_data x);
    vy ← rd_bits (fd e (c_fdp y)) (c_data y); Some (sgn3 vx vy)
  | KFunc => cmp_int 8 false (c_data x) (c_data y)
  | KCompound | KOther => Some 0
  end.

(** src/mr_extra.c:376-510, the body of the loop; 0 goes on to the next node. *)
Definition cmp_node (e : env) (x y : cnode) : option Z :=
  let diff := sgn3 (Z.of_nat (c_idx x)) (Z.of_nat (c_idx y)) in
  if negb (diff =? 0) then Some diff
  else if Nat.eqb (c_idx x) 0 then Some 0
  else
    let diff := memcmp (header x) (header y) in
    if negb (diff =? 0) then Some diff else cmp_value e x y.

(** src/mr_extra.c:373-512, the loop over two tables of one length. *)
Fixpoint cmp_nodes (e : env) (xs ys : list cnode) : option Z :=
  match xs, ys with
  | x :: xs, y :: ys =>
    diff ← cmp_node e x y;
    if negb (diff =? 0) then Some diff else cmp_nodes e xs ys
  | _, _ => Some 0
  end.

(** src/mr_extra.c:358-513, mr_cmp_structs.  [[]] is a table without nodes (or
    NULL); node 0 is skipped. *)
Definition cmp_structs (e : env) (xs ys : list cnode) : option Z :=
  match xs, ys with
  | [], _ | _, [] => Some 0
  | _ :: xs', _ :: ys' =>
    let diff := sgn3 (Z.of_nat (length xs)) (Z.of_nat (length ys)) in
    if negb (diff =? 0) then Some diff else cmp_nodes e xs' ys'
  end.

(** src/mr_extra.c:295-296: the children of a node, or, when it is a reference,
    the chain that starts at the referenced node. *)
Fixpoint hash_chain (fuel : nat) (ns : list cnode) (res : list Z) (child : nat) (h : Z) : option Z :=
  match fuel with
  | O => None
  | S fuel =>
    if Nat.eqb child 0 then Some h
    else n ← rd ns child; r ← rd res child;
         hash_chain fuel ns res (c_next n) ((h * 3 + r + 1) mod 2 ^ 32)
  end.

(** [isnan (x) ? -1 : hash], src/mr_extra.c:260: the type of the expression is
    unsigned. *)
Definition minus_one : Z := 2 ^ 32 - 1.

(** src/mr_extra.c:263-266 and 276-284: the parts of a complex long double are
    hashed apart. *)
Definition hash_complex (f : fmt) (mem : list Z) : option Z :=
  r ← rd_float f mem 0; i ← rd_float f mem (fmt_step f);
  if isnan r || isnan i then Some minus_one
  else
    match f with
    | F80 =>
      a ← hash_block mem 10; b ← hash_block (drop 16 mem) 10;
      Some ((a + b) mod 2 ^ 32)
    | _ => hash_block mem (Z.of_nat (fmt_step f + fmt_step f))
    end.

(** src/mr_extra.c:238-331: the hash of node [n]; [old] is its [res] so far. *)
Definition hash_value (e : env) (ns : list cnode) (res : list Z) (n : cnode) (old : Z) : option Z :=
  match kind_of (c_type n) with
  | KString =>
    p ← bytes_at (c_data n) 0 8;
    let p := le_num p in
    if p =? 0 then hash_str None else t ← text e p; hash_str (Some t)
  | KCharArray => t ← text_at (c_data n); hash_str (Some t)
  | KBool => rd_bool (c_data n)
  | KInt size _ => hash_block (c_data n) (Z.of_nat size)
  | KFloat f =>
    v ← rd_float f (c_data n) 0;
    if isnan v then Some minus_one else hash_block (c_data n) (Z.of_nat (fmt_size f))
  | KComplex f => hash_complex f (c_data n)
  | KCompound => hash_chain (S (length ns)) ns res (c_first n) 0
  | KEnum =>
    match f_enum (fd e (c_fdp n)) with
    | Some size => hash_block (c_data n) size
    | None => Some old
    end
  | KBitfield => v ← rd_bits (fd e (c_fdp n)) (c_data n); hash_block (num_le 16 v) 16
  | KFunc => hash_block (c_data n) 8
  | KOther => Some old
  end.

(** src/mr_extra.c:230-334, node_hash, as a visitor of the traversal; the
    context is the array of the [res] members. *)
Definition node_hash (e : env) (ns : list cnode)
    (ls : list node) (res : list Z) (idx : nat) (level : Z) (o : order) : option (bool * list node * list Z) :=
  match o with
  | PRE => Some (true, ls, res)
  | POST =>
    n ← rd ns idx; old ← rd res idx;
    h ← hash_value e ns res n old;
    res ← wr res idx h; Some (true, ls, res)
  end.

(** The links of a node for the traversal (model of the traversal in Ptrs.v);
    MR_IS_REFERENCE is 2, MR_IS_CONTENT_REFERENCE is 8 (src/mr_protos.h:476-485). *)
Definition link_of (n : cnode) : node :=
  Node (c_parent n) (c_next n) (c_first n) (c_idx n)
    (Z.testbit (c_flags n) 1 || Z.testbit (c_flags n) 3) false false false.

(** src/mr_extra.c:336-356, mr_hash_struct; [fuel] bounds the traversal. *)
Definition hash_struct (fuel : nat) (e : env) (ns : list cnode) : option Z :=
  match ns with
  | [] => Some 0
  | _ =>
    match dfs (node_hash e ns) fuel (map link_of ns) (replicate (length ns) 0) 1 with
    | Done _ _ res => rd res 1
    | _ => None
    end
  end.
