(** Model of how a structure is described with the help of __builtin_dump_struct (src/metaresc.h:829-916,
    src/metaresc.c:164-421): a sample variable is filled with patterns, and the positions of its members are found from
    the values that are passed for them.  Little endian, 8 bits in a byte. *)
From Verif Require Import Base.
Local Open Scope Z_scope.

(** The types in src/metaresc.c:338-352, 183, 202, 407; [NONE]: an address is passed. *)
Inductive mtype := NONE | STRING | POINTER | BOOL | INT8 | UINT8 | INT16 | UINT16 | INT32 | UINT32 | INT64 | UINT64 | FLOAT | DOUBLE | LONG_DOUBLE | BITFIELD.
(** Equality of types, src/metaresc.c:239. *)
Global Instance mtype_dec : EqDecision mtype.
Proof. solve_decision. Defined.
(** Classes of types, src/metaresc.c:294-329. *)
Inductive mclass := C_NONE | C_POINTER | C_BOOLEAN | C_INTEGER | C_REAL | C_RECORD.
(** The table [tc], src/metaresc.c:294-329. *)
Definition tc (t : mtype) : mclass :=
  match t with
  | NONE | STRING | POINTER => C_POINTER
  | BOOL => C_BOOLEAN
  | FLOAT | DOUBLE | LONG_DOUBLE => C_REAL
  | _ => C_INTEGER
  end.

(** The argument after the name, src/metaresc.c:143-162, 338-352: an object of a type as its bytes; a [float] that became a
    [double] (the two lowest bytes of which are 0, and which is converted back without loss); an address relative to the
    sample. *)
Inductive value := Bytes (t : mtype) (l : list Z) | Promoted (l : list Z) | Addr (a : Z).

(** A call of the function given to the builtin, as far as the calls are told apart: with format [FMT] and a value
    (src/metaresc.c:256-280), with [FMT] only (281-288), for a bit-field (380-389).  [indent] is the number of spaces. *)
Inductive line :=
  | Member (indent : Z) (ty nm : list Z) (v : value)
  | Header (indent : Z) (ty nm : list Z)
  | Bits (indent : Z) (ty nm : list Z) (width : Z) (v : Z).

(** The part of mr_fd_t (src/mr_protos.h:358-390) that is filled in. *)
Record fd := Fd { fname : list Z; ftype : list Z; fmr_type : mtype; fclass : mclass; foffset : Z; fwidth : Z; fshift : Z; finit : bool }.
(** mr_dump_struct_type_ctx_t, src/mr_protos.h:656-664, and the array [fields] up to [fields_size]; [pend]: the members
    [type] and [name] if they are not NULL. *)
Record ctx := Ctx { fields : list fd; fidx : nat; pend : option (list Z * list Z) }.

(** The switch of src/metaresc.c:179-214: type and offset. *)
Definition classify (v : value) : option (mtype * Z) :=
  match v with
  | Addr a => Some (NONE, a)
  | Promoted l => b ← rd l 0; Some (FLOAT, b)
  | Bytes INT32 l => b ← rd l 0; Some (if forallb (Z.eqb 0) (drop 1 l) then BOOL else INT32, b)
  | Bytes DOUBLE l => b ← rd l 0; c ← rd l 1; Some (if (b =? 0) && (c =? 0) then FLOAT else DOUBLE, b)
  | Bytes t l => b ← rd l 0; Some (t, b)
  end.

(** mr_dump_struct_type_add_field, src/metaresc.c:164-248: the descriptor to be completed, whether it jumps, the context.
    [depth] is MR_PP_DEPTH, [byte] is [offset_byte]. *)
Definition add_field (depth : nat) (byte : Z) (s : ctx) (ty nm : list Z) (v : value) : option (option nat * bool * ctx) :=
  '(t, o) ← classify v;
  let count := length (fields s) in
  let i := Nat.min (fidx s) count in
  let s := Ctx (fields s) (S (fidx s)) (pend s) in
  if Nat.eqb i count && Nat.leb depth count then Some (None, true, s)
  else
    let s := if Nat.eqb i count then Ctx (fields s ++ [Fd nm ty t C_NONE o 0 0 false]) (fidx s) (pend s) else s in
    if byte =? 0 then Some (Some i, false, s)
    else if decide (t = NONE) then Some (None, false, s)
    else if Nat.leb count i then Some (None, true, s)
    else
      f ← rd (fields s) i;
      if bool_decide (fname f = nm) then
        fs ← wr (fields s) i (Fd (fname f) (ftype f) (fmr_type f) (fclass f) ((foffset f + o * 2 ^ (8 * byte)) mod 2 ^ 64) (fwidth f) (fshift f) (finit f));
        Some (None, false, Ctx fs (fidx s) (pend s))
      else Some (None, true, s).

(** mr_dump_struct_type_detection, src/metaresc.c:250-372: whether it jumps, and the context. *)
Definition detection (depth : nat) (byte : Z) (s : ctx) (l : line) : option (bool * ctx) :=
  match l with
  | Bits _ _ _ _ _ => Some (false, s)
  | Header indent ty nm => Some (false, if indent =? 2 then Ctx (fields s) (fidx s) (Some (ty, nm)) else s)
  | Member indent ty nm v =>
    let '(found, ty, nm, s) :=
      match (if 2 <? indent then pend s else None) with
      | Some (ty, nm) => (true, ty, nm, Ctx (fields s) (fidx s) None)
      | None => (indent =? 2, ty, nm, s)
      end in
    if negb found then Some (false, s)
    else
      '(i, jump, s) ← add_field depth byte s ty nm v;
      match i with
      | None => Some (jump, s)
      | Some i =>
        f ← rd (fields s) i;
        let '(t, c) := if 2 <? indent then (NONE, C_RECORD) else (fmr_type f, tc (fmr_type f)) in
        fs ← wr (fields s) i (Fd (fname f) (ftype f) t c (foffset f) (fwidth f) (fshift f) (finit f));
        Some (jump, Ctx fs (fidx s) (pend s))
      end
  end.

(** mr_dump_struct_bitfield_detection, src/metaresc.c:374-421. *)
Definition bitfield_detection (depth : nat) (s : ctx) (l : line) : option (bool * ctx) :=
  match l with
  | Bits indent ty nm width v =>
    if negb (indent =? 2) then Some (false, s)
    else
      let count := length (fields s) in
      let i := Nat.min (fidx s) count in
      let s := Ctx (fields s) (S (fidx s)) (pend s) in
      if Nat.eqb i count && Nat.leb depth count then Some (true, s)
      else
        let s := if Nat.eqb i count then Ctx (fields s ++ [Fd nm ty BITFIELD C_NONE 0 (width mod 2 ^ 8) 0 false]) (fidx s) (pend s) else s in
        f ← rd (fields s) i;
        fs ← wr (fields s) i (Fd (fname f) (ftype f) (fmr_type f) (fclass f) ((foffset f * 2) mod 2 ^ 64 + v mod 2) (fwidth f) (fshift f) (finit f));
        Some (false, Ctx fs (fidx s) (pend s))
  | _ => Some (false, s)
  end.

(** The calls of the builtin one after the other until one of them jumps, src/metaresc.h:857-858, 883-884. *)
Fixpoint calls (f : ctx -> line -> option (bool * ctx)) (s : ctx) (ls : list line) : option ctx :=
  match ls with
  | [] => Some s
  | l :: ls => '(jump, s) ← f s l; if (jump : bool) then Some s else calls f s ls
  end.

(** Members of the sample, for src/metaresc.h:846: objects of a type, what is passed by address (arrays and the like),
    bit-fields and members that are structures or unions.  Positions are relative to the sample. *)
Inductive decl :=
  | Scalar (ty nm : list Z) (t : mtype) (off : Z)
  | Other (ty nm : list Z) (off : Z)
  | Bit (ty nm : list Z) (width bit : Z)
  | Rec (ty nm : list Z) (off : Z) (ds : list decl).

(** Sizes of the types, for src/metaresc.c:143-162. *)
Definition tsize (t : mtype) : nat :=
  match t with
  | BOOL | INT8 | UINT8 => 1
  | INT16 | UINT16 => 2
  | INT32 | UINT32 | FLOAT => 4
  | LONG_DOUBLE => 10
  | _ => 8
  end.

(** [n] bytes of the sample, src/metaresc.c:143-162. *)
Definition object (m : list Z) (off : Z) (n : nat) : option (list Z) :=
  if (0 <=? off) && (Z.to_nat off + n <=? length m)%nat then Some (take n (drop (Z.to_nat off) m)) else None.

Section Dump.
  (** How the compiler reads a [bool] from a byte, for src/metaresc.c:182-183: bytes other than 0 and 1 are left to it. *)
  Context (ldb : Z -> Z).

  (** What is passed for an object, src/metaresc.c:338-352 after the usual promotions. *)
  Definition pass (m : list Z) (t : mtype) (off : Z) : option value :=
    l ← object m off (tsize t);
    match t with
    | BOOL => b ← rd l 0; Some (Bytes INT32 [ldb b; 0; 0; 0])
    | FLOAT => Some (Promoted l)
    | t => Some (Bytes t l)
    end.

  (** Calls by __builtin_dump_struct for a member with [indent] spaces, for src/metaresc.h:858, 884.  This is the compiler's part, taken
      from Clang's manual: calls that both functions ignore are left out. *)
  Fixpoint dump (indent : Z) (m : list Z) (d : decl) : option (list line) :=
    match d with
    | Scalar ty nm t off => v ← pass m t off; Some [Member indent ty nm v]
    | Other ty nm off => Some [Member indent ty nm (Addr off)]
    | Bit ty nm width bit =>
      b ← (if bit <? 0 then None else rd m (Z.to_nat (bit / 8))); Some [Bits indent ty nm width (b / 2 ^ (bit mod 8))]
    | Rec ty nm off ds => ls ← mapM (dump (indent + 2) m) ds; Some (Header indent ty nm :: concat ls)
    end.
  (** The calls for the sample, src/metaresc.h:858, 884, 894, 898, 902. *)
  Definition dump_struct (m : list Z) (ds : list decl) : option (list line) := ls ← mapM (dump 2 m) ds; Some (concat ls).

  (** memset inside of the sample, src/metaresc.h:866-867, 880-881. *)
  Definition memset (m : list Z) (p n : Z) (c : Z) : option (list Z) :=
    if (0 <=? p) && (p + n <=? Z.of_nat (length m)) then
      Some (take (Z.to_nat p) m ++ replicate (Z.to_nat n) (c mod 2 ^ 8) ++ drop (Z.to_nat (p + n)) m)
    else None.
  (** The loops of src/metaresc.h:862-867 and 876-881: blocks numbered from [i] and the rest; [g] is the byte for
      a block.  Each round moves [p], so the size is enough fuel. *)
  Fixpoint fill (fuel : nat) (g : Z -> Z) (bs : Z) (m : list Z) (p i : Z) : option (list Z) :=
    if p <? (Z.of_nat (length m) - (bs - 1)) mod 2 ^ 64 then
      match fuel with
      | O => None
      | S fuel => m ← memset m p bs (g i); fill fuel g bs m (p + bs) (i + 1)
      end
    else memset m p (Z.of_nat (length m) mod bs) (g i).

  (** The loop of src/metaresc.h:854-868 from [offset_byte] on.  The shift of 1 by 31 bits and more is undefined. *)
  Fixpoint passes (fuel : nat) (depth : nat) (ds : list decl) (m : list Z) (byte : Z) (s : ctx) : option ctx :=
    match fuel with
    | O => None
    | S fuel =>
      ls ← dump_struct m ds;
      s ← calls (detection depth byte) (Ctx (fields s) 0 (pend s)) ls;
      if 31 <=? 8 * (1 + byte) then None
      else if Z.of_nat (length m) <? 2 ^ (8 * (1 + byte)) then Some s
      else m ← fill (length m) id (2 ^ (8 * (1 + byte))) m 0 0; passes fuel depth ds m (byte + 1) s
    end.

  (** One pass over the bit-fields, src/metaresc.h:882-884, 892-894, 896-898, 900-902. *)
  Definition bit_pass (depth count : nat) (ds : list decl) (m : list Z) (s : ctx) : option ctx :=
    ls ← dump_struct m ds; calls (bitfield_detection depth) (Ctx (fields s) count (pend s)) ls.
  (** The loop of src/metaresc.h:874-888; [block_size] is [2 ^ k] with [S k] rounds to go. *)
  Fixpoint bit_passes (k : nat) (depth count : nat) (ds : list decl) (m : list Z) (s : ctx) : option ctx :=
    match k with
    | O => Some s
    | S k =>
      m ← fill (length m) (fun i => - (i mod 2)) (2 ^ Z.of_nat k) m 0 0;
      s ← bit_pass depth count ds m s;
      if Nat.eqb (fidx s) count then Some s else bit_passes k depth count ds m s
    end.
  (** The end for bit-fields, src/metaresc.h:905-911. *)
  Definition split_offset (f : fd) : fd :=
    Fd (fname f) (ftype f) (fmr_type f) (fclass f) (foffset f / 8) (fwidth f) (foffset f mod 8) true.

  (** The constructor of MR_ADD_TYPE, src/metaresc.h:844-912: the descriptors that are found.  [n] is the size of the type. *)
  Definition add_type (depth : nat) (n : Z) (ds : list decl) : option (list fd) :=
    let m := map (fun i => i mod 2 ^ 8) (seqZ 0 n) in
    s ← passes 4 depth ds m 0 (Ctx [] 0 None);
    let count := length (fields s) in
    s ← bit_passes (S (Z.to_nat (Z.log2 (Z.max 1 (n - 1))))) depth count ds m s;
    if Nat.eqb (fidx s) count then Some (fields s)
    else
      s ← bit_pass depth count ds (replicate (Z.to_nat n) 240) s;
      s ← bit_pass depth count ds (replicate (Z.to_nat n) 204) s;
      s ← bit_pass depth count ds (replicate (Z.to_nat n) 170) s;
      Some (take count (fields s) ++ map split_offset (drop count (fields s))).
End Dump.
