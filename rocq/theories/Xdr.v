(** Model of the XDR encoder and decoder, src/xdr.c.

    Objects are modelled as value trees instead of memory; a value is the list
    of nodes that mr_save produces for it.  Floats and doubles are their 32 and
    64 bit patterns ([xdr_float], [xdr_double] of the system's XDR library put
    one and two words), long doubles are opaque blocks.  Bytes are [Z] 0..255.
    Little-endian host, as in src/xdr.c:449-455. *)
From Verif Require Import Base.
Local Open Scope Z_scope.

(** ** Stream *)

(** Outcome of a decoding step: value and new position, [MR_FAILURE],
    undefined behaviour, or fuel exhausted.
    Results of the functions of src/xdr.c:1120-1154. *)
Inductive res (A : Type) := Ok (a : A) (pos : Z) | Fail | UB | Oof.
Global Arguments Ok {A}. Global Arguments Fail {A}. Global Arguments UB {A}. Global Arguments Oof {A}.

(** A decoder reads the buffer [ra->data] at position [x_handy], src/xdr.c:33-47
    and 77-91. *)
Definition dec (A : Type) : Type := list Z -> Z -> res A.
(** Success without reading, e.g. [return (MR_SUCCESS)] in src/xdr.c:951. *)
Definition ret {A} (a : A) : dec A := fun b h => Ok a h.
(** [return (false)] of src/xdr.c:41, 85. *)
Definition fail {A} : dec A := fun b h => Fail.
(** One read after the other, as in src/xdr.c:988-1003. *)
Definition bnd {A B} (m : dec A) (k : A -> dec B) : dec B := fun b h =>
  match m b h with Ok a h => k a b h | Fail => Fail | UB => UB | Oof => Oof end.
Notation "'let*' x := m 'in' k" := (bnd m (fun x => k)) (at level 200, x pattern, right associativity).

(** [u_int] arithmetic of the positions (src/xdr.c:45, 89). *)
Definition u32 (z : Z) : Z := z mod 2 ^ 32.

(** [n] bytes at position [h]; outside of the buffer is undefined.
    The reads [base[x_handy]] of src/xdr.c:44 and 88. *)
Fixpoint peek (n : nat) (b : list Z) (h : Z) : option (list Z) :=
  match n with
  | O => Some []
  | S n => if h <? 0 then None else x ← rd b (Z.to_nat h); l ← peek n b (h + 1); Some (x :: l)
  end.

(** src/xdr.c:76-91, xdrra_getbytes.  [MR_SIZE] is [ssize_t] (src/mr_protos.h:183): the difference of
    line 84 and the comparison with [u_int] are signed. *)
Definition getbytes (len : Z) : dec (list Z) := fun b h =>
  if Z.of_nat (length b) - h <? len then Fail
  else match peek (Z.to_nat len) b h with
       | Some l => Ok l (u32 (h + len))
       | None => UB
       end.

(** [htonl] and [ntohl] on a little-endian host, src/xdr.c:44, 64. *)
Definition be32 (v : Z) : list Z := [v / 2 ^ 24 mod 256; v / 2 ^ 16 mod 256; v / 2 ^ 8 mod 256; v mod 256].
(** [ntohl] of src/xdr.c:44. *)
Definition of_be32 (l : list Z) : Z := fold_left (fun a x => a * 256 + x) l 0.

(** src/xdr.c:32-47, xdrra_getlong: the 32 bit pattern of the value.  The comparison of line 40 with
    [sizeof] is unsigned, 64 bit. *)
Definition getlong : dec Z := fun b h =>
  if (Z.of_nat (length b) - h) mod 2 ^ 64 <? 4 then Fail
  else match peek 4 b h with
       | Some l => Ok (of_be32 l) (u32 (h + 4))
       | None => UB
       end.

(** src/xdr.c:55-67, xdrra_putlong: appends four bytes (the allocation succeeds). *)
Definition putlong (v : Z) : list Z := be32 (v mod 2 ^ 32).

(** [xdr_opaque] of the XDR library (RFC 4506, 4.9): the bytes and zero bytes up
    to a multiple of four; on decoding the fill bytes are skipped.  The bytes go
    through src/xdr.c:100-113, xdrra_putbytes, and 76-91, xdrra_getbytes. *)
Definition pad_len (n : Z) : Z := (4 - n mod 4) mod 4.
(** Used in src/xdr.c:576, 605, 957. *)
Definition put_opaque (l : list Z) : list Z := l ++ repeat 0 (Z.to_nat (pad_len (Z.of_nat (length l)))).
(** Used in src/xdr.c:576, 651, 1035 through src/xdr.c:77-91. *)
Definition get_opaque (n : Z) : dec (list Z) :=
  if n =? 0 then ret [] else
  let* l := getbytes n in
  if pad_len n =? 0 then ret l else let* _ := getbytes (pad_len n) in ret l.

(** ** Integers *)

(** Integer representations; values are bit patterns, [0 <= v < 2 ^ bits].
    The handlers of src/xdr.c:440-455. *)
Inductive ikind := I8 | I16 (signed : bool) | I32 | I64 | I128.
(** The sizes of the types in src/xdr.c:440-455. *)
Definition bits (k : ikind) : Z :=
  match k with I8 => 8 | I16 _ => 16 | I32 => 32 | I64 => 64 | I128 => 128 end.

(** Conversion of a [w] bit pattern to a wider signed or unsigned type.
    As in src/xdr.c:374, 403. *)
Definition sext (w v : Z) : Z := if v <? 2 ^ (w - 1) then v else v - 2 ^ w.

(** src/xdr.c:384-412, xdr_int64_t. *)
Definition put64 (v : Z) : list Z := putlong (v / 2 ^ 32) ++ putlong v.
(** src/xdr.c:398-404. *)
Definition get64 : dec Z := let* hi := getlong in let* lo := getlong in ret (hi * 2 ^ 32 + lo).

(** Encoders: src/xdr.c:365-382 (8 bit: promoted to int, unsigned goes through
    int8_t), src/xdr.c:420-447 (16 and 32 bit by the XDR library: widened to 32
    bits), src/xdr.c:384-418 (64 bit), src/xdr.c:449-455 (128 bit: low half first). *)
Definition put_int (k : ikind) (v : Z) : list Z :=
  match k with
  | I8 => putlong (sext 8 v)
  | I16 true => putlong (sext 16 v)
  | I16 false => putlong v
  | I32 => putlong v
  | I64 => put64 v
  | I128 => put64 (v mod 2 ^ 64) ++ put64 (v / 2 ^ 64)
  end.

(** Decoders, same lines: the value is truncated to the destination.
    src/xdr.c:365-455, decoding. *)
Definition get_int (k : ikind) : dec Z :=
  match k with
  | I8 => let* x := getlong in ret (x mod 2 ^ 8)
  | I16 _ => let* x := getlong in ret (x mod 2 ^ 16)
  | I32 => getlong
  | I64 => get64
  | I128 => let* lo := get64 in let* hi := get64 in ret (hi * 2 ^ 64 + lo)
  end.

(** ** Types and values *)

(** src/mr_protos.h: mr_td_t and mr_fd_t, reduced to what the XDR handlers use.
    [TArr sized n t] is one dimension of an array with [n] elements; [sized]
    when it is the only dimension of a persistent field (src/xdr.c:870-874).
    [TPtr i] points to type [i] of the registry; [TDyn] is the content of a
    dynamic string (src/xdr.c:543). *)
Inductive ty :=
  | TNone | TInt (k : ikind) | TOpq (n : nat) | TChars (n : nat) | TDyn | TStr
  | TStruct (size : nat) (fs : list ty)
  | TUnion (size : nat) (fs : list (list Z * ty))
  | TArr (sized : bool) (n : nat) (t : ty)
  | TPtr (i : nat).

(** [stype.size], src/metaresc.c:1444-1458 and src/metaresc.c:1185-1203. *)
Fixpoint size_of (t : ty) : Z :=
  match t with
  | TNone => 8 | TInt k => bits k / 8 | TOpq n => Z.of_nat n | TChars n => Z.of_nat n | TDyn => 0 | TStr => 8
  | TStruct s _ => Z.of_nat s | TUnion s _ => Z.of_nat s | TArr _ n t => Z.of_nat n * size_of t | TPtr _ => 8
  end.

(** Saved nodes with their children.  Flags are those of src/mr_protos.h:476-485. *)
Inductive val :=
  | VNone | VInt (v : Z) | VBytes (l : list Z)
  | VStrRef (f idx : Z) | VStrNull (f : Z) | VStrText (f : Z) (l : list Z)
  | VStruct (l : list val)
  | VUnion (name : list Z) (v : val) | VUnionEmpty
  | VArr (l : list val)
  | VPtrRef (f idx : Z) | VPtrNull (f : Z) | VPtrOpaque (f : Z) (l : list Z) | VPtrBlock (f : Z) (l : list val).

(** src/mr_protos.h:478-482. *)
Definition f_null (f : Z) : bool := Z.testbit f 0.
(** src/mr_protos.h:479 and 481. *)
Definition f_ref (f : Z) : bool := Z.testbit f 1 || Z.testbit f 3.
(** src/mr_protos.h:482. *)
Definition f_opaque (f : Z) : bool := Z.testbit f 4.

(** src/xdr.c:549-560: a char array is written up to and including its NUL. *)
Definition chars_bytes (n : nat) (l : list Z) : list Z := if Nat.ltb (length l) n then l ++ [0] else l.
(** The string that is saved by src/xdr.c:539-577. *)
Fixpoint until_nul (l : list Z) : list Z :=
  match l with [] => [] | c :: l => if c =? 0 then [] else c :: until_nul l end.

(** src/xdr.c:586-609, xdr_save_string, text branch. *)
Definition put_string (f : Z) (l : list Z) : list Z :=
  put_int I8 f ++ put_int I32 (Z.of_nat (length l)) ++ put_opaque l.

(** src/xdr.c:543, 551-552, 566: a char array directly below a pointer is treated
    as a dynamic string, whatever its declared size is. *)
Definition pointee (t : ty) : ty := match t with TChars _ => TDyn | _ => t end.

(** src/xdr.c:1086-1115: xdr_save_node for every node in DFS pre-order (C27).
    The handlers are those of src/xdr.c:1050-1084: integers, xdr_char_array_
    (539-577), xdr_save_string (586-609), structs emit nothing, xdr_save_union
    (693-711), xdr_save_array (866-876), xdr_save_pointer (938-960).  [MR_SIZE] of
    a pointer to a type of size zero is taken to be 1; the decoder ignores it. *)
Fixpoint save (env : list ty) (t : ty) (v : val) {struct v} : list Z :=
  match v, t with
  | VInt z, TInt k => put_int k z
  | VBytes l, TOpq n => put_opaque l
  | VBytes l, TChars n => put_int I32 (Z.of_nat (length (chars_bytes n l))) ++ put_opaque (chars_bytes n l)
  | VBytes l, TDyn => put_int I32 (Z.of_nat (length l) + 1) ++ put_opaque (l ++ [0])
  | VStrRef f i, TStr => put_int I8 f ++ put_int I32 i
  | VStrNull f, TStr => put_int I8 f
  | VStrText f l, TStr => put_string f l
  | VStruct l, TStruct _ fs =>
      (fix go l fs := match l, fs with v :: l, t :: fs => save env t v ++ go l fs | _, _ => [] end) l fs
  | VUnion name v, TUnion _ fs =>
      put_string 0 name ++
      match List.find (fun p => bool_decide (fst p = name)) fs with Some p => save env (snd p) v | None => [] end
  | VUnionEmpty, TUnion _ _ => put_string 0 []
  | VArr l, TArr sized n t =>
      (if sized && negb (Nat.eqb n 0) then put_int I32 (Z.of_nat (length l) * size_of t) else []) ++ concat (map (save env t) l)
  | VPtrRef f i, TPtr _ => put_int I8 f ++ put_int I32 i
  | VPtrNull f, TPtr _ => put_int I8 f
  | VPtrOpaque f l, TPtr _ => put_int I8 f ++ put_int I32 (Z.of_nat (length l)) ++ put_opaque l
  | VPtrBlock f l, TPtr i =>
      match env !! i with
      | Some t => put_int I8 f ++ put_int I32 (if size_of t =? 0 then 1 else Z.of_nat (length l) * size_of t) ++ concat (map (save env (pointee t)) l)
      | None => []
      end
  | _, _ => []
  end.

(** ** Decoder *)

(** Reading [n] bytes into a block of [cap] bytes.
    The write by [xdr_opaque] to memory of [cap] bytes in src/xdr.c:576; more is undefined behaviour. *)
Definition into (cap n : Z) : dec (list Z) := let* l := get_opaque n in if cap <? n then (fun _ _ => UB) else ret l.

(** src/xdr.c:618-655, xdr_load_string (allocation succeeds; [calloc (size + 1)]
    is 32 bit unsigned). *)
Definition load_string : dec val :=
  let* f := get_int I8 in
  if f_ref f then let* i := get_int I32 in ret (VStrRef f i)
  else if f_null f then ret (VStrNull f)
  else let* n := get_int I32 in let* l := into (u32 (n + 1)) n in ret (VStrText f (until_nul l)).

(** src/xdr.c:924-926 and 1038-1041: element loop.  [cap]: number of elements the
    destination has; storing an element behind the last one is undefined. *)
Fixpoint load_loop (ld : dec val) (cap : option Z) (i : Z) (count : nat) : dec (list val) :=
  match count with
  | O => ret []
  | S count =>
    let* v := ld in
    if match cap with Some c => c <=? i | None => false end then (fun _ _ => UB)
    else let* l := load_loop ld cap (i + 1) count in ret (v :: l)
  end.

(** src/xdr.c:673-679: field loop of xdr_load_struct. *)
Fixpoint load_fields (ld : ty -> dec val) (fs : list ty) : dec (list val) :=
  match fs with
  | [] => ret []
  | t :: fs => let* v := ld t in let* l := load_fields ld fs in ret (v :: l)
  end.

(** src/xdr.c:563-576 for the elements of a block of [count] char arrays of [n]
    bytes below a pointer.  [cap]: bytes of the block.  A length above one
    reallocates the element to this length (568): the first element is the block
    itself, [realloc] of any other one is undefined, and so is a store behind the
    end of the block. *)
Fixpoint load_chars (n cap i : Z) (count : nat) : dec (list val) :=
  match count with
  | O => ret []
  | S count =>
    let* m := get_int I32 in
    if (1 <? m) && (0 <? i) then (fun _ _ => UB) else
    let cap := if 1 <? m then m else cap in
    let* l := into (cap - i * n) m in
    let* r := load_chars n cap (i + 1) count in ret (VBytes (until_nul l) :: r)
  end.

(** src/xdr.c:293-319, xdr_load_inner with the handlers of src/xdr.c:1120-1154:
    xdr_load_string, xdr_load_struct (664-681), xdr_load_union (720-753),
    xdr_load_array (885-928), xdr_load_pointer (969-1045), xdr_char_array_
    (539-577; for a dynamic string the block is reallocated to [str_len], or has
    one byte).  Allocations succeed.  Not modelled: the update of size fields
    (mr_pointer_set_size, 915 and 1025).  The nodes allocated on the way are in
    pre-order; cross references are resolved afterwards (src/xdr.c:242-291).
    Fuel bounds the depth of the recursion. *)
Fixpoint load (fuel : nat) (env : list ty) (t : ty) {struct fuel} : dec val :=
  match fuel with
  | O => fun _ _ => Oof
  | S fuel =>
    match t with
    | TNone => ret VNone
    | TInt k => let* v := get_int k in ret (VInt v)
    | TOpq n => let* l := get_opaque (Z.of_nat n) in ret (VBytes l)
    | TChars n => let* m := get_int I32 in let* l := into (Z.of_nat n) m in ret (VBytes (until_nul l))
    | TDyn => let* m := get_int I32 in let* l := into (if 1 <? m then m else 1) m in ret (VBytes (until_nul l))
    | TStr => load_string
    | TStruct _ fs => let* l := load_fields (load fuel env) fs in ret (VStruct l)
    | TUnion _ fs =>
      let* s := load_string in
      match s with
      | VStrText _ name =>
        match fs with
        | [] => ret VUnionEmpty
        | _ => match List.find (fun p => bool_decide (fst p = name)) fs with
               | None => fail
               | Some p => let* v := load fuel env (snd p) in ret (VUnion name v)
               end
        end
      | _ => fail
      end
    | TArr sized n t =>
      if Nat.eqb n 0 then ret (VArr []) else
      if sized then
        let* m := get_int I32 in
        if size_of t =? 0 then ret (VArr []) else
        let* l := load_loop (load fuel env t) (Some (Z.of_nat n)) 0 (Z.to_nat (m / size_of t)) in ret (VArr l)
      else let* l := load_loop (load fuel env t) (Some (Z.of_nat n)) 0 n in ret (VArr l)
    | TPtr i =>
      match env !! i with
      | None => fail
      | Some t =>
        let* f := get_int I8 in
        if f_ref f then let* i := get_int I32 in ret (VPtrRef f i)
        else if f_null f then ret (VPtrNull f)
        else
          let* m := get_int I32 in
          if f_opaque f then
            if m <=? 0 then fail else let* l := into m m in ret (VPtrOpaque f l)
          else
            let count := if 0 <? size_of t then m / size_of t else 1 in
            let m := if 0 <? size_of t then count * size_of t else 1 in
            if m <=? 0 then fail
            else match t with
            | TChars n => let* l := load_chars (Z.of_nat n) m 0 (Z.to_nat count) in ret (VPtrBlock f l)
            | _ => let* l := load_loop (load fuel env t) (Some count) 0 (Z.to_nat count) in ret (VPtrBlock f l)
            end
      end
    end
  end.
