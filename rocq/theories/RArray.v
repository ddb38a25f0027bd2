(** Model of resizable arrays: mr_rarray_allocate_element (src/metaresc.c:573-599)
    and the text output built on it: mr_ra_append_char, mr_ra_append_string
    (src/mr_stringify.c:337-379), mr_ra_printf (src/mr_message.c:145-183), and
    the writer which appends raw bytes (src/yaml_save.c:12-29).  Bytes are
    numbers; ssize_t is the 64-bit signed type. *)
From Verif Require Import Base.
Local Open Scope Z_scope.

(** src/mr_protos.h:181-185, mr_rarray_t: the allocated block ([None] is NULL,
    its length is what realloc was asked for), [MR_SIZE] and [alloc_size]. *)
Record rarray := RA { block : option (list Z); rsize : Z; asize : Z }.

(** Signed 64-bit addition and doubling, src/metaresc.c:582 and 585.  Overflow is
    undefined ([None]) unless the compiler is told to wrap ([wrapv]). *)
Definition ssize (wrapv : bool) (x : Z) : option Z :=
  if (- 2 ^ 63 <=? x) && (x <? 2 ^ 63) then Some x
  else if wrapv then Some ((x + 2 ^ 63) mod 2 ^ 64 - 2 ^ 63) else None.

(** Oracle for one call: whether MR_REALLOC succeeds and the content of the
    fresh part of the block.
    MR_REALLOC of src/metaresc.c:588. *)
Record oracle := Orc { o_ok : bool; o_junk : nat -> Z }.

(** MR_REALLOC (data, n), src/metaresc.c:588: the old content up to the smaller
    size is kept.  Result [None] is the NULL of a failed call. *)
Definition realloc (o : oracle) (b : option (list Z)) (n : Z) : option (list Z) :=
  if o_ok o then
    let old := default [] b in
    let n := Z.to_nat n in
    Some (take n old ++ map (o_junk o) (seq (length old) (n - length old)))
  else None.

(** src/metaresc.c:573-599 mr_rarray_allocate_element with non-NULL arguments.
    The returned pointer is an index in the block, [None] is NULL.  The outer
    [None] is undefined behaviour.  [&_data[_size]] of a NULL block (only with
    [_size] 0, see the theorems) is NULL. *)
Definition allocate_element (wrapv : bool) (r : rarray) (element_size : Z) (o : oracle)
  : option (option nat * rarray) :=
  if (rsize r <? 0) || (element_size <? 0) then Some (None, r)
  else
    new_size ← ssize wrapv (rsize r + element_size);
    if asize r <? new_size then
      d ← ssize wrapv (new_size * 2);
      let realloc_size := if d <? new_size then new_size else d in
      match realloc o (block r) realloc_size with
      | None => Some (None, r)
      | Some b => Some (Some (Z.to_nat (rsize r)), RA (Some b) new_size realloc_size)
      end
    else
      Some (match block r with None => None | Some _ => Some (Z.to_nat (rsize r)) end,
            RA (block r) new_size (asize r)).

(** memcpy (&b[i], l, length l), e.g. src/yaml_save.c:20: bytes outside of the
    block are undefined behaviour. *)
Definition store (b : option (list Z)) (i : nat) (l : list Z) : option (option (list Z)) :=
  match b with
  | None => match l with [] => Some None | _ => None end
  | Some b => if Nat.leb (i + length l) (length b)
              then Some (Some (take i b ++ l ++ drop (i + length l) b)) else None
  end.

(** Append of raw bytes: mr_rarray_append (src/metaresc.c:601-605), then memcpy to
    the returned place, as in src/yaml_save.c:12-21 and src/xdr.c:100-113; [true]
    when a place was returned. *)
Definition append_bytes (wrapv : bool) (r : rarray) (l : list Z) (o : oracle) : option (bool * rarray) :=
  '(p, r) ← allocate_element wrapv r (Z.of_nat (length l)) o;
  match p with
  | None => Some (false, r)
  | Some i => b ← store (block r) i l; Some (true, RA b (rsize r) (asize r))
  end.

(** The exit [free_mr_ra] of the three functions below, e.g.
    src/mr_stringify.c:351-356. *)
Definition free_mr_ra : rarray := RA None 0 0.

(** A place one byte before the returned one, [tail[-1]] (src/mr_stringify.c:347). *)
Definition before (i : nat) : option nat := match i with O => None | S i => Some i end.

(** src/mr_stringify.c:337-357 mr_ra_append_char: returned value and array. *)
Definition ra_append_char (wrapv : bool) (r : rarray) (c : Z) (o : oracle) : option (Z * rarray) :=
  if (rsize r =? 0) || match block r with None => true | Some _ => false end then Some (-1, free_mr_ra)
  else
    '(p, r) ← allocate_element wrapv r 1 o;
    match p with
    | None => Some (-1, free_mr_ra)
    | Some tail =>
      i ← before tail;
      b ← store (block r) i [c];
      b ← store b tail [0];
      Some (1, RA b (rsize r) (asize r))
    end.

(** src/mr_stringify.c:359-379 mr_ra_append_string; [str] is the string without
    its terminator.  [int length = strlen (str)]: lengths of 2^31 and more are
    converted to int. *)
Definition ra_append_string (wrapv : bool) (r : rarray) (str : list Z) (o : oracle) : option (Z * rarray) :=
  if (rsize r =? 0) || match block r with None => true | Some _ => false end then Some (-1, free_mr_ra)
  else
    let len := (Z.of_nat (length str) + 2 ^ 31) mod 2 ^ 32 - 2 ^ 31 in
    '(p, r) ← allocate_element wrapv r len o;
    match p with
    | None => Some (-1, free_mr_ra)
    | Some tail =>
      i ← before tail;
      b ← store (block r) i (str ++ [0]);
      Some (len, RA b (rsize r) (asize r))
    end.

(** src/mr_message.c:145-183 mr_ra_printf; [text] is what the format and the
    arguments expand to, given by both mr_vscprintf (its length) and vsnprintf
    (its bytes and the terminator).  Neither of them fails. *)
Definition ra_printf (wrapv : bool) (r : rarray) (text : list Z) (o : oracle) : option (Z * rarray) :=
  if (rsize r =? 0) || match block r with None => true | Some _ => false end then Some (-1, free_mr_ra)
  else
    let size := rsize r in
    let len := Z.of_nat (length text) in
    '(p, r) ← allocate_element wrapv r len o;
    match p with
    | None => Some (-1, free_mr_ra)
    | Some tail =>
      i ← before tail;
      b ← store (block r) i (text ++ [0]);
      Some (len, RA b (len + size) (asize r))
    end.

(** One call of the text output functions.
    src/mr_stringify.c:337-379 and src/mr_message.c:145-183. *)
Inductive text_op := PutChar (c : Z) | PutString (s : list Z) | Printf (text : list Z).

(** Dispatch of such a call (the savers, e.g. src/json_save.c:20-41). *)
Definition text_step (wrapv : bool) (r : rarray) (t : text_op) (o : oracle) : option (Z * rarray) :=
  match t with
  | PutChar c => ra_append_char wrapv r c o
  | PutString s => ra_append_string wrapv r s o
  | Printf s => ra_printf wrapv r s o
  end.

(** A history of calls: returned values and final array.
    A sequence of such calls with the status of each, as in src/json_save.c:20-41. *)
Fixpoint text_run (wrapv : bool) (r : rarray) (ts : list (text_op * oracle)) : option (list Z * rarray) :=
  match ts with
  | [] => Some ([], r)
  | (t, o) :: ts =>
    '(v, r) ← text_step wrapv r t o;
    '(vs, r) ← text_run wrapv r ts;
    Some (v :: vs, r)
  end.

(** A history of raw appends: answers, and the number of calls of MR_REALLOC which
    succeeded, seen as changes of [alloc_size].
    A sequence of calls of the writer of src/yaml_save.c:12-29. *)
Fixpoint bytes_run (wrapv : bool) (r : rarray) (ls : list (list Z * oracle)) : option (list bool * nat * rarray) :=
  match ls with
  | [] => Some ([], O, r)
  | (l, o) :: ls =>
    '(ok, r') ← append_bytes wrapv r l o;
    '(oks, n, r'') ← bytes_run wrapv r' ls;
    Some (ok :: oks, ((if (asize r =? asize r')%Z then 0 else 1) + n)%nat, r'')
  end.

(** An empty resizable array, e.g. src/metaresc.h:1098. *)
Definition ra_empty : rarray := RA None 0 0.

(** MR_STRDUP of a header with its size, e.g. src/json_save.c:294-299 (the empty
    string): how all text outputs start. *)
Definition ra_text (s : list Z) : rarray :=
  RA (Some (s ++ [0])) (Z.of_nat (length s) + 1) (Z.of_nat (length s) + 1).
