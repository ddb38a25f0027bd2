(** Model of sorting arrays of basic types, src/mr_ic.c:26-114.  An array is the
    list of the byte contents of its elements. *)
From Verif Require Import Base HashStr HSort CmpHash.
Local Open Scope Z_scope.

Section sort.
Context (ev : env).
(** mr_generic_cmp with the descriptor of [key_type], if there is one and its
    size is not 0: src/mr_ic.c:43-48 and 33-38.  MR_CMP_STRUCTS is a parameter
    here; it is modelled in CmpHash.v. *)
Context (generic : option (list Z -> list Z -> Z)).

(** Comparison of two pointers as numbers, MR_TYPE_CMP_FUNC (void_ptr),
    src/mr_ic.c:53-60, 66. *)
Definition ptr_cmp (x y : list Z) : option Z :=
  px ← bytes_at x 0 8; py ← bytes_at y 0 8; Some (sgn3 (le_num px) (le_num py)).

(** The function for strings, src/mr_ic.c:68-75. *)
Definition string_cmp (x y : list Z) : option Z :=
  px ← bytes_at x 0 8; py ← bytes_at y 0 8;
  let px := le_num px in let py := le_num py in
  if negb (px =? 0) && negb (py =? 0) then tx ← text ev px; ty ← text ev py; Some (strcmp tx ty)
  else Some (sgn3 px py).

(** The function for char arrays, src/mr_ic.c:77-82: an element without zero is
    read beyond its end, [None]. *)
Definition chars_cmp (x y : list Z) : option Z :=
  tx ← text_at x; ty ← text_at y; Some (strcmp tx ty).

(** MR_TYPE_CMP_FUNC on bool, src/mr_ic.c:53-60. *)
Definition bool_cmp (x y : list Z) : option Z :=
  bx ← rd_bool x; by' ← rd_bool y; Some (sgn3 bx by').

(** MR_TYPE_CMP_FUNC on an integer type, src/mr_ic.c:53-60. *)
Definition int_cmp (size : nat) (sgn : bool) (x y : list Z) : option Z :=
  bx ← bytes_at x 0 size; by' ← bytes_at y 0 size; Some (sgn3 (le_int sgn bx) (le_int sgn by')).

(** MR_TYPE_CMP_FUNC on a floating point type, src/mr_ic.c:53-60: unlike
    src/mr_extra.c:420-435 without a case for values that are not numbers. *)
Definition float_cmp (f : fmt) (x y : list Z) : option Z :=
  vx ← rd_float f x 0; vy ← rd_float f y 0; Some (fsgn3 vx vy).

(** mr_type_compar_fn, src/mr_ic.c:84-99: the entry of the table. *)
Definition compar_fn (t : Z) : option (list Z -> list Z -> option Z) :=
  match kind_of t with
  | KString => Some string_cmp
  | KCharArray => Some chars_cmp
  | KBool => Some bool_cmp
  | KInt size sgn => Some (int_cmp size sgn)
  | KFloat f => Some (float_cmp f)
  | KFunc => Some ptr_cmp
  | _ => None
  end.

(** Status and array after the call, src/mr_ic.c:102.  [Undefined] is a
    comparison with undefined behaviour. *)
Inductive outcome := Sorted (data : list (list Z)) | Failure | Undefined.

(** mr_hsort with a comparison that may be undefined.  Simplification: of two or
    more elements each takes part in some comparison, so that one which cannot be
    read makes the call undefined.
    src/mr_hsort.c:36-56 as called at src/mr_ic.c:48, 111. *)
Definition sort_by (cmp : list Z -> list Z -> option Z) (data : list (list Z)) : outcome :=
  if (2 <=? length data)%nat && negb (forallb (fun e => match cmp e e with Some _ => true | None => false end) data)
  then Undefined
  else match hsort (fun x y => default 0 (cmp x y)) data with Some data => Sorted data | None => Undefined end.

(** mr_basic_types_sort, src/mr_ic.c:101-114, with mr_generic_sort, 40-50. *)
Definition basic_sort (t : Z) (data : list (list Z)) : outcome :=
  if t =? 0 then match generic with Some cmp => sort_by (fun x y => Some (cmp x y)) data | None => Failure end
  else match compar_fn t with Some cmp => sort_by cmp data | None => Failure end.
End sort.
