(** Model of the field lookup by offset: the comparators
    (src/metaresc.c:763-801), the sorting of the fields of a structure
    (src/metaresc.c:1646-1647) and [mr_get_fd_by_offset] (src/mr_save.c:933-952). *)
From Verif Require Import Base HSort ICArrays.
Local Open Scope Z_scope.

(** The part of [mr_fd_t] (src/metaresc.h) that the comparators read: offset,
    size, whether [stype.mr_type] is MR_TYPE_BITFIELD, and [bitfield_param].
    The fields of [mr_fd_t] the comparators read: src/mr_protos.h:318, 334, 335, 365. *)
Record fd := Fd { f_off : Z; f_size : Z; f_bit : bool; f_shift : Z; f_width : Z }.

(** The idiom [(x > y) - (x < y)], e.g. src/metaresc.c:768. *)
Definition sign3 (x y : Z) : Z := (if x >? y then 1 else 0) - (if x <? y then 1 else 0).

Section mem.
(** Memory: the descriptor behind a pointer. *)
Context (mem : N -> fd).

(** src/metaresc.c:771-801 [mr_fd_offset_cmp_sorting]. *)
Definition offset_cmp_sorting (x y : N) : Z :=
  let X := mem x in let Y := mem y in
  let diff := sign3 (f_off X) (f_off Y) in
  if negb (diff =? 0) then diff else
  let by_size := sign3 (f_size X) (f_size Y) in
  if f_bit X && f_bit Y then
    let diff := sign3 (f_shift X) (f_shift Y) in
    if negb (diff =? 0) then diff else
    let diff := sign3 (f_width X) (f_width Y) in
    if negb (diff =? 0) then diff else by_size
  else by_size.

(** src/metaresc.c:763-769 [mr_fd_offset_cmp] as called from
    [mr_get_fd_by_offset]: [kp] is the address such that [kp]'s offset member
    is the function's argument [offset] (src/mr_save.c:937). *)
Definition offset_cmp (kp : N) (offset : Z) (x y : N) : Z :=
  let off p := if N.eqb p kp then offset else f_off (mem p) in
  sign3 (off x) (off y).

(** src/metaresc.c:1646-1647: fields of a structure are sorted. *)
Definition sort_fields (fields : list N) : option (list N) := hsort offset_cmp_sorting fields.

(** src/mr_save.c:949-950: the loop to the last field with this offset. *)
Fixpoint last_same (fuel : nat) (fields : list N) (offset : Z) (idx : nat) : option nat :=
  match fuel with
  | O => None
  | S fuel =>
    if Nat.ltb (idx + 1) (length fields) then
      p ← rd fields (idx + 1)%nat;
      if f_off (mem p) =? offset then last_same fuel fields offset (idx + 1) else Some idx
    else Some idx
  end.

(** src/mr_save.c:933-952 [mr_get_fd_by_offset].  Simplification: the number of
    fields is below 2^31. *)
Definition get_fd_by_offset (kp : N) (fields : list N) (offset : Z) : option (option N) :=
  '(diff, idx) ← find_idx (offset_cmp kp offset) kp fields;
  if negb (diff =? 0) then Some None else
  idx ← last_same (S (length fields)) fields offset idx;
  p ← rd fields idx;
  Some (Some p).
End mem.
