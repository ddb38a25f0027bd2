(** Model of the array based indexed collections of src/mr_ic.c:
    unsorted array (116-244), sorted array (246-433), static array (701-845).
    Keys ([mr_ptr_t], an 8 byte union) are numbers; key 0 is the NULL key. *)
From Verif Require Import Base Spec HSort.

(** memmove (&a[dst], &a[src], n * sizeof (a[0])) inside one array; used at
    src/mr_ic.c:279, 295, 745.  Out of bounds is [None]. *)
Definition memmove (a : list N) (dst src n : nat) : option (list N) :=
  if Nat.leb (dst + n) (length a) && Nat.leb (src + n) (length a)
  then Some (take dst a ++ take n (drop src a) ++ drop (dst + n) a)
  else None.

(** src/metaresc.c:573-599 [mr_rarray_allocate_element], in units of elements:
    new capacity, or [None] when the needed reallocation fails.  [alloc] tells
    whether MR_REALLOC succeeds.  Sizes do not reach the overflow of ssize_t
    (the byte-level arithmetic is modelled in RArray.v). *)
Definition grow (alloc : bool) (cap new_size : nat) : option nat :=
  if Nat.ltb cap new_size then (if alloc then Some (2 * new_size) else None) else Some cap.

(** [mr_ic_rarray_t] and [items_count] (src/mr_protos.h:188, 271).  [ra] holds
    exactly the used part of the allocated block. *)
Record rarr := RArr { ra : list N; cap : nat; items : nat }.

Section ic.
Context (cmp : N -> N -> Z).
(** Content of freshly allocated memory is unspecified. *)
Context (junk : N).

(** src/mr_ic.c:255-263, loop of [mr_ic_sorted_array_find_idx]; returns
    (diff, up).  Simplification: [unsigned] sums do not wrap (fewer than 2^31
    elements). *)
Fixpoint find_idx_loop (fuel : nat) (key : N) (a : list N) (down up : nat) (diff : Z)
  : option (Z * nat) :=
  match fuel with
  | O => None
  | S fuel =>
    if negb (Nat.eqb up down) && negb (Z.eqb diff 0) then
      let mid := Nat.div2 (down + up) in
      x ← rd a mid;
      let diff := cmp key x in
      if (diff <=? 0)%Z then find_idx_loop fuel key a down mid diff
      else find_idx_loop fuel key a (mid + 1) up diff
    else Some (diff, up)
  end.

(** src/mr_ic.c:248-266 [mr_ic_sorted_array_find_idx]. *)
Definition find_idx (key : N) (a : list N) : option (Z * nat) :=
  find_idx_loop (S (S (length a))) key a 0 (length a) 1.

(** src/mr_ic.c:299-305 [mr_ic_sorted_array_find]: the key behind the pointer. *)
Definition sorted_find (m : rarr) (key : N) : option (option N) :=
  '(diff, idx) ← find_idx key (ra m);
  if (diff =? 0)%Z then x ← rd (ra m) idx; Some (Some x) else Some None.

(** src/mr_ic.c:268-284 [mr_ic_sorted_array_add]. *)
Definition sorted_add (m : rarr) (key : N) (alloc : bool) : option (option N * rarr) :=
  '(diff, idx) ← find_idx key (ra m);
  if (diff =? 0)%Z then x ← rd (ra m) idx; Some (Some x, m)
  else
    match grow alloc (cap m) (length (ra m) + 1) with
    | None => Some (None, m)
    | Some cap' =>
      let a := ra m ++ [junk] in
      a ← memmove a (idx + 1) idx (length a - (idx + 1));
      a ← wr a idx key;
      x ← rd a idx;
      Some (Some x, RArr a cap' (length a))
    end.

(** src/mr_ic.c:286-297 [mr_ic_sorted_array_del]. *)
Definition sorted_del (m : rarr) (key : N) : option (bool * rarr) :=
  '(diff, idx) ← find_idx key (ra m);
  if negb (diff =? 0)%Z then Some (false, m)
  else
    let n := length (ra m) - 1 in
    a ← memmove (ra m) idx (idx + 1) (n - idx);
    Some (true, RArr (take n a) (cap m) n).

(** src/mr_ic.c:313-327 [mr_sort_key_cmp]: compare values, then positions.
    Simplification: the values are read with a default for positions outside the
    input array; the sorting routine only ever compares elements of the position
    array, all of which are below the length of the input. *)
Definition sort_key_cmp (input : list N) (x y : N) : Z :=
  let diff := cmp (nth (N.to_nat x) input 0%N) (nth (N.to_nat y) input 0%N) in
  if negb (diff =? 0)%Z then diff
  else (Z.b2z (y <? x)%N - Z.b2z (x <? y)%N)%Z.

(** src/mr_ic.c:361-367, the de-duplication loop: [a] holds positions above
    [src] and final values below [dst]. *)
Fixpoint dedup_loop (n : nat) (input a : list N) (prev : N) (src dst : nat) : option (list N * nat) :=
  match n with
  | O => Some (a, dst)
  | S n =>
    i ← rd a src;
    next ← rd input (N.to_nat i);
    if negb (Z.eqb (cmp next prev) 0) then
      a ← wr a dst next;
      dedup_loop n input a next (S src) (S dst)
    else dedup_loop n input a next (S src) dst
  end.

(** src/mr_ic.c:329-373 [mr_ic_sorted_array_index].  [true] is MR_SUCCESS. *)
Definition sorted_index (m : rarr) (input : list N) (alloc : bool) : option (bool * rarr) :=
  let count := length input in
  if Nat.eqb count 0 then Some (true, RArr [] (cap m) 0)
  else
    match grow alloc (cap m) count with
    | None => Some (false, RArr [] (cap m) 0)
    | Some cap' =>
      let a := map N.of_nat (seq 0 count) in
      a ← hsort (sort_key_cmp input) a;
      i ← rd a 0;
      prev ← rd input (N.to_nat i);
      a ← wr a 0 prev;
      '(a, dst) ← dedup_loop (count - 1) input a prev 1 1;
      Some (true, RArr (take dst a) cap' dst)
    end.

(** src/mr_ic.c:385-433 [mr_ic_sorted_array_new]. *)
Definition sorted_new : rarr := RArr [] 0 0.

(** Unsorted array: src/mr_ic.c:158-166 [mr_ic_unsorted_array_find]; returns the
    position of the first equal element. *)
Fixpoint unsorted_find_from (a : list N) (key : N) (i : nat) : option nat :=
  match a with
  | [] => None
  | x :: a => if (cmp key x =? 0)%Z then Some i else unsorted_find_from a key (S i)
  end.
(** The loop of src/mr_ic.c:161-164, started at 0. *)
Definition unsorted_find_pos (a : list N) (key : N) : option nat := unsorted_find_from a key 0.

(** Collections whose operations may change the representation of the object
    ([ic->virt_func] and [ic->ic_type]).
    The array kinds of the union in [mr_ic_t] (src/mr_protos.h:276-284), selected by [ic_type] (src/mr_protos.h:270). *)
Inductive arr_ic :=
| Unsorted (m : rarr)       (* MR_IC_UNSORTED_ARRAY *)
| Sorted (m : rarr)         (* MR_IC_SORTED_ARRAY *)
| Static (a : list N) (n : nat) (* MR_IC_STATIC_ARRAY: storage of fixed length, items_count *).

(** src/mr_protos.h:202-204: sizeof (mr_ic_hash_t) / sizeof (mr_ptr_t) = 24 / 8. *)
Definition STATIC_SIZE : nat := 3.

(** src/mr_ic.c:798-845 [mr_ic_static_array_new]. *)
Definition static_new : arr_ic := Static (replicate STATIC_SIZE 0%N) 0.

(** src/mr_ic.c:196-244 [mr_ic_unsorted_array_new] followed by 178-186
    [mr_ic_unsorted_array_index]: the collection borrows the caller's array. *)
Definition unsorted_index (input : list N) : arr_ic := Unsorted (RArr input 0 (length input)).

(** src/mr_ic.c:750-758 [mr_ic_static_array_find]: position. *)
Definition static_find_pos (a : list N) (n : nat) (key : N) : option nat :=
  unsorted_find_from (take n a) key 0.

(** Find through the virtual table (src/mr_ic.h:68-74). *)
Definition arr_find (ic : arr_ic) (key : N) : option (option N) :=
  match ic with
  | Unsorted m =>
    match unsorted_find_pos (ra m) key with
    | Some i => x ← rd (ra m) i; Some (Some x)
    | None => Some None
    end
  | Sorted m => sorted_find m key
  | Static a n =>
    match static_find_pos a n key with
    | Some i => x ← rd a i; Some (Some x)
    | None => Some None
    end
  end.

(** Add: src/mr_ic.c:118-136 (unsorted), 268-284 (sorted), 703-734 (static).
    Conversions build a sorted array by [mr_ic_index] and add to it. *)
Definition arr_add (ic : arr_ic) (key : N) (alloc : bool) : option (option N * arr_ic) :=
  match ic with
  | Sorted m => '(r, m) ← sorted_add m key alloc; Some (r, Sorted m)
  | Unsorted m =>
    r ← arr_find ic key;
    match r with
    | Some x => Some (Some x, ic)
    | None =>
      '(ok, d) ← sorted_index sorted_new (ra m) alloc;
      if (ok : bool) then '(r, d) ← sorted_add d key alloc; Some (r, Sorted d)
      else Some (None, ic)
    end
  | Static a n =>
    r ← arr_find ic key;
    match r with
    | Some x => Some (Some x, ic)
    | None =>
      let n := if Nat.ltb STATIC_SIZE n then 0 else n in
      if Nat.eqb n STATIC_SIZE then
        '(ok, d) ← sorted_index sorted_new a alloc;
        if (ok : bool) then '(r, d) ← sorted_add d key alloc; Some (r, Sorted d)
        else Some (None, Static a n)
      else
        a ← wr a n key;
        x ← rd a n;
        Some (Some x, Static a (S n))
    end
  end.

(** Del: src/mr_ic.c:138-156 (unsorted), 286-297 (sorted), 736-748 (static). *)
Definition arr_del (ic : arr_ic) (key : N) (alloc : bool) : option (bool * arr_ic) :=
  match ic with
  | Sorted m => '(r, m) ← sorted_del m key; Some (r, Sorted m)
  | Unsorted m =>
    r ← arr_find ic key;
    match r with
    | None => Some (false, ic)
    | Some _ =>
      '(ok, d) ← sorted_index sorted_new (ra m) alloc;
      if (ok : bool) then '(r, d) ← sorted_del d key; Some (r, Sorted d)
      else Some (false, ic)
    end
  | Static a n =>
    match static_find_pos a n key with
    | None => Some (false, ic)
    | Some i =>
      let n := n - 1 in
      a ← memmove a i (i + 1) (n - i);
      a ← wr a n 0%N;
      Some (true, Static a n)
    end
  end.

(** src/mr_ic.c:777-796 [mr_ic_static_array_index]. *)
Fixpoint static_index_loop (ic : arr_ic) (input : list N) (alloc : bool) : option arr_ic :=
  match input with
  | [] => Some ic
  | k :: input => '(_, ic) ← arr_add ic k alloc; static_index_loop ic input alloc
  end.
(** src/mr_ic.c:777-796. *)
Definition static_index (a : list N) (input : list N) (alloc : bool) : option (bool * arr_ic) :=
  if Nat.ltb STATIC_SIZE (length input) then
    '(ok, d) ← sorted_index sorted_new input alloc; Some (ok, Sorted d)
  else
    ic ← static_index_loop (Static a 0) input alloc;
    Some (true, ic).

(** Foreach: src/mr_ic.c:168-176 and 760-768, the visited keys in order. *)
Definition arr_elems (ic : arr_ic) : list N :=
  match ic with
  | Unsorted m | Sorted m => ra m
  | Static a n => take n a
  end.

(** Public counter [items_count].
    [items_count] (src/mr_protos.h:271) as set in src/mr_ic.c:181, 281, 294, 369, 731, 744. *)
Definition arr_items (ic : arr_ic) : nat :=
  match ic with
  | Unsorted m | Sorted m => items m
  | Static _ n => n
  end.

(** One call of the public API.
    Dispatch through [virt_func], src/mr_ic.h:60-106. *)
Definition arr_step (ic : arr_ic) (o : op) : option (res * arr_ic) :=
  match o with
  | Find k => r ← arr_find ic k; Some (RKey r, ic)
  | Add k al => '(r, ic) ← arr_add ic k al; Some (RKey r, ic)
  | Del k al => '(b, ic) ← arr_del ic k al; Some (RStatus b, ic)
  end.

End ic.
