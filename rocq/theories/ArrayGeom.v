(** Model of the geometry of arrays: collection of the extents written in a
    declaration (src/metaresc.c:1259-1290) and the walk over the elements when
    an array is saved (src/mr_save.c:1172-1230). *)
From Verif Require Import Base.
Local Open Scope Z_scope.

(** [sizeof (dim.dim) / sizeof (dim.dim[0])], src/mr_protos.h:305. *)
Definition max_dims : nat := 4.

(** src/metaresc.c:1274-1278: one bracket with extent [count]; [dims] are the
    cells filled so far.  Cells and [count] are uint32_t. *)
Definition add_dim (dims : list Z) (count : Z) : option (list Z) :=
  if Nat.ltb (length dims) max_dims then Some (dims ++ [count])
  else
    let i := (length dims - 1)%nat in
    x ← rd dims i;
    wr dims i ((x * count) mod 2 ^ 32).

(** src/metaresc.c:1265-1285 [mr_type_is_an_array]: the cells in use after all
    brackets.  Simplification: the extents are given as numbers (atoi of the
    text is not modelled), the special case of a one-dimensional char array
    (line 1282) is left out. *)
Fixpoint add_dims (dims : list Z) (counts : list Z) : option (list Z) :=
  match counts with
  | [] => Some dims
  | c :: counts => dims ← add_dim dims c; add_dims dims counts
  end.
(** The loop of src/metaresc.c:1265-1285 from its start. *)
Definition collect_dims (counts : list Z) : option (list Z) := add_dims [] counts.

(** The array [mr_array_dimensions_t.dim] (src/mr_protos.h:304-307): the cells
    not in use are zero (src/metaresc.c:1266). *)
Definition cells (dims : list Z) : list Z :=
  dims ++ replicate (max_dims - length dims) 0.

(** [memmove (&dim[dst], &dim[src], n * sizeof (dim[0]))], src/mr_save.c:1219. *)
Definition move_cells (dim : list Z) (dst src n : nat) : list Z :=
  take dst dim ++ take n (drop src dim) ++ drop (dst + n) dim.

(** src/mr_save.c:1194-1214: the number of elements saved when the field has a
    size field holding [limit] bytes ([None]: no size field).  [count_] on line
    1208 is uint32_t. *)
Definition limit_count (limit : option Z) (size count : Z) : Z :=
  match limit with
  | None => count
  | Some l =>
    if l <=? 0 then 0
    else
      let count_ := (l / size) mod 2 ^ 32 in
      if count >? count_ then count_ else count
  end.

(** src/mr_save.c:1172-1230 [mr_save_array].  [used] is [dim.size /
    sizeof (dim[0])], [dim] the four cells, [persistent] tells whether the
    descriptor is the field's own one ([!non_persistent]), [size] is
    [stype.size].  The result is the list of addresses and sizes of the element
    nodes added, in the order of saving; [None] is the failure on line 1183 or a
    division by zero on line 1208.  Simplification: no node saved before matches
    an element, so every [mr_save_inner] of an element (line 1224) answers 1;
    the element's own handler succeeds. *)
Fixpoint save_array (used : nat) (dim : list Z) (persistent : bool) (limit : option Z)
    (size addr : Z) : option (list (Z * Z)) :=
  match used with
  | O => None
  | S rest =>
    count ← rd dim 0;
    if count =? 0 then Some []
    else if size =? 0 then None
    else
      let size := size / count in
      match rest with
      | O =>
        if persistent && (match limit with Some l => (0 <? l) && (size =? 0) | None => false end)
        then None
        else
          let count := if persistent then limit_count limit size count else count in
          Some ((fun i => (addr + i * size, size)) <$> seqZ 0 count)
      | S _ =>
        let dim := move_cells dim 0 0 rest in
        rows ← mapM (fun i => save_array rest dim false limit size (addr + i * size)) (seqZ 0 count);
        Some (concat rows)
      end
  end.

(** The call for a field (src/mr_save.c:1060): all collected extents in use,
    the descriptor is the field's own. *)
Definition save_field (dims : list Z) (limit : option Z) (size addr : Z) : option (list (Z * Z)) :=
  save_array (length dims) (cells dims) true limit size addr.
