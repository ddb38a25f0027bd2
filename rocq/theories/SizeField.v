(** Model of the size fields of pointers: mr_pointer_get_size_ptrdes,
    src/mr_save.c:954-1003, and mr_pointer_set_size, src/mr_load.c:677-689.
    Memory as in AssignInt.v. *)
From Verif Require Import Base AssignInt.
Local Open Scope Z_scope.

(** The members of mr_fd_t used for a size field, src/mr_save.c:999-1002: offset,
    types, effective type of an enumeration and position as a bit-field. *)
Record sfield := SField { s_offset : nat; s_type : Z; s_aux : Z; s_enum : option Z; s_shift : Z; s_width : Z }.
(** The type of a structure, src/mr_save.c:985: its two lookups
    mr_get_fd_by_offset and mr_get_fd_by_name, functions here. *)
Record stype := SType { by_offset : Z -> option sfield; by_name : list Z -> option sfield }.
(** [res_type] and [res] of a field, src/mr_save.c:961-968.  The node has a field
    (line 961 does not test [fdp]) and a name is not empty (line 991 would take it for
    an offset; no field has an empty name). *)
Inductive sres := NoRes | Offset (o : Z) | Name (s : list Z).
(** A node, src/mr_protos.h:572-597: [parent] (0 is MR_NULL_IDX), [mr_type],
    [data.ptr], [fdp->res], [fdp->stype.tdp] ([None] also without [fdp]) and the
    address of [MR_SIZE] in the node. *)
Record snode := SNode { n_parent : nat; n_type : Z; n_data : nat; n_res : sres; n_td : option stype; n_size_at : nat }.

(** The loop over the parents, src/mr_save.c:975-978: 0 if there is no structure (22).
    [None]: a node outside of the table, or out of fuel. *)
Fixpoint parent_struct (fuel : nat) (nodes : list snode) (i : nat) : option nat :=
  match fuel with
  | O => None
  | S fuel =>
    if Nat.eqb i 0 then Some O else
    n ← nodes !! i;
    if n_type n =? 22 then Some i else parent_struct fuel nodes (n_parent n)
  end.

(** mr_pointer_get_size_ptrdes, src/mr_save.c:954-1003; [any] is the lookup of a name
    among the fields of all structures (:966).  [Some None]: there is no size field
    ([data.ptr] is null). *)
Definition size_ptrdes (any : list Z -> bool) (fuel : nat) (nodes : list snode) (idx : nat) : option (option operand) :=
  n ← nodes !! idx;
  let named := match n_res n with NoRes => false | Offset _ => true | Name s => any s end in
  if negb named then Some None else
  i ← parent_struct fuel nodes (n_parent n);
  if Nat.eqb i 0 then Some None else
  p ← nodes !! i;
  match n_td p with
  | None => Some None
  | Some td =>
    match (match n_res n with NoRes => None | Offset o => by_offset td o | Name s => by_name td s end) with
    | None => Some None
    | Some f => Some (Some (Op (n_data p + s_offset f) (s_type f) (s_aux f) (s_enum f) (s_shift f) (s_width f)))
    end
  end.

(** mr_pointer_set_size, src/mr_load.c:677-689: the memory afterwards.  The source is
    [MR_SIZE] of the node, an unsigned number of 32 bits (type 11). *)
Definition set_size (any : list Z -> bool) (fuel : nat) (mem : list Z) (nodes : list snode) (idx : nat) : option (list Z) :=
  dst ← size_ptrdes any fuel nodes idx;
  match dst with
  | None => Some mem
  | Some dst => if Nat.eqb (o_ptr dst) 0 then Some mem else
    n ← nodes !! idx; assign_int mem dst (Op (n_size_at n) 11 0 None 0 0)
  end.
