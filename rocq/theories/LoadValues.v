(** Model of mr_free_load_values, src/mr_load.c:107-132: the release of the values
    that a parser has attached to the nodes, and of the nodes themselves.
    The heap is the set of addresses of allocated blocks.  Releasing an address
    that is not one of them, or reading nodes that are released, is undefined,
    [None]. *)
From stdpp Require Import gmap.
From Verif Require Import Base.
Local Open Scope Z_scope.

(** A node, src/mr_protos.h:572-597: [value_type] and the pointer that
    [load_params.vt_string] and [load_params.vt_complex] share (:521-529). *)
Record vnode := VNode { v_type : Z; v_ptr : Z }.
(** mr_ra_ptrdes_t, src/mr_protos.h:606-614: the address [ra] and the nodes there,
    [size / sizeof (ra[0])] of them.  Other members are left out. *)
Record vtable := VTable { t_ra : Z; t_nodes : list vnode }.

(** MR_FREE, src/metaresc.h:126, of an address that is not null. *)
Definition release (h : gset Z) (a : Z) : option (gset Z) :=
  if decide (a ∈ h) then Some (h ∖ {[a]}) else None.

(** The body of the loop, src/mr_load.c:117-129. *)
Definition free_value (h : gset Z) (n : vnode) : option (gset Z) :=
  if v_type n =? 2 then if v_ptr n =? 0 then Some h else release h (v_ptr n)
  else if v_type n =? 7 then if v_ptr n =? 0 then Some h else release h (v_ptr n)
  else Some h.

(** The loop, src/mr_load.c:116-129; every step reads the block of nodes. *)
Fixpoint free_values (h : gset Z) (ra : Z) (ns : list vnode) : option (gset Z) :=
  match ns with
  | [] => Some h
  | n :: ns => if decide (ra ∈ h) then h ← free_value h n; free_values h ra ns else None
  end.

(** mr_free_load_values, src/mr_load.c:107-132: [None] of the argument is a null
    pointer.  The heap and the table afterwards. *)
Definition free_load_values (h : gset Z) (t : option vtable) : option (gset Z * option vtable) :=
  match t with
  | None => Some (h, None)
  | Some t =>
    if t_ra t =? 0 then Some (h, Some t) else
    h ← free_values h (t_ra t) (drop 1 (t_nodes t));
    h ← release h (t_ra t);
    Some (h, Some (VTable 0 []))
  end.
