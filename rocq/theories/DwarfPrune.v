(** Model of the removal of empty nodes before types from debug information are printed (src/mr_dwarf.c:1364-1387), over
    the node table of Ptrs.v.  [rm_type] of a node stands for [(REMOVE_IF_EMPTY >> mr_type) & 1] with the set of
    src/mr_dwarf.c:1364, and [nulls x] for: node [x] is of type MR_TYPE_STRING and has the flag MR_IS_NULL.
    [None]: an access outside of the table, or too little fuel. *)
From Verif Require Import Base Ptrs.

Section visitor.
(** src/mr_dwarf.c:1378. *)
Context (nulls : nat -> bool).

(** The condition src/mr_dwarf.c:1377-1378. *)
Definition drop_node (x : nat) (n : node) : bool := (Nat.eqb (first_child n) 0 && rm_type n) || nulls x.

(** The loop src/mr_dwarf.c:1376-1381; the pointer [next] as in Ptrs.v. *)
Fixpoint unlink (fuel : nat) (ns : list node) (idx : nat) (at_ : option nat) : option (list node) :=
  match fuel with
  | O => None
  | S fuel =>
    x ← link ns idx at_;
    if Nat.eqb x 0 then Some ns
    else n ← rd ns x;
         if drop_node x n then ns ← set_link ns idx at_ (next n); unlink fuel ns idx at_
         else unlink fuel ns idx (Some x)
  end.

(** mr_remove_empty_node_visitor, src/mr_dwarf.c:1367-1385. *)
Definition remove_visitor (ns : list node) (c : unit) (idx : nat) (level : Z) (o : order) : option (bool * list node * unit) :=
  match o with
  | PRE => Some (true, ns, c)
  | POST =>
    n ← rd ns idx;
    if negb (structured n) then Some (true, ns, c)
    else if is_ref n then Some (true, ns, c)
    else ns ← unlink (S (S (length ns))) ns idx None; Some (true, ns, c)
  end.

(** mr_remove_empty_nodes, src/mr_dwarf.c:1387; the traversal starts at node 1 (src/metaresc.h:1619). *)
Definition remove_all (fuel : nat) (ns : list node) : option (list node) :=
  match dfs remove_visitor fuel ns tt 1 with Done true ns _ => Some ns | _ => None end.
End visitor.
