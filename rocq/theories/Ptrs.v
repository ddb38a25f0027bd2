(** Model of the node table [mr_ra_ptrdes_t] (src/mr_protos.h:572-614): growth,
    child lists, depth-first traversal, renumbering and removal of empty nodes. *)
From Verif Require Import Base.

(** src/mr_protos.h:572-597, struct mr_ptrdes_t, reduced to the fields used by
    the functions below.  [MR_NULL_IDX] is 0.  [is_ref] stands for
    [flags & (MR_IS_REFERENCE | MR_IS_CONTENT_REFERENCE)], [referenced] for
    [flags & MR_IS_REFERENCED], [structured] for [(MR_STRUCT_TYPES >> mr_type) & 1]
    and [rm_type] for [(REMOVE_IF_EMPTY >> mr_type) & 1]; indexes are unbounded
    (the C type is 32 bit wide). *)
Record node := Node {
  parent : nat; next : nat; first_child : nat; pub_idx : nat;
  is_ref : bool; referenced : bool; structured : bool; rm_type : bool }.

(** src/metaresc.c:620, [memset (ptrdes, 0, ...)]: a fresh descriptor. *)
Definition fresh_node : node := Node 0 0 0 0 false false false false.

(** Field stores; src/metaresc.c:658-665, src/mr_save.c:1339, 1360. *)
Definition set_parent (n : node) (v : nat) : node :=
  Node v (next n) (first_child n) (pub_idx n) (is_ref n) (referenced n) (structured n) (rm_type n).
(** Store to [next], src/metaresc.c:658-665, src/mr_save.c:1339. *)
Definition set_next (n : node) (v : nat) : node :=
  Node (parent n) v (first_child n) (pub_idx n) (is_ref n) (referenced n) (structured n) (rm_type n).
(** Store to [first_child], src/metaresc.c:658-665, src/mr_save.c:1339. *)
Definition set_first_child (n : node) (v : nat) : node :=
  Node (parent n) (next n) v (pub_idx n) (is_ref n) (referenced n) (structured n) (rm_type n).
(** Store to [idx], src/mr_save.c:1360. *)
Definition set_pub_idx (n : node) (v : nat) : node :=
  Node (parent n) (next n) (first_child n) v (is_ref n) (referenced n) (structured n) (rm_type n).

(** Read-modify-write of one array element through a pointer, e.g.
    [ptrs->ra[child].parent = parent] at src/metaresc.c:658. *)
Definition upd (ns : list node) (i : nat) (f : node -> node) : option (list node) :=
  n ← rd ns i; wr ns i (f n).

(** src/mr_protos.h:606-614, mr_ra_ptrdes_t: the nodes and the [last_child] cache. *)
Record ptrs := Ptrs { ra : list node; cache : nat }.

(** src/metaresc.c:614-622, mr_add_ptr_to_list (allocation succeeds): the new
    node is the last one; its index is returned. *)
Definition add_ptr (p : ptrs) : nat * ptrs :=
  (length (ra p), Ptrs (ra p ++ [fresh_node]) (cache p)).

(** src/metaresc.c:635-636: climb from the cached node to a child of [parent]. *)
Fixpoint climb_to (fuel : nat) (ns : list node) (par lc : nat) : option nat :=
  match fuel with
  | O => None
  | S fuel =>
    if Nat.eqb lc 0 then Some 0
    else n ← rd ns lc;
         if Nat.eqb (parent n) par then Some lc else climb_to fuel ns par (parent n)
  end.

(** src/metaresc.c:638-639: follow the child list to its last node. *)
Fixpoint scan_last (fuel : nat) (ns : list node) (lc : nat) : option nat :=
  match fuel with
  | O => None
  | S fuel =>
    n ← rd ns lc;
    if Nat.eqb (next n) 0 then Some lc else scan_last fuel ns (next n)
  end.

(** src/metaresc.c:624-643, mr_last_child_for_parent.  Both loops visit a node
    at most once on a well-formed table, so the number of nodes is enough fuel
    ([None] otherwise; excluded by the theorems). *)
Definition last_child_for_parent (p : ptrs) (par : nat) : option (nat * ptrs) :=
  if Nat.eqb par 0 then Some (0, p) else
  n ← rd (ra p) par;
  if Nat.eqb (first_child n) 0 then Some (0, p) else
  lc ← climb_to (S (length (ra p))) (ra p) par (cache p);
  if Nat.eqb lc 0 then
    lc' ← scan_last (S (length (ra p))) (ra p) (first_child n);
    Some (lc', Ptrs (ra p) lc')
  else Some (lc, Ptrs (ra p) lc).

(** src/metaresc.c:651-666, mr_add_child. *)
Definition add_child (p : ptrs) (par child : nat) : option ptrs :=
  r ← last_child_for_parent p par;
  let '(lc, p) := (r : nat * ptrs) in
  ns ← upd (ra p) child (fun n => set_parent n par);
  if Nat.eqb par 0 then Some (Ptrs ns child) else
  n ← rd ns par;
  if Nat.eqb (first_child n) 0 then
    ns ← upd ns par (fun n => set_first_child n child); Some (Ptrs ns child)
  else if Nat.eqb lc 0 then Some (Ptrs ns child)
  else ns ← upd ns lc (fun n => set_next n child); Some (Ptrs ns child).

(** Calls issued by the savers and loaders: allocate a node
    (src/mr_save.c:1015, src/xdr.c:297, src/xml2_load.c:35), hang a node below
    another one (src/mr_save.c:1051, src/xdr.c:307, src/xml2_load.c:85), ask for
    the last child (src/cinit_load.y:252, src/json_load.y:155). *)
Inductive pop := New | Link (par child : nat) | Last (par : nat).

(** One such call.
    The calls of src/metaresc.c:614-666. *)
Definition pop_step (p : ptrs) (o : pop) : option ptrs :=
  match o with
  | New => Some (snd (add_ptr p))
  | Link par child => add_child p par child
  | Last par => r ← last_child_for_parent p par; Some (snd (r : nat * ptrs))
  end.

(** A history of calls (the loops of src/mr_save.c:1554-1600 and of the parsers). *)
Fixpoint pop_run (p : ptrs) (os : list pop) : option ptrs :=
  match os with
  | [] => Some p
  | o :: os => p ← pop_step p o; pop_run p os
  end.

(** src/mr_save.c:1568: node 0 is allocated as the NULL node. *)
Definition ptrs_init : ptrs := Ptrs [fresh_node] 0.

(** The loop every consumer uses to enumerate children, e.g. src/mr_load.c:593:
    [for (idx = first_child; idx != MR_NULL_IDX; idx = next)]. *)
Fixpoint walk_next (fuel : nat) (ns : list node) (h : nat) : option (list nat) :=
  match fuel with
  | O => None
  | S fuel =>
    if Nat.eqb h 0 then Some []
    else n ← rd ns h; l ← walk_next fuel ns (next n); Some (h :: l)
  end.

(** Children of node [par] as seen by the consumers.
    E.g. src/mr_load.c:593 and src/mr_extra.c:295. *)
Definition children (ns : list node) (par : nat) : option (list nat) :=
  n ← rd ns par; walk_next (S (length ns)) ns (first_child n).

(** src/mr_protos.h:616-619, mr_dfs_order_t. *)
Inductive order := PRE | POST.

Section Dfs.
  (** The visitor [mr_ptrdes_processor_t] (src/mr_protos.h:621): it gets the
      node table, its context, the node, the level and the order, and returns
      a status, the table and the context; [None] is undefined behaviour.
      (Section variable: every theorem quantifies over it.) *)
  Context {C : Type}.
  Variable proc : list node -> C -> nat -> Z -> order -> option (bool * list node * C).

  (** Control points of src/mr_save.c:1243-1270: [Top] is the head of the outer
      loop, [Climb] the head of the inner loop. *)
  Inductive mode := Top | Climb.
  (** Control points of src/mr_save.c:1243 and 1257. *)
  Record dstate := DState { d_mode : mode; d_idx : nat; d_level : Z; d_ns : list node; d_c : C }.
  (** The returns of src/mr_save.c:1246, 1256, 1262, 1264, 1269; [Stuck] is undefined behaviour or out of fuel. *)
  Inductive dres := Running (s : dstate) | Done (ok : bool) (ns : list node) (c : C) | Stuck.

  (** A visitor call followed by the [return (MR_FAILURE)] test.
      The calls of [processor] in src/mr_save.c:1245, 1255, 1261. *)
  Definition visit (ns : list node) (c : C) (idx : nat) (level : Z) (o : order)
      (k : list node -> C -> dres) : dres :=
    match proc ns c idx level o with
    | None => Stuck
    | Some (false, ns, c) => Done false ns c
    | Some (true, ns, c) => k ns c
    end.

  (** src/mr_save.c:1250: the node is entered. *)
  Definition expandable (n : node) : bool := negb (Nat.eqb (first_child n) 0) && negb (is_ref n).

  (** src/mr_save.c:1239-1270, mr_ptrs_dfs_impl, one iteration of either loop. *)
  Definition dfs_step (start : nat) (s : dstate) : dres :=
    let '(DState m idx level ns c) := s in
    match m with
    | Top =>
      if Nat.eqb idx 0 then Done true ns c else
      visit ns c idx level PRE (fun ns c =>
        match rd ns idx with
        | None => Stuck
        | Some n =>
          if expandable n then Running (DState Top (first_child n) (level + 1)%Z ns c)
          else visit ns c idx level POST (fun ns c => Running (DState Climb idx level ns c))
        end)
    | Climb =>
      match rd ns idx with
      | None => Stuck
      | Some n =>
        if Nat.eqb (next n) 0 && negb (Nat.eqb (parent n) 0) then
          visit ns c (parent n) (level - 1)%Z POST (fun ns c =>
            if Nat.eqb (parent n) start then Done true ns c
            else Running (DState Climb (parent n) (level - 1)%Z ns c))
        else Running (DState Top (next n) level ns c)
      end
    end.

  (** The loop, iterated [fuel] times; [Running] when it has not ended by then.
      The loops of src/mr_save.c:1243-1268. *)
  Fixpoint dfs_run (fuel : nat) (start : nat) (s : dstate) : dres :=
    match fuel with
    | O => Running s
    | S fuel =>
      match dfs_step start s with
      | Running s => dfs_run fuel start s
      | r => r
      end
    end.

  (** src/mr_save.c:1239-1243: entry. *)
  Definition dfs (fuel : nat) (ns : list node) (c : C) (start : nat) : dres :=
    dfs_run fuel start (DState Top start 0%Z ns c).
End Dfs.

(** src/mr_save.c:1354-1362, mr_renumber_node; the context is the counter. *)
Definition renumber_node (ns : list node) (c : nat) (idx : nat) (level : Z) (o : order)
    : option (bool * list node * nat) :=
  match o with
  | POST => Some (true, ns, c)
  | PRE => ns ← upd ns idx (fun n => set_pub_idx n c); Some (true, ns, S c)
  end.

(** src/mr_save.c:1331-1342: [next] is a pointer to the link that designates the
    examined node: [None] is [&ra[idx].first_child], [Some j] is [&ra[j].next]. *)
Definition link (ns : list node) (idx : nat) (at_ : option nat) : option nat :=
  match at_ with
  | None => n ← rd ns idx; Some (first_child n)
  | Some j => n ← rd ns j; Some (next n)
  end.
(** The store of src/mr_save.c:1339. *)
Definition set_link (ns : list node) (idx : nat) (at_ : option nat) (v : nat) : option (list node) :=
  match at_ with
  | None => upd ns idx (fun n => set_first_child n v)
  | Some j => upd ns j (fun n => set_next n v)
  end.

(** src/mr_save.c:1332-1340: the node is dropped. *)
Definition removable (n : node) : bool :=
  Nat.eqb (first_child n) 0 && negb (referenced n) && rm_type n.

(** src/mr_save.c:1331-1342, the unchaining loop.  The context is need_reindex. *)
Fixpoint unchain (fuel : nat) (ns : list node) (need : bool) (idx : nat) (at_ : option nat)
    : option (list node * bool) :=
  match fuel with
  | O => None
  | S fuel =>
    x ← link ns idx at_;
    if Nat.eqb x 0 then Some (ns, need)
    else n ← rd ns x;
         if removable n then ns ← set_link ns idx at_ (next n); unchain fuel ns true idx at_
         else unchain fuel ns need idx (Some x)
  end.

(** src/mr_save.c:1321-1346, mr_remove_empty_node. *)
Definition remove_empty_node (ns : list node) (c : bool) (idx : nat) (level : Z) (o : order)
    : option (bool * list node * bool) :=
  match o with
  | PRE => Some (true, ns, c)
  | POST =>
    n ← rd ns idx;
    if negb (structured n) then Some (true, ns, c)
    else if is_ref n then Some (true, ns, c)
    else r ← unchain (S (S (length ns))) ns c idx None;
         let '(ns, c) := (r : list node * bool) in Some (true, ns, c)
  end.

(** src/mr_save.c:1368-1379, mr_remove_empty_nodes: node 1 is the start of
    [mr_ptrs_dfs] (src/metaresc.h:1619). *)
Definition remove_empty_nodes (fuel : nat) (ns : list node) : option (list node) :=
  match dfs remove_empty_node fuel ns false 1 with
  | Done true ns need =>
    if need then
      match dfs renumber_node fuel ns 1 1 with
      | Done true ns _ => Some ns
      | _ => None
      end
    else Some ns
  | _ => None
  end.
