(** Model of mr_reorder_strings (src/mr_save.c:1272-1317): of the strings that share their text, the
    first in the traversal becomes the one that holds it. *)
From Verif Require Import Base Ptrs.

(** [mr_type] as far as it matters here, src/mr_save.c:1279, 1312. *)
Inductive rtype := RString | RPointer | ROther.

Section Reorder.
  (** The types of the nodes. *)
  Context (ty : list rtype).

  (** Becoming the holder, src/mr_save.c:1285-1287.  The flag MR_IS_CONTENT_REFERENCE is kept in the
      context of the traversal; the node has not MR_IS_REFERENCE in addition. *)
  Definition make_holder (n : node) : node :=
    Node (parent n) (next n) 0 (pub_idx n) false true (structured n) (rm_type n).
  (** Becoming a reference to [idx], src/mr_save.c:1288-1290. *)
  Definition make_reference (idx : nat) (n : node) : node :=
    Node (parent n) (next n) idx (pub_idx n) true false (structured n) (rm_type n).

  (** mr_reorder_strings_visitor, src/mr_save.c:1272-1294; [c] are the flags
      MR_IS_CONTENT_REFERENCE of all nodes. *)
  Definition reorder_visitor (ns : list node) (c : list bool) (idx : nat) (level : Z) (o : order)
      : option (bool * list node * list bool) :=
    match o with
    | PRE => Some (true, ns, c)
    | POST =>
      n ← rd ns idx; t ← rd ty idx; f ← rd c idx;
      let ref_idx := first_child n in
      match t, f with
      | RString, true =>
        m ← rd ns ref_idx; g ← rd c ref_idx;
        if (g : bool) then ns ← upd ns idx (fun n => set_first_child n (first_child m)); Some (true, ns, c)
        else if Nat.ltb (pub_idx n) (pub_idx m) then
          ns ← upd ns idx make_holder; c ← wr c idx false;
          ns ← upd ns ref_idx (make_reference idx); c ← wr c ref_idx true;
          Some (true, ns, c)
        else Some (true, ns, c)
      | _, _ => Some (true, ns, c)
      end
    end.

  (** One round of src/mr_save.c:1309-1316. *)
  Definition reorder_pointer (ns : list node) (c : list bool) (i : nat) : option (list node) :=
    n ← rd ns i; t ← rd ty i; f ← rd c i;
    match t, f with
    | RPointer, true =>
      g ← rd c (first_child n);
      if (g : bool) then m ← rd ns (first_child n); upd ns i (fun n => set_first_child n (first_child m)) else Some ns
    | _, _ => Some ns
    end.

  (** The rounds for [i], [i + 1], ..., src/mr_save.c:1309. *)
  Fixpoint reorder_pointers (k i : nat) (ns : list node) (c : list bool) : option (list node) :=
    match k with
    | O => Some ns
    | S k => ns ← reorder_pointer ns c i; reorder_pointers k (S i) ns c
    end.

  (** mr_reorder_strings, src/mr_save.c:1302-1317: nodes and flags.  The table exists and has more
      than the NULL node. *)
  Definition reorder_strings (fuel : nat) (ns : list node) (c : list bool) : option (list node * list bool) :=
    match dfs reorder_visitor fuel ns c 1 with
    | Done _ ns c => ns ← reorder_pointers (length ns - 1) 1 ns c; Some (ns, c)
    | _ => None
    end.
End Reorder.
