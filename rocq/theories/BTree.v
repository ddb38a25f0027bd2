(** Model of src/mr_btree.c: red-black and AVL trees in a pool of nodes, with an
    explicit path in a fixed array instead of parent pointers.
    Indices are natural numbers; the 31-bit width of the index fields is not
    reached because theorems bound the number of nodes by 2^31 - 1. *)
From Verif Require Import Base Spec ICArrays.

(** [mr_tree_node_t] (src/mr_protos.h:230-238).  [b0] is the bit next to the
    left index ([avl.balanced], unused for red-black), [b1] the bit next to the
    right one ([rb.red], [avl.longer]).  [root.idx] of node 0 is its left index. *)
Record node := Nd { nkey : N; nl : nat; nr : nat; b0 : bool; b1 : bool }.

(** Directions: MR_LEFT = 0 is [false], MR_RIGHT = 1 is [true]
    (src/mr_protos.h:206-209); [^ FLIP] is [negb]. *)
Definition next (n : node) (d : bool) : nat := if d then nr n else nl n.
(** Store to [next[d].idx] (src/mr_protos.h:233). *)
Definition set_next (d : bool) (i : nat) (n : node) : node :=
  if d then Nd (nkey n) (nl n) i (b0 n) (b1 n) else Nd (nkey n) i (nr n) (b0 n) (b1 n).
(** Store to [key] (src/mr_protos.h:231). *)
Definition set_key (k : N) (n : node) : node := Nd k (nl n) (nr n) (b0 n) (b1 n).
(** Store to [next[0].bit], alias [balanced] (src/mr_protos.h:220, 227). *)
Definition set_b0 (b : bool) (n : node) : node := Nd (nkey n) (nl n) (nr n) b (b1 n).
(** Store to [next[1].bit], alias [red] and [longer] (src/mr_protos.h:215, 222, 227). *)
Definition set_b1 (b : bool) (n : node) : node := Nd (nkey n) (nl n) (nr n) (b0 n) b.

(** memset (node, 0, sizeof ( *node)): src/mr_btree.c:60. *)
Definition zero_node : node := Nd 0 0 0 false false.

(** [mr_tree_traverse_t.path] (src/mr_protos.h:251-255): 63 elements. *)
Definition PATH : nat := 63.
(** src/mr_protos.h:246-255. *)
Notation path_t := (list (nat * bool)).

(** Assignment to a field of a pool node or of a path element.
    Store to a member of an array element, e.g. [tree->pool[idx]] (src/mr_protos.h:241): checked. *)
Definition upd {A} (p : list A) (i : nat) (f : A -> A) : option (list A) :=
  n ← rd p i; wr p i (f n).

(** Field reads.
    Read of [tree->pool[i].next[d].idx], e.g. src/mr_btree.c:73, 75. *)
Definition get_next (p : list node) (i : nat) (d : bool) : option nat := n ← rd p i; Some (next n d).
(** Read of [next[0].bit] (src/mr_protos.h:220, 227). *)
Definition get_b0 (p : list node) (i : nat) : option bool := n ← rd p i; Some (b0 n).
(** Read of [next[1].bit] (src/mr_protos.h:215, 222, 227). *)
Definition get_b1 (p : list node) (i : nat) : option bool := n ← rd p i; Some (b1 n).
(** Read of [path[i].idx] (src/mr_protos.h:247). *)
Definition path_idx (path : path_t) (i : nat) : option nat := e ← rd path i; Some (fst e).
(** Read of [path[i].child_idx] (src/mr_protos.h:248). *)
Definition path_dir (path : path_t) (i : nat) : option bool := e ← rd path i; Some (snd e).
(** Store to [path[i].idx] (src/mr_protos.h:247). *)
Definition set_idx (i : nat) (e : nat * bool) : nat * bool := (i, snd e).
(** Store to [path[i].child_idx] (src/mr_protos.h:248). *)
Definition set_dir (d : bool) (e : nat * bool) : nat * bool := (fst e, d).

(** Comparison of [unsigned] index variables minus one: index 0 minus one would
    be out of bounds.
    A position in the path decremented, e.g. [path[--size]] of src/mr_btree.c:79: below zero is undefined behaviour. *)
Definition pred_idx (i : nat) : option nat := match i with O => None | S i => Some i end.

(** [mr_tree_t] (src/mr_protos.h:240-244): nodes in use and allocated nodes. *)
Record tree := Tree { pool : list node; tcap : nat }.

(** src/mr_btree.c:12-16 [mr_tree_init]. *)
Definition tree_init : tree := Tree [] 0.

(** src/mr_btree.c:26-49 [mr_tree_reserve]: status and tree.  The 32-bit product
    is modelled without wrap (fewer than 2^31 elements). *)
Definition tree_reserve (t : tree) (count : nat) (reset alloc : bool) : bool * tree :=
  let t := if reset then Tree [] (tcap t) else t in
  if Nat.eqb count 0 then (true, t)
  else if Nat.ltb (tcap t) (count + 1) then
    if alloc then (true, Tree (pool t) (count + 1)) else (false, t)
  else (true, t).

(** src/mr_btree.c:51-62 [mr_tree_node_new]; [None] when allocation failed. *)
Definition node_new (t : tree) (alloc : bool) : option (nat * tree) :=
  match grow alloc (tcap t) (length (pool t) + 1) with
  | None => None
  | Some cap' => Some (length (pool t), Tree (pool t ++ [zero_node]) cap')
  end.

(** src/mr_btree.c:64-84 [mr_tree_walk]: visited keys, for a visitor that
    never fails.  Inner loop (74-75): push the left spine. *)
Fixpoint walk_left (fuel : nat) (p : list node) (idx : nat) (stack : list nat) (size : nat)
  : option (list nat * nat) :=
  match fuel with
  | O => None
  | S fuel =>
    if Nat.eqb idx 0 then Some (stack, size)
    else
      stack ← wr stack size idx;
      n ← rd p idx;
      walk_left fuel p (next n false) stack (S size)
  end.
(** Outer loop (73-82).
    src/mr_btree.c:73-82. *)
Fixpoint walk_loop (fuel : nat) (p : list node) (idx : nat) (stack : list nat) (size : nat)
  : option (list N) :=
  match fuel with
  | O => None
  | S fuel =>
    '(stack, size) ← walk_left (S PATH) p idx stack size;
    match size with
    | O => Some []
    | S size =>
      idx ← rd stack size;
      n ← rd p idx;
      rest ← walk_loop fuel p (next n true) stack size;
      Some (nkey n :: rest)
    end
  end.
(** src/mr_btree.c:64-84. *)
Definition tree_walk (t : tree) : option (list N) :=
  if Nat.ltb (length (pool t)) 2 then Some []
  else
    root ← get_next (pool t) 0 false;
    walk_loop (S (length (pool t))) (pool t) root (replicate PATH 0) 0.

Section tree.
Context (cmp : N -> N -> Z).

(** src/mr_btree.c:128-142, descent of [mr_tree_find]. *)
Fixpoint find_loop (fuel : nat) (p : list node) (key : N) (idx : nat) (path : path_t) (ts : nat) (equal : bool)
  : option (path_t * nat * bool) :=
  match fuel with
  | O => None
  | S fuel =>
    if Nat.eqb idx 0 then Some (path, ts, equal)
    else
      n ← rd p idx;
      let c := cmp key (nkey n) in
      let child_idx := (0 <? c)%Z in
      let equal := (c =? 0)%Z in
      path ← wr path ts (idx, child_idx);
      if equal then Some (path, S ts, equal)
      else find_loop fuel p key (next n child_idx) path (S ts) equal
  end.

(** src/mr_btree.c:115-146 [mr_tree_find]; [size] is the number of nodes the tree
    claims to have.  Result: path, number of path elements, equal flag. *)
Definition tree_find (p : list node) (size : nat) (key : N) (path : path_t) : option (path_t * nat * bool) :=
  path ← wr path 0 (0, false);
  if Nat.leb 2 size then
    root ← get_next p 0 false;
    find_loop (S PATH) p key root path 1 false
  else Some (path, 1, false).

(** src/mr_btree.c:313-323 [mr_tree_rotate] at path element [k]. *)
Definition rotate (p : list node) (path : path_t) (k : nat) (d : bool) : option (list node) :=
  node ← path_idx path k;
  child ← get_next p node d;
  x ← get_next p child (negb d);
  p ← upd p node (set_next d x);
  p ← upd p child (set_next (negb d) node);
  k1 ← pred_idx k;
  parent ← path_idx path k1;
  pd ← path_dir path k1;
  upd p parent (set_next pd child).

(** src/mr_btree.c:325-339 [mr_tree_grand_rotate]. *)
Definition grand_rotate (p : list node) (path : path_t) (k : nat) (d : bool) : option (list node) :=
  node ← path_idx path k;
  child ← get_next p node d;
  grand_child ← get_next p child (negb d);
  x ← get_next p grand_child (negb d);
  p ← upd p node (set_next d x);
  y ← get_next p grand_child d;
  p ← upd p child (set_next (negb d) y);
  p ← upd p grand_child (set_next (negb d) node);
  p ← upd p grand_child (set_next d child);
  k1 ← pred_idx k;
  parent ← path_idx path k1;
  pd ← path_dir path k1;
  upd p parent (set_next pd grand_child).

(** src/mr_btree.c:350-378, loop of [mr_rbtree_rebalance_add]. *)
Fixpoint rb_add_loop (fuel : nat) (p : list node) (path : path_t) (ts : nat) : option (list node) :=
  match fuel with
  | O => None
  | S fuel =>
    if Nat.ltb 2 ts then
      parent_i ← path_idx path (ts - 1);
      red ← get_b1 p parent_i;
      if (red : bool) then
        node ← path_idx path ts;
        parent ← path_idx path (ts - 1);
        grand_parent ← path_idx path (ts - 2);
        parent_idx ← path_dir path (ts - 2);
        uncle ← get_next p grand_parent (negb parent_idx);
        ured ← get_b1 p uncle;
        if negb ured then
          brother ← get_next p parent (negb parent_idx);
          p ← (if negb (Nat.eqb node brother) then upd p parent (set_b1 false)
               else
                 p ← rotate p path (ts - 2 + 1) (negb parent_idx);
                 upd p node (set_b1 false));
          p ← rotate p path (ts - 2) parent_idx;
          upd p grand_parent (set_b1 true)
        else
          p ← upd p parent (set_b1 false);
          p ← upd p uncle (set_b1 false);
          p ← upd p grand_parent (set_b1 true);
          rb_add_loop fuel p path (ts - 2)
      else Some p
    else Some p
  end.

(** src/mr_btree.c:341-381 [mr_rbtree_rebalance_add]. *)
Definition rb_rebalance_add (p : list node) (path : path_t) (ts : nat) : option (list node) :=
  node ← path_idx path ts;
  p ← upd p node (set_b1 true);
  parent ← path_idx path (ts - 1);
  red ← get_b1 p parent;
  p ← (if (red : bool) then rb_add_loop (S PATH) p path ts else Some p);
  root ← get_next p 0 false;
  upd p root (set_b1 false).

(** src/mr_btree.c:421-445, second half of the loop body of
    [mr_rbtree_rebalance_del]; the flag tells whether the loop is left. *)
Definition rb_del_brother (p : list node) (path : path_t) (ts : nat)
    (parent : nat) (child_idx : bool) (brother : nat) : option (list node * bool) :=
  bl ← get_next p brother false;
  blr ← get_b1 p bl;
  br ← get_next p brother true;
  brr ← get_b1 p br;
  if (blr || brr : bool) then
    nephew ← get_next p brother child_idx;
    nred ← get_b1 p nephew;
    '(p, path, brother) ←
      (if (nred : bool) then
         p ← upd p nephew (set_b1 false);
         p ← upd p brother (set_b1 true);
         path ← upd path ts (set_idx brother);
         path ← upd path (ts - 1) (fun e => set_dir (negb (snd e)) e);
         p ← rotate p path ts child_idx;
         Some (p, path, nephew)
       else Some (p, path, brother));
    pred ← get_b1 p parent;
    p ← upd p brother (set_b1 pred);
    p ← upd p parent (set_b1 false);
    outer ← get_next p brother (negb child_idx);
    p ← upd p outer (set_b1 false);
    p ← rotate p path (ts - 1) (negb child_idx);
    Some (p, true)
  else
    p ← upd p brother (set_b1 true);
    Some (p, false).

(** src/mr_btree.c:396-446, loop of [mr_rbtree_rebalance_del]. *)
Fixpoint rb_del_loop (fuel : nat) (p : list node) (path : path_t) (ts : nat) : option (list node) :=
  match fuel with
  | O => None
  | S fuel =>
    if Nat.eqb ts 0 then Some p
    else
      parent ← path_idx path (ts - 1);
      child_idx ← path_dir path (ts - 1);
      child ← get_next p parent child_idx;
      brother ← get_next p parent (negb child_idx);
      cred ← get_b1 p child;
      if (cred : bool) then upd p child (set_b1 false)
      else
        bred ← get_b1 p brother;
        '(p, path, ts, brother) ←
          (if (bred : bool) then
             p ← upd p brother (set_b1 false);
             p ← upd p parent (set_b1 true);
             p ← rotate p path (ts - 1) (negb child_idx);
             path ← upd path (ts - 1) (set_idx brother);
             path ← upd path ts (set_dir child_idx);
             path ← upd path ts (set_idx parent);
             brother ← get_next p parent (negb child_idx);
             Some (p, path, S ts, brother)
           else Some (p, path, ts, brother));
        '(p, brk) ← rb_del_brother p path ts parent child_idx brother;
        if (brk : bool) then Some p else rb_del_loop fuel p path (ts - 1)
  end.

(** src/mr_btree.c:389-452 [mr_rbtree_rebalance_del].  The loop runs at most once
    per path element plus once after a rotation. *)
Definition rb_rebalance_del (p : list node) (path : path_t) (ts : nat) : option (list node) :=
  del ← path_idx path ts;
  red ← get_b1 p del;
  p ← (if negb red then rb_del_loop (2 * PATH) p path ts else Some p);
  p ← upd p 0 (set_b1 false);
  root ← get_next p 0 false;
  upd p root (set_b1 false).

(** src/mr_btree.c:516-576, loop of [mr_avltree_rebalance_add] with [idx = i]. *)
Fixpoint avl_add_loop (i : nat) (p : list node) (path : path_t) : option (list node) :=
  match i with
  | O => Some p
  | S i' =>
    node ← path_idx path i;
    child_idx ← path_dir path i;
    n ← rd p node;
    if b0 n then
      p ← upd p node (set_b0 false);
      p ← upd p node (set_b1 child_idx);
      avl_add_loop i' p path
    else if negb (Bool.eqb (b1 n) child_idx) then upd p node (set_b0 true)
    else
      child ← get_next p node child_idx;
      c ← rd p child;
      if Bool.eqb (b1 n) (b1 c) then
        p ← upd p node (set_b0 true);
        p ← upd p child (set_b0 true);
        rotate p path i child_idx
      else
        grand_child ← get_next p child (negb child_idx);
        g ← rd p grand_child;
        p ← (if b0 g then
               p ← upd p node (set_b0 true);
               upd p child (set_b0 true)
             else if Bool.eqb (b1 c) (b1 g) then
               p ← upd p node (set_b0 true);
               p ← upd p child (fun c => set_b1 (negb (b1 c)) c);
               upd p grand_child (set_b0 true)
             else
               p ← upd p node (fun n => set_b1 (negb (b1 n)) n);
               p ← upd p child (set_b0 true);
               upd p grand_child (set_b0 true));
        grand_rotate p path i child_idx
  end.

(** src/mr_btree.c:509-577 [mr_avltree_rebalance_add]. *)
Definition avl_rebalance_add (p : list node) (path : path_t) (ts : nat) : option (list node) :=
  node ← path_idx path ts;
  p ← upd p node (set_b0 true);
  avl_add_loop (ts - 1) p path.

(** src/mr_btree.c:590-646, loop of [mr_avltree_rebalance_del] with [idx = i]. *)
Fixpoint avl_del_loop (i : nat) (p : list node) (path : path_t) : option (list node) :=
  match i with
  | O => Some p
  | S i' =>
    node ← path_idx path i;
    child_idx ← path_dir path i;
    n ← rd p node;
    if b0 n then
      p ← upd p node (set_b0 false);
      upd p node (set_b1 (negb child_idx))
    else if Bool.eqb (b1 n) child_idx then
      p ← upd p node (set_b0 true);
      avl_del_loop i' p path
    else
      child ← get_next p node (negb child_idx);
      c ← rd p child;
      if b0 c then
        p ← upd p child (set_b0 false);
        p ← upd p child (set_b1 child_idx);
        rotate p path i (negb child_idx)
      else if Bool.eqb (b1 n) (b1 c) then
        p ← upd p node (set_b0 true);
        p ← upd p child (set_b0 true);
        p ← rotate p path i (negb child_idx);
        avl_del_loop i' p path
      else
        grand_child ← get_next p child child_idx;
        g ← rd p grand_child;
        p ← (if b0 g then
               p ← upd p node (set_b0 true);
               upd p child (set_b0 true)
             else if Bool.eqb (b1 c) (b1 g) then
               p ← upd p node (set_b0 true);
               p ← upd p child (fun c => set_b1 (negb (b1 c)) c);
               upd p grand_child (set_b0 true)
             else
               p ← upd p node (fun n => set_b1 (negb (b1 n)) n);
               p ← upd p child (set_b0 true);
               upd p grand_child (set_b0 true));
        p ← grand_rotate p path i (negb child_idx);
        avl_del_loop i' p path
  end.

(** src/mr_btree.c:585-647 [mr_avltree_rebalance_del]. *)
Definition avl_rebalance_del (p : list node) (path : path_t) (ts : nat) : option (list node) :=
  avl_del_loop (ts - 1) p path.

Context (rebalance_add rebalance_del : list node -> path_t -> nat -> option (list node)).
(** Uninitialised content of the automatic variable [traverse]. *)
Context (path0 : path_t).

(** src/mr_btree.c:148-177 [mr_tree_add]: index of the returned node. *)
Definition tree_add (t : tree) (key : N) (alloc : bool) : option (option nat * tree) :=
  match (if Nat.eqb (length (pool t)) 0 then
           match node_new t alloc with
           | Some (_, t) => Some t
           | None => if Nat.eqb (tcap t) 0 then None else Some t
           end
         else Some t) with
  | None => Some (None, t)
  | Some t =>
    '(path, ts, equal) ← tree_find (pool t) (length (pool t)) key path0;
    if (equal : bool) then
      i ← path_idx path (ts - 1);
      Some (Some i, t)
    else
      match node_new t alloc with
      | None => Some (None, t)
      | Some (idx, t) =>
        path ← upd path ts (set_idx idx);
        p ← upd (pool t) idx (set_key key);
        parent ← path_idx path (ts - 1);
        pd ← path_dir path (ts - 1);
        p ← upd p parent (set_next pd idx);
        p ← rebalance_add p path ts;
        Some (Some idx, Tree p (tcap t))
      end
  end.

(** src/mr_btree.c:197-201, search of the successor. *)
Fixpoint succ_loop (fuel : nat) (p : list node) (del : nat) (path : path_t) (ts : nat)
  : option (nat * path_t * nat) :=
  match fuel with
  | O => None
  | S fuel =>
    l ← get_next p del false;
    if Nat.eqb l 0 then Some (del, path, ts)
    else
      path ← wr path ts (del, false);
      succ_loop fuel p l path (S ts)
  end.

(** src/mr_btree.c:179-227 [mr_tree_del]. *)
Definition tree_del (t : tree) (key : N) : option (bool * tree) :=
  '(path, ts, equal) ← tree_find (pool t) (length (pool t)) key path0;
  if negb equal then Some (false, t)
  else
    node ← path_idx path (ts - 1);
    n ← rd (pool t) node;
    '(del, path, ts) ←
      (if Nat.eqb (nl n) 0 || Nat.eqb (nr n) 0 then Some (node, path, ts - 1)
       else
         path ← upd path (ts - 1) (set_dir true);
         '(del, path, ts) ← succ_loop (S PATH) (pool t) (nr n) path ts;
         path ← upd path ts (set_idx del);
         Some (del, path, ts));
    parent ← path_idx path (ts - 1);
    pd ← path_dir path (ts - 1);
    d ← rd (pool t) del;
    p ← upd (pool t) parent (set_next pd (next d (negb (Nat.eqb (nr d) 0))));
    d ← rd p del;
    p ← upd p node (set_key (nkey d));
    p ← rebalance_del p path ts;
    let last := length p - 1 in
    if negb (Nat.eqb del last) then
      l ← rd p last;
      '(path, ts, equal) ← tree_find p last (nkey l) path;
      if negb equal then Some (false, Tree (take last p) (tcap t))
      else
        p ← wr p del l;
        parent ← path_idx path (ts - 2);
        pd ← path_dir path (ts - 2);
        p ← upd p parent (set_next pd del);
        Some (true, Tree (take last p) (tcap t))
    else Some (true, Tree (take last p) (tcap t)).

(** *** Collections over trees: src/mr_ic.c:847-1026 *)

(** [mr_ic_t] of kind MR_IC_RBTREE or MR_IC_AVLTREE: tree and [items_count],
    which is computed as an [unsigned int].
    [items_count] and the member [tree] of [mr_ic_t], src/mr_protos.h:271 and 281-283. *)
Record tree_ic := TreeIC { tr : tree; titems : N }.
(** src/mr_ic.c:853, 861, 967, 975. *)
Definition count_items (t : tree) : N := ((N.of_nat (length (pool t)) + (2 ^ 32 - 1)) mod 2 ^ 32)%N.

(** src/mr_ic.c:912-1026: mr_ic_rbtree_new, mr_ic_avltree_new. *)
Definition tree_ic_new : tree_ic := TreeIC tree_init 0.

(** src/mr_ic.c:849-855, 963-969. *)
Definition ic_tree_add (ic : tree_ic) (key : N) (alloc : bool) : option (option N * tree_ic) :=
  '(r, t) ← tree_add (tr ic) key alloc;
  match r with
  | None => Some (None, TreeIC t (count_items t))
  | Some i => n ← rd (pool t) i; Some (Some (nkey n), TreeIC t (count_items t))
  end.

(** src/mr_ic.c:857-863, 971-977. *)
Definition ic_tree_del (ic : tree_ic) (key : N) : option (bool * tree_ic) :=
  '(b, t) ← tree_del (tr ic) key;
  Some (b, TreeIC t (count_items t)).

(** src/mr_ic.c:865-873 [mr_ic_tree_find]. *)
Definition ic_tree_find (ic : tree_ic) (key : N) : option (option N) :=
  '(path, ts, equal) ← tree_find (pool (tr ic)) (length (pool (tr ic))) key path0;
  if (equal : bool) then
    i ← path_idx path (ts - 1);
    n ← rd (pool (tr ic)) i;
    Some (Some (nkey n))
  else Some None.

(** src/mr_ic.c:875-884 [mr_ic_tree_foreach_unsorted]: visited keys. *)
Definition tree_elems (t : tree) : list N := rev (map nkey (drop 1 (pool t))).

(** src/mr_ic.c:899-910 [mr_ic_tree_index].  [allocs] tells for each addition
    whether allocations succeed. *)
Fixpoint tree_index_loop (ic : tree_ic) (input : list N) (alloc : bool) : option (bool * tree_ic) :=
  match input with
  | [] => Some (true, ic)
  | k :: input =>
    '(r, ic) ← ic_tree_add ic k alloc;
    match r with
    | None => Some (false, ic)
    | Some _ => tree_index_loop ic input alloc
    end
  end.
(** src/mr_ic.c:899-910. *)
Definition tree_index (ic : tree_ic) (input : list N) (alloc : bool) : option (bool * tree_ic) :=
  let '(_, t) := tree_reserve (tr ic) (length input) true alloc in
  tree_index_loop (TreeIC t (titems ic)) input alloc.

(** One call of the public API.
    Dispatch through [virt_func], src/mr_ic.h:60-106. *)
Definition tree_step (ic : tree_ic) (o : op) : option (res * tree_ic) :=
  match o with
  | Find k => r ← ic_tree_find ic k; Some (RKey r, ic)
  | Add k al => '(r, ic) ← ic_tree_add ic k al; Some (RKey r, ic)
  | Del k _ => '(b, ic) ← ic_tree_del ic k; Some (RStatus b, ic)
  end.

End tree.

(** *** The two kinds of trees *)

(** src/mr_btree.c:383-387, 454-458; src/mr_ic.c:849-863: MR_IC_RBTREE. *)
Definition rb_step (cmp : N -> N -> Z) (path0 : path_t) := tree_step cmp rb_rebalance_add rb_rebalance_del path0.
(** src/mr_ic.c:899-910 with the functions of src/mr_ic.c:849-864. *)
Definition rb_index (cmp : N -> N -> Z) (path0 : path_t) := tree_index cmp rb_rebalance_add path0.
(** src/mr_btree.c:579-583, 649-653; src/mr_ic.c:963-977: MR_IC_AVLTREE. *)
Definition avl_step (cmp : N -> N -> Z) (path0 : path_t) := tree_step cmp avl_rebalance_add avl_rebalance_del path0.
(** src/mr_ic.c:899-910 with the functions of src/mr_ic.c:963-977. *)
Definition avl_index (cmp : N -> N -> Z) (path0 : path_t) := tree_index cmp avl_rebalance_add path0.
