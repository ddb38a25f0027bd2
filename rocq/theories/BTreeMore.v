(** Model of the rest of src/mr_btree.c: the cursor [mr_tree_next] and the
    validators of red-black and AVL trees. *)
From Verif Require Import Base Spec BTree.

(** *** Cursor *)

(** src/mr_btree.c:98-104, loop of [mr_tree_next]: descent from [idx] in direction
    [nd], which is pushed with every node. *)
Fixpoint next_push (fuel : nat) (p : list node) (idx : nat) (nd : bool) (path : path_t) (ts : nat)
  : option (path_t * nat) :=
  match fuel with
  | O => None
  | S fuel =>
    if Nat.eqb idx 0 then Some (path, ts)
    else
      path ← wr path ts (idx, nd);
      n ← rd p idx;
      next_push fuel p (next n nd) nd path (S ts)
  end.

(** src/mr_btree.c:106-108, loop of [mr_tree_next]: [ts] is the value after the decrement. *)
Fixpoint next_pop (ts : nat) (path : path_t) (d : bool) : option nat :=
  match ts with
  | S (S ts' as ts1) =>
    cd ← path_dir path ts1;
    if Bool.eqb cd d then next_pop ts1 path d else Some ts
  | _ => Some ts
  end.

(** src/mr_btree.c:86-113 [mr_tree_next].  A traverse is the path, the number of
    its elements ([size] divided by the size of an element) and [equal]. *)
Definition tree_next (p : list node) (tv : path_t * nat * bool) (d : bool) : option (path_t * nat * bool) :=
  let '(path, ts, equal) := tv in
  if Nat.leb ts 1 then Some tv
  else
    cd ← path_dir path (ts - 1);
    '(path, ts) ←
      (if (equal || Bool.eqb cd d)%bool then
         idx ← path_idx path (ts - 1);
         path ← upd path (ts - 1) (set_dir d);
         c ← get_next p idx d;
         if negb (Nat.eqb c 0) then next_push (S PATH) p c (negb d) path ts
         else ts ← next_pop (ts - 1) path d; Some (path, ts)
       else Some (path, ts));
    Some (path, ts, true).

(** What the caller reads from a traverse: the key of the last node of the path
    when the path is not empty and [equal] is set.  [path[0]] is the sentinel
    (src/mr_btree.c:122-125); read as in src/mr_ic.c:870-872. *)
Definition tv_key (p : list node) (tv : path_t * nat * bool) : option (option N) :=
  let '(path, ts, equal) := tv in
  if Nat.leb ts 1 then Some None
  else if (equal : bool) then
    i ← path_idx path (ts - 1);
    n ← rd p i;
    Some (Some (nkey n))
  else Some None.

(** *** Validators *)

(** Type [node_validator_t], src/mr_btree.c:229: the flag and the new content of
    the array [height].  Diagnostic output to stderr is not modelled. *)
Notation validator := (list node -> nat -> list nat -> option (bool * list nat)).

Section valid.
Context (cmp : N -> N -> Z) (nv : validator).

(** One of the two checks of the order, src/mr_btree.c:249 and 255: [lo] must be
    less than [hi] unless [bound] (one of the two) is NONE_IDX. *)
Definition out_of_order (p : list node) (bound hi lo : nat) : option bool :=
  if Nat.eqb bound 0 then Some false
  else
    a ← rd p hi;
    b ← rd p lo;
    Some (cmp (nkey a) (nkey b) <=? 0)%Z.

(** src/mr_btree.c:231-267 [mr_btree_is_valid_recurse].  [room] is MR_PATH_SIZE
    minus [level]. *)
Fixpoint valid_rec (room : nat) (p : list node) (idx left right : nat) (height : list nat)
  : option (bool * list nat) :=
  if Nat.eqb idx 0 then Some (true, height)
  else match room with
  | O => Some (false, height)
  | S room =>
    h ← rd height idx;
    if negb (Nat.eqb h 0) then Some (false, height)
    else
      bad ← out_of_order p left idx left;
      if (bad : bool) then Some (false, height)
      else
        bad ← out_of_order p right right idx;
        if (bad : bool) then Some (false, height)
        else
          l ← get_next p idx false;
          '(ok, height) ← valid_rec room p l left idx height;
          if negb ok then Some (false, height)
          else
            r ← get_next p idx true;
            '(ok, height) ← valid_rec room p r idx right height;
            if negb ok then Some (false, height)
            else nv p idx height
  end.

(** src/mr_btree.c:269-311 [mr_btree_is_valid].  [alloc] tells whether MR_CALLOC
    succeeds.  The size of the pool is a multiple of the size of a node, so the
    check of lines 278-282 never fires. *)
Definition btree_is_valid (p : list node) (alloc : bool) : option bool :=
  match p with
  | [] => Some true
  | root :: _ =>
    let count := length p in
    if existsb (fun n => Nat.leb count (nl n) || Nat.leb count (nr n))%bool p then Some false
    else if negb alloc then Some false
    else
      '(ok, height) ← valid_rec PATH p (nl root) 0 0 (1 :: replicate (count - 1) 0);
      Some (ok && forallb (fun h => negb (Nat.eqb h 0)) height)%bool
  end.
End valid.

(** src/mr_btree.c:463-472, first loop of [mr_rbnode_is_valid]: a red child of a red node. *)
Definition rb_two_red (p : list node) (idx : nat) (d : bool) : option bool :=
  n ← rd p idx;
  c ← rd p (next n d);
  Some (b1 n && b1 c)%bool.

(** src/mr_btree.c:460-483 [mr_rbnode_is_valid]; heights are [uint8_t]. *)
Definition rbnode_is_valid : validator := fun p idx height =>
  rr ← rb_two_red p idx false;
  if (rr : bool) then Some (false, height)
  else
    rr ← rb_two_red p idx true;
    if (rr : bool) then Some (false, height)
    else
      n ← rd p idx;
      hl ← rd height (nl n);
      hr ← rd height (nr n);
      if negb (Nat.eqb hl hr) then Some (false, height)
      else
        height ← wr height idx ((hl + if b1 n then 0 else 1) mod 256);
        Some (true, height).

(** src/mr_btree.c:485-507 [mr_rbtree_is_valid]. *)
Definition rbtree_is_valid (cmp : N -> N -> Z) (p : list node) (alloc : bool) : option bool :=
  ok ← btree_is_valid cmp rbnode_is_valid p alloc;
  if negb ok then Some false
  else match p with
  | [] => Some true
  | n0 :: _ =>
    if b1 n0 then Some false
    else
      root ← rd p (nl n0);
      Some (negb (b1 root))
  end.

(** src/mr_btree.c:655-703 [mr_avlnode_is_valid]; heights are [uint8_t]. *)
Definition avlnode_is_valid : validator := fun p idx height =>
  n ← rd p idx;
  left_height ← rd height (nl n);
  right_height ← rd height (nr n);
  let left_longer := Nat.ltb right_height left_height in
  let top := if left_longer then left_height else right_height in
  let delta := if left_longer then left_height - right_height else right_height - left_height in
  height ← wr height idx ((top + 1) mod 256);
  if Nat.ltb 1 delta then Some (false, height)
  else if Nat.eqb delta 0 then Some (b0 n, height)
  else if b0 n then Some (false, height)
  else Some (Bool.eqb (b1 n) (negb left_longer), height).

(** src/mr_btree.c:705-709 [mr_avltree_is_valid]. *)
Definition avltree_is_valid (cmp : N -> N -> Z) (p : list node) (alloc : bool) : option bool :=
  btree_is_valid cmp avlnode_is_valid p alloc.
