(** C73, C74: the validators of the trees and the cursor (src/mr_btree.c:86-113,
    229-311, 460-507, 655-709).  [path0] is the uninitialised content of the path
    array on the stack. *)
From Verif Require Import Base Spec FwFacts BTree BTreeRep BTreeRB BTreeAVL BTreeProof BTreeInst BTreeMore BTreeValid BTreeNext Examples.

(** C73.  The validator of red-black trees accepts a pool exactly when it holds a search
    tree of all its nodes, with red-black colours and at most 63 levels, below a black
    element 0 with both links inside. *)
Theorem C73_rb_validator : forall cmp p, three_way cmp ->
  rbtree_is_valid cmp p true = Some true <->
  exists t, linked p t /\ strictly_sorted_by cmp (inorder t) /\ ht t <= 63 /\
    no_adjacent_red t /\ same_black_height t /\ red t = false /\
    (forall n, p !! 0 = Some n -> nr n < length p /\ b1 n = false).
Proof.
  intros cmp p Hc. rewrite rb_valid_iff by done. split.
  - intros (t & L & S & H & I & N). apply rbInv_paths in I as (I1 & I2 & I3). by exists t.
  - intros (t & L & S & H & I1 & I2 & I3 & N). exists t. do 3 (split; [done|]). split; [by apply rbInv_paths|done].
Qed.
Print Assumptions C73_rb_validator.

(** C73.  The validator of AVL trees accepts exactly the pools holding a search tree of
    all nodes whose marks tell the exact height differences. *)
Theorem C73_avl_validator : forall cmp p, three_way cmp ->
  avltree_is_valid cmp p true = Some true <->
  exists t, linked p t /\ strictly_sorted_by cmp (inorder t) /\ ht t <= 63 /\ avl_marks t /\
    (forall n, p !! 0 = Some n -> nr n < length p).
Proof. intros cmp p Hc. by apply avl_valid_iff. Qed.
Print Assumptions C73_avl_validator.

(** C73.  On any pool whatever, with any comparator, the validators end and read only
    elements that exist; without memory for the heights they accept nothing but the
    empty pool. *)
Theorem C73_validators_total : forall cmp p alloc,
  (exists b, rbtree_is_valid cmp p alloc = Some b /\ (alloc = false -> p <> [] -> b = false)) /\
  (exists b, avltree_is_valid cmp p alloc = Some b /\ (alloc = false -> p <> [] -> b = false)).
Proof.
  intros cmp p alloc. split.
  - destruct (rb_total cmp p alloc) as [b E]. exists b. split; [done|]. intros -> N. destruct p as [|n p]; [done|].
    unfold rbtree_is_valid, btree_is_valid in E. destruct (existsb _ _); cbn in E; by injection E.
  - destruct (avl_total cmp p alloc) as [b E]. exists b. split; [done|]. intros -> N. destruct p as [|n p]; [done|].
    unfold avltree_is_valid, btree_is_valid in E. destruct (existsb _ _); cbn in E; by injection E.
Qed.
Print Assumptions C73_validators_total.

(** C73.  Every tree made by the public functions is accepted. *)
Theorem C73_histories_validate : forall cmp path0 ops,
  three_way cmp -> length path0 = PATH -> (Z.of_nat (length ops) < 2 ^ 31)%Z ->
  (exists rs m, run (rb_step cmp path0) tree_ic_new ops = Some (rs, m) /\ rbtree_is_valid cmp (pool (tr m)) true = Some true) /\
  (exists rs m, run (avl_step cmp path0) tree_ic_new ops = Some (rs, m) /\ avltree_is_valid cmp (pool (tr m)) true = Some true).
Proof. intros cmp path0 ops Hc Hp Hb. split; [by apply rb_valid_history|by apply avl_valid_history]. Qed.
Print Assumptions C73_histories_validate.

(** Pools [sentinel; 1: key 16; 2: key 48; 3: key 80]. *)
Definition tm_pool (l1 r1 l2 r2 l3 r3 : nat) (red1 red2 red3 : bool) : list node :=
  [Nd 0 2 0 false false; Nd 16 l1 r1 false red1; Nd 48 l2 r2 false red2; Nd 80 l3 r3 false red3].
Example C73_rb_case :
  rbtree_is_valid hicmp (tm_pool 0 0 1 3 0 0 true false true) true = Some true /\
  (* keys exchanged; a cycle; node 3 missing; a node linked twice; a link outside; uneven black heights; red root *)
  rbtree_is_valid hicmp (tm_pool 0 0 3 1 0 0 true false true) true = Some false /\
  rbtree_is_valid hicmp (tm_pool 0 2 1 3 0 0 true false true) true = Some false /\
  rbtree_is_valid hicmp (tm_pool 0 0 1 0 0 0 false false true) true = Some false /\
  rbtree_is_valid hicmp (tm_pool 0 3 1 3 0 0 true false true) true = Some false /\
  rbtree_is_valid hicmp (tm_pool 0 0 1 4 0 0 true false true) true = Some false /\
  rbtree_is_valid hicmp (tm_pool 0 0 1 3 0 0 true false false) true = Some false /\
  rbtree_is_valid hicmp (tm_pool 0 0 1 3 0 0 false true false) true = Some false.
Proof. vm_compute. repeat split. Qed.

Example C73_avl_case :
  let p m b := [Nd 0 2 0 false false; Nd 16 0 0 true false; Nd 48 1 3 m b; Nd 80 0 4 false true; Nd 96 0 0 true false] in
  map (fun mb => avltree_is_valid hicmp (p mb.1 mb.2) true) [(false, true); (true, true); (false, false)] =
    [Some true; Some false; Some false].
Proof. vm_compute. reflexivity. Qed.

Example C73_history_case :
  match run (rb_step hicmp (repeat (7, true) PATH)) tree_ic_new
    [Add 80 true; Add 16 true; Add 17 true; Add 48 true; Add 96 true; Add 64 true; Add 32 true; Del 16 true; Del 80 true]%N with
  | Some (rs, m) => rbtree_is_valid hicmp (pool (tr m)) true = Some true /\ rbtree_is_valid hicmp (pool (tr m)) false = Some false
  | None => False
  end.
Proof. vm_compute. split; reflexivity. Qed.

(** C74.  mr_tree_find followed by any calls of mr_tree_next in any directions behaves as
    a cursor in the sorted list of keys: at the key found, or in the gap where it
    would be; a step goes to the next key in the direction, and beyond the last key the
    cursor is off for good. *)
Theorem C74_cursor : forall cmp p t key path0 ds,
  three_way cmp -> length path0 = PATH ->
  linked p t -> strictly_sorted_by cmp (inorder t) -> ht t <= 62 ->
  exists tv tv', tree_find cmp p (length p) key path0 = Some tv /\ next_all p tv ds = Some tv' /\
    tv_key p tv' = Some (cur_key (fold_left (fun c d => dirn d c) ds (cur_find cmp (inorder t) key))).
Proof. intros cmp p t key path0 ds Hc Hp L S H. by apply cursor_ok. Qed.
Print Assumptions C74_cursor.

(** C74.  In particular in every tree made by the public functions, and the list is the
    one of the abstract collection. *)
Theorem C74_cursor_in_histories : forall cmp path0 path1 ops key ds,
  three_way cmp -> length path0 = PATH -> length path1 = PATH -> (Z.of_nat (length ops) < 2 ^ 31)%Z ->
  exists rs m t tv tv', run (rb_step cmp path0) tree_ic_new ops = Some (rs, m) /\ linked (pool (tr m)) t /\
    strictly_sorted_by cmp (inorder t) /\
    tree_find cmp (pool (tr m)) (length (pool (tr m))) key path1 = Some tv /\ next_all (pool (tr m)) tv ds = Some tv' /\
    tv_key (pool (tr m)) tv' = Some (cur_key (fold_left (fun c d => dirn d c) ds (cur_find cmp (inorder t) key))).
Proof.
  intros cmp path0 path1 ops key ds Hc Hp Hp1 Hb. destruct (rb_history_ cmp Hc path0 Hp ops Hb) as (rs & m & s & t & E & F & G).
  destruct (C74_cursor cmp (pool (tr m)) t key path1 ds) as (tv & tv' & X); [done|done|apply G|apply G| |].
  - pose proof (good_height _ _ _ _ _ _ G). lia.
  - exists rs, m, t, tv, tv'. split; [done|]. split; [apply G|]. split; [apply G|done].
Qed.
Print Assumptions C74_cursor_in_histories.

Example C74_cursor_case :
  let p := tm_pool 0 0 1 3 0 0 true false true in
  map (fun ds => match tree_find hicmp p (length p) 48%N (repeat (9, false) PATH) with
                 | Some tv => match next_all p tv ds with Some tv => tv_key p tv | None => None end
                 | None => None end)
    [[]; [true]; [true; false]; [false; true; true]; [true; true]; [true; true; false]] =
  [Some (Some 48); Some (Some 80); Some (Some 48); Some (Some 80); Some None; Some None]%N /\
  map (fun ds => match tree_find hicmp p (length p) 64%N (repeat (9, false) PATH) with
                 | Some tv => match next_all p tv ds with Some tv => tv_key p tv | None => None end
                 | None => None end)
    [[]; [true]; [false]; [false; false]; [false; true; true]] =
  [Some None; Some (Some 80); Some (Some 48); Some (Some 16); Some None]%N /\
  cur_find hicmp [16; 48; 80]%N 64%N = Gap [48; 16]%N [80]%N.
Proof. vm_compute. repeat split. Qed.
