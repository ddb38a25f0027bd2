(** C10-C14: red-black and AVL trees in a node pool (src/mr_btree.c) and the
    collections over them (src/mr_ic.c:847-1026).  [path0] is the uninitialised
    content of the path array on the stack. *)
From Verif Require Import Base Spec FwFacts BTree BTreeRep BTreeRB BTreeAVL BTreeProof BTreeInst Examples.

(** C10: after any history the pool is a search tree with red-black colours. *)
Theorem C10_rb_invariants : forall cmp path0 ops,
  three_way cmp -> length path0 = PATH -> (Z.of_nat (length ops) < 2 ^ 31)%Z ->
  exists rs m t, run (rb_step cmp path0) tree_ic_new ops = Some (rs, m) /\
    linked (pool (tr m)) t /\ strictly_sorted_by cmp (inorder t) /\
    no_adjacent_red t /\ same_black_height t /\ red t = false.
Proof.
  intros cmp path0 ops Hc Hp Hb. destruct (rb_history_ cmp Hc path0 Hp ops Hb) as (rs & m & s & t & E & F & G).
  exists rs, m, t. split; [exact E|]. split; [apply G|]. split; [apply G|].
  destruct (good_inv _ _ _ _ _ _ G) as [[h H] Hr]. split; [by eapply rb_no_adj|]. split; [|exact Hr].
  intros c1 c2 H1 H2. by rewrite (rb_blacks _ _ _ H H1), (rb_blacks _ _ _ H H2).
Qed.
Print Assumptions C10_rb_invariants.

Definition ex_path : path_t := repeat (7, true) PATH.
Example C10_case :
  match run (rb_step hicmp ex_path) tree_ic_new
    [Add 80 true; Add 16 true; Add 17 true; Add 48 true; Add 96 true; Add 64 true; Add 32 true; Del 16 true; Del 80 true]%N with
  | Some (rs, m) => rs = [RKey (Some 80); RKey (Some 16); RKey (Some 16); RKey (Some 48); RKey (Some 96);
      RKey (Some 64); RKey (Some 32); RStatus true; RStatus true]%N /\
      tree_walk (tr m) = Some [32; 48; 64; 96]%N
  | None => False
  end.
Proof. vm_compute. split; reflexivity. Qed.

(** C10: bulk indexing keeps them too, whatever was in the tree before. *)
Theorem C10_rb_index_invariants : forall cmp path0 m0 input al,
  three_way cmp -> length path0 = PATH -> (Z.of_nat (length input) < 2 ^ 31)%Z ->
  exists ok m, rb_index cmp path0 m0 input al = Some (ok, m) /\ (ok = false -> al = false) /\
    (ok = true -> exists t, linked (pool (tr m)) t /\ strictly_sorted_by cmp (inorder t) /\
       inorder t ≡ₚ fw_index cmp input /\
       no_adjacent_red t /\ same_black_height t /\ red t = false).
Proof.
  intros cmp path0 m0 input al Hc Hp Hb.
  destruct (rb_index_ cmp Hc path0 Hp m0 input al []) as (ok & m & E & F & G).
  { cbn. lia. }
  exists ok, m. split; [exact E|]. split; [exact F|]. intros Hok. destruct (G Hok) as [(t & G1) _].
  exists t. split; [apply G1|]. split; [apply G1|]. split; [apply G1|].
  destruct (good_inv _ _ _ _ _ _ G1) as [[h H] Hr]. split; [by eapply rb_no_adj|]. split; [|exact Hr].
  intros c1 c2 H1 H2. by rewrite (rb_blacks _ _ _ H H1), (rb_blacks _ _ _ H H2).
Qed.
Print Assumptions C10_rb_index_invariants.

Example C10_index_case :
  match rb_index hicmp ex_path tree_ic_new [80; 16; 17; 48; 96; 64; 32]%N true with
  | Some (true, m) => tree_walk (tr m) = Some [16; 32; 48; 64; 80; 96]%N /\ titems m = 6%N
  | _ => False
  end.
Proof. vm_compute. split; reflexivity. Qed.

(** C11: after any history the pool is a search tree whose marks tell the exact
    height differences. *)
Theorem C11_avl_invariants : forall cmp path0 ops,
  three_way cmp -> length path0 = PATH -> (Z.of_nat (length ops) < 2 ^ 31)%Z ->
  exists rs m t, run (avl_step cmp path0) tree_ic_new ops = Some (rs, m) /\
    linked (pool (tr m)) t /\ strictly_sorted_by cmp (inorder t) /\ avl_marks t.
Proof.
  intros cmp path0 ops Hc Hp Hb. destruct (avl_history_ cmp Hc path0 Hp ops Hb) as (rs & m & s & t & E & F & G).
  exists rs, m, t. split; [exact E|]. split; [apply G|]. split; [apply G|]. apply avl_marks_ok. apply G.
Qed.
Print Assumptions C11_avl_invariants.

Example C11_case :
  match run (avl_step hicmp ex_path) tree_ic_new
    [Add 80 true; Add 16 true; Add 17 true; Add 48 true; Add 96 true; Add 64 true; Add 32 true; Del 96 true; Del 48 true]%N with
  | Some (rs, m) => tree_walk (tr m) = Some [16; 32; 64; 80]%N /\ titems m = 4%N
  | None => False
  end.
Proof. vm_compute. split; reflexivity. Qed.

Theorem C11_avl_index_invariants : forall cmp path0 m0 input al,
  three_way cmp -> length path0 = PATH -> (Z.of_nat (length input) < 2 ^ 31)%Z ->
  exists ok m, avl_index cmp path0 m0 input al = Some (ok, m) /\ (ok = false -> al = false) /\
    (ok = true -> exists t, linked (pool (tr m)) t /\ strictly_sorted_by cmp (inorder t) /\
       inorder t ≡ₚ fw_index cmp input /\ avl_marks t).
Proof.
  intros cmp path0 m0 input al Hc Hp Hb.
  destruct (avl_index_ cmp Hc path0 Hp m0 input al []) as (ok & m & E & F & G).
  { cbn. lia. }
  exists ok, m. split; [exact E|]. split; [exact F|]. intros Hok. destruct (G Hok) as [(t & G1) _].
  exists t. split; [apply G1|]. split; [apply G1|]. split; [apply G1|]. apply avl_marks_ok. apply G1.
Qed.
Print Assumptions C11_avl_index_invariants.

(** C12: answers of any history are those of a first-wins set, and the pool
    holds exactly its members. *)
Theorem C12_rb_is_first_wins_set : forall cmp path0 ops,
  three_way cmp -> length path0 = PATH -> (Z.of_nat (length ops) < 2 ^ 31)%Z ->
  exists rs m s, run (rb_step cmp path0) tree_ic_new ops = Some (rs, m) /\
    fw_run cmp [] ops rs s /\ tree_elems (tr m) ≡ₚ s.
Proof.
  intros cmp path0 ops Hc Hp Hb. destruct (rb_history_ cmp Hc path0 Hp ops Hb) as (rs & m & s & t & E & F & G).
  exists rs, m, s. split; [exact E|]. split; [exact F|]. apply G.
Qed.
Print Assumptions C12_rb_is_first_wins_set.

Theorem C12_avl_is_first_wins_set : forall cmp path0 ops,
  three_way cmp -> length path0 = PATH -> (Z.of_nat (length ops) < 2 ^ 31)%Z ->
  exists rs m s, run (avl_step cmp path0) tree_ic_new ops = Some (rs, m) /\
    fw_run cmp [] ops rs s /\ tree_elems (tr m) ≡ₚ s.
Proof.
  intros cmp path0 ops Hc Hp Hb. destruct (avl_history_ cmp Hc path0 Hp ops Hb) as (rs & m & s & t & E & F & G).
  exists rs, m, s. split; [exact E|]. split; [exact F|]. apply G.
Qed.
Print Assumptions C12_avl_is_first_wins_set.

(** Deletion of a slot in the middle moves the last node into it. *)
Example C12_case :
  match run (avl_step ncmp ex_path) tree_ic_new
    [Add 7 false; Add 5 true; Add 9 true; Add 2 true; Del 5 true; Find 2; Find 9; Add 5 true; Del 1 true]%N with
  | Some (rs, m) => rs = [RKey None; RKey (Some 5); RKey (Some 9); RKey (Some 2); RStatus true; RKey (Some 2);
      RKey (Some 9); RKey (Some 5); RStatus false]%N /\ tree_elems (tr m) = [5; 2; 9]%N
  | None => False
  end.
Proof. vm_compute. split; reflexivity. Qed.

(** C12: the same after bulk indexing over any earlier content. *)
Theorem C12_rb_index_is_first_wins_set : forall cmp path0 m0 input al ops,
  three_way cmp -> length path0 = PATH -> (Z.of_nat (length input + length ops) < 2 ^ 31)%Z ->
  exists ok m, rb_index cmp path0 m0 input al = Some (ok, m) /\ (ok = false -> al = false) /\
    (ok = true -> tree_elems (tr m) ≡ₚ fw_index cmp input /\
      exists rs m' s, run (rb_step cmp path0) m ops = Some (rs, m') /\
        fw_run cmp (fw_index cmp input) ops rs s /\ tree_elems (tr m') ≡ₚ s /\
        (input <> [] -> titems m' = N.of_nat (length s))).
Proof.
  intros cmp path0 m0 input al ops Hc Hp Hb.
  destruct (rb_index_ cmp Hc path0 Hp m0 input al ops Hb) as (ok & m & E & F & G).
  exists ok, m. split; [exact E|]. split; [exact F|]. intros Hok.
  destruct (G Hok) as [(t & G1) (rs & m' & s & t' & R & W & G2 & C)]. split; [apply G1|].
  exists rs, m', s. split; [exact R|]. split; [exact W|]. split; [apply G2|exact C].
Qed.
Print Assumptions C12_rb_index_is_first_wins_set.

Theorem C12_avl_index_is_first_wins_set : forall cmp path0 m0 input al ops,
  three_way cmp -> length path0 = PATH -> (Z.of_nat (length input + length ops) < 2 ^ 31)%Z ->
  exists ok m, avl_index cmp path0 m0 input al = Some (ok, m) /\ (ok = false -> al = false) /\
    (ok = true -> tree_elems (tr m) ≡ₚ fw_index cmp input /\
      exists rs m' s, run (avl_step cmp path0) m ops = Some (rs, m') /\
        fw_run cmp (fw_index cmp input) ops rs s /\ tree_elems (tr m') ≡ₚ s /\
        (input <> [] -> titems m' = N.of_nat (length s))).
Proof.
  intros cmp path0 m0 input al ops Hc Hp Hb.
  destruct (avl_index_ cmp Hc path0 Hp m0 input al ops Hb) as (ok & m & E & F & G).
  exists ok, m. split; [exact E|]. split; [exact F|]. intros Hok.
  destruct (G Hok) as [(t & G1) (rs & m' & s & t' & R & W & G2 & C)]. split; [apply G1|].
  exists rs, m', s. split; [exact R|]. split; [exact W|]. split; [apply G2|exact C].
Qed.
Print Assumptions C12_avl_index_is_first_wins_set.

Example C12_index_case :
  match avl_index hicmp ex_path tree_ic_new [80; 16; 17; 48]%N true with
  | Some (true, m) => match run (avl_step hicmp ex_path) m [Find 22; Del 80 true; Add 49 true]%N with
    | Some (rs, m') => rs = [RKey (Some 16); RStatus true; RKey (Some 48)]%N /\ titems m' = 2%N
    | None => False end
  | _ => False
  end.
Proof. vm_compute. split; reflexivity. Qed.

(** C12: [items_count] is right once a first addition succeeded. *)
Theorem C12_rb_counter : forall cmp path0 k ops,
  three_way cmp -> length path0 = PATH -> (Z.of_nat (S (length ops)) < 2 ^ 31)%Z ->
  exists rs m, run (rb_step cmp path0) tree_ic_new (Add k true :: ops) = Some (rs, m) /\
    titems m = N.of_nat (length (tree_elems (tr m))).
Proof. intros cmp path0 k ops Hc Hp Hb. exact (rb_counter_ cmp Hc path0 Hp k ops Hb). Qed.
Print Assumptions C12_rb_counter.
Theorem C12_avl_counter : forall cmp path0 k ops,
  three_way cmp -> length path0 = PATH -> (Z.of_nat (S (length ops)) < 2 ^ 31)%Z ->
  exists rs m, run (avl_step cmp path0) tree_ic_new (Add k true :: ops) = Some (rs, m) /\
    titems m = N.of_nat (length (tree_elems (tr m))).
Proof. intros cmp path0 k ops Hc Hp Hb. exact (avl_counter_ cmp Hc path0 Hp k ops Hb). Qed.
Print Assumptions C12_avl_counter.
Example C12_counter_case :
  match run (rb_step ncmp ex_path) tree_ic_new [Add 5 true; Add 9 true; Add 7 true; Del 5 true; Del 7 true; Del 5 true]%N with
  | Some (_, m) => titems m = 1%N /\ tree_elems (tr m) = [9%N]
  | None => False
  end.
Proof. vm_compute. split; reflexivity. Qed.

(** C12: before any successful addition it is not: deleting from an empty
    collection sets [items_count] to UINT_MAX. *)
Theorem C12_counter_empty_refuted : forall cmp path0 k al,
  length path0 = PATH ->
  exists m, run (rb_step cmp path0) tree_ic_new [Del k al] = Some ([RStatus false], m) /\
    tree_elems (tr m) = [] /\ titems m = (2 ^ 32 - 1)%N.
Proof.
  intros cmp path0 k al Hp. destruct path0 as [|e path0]; [discriminate Hp|].
  eexists. split; [reflexivity|]. split; reflexivity.
Qed.
Print Assumptions C12_counter_empty_refuted.

(** C12: bulk indexing of an empty array leaves the previous counter. *)
Theorem C12_counter_index_empty_refuted :
  exists m m', run (avl_step ncmp ex_path) tree_ic_new [Add 5 true; Add 6 true]%N = Some ([RKey (Some 5); RKey (Some 6)]%N, m) /\
    avl_index ncmp ex_path m [] true = Some (true, m') /\ tree_elems (tr m') = [] /\ titems m' = 2%N.
Proof. eexists _, _. split; [vm_compute; reflexivity|]. split; [vm_compute; reflexivity|]. split; reflexivity. Qed.
Print Assumptions C12_counter_index_empty_refuted.

(** C13: up to 2^31-1 calls: no access outside the 63-element path or stack (the
    model answers [None] on any such access), and the depth is at most 60. *)
Theorem C13_path_never_overflows : forall cmp path0 ops,
  three_way cmp -> length path0 = PATH -> (Z.of_nat (length ops) < 2 ^ 31)%Z ->
  (exists rs m t w, run (rb_step cmp path0) tree_ic_new ops = Some (rs, m) /\
     linked (pool (tr m)) t /\ ht t <= 60 /\ tree_walk (tr m) = Some w) /\
  (exists rs m t w, run (avl_step cmp path0) tree_ic_new ops = Some (rs, m) /\
     linked (pool (tr m)) t /\ ht t <= 60 /\ tree_walk (tr m) = Some w).
Proof.
  intros cmp path0 ops Hc Hp Hb. split.
  - destruct (rb_history_ cmp Hc path0 Hp ops Hb) as (rs & m & s & t & E & F & G).
    exists rs, m, t, (inorder t). split; [exact E|]. split; [apply G|]. split; apply G.
  - destruct (avl_history_ cmp Hc path0 Hp ops Hb) as (rs & m & s & t & E & F & G).
    exists rs, m, t, (inorder t). split; [exact E|]. split; [apply G|]. split; apply G.
Qed.
Print Assumptions C13_path_never_overflows.

(** C14: the walk visits exactly the members, in strictly increasing order. *)
Theorem C14_walk_in_order : forall cmp path0 ops,
  three_way cmp -> length path0 = PATH -> (Z.of_nat (length ops) < 2 ^ 31)%Z ->
  (exists rs m s w, run (rb_step cmp path0) tree_ic_new ops = Some (rs, m) /\ fw_run cmp [] ops rs s /\
     tree_walk (tr m) = Some w /\ w ≡ₚ s /\ strictly_sorted_by cmp w) /\
  (exists rs m s w, run (avl_step cmp path0) tree_ic_new ops = Some (rs, m) /\ fw_run cmp [] ops rs s /\
     tree_walk (tr m) = Some w /\ w ≡ₚ s /\ strictly_sorted_by cmp w).
Proof.
  intros cmp path0 ops Hc Hp Hb. split.
  - destruct (rb_history_ cmp Hc path0 Hp ops Hb) as (rs & m & s & t & E & F & G).
    exists rs, m, s, (inorder t). split; [exact E|]. split; [exact F|]. split; [apply G|]. split; apply G.
  - destruct (avl_history_ cmp Hc path0 Hp ops Hb) as (rs & m & s & t & E & F & G).
    exists rs, m, s, (inorder t). split; [exact E|]. split; [exact F|]. split; [apply G|]. split; apply G.
Qed.
Print Assumptions C14_walk_in_order.

Example C14_case :
  match run (rb_step ncmp ex_path) tree_ic_new
    [Add 5 true; Add 9 true; Add 7 true; Add 2 true; Del 5 true; Add 1 true; Add 30 true; Add 4 true]%N with
  | Some (_, m) => tree_walk (tr m) = Some [1; 2; 4; 7; 9; 30]%N
  | None => False
  end.
Proof. vm_compute. reflexivity. Qed.
