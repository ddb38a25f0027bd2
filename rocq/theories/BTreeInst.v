(** Proof layer: red-black and AVL instances of the tree collection theorems, and
    the balance invariants in terms of paths and subtrees. *)
From stdpp Require Import sets.
From Verif Require Import Base Spec FwFacts ICArrays BTree BTreeRep BTreeRB BTreeAVL BTreeProof.

(** *** Vocabulary of the statements, independent of the code *)

(** Slot 0 points at the root of [t], the links of the pool are the edges of [t],
    and the nodes of [t] are exactly the slots 1, 2, ... of the pool. *)
Definition linked (p : list node) (t : bt) : Prop :=
  p = [] /\ t = Leaf \/
  rep p t /\ (exists n, p !! 0 = Some n /\ nl n = rid t) /\ ids t ≡ₚ seq 1 (length p - 1) /\ p <> [].

(** Flags [b1] along every path from the root to a leaf. *)
Fixpoint colours (t : bt) : list (list bool) :=
  match t with
  | Leaf => [[]]
  | Node _ _ _ y l r => map (cons y) (colours l ++ colours r)
  end.
Definition blacks (c : list bool) : nat := length (List.filter negb c).
Definition same_black_height (t : bt) : Prop :=
  forall c1 c2, c1 ∈ colours t -> c2 ∈ colours t -> blacks c1 = blacks c2.
Definition no_adjacent_red (t : bt) : Prop :=
  forall c i, c ∈ colours t -> c !! i = Some true -> c !! S i = Some true -> False.

Inductive subtree : bt -> bt -> Prop :=
| sub_refl t : subtree t t
| sub_l t i k x y l r : subtree t l -> subtree t (Node i k x y l r)
| sub_r t i k x y l r : subtree t r -> subtree t (Node i k x y l r).
(** Balance marks tell the height difference of the two children. *)
Definition avl_marks (t : bt) : Prop :=
  forall i k x y l r, subtree (Node i k x y l r) t ->
    if x then ht l = ht r else if y then ht r = S (ht l) else ht l = S (ht r).

(** *** Proofs *)
Lemma rb_blacks t h c : rb t h -> c ∈ colours t -> blacks c = h.
Proof.
  revert h c. induction t as [|i k x y l IHl r IHr]; intros h c; cbn [rb colours].
  - intros -> Hc. apply elem_of_list_singleton in Hc as ->. done.
  - intros H Hc. apply elem_of_list_fmap in Hc as (c' & -> & Hc). apply elem_of_app in Hc.
    destruct y; cbn.
    + destruct H as (H1 & H2 & _). unfold blacks. cbn. destruct Hc as [Hc|Hc]; [by apply (IHl h)|by apply (IHr h)].
    + destruct h as [|h]; [done|]. destruct H as (H1 & H2). unfold blacks. cbn. f_equal.
      destruct Hc as [Hc|Hc]; [by apply IHl|by apply IHr].
Qed.
Lemma colours_hd t c : c ∈ colours t -> c !! 0 = Some true -> red t = true.
Proof.
  destruct t as [|i k x y l r]; cbn.
  - intros Hc. apply elem_of_list_singleton in Hc as ->. done.
  - intros Hc. apply elem_of_list_fmap in Hc as (c' & -> & _). cbn. congruence.
Qed.
Lemma rb_no_adj t h : rb t h -> no_adjacent_red t.
Proof.
  unfold no_adjacent_red. revert h. induction t as [|i k x y l IHl r IHr]; intros h H c j Hc; cbn [rb colours] in *.
  - apply elem_of_list_singleton in Hc as ->. done.
  - apply elem_of_list_fmap in Hc as (c' & -> & Hc). apply elem_of_app in Hc.
    assert (Hsub : exists h', rb l h' /\ rb r h' /\ (y = true -> red l = false /\ red r = false)).
    { destruct y; [exists h; naive_solver|]. destruct h; [done|]. exists h. naive_solver. }
    destruct Hsub as (h' & Hl & Hr & Hy). destruct j as [|j]; cbn [lookup list_lookup].
    + intros [= Hy1] Hc0. destruct (Hy Hy1) as [Rl Rr].
      destruct Hc as [Hc|Hc]; apply (colours_hd _ _ Hc) in Hc0; congruence.
    + destruct Hc as [Hc|Hc]; [by eapply IHl|by eapply IHr].
Qed.

Lemma avl_sub t h s : avl t h -> subtree s t -> exists h', avl s h'.
Proof.
  intros H Hs. revert h H. induction Hs as [|t i k x y l r Hs IH|t i k x y l r Hs IH]; intros h H; [eauto| |];
    cbn in H; destruct h as [|h1]; try done; destruct x.
  - by destruct H as [H _]; eapply IH.
  - destruct h1 as [|h2]; [done|]. destruct y; destruct H as [H _]; by eapply IH.
  - by destruct H as [_ H]; eapply IH.
  - destruct h1 as [|h2]; [done|]. destruct y; destruct H as [_ H]; by eapply IH.
Qed.
Lemma avl_marks_ok t : avlInv t -> avl_marks t.
Proof.
  intros [h H] i k x y l r Hs. destruct (avl_sub _ _ _ H Hs) as (h' & Hs'). cbn in Hs'.
  destruct h' as [|h1]; [done|]. destruct x.
  - destruct Hs' as [A B]. by rewrite (proj1 (avl_height _ _ A)), (proj1 (avl_height _ _ B)).
  - destruct h1 as [|h2]; [done|]. destruct y; destruct Hs' as [A B];
      by rewrite (proj1 (avl_height _ _ A)), (proj1 (avl_height _ _ B)).
Qed.

Section inst.
Context (cmp : N -> N -> Z) (Hc : three_way cmp).
Context (path0 : path_t) (Hpath0 : length path0 = PATH).
Context (Inv : bt -> Prop).
Context (Inv_erase : forall t t', erase t = erase t' -> Inv t -> Inv t').
Context (Inv_leaf : Inv Leaf).
Context (Inv_height : forall t, Inv t -> (Z.of_nat (sz t) < 2 ^ 31)%Z -> ht t <= 60).
Context (radd rdel : list node -> path_t -> nat -> option (list node)).
Context (Hadd : forall fs p path i k,
  zr p (Node i k false false Leaf Leaf) (fs ++ [S0]) -> Inv (plug Leaf fs) ->
  path_ok path (fs ++ [S0]) -> path_idx path (length fs + 1) = Some i -> length fs < PATH ->
  exists p' t', radd p path (length fs + 1) = Some p' /\ length p' = length p /\
    whole p' t' /\ same (plug (Node i k false false Leaf Leaf) fs) t' /\ Inv t').
Context (Hdel : forall fs p path di dk dx dy l r t nd,
  zr p t (fs ++ [S0]) -> (l = Leaf /\ t = r \/ r = Leaf /\ t = l) ->
  Inv (plug (Node di dk dx dy l r) fs) ->
  path_ok path (fs ++ [S0]) -> path_idx path (length fs + 1) = Some di ->
  p !! di = Some nd -> b1 nd = dy -> length path = PATH -> length fs + 3 <= PATH ->
  exists p' t', rdel p path (length fs + 1) = Some p' /\ length p' = length p /\
    whole p' t' /\ same (plug t fs) t' /\ Inv t').


(** Everything the client can rely on in state [ic] with set [s]. *)
Record good (ic : tree_ic) (s : list N) (t : bt) (bound : nat) : Prop := {
  good_linked : linked (pool (tr ic)) t;
  good_sorted : strictly_sorted_by cmp (inorder t);
  good_set : inorder t ≡ₚ s;
  good_inv : Inv t;
  good_elems : tree_elems (tr ic) ≡ₚ s;
  good_walk : tree_walk (tr ic) = Some (inorder t);
  good_height : ht t <= 60;
  good_size : length s <= bound;
}.
Lemma trep_linked T t : trep cmp Inv T t -> linked (pool T) t.
Proof.
  intros HT. destruct (decide (pool T = [])) as [E|E].
  - left. split; [done|]. destruct HT as (_ & _ & _ & [[_ ?]|[(_ & (Hw & _) & _) _]]); [done|]. by rewrite E, lookup_nil in Hw.
  - right. assert (Hi : ids t ≡ₚ seq 1 (sz t)) by (by eapply trep_ids).
    destruct HT as (_ & _ & _ & [[? _]|[(A & (B & _) & _) L]]); [done|].
    split; [done|]. split; [|split; [|done]].
    + eexists. split; [exact B|done].
    + rewrite L. cbn. by rewrite Nat.sub_0_r.
Qed.

Lemma trep_good ic t s bound : trep cmp Inv (tr ic) t -> inorder t ≡ₚ s -> sz t <= bound -> (Z.of_nat (sz t) < 2 ^ 31)%Z ->
  good ic s t bound.
Proof.
  intros HT Hp Hb Hsz. split.
  - by apply trep_linked.
  - apply HT.
  - done.
  - apply HT.
  - rewrite <- Hp. by eapply tree_elems_perm.
  - by eapply tree_walk_ok.
  - apply Inv_height; [apply HT|done].
  - apply Permutation_length in Hp. rewrite length_inorder in Hp. lia.
Qed.

Lemma history_ ops : (Z.of_nat (length ops) < 2 ^ 31)%Z ->
  exists rs m s t, run (tree_step cmp radd rdel path0) tree_ic_new ops = Some (rs, m) /\
    fw_run cmp [] ops rs s /\ good m s t (length ops).
Proof.
  intros Hb. destruct (tree_run_ok cmp Hc path0 Hpath0 Inv Inv_erase Inv_leaf Inv_height radd rdel Hadd
    Hdel ops tree_ic_new Leaf []) as (rs & m & t & s & E & F & T & P & S & _).
  - by eapply trep_empty.
  - done.
  - cbn. lia.
  - exists rs, m, s, t. split; [done|]. split; [done|]. cbn in S.
    apply trep_good; [done|done|done|lia].
Qed.

(** Counter: right as soon as an addition succeeded. *)
Lemma counter_ k ops : (Z.of_nat (S (length ops)) < 2 ^ 31)%Z ->
  exists rs m, run (tree_step cmp radd rdel path0) tree_ic_new (Add k true :: ops) = Some (rs, m) /\
    titems m = N.of_nat (length (tree_elems (tr m))).
Proof.
  intros Hb. cbn [run].
  destruct (tree_step_ok cmp Hc path0 Hpath0 Inv Inv_erase Inv_leaf Inv_height radd rdel Hadd
    Hdel tree_ic_new Leaf [] (Add k true)) as (r & m1 & t1 & s1 & E1 & F1 & T1 & P1 & S1 & C1 & C2).
  { by eapply trep_empty. } { done. } { cbn. lia. }
  rewrite E1. bind. specialize (C2 eq_refl).
  assert (Hc1 : count_items (tr m1) = N.of_nat (sz t1)).
  { eapply count_items_ok; eauto. cbn in S1. lia. }
  destruct (tree_run_ok cmp Hc path0 Hpath0 Inv Inv_erase Inv_leaf Inv_height radd rdel Hadd
    Hdel ops m1 t1 s1 T1 P1) as (rs & m & t & s & E & F & T & P & S & C).
  { cbn in S1. lia. }
  rewrite E. bind. eexists _, m. split; [done|]. destruct C as [-> _]; [by rewrite C1|done|].
  assert (Hp : tree_elems (tr m) ≡ₚ inorder t) by (by eapply tree_elems_perm).
  apply Permutation_length in Hp. by rewrite Hp, length_inorder.
Qed.

(** Bulk indexing over any earlier content, then any history. *)
Lemma index_ m0 input al ops : (Z.of_nat (length input + length ops) < 2 ^ 31)%Z ->
  exists ok m, tree_index cmp radd path0 m0 input al = Some (ok, m) /\ (ok = false -> al = false) /\
    (ok = true -> (exists t, good m (fw_index cmp input) t (length input)) /\
      exists rs m' s t, run (tree_step cmp radd rdel path0) m ops = Some (rs, m') /\
        fw_run cmp (fw_index cmp input) ops rs s /\ good m' s t (length input + length ops) /\
        (input <> [] -> titems m' = N.of_nat (length s))).
Proof.
  intros Hb. destruct (tree_index_ok cmp Hc path0 Hpath0 Inv Inv_erase Inv_leaf Inv_height radd rdel Hadd Hdel m0 input al)
    as (ok & m & t & E & T & A & B); [lia|].
  exists ok, m. split; [done|]. split; [done|]. intros Hok. destruct (B Hok) as [B1 B2].
  assert (Hle : sz t <= length input).
  { apply Permutation_length in B1. rewrite length_inorder in B1. rewrite B1. clear. unfold fw_index.
    change (fun s k => _) with (fw_add1 cmp).
    assert (Hg : forall l s, length (fold_left (fw_add1 cmp) l s) <= length s + length l).
    { induction l as [|k l IH]; intros s; cbn [fold_left length]; [lia|]. specialize (IH (fw_add1 cmp s k)).
      unfold fw_add1 in *. destruct (fw_find cmp s k); cbn [length] in *; lia. }
    apply (Hg input []). }
  split; [exists t; apply trep_good; [done|done|done|lia]|].
  destruct (tree_run_ok cmp Hc path0 Hpath0 Inv Inv_erase Inv_leaf Inv_height radd rdel Hadd
    Hdel ops m t _ T B1) as (rs & m' & t' & s & E' & F & T' & P & S & C); [lia|].
  exists rs, m', s, t'. split; [done|]. split; [done|]. split.
  - apply trep_good; [done|done|lia|lia].
  - intros Hne. destruct (B2 Hne) as [B3 B4]. destruct (C B3 B4) as [-> _].
    apply Permutation_length in P. rewrite length_inorder in P. by rewrite P.
Qed.
End inst.

Lemma rbInv_leaf : rbInv Leaf.
Proof. split; [by exists 0|done]. Qed.
Lemma avlInv_leaf : avlInv Leaf.
Proof. by exists 0. Qed.

Lemma avl_add_ctx fs p path i k :
  zr p (Node i k false false Leaf Leaf) (fs ++ [S0]) -> avlInv (plug Leaf fs) ->
  path_ok path (fs ++ [S0]) -> path_idx path (length fs + 1) = Some i -> length fs < PATH ->
  exists p' t', avl_rebalance_add p path (length fs + 1) = Some p' /\ length p' = length p /\
    whole p' t' /\ same (plug (Node i k false false Leaf Leaf) fs) t' /\ avlInv t'.
Proof. intros. by apply avl_rebalance_add_ok. Qed.
Lemma avl_del_ctx fs p path di dk dx dy l r t (nd : node) :
  zr p t (fs ++ [S0]) -> (l = Leaf /\ t = r \/ r = Leaf /\ t = l) ->
  avlInv (plug (Node di dk dx dy l r) fs) ->
  path_ok path (fs ++ [S0]) -> path_idx path (length fs + 1) = Some di ->
  p !! di = Some nd -> b1 nd = dy -> length path = PATH -> length fs + 3 <= PATH ->
  exists p' t', avl_rebalance_del p path (length fs + 1) = Some p' /\ length p' = length p /\
    whole p' t' /\ same (plug t fs) t' /\ avlInv t'.
Proof. intros. eapply avl_rebalance_del_ok; eauto. Qed.
Lemma rb_add_ctx fs p path i k :
  zr p (Node i k false false Leaf Leaf) (fs ++ [S0]) -> rbInv (plug Leaf fs) ->
  path_ok path (fs ++ [S0]) -> path_idx path (length fs + 1) = Some i -> length fs < PATH ->
  exists p' t', rb_rebalance_add p path (length fs + 1) = Some p' /\ length p' = length p /\
    whole p' t' /\ same (plug (Node i k false false Leaf Leaf) fs) t' /\ rbInv t'.
Proof. intros. by apply rb_rebalance_add_ok. Qed.


Section both.
Context (cmp : N -> N -> Z) (Hc : three_way cmp).
Context (path0 : path_t) (Hpath0 : length path0 = PATH).

Definition rb_history_ := history_ cmp Hc path0 Hpath0 rbInv rbInv_erase rbInv_leaf rbInv_height _ _ rb_add_ctx rb_rebalance_del_ok.
Definition avl_history_ := history_ cmp Hc path0 Hpath0 avlInv avlInv_erase avlInv_leaf avlInv_height _ _ avl_add_ctx avl_del_ctx.
Definition rb_counter_ := counter_ cmp Hc path0 Hpath0 rbInv rbInv_erase rbInv_leaf rbInv_height _ _ rb_add_ctx rb_rebalance_del_ok.
Definition avl_counter_ := counter_ cmp Hc path0 Hpath0 avlInv avlInv_erase avlInv_leaf avlInv_height _ _ avl_add_ctx avl_del_ctx.
Definition rb_index_ := index_ cmp Hc path0 Hpath0 rbInv rbInv_erase rbInv_leaf rbInv_height _ _ rb_add_ctx rb_rebalance_del_ok.
Definition avl_index_ := index_ cmp Hc path0 Hpath0 avlInv avlInv_erase avlInv_leaf avlInv_height _ _ avl_add_ctx avl_del_ctx.
End both.
