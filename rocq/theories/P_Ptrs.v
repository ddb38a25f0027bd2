(** C26, C27, C50, C52: the node table (src/metaresc.c:614-666, src/mr_save.c:1232-1379). *)
From stdpp Require Import sets.
From Verif Require Import Base Ptrs ChildrenProof DfsProof PruneProof.

(** C26: after every history of calls in which no call is for a proper ancestor
    of the focus, each child list holds exactly the attached children in the
    order of attachment. *)
Theorem C26_child_lists : forall os f c t, hist os f c t ->
  exists ns, pop_run ptrs_init os = Some (Ptrs ns c) /\
    forall p, p < f_size f -> children ns p = Some (f_kids f p).
Proof.
  intros os f c t H. destruct (hist_ok os f c t H) as (ns & E & R & _). exists ns. split; [done|].
  intros p P. by apply rep_children.
Qed.
Print Assumptions C26_child_lists.

(** A root with a child that has two children, then a second child of the root
    (the parsers' order); then a new run below the first grandchild (the order
    of mr_save_pointer_content). *)
Example C26_case : exists f, hist [New; Link 0 1; New; Link 1 2; New; Link 2 3; New; Link 2 4; Last 2; New; Link 1 5; New; Link 3 6; New; Link 6 7; New; Link 3 8] f 8 3 /\
  f_kids f 1 = [2; 5] /\ f_kids f 2 = [3; 4] /\ f_kids f 3 = [6; 8] /\ f_kids f 6 = [7].
Proof.
  eexists. split.
  - change [New; Link 0 1; New; Link 1 2; New; Link 2 3; New; Link 2 4; Last 2; New; Link 1 5; New; Link 3 6; New; Link 6 7; New; Link 3 8]
      with ([New] ++ [Link 0 1] ++ [New] ++ [Link 1 2] ++ [New] ++ [Link 2 3] ++ [New] ++ [Link 2 4] ++ [Last 2] ++ [New] ++ [Link 1 5] ++ [New] ++ [Link 3 6] ++ [New] ++ [Link 6 7] ++ [New] ++ [Link 3 8]).
    rewrite !app_assoc.
    eapply hist_link with (t := 3); [apply hist_new; eapply hist_link with (t := 3); [apply hist_new; eapply hist_link with (t := 1);
      [apply hist_new; eapply hist_link with (t := 1); [apply hist_new; eapply hist_last with (t := 1); [eapply hist_link with (t := 1);
        [apply hist_new; eapply hist_link with (t := 1); [apply hist_new; eapply hist_link with (t := 1);
          [apply hist_new; eapply hist_root; [apply (hist_new [] _ _ _ hist_nil)|]|..]|..]|..]|..]|..]|..]|..]|..].
    all: hist_side.
  - done.
Qed.

(** C26, one call: the attachment below [p] is right exactly when the node met
    on the way up from the cached node, if any, is the last child of [p]. *)
Theorem C26_add_child_exact : forall f ns c p x, rep f ns -> p <> 0 -> c < f_size f ->
  p < x -> x < f_size f -> f_par f x = 0 ->
  ((exists ns', add_child (Ptrs ns c) p x = Some (Ptrs ns' x) /\ children ns' p = Some (f_kids f p ++ [x])) <->
   (forall y, anc (f_par f) c y -> f_par f y = p -> last (f_kids f p) = Some y)).
Proof. intros f ns c p x R P C X1 X2 X3. by apply add_child_exact. Qed.
Print Assumptions C26_add_child_exact.

(** The representation is met by real tables: here after five calls. *)
Example C26_exact_case : exists f ns, rep f ns /\ f_par f 3 = 0 /\ f_kids f 1 = [2] /\ length ns = 4.
Proof.
  destruct (hist_ok ([New] ++ [Link 0 1] ++ [New] ++ [Link 1 2] ++ [New]) (f_new (f_link (f_new (f_new forest0)) 1 2)) 2 1) as (ns & E & R & _).
  - rewrite !app_assoc. apply hist_new. eapply hist_link; [apply hist_new; eapply hist_root; [apply (hist_new [] _ _ _ hist_nil)|repeat split; cbn; lia]|done|repeat split; cbn; lia|..].
    + by intros [? _].
    + left. split; [constructor|done].
  - eexists _, ns. split; [exact R|]. repeat split. by rewrite (rep_len _ _ R).
Qed.

(** C26 is false for arbitrary histories: 3 is attached below 1, then 4 below
    2, and attaching 5 below 1 drops 3. *)
Theorem C26_last_child_cache_refuted : exists os ns,
  os = [New; Link 0 1; New; Link 1 2; New; Link 1 3; New; Link 2 4; New; Link 1 5] /\
  pop_run ptrs_init os = Some (Ptrs ns 5) /\ children ns 1 = Some [2; 5] /\
  exists n, ns !! 3 = Some n /\ parent n = 1.
Proof. eexists _, _. split; [reflexivity|]. split; [by vm_compute|]. split; [by vm_compute|]. eexists. split; by vm_compute. Qed.
Print Assumptions C26_last_child_cache_refuted.

(** A visitor that notes its calls. *)
Definition record (ns : list node) (c : list event) (i : nat) (l : Z) (o : order) : option (bool * list node * list event) :=
  Some (true, ns, c ++ [(i, l, o)]).
Lemma record_keeps : keeps_links record.
Proof. by intros ns c i l o b ns' c' [= <- <- <-]. Qed.
Lemma record_apply evs : forall ns c, apply_events record evs ns c (fun ns c => Done true ns c) = Done true ns (c ++ evs).
Proof.
  induction evs as [|[[i l] o] evs IH]; intros ns c; cbn; [by rewrite app_nil_r|]. unfold visit. cbn. rewrite IH. by rewrite <- app_assoc.
Qed.

(** C27: started at a root, or at any node that has children to enter, the
    traversal makes the calls of the tree: each node once before its children
    and once after them, properly nested, with its depth; a reference is a leaf. *)
Theorem C27_dfs_calls : forall ns i ks par nxt,
  tree_at ns par nxt (T i ks) -> NoDup (nodes (T i ks)) -> ks <> [] \/ (par = 0 /\ nxt = 0) ->
  (exists fuel, forall fuel', fuel <= fuel' -> dfs record fuel' ns [] i = Done true ns (events 0 (T i ks))) /\
  pre_nodes (events 0 (T i ks)) = nodes (T i ks) /\ post_nodes (events 0 (T i ks)) ≡ₚ nodes (T i ks).
Proof.
  intros ns i ks par nxt A N D. split; [|split; [apply pre_nodes_events|apply post_nodes_events]].
  destruct (dfs_tree record record_keeps i ns i ks par nxt [] eq_refl A N D) as [fuel H]. exists fuel. intros fuel' L.
  rewrite (H _ L). by rewrite record_apply.
Qed.
Print Assumptions C27_dfs_calls.

(** C27 for every visitor that does not change the links: the traversal is the
    sequence of these calls, cut short at the first failing one. *)
Theorem C27_dfs_visitor : forall (C : Type) (proc : list node -> C -> nat -> Z -> order -> option (bool * list node * C)) ns i ks par nxt c,
  (forall ns c i l o b ns' c', proc ns c i l o = Some (b, ns', c') -> map links ns' = map links ns) ->
  tree_at ns par nxt (T i ks) -> NoDup (nodes (T i ks)) -> ks <> [] \/ (par = 0 /\ nxt = 0) ->
  exists fuel, forall fuel', fuel <= fuel' ->
    dfs proc fuel' ns c i = apply_events proc (events 0 (T i ks)) ns c (fun ns c => Done true ns c).
Proof. intros C proc ns i ks par nxt c K A N D. by eapply dfs_tree. Qed.
Print Assumptions C27_dfs_visitor.

(** 1 has children 2 and 5; 2 has children 3 and 4; 5 is a reference to 3 and
    is not entered. *)
Definition table_example : list node :=
  [fresh_node; Node 0 0 2 1 false false true false; Node 1 5 3 2 false false true false; Node 2 4 0 3 false true false false;
   Node 2 0 0 4 false false false true; Node 1 0 3 5 true false false false].
Example C27_case :
  tree_at table_example 0 0 (T 1 [T 2 [T 3 []; T 4 []]; T 5 []]) /\
  NoDup (nodes (T 1 [T 2 [T 3 []; T 4 []]; T 5 []])) /\
  dfs record 20 table_example [] 1 = Done true table_example
    [(1, 0%Z, PRE); (2, 1%Z, PRE); (3, 2%Z, PRE); (3, 2%Z, POST); (4, 2%Z, PRE); (4, 2%Z, POST); (2, 1%Z, POST); (5, 1%Z, PRE); (5, 1%Z, POST); (1, 0%Z, POST)] /\
  dfs record 20 table_example [] 2 = Done true table_example (events 0 (T 2 [T 3 []; T 4 []])).
Proof.
  split; [|split; [by apply (bool_decide_unpack _); vm_compute|split; by vm_compute]].
  cbn. repeat match goal with
  | |- exists _, _ => eexists; split; [reflexivity|cbn]
  | |- _ /\ _ => split
  | |- _ => done
  end.
Qed.

(** C27 is false for a start node that is a leaf below another node: the
    traversal goes on to its siblings and closes its parent. *)
Theorem C27_dfs_leaf_refuted : exists ns i t,
  tree_at ns 2 4 t /\ t = T i [] /\ dfs record 20 ns [] i <> Done true ns (events 0 t) /\
  dfs record 20 ns [] i = Done true ns [(3, 0%Z, PRE); (3, 0%Z, POST); (4, 0%Z, PRE); (4, 0%Z, POST); (2, (-1)%Z, POST); (5, (-1)%Z, PRE); (5, (-1)%Z, POST); (1, (-2)%Z, POST)].
Proof.
  exists table_example, 3, (T 3 []). split; [|split; [done|split]].
  - cbn. eexists. split; [reflexivity|]. done.
  - by vm_compute.
  - by vm_compute.
Qed.
Print Assumptions C27_dfs_leaf_refuted.

(** C26 and C27: a table built by such a history is traversed as the tree of
    its child lists. *)
Theorem C27_dfs_after_history : forall os f c t r, hist os f c t -> r <> 0 -> r < f_size f -> f_par f r = 0 ->
  exists ns fuel, pop_run ptrs_init os = Some (Ptrs ns c) /\ forall fuel', fuel <= fuel' ->
    dfs record fuel' ns [] r = Done true ns (events 0 (tree_of (f_size f) f r)).
Proof.
  intros os f c t r H Z S P. destruct (hist_ok os f c t H) as (ns & E & R & _).
  destruct (lookup_lt_is_Some_2 ns r) as [n En]; [by rewrite (rep_len _ _ R)|].
  pose proof (rep_tree f ns R (hist_plain os f c t H ns c E) (f_size f) r n En Z) as A.
  rewrite (rep_parent _ _ R _ _ En), P, (rep_root _ _ R _ _ En P) in A. specialize (A ltac:(lia)).
  pose proof (tree_of_nodup f ns R (f_size f) r Z) as N. pose proof (root_tree_of (f_size f) f r) as Rt.
  destruct (tree_of (f_size f) f r) as [i ks]. cbn in Rt. subst i.
  destruct (C27_dfs_calls ns r ks 0 0 A N (or_intror (conj eq_refl eq_refl))) as ((fuel & Hf) & _). eauto.
Qed.
Print Assumptions C27_dfs_after_history.

(** C50: renumbering gives the nodes of the tree 1, 2, 3, ... in document
    order and changes nothing else: links and references stay. *)
Theorem C50_renumber : forall ns i ks, tree_at ns 0 0 (T i ks) -> NoDup (nodes (T i ks)) ->
  exists fuel ns', (forall fuel', fuel <= fuel' -> dfs renumber_node fuel' ns 1 i = Done true ns' (S (length (nodes (T i ks))))) /\
    length ns' = length ns /\
    (forall k j n, nodes (T i ks) !! k = Some j -> ns !! j = Some n -> ns' !! j = Some (set_pub_idx n (S k))) /\
    (forall j, j ∉ nodes (T i ks) -> ns' !! j = ns !! j).
Proof.
  intros ns i ks A N. destruct (renumber_ok ns i ks 1 A N) as [fuel H]. exists fuel, (number (nodes (T i ks)) 1 ns).
  split; [exact H|]. split; [apply number_length|]. split.
  - intros k j n K E. by rewrite (number_in _ 1 ns k j n N K E).
  - intros j J. by apply number_other.
Qed.
Print Assumptions C50_renumber.

Example C50_case : match dfs renumber_node 20 (map (fun n => set_pub_idx n 77) table_example) 1 1 with
  | Done true ns 6 => map pub_idx ns = [77; 1; 2; 3; 4; 5] /\ map links ns = map links table_example
  | _ => False end.
Proof. by vm_compute. Qed.

(** C52: removal of empty nodes ends, leaves the tree without its dead nodes
    (bottom-up), numbered consecutively from 1, and keeps every reference. *)
Theorem C52_remove_empty_nodes : forall ns ks, tree_at ns 0 0 (T 1 ks) -> NoDup (nodes (T 1 ks)) -> numbered ns (T 1 ks) ->
  exists fuel ns', (forall fuel', fuel <= fuel' -> remove_empty_nodes fuel' ns = Some ns') /\
    tree_at ns' 0 0 (prune ns (T 1 ks)) /\ numbered ns' (prune ns (T 1 ks)) /\
    (forall i n n', ns !! i = Some n -> ns' !! i = Some n' -> is_ref n = true -> is_ref n' = true /\ first_child n' = first_child n).
Proof. intros ns ks A N Nu. by apply remove_empty_nodes_ok. Qed.
Print Assumptions C52_remove_empty_nodes.

(** C52: what is left: document order is kept, no structured node has a dead
    child, a node that carries data, is referenced or is a reference stays, and
    a tree without dead nodes is left alone. *)
Theorem C52_pruned_tree : forall ns t,
  sublist (nodes (prune ns t)) (nodes t) /\ clean ns (prune ns t) /\
  (forall j, j ∈ nodes t -> attr ns rm_type j = false \/ attr ns referenced j = true \/ holds_ref ns j = true -> j ∈ nodes (prune ns t)) /\
  (clean ns t -> prune ns t = t).
Proof.
  intros ns t. split; [apply prune_sublist|]. split; [apply prune_clean|]. split; [intros j; apply prune_live|apply clean_prune].
Qed.
Print Assumptions C52_pruned_tree.

(** 4 is an empty node that may be omitted: it goes, and 5 becomes number 4.
    With 3 unreferenced and omissible too, the whole of 2 goes. *)
Example C52_case :
  numbered table_example (T 1 [T 2 [T 3 []; T 4 []]; T 5 []]) /\
  prune table_example (T 1 [T 2 [T 3 []; T 4 []]; T 5 []]) = T 1 [T 2 [T 3 []]; T 5 []] /\
  (map pub_idx <$> remove_empty_nodes 20 table_example) = Some [0; 1; 2; 3; 4; 4] /\
  (mbind (fun ns => children ns 2) (remove_empty_nodes 20 table_example)) = Some [3] /\
  (mbind (fun ns => children ns 1) (remove_empty_nodes 20
     [fresh_node; Node 0 0 2 1 false false true false; Node 1 5 3 2 false false true true; Node 2 4 0 3 false false false true;
      Node 2 0 0 4 false false false true; Node 1 0 0 5 false false false false])) = Some [5].
Proof.
  split; [|split; [by vm_compute|split; [by vm_compute|split; by vm_compute]]].
  intros k i n. do 5 (destruct k as [|k]; [cbn; intros [= <-]; cbn; intros [= <-]; done|]). cbn. done.
Qed.
