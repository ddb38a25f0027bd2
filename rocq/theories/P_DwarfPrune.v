(** C94: empty nodes are left out when types from debug information are printed (src/mr_dwarf.c:1364-1387). *)
From stdpp Require Import sets.
From Verif Require Import Base Ptrs ChildrenProof DfsProof PruneProof DwarfPrune.

(** *** The tree that should be left *)
(** A node is blank if it is a null string, or if its type is one that is left out when empty and it has no children
    left and is not a reference to another node. *)
Definition blank (ns : list node) (nulls : nat -> bool) (t : tree) : Prop :=
  match t with
  | T i ks => nulls i = true \/
      (ks = [] /\ exists n, ns !! i = Some n /\ rm_type n = true /\ (is_ref n = true -> first_child n = 0))
  end.
Definition is_struct (ns : list node) (i : nat) : Prop := exists n, ns !! i = Some n /\ structured n = true.
(** Blank children of structures and unions are left out, from the leaves upwards. *)
Inductive pruned (ns : list node) (nulls : nat -> bool) : tree -> tree -> Prop :=
| p_node i ks ks' : kept_kids ns nulls i ks ks' -> pruned ns nulls (T i ks) (T i ks')
with kept_kids (ns : list node) (nulls : nat -> bool) : nat -> list tree -> list tree -> Prop :=
| k_nil i : kept_kids ns nulls i [] []
| k_keep i k k' ks ks' : pruned ns nulls k k' -> ~ (is_struct ns i /\ blank ns nulls k') -> kept_kids ns nulls i ks ks' ->
    kept_kids ns nulls i (k :: ks) (k' :: ks')
| k_drop i k k' ks ks' : pruned ns nulls k k' -> is_struct ns i -> blank ns nulls k' -> kept_kids ns nulls i ks ks' ->
    kept_kids ns nulls i (k :: ks) ks'.

Section sim.
Context (nulls : nat -> bool).
(** The same table as mr_remove_empty_node of src/mr_save.c would have to see it. *)
Definition h (i : nat) (n : node) : node :=
  Node (parent n) (next n) (first_child n) (pub_idx n) (is_ref n) false (structured n) (rm_type n || nulls i).
Definition hide (ns : list node) : list node := imap h ns.
Definition leaves (ns : list node) : Prop :=
  forall i n, ns !! i = Some n -> nulls i = true -> first_child n = 0 /\ structured n = false.

Lemma hide_lookup ns i : hide ns !! i = h i <$> ns !! i.
Proof. unfold hide. by rewrite list_lookup_imap. Qed.
Lemma hide_length ns : length (hide ns) = length ns.
Proof. apply imap_length. Qed.
Lemma hide_rd ns i : rd (hide ns) i = h i <$> rd ns i.
Proof. unfold rd. apply hide_lookup. Qed.
Lemma hide_insert ns i n : <[i := h i n]> (hide ns) = hide (<[i := n]> ns).
Proof.
  apply list_eq. intros j. rewrite hide_lookup. destruct (Nat.eq_dec i j) as [->|N].
  - destruct (decide (j < length ns)) as [L|L].
    + rewrite !list_lookup_insert; [done|done|by rewrite hide_length].
    + rewrite !lookup_ge_None_2; [done| |]; rewrite insert_length, ?hide_length; lia.
  - rewrite !list_lookup_insert_ne by done. apply hide_lookup.
Qed.
Lemma hide_upd ns i f g : (forall n, g (h i n) = h i (f n)) -> upd (hide ns) i g = hide <$> upd ns i f.
Proof.
  intros H. unfold upd. rewrite hide_rd. destruct (rd ns i) as [n|]; [|done]. cbn. rewrite H. unfold wr. rewrite hide_length.
  destruct (_ <? _); cbn; [|done]. by rewrite hide_insert.
Qed.
Lemma hide_link ns i at_ : link (hide ns) i at_ = link ns i at_.
Proof. destruct at_ as [j|]; cbn; rewrite hide_rd; by destruct (rd ns _). Qed.
Lemma hide_set_link ns i at_ v : set_link (hide ns) i at_ v = hide <$> set_link ns i at_ v.
Proof. destruct at_ as [j|]; cbn; by apply hide_upd. Qed.

Lemma leaves_set ns i at_ v ns' : leaves ns -> (at_ = None -> nulls i = false) -> set_link ns i at_ v = Some ns' -> leaves ns'.
Proof.
  intros L N H. destruct at_ as [j|]; cbn in H; apply upd_inv in H as (n & E & ->); intros k m.
  - destruct (Nat.eq_dec j k) as [->|Nk]; [|rewrite list_lookup_insert_ne by done; apply L].
    rewrite list_lookup_insert by (by eapply lookup_lt_Some). intros [= <-]. cbn. by apply L.
  - destruct (Nat.eq_dec i k) as [->|Nk]; [|rewrite list_lookup_insert_ne by done; apply L].
    intros _ Hn. rewrite (N eq_refl) in Hn. done.
Qed.

Lemma unlink_sim : forall fuel ns c i at_ m c', leaves ns -> nulls i = false -> unchain fuel (hide ns) c i at_ = Some (m, c') ->
  exists ns', unlink nulls fuel ns i at_ = Some ns' /\ m = hide ns' /\ leaves ns'.
Proof.
  induction fuel as [|fuel IH]; intros ns c i at_ m c' L N; cbn [unchain unlink]; [done|]. rewrite hide_link.
  destruct (link ns i at_) as [x|]; [|done]. cbn [mbind option_bind]. destruct (Nat.eqb x 0); [intros [= <- <-]; eauto|].
  rewrite hide_rd. destruct (rd ns x) as [n|] eqn:E; [|done]. cbn [fmap option_fmap option_map mbind option_bind].
  assert (removable (h x n) = drop_node nulls x n) as ->.
  { unfold removable, drop_node, h. cbn. rewrite andb_true_r. destruct (nulls x) eqn:X.
    - destruct (L x n E X) as [-> _]. by rewrite !orb_true_r.
    - by rewrite !orb_false_r. }
  destruct (drop_node nulls x n).
  - change (next (h x n)) with (next n). rewrite hide_set_link. destruct (set_link ns i at_ (next n)) as [ns1|] eqn:S; [|done].
    cbn [fmap option_fmap option_map mbind option_bind]. intros H. eapply IH; [|done|exact H]. eapply leaves_set; [exact L| |exact S]. done.
  - intros H. by eapply IH.
Qed.

Lemma visit_sim ns c i l o b m c' : leaves ns -> remove_empty_node (hide ns) c i l o = Some (b, m, c') ->
  exists ns', remove_visitor nulls ns tt i l o = Some (b, ns', tt) /\ m = hide ns' /\ leaves ns'.
Proof.
  intros L. destruct o; cbn -[unchain unlink]; [intros [= <- <- <-]; eauto|]. rewrite hide_rd. destruct (rd ns i) as [n|] eqn:E; [|done].
  cbn -[unchain unlink]. destruct (structured n) eqn:S; cbn -[unchain unlink]; [|intros [= <- <- <-]; eauto].
  destruct (is_ref n); [intros [= <- <- <-]; eauto|]. rewrite hide_length.
  destruct (unchain _ _ _ _ _) as [[m1 c1]|] eqn:U; [|done]. cbn -[unchain unlink]. intros [= <- <- <-].
  assert (nulls i = false) as Ni. { destruct (nulls i) eqn:X; [|done]. destruct (L i n E X). congruence. }
  destruct (unlink_sim _ ns c i None m1 c1 L Ni U) as (ns' & -> & -> & L'). by exists ns'.
Qed.

Lemma pre1 ns c i l k : visit remove_empty_node ns c i l PRE k = k ns c.
Proof. done. Qed.
Lemma pre2 ns c i l k : visit (remove_visitor nulls) ns c i l PRE k = k ns c.
Proof. done. Qed.
Lemma run_sim start : forall fuel m i l ns c ns1 c1, leaves ns ->
  dfs_run remove_empty_node fuel start (DState m i l (hide ns) c) = Done true ns1 c1 ->
  exists ns', dfs_run (remove_visitor nulls) fuel start (DState m i l ns tt) = Done true ns' tt /\ ns1 = hide ns'.
Proof.
  induction fuel as [|fuel IH]; intros m i l ns c ns1 c1 L; [done|]. cbn [dfs_run dfs_step]. destruct m.
  - destruct (Nat.eqb i 0); [intros [= <- <-]; eauto|]. rewrite pre1, pre2.
    rewrite hide_rd. destruct (rd ns i) as [n|]; [|done]. cbn [fmap option_fmap option_map]. change (expandable (h i n)) with (expandable n).
    destruct (expandable n).
    + change (first_child (h i n)) with (first_child n). by apply IH.
    + unfold visit. destruct (remove_empty_node (hide ns) c i l POST) as [[[b m] c']|] eqn:V; [|done].
      destruct (visit_sim ns c i l POST b m c' L V) as (ns' & -> & -> & L'). destruct b; [|done]. by apply IH.
  - rewrite hide_rd. destruct (rd ns i) as [n|]; [|done]. cbn [fmap option_fmap option_map].
    change (next (h i n)) with (next n). change (parent (h i n)) with (parent n).
    destruct (Nat.eqb (next n) 0 && negb (Nat.eqb (parent n) 0)).
    + unfold visit. destruct (remove_empty_node (hide ns) c (parent n) (l - 1)%Z POST) as [[[b m] c']|] eqn:V; [|done].
      destruct (visit_sim ns c (parent n) (l - 1)%Z POST b m c' L V) as (ns' & -> & -> & L'). destruct b; [|done].
      destruct (Nat.eqb (parent n) start); [intros [= <- <-]; eauto|]. by apply IH.
    + by apply IH.
Qed.

Lemma hide_links ns : map links (hide ns) = map links ns.
Proof.
  apply list_eq. intros i. change (map links) with (fmap links (M := list)). rewrite !list_lookup_fmap, hide_lookup. by destruct (ns !! i).
Qed.

Lemma dead_blank ns i ks : leaves ns -> is_Some (ns !! i) -> (nulls i = true -> ks = []) -> dead (hide ns) (T i ks) = true <-> blank ns nulls (T i ks).
Proof.
  intros L [n E] K. unfold dead, blank, holds_ref, attr. rewrite hide_lookup, E. cbn -[Nat.eqb]. destruct ks as [|k ks].
  2:{ split; [done|]. intros [Hn|[? _]]; [by specialize (K Hn)|done]. }
  rewrite andb_true_r, andb_true_iff, negb_true_iff, andb_false_iff, orb_true_iff, negb_false_iff, Nat.eqb_eq. split.
  - intros [H [R|R]]; [|by left]. right. split; [done|]. exists n. split; [done|]. split; [done|]. intros Rf. destruct H; [congruence|done].
  - intros [R|(_ & m & [= <-] & R & H)].
    + split; [|by right]. right. by apply (L i n).
    + split; [|by left]. destruct (is_ref n); [right; auto|by left].
Qed.

Lemma prune_pruned ns t : leaves ns -> forall par nxt, tree_at ns par nxt t -> pruned ns nulls t (prune (hide ns) t).
Proof.
  intros L. induction t as [i ks IH] using tree_ind'. intros par nxt A. rewrite tree_at_eq in A. destruct A as (n & E & _ & _ & _ & K).
  assert (T' : trees_at ns i ks). { destruct (expandable n); [by destruct K as (_ & _ & K)|by subst ks]. }
  cbn [prune]. constructor. clear K.
  assert (S : attr (hide ns) structured i = true <-> is_struct ns i).
  { unfold attr, is_struct. rewrite hide_lookup, E. cbn. split; [eauto|]. by intros (m & [= <-] & ?). }
  induction IH as [|k ks Hk _ IHk]; [destruct (attr (hide ns) structured i); constructor|]. cbn in T'. destruct T' as [Tk Tks]. specialize (IHk Tks). specialize (Hk _ _ Tk).
  assert (D : dead (hide ns) (prune (hide ns) k) = true <-> blank ns nulls (prune (hide ns) k)).
  { destruct k as [j js]. cbn [prune]. rewrite tree_at_eq in Tk. destruct Tk as (m & Em & _ & _ & _ & Km). apply dead_blank; [done|eauto|].
    intros Hn. destruct (L j m Em Hn) as [F _]. unfold expandable in Km. rewrite F in Km. cbn in Km. subst js. by destruct (attr (hide ns) structured j). }
  cbn [map]. destruct (attr (hide ns) structured i).
  - cbn [List.filter]. destruct (dead (hide ns) (prune (hide ns) k)); cbn [negb].
    + eapply k_drop; [exact Hk|by apply S|by apply D|done].
    + apply k_keep; [done| |done]. intros [_ B]. by apply D in B.
  - apply k_keep; [done| |done]. intros [B _]. by apply S in B.
Qed.
End sim.

(** For every table that holds a tree the traversal ends and leaves the tree without its blank nodes; of the nodes
    nothing but the links to children and successors is changed, and nothing of references. *)
Theorem C94_prune nulls ns ks :
  tree_at ns 0 0 (T 1 ks) -> NoDup (nodes (T 1 ks)) ->
  (forall i n, ns !! i = Some n -> nulls i = true -> first_child n = 0 /\ structured n = false) ->
  exists fuel ns' t, (forall fuel', fuel <= fuel' -> remove_all nulls fuel' ns = Some ns') /\
    pruned ns nulls (T 1 ks) t /\ tree_at ns' 0 0 t /\ length ns' = length ns /\
    forall i n n', ns !! i = Some n -> ns' !! i = Some n' ->
      parent n' = parent n /\ pub_idx n' = pub_idx n /\ is_ref n' = is_ref n /\ (is_ref n = true -> first_child n' = first_child n) /\
      (i ∉ nodes (T 1 ks) -> next n' = next n /\ first_child n' = first_child n).
Proof.
  intros A ND L. assert (A' : tree_at (hide nulls ns) 0 0 (T 1 ks)) by (eapply tree_at_links; [apply hide_links|exact A]).
  destruct (remove_dfs (hide nulls ns) 1 ks A' ND) as (fuel & m & E & B & Am & F).
  destruct (run_sim nulls 1 fuel Top 1 0%Z ns false m (changed (hide nulls ns) (T 1 ks)) L (E fuel ltac:(lia))) as (ns' & E' & ->).
  exists fuel, ns', (prune (hide nulls ns) (T 1 ks)). split; [|split; [|split; [|split]]].
  - intros fuel' Lf. unfold remove_all, dfs.
    destruct (run_sim nulls 1 fuel' Top 1 0%Z ns false (hide nulls ns') (changed (hide nulls ns) (T 1 ks)) L (E fuel' Lf)) as (ns2 & E2 & H2). rewrite E2.
    replace fuel' with (fuel + (fuel' - fuel)) in E2 by lia. rewrite dfs_run_add, E' in E2. cbn in E2. congruence.
  - by eapply prune_pruned.
  - eapply tree_at_links; [|exact Am]. symmetry. apply hide_links.
  - destruct B as [B _]. by rewrite !hide_length in B.
  - intros i n n' En En'. destruct B as [_ B].
    assert (hide nulls ns !! i = Some (h nulls i n)) as Hn by (by rewrite hide_lookup, En).
    assert (hide nulls ns' !! i = Some (h nulls i n')) as Hn' by (by rewrite hide_lookup, En').
    destruct (B i _ _ Hn Hn') as [Fl R]. injection Fl as F1 F2 F3 _ _. do 3 (split; [done|]). split; [exact R|].
    intros Out. specialize (F i Out). rewrite Hn, Hn' in F. injection F. intros. done.
Qed.
Print Assumptions C94_prune.

(** A structure with an empty array, a null string, a number, and a structure that becomes empty. *)
Definition ex_table : list node :=
  [ fresh_node; Node 0 0 2 1 false false true false; Node 1 3 0 2 false false false true; Node 1 4 0 3 false false false false;
    Node 1 5 0 4 false false false false; Node 1 0 6 5 false false true true; Node 5 0 0 6 false false false true ].
Example C94_case :
  let t := T 1 [T 2 []; T 3 []; T 4 []; T 5 [T 6 []]] in
  tree_at ex_table 0 0 t /\ NoDup (nodes t) /\
  (forall i n, ex_table !! i = Some n -> Nat.eqb 3 i = true -> first_child n = 0 /\ structured n = false) /\
  pruned ex_table (Nat.eqb 3) t (T 1 [T 4 []]) /\
  mbind (fun ns => children ns 1) (remove_all (Nat.eqb 3) 30 ex_table) = Some [4].
Proof.
  intros t. assert (A : tree_at ex_table 0 0 t). { cbn. repeat (first [done|eexists|split]). }
  assert (L : forall i n, ex_table !! i = Some n -> Nat.eqb 3 i = true -> first_child n = 0 /\ structured n = false).
  { intros i n E H. apply Nat.eqb_eq in H as <-. cbn in E. injection E as <-. done. }
  split; [exact A|]. split; [apply (bool_decide_unpack _); by vm_compute|]. split; [exact L|].
  split; [|by vm_compute]. change (T 1 [T 4 []]) with (prune (hide (Nat.eqb 3) ex_table) t). by eapply prune_pruned.
Qed.

(** REFUTED that references remain valid: an empty node is left out although a reference to it remains. *)
Theorem C94_reference_refuted : exists ns ks r x n fuel ns' t,
  tree_at ns 0 0 (T 1 ks) /\ NoDup (nodes (T 1 ks)) /\ ns !! r = Some n /\ is_ref n = true /\ first_child n = x /\ x ∈ nodes (T 1 ks) /\
  remove_all (fun _ => false) fuel ns = Some ns' /\ tree_at ns' 0 0 t /\ r ∈ nodes t /\ x ∉ nodes t.
Proof.
  exists [fresh_node; Node 0 0 2 1 false false true false; Node 1 3 0 2 false true true true; Node 1 0 2 3 true false false false],
    [T 2 []; T 3 []], 3, 2, (Node 1 0 2 3 true false false false), 20.
  eexists _, (T 1 [T 3 []]). split; [cbn; repeat (first [done|eexists|split])|]. split; [apply (bool_decide_unpack _); by vm_compute|].
  do 3 (split; [done|]). split; [apply (bool_decide_unpack _); by vm_compute|]. split; [vm_compute; reflexivity|].
  split; [cbn; repeat (first [done|eexists|split])|]. split; apply (bool_decide_unpack _); by vm_compute.
Qed.
Print Assumptions C94_reference_refuted.
