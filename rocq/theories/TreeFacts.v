(** Facts about trees stored in a node table (src/mr_save.c:1239-1270). *)
From stdpp Require Import sets.
From Verif Require Import Base Ptrs DfsProof.

(** A node of a tree is the root of a subtree stored in the table. *)
Lemma sub_tree ns t : forall par nxt, tree_at ns par nxt t -> forall i, i ∈ nodes t ->
  exists par' nxt' ks, tree_at ns par' nxt' (T i ks) /\ sublist (nodes (T i ks)) (nodes t).
Proof.
  induction t as [j js IH] using tree_ind'. intros par nxt A i Hi. pose proof A as A0. rewrite tree_at_eq in A. destruct A as (n & _ & _ & _ & _ & K).
  cbn in Hi. apply elem_of_cons in Hi as [->|Hi]; [by exists par, nxt, js|].
  destruct (expandable n); [|subst js; cbn in Hi; by apply elem_of_nil in Hi]. destruct K as (_ & _ & K). clear A0 n.
  assert (exists par' nxt' ks, tree_at ns par' nxt' (T i ks) /\ sublist (nodes (T i ks)) (concat (map nodes js))) as (p & x & ks & A & S).
  { induction IH as [|k js Hk _ IHk]; [cbn in Hi; by apply elem_of_nil in Hi|].
    cbn in K. destruct K as [K1 K2]. cbn in Hi. apply elem_of_app in Hi as [Hi|Hi].
    - destruct (Hk _ _ K1 i Hi) as (p & x & ks & A & S). exists p, x, ks. split; [done|]. cbn [map concat]. by apply sublist_inserts_r.
    - destruct (IHk K2 Hi) as (p & x & ks & A & S). exists p, x, ks. split; [done|]. cbn [map concat]. by apply sublist_inserts_l. }
  exists p, x, ks. split; [done|]. change (nodes (T j js)) with (j :: concat (map nodes js)). by apply sublist_cons.
Qed.

(** Every node but the root is among the children of a node of the tree. *)
Lemma has_parent ns t : forall par nxt, tree_at ns par nxt t -> forall j, j ∈ nodes t -> j <> root t ->
  exists i par' nxt' ks n, i ∈ nodes t /\ tree_at ns par' nxt' (T i ks) /\ j ∈ map root ks /\ ns !! j = Some n /\ parent n = i.
Proof.
  induction t as [r rs IH] using tree_ind'. intros par nxt A j Hj Hr. pose proof A as A0. rewrite tree_at_eq in A. destruct A as (n & _ & _ & _ & _ & K).
  cbn in Hj, Hr. apply elem_of_cons in Hj as [->|Hj]; [done|].
  destruct (expandable n); [|subst rs; cbn in Hj; by apply elem_of_nil in Hj]. destruct K as (_ & _ & K). clear n.
  assert (forall k n', k ∈ rs -> tree_at ns r n' k -> j ∈ nodes k -> (forall i, i ∈ nodes k -> i ∈ nodes (T r rs)) ->
    exists i par' nxt' ks n, i ∈ nodes (T r rs) /\ tree_at ns par' nxt' (T i ks) /\ j ∈ map root ks /\ ns !! j = Some n /\ parent n = i) as G.
  { intros k n' Hk Ak Hj' Inc. destruct (decide (j = root k)) as [->|Nj].
    - destruct (tree_at_root _ _ _ _ Ak) as (_ & m & Em & Pm & _). exists r, par, nxt, rs, m. split; [cbn; left|]. split; [done|].
      split; [by apply elem_of_list_fmap_1|]. done.
    - rewrite Forall_forall in IH. destruct (IH k Hk _ _ Ak j Hj' Nj) as (i & p & x & ks & m & Hi & Q). exists i, p, x, ks, m. split; [by apply Inc|done]. }
  clear IH A0. assert (exists k n', k ∈ rs /\ tree_at ns r n' k /\ j ∈ nodes k) as (k & n' & Hk & Ak & Hj').
  { clear G Hr. induction rs as [|k rs IHr]; [cbn in Hj; by apply elem_of_nil in Hj|]. cbn in K, Hj. destruct K as [K1 K2].
    apply elem_of_app in Hj as [Hj|Hj]; [exists k, (hd_idx rs); split; [left|done]|].
    destruct (IHr K2 Hj) as (k' & n' & ? & ?). exists k', n'. split; [by right|done]. }
  apply (G k n' Hk Ak Hj'). intros i Hi. cbn. right. clear -Hk Hi. induction rs as [|k' rs IH]; [by apply elem_of_nil in Hk|].
  cbn. apply elem_of_app. apply elem_of_cons in Hk as [->|Hk]; auto.
Qed.

(** A table determines the tree below a node. *)
Lemma tree_unique ns t : forall par nxt par' nxt' u, tree_at ns par nxt t -> tree_at ns par' nxt' u -> root t = root u -> t = u.
Proof.
  induction t as [i ks IH] using tree_ind'. intros par nxt par' nxt' [i' js] A A' E. cbn in E. subst i'.
  rewrite tree_at_eq in A, A'. destruct A as (n & En & Z & _ & _ & K), A' as (n' & En' & _ & _ & _ & K').
  assert (n' = n) as -> by congruence. f_equal. destruct (expandable n); [|congruence].
  destruct K as (K1 & _ & K2), K' as (K1' & _ & K2'). clear En En' Z. assert (hd_idx ks = hd_idx js) as H by congruence. clear K1 K1'.
  revert js K2' H. induction IH as [|k ks Hk _ IHk]; intros js K2' H.
  - destruct js as [|j js]; [done|]. cbn in H, K2'. destruct K2' as [K2' _]. destruct (tree_at_root _ _ _ _ K2') as (Z & _). by rewrite <- H in Z.
  - cbn in K2. destruct K2 as [K2 K3]. destruct (tree_at_root _ _ _ _ K2) as (Z & m & Em & _ & Nm). destruct js as [|j js]; [done|].
    cbn in H, K2'. destruct K2' as [K2' K3']. destruct (tree_at_root _ _ _ _ K2') as (Z' & m' & Em' & _ & Nm').
    assert (k = j) as -> by (by eapply Hk). f_equal. apply IHk; [done|done|]. congruence.
Qed.

Lemma root_in_nodes k : root k ∈ nodes k.
Proof. destruct k. cbn. left. Qed.
Lemma roots_sublist ks : sublist (map root ks) (concat (map nodes ks)).
Proof. induction ks as [|[i js] ks IH]; [constructor|]. cbn. apply sublist_skip. by apply sublist_inserts_l. Qed.

Lemma sublist_NoDup {A} (l k : list A) : sublist l k -> NoDup k -> NoDup l.
Proof.
  induction 1 as [|x l k H IH|x l k H IH]; intros N; [done|..]; apply NoDup_cons in N as [N1 N2]; [|by apply IH].
  constructor; [|by apply IH]. intros Hx. apply N1. eapply elem_of_submseteq; [done|by apply sublist_submseteq].
Qed.

Lemma sublist_elem {A} (l k : list A) x : sublist l k -> x ∈ l -> x ∈ k.
Proof. intros S H. eapply elem_of_submseteq; [done|by apply sublist_submseteq]. Qed.

(** The children of a node, as a list and by their [parent] fields. *)
Lemma tree_kids ns t nxt : tree_at ns 0 nxt t -> NoDup (nodes t) -> forall i, i ∈ nodes t ->
  exists par' nxt' ks, tree_at ns par' nxt' (T i ks) /\ NoDup (map root ks) /\
    forall j, j ∈ map root ks <-> j ∈ nodes t /\ exists n, ns !! j = Some n /\ parent n = i.
Proof.
  intros A N i Hi. destruct (sub_tree ns t 0 nxt A i Hi) as (p & x & ks & Ai & S). exists p, x, ks. split; [done|].
  change (nodes (T i ks)) with (i :: concat (map nodes ks)) in S.
  assert (NoDup (i :: concat (map nodes ks))) as Ni by exact (sublist_NoDup _ _ S N). split.
  { eapply sublist_NoDup; [apply roots_sublist|]. apply NoDup_cons in Ni as [_ Ni]. exact Ni. }
  assert (i <> 0) as Zi by (by destruct (tree_at_root _ _ _ _ Ai)).
  intros j. split.
  - intros Hj. split.
    + eapply sublist_elem; [exact S|]. right. eapply sublist_elem; [apply roots_sublist|done].
    + rewrite tree_at_eq in Ai. destruct Ai as (n & _ & _ & _ & _ & K). destruct (expandable n); [|subst ks; cbn in Hj; by apply elem_of_nil in Hj].
      destruct K as (_ & _ & K). clear -K Hj. induction ks as [|k ks IH]; [cbn in Hj; by apply elem_of_nil in Hj|]. cbn in K, Hj. destruct K as [K1 K2].
      apply elem_of_cons in Hj as [->|Hj]; [|by apply IH]. destruct (tree_at_root _ _ _ _ K1) as (_ & m & Em & Pm & _). eauto.
  - intros [Hj (n & En & Pn)]. destruct (decide (j = root t)) as [->|Nj].
    { destruct (tree_at_root _ _ _ _ A) as (_ & m & Em & Pm & _). congruence. }
    destruct (has_parent ns t 0 nxt A j Hj Nj) as (i' & p' & x' & ks' & m & Hi' & Ai' & Hj' & Em & Pm).
    assert (i' = i) as -> by congruence. assert (T i ks = T i ks') as [= ->] by (by eapply tree_unique). done.
Qed.

(** Induction from the root downwards. *)
Lemma top_down ns t nxt (P : nat -> Prop) : tree_at ns 0 nxt t -> P (root t) ->
  (forall j n, j ∈ nodes t -> j <> root t -> ns !! j = Some n -> parent n ∈ nodes t -> P (parent n) -> P j) ->
  forall i, i ∈ nodes t -> P i.
Proof.
  intros A H0 Hs.
  assert (forall u par nxt', tree_at ns par nxt' u -> (forall i, i ∈ nodes u -> i ∈ nodes t) -> root t ∉ concat (map nodes (match u with T _ ks => ks end)) ->
    P (root u) -> forall i, i ∈ nodes u -> P i) as G.
  { induction u as [r rs IH] using tree_ind'. intros par nxt' Au Inc Nr Hr i Hi. cbn in Nr, Hr. cbn in Hi.
    apply elem_of_cons in Hi as [->|Hi]; [done|]. rewrite tree_at_eq in Au. destruct Au as (n & _ & _ & _ & _ & K).
    destruct (expandable n); [|subst rs; cbn in Hi; by apply elem_of_nil in Hi]. destruct K as (_ & _ & K). clear n.
    assert (r ∈ nodes t) as Hrt by (apply Inc; cbn; left).
    assert (forall i, i ∈ concat (map nodes rs) -> i ∈ nodes t) as Inc' by (intros; apply Inc; cbn; by right). clear Inc.
    induction IH as [|k rs Hk _ IHk]; [cbn in Hi; by apply elem_of_nil in Hi|]. cbn in K, Hi, Nr. destruct K as [K1 K2].
    assert (root t ∉ nodes k) as Nk by (intros ?; apply Nr; apply elem_of_app; by left).
    assert (root t ∉ concat (map nodes rs)) as Nrs by (intros ?; apply Nr; apply elem_of_app; by right).
    apply elem_of_app in Hi as [Hi|Hi]; [|apply IHk; try done; intros; apply Inc'; cbn; apply elem_of_app; by right].
    destruct (tree_at_root _ _ _ _ K1) as (_ & m & Em & Pm & _).
    eapply Hk; [done|intros; apply Inc'; cbn; apply elem_of_app; by left| | |done].
    - destruct k as [k ks]. cbn in Nk |- *. intros ?. apply Nk. by right.
    - apply (Hs (root k) m); [apply Inc'; cbn; apply elem_of_app; left; apply root_in_nodes| |done|by rewrite Pm|by rewrite Pm].
      intros E. apply Nk. rewrite <- E. apply root_in_nodes. }
  intros i Hi. destruct (decide (root t ∈ concat (map nodes (match t with T _ ks => ks end)))) as [Hr|Hr].
  2: { by apply (G t 0 nxt A). }
  exfalso. destruct t as [r rs]. cbn in Hr. pose proof (tree_at_root _ _ _ _ A) as (_ & m & Em & Pm & _). cbn in Em.
  rewrite tree_at_eq in A. destruct A as (n & _ & _ & _ & _ & K). destruct (expandable n); [|subst rs; cbn in Hr; by apply elem_of_nil in Hr].
  destruct K as (K0 & _ & K). clear -Hr Em Pm K.
  assert (forall u par, par <> 0 -> forall x, tree_at ns par x u -> forall i m, i ∈ nodes u -> ns !! i = Some m -> parent m <> 0) as G.
  { induction u as [j js IH] using tree_ind'. intros par Zp x A i m' Hi Em'. rewrite tree_at_eq in A. destruct A as (n & En & Z & P & _ & K').
    cbn in Hi. apply elem_of_cons in Hi as [->|Hi]; [congruence|]. destruct (expandable n); [|subst js; cbn in Hi; by apply elem_of_nil in Hi].
    destruct K' as (_ & _ & K'). induction IH as [|k js Hk _ IHk]; [cbn in Hi; by apply elem_of_nil in Hi|]. cbn in K', Hi. destruct K' as [K1 K2].
    apply elem_of_app in Hi as [Hi|Hi]; [by eapply Hk|by apply IHk]. }
  destruct (decide (r = 0)) as [->|Zr].
  - (* node 0 is not in a tree *)
    assert (forall u par x, tree_at ns par x u -> 0 ∉ nodes u) as Z0.
    { induction u as [j js IH] using tree_ind'. intros par x A Hi. rewrite tree_at_eq in A. destruct A as (n & En & Z & P & _ & K').
      cbn in Hi. apply elem_of_cons in Hi as [<-|Hi]; [done|]. destruct (expandable n); [|subst js; cbn in Hi; by apply elem_of_nil in Hi].
      destruct K' as (_ & _ & K'). induction IH as [|k js Hk _ IHk]; [cbn in Hi; by apply elem_of_nil in Hi|]. cbn in K', Hi. destruct K' as [K1 K2].
      apply elem_of_app in Hi as [Hi|Hi]; [by eapply Hk|by apply IHk]. }
    induction rs as [|k rs IH]; [cbn in Hr; by apply elem_of_nil in Hr|]. cbn in K, Hr. destruct K as [K1 K2].
    apply elem_of_app in Hr as [Hr|Hr]; [by eapply Z0|by apply IH].
  - induction rs as [|k rs IH]; [cbn in Hr; by apply elem_of_nil in Hr|]. cbn in K, Hr. destruct K as [K1 K2].
    apply elem_of_app in Hr as [Hr|Hr]; [by eapply G|by apply IH].
Qed.

(** The parent of a node of the tree is in the tree. *)
Lemma parent_in ns t nxt : tree_at ns 0 nxt t -> forall j n, j ∈ nodes t -> j <> root t -> ns !! j = Some n -> parent n ∈ nodes t.
Proof.
  intros A j n Hj Nj En. destruct (has_parent ns t 0 nxt A j Hj Nj) as (i & _ & _ & _ & m & Hi & _ & _ & Em & Pm). congruence.
Qed.
Lemma nodes_nonzero ns t nxt : tree_at ns 0 nxt t -> forall j, j ∈ nodes t -> j <> 0 /\ exists n, ns !! j = Some n.
Proof.
  intros A j Hj. destruct (sub_tree ns t 0 nxt A j Hj) as (p & x & ks & Aj & _). destruct (tree_at_root _ _ _ _ Aj) as (Z & n & En & _). cbn in *. eauto.
Qed.
