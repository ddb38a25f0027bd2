(** Renumbering and removal of empty nodes (src/mr_save.c:1322-1379). *)
From stdpp Require Import sets.
From Verif Require Import Base Ptrs ChildrenProof DfsProof.

(** ** Renumbering *)
Lemma upd_inv ns i g ns' : upd ns i g = Some ns' -> exists n, ns !! i = Some n /\ ns' = <[i := g n]> ns.
Proof.
  unfold upd, rd. destruct (ns !! i) as [n|] eqn:E; [|done]. cbn. intros [_ ->]%wr_inv. eauto.
Qed.

Lemma renumber_keeps : keeps_links renumber_node.
Proof.
  intros ns c i l [] b ns' c'; cbn; [|by intros [= <- <- <-]].
  destruct (upd _ _ _) as [ns2|] eqn:E; [|done]. cbn. intros [= <- <- <-].
  apply upd_inv in E as (n & E & ->). change (map links) with (fmap links (M := list)). rewrite list_fmap_insert.
  apply list_insert_id. by rewrite list_lookup_fmap, E.
Qed.

Fixpoint pre_nodes (evs : list event) : list nat :=
  match evs with [] => [] | (i, _, PRE) :: evs => i :: pre_nodes evs | _ :: evs => pre_nodes evs end.
Lemma pre_nodes_app a b : pre_nodes (a ++ b) = pre_nodes a ++ pre_nodes b.
Proof. induction a as [|[[i l] []] a IH]; cbn; [done|by rewrite IH|done]. Qed.
Lemma pre_nodes_events t : forall l, pre_nodes (events l t) = nodes t.
Proof.
  induction t as [i ks IH] using tree_ind'. intros l. cbn. f_equal. rewrite pre_nodes_app. cbn. rewrite app_nil_r.
  induction IH as [|k ks Hk _ IHk]; [done|]. cbn. by rewrite pre_nodes_app, Hk, IHk.
Qed.
Fixpoint post_nodes (evs : list event) : list nat :=
  match evs with [] => [] | (i, _, POST) :: evs => i :: post_nodes evs | _ :: evs => post_nodes evs end.
Lemma post_nodes_app a b : post_nodes (a ++ b) = post_nodes a ++ post_nodes b.
Proof. induction a as [|[[i l] []] a IH]; cbn; [done|done|by rewrite IH]. Qed.
Lemma post_nodes_events t : forall l, post_nodes (events l t) ≡ₚ nodes t.
Proof.
  induction t as [i ks IH] using tree_ind'. intros l. cbn. rewrite post_nodes_app. cbn. rewrite Permutation_app_comm. cbn. f_equiv.
  induction IH as [|k ks Hk _ IHk]; [done|]. cbn. by rewrite post_nodes_app, Hk, IHk.
Qed.

(** The table with the given nodes numbered from [c] on. *)
Fixpoint number (l : list nat) (c : nat) (ns : list node) : list node :=
  match l with [] => ns | i :: l => number l (S c) (match ns !! i with Some n => <[i := set_pub_idx n c]> ns | None => ns end) end.

Lemma number_length l : forall c ns, length (number l c ns) = length ns.
Proof. induction l as [|i l IH]; intros c ns; [done|]. cbn. rewrite IH. destruct (ns !! i); [apply insert_length|done]. Qed.

Lemma renumber_apply k evs : forall ns c, Forall (fun i => i < length ns) (pre_nodes evs) ->
  apply_events renumber_node evs ns c k = k (number (pre_nodes evs) c ns) (c + length (pre_nodes evs)).
Proof.
  induction evs as [|[[i l] o] evs IH]; intros ns c F; [cbn; f_equal; lia|]. cbn [apply_events]. destruct o; cbn in F |- *; unfold visit; cbn.
  - inversion F as [|? ? Fi Fe]; subst. destruct (lookup_lt_is_Some_2 ns i Fi) as [n E]. rewrite (upd_ok _ _ _ _ E). cbn. rewrite E.
    rewrite IH; [f_equal; lia|]. by rewrite insert_length.
  - by apply IH.
Qed.

Lemma number_other l : forall c ns i, i ∉ l -> number l c ns !! i = ns !! i.
Proof.
  induction l as [|j l IH]; intros c ns i N; [done|]. cbn. rewrite IH by set_solver.
  destruct (ns !! j); [|done]. rewrite list_lookup_insert_ne; [done|set_solver].
Qed.
Lemma number_in l : forall c ns k i n, NoDup l -> l !! k = Some i -> ns !! i = Some n -> number l c ns !! i = Some (set_pub_idx n (c + k)).
Proof.
  induction l as [|j l IH]; intros c ns k i n N; [done|]. apply NoDup_cons in N as [N1 N2]. destruct k as [|k]; cbn.
  - intros [= ->] E. rewrite number_other by done. rewrite E, list_lookup_insert; [|by eapply lookup_lt_Some]. by rewrite Nat.add_0_r.
  - intros Ek E. assert (i <> j) by (intros ->; apply N1; by eapply elem_of_list_lookup_2).
    rewrite (IH (S c) _ k i n); [|done|done|]; [by rewrite Nat.add_succ_r|]. destruct (ns !! j); [|done]. by rewrite list_lookup_insert_ne.
Qed.

Lemma tree_at_in ns t : forall par nxt, tree_at ns par nxt t -> Forall (fun i => i < length ns) (nodes t).
Proof.
  induction t as [i ks IH] using tree_ind'. intros par nxt. rewrite tree_at_eq. intros (n & E & _ & _ & _ & K). cbn.
  constructor; [by eapply lookup_lt_Some|]. destruct (expandable n); [|subst ks; constructor]. destruct K as (_ & _ & K).
  induction IH as [|k ks Hk _ IHk]; [constructor|]. cbn in K |- *. destruct K as [K1 K2]. apply Forall_app.
  split; [by eapply Hk|by apply IHk].
Qed.

Lemma renumber_ok ns i ks c : tree_at ns 0 0 (T i ks) -> NoDup (nodes (T i ks)) ->
  exists fuel, forall fuel', fuel <= fuel' ->
    dfs renumber_node fuel' ns c i = Done true (number (nodes (T i ks)) c ns) (c + length (nodes (T i ks))).
Proof.
  intros A N. destruct (dfs_tree renumber_node renumber_keeps i ns i ks 0 0 c eq_refl A N) as [fuel H]; [by right|].
  exists fuel. intros fuel' L. rewrite (H _ L). rewrite renumber_apply; rewrite (pre_nodes_events (T i ks)); [done|]. by eapply tree_at_in.
Qed.

(** ** Removal of empty nodes *)
Section Prune.
  Context (ns0 : list node).
  Definition attr (g : node -> bool) (i : nat) : bool := match ns0 !! i with Some n => g n | None => false end.
  Definition holds_ref (i : nat) : bool := attr (fun n => is_ref n && negb (Nat.eqb (first_child n) 0)) i.

  (** A childless node that is neither a reference nor referenced and whose
      type may be omitted. *)
  Definition dead (t : tree) : bool :=
    match t with
    | T i [] => negb (holds_ref i) && negb (attr referenced i) && attr rm_type i
    | _ => false
    end.
  (** Bottom-up: dead children of structured nodes go. *)
  Fixpoint prune (t : tree) : tree :=
    match t with
    | T i ks => T i (if attr structured i then List.filter (fun k => negb (dead k)) (map prune ks) else map prune ks)
    end.
  Fixpoint changed (t : tree) : bool :=
    match t with
    | T i ks => existsb changed ks || (attr structured i && existsb dead (map prune ks))
    end.

  Lemma root_prune t : root (prune t) = root t.
  Proof. by destruct t. Qed.
  Lemma hd_prune ks : hd_idx (map prune ks) = hd_idx ks.
  Proof. destruct ks; [done|]. apply root_prune. Qed.

  Definition flags (n : node) := (parent n, pub_idx n, is_ref n, referenced n, structured n, rm_type n).
  (** Invariant of the pass: only child lists have been changed. *)
  Definition base (ns : list node) : Prop :=
    length ns = length ns0 /\
    forall j n0 n, ns0 !! j = Some n0 -> ns !! j = Some n -> flags n = flags n0 /\ (is_ref n0 = true -> first_child n = first_child n0).

  Lemma base_upd ns i n n' : base ns -> ns !! i = Some n -> flags n' = flags n -> (is_ref n = true -> first_child n' = first_child n) -> base (<[i := n']> ns).
  Proof.
    intros [L B] E F R. split; [by rewrite insert_length|]. intros j n0 m E0. destruct (Nat.eq_dec i j) as [->|Nj].
    - rewrite list_lookup_insert by (by eapply lookup_lt_Some). intros [= <-]. destruct (B _ _ _ E0 E) as [B1 B2].
      split; [congruence|]. intros Hr. rewrite R; [by apply B2|]. unfold flags in *. congruence.
    - rewrite list_lookup_insert_ne by done. by apply B.
  Qed.

  Lemma base_attr ns i n : base ns -> ns !! i = Some n ->
    attr structured i = structured n /\ attr is_ref i = is_ref n /\ attr referenced i = referenced n /\ attr rm_type i = rm_type n /\
    (is_ref n = true -> holds_ref i = negb (Nat.eqb (first_child n) 0)) /\ (is_ref n = false -> holds_ref i = false).
  Proof.
    intros [L B] E. unfold holds_ref, attr. destruct (lookup_lt_is_Some_2 ns0 i) as [n0 E0]; [rewrite <- L; by eapply lookup_lt_Some|].
    destruct (B _ _ _ E0 E) as [F R]. rewrite E0. injection F as ? ? ? ? ? ?. repeat split; try congruence.
    - intros Hr. rewrite <- R by congruence. replace (is_ref n0) with true by congruence. done.
    - intros Hr. replace (is_ref n0) with false by congruence. done.
  Qed.

  Lemma dead_removable ns par nxt t n : base ns -> tree_at ns par nxt t -> ns !! root t = Some n -> removable n = dead t.
  Proof.
    intros B A E. destruct t as [i ks]. rewrite tree_at_eq in A. destruct A as (n' & E' & Z & P & N & K). cbn in E. rewrite E in E'. injection E' as <-.
    destruct (base_attr ns i n B E) as (_ & _ & Hr & Hm & H1 & H2). unfold removable, dead. unfold expandable in K.
    destruct (Nat.eqb_spec (first_child n) 0) as [Z0|Z0]; cbn in *.
    - subst ks. rewrite Hr, Hm. destruct (is_ref n); [by rewrite H1|by rewrite H2].
    - destruct (is_ref n); cbn in K.
      + subst ks. by rewrite H1.
      + destruct K as (_ & K & _). by destruct ks.
  Qed.

  (** Changing the successor of a root. *)
  Lemma tree_at_reroot ns ns' t par nxt nxt' : tree_at ns par nxt t -> NoDup (nodes t) ->
    (forall j, j ∈ nodes t -> j <> root t -> ns' !! j = ns !! j) ->
    (exists n, ns !! root t = Some n /\ ns' !! root t = Some (set_next n nxt')) -> tree_at ns' par nxt' t.
  Proof.
    intros A N F (m & Em & Em'). destruct t as [i ks]. rewrite tree_at_eq in A |- *. destruct A as (n & E & Z & P & Nx & K). cbn in Em, Em', F.
    rewrite E in Em. injection Em as <-. exists (set_next n nxt'). do 4 (split; [done|]).
    change (expandable (set_next n nxt')) with (expandable n). destruct (expandable n); [|done].
    destruct K as (K1 & K2 & K3). do 2 (split; [done|]). apply NoDup_cons in N as [N _].
    assert (forall j, j ∈ concat (map nodes ks) -> ns' !! j = ns !! j) as F' by (intros j Hj; apply F; [by right|set_solver]).
    clear -K3 F'. assert (forall t par nxt, (forall j, j ∈ nodes t -> ns' !! j = ns !! j) -> tree_at ns par nxt t -> tree_at ns' par nxt t) as G.
    { induction t as [a as_ IH] using tree_ind'. intros par nxt Fr. rewrite !tree_at_eq. intros (n & E & Z & P & N & K). exists n.
      split; [rewrite Fr; [done|by left]|]. do 3 (split; [done|]). destruct (expandable n); [|done].
      destruct K as (K1 & K2 & K3'). do 2 (split; [done|]). assert (forall j, j ∈ concat (map nodes as_) -> ns' !! j = ns !! j) as Fr' by (intros; apply Fr; by right).
      clear Fr K1 K2. induction IH as [|k ks0 Hk _ IHk]; [done|]. cbn in *. destruct K3'. split; [apply Hk; set_solver|apply IHk; set_solver]. }
    induction ks as [|k ks IH]; [done|]. cbn in *. destruct K3. split; [apply G; [set_solver|done]|apply IH; set_solver].
  Qed.

  Lemma tree_at_frame ns ns' t par nxt : (forall j, j ∈ nodes t -> ns' !! j = ns !! j) -> tree_at ns par nxt t -> tree_at ns' par nxt t.
  Proof.
    revert par nxt; induction t as [a as_ IH] using tree_ind'. intros par nxt Fr. rewrite !tree_at_eq. intros (n & E & Z & P & N & K). exists n.
    split; [rewrite Fr; [done|by left]|]. do 3 (split; [done|]). destruct (expandable n); [|done].
    destruct K as (K1 & K2 & K3'). do 2 (split; [done|]). assert (forall j, j ∈ concat (map nodes as_) -> ns' !! j = ns !! j) as Fr' by (intros; apply Fr; by right).
    clear Fr K1 K2. induction IH as [|k ks0 Hk _ IHk]; [done|]. cbn in *. destruct K3'. split; [apply Hk; [set_solver|done]|apply IHk; [done|set_solver]].
  Qed.
  Lemma trees_at_frame ns ns' ks par : (forall j, j ∈ concat (map nodes ks) -> ns' !! j = ns !! j) -> trees_at ns par ks -> trees_at ns' par ks.
  Proof.
    intros F. induction ks as [|k ks IH]; [done|]. cbn in *. intros [? ?]. split; [eapply tree_at_frame; [|done]; set_solver|apply IH; [set_solver|done]].
  Qed.

  Definition loc (i : nat) (at_ : option nat) : nat := match at_ with None => i | Some j => j end.
  Definition put (at_ : option nat) (n : node) (v : nat) : node := match at_ with None => set_first_child n v | Some _ => set_next n v end.
  Definition get (at_ : option nat) (n : node) : nat := match at_ with None => first_child n | Some _ => next n end.

  Lemma link_eq ns i at_ n : ns !! loc i at_ = Some n -> link ns i at_ = Some (get at_ n).
  Proof. intros E. destruct at_; cbn in *; by rewrite (rd_lu _ _ _ E). Qed.
  Lemma set_link_eq ns i at_ n v : ns !! loc i at_ = Some n -> set_link ns i at_ v = Some (<[loc i at_ := put at_ n v]> ns).
  Proof. intros E. destruct at_; cbn in *; by rewrite (upd_ok _ _ _ _ E). Qed.
  Lemma get_put at_ n v : get at_ (put at_ n v) = v.
  Proof. by destruct at_. Qed.
  Lemma put_put at_ n v w : put at_ (put at_ n v) w = put at_ n w.
  Proof. by destruct at_. Qed.
  Lemma put_get at_ n : put at_ n (get at_ n) = n.
  Proof. by destruct at_, n. Qed.

  Notation keepf := (List.filter (fun k => negb (dead k))).

  Lemma unchain_ok i : forall ks ns c at_ n fuel, base ns -> i ∉ concat (map nodes ks) ->
    NoDup (concat (map nodes ks)) -> loc i at_ ∉ concat (map nodes ks) -> trees_at ns i ks ->
    ns !! loc i at_ = Some n -> get at_ n = hd_idx ks -> (at_ = None -> is_ref n = false) -> length ks < fuel ->
    exists ns', unchain fuel ns c i at_ = Some (ns', c || existsb dead ks) /\ base ns' /\
      ns' !! loc i at_ = Some (put at_ n (hd_idx (keepf ks))) /\ trees_at ns' i (keepf ks) /\
      (forall j, j ∉ concat (map nodes ks) -> j <> loc i at_ -> ns' !! j = ns !! j).
  Proof.
    induction ks as [|k ks IH]; intros ns c at_ n fuel B Ni ND Na A E G Rf F; (destruct fuel as [|fuel]; [cbn in F; lia|]); cbn [unchain].
    - rewrite (link_eq _ _ _ _ E), G. cbn. exists ns. rewrite orb_false_r. split; [done|]. split; [done|].
      split; [|done]. cbn in G. rewrite <- G, put_get. done.
    - rewrite (link_eq _ _ _ _ E), G. cbn in A. destruct A as [Ak As]. destruct (tree_at_root _ _ _ _ Ak) as (Zk & nk & Ek & Pk & Nk).
      cbn -[unchain rd]. destruct (Nat.eqb_spec (root k) 0); [done|]. rewrite (rd_lu _ _ _ Ek). cbn -[unchain rd].
      rewrite (dead_removable ns i (hd_idx ks) k nk B Ak Ek). cbn in ND, Ni, Na. apply NoDup_app in ND as (ND1 & ND2 & ND3).
      assert (root k ∈ nodes k) as Rk by (destruct k; by left).
      apply not_elem_of_app in Ni as [Ni1 Ni2]. apply not_elem_of_app in Na as [Na1 Na2].
      destruct (dead k) eqn:D; cbn -[unchain rd].
      + rewrite (set_link_eq _ _ _ _ _ E). cbn -[unchain rd]. rewrite Nk.
        set (ns1 := <[loc i at_:=put at_ n (hd_idx ks)]> ns).
        assert (ns1 !! loc i at_ = Some (put at_ n (hd_idx ks))) as E1 by (unfold ns1; rewrite list_lookup_insert; [done|by eapply lookup_lt_Some]).
        destruct (IH ns1 true at_ (put at_ n (hd_idx ks)) fuel) as (ns' & U & B' & E' & A' & F').
        * eapply base_upd; [done|done|by destruct at_|]. intros Hr. destruct at_; [done|]. rewrite Rf in Hr; [done|done].
        * done.
        * done.
        * done.
        * eapply trees_at_frame; [|done]. intros j Hj. unfold ns1. rewrite list_lookup_insert_ne; [done|]. intros Q. by rewrite <- Q in Hj.
        * done.
        * apply get_put.
        * intros ->. by apply Rf.
        * cbn in F. lia.
        * exists ns'. rewrite U. split; [by rewrite orb_true_r|]. split; [done|]. split; [by rewrite E', put_put|]. split; [done|].
          intros j [J1 J3]%not_elem_of_app J2. rewrite F'; [|done|done]. unfold ns1. by rewrite list_lookup_insert_ne.
      + destruct (IH ns c (Some (root k)) nk fuel) as (ns' & U & B' & E' & A' & F').
        * done.
        * done.
        * done.
        * cbn. intros H. by apply (ND2 (root k)).
        * done.
        * done.
        * done.
        * done.
        * cbn in F. lia.
        * exists ns'. rewrite U. split; [done|]. split; [done|].
          split. { change (root k) with (hd_idx (k :: ks)); rewrite <- G, put_get, F'; [done|done|]. cbn. intros Q. by rewrite Q in Na1. }
          split; [|intros j [J1 J3]%not_elem_of_app J2; apply F'; [done|]; cbn; intros Q; by rewrite Q in J1].
          cbn [trees_at]. split; [|done]. cbn in E'. eapply tree_at_reroot; [exact Ak|done| |].
          -- intros j J1 J2. apply F'; [|done]. intros H. by apply (ND2 j).
          -- exists nk. done.
  Qed.

  (** The pass over one tree. *)
  Notation run := (dfs_run remove_empty_node).
  Context (start : nat).

  Definition rm_goal (t : tree) : Prop :=
    forall par nxt level ns c, base ns -> tree_at ns par nxt t -> NoDup (nodes t) -> start ∉ nodes t ->
    exists fuel ns', run fuel start (DState Top (root t) level ns c) = Running (DState Climb (root t) level ns' (c || changed t)) /\
      base ns' /\ tree_at ns' par nxt (prune t) /\ (forall j, j ∉ nodes t -> ns' !! j = ns !! j).

  Lemma nodes_prune t : forall j, j ∈ nodes (prune t) -> j ∈ nodes t.
  Proof.
    induction t as [i ks IH] using tree_ind'. intros j. cbn. rewrite !elem_of_cons. intros [->|H]; [by left|right].
    assert (j ∈ concat (map nodes (map prune ks))) as H'.
    { destruct (attr structured i); [|done]. clear -H. induction (map prune ks) as [|k l IH]; [done|]. cbn in *. destruct (dead k); cbn in *; set_solver. }
    clear H. induction IH as [|k ks Hk _ IHk]; [done|]. cbn in *. set_solver.
  Qed.

  Lemma kids_rm par ks : par <> 0 -> ks <> [] -> Forall rm_goal ks ->
    forall level ns c, base ns -> trees_at ns par ks -> NoDup (concat (map nodes ks)) -> start ∉ concat (map nodes ks) ->
    exists fuel ns', run fuel start (DState Top (hd_idx ks) (level + 1) ns c) =
        after_kids remove_empty_node start par level ns' (c || existsb changed ks) /\
      base ns' /\ trees_at ns' par (map prune ks) /\ (forall j, j ∉ concat (map nodes ks) -> ns' !! j = ns !! j).
  Proof.
    intros P N F level. induction ks as [|k ks IH]; [done|]. clear N. intros ns c B A ND S. cbn in A. destruct A as [A As].
    inversion F as [|? ? Fk Fks]; subst. cbn in ND, S. apply NoDup_app in ND as (ND1 & ND2 & ND3).
    destruct (Fk par (hd_idx ks) (level + 1)%Z ns c B A ND1) as (f1 & ns1 & E1 & B1 & A1 & F1); [set_solver|].
    assert (trees_at ns1 par ks) as As1.
    { eapply trees_at_frame; [|done]. intros j Hj. apply F1. intros Hj'. by apply (ND2 j). }
    destruct (tree_at_root _ _ _ _ A1) as (Z & n & En & Pn & Nn). rewrite root_prune in En, Z.
    destruct ks as [|k' ks].
    - exists (f1 + 1), ns1. rewrite dfs_run_add. cbn [hd_idx]. rewrite E1. cbn [bind]. split.
      + cbn. rewrite (rd_lu _ _ _ En). rewrite Pn, Nn. cbn. destruct (Nat.eqb_spec par 0); [done|]. cbn. replace (level + 1 - 1)%Z with level by lia.
        rewrite orb_false_r. unfold after_kids, climb_state, visit.
        destruct (remove_empty_node ns1 (c || changed k) par level POST) as [[[[|] ?] ?]|]; [|done|done]. by destruct (Nat.eqb par start).
      + split; [done|]. split; [done|]. intros j Hj. apply F1. set_solver.
    - destruct (IH ltac:(done) Fks ns1 (c || changed k) B1 As1 ND3) as (f2 & ns2 & E2 & B2 & A2 & F2); [set_solver|].
      exists (f1 + (1 + f2)), ns2. rewrite dfs_run_add. cbn [hd_idx]. rewrite E1. cbn [bind]. rewrite dfs_run_add. cbn [dfs_run dfs_step].
      rewrite (rd_lu _ _ _ En), Nn. cbn [hd_idx]. destruct As1 as [Ak' _]. destruct (tree_at_root _ _ _ _ Ak') as (Z' & _).
      destruct (Nat.eqb_spec (root k') 0); [done|]. cbn [andb bind]. split.
      + cbn [hd_idx] in E2; rewrite E2. f_equal. cbn. by rewrite !orb_assoc.
      + split; [done|]. split.
        * cbn [map trees_at] in A2 |- *. split; [|done]. change (root (prune k')) with (hd_idx (prune k' :: map prune ks)).
          cbn [hd_idx]. rewrite root_prune. eapply tree_at_frame; [|exact A1].
          intros j Hj. apply F2. intros Hj'. apply nodes_prune in Hj. by apply (ND2 j).
        * intros j Hj. rewrite F2; [|set_solver]. apply F1. set_solver.
  Qed.

  Lemma ks_length ns i ks : trees_at ns i ks -> NoDup (concat (map nodes ks)) -> length ks <= length ns.
  Proof.
    intros A N. transitivity (length (concat (map nodes ks))).
    - clear. induction ks as [|[j js] ks IH]; cbn; [lia|]. rewrite app_length. lia.
    - apply nodup_bounded; [done|]. clear N. induction ks as [|k ks IH]; [constructor|]. cbn in *. destruct A as [A1 A2]. apply Forall_app. split; [by eapply tree_at_in|auto].
  Qed.

  Lemma concat_prune ks j : j ∈ concat (map nodes (map prune ks)) -> j ∈ concat (map nodes ks).
  Proof.
    induction ks as [|k ks IH]; [done|]. cbn. rewrite !elem_of_app. intros [?%nodes_prune|?]; auto.
  Qed.

  Lemma sublist_concat_nodup (ks : list tree) : Forall (fun t => NoDup (nodes t) -> NoDup (nodes (prune t))) ks ->
    NoDup (concat (map nodes ks)) -> NoDup (concat (map nodes (map prune ks))).
  Proof.
    induction 1 as [|k ks Hk _ IH]; [done|]. cbn. rewrite !NoDup_app. intros (N1 & N2 & N3). split; [auto|]. split; [|auto].
    intros j ?%nodes_prune ?%concat_prune. by apply (N2 j).
  Qed.
  Lemma filter_nodup (ks : list tree) : NoDup (concat (map nodes ks)) -> NoDup (concat (map nodes (keepf ks))).
  Proof.
    assert (forall ks j, j ∈ concat (map nodes (keepf ks)) -> j ∈ concat (map nodes ks)) as I.
    { clear. induction ks as [|k ks IH]; [done|]. cbn. intros j. destruct (dead k); cbn; set_solver. }
    induction ks as [|k ks IH]; [done|]. cbn. rewrite NoDup_app. intros (N1 & N2 & N3). destruct (dead k); cbn; [auto|].
    apply NoDup_app. split; [done|]. split; [|auto]. intros j J1 J2%I. by apply (N2 j).
  Qed.
  Lemma prune_nodup t : NoDup (nodes t) -> NoDup (nodes (prune t)).
  Proof.
    induction t as [i ks IH] using tree_ind'. cbn. rewrite !NoDup_cons. intros [N1 N2]. pose proof (sublist_concat_nodup ks IH N2) as N3. split.
    - intros H. apply N1. apply concat_prune. destruct (attr structured i); [|done].
      clear -H. induction (map prune ks) as [|k l IH]; [done|]. cbn in *. destruct (dead k); cbn in *; set_solver.
    - destruct (attr structured i); [by apply filter_nodup|done].
  Qed.

  (** The visit of a node whose children have been treated. *)
  Lemma post_rm ns c i ks n par nxt level : base ns -> ns !! i = Some n -> i <> 0 -> parent n = par -> next n = nxt ->
    (expandable n = false -> ks = []) -> (expandable n = true -> first_child n = hd_idx ks /\ trees_at ns i ks) ->
    i ∉ concat (map nodes ks) -> NoDup (concat (map nodes ks)) ->
    exists ns', remove_empty_node ns c i level POST = Some (true, ns', c || (attr structured i && existsb dead ks)) /\ base ns' /\
      tree_at ns' par nxt (T i (if attr structured i then keepf ks else ks)) /\
      (forall j, j ∉ concat (map nodes ks) -> j <> i -> ns' !! j = ns !! j).
  Proof.
    intros B E Z P Nx X0 X1 Ni ND. destruct (base_attr ns i n B E) as (Hs & _). cbn -[unchain rd tree_at]. rewrite (rd_lu _ _ _ E). cbn -[unchain rd tree_at]. rewrite Hs.
    assert (forall b, expandable n = b -> if b then ks <> [] else ks = []) as Kn.
    { intros [] Xb; [|by apply X0]. destruct (X1 Xb) as [H _]. intros ->. cbn in H. unfold expandable in Xb. by rewrite H in Xb. }
    destruct (structured n); cbn -[unchain rd tree_at].
    2: { exists ns. rewrite orb_false_r. split; [done|]. split; [done|]. split; [|done]. rewrite tree_at_eq. exists n. do 4 (split; [done|]).
         destruct (expandable n) eqn:X; [|by apply X0]. destruct (X1 eq_refl). split; [done|]. split; [by apply (Kn true)|done]. }
    destruct (is_ref n) eqn:Rf.
    { assert (expandable n = false) as X by (unfold expandable; by rewrite Rf, andb_false_r). rewrite (X0 X). cbn -[unchain rd tree_at].
      exists ns. rewrite orb_false_r. split; [done|]. split; [done|]. split; [|done]. rewrite tree_at_eq. exists n. do 4 (split; [done|]). by rewrite X. }
    assert (first_child n = hd_idx ks /\ trees_at ns i ks) as [G A].
    { destruct (expandable n) eqn:X; [auto|]. rewrite (X0 eq_refl). unfold expandable in X. rewrite Rf, andb_true_r in X.
      destruct (Nat.eqb_spec (first_child n) 0); done. }
    destruct (unchain_ok i ks ns c None n (S (S (length ns))) B Ni ND Ni A E G (fun _ => Rf)) as (ns' & U & B' & E' & A' & F').
    { pose proof (ks_length ns i ks A ND). lia. }
    exists ns'. rewrite U. split; [done|]. split; [done|]. split; [|by intros; apply F'].
    rewrite tree_at_eq. cbn in E'. eexists. split; [exact E'|]. do 3 (split; [done|]). unfold expandable. cbn. rewrite Rf, andb_true_r.
    destruct (keepf ks) as [|k ks'] eqn:K; [done|]. cbn in A'. destruct A' as [Ak As]. destruct (tree_at_root _ _ _ _ Ak) as (Zk & _).
    cbn. destruct (Nat.eqb_spec (root k) 0); [done|]. done.
  Qed.

  Lemma tree_rm_gen i ks par nxt level ns c : base ns -> tree_at ns par nxt (T i ks) -> NoDup (nodes (T i ks)) ->
    start ∉ concat (map nodes ks) -> Forall rm_goal ks ->
    exists fuel ns', run fuel start (DState Top i level ns c) =
      (if Nat.eqb i start && negb (Nat.eqb (length ks) 0) then Done true ns' (c || changed (T i ks))
       else Running (DState Climb i level ns' (c || changed (T i ks)))) /\
      base ns' /\ tree_at ns' par nxt (prune (T i ks)) /\ (forall j, j ∉ nodes (T i ks) -> ns' !! j = ns !! j).
  Proof.
    intros B A ND S F. rewrite tree_at_eq in A. destruct A as (n & En & Z & P & Nx & K). cbn in ND. apply NoDup_cons in ND as [ND1 ND2].
    destruct (expandable n) eqn:X.
    - destruct K as (K1 & K2 & K3). destruct (kids_rm i ks Z K2 F level ns c B K3 ND2 S) as (f1 & ns1 & E1 & B1 & A1 & F1).
      assert (ns1 !! i = Some n) as En1 by (by rewrite F1).
      destruct (post_rm ns1 (c || existsb changed ks) i (map prune ks) n par nxt level B1 En1 Z P Nx) as (ns2 & E2 & B2 & A2 & F2).
      { congruence. }
      { intros _. split; [by rewrite hd_prune|done]. }
      { intros H. by apply ND1, concat_prune. }
      { apply sublist_concat_nodup; [|done]. apply Forall_forall. intros t _. apply prune_nodup. }
      exists (1 + f1), ns2. split; [|split; [done|split; [done|]]].
      + cbn [dfs_run Nat.add dfs_step]. destruct (Nat.eqb_spec i 0); [done|]. unfold visit at 1. cbn [remove_empty_node].
        rewrite (rd_lu _ _ _ En), X, K1, E1. unfold after_kids, visit. rewrite E2. cbn [changed]. rewrite orb_assoc.
        destruct (Nat.eqb i start); [|done]. destruct ks; [done|]. done.
      + intros j Hj. cbn in Hj. rewrite F2; [apply F1; set_solver| |set_solver]. intros H%concat_prune. set_solver.
    - subst ks. destruct (post_rm ns c i [] n par nxt level B En Z P Nx) as (ns2 & E2 & B2 & A2 & F2); [done|congruence|done|done|].
      exists 1, ns2. split; [|split; [done|split; [done|]]].
      + cbn [dfs_run dfs_step]. destruct (Nat.eqb_spec i 0); [done|]. unfold visit at 1. cbn [remove_empty_node].
        rewrite (rd_lu _ _ _ En), X. unfold visit. rewrite E2. cbn [length Nat.eqb negb]. by rewrite (andb_false_r (i =? start)).
      + intros j Hj. apply F2; [apply not_elem_of_nil|]. set_solver.
  Qed.

  Lemma tree_rm t : rm_goal t.
  Proof.
    induction t as [i ks IH] using tree_ind'. intros par nxt level ns c B A ND S. cbn in S.
    destruct (tree_rm_gen i ks par nxt level ns c B A ND) as (fuel & ns' & E & H); [set_solver|done|].
    exists fuel, ns'. split; [|done]. cbn [root]. rewrite E. destruct (Nat.eqb_spec i start); [set_solver|]. done.
  Qed.
End Prune.

Lemma base_refl ns : base ns ns.
Proof. split; [done|]. intros j n0 n E E'. rewrite E in E'. by injection E' as <-. Qed.

Lemma remove_dfs ns i ks : tree_at ns 0 0 (T i ks) -> NoDup (nodes (T i ks)) ->
  exists fuel ns', (forall fuel', fuel <= fuel' -> dfs remove_empty_node fuel' ns false i = Done true ns' (changed ns (T i ks))) /\
    base ns ns' /\ tree_at ns' 0 0 (prune ns (T i ks)) /\ (forall j, j ∉ nodes (T i ks) -> ns' !! j = ns !! j).
Proof.
  intros A ND. pose proof ND as ND'. cbn in ND'. apply NoDup_cons in ND' as [ND1 _].
  destruct (tree_rm_gen ns i i ks 0 0 0%Z ns false (base_refl ns) A ND ND1) as (f & ns' & E & B & A' & F).
  { apply Forall_forall. intros t _. apply tree_rm. }
  cbn [orb] in E. exists (f + 2), ns'. split; [|done]. intros fuel' L.
  replace fuel' with (f + (2 + (fuel' - (f + 2)))) by lia. unfold dfs. rewrite dfs_run_add, E. rewrite Nat.eqb_refl. cbn [andb].
  destruct ks as [|k ks]; [|done]. cbn [length Nat.eqb negb bind].
  cbn. destruct (tree_at_root _ _ _ _ A') as (_ & n & En & Pn & Nn). rewrite root_prune in En. cbn in En.
  rewrite (rd_lu _ _ _ En), Pn, Nn. done.
Qed.

(** ** What the pruned tree is *)
Section PruneFacts.
  Context (ns : list node).
  Notation keepf := (List.filter (fun k => negb (dead ns k))).

  (** No structured node has a dead child. *)
  Fixpoint clean (t : tree) : Prop :=
    match t with
    | T i ks => (attr ns structured i = true -> forall k, k ∈ ks -> dead ns k = false) /\
        (fix go ks := match ks with [] => True | k :: ks => clean k /\ go ks end) ks
    end.
  Lemma clean_eq i ks : clean (T i ks) <-> (attr ns structured i = true -> forall k, k ∈ ks -> dead ns k = false) /\ Forall clean ks.
  Proof.
    cbn. assert ((fix go ks := match ks with [] => True | k :: ks => clean k /\ go ks end) ks <-> Forall clean ks) as ->; [|done].
    induction ks as [|k ks IH]; [done|]. by rewrite Forall_cons, IH.
  Qed.

  Lemma keepf_sub ks : sublist (keepf ks) ks.
  Proof. induction ks as [|k ks IH]; [constructor|]. cbn. destruct (dead ns k); cbn; by constructor. Qed.
  Lemma keepf_in ks k : k ∈ keepf ks <-> k ∈ ks /\ dead ns k = false.
  Proof.
    induction ks as [|a ks IH]; cbn; [split; [by intros ?%elem_of_nil|intros [?%elem_of_nil _]; done]|].
    destruct (dead ns a) eqn:D; cbn; rewrite ?elem_of_cons, IH; split.
    - intros [? ?]. auto.
    - intros [[->|?] ?]; [congruence|auto].
    - intros [->|[? ?]]; auto.
    - intros [[->|?] ?]; auto.
  Qed.

  Lemma prune_clean t : clean (prune ns t).
  Proof.
    induction t as [i ks IH] using tree_ind'. cbn [prune]. rewrite clean_eq.
    assert (Forall clean (map (prune ns) ks)) as F. { clear -IH. induction IH; cbn; constructor; auto. }
    destruct (attr ns structured i) eqn:S.
    - split; [intros _ k K; by apply keepf_in in K as [_ ?]|]. rewrite Forall_forall in F |- *. intros k [K _]%keepf_in. auto.
    - by split.
  Qed.

  Lemma clean_prune t : clean t -> prune ns t = t.
  Proof.
    induction t as [i ks IH] using tree_ind'. rewrite clean_eq. intros [D F]. cbn. f_equal.
    assert (map (prune ns) ks = ks) as ->. { clear D. induction IH as [|k ks Hk _ IHk]; [done|]. inversion F; subst. cbn. f_equal; auto. }
    destruct (attr ns structured i); [|done]. specialize (D eq_refl). clear -D. induction ks as [|k ks IH]; [done|]. cbn.
    rewrite (D k) by left. cbn. f_equal. apply IH. intros; apply D; by right.
  Qed.

  Lemma prune_sublist t : sublist (nodes (prune ns t)) (nodes t).
  Proof.
    induction t as [i ks IH] using tree_ind'. cbn. constructor.
    transitivity (concat (map nodes (map (prune ns) ks))).
    - destruct (attr ns structured i); [|done]. generalize (map (prune ns) ks). clear. induction l as [|k l IH]; [constructor|]. cbn.
      destruct (dead ns k); cbn; [by apply sublist_inserts_l|by apply sublist_app].
    - induction IH as [|k ks Hk _ IHk]; [constructor|]. cbn. by apply sublist_app.
  Qed.

  (** Whatever carries information stays. *)
  Lemma prune_live j t : j ∈ nodes t -> attr ns rm_type j = false \/ attr ns referenced j = true \/ holds_ref ns j = true -> j ∈ nodes (prune ns t).
  Proof.
    intros J Lv. induction t as [i ks IH] using tree_ind'. cbn in J |- *. apply elem_of_cons in J as [->|J]; [by left|]. right.
    assert (exists k, k ∈ ks /\ j ∈ nodes k) as (k & Kin & Jk).
    { clear -J. induction ks as [|k ks IH]; [by apply elem_of_nil in J|]. cbn in J. apply elem_of_app in J as [?|J]; [exists k; split; [left|done]|].
      destruct (IH J) as (k' & ? & ?). exists k'. split; [by right|done]. }
    rewrite Forall_forall in IH. specialize (IH k Kin Jk).
    assert (dead ns (prune ns k) = false) as D.
    { destruct (prune ns k) as [r [|]]; [|done]. cbn in IH |- *. apply elem_of_list_singleton in IH as ->.
      destruct Lv as [->|[->| ->]]; [apply andb_false_r|by rewrite andb_false_r|done]. }
    assert (prune ns k ∈ (if attr ns structured i then keepf (map (prune ns) ks) else map (prune ns) ks)) as I.
    { assert (prune ns k ∈ map (prune ns) ks) by (apply elem_of_list_fmap; eauto). destruct (attr ns structured i); [|done]. by apply keepf_in. }
    revert I IH. generalize (prune ns k). generalize (if attr ns structured i then keepf (map (prune ns) ks) else map (prune ns) ks). clear.
    intros l t I J. induction l as [|a l IH]; [by apply elem_of_nil in I|]. cbn. apply elem_of_app. apply elem_of_cons in I as [->|I]; auto.
  Qed.

  Lemma changed_false t : changed ns t = false -> prune ns t = t.
  Proof.
    induction t as [i ks IH] using tree_ind'. cbn. intros [C1 C2]%orb_false_iff. f_equal.
    assert (map (prune ns) ks = ks) as Hm.
    { clear C2. induction IH as [|k ks Hk _ IHk]; [done|]. cbn in *. apply orb_false_iff in C1 as [? ?]. f_equal; auto. }
    rewrite Hm in *. destruct (attr ns structured i); [|done]. cbn in C2. clear -C2. induction ks as [|k ks IH]; [done|]. cbn in *.
    apply orb_false_iff in C2 as [D ?]. rewrite D. cbn. f_equal; auto.
  Qed.
End PruneFacts.

Lemma number_links l : forall c ns, map links (number l c ns) = map links ns.
Proof.
  induction l as [|i l IH]; intros c ns; [done|]. cbn. rewrite IH. destruct (ns !! i) as [n|] eqn:E; [|done].
  change (map links) with (fmap links (M := list)). rewrite list_fmap_insert. apply list_insert_id. by rewrite list_lookup_fmap, E.
Qed.

(** The public indexes are 1, 2, 3, ... in document order. *)
Definition numbered (ns : list node) (t : tree) : Prop :=
  forall k i n, nodes t !! k = Some i -> ns !! i = Some n -> pub_idx n = S k.

Lemma number_numbered ns t : NoDup (nodes t) -> numbered (number (nodes t) 1 ns) t.
Proof.
  intros N k i n K E. assert (i < length ns) as L by (rewrite <- (number_length (nodes t) 1 ns); by eapply lookup_lt_Some).
  destruct (lookup_lt_is_Some_2 ns i L) as [m Em]. rewrite (number_in _ 1 ns k i m N K Em) in E. by injection E as <-.
Qed.

Lemma remove_empty_nodes_ok ns ks : tree_at ns 0 0 (T 1 ks) -> NoDup (nodes (T 1 ks)) -> numbered ns (T 1 ks) ->
  exists fuel ns', (forall fuel', fuel <= fuel' -> remove_empty_nodes fuel' ns = Some ns') /\
    tree_at ns' 0 0 (prune ns (T 1 ks)) /\ numbered ns' (prune ns (T 1 ks)) /\
    (forall i n n', ns !! i = Some n -> ns' !! i = Some n' -> is_ref n = true -> is_ref n' = true /\ first_child n' = first_child n).
Proof.
  intros A N Nu. destruct (remove_dfs ns 1 ks A N) as (f1 & ns1 & E1 & B & A1 & F1).
  destruct (changed ns (T 1 ks)) eqn:Ch.
  - pose proof (prune_nodup ns _ N) as N1. destruct (prune ns (T 1 ks)) as [r ks'] eqn:Pr.
    assert (r = 1) as -> by (pose proof (root_prune ns (T 1 ks)) as H; rewrite Pr in H; done).
    destruct (renumber_ok ns1 1 ks' 1 A1 N1) as [f2 E2].
    exists (f1 + f2), (number (nodes (T 1 ks')) 1 ns1). split; [|split; [|split]].
    + intros fuel' L. unfold remove_empty_nodes. rewrite E1 by lia. by rewrite E2 by lia.
    + eapply tree_at_links; [|exact A1]. apply number_links.
    + by apply number_numbered.
    + intros i n n' E E' R. destruct B as [Bl B].
      destruct (lookup_lt_is_Some_2 ns1 i) as [m Em]; [rewrite Bl; by eapply lookup_lt_Some|].
      destruct (B _ _ _ E Em) as [Fl Fr]. destruct (links_lookup _ _ i m (number_links (nodes (T 1 ks')) 1 ns1) Em) as (m' & Em' & Lm).
      rewrite E' in Em'. injection Em' as <-. injection Lm as _ _ L3 L4. injection Fl as _ _ L5 _ _ _. split; [congruence|]. rewrite L3. auto.
  - pose proof (changed_false ns _ Ch) as Pr. rewrite Pr in *.
    exists f1, ns1. split; [|split; [done|split]].
    + intros fuel' L. unfold remove_empty_nodes. by rewrite E1 by lia.
    + intros k i n K E. destruct B as [Bl B]. destruct (lookup_lt_is_Some_2 ns i) as [m Em]; [rewrite <- Bl; by eapply lookup_lt_Some|].
      destruct (B _ _ _ Em E) as [Fl _]. injection Fl as _ -> _ _ _ _. by eapply Nu.
    + intros i n n' E E' R. destruct B as [Bl B]. destruct (B _ _ _ E E') as [Fl Fr]. injection Fl as _ _ L5 _ _ _. split; [congruence|auto].
Qed.

(** ** From child lists to trees *)
Fixpoint tree_of (fuel : nat) (f : forest) (i : nat) : tree :=
  match fuel with O => T i [] | S fuel => T i (map (tree_of fuel f) (f_kids f i)) end.
Lemma root_tree_of fuel f i : root (tree_of fuel f i) = i.
Proof. by destruct fuel. Qed.

(** A table built by mr_add_child stores the tree of its child lists. *)
Lemma rep_tree f ns : rep f ns -> (forall i n, ns !! i = Some n -> is_ref n = false) ->
  forall fuel i n, ns !! i = Some n -> i <> 0 -> f_size f <= fuel + i -> tree_at ns (parent n) (next n) (tree_of fuel f i).
Proof.
  intros R Rf. induction fuel as [|fuel IH]; intros i n E Z L.
  { apply lookup_lt_Some in E. rewrite (rep_len _ _ R) in E. lia. }
  cbn [tree_of]. rewrite tree_at_eq. exists n. do 4 (split; [done|]). unfold expandable. rewrite (Rf _ _ E), andb_true_r.
  pose proof (rep_kids _ _ R _ _ E) as K.
  assert (forall h l, linked ns h l -> (forall y, y ∈ l -> f_par f y = i) -> h = hd_idx (map (tree_of fuel f) l) /\ trees_at ns i (map (tree_of fuel f) l)) as G.
  { intros h l; revert h; induction l as [|y l IHl]; intros h H P; [done|]. cbn in H. destruct H as (-> & Zy & m & Em & H).
    destruct (IHl _ H) as [H1 H2]; [intros; apply P; by right|]. cbn [map hd_idx trees_at]. rewrite root_tree_of. split; [done|]. split; [|done].
    rewrite <- H1. assert (f_par f y = i) as Py by (apply P; left). rewrite <- Py, <- (rep_parent _ _ R _ _ Em). apply IH; [done|done|].
    pose proof (rep_lt _ _ R y ltac:(congruence)). lia. }
  destruct (G _ _ K) as [H1 H2]. { intros y Iy. by apply (rep_in _ _ R) in Iy as [? _]. }
  destruct (f_kids f i) as [|y l] eqn:Kids; [cbn in H1; by rewrite H1|].
  cbn in K. destruct K as (K1 & K2 & _). destruct (Nat.eqb_spec (first_child n) 0); [congruence|]. done.
Qed.

Lemma tree_of_anc f ns : rep f ns -> forall fuel i j, j ∈ nodes (tree_of fuel f i) -> i <> 0 -> anc (f_par f) j i.
Proof.
  intros R. induction fuel as [|fuel IH]; intros i j; cbn.
  - intros ->%elem_of_list_singleton _. constructor.
  - intros [->|J]%elem_of_cons Z; [constructor|].
    assert (exists y, y ∈ f_kids f i /\ j ∈ nodes (tree_of fuel f y)) as (y & Y & Jy).
    { revert J. generalize (f_kids f i). clear. induction l as [|y l IH]; cbn; [by intros ?%elem_of_nil|].
      intros [J|J]%elem_of_app; [exists y; split; [left|done]|]. destruct (IH J) as (y' & ? & ?). exists y'. split; [by right|done]. }
    apply (rep_in _ _ R) in Y as [Py _]. pose proof (rep_lt _ _ R y ltac:(congruence)) as [Ly _].
    eapply anc_trans; [apply (IH y); [done|lia]|]. rewrite <- Py. apply anc_up; [congruence|constructor].
Qed.

Lemma tree_of_nodup f ns : rep f ns -> forall fuel i, i <> 0 -> NoDup (nodes (tree_of fuel f i)).
Proof.
  intros R. induction fuel as [|fuel IH]; intros i Z; cbn; [apply NoDup_singleton|].
  assert (forall y j, y ∈ f_kids f i -> j ∈ nodes (tree_of fuel f y) -> anc (f_par f) j y /\ f_par f y = i) as Sub.
  { intros y j Y J. apply (rep_in _ _ R) in Y as [Py _]. pose proof (rep_lt _ _ R y ltac:(congruence)) as [Ly _].
    split; [|done]. eapply tree_of_anc; [done|done|]. lia. }
  apply NoDup_cons. split.
  - intros J. assert (exists y, y ∈ f_kids f i /\ i ∈ nodes (tree_of fuel f y)) as (y & Y & Jy).
    { clear -J. revert J. generalize (f_kids f i). intros l. induction l as [|y l IHl]; cbn; [by intros ?%elem_of_nil|].
      intros [J|J]%elem_of_app; [exists y; split; [left|done]|]. destruct (IHl J) as (y' & ? & ?). exists y'. split; [by right|done]. }
    destruct (Sub _ _ Y Jy) as [A P]. apply (anc_le f ns R) in A. pose proof (rep_lt _ _ R y ltac:(congruence)). lia.
  - pose proof (rep_nodup _ _ R i) as N. revert N Sub. generalize (f_kids f i). intros l N Sub.
    assert (Forall (fun y => y <> 0) l) as Nz.
    { apply Forall_forall. intros y Y ->. destruct (Sub 0 0 Y) as [_ P]; [destruct fuel; by left|]. rewrite (par_zero f ns R) in P. congruence. }
    induction l as [|y l IHl]; cbn; [constructor|]. apply NoDup_cons in N as [N1 N2]. inversion Nz; subst.
    apply NoDup_app. split; [by apply IH|]. split; [|apply IHl; [done|intros; apply Sub; [by right|done]|done]].
    intros j J J'. assert (exists z, z ∈ l /\ j ∈ nodes (tree_of fuel f z)) as (z & Iz & Jz).
    { revert J'. clear. induction l as [|z l IHl]; cbn; [by intros ?%elem_of_nil|].
      intros [J|J]%elem_of_app; [exists z; split; [left|done]|]. destruct (IHl J) as (y' & ? & ?). exists y'. split; [by right|done]. }
    destruct (Sub y j) as [A1 P1]; [left|done|]. destruct (Sub z j) as [A2 P2]; [by right|done|].
    assert (y = z) as -> by (eapply (anc_parent_unique f ns R j); congruence). done.
Qed.

(** The history only makes nodes without flags. *)
Lemma hist_plain os f c t : hist os f c t -> forall ns c', pop_run ptrs_init os = Some (Ptrs ns c') -> forall i n, ns !! i = Some n -> is_ref n = false.
Proof.
  intros _. assert (forall ns i n, upd ns i n = None \/ True) as _ by (intros; by right).
  assert (forall os p p', pop_run p os = Some p' -> (forall i n, ra p !! i = Some n -> is_ref n = false) -> forall i n, ra p' !! i = Some n -> is_ref n = false) as G.
  2: { intros ns c' E. apply (G _ _ _ E). intros i n [_ <-]%list_lookup_singleton_Some. done. }
  clear. intros os. induction os as [|o os IH]; intros p p'; cbn; [by intros [= <-]|].
  destruct (pop_step p o) as [q|] eqn:S; [|done]. cbn. intros E H. apply (IH _ _ E). clear IH E.
  assert (forall ns k g ns', (forall m, is_ref (g m) = is_ref m) -> upd ns k g = Some ns' -> (forall i n, ns !! i = Some n -> is_ref n = false) -> forall i n, ns' !! i = Some n -> is_ref n = false) as U.
  { intros ns k g ns' Hg (m & Em & ->)%upd_inv Hn i n. destruct (Nat.eq_dec k i) as [->|]; [|rewrite list_lookup_insert_ne by done; apply Hn].
    rewrite list_lookup_insert by (by eapply lookup_lt_Some). intros [= <-]. rewrite Hg. by eapply Hn. }
  assert (forall p par x q, last_child_for_parent p par = Some (x, q) -> ra q = ra p) as Lc.
  { intros r par x q'. unfold last_child_for_parent. destruct (Nat.eqb par 0); [by intros [= <- <-]|]. destruct (rd _ _) as [np|]; [|done]. cbn -[climb_to scan_last].
    destruct (Nat.eqb (first_child np) 0); [by intros [= <- <-]|]. destruct (climb_to _ _ _ _) as [lc|]; [|done]. cbn -[climb_to scan_last]. destruct (Nat.eqb lc 0); [|by intros [= <- <-]].
    destruct (scan_last _ _ _); [|done]. cbn -[climb_to scan_last]. by intros [= <- <-]. }
  destruct o as [|par x|par]; cbn in S.
  - injection S as <-. cbn. intros i n [?|[_ [_ <-]%list_lookup_singleton_Some]]%lookup_app_Some; [by eapply H|done].
  - unfold add_child in S. destruct (last_child_for_parent p par) as [[lc q1]|] eqn:L; [|done]. cbn in S. apply Lc in L.
    destruct (upd (ra q1) x _) as [ns1|] eqn:U1; [|done]. cbn in S. rewrite L in U1.
    pose proof (fun Hg => U _ _ _ _ Hg U1 H) as V1. specialize (V1 (fun m => eq_refl)). destruct (Nat.eqb par 0); [injection S as <-; exact V1|].
    destruct (rd ns1 par) as [np|]; [|done]. cbn in S. destruct (Nat.eqb (first_child np) 0).
    + destruct (upd ns1 _ _) as [ns2|] eqn:U2; [|done]. injection S as <-. refine (U _ _ _ _ _ U2 V1); done.
    + destruct (Nat.eqb lc 0); [injection S as <-; exact V1|]. destruct (upd ns1 _ _) as [ns2|] eqn:U2; [|done]. injection S as <-. refine (U _ _ _ _ _ U2 V1); done.
  - destruct (last_child_for_parent p par) as [[lc q1]|] eqn:L; [|done]. cbn in S. apply Lc in L. injection S as <-. by rewrite L.
Qed.
