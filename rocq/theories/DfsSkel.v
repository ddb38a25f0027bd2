(** Traversal by visitors that leave alone what the traversal looks at: which nodes are entered, their
    first children, parents and next nodes.  Other nodes may change their first child. *)
From stdpp Require Import list sets.
From Verif Require Import Base Ptrs DfsProof.

Definition skel (n : node) : nat * nat * option nat := (parent n, next n, if expandable n then Some (first_child n) else None).
Definition keeps_skel {C} (proc : list node -> C -> nat -> Z -> order -> option (bool * list node * C)) : Prop :=
  forall ns c i l o b ns' c', proc ns c i l o = Some (b, ns', c') -> map skel ns' = map skel ns.

Lemma skel_lookup ns ns' i n : map skel ns' = map skel ns -> ns !! i = Some n ->
  exists n', ns' !! i = Some n' /\ parent n' = parent n /\ next n' = next n /\ expandable n' = expandable n /\
    (expandable n = true -> first_child n' = first_child n).
Proof.
  intros H E. assert (map skel ns' !! i = Some (skel n)) as G by (rewrite H, list_lookup_fmap, E; done).
  rewrite list_lookup_fmap in G. destruct (ns' !! i) as [n'|]; [|done]. cbn in G. injection G as P N X. exists n'.
  do 3 (split; [done|]). destruct (expandable n), (expandable n'); try done. injection X as ->. done.
Qed.

Lemma tree_at_skel ns ns' : map skel ns' = map skel ns -> forall t par nxt, tree_at ns par nxt t -> tree_at ns' par nxt t.
Proof.
  intros H. induction t as [i ks IH] using tree_ind'. intros par nxt. rewrite !tree_at_eq.
  intros (n & E & Z & P & N & K). destruct (skel_lookup ns ns' i n H E) as (n' & E' & L1 & L2 & L3 & L4).
  exists n'. rewrite L1, L2, L3. do 4 (split; [done|]).
  destruct (expandable n); [|done]. rewrite L4 by done. destruct K as (K1 & K2 & K3). do 2 (split; [done|]). clear K1 K2.
  induction IH as [|k ks Hk _ IHk]; [done|]. cbn in *. destruct K3. auto.
Qed.

Section Skel.
  Context {C : Type} (proc : list node -> C -> nat -> Z -> order -> option (bool * list node * C)).
  Hypothesis Hk : keeps_skel proc.
  Context (start : nat).
  Notation run := (dfs_run proc).

  (** Continuations that only depend on the links being right. *)
  Lemma apply_ext ns0 evs ns c k1 k2 : map skel ns = map skel ns0 ->
    (forall ns' c', map skel ns' = map skel ns0 -> k1 ns' c' = k2 ns' c') ->
    apply_events proc evs ns c k1 = apply_events proc evs ns c k2.
  Proof.
    revert ns c; induction evs as [|[[i l] o] evs IH]; intros ns c L K; cbn; [by apply K|].
    unfold visit. destruct (proc ns c i l o) as [[[[|] ns'] c']|] eqn:E; [|done|done].
    apply IH; [|done]. rewrite (Hk _ _ _ _ _ _ _ _ E). done.
  Qed.

  Definition climb_state (idx : nat) (level : Z) (ns : list node) (c : C) : dres :=
    Running (DState Climb idx level ns c).

  (** From the head of the outer loop at a tree's root to the inner loop there:
      the calls of the tree, in any table with the same links. *)
  Definition tree_goal (ns0 : list node) (t : tree) : Prop :=
    forall level, exists fuel, forall ns c, map skel ns = map skel ns0 ->
      run fuel start (DState Top (root t) level ns c) =
      apply_events proc (events level t) ns c (climb_state (root t) level).

  (** The run of a continuation after a prefix. *)
  Lemma run_apply fuel ns0 evs ns c g k : map skel ns = map skel ns0 ->
    (forall ns' c', map skel ns' = map skel ns0 -> bind (g ns' c') (run fuel start) = k ns' c') ->
    bind (apply_events proc evs ns c g) (run fuel start) = apply_events proc evs ns c k.
  Proof.
    revert ns c; induction evs as [|[[i l] o] evs IH]; intros ns c L K; cbn; [by apply K|].
    unfold visit. destruct (proc ns c i l o) as [[[[|] ns'] c']|] eqn:E; [|done|done].
    apply IH; [|done]. rewrite (Hk _ _ _ _ _ _ _ _ E). done.
  Qed.

  (** A list of siblings, up to the call for their parent. *)
  Definition after_kids (par : nat) (level : Z) (ns : list node) (c : C) : dres :=
    visit proc ns c par level POST (fun ns c =>
      if Nat.eqb par start then Done true ns c else climb_state par level ns c).

  Lemma kids_run ns0 par ks : par <> 0 -> trees_at ns0 par ks -> ks <> [] -> Forall (tree_goal ns0) ks ->
    forall level, exists fuel, forall ns c, map skel ns = map skel ns0 ->
      run fuel start (DState Top (hd_idx ks) (level + 1) ns c) =
      apply_events proc (concat (map (events (level + 1)) ks)) ns c (after_kids par level).
  Proof.
    intros P A N F level. induction ks as [|k ks IH]; [done|]. clear N. cbn in A. destruct A as [A As].
    inversion F as [|? ? Fk Fks]; subst. destruct (Fk (level + 1)%Z) as [f1 E1].
    destruct (tree_at_root _ _ _ _ A) as (Z & n & En & Pn & Nn).
    destruct ks as [|k' ks].
    - exists (f1 + 1). intros ns c L. rewrite dfs_run_add. cbn [hd_idx]. rewrite (E1 _ _ L).
      cbn [map concat]. rewrite (app_nil_r (events _ k)). apply (run_apply 1 ns0); [done|]. intros ns' c' L'.
      destruct (skel_lookup ns0 ns' _ n L' En) as (n' & E' & L1 & L2 & L3 & L4).
      unfold climb_state, after_kids. cbn. rewrite (rd_lu _ _ _ E'). rewrite L1, L2, Pn, Nn. cbn.
      destruct (Nat.eqb_spec par 0); [done|]. cbn. replace (level + 1 - 1)%Z with level by lia.
      unfold visit. destruct (proc ns' c' par level POST) as [[[[|] ?] ?]|]; [|done|done]. by destruct (Nat.eqb par start).
    - destruct IH as [f2 E2]; [done|done|done|]. exists (f1 + (1 + f2)). intros ns c L. rewrite dfs_run_add. cbn [hd_idx].
      rewrite (E1 _ _ L). cbn [map concat] in E2 |- *. rewrite (apply_events_app proc (events _ k)). apply (run_apply _ ns0); [done|]. intros ns' c' L'.
      destruct (skel_lookup ns0 ns' _ n L' En) as (n' & E' & L1 & L2 & L3 & L4).
      unfold climb_state. cbn [bind]. rewrite dfs_run_add. cbn [dfs_run dfs_step]. rewrite (rd_lu _ _ _ E').
      rewrite L2, Nn. cbn [hd_idx]. destruct As as [Ak' As]. destruct (tree_at_root _ _ _ _ Ak') as (Z' & _).
      destruct (Nat.eqb_spec (root k') 0); [done|]. cbn [andb bind]. by apply E2.
  Qed.

  Lemma top_step n idx level ns c : ns !! idx = Some n -> idx <> 0 -> forall ns0, map skel ns = map skel ns0 ->
    dfs_step proc start (DState Top idx level ns c) =
    visit proc ns c idx level PRE (fun ns c =>
      if expandable n then Running (DState Top (first_child n) (level + 1)%Z ns c)
      else visit proc ns c idx level POST (climb_state idx level)).
  Proof.
    intros E Z ns0 L. cbn. destruct (Nat.eqb_spec idx 0); [done|]. unfold visit at 1 3.
    destruct (proc ns c idx level PRE) as [[[[|] ns'] c']|] eqn:Ep; [|done|done].
    destruct (skel_lookup ns ns' _ n (Hk _ _ _ _ _ _ _ _ Ep) E) as (n' & E' & L1 & L2 & L3 & L4).
    rewrite (rd_lu _ _ _ E'), L3. destruct (expandable n); [by rewrite L4|done].
  Qed.

  Lemma visit_bind ns c i l o g fuel : bind (visit proc ns c i l o g) (run fuel start) = visit proc ns c i l o (fun ns c => bind (g ns c) (run fuel start)).
  Proof. unfold visit. by destruct (proc ns c i l o) as [[[[|] ?] ?]|]. Qed.

  (** A tree up to the loop after its root; [Done] at the start node if it was entered. *)
  Lemma tree_run_gen ns0 i ks par nxt : tree_at ns0 par nxt (T i ks) -> Forall (tree_goal ns0) ks ->
    forall level, exists fuel, forall ns c, map skel ns = map skel ns0 ->
      run fuel start (DState Top i level ns c) =
      apply_events proc (events level (T i ks)) ns c
        (fun ns c => if Nat.eqb i start && negb (Nat.eqb (length ks) 0) then Done true ns c else climb_state i level ns c).
  Proof.
    intros A F level. pose proof A as A0. rewrite tree_at_eq in A. destruct A as (n & En & Z & P & Nx & K).
    destruct (expandable n) eqn:X.
    - destruct K as (K1 & K2 & K3). destruct (kids_run ns0 i ks Z K3 K2 F level) as [f1 E1].
      exists (1 + f1). intros ns c L. rewrite dfs_run_add. cbn [dfs_run].
      destruct (skel_lookup ns0 ns _ n L En) as (n' & E' & L1 & L2 & L3 & L4).
      rewrite (top_step n' i level ns c E' Z ns0 L).
      rewrite L3, X, (L4 X), K1. cbn [events apply_events]. unfold visit.
      destruct (proc ns c i level PRE) as [[[[|] ns'] c']|] eqn:Ep; [|done|done].
      cbn [bind]. assert (map skel ns' = map skel ns0) as L' by (rewrite (Hk _ _ _ _ _ _ _ _ Ep); done).
      rewrite (E1 _ _ L'). rewrite (apply_events_app proc). apply (apply_ext ns0); [done|]. intros ns2 c2 _.
      unfold after_kids. cbn. unfold visit. destruct (proc ns2 c2 i level POST) as [[[[|] ?] ?]|]; [|done|done].
      destruct (Nat.eqb i start); [|done]. by destruct ks.
    - subst ks. exists 1. intros ns c L.
      destruct (skel_lookup ns0 ns _ n L En) as (n' & E' & L1 & L2 & L3 & L4).
      cbn [dfs_run]. rewrite (top_step n' i level ns c E' Z ns0 L).
      rewrite L3, X.
      cbn. rewrite andb_false_r. unfold visit, climb_state.
      destruct (proc ns c i level PRE) as [[[[|] ns'] c']|]; [|done|done].
      destruct (proc ns' c' i level POST) as [[[[|] ns2] c2]|]; done.
  Qed.

  Lemma tree_run ns0 t : forall par nxt, tree_at ns0 par nxt t -> start ∉ nodes t -> tree_goal ns0 t.
  Proof.
    induction t as [i ks IH] using tree_ind'. intros par nxt A S level. cbn in S.
    assert (Forall (tree_goal ns0) ks) as F.
    { rewrite tree_at_eq in A. destruct A as (n & _ & _ & _ & _ & K). destruct (expandable n); [|by subst ks].
      destruct K as (_ & _ & K). assert (start ∉ concat (map nodes ks)) as S' by set_solver. clear S.
      induction IH as [|k ks Hk' _ IHk]; [constructor|]. cbn in K, S'. destruct K as [K1 K2]. constructor.
      - eapply Hk'; [done|set_solver].
      - apply IHk; [done|set_solver]. }
    destruct (tree_run_gen ns0 i ks par nxt A F level) as [fuel E]. exists fuel. intros ns c L. rewrite (E _ _ L). cbn [root].
    destruct (Nat.eqb_spec i start); [set_solver|]. done.
  Qed.

  (** Traversal of a whole tree from its root. *)
  Lemma dfs_tree ns0 i ks par nxt c : start = i -> tree_at ns0 par nxt (T i ks) -> NoDup (nodes (T i ks)) ->
    ks <> [] \/ (par = 0 /\ nxt = 0) ->
    exists fuel, forall fuel', fuel <= fuel' ->
      dfs proc fuel' ns0 c start = apply_events proc (events 0 (T i ks)) ns0 c (fun ns c => Done true ns c).
  Proof.
    intros <- A N D. pose proof A as A0. rewrite tree_at_eq in A. destruct A as (n & En & Z & P & Nx & K).
    cbn in N. apply NoDup_cons in N as [N _].
    assert (Forall (tree_goal ns0) ks) as F.
    { destruct (expandable n); [|by subst ks]. destruct K as (_ & _ & K). clear -Hk K N.
      induction ks as [|k ks IH]; [constructor|]. cbn in K, N. destruct K as [K1 K2]. constructor.
      - eapply tree_run; [done|set_solver].
      - apply IH; [done|set_solver]. }
    destruct (tree_run_gen ns0 start ks par nxt A0 F 0%Z) as [f E].
    exists (f + 2). intros fuel' Lf. replace fuel' with (f + (2 + (fuel' - (f + 2)))) by lia.
    unfold dfs. rewrite dfs_run_add. rewrite (E _ _ eq_refl). apply (run_apply _ ns0); [done|]. intros ns' c' L'.
    destruct ks as [|k ks]; cbn -[dfs_run]; [|by rewrite Nat.eqb_refl].
    rewrite andb_false_r. destruct D as [|[-> ->]]; [done|]. cbn.
    destruct (skel_lookup ns0 ns' _ n L' En) as (n' & E' & L1 & L2 & L3 & L4).
    rewrite (rd_lu _ _ _ E'), L1, L2, P, Nx. done.
  Qed.
End Skel.

(** ** Visitors that do so only as long as they are called as intended *)
Section Guard.
  Context {C : Type} (proc : list node -> C -> nat -> Z -> order -> option (bool * list node * C)).

  Definition checked (ns : list node) (c : C) (i : nat) (l : Z) (o : order) : option (bool * list node * C) :=
    match proc ns c i l o with
    | Some (b, ns', c') => if decide (map skel ns' = map skel ns) then Some (b, ns', c') else None
    | None => None
    end.

  Lemma checked_keeps : keeps_skel checked.
  Proof.
    intros ns c i l o b ns' c'. unfold checked. destruct (proc ns c i l o) as [[[b1 n1] c1]|]; [|done].
    destruct (decide _) as [E|]; [|done]. intros [= <- <- <-]. done.
  Qed.
  Lemma checked_proc ns c i l o r : checked ns c i l o = Some r -> proc ns c i l o = Some r.
  Proof. unfold checked. destruct (proc ns c i l o) as [[[b1 n1] c1]|]; [|done]. by destruct (decide _). Qed.

  Lemma visit_mono ns c i l o k k' : (forall ns' c', k ns' c' <> Stuck -> k' ns' c' = k ns' c') ->
    visit checked ns c i l o k <> Stuck -> visit proc ns c i l o k' = visit checked ns c i l o k.
  Proof.
    intros K. unfold visit. destruct (checked ns c i l o) as [[[[] n1] c1]|] eqn:E; [| |done].
    - rewrite (checked_proc _ _ _ _ _ _ E). apply K.
    - by rewrite (checked_proc _ _ _ _ _ _ E).
  Qed.
  Lemma step_mono start s : dfs_step checked start s <> Stuck -> dfs_step proc start s = dfs_step checked start s.
  Proof.
    destruct s as [[] idx level ns c]; cbn.
    - destruct (Nat.eqb idx 0); [done|]. apply visit_mono. intros ns' c' H. destruct (rd ns' idx) as [n|]; [|done].
      destruct (expandable n); [done|]. by apply visit_mono.
    - destruct (rd ns idx) as [n|]; [|done]. destruct (_ && _); [|done]. by apply visit_mono.
  Qed.
  Lemma run_mono start fuel : forall s, dfs_run checked fuel start s <> Stuck -> dfs_run proc fuel start s = dfs_run checked fuel start s.
  Proof.
    induction fuel as [|fuel IH]; intros s; [done|]. cbn. intros H.
    rewrite (step_mono start s) by (intros E; by rewrite E in H). destruct (dfs_step checked start s); [|done|done]. by apply IH.
  Qed.

  Lemma dfs_checked ns i ks c b ns' c' : tree_at ns 0 0 (T i ks) -> NoDup (nodes (T i ks)) ->
    apply_events checked (events 0 (T i ks)) ns c (fun ns c => Done true ns c) = Done b ns' c' ->
    exists fuel, forall fuel', fuel <= fuel' -> dfs proc fuel' ns c i = Done b ns' c'.
  Proof.
    intros A N E. destruct (dfs_tree checked checked_keeps i ns i ks 0 0 c eq_refl A N) as [fuel F]; [by right|].
    exists fuel. intros fuel' L. specialize (F fuel' L). rewrite E in F. unfold dfs in *. rewrite run_mono; [done|]. by rewrite F.
  Qed.
End Guard.
