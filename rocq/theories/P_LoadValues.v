(** C98: values of loaded nodes are released exactly once. *)
From stdpp Require Import gmap.
From Verif Require Import Base LoadValues.
Local Open Scope Z_scope.

(** Node [i] owns the block [a]: a node after the first one, with a string (2) or a
    complex number (7) that is not null. *)
Definition owns (t : vtable) (i : nat) (a : Z) : Prop :=
  exists n, t_nodes t !! i = Some n /\ (1 <= i)%nat /\ (v_type n = 2 \/ v_type n = 7) /\ v_ptr n = a /\ a <> 0.
(** All blocks are allocated and none has two owners. *)
Definition owned_once (h : gset Z) (t : vtable) : Prop :=
  t_ra t ∈ h /\ (forall i a, owns t i a -> a ∈ h /\ a <> t_ra t) /\ (forall i j a, owns t i a -> owns t j a -> i = j).

(** *** Proof *)
Definition mine (n : vnode) (a : Z) : Prop := (v_type n = 2 \/ v_type n = 7) /\ v_ptr n = a /\ a <> 0.

Lemma free_value_spec h n :
  (forall a, mine n a -> a ∈ h) <-> exists h', free_value h n = Some h'.
Proof.
  unfold free_value, release, mine. destruct (Z.eqb_spec (v_type n) 2) as [E|E]; [|destruct (Z.eqb_spec (v_type n) 7) as [E7|E7]];
    [destruct (Z.eqb_spec (v_ptr n) 0); [|destruct (decide (v_ptr n ∈ h)) as [I|I]]..|].
  - split; [eauto|]. intros _ a (_ & <- & ?). done.
  - split; [eauto|]. intros _ a (_ & <- & _). done.
  - split; [|intros [? [=]]]. intros H. destruct I. apply H. auto.
  - split; [eauto|]. intros _ a (_ & <- & ?). done.
  - split; [eauto|]. intros _ a (_ & <- & _). done.
  - split; [|intros [? [=]]]. intros H. destruct I. apply H. auto.
  - split; [eauto|]. intros _ a ([?|?] & _); done.
Qed.
Lemma free_value_heap h n h' : free_value h n = Some h' -> forall b, b ∈ h' <-> b ∈ h /\ ~ mine n b.
Proof.
  unfold free_value, release, mine. intros E b.
  destruct (Z.eqb_spec (v_type n) 2) as [T|T]; [|destruct (Z.eqb_spec (v_type n) 7) as [T7|T7]];
    [destruct (Z.eqb_spec (v_ptr n) 0); [|destruct (decide (v_ptr n ∈ h)) as [I|I]; [|done]]..|]; injection E as <-;
    rewrite ?elem_of_difference, ?elem_of_singleton.
  - split; [|tauto]. intros B. split; [done|]. intros (_ & <- & ?). done.
  - split; [|intros [B N]; split; [done|intros ->; apply N; auto]]. intros [B N]. split; [done|]. intros (_ & <- & _). done.
  - split; [|tauto]. intros B. split; [done|]. intros (_ & <- & ?). done.
  - split; [|intros [B N]; split; [done|intros ->; apply N; auto]]. intros [B N]. split; [done|]. intros (_ & <- & _). done.
  - split; [|tauto]. intros B. split; [done|]. intros ([?|?] & _); done.
Qed.

Definition list_once (h : gset Z) (ra : Z) (ns : list vnode) : Prop :=
  (forall i n a, ns !! i = Some n -> mine n a -> a ∈ h /\ a <> ra) /\
  (forall i j n m a, ns !! i = Some n -> ns !! j = Some m -> mine n a -> mine m a -> i = j).

Lemma free_values_heap ra ns : forall h h', free_values h ra ns = Some h' ->
  forall b, b ∈ h' <-> b ∈ h /\ forall i n, ns !! i = Some n -> ~ mine n b.
Proof.
  induction ns as [|n ns IH]; intros h h' E b; cbn [free_values] in E.
  - injection E as <-. split; [|tauto]. intros B. split; [done|]. intros i n L. by rewrite lookup_nil in L.
  - destruct (decide _) as [R|]; [|done]. destruct (free_value h n) as [h1|] eqn:E1; [|done]. cbn [mbind option_bind] in E.
    rewrite (IH _ _ E b), (free_value_heap _ _ _ E1 b). split.
    + intros [[B N] H]. split; [done|]. intros [|i] m L; [by injection L as <-|by apply (H i)].
    + intros [B H]. split; [split; [done|by apply (H O)]|]. intros i m L. by apply (H (S i)).
Qed.
Lemma free_values_spec ra ns : forall h, ra ∈ h ->
  (list_once h ra ns <-> exists h', free_values h ra ns = Some h' /\ ra ∈ h').
Proof.
  induction ns as [|n ns IH]; intros h R; cbn [free_values].
  - split; [eauto|]. intros _. split; intros i; intros; rewrite lookup_nil in *; done.
  - destruct (decide (ra ∈ h)) as [_|N]; [|done]. split.
    + intros [A D]. destruct (proj1 (free_value_spec h n)) as [h1 E1].
      { intros a M. by apply (A O n). }
      rewrite E1. cbn [mbind option_bind]. apply IH.
      * apply (free_value_heap _ _ _ E1). split; [done|]. intros M. by destruct (A O n ra eq_refl M).
      * split.
        -- intros i m a L M. destruct (A (S i) m a L M) as [Ah Ar]. split; [|done].
           apply (free_value_heap _ _ _ E1). split; [done|]. intros Mn. discriminate (D O (S i) n m a eq_refl L Mn M).
        -- intros i j m k a Li Lj M K. assert (S i = S j) by by apply (D (S i) (S j) m k a). lia.
    + intros (h' & E & R'). destruct (free_value h n) as [h1|] eqn:E1; [|done]. cbn [mbind option_bind] in E.
      assert (R1 : ra ∈ h1) by by apply (free_values_heap _ _ _ _ E ra) in R' as [R' _].
      destruct (proj2 (IH h1 R1)) as [A D]; [eauto|].
      pose proof (free_value_heap _ _ _ E1) as H1. pose proof (proj2 (free_value_spec h n) ltac:(eauto)) as H0. split.
      * intros [|i] m a L M.
        -- injection L as <-. split; [by apply H0|]. intros ->. by apply H1 in R1 as [_ []].
        -- destruct (A i m a L M) as [B Nr]. apply H1 in B as [B _]. done.
      * intros [|i] [|j] m k a Li Lj M K; [done|..].
        -- injection Li as <-. destruct (A j k a Lj K) as [B _]. by apply H1 in B as [_ []].
        -- injection Lj as <-. destruct (A i m a Li M) as [B _]. by apply H1 in B as [_ []].
        -- f_equal. by apply (D i j m k a).
Qed.

Lemma owns_mine t i a : owns t i a <-> exists j n, i = S j /\ drop 1 (t_nodes t) !! j = Some n /\ mine n a.
Proof.
  unfold owns, mine. split.
  - intros (n & L & I & M). destruct i as [|j]; [lia|]. exists j, n. rewrite lookup_drop. done.
  - intros (j & n & -> & L & M). rewrite lookup_drop in L. exists n. split; [done|]. split; [lia|done].
Qed.
Lemma owned_once_list h t : t_ra t ∈ h -> owned_once h t <-> list_once h (t_ra t) (drop 1 (t_nodes t)).
Proof.
  intros R. unfold owned_once, list_once. split.
  - intros (_ & A & D). split.
    + intros i n a L M. apply (A (S i)), owns_mine. eauto.
    + intros i j n m a Li Lj M K. assert (S i = S j) by (apply (D _ _ a); apply owns_mine; eauto). lia.
  - intros [A D]. split; [done|]. split.
    + intros i a (j & n & -> & L & M)%owns_mine. by apply (A j n).
    + intros i j a (i' & n & -> & Li & M)%owns_mine (j' & m & -> & Lj & K)%owns_mine. f_equal. by apply (D i' j' n m a).
Qed.

(** *** Theorems *)

(** C98: the release is defined exactly if every block has one owner and is
    allocated (so there is no double release and no use after it); it leaves all
    other blocks, none of the released ones, and an empty table. *)
Theorem C98_release : forall h t, t_ra t <> 0 ->
  (owned_once h t <-> exists r, free_load_values h (Some t) = Some r) /\
  forall h' t', free_load_values h (Some t) = Some (h', t') ->
    t' = Some (VTable 0 []) /\
    (forall b, b ∈ h' <-> b ∈ h /\ b <> t_ra t /\ ~ exists i, owns t i b) /\
    free_load_values h' t' = Some (h', t').
Proof.
  intros h t N. unfold free_load_values. replace (t_ra t =? 0) with false by lia. split; [split|].
  - intros O. pose proof (proj1 O) as R. apply (owned_once_list h t R) in O.
    apply (free_values_spec _ _ h R) in O as (h1 & -> & R1). cbn [mbind option_bind]. unfold release.
    destruct (decide _); [|done]. cbn. eauto.
  - intros [r E]. destruct (free_values _ _ _) as [h1|] eqn:E1; [|done]. cbn [mbind option_bind] in E. unfold release in E.
    destruct (decide (t_ra t ∈ h1)) as [R1|]; [|done].
    assert (R : t_ra t ∈ h) by by apply (free_values_heap _ _ _ _ E1) in R1 as [R1 _].
    apply owned_once_list; [done|]. apply free_values_spec; [done|]. eauto.
  - intros h' t' E. destruct (free_values _ _ _) as [h1|] eqn:E1; [|done]. cbn [mbind option_bind] in E. unfold release in E.
    destruct (decide (t_ra t ∈ h1)) as [R1|]; [|done]. cbn [mbind option_bind] in E. injection E as <- <-.
    split; [done|]. split; [|done]. intros b. rewrite elem_of_difference, elem_of_singleton, (free_values_heap _ _ _ _ E1 b). split.
    + intros [[B H] Nb]. split; [done|]. split; [done|]. intros [i O]. apply owns_mine in O as (j & n & -> & L & M).
      by apply (H j n).
    + intros (B & Nb & H). split; [|done]. split; [done|]. intros i n L M. apply H. exists (S i). apply owns_mine. eauto.
Qed.
Print Assumptions C98_release.

(** A table at 100: a string, a null string, a number that looks like an address, a complex number. *)
Definition nodes98 : list vnode := [VNode 0 0; VNode 2 40; VNode 2 0; VNode 5 60; VNode 7 50].
Definition shown (r : option (gset Z * option vtable)) : option (list Z * option vtable) :=
  match r with Some (h, t) => Some (elements h, t) | None => None end.
Example C98_case : owned_once {[40; 50; 60; 100]} (VTable 100 nodes98) /\
  shown (free_load_values {[40; 50; 60; 100]} (Some (VTable 100 nodes98))) = Some ([60], Some (VTable 0 [])) /\
  free_load_values {[40; 50; 60; 100]} (Some (VTable 100 (VNode 0 0 :: VNode 2 40 :: nodes98))) = None.
Proof.
  assert (E : shown (free_load_values {[40; 50; 60; 100]} (Some (VTable 100 nodes98))) = Some ([60], Some (VTable 0 [])))
    by (vm_compute; reflexivity).
  split; [|split; [exact E|vm_compute; reflexivity]].
  apply (C98_release {[40; 50; 60; 100]} (VTable 100 nodes98)); [done|].
  destruct (free_load_values _ _); [eauto|discriminate E].
Qed.
