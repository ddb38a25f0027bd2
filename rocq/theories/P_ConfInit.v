(** C41: one-time initialisation under concurrency (ConfInit.v). *)
From Verif Require Import Base ConfInit ConfInitProof.

(** Whatever the initialisation does, whatever the number of threads and whatever
    the interleaving of their steps: the steps of the initialisation are carried
    out at most once, in order, and by nobody else meanwhile (the registry is the
    initial one with a prefix of the steps applied to it); every call that has
    returned has returned to a registry with all the steps applied exactly once;
    and from the first return on the registry does not change any more. *)
Theorem C41_initialised_once (conf : Type) (body : list (conf → conf)) (c0 : conf) (n : nat) (moves : list (nat * bool)) :
  let s := run body (start c0 n) moves in
  let complete := fold_left (λ c f, f c) body c0 in
  (∃ k, registry s = fold_left (λ c f, f c) (take k body) c0) ∧
  (∀ t c, (t, c) ∈ returned s → c = complete) ∧
  (returned s ≠ [] → registry s = complete) ∧
  (initialized s = true → registry s = complete).
Proof.
  cbv zeta. destruct (run_phase body c0 _ moves (start_phase body c0 n))
    as [(Hi & _ & Hc & Hr & _)|[(w & bf & todo & Hi & _ & Hb & Hc & Hr & _)|(_ & _ & Hc & _ & Hr)]];
    set (s := run body (start c0 n) moves) in *.
  - rewrite Hr, Hi. repeat split; try done; [by exists 0%nat|by intros t c ?%not_elem_of_nil].
  - rewrite Hr, Hi. repeat split; try done; [|by intros t c ?%not_elem_of_nil].
    exists (length bf). rewrite Hc, Hb. by rewrite take_app.
  - repeat split; try done.
    + exists (length body). by rewrite firstn_all.
    + intros t c Hin. by apply (proj1 (Forall_forall _ _) Hr _ Hin).
Qed.
Print Assumptions C41_initialised_once.

(** Never two threads in the body: while one is, no other is. *)
Theorem C41_one_initialiser (conf : Type) (body : list (conf → conf)) (c0 : conf) (n : nat) (moves : list (nat * bool)) t t' fs fs' :
  let s := run body (start c0 n) moves in
  threads s !! t = Some (Body fs) → threads s !! t' = Some (Body fs') → t = t'.
Proof.
  cbv zeta. intros H1 H2. destruct (run_phase body c0 _ moves (start_phase body c0 n))
    as [(_ & _ & _ & _ & Hf)|[(w & bf & todo & _ & _ & _ & _ & _ & _ & Ho)|(_ & _ & _ & Hf & _)]].
  - destruct (Forall_lookup_1 _ _ _ _ Hf H1).
  - destruct (decide (t = w)) as [->|N1]; [|destruct (Ho _ _ H1 N1)].
    destruct (decide (t' = w)) as [->|N2]; [done|destruct (Ho _ _ H2 N2)].
  - destruct (Forall_lookup_1 _ _ _ _ Hf H1).
Qed.
Print Assumptions C41_one_initialiser.

(** No call is lost: under every schedule that goes on giving steps to each
    thread, a thread that is inside of the function returns. *)
Theorem C41_every_call_returns (conf : Type) (body : list (conf → conf)) (c0 : conf) (n : nat) (sched : nat → nat * bool) :
  (∀ t i, ∃ j, (i ≤ j)%nat ∧ (sched j).1 = t) →
  ∀ i t p, threads (after body (start c0 n) sched i) !! t = Some p → p ≠ Outside →
  ∃ j new c, (i ≤ j)%nat ∧ (t, c) ∈ new ∧
    returned (after body (start c0 n) sched j) = returned (after body (start c0 n) sched i) ++ new.
Proof.
  intros Hfair i t p Ht Hp.
  destruct (every_call_returns body c0 _ (start_phase body c0 n) sched Hfair t p i Ht Hp) as (j & Hij & new & c & Hr & Hin).
  by exists j, new, c.
Qed.
Print Assumptions C41_every_call_returns.

(** Three threads; the registry counts and the body has two steps.  Thread 1 claims
    the initialisation between two steps of thread 0; threads 0 and 2 wait; a
    later call returns at once. *)
Example C41_case :
  let body := [Z.add 1; Z.mul 10]%Z in
  let s k := run body (start 4%Z 3) (take k
    [(0, true); (1, true); (0, true); (1, true); (1, true); (0, true); (2, true); (2, true);
     (1, true); (2, true); (0, true); (1, true); (2, true); (1, true); (0, true); (1, true);
     (2, true); (0, true); (0, true)]%nat) in
  registry (s 11%nat) = 5%Z ∧ returned (s 11%nat) = [] ∧
  threads (s 11%nat) = [Waiting; Body [Z.mul 10%Z]; Waiting] ∧
  registry (s 19%nat) = 50%Z ∧ returned (s 19%nat) = [(0, 50%Z); (1, 50%Z); (2, 50%Z); (0, 50%Z)]%nat.
Proof. repeat split. Qed.

(** A schedule as C41_every_call_returns asks for: 0, then 0 1, then 0 1 2, ... *)
Fixpoint triangle (k i : nat) : nat * nat :=
  match i with O => (k, 0) | S i => let '(a, b) := triangle k i in if Nat.eqb b a then (S a, 0) else (a, S b) end%nat.
Example C41_fair_case : ∀ t i, ∃ j, (i ≤ j)%nat ∧ ((λ i, ((triangle 0 i).2, true)) j).1 = t.
Proof.
  assert (Hup : ∀ d j a b, triangle 0 j = (a, b) → (b + d ≤ a)%nat → triangle 0 (d + j) = (a, b + d)%nat).
  { induction d as [|d IH]; intros j a b Hj Hle; [cbn; by rewrite Nat.add_0_r|].
    cbn [triangle plus]. rewrite (IH j a b) by (done || lia).
    destruct (Nat.eqb_spec (b + d) a); [lia|]. f_equal. lia. }
  assert (Hrow : ∀ a, ∃ j, (a ≤ j)%nat ∧ triangle 0 j = (a, 0%nat)).
  { induction a as [|a (j & Hj & IH)]; [by exists 0%nat|]. exists (S (a + j)). split; [lia|].
    cbn [triangle]. rewrite (Hup a j a 0%nat IH) by lia. cbn. by rewrite Nat.eqb_refl. }
  intros t i. destruct (Hrow (t + i)%nat) as (j & Hj & E). exists (t + j)%nat. split; [lia|].
  cbn. by rewrite (Hup t j _ _ E) by lia.
Qed.
