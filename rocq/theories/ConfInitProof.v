(** Proofs about ConfInit.v. *)
From Verif Require Import Base ConfInit.

Section Proofs.
Context {conf : Type} (body : list (conf -> conf)) (c0 : conf).

Definition apply_all (fs : list (conf -> conf)) (c : conf) : conf := fold_left (fun c f => f c) fs c.

Definition early (p : pc conf) : Prop := match p with Outside | Entered | Claiming => True | _ => False end.
Definition not_body (p : pc conf) : Prop := match p with Body _ => False | _ => True end.

(** Three phases: nobody has claimed, one thread is in the body, finished. *)
Definition phase (s : state conf) : Prop :=
  (initialized s = false ∧ in_progress s = false ∧ registry s = c0 ∧
    returned s = [] ∧ Forall early (threads s)) ∨
  (∃ w before todo, initialized s = false ∧ in_progress s = true ∧
    body = before ++ todo ∧ registry s = apply_all before c0 ∧ returned s = [] ∧
    threads s !! w = Some (Body todo) ∧ (∀ t p, threads s !! t = Some p → t ≠ w → not_body p)) ∨
  (initialized s = true ∧ in_progress s = true ∧ registry s = apply_all body c0 ∧
    Forall not_body (threads s) ∧ Forall (λ r, r.2 = apply_all body c0) (returned s)).

Lemma apply_all_snoc fs f c : apply_all (fs ++ [f]) c = f (apply_all fs c).
Proof. unfold apply_all. by rewrite fold_left_app. Qed.

Lemma start_phase n : phase (start c0 n).
Proof. left. cbn. repeat split. by apply Forall_replicate. Qed.

Lemma step_phase s m : phase s → phase (step body s m).
Proof.
  intros Hp. destruct m as [t call]. cbn [step].
  destruct (threads s !! t) as [p|] eqn:Et; [|done].
  destruct Hp as [(Hi & Hg & Hc & Hr & Hf)|[(w & bf & todo & Hi & Hg & Hb & Hc & Hr & Hw & Ho)|(Hi & Hg & Hc & Hn & Hr)]].
  - assert (He := Forall_lookup_1 _ _ _ _ Hf Et).
    destruct p; try done.
    + destruct call; [|left; done]. left. cbn. rewrite Hi, Hg. repeat split; try done. by apply Forall_insert.
    + rewrite Hi. left. cbn. rewrite Hi, Hg. repeat split; try done. by apply Forall_insert.
    + rewrite Hg. right; left. exists t, [], body. cbn. rewrite Hi, Hc. repeat split; try done.
      * apply list_lookup_insert. by eapply lookup_lt_Some.
      * intros t' p Hp Hne. rewrite list_lookup_insert_ne in Hp by done.
        assert (He' := Forall_lookup_1 _ _ _ _ Hf Hp). by destruct p.
  - destruct (decide (t = w)) as [->|Hne].
    + rewrite Hw in Et. injection Et as <-. destruct todo as [|f todo].
      * right; right. cbn. rewrite Hr. repeat split; try done.
        -- rewrite Hc, Hb. by rewrite app_nil_r.
        -- apply Forall_lookup_2. intros t p Hp. destruct (decide (t = w)) as [->|Hne].
           ++ rewrite list_lookup_insert in Hp by (by eapply lookup_lt_Some). by injection Hp as <-.
           ++ rewrite list_lookup_insert_ne in Hp by done. eauto.
      * right; left. exists w, (bf ++ [f]), todo. cbn. rewrite apply_all_snoc, Hc. repeat split; try done.
        -- by rewrite <- app_assoc.
        -- apply list_lookup_insert. by eapply lookup_lt_Some.
        -- intros t p Hp Hne. rewrite list_lookup_insert_ne in Hp by done. eauto.
    + assert (Hnb := Ho _ _ Et Hne).
      assert (Hgo : ∀ p', not_body p' → phase (goto s t p')).
      { intros p' Hp'. right; left. exists w, bf, todo. cbn. repeat split; try done.
        - by rewrite list_lookup_insert_ne.
        - intros t' p'' Hp Hne'. destruct (decide (t' = t)) as [->|].
          + rewrite list_lookup_insert in Hp by (by eapply lookup_lt_Some). by injection Hp as <-.
          + rewrite list_lookup_insert_ne in Hp by done. eauto. }
      assert (Hs : phase s). { right; left. by exists w, bf, todo. }
      destruct p; try done.
      * destruct call; [by apply Hgo|done].
      * rewrite Hi. by apply Hgo.
      * rewrite Hg. by apply Hgo.
      * by rewrite Hi.
  - assert (Hnb := Forall_lookup_1 _ _ _ _ Hn Et).
    assert (Hs : phase s) by (by right; right).
    assert (Hgo : ∀ p', not_body p' → phase (goto s t p')).
    { intros p' Hp'. right; right. cbn. repeat split; try done. by apply Forall_insert. }
    assert (Hl : phase (leave s t)).
    { right; right. cbn. repeat split; try done. by apply Forall_insert.
      apply Forall_app; split; [done|]. by constructor. }
    destruct p; try done.
    + destruct call; [by apply Hgo|done].
    + by rewrite Hi.
    + rewrite Hg. by apply Hgo.
    + by rewrite Hi.
Qed.

Lemma run_phase s ms : phase s → phase (run body s ms).
Proof. revert s. induction ms as [|m ms IH]; intros s Hs; [done|]. cbn. by apply IH, step_phase. Qed.

Lemma after_phase s sched i : phase s → phase (after body s sched i).
Proof. intros Hs. induction i as [|i IH]; [done|]. cbn. by apply step_phase. Qed.

(** ** Progress *)
Lemma step_other s t' b t : t ≠ t' → threads (step body s (t', b)) !! t = threads s !! t.
Proof.
  intros Hne. cbn [step]. destruct (threads s !! t') as [p|]; [|done].
  assert (∀ p', <[t' := p']> (threads s) !! t = threads s !! t) by (intros; by rewrite list_lookup_insert_ne).
  destruct p as [| | |[|f todo]|]; cbn; repeat case_match; cbn; auto.
Qed.

Lemma step_mono s m :
  (initialized s = true → initialized (step body s m) = true) ∧
  (in_progress s = true → in_progress (step body s m) = true) ∧
  ∃ rs, returned (step body s m) = returned s ++ rs.
Proof.
  destruct m as [t b]. cbn [step].
  assert (H0 : ∃ rs, returned s = returned s ++ rs) by (exists []; by rewrite app_nil_r).
  destruct (threads s !! t) as [p|]; [|done].
  destruct p as [| | |[|f todo]|]; cbn; repeat case_match; cbn; eauto.
Qed.

Context (s0 : state conf) (Hs0 : phase s0) (sched : nat -> nat * bool).
Context (fair : ∀ t i, ∃ j, (i ≤ j)%nat ∧ (sched j).1 = t).
Notation at_ := (after body s0 sched).

Lemma after_mono i j : (i ≤ j)%nat →
  (initialized (at_ i) = true → initialized (at_ j) = true) ∧
  (in_progress (at_ i) = true → in_progress (at_ j) = true) ∧
  ∃ rs, returned (at_ j) = returned (at_ i) ++ rs.
Proof.
  induction 1 as [|j _ (IH1 & IH2 & rs & IH3)].
  - repeat split; try done. exists []. by rewrite app_nil_r.
  - cbn [after]. destruct (step_mono (at_ j) (sched j)) as (M1 & M2 & rs' & M3). repeat split; auto.
    exists (rs ++ rs'). by rewrite M3, IH3, app_assoc.
Qed.

(** The next move of a thread finds it where it was. *)
Lemma next_move t i : ∃ j b, (i ≤ j)%nat ∧ sched j = (t, b) ∧ threads (at_ j) !! t = threads (at_ i) !! t.
Proof.
  destruct (fair t i) as (j & Hij & Hj).
  remember (j - i)%nat as d. revert i Hij Heqd. induction d as [|d IH]; intros i Hij Hd.
  - assert (i = j) as -> by lia. destruct (sched j) as [t' b] eqn:E. cbn in Hj. subst t'. by exists j, b.
  - destruct (sched i) as [t' b] eqn:E. destruct (decide (t' = t)) as [->|Hne]; [by exists i, b|].
    destruct (IH (S i)) as (j' & b' & Hij' & Hj' & Hl); [lia|lia|].
    exists j', b'. repeat split; [lia|done|]. rewrite Hl. cbn [after]. rewrite E. by apply step_other.
Qed.

Lemma eventually_initialized i : in_progress (at_ i) = true → ∃ j, (i ≤ j)%nat ∧ initialized (at_ j) = true.
Proof.
  intros Hg. destruct (after_phase s0 sched i Hs0) as [(_ & Hg' & _)|[(w & bf & todo & _ & _ & _ & _ & _ & Hw & _)|(Hi & _)]];
    [congruence| |by exists i].
  clear Hg. revert i bf Hw. induction todo as [|f todo IH]; intros i bf Hw.
  - destruct (next_move w i) as (j & b & Hij & Hj & Hl). exists (S j). split; [lia|].
    cbn [after]. rewrite Hj. cbn [step]. by rewrite Hl, Hw.
  - destruct (next_move w i) as (j & b & Hij & Hj & Hl).
    destruct (IH (S j) (bf ++ [f])) as (k & Hk & Hik).
    + cbn [after]. rewrite Hj. cbn [step]. rewrite Hl, Hw. cbn. apply list_lookup_insert.
      rewrite Hw in Hl. by eapply lookup_lt_Some.
    + exists k. split; [lia|done].
Qed.

Definition calling (p : pc conf) : Prop := p ≠ Outside.

Lemma eventually_claimed t p i : threads (at_ i) !! t = Some p → calling p →
  ∃ j, (i ≤ j)%nat ∧ in_progress (at_ j) = true.
Proof.
  intros Ht Hc.
  assert (Hcl : ∀ i, threads (at_ i) !! t = Some Claiming → ∃ j, (i ≤ j)%nat ∧ in_progress (at_ j) = true).
  { intros i' Ht'. destruct (next_move t i') as (j & b & Hij & Hj & Hl). exists (S j). split; [lia|].
    cbn [after]. rewrite Hj. cbn [step]. rewrite Hl, Ht'. by destruct (in_progress (at_ j)) eqn:E; cbn. }
  destruct p.
  - done.
  - destruct (next_move t i) as (j & b & Hij & Hj & Hl).
    destruct (after_phase s0 sched j Hs0) as [(Hi & _)|[(? & ? & ? & _ & Hg & _)|(_ & Hg & _)]]; [|by exists j..].
    destruct (Hcl (S j)) as (k & Hk & Hik).
    + cbn [after]. rewrite Hj. cbn [step]. rewrite Hl, Ht, Hi. cbn. apply list_lookup_insert.
      rewrite Ht in Hl. by eapply lookup_lt_Some.
    + exists k. split; [lia|done].
  - auto.
  - exists i. split; [done|]. destruct (after_phase s0 sched i Hs0) as [(_ & _ & _ & _ & Hf)|[(? & ? & ? & _ & Hg & _)|(_ & Hg & _)]]; [|done..].
    by assert (Hx := Forall_lookup_1 _ _ _ _ Hf Ht).
  - exists i. split; [done|]. destruct (after_phase s0 sched i Hs0) as [(_ & _ & _ & _ & Hf)|[(? & ? & ? & _ & Hg & _)|(_ & Hg & _)]]; [|done..].
    by assert (Hx := Forall_lookup_1 _ _ _ _ Hf Ht).
Qed.

(** A return of [t] that was not in the log at step [i]. *)
Definition returns_after (t i j : nat) : Prop :=
  ∃ rs c, returned (at_ j) = returned (at_ i) ++ rs ∧ (t, c) ∈ rs.

Lemma returns_weaken t i i' j : (i ≤ i')%nat → returns_after t i' j → returns_after t i j.
Proof.
  intros Hi (rs & c & Hr & Hin). destruct (after_mono i i' Hi) as (_ & _ & rs' & Hr').
  exists (rs' ++ rs), c. split; [by rewrite Hr, Hr', app_assoc|]. apply elem_of_app; by right.
Qed.

Lemma leaves t b i j p : (i ≤ j)%nat → sched j = (t, b) → initialized (at_ j) = true →
  threads (at_ j) !! t = Some p → p = Entered ∨ p = Waiting → returns_after t i (S j).
Proof.
  intros Hij Hj Hi Ht Hp. eapply returns_weaken; [exact Hij|].
  exists [(t, registry (at_ j))], (registry (at_ j)). split; [|by constructor].
  cbn [after]. rewrite Hj. cbn [step]. rewrite Ht. by destruct Hp as [-> | ->]; rewrite Hi.
Qed.

(** Where a thread is when the flag is seen set, it returns. *)
Lemma returns_initialized t p i : initialized (at_ i) = true → threads (at_ i) !! t = Some p → calling p →
  ∃ j, (i ≤ j)%nat ∧ returns_after t i j.
Proof.
  assert (Hw : ∀ i p, initialized (at_ i) = true → threads (at_ i) !! t = Some p → p = Entered ∨ p = Waiting →
    ∃ j, (i ≤ j)%nat ∧ returns_after t i j).
  { intros i' p' Hi Ht Hp. destruct (next_move t i') as (j & b & Hij & Hj & Hl). exists (S j). split; [lia|].
    eapply leaves; eauto; [|by rewrite Hl]. by apply (after_mono i' j Hij). }
  intros Hi Ht Hc. destruct p.
  - done.
  - eapply Hw; eauto.
  - destruct (next_move t i) as (j & b & Hij & Hj & Hl).
    assert (Hij' : initialized (at_ j) = true) by (by apply (after_mono i j Hij)).
    assert (Hg : in_progress (at_ j) = true).
    { destruct (after_phase s0 sched j Hs0) as [(Hx & _)|[(? & ? & ? & _ & Hg & _)|(_ & Hg & _)]]; congruence. }
    assert (Hn : at_ (S j) = goto (at_ j) t Waiting) by (cbn [after]; rewrite Hj; cbn [step]; by rewrite Hl, Ht, Hg).
    destruct (Hw (S j) Waiting) as (k & Hk & Hr).
    + by rewrite Hn.
    + rewrite Hn. cbn. apply list_lookup_insert. rewrite Ht in Hl. by eapply lookup_lt_Some.
    + by right.
    + exists k. split; [lia|]. eapply returns_weaken; [|exact Hr]. lia.
  - exfalso. destruct (after_phase s0 sched i Hs0) as [(Hx & _)|[(? & ? & ? & Hx & _)|(_ & _ & _ & Hn & _)]]; [congruence..|].
    by assert (Hx := Forall_lookup_1 _ _ _ _ Hn Ht).
  - eapply Hw; eauto.
Qed.

(** A step either leaves the position of a thread inside of the function or logs a return. *)
Lemma still_calling t p i j : (i ≤ j)%nat → threads (at_ i) !! t = Some p → calling p →
  (∃ p', threads (at_ j) !! t = Some p' ∧ calling p') ∨ returns_after t i j.
Proof.
  intros Hij Ht Hc. induction Hij as [|j Hij IH]; [left; eauto|].
  destruct IH as [(p' & Ht' & Hc')|Hr].
  - cbn [after]. destruct (sched j) as [t' b] eqn:E. destruct (decide (t = t')) as [<-|Hne].
    2:{ left. exists p'. by rewrite step_other. }
    assert (Hlt := lookup_lt_Some _ _ _ Ht').
    destruct p' as [| | |[|f todo]|]; [done| | | | |]; cbn [step]; rewrite Ht'.
    + destruct (initialized (at_ j)) eqn:Ei.
      * right. destruct (leaves t b i j Entered) as (rs & c & Hr & Hin); auto.
        exists rs, c. split; [|done]. rewrite <- Hr. cbn [after]. rewrite E. cbn [step]. by rewrite Ht', Ei.
      * left. exists Claiming. split; [by apply list_lookup_insert|done].
    + destruct (in_progress (at_ j)); left; eexists; (split; [by apply list_lookup_insert|done]).
    + left; eexists; (split; [by apply list_lookup_insert|done]).
    + left; eexists; (split; [by apply list_lookup_insert|done]).
    + destruct (initialized (at_ j)) eqn:Ei.
      * right. destruct (leaves t b i j Waiting) as (rs & c & Hr & Hin); auto.
        exists rs, c. split; [|done]. rewrite <- Hr. cbn [after]. rewrite E. cbn [step]. by rewrite Ht', Ei.
      * left. by exists Waiting.
  - right. destruct Hr as (rs & c & Hr & Hin). destruct (step_mono (at_ j) (sched j)) as (_ & _ & rs' & Hr').
    exists (rs ++ rs'), c. cbn [after]. rewrite Hr', Hr. split; [by rewrite app_assoc|]. apply elem_of_app; by left.
Qed.

Lemma every_call_returns t p i : threads (at_ i) !! t = Some p → calling p →
  ∃ j, (i ≤ j)%nat ∧ returns_after t i j.
Proof.
  intros Ht Hc. destruct (eventually_claimed t p i Ht Hc) as (k & Hik & Hg).
  destruct (eventually_initialized k Hg) as (l & Hkl & Hi).
  destruct (still_calling t p i l) as [(p' & Ht' & Hc')|Hr]; [lia|done|done| |].
  - destruct (returns_initialized t p' l Hi Ht' Hc') as (j & Hlj & Hr). exists j. split; [lia|].
    eapply returns_weaken; [|exact Hr]. lia.
  - exists l. split; [lia|done].
Qed.

End Proofs.
