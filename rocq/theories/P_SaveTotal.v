(** Theorem about the end of mr_save (src/mr_save.c:1553-1612). *)
From stdpp Require Import sets.
From Verif Require Import Base Ptrs ChildrenProof DfsProof Save SaveForest SaveSpec SaveInv SaveDone SaveTotalSpec SaveTotal SaveSize SaveEnds P_Save.
Local Open Scope Z_scope.

(** * C72 *)
(** Saving data that can be read and in which pointers lead to finitely many
    addresses comes to an end with a node table, also when the pointers form
    cycles: no loop runs for ever, nothing outside the table is read or written,
    and there is a depth of the recursion that is enough. *)
Theorem C72_save_ends : forall W f data, wf_world W -> wf_root W f -> tame W f data -> data <> 0 ->
  exists depth0, forall depth, (depth0 <= depth)%nat -> exists fuel0, forall fuel, (fuel0 <= fuel)%nat ->
    exists st, mr_save W fuel depth data f = Some (Some st).
Proof.
  intros W f data HW Hf HT Hd. destruct (tm_nest _ _ _ HT) as (rank & Hr). destruct (tm_finite _ _ _ HT) as (P & HP).
  exists (S (S (meas_max W f rank))). intros depth Ld. apply (ends W HW f data Hf HT rank Hr P HP Hd). lia.
Qed.
Print Assumptions C72_save_ends.

(** The example of [P_Save]: a cyclic list. *)
Definition ex_seen (g : fd) (a : Z) : Prop :=
  (g = root_fd (root_of 1 16) /\ a = 500) \/ (g ∈ t_fields ex_top /\ a = 500 + f_off g) \/
  (exists b, (b = 1000 \/ b = 2000) /\ ((g = content ex_world (ptr_f 3 0 16 None) /\ a = b) \/ (g ∈ t_fields ex_node /\ a = b + f_off g))) \/
  f_type g = 10.

Ltac split_in H := repeat (apply elem_of_cons in H as [-> |H]); [..|by apply elem_of_nil in H].

Lemma ex_visits e g a : visits ex_world (root_of 1 16) 500 e g a -> ex_seen g a.
Proof.
  induction 1 as [|e g a k t f _ IH T E Et Hf|e g a cnt i _ IH T U L|e g a h _ IH T C|e g a p _ IH T P Pz N1 N2].
  - by left.
  - destruct IH as [[-> ->]|[[Hg ->]|[(b & Hb & [[-> ->]|[Hg ->]])|T1]]].
    + cbn in E. injection E as <-. cbn in Et. injection Et as <-. right. left. done.
    + cbn in Hg. split_in Hg; done.
    + cbn in E. injection E as <-. cbn in Et. injection Et as <-. right. right. left. exists b. split; [done|]. by right.
    + cbn in Hg. split_in Hg; done.
    + by rewrite T1 in T.
  - destruct IH as [[-> ->]|[[Hg ->]|[(b & Hb & [[-> ->]|[Hg ->]])|T1]]]; try done.
    + cbn in Hg. split_in Hg; done.
    + cbn in Hg. split_in Hg; try done. right. right. right. done.
    + by rewrite T1 in T.
  - destruct IH as [[-> ->]|[[Hg ->]|[(b & Hb & [[-> ->]|[Hg ->]])|T1]]]; try done.
    + cbn in Hg. split_in Hg; done.
    + cbn in Hg. split_in Hg; done.
    + by rewrite T1 in T.
  - destruct IH as [[-> ->]|[[Hg ->]|[(b & Hb & [[-> ->]|[Hg ->]])|T1]]]; try done.
    + cbn in Hg. split_in Hg; try done. vm_compute in P. injection P as <-. right. right. left. exists 1000. split; [by left|]. left. done.
    + cbn in Hg. split_in Hg; try done. right. right. left. destruct Hb as [-> | ->]; vm_compute in P; injection P as <-.
      * exists 2000. split; [by right|]. by left.
      * exists 1000. split; [by left|]. by left.
    + by rewrite T1 in T.
Qed.

Lemma assoc_in l a p : assoc l a = Some p -> p ∈ map snd l.
Proof.
  unfold assoc. intros H. apply fmap_Some in H as (q & H & ->). apply elem_of_list_fmap_1.
  destruct (filter (fun p => fst p = a) l) as [|q' k] eqn:E; [done|]. injection H as ->. assert (q ∈ filter (fun p => fst p = a) l) as Hq by (rewrite E; left).
  by apply elem_of_list_filter in Hq as [_ ?].
Qed.

Lemma ex_tame : tame ex_world (root_of 1 16) 500.
Proof.
  assert (forall k t f, w_tds ex_world !! k = Some t -> f ∈ t_fields t -> plain ex_world f) as Pl.
  { intros [|[|k]] t f E Hf; cbn in E; [| |done]; injection E as <-; cbn in Hf; split_in Hf;
      (split; [intros j Ej; cbn in Ej; try done; injection Ej as <-; vm_compute; eauto|]); (split; [intros Q; by vm_compute in Q|]);
      (split; [intros Q1 Q2; vm_compute in Q1, Q2; done|]); intros Q _; vm_compute in Q |- *; done. }
  constructor.
  - split; [intros j Ej; cbn in Ej; injection Ej as <-; vm_compute; eauto|]. split; [done|]. split; [intros Q; by vm_compute in Q|]. intros Q; by vm_compute in Q.
  - exact Pl.
  - exists (fun _ => 0%nat). intros [|[|k]] t f j E Hf V; cbn in E; [| |done]; injection E as <-; cbn in Hf; split_in Hf; destruct V as [V|V]; vm_compute in V; done.
  - intros [|[|k]] t E; cbn in E; [| |done]; injection E as <-; done.
  - intros e g a V T. apply ex_visits in V. destruct V as [[-> ->]|[[Hg ->]|[(b & Hb & [[-> ->]|[Hg ->]])|T1]]].
    + destruct T as [T|[T|[T|T]]]; vm_compute in T; done.
    + cbn in Hg. split_in Hg; vm_compute; done.
    + destruct T as [T|[T|[T|T]]]; vm_compute in T; done.
    + cbn in Hg. destruct Hb as [-> | ->]; split_in Hg; try (vm_compute; done); destruct T as [T|[T|[T|T]]]; vm_compute in T; done.
    + rewrite T1 in T. destruct T as [T|[T|[T|T]]]; vm_compute in T; done.
  - intros e g a k t r h V T E Et Sr Fh. assert (r = ByOffset 44) as ->.
    { destruct Sr as [Sr|(j & u & f & Eu & Hf & Sr)]; [done|]. destruct j as [|[|j]]; cbn in Eu; [| |done]; injection Eu as <-; cbn in Hf; split_in Hf; cbn in Sr; try done. by injection Sr as <-. }
    apply ex_visits in V. destruct V as [[-> ->]|[[Hg ->]|[(b & Hb & [[-> ->]|[Hg ->]])|T1]]].
    + cbn in E. injection E as <-. cbn in Et. injection Et as <-. vm_compute in Fh. done.
    + cbn in Hg. split_in Hg; done.
    + cbn in E. injection E as <-. cbn in Et. injection Et as <-. vm_compute in Fh. injection Fh as <-. destruct Hb as [-> | ->]; vm_compute; eauto.
    + cbn in Hg. split_in Hg; done.
    + by rewrite T1 in T.
  - eexists. intros e g a p _ _ H. exact (assoc_in _ _ _ H).
Qed.

Example C72_save_ends_example : wf_world ex_world /\ wf_root ex_world (root_of 1 16) /\ tame ex_world (root_of 1 16) 500 /\ 500 <> 0 /\
  exists st, mr_save ex_world 100 10 500 (root_of 1 16) = Some (Some st).
Proof.
  split; [apply ex_wf|]. split; [apply ex_wf|]. split; [apply ex_tame|]. split; [done|]. destruct C59_save_is_a_tree_example as (st & _ & _ & H & _). exists st. exact H.
Qed.
