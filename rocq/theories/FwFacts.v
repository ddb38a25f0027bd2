From Verif Require Import Base Spec.

Section facts.
Context {A : Type} (cmp : A -> A -> Z) (Hc : three_way cmp).

Lemma tw_sym x y : Z.sgn (cmp x y) = (- Z.sgn (cmp y x))%Z.
Proof. apply Hc. Qed.
Lemma tw_refl x : cmp x x = 0%Z.
Proof. pose proof (tw_sym x x). lia. Qed.
Lemma tw_zero x y : cmp x y = 0%Z <-> cmp y x = 0%Z.
Proof. pose proof (tw_sym x y). lia. Qed.
Lemma tw_lt x y : (cmp x y < 0)%Z <-> (0 < cmp y x)%Z.
Proof. pose proof (tw_sym x y). lia. Qed.
Lemma tw_le x y : (cmp x y <= 0)%Z <-> (0 <= cmp y x)%Z.
Proof. pose proof (tw_sym x y). lia. Qed.
Lemma tw_trans x y z : (cmp x y <= 0)%Z -> (cmp y z <= 0)%Z -> (cmp x z <= 0)%Z.
Proof. apply Hc. Qed.
Lemma tw_lt_le x y z : (cmp x y < 0)%Z -> (cmp y z <= 0)%Z -> (cmp x z < 0)%Z.
Proof.
  intros H1 H2. destruct (Z.le_gt_cases 0 (cmp x z)) as [H|H]; [|done].
  apply tw_le in H. pose proof (tw_trans y z x H2 H) as H3. apply tw_le in H3. lia.
Qed.
Lemma tw_le_lt x y z : (cmp x y <= 0)%Z -> (cmp y z < 0)%Z -> (cmp x z < 0)%Z.
Proof.
  intros H1 H2. destruct (Z.le_gt_cases 0 (cmp x z)) as [H|H]; [|done].
  apply tw_le in H. pose proof (tw_trans z x y H H1) as H3. apply tw_le in H3. lia.
Qed.
Lemma tw_lt_trans x y z : (cmp x y < 0)%Z -> (cmp y z < 0)%Z -> (cmp x z < 0)%Z.
Proof. intros H1 H2. eapply tw_lt_le; [done|]. lia. Qed.
Lemma tw_eq_l x y z : cmp x y = 0%Z -> Z.sgn (cmp x z) = Z.sgn (cmp y z).
Proof.
  intros H. assert (H' : cmp y x = 0%Z) by (by apply tw_zero).
  destruct (Z.lt_trichotomy (cmp y z) 0) as [Hl|[He|Hg]].
  - pose proof (tw_le_lt x y z ltac:(lia) Hl). lia.
  - pose proof (tw_trans x y z ltac:(lia) ltac:(lia)).
    assert (Hzy : cmp z y = 0%Z) by (by apply tw_zero).
    pose proof (tw_trans z y x ltac:(lia) ltac:(lia)) as H1. apply tw_le in H1. lia.
  - pose proof (proj2 (tw_lt z y) Hg) as Hg'. pose proof (tw_lt_le z y x Hg' ltac:(lia)) as H1. apply tw_lt in H1. lia.
Qed.
Lemma tw_eq_r x y z : cmp x y = 0%Z -> Z.sgn (cmp z x) = Z.sgn (cmp z y).
Proof.
  intros H. pose proof (tw_eq_l x y z H) as H1.
  pose proof (tw_sym z x). pose proof (tw_sym z y). lia.
Qed.
Lemma tw_eq_trans x y z : cmp x y = 0%Z -> cmp y z = 0%Z -> cmp x z = 0%Z.
Proof. intros H1 H2. pose proof (tw_eq_l x y z H1). lia. Qed.

Lemma tw_total_preorder : total_preorder cmp.
Proof.
  split; [|apply Hc]. intros x y. pose proof (tw_sym x y). lia.
Qed.
End facts.

Section fw.
Context (cmp : N -> N -> Z) (Hc : three_way cmp).

Lemma fw_find_Some s k x :
  fw_find cmp s k = Some x -> x ∈ s /\ cmp k x = 0%Z.
Proof.
  intros H. apply List.find_some in H as [H1 H2].
  split; [by apply elem_of_list_In|lia].
Qed.
Lemma fw_find_None s k :
  fw_find cmp s k = None <-> forall x, x ∈ s -> cmp k x <> 0%Z.
Proof.
  split.
  - intros H x Hx. apply elem_of_list_In in Hx.
    pose proof (List.find_none _ _ H x Hx) as H1. cbn in H1. lia.
  - intros H. induction s as [|y s IH]; [done|]. cbn.
    destruct (Z.eqb_spec (cmp k y) 0) as [E|E].
    + exfalso. apply (H y); [left|done].
    + apply IH. intros x Hx. apply H. by right.
Qed.

Lemma fw_wf_cons x s : fw_wf cmp (x :: s) <-> fw_wf cmp s /\ forall y, y ∈ s -> cmp x y <> 0%Z.
Proof.
  unfold fw_wf. split.
  - intros H. inversion H as [|? ? H1 H2]; subst. split; [done|].
    intros y Hy. rewrite List.Forall_forall in H1. apply H1. by apply elem_of_list_In.
  - intros [H1 H2]. constructor; [|done]. apply List.Forall_forall. intros y Hy.
    apply H2. by apply elem_of_list_In.
Qed.

Lemma fw_wf_perm s s' : s ≡ₚ s' -> fw_wf cmp s -> fw_wf cmp s'.
Proof.
  intros Hp. induction Hp as [|x s s' Hp IH|x y s|s1 s2 s3 _ IH1 _ IH2]; [done| | |by eauto].
  - rewrite !fw_wf_cons. intros [H1 H2]. split; [by apply IH|].
    intros y Hy. apply H2. by rewrite Hp.
  - rewrite !fw_wf_cons. intros [[H1 H2] H3]. split; [split; [done|]|].
    + intros z Hz. apply H3. by right.
    + intros z Hz. apply elem_of_cons in Hz as [->|Hz]; [|by apply H2].
      intros E. apply (H3 x); [left|]. by apply (tw_zero cmp Hc).
Qed.

Lemma fw_find_unique s k x :
  fw_wf cmp s -> x ∈ s -> cmp k x = 0%Z -> fw_find cmp s k = Some x.
Proof.
  induction s as [|y s IH]; intros Hw Hx Hk; [by apply elem_of_nil in Hx|].
  apply fw_wf_cons in Hw as [Hw Hd]. cbn.
  apply elem_of_cons in Hx as [->|Hx].
  - destruct (Z.eqb_spec (cmp k y) 0); [done|lia].
  - destruct (Z.eqb_spec (cmp k y) 0) as [E|E]; [|by apply IH].
    exfalso. apply (Hd x Hx). apply (tw_eq_trans cmp Hc y k x); [by apply (tw_zero cmp Hc)|done].
Qed.

Lemma fw_find_perm s s' k :
  s ≡ₚ s' -> fw_wf cmp s -> fw_find cmp s k = fw_find cmp s' k.
Proof.
  intros Hp Hw. destruct (fw_find cmp s k) as [x|] eqn:E.
  - apply fw_find_Some in E as [E1 E2]. symmetry. apply fw_find_unique; [|by rewrite <- Hp|done].
    by eapply fw_wf_perm.
  - symmetry. apply fw_find_None. intros x Hx. rewrite <- Hp in Hx.
    revert x Hx. by apply fw_find_None.
Qed.

Lemma fw_wf_remove s k : fw_wf cmp s -> fw_wf cmp (fw_remove cmp s k).
Proof.
  induction s as [|y s IH]; intros H; [done|]. apply fw_wf_cons in H as [H1 H2].
  unfold fw_remove. cbn [List.filter]. destruct (negb (cmp k y =? 0)%Z).
  - apply fw_wf_cons. split; [by apply IH|]. intros z Hz. apply H2.
    apply elem_of_list_In in Hz. apply List.filter_In in Hz as [Hz _].
    by apply elem_of_list_In.
  - by apply IH.
Qed.

Lemma fw_remove_perm s s' k : s ≡ₚ s' -> fw_remove cmp s k ≡ₚ fw_remove cmp s' k.
Proof.
  intros Hp. induction Hp as [|x s s' Hp IH|x y s|s1 s2 s3 _ IH1 _ IH2]; [done| | |by etransitivity].
  - unfold fw_remove. cbn [List.filter]. destruct (negb (cmp k x =? 0)%Z); [by constructor|done].
  - unfold fw_remove. cbn [List.filter].
    destruct (negb (cmp k x =? 0)%Z), (negb (cmp k y =? 0)%Z); try done. apply perm_swap.
Qed.

Lemma fw_remove_id s k : fw_find cmp s k = None -> fw_remove cmp s k = s.
Proof.
  rewrite fw_find_None. induction s as [|y s IH]; intros H; [done|].
  unfold fw_remove. cbn [List.filter].
  destruct (Z.eqb_spec (cmp k y) 0) as [E|E]; cbn [negb].
  - exfalso. apply (H y); [left|done].
  - f_equal. apply IH. intros x Hx. apply H. by right.
Qed.

Lemma fw_remove_cons s k x :
  fw_wf cmp (x :: s) -> cmp k x = 0%Z -> fw_remove cmp (x :: s) k = s.
Proof.
  intros Hw Hk. apply fw_wf_cons in Hw as [Hw Hd].
  unfold fw_remove. cbn [List.filter].
  destruct (Z.eqb_spec (cmp k x) 0); [cbn [negb]|done].
  apply fw_remove_id. apply fw_find_None. intros y Hy E.
  apply (Hd y Hy). apply (tw_eq_trans cmp Hc x k y); [by apply (tw_zero cmp Hc)|done].
Qed.

(** Elements of a member list after removal, from a permutation exposing it. *)
Lemma fw_remove_perm_cons s k x t :
  fw_wf cmp s -> s ≡ₚ x :: t -> cmp k x = 0%Z -> fw_remove cmp s k ≡ₚ t.
Proof.
  intros Hw Hp Hk. rewrite (fw_remove_perm _ _ k Hp).
  rewrite fw_remove_cons; [done| |done]. by eapply fw_wf_perm.
Qed.

Lemma fw_step_wf s o r s' : fw_wf cmp s -> fw_step cmp s o r s' -> fw_wf cmp s'.
Proof.
  intros Hw H. destruct H as [k|k al x H|k al H|k H|k al x H|k al H|k x H]; try done.
  - apply fw_wf_cons. split; [done|]. by apply fw_find_None.
  - by apply fw_wf_remove.
Qed.

Lemma fw_run_wf s ops rs s' : fw_wf cmp s -> fw_run cmp s ops rs s' -> fw_wf cmp s'.
Proof.
  intros Hw H. induction H as [|s o r s1 ops rs s2 H1 _ IH]; [done|].
  apply IH. by eapply fw_step_wf.
Qed.

(** Generic simulation argument: a collection with elements [elems] implements
    the set if each call does. *)
Section sim.
Context {S : Type} (step : S -> op -> option (res * S)) (R : S -> list N -> Prop).
Context (Hsim : forall m s o, R m s -> exists r m' s',
  step m o = Some (r, m') /\ fw_step cmp s o r s' /\ R m' s').
Lemma sim_run ops m s : R m s -> exists rs m' s',
  run step m ops = Some (rs, m') /\ fw_run cmp s ops rs s' /\ R m' s'.
Proof.
  revert m s. induction ops as [|o ops IH]; intros m s HR; cbn [run].
  - exists [], m, s. split; [done|]. split; [constructor|done].
  - destruct (Hsim m s o HR) as (r & m1 & s1 & E1 & F1 & R1). rewrite E1. cbn [mbind option_bind].
    destruct (IH m1 s1 R1) as (rs & m2 & s2 & E2 & F2 & R2). rewrite E2. cbn [mbind option_bind].
    exists (r :: rs), m2, s2. split; [done|]. split; [|done]. by econstructor.
Qed.
End sim.

(** With successful allocations the answers are determined by the history. *)
Definition op_alloc (o : op) : bool := match o with Add _ al => al | Del _ al => al | Find _ => true end.

Lemma fw_step_perm s1 s2 o r s1' :
  s1 ≡ₚ s2 -> fw_wf cmp s1 -> fw_step cmp s1 o r s1' ->
  exists s2', fw_step cmp s2 o r s2' /\ s1' ≡ₚ s2'.
Proof.
  intros Hp Hw H.
  destruct H as [k|k al x H|k al H|k H|k al x H|k al H|k x H].
  - exists s2. split; [|done]. rewrite (fw_find_perm s1 s2) by done. constructor.
  - exists s2. rewrite (fw_find_perm s1 s2) in H by done. split; [by econstructor|done].
  - exists (k :: s2). rewrite (fw_find_perm s1 s2) in H by done. split; [by econstructor|by constructor].
  - exists s2. rewrite (fw_find_perm s1 s2) in H by done. split; [by econstructor|done].
  - exists (fw_remove cmp s2 k). rewrite (fw_find_perm s1 s2) in H by done.
    split; [by econstructor|by apply fw_remove_perm].
  - exists s2. rewrite (fw_find_perm s1 s2) in H by done. split; [by econstructor|done].
  - exists s2. rewrite (fw_find_perm s1 s2) in H by done. split; [by econstructor|done].
Qed.

Lemma fw_step_det s o r1 s1 r2 s2 :
  op_alloc o = true -> fw_step cmp s o r1 s1 -> fw_step cmp s o r2 s2 -> r1 = r2 /\ s1 = s2.
Proof.
  intros Ha H1 H2.
  inversion H1; subst; inversion H2; subst; try done; try (by simplify_eq); try congruence.
  all: try (split; congruence).
Qed.

Lemma fw_run_det s1 s2 ops r1 s1' r2 s2' :
  s1 ≡ₚ s2 -> fw_wf cmp s1 -> forallb op_alloc ops = true ->
  fw_run cmp s1 ops r1 s1' -> fw_run cmp s2 ops r2 s2' -> r1 = r2 /\ s1' ≡ₚ s2'.
Proof.
  intros Hp Hw Ha H1. revert s2 r2 s2' Hp Hw Ha.
  induction H1 as [s|s o r t ops rs s' Hs Hr IH]; intros s2 r2 s2' Hp Hw Ha H2.
  - inversion H2; subst. done.
  - inversion H2 as [|? ? r' t' ? rs' ? Hs' Hr']; subst.
    cbn [forallb] in Ha. apply andb_prop in Ha as [Ha1 Ha2].
    destruct (fw_step_perm _ _ _ _ _ Hp Hw Hs) as (t2 & Ht2 & Hpt).
    destruct (fw_step_det _ _ _ _ _ _ Ha1 Ht2 Hs') as [-> ->].
    destruct (IH t' rs' s2') as [-> Hq]; try done.
    by eapply fw_step_wf.
Qed.

(** Facts about sets built from arrays. *)
Definition fw_add1 (s : list N) (k : N) : list N :=
  match fw_find cmp s k with Some _ => s | None => k :: s end.

Lemma fw_index_fold l s0 : fw_wf cmp s0 -> fw_wf cmp (fold_left fw_add1 l s0).
Proof.
  revert s0. induction l as [|k l IH]; intros s0 H; cbn [fold_left]; [done|].
  apply IH. unfold fw_add1. destruct (fw_find cmp s0 k) eqn:E; [done|].
  apply fw_wf_cons. split; [done|]. by apply fw_find_None.
Qed.
Lemma fw_index_wf l : fw_wf cmp (fw_index cmp l).
Proof. apply (fw_index_fold l []). constructor. Qed.

(** Membership: the first of its equals. *)
Lemma fw_index_fold_elem l s0 x :
  x ∈ fold_left fw_add1 l s0 <->
  x ∈ s0 \/ exists i, l !! i = Some x /\ (forall y, y ∈ s0 -> cmp x y <> 0%Z) /\
    (forall j y, j < i -> l !! j = Some y -> cmp x y <> 0%Z).
Proof.
  revert s0. induction l as [|k l IH]; intros s0; cbn [fold_left].
  - split; [by left|]. intros [H|(i & H & _)]; [done|]. by rewrite lookup_nil in H.
  - rewrite IH. unfold fw_add1. destruct (fw_find cmp s0 k) as [z|] eqn:E.
    + apply fw_find_Some in E as [E1 E2]. split.
      * intros [H|(i & H1 & H2 & H3)]; [by left|]. right. exists (S i). split; [done|]. split; [done|].
        intros [|j] y Hj Hy; [|apply (H3 j); [lia|done]]. cbn in Hy. simplify_eq.
        intros E3. apply (H2 z E1). by apply (tw_eq_trans cmp Hc x y z).
      * intros [H|(i & H1 & H2 & H3)]; [by left|]. right.
        destruct i as [|i]; cbn in H1; simplify_eq; [by destruct (H2 z)|].
        exists i. split; [done|]. split; [done|]. intros j y Hj Hy. apply (H3 (S j)); [lia|done].
    + rewrite fw_find_None in E. split.
      * intros [H|(i & H1 & H2 & H3)].
        -- apply elem_of_cons in H as [->|H]; [|by left].
           right. exists 0. split; [done|]. split; [done|]. lia.
        -- right. exists (S i). split; [done|]. split.
           ++ intros y Hy. apply H2. by right.
           ++ intros [|j] y Hj Hy; [|apply (H3 j); [lia|done]]. cbn in Hy. simplify_eq.
              apply H2. left.
      * intros [H|(i & H1 & H2 & H3)]; [left; by right|].
        destruct i as [|i]; cbn in H1; simplify_eq; [left; left|].
        right. exists i. split; [done|]. split.
        -- intros y Hy. apply elem_of_cons in Hy as [->|Hy]; [|by apply H2].
           apply (H3 0); [lia|done].
        -- intros j y Hj Hy. apply (H3 (S j)); [lia|done].
Qed.

Lemma fw_index_elem l x :
  x ∈ fw_index cmp l <->
  exists i, l !! i = Some x /\ forall j y, j < i -> l !! j = Some y -> cmp x y <> 0%Z.
Proof.
  unfold fw_index. change (fun s k => _) with fw_add1. rewrite fw_index_fold_elem. split.
  - intros [H|(i & H1 & _ & H2)]; [by apply elem_of_nil in H|]. eauto.
  - intros (i & H1 & H2). right. exists i. split; [done|]. split; [|done].
    intros y Hy. by apply elem_of_nil in Hy.
Qed.

Lemma fw_wf_NoDup s : fw_wf cmp s -> NoDup s.
Proof.
  induction s as [|x s IH]; intros H; [constructor|]. apply fw_wf_cons in H as [H1 H2].
  constructor; [|by apply IH]. intros Hx. apply (H2 x Hx). apply (tw_refl cmp Hc).
Qed.
End fw.
