(** Theorems about mr_copy_recursively and mr_free_recursively (src/mr_extra.c). *)
From stdpp Require Import sets.
From Verif Require Import Base Ptrs DfsProof CopyFree CopyFreeSpec CopyMem FreeProof CopyDup CopyTop.
Local Open Scope Z_scope.

(** * An example: a cyclic list node that shares its text with the structure *)
(** struct { node_t * head; char * name; } r; node_t { node_t * next; char * label; }
    with r.head->next == r.head and r.head->label == r.name. *)
Definition ex_mem : mem :=
  [ Some (false, enc (Some (1%nat, 0)) ++ enc (Some (2%nat, 0)));     (* r *)
    Some (true, enc (Some (1%nat, 0)) ++ enc (Some (2%nat, 0)));      (* the node *)
    Some (true, [B 104; B 105; B 0]);                                 (* the text *)
    Some (false, replicate 20 (B 170));                               (* holds the destination *)
    Some (true, [B 1; B 2]) ].                                        (* somebody else's *)
Definition ex_dst : addr := (3%nat, 2).
Definition ex_nodes : list xnode :=
  [ XNode 0 0 0 0 0 0 0 None;
    XNode 22 0 16 1 0 0 2 (Some (0%nat, 0));    (* r *)
    XNode 28 0 16 2 1 3 4 (Some (0%nat, 0));    (* r.head *)
    XNode 1 0 8 6 1 0 0 (Some (0%nat, 8));      (* r.name *)
    XNode 22 0 16 3 2 0 5 (Some (1%nat, 0));    (* *r.head *)
    XNode 28 2 16 4 4 6 4 (Some (1%nat, 0));    (* r.head->next, a reference to node 4 *)
    XNode 1 8 8 5 4 0 3 (Some (1%nat, 8)) ].    (* r.head->label, a reference to the content of node 3 *)
Definition ex_tree : tree := T 1 [T 2 [T 4 [T 5 []; T 6 []]]; T 3 []].

Lemma ex_areas i a s : area_of ex_mem ex_nodes i = Some (a, s) -> (i = 0%nat /\ a = (0%nat, 0) /\ s = 16) \/ (i = 2%nat /\ a = (1%nat, 0) /\ s = 16) \/ (i = 3%nat /\ a = (2%nat, 0) /\ s = 3).
Proof.
  do 7 (destruct i as [|i]; [vm_compute; intros [= <- <-]; tauto || done|]).
  unfold area_of. cbn [Nat.eqb]. rewrite (lookup_ge_None_2 ex_nodes) by (cbn; lia). done.
Qed.
Lemma ex_cells b o q k : cell_at ex_mem (b, o) = Some (F q k) -> 0 <= o < 16 /\ (b <= 1)%nat /\ k = Z.to_nat (o mod 8) /\ q = if o <? 8 then (1%nat, 0) else (2%nat, 0).
Proof.
  intros H. apply cell_at_Some in H as (d & l & Hb & Ho & Hl). cbn [fst snd] in *. replace o with (Z.of_nat (Z.to_nat o)) by lia.
  set (n := Z.to_nat o) in *. clearbody n. clear Ho.
  destruct b as [|[|[|[|[|b]]]]]; cbn in Hb; try done; injection Hb as <- <-.
  - do 16 (destruct n as [|n]; [cbn in Hl; injection Hl as <- <-; split; [lia|split; [lia|done]]|]). done.
  - do 16 (destruct n as [|n]; [cbn in Hl; injection Hl as <- <-; split; [lia|split; [lia|done]]|]). done.
  - do 3 (destruct n as [|n]; [done|]). done.
  - do 20 (destruct n as [|n]; [done|]). done.
  - do 2 (destruct n as [|n]; [done|]). done.
Qed.

Lemma ex_node i n : i ∈ nodes ex_tree -> ex_nodes !! i = Some n -> i = 1%nat \/ i = 2%nat \/ i = 4%nat \/ i = 5%nat \/ i = 6%nat \/ i = 3%nat.
Proof. intros H _. cbn in H. rewrite !elem_of_cons, elem_of_nil in H. tauto. Qed.

Ltac ex_area i := exists i; eexists _, _; split; [vm_compute; reflexivity|].
Ltac ex_in := vm_compute; repeat first [apply elem_of_list_here|apply elem_of_list_further].

Lemma ex_described : described ex_mem ex_nodes ex_tree.
Proof.
  split.
  - done.
  - cbn. repeat (first [split; [eexists; split; [done|]|] | done | split | eexists]); done.
  - apply (bool_decide_unpack (NoDup _)). by vm_compute.
  - by eexists.
  - intros i n E Z. do 7 (destruct i as [|i]; [done || (cbn in E; injection E as <-; split; [intros _; ex_in|done])|]). done.
  - eexists _, _, _. split; [done|]. split; [done|]. split; [done|]. vm_compute. reflexivity.
  - intros i n I E. destruct (ex_node i n I E) as [->|[->|[->|[->|[->| ->]]]]]; cbn in E; injection E as <-; eexists; (split; [reflexivity|]).
    + split; try (intros [?|?]; done); [|done]. ex_area 0%nat. split; [split; cbn; [done|lia]|]. intros [?|?]; done.
    + split; try done.
      * ex_area 0%nat. split; [split; cbn; [done|lia]|]. intros _. split; cbn; [done|lia].
      * intros _ _. split; [|done]. eexists _, _. split; [vm_compute; reflexivity|]. split; [done|]. split; [eexists; vm_compute; reflexivity|]. intros _ _. eexists. done.
    + split; try (intros [?|?]; done); [|done]. ex_area 2%nat. split; [split; cbn; [done|lia]|]. intros [?|?]; done.
    + split; try done; try (intros X; exfalso; apply X; (by left) || (by right)).
      * ex_area 2%nat. split; [split; cbn; [done|lia]|]. intros _. split; cbn; [done|lia].
      * intros _ _. split; [done|]. eexists _, _. split; [ex_in|]. split; [done|]. split; [done|]. vm_compute. reflexivity.
    + split; try done; try (intros X; exfalso; apply X; (by left) || (by right)).
      * ex_area 2%nat. split; [split; cbn; [done|lia]|]. intros _. split; cbn; [done|lia].
      * intros _ _ _. split; [done|]. split; [done|]. eexists _, _, _. split; [ex_in|]. split; [done|]. split; [done|]. split; [done|]. split; [done|]. split; vm_compute; reflexivity.
    + split; try done; try (intros X; exfalso; apply X; (by left) || (by right)).
      * ex_area 0%nat. split; [split; cbn; [done|lia]|]. intros _. split; cbn; [done|lia].
      * intros _ _. split; [|done]. eexists _, _. split; [vm_compute; reflexivity|]. split; [done|]. split; [eexists; vm_compute; reflexivity|]. done.
  - intros i n pn a b I N1 E Ep Ea Eb. destruct (ex_node i n I E) as [->|[->|[->|[->|[->| ->]]]]]; [done|..]; cbn in E; injection E as <-; cbn in Ep; injection Ep as <-;
      cbn in Ea, Eb; injection Ea as <-; injection Eb as <-; cbn.
    + ex_area 0%nat. split; split; cbn; done || lia.
    + eexists _, _. split; [vm_compute; reflexivity|]. split; cbn; done || lia.
    + ex_area 2%nat. split; split; cbn; done || lia.
    + ex_area 2%nat. split; split; cbn; done || lia.
    + ex_area 0%nat. split; split; cbn; done || lia.
  - intros i j a b s u p Ai Aj [Ii _] [Ij _]. apply ex_areas in Ai, Aj. destruct Ai as [(-> & -> & ->)|[(-> & -> & ->)|(-> & -> & ->)]], Aj as [(-> & -> & ->)|[(-> & -> & ->)|(-> & -> & ->)]]; cbn in *; try done; lia.
  - intros [b o] q k I E _. apply ex_cells in E as (Ho & Hb & -> & _). assert (o mod 8 = if o <? 8 then o else o - 8) as M by (destruct (Z.ltb_spec o 8); lia).
    destruct b as [|[|b]]; [| |lia]; destruct (Z.ltb_spec o 8).
    + exists 2%nat. eexists _, _. split; [ex_in|]. split; [done|]. split; [split; [by right|done]|]. split; [done|]. split; [lia|]. unfold padd. cbn. f_equal. lia.
    + exists 3%nat. eexists _, _. split; [ex_in|]. split; [done|]. split; [split; [by left|done]|]. split; [done|]. split; [lia|]. unfold padd. cbn. f_equal. lia.
    + exists 5%nat. eexists _, _. split; [ex_in|]. split; [done|]. split; [split; [by right|done]|]. split; [done|]. split; [lia|]. unfold padd. cbn. f_equal. lia.
    + exists 6%nat. eexists _, _. split; [ex_in|]. split; [done|]. split; [split; [by left|done]|]. split; [done|]. split; [lia|]. unfold padd. cbn. f_equal. lia.
Qed.
Lemma ex_apart : apart ex_mem ex_nodes ex_dst.
Proof.
  split.
  - intros n [= <-]. eexists. vm_compute. reflexivity.
  - intros n p [= <-] [I _] (i & a & s & A & [I' _]). apply ex_areas in A. cbn in *. destruct A as [(-> & -> & ->)|[(-> & -> & ->)|(-> & -> & ->)]]; cbn in *; lia.
Qed.
Lemma ex_plain : plain_root ex_nodes.
Proof. intros n [= <-] [?|?]; done. Qed.
Lemma ex_no_opaque : no_opaque ex_nodes.
Proof. intros i n I E. do 7 (destruct i as [|i]; [cbn in E; injection E as <-; done|]). done. Qed.
Lemma ex_first_kids : first_kids ex_nodes ex_tree.
Proof.
  intros i n I E. destruct i as [|[|[|[|[|[|[|i]]]]]]]; try lia; cbn in E; try done; injection E as <-; try done.
  - intros _ _. split; [done|]. split; [cbn; lia|]. intros c pn _ [= <-]. cbn. intros [= <-]. done.
  - intros _ _. split; [done|]. split; [cbn; lia|]. intros c pn _ [= <-]. cbn. intros [= <-]. done.
Qed.
Lemma ex_self_contained : self_contained ex_mem ex_nodes ex_dst.
Proof.
  intros [b o] q k _ E. apply ex_cells in E as (Ho & Hb & _ & ->). left. destruct (Z.ltb_spec o 8).
  - ex_area 2%nat. split; cbn; [done|lia].
  - ex_area 3%nat. split; cbn; [done|lia].
Qed.
Lemma ex_heap_owned : heap_owned ex_mem ex_nodes.
Proof.
  intros i a s Z A. apply ex_areas in A. destruct A as [(-> & _)|[(-> & -> & ->)|(-> & -> & ->)]]; [done|..].
  - split; [done|]. split; [eexists; reflexivity|]. split; [intros b u A; apply ex_areas in A as [(_ & -> & _)|[(? & _)|(? & _)]]; done|].
    intros o q k E. apply ex_cells in E as (Ho & _). split; cbn; [done|lia].
  - split; [done|]. split; [eexists; reflexivity|]. split; [intros b u A; apply ex_areas in A as [(_ & -> & _)|[(? & _)|(? & _)]]; done|].
    intros o q k E. apply ex_cells in E as (Ho & Hb & _). cbn in Hb. lia.
Qed.
Lemma ex_heap_closed : heap_closed ex_mem ex_nodes.
Proof. intros p q k I E _. left. destruct (ex_self_contained p q k I E) as [?|(_ & _ & X)]; [done|]. destruct p as [b o]. apply ex_cells in E as (_ & _ & _ & ->). destruct (o <? 8); exfalso; apply X; eexists; reflexivity. Qed.

(** * C45: deep copy *)
(** The copy succeeds when all allocations do: every byte of the structure and of
    what it leads to has its counterpart, pointers between them lead to the
    counterparts (so that sharing and cycles are preserved), the areas are in
    new blocks, and nothing else changes. *)
Theorem C45_copy_faithful : forall m ns t dst t1 ok, described m ns t -> apart m ns dst -> plain_root ns -> no_opaque ns -> (forall i, ok i = true) ->
  exists m' rel fuel, copied m m' ns dst rel /\
    forall fuel', (fuel <= fuel')%nat -> copy_recursively fuel' ok t1 m ns dst = Some (true, m').
Proof.
  intros m ns t dst t1 ok D HA HP NO Ok. destruct (copy_gen m ns t D dst HA HP ok t1) as (b & m' & fuel & E & B & T & _); [by right|].
  rewrite (B Ok NO) in *. destruct (T eq_refl) as (_ & rel & C). by exists m', rel, fuel.
Qed.
Example C45_copy_faithful_example : described ex_mem ex_nodes ex_tree /\ apart ex_mem ex_nodes ex_dst /\ plain_root ex_nodes /\ no_opaque ex_nodes /\
  copy_recursively 40 (fun _ => true) None ex_mem ex_nodes ex_dst = Some (true,
    [ Some (false, enc (Some (1%nat, 0)) ++ enc (Some (2%nat, 0)));
      Some (true, enc (Some (1%nat, 0)) ++ enc (Some (2%nat, 0)));
      Some (true, [B 104; B 105; B 0]);
      Some (false, [B 170; B 170] ++ enc (Some (5%nat, 0)) ++ enc (Some (6%nat, 0)) ++ [B 170; B 170]);
      Some (true, [B 1; B 2]);
      Some (true, enc (Some (5%nat, 0)) ++ enc (Some (6%nat, 0)));
      Some (true, [B 104; B 105; B 0]) ]).
Proof. split; [apply ex_described|]. split; [apply ex_apart|]. split; [apply ex_plain|]. split; [apply ex_no_opaque|]. by vm_compute. Qed.
Print Assumptions C45_copy_faithful.

(** Whatever allocations fail, the copy ends; when it does not succeed, all new
    blocks are released and nothing changes but the bytes of the destination. *)
Theorem C45_failure_clean : forall m ns t dst t1 ok, described m ns t -> apart m ns dst -> plain_root ns -> first_kids ns t ->
  exists b m' fuel, (forall fuel', (fuel <= fuel')%nat -> copy_recursively fuel' ok t1 m ns dst = Some (b, m')) /\
    (b = true -> exists rel, copied m m' ns dst rel) /\
    (b = false -> (forall i, (length m <= i < length m')%nat -> m' !! i = Some None) /\
      (forall i, (i < length m)%nat -> i <> fst dst -> m' !! i = m !! i) /\
      (forall p s a, area_of m ns 0 = Some (a, s) -> fst p = fst dst -> ~ inside dst s p -> cell_at m' p = cell_at m p)).
Proof.
  intros m ns t dst t1 ok D HA HP GR. destruct (copy_gen m ns t D dst HA HP ok t1) as (b & m' & fuel & E & _ & T & F); [by left|].
  exists b, m', fuel. split; [done|]. split; [|done]. intros Hb. by destruct (T Hb).
Qed.
(** The text cannot be copied; the node was. *)
Example C45_failure_clean_example : described ex_mem ex_nodes ex_tree /\ apart ex_mem ex_nodes ex_dst /\ plain_root ex_nodes /\ first_kids ex_nodes ex_tree /\
  copy_recursively 40 (fun i => negb (Nat.eqb i 3)) None ex_mem ex_nodes ex_dst = Some (false,
    [ Some (false, enc (Some (1%nat, 0)) ++ enc (Some (2%nat, 0)));
      Some (true, enc (Some (1%nat, 0)) ++ enc (Some (2%nat, 0)));
      Some (true, [B 104; B 105; B 0]);
      Some (false, [B 170; B 170] ++ enc (Some (1%nat, 0)) ++ enc (Some (2%nat, 0)) ++ [B 170; B 170]);
      Some (true, [B 1; B 2]);
      None ]).
Proof. split; [apply ex_described|]. split; [apply ex_apart|]. split; [apply ex_plain|]. split; [apply ex_first_kids|]. by vm_compute. Qed.
Print Assumptions C45_failure_clean.

(** A pointer that was saved as opaque data makes the copy fail. *)
Theorem C45_opaque_refused : forall m ns t dst t1 ok i n, described m ns t -> apart m ns dst -> plain_root ns -> first_kids ns t ->
  (2 <= i)%nat -> ns !! i = Some n -> live n = true -> x_type n = T_POINTER -> x_first n = 0%nat ->
  exists m' fuel, forall fuel', (fuel <= fuel')%nat -> copy_recursively fuel' ok t1 m ns dst = Some (false, m').
Proof.
  intros m ns t dst t1 ok i n D HA HP GR I E L T F. destruct (copy_gen m ns t D dst HA HP ok t1) as (b & m' & fuel & R & _ & Tr & _); [by left|].
  exists m', fuel. destruct b; [|done]. destruct (Tr eq_refl) as [NO _]. by destruct (NO i n I E L T).
Qed.
Definition op_mem : mem := [Some (false, enc (Some (1%nat, 0))); Some (true, [B 7; B 8]); Some (false, replicate 8 (B 0))].
Definition op_nodes : list xnode := [ XNode 0 0 0 0 0 0 0 None; XNode 22 0 8 1 0 0 2 (Some (0%nat, 0)); XNode 28 16 2 2 1 0 0 (Some (0%nat, 0)) ].
Definition op_tree : tree := T 1 [T 2 []].
Lemma op_areas i a s : area_of op_mem op_nodes i = Some (a, s) -> (i = 0%nat /\ a = (0%nat, 0) /\ s = 8) \/ (i = 2%nat /\ a = (1%nat, 0) /\ s = 2).
Proof.
  do 3 (destruct i as [|i]; [vm_compute; intros [= <- <-]; tauto || done|]).
  unfold area_of. cbn [Nat.eqb]. rewrite (lookup_ge_None_2 op_nodes) by (cbn; lia). done.
Qed.
Lemma op_described : described op_mem op_nodes op_tree.
Proof.
  assert (forall i, i ∈ nodes op_tree -> i = 1%nat \/ i = 2%nat) as ND by (intros i H; cbn in H; rewrite !elem_of_cons, elem_of_nil in H; tauto).
  split.
  - done.
  - cbn. repeat (first [split; [eexists; split; [done|]|] | done | split | eexists]); done.
  - apply (bool_decide_unpack (NoDup _)). by vm_compute.
  - by eexists.
  - intros i n E Z. do 3 (destruct i as [|i]; [done || (cbn in E; injection E as <-; split; [intros _; ex_in|done])|]). done.
  - eexists _, _, _. split; [done|]. split; [done|]. split; [done|]. vm_compute. reflexivity.
  - intros i n I E. destruct (ND i I) as [->| ->]; cbn in E; injection E as <-; eexists; (split; [reflexivity|]).
    + split; try (intros [?|?]; done); [|done]. ex_area 0%nat. split; [split; cbn; [done|lia]|]. intros [?|?]; done.
    + split; try done.
      * ex_area 0%nat. split; [split; cbn; [done|lia]|]. intros _. split; cbn; [done|lia].
      * intros _ _. split; [|done]. eexists _, _. split; [vm_compute; reflexivity|]. split; [done|]. split; [eexists; vm_compute; reflexivity|]. done.
  - intros i n pn a b I N1 E Ep Ea Eb. destruct (ND i I) as [->| ->]; [done|]; cbn in E; injection E as <-; cbn in Ep; injection Ep as <-;
      cbn in Ea, Eb; injection Ea as <-; injection Eb as <-; cbn. ex_area 0%nat. split; split; cbn; done || lia.
  - intros i j a b s u p Ai Aj [Ii _] [Ij _]. apply op_areas in Ai, Aj. destruct Ai as [(-> & -> & ->)|(-> & -> & ->)], Aj as [(-> & -> & ->)|(-> & -> & ->)]; cbn in *; try done; lia.
  - intros [b o] q k _ E _. apply cell_at_Some in E as (d & l & Hb & Ho & Hl). cbn [fst snd] in *. exists 2%nat. eexists _, _. split; [ex_in|]. split; [done|]. split; [split; [by right|done]|]. split; [done|].
    replace o with (Z.of_nat (Z.to_nat o)) by lia. set (x := Z.to_nat o) in *. clearbody x. clear Ho. destruct b as [|[|[|b]]]; cbn in Hb; try done; injection Hb as <- <-.
    + do 8 (destruct x as [|x]; [cbn in Hl; injection Hl as <- <-; split; [lia|done]|]). done.
    + do 2 (destruct x as [|x]; [done|]). done.
    + do 8 (destruct x as [|x]; [done|]). done.
Qed.
Example C45_opaque_refused_example : described op_mem op_nodes op_tree /\ apart op_mem op_nodes (2%nat, 0) /\ plain_root op_nodes /\ first_kids op_nodes op_tree /\
  copy_recursively 40 (fun _ => true) None op_mem op_nodes (2%nat, 0) = Some (false, [Some (false, enc (Some (1%nat, 0))); Some (true, [B 7; B 8]); Some (false, enc (Some (1%nat, 0)))]).
Proof.
  split; [apply op_described|]. split; [|split; [|split; [|by vm_compute]]].
  - split; [intros n [= <-]; eexists; vm_compute; reflexivity|]. intros n p [= <-] [I _] (i & a & s & A & [I' _]). apply op_areas in A. cbn in *. destruct A as [(-> & -> & ->)|(-> & -> & ->)]; cbn in *; lia.
  - intros n [= <-] [?|?]; done.
  - intros i n I E. do 3 (destruct i as [|i]; [lia || (cbn in E; injection E as <-; try done)|]). done.
Qed.
Print Assumptions C45_opaque_refused.

(** Nothing is shared: what can be reached from the copy is the destination, new
    blocks, and blocks that are not allocated. *)
Theorem C45_nothing_shared : forall m ns t dst m' rel a s, described m ns t -> apart m ns dst -> self_contained m ns dst -> copied m m' ns dst rel ->
  area_of m ns 0 = Some (a, s) -> forall b, reached m' dst s b -> b = fst dst \/ (length m <= b)%nat \/ ~ dynamic m' b.
Proof. intros m ns t dst m' rel a s D HA SC C A b. by eapply copy_reached. Qed.
Example C45_nothing_shared_example : self_contained ex_mem ex_nodes ex_dst /\ area_of ex_mem ex_nodes 0 = Some ((0%nat, 0), 16) /\
  exists m', copy_recursively 40 (fun _ => true) None ex_mem ex_nodes ex_dst = Some (true, m') /\ reached m' ex_dst 16 5 /\ reached m' ex_dst 16 6 /\ length ex_mem = 5%nat.
Proof.
  split; [apply ex_self_contained|]. split; [done|]. eexists. split; [vm_compute; reflexivity|].
  split; [|split; [|done]].
  - eapply (reached_root _ _ _ (3%nat, 2) (5%nat, 0)); [split; cbn; [done|lia]|]. vm_compute. reflexivity.
  - eapply (reached_step _ _ _ 5 8 (6%nat, 0)); [|done|eexists; reflexivity|vm_compute; reflexivity].
    eapply (reached_root _ _ _ (3%nat, 2) (5%nat, 0)); [split; cbn; [done|lia]|]. vm_compute. reflexivity.
Qed.
Print Assumptions C45_nothing_shared.

(** The table of the copy describes it, and releasing the copy gives back
    exactly the blocks that copying took: the original is as before. *)
Theorem C45_copy_released : forall m ns t dst m' rel, described m ns t -> apart m ns dst -> self_contained m ns dst -> copied m m' ns dst rel ->
  described m' (moved rel ns) t /\
  exists m2, free_recursively m' (moved rel ns) = Some (true, m2) /\
    (forall b, (b < length m)%nat -> b <> fst dst -> m2 !! b = m !! b) /\ (forall b, (length m <= b < length m')%nat -> m2 !! b = Some None).
Proof.
  intros m ns t dst m' rel D HA SC C. split; [by eapply copy_described|]. destruct (copy_freed m m' ns t D dst HA rel C SC) as (m2 & E & H1 & H2).
  exists m2. split; [done|]. split; [|done]. intros b L N. rewrite H1 by done. by apply (cp_blocks _ _ _ _ _ C).
Qed.
Definition ex_rel (p : addr) : addr :=
  match fst p with 0%nat => (3%nat, snd p + 2) | 1%nat => (5%nat, snd p) | 2%nat => (6%nat, snd p) | _ => p end.
Example C45_copy_released_example : exists m', copy_recursively 40 (fun _ => true) None ex_mem ex_nodes ex_dst = Some (true, m') /\
  free_recursively m' (moved ex_rel ex_nodes) = Some (true, take 5 m' ++ [None; None]).
Proof. eexists. split; vm_compute; reflexivity. Qed.
Print Assumptions C45_copy_released.

(** * C46: deep release *)
(** The release succeeds; it is defined, so that no block is released twice and
    no released block is read; and it releases exactly the allocated blocks that
    can be reached from the structure. *)
Theorem C46_free_exact : forall m ns t a s, described m ns t -> heap_owned m ns -> heap_closed m ns -> area_of m ns 0 = Some (a, s) ->
  exists m', free_recursively m ns = Some (true, m') /\ length m' = length m /\
    forall b, (reached m a s b /\ dynamic m b /\ b <> fst a -> m' !! b = Some None) /\
              (~ (reached m a s b /\ dynamic m b /\ b <> fst a) -> m' !! b = m !! b).
Proof.
  intros m ns t a s D HO HC A. pose proof (free_reached m ns t D HO HC) as X. rewrite (area_base m ns t D) in A. injection A as <- <-. exact X.
Qed.
Example C46_free_exact_example : described ex_mem ex_nodes ex_tree /\ heap_owned ex_mem ex_nodes /\ heap_closed ex_mem ex_nodes /\
  area_of ex_mem ex_nodes 0 = Some ((0%nat, 0), 16) /\
  free_recursively ex_mem ex_nodes = Some (true,
    [ Some (false, enc (Some (1%nat, 0)) ++ enc (Some (2%nat, 0))); None; None; Some (false, replicate 20 (B 170)); Some (true, [B 1; B 2]) ]).
Proof. split; [apply ex_described|]. split; [apply ex_heap_owned|]. split; [apply ex_heap_closed|]. split; by vm_compute. Qed.
Print Assumptions C46_free_exact.

(** * Where the copy is wrong *)
(** struct { char * s; void * v; } r with r.v == r.s: the table marks r.v as a
    reference to the content of r.s (src/mr_save.c:1396-1473); the copy of r.v
    does not hold the copied text but the address of the copied member r.s. *)
Definition vc_mem : mem := [Some (false, enc (Some (1%nat, 0)) ++ enc (Some (1%nat, 0))); Some (true, [B 65; B 0]); Some (false, replicate 16 (B 0))].
Definition vc_nodes : list xnode :=
  [ XNode 0 0 0 0 0 0 0 None; XNode 22 0 16 1 0 0 2 (Some (0%nat, 0)); XNode 1 0 8 2 1 3 0 (Some (0%nat, 0)); XNode 28 8 8 3 1 0 2 (Some (0%nat, 8)) ].
Theorem C45_void_content_refuted : exists m', copy_recursively 40 (fun _ => true) None vc_mem vc_nodes (2%nat, 0) = Some (true, m') /\
  ld vc_mem (0%nat, 0) = Some (Some (1%nat, 0)) /\ ld vc_mem (0%nat, 8) = Some (Some (1%nat, 0)) /\
  ld m' (2%nat, 0) = Some (Some (3%nat, 0)) /\ ld m' (2%nat, 8) = Some (Some (2%nat, 0)).
Proof. eexists. split; [vm_compute; reflexivity|]. by vm_compute. Qed.
Print Assumptions C45_void_content_refuted.

(** The copied structure is itself a string: its text is shared with the original. *)
Definition rs_mem : mem := [Some (false, enc (Some (1%nat, 0))); Some (true, [B 65; B 0]); Some (false, replicate 8 (B 0))].
Definition rs_nodes : list xnode := [ XNode 0 0 0 0 0 0 0 None; XNode 1 0 8 1 0 0 0 (Some (0%nat, 0)) ].
Theorem C45_root_string_refuted : exists m', copy_recursively 40 (fun _ => true) None rs_mem rs_nodes (2%nat, 0) = Some (true, m') /\
  ld rs_mem (0%nat, 0) = Some (Some (1%nat, 0)) /\ ld m' (2%nat, 0) = Some (Some (1%nat, 0)).
Proof. eexists. split; [vm_compute; reflexivity|]. by vm_compute. Qed.
Print Assumptions C45_root_string_refuted.

(** The copied structure is itself a pointer: addresses in different blocks are
    subtracted. *)
Definition rp_mem : mem := [Some (false, enc (Some (1%nat, 0))); Some (true, [B 65; B 0; B 0; B 0]); Some (false, replicate 8 (B 0))].
Definition rp_nodes : list xnode := [ XNode 0 0 0 0 0 0 0 None; XNode 28 0 4 1 0 0 2 (Some (0%nat, 0)); XNode 10 0 4 2 1 0 0 (Some (1%nat, 0)) ].
Theorem C45_root_pointer_refuted : forall fuel, copy_recursively fuel (fun _ => true) None rp_mem rp_nodes (2%nat, 0) = None.
Proof. do 2 (destruct fuel as [|fuel]; [by vm_compute|]). destruct fuel; by vm_compute. Qed.
Print Assumptions C45_root_pointer_refuted.

(** struct r { struct r * self; char * s; } r with r.self == &r: when the text
    cannot be allocated, the destination, which belongs to the caller, is released. *)
Definition fd_mem : mem := [Some (false, enc (Some (0%nat, 0)) ++ enc (Some (1%nat, 0))); Some (true, [B 65; B 0]); Some (true, replicate 16 (B 0))].
Definition fd_nodes : list xnode :=
  [ XNode 0 0 0 0 0 0 0 None; XNode 22 0 16 1 0 0 2 (Some (0%nat, 0)); XNode 28 2 16 2 1 3 1 (Some (0%nat, 0)); XNode 1 0 8 3 1 0 0 (Some (0%nat, 8)) ].
Theorem C45_failure_frees_destination_refuted : exists m', copy_recursively 40 (fun i => negb (Nat.eqb i 3)) None fd_mem fd_nodes (2%nat, 0) = Some (false, m') /\
  dynamic fd_mem 2 /\ m' !! 2%nat = Some None.
Proof. eexists. split; [vm_compute; reflexivity|]. split; [eexists; reflexivity|done]. Qed.
Print Assumptions C45_failure_frees_destination_refuted.

(** struct { int * p; int * q; char * s; } r with r.p leading to two integers and
    r.q to the second of them: when the text cannot be allocated, the address of
    the second integer is passed to the release. *)
Definition fi_mem : mem := [Some (false, enc (Some (1%nat, 0)) ++ enc (Some (1%nat, 4)) ++ enc (Some (2%nat, 0)));
  Some (true, replicate 8 (B 1)); Some (true, [B 65; B 0]); Some (false, replicate 24 (B 0))].
Definition fi_nodes : list xnode :=
  [ XNode 0 0 0 0 0 0 0 None; XNode 22 0 24 1 0 0 2 (Some (0%nat, 0)); XNode 28 0 8 2 1 3 5 (Some (0%nat, 0)); XNode 28 2 4 5 1 4 6 (Some (0%nat, 8));
    XNode 1 0 8 6 1 0 0 (Some (0%nat, 16)); XNode 10 0 4 3 2 6 0 (Some (1%nat, 0)); XNode 10 0 4 4 2 0 0 (Some (1%nat, 4)) ].
Theorem C45_failure_interior_refuted : (forall fuel, copy_recursively fuel (fun i => negb (Nat.eqb i 4)) None fi_mem fi_nodes (3%nat, 0) = None) /\
  exists m', copy_recursively 40 (fun _ => true) None fi_mem fi_nodes (3%nat, 0) = Some (true, m') /\ ld m' (3%nat, 8) = Some (Some (4%nat, 4)).
Proof. split; [intros fuel; by vm_compute|]. eexists. split; vm_compute; reflexivity. Qed.
Print Assumptions C45_failure_interior_refuted.
