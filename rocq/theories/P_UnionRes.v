(** C71: the search for the discriminator of a union and the cache of its results
    (src/mr_save.c:198-447, 548-589, 775-828). *)
From Verif Require Import Base UnionSel UnionSelSpec UnionRes UnionResSpec UnionResProof.

(** C71: take any sequence of the steps that touch the cache while saving: nodes are
    added, unions are resolved, and nodes saved before are matched and moved below a
    new parent, each node alone.  Every step ends without undefined behaviour.  Each
    member returned for a union is, in the tree at the end, the one that the nearest
    node with the discriminator field gives (no cache is involved in this), and that
    member is unique.  NULL because of too many records is returned only if there are
    256^sizeof different pairs of unions and members. *)
Theorem C71_cached_unions : forall cap bytes ufds known field choose ops,
  (forall x u, f_type (ufds x) = Some u -> u_names u <> []) ->
  (forall u f a, u_names u <> [] -> choose u f a <> None) ->
  (1 <= bytes)%Z -> ops_ok [] ops ->
  exists k st l, (forall fuel, k <= fuel -> run cap bytes ufds known field choose fuel (Ustate [] [] [] []) ops = Some (st, l)) /\
    (forall p x r, (p, x, Member r) ∈ l -> member_of ufds known field choose (s_nodes st) x p r /\
      forall r', member_of ufds known field choose (s_nodes st) x p r' -> r' = r) /\
    NoDup (s_ra st) /\
    (forall p x, (p, x, TooMany) ∈ l -> (256 ^ bytes <= Z.of_nat (length (s_ra st)))%Z).
Proof.
  intros cap bytes ufds known field choose ops Hm Hc Hb Hok.
  destruct (run_ok cap bytes ufds known field choose Hm Hc ops (Ustate [] [] [] []) (inv_start cap ufds known field choose Hm) Hok)
    as (st & l & [k Ev] & I & _ & Hl & _ & Hmany).
  exists k, st, l. split; [done|]. split; [|split; [apply I|]].
  - intros p x r H. destruct (Hl p x r H) as [T _]. split; [done|]. intros r' H'. unfold member_of in *.
    destruct (f_type (ufds x)); [|congruence]. destruct (known _); [|congruence]. by eapply resolves_det.
  - intros p x H. apply Hmany in H. replace (256 ^ bytes)%Z with (256 * 2 ^ (8 * (bytes - 1)))%Z.
    + pose proof (Z.mul_div_le (Z.of_nat (length (s_ra st))) 256). lia.
    + change 256%Z with (2 ^ 8)%Z. rewrite <- Z.pow_add_r, <- Z.pow_mul_r by lia. f_equal. lia.
Qed.
Print Assumptions C71_cached_unions.

(** Type 0 has a discriminator "k" at offset 0; union number 0 has three members and is
    selected by "k"; the value at address 100 selects member 1, at 200 member 2, else 0.
    Every other union, too. *)
Definition ex_union (x : nat) : ufd := Ufd (Some (Udesc [[97%Z]; [98%Z]; [99%Z]] [])) [107%Z].
Definition ex_field (t : nat) (nm : list Z) : option fdesc :=
  if decide (t = 0 /\ nm = [107%Z]) then Some (Fdesc (DtInt Enum.U8) DtNone DtNone 0 0 0 None) else None.
Definition ex_choose (u : udesc) (f : fdesc) (a : Z) : option nat :=
  if (a =? 100)%Z then Some 1 else if (a =? 200)%Z then Some 2 else Some 0.

(** Node 0 of type 0 at 100 holds a pointer 1 to the structure 2 with a union 3; the
    union is member 1.  The structure of type 0 at 300 (node 4) has the same structure for
    a member: the union would be another one there, so the node is not moved.  Below
    node 5, without a discriminator, it is the same, so the node moves there. *)
Definition ex_ops : list uop :=
  [ONode None false (Some 0) 100; ONode (Some 0) true (Some 1) 104; ONode (Some 1) false (Some 1) 500; ONode (Some 2) false (Some 2) 504;
   OUnion 3 0; ONode (Some 0) false (Some 0) 300; OMatch 4 2 []; ONode (Some 0) false (Some 3) 400; OMatch 5 2 []; OUnion 3 0; OUnion 4 0].
Example C71_case :
  (forall x u, f_type (ex_union x) = Some u -> u_names u <> []) /\
  (forall u f a, u_names u <> [] -> ex_choose u f a <> None) /\ ops_ok [] ex_ops /\
  match run 7 1 ex_union (fun _ => true) ex_field ex_choose 20 (Ustate [] [] [] []) ex_ops with
  | Some (st, l) => n_parent <$> s_nodes st = [None; Some 0; Some 5; Some 2; Some 0; Some 0] /\
      l = [(3, 0, Member (Some 1)); (3, 0, Member (Some 1)); (4, 0, Member (Some 0))] /\
      s_ra st = [Urec 0 (Some 1); Urec 0 (Some 0)]
  | None => False
  end.
Proof.
  split; [intros x u [= <-]; done|]. split; [|split].
  - intros u f a _. unfold ex_choose. destruct (a =? 100)%Z; [done|]. by destruct (a =? 200)%Z.
  - cbn. repeat (split; [first [done|lia|intros q [= <-]; lia|intros q [=]]|]). done.
  - vm_compute. done.
Qed.

(** When the node matched has siblings, they are moved with it (src/mr_save.c:622-634), but
    only the records of the node itself are checked (791-792): the union 5 below
    sibling 3 was resolved to member 1 in the context of node 0; after the move the
    discriminator of node 4 is nearer, which says member 2. *)
Theorem C71_moved_siblings_refuted :
  exists cap bytes ufds known field choose ops k st l p x r,
    (forall x u, f_type (ufds x) = Some u -> u_names u <> []) /\
    (forall u f a, u_names u <> [] -> choose u f a <> None) /\ (1 <= bytes)%Z /\
    (forall fuel, k <= fuel -> run cap bytes ufds known field choose fuel (Ustate [] [] [] []) ops = Some (st, l)) /\
    (p, x, Member r) ∈ l /\ ~ member_of ufds known field choose (s_nodes st) x p r.
Proof.
  set (ops := [ONode None false (Some 0) 100; ONode (Some 0) true (Some 1) 104; ONode (Some 1) false (Some 1) 500; ONode (Some 1) false (Some 1) 520;
    ONode (Some 0) false (Some 0) 200; ONode (Some 3) false (Some 2) 524; OUnion 5 0; OMatch 4 2 [3]]).
  destruct (run 7 1 ex_union (fun _ => true) ex_field ex_choose 20 (Ustate [] [] [] []) ops) as [[st l]|] eqn:E; [|vm_compute in E; done].
  assert (M : forall fuel, 20 <= fuel -> run 7 1 ex_union (fun _ => true) ex_field ex_choose fuel (Ustate [] [] [] []) ops = Some (st, l)).
  { intros fuel Hf. rewrite <- E. replace fuel with (20 + (fuel - 20)) by lia. generalize (fuel - 20) as m. intros m. vm_compute. reflexivity. }
  exists 7, 1%Z, ex_union, (fun _ => true), ex_field, ex_choose, ops, 20, st, l, 5, 0, (Some 1).
  split; [intros x u [= <-]; done|]. split.
  { intros u f a _. unfold ex_choose. destruct (a =? 100)%Z; [done|]. by destruct (a =? 200)%Z. }
  split; [done|]. split; [exact M|]. vm_compute in E. injection E as <- <-. split; [left|].
  intros H. cbn in H.
  assert (N : resolves ex_field ex_choose [Unode None false (Some 0) 100; Unode (Some 0) true (Some 1) 104; Unode (Some 4) false (Some 1) 500;
      Unode (Some 4) false (Some 1) 520; Unode (Some 0) false (Some 0) 200; Unode (Some 3) false (Some 2) 524]
      (Udesc [[97%Z]; [98%Z]; [99%Z]] []) [107%Z] (Some 5) (Some 2)).
  { eapply Rs_up; [reflexivity|reflexivity|]. eapply Rs_up; [reflexivity|reflexivity|].
    match goal with |- resolves _ _ ?ns ?u ?m _ _ => exact (Rs_here ex_field ex_choose ns u m 4 (Unode (Some 0) false (Some 0) 200) (Fdesc (DtInt Enum.U8) DtNone DtNone 0 0 0 None) eq_refl eq_refl) end. }
  pose proof (resolves_det _ _ _ _ _ _ _ H _ N). done.
Qed.
Print Assumptions C71_moved_siblings_refuted.

(** With 256 different records and an index type of one byte no union is resolved any more,
    not even one that was resolved for the same node before (src/mr_save.c:381 comes before the
    search); mr_save_union then saves the union without any member and reports
    success (src/mr_save.c:1163-1165). *)
Theorem C71_too_many_refuted :
  exists cap bytes ufds known field choose ops k st l p x r,
    (forall x u, f_type (ufds x) = Some u -> u_names u <> []) /\
    (forall u f a, u_names u <> [] -> choose u f a <> None) /\ bytes = 1%Z /\ ops_ok [] ops /\
    (forall fuel, k <= fuel -> run cap bytes ufds known field choose fuel (Ustate [] [] [] []) ops = Some (st, l)) /\
    (p, x, Member (Some r)) ∈ l /\ (p, x, TooMany) ∈ l.
Proof.
  set (ops := ONode None false (Some 0) 100 :: map (OUnion 0) (seq 0 256) ++ [OUnion 0 0]).
  assert (H1 : forall x u, f_type (ex_union x) = Some u -> u_names u <> []) by (intros x u [= <-]; done).
  assert (H2 : forall u f a, u_names u <> [] -> ex_choose u f a <> None).
  { intros u f a _. unfold ex_choose. destruct (a =? 100)%Z; [done|]. by destruct (a =? 200)%Z. }
  assert (Hok : ops_ok [] ops).
  { unfold ops. cbn [ops_ok]. split; [done|]. generalize (seq 0 256) as xs. induction xs as [|y xs IH]; cbn; [split; [lia|done]|]. split; [lia|done]. }
  destruct (C71_cached_unions 7 1 ex_union (fun _ => true) ex_field ex_choose ops H1 H2) as (k & st & l & Hrun & _); [done|done|].
  exists 7, 1%Z, ex_union, (fun _ => true), ex_field, ex_choose, ops, k, st, l, 0, 0, 1.
  split; [done|]. split; [done|]. split; [done|]. split; [done|]. split; [done|].
  assert (E : exists fuel st', k <= fuel /\ run 7 1 ex_union (fun _ => true) ex_field ex_choose fuel (Ustate [] [] [] []) ops =
    Some (st', map (fun x => (0, x, Member (Some 1))) (seq 0 256) ++ [(0, 0, TooMany)])).
  { exists (5 + k). eexists. split; [lia|]. vm_compute. reflexivity. }
  destruct E as (fuel & st' & Hf & E). rewrite (Hrun fuel Hf) in E. apply (inj Some), (f_equal snd) in E. cbv beta iota delta [snd] in E. rewrite E. split.
  - apply elem_of_app. left. apply elem_of_list_fmap. exists 0. split; [done|]. apply elem_of_seq. lia.
  - apply elem_of_app. right. by apply elem_of_list_singleton.
Qed.
Print Assumptions C71_too_many_refuted.
