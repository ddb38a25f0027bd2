(** C09: the answers do not depend on the kind of the collection. *)
From Verif Require Import Base Spec FwFacts ICArrays ICArraysProof Hash HashProof BTree BTreeInst Interchange Examples.

Lemma kind_run_fw cmp hash junk path0 k ops :
  three_way cmp -> (forall x y, cmp x y = 0%Z -> hash x = hash y) -> length path0 = PATH ->
  (N.of_nat (length ops) < 2 ^ 29)%N ->
  exists rs s, kind_run cmp hash junk path0 k ops = Some rs /\ fw_run cmp [] ops rs s.
Proof.
  intros Hc Hh Hp Hb. destruct k; cbn [kind_run].
  - destruct (unsorted_history cmp junk [] ops Hc) as (rs & m & s & -> & F & _). by exists rs, s.
  - destruct (sorted_history cmp junk ops Hc) as (rs & m & s & -> & F & _). by exists rs, s.
  - destruct (hash_history_ cmp hash Hc Hh ops Hb) as (rs & m & s & -> & F & _). by exists rs, s.
  - destruct (static_history cmp junk ops Hc) as (rs & m & s & -> & F & _). by exists rs, s.
  - destruct (rb_history_ cmp Hc path0 Hp ops) as (rs & m & s & t & E & F & _); [lia|].
    unfold rb_step. rewrite E. by exists rs, s.
  - destruct (avl_history_ cmp Hc path0 Hp ops) as (rs & m & s & t & E & F & _); [lia|].
    unfold avl_step. rewrite E. by exists rs, s.
Qed.

Theorem C09_kinds_interchangeable : forall cmp hash junk1 junk2 path1 path2 k1 k2 ops,
  three_way cmp -> (forall x y, cmp x y = 0%Z -> hash x = hash y) ->
  length path1 = PATH -> length path2 = PATH ->
  (N.of_nat (length ops) < 2 ^ 29)%N -> forallb op_alloc ops = true ->
  exists rs, kind_run cmp hash junk1 path1 k1 ops = Some rs /\ kind_run cmp hash junk2 path2 k2 ops = Some rs.
Proof.
  intros cmp hash j1 j2 p1 p2 k1 k2 ops Hc Hh Hp1 Hp2 Hb Ha.
  destruct (kind_run_fw cmp hash j1 p1 k1 ops Hc Hh Hp1 Hb) as (r1 & s1 & E1 & F1).
  destruct (kind_run_fw cmp hash j2 p2 k2 ops Hc Hh Hp2 Hb) as (r2 & s2 & E2 & F2).
  destruct (fw_run_det cmp Hc [] [] ops r1 s1 r2 s2) as [-> _]; try done; [constructor|].
  exists r2. split; assumption.
Qed.
Print Assumptions C09_kinds_interchangeable.

Example C09_case :
  let ops := [Add 40 true; Add 41 true; Add 3 true; Find 0; Del 47 true; Add 0 true; Find 5; Del 3 true; Add 70 true; Find 7]%N in
  map (fun k => kind_run hicmp (fun x => x / 16)%N 9%N (repeat (3, true) PATH) k ops)
    [KUnsorted; KSorted; KHash; KStatic; KRBTree; KAVLTree] =
  repeat (Some [RKey (Some 40); RKey (Some 40); RKey (Some 3); RKey (Some 3); RStatus true;
       RKey (Some 3); RKey (Some 3); RStatus true; RKey (Some 70); RKey None]%N) 6.
Proof. vm_compute. reflexivity. Qed.
