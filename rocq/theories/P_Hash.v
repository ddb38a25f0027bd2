(** C06, C07: hash collection (src/mr_ic.c:435-699). *)
From Verif Require Import Base Spec FwFacts Hash HashProof Examples.

(** C06: any history of calls, any hash function that respects equality, any
    pattern of allocation failures. The bound keeps the 32-bit size computation
    [(items_count << 2) + 6] from wrapping. *)
Theorem C06_hash_is_first_wins_set : forall cmp hash ops,
  three_way cmp -> (forall x y, cmp x y = 0%Z -> hash x = hash y) ->
  (N.of_nat (length ops) < 2 ^ 29)%N ->
  exists rs m s, run (hash_step cmp hash) hash_new ops = Some (rs, m) /\
    fw_run cmp [] ops rs s /\ hash_elems m ≡ₚ s.
Proof.
  intros cmp hash ops Hc Hh Hb.
  destruct (hash_history_ cmp hash Hc Hh ops Hb) as (rs & m & s & H1 & H2 & H3 & _). by exists rs, m, s.
Qed.
Print Assumptions C06_hash_is_first_wins_set.

(** All keys collide; zero key, wrap-around and re-indexing on deletion included. *)
Example C06_case :
  match run (hash_step hicmp (fun _ => 9%N)) hash_new
    [Add 40 true; Add 41 true; Add 3 true; Find 0; Del 47 true; Add 0 true; Find 5; Del 3 true; Add 0 true; Find 7]%N with
  | Some (rs, m) => rs = [RKey (Some 40); RKey (Some 40); RKey (Some 3); RKey (Some 3); RStatus true;
       RKey (Some 3); RKey (Some 3); RStatus true; RKey (Some 0); RKey (Some 0)]%N /\ hash_elems m = [0%N]
  | None => False
  end.
Proof. vm_compute. split; reflexivity. Qed.

(** C06: bulk indexing followed by any history, provided no other position of the
    input holds a key equal to the zero key. *)
Theorem C06_hash_index_is_first_wins_set : forall cmp hash input al ops,
  three_way cmp -> (forall x y, cmp x y = 0%Z -> hash x = hash y) ->
  (N.of_nat (length input + length ops) < 2 ^ 29)%N ->
  (forall i j x, input !! i = Some 0%N -> input !! j = Some x -> i <> j -> cmp 0%N x <> 0%Z) ->
  exists ok m, hash_index cmp hash hash_new input al = Some (ok, m) /\
    (ok = false -> al = false) /\
    (ok = true -> hash_elems m ≡ₚ fw_index cmp input /\
       hitems m = N.of_nat (length (fw_index cmp input)) /\
       exists rs m' s, run (hash_step cmp hash) m ops = Some (rs, m') /\
         fw_run cmp (fw_index cmp input) ops rs s /\ hash_elems m' ≡ₚ s).
Proof. intros cmp hash input al ops Hc Hh. exact (hash_index_spec_ cmp hash Hc Hh input al ops). Qed.
Print Assumptions C06_hash_index_is_first_wins_set.

Example C06_index_case :
  (forall i j x, [40; 0; 41; 90]%N !! i = Some 0%N -> [40; 0; 41; 90]%N !! j = Some x -> i <> j -> hicmp 0%N x <> 0%Z) /\
  match hash_index hicmp (fun x => x / 16)%N hash_new [40; 0; 41; 90]%N true with
  | Some (true, m) => hitems m = 3%N /\ hash_elems m = [0; 40; 90]%N
  | _ => False
  end.
Proof.
  split; [|vm_compute; split; reflexivity].
  intros i j x Hi Hj Hij.
  destruct i as [|[|[|[|i]]]]; try discriminate Hi.
  do 4 (destruct j as [|j]; [first [lia|injection Hj as <-; done]|]). discriminate Hj.
Qed.

(** C06: without that proviso bulk indexing breaks the set: with a comparator
    under which 0 and 3 are equal, indexing [0; 3] keeps both, and after a
    successful deletion of the key it is still found. *)
Theorem C06_hash_index_zero_key_refuted :
  exists cmp hash input m, three_way cmp /\ (forall x y, cmp x y = 0%Z -> hash x = hash y) /\
    hash_index cmp hash hash_new input true = Some (true, m) /\
    ~ fw_wf cmp (hash_elems m) /\
    exists m', run (hash_step cmp hash) m [Del 3 true; Find 3]%N = Some ([RStatus true; RKey (Some 0%N)], m').
Proof.
  exists hicmp, (fun x => x / 16)%N, [0; 3]%N. eexists.
  split; [exact hicmp_three_way|]. split; [unfold hicmp; intros x y; lia|].
  split; [vm_compute; reflexivity|]. split.
  - intros H. inversion H as [|? ? H1 _]; subst. inversion H1 as [|? ? H2 _]; subst. by apply H2.
  - eexists. vm_compute. reflexivity.
Qed.
Print Assumptions C06_hash_index_zero_key_refuted.

(** C07: with successful allocations [items_count] is the number of visited keys. *)
Theorem C07_hash_counter_exact : forall cmp hash ops,
  three_way cmp -> (forall x y, cmp x y = 0%Z -> hash x = hash y) ->
  (N.of_nat (length ops) < 2 ^ 29)%N -> forallb op_alloc ops = true ->
  exists rs m, run (hash_step cmp hash) hash_new ops = Some (rs, m) /\
    hitems m = N.of_nat (length (hash_elems m)).
Proof.
  intros cmp hash ops Hc Hh Hb Ha.
  destruct (hash_history_ cmp hash Hc Hh ops Hb) as (rs & m & s & H1 & _ & _ & _ & H2). exists rs, m. auto.
Qed.
Print Assumptions C07_hash_counter_exact.

Example C07_case :
  match run (hash_step ncmp (fun x => x)) hash_new
    [Add 0 true; Add 10 true; Add 21 true; Add 32 true; Add 43 true; Add 54 true; Del 21 true; Del 0 true; Add 99 true]%N with
  | Some (_, m) => hitems m = 5%N /\ length (hash_elems m) = 5
  | None => False
  end.
Proof. vm_compute. split; reflexivity. Qed.

(** C07: the counter is an over-approximation whatever allocations do. *)
Theorem C07_hash_counter_upper_bound : forall cmp hash ops,
  three_way cmp -> (forall x y, cmp x y = 0%Z -> hash x = hash y) ->
  (N.of_nat (length ops) < 2 ^ 29)%N ->
  exists rs m, run (hash_step cmp hash) hash_new ops = Some (rs, m) /\
    (N.of_nat (length (hash_elems m)) <= hitems m)%N.
Proof.
  intros cmp hash ops Hc Hh Hb.
  destruct (hash_history_ cmp hash Hc Hh ops Hb) as (rs & m & s & H1 & _ & H2 & H3 & _).
  exists rs, m. split; [exact H1|]. rewrite H2. exact H3.
Qed.
Print Assumptions C07_hash_counter_upper_bound.

(** C07: a failed growth leaves the counter incremented. *)
Theorem C07_hash_counter_oom_refuted :
  exists m, run (hash_step ncmp (fun x => x)) hash_new [Add 5 false]%N = Some ([RKey None], m) /\
    hash_elems m = [] /\ hitems m = 1%N.
Proof. eexists. split; [vm_compute; reflexivity|split; reflexivity]. Qed.
Print Assumptions C07_hash_counter_oom_refuted.

(** C07: bulk indexing of an array with a repeated zero key counts it repeatedly. *)
Theorem C07_hash_counter_index_refuted :
  exists m, hash_index ncmp (fun x => x) hash_new [0; 0; 0]%N true = Some (true, m) /\
    hash_elems m = [0%N] /\ hitems m = 3%N.
Proof. eexists. split; [vm_compute; reflexivity|split; reflexivity]. Qed.
Print Assumptions C07_hash_counter_index_refuted.
