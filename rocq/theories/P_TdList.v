(** C40, C56: the list of registered types (src/metaresc.c:1721-1731,
    1883-1911, 1943-1957).  [chain nx h l] (TdListProof.v) says that following
    the [next] members from [h] visits exactly [l] and ends with NULL. *)
From Verif Require Import Base TdList TdListProof.

(** C40: sorting ends, and yields the descriptors made by macros, then those
    from DWARF, then those of dumped structures, then those of anonymous unions,
    each group in its previous order; nothing else in memory changes. *)
Theorem C40_sort_td : forall (prod : nat -> nat) nx tdp l fuel,
  chain nx tdp l -> length l <= fuel ->
  exists nx' root, sort_td prod fuel nx tdp = Some (nx', root) /\
    chain nx' root (filter (fun p => prod p = 0) l ++ filter (fun p => prod p = 1) l ++
                    filter (fun p => prod p = 2) l ++ filter (fun p => prod p = 3) l) /\
    (forall p, p ∉ l -> nx' !! p = nx !! p).
Proof.
  intros prod nx tdp l fuel Hc Hf.
  destruct (sort_td_ok prod fuel nx tdp l Hc Hf) as (nx' & root & E & H1 & _ & H2). eauto.
Qed.
Print Assumptions C40_sort_td.

(** No descriptor is lost and none is duplicated, provided that every producer
    is one of the four. *)
Theorem C40_sort_td_permutation : forall (prod : nat -> nat) nx tdp l fuel,
  chain nx tdp l -> length l <= fuel -> (forall p, p ∈ l -> prod p < 4) ->
  exists nx' root l', sort_td prod fuel nx tdp = Some (nx', root) /\
    chain nx' root l' /\ l ≡ₚ l'.
Proof.
  intros prod nx tdp l fuel Hc Hf Hp.
  destruct (sort_td_ok prod fuel nx tdp l Hc Hf) as (nx' & root & E & H1 & _ & _).
  exists nx', root, (by_prod prod l). split; [done|]. split; [done|].
  apply NoDup_Permutation.
  - by eapply chain_NoDup.
  - by eapply chain_NoDup.
  - intros x. unfold by_prod. rewrite !elem_of_app, !elem_of_prod. split; [|naive_solver].
    intros Hx. specialize (Hp x Hx).
    assert (prod x = 0 \/ prod x = 1 \/ prod x = 2 \/ prod x = 3) by lia. naive_solver.
Qed.
Print Assumptions C40_sort_td_permutation.

Definition ex_prod (p : nat) : nat := match p with 0 => 1 | 1 => 0 | 2 => 2 | 3 => 1 | _ => 0 end.
(** List 4, 2, 0, 3, 1 with producers 0, 2, 1, 1, 0. *)
Definition ex_nx : list (option nat) := [Some 3; None; Some 0; Some 1; Some 2].
Example C40_case :
  chain ex_nx (Some 4) [4; 2; 0; 3; 1] /\
  sort_td ex_prod 5 ex_nx (Some 4) = Some ([Some 3; Some 0; None; Some 2; Some 1], Some 4).
Proof. split; [repeat (econstructor; [reflexivity|]); constructor|vm_compute; reflexivity]. Qed.

(** A descriptor with any other producer is dropped from the list without notice
    (src/metaresc.c:1892). *)
Example C40_dropped_case : sort_td (fun p => if Nat.eqb p 0 then 4 else 0) 2 [Some 1; None] (Some 0) = Some ([Some 1; None], Some 1).
Proof. vm_compute. reflexivity. Qed.

(** C40: which of several descriptors with the same name is used.  Distinct
    descriptors [ps] with a detected type, added in this order, are registered
    so that [p] is the descriptor of its name exactly if every other one of that
    name comes from a later producer, or from the same one and was added before
    [p]. *)
Theorem C40_registered : forall (prod : nat -> nat) (none : nat -> bool) (name : nat -> N) n ps fuel,
  NoDup ps -> length ps <= fuel ->
  (forall p, p ∈ ps -> p < n /\ none p = false /\ prod p < 4) ->
  exists st reg,
    add_types none (replicate n None, None) ps = Some st /\
    conf_init_types prod name fuel st = Some reg /\
    forall i p, ps !! i = Some p ->
      (p ∈ reg <->
       forall j q, ps !! j = Some q -> name q = name p ->
         prod p < prod q \/ (prod p = prod q /\ j <= i)).
Proof.
  intros prod none name n ps fuel Hnd Hf Hp.
  destruct (add_types_ok none (replicate n None) None [] ps) as (nx & h & Ea & Hc & _); [constructor| |done|].
  { intros p Hin. destruct (Hp p Hin) as (H1 & H2 & H3). split; [by apply lookup_replicate|].
    split; [done|]. apply not_elem_of_nil. }
  rewrite app_nil_r in Hc.
  destruct (sort_td_ok prod fuel nx h (rev ps) Hc) as (nx' & root & Es & Hs & _ & _); [by rewrite rev_length|].
  exists (nx, h), (reg_spec name [] (by_prod prod (rev ps))). split; [done|]. split.
  { unfold conf_init_types. cbn [fst snd]. rewrite Es. cbn [mbind option_bind].
    apply register_loop_ok; [done|].
    apply chain_NoDup in Hs as Hn.
    transitivity (length (rev ps)); [|by rewrite rev_length].
    apply submseteq_length. apply NoDup_submseteq; [done|].
    intros x Hx. unfold by_prod in Hx. rewrite !elem_of_app, !elem_of_prod in Hx. naive_solver. }
  (* position in the sorted list *)
  set (L := by_prod prod (rev ps)) in *.
  assert (HinL : forall q, q ∈ L <-> q ∈ ps).
  { intros q. unfold L, by_prod. rewrite !elem_of_app, !elem_of_prod, !elem_of_rev. split; [naive_solver|].
    intros Hq. destruct (Hp q Hq) as (_ & _ & H).
    assert (prod q = 0 \/ prod q = 1 \/ prod q = 2 \/ prod q = 3) by lia. naive_solver. }
  assert (HndL : NoDup L) by (by eapply chain_NoDup).
  (* before p means: smaller producer, or the same producer and added later *)
  assert (Hbefore : forall i p, ps !! i = Some p -> forall l1 l2, L = l1 ++ p :: l2 ->
            forall j q, ps !! j = Some q -> (q ∈ l1 <-> prod q < prod p \/ (prod q = prod p /\ i < j))).
  { intros i p Hi.
    assert (Hpp : prod p < 4) by (apply Hp; by eapply elem_of_list_lookup_2).
    assert (Hsplit : exists a b, ps = a ++ p :: b /\ length a = i).
    { apply elem_of_list_split_length in Hi as (a & b & E & El). exists a, b. done. }
    destruct Hsplit as (a & b & Eps & Hai).
    set (low := fun k => of_prod prod k (rev ps)).
    assert (Hmid : of_prod prod (prod p) (rev ps) = of_prod prod (prod p) (rev b) ++ p :: of_prod prod (prod p) (rev a)).
    { rewrite Eps, rev_app_distr. cbn [rev]. unfold of_prod. rewrite <- app_assoc, filter_app. cbn [app].
      rewrite filter_cons, decide_True by done. done. }
    set (pre := concat (map low (seq 0 (prod p))) ++ of_prod prod (prod p) (rev b)).
    assert (HL : exists post, L = pre ++ p :: post).
    { unfold L, by_prod, pre, low.
      destruct (prod p) as [|[|[|[|?]]]] eqn:E; [..|lia]; rewrite Hmid; cbn [seq map concat app];
        eexists; rewrite ?app_nil_r, <- ?app_assoc; cbn [app]; reflexivity. }
    destruct HL as [post HL].
    intros l1 l2 El j q Hj.
    assert (l1 = pre) as ->.
    { rewrite El in HL, HndL. by eapply split_unique. }
    assert (Hqb : q ∈ b <-> i < j).
    { rewrite Eps in Hj, Hnd. apply NoDup_app in Hnd as (_ & Hab & Hb). apply NoDup_cons in Hb as [Hpb Hb].
      split.
      - intros Hq. destruct (decide (j < length a)) as [Hlt|Hge].
        + rewrite lookup_app_l in Hj by done. exfalso. apply (Hab q); [by eapply elem_of_list_lookup_2|by right].
        + rewrite lookup_app_r in Hj by lia. destruct (j - length a) eqn:Ej; [|lia].
          cbn in Hj. injection Hj as <-. done.
      - intros Hlt. rewrite lookup_app_r in Hj by lia.
        destruct (j - length a) as [|k] eqn:Ej; [lia|]. cbn in Hj. by eapply elem_of_list_lookup_2. }
    unfold pre. rewrite elem_of_app, elem_of_prod, elem_of_rev, Hqb.
    assert (Hlow : q ∈ concat (map low (seq 0 (prod p))) <-> prod q < prod p).
    { rewrite elem_of_list_In, in_concat. split.
      - intros (x & Hx & Hq). apply in_map_iff in Hx as (k & <- & Hk). apply in_seq in Hk.
        rewrite <- elem_of_list_In in Hq. apply elem_of_prod in Hq as [-> _]. lia.
      - intros Hlt. exists (low (prod q)). split.
        + apply in_map. apply in_seq. lia.
        + rewrite <- elem_of_list_In. apply elem_of_prod. split; [done|]. rewrite elem_of_rev.
          by eapply elem_of_list_lookup_2. }
    rewrite Hlow. done. }
  intros i p Hi. rewrite reg_spec_in. split.
  - intros [H|(l1 & l2 & El & Hno)]; [by apply elem_of_nil in H|].
    intros j q Hj Hn. cbn [app] in Hno.
    assert (Hq : q ∉ l1) by (intros Hq; by apply (Hno q)).
    rewrite (Hbefore i p Hi l1 l2 El j q Hj) in Hq. lia.
  - intros H. right.
    assert (HpL : p ∈ L) by (apply HinL; by eapply elem_of_list_lookup_2).
    apply elem_of_list_split in HpL as (l1 & l2 & El). exists l1, l2. split; [done|].
    cbn [app]. intros q Hq Hn.
    assert (Hqp : q ∈ ps) by (apply HinL; rewrite El; apply elem_of_app; by left).
    apply elem_of_list_lookup in Hqp as [j Hj].
    apply (Hbefore i p Hi l1 l2 El j q Hj) in Hq. specialize (H j q Hj Hn). lia.
Qed.
Print Assumptions C40_registered.

(** Five descriptors of three types; type 7 has two macro descriptors and one
    from DWARF. *)
Example C40_registered_case :
  let prod p := nth p [1; 0; 0; 1; 2] 0 in
  let name p := nth p [7; 7; 7; 8; 9]%N 0%N in
  NoDup [0; 1; 4; 2; 3] /\ length [0; 1; 4; 2; 3] <= 5 /\
  (forall p, p ∈ [0; 1; 4; 2; 3] -> p < 5 /\ (fun _ => false) p = false /\ prod p < 4) /\
  (st ← add_types (fun _ => false) (replicate 5 None, None) [0; 1; 4; 2; 3]; conf_init_types prod name 5 st)
    = Some [2; 3; 4].
Proof.
  cbv zeta. split; [apply (bool_decide_unpack _); vm_compute; exact I|]. split; [cbn; lia|]. split.
  - intros p Hp. rewrite !elem_of_cons, elem_of_nil in Hp.
    assert (Hc : p = 0 \/ p = 1 \/ p = 4 \/ p = 2 \/ p = 3) by naive_solver.
    destruct Hc as [->|[->|[->|[->| ->]]]]; cbn; lia.
  - vm_compute. reflexivity.
Qed.

(** C56: adding a descriptor that is in the list and is not its last element, or
    whose type was not detected, changes nothing. *)
Theorem C56_add_again : forall (none : nat -> bool) nx h l l' p,
  chain nx h (l ++ l') -> p ∈ l -> l' <> [] -> add_type none (nx, h) (Some p) = Some (nx, h).
Proof.
  intros none nx h l l' p Hc Hp Hne. apply elem_of_list_split in Hp as (l1 & l2 & ->).
  rewrite <- app_assoc in Hc. cbn [app] in Hc. apply chain_suffix in Hc.
  inversion Hc as [|p' q l'' Hq Hc']; subst.
  cbn [add_type]. rewrite (rd_lu _ _ _ Hq). cbn [mbind option_bind].
  destruct q as [q|]; [by rewrite orb_true_r|].
  inversion Hc' as [E|]. destruct l2, l'; done.
Qed.
Print Assumptions C56_add_again.
Example C56_case : chain ex_nx (Some 4) ([4; 2; 0] ++ [3; 1]) /\ 2 ∈ [4; 2; 0] /\
  add_type (fun _ => false) (ex_nx, Some 4) (Some 2) = Some (ex_nx, Some 4).
Proof. split; [exact (proj1 C40_case)|]. split; [right; left|vm_compute; reflexivity]. Qed.

(** C56: the guard (src/metaresc.c:1726) takes a NULL [next] for "not in the
    list", but the last element has it too.  Added again, the first descriptor
    ever added closes a cycle, and the walk over the types never ends. *)
Theorem C56_add_last_again_refuted : forall (prod : nat -> nat) (name : nat -> N), prod 0 < 4 ->
  exists st, add_types (fun _ => false) ([None], None) [0; 0] = Some st /\
    forall fuel, conf_init_types prod name fuel st = None.
Proof.
  intros prod name H. eexists. split; [vm_compute; reflexivity|].
  assert (Hcyc : forall fuel reg, register_loop name fuel [Some 0] reg (Some 0) = None).
  { induction fuel as [|fuel IH]; intros reg; [done|]. cbn [register_loop]. unfold rd. cbn [lookup list_lookup].
    cbn [mbind option_bind]. apply IH. }
  intros fuel. unfold conf_init_types. cbn [fst snd].
  destruct fuel as [|[|fuel]].
  - reflexivity.
  - unfold sort_td. cbn [split_loop]. destruct (prod 0) as [|[|[|[|?]]]] eqn:E; [..|lia]; reflexivity.
  - assert (E : sort_td prod (S (S fuel)) [Some 0] (Some 0) = Some ([Some 0], Some 0)).
    { unfold sort_td. cbn [split_loop].
      unfold rd, wr. destruct (prod 0) as [|[|[|[|?]]]] eqn:E; [..|lia]; cbn; rewrite E; cbn; destruct fuel; reflexivity. }
    rewrite E. cbn [mbind option_bind]. apply Hcyc.
Qed.
Print Assumptions C56_add_last_again_refuted.
