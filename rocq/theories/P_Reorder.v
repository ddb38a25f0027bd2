(** C84: the strings that share a text (mr_reorder_strings, src/mr_save.c:1272-1317). *)
From stdpp Require Import list sets.
From Verif Require Import Base Ptrs DfsProof DfsSkel PruneProof Reorder ReorderProof.

(** *** The statements' own vocabulary *)
Section Vocabulary.
  Context (ty : list rtype) (t : tree).
  Definition string_in (i : nat) : Prop := i ∈ nodes t /\ ty !! i = Some RString.

  (** Node [i] gets its text from string [h]: it is [h], or a content reference to it. *)
  Definition reads (ns : list node) (c : list bool) (i h : nat) : Prop :=
    (c !! i = Some false /\ h = i) \/ (c !! i = Some true /\ exists n, ns !! i = Some n /\ first_child n = h).

  (** A table as mr_save leaves it: a numbered tree; strings have no children; content references of
      strings and pointers lead to strings of the tree that are no references. *)
  Record saved (ns : list node) (c : list bool) : Prop := {
    s_tree : tree_at ns 0 0 t; s_nodup : NoDup (nodes t); s_num : numbered ns t;
    s_len : length c = length ns /\ length ty = length ns /\ ty !! 0 <> Some RPointer;
    s_leaf : forall i n, string_in i -> ns !! i = Some n -> is_ref n = false -> first_child n = 0;
    s_ref : forall i n, string_in i \/ ty !! i = Some RPointer -> ns !! i = Some n -> c !! i = Some true -> is_ref n = true /\
      string_in (first_child n) /\ c !! first_child n = Some false /\ exists m, ns !! first_child n = Some m /\ is_ref m = false }.

  (** Whatever a reference leads to is marked as referenced. *)
  Definition marked (ns : list node) : Prop := forall i n m, ns !! i = Some n -> is_ref n = true -> ns !! first_child n = Some m -> referenced m = true.
End Vocabulary.

Lemma tree_in ns u : forall pa nx i, tree_at ns pa nx u -> i ∈ nodes u -> i < length ns.
Proof.
  induction u as [j us IH] using tree_ind'. intros pa nx i A Hi. rewrite tree_at_eq in A. destruct A as (n & En & _ & _ & _ & K).
  cbn [nodes] in Hi. apply elem_of_cons in Hi as [->|Hi]; [by eapply lookup_lt_Some|].
  destruct (expandable n); [|subst us; by apply elem_of_nil in Hi].
  destruct K as (_ & _ & K). induction IH as [|k us Hk _ IHk]; cbn in Hi; [by apply elem_of_nil in Hi|]. cbn in K. destruct K as [K1 K2].
  apply elem_of_app in Hi as [Hi|Hi]; [by eapply Hk|by apply IHk].
Qed.

Lemma string_strings ty t i : string_in ty t i <-> i ∈ strings ty t.
Proof. unfold string_in, strings. rewrite elem_of_list_filter. tauto. Qed.

Section Proof.
  Context (ty : list rtype) (t : tree) (ns : list node) (c : list bool).
  Hypothesis S : saved ty t ns c.
  Notation strings := (strings ty t).
  Notation holder := (holder ns c).
  Notation first := (first_of ns c strings).

  Lemma node_in i : i ∈ nodes t -> i < length ns.
  Proof. intros Hi. by eapply tree_in; [apply (s_tree _ _ _ _ S)|]. Qed.
  Lemma saved_ready : ready ty ns c t.
  Proof.
    destruct (s_len _ _ _ _ S) as (L1 & L2 & L3). split; [done|done|apply node_in|apply (s_nodup _ _ _ _ S)|apply (s_num _ _ _ _ S)| |].
    - intros i n Hi. by apply (s_leaf _ _ _ _ S), string_strings.
    - intros i n Hi En Ef. rewrite <- string_strings. eapply (s_ref _ _ _ _ S); [left; by apply string_strings|done|done].
  Qed.
  Lemma pointers_ready : forall i n, ty !! i = Some RPointer -> ns !! i = Some n -> c !! i = Some true ->
    is_ref n = true /\ first_child n ∈ strings /\ c !! first_child n = Some false.
  Proof. intros i n Ht En Ef. destruct (s_ref _ _ _ _ S i n (or_intror Ht) En Ef) as (H1 & H2 & H3 & _). by rewrite <- string_strings. Qed.

  Lemma reads_holder i h : reads ns c i h -> holder i = h.
  Proof.
    unfold holder. intros [[-> ->]|(-> & n & -> & ->)]; [|done]. by destruct (ns !! i).
  Qed.
  Lemma holder_reads i : i ∈ strings -> reads ns c i (holder i).
  Proof.
    intros Hi. destruct (string_data ty ns c t saved_ready i Hi) as (n & f & En & Ef & _). unfold reads, holder. rewrite En, Ef. destruct f; [right|left]; eauto.
  Qed.
  Lemma first_ok h : h ∈ strings -> holder h = h -> first h ∈ strings /\ holder (first h) = h.
  Proof. intros Hh E. apply first_some. by eapply first_mem. Qed.
  Lemma first_least h j : j ∈ strings -> holder j = h -> pub ns (first h) <= pub ns j.
  Proof.
    intros Hj E. unfold first_of. assert (j ∈ filter (fun i => holder i = h) strings) as Hf by (by apply elem_of_list_filter).
    pose proof (sorted_filter (fun i => holder i = h) _ _ (sorted_strings ty ns c t saved_ready)) as So.
    destruct (filter _ _) as [|w l]; [by apply elem_of_nil in Hf|]. cbn. apply elem_of_cons in Hf as [->|Hf]; [done|].
    inversion So as [|? ? _ F]; subst. rewrite Forall_forall in F. specialize (F j Hf). lia.
  Qed.
End Proof.

(** C84: after mr_reorder_strings the tree is the same; every string reads the text it read, from the
    first string of the traversal with this text, which is no content reference; content references of pointers lead
    there too; and nothing else changes. *)
Theorem C84_reorder : forall ty t ks ns c, t = T 1 ks -> saved ty t ns c ->
  exists ns' c' fuel, (forall fuel', fuel <= fuel' -> reorder_strings ty fuel' ns c = Some (ns', c')) /\
    tree_at ns' 0 0 t /\ numbered ns' t /\ length ns' = length ns /\
    (forall i h, string_in ty t i \/ ty !! i = Some RPointer /\ c !! i = Some true -> reads ns c i h ->
       exists w, reads ns' c' i w /\ string_in ty t w /\ reads ns c w h /\ c' !! w = Some false /\
         (forall j, string_in ty t j -> reads ns c j h -> exists m n, ns !! j = Some m /\ ns !! w = Some n /\ pub_idx n <= pub_idx m) /\
         (i <> w -> exists m, ns' !! w = Some m /\ is_ref m = false /\ first_child m = 0)) /\
    (forall i, ~ string_in ty t i -> ~ (ty !! i = Some RPointer /\ c !! i = Some true) -> ns' !! i = ns !! i /\ c' !! i = c !! i) /\
    (forall i n, ns !! i = Some n -> exists n', ns' !! i = Some n' /\ parent n' = parent n /\ next n' = next n /\ pub_idx n' = pub_idx n /\
       structured n' = structured n /\ rm_type n' = rm_type n /\
       (~ string_in ty t i -> is_ref n' = is_ref n /\ referenced n' = referenced n /\ c' !! i = c !! i) /\
       (string_in ty t i -> c' !! i = Some true -> is_ref n' = true) /\
       (string_in ty t i -> c' !! i = Some false -> is_ref n' = (if decide (c !! i = Some true) then false else is_ref n))).
Proof.
  intros ty t ks ns c Et S. pose proof (saved_ready ty t ns c S) as R. destruct (s_len _ _ _ _ S) as (L1 & L2 & L3).
  destruct (reorder_ok ty ns c t R L3 (pointers_ready ty t ns c S) ks Et (s_tree _ _ _ _ S)) as (ns' & c' & fuel & V & Sk & Ln & Lc & X).
  assert (Lk : forall i n, ns !! i = Some n -> exists f, c !! i = Some f).
  { intros i n En. apply lookup_lt_is_Some_2. apply lookup_lt_Some in En. lia. }
  assert (Keep : forall i n, ns !! i = Some n -> exists n', ns' !! i = Some n' /\ parent n' = parent n /\ next n' = next n /\ pub_idx n' = pub_idx n /\
       structured n' = structured n /\ rm_type n' = rm_type n /\
       (~ string_in ty t i -> is_ref n' = is_ref n /\ referenced n' = referenced n /\ c' !! i = c !! i) /\
       (string_in ty t i -> c' !! i = Some true -> is_ref n' = true) /\
       (string_in ty t i -> c' !! i = Some false -> is_ref n' = (if decide (c !! i = Some true) then false else is_ref n))).
  { intros i n En. destruct (Lk i n En) as [f Ef]. destruct (X i n f En Ef) as [X1 X2]. rewrite X1, X2. eexists. split; [done|].
    unfold expected_pointer, expected. rewrite !string_strings. destruct (decide (ty !! i = Some RPointer /\ f = true)) as [[Ht ->]|_].
    - destruct (pointers_ready ty t ns c S i n Ht En Ef) as (Hr & _). assert (i ∉ strings ty t) by (intros [? _]%elem_of_list_filter; congruence). rewrite decide_False by done.
      cbn. do 5 (split; [done|]). done.
    - destruct (decide (i ∈ strings ty t)) as [Hi|Hi].
      + destruct (string_data ty ns c t R i Hi) as (n' & f' & En' & Ef' & Ht & Ho & Hoo & Hne & Hf).
        assert (n' = n) as -> by congruence. assert (f' = f) as -> by congruence.
        destruct (decide (i = first_of _ _ _ _)) as [Ew|Ew].
        * destruct (decide (i = holder ns c i)) as [Eo|No]; cbn; do 6 (split; [done|]).
          -- assert (f = false) as -> by (by apply Hf). split; [done|]. intros _ _. by rewrite decide_False by congruence.
          -- split; [done|]. intros _ _. destruct (Hne ltac:(congruence)) as (-> & _). by rewrite decide_True.
        * destruct (decide (i = holder ns c i)) as [Eo|No]; cbn; [do 5 (split; [done|]); done|].
          destruct (Hne ltac:(congruence)) as (-> & Hr & _). cbn; do 6 (split; [done|]); done.
      + cbn. do 5 (split; [done|]). done. }
  exists ns', c', fuel. split; [done|]. split; [by eapply tree_at_skel; [|apply (s_tree _ _ _ _ S)]|]. split.
  { intros k i n' Hk En'. destruct (lookup_lt_is_Some_2 ns i) as [n En]; [apply lookup_lt_Some in En'; lia|].
    destruct (Keep i n En) as (n2 & E2 & _ & _ & Ep & _). assert (n2 = n') as -> by congruence. rewrite Ep. by eapply (s_num _ _ _ _ S). }
  split; [done|]. split; [|split; [|done]].
  - intros i h Hi Hr. pose proof (reads_holder ns c i h Hr) as Eh.
    assert (Hh : h ∈ strings ty t /\ holder ns c h = h).
    { destruct Hi as [Hi|[Ht Hc]].
      - apply string_strings in Hi. destruct (string_data ty ns c t R i Hi) as (n & f & _ & _ & _ & H1 & H2 & _). by rewrite Eh in *.
      - destruct Hr as [[? _]|(_ & n & En & <-)]; [congruence|]. destruct (pointers_ready ty t ns c S i n Ht En Hc) as (_ & H1 & H2).
        split; [done|]. unfold holder. rewrite H2. by destruct (ns !! first_child n). }
    destruct Hh as [Hh1 Hh2]. set (w := first_of ns c (strings ty t) h). destruct (first_ok ty t ns c h Hh1 Hh2) as [W1 W2]. fold w in W1, W2.
    destruct (string_data ty ns c t R w W1) as (nw & fw & Enw & Efw & Htw & _ & _ & Hnew & Hfw). destruct (X w nw fw Enw Efw) as [Xw1 Xw2].
    assert (Ew : expected ty ns c t (strings ty t) w nw fw = if decide (w = h) then (nw, fw) else (make_holder nw, false)).
    { unfold expected. rewrite decide_True by done. rewrite W2. fold w. by rewrite decide_True. }
    rewrite Ew in Xw2. unfold expected_pointer in Xw1. rewrite decide_False in Xw1 by (intros [? _]; congruence). rewrite Ew in Xw1.
    assert (Cw : c' !! w = Some false). { rewrite Xw2. destruct (decide (w = h)) as [E|]; [|done]. cbn. f_equal. apply Hfw. congruence. }
    exists w. split; [|split; [by apply string_strings|split; [rewrite <- W2; by apply (holder_reads ty t _ _ S)|split; [done|split]]]].
    + destruct Hi as [Hi|[Ht Hc]].
      * apply string_strings in Hi. destruct (string_data ty ns c t R i Hi) as (n & f & En & Ef & Ht & _ & _ & Hne & Hf). destruct (X i n f En Ef) as [X1 X2].
        unfold expected_pointer in X1. rewrite decide_False in X1 by (intros [? _]; congruence).
        destruct (decide (i = w)) as [->|Niw]; [by left|]. right.
        unfold expected in X1, X2. rewrite decide_True in X1, X2 by done. rewrite Eh in *. fold w in X1, X2.
        destruct (decide (i = w)); [done|]. destruct (decide (i = h)) as [->|Nh]; [split; [done|]; eexists; by split|].
        rewrite decide_True in X1, X2 by done. destruct (Hne ltac:(congruence)) as (-> & _). split; [done|]. eexists. by split.
      * destruct Hr as [[? _]|(_ & n & En & Efc)]; [congruence|]. destruct (X i n true En Hc) as [X1 X2]. unfold expected_pointer in X1. rewrite decide_True in X1 by done.
        rewrite Efc in X1. fold w in X1. right. rewrite X2. unfold expected. rewrite decide_False by (intros [? _]%elem_of_list_filter; congruence).
        split; [done|]. eexists. by split.
    + intros j Hj Hrj. apply string_strings in Hj. apply reads_holder in Hrj. destruct (string_data ty ns c t R j Hj) as (m & _ & Em & _).
      exists m, nw. split; [done|]. split; [done|]. pose proof (first_least ty t ns c S h j Hj Hrj) as Le. fold w in Le. unfold pub in Le. by rewrite Enw, Em in Le.
    + intros Niw. destruct (decide (w = h)) as [Ewh|Nwh]; [|exists (make_holder nw); by rewrite Xw1].
      exists nw. split; [by rewrite Xw1|].
      assert (is_ref nw = false) as Rw.
      { destruct Hr as [[_ ->]|(Hc & n & En & Efc)]; [congruence|]. assert (string_in ty t i \/ ty !! i = Some RPointer) as Hi' by tauto.
        destruct (s_ref _ _ _ _ S i n Hi' En Hc) as (_ & _ & _ & m & Em & Rm). rewrite Efc, <- Ewh in Em. congruence. }
      split; [done|]. eapply (s_leaf _ _ _ _ S); [by apply string_strings|done|done].
  - intros i Hi Hp. rewrite string_strings in Hi. destruct (ns !! i) as [n|] eqn:En.
    + destruct (Lk i n En) as [f Ef]. destruct (X i n f En Ef) as [X1 X2]. rewrite X1, X2, Ef. unfold expected_pointer, expected.
      rewrite !(decide_False (P := i ∈ _)) by done. rewrite decide_False; [done|]. intros [H1 ->]. auto.
    + apply lookup_ge_None in En. rewrite !(proj2 (lookup_ge_None _ _)) by lia. done.
Qed.
Print Assumptions C84_reorder.

(** The marks stay right if no plain reference leads to a string with content references to it. *)
Theorem C84_marks : forall ty t ks ns c, t = T 1 ks -> saved ty t ns c -> marked ns ->
  (forall i n j m, ns !! i = Some n -> is_ref n = true -> ~ (c !! i = Some true /\ (string_in ty t i \/ ty !! i = Some RPointer)) ->
     string_in ty t j -> c !! j = Some true -> ns !! j = Some m -> first_child n <> first_child m) ->
  exists ns' c' fuel, (forall fuel', fuel <= fuel' -> reorder_strings ty fuel' ns c = Some (ns', c')) /\ marked ns'.
Proof.
  intros ty t ks ns c Et S M Pl. pose proof (saved_ready ty t ns c S) as R. destruct (s_len _ _ _ _ S) as (L1 & L2 & L3).
  destruct (reorder_ok ty ns c t R L3 (pointers_ready ty t ns c S) ks Et (s_tree _ _ _ _ S)) as (ns' & c' & fuel & V & Sk & Ln & Lc & X).
  assert (Lk : forall i n, ns !! i = Some n -> exists f, c !! i = Some f).
  { intros i n En. apply lookup_lt_is_Some_2. apply lookup_lt_Some in En. lia. }
  exists ns', c', fuel. split; [done|]. intros i n' m' En' Hr Em'.
  destruct (lookup_lt_is_Some_2 ns i) as [n En]; [apply lookup_lt_Some in En'; lia|]. destruct (Lk i n En) as [f Ef].
  destruct (lookup_lt_is_Some_2 ns (first_child n')) as [m Em]; [apply lookup_lt_Some in Em'; lia|]. destruct (Lk _ m Em) as [g Eg].
  (* the strings that hold a text in the end *)
  assert (Won : forall h, h ∈ strings ty t -> holder ns c h = h ->
    (exists j n0, ns !! j = Some n0 /\ is_ref n0 = true /\ first_child n0 = h) \/ first_of ns c (strings ty t) h <> h ->
    first_child n' = first_of ns c (strings ty t) h -> referenced m' = true).
  { intros h Hh Hhh Ev Efc. destruct (first_ok ty t ns c h Hh Hhh) as [W1 W2]. remember (first_of ns c (strings ty t) h) as w eqn:Ew.
    rewrite Efc in *. destruct (X w m g Em Eg) as [X1 _]. destruct (string_data ty ns c t R w W1) as (_ & _ & _ & _ & Htw & _).
    unfold expected_pointer, expected in X1. rewrite decide_False in X1 by (intros [? _]; congruence). rewrite decide_True in X1 by done.
    rewrite W2, <- Ew, decide_True in X1 by done. destruct (decide (w = h)) as [Ewh|Nwh]; cbn in X1.
    - destruct Ev as [(j & n0 & E0 & R0 & F0)|]; [|congruence]. assert (m' = m) as -> by congruence. apply (M j n0); [done|done|congruence].
    - assert (m' = make_holder m) as -> by congruence. done. }
  (* the targets of plain references *)
  assert (Plain : n' = n -> ~ (c !! i = Some true /\ (string_in ty t i \/ ty !! i = Some RPointer)) -> referenced m' = true).
  { intros -> Np. pose proof (M i n m En Hr Em) as Rm. destruct (X _ m g Em Eg) as [X1 _]. assert (Em2 : m' = expected_pointer ty ns c t (first_child n) m g) by congruence.
    rewrite Em2. unfold expected_pointer, expected. destruct (decide (_ /\ _)); [done|]. destruct (decide (_ ∈ _)) as [Hx|]; [|done].
    remember (first_child n) as x eqn:Ex. destruct (string_data ty ns c t R x Hx) as (_ & _ & _ & _ & _ & Ho & Hoo & _ & _).
    destruct (decide (x = first_of _ _ _ _)) as [|Nw]; [by case_decide|]. destruct (decide (x = holder ns c x)) as [Exh|]; [|done].
    exfalso. rewrite <- Exh in Nw. destruct (first_ok ty t ns c x Hx ltac:(congruence)) as [W1 W2].
    destruct (string_data ty ns c t R _ W1) as (nw & fw & Enw & Efw & _ & _ & _ & Hne & _). rewrite W2 in Hne. destruct (Hne Nw) as (-> & _ & F).
    apply (Pl i n _ nw En Hr Np (proj2 (string_strings _ _ _) W1) Efw Enw). congruence. }
  destruct (X i n f En Ef) as [X1 X2]. assert (E' : n' = expected_pointer ty ns c t i n f) by congruence. unfold expected_pointer in E'.
  destruct (decide (ty !! i = Some RPointer /\ f = true)) as [[Ht ->]|Np].
  { destruct (pointers_ready ty t ns c S i n Ht En Ef) as (P1 & P2 & P3). apply (Won (first_child n)); [done| |left; eauto|by subst n'].
    unfold holder. rewrite P3. by destruct (ns !! first_child n). }
  unfold expected in E'. destruct (decide (i ∈ strings ty t)) as [Hi|Hi].
  2:{ apply Plain; [done|]. rewrite string_strings. intros [? [?|?]]; [done|]. apply Np. split; [done|congruence]. }
  destruct (string_data ty ns c t R i Hi) as (n0 & f0 & E0 & F0 & Ht & Ho & Hoo & Hne & Hf). assert (n0 = n) as -> by congruence. assert (f0 = f) as -> by congruence.
  destruct (decide (i = first_of _ _ _ _)) as [Ew|Nw].
  - destruct (decide (i = holder ns c i)) as [Eo|No]; [|subst n'; done]. apply Plain; [done|]. intros [Hc _]. assert (f = false) by (by apply Hf). congruence.
  - destruct (decide (i = holder ns c i)) as [Eo|No].
    + apply (Won (holder ns c i)); [done|done|right; congruence|by subst n'].
    + destruct (Hne ltac:(congruence)) as (_ & R0 & F1). apply (Won (holder ns c i)); [done|done|left; eauto|by subst n'].
Qed.
Print Assumptions C84_marks.

(** *** Cases *)
(** Node 2 points to structure 5 with string 6, which has the text of string 3; pointer 7 has it, too. *)
Definition case_ty : list rtype := [ROther; ROther; ROther; RString; RPointer; ROther; RString; RPointer].
Definition case_tree : tree := T 1 [T 2 [T 5 [T 6 []]]; T 3 []; T 4 []; T 7 []].
(** [plain]: pointer 4 is a plain reference to the node of string 3. *)
Definition case_nodes (plain : bool) : list node :=
  [Node 0 0 0 0 false false false false; Node 0 0 2 1 false false true false; Node 1 3 5 2 false false true false; Node 1 4 0 5 false true false false;
   Node 1 7 (if plain then 3 else 0) 6 plain false false false; Node 2 0 6 3 false false true false; Node 5 0 3 4 true false false false; Node 1 0 3 7 true false false false].
Definition case_flags : list bool := [false; false; false; false; false; false; true; true].

Lemma case_saved plain : saved case_ty case_tree (case_nodes plain) case_flags.
Proof.
  split.
  - destruct plain; cbn; repeat (eexists || split); (reflexivity || (intros E; discriminate E)).
  - apply (bool_decide_unpack _). vm_compute. exact I.
  - intros k i n Hk En. destruct plain; do 7 (destruct k as [|k]; [injection Hk as <-; by injection En as <-|]); done.
  - done.
  - intros i n [_ Ht] En R. do 8 (destruct i as [|i]; [try done; by injection En as <-|]). done.
  - intros i n _ En Hc. destruct plain; (do 8 (destruct i as [|i]; [first [done|injection En as <-; split; [done|]; split; [split; [cbn; set_solver|done]|]; split; [done|]; eexists; by split]|])); done.
Qed.
Lemma case_marked plain : marked (case_nodes plain).
Proof. intros i n m En R Em. destruct plain; (do 8 (destruct i as [|i]; [try done; injection En as <-; try done; by injection Em as <-|])); done. Qed.

(** Without the plain reference the theorems apply; string 6 comes first and becomes the holder. *)
Example C84_example : saved case_ty case_tree (case_nodes false) case_flags /\ marked (case_nodes false) /\
  (forall i n j m, case_nodes false !! i = Some n -> is_ref n = true -> ~ (case_flags !! i = Some true /\ (string_in case_ty case_tree i \/ case_ty !! i = Some RPointer)) ->
     string_in case_ty case_tree j -> case_flags !! j = Some true -> case_nodes false !! j = Some m -> first_child n <> first_child m) /\
  reorder_strings case_ty 40 (case_nodes false) case_flags = Some
    ([Node 0 0 0 0 false false false false; Node 0 0 2 1 false false true false; Node 1 3 5 2 false false true false; Node 1 4 6 5 true false false false;
      Node 1 7 0 6 false false false false; Node 2 0 6 3 false false true false; Node 5 0 0 4 false true false false; Node 1 0 6 7 true false false false],
     [false; false; false; true; false; false; false; true]).
Proof.
  split; [apply case_saved|]. split; [apply case_marked|]. split; [|reflexivity].
  intros i n j m En R Np. exfalso. do 8 (destruct i as [|i]; [injection En as <-; first [done|apply Np; split; [done|]; first [by right|left; split; [cbn; set_solver|done]]]|]). done.
Qed.

(** With a plain reference to the former holder the marks do not stay right: pointer 4 refers to
    string 3, which is no longer marked as referenced. *)
Theorem C84_marks_refuted : exists ty t ks ns c, t = T 1 ks /\ saved ty t ns c /\ marked ns /\
  exists ns' c' fuel, reorder_strings ty fuel ns c = Some (ns', c') /\ ~ marked ns' /\
    exists n m, ns' !! 4 = Some n /\ c' !! 4 = Some false /\ is_ref n = true /\ ns' !! first_child n = Some m /\ referenced m = false /\ is_ref m = true.
Proof.
  exists case_ty, case_tree. eexists. exists (case_nodes true), case_flags. split; [reflexivity|]. split; [apply case_saved|]. split; [apply case_marked|].
  eexists _, _, 40. split; [reflexivity|]. split.
  - intros M. specialize (M 4 _ _ eq_refl eq_refl eq_refl). done.
  - eexists _, _. split; [reflexivity|]. split; [reflexivity|]. split; [reflexivity|]. split; reflexivity || (split; reflexivity).
Qed.
Print Assumptions C84_marks_refuted.
