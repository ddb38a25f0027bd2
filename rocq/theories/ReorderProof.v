(** Proofs about mr_reorder_strings (src/mr_save.c:1272-1317). *)
From stdpp Require Import list sets sorting.
From Verif Require Import Base Ptrs DfsProof DfsSkel PruneProof Reorder.

#[global] Instance rtype_eq_dec : EqDecision rtype.
Proof. solve_decision. Defined.

Section Spec.
  Context (ty : list rtype) (ns0 : list node) (c0 : list bool) (t : tree).

  (** The strings of the tree in the order of the traversal. *)
  Definition strings : list nat := filter (fun i => ty !! i = Some RString) (nodes t).
  (** The string whose text is meant. *)
  Definition holder (i : nat) : nat :=
    match ns0 !! i, c0 !! i with Some n, Some true => first_child n | _, _ => i end.
  (** The first of the strings in [l] with the text of [o]. *)
  Definition first_of (l : list nat) (o : nat) : nat := default o (head (filter (fun i => holder i = o) l)).

  Definition expected (seen : list nat) (i : nat) (n0 : node) (f0 : bool) : node * bool :=
    if decide (i ∈ strings) then
      let o := holder i in let w := first_of seen o in
      if decide (i = w) then if decide (i = o) then (n0, f0) else (make_holder n0, false)
      else if decide (i = o) then (make_reference w n0, true)
      else if decide (i ∈ seen) then (set_first_child n0 w, f0) else (n0, f0)
    else (n0, f0).

  (** The table after the strings [seen]. *)
  Definition Inv (seen : list nat) (ns : list node) (c : list bool) : Prop :=
    length ns = length ns0 /\ length c = length c0 /\
    forall i n0 f0, ns0 !! i = Some n0 -> c0 !! i = Some f0 ->
      ns !! i = Some (expected seen i n0 f0).1 /\ c !! i = Some (expected seen i n0 f0).2.

  Record ready : Prop := {
    r_len : length c0 = length ns0;
    r_tylen : length ty = length ns0;
    r_in : forall i, i ∈ nodes t -> i < length ns0;
    r_nodup : NoDup (nodes t);
    r_num : numbered ns0 t;
    r_leaf : forall i n, i ∈ strings -> ns0 !! i = Some n -> is_ref n = false -> first_child n = 0;
    r_ref : forall i n, i ∈ strings -> ns0 !! i = Some n -> c0 !! i = Some true -> is_ref n = true /\
      first_child n ∈ strings /\ c0 !! first_child n = Some false /\ exists m, ns0 !! first_child n = Some m /\ is_ref m = false
  }.
  Hypothesis R : ready.

  Definition pub (i : nat) : nat := match ns0 !! i with Some n => pub_idx n | None => 0 end.

  Lemma sorted_from l s : (forall k i, l !! k = Some i -> pub i = S (s + k)) -> StronglySorted (fun a b => pub a < pub b) l.
  Proof.
    revert s. induction l as [|a l IH]; intros s H; constructor.
    - apply (IH (S s)). intros k i E. rewrite (H (S k) i E). lia.
    - apply Forall_forall. intros b Hb. apply elem_of_list_lookup in Hb as [k Hk]. rewrite (H 0 a eq_refl), (H (S k) b Hk). lia.
  Qed.
  Lemma sorted_filter (P : nat -> Prop) `{forall x, Decision (P x)} (rel : nat -> nat -> Prop) l : StronglySorted rel l -> StronglySorted rel (filter P l).
  Proof.
    induction 1 as [|a l S IH F]; [constructor|]. rewrite filter_cons. destruct (decide (P a)); [|done]. constructor; [done|].
    apply Forall_forall. intros b Hb. apply elem_of_list_filter in Hb as [_ Hb]. rewrite Forall_forall in F. auto.
  Qed.
  Lemma sorted_strings : StronglySorted (fun a b => pub a < pub b) strings.
  Proof.
    apply sorted_filter, (sorted_from _ 0). intros k i E.
    destruct (lookup_lt_is_Some_2 ns0 i) as [n En]; [apply (r_in R), elem_of_list_lookup; eauto|].
    unfold pub. rewrite En. by eapply (r_num R).
  Qed.
  Lemma nodup_strings : NoDup strings.
  Proof. apply NoDup_filter, (r_nodup R). Qed.
  Lemma sorted_mid l1 a l2 : strings = l1 ++ a :: l2 -> (forall b, b ∈ l1 -> pub b < pub a) /\ (forall b, b ∈ l2 -> pub a < pub b).
  Proof.
    intros E. pose proof sorted_strings as S. rewrite E in S. clear E. induction l1 as [|x l1 IH]; cbn in S.
    - inversion S as [|? ? _ F]; subst. split; [by intros b ?%elem_of_nil|]. by apply Forall_forall.
    - inversion S as [|? ? S' F]; subst. destruct (IH S') as [H1 H2]. split; [|done]. intros b [->|Hb]%elem_of_cons; [|auto].
      rewrite Forall_forall in F. apply F. set_solver.
  Qed.
  Lemma string_data i : i ∈ strings -> exists n f, ns0 !! i = Some n /\ c0 !! i = Some f /\ ty !! i = Some RString /\ holder i ∈ strings /\
    holder (holder i) = holder i /\ (holder i <> i -> f = true /\ is_ref n = true /\ first_child n = holder i) /\ (holder i = i <-> f = false).
  Proof.
    intros Hi. pose proof Hi as Hi'. apply elem_of_list_filter in Hi' as [Ht Hn]. pose proof (r_in R i Hn) as L.
    destruct (lookup_lt_is_Some_2 ns0 i L) as [n En]. destruct (lookup_lt_is_Some_2 c0 i) as [f Ef]; [by rewrite (r_len R)|].
    assert (Eh : holder i = if f then first_child n else i) by (unfold holder; by rewrite En, Ef).
    exists n, f. do 3 (split; [done|]). rewrite Eh. destruct f.
    - destruct (r_ref R i n Hi En Ef) as (H1 & H2 & H3 & m & H4 & H5). split; [done|]. split; [|split; [done|]].
      + unfold holder. by rewrite H4, H3.
      + split; [|done]. intros E. congruence.
    - split; [done|]. by split.
  Qed.

  Lemma first_none l o : filter (fun i => holder i = o) l = [] -> first_of l o = o.
  Proof. unfold first_of. by intros ->. Qed.
  Lemma first_some l o : filter (fun i => holder i = o) l <> [] -> first_of l o ∈ l /\ holder (first_of l o) = o.
  Proof.
    unfold first_of. destruct (filter _ l) as [|w r] eqn:E; [done|]. intros _. cbn.
    assert (w ∈ filter (fun i => holder i = o) l) as H by (rewrite E; left). apply elem_of_list_filter in H as [? ?]. done.
  Qed.
  Lemma first_snoc l o i : first_of (l ++ [i]) o =
    if decide (holder i = o) then if decide (filter (fun i => holder i = o) l = []) then i else first_of l o else first_of l o.
  Proof.
    unfold first_of. rewrite filter_app. cbn [filter list_filter]. destruct (decide (holder i = o)) as [E|E].
    - destruct (filter _ l) as [|w r]; done.
    - by rewrite app_nil_r.
  Qed.
  Lemma first_mem l o i : holder i = o -> i ∈ l -> filter (fun i => holder i = o) l <> [].
  Proof. intros E H F. assert (i ∈ filter (fun i => holder i = o) l) as G by (by apply elem_of_list_filter). rewrite F in G. by apply elem_of_nil in G. Qed.
  Lemma first_empty l o i : holder i = o -> filter (fun i => holder i = o) l = [] -> i ∉ l.
  Proof. intros E F H. by eapply first_mem. Qed.

  Lemma skel_insert ns i n n' : ns !! i = Some n -> skel n' = skel n -> map skel (<[i := n']> ns) = map skel ns.
  Proof. intros E S. change (skel <$> <[i := n']> ns = skel <$> ns). rewrite list_fmap_insert, S. apply list_insert_id. by rewrite list_lookup_fmap, E. Qed.

  Lemma upd_at ns i n h : ns !! i = Some n -> upd ns i h = Some (<[i := h n]> ns).
  Proof. intros E. unfold upd. rewrite (rd_lu _ _ _ E). cbn [mbind option_bind]. apply wr_Some. by eapply lookup_lt_Some. Qed.

  Lemma step l1 i l2 level ns c : strings = l1 ++ i :: l2 -> Inv l1 ns c ->
    exists ns' c', reorder_visitor ty ns c i level POST = Some (true, ns', c') /\ map skel ns' = map skel ns /\ Inv (l1 ++ [i]) ns' c'.
  Proof.
    intros E (Ln & Lc & I). assert (Hi : i ∈ strings) by (rewrite E; set_solver).
    destruct (string_data i Hi) as (n & f & En & Ef & Et & Ho & Hoo & Hne & Hf). remember (holder i) as o eqn:Hio. symmetry in Hio.
    destruct (string_data o Ho) as (m & g & Em & Eg & _ & _ & _ & _ & _).
    destruct (sorted_mid _ _ _ E) as [B1 B2]. pose proof nodup_strings as ND. rewrite E in ND. apply NoDup_app in ND as (ND1 & ND2 & ND3). apply NoDup_cons in ND3 as [ND3 ND4].
    assert (Hi1 : i ∉ l1) by (intros H; apply (ND2 i H); left).
    pose proof (I i n f En Ef) as [Ii If]. pose proof (I o m g Em Eg) as [Io Ig].
    assert (Est : forall j n0 f0, j <> i -> first_of (l1 ++ [i]) (holder j) = first_of l1 (holder j) -> expected (l1 ++ [i]) j n0 f0 = expected l1 j n0 f0).
    { intros j n0 f0 Nj Fj. unfold expected. rewrite Fj. assert (j ∈ l1 ++ [i] <-> j ∈ l1) as Hj by set_solver.
      destruct (decide (j ∈ l1 ++ [i])), (decide (j ∈ l1)); tauto. }
    assert (Fo : forall o', o' <> o -> first_of (l1 ++ [i]) o' = first_of l1 o').
    { intros o' N. rewrite first_snoc. by destruct (decide (holder i = o')); [congruence|]. }
    assert (Same : first_of (l1 ++ [i]) o = first_of l1 o -> expected (l1 ++ [i]) i n f = expected l1 i n f -> Inv (l1 ++ [i]) ns c).
    { intros Fe Ex. split; [done|]. split; [done|]. intros j n0 f0 En0 Ef0. destruct (decide (j = i)) as [->|Nj].
      - assert (n0 = n) as -> by congruence. assert (f0 = f) as -> by congruence. rewrite Ex. by apply I.
      - rewrite Est; [by apply I|done|]. destruct (decide (holder j = o)) as [->|]; [done|by apply Fo]. }
    assert (Lty : rd ty i = Some RString) by (by rewrite (rd_lu _ _ _ Et)).
    assert (Pi : pub i = pub_idx n) by (unfold pub; by rewrite En).
    assert (Po : pub o = pub_idx m) by (unfold pub; by rewrite Em).
    assert (Ex : forall l, expected l i n f = if decide (i = first_of l o) then if decide (i = o) then (n, f) else (make_holder n, false)
      else if decide (i = o) then (make_reference (first_of l o) n, true) else if decide (i ∈ l) then (set_first_child n (first_of l o), f) else (n, f)).
    { intros l. unfold expected. rewrite decide_True by done. by rewrite Hio. }
    assert (Exo : forall l, expected l o m g = if decide (o = first_of l o) then (m, g) else (make_reference (first_of l o) m, true)).
    { intros l. unfold expected. rewrite decide_True by done. rewrite Hoo. destruct (decide (o = first_of l o)); rewrite decide_True by done; done. }
    assert (Gf : g = false).
    { destruct (string_data o Ho) as (m' & g' & _ & Eg' & _ & _ & _ & _ & Hg). assert (g' = g) as -> by congruence. by apply Hg. }
    assert (Vis : rd ns i = Some (expected l1 i n f).1 /\ rd c i = Some (expected l1 i n f).2) by (by rewrite (rd_lu _ _ _ Ii), (rd_lu _ _ _ If)).
    destruct Vis as [Vi Vf].
    assert (F1 : first_of (l1 ++ [i]) o = if decide (filter (fun j => holder j = o) l1 = []) then i else first_of l1 o).
    { rewrite first_snoc. by rewrite decide_True. }
    destruct (decide (filter (fun j => holder j = o) l1 = [])) as [F|F].
    - pose proof (first_none _ _ F) as F0. assert (Ho1 : o ∉ l1) by (by eapply first_empty).
      destruct (decide (i = o)) as [Eo|Neo].
      + exists ns, c. assert (f = false) as -> by (by apply Hf). rewrite (Ex l1), F0, !decide_True in Vi, Vf by done.
        cbn [fst snd] in *. split; [|split; [done|]].
        * cbn. rewrite Vi, Lty, Vf. done.
        * apply Same; [congruence|]. rewrite !Ex, F1, F0, !decide_True by done. done.
      + (* the first one met, before the holder *)
        destruct (Hne ltac:(congruence)) as (-> & Hr & Hfc). assert (Hio2 : o ∈ l2).
        { rewrite E in Ho. apply elem_of_app in Ho as [?|[?|?]%elem_of_cons]; [done|congruence|done]. }
        specialize (B2 o Hio2). rewrite (Ex l1), F0, !decide_False in Vi, Vf, Ii, If by done. cbn [fst snd] in *.
        rewrite (Exo l1), F0, decide_True in Io, Ig by done. cbn [fst snd] in *. subst g.
        destruct (r_ref R i n Hi En Ef) as (_ & _ & _ & m' & Em' & Hrm). rewrite Hfc in Em'. assert (m' = m) as -> by congruence.
        pose proof (lookup_lt_Some _ _ _ Ii) as L1. pose proof (lookup_lt_Some _ _ _ Io) as L2.
        pose proof (lookup_lt_Some _ _ _ If) as L3. pose proof (lookup_lt_Some _ _ _ Ig) as L4.
        set (ns1 := <[i := make_holder n]> ns). set (c1 := <[i := false]> c).
        assert (ns1 !! o = Some m) as Io1 by (unfold ns1; by rewrite list_lookup_insert_ne).
        exists (<[o := make_reference i m]> ns1), (<[o := true]> c1). split; [|split].
        * unfold reorder_visitor. rewrite Vi, Lty, Vf. cbn -[Nat.ltb]. rewrite Hfc, (rd_lu _ _ _ Io), (rd_lu _ _ _ Ig). cbn -[Nat.ltb].
          assert (Nat.ltb (pub_idx n) (pub_idx m) = true) as -> by (apply Nat.ltb_lt; lia).
          rewrite (upd_at _ _ _ _ Ii). cbn [mbind option_bind]. rewrite wr_Some by lia. cbn [mbind option_bind]. fold ns1 c1.
          rewrite (upd_at _ _ _ _ Io1). cbn [mbind option_bind].
          rewrite wr_Some by (unfold c1; rewrite insert_length; lia). done.
        * rewrite (skel_insert ns1 o m) by (done || unfold skel, expandable, make_reference; cbn; by rewrite (r_leaf R o m Ho Em Hrm), andb_false_r).
          apply (skel_insert ns i n); [done|]. unfold skel, expandable, make_holder; cbn. by rewrite Hr, andb_false_r.
        * split; [by unfold ns1; rewrite !insert_length|]. split; [by unfold c1; rewrite !insert_length|].
          intros j n0 f0 En0 Ef0. destruct (decide (j = o)) as [->|Njo].
          { rewrite !list_lookup_insert by (unfold ns1, c1; rewrite insert_length; lia).
            assert (n0 = m) as -> by congruence. assert (f0 = false) as -> by congruence. rewrite Exo, F1, decide_False by congruence. done. }
          rewrite !list_lookup_insert_ne by done. unfold ns1, c1. destruct (decide (j = i)) as [->|Nji].
          { rewrite !list_lookup_insert by lia. assert (n0 = n) as -> by congruence. assert (f0 = true) as -> by congruence. rewrite Ex, F1. destruct (decide (i = i)); [|done]. by destruct (decide (i = o)). }
          rewrite !list_lookup_insert_ne by done. destruct (I j n0 f0 En0 Ef0) as [I1 I2].
          destruct (decide (holder j = o)) as [Ej|Ej]; [|by rewrite Est by auto].
          rewrite I1, I2. assert (expected (l1 ++ [i]) j n0 f0 = expected l1 j n0 f0) as ->; [|done].
          assert (j ∉ l1) by (by eapply first_empty). unfold expected. rewrite Ej, F1, F0.
          destruct (decide (j ∈ strings)); [|done]. rewrite !(decide_False (P := j = _)) by done. rewrite !decide_False by set_solver. done.
    - destruct (first_some _ _ F) as [Hw1 Hw2]. set (w := first_of l1 o) in *. pose proof (B1 w Hw1) as Bw.
      assert (Nwi : i <> w) by (intros <-; done). assert (Hws : w ∈ strings) by (rewrite E; set_solver).
      assert (Same' : f = true -> is_ref n = true -> i <> o -> forall ns', ns' = <[i := set_first_child n w]> ns -> Inv (l1 ++ [i]) ns' c).
      { intros -> Hr Neo ns' ->. split; [by rewrite insert_length|]. split; [done|]. intros j n0 f0 En0 Ef0. destruct (decide (j = i)) as [->|Nj].
        - assert (n0 = n) as -> by congruence. assert (f0 = true) as -> by congruence. rewrite list_lookup_insert by (by eapply lookup_lt_Some).
          rewrite Ex, F1, !decide_False by done. rewrite decide_True by set_solver. cbn. split; [done|]. rewrite If, Ex. fold w. rewrite !decide_False by done. done.
        - rewrite list_lookup_insert_ne by done. rewrite Est; [by apply I|done|]. destruct (decide (holder j = o)) as [->|]; [exact F1|by apply Fo]. }
      destruct (decide (i = o)) as [Eo|Neo].
      + exists ns, c. rewrite Ex in Vi, Vf. fold w in Vi, Vf. destruct (decide (i = w)) as [|_]; [done|]. destruct (decide (i = o)) as [_|]; [|done]. cbn [fst snd] in *.
        split; [|split; [done|]].
        * unfold reorder_visitor. rewrite Vi, Lty, Vf. cbn -[Nat.ltb]. destruct (string_data w Hws) as (nw & fw & Enw & Efw & _). destruct (I w nw fw Enw Efw) as [Iw1 Iw2].
          assert (expected l1 w nw fw = (make_holder nw, false)) as Xw.
          { unfold expected. rewrite decide_True by done. rewrite Hw2. fold w. rewrite decide_True, decide_False by congruence. done. }
          rewrite Xw in Iw1, Iw2. unfold rd. rewrite Iw1. cbn -[Nat.ltb]. rewrite Iw2. cbn -[Nat.ltb].
          assert (pub w = pub_idx nw) as Pw by (unfold pub; by rewrite Enw).
          assert (Nat.ltb (pub_idx n) (pub_idx nw) = false) as -> by (apply Nat.ltb_ge; lia). done.
        * apply Same; [done|]. rewrite !Ex, F1. fold w. destruct (decide (i = w)) as [|_]; [done|]. by destruct (decide (i = o)) as [_|].
      + destruct (Hne ltac:(congruence)) as (-> & Hr & Hfc). rewrite (Ex l1) in Vi, Vf, Ii, If. fold w in Vi, Vf, Ii, If.
        rewrite !decide_False in Vi, Vf, Ii, If by done. cbn [fst snd] in *. pose proof (lookup_lt_Some _ _ _ Ii) as L1.
        rewrite (Exo l1) in Io, Ig. fold w in Io, Ig. destruct (decide (o = w)) as [Eow|Now]; cbn [fst snd] in *; subst g.
        * exists ns, c. split; [|split; [done|]].
          { unfold reorder_visitor. rewrite Vi, Lty, Vf. cbn -[Nat.ltb]. rewrite Hfc, (rd_lu _ _ _ Io), (rd_lu _ _ _ Ig). cbn -[Nat.ltb].
            rewrite <- Eow in Bw. assert (Nat.ltb (pub_idx n) (pub_idx m) = false) as -> by (apply Nat.ltb_ge; lia). done. }
          assert (set_first_child n w = n) as Xn by (destruct n; cbn in *; unfold set_first_child; cbn; congruence).
          apply Same'; [done..|]. by rewrite Xn, list_insert_id.
        * exists (<[i := set_first_child n w]> ns), c. split; [|split].
          { unfold reorder_visitor. rewrite Vi, Lty, Vf. cbn -[Nat.ltb]. rewrite Hfc, (rd_lu _ _ _ Io), (rd_lu _ _ _ Ig). cbn -[Nat.ltb].
            by rewrite (upd_at _ _ _ _ Ii). }
          { apply (skel_insert ns i n); [done|]. unfold skel, expandable. cbn. by rewrite Hr, !andb_false_r. }
          by apply Same'.
  Qed.

  (** ** The traversal *)
  Definition posts (evs : list event) : list nat :=
    omap (fun '(i, _, o) => match o with POST => Some i | PRE => None end) evs.
  Lemma posts_app a b : posts (a ++ b) = posts a ++ posts b.
  Proof. apply omap_app. Qed.
  (** Leaves are met in the same order before and after their children. *)
  Lemma posts_leaves (Q : nat -> Prop) `{forall x, Decision (Q x)} (u : tree) : forall ns par nxt l, tree_at ns par nxt u ->
    (forall i n, Q i -> i ∈ nodes u -> ns !! i = Some n -> expandable n = false) ->
    filter Q (posts (events l u)) = filter Q (nodes u).
  Proof.
    induction u as [i ks IH] using tree_ind'. intros ns par nxt l A HP. rewrite tree_at_eq in A. destruct A as (n & En & _ & _ & _ & K).
    cbn [events nodes]. change (posts ((i, l, PRE) :: ?x)) with (posts x). rewrite posts_app, filter_app.
    change (posts [(i, l, POST)]) with [i]. rewrite !filter_cons.
    assert (HK : filter Q (posts (concat (map (events (l + 1)) ks))) = filter Q (concat (map nodes ks))).
    { destruct (expandable n); [|by subst ks]. destruct K as (_ & _ & K).
      assert (HP' : forall i n, Q i -> i ∈ concat (map nodes ks) -> ns !! i = Some n -> expandable n = false).
      { intros j m Hj Hin. apply HP; [done|]. cbn. by right. }
      clear HP. induction IH as [|k ks Hk _ IHk]; [done|]. cbn [map concat] in *. rewrite posts_app, !filter_app. cbn in K. destruct K as [K1 K2]. f_equal.
      - eapply Hk; [done|]. intros j m Hj Hin. apply HP'; [done|]. set_solver.
      - apply IHk; [done|]. intros j m Hj Hin. apply HP'; [done|]. set_solver. }
    rewrite HK, filter_nil. destruct (decide (Q i)) as [Hi|]; [|by rewrite app_nil_r].
    rewrite (HP i n Hi) in K by (done || left). by subst ks.
  Qed.

  Lemma visit_other i l o ns c : (o = PRE \/ ty !! i <> Some RString) -> i ∈ nodes t -> length ns = length ns0 -> length c = length c0 ->
    checked (reorder_visitor ty) ns c i l o = Some (true, ns, c).
  Proof.
    intros H Hi Ln Lc. unfold checked. assert (reorder_visitor ty ns c i l o = Some (true, ns, c)) as ->.
    2:{ by rewrite decide_True. }
    destruct o; [done|]. destruct H as [|H]; [done|]. pose proof (r_in R i Hi) as L. pose proof (r_len R). pose proof (r_tylen R).
    destruct (lookup_lt_is_Some_2 ns i) as [n En]; [lia|]. destruct (lookup_lt_is_Some_2 c i) as [f Ef]; [lia|].
    destruct (lookup_lt_is_Some_2 ty i) as [u Eu]; [lia|]. unfold reorder_visitor. rewrite (rd_lu _ _ _ En), (rd_lu _ _ _ Ef), (rd_lu _ _ _ Eu).
    cbn [mbind option_bind]. destruct u; [|done|done]. congruence.
  Qed.

  Lemma events_run evs : forall l1 ns c, (forall i l o, (i, l, o) ∈ evs -> i ∈ nodes t) ->
    strings = l1 ++ filter (fun i => ty !! i = Some RString) (posts evs) -> Inv l1 ns c ->
    exists ns' c', apply_events (checked (reorder_visitor ty)) evs ns c (fun ns c => Done true ns c) = Done true ns' c' /\
      map skel ns' = map skel ns /\ Inv strings ns' c'.
  Proof.
    induction evs as [|[[i l] o] evs IH]; intros l1 ns c Hin E I.
    - cbn in E. rewrite app_nil_r in E. subst l1. exists ns, c. done.
    - cbn [apply_events]. unfold visit. assert (Hi : i ∈ nodes t) by (eapply Hin; left).
      assert (Hin' : forall i l o, (i, l, o) ∈ evs -> i ∈ nodes t) by (intros j l' o' ?; eapply Hin; by right).
      destruct o.
      { pose proof I as (Ln & Lc & _). rewrite visit_other by auto. by apply (IH l1). }
      change (posts ((i, l, POST) :: evs)) with (i :: posts evs) in E. rewrite filter_cons in E.
      destruct (decide (ty !! i = Some RString)) as [Ht|Ht].
      + destruct (step l1 i _ l ns c E I) as (ns' & c' & V & S & I'). unfold checked. rewrite V, decide_True by done.
        destruct (IH (l1 ++ [i]) ns' c' Hin') as (ns2 & c2 & V2 & S2 & I2); [by rewrite <- app_assoc|done|].
        exists ns2, c2. split; [done|]. split; [congruence|done].
      + pose proof I as (Ln & Lc & _). rewrite visit_other by auto. by apply (IH l1).
  Qed.
  Lemma Inv_start : Inv [] ns0 c0.
  Proof.
    split; [done|]. split; [done|]. intros i n0 f0 En Ef. assert (expected [] i n0 f0 = (n0, f0)) as ->; [|done]. unfold expected.
    destruct (decide (i ∈ strings)); [|done]. change (first_of [] (holder i)) with (holder i).
    destruct (decide (i = holder i)); [done|]. by rewrite decide_False by set_solver.
  Qed.
  Lemma events_in u : forall l i l' o, (i, l', o) ∈ events l u -> i ∈ nodes u.
  Proof.
    induction u as [j ks IH] using tree_ind'. intros l i l' o. cbn [events nodes].
    intros [[= -> -> ->]|[H|[= -> -> ->]%elem_of_list_singleton]%elem_of_app]%elem_of_cons; [by left| |by left]. right. induction IH as [|k ks Hk _ IHk]; cbn in *; [by apply elem_of_nil in H|].
    apply elem_of_app in H as [H|H]; apply elem_of_app; [left; by eapply Hk|right; auto].
  Qed.

  Lemma traversal ks : t = T 1 ks -> tree_at ns0 0 0 t -> exists ns c fuel,
    (forall fuel', fuel <= fuel' -> dfs (reorder_visitor ty) fuel' ns0 c0 1 = Done true ns c) /\ map skel ns = map skel ns0 /\ Inv strings ns c.
  Proof.
    intros Et A. destruct (events_run (events 0 t) [] ns0 c0) as (ns & c & V & S & I).
    - intros i l o. apply events_in.
    - cbn. symmetry. eapply posts_leaves; [done|]. intros i n Ht Hi En. unfold expandable. destruct (is_ref n) eqn:Er; [by rewrite andb_false_r|].
      rewrite (r_leaf R i n); [done| |done|done]. by apply elem_of_list_filter.
    - apply Inv_start.
    - exists ns, c. rewrite Et in V, A. pose proof (r_nodup R) as N. rewrite Et in N. destruct (dfs_checked _ _ _ _ _ _ _ _ A N V) as [fuel F].
      exists fuel. done.
  Qed.

  (** ** The pointers *)
  Definition expected_pointer (i : nat) (n0 : node) (f0 : bool) : node :=
    if decide (ty !! i = Some RPointer /\ f0 = true) then set_first_child n0 (first_of strings (first_child n0)) else (expected strings i n0 f0).1.
  Hypothesis P0 : ty !! 0 <> Some RPointer.
  Hypothesis P : forall i n, ty !! i = Some RPointer -> ns0 !! i = Some n -> c0 !! i = Some true ->
    is_ref n = true /\ first_child n ∈ strings /\ c0 !! first_child n = Some false.

  Lemma expected_other seen i n f : ty !! i <> Some RString -> expected seen i n f = (n, f).
  Proof. intros H. unfold expected. rewrite decide_False; [done|]. by intros [? _]%elem_of_list_filter. Qed.

  Lemma pointer_run i n f ns c : ns0 !! i = Some n -> c0 !! i = Some f -> length ns = length ns0 ->
    ns !! i = Some (expected strings i n f).1 ->
    (forall j n0 f0, ns0 !! j = Some n0 -> c0 !! j = Some f0 -> c !! j = Some (expected strings j n0 f0).2) ->
    (forall j n0 f0, j ∈ strings -> ns0 !! j = Some n0 -> c0 !! j = Some f0 -> ns !! j = Some (expected strings j n0 f0).1) ->
    exists ns', reorder_pointer ty ns c i = Some ns' /\ map skel ns' = map skel ns /\ length ns' = length ns0 /\
        forall j, ns' !! j = if decide (j = i) then Some (expected_pointer i n f) else ns !! j.
  Proof.
    intros En Ef Ln I1 IC IS. pose proof (IC i n f En Ef) as I2. pose proof (r_len R). pose proof (r_tylen R). pose proof (lookup_lt_Some _ _ _ En).
    destruct (lookup_lt_is_Some_2 ty i) as [u Eu]; [lia|].
    assert (Skip : expected_pointer i n f = (expected strings i n f).1 -> exists ns', Some ns = Some ns' /\ map skel ns' = map skel ns /\ length ns' = length ns0 /\
      forall j, ns' !! j = if decide (j = i) then Some (expected_pointer i n f) else ns !! j).
    { intros Ee. exists ns. do 3 (split; [done|]). intros j. destruct (decide (j = i)) as [->|]; [|done]. by rewrite Ee. }
    unfold reorder_pointer. rewrite (rd_lu _ _ _ I1), (rd_lu _ _ _ I2), (rd_lu _ _ _ Eu). cbn [mbind option_bind].
    destruct (decide (u = RPointer)) as [->|Nu].
    2:{ assert (expected_pointer i n f = (expected strings i n f).1) as Ee.
        { unfold expected_pointer. rewrite decide_False; [done|]. intros [? _]. congruence. }
        destruct u; [|done|]; destruct ((expected strings i n f).2); by apply Skip. }
    rewrite (expected_other strings i n f) in I1, I2, Skip |- * by congruence. cbn [fst snd] in *. destruct f.
    2:{ apply Skip. unfold expected_pointer. rewrite decide_False by (by intros [_ ?]). by rewrite expected_other by congruence. }
    destruct (P i n Eu En Ef) as (P1 & P2 & P3). destruct (string_data _ P2) as (m & g & Em & Eg & Etm & _ & _ & _ & Hg). assert (g = false) as -> by congruence.
    assert (Hh : holder (first_child n) = first_child n) by (by apply Hg). pose proof (IS _ m false P2 Em Eg) as J1. pose proof (IC _ m false Em Eg) as J2.
    assert (Xm : expected strings (first_child n) m false = if decide (first_child n = first_of strings (first_child n)) then (m, false) else (make_reference (first_of strings (first_child n)) m, true)).
    { unfold expected. rewrite (decide_True (P := first_child n ∈ strings)) by done. rewrite Hh. destruct (decide (_ = first_of _ _)); rewrite decide_True by done; done. }
    assert (Xi : expected_pointer i n true = set_first_child n (first_of strings (first_child n))).
    { unfold expected_pointer. by rewrite decide_True. }
    rewrite (rd_lu _ _ _ J2). cbn [mbind option_bind]. rewrite Xm in *. destruct (decide (first_child n = first_of strings (first_child n))) as [Ew|Nw]; cbn [fst snd] in *.
    - apply Skip. rewrite Xi, <- Ew. by destruct n.
    - rewrite (rd_lu _ _ _ J1). cbn [mbind option_bind]. rewrite (upd_at _ _ _ _ I1). eexists. split; [done|]. split.
      { apply (skel_insert ns i n); [done|]. unfold skel, expandable. cbn. by rewrite P1, !andb_false_r. }
      split; [by rewrite insert_length|]. intros j. rewrite Xi. destruct (decide (j = i)) as [->|Nj]; [|by rewrite list_lookup_insert_ne].
      rewrite list_lookup_insert by (by eapply lookup_lt_Some). done.
  Qed.

  Lemma pointers_run k : forall i ns c, i + k = length ns0 -> length ns = length ns0 ->
    (forall j n0 f0, ns0 !! j = Some n0 -> c0 !! j = Some f0 ->
      ns !! j = Some (if decide (j < i) then expected_pointer j n0 f0 else (expected strings j n0 f0).1) /\ c !! j = Some (expected strings j n0 f0).2) ->
    exists ns', reorder_pointers ty k i ns c = Some ns' /\ map skel ns' = map skel ns /\ length ns' = length ns0 /\
      forall j n0 f0, ns0 !! j = Some n0 -> c0 !! j = Some f0 -> ns' !! j = Some (expected_pointer j n0 f0).
  Proof.
    induction k as [|k IH]; intros i ns c Hk Ln I.
    - exists ns. split; [done|]. split; [done|]. split; [done|]. intros j n0 f0 En Ef. destruct (I j n0 f0 En Ef) as [-> _].
      rewrite decide_True; [done|]. apply lookup_lt_Some in En. lia.
    - cbn [reorder_pointers]. pose proof (r_len R).
      destruct (lookup_lt_is_Some_2 ns0 i) as [n En]; [lia|]. destruct (lookup_lt_is_Some_2 c0 i) as [f Ef]; [lia|].
      destruct (pointer_run i n f ns c En Ef Ln) as (ns1 & V & S1 & L1 & Lk).
      + destruct (I i n f En Ef) as [I1 _]. by rewrite decide_False in I1 by lia.
      + intros j n0 f0 E1 E2. by destruct (I j n0 f0 E1 E2).
      + intros j n0 f0 Hj E1 E2. destruct (I j n0 f0 E1 E2) as [-> _]. destruct (decide (j < i)); [|done]. f_equal.
        unfold expected_pointer. rewrite decide_False; [done|]. apply elem_of_list_filter in Hj as [? _]. intros [? _]. congruence.
      + rewrite V. cbn [mbind option_bind]. destruct (IH (S i) ns1 c) as (ns2 & V2 & S2 & L2 & H2); [lia|done| |].
        * intros j n0 f0 En0 Ef0. destruct (I j n0 f0 En0 Ef0) as [I3 I4]. split; [|done]. rewrite Lk. destruct (decide (j = i)) as [->|Nj].
          -- rewrite decide_True by lia. congruence.
          -- rewrite I3. destruct (decide (j < i)), (decide (j < S i)); (done || lia).
        * exists ns2. split; [done|]. split; [congruence|]. done.
  Qed.

  Lemma reorder_ok ks : t = T 1 ks -> tree_at ns0 0 0 t -> exists ns c fuel,
    (forall fuel', fuel <= fuel' -> reorder_strings ty fuel' ns0 c0 = Some (ns, c)) /\ map skel ns = map skel ns0 /\ length ns = length ns0 /\ length c = length c0 /\
    forall i n0 f0, ns0 !! i = Some n0 -> c0 !! i = Some f0 -> ns !! i = Some (expected_pointer i n0 f0) /\ c !! i = Some (expected strings i n0 f0).2.
  Proof.
    intros Et A. destruct (traversal ks Et A) as (ns & c & fuel & V & S & Ln & Lc & I).
    assert (L0 : 1 <= length ns0). { assert (1 ∈ nodes t) as H1 by (rewrite Et; left). pose proof (r_in R 1 H1). lia. }
    destruct (pointers_run (length ns - 1) 1 ns c) as (ns' & V' & S' & Ln' & I'); [lia|done| |].
    { intros j n0 f0 En Ef. destruct (I j n0 f0 En Ef) as [I1 I2]. split; [|done]. rewrite I1. destruct (decide (j < 1)); [|done].
      assert (j = 0) as -> by lia. f_equal. unfold expected_pointer. rewrite decide_False; [done|]. by intros [? _]. }
    exists ns', c, fuel. split; [|split; [congruence|split; [done|split; [done|]]]].
    - intros fuel' Hf. unfold reorder_strings. rewrite V by done. rewrite V'. done.
    - intros i n0 f0 En Ef. split; [by eapply I'|]. by eapply I.
  Qed.
End Spec.
