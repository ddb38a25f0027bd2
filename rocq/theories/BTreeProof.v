(** Proof layer: trees as first-wins sets, for any rebalancing that keeps an invariant. *)
From stdpp Require Import sets.
From Verif Require Import Base Spec FwFacts ICArrays BTree BTreeRep BTreeRB BTreeAVL.

Section ss.
Context (cmp : N -> N -> Z) (Hc : three_way cmp).
Definition ss (l : list N) : Prop := strictly_sorted_by cmp l.

Lemma ss_app l1 l2 :
  ss (l1 ++ l2) <-> ss l1 /\ ss l2 /\ forall x y, x ∈ l1 -> y ∈ l2 -> (cmp x y < 0)%Z.
Proof.
  unfold ss, strictly_sorted_by. split.
  - intros H. split_and!.
    + intros i j x y Hij Hi Hj. apply (H i j); [done| |]; by apply lookup_app_l_Some.
    + intros i j x y Hij Hi Hj. apply (H (length l1 + i) (length l1 + j)); [lia| |];
        rewrite lookup_app_r by lia; rewrite Nat.add_comm, Nat.add_sub; done.
    + intros x y Hx Hy. apply elem_of_list_lookup in Hx as [i Hi]. apply elem_of_list_lookup in Hy as [j Hj].
      apply (H i (length l1 + j)).
      * apply lookup_lt_Some in Hi. lia.
      * by apply lookup_app_l_Some.
      * rewrite lookup_app_r by lia. by replace (length l1 + j - length l1) with j by lia.
  - intros (H1 & H2 & H3) i j x y Hij Hi Hj.
    apply lookup_app_Some in Hi as [Hi|[Li Hi]]; apply lookup_app_Some in Hj as [Hj|[Lj Hj]].
    + by eapply H1.
    + apply H3; by eapply elem_of_list_lookup_2.
    + apply lookup_lt_Some in Hj. lia.
    + eapply (H2 (i - length l1) (j - length l1)); [lia|done|done].
Qed.
Lemma ss_cons x l : ss (x :: l) <-> ss l /\ forall y, y ∈ l -> (cmp x y < 0)%Z.
Proof.
  change (x :: l) with ([x] ++ l). rewrite ss_app. split.
  - intros (_ & H1 & H2). split; [done|]. intros y Hy. apply H2; [left|done].
  - intros [H1 H2]. split; [|split; [done|]].
    + intros i j a b Hij Hi Hj. apply lookup_lt_Some in Hi, Hj. cbn in *. lia.
    + intros a y Ha Hy. apply elem_of_list_singleton in Ha as ->. by apply H2.
Qed.
Lemma ss_wf l : ss l -> fw_wf cmp l.
Proof.
  induction l as [|x l IH]; intros H; [constructor|]. apply ss_cons in H as [H1 H2].
  apply fw_wf_cons. split; [by apply IH|]. intros y Hy. specialize (H2 y Hy). lia.
Qed.
End ss.

Section btree.
Context (cmp : N -> N -> Z) (Hc : three_way cmp).
Context (path0 : path_t) (Hpath0 : length path0 = PATH).
Context (Inv : bt -> Prop).
Context (Inv_erase : forall t t', erase t = erase t' -> Inv t -> Inv t').
Context (Inv_leaf : Inv Leaf).
Context (Inv_height : forall t, Inv t -> (Z.of_nat (sz t) < 2 ^ 31)%Z -> ht t <= 60).
Context (radd rdel : list node -> path_t -> nat -> option (list node)).
Context (Hadd : forall fs p path i k,
  zr p (Node i k false false Leaf Leaf) (fs ++ [S0]) -> Inv (plug Leaf fs) ->
  path_ok path (fs ++ [S0]) -> path_idx path (length fs + 1) = Some i -> length fs < PATH ->
  exists p' t', radd p path (length fs + 1) = Some p' /\ length p' = length p /\
    whole p' t' /\ same (plug (Node i k false false Leaf Leaf) fs) t' /\ Inv t').
Context (Hdel : forall fs p path di dk dx dy l r t nd,
  zr p t (fs ++ [S0]) -> (l = Leaf /\ t = r \/ r = Leaf /\ t = l) ->
  Inv (plug (Node di dk dx dy l r) fs) ->
  path_ok path (fs ++ [S0]) -> path_idx path (length fs + 1) = Some di ->
  p !! di = Some nd -> b1 nd = dy -> length path = PATH -> length fs + 3 <= PATH ->
  exists p' t', rdel p path (length fs + 1) = Some p' /\ length p' = length p /\
    whole p' t' /\ same (plug t fs) t' /\ Inv t').

Notation ss := (ss cmp).

Definition dirs (key : N) (fs : list frame) : Prop :=
  Forall (fun f => cmp key (fk f) <> 0%Z /\ fd f = (0 <? cmp key (fk f))%Z) fs.

Lemma dirs_bounds key fs s : dirs key fs -> ss (inorder (plug s fs)) ->
  (forall x, x ∈ cl fs -> (0 < cmp key x)%Z) /\ (forall x, x ∈ cr fs -> (cmp key x < 0)%Z).
Proof.
  revert s. induction fs as [|f fs IH]; intros s Hd Hs; cbn [cl cr plug] in *; [set_solver|].
  apply Forall_cons in Hd as [[Hf Hff] Hd]. destruct (IH _ Hd Hs) as [H1 H2].
  rewrite inorder_plug in Hs. unfold plug1 in Hs. rewrite inorder_ND in Hs.
  apply ss_app in Hs as (_ & Hs & _). apply ss_app in Hs as (Hs & _ & _).
  destruct (Z.ltb_spec 0 (cmp key (fk f))) as [Hlt|Hlt]; rewrite Hff in *.
  - split; [|set_solver]. intros x Hx. apply elem_of_app in Hx as [Hx|Hx]; [by apply H1|].
    apply elem_of_app in Hx as [Hx|Hx]; [|by apply elem_of_list_singleton in Hx as ->].
    apply ss_app in Hs as (_ & _ & Hs). specialize (Hs x (fk f) Hx ltac:(left)).
    apply (tw_lt cmp Hc). eapply (tw_lt_trans cmp Hc); [exact Hs|]. apply (tw_lt cmp Hc). done.
  - split; [set_solver|]. intros x Hx. apply elem_of_app in Hx as [Hx|Hx]; [|by apply H2].
    apply elem_of_cons in Hx as [->|Hx]; [lia|].
    apply ss_app in Hs as (_ & Hs & _). apply ss_cons in Hs as [_ Hs].
    specialize (Hs x Hx). eapply (tw_lt_trans cmp Hc); [|exact Hs]. lia.
Qed.

Lemma ht_plug t fs : length fs + ht t <= ht (plug t fs).
Proof.
  revert t. induction fs as [|f fs IH]; intros t; cbn [plug length]; [lia|].
  specialize (IH (plug1 t f)). unfold plug1 in *. destruct (fd f); cbn [ND ht] in *; lia.
Qed.
Lemma sz_plug_eq t t' fs : sz t = sz t' -> sz (plug t fs) = sz (plug t' fs).
Proof.
  revert t t'. induction fs as [|f fs IH]; intros t t' H; cbn [plug]; [done|].
  apply IH. unfold plug1. destruct (fd f); cbn; lia.
Qed.

Lemma find_loop_ok fuel : forall t fs p path key,
  zr p t (fs ++ [S0]) -> path_ok path (fs ++ [S0]) -> length path = PATH ->
  length fs + 1 + ht t <= PATH -> ht t < fuel ->
  exists path' fs' s ts eq,
    find_loop cmp fuel p key (rid t) path (length fs + 1) false = Some (path', ts, eq) /\
    length path' = PATH /\ plug s fs' = t /\ path_ok path' (fs' ++ fs ++ [S0]) /\ dirs key fs' /\
    match s with
    | Leaf => eq = false /\ ts = length fs' + length fs + 1
    | Node i k x y l r => eq = true /\ ts = length fs' + length fs + 2 /\ cmp key k = 0%Z /\
        path' !! (length fs' + length fs + 1) = Some (i, false)
    end.
Proof.
  induction fuel as [|fuel IH]; intros t fs p path key Hz Hp Hl Hh Hf; [lia|]. cbn [find_loop].
  destruct t as [|i k x y l r]; cbn [rid].
  - rewrite Nat.eqb_refl. exists path, [], Leaf, (length fs + 1), false. split_and!; try done. constructor.
  - destruct (Nat.eqb_spec i 0) as [->|Hi].
    { exfalso. apply (zr_rid_nz _ _ _ Hz); done. }
    pose proof (zr_read _ _ _ _ _ _ _ _ Hz) as R. rewrite (rd_lu _ _ _ R). bind. cbn [nkey].
    cbn [ht] in Hh, Hf. rewrite wr_Some by lia. bind.
    assert (Hp' : path_ok (<[length fs + 1 := (i, (0 <? cmp key k)%Z)]> path) (fs ++ [S0])).
    { apply path_ok_ins; [rewrite app_length; cbn; lia|done]. }
    assert (Hl' : path !! (length fs + 1) = Some (default (0, false) (path !! (length fs + 1)))).
    { destruct (lookup_lt_is_Some_2 path (length fs + 1)) as [e He]; [lia|]. by rewrite He. }
    destruct (Z.eqb_spec (cmp key k) 0) as [E|E].
    + exists (<[length fs + 1 := (i, (0 <? cmp key k)%Z)]> path), [], (Node i k x y l r), (length fs + 2), true.
      split; [by replace (S (length fs + 1)) with (length fs + 2) by lia|]. split; [by rewrite insert_length|].
      split; [done|]. split; [done|]. split; [constructor|]. split; [done|]. split; [done|]. split; [done|].
      cbn [length Nat.add]. erewrite ins_eq by done. by rewrite E.
    + set (d := (0 <? cmp key k)%Z) in *.
      set (path1 := <[length fs + 1 := (i, d)]> path) in *.
      pose proof Hz as Hz1. rewrite (Node_ND d) in Hz1. apply zr_dn in Hz1.
      set (f := Fr i k x y d (if d then l else r)) in *.
      assert (En : next (Nd k (rid l) (rid r) x y) d = rid (if d then r else l)) by (by destruct d).
      rewrite En.
      destruct (IH (if d then r else l) (f :: fs) p path1 key) as (path' & fs' & s & ts & eq & E1 & L1 & P1 & K1 & D1 & M1).
      * done.
      * cbn [app path_ok]. split; [|done]. rewrite app_length. cbn [length fid fd f]. unfold path1.
        by erewrite ins_eq by done.
      * unfold path1. by rewrite insert_length.
      * cbn [length]. destruct d; lia.
      * destruct d; lia.
      * cbn [length] in *. replace (S (length fs) + 1) with (S (length fs + 1)) in * by lia.
        exists path', (fs' ++ [f]), s, ts, eq. split; [exact E1|]. split; [done|].
        split; [rewrite plug_app, P1; cbn; unfold plug1, f; cbn; by destruct d|].
        split; [by rewrite <- app_assoc|].
        split; [apply Forall_app; split; [done|]; constructor; [|constructor]; by split|].
        rewrite app_length. cbn [length].
        destruct s; [|destruct M1 as (? & ? & ? & M1); split_and!; try done; [lia|]].
        -- destruct M1. split; [done|]. lia.
        -- rewrite <- M1. f_equal. lia.
Qed.

Lemma tree_find_ok s p path key size :
  whole p s -> length path = PATH -> ht s <= 60 -> (2 <= size \/ s = Leaf) ->
  exists path' fs' s1 ts eq,
    tree_find cmp p size key path = Some (path', ts, eq) /\
    length path' = PATH /\ plug s1 fs' = s /\ path_ok path' (fs' ++ [S0]) /\ dirs key fs' /\
    match s1 with
    | Leaf => eq = false /\ ts = length fs' + 1
    | Node i k x y l r => eq = true /\ ts = length fs' + 2 /\ cmp key k = 0%Z /\
        path' !! (length fs' + 1) = Some (i, false)
    end.
Proof.
  intros Hw Hl Hh Hs. unfold tree_find. unfold PATH in Hl.
  rewrite wr_Some by lia. bind. fold PATH in Hl.
  assert (Hp : path_ok (<[0 := (0, false)]> path) ([] ++ [S0])).
  { cbn. split; [|done]. apply list_lookup_insert. rewrite Hl. unfold PATH. lia. }
  destruct (Nat.leb_spec 2 size) as [H2|H2].
  - assert (R : p !! 0 = Some (fcell S0 (rid s))) by (by apply zr_read_fr in Hw).
    rewrite (get_next_Some _ _ _ _ R). bind. cbn [fcell S0 fd next nl].
    destruct (find_loop_ok (S PATH) s [] p (<[0 := (0, false)]> path) key) as (path' & fs' & s1 & ts & eq & H); try done.
    + by rewrite insert_length.
    + cbn. unfold PATH. lia.
    + unfold PATH. lia.
    + exists path', fs', s1, ts, eq. cbn [length app] in H. rewrite !Nat.add_0_r in H. exact H.
  - destruct Hs as [?| ->]; [lia|].
    exists (<[0 := (0, false)]> path), [], Leaf, 1, false. split; [done|]. split; [by rewrite insert_length|].
    split_and!; try done. constructor.
Qed.

(** What the descent says about the set of keys. *)
Lemma find_leaf key fs : dirs key fs -> ss (inorder (plug Leaf fs)) ->
  fw_find cmp (inorder (plug Leaf fs)) key = None.
Proof.
  intros Hd Hs. destruct (dirs_bounds _ _ _ Hd Hs) as [H1 H2]. apply fw_find_None.
  intros x. rewrite inorder_plug. cbn. rewrite elem_of_app. intros [Hx|Hx].
  - specialize (H1 x Hx). lia.
  - specialize (H2 x Hx). lia.
Qed.
Lemma find_node key fs i k x y l r : cmp key k = 0%Z -> ss (inorder (plug (Node i k x y l r) fs)) ->
  fw_find cmp (inorder (plug (Node i k x y l r) fs)) key = Some k.
Proof.
  intros Hk Hs. apply (fw_find_unique cmp Hc); [by apply ss_wf| |done].
  rewrite inorder_plug. cbn. set_solver.
Qed.

(** *** Representation of a tree by the C structure *)
Definition trep (T : tree) (s : bt) : Prop :=
  length (pool T) <= tcap T /\ Inv s /\ ss (inorder s) /\
  (pool T = [] /\ s = Leaf \/ whole (pool T) s /\ length (pool T) = S (sz s)).

Lemma trep_ids T s : trep T s -> pool T <> [] -> ids s ≡ₚ seq 1 (sz s).
Proof.
  intros (_ & _ & _ & [[H _]|[Hw Hl]]) Hn; [done|]. clear Hn.
  apply submseteq_Permutation_length_eq; [rewrite length_ids, seq_length; lia|].
  apply NoDup_submseteq.
  - destruct Hw as (_ & _ & Hw). by apply NoDup_app in Hw as (Hw & _).
  - intros i Hi. apply elem_of_seq. pose proof (whole_nz _ _ _ Hw Hi).
    destruct Hw as (Hw & _). pose proof (rep_ids_lt _ _ _ Hw Hi). lia.
Qed.

Lemma whole_ext p s n : whole p s -> whole (p ++ [n]) s.
Proof.
  intros (H1 & H2 & H3). split; [|split; [|done]].
  - eapply rep_agree; [|exact H1]. intros i Hi. apply lookup_app_l. by eapply rep_ids_lt.
  - cbn in *. destruct H2 as [H2 _]. split; [|done]. apply lookup_app_l_Some. done.
Qed.

Lemma zr_ext p t F q : (forall i, i < length p -> q !! i = p !! i) -> zr p t F -> zr q t F.
Proof.
  intros Hq (H1 & H2 & H3). split; [|split; [|done]].
  - eapply rep_agree; [|exact H1]. intros i Hi. apply Hq. by eapply rep_ids_lt.
  - clear H1 H3. revert H2. generalize (rid t). induction F as [|f F IH]; intros j; cbn; [done|].
    intros (A & B & C). split; [rewrite Hq; [done|by eapply lookup_lt_Some]|]. split; [|by apply IH].
    eapply rep_agree; [|exact B]. intros i Hi. apply Hq. by eapply rep_ids_lt.
Qed.

Lemma ss_insert key fs : dirs key fs -> ss (inorder (plug Leaf fs)) -> ss (cl fs ++ key :: cr fs).
Proof.
  intros Hd Hs. destruct (dirs_bounds _ _ _ Hd Hs) as [H1 H2].
  rewrite inorder_plug in Hs. cbn in Hs. apply ss_app in Hs as (A & B & C).
  apply ss_app. split; [done|]. split.
  - apply ss_cons. done.
  - intros x y Hx Hy. apply elem_of_cons in Hy as [->|Hy]; [|by apply C].
    apply (tw_lt cmp Hc). by apply H1.
Qed.

Lemma inorder_sz t t' : inorder t = inorder t' -> sz t = sz t'.
Proof. intros H. by rewrite <- !length_inorder, H. Qed.

(** mr_tree_add *)
Lemma tree_add_ok T s key al :
  trep T s -> (Z.of_nat (S (sz s)) < 2 ^ 31)%Z ->
  exists r T' s', tree_add cmp radd path0 T key al = Some (r, T') /\ trep T' s' /\
    match r with
    | None => al = false /\ fw_find cmp (inorder s) key = None /\ s' = s
    | Some i => exists n, pool T' !! i = Some n /\ pool T' <> [] /\
        ((fw_find cmp (inorder s) key = Some (nkey n) /\ s' = s) \/
         (fw_find cmp (inorder s) key = None /\ nkey n = key /\ inorder s' ≡ₚ key :: inorder s))
    end.
Proof.
  intros HT Hsz. unfold tree_add.
  (* root slot *)
  assert (exists T1, trep T1 s /\ pool T1 <> [] /\
    (match (if Nat.eqb (length (pool T)) 0 then
           match node_new T al with
           | Some (_, t) => Some t
           | None => if Nat.eqb (tcap T) 0 then None else Some T
           end
         else Some T) with Some T1' => T1' = T1 | None => al = false /\ s = Leaf end))
    as (T1 & HT1 & Hn1 & E1).
  { destruct (Nat.eqb_spec (length (pool T)) 0) as [H0|H0].
    - apply nil_length_inv in H0. destruct HT as (Hcap & Hi & Hs & HT).
      assert (s = Leaf) as ->.
      { destruct HT as [[_ ?]|[(_ & (Hw & _) & _) _]]; [done|]. rewrite H0 in Hw. by rewrite lookup_nil in Hw. }
      unfold node_new. rewrite H0. cbn [length Nat.add app].
      assert (Hroot : forall cap, 1 <= cap -> trep (Tree [zero_node] cap) Leaf).
      { intros cap Hcp. split; [done|]. split; [done|]. split; [done|]. right. split; [|done].
        split; [done|]. split; [|apply NoDup_singleton]. done. }
      destruct (grow al (tcap T) 1) as [cap'|] eqn:Eg.
      + exists (Tree [zero_node] cap'). split; [apply Hroot|done].
        unfold grow in Eg. destruct (Nat.ltb_spec (tcap T) 1); [destruct al|]; simplify_eq; lia.
      + unfold grow in Eg. destruct (Nat.ltb_spec (tcap T) 1) as [Ht|Ht]; [|done].
        destruct al; [done|]. destruct (Nat.eqb_spec (tcap T) 0) as [Ht0|Ht0]; [|lia].
        exists (Tree [zero_node] 1). split; [by apply Hroot|]. done.
    - exists T. split; [done|]. split; [|done]. by destruct (pool T). }
  match type of E1 with match ?X with _ => _ end => destruct X as [T1'|] eqn:EX end.
  2:{ destruct E1 as [-> ->]. eexists None, T, Leaf. split; [done|]. split; [done|]. done. }
  subst T1'. clear EX HT T. rename T1 into T, HT1 into HT.
  pose proof HT as HT0. destruct HT as (Hcap & Hi & Hs & [[? _]|[Hw Hlen]]); [done|].
  assert (Hh : ht s <= 60) by (apply Inv_height; [done|lia]).
  destruct (tree_find_ok s (pool T) path0 key (length (pool T)) Hw Hpath0 Hh) as (path & fs & s1 & ts & eq & E & L & P & Hp & Hd & M).
  { rewrite Hlen. destruct s; [by right|left; cbn; lia]. }
  rewrite E. bind. subst s.
  destruct s1 as [|i k x y l r].
  - destruct M as [-> ->]. pose proof (find_leaf _ _ Hd Hs) as Hnone.
    unfold node_new. destruct (grow al (tcap T) (length (pool T) + 1)) as [cap'|] eqn:Eg.
    2:{ eexists None, T, _. split; [done|]. split; [done|].
        unfold grow in Eg. destruct (tcap T <? length (pool T) + 1); [destruct al|]; simplify_eq. done. }
    set (idx := length (pool T)) in *.
    pose proof (ht_plug Leaf fs) as Hfl. cbn in Hfl.
    destruct (lookup_lt_is_Some_2 path (length fs + 1)) as [e He]; [unfold PATH in *; lia|].
    rewrite (upd_Some _ _ _ _ He). bind. cbn [pool].
    set (path1 := <[length fs + 1 := set_idx idx e]> path).
    assert (Hnew : (pool T ++ [zero_node]) !! idx = Some zero_node).
    { rewrite lookup_app_r by lia. unfold idx. by rewrite Nat.sub_diag. }
    rewrite (upd_Some _ _ _ _ Hnew). bind.
    set (p1 := <[idx := set_key key zero_node]> (pool T ++ [zero_node])).
    assert (Hp1 : path_ok path1 (fs ++ [S0])).
    { apply path_ok_ins; [rewrite app_length; cbn; lia|done]. }
    destruct (first_frame _ _ Hp1) as (F & FS & EF & Hpf).
    replace (length fs + 1 - 1) with (length fs) by lia.
    rewrite (path_idx_Some _ _ _ Hpf), (path_dir_Some _ _ _ Hpf). bind. cbn [fst snd].
    assert (Hidx : forall j, j ∈ ids (plug Leaf fs) -> j < idx).
    { intros j Hj. destruct Hw as (Hw & _). by eapply rep_ids_lt. }
    assert (Hz1 : zr p1 Leaf (fs ++ [S0])).
    { apply zr_plug. apply (zr_ext (pool T)); [|done]. intros j Hj. unfold p1.
      rewrite list_lookup_insert_ne by (unfold idx; lia). by apply lookup_app_l. }
    destruct (zr_link p1 Leaf F FS (Node idx key false false Leaf Leaf)) as (p2 & E2 & L2 & Hz2 & _).
    { destruct Hz1 as (_ & Hz1 & _). by rewrite EF in Hz1. }
    { cbn. split; [|done]. unfold p1. by erewrite ins_eq. }
    { cbn [ids app]. apply NoDup_cons. rewrite <- EF. destruct Hz1 as (_ & _ & Hz1). split; [|done].
      intros Hin. assert (Hf2 : fids (fs ++ [S0]) ≡ₚ fids fs ++ [0]).
      { clear. induction fs as [|f fs IH]; cbn; [done|]. rewrite IH. solve_Permutation. }
      rewrite Hf2, elem_of_app in Hin. destruct Hin as [Hin|Hin].
      - assert (idx ∈ ids (plug Leaf fs)) as Hj by (rewrite ids_plug; set_solver). apply Hidx in Hj. lia.
      - apply elem_of_list_singleton in Hin. unfold idx in Hin. lia. }
    cbn [rid] in E2. rewrite E2. bind. rewrite <- EF in Hz2.
    destruct (Hadd fs p2 path1 idx key Hz2 Hi Hp1) as (p3 & s' & E3 & L3 & Hw3 & Hsm & Hi3).
    { unfold path1. erewrite path_idx_Some by (by erewrite ins_eq). done. }
    { unfold PATH. lia. }
    rewrite E3. bind.
    assert (Hin : inorder s' = cl fs ++ key :: cr fs).
    { rewrite <- (same_keys _ _ Hsm), inorder_plug. done. }
    assert (Hlp3 : length p3 = S (S (sz (plug Leaf fs)))).
    { rewrite L3, L2. unfold p1. rewrite insert_length, app_length. cbn. unfold idx in *. lia. }
    assert (Hsz' : sz s' = S (sz (plug Leaf fs))).
    { rewrite <- length_inorder, Hin, <- length_inorder, inorder_plug, !app_length. cbn. lia. }
    exists (Some idx), (Tree p3 cap'), s'. split; [done|]. split.
    { split; [|split; [done|split; [by rewrite Hin; apply ss_insert|]]].
      - cbn [pool tcap]. unfold idx in *.
        unfold grow in Eg. destruct (Nat.ltb_spec (tcap T) (length (pool T) + 1)); [destruct al|]; simplify_eq; lia.
      - right. cbn [pool]. split; [done|]. lia. }
    cbn [pool].
    assert (Hik : (idx, key) ∈ inord s').
    { rewrite <- Hsm. clear.
      assert (Hg : forall t0, (idx, key) ∈ inord t0 -> (idx, key) ∈ inord (plug t0 fs)).
      { induction fs as [|f fs IH]; intros t0 H; cbn [plug]; [done|]. apply IH. unfold plug1.
        rewrite inord_ND. destruct (fd f); set_solver. }


      apply Hg. cbn. set_solver. }
    destruct (rep_inord _ _ _ _ (proj1 Hw3) Hik) as (n & Rn & Kn).
    exists n. split; [done|]. split; [by destruct p3|]. right. split; [done|]. split; [done|].
    rewrite Hin, inorder_plug. cbn. solve_Permutation.
  - destruct M as (-> & -> & Hk & Hpi).
    replace (length fs + 2 - 1) with (length fs + 1) by lia.
    rewrite (path_idx_Some _ _ _ Hpi). bind. cbn [fst].
    eexists (Some i), T, _. split; [done|]. split; [exact HT0|].
    exists (Nd k (rid l) (rid r) x y). split; [|split; [done|]].
    { apply zr_plug in Hw. by apply zr_read in Hw. }
    left. split; [|done]. by apply find_node.
Qed.

(** *** mr_tree_del *)
Definition erasef (f : frame) : frame := Fr 0 0 (fx f) (fy f) (fd f) (erase (fsib f)).
Lemma erase_plug t fs : erase (plug t fs) = plug (erase t) (map erasef fs).
Proof.
  revert t. induction fs as [|f fs IH]; intros t; cbn [plug map]; [done|]. rewrite IH. f_equal.
  unfold plug1, erasef. cbn. by destruct (fd f).
Qed.

Lemma rid_zero p t fs : zr p t (fs ++ [S0]) -> Nat.eqb (rid t) 0 = match t with Leaf => true | _ => false end.
Proof.
  intros H. destruct (Nat.eqb_spec (rid t) 0) as [E|E]; destruct t; try done.
  exfalso. by apply (zr_rid_nz _ _ _ H).
Qed.

Lemma succ_loop_ok fuel : forall p t fs path,
  t <> Leaf -> zr p t (fs ++ [S0]) -> path_ok path (fs ++ [S0]) -> length path = PATH ->
  length fs + 1 + ht t <= PATH -> ht t < fuel ->
  exists path' gs di dk dx dy mr, succ_loop fuel p (rid t) path (length fs + 1) = Some (di, path', length gs + length fs + 1) /\
    length path' = PATH /\ path_ok path' (gs ++ fs ++ [S0]) /\
    plug (Node di dk dx dy Leaf mr) gs = t /\ Forall (fun f => fd f = false) gs.
Proof.
  induction fuel as [|fuel IH]; intros p t fs path Ht Hz Hp Hl Hh Hf; [lia|].
  destruct t as [|i k x y l r]; [done|]. cbn [succ_loop rid].
  pose proof (zr_read _ _ _ _ _ _ _ _ Hz) as R. rewrite (get_next_Some _ _ _ _ R). bind. cbn [next nl].
  pose proof Hz as Hz1. rewrite (Node_ND false) in Hz1. apply zr_dn in Hz1. cbn [negb] in Hz1.
  rewrite (rid_zero _ _ (_ :: fs) Hz1).
  destruct l as [|li lk lx ly ll lr].
  - exists path, [], i, k, x, y, r. split_and!; done.
  - cbn [ht] in Hh, Hf. rewrite wr_Some by lia. bind.
    set (f := Fr i k x y false r) in *.
    destruct (IH p (Node li lk lx ly ll lr) (f :: fs) (<[length fs + 1 := (i, false)]> path))
      as (path' & gs & di & dk & dx & dy & mr & E & L & P & G & D).
    + done.
    + done.
    + cbn [app path_ok]. split.
      * rewrite app_length. cbn [length fid fd f]. apply list_lookup_insert. lia.
      * apply path_ok_ins; [rewrite app_length; cbn; lia|done].
    + by rewrite insert_length.
    + cbn [length ht]. lia.
    + cbn [ht]. lia.
    + cbn [length rid] in *. replace (S (length fs) + 1) with (S (length fs + 1)) in * by lia.
      exists path', (gs ++ [f]), di, dk, dx, dy, mr. rewrite E. split.
      { do 2 f_equal. rewrite app_length. cbn. lia. }
      split; [done|]. split; [by rewrite <- app_assoc|]. split; [rewrite plug_app, G; done|].
      apply Forall_app. split; [done|]. by constructor.
Qed.

Lemma cl_lefts gs : Forall (fun f => fd f = false) gs -> cl gs = [].
Proof. induction 1 as [|f gs Hf _ IH]; cbn; [done|]. by rewrite IH, Hf. Qed.

Lemma cl_app fs gs : cl (fs ++ gs) = cl gs ++ cl fs.
Proof. induction fs as [|f fs IH]; cbn; [by rewrite app_nil_r|]. by rewrite IH, app_assoc. Qed.
Lemma cr_app fs gs : cr (fs ++ gs) = cr fs ++ cr gs.
Proof. induction fs as [|f fs IH]; cbn; [done|]. by rewrite IH, app_assoc. Qed.
Lemma fids_app fs gs : fids (fs ++ gs) = fids fs ++ fids gs.
Proof. induction fs as [|f fs IH]; cbn; [done|]. by rewrite IH, <- app_assoc. Qed.

Lemma whole_take p s m : whole p s -> (forall i, i ∈ ids s -> i < m) -> 0 < m -> whole (take m p) s.
Proof.
  intros (H1 & H2 & H3) Hi Hm. split; [|split; [|done]].
  - eapply rep_agree; [|exact H1]. intros i Hin. apply lookup_take. by apply Hi.
  - cbn in *. destruct H2 as [H2 _]. split; [|done]. by rewrite lookup_take.
Qed.

Lemma inord_unique s i1 k1 i2 k2 :
  ss (inorder s) -> (i1, k1) ∈ inord s -> (i2, k2) ∈ inord s -> cmp k1 k2 = 0%Z -> i1 = i2.
Proof.
  intros Hs H1 H2 Hk. apply elem_of_list_lookup in H1 as [a Ha]. apply elem_of_list_lookup in H2 as [b Hb].
  assert (Ka : inorder s !! a = Some k1) by (rewrite <- inord_keys, list_lookup_fmap, Ha; done).
  assert (Kb : inorder s !! b = Some k2) by (rewrite <- inord_keys, list_lookup_fmap, Hb; done).
  destruct (Nat.lt_trichotomy a b) as [Hlt|[->|Hlt]].
  - pose proof (Hs a b k1 k2 Hlt Ka Kb). lia.
  - congruence.
  - pose proof (Hs b a k2 k1 Hlt Kb Ka). apply (tw_lt cmp Hc) in H. lia.
Qed.

Lemma inord_in_plug t fs e : e ∈ inord t -> e ∈ inord (plug t fs).
Proof.
  revert t. induction fs as [|f fs IH]; intros t H; cbn [plug]; [done|]. apply IH. unfold plug1.
  rewrite inord_ND. destruct (fd f); set_solver.
Qed.

(** Last part: the freed slot is filled with the last node of the pool. *)
Definition compact (p : list node) (path : path_t) (del : nat) (cap : nat) : option (bool * tree) :=
  let last := length p - 1 in
  if negb (Nat.eqb del last) then
    l ← rd p last;
    '(path, ts, equal) ← tree_find cmp p last (nkey l) path;
    if negb equal then Some (false, Tree (take last p) cap)
    else
      p ← wr p del l;
      parent ← path_idx path (ts - 2);
      pd ← path_dir path (ts - 2);
      p ← upd p parent (set_next pd del);
      Some (true, Tree (take last p) cap)
  else Some (true, Tree (take last p) cap).

Lemma compact_ok p path del cap s :
  whole p s -> Inv s -> ss (inorder s) -> length path = PATH -> (Z.of_nat (sz s) < 2 ^ 31)%Z ->
  length p = S (S (sz s)) -> del :: ids s ≡ₚ seq 1 (S (sz s)) -> length p <= S cap ->
  exists T s', compact p path del cap = Some (true, T) /\ trep T s' /\ inorder s' = inorder s /\ pool T <> [].
Proof.
  intros Hw Hi Hs Hlp Hsz Hlen Hids Hcap. unfold compact. set (last := length p - 1).
  assert (Elast : last = S (sz s)) by lia.
  assert (Hseq : seq 1 (S (sz s)) ≡ₚ last :: seq 1 (sz s)).
  { rewrite Elast. change (S (sz s)) with (1 + sz s) at 2.
    replace (S (sz s)) with (sz s + 1) at 1 by lia. rewrite seq_app. cbn [seq].
    rewrite Permutation_app_comm. done. }
  assert (Hnd : del ∉ ids s /\ NoDup (ids s)).
  { assert (H : NoDup (del :: ids s)) by (rewrite Hids; apply NoDup_seq). by apply NoDup_cons in H. }
  destruct Hnd as [Hdnot Hnd].
  assert (Hdr : 1 <= del <= last).
  { assert (H : del ∈ seq 1 (S (sz s))) by (rewrite <- Hids; left). apply elem_of_seq in H. lia. }
  destruct (Nat.eqb_spec del last) as [Ed|Ed]; cbn [negb].
  - eexists _, s. split; [done|]. cbn [pool].
    assert (Hids2 : ids s ≡ₚ seq 1 (sz s)).
    { rewrite Hseq, Ed in Hids. by apply Permutation_cons_inv in Hids. }
    split; [|split; [done|]].
    + split; [cbn [pool tcap]; rewrite take_length; lia|]. split; [done|]. split; [done|]. right.
      cbn [pool]. split; [|rewrite take_length; lia].
      apply whole_take; [done| |lia]. intros i Hin. rewrite Hids2 in Hin. apply elem_of_seq in Hin. lia.
    + rewrite Elast. destruct p; [done|]. done.
  - assert (Hlast : last ∈ ids s).
    { assert (H : last ∈ del :: ids s) by (rewrite Hids, Hseq; left).
      apply elem_of_cons in H as [H|H]; [congruence|done]. }
    rewrite <- inord_ids in Hlast. apply elem_of_list_fmap in Hlast as ([? lk] & Heq & Hlast).
    cbn in Heq. subst n.
    destruct (rep_inord _ _ _ _ (proj1 Hw) Hlast) as (ln & Rl & Kl). rewrite (rd_lu _ _ _ Rl). bind.
    assert (Hh : ht s <= 60) by (by apply Inv_height).
    destruct (tree_find_ok s p path (nkey ln) last Hw Hlp Hh) as (path1 & fs & s1 & ts & eq & E & L & P & Hp & Hd & M).
    { left. lia. }
    rewrite E. bind.
    destruct s1 as [|i k x y l r].
    { exfalso. subst s. pose proof (find_leaf _ _ Hd Hs) as Hn. rewrite fw_find_None in Hn.
      apply (Hn lk); [|rewrite Kl; apply (tw_refl cmp Hc)].
      rewrite <- inord_keys. apply elem_of_list_fmap. exists (last, lk). done. }
    destruct M as (-> & -> & Hk & Hpi). cbn [negb].
    assert (i = last) as ->.
    { apply (inord_unique s i k last lk); [done| |done|rewrite <- Kl; by apply (tw_zero cmp Hc)].
      subst s. apply inord_in_plug. cbn. set_solver. }
    rewrite wr_Some by lia. bind.
    set (p1 := <[del := ln]> p).
    replace (length fs + 2 - 2) with (length fs) by lia.
    destruct (first_frame _ _ Hp) as (F & FS & EF & Hpf).
    rewrite (path_idx_Some _ _ _ Hpf), (path_dir_Some _ _ _ Hpf). bind. cbn [fst snd].
    pose proof Hw as Hz. rewrite <- P in Hz. apply zr_plug in Hz.
    pose proof (zr_read _ _ _ _ _ _ _ _ Hz) as Rl2. rewrite Rl2 in Rl. injection Rl as <-. cbn [nkey] in Kl. subst lk.
    destruct Hz as (Hz1 & Hz2 & Hz3). cbn [rep] in Hz1. destruct Hz1 as (_ & Hzl & Hzr). cbn [rid] in Hz2.
    rewrite <- P in Hdnot. rewrite ids_plug in Hdnot. cbn [ids] in Hdnot.
    assert (Hf0 : fids (fs ++ [S0]) = fids fs ++ [0]) by (by rewrite fids_app).
    assert (Hdf : del ∉ fids (fs ++ [S0])).
    { rewrite Hf0. rewrite elem_of_app, elem_of_list_singleton. rewrite elem_of_app in Hdnot. intros [?|?]; [naive_solver|lia]. }
    assert (Hdl : del ∉ ids l /\ del ∉ ids r) by (clear -Hdnot; set_solver). destruct Hdl as [Hdl Hdr'].
    destruct (zr_link p1 (Node last k x y l r) F FS (Node del k x y l r)) as (p2 & E2 & L2 & Hz4 & _).
    { cbn [rid]. rewrite <- EF. by apply repf_ins. }
    { cbn [rep]. split; [unfold p1; apply list_lookup_insert; lia|]. split; by apply rep_ins. }
    { rewrite <- EF. cbn [ids] in Hz3 |- *.
      assert (Hpm1 : (ids l ++ last :: ids r) ++ fids (fs ++ [S0]) ≡ₚ last :: ids l ++ ids r ++ fids (fs ++ [S0])) by solve_Permutation.
      assert (Hpm2 : (ids l ++ del :: ids r) ++ fids (fs ++ [S0]) ≡ₚ del :: ids l ++ ids r ++ fids (fs ++ [S0])) by solve_Permutation.
      rewrite Hpm1 in Hz3. rewrite Hpm2. apply NoDup_cons in Hz3 as [_ Hz3]. apply NoDup_cons. split; [|done].
      rewrite !elem_of_app. naive_solver. }
    cbn [rid] in E2. rewrite E2. bind. rewrite <- EF in Hz4. apply zr_plug in Hz4.
    eexists _, (plug (Node del k x y l r) fs). split; [done|]. cbn [pool].
    assert (Hids2 : ids (plug (Node del k x y l r) fs) ≡ₚ seq 1 (sz s)).
    { rewrite Hseq in Hids. rewrite <- P in Hids at 1. rewrite ids_plug in Hids |- *. cbn [ids] in *.
      apply (Permutation_cons_inv (a := last)). rewrite <- Hids. solve_Permutation. }
    assert (Hin : inorder (plug (Node del k x y l r) fs) = inorder s).
    { rewrite <- P, !inorder_plug. done. }
    assert (Hl2 : length p2 = length p) by (rewrite L2; unfold p1; apply insert_length).
    split; [|split; [done|]].
    + split; [cbn [pool tcap]; rewrite take_length; lia|].
      split; [eapply Inv_erase; [|exact Hi]; rewrite <- P, !erase_plug; done|].
      split; [by rewrite Hin|]. right. cbn [pool].
      split; [|rewrite take_length, Hl2, (inorder_sz _ _ Hin); lia].
      apply whole_take; [done| |lia]. intros i Hi'. rewrite Hids2 in Hi'. apply elem_of_seq in Hi'. lia.
    + rewrite Elast. destruct p2; [cbn in Hl2; lia|]. done.
Qed.

Lemma tree_del_ok T s key :
  trep T s -> (Z.of_nat (sz s) < 2 ^ 31)%Z ->
  exists b T' s', tree_del cmp rdel path0 T key = Some (b, T') /\ trep T' s' /\
    ((b = false /\ fw_find cmp (inorder s) key = None /\ s' = s /\ T' = T) \/
     (b = true /\ pool T' <> [] /\ exists k, fw_find cmp (inorder s) key = Some k /\ inorder s ≡ₚ k :: inorder s')).
Proof.
  intros HT Hsz. unfold tree_del.
  destruct (decide (pool T = [])) as [Hnil|Hnil].
  { assert (s = Leaf) as ->.
    { destruct HT as (_ & _ & _ & [[_ ?]|[(_ & (Hw & _) & _) _]]); [done|]. rewrite Hnil in Hw. by rewrite lookup_nil in Hw. }
    rewrite Hnil. cbn [length tree_find Nat.leb]. unfold tree_find. rewrite wr_Some by (rewrite Hpath0; unfold PATH; lia).
    bind. cbn [Nat.leb negb]. exists false, T, Leaf. split; [done|]. split; [done|]. left. done. }
  pose proof (trep_ids _ _ HT Hnil) as Hids0.
  pose proof HT as HT0. destruct HT as (Hcap & Hi & Hs & [[? _]|[Hw Hlen]]); [done|].
  assert (Hh : ht s <= 60) by (by apply Inv_height).
  destruct (tree_find_ok s (pool T) path0 key (length (pool T)) Hw Hpath0 Hh) as (path & fs & s1 & ts & eq & E & L & P & Hp & Hd & M).
  { rewrite Hlen. destruct s; [by right|left; cbn; lia]. }
  rewrite E. bind.
  destruct s1 as [|i k x y l r].
  { destruct M as [-> ->]. cbn [negb]. exists false, T, s. split; [done|]. split; [done|]. left.
    subst s. pose proof (find_leaf _ _ Hd Hs). done. }
  destruct M as (-> & -> & Hk & Hpi). cbn [negb].
  replace (length fs + 2 - 1) with (length fs + 1) by lia.
  rewrite (path_idx_Some _ _ _ Hpi). bind. cbn [fst].
  pose proof Hw as Hz. rewrite <- P in Hz. apply zr_plug in Hz.
  pose proof (zr_read _ _ _ _ _ _ _ _ Hz) as R. rewrite (rd_lu _ _ _ R). bind. cbn [BTree.nl BTree.nr].
  assert (Hdep : length fs + 1 + (ht l `max` ht r) <= ht s).
  { rewrite <- P. pose proof (ht_plug (Node i k x y l r) fs). cbn [ht] in *. lia. }
  assert (Hfind : fw_find cmp (inorder s) key = Some k).
  { rewrite <- P in Hs |- *. by apply find_node. }
  assert (Zl : zr (pool T) l (Fr i k x y false r :: fs ++ [S0])).
  { rewrite (Node_ND false) in Hz. by apply zr_dn in Hz. }
  assert (Zr : zr (pool T) r (Fr i k x y true l :: fs ++ [S0])).
  { rewrite (Node_ND true) in Hz. by apply zr_dn in Hz. }
  rewrite (rid_zero _ _ (_ :: fs) Zl), (rid_zero _ _ (_ :: fs) Zr).
  (* both branches continue with: slot di detached, frames fs2, focus t *)
  assert (Htail : forall di dk dx dy l2 r2 t fs2 k2 path2 fsK,
    (l2 = Leaf /\ t = r2 \/ r2 = Leaf /\ t = l2) ->
    pool T !! di = Some (Nd dk (rid l2) (rid r2) dx dy) ->
    zr (pool T) (Node di dk dx dy l2 r2) (fs2 ++ [S0]) ->
    plug (Node di dk dx dy l2 r2) fs2 = s ->
    path_ok path2 (fs2 ++ [S0]) -> length path2 = PATH -> path_idx path2 (length fs2 + 1) = Some di ->
    k2 = dk ->
    (* writing the key of [di] into slot [i] turns frames fs2 into fsK *)
    (forall p, p !! di = Some (Nd dk (rid l2) (rid r2) dx dy) -> zr p t (fs2 ++ [S0]) ->
      exists p', upd p i (set_key k2) = Some p' /\ length p' = length p /\
        zr p' t (fsK ++ [S0]) /\ p' !! di = Some (Nd dk (rid l2) (rid r2) dx dy)) ->
    map erasef fsK = map erasef fs2 -> path_ok path2 (fsK ++ [S0]) -> length fsK = length fs2 ->
    fids fsK = fids fs2 -> ss (inorder (plug t fsK)) -> inorder s ≡ₚ k :: inorder (plug t fsK) ->
    exists b T' s',
     (parent ← path_idx path2 (length fs2 + 1 - 1);
      pd ← path_dir path2 (length fs2 + 1 - 1);
      d ← rd (pool T) di;
      p ← upd (pool T) parent (set_next pd (next d (negb (Nat.eqb (BTree.nr d) 0))));
      d ← rd p di;
      p ← upd p i (set_key (nkey d));
      p ← rdel p path2 (length fs2 + 1);
      compact p path2 di (tcap T)) = Some (b, T') /\ trep T' s' /\
     ((b = false /\ fw_find cmp (inorder s) key = None /\ s' = s /\ T' = T) \/
      (b = true /\ pool T' <> [] /\ exists k, fw_find cmp (inorder s) key = Some k /\ inorder s ≡ₚ k :: inorder s'))).
  { intros di dk dx dy l2 r2 t fs2 k2 path2 fsK Hlr Rd Zd Pd Hp2 Hl2 Hpi2 Hk2 Hupd Her HpK HlK HfK HsK HinK.
    replace (length fs2 + 1 - 1) with (length fs2) by lia.
    destruct (first_frame _ _ Hp2) as (F & FS & EF & Hpf).
    rewrite (path_idx_Some _ _ _ Hpf), (path_dir_Some _ _ _ Hpf). bind. cbn [fst snd].
    rewrite (rd_lu _ _ _ Rd). bind. cbn [BTree.nr].
    assert (Zr2 : zr (pool T) r2 (Fr di dk dx dy true l2 :: fs2 ++ [S0])).
    { rewrite (Node_ND true) in Zd. by apply zr_dn in Zd. }
    rewrite (rid_zero _ _ (_ :: fs2) Zr2).
    assert (En : next (Nd dk (rid l2) (rid r2) dx dy) (negb match r2 with Leaf => true | _ => false end) = rid t).
    { destruct Hlr as [[-> ->]|[-> ->]]; [by destruct r2|done]. }
    rewrite En.
    assert (Hndd : di ∉ ids t /\ di ∉ fids (fs2 ++ [S0]) /\ NoDup (ids t ++ fids (fs2 ++ [S0])) /\ rep (pool T) t).
    { destruct Zd as (Zd1 & _ & Zd3). cbn [ids rep] in *.
      assert (Hpm : (ids l2 ++ di :: ids r2) ++ fids (fs2 ++ [S0]) ≡ₚ di :: ids t ++ fids (fs2 ++ [S0])).
      { destruct Hlr as [[-> ->]|[-> ->]]; cbn; [done|]. solve_Permutation. }
      rewrite Hpm in Zd3. apply NoDup_cons in Zd3 as [Zd3 Zd4]. rewrite elem_of_app in Zd3.
      split_and!; try naive_solver. }
    destruct Hndd as (Hn1 & Hn2 & Hn3 & Hn4).
    destruct (zr_link (pool T) (Node di dk dx dy l2 r2) F FS t) as (p1 & E1 & L1 & Hz1 & Ep1).
    { rewrite <- EF. by destruct Zd as (_ & ? & _). }
    { done. }
    { by rewrite <- EF. }
    rewrite E1. bind. rewrite <- EF in Hz1.
    assert (Rd1 : p1 !! di = Some (Nd dk (rid l2) (rid r2) dx dy)).
    { rewrite Ep1, list_lookup_insert_ne; [done|]. intros <-. apply Hn2. rewrite EF. cbn. left. }
    rewrite (rd_lu _ _ _ Rd1). bind. cbn [nkey].
    destruct (Hupd p1 Rd1 Hz1) as (p2 & E2 & L2 & Hz2 & Rd2). subst k2. rewrite E2. bind.
    destruct (Hdel fsK p2 path2 di dk dx dy l2 r2 t (Nd dk (rid l2) (rid r2) dx dy) Hz2 Hlr) as (p3 & s3 & E3 & L3 & Hw3 & Hsm & Hi3).
    { eapply Inv_erase; [|exact Hi]. rewrite <- Pd, !erase_plug, Her. done. }
    { done. }
    { by rewrite HlK. }
    { exact Rd2. }
    { done. }
    { done. }
    { rewrite HlK. assert (length fs2 + 1 <= ht s).
      { rewrite <- Pd. pose proof (ht_plug (Node di dk dx dy l2 r2) fs2). cbn [ht] in *. lia. }
      unfold PATH. lia. }
    rewrite HlK in E3. rewrite E3. bind.
    assert (Hszd : sz s = S (sz s3)).
    { apply Permutation_length in HinK. cbn in HinK. rewrite (same_keys _ _ Hsm), !length_inorder in HinK. done. }
    destruct (compact_ok p3 path2 di (tcap T) s3) as (T' & s' & E4 & HT' & Hin' & Hnp).
    { done. } { done. } { by rewrite <- (same_keys _ _ Hsm). } { done. } { lia. }
    { rewrite L3, L2, L1, Hlen. lia. }
    { rewrite <- (same_ids _ _ Hsm), <- Hszd, <- Hids0, <- Pd, !ids_plug, HfK. cbn [ids].
      destruct Hlr as [[-> ->]|[-> ->]]; cbn; solve_Permutation. }
    { rewrite L3, L2, L1. lia. }
    exists true, T', s'. split; [exact E4|]. split; [done|]. right. split; [done|]. split; [done|].
    exists k. split; [done|]. rewrite Hin', <- (same_keys _ _ Hsm). done. }
  assert (Hstep : l = Leaf \/ r = Leaf -> exists t, (l = Leaf /\ t = r \/ r = Leaf /\ t = l)).
  { intros [->| ->]; eauto. }
  assert (Hdec : l = Leaf \/ r = Leaf \/ ~ (l = Leaf \/ r = Leaf)) by (destruct l; [by left|]; destruct r; [by right; left|]; right; right; intros [?|?]; done).
  apply or_assoc in Hdec. destruct Hdec as [Hlf|Hlf].
  - assert (Eb : match l with Leaf => true | _ => false end || match r with Leaf => true | _ => false end = true).
    { destruct Hlf as [->| ->]; [done|]. apply orb_true_r. }
    rewrite Eb. bind. destruct (Hstep Hlf) as (t & Ht).
    assert (Hinp : inorder s ≡ₚ k :: inorder (plug t fs)).
    { rewrite <- P, !inorder_plug. cbn. destruct Ht as [[-> ->]|[-> ->]]; cbn; solve_Permutation. }
    assert (Hss : ss (inorder (plug t fs))).
    { rewrite <- P, inorder_plug in Hs. rewrite inorder_plug. apply ss_app in Hs as (A & B & C).
      apply ss_app in B as (B1 & B2 & B3). cbn [inorder] in *. apply ss_app in B1 as (B4 & B5 & B6).
      apply ss_cons in B5 as [B5 _].
      assert (Hlr : inorder t = inorder l ++ inorder r).
      { destruct Ht as [[-> ->]|[-> ->]]; cbn; [done|]. by rewrite app_nil_r. }
      rewrite Hlr. apply ss_app. split; [done|]. split.
      - apply ss_app. split; [|split; [done|]].
        + apply ss_app. split; [done|]. split; [done|]. intros a b Ha Hb. apply B6; [done|by right].
        + intros a b Ha Hb. apply B3; [|done]. rewrite elem_of_app in *. destruct Ha; [by left|right; by right].
      - intros a b Ha Hb. apply C; [done|]. rewrite !elem_of_app in *. destruct Hb as [[?|?]|?]; [left; by left|left; right; by right|by right]. }
    apply (Htail i k x y l r t fs k path fs); try done.
    + by rewrite (path_idx_Some _ _ _ Hpi).
    + intros p Rp Zp. eexists. split; [by apply upd_Some|]. cbn [set_key BTree.nl BTree.nr b0 b1].
      rewrite list_insert_id by done. done.
  - assert (Eb : match l with Leaf => true | _ => false end || match r with Leaf => true | _ => false end = false).
    { destruct l; [exfalso; apply Hlf; by left|]. destruct r; [exfalso; apply Hlf; by right|done]. }
    rewrite Eb. rewrite (upd_Some _ _ _ _ Hpi). bind. unfold set_dir at 1. cbn [fst].
    set (path1 := <[length fs + 1 := (i, true)]> path).
    set (fr := Fr i k x y true l) in *.
    replace (length fs + 2) with (length (fr :: fs) + 1) by (cbn; lia).
    destruct (succ_loop_ok (S PATH) (pool T) r (fr :: fs) path1) as (path2 & gs & di & dk & dx & dy & mr & E2 & L2 & P2 & G2 & D2).
    { naive_solver. }
    { done. }
    { cbn [app path_ok]. split.
      - rewrite app_length. cbn [length]. unfold path1. erewrite ins_eq; done.
      - apply path_ok_ins; [rewrite app_length; cbn; lia|done]. }
    { unfold path1. by rewrite insert_length. }
    { cbn [length]. unfold PATH. lia. }
    { unfold PATH. lia. }
    rewrite E2. bind.
    set (fs2 := gs ++ fr :: fs).
    assert (El2 : length gs + length (fr :: fs) = length fs2) by (unfold fs2; by rewrite app_length).
    rewrite El2.
    assert (Hplug2 : plug (Node di dk dx dy Leaf mr) fs2 = s).
    { unfold fs2. rewrite plug_app, G2. cbn [plug]. exact P. }
    assert (Hd2 : length fs2 + 1 <= ht s).
    { rewrite <- Hplug2. pose proof (ht_plug (Node di dk dx dy Leaf mr) fs2). cbn [ht] in *. lia. }
    destruct (lookup_lt_is_Some_2 path2 (length fs2 + 1)) as [e He]; [unfold PATH in *; lia|].
    rewrite (upd_Some _ _ _ _ He). bind.
    set (path3 := <[length fs2 + 1 := set_idx di e]> path2).
    set (frK := Fr i dk x y true l). set (fsK := gs ++ frK :: fs).
    assert (Zd : zr (pool T) (Node di dk dx dy Leaf mr) (fs2 ++ [S0])) by (apply zr_plug; by rewrite Hplug2).
    assert (Hp3 : path_ok path3 (fs2 ++ [S0])).
    { apply path_ok_ins; [rewrite app_length; cbn; lia|]. unfold fs2. rewrite <- app_assoc. done. }
    assert (Hne : i <> di).
    { intros <-. destruct Zd as (_ & _ & Zd). cbn [ids] in Zd. apply NoDup_app in Zd as (_ & Zd & _).
      apply (Zd i); [cbn; left|]. unfold fs2. rewrite !fids_app. cbn.
      apply elem_of_app. left. apply elem_of_app. right. left. }
    assert (HinK : inorder s ≡ₚ k :: inorder (plug mr fsK)).
    { rewrite <- Hplug2, !inorder_plug. unfold fs2, fsK. rewrite !cl_app, !cr_app, !(cl_lefts _ D2).
      cbn [cl cr fd fr frK inorder fsib fk]. cbn [app]. solve_Permutation. }
    apply (Htail di dk dx dy Leaf mr mr fs2 dk path3 fsK); try done.
    + by left.
    + by apply zr_read in Zd.
    + unfold path3. by rewrite insert_length.
    + unfold path3. erewrite path_idx_Some by (by erewrite ins_eq). done.
    + intros p Rp Zp. unfold fs2 in Zp. rewrite <- app_assoc in Zp. apply zr_plug in Zp. cbn [app] in Zp.
      apply zr_up in Zp.
      destruct (zr_set p true i k x y (plug mr gs) l (fs ++ [S0]) (set_key dk) dk x y Zp) as (p' & Ep & Lp & Zp' & _).
      { done. }
      exists p'. split; [done|]. split; [done|]. split.
      * unfold fsK. rewrite <- app_assoc. apply zr_plug. cbn [app]. by apply zr_dn.
      * apply zr_read_ND in Zp. rewrite (upd_Some _ _ _ _ Zp) in Ep. injection Ep as <-.
        by rewrite list_lookup_insert_ne.
    + unfold fsK, fs2. rewrite !map_app. done.
    + unfold fsK. clearbody path3. unfold fs2 in Hp3. clear -Hp3. induction gs as [|g gs IH]; cbn in *; [naive_solver|].
      destruct Hp3 as [H1 H2]. split; [|by apply IH]. rewrite <- H1. f_equal. rewrite !app_length. cbn. lia.
    + unfold fsK, fs2. by rewrite !app_length.
    + unfold fsK, fs2. by rewrite !fids_app.
    + rewrite <- Hplug2 in Hs. rewrite inorder_plug in Hs |- *. unfold fs2, fsK in *.
      rewrite !cl_app, !cr_app, !(cl_lefts _ D2) in *. cbn [cl cr fd fr frK inorder fsib fk app] in *.
      rewrite app_nil_r in *. rewrite <- !app_assoc in *. cbn [app] in *.
      rewrite app_assoc in Hs. rewrite app_assoc. apply ss_app in Hs as (A & B & C).
      apply ss_cons in B as [B _]. apply ss_app. split; [done|]. split; [done|].
      intros a b Ha Hb. apply C; [done|by right].
Qed.

(** *** Collections *)
Lemma trep_keys T s : trep T s -> map nkey (drop 1 (pool T)) ≡ₚ inorder s.
Proof.
  intros HT. destruct (decide (pool T = [])) as [E|E].
  - destruct HT as (_ & _ & _ & [[_ ->]|[(_ & (Hw & _) & _) _]]); rewrite E; [done|].
    by rewrite E, lookup_nil in Hw.
  - pose proof (trep_ids _ _ HT E) as Hi. destruct HT as (_ & _ & _ & [[? _]|[(Hr & _ & _) Hl]]); [done|].
    rewrite <- (rep_keys _ _ Hr). rewrite Hi. clear Hi Hr. revert Hl. generalize (sz s) as m. intros m Hl.
    destruct (pool T) as [|n0 q]; [done|]. cbn [drop length] in *. injection Hl as <-. clear.
    assert (H : map nkey q = (fun i => from_option nkey 0%N ((n0 :: q) !! i)) <$> seq 1 (length q)); [|by apply Permutation_refl'].
    apply list_eq. intros i. rewrite list_lookup_fmap. change (map nkey q) with (nkey <$> q). rewrite list_lookup_fmap.
    destruct (q !! i) as [n|] eqn:E; cbn.
    + rewrite lookup_seq_lt by (by eapply lookup_lt_Some). cbn [fmap option_fmap option_map Nat.add]. change ((n0 :: q) !! S i) with (q !! i). by rewrite E.
    + apply lookup_ge_None in E. rewrite lookup_seq_ge by lia. done.
Qed.
Lemma tree_elems_perm T s : trep T s -> tree_elems T ≡ₚ inorder s.
Proof. intros H. unfold tree_elems. rewrite <- (trep_keys _ _ H). symmetry. apply Permutation_rev. Qed.

Lemma count_items_ok T s : trep T s -> pool T <> [] -> (Z.of_nat (sz s) < 2 ^ 31)%Z ->
  count_items T = N.of_nat (sz s).
Proof.
  intros (_ & _ & _ & [[? _]|[_ Hl]]) Hn Hs; [done|]. unfold count_items. rewrite Hl.
  replace (N.of_nat (S (sz s)) + (2 ^ 32 - 1))%N with (N.of_nat (sz s) + 1 * 2 ^ 32)%N by lia.
  rewrite N.mod_add by done. apply N.mod_small. lia.
Qed.

Lemma ic_find_ok ic s key : trep (tr ic) s -> (Z.of_nat (sz s) < 2 ^ 31)%Z ->
  ic_tree_find cmp path0 ic key = Some (fw_find cmp (inorder s) key).
Proof.
  intros HT Hsz. unfold ic_tree_find. destruct HT as (Hcap & Hi & Hs & HT).
  assert (Hh : ht s <= 60) by (by apply Inv_height).
  destruct HT as [[Hn ->]|[Hw Hl]].
  - rewrite Hn. unfold tree_find. rewrite wr_Some by (rewrite Hpath0; unfold PATH; lia). done.
  - destruct (tree_find_ok s (pool (tr ic)) path0 key (length (pool (tr ic))) Hw Hpath0 Hh)
      as (path & fs & s1 & ts & eq & E & L & P & Hp & Hd & M).
    { rewrite Hl. destruct s; [by right|left; cbn; lia]. }
    rewrite E. bind. destruct s1 as [|i k x y l r].
    + destruct M as [-> ->]. subst s. rewrite find_leaf; done.
    + destruct M as (-> & -> & Hk & Hpi). replace (length fs + 2 - 1) with (length fs + 1) by lia.
      rewrite (path_idx_Some _ _ _ Hpi). bind. cbn [fst].
      rewrite <- P in Hw. apply zr_plug in Hw. apply zr_read in Hw. rewrite (rd_lu _ _ _ Hw). bind. cbn [nkey].
      subst s. rewrite find_node; done.
Qed.

(** Counter is right unless the pool is empty. *)
Definition cnt (ic : tree_ic) (s : bt) : Prop :=
  titems ic = count_items (tr ic) \/ ic = tree_ic_new.

Lemma tree_step_ok ic t s o :
  trep (tr ic) t -> inorder t ≡ₚ s -> (Z.of_nat (S (sz t)) < 2 ^ 31)%Z ->
  exists r ic' t' s', tree_step cmp radd rdel path0 ic o = Some (r, ic') /\ fw_step cmp s o r s' /\
    trep (tr ic') t' /\ inorder t' ≡ₚ s' /\ sz t' <= S (sz t) /\
    match o with
    | Find _ => ic' = ic
    | Add _ al => titems ic' = count_items (tr ic') /\ (al = true -> pool (tr ic') <> [])
    | Del _ _ => titems ic' = count_items (tr ic') /\ (pool (tr ic) <> [] -> pool (tr ic') <> [])
    end.
Proof.
  intros HT Hp Hsz.
  assert (Hss : ss (inorder t)) by apply HT.
  assert (Hwf : fw_wf cmp (inorder t)) by (by apply ss_wf).
  assert (Hf : forall k, fw_find cmp (inorder t) k = fw_find cmp s k).
  { intros k. by apply (fw_find_perm cmp Hc). }
  destruct o as [k al|k al|k]; cbn [tree_step].
  - unfold ic_tree_add. destruct (tree_add_ok _ _ k al HT Hsz) as (r & T' & t' & E & HT' & M). rewrite E. bind.
    destruct r as [i|].
    + destruct M as (n & Hn & Hne & [[M1 ->]|(M1 & M2 & M3)]); rewrite (rd_lu _ _ _ Hn); bind.
      * eexists _, _, t, s. split; [done|]. split; [rewrite Hf in M1; by constructor|].
        split_and!; try done. lia.
      * eexists _, _, t', (k :: s). split; [done|]. rewrite Hf in M1. rewrite M2.
        split; [by constructor|]. split; [done|]. split; [by rewrite M3, Hp|].
        split; [|done]. apply Permutation_length in M3. cbn in M3. rewrite !length_inorder in M3. lia.
    + destruct M as (-> & M1 & ->). eexists _, _, t, s. split; [done|]. rewrite Hf in M1.
      split; [by constructor|]. split_and!; try done. lia.
  - unfold ic_tree_del. destruct (tree_del_ok (tr ic) t k HT) as (b & T' & t' & E & HT' & M); [lia|]. rewrite E. bind.
    destruct M as [(-> & M1 & -> & ->)|(-> & Hne & x & M1 & M2)].
    + eexists _, _, t, s. split; [done|]. rewrite Hf in M1. split; [by constructor|]. split_and!; try done. lia.
    + eexists _, _, t', (fw_remove cmp s k). split; [done|]. pose proof M1 as M1'. rewrite Hf in M1.
      split; [by econstructor|]. split; [done|]. split.
      * symmetry. apply (fw_remove_perm_cons cmp Hc _ _ x).
        -- by apply (fw_wf_perm cmp Hc (inorder t)).
        -- by rewrite <- Hp.
        -- by apply (fw_find_Some cmp) in M1' as [_ ?].
      * split; [|done]. apply Permutation_length in M2. cbn in M2. rewrite !length_inorder in M2. lia.
  - rewrite (ic_find_ok _ _ k HT) by lia. bind. eexists _, _, t, s. split; [done|]. rewrite Hf. split; [by constructor|].
    split_and!; try done. lia.
Qed.

(** An addition never empties the pool. *)
Lemma tree_add_pool T t k al r T' :
  trep T t -> (Z.of_nat (S (sz t)) < 2 ^ 31)%Z -> pool T <> [] ->
  tree_add cmp radd path0 T k al = Some (r, T') -> pool T' <> [].
Proof.
  intros HT Hsz Hn E. destruct (tree_add_ok T t k al HT Hsz) as (r2 & T2 & t2 & E2 & _ & M2).
  rewrite E in E2. injection E2 as <- <-. destruct r as [i|]; [by destruct M2 as (? & _ & ? & _)|].
  unfold tree_add in E. rewrite (proj2 (Nat.eqb_neq (length (pool T)) 0)) in E by (by destruct (pool T)).
  destruct (tree_find cmp (pool T) (length (pool T)) k path0) as [[[pa ts] eq]|]; [|done].
  cbn [mbind option_bind] in E. destruct eq.
  - by destruct (path_idx pa (ts - 1)).
  - destruct (node_new T al) as [[idx t3]|] eqn:En.
    + repeat (match type of E with context [mbind _ ?x] => destruct x; [|done] end; cbn [mbind option_bind] in E). done.
    + injection E as <-. done.
Qed.

Lemma tree_run_ok ops : forall ic t s,
  trep (tr ic) t -> inorder t ≡ₚ s -> (Z.of_nat (sz t + length ops) < 2 ^ 31)%Z ->
  exists rs ic' t' s', run (tree_step cmp radd rdel path0) ic ops = Some (rs, ic') /\ fw_run cmp s ops rs s' /\
    trep (tr ic') t' /\ inorder t' ≡ₚ s' /\ sz t' <= sz t + length ops /\
    (titems ic = N.of_nat (sz t) -> pool (tr ic) <> [] -> titems ic' = N.of_nat (sz t') /\ pool (tr ic') <> []).
Proof.
  induction ops as [|o ops IH]; intros ic t s HT Hp Hsz; cbn [run].
  - exists [], ic, t, s. split_and!; try done; [constructor|cbn; lia].
  - cbn [length] in Hsz. destruct (tree_step_ok ic t s o HT Hp) as (r & ic1 & t1 & s1 & E1 & F1 & T1 & P1 & S1 & C1); [lia|].
    rewrite E1. bind. destruct (IH ic1 t1 s1 T1 P1) as (rs & ic2 & t2 & s2 & E2 & F2 & T2 & P2 & S2 & C2); [lia|].
    rewrite E2. bind. eexists _, ic2, t2, s2. split; [done|]. split; [by econstructor|]. split; [done|]. split; [done|].
    split; [cbn [length]; lia|]. intros Hc1 Hn.
    assert (Hn1 : pool (tr ic1) <> []).
    { destruct o as [k al|k al|k]; [|by apply C1|by rewrite C1].
      cbn [tree_step] in E1. unfold ic_tree_add in E1.
      destruct (tree_add cmp radd path0 (tr ic) k al) as [[r' T']|] eqn:E; [|done]. cbn [mbind option_bind] in E1.
      assert (T' = tr ic1) as <-.
      { destruct r'; [destruct (rd (pool T') n); [|done]|]; cbn [mbind option_bind] in E1; by injection E1 as _ <-. }
      apply (tree_add_pool (tr ic) t k al r' T' HT); [lia|done|done]. }
    apply C2; [|done].
    destruct o as [k al|k al|k].
    + destruct C1 as [-> _]. apply count_items_ok; [done|done|lia].
    + destruct C1 as [-> _]. apply count_items_ok; [done|done|lia].
    + rewrite C1 in *. rewrite Hc1. f_equal.
      apply (f_equal (fun x => x)) in E1. destruct (tree_step_ok ic t s (Find k) HT Hp) as (? & ? & ? & ? & ? & _); [lia|].
      destruct HT as (_ & _ & _ & [[? _]|[_ L1]]); [done|]. destruct T1 as (_ & _ & _ & [[? _]|[_ L2]]); [done|]. lia.
Qed.

Lemma trep_empty c : trep (Tree [] c) Leaf.
Proof. split; [cbn; lia|]. split; [done|]. split; [intros i j x y _ H; cbn in H; by rewrite lookup_nil in H|]. by left. Qed.

Lemma fw_add1_perm s s' k : fw_wf cmp s -> s ≡ₚ s' -> fw_add1 cmp s k ≡ₚ fw_add1 cmp s' k.
Proof. intros Hw Hp. unfold fw_add1. rewrite (fw_find_perm cmp Hc s s') by done. destruct (fw_find cmp s' k); [done|by constructor]. Qed.

Lemma tree_index_loop_ok input al : forall ic t s,
  trep (tr ic) t -> inorder t ≡ₚ s -> (Z.of_nat (sz t + length input) < 2 ^ 31)%Z ->
  exists ok ic' t', tree_index_loop cmp radd path0 ic input al = Some (ok, ic') /\ trep (tr ic') t' /\
    (ok = false -> al = false) /\
    (ok = true -> inorder t' ≡ₚ fold_left (fw_add1 cmp) input s /\
      (input <> [] -> titems ic' = N.of_nat (sz t') /\ pool (tr ic') <> []) /\ (input = [] -> ic' = ic)).
Proof.
  induction input as [|k input IH]; intros ic t s HT Hp Hsz; cbn [tree_index_loop fold_left].
  - exists true, ic, t. done.
  - cbn [length] in Hsz. unfold ic_tree_add.
    destruct (tree_add_ok (tr ic) t k al HT) as (r & T' & t' & E & HT' & M); [lia|]. rewrite E. bind.
    assert (Hwf : fw_wf cmp (inorder t)) by (apply ss_wf; apply HT).
    assert (Hf : fw_find cmp (inorder t) k = fw_find cmp s k) by (by apply (fw_find_perm cmp Hc)).
    destruct r as [i|].
    + destruct M as (n & Hn & Hne & M). rewrite (rd_lu _ _ _ Hn). bind.
      assert (Hp' : inorder t' ≡ₚ fw_add1 cmp s k /\ sz t' <= S (sz t)).
      { unfold fw_add1. destruct M as [[M1 ->]|(M1 & M2 & M3)]; rewrite Hf in M1; rewrite M1; [split; [done|lia]|].
        split; [by rewrite M3, Hp|]. apply Permutation_length in M3. cbn in M3. rewrite !length_inorder in M3. lia. }
      destruct (IH (TreeIC T' (count_items T')) t' _ HT' (proj1 Hp')) as (ok & ic' & t2 & E2 & HT2 & A & B); [lia|].
      rewrite E2. exists ok, ic', t2. split; [done|]. split; [done|]. split; [done|]. intros Hok.
      destruct (B Hok) as (B1 & B2 & B3). split; [done|]. split; [|done]. intros _.
      destruct input as [|k2 input]; [|by apply B2].
      rewrite (B3 eq_refl) in *. cbn [tr titems] in *. split; [|done].
      rewrite (count_items_ok T' t2); [done|done|done|].
      assert (Hl : length (inorder t2) = length (inorder t')) by (apply Permutation_length; by rewrite B1, (proj1 Hp')).
      rewrite !length_inorder in Hl. lia.
    + destruct M as (-> & _ & ->). eexists false, _, t. split; [done|]. done.
Qed.

Lemma tree_index_ok ic input al :
  (Z.of_nat (length input) < 2 ^ 31)%Z ->
  exists ok ic' t', tree_index cmp radd path0 ic input al = Some (ok, ic') /\ trep (tr ic') t' /\
    (ok = false -> al = false) /\
    (ok = true -> inorder t' ≡ₚ fw_index cmp input /\
      (input <> [] -> titems ic' = N.of_nat (sz t') /\ pool (tr ic') <> [])).
Proof.
  intros Hl. unfold tree_index, tree_reserve.
  set (x := if Nat.eqb (length input) 0 then _ else _).
  assert (Hx : exists b c, x = (b, Tree [] c)).
  { unfold x. cbn [tcap pool]. repeat case_match; eauto. }
  destruct Hx as (b & c & ->).
  destruct (tree_index_loop_ok input al (TreeIC (Tree [] c) (titems ic)) Leaf []) as (ok & ic' & t' & E & HT & A & B).
  { apply trep_empty. } { done. } { cbn. lia. }
  rewrite E. exists ok, ic', t'. split; [done|]. split; [done|]. split; [done|]. intros Hok.
  destruct (B Hok) as (B1 & B2 & _). done.
Qed.

(** *** mr_tree_walk *)
Fixpoint stack_ok (p : list node) (stack : list nat) (B : nat) (stk : list bt) : Prop :=
  match stk with
  | [] => True
  | t :: rest => t <> Leaf /\ stack !! length rest = Some (rid t) /\ rep p t /\ Forall (fun i => i <> 0) (ids t) /\
      ht t + length rest <= B /\ stack_ok p stack B rest
  end.
Definition after (t : bt) : list N := match t with Leaf => [] | Node _ k _ _ _ r => k :: inorder r end.
Definition pending (stk : list bt) : list N := concat (map after stk).

Lemma stack_ok_ins p stack B stk i e : length stk <= i -> stack_ok p stack B stk -> stack_ok p (<[i := e]> stack) B stk.
Proof.
  induction stk as [|t stk IH]; cbn; [done|]. intros Hi (H1 & H2 & H3 & H4 & H5 & H6).
  split_and!; try done; [|apply IH; [lia|done]]. rewrite list_lookup_insert_ne by lia. done.
Qed.

Lemma walk_left_ok p B fuel : B <= PATH -> forall t stack stk,
  rep p t -> Forall (fun i => i <> 0) (ids t) -> length stack = PATH -> stack_ok p stack B stk ->
  ht t + length stk <= B -> ht t < fuel ->
  exists stack' stk', walk_left fuel p (rid t) stack (length stk) = Some (stack', length stk') /\
    length stack' = PATH /\ stack_ok p stack' B stk' /\ pending stk' = inorder t ++ pending stk.
Proof.
  intros HB. induction fuel as [|fuel IH]; intros t stack stk Hr Hz Hl Hs Hb Hf; [lia|].
  cbn [walk_left]. destruct t as [|i k x y l r]; cbn [rid].
  - cbn. exists stack, stk. done.
  - assert (Hi : i <> 0).
    { rewrite Forall_forall in Hz. apply Hz. cbn. set_solver. }
    rewrite (proj2 (Nat.eqb_neq i 0) Hi). cbn [ht] in Hb, Hf. rewrite wr_Some by lia. bind.
    pose proof Hr as (R & Rl & Rr). rewrite (rd_lu _ _ _ R). bind. cbn [next].
    pose proof Hz as Hz'. cbn [ids] in Hz'. apply Forall_app in Hz' as [Hzl _].
    destruct (IH l (<[length stk := i]> stack) (Node i k x y l r :: stk)) as (stack' & stk' & E & L & S & P); try done.
    + by rewrite insert_length.
    + split_and!; try done.
      * by apply list_lookup_insert; lia.
      * apply stack_ok_ins; [lia|done].
    + cbn [length]. lia.
    + lia.
    + cbn [length] in E. exists stack', stk'. split; [done|]. split; [done|]. split; [done|]. rewrite P.
      cbn. unfold pending. cbn. by rewrite <- app_assoc.
Qed.

Lemma walk_loop_ok p B fuel : B <= PATH -> forall t stack stk,
  rep p t -> Forall (fun i => i <> 0) (ids t) -> length stack = PATH -> stack_ok p stack B stk ->
  ht t + length stk <= B -> length (inorder t ++ pending stk) < fuel ->
  walk_loop fuel p (rid t) stack (length stk) = Some (inorder t ++ pending stk).
Proof.
  intros HB. induction fuel as [|fuel IH]; intros t stack stk Hr Hz Hl Hs Hb Hf; [lia|].
  cbn [walk_loop]. destruct (walk_left_ok p B (S PATH) HB t stack stk Hr Hz Hl Hs Hb) as (stack' & stk' & E & L & S & P); [lia|].
  rewrite E. bind. rewrite <- P in Hf |- *. destruct stk' as [|[|i k x y l r] stk']; cbn [length].
  - done.
  - by destruct S.
  - cbn [stack_ok] in S. destruct S as (_ & S1 & S2 & S3 & S4 & S5). rewrite (rd_lu _ _ _ S1). bind. cbn [rid].
    destruct S2 as (R & Rl & Rr). rewrite (rd_lu _ _ _ R). bind. cbn [next nkey BTree.nr].
    change (pending (Node i k x y l r :: stk')) with ((k :: inorder r) ++ pending stk') in *.
    cbn [app length ht] in *. cbn [ids] in S3. apply Forall_app in S3 as [_ S3]. apply Forall_cons in S3 as [_ S3].
    rewrite (IH r stack' stk'); try done; lia.
Qed.

Lemma tree_walk_ok T s : trep T s -> (Z.of_nat (sz s) < 2 ^ 31)%Z -> tree_walk T = Some (inorder s).
Proof.
  intros (Hcap & Hi & Hs & HT) Hsz. unfold tree_walk.
  destruct HT as [[-> ->]|[Hw Hl]]; [done|]. rewrite Hl.
  destruct (Nat.ltb_spec (S (sz s)) 2) as [H2|H2].
  - by destruct s; [|cbn in H2; lia].
  - pose proof Hw as (Hr & Hf & _). cbn [repf fid S0 fcell fd fk fsib fx fy rid] in Hf. destruct Hf as [Hf _].
    cbn in Hf. rewrite (get_next_Some _ _ _ _ Hf). bind. cbn [next nl].
    pose proof (walk_loop_ok (pool T) 60 (S (S (sz s))) ltac:(unfold PATH; lia) s (replicate PATH 0) []) as Hwalk.
    cbn [length] in Hwalk. rewrite Hwalk; [unfold pending; cbn; by rewrite app_nil_r|done| |done|done| |].
    + apply Forall_forall. intros i Hin. by apply (whole_nz _ _ _ Hw).
    + cbn. rewrite Nat.add_0_r. by apply Inv_height.
    + unfold pending. cbn. rewrite app_nil_r, length_inorder. lia.
Qed.

End btree.
