(** Proof layer: the validators of src/mr_btree.c accept exactly the valid trees. *)
From stdpp Require Import sets.
From Verif Require Import Base Spec FwFacts BTree BTreeRep BTreeRB BTreeAVL BTreeProof BTreeInst BTreeMore.

Lemma rep_id_key p t i : rep p t -> i ∈ ids t -> exists n, p !! i = Some n /\ nkey n ∈ inorder t.
Proof.
  induction t as [|j k x y l IHl r IHr]; cbn; [set_solver|]. intros (H1 & H2 & H3).
  rewrite elem_of_app, elem_of_cons. intros [H|[->|H]].
  - destruct (IHl H2 H) as (n & ? & ?). exists n. set_solver.
  - eexists. split; [exact H1|]. cbn. set_solver.
  - destruct (IHr H3 H) as (n & ? & ?). exists n. set_solver.
Qed.

Lemma mem_l {A} (x i : A) a b : x ∈ a -> x ∈ a ++ i :: b.
Proof. intros H. apply elem_of_app. by left. Qed.
Lemma mem_m {A} (i : A) a b : i ∈ a ++ i :: b.
Proof. apply elem_of_app. right. left. Qed.
Lemma mem_r {A} (x i : A) a b : x ∈ b -> x ∈ a ++ i :: b.
Proof. intros H. apply elem_of_app. right. by right. Qed.
Lemma mem_not {A} (x i : A) a b : x ∉ a ++ i :: b -> x ∉ a /\ x <> i /\ x ∉ b.
Proof. rewrite elem_of_app, elem_of_cons. intros H. split_and!; intros ?; apply H; [by left|right; by left|right; by right]. Qed.

Section valid.
Context (cmp : N -> N -> Z) (Hc : three_way cmp).
Notation ss := (ss cmp).
Context (p : list node) (nv : validator).
(** [hs t v]: the subtree passes and gets the height [v]. *)
Context (hs : bt -> nat -> Prop).
Context (hs_leaf : forall v, hs Leaf v <-> v = 1).
Context (hs_sub : forall i k x y l r v, hs (Node i k x y l r) v -> (exists vl, hs l vl) /\ (exists vr, hs r vr)).
Context (nv_ok : forall i k x y l r h vl vr,
  p !! i = Some (Nd k (rid l) (rid r) x y) -> rep p l -> rep p r -> ht l <= 62 -> ht r <= 62 ->
  h !! rid l = Some vl -> h !! rid r = Some vr -> hs l vl -> hs r vr -> i < length h ->
  (forall h', nv p i h = Some (true, h') -> exists v, h' = <[i := S v]> h /\ hs (Node i k x y l r) (S v)) /\
  (forall v, hs (Node i k x y l r) v -> 0 < v /\ nv p i h = Some (true, <[i := v]> h))).
Context (nv_total : forall i n h, length h = length p -> p !! i = Some n -> nl n < length p -> nr n < length p ->
  exists b h', nv p i h = Some (b, h') /\ length h' = length h).

Definition lo (b : nat) (k : N) : Prop := b = 0 \/ exists n, p !! b = Some n /\ (cmp (nkey n) k < 0)%Z.
Definition hi (b : nat) (k : N) : Prop := b = 0 \/ exists n, p !! b = Some n /\ (cmp k (nkey n) < 0)%Z.

Lemma order_lo left idx n : p !! idx = Some n ->
  out_of_order cmp p left idx left = Some false -> lo left (nkey n).
Proof.
  clear hs_leaf hs_sub nv_ok nv_total hs. intros Hn. unfold out_of_order. destruct (Nat.eqb_spec left 0) as [->|E]; [by left|].
  rewrite (rd_lu _ _ _ Hn). bind. destruct (rd p left) as [m|] eqn:Em; bind; [|done].
  intros [= H]. right. exists m. split; [done|]. apply (tw_lt cmp Hc). lia.
Qed.
Lemma order_hi right idx n : p !! idx = Some n ->
  out_of_order cmp p right right idx = Some false -> hi right (nkey n).
Proof.
  clear hs_leaf hs_sub nv_ok nv_total hs. intros Hn. unfold out_of_order. destruct (Nat.eqb_spec right 0) as [->|E]; [by left|].
  destruct (rd p right) as [m|] eqn:Em; bind; [|done].
  rewrite (rd_lu _ _ _ Hn). bind.
  intros [= H]. right. exists m. split; [done|]. apply (tw_lt cmp Hc). lia.
Qed.
Lemma lo_order left idx n : p !! idx = Some n -> lo left (nkey n) -> out_of_order cmp p left idx left = Some false.
Proof.
  clear hs_leaf hs_sub nv_ok nv_total hs. intros Hn. unfold out_of_order. destruct (Nat.eqb_spec left 0) as [->|E]; [done|]. intros [?|(m & Em & H)]; [done|].
  rewrite (rd_lu _ _ _ Hn). bind. rewrite (rd_lu _ _ _ Em). bind. apply (tw_lt cmp Hc) in H. f_equal. lia.
Qed.
Lemma hi_order right idx n : p !! idx = Some n -> hi right (nkey n) -> out_of_order cmp p right right idx = Some false.
Proof.
  clear hs_leaf hs_sub nv_ok nv_total hs. intros Hn. unfold out_of_order. destruct (Nat.eqb_spec right 0) as [->|E]; [done|]. intros [?|(m & Em & H)]; [done|].
  rewrite (rd_lu _ _ _ Em). bind. rewrite (rd_lu _ _ _ Hn). bind. apply (tw_lt cmp Hc) in H. f_equal. lia.
Qed.
Lemma lo_le b k k' : lo b k -> (cmp k k' < 0)%Z -> lo b k'.
Proof. intros [?|(n & ? & ?)] Hlt; [by left|]. right. exists n. split; [done|]. by eapply (tw_lt_trans cmp Hc). Qed.
Lemma hi_le b k k' : hi b k -> (cmp k' k < 0)%Z -> hi b k'.
Proof. intros [?|(n & ? & ?)] Hlt; [by left|]. right. exists n. split; [done|]. by eapply (tw_lt_trans cmp Hc). Qed.

Lemma leaf_sound left right room (h : list nat) : h !! 0 = Some 1 ->
  exists t v, rid t = 0 /\ rep p t /\ NoDup (ids t) /\ length h = length h /\
    (forall i, i ∈ ids t -> i <> 0 /\ h !! i = Some 0 /\ exists v, h !! i = Some (S v)) /\
    (forall i, i ∉ ids t -> h !! i = h !! i) /\ ht t <= room /\ ss (inorder t) /\
    (forall k, k ∈ inorder t -> lo left k /\ hi right k) /\ hs t v /\ h !! 0 = Some v.
Proof.
  clear nv_total nv_ok. intros H0. exists Leaf, 1. split; [done|]. split; [done|]. split; [apply NoDup_nil_2|]. split; [done|].
  split; [intros i Hi; by apply elem_of_nil in Hi|]. split; [done|]. split; [cbn; lia|].
  split; [intros i j x y _ Hx _; by destruct i|]. split; [intros i Hi; by apply elem_of_nil in Hi|].
  split; [by apply hs_leaf|done].
Qed.

Lemma valid_rec_sound room : forall idx left right h h',
  room <= 63 -> length h = length p -> h !! 0 = Some 1 ->
  valid_rec cmp nv room p idx left right h = Some (true, h') ->
  exists t v, rid t = idx /\ rep p t /\ NoDup (ids t) /\ length h' = length h /\
    (forall i, i ∈ ids t -> i <> 0 /\ h !! i = Some 0 /\ exists v, h' !! i = Some (S v)) /\
    (forall i, i ∉ ids t -> h' !! i = h !! i) /\ ht t <= room /\ ss (inorder t) /\
    (forall k, k ∈ inorder t -> lo left k /\ hi right k) /\ hs t v /\ h' !! idx = Some v.
Proof.
  clear nv_total. induction room as [|room IH]; intros idx left right h h' Hr Hl H0; cbn [valid_rec].
  - destruct (Nat.eqb_spec idx 0) as [->|E]; [|done]. intros [= <-]. by apply leaf_sound.
  - destruct (Nat.eqb_spec idx 0) as [->|E]; [intros [= <-]; by apply leaf_sound|].
    destruct (rd h idx) as [hv|] eqn:Eh; bind; [|done]. change (h !! idx = Some hv) in Eh.
    destruct (Nat.eqb_spec hv 0) as [->|Ehv]; cbn [negb]; [|done].
    destruct (lookup_lt_is_Some_2 p idx) as [n Hn]; [rewrite <- Hl; by eapply lookup_lt_Some|].
    destruct (out_of_order cmp p left idx left) as [[|]|] eqn:O1; bind; try done.
    destruct (out_of_order cmp p right right idx) as [[|]|] eqn:O2; bind; try done.
    pose proof (order_lo _ _ _ Hn O1) as L0. pose proof (order_hi _ _ _ Hn O2) as R0.
    rewrite (get_next_Some _ _ _ false Hn). bind. cbn [next].
    destruct (valid_rec cmp nv room p (nl n) left idx h) as [[[|] h1]|] eqn:E1; bind; cbn [negb]; try done.
    apply IH in E1 as (l & vl & Rl & Pl & Dl & Ll & Il & Ol & Tl & Sl & Bl & Vl & Hvl); [|lia|done|done].
    rewrite (get_next_Some _ _ _ true Hn). bind. cbn [next].
    destruct (valid_rec cmp nv room p (nr n) idx right h1) as [[[|] h2]|] eqn:E2; bind; cbn [negb]; try done.
    assert (Z0 : 0 ∉ ids l) by (intros (Hx & _ & _)%Il; by apply Hx).
    apply IH in E2 as (r & vr & Rr & Pr & Dr & Lr & Ir & Or & Tr & Sr & Br & Vr & Hvr);
      [|lia|congruence|by rewrite Ol].
    assert (Z1 : 0 ∉ ids r) by (intros (Hx & _ & _)%Ir; by apply Hx).
    assert (Xl : idx ∉ ids l).
    { intros Hx. destruct (rep_id_key _ _ _ Pl Hx) as (m & Hm & Hk). assert (m = n) as -> by congruence.
      destruct (Bl _ Hk) as [_ [?|(m & Hm' & H)]]; [done|]. assert (m = n) as -> by congruence.
      rewrite (tw_refl cmp Hc) in H. lia. }
    assert (Xr : idx ∉ ids r).
    { intros Hx. destruct (rep_id_key _ _ _ Pr Hx) as (m & Hm & Hk). assert (m = n) as -> by congruence.
      destruct (Br _ Hk) as [[?|(m & Hm' & H)] _]; [done|]. assert (m = n) as -> by congruence.
      rewrite (tw_refl cmp Hc) in H. lia. }
    assert (Dlr : forall i, i ∈ ids l -> i ∉ ids r).
    { intros i Hi Hi'. destruct (Il _ Hi) as (_ & _ & v & Hv). destruct (Ir _ Hi') as (_ & Hv' & _). congruence. }
    assert (Hn' : p !! idx = Some (Nd (nkey n) (rid l) (rid r) (b0 n) (b1 n))) by (rewrite Hn, Rl, Rr; by destruct n).
    assert (Nl : rid l ∉ ids r).
    { destruct l as [|li lk lx ly ll lr]; [done|]. apply Dlr. apply mem_m. }
    destruct (nv_ok idx (nkey n) (b0 n) (b1 n) l r h2 vl vr) as [Nv _]; try done; try lia.
    { rewrite Or by done. by rewrite Rl. } { by rewrite Rr. }
    { rewrite Lr, Ll. by eapply lookup_lt_Some. }
    intros Ev. destruct (Nv _ Ev) as (v & -> & Hv). exists (Node idx (nkey n) (b0 n) (b1 n) l r), (S v).
    assert (Li : idx < length h2) by (rewrite Lr, Ll; by eapply lookup_lt_Some).
    split_and!; try done.
    + cbn. apply NoDup_app. split; [done|]. split; [|apply NoDup_cons; by split].
      intros i Hi. rewrite elem_of_cons. intros [->|Hi']; [done|by eapply Dlr].
    + rewrite insert_length. congruence.
    + intros i. cbn. rewrite elem_of_app, elem_of_cons. intros [Hi|[->|Hi]].
      * destruct (Il _ Hi) as (I1 & I2 & v' & I3). split_and!; try done. exists v'.
        rewrite list_lookup_insert_ne by (intros ->; done). rewrite Or; [done|by apply Dlr].
      * split_and!; try done. exists v. by apply list_lookup_insert.
      * destruct (Ir _ Hi) as (I1 & I2 & v' & I3). split_and!; try done.
        -- rewrite <- Ol; [done|]. intros Hi'. by eapply Dlr.
        -- exists v'. rewrite list_lookup_insert_ne by (intros ->; done). done.
    + intros i. cbn. intros (Hi1 & Hi2 & Hi3)%mem_not.
      rewrite list_lookup_insert_ne by (by intros ->). by rewrite Or, Ol.
    + cbn. lia.
    + cbn. apply ss_app. split; [done|]. split.
      * apply ss_cons. split; [done|]. intros k Hk. destruct (Br _ Hk) as [[?|(m & Hm & H)] _]; [done|].
        assert (m = n) as -> by congruence. done.
      * intros k1 k2 Hk1. destruct (Bl _ Hk1) as [_ [?|(m & Hm & H)]]; [done|]. assert (m = n) as -> by congruence.
        rewrite elem_of_cons. intros [->|Hk2]; [done|].
        destruct (Br _ Hk2) as [[?|(m & Hm' & H')] _]; [done|]. assert (m = n) as -> by congruence.
        by eapply (tw_lt_trans cmp Hc).
    + intros k. cbn. rewrite elem_of_app, elem_of_cons. intros [Hk|[->|Hk]]; [|done|].
      * destruct (Bl _ Hk) as [? [?|(m & Hm & H)]]; [done|]. assert (m = n) as -> by congruence.
        split; [done|]. by eapply hi_le.
      * destruct (Br _ Hk) as [[?|(m & Hm & H)] ?]; [done|]. assert (m = n) as -> by congruence.
        split; [|done]. by eapply lo_le.
    + by apply list_lookup_insert.
Qed.

Lemma valid_rec_complete : forall t room left right h v,
  room <= 63 -> ht t <= room -> length h = length p -> h !! 0 = Some 1 ->
  rep p t -> NoDup (ids t) -> 0 ∉ ids t -> (forall i, i ∈ ids t -> h !! i = Some 0) ->
  ss (inorder t) -> (forall k, k ∈ inorder t -> lo left k /\ hi right k) -> hs t v ->
  exists h', valid_rec cmp nv room p (rid t) left right h = Some (true, h') /\ length h' = length h /\
    (forall i, i ∉ ids t -> h' !! i = h !! i) /\ (forall i, i ∈ ids t -> exists w, h' !! i = Some (S w)) /\
    h' !! rid t = Some v.
Proof.
  clear nv_total. induction t as [|i k x y l IHl r IHr]; intros room left right h v Hr Ht Hl H0 Hp Hd Hz Hh Hs Hb Hv.
  - exists h. apply hs_leaf in Hv as ->. destruct room; (split; [done|]; split; [done|]; split; [done|]; split; [|done]; intros i Hi; by apply elem_of_nil in Hi).
  - destruct room as [|room]; [cbn in Ht; lia|]. cbn [rid valid_rec]. cbn [ids] in *. cbn [inorder] in *. cbn [ht] in Ht.
    destruct Hp as (Hn & Pl & Pr).
    apply mem_not in Hz as (Z1 & Z2 & Z3). assert (Hi : i <> 0) by (by intros ->). destruct (Nat.eqb_spec i 0); [done|].
    rewrite (rd_lu _ _ _ (Hh i (mem_m _ _ _))). bind. cbn [Nat.eqb negb].
    destruct (Hb k (mem_m _ _ _)) as [B1 B2].
    rewrite (lo_order _ _ _ Hn B1). bind. rewrite (hi_order _ _ _ Hn B2). bind.
    rewrite (get_next_Some _ _ _ false Hn). bind. cbn [next nl].
    apply NoDup_app in Hd as (Dl & Dlr & Dr). apply NoDup_cons in Dr as [Xr Dr].
    apply ss_app in Hs as (Sl & Sr & Slr). apply ss_cons in Sr as [Sr Skr].
    destruct (hs_sub _ _ _ _ _ _ _ Hv) as [[vl Vl] [vr Vr]].
    destruct (IHl room left i h vl) as (h1 & E1 & L1 & O1 & I1 & V1); try done; try lia.
    { intros j Hj. by apply Hh, mem_l. }
    { intros k' Hk'. split; [by apply Hb, mem_l|]. right. eexists. split; [exact Hn|]. apply Slr; [done|left]. }
    rewrite E1. bind. cbn [negb]. rewrite (get_next_Some _ _ _ true Hn). bind. cbn [next nr].
    destruct (IHr room i right h1 vr) as (h2 & E2 & L2 & O2 & I2 & V2); try done; try lia.
    { by rewrite O1. }
    { intros j Hj. rewrite O1; [by apply Hh, mem_r|]. intros Hj'. apply (Dlr _ Hj'). by right. }
    { intros k' Hk'. split; [|by apply Hb, mem_r]. right. eexists. split; [exact Hn|]. by apply Skr. }
    rewrite E2. bind. cbn [negb].
    assert (Nl : rid l ∉ ids r).
    { destruct l as [|li lk lx ly ll lr]; [done|]. intros Hx. apply (Dlr li); [apply mem_m|by right]. }
    assert (Li : i < length h2) by (rewrite L2, L1, Hl; by eapply lookup_lt_Some).
    destruct (nv_ok i k x y l r h2 vl vr) as [_ Nv]; try done; try lia.
    { by rewrite O2. }
    destruct (Nv _ Hv) as [Vp ->]. eexists. split; [done|]. split; [rewrite insert_length; congruence|].
    split_and!.
    + intros j (J1 & J2 & J3)%mem_not. rewrite list_lookup_insert_ne by (by intros ->). by rewrite O2, O1.
    + intros j. rewrite elem_of_app, elem_of_cons. intros Hj. destruct (decide (i = j)) as [->|Hij].
      { exists (v - 1). rewrite list_lookup_insert by done. f_equal. lia. }
      rewrite list_lookup_insert_ne by done. destruct (decide (j ∈ ids r)) as [Hjr|Hjr]; [by apply I2|].
      rewrite O2 by done. apply I1. by destruct Hj as [?|[->|?]].
    + by apply list_lookup_insert.
Qed.

Lemma valid_rec_total : (forall i n, p !! i = Some n -> nl n < length p /\ nr n < length p) ->
  forall room idx left right h, idx < length p -> left < length p -> right < length p -> length h = length p ->
  exists b h', valid_rec cmp nv room p idx left right h = Some (b, h') /\ length h' = length h.
Proof.
  clear hs_leaf hs_sub nv_ok hs. intros Hin. induction room as [|room IH]; intros idx left right h Hi Hleft Hright Hl; cbn [valid_rec].
  - destruct (Nat.eqb idx 0); eauto.
  - destruct (Nat.eqb idx 0); [eauto|].
    destruct (lookup_lt_is_Some_2 h idx) as [hv Hv]; [lia|]. rewrite (rd_lu _ _ _ Hv). bind.
    destruct (Nat.eqb hv 0); cbn [negb]; [|eauto].
    assert (Oo : forall b x y, x < length p -> y < length p -> exists c, out_of_order cmp p b x y = Some c).
    { intros b x y Hx Hy. unfold out_of_order. destruct (Nat.eqb b 0); [eauto|].
      destruct (lookup_lt_is_Some_2 p x Hx) as [nx Nx]. destruct (lookup_lt_is_Some_2 p y Hy) as [ny Ny].
      rewrite (rd_lu _ _ _ Nx). bind. rewrite (rd_lu _ _ _ Ny). bind. eauto. }
    destruct (Oo left idx left) as [[|] ->]; try done; bind; [eauto|].
    destruct (Oo right right idx) as [[|] ->]; try done; bind; [eauto|].
    destruct (lookup_lt_is_Some_2 p idx Hi) as [n Hn]. destruct (Hin _ _ Hn) as [N1 N2].
    rewrite (get_next_Some _ _ _ false Hn). bind. cbn [next].
    destruct (IH (nl n) left idx h) as ([|] & h1 & -> & L1); try done; bind; cbn [negb]; [|eauto].
    rewrite (get_next_Some _ _ _ true Hn). bind. cbn [next].
    destruct (IH (nr n) idx right h1) as ([|] & h2 & -> & L2); try done; try lia; bind; cbn [negb]; [|exists false, h2; split; [done|lia]].
    destruct (nv_total idx n h2) as (b & h3 & -> & L3); try done; [lia|]. exists b, h3. split; [done|]. lia.
Qed.

Lemma btree_is_valid_eq root rest alloc : p = root :: rest -> btree_is_valid cmp nv p alloc =
  if existsb (fun n => Nat.leb (length p) (nl n) || Nat.leb (length p) (nr n))%bool p then Some false
  else if negb alloc then Some false
  else
    '(ok, height) ← valid_rec cmp nv PATH p (nl root) 0 0 (1 :: replicate (length p - 1) 0);
    Some (ok && forallb (fun h => negb (Nat.eqb h 0)) height)%bool.
Proof. clear. intros ->. done. Qed.
Lemma pool_cases : p = [] \/ exists root rest, p = root :: rest.
Proof. clear. destruct p; eauto. Qed.

Lemma btree_is_valid_total alloc : exists b, btree_is_valid cmp nv p alloc = Some b.
Proof.
  clear hs_leaf hs_sub nv_ok hs.
  destruct pool_cases as [Ep|(root & rest & Ep)]; [clear -Ep; rewrite Ep; eauto|].
  rewrite (btree_is_valid_eq _ _ _ Ep).
  destruct (existsb _ _) eqn:Ex; [eauto|]. destruct alloc; cbn [negb]; [|eauto].
  assert (Hin : forall i n, p !! i = Some n -> nl n < length p /\ nr n < length p).
  { intros i n Hn. apply elem_of_list_lookup_2, elem_of_list_In in Hn.
    assert (F : (length p <=? nl n) || (length p <=? nr n) = false).
    { destruct (_ || _) eqn:E; [|done]. rewrite <- Ex. symmetry. apply existsb_exists. by exists n. }
    apply orb_false_iff in F as [F1 F2]. apply Nat.leb_gt in F1, F2. done. }
  destruct (valid_rec_total Hin PATH (nl root) 0 0 (1 :: replicate (length p - 1) 0)) as (b & h' & -> & _).
  - apply (Hin 0). by rewrite Ep.
  - rewrite Ep. cbn. lia.
  - rewrite Ep. cbn. lia.
  - cbn. rewrite replicate_length, Ep. cbn. lia.
  - bind. eauto.
Qed.

Lemma btree_is_valid_iff : btree_is_valid cmp nv p true = Some true <->
  exists t, linked p t /\ strictly_sorted_by cmp (inorder t) /\ ht t <= 63 /\ (exists v, hs t v) /\
    (forall n, p !! 0 = Some n -> nr n < length p).
Proof.
  clear nv_total. destruct pool_cases as [Ep|(root & rest & Ep)].
  { clear -Ep hs_leaf. rewrite Ep. split; [intros _|done]. exists Leaf. split_and!; [by left| |cbn; lia|exists 1; by apply hs_leaf|done].
    intros i j a b _ Ha _. by destruct i. }
  rewrite (btree_is_valid_eq _ _ _ Ep). cbn [negb].
  assert (Hlen : length p = S (length rest)) by (rewrite Ep; done).
  assert (H0 : p !! 0 = Some root) by (rewrite Ep; done).
  split.
  - destruct (existsb _ _) eqn:Ex; [done|].
    destruct (valid_rec _ _ _ _ _ _ _ _) as [[[|] h']|] eqn:Ev; bind; cbn [andb]; try done.
    intros [= Hall]. apply valid_rec_sound in Ev as (t & v & Rt & Pt & Dt & Lt & It & Ot & Tt & St & Bt & Vt & _);
      [|unfold PATH; lia|cbn; rewrite replicate_length; lia|done].
    exists t. split_and!; try done; [|by exists v|].
    + right. split; [done|]. split; [by exists root|]. split; [|by rewrite Ep].
      apply NoDup_Permutation; [done|apply NoDup_seq|]. intros i. rewrite elem_of_seq. split.
      * intros Hi. destruct (It _ Hi) as (? & _ & _). pose proof (rep_ids_lt _ _ _ Pt Hi). lia.
      * intros Hi. destruct (decide (i ∈ ids t)) as [|Hn]; [done|]. exfalso.
        assert (E : h' !! i = Some 0).
        { rewrite Ot by done. destruct i as [|i]; [lia|]. cbn. apply lookup_replicate. split; [done|lia]. }
        rewrite forallb_forall in Hall. apply elem_of_list_lookup_2, elem_of_list_In, Hall in E. done.
    + intros n Hn. assert (n = root) as -> by congruence.
      destruct (Nat.ltb_spec (nr root) (length p)) as [|Hge]; [done|]. exfalso.
      assert (existsb (fun n => (length p <=? nl n) || (length p <=? nr n)) p = true); [|congruence].
      apply existsb_exists. exists root. split; [rewrite Ep; by left|]. apply orb_true_iff. right. by apply Nat.leb_le.
  - intros (t & Hli & Hs & Ht & [v Hv] & Hnr).
    destruct Hli as [[? _]|(Pt & (n & Hn & Hnl) & Hids & _)]; [congruence|]. assert (n = root) as -> by congruence.
    assert (Hmem : forall i, i ∈ ids t <-> 1 <= i < length p).
    { intros i. rewrite Hids, elem_of_seq. lia. }
    assert (Hz : 0 ∉ ids t) by (rewrite Hmem; lia).
    assert (Hrid : forall s, rep p s -> rid s < length p).
    { intros [|i k x y l r]; cbn; [lia|]. intros [H _]. by eapply lookup_lt_Some. }
    assert (Hchild : forall s, rep p s -> forall i n, i ∈ ids s -> p !! i = Some n -> nl n < length p /\ nr n < length p).
    { induction s as [|i k x y l IHl r IHr]; cbn [rep ids]; [set_solver|]. intros (P0 & P1 & P2) j m.
      rewrite elem_of_app, elem_of_cons. intros [Hj|[->|Hj]]; [by apply IHl| |by apply IHr].
      rewrite P0. intros [= <-]. cbn. split; by apply Hrid. }
    assert (existsb (fun n => (length p <=? nl n) || (length p <=? nr n)) p = false) as ->.
    { apply not_true_iff_false. intros (m & Hm & Hbad)%existsb_exists. apply elem_of_list_In, elem_of_list_lookup in Hm as [i Hi].
      assert (nl m < length p /\ nr m < length p) as [N1 N2].
      { destruct i as [|i]; [assert (m = root) as -> by congruence; split; [rewrite Hnl; by apply Hrid|by apply Hnr]|].
        apply (Hchild t Pt (S i)); [|done]. apply Hmem. apply lookup_lt_Some in Hi. lia. }
      apply orb_true_iff in Hbad as [H|H]; apply Nat.leb_le in H; lia. }
    destruct (valid_rec_complete t PATH 0 0 (1 :: replicate (length p - 1) 0) v) as (h' & E & L & O & I & _); try done.
    + cbn. rewrite replicate_length. lia.
    + rewrite Hids. apply NoDup_seq.
    + intros i Hi. apply Hmem in Hi. destruct i as [|i]; [lia|]. cbn. apply lookup_replicate. split; [done|lia].
    + intros k _. split; by left.
    + rewrite Hnl, E. bind. f_equal. cbn [andb]. apply forallb_forall. intros w Hw.
      apply elem_of_list_In, elem_of_list_lookup in Hw as [i Hi].
      assert (i < length p) as Hip by (apply lookup_lt_Some in Hi; rewrite L in Hi; cbn in Hi; rewrite replicate_length in Hi; lia).
      destruct i as [|i]; [rewrite O in Hi by done; by injection Hi as <-|].
      destruct (I (S i)) as [w' Hw']; [apply Hmem; lia|]. rewrite Hw' in Hi. by injection Hi as <-.
Qed.
End valid.

(** *** Red-black trees; [c0] is the colour of slot 0, which stands for all leaves *)
Definition redc (c0 : bool) (t : bt) : bool := match t with Leaf => c0 | Node _ _ _ y _ _ => y end.
Fixpoint hrb (c0 : bool) (t : bt) (v : nat) : Prop :=
  match t with
  | Leaf => v = 1
  | Node _ _ _ y l r => exists w, hrb c0 l w /\ hrb c0 r w /\
      (y = true -> redc c0 l = false /\ redc c0 r = false) /\ v = w + (if y then 0 else 1)
  end.
Lemma hrb_range c0 t v : hrb c0 t v -> 0 < v <= S (ht t).
Proof.
  revert v. induction t as [|i k x y l IHl r IHr]; intros v; cbn [hrb ht].
  - lia.
  - intros (w & H1 & H2 & _ & ->). apply IHl in H1. apply IHr in H2. destruct y; lia.
Qed.
Lemma hrb_fun c0 t v w : hrb c0 t v -> hrb c0 t w -> v = w.
Proof.
  revert v w. induction t as [|i k x y l IHl r IHr]; intros v w; cbn [hrb]; [congruence|].
  intros (a & A1 & _ & _ & ->) (b & B1 & _ & _ & ->). by rewrite (IHl _ _ A1 B1).
Qed.
Lemma hrb_rb t : (exists v, hrb false t v) <-> (exists h, rb t h).
Proof.
  assert (H : forall v, hrb false t (S v) <-> rb t v).
  { induction t as [|i k x y l IHl r IHr]; intros v; cbn [hrb rb]; [lia|].
    assert (Hr : forall s, redc false s = red s) by (by intros []).
    split.
    - intros (w & H1 & H2 & H3 & H4). pose proof (hrb_range _ _ _ H1). destruct w as [|w]; [lia|].
      apply IHl in H1. apply IHr in H2. rewrite !Hr in H3. destruct y.
      + assert (w = v) as -> by lia. naive_solver.
      + assert (v = S w) as -> by lia. done.
    - destruct y.
      + intros (H1 & H2 & H3 & H4). exists (S v). rewrite IHl, IHr, !Hr. split_and!; try done; lia.
      + destruct v as [|v]; [done|]. intros (H1 & H2). exists (S v). rewrite IHl, IHr. split_and!; try done; lia. }
  split.
  - intros [[|v] Hv]; [by apply hrb_range in Hv; lia|]. exists v. by apply H.
  - intros [h Hh]. exists (S h). by apply H.
Qed.

Lemma rb_two_red_eq p i n d : p !! i = Some n -> next n d < length p ->
  exists m, p !! next n d = Some m /\ rb_two_red p i d = Some (b1 n && b1 m).
Proof.
  intros H1 H2. destruct (lookup_lt_is_Some_2 p _ H2) as [m Hm]. exists m. split; [done|].
  unfold rb_two_red. rewrite (rd_lu _ _ _ H1). bind. rewrite (rd_lu _ _ _ Hm). done.
Qed.
Lemma rep_rid_red p n0 t : p !! 0 = Some n0 -> rep p t -> exists m, p !! rid t = Some m /\ b1 m = redc (b1 n0) t.
Proof.
  intros H0. destruct t as [|i k x y l r]; cbn; [eauto|]. intros (H & _). eexists. split; [exact H|done].
Qed.

Lemma rbnode_ok p n0 : p !! 0 = Some n0 -> forall i k x y l r h vl vr,
  p !! i = Some (Nd k (rid l) (rid r) x y) -> rep p l -> rep p r -> ht l <= 62 -> ht r <= 62 ->
  h !! rid l = Some vl -> h !! rid r = Some vr -> hrb (b1 n0) l vl -> hrb (b1 n0) r vr -> i < length h ->
  (forall h', rbnode_is_valid p i h = Some (true, h') -> exists v, h' = <[i := S v]> h /\ hrb (b1 n0) (Node i k x y l r) (S v)) /\
  (forall v, hrb (b1 n0) (Node i k x y l r) v -> 0 < v /\ rbnode_is_valid p i h = Some (true, <[i := v]> h)).
Proof.
  intros H0 i k x y l r h vl vr Hn Pl Pr Tl Tr Hvl Hvr Vl Vr Hi.
  destruct (rep_rid_red _ _ _ H0 Pl) as (ml & Ml & Cl). destruct (rep_rid_red _ _ _ H0 Pr) as (mr & Mr & Cr).
  pose proof (hrb_range _ _ _ Vl) as Wl. pose proof (hrb_range _ _ _ Vr) as Wr.
  unfold rbnode_is_valid.
  destruct (rb_two_red_eq p i _ false Hn) as (m1 & M1 & ->); [by eapply lookup_lt_Some|]. bind.
  destruct (rb_two_red_eq p i _ true Hn) as (m2 & M2 & ->); [by eapply lookup_lt_Some|]. bind.
  cbn [next nl nr b1] in *. assert (m1 = ml) as -> by congruence. assert (m2 = mr) as -> by congruence. rewrite Cl, Cr.
  rewrite (rd_lu _ _ _ Hn). bind. cbn [nl nr b1]. rewrite (rd_lu _ _ _ Hvl). bind. rewrite (rd_lu _ _ _ Hvr). bind.
  rewrite wr_Some by done. bind.
  assert (Hm : (vl + (if y then 0 else 1)) mod 256 = vl + (if y then 0 else 1)) by (apply Nat.mod_small; destruct y; lia).
  rewrite Hm. split.
  - intros h'. destruct (y && redc (b1 n0) l) eqn:E1; [done|]. destruct (y && redc (b1 n0) r) eqn:E2; [done|].
    destruct (Nat.eqb_spec vl vr) as [<-|]; cbn [negb]; [|done]. intros [= <-].
    exists (vl + (if y then 0 else 1) - 1). replace (S (vl + (if y then 0 else 1) - 1)) with (vl + (if y then 0 else 1)) by lia.
    split; [done|]. cbn [hrb]. exists vl. split_and!; try done. intros ->. done.
  - intros v Hv. pose proof (hrb_range _ _ _ Hv) as [Hv0 _]. split; [done|]. cbn [hrb] in Hv.
    destruct Hv as (w & A & B & C & ->).
    pose proof (hrb_fun _ _ _ _ A Vl). pose proof (hrb_fun _ _ _ _ B Vr). subst w vr.
    destruct y; cbn [andb].
    + destruct (C eq_refl) as [-> ->]. by rewrite Nat.eqb_refl.
    + by rewrite Nat.eqb_refl.
Qed.

Lemma rbnode_total p i n h : length h = length p -> p !! i = Some n -> nl n < length p -> nr n < length p ->
  exists b h', rbnode_is_valid p i h = Some (b, h') /\ length h' = length h.
Proof.
  intros Hl Hn Hnl Hnr. unfold rbnode_is_valid.
  destruct (rb_two_red_eq p i _ false Hn) as (m1 & M1 & ->); [done|]. bind. destruct (_ && _); [eauto|].
  destruct (rb_two_red_eq p i _ true Hn) as (m2 & M2 & ->); [done|]. bind. destruct (_ && _); [eauto|].
  rewrite (rd_lu _ _ _ Hn). bind.
  destruct (lookup_lt_is_Some_2 h (nl n)) as [vl Vl]; [lia|]. destruct (lookup_lt_is_Some_2 h (nr n)) as [vr Vr]; [lia|].
  rewrite (rd_lu _ _ _ Vl). bind. rewrite (rd_lu _ _ _ Vr). bind.
  destruct (negb _); [eauto|]. rewrite wr_Some by (apply lookup_lt_Some in Hn; lia). bind.
  eexists _, _. split; [done|]. apply insert_length.
Qed.

(** *** AVL trees *)
Lemma avl_marks_node i k x y l r : avl_marks (Node i k x y l r) <->
  avl_marks l /\ avl_marks r /\ if x then ht l = ht r else if y then ht r = S (ht l) else ht l = S (ht r).
Proof.
  unfold avl_marks. split.
  - intros H. split; [|split].
    + intros i' k' x' y' l' r' Hs. eapply H. by apply sub_l.
    + intros i' k' x' y' l' r' Hs. eapply H. by apply sub_r.
    + eapply (H i k x y l r). apply sub_refl.
  - intros (H1 & H2 & H3) i' k' x' y' l' r' Hs. inversion Hs; subst; [done|by eapply H1|by eapply H2].
Qed.
Definition havl (t : bt) (v : nat) : Prop := v = S (ht t) /\ avl_marks t.

Lemma avlnode_ok p i k x y l r h vl vr :
  p !! i = Some (Nd k (rid l) (rid r) x y) -> rep p l -> rep p r -> ht l <= 62 -> ht r <= 62 ->
  h !! rid l = Some vl -> h !! rid r = Some vr -> havl l vl -> havl r vr -> i < length h ->
  (forall h', avlnode_is_valid p i h = Some (true, h') -> exists v, h' = <[i := S v]> h /\ havl (Node i k x y l r) (S v)) /\
  (forall v, havl (Node i k x y l r) v -> 0 < v /\ avlnode_is_valid p i h = Some (true, <[i := v]> h)).
Proof.
  intros Hn _ _ Tl Tr Hvl Hvr [-> Al] [-> Ar] Hi. unfold avlnode_is_valid.
  rewrite (rd_lu _ _ _ Hn). bind. cbn [nl nr b0 b1]. rewrite (rd_lu _ _ _ Hvl). bind. rewrite (rd_lu _ _ _ Hvr). bind.
  rewrite wr_Some by done. bind.
  assert (Ht : (if S (ht r) <? S (ht l) then S (ht l) else S (ht r)) + 1 = S (ht (Node i k x y l r))).
  { cbn [ht]. destruct (Nat.ltb_spec (S (ht r)) (S (ht l))); lia. }
  rewrite Ht, Nat.mod_small by (cbn [ht]; lia). unfold havl. setoid_rewrite avl_marks_node.
  split.
  - intros h'. destruct (Nat.ltb_spec (S (ht r)) (S (ht l))) as [Hlt|Hge].
    + destruct (Nat.ltb_spec 1 (S (ht l) - S (ht r))); [done|]. destruct (Nat.eqb_spec (S (ht l) - S (ht r)) 0); [lia|].
      destruct x; [done|]. intros [= Hy <-]. exists (ht (Node i k false y l r)). split_and!; try done.
      destruct y; [done|]. lia.
    + destruct (Nat.ltb_spec 1 (S (ht r) - S (ht l))); [done|]. destruct (Nat.eqb_spec (S (ht r) - S (ht l)) 0).
      * intros [= -> <-]. eexists. split_and!; try done. lia.
      * destruct x; [done|]. intros [= Hy <-]. exists (ht (Node i k false y l r)). split_and!; try done.
        destruct y; [lia|done].
  - intros v (-> & _ & _ & Hm). split; [lia|]. destruct x.
    + rewrite Hm. rewrite Nat.ltb_irrefl, Nat.sub_diag. done.
    + destruct y.
      * rewrite Hm. destruct (Nat.ltb_spec (S (S (ht l))) (S (ht l))); [lia|].
        replace (S (S (ht l)) - S (ht l)) with 1 by lia. done.
      * rewrite Hm. destruct (Nat.ltb_spec (S (ht r)) (S (S (ht r)))); [|lia].
        replace (S (S (ht r)) - S (ht r)) with 1 by lia. done.
Qed.

Lemma avlnode_total p i n h : length h = length p -> p !! i = Some n -> nl n < length p -> nr n < length p ->
  exists b h', avlnode_is_valid p i h = Some (b, h') /\ length h' = length h.
Proof.
  intros Hl Hn Hnl Hnr. unfold avlnode_is_valid. rewrite (rd_lu _ _ _ Hn). bind.
  destruct (lookup_lt_is_Some_2 h (nl n)) as [vl Vl]; [lia|]. destruct (lookup_lt_is_Some_2 h (nr n)) as [vr Vr]; [lia|].
  rewrite (rd_lu _ _ _ Vl). bind. rewrite (rd_lu _ _ _ Vr). bind.
  rewrite wr_Some by (apply lookup_lt_Some in Hn; lia). bind.
  destruct (1 <? _); [eexists _, _; split; [done|apply insert_length]|].
  destruct (_ =? 0); [eexists _, _; split; [done|apply insert_length]|].
  destruct (b0 n); eexists _, _; (split; [done|apply insert_length]).
Qed.

(** *** Both validators *)
Section both.
Context (cmp : N -> N -> Z) (Hc : three_way cmp).

Lemma rb_total p alloc : exists b, rbtree_is_valid cmp p alloc = Some b.
Proof.
  unfold rbtree_is_valid. destruct (btree_is_valid_total cmp p rbnode_is_valid (rbnode_total p) alloc) as [b E]. rewrite E. bind.
  destruct b; cbn [negb]; [|eauto]. destruct p as [|n0 p]; [eauto|]. destruct (b1 n0); [eauto|].
  unfold btree_is_valid in E. destruct (existsb _ _) eqn:Ex; [done|].
  cbn [existsb] in Ex. apply orb_false_iff in Ex as [Ex _]. apply orb_false_iff in Ex as [Ex _]. apply Nat.leb_gt in Ex.
  destruct (lookup_lt_is_Some_2 (n0 :: p) (nl n0) Ex) as [m Hm]. rewrite (rd_lu _ _ _ Hm). bind. eauto.
Qed.
Lemma avl_total p alloc : exists b, avltree_is_valid cmp p alloc = Some b.
Proof. apply (btree_is_valid_total cmp p _ (avlnode_total p)). Qed.

Lemma avl_valid_iff p : avltree_is_valid cmp p true = Some true <->
  exists t, linked p t /\ strictly_sorted_by cmp (inorder t) /\ ht t <= 63 /\ avl_marks t /\
    (forall n, p !! 0 = Some n -> nr n < length p).
Proof.
  unfold avltree_is_valid. rewrite (btree_is_valid_iff cmp Hc p _ havl).
  - split; intros (t & H1 & H2 & H3 & H4 & H5); exists t; split_and!; try done.
    + by destruct H4 as [v [_ H4]].
    + by exists (S (ht t)).
  - intros v. unfold havl. cbn. split; [naive_solver|]. intros ->. split; [done|].
    intros i k x y l r Hs. inversion Hs.
  - intros i k x y l r v [_ Hm]. apply avl_marks_node in Hm as (A & B & _). split; eexists; by split.
  - apply avlnode_ok.
Qed.

Lemma rb_valid_iff p : rbtree_is_valid cmp p true = Some true <->
  exists t, linked p t /\ strictly_sorted_by cmp (inorder t) /\ ht t <= 63 /\ rbInv t /\
    (forall n, p !! 0 = Some n -> nr n < length p /\ b1 n = false).
Proof.
  destruct p as [|n0 p].
  { split; [|done]. intros _. exists Leaf. split; [by left|]. split; [intros i j a b _ Ha _; by destruct i|]. split; [cbn; lia|]. split; [apply rbInv_leaf|done]. }
  assert (H0 : (n0 :: p) !! 0 = Some n0) by done.
  pose proof (btree_is_valid_iff cmp Hc (n0 :: p) rbnode_is_valid (hrb (b1 n0))) as HV.
  assert (btree_is_valid cmp rbnode_is_valid (n0 :: p) true = Some true <->
    exists t, linked (n0 :: p) t /\ strictly_sorted_by cmp (inorder t) /\ ht t <= 63 /\ (exists v, hrb (b1 n0) t v) /\
      (forall n, (n0 :: p) !! 0 = Some n -> nr n < length (n0 :: p))) as HB.
  { apply HV; [done| |].
    - intros i k x y l r v (w & A & B & _). split; by exists w.
    - by apply rbnode_ok. }
  clear HV. unfold rbtree_is_valid. split.
  - destruct (btree_is_valid _ _ _ _) as [[|]|]; bind; cbn [negb]; try done.
    destruct (proj1 HB eq_refl) as (t & H1 & H2 & H3 & H4 & H5).
    destruct (b1 n0) eqn:E0; [done|].
    destruct (rd (n0 :: p) (nl n0)) as [m|] eqn:Em; bind; [|done]. change ((n0 :: p) !! nl n0 = Some m) in Em. intros [= Hm].
    exists t. split_and!; try done; [|naive_solver]. split; [by apply hrb_rb|].
    destruct H1 as [[? _]|(Pt & (n & Hn & Hnl) & _)]; [done|]. injection Hn as <-.
    destruct (rep_rid_red _ _ _ H0 Pt) as (m' & M1 & M2). rewrite <- Hnl, Em in M1. injection M1 as <-.
    clear HB. destruct t; [done|]. cbn [redc red] in *. rewrite <- M2. by destruct (b1 m).
  - intros (t & H1 & H2 & H3 & [H4 H4'] & H5). destruct (H5 n0 H0) as [H6 E0]. rewrite E0 in HB.
    assert (btree_is_valid cmp rbnode_is_valid (n0 :: p) true = Some true) as ->.
    { apply HB. exists t. split_and!; try done; [by apply hrb_rb|]. intros n [= <-]. done. }
    bind. cbn [negb]. rewrite E0.
    destruct H1 as [[? _]|(Pt & (n & Hn & Hnl) & _)]; [done|]. injection Hn as <-.
    destruct (rep_rid_red _ _ _ H0 Pt) as (m' & M1 & M2). rewrite Hnl, (rd_lu _ _ _ M1). bind. rewrite M2.
    f_equal. clear HB. destruct t; cbn [redc red] in *; [by rewrite E0|by rewrite H4'].
Qed.
End both.

(** *** The invariants in terms of paths *)
Lemma colours_ne t : exists c, c ∈ colours t.
Proof.
  induction t as [|i k x y l [c Hc] r _]; cbn; [exists []; left|]. exists (y :: c). apply elem_of_list_fmap. exists c.
  split; [done|]. apply elem_of_app. by left.
Qed.
Lemma paths_rb t : no_adjacent_red t -> same_black_height t -> exists h, rb t h.
Proof.
  induction t as [|i k x y l IHl r IHr]; intros Hr Hb; [by exists 0|].
  assert (Il : forall c, c ∈ colours l -> y :: c ∈ colours (Node i k x y l r)).
  { intros c Hc. cbn. apply elem_of_list_fmap. exists c. split; [done|]. apply elem_of_app. by left. }
  assert (Ir : forall c, c ∈ colours r -> y :: c ∈ colours (Node i k x y l r)).
  { intros c Hc. cbn. apply elem_of_list_fmap. exists c. split; [done|]. apply elem_of_app. by right. }
  assert (Hbl : forall c c', blacks (y :: c) = blacks (y :: c') -> blacks c = blacks c').
  { intros c c'. unfold blacks. cbn. destruct y; cbn; [done|]. lia. }
  destruct IHl as [hl Hl].
  { intros c j Hc. apply (Hr _ (S j) (Il _ Hc)). }
  { intros c c' Hc Hc'. apply Hbl, Hb; by apply Il. }
  destruct IHr as [hr Hr'].
  { intros c j Hc. apply (Hr _ (S j) (Ir _ Hc)). }
  { intros c c' Hc Hc'. apply Hbl, Hb; by apply Ir. }
  assert (hl = hr) as <-.
  { destruct (colours_ne l) as [c Hc]. destruct (colours_ne r) as [c' Hc'].
    rewrite <- (rb_blacks _ _ _ Hl Hc), <- (rb_blacks _ _ _ Hr' Hc'). apply Hbl, Hb; [by apply Il|by apply Ir]. }
  destruct y.
  - exists hl. cbn. split_and!; try done.
    + destruct l as [|li lk lx [|] ll lr]; try done. exfalso. destruct (colours_ne (Node li lk lx true ll lr)) as [c Hc].
      apply (Hr _ 0 (Il _ Hc)); [done|]. cbn in Hc. apply elem_of_list_fmap in Hc as (c' & -> & _). done.
    + destruct r as [|li lk lx [|] ll lr]; try done. exfalso. destruct (colours_ne (Node li lk lx true ll lr)) as [c Hc].
      apply (Hr _ 0 (Ir _ Hc)); [done|]. cbn in Hc. apply elem_of_list_fmap in Hc as (c' & -> & _). done.
  - by exists (S hl).
Qed.
Lemma rbInv_paths t : rbInv t <-> no_adjacent_red t /\ same_black_height t /\ red t = false.
Proof.
  split.
  - intros [[h H] Hr]. split; [by eapply rb_no_adj|]. split; [|done].
    intros c1 c2 H1 H2. by rewrite (rb_blacks _ _ _ H H1), (rb_blacks _ _ _ H H2).
  - intros (H1 & H2 & H3). split; [|done]. by apply paths_rb.
Qed.
