From Verif Require Import Base HSort.
From stdpp Require Import sorting.

(** Inject equations between [Some]s without touching other equations. *)
Ltac inj := repeat match goal with
  | H : Some ?a = Some ?b |- _ => assert (a = b) by congruence; clear H; first [subst a | subst b | idtac]
  end.

Section proof.
Context {A : Type} (cmp : A -> A -> Z).

Definition par (j : nat) : nat := Nat.div2 (j - 1).

Lemma par_spec j : 0 < j -> j = 2 * par j + 1 \/ j = 2 * par j + 2.
Proof.
  intros Hj. unfold par.
  pose proof (Nat.div2_odd (j - 1)) as H.
  destruct (Nat.odd (j - 1)); cbn [Nat.b2n] in H; lia.
Qed.
Lemma par_left i : par (2 * i + 1) = i.
Proof. pose proof (par_spec (2 * i + 1)); lia. Qed.
Lemma par_right i : par (2 * i + 2) = i.
Proof. pose proof (par_spec (2 * i + 2)); lia. Qed.
Lemma par_lt j : 0 < j -> par j < j.
Proof. pose proof (par_spec j); lia. Qed.

Lemma split2 (a : list A) i j y c :
  i < j -> a !! i = Some y -> a !! j = Some c ->
  exists p q r, a = p ++ y :: q ++ c :: r /\ length p = i /\ length q = j - S i.
Proof.
  intros Hij Hi Hj.
  apply elem_of_list_split_length in Hi as (p & s & -> & ->).
  rewrite lookup_app_r in Hj by lia.
  replace (j - length p) with (S (j - S (length p))) in Hj by lia.
  cbn [lookup list_lookup] in Hj.
  apply elem_of_list_split_length in Hj as (q & r & -> & Hq).
  exists p, q, r. split_and!; [done|done|lia].
Qed.

Lemma insert_mid (p s : list A) i x y :
  length p = i -> <[i := x]> (p ++ y :: s) = p ++ x :: s.
Proof.
  intros <-. induction p as [|z p IH]; [done|].
  cbn [length app]. change (z :: <[length p := x]> (p ++ y :: s) = z :: p ++ x :: s). by rewrite IH.
Qed.

(** Swapping through a hole is a permutation. *)
Lemma swap_perm (a : list A) i j x c :
  i <> j -> a !! j = Some c -> i < length a ->
  <[i := x]> a ≡ₚ <[j := x]> (<[i := c]> a).
Proof.
  intros Hij Hj Hi.
  destruct (lookup_lt_is_Some_2 a i Hi) as [y Hy].
  destruct (decide (i < j)) as [Hlt|Hge].
  - destruct (split2 a i j y c) as (p & q & r & -> & Hp & Hq); [done..|].
    rewrite !insert_mid by done.
    assert (E : forall z w, p ++ z :: q ++ w :: r = (p ++ z :: q) ++ w :: r) by (intros; by rewrite <- app_assoc).
    rewrite (E c c), insert_mid by (rewrite app_length; cbn [length]; lia).
    rewrite <- app_assoc. cbn [app].
    apply Permutation_app_head.
    transitivity (c :: x :: q ++ r).
    + etransitivity; [|apply perm_swap]. constructor. by rewrite Permutation_middle.
    + constructor. by rewrite Permutation_middle.
  - destruct (split2 a j i c y) as (p & q & r & -> & Hp & Hq); [lia|done..|].
    assert (E : forall z w, p ++ z :: q ++ w :: r = (p ++ z :: q) ++ w :: r) by (intros; by rewrite <- app_assoc).
    rewrite (E c y), !insert_mid by (rewrite app_length; cbn [length]; lia).
    rewrite <- !app_assoc. cbn [app]. rewrite insert_mid by done.
    apply Permutation_app_head.
    transitivity (c :: x :: q ++ r).
    + constructor. by rewrite Permutation_middle.
    + etransitivity; [apply perm_swap|]. constructor. by rewrite Permutation_middle.
Qed.

(** *** Safety and permutation, arbitrary comparator *)

(** The array with the sifted element put into the hole. *)
Lemma sift_loop_safe fuel a count x idx0 :
  count < length a -> idx0 <= count -> count < fuel + idx0 ->
  exists b i0 i1,
    sift_loop cmp fuel a count x idx0 (2 * idx0 + 1) = Some (b, i0, i1) /\
    length b = length a /\ <[idx0 := x]> a ≡ₚ <[i0 := x]> b /\
    i0 <= count /\ idx0 <= i0 /\ i0 < i1 /\
    (forall j, j < idx0 \/ count < j -> b !! j = a !! j).
Proof.
  revert a idx0. induction fuel as [|fuel IH]; intros a idx0 Hc Hi Hf; [lia|].
  cbn [sift_loop].
  destruct (Nat.ltb_spec (2 * idx0 + 1) count) as [Hlt|Hge].
  - destruct (rd_Some a (2 * idx0 + 1)) as [l Hl]; [lia|].
    rewrite Hl. cbn [mbind option_bind]. unfold rd in Hl.
    destruct (rd_Some a (2 * idx0 + 1 + 1)) as [r Hr]; [lia|].
    rewrite Hr. cbn [mbind option_bind]. unfold rd in Hr.
    set (k := if (cmp l r <=? 0)%Z then S (2 * idx0 + 1) else 2 * idx0 + 1).
    assert (Hk : 2 * idx0 + 1 <= k <= count) by (subst k; destruct (cmp l r <=? 0)%Z; lia).
    destruct (rd_Some a k) as [c Hkc]; [lia|].
    rewrite Hkc. cbn [mbind option_bind]. unfold rd in Hkc.
    destruct (cmp c x <=? 0)%Z.
    + exists a, idx0, k. split_and!; try done; lia.
    + rewrite wr_Some by lia. cbn [mbind option_bind].
      destruct (IH (<[idx0 := c]> a) k) as (b & i0 & i1 & E & Hlen & Hp & H1 & H2 & H3 & H4);
        [rewrite insert_length; lia | lia | lia |].
      exists b, i0, i1. rewrite E. split_and!; try done; try lia.
      * by rewrite Hlen, insert_length.
      * rewrite <- Hp. apply swap_perm; [lia|done|lia].
      * intros j Hj. rewrite H4 by lia. rewrite list_lookup_insert_ne by lia. done.
  - exists a, idx0, (2 * idx0 + 1). split_and!; try done; lia.
Qed.

Lemma sift_safe a count idx0 :
  count < length a -> idx0 <= count ->
  exists b, sift cmp a count idx0 = Some b /\ a ≡ₚ b /\
    (forall j, j < idx0 \/ count < j -> b !! j = a !! j).
Proof.
  intros Hc Hi. unfold sift.
  destruct (rd_Some a idx0) as [x Hx]; [lia|].
  rewrite Hx. cbn [mbind option_bind]. unfold rd in Hx.
  destruct (sift_loop_safe (S count) a count x idx0) as (b & i0 & i1 & E & Hlen & Hp & H1 & H2 & H3 & H4);
    try lia.
  rewrite E. cbn [mbind option_bind].
  rewrite list_insert_id in Hp by done.
  assert (W : exists b', wr b i0 x = Some b' /\ a ≡ₚ b' /\
               (forall j, j < idx0 \/ count < j -> b' !! j = a !! j)).
  { exists (<[i0 := x]> b). split; [apply wr_Some; lia|]. split; [done|].
    intros j Hj. rewrite list_lookup_insert_ne by lia. by apply H4. }
  destruct (Nat.eqb_spec i1 count) as [->|Hne]; [|done].
  destruct (rd_Some b count) as [c Hcc]; [lia|].
  rewrite Hcc. cbn [mbind option_bind]. unfold rd in Hcc.
  destruct (cmp c x >? 0)%Z; [|done].
  rewrite wr_Some by lia. cbn [mbind option_bind].
  rewrite wr_Some by (rewrite insert_length; lia).
  eexists. split; [done|]. split.
  - rewrite Hp. apply swap_perm; [lia|done|lia].
  - intros j Hj. rewrite !list_lookup_insert_ne by lia. by apply H4.
Qed.

Lemma build_safe i a count :
  count < length a -> i <= count ->
  exists b, build cmp i a count = Some b /\ a ≡ₚ b.
Proof.
  revert a. induction i as [|i IH]; intros a Hc Hi; cbn [build]; [by exists a|].
  destruct (sift_safe a count (S i)) as (b & -> & Hp & _); [lia|lia|]. cbn [mbind option_bind].
  destruct (IH b) as (b' & -> & Hp').
  - by rewrite <- Hp.
  - lia.
  - exists b'. split; [done|]. by rewrite Hp.
Qed.

Lemma swap_ends (a : list A) i j x y :
  i <> j -> a !! i = Some x -> a !! j = Some y ->
  a ≡ₚ <[j := x]> (<[i := y]> a).
Proof.
  intros Hij Hi Hj. rewrite <- (list_insert_id a i x Hi) at 1.
  apply swap_perm; [done|done|]. by eapply lookup_lt_Some.
Qed.

Lemma extract_safe count a :
  count < length a -> exists b, extract cmp count a = Some b /\ a ≡ₚ b.
Proof.
  revert a. induction count as [|count IH]; intros a Hc; cbn [extract]; [by exists a|].
  destruct (sift_safe a (S count) 0) as (b & -> & Hp & _); [lia|lia|]. cbn [mbind option_bind].
  assert (Hl : length b = length a) by (by rewrite Hp).
  destruct (rd_Some b (S count)) as [x Hx]; [lia|].
  rewrite Hx. cbn [mbind option_bind]. unfold rd in Hx.
  destruct (rd_Some b 0) as [f Hf]; [lia|].
  rewrite Hf. cbn [mbind option_bind]. unfold rd in Hf.
  rewrite wr_Some by lia. cbn [mbind option_bind].
  rewrite wr_Some by (rewrite insert_length; lia). cbn [mbind option_bind].
  pose proof (swap_ends b (S count) 0 x f) as Hs.
  destruct (IH (<[0:=x]> (<[S count:=f]> b))) as (b' & -> & Hp').
  { rewrite !insert_length. lia. }
  exists b'. split; [done|]. rewrite Hp, <- Hp'. apply Hs; done.
Qed.

Theorem hsort_safe a : exists b, hsort cmp a = Some b /\ a ≡ₚ b.
Proof.
  unfold hsort. destruct (Nat.leb_spec (length a) 1) as [|Hl]; [by exists a|].
  destruct (build_safe (Nat.div2 (length a - 1)) a (length a - 1)) as (b & -> & Hp); [lia| |].
  { pose proof (Nat.div2_decr (length a - 1) (length a - 1)). lia. }
  cbn [mbind option_bind].
  destruct (extract_safe (length a - 1) b) as (b' & -> & Hp').
  { rewrite <- Hp. lia. }
  exists b'. split; [done|]. by rewrite Hp.
Qed.

(** *** Order: any transitive relation the comparator respects *)

Context (le : A -> A -> Prop)
        (Hle : forall x y, (cmp x y <= 0)%Z -> le x y)
        (Hgt : forall x y, (cmp x y > 0)%Z -> le y x)
        (Htrans : forall x y z, le x y -> le y z -> le x z).

Lemma le_refl x : le x x.
Proof. destruct (Z.leb_spec (cmp x x) 0); [by apply Hle|apply Hgt; lia]. Qed.

Definition heap (a : list A) (lo count : nat) : Prop :=
  forall j x y, 0 < j -> lo <= par j -> j <= count ->
    a !! j = Some x -> a !! par j = Some y -> le x y.

(** Heap with a possibly wrong element at [h]. *)
Definition heap_hole (a : list A) (lo count h : nat) : Prop :=
  (forall j x y, 0 < j -> lo <= par j -> par j <> h -> j <= count ->
    a !! j = Some x -> a !! par j = Some y -> le x y) /\
  (forall j x y, 0 < j -> par j = h -> j <= count -> 0 < h -> lo <= par h ->
    a !! j = Some x -> a !! par h = Some y -> le x y).

Lemma sift_loop_heap fuel a count x lo idx0 b i0 i1 :
  count < length a -> lo <= idx0 <= count ->
  heap_hole (<[idx0 := x]> a) lo count idx0 ->
  sift_loop cmp fuel a count x idx0 (2 * idx0 + 1) = Some (b, i0, i1) ->
  length b = length a /\ lo <= i0 <= count /\
  heap_hole (<[i0 := x]> b) lo count i0 /\
  0 < i1 /\ par i1 = i0 /\
  ((i1 = count /\ i1 = 2 * i0 + 1) \/
   (heap (<[i0 := x]> b) lo count /\
    (i1 = count -> forall c, b !! count = Some c -> (cmp c x <= 0)%Z))).
Proof.
  revert a idx0. induction fuel as [|fuel IH]; intros a idx0 Hc Hi Hh E; [done|].
  cbn [sift_loop] in E.
  destruct (Nat.ltb_spec (2 * idx0 + 1) count) as [Hlt|Hge].
  - destruct (rd a (2 * idx0 + 1)) as [l|] eqn:Hl; [|done]. cbn [mbind option_bind] in E.
    destruct (rd a (2 * idx0 + 1 + 1)) as [r|] eqn:Hr; [|done]. cbn [mbind option_bind] in E.
    unfold rd in Hl, Hr.
    remember (if (cmp l r <=? 0)%Z then S (2 * idx0 + 1) else 2 * idx0 + 1) as k eqn:Ek.
    destruct (rd a k) as [c|] eqn:Hkc; [|done]. cbn [mbind option_bind] in E. unfold rd in Hkc.
    assert (Hk : 2 * idx0 + 1 <= k <= 2 * idx0 + 2) by (destruct (cmp l r <=? 0)%Z; lia).
    assert (Hpk : par k = idx0) by (pose proof (par_spec k); lia).
    (* c is the greater child *)
    assert (Hmax : forall j z, 0 < j -> par j = idx0 -> a !! j = Some z -> le z c).
    { intros j z Hj Hpj Hz. pose proof (par_spec j Hj) as Hs. rewrite Hpj in Hs. clear Hpj.
      destruct (Z.leb_spec (cmp l r) 0) as [Hlr|Hlr].
      - assert (c = r) as -> by (rewrite Ek in Hkc; replace (S (2 * idx0 + 1)) with (2 * idx0 + 1 + 1) in Hkc by lia; congruence).
        destruct Hs as [Hs|Hs]; rewrite Hs in Hz.
        + assert (z = l) as -> by congruence. by apply Hle.
        + replace (2 * idx0 + 2) with (2 * idx0 + 1 + 1) in Hz by lia.
          assert (z = r) as -> by congruence. apply le_refl.
      - assert (c = l) as -> by (rewrite Ek in Hkc; congruence).
        destruct Hs as [Hs|Hs]; rewrite Hs in Hz.
        + assert (z = l) as -> by congruence. apply le_refl.
        + replace (2 * idx0 + 2) with (2 * idx0 + 1 + 1) in Hz by lia.
          assert (z = r) as -> by congruence. apply Hgt; lia. }
    destruct (Z.leb_spec (cmp c x) 0) as [Hcx|Hcx].
    + simplify_eq. split; [done|]. split; [lia|]. split; [done|]. split; [lia|]. split; [done|].
      right. split; [|intros <- c' Hc'; congruence]. intros j u v Hj Hlo Hjc Hu Hv.
      destruct (decide (par j = i0)) as [Hpj|Hpj].
      * rewrite Hpj in Hv. rewrite list_lookup_insert in Hv by lia. simplify_eq.
        rewrite list_lookup_insert_ne in Hu by (pose proof (par_lt j Hj); lia).
        eapply Htrans; [|exact (Hle _ _ Hcx)]. eapply Hmax; eauto.
      * eapply (proj1 Hh); eauto.
    + destruct (wr a idx0 c) as [a'|] eqn:Hw; [|done]. cbn [mbind option_bind] in E.
      apply wr_inv in Hw as [Hi0 ->].
      assert (Hxc : le x c) by (apply Hgt; lia).
      apply IH in E as (E1 & E2 & E3 & E4).
      * rewrite insert_length in E1. done.
      * rewrite insert_length; lia.
      * lia.
      * (* heap_hole moves down *)
        destruct Hh as [H1 H2]. split.
        -- intros j u v Hj Hlo Hpj Hjc Hu Hv.
           destruct (decide (j = k)) as [->|Hjk].
           { rewrite list_lookup_insert in Hu by (rewrite insert_length; lia). inj.
             rewrite list_lookup_insert_ne in Hv by lia.
             rewrite Hpk, list_lookup_insert in Hv by lia. inj. done. }
           rewrite list_lookup_insert_ne in Hu by lia.
           rewrite list_lookup_insert_ne in Hv by lia.
           destruct (decide (j = idx0)) as [->|Hj0].
           { rewrite list_lookup_insert in Hu by lia. inj.
             pose proof (par_lt idx0 Hj).
             rewrite list_lookup_insert_ne in Hv by lia.
             apply (H2 k u v); try done; try lia.
             - rewrite list_lookup_insert_ne by lia. done.
             - rewrite list_lookup_insert_ne by lia. done. }
           rewrite list_lookup_insert_ne in Hu by lia.
           destruct (decide (par j = idx0)) as [Hp0|Hp0].
           { rewrite Hp0, list_lookup_insert in Hv by lia. inj.
             eapply Hmax; eauto. }
           rewrite list_lookup_insert_ne in Hv by lia.
           apply (H1 j u v); try done.
           ++ by rewrite list_lookup_insert_ne by lia.
           ++ by rewrite list_lookup_insert_ne by lia.
        -- intros j u v Hj Hpj Hjc Hk0 Hlo Hu Hv.
           pose proof (par_lt j Hj).
           rewrite Hpk in Hv.
           rewrite list_lookup_insert_ne in Hv by lia.
           rewrite list_lookup_insert in Hv by lia. inj.
           rewrite list_lookup_insert_ne in Hu by lia.
           rewrite list_lookup_insert_ne in Hu by lia.
           eapply (H1 j u v); try done; try lia.
           ++ by rewrite list_lookup_insert_ne by lia.
           ++ rewrite Hpj. by rewrite list_lookup_insert_ne by lia.
  - simplify_eq. split; [done|]. split; [lia|]. split; [done|].
    split; [lia|]. split; [apply par_left|].
    destruct (decide (2 * i0 + 1 = count)); [by left|].
    right. split; [|done]. intros j u v Hj Hlo Hjc Hu Hv.
    eapply (proj1 Hh); eauto. intros Hpj. pose proof (par_spec j Hj). lia.
Qed.

Lemma sift_heap a count lo b :
  count < length a -> lo <= count ->
  heap a (S lo) count ->
  sift cmp a count lo = Some b -> heap b lo count.
Proof.
  intros Hc Hi Hh E. unfold sift in E.
  destruct (rd a lo) as [x|] eqn:Hx; [|done]. unfold rd in Hx. cbn [mbind option_bind] in E.
  destruct (sift_loop cmp (S count) a count x lo (2 * lo + 1)) as [[[b' i0] i1]|] eqn:El; [|done].
  cbn [mbind option_bind] in E.
  apply (sift_loop_heap _ _ _ _ lo) in El as (Hlen & Hi0 & Hhole & Hi1 & Hpi1 & Hcase); try done; try lia.
  2:{ rewrite list_insert_id by done. split.
      - intros j u v Hj Hlo Hp Hjc Hu Hv. eapply (Hh j); eauto. lia.
      - intros j u v Hj Hp Hjc H0 Hlo Hu Hv. pose proof (par_lt lo H0). lia. }
  assert (Hfin : heap (<[i0:=x]> b') lo count -> wr b' i0 x = Some b -> heap b lo count).
  { intros H1 H2. apply wr_inv in H2 as [_ ->]. done. }
  destruct (Nat.eqb_spec i1 count) as [->|Hne].
  2:{ destruct Hcase as [[? ?]|[Hheap _]]; [done|]. by apply Hfin. }
  destruct (rd b' count) as [c|] eqn:Hrc; [|done]. unfold rd in Hrc. cbn [mbind option_bind] in E.
  assert (Hkid : i0 <> count -> forall j, 0 < j -> par j = i0 -> j <= count ->
            (count = 2 * i0 + 1 -> j = count)).
  { intros _ j Hj Hp Hjc He. pose proof (par_spec j Hj). lia. }
  destruct (Z.gtb_spec (cmp c x) 0) as [Hcgt|Hcle].
  - destruct (wr b' i0 c) as [b2|] eqn:Hw; [|done]. cbn [mbind option_bind] in E.
    apply wr_inv in Hw as [Hil ->]. apply wr_inv in E as [_ ->].
    destruct Hcase as [[_ Hck]|[_ Hbrk]].
    + (* the only child of i0 is count *)
      destruct Hhole as [H1 H2].
      assert (Hpc : par count = i0) by (pose proof (par_spec count); lia).
      assert (Hxc : le x c) by (apply Hgt; lia).
      intros j u v Hj Hlo Hjc Hu Hv.
      pose proof (par_lt j Hj).
      rewrite list_lookup_insert_ne in Hv by lia.
      destruct (decide (j = count)) as [->|Hjn].
      { rewrite list_lookup_insert in Hu by (rewrite insert_length; lia). inj.
        rewrite Hpc, list_lookup_insert in Hv by lia. by inj. }
      rewrite list_lookup_insert_ne in Hu by lia.
      destruct (decide (j = i0)) as [->|Hj0].
      { rewrite list_lookup_insert in Hu by lia. inj.
        rewrite list_lookup_insert_ne in Hv by lia.
        apply (H2 count u v); try done; try lia.
        - rewrite list_lookup_insert_ne by lia. done.
        - rewrite list_lookup_insert_ne by lia. done. }
      assert (par j <> i0). { intros Hp. apply Hjn. apply Hkid; try done; lia. }
      apply (H1 j u v); try done.
      * rewrite list_lookup_insert_ne in Hu by lia. by rewrite list_lookup_insert_ne by lia.
      * rewrite list_lookup_insert_ne in Hv by lia. by rewrite list_lookup_insert_ne by lia.
    + (* a break with idx1 = count makes this branch impossible *)
      exfalso. pose proof (Hbrk eq_refl c Hrc). lia.
  - apply Hfin; [|done].
    destruct Hcase as [[_ Hck]|[Hheap _]]; [|done].
    intros j u v Hj Hlo Hjc Hu Hv.
    destruct (decide (par j = i0)) as [Hp|Hp]; [|eapply (proj1 Hhole); eauto].
    assert (j = count) as -> by (apply Hkid; try done; lia).
    rewrite Hp, list_lookup_insert in Hv by lia.
    rewrite list_lookup_insert_ne in Hu by lia.
    assert (u = c) as -> by congruence. inj. apply Hle; lia.
Qed.

Lemma build_heap i a count b :
  count < length a -> i <= count -> heap a (S i) count ->
  build cmp i a count = Some b -> heap b 1 count.
Proof.
  revert a. induction i as [|i IH]; intros a Hc Hi Hh E; cbn [build] in E; [by simplify_eq|].
  destruct (sift_safe a count (S i)) as (a' & Hs & Hp & _); [lia|lia|].
  rewrite Hs in E. cbn [mbind option_bind] in E.
  apply (IH a'); [by rewrite <- Hp|lia| |done].
  eapply sift_heap; [| |exact Hh|exact Hs]; lia.
Qed.

(** The root of a heap dominates it. *)
Lemma heap_root a count : count < length a -> heap a 0 count ->
  forall j x y, j <= count -> a !! j = Some x -> a !! 0 = Some y -> le x y.
Proof.
  intros Hc Hh j. induction (lt_wf j) as [j _ IH]. intros x y Hj Hx Hy.
  destruct (decide (j = 0)) as [->|H0]; [simplify_eq; apply le_refl|].
  pose proof (par_lt j ltac:(lia)) as Hp.
  destruct (lookup_lt_is_Some_2 a (par j)) as [z Hz]; [lia|].
  eapply Htrans; [apply (Hh j x z); [lia|lia|lia|done|done]|].
  apply (IH (par j)); [lia|lia|done|done].
Qed.

Definition sorted_from (a : list A) (n : nat) : Prop :=
  forall i j x y, n <= j -> i <= j -> a !! i = Some x -> a !! j = Some y -> le x y.

Lemma extract_sorted count a b :
  count < length a -> heap a 1 count ->
  (forall i j x y, i <= j -> count < j -> a !! i = Some x -> a !! j = Some y -> le x y) ->
  extract cmp count a = Some b ->
  forall i j x y, i <= j -> b !! i = Some x -> b !! j = Some y -> le x y.
Proof.
  revert a. induction count as [|count IH]; intros a Hc Hh Hs E; cbn [extract] in E.
  { simplify_eq. intros i j x y Hij Hx Hy. destruct (decide (j = 0)) as [->|].
    - replace i with 0 in Hx by lia. simplify_eq. apply le_refl.
    - eapply (Hs i j); eauto; lia. }
  destruct (sift_safe a (S count) 0) as (c & Hsift & Hp & Hout); [lia|lia|].
  rewrite Hsift in E. cbn [mbind option_bind] in E.
  assert (Hl : length c = length a) by (by rewrite Hp).
  pose proof (sift_heap a (S count) 0 c Hc ltac:(lia) Hh Hsift) as Hh0.
  destruct (rd c (S count)) as [x|] eqn:Hx; [|done]. cbn [mbind option_bind] in E.
  destruct (rd c 0) as [f|] eqn:Hf; [|done]. cbn [mbind option_bind] in E.
  unfold rd in Hx, Hf.
  rewrite wr_Some in E by lia. cbn [mbind option_bind] in E.
  rewrite wr_Some in E by (rewrite insert_length; lia). cbn [mbind option_bind] in E.
  eapply IH; [| | |exact E].
  - rewrite !insert_length. lia.
  - intros j u v Hj Hlo Hjc Hu Hv.
    pose proof (par_lt j Hj).
    rewrite !list_lookup_insert_ne in Hu by lia.
    rewrite !list_lookup_insert_ne in Hv by lia.
    eapply (Hh0 j); eauto; lia.
  - (* elements of c dominated by positions above S count *)
    assert (Hdom : forall u k v, u ∈ c -> S count < k -> c !! k = Some v ->
              (exists i, i <= S count /\ c !! i = Some u) -> le u v).
    { intros u k v Hu Hk Hv [i [Hi Hci]].
      rewrite (Hout k) in Hv by lia.
      (* u occurs in the prefix of a *)
      assert (Hpre : take (S (S count)) a ≡ₚ take (S (S count)) c).
      { assert (Hd : drop (S (S count)) a = drop (S (S count)) c).
        { apply list_eq. intros q. rewrite !lookup_drop. symmetry. apply Hout. lia. }
        apply (Permutation_app_inv_r (drop (S (S count)) a)).
        rewrite take_drop. rewrite Hd, take_drop. done. }
      assert (Hin : u ∈ take (S (S count)) c).
      { apply elem_of_list_lookup. exists i. rewrite lookup_take by lia. done. }
      rewrite <- Hpre in Hin.
      apply elem_of_list_lookup in Hin as [i' Hi'].
      apply lookup_take_Some in Hi' as [Hi' Hlt].
      eapply (Hs i' k); eauto; lia. }
    intros i j u v Hij Hj Hu Hv.
    assert (Hroot : forall k w, k <= S count -> c !! k = Some w -> le w f).
    { intros k w Hk Hw. eapply (heap_root c (S count)); eauto; lia. }
    destruct (decide (j = S count)) as [->|Hjn].
    + rewrite list_lookup_insert_ne in Hv by lia.
      rewrite list_lookup_insert in Hv by lia. simplify_eq.
      destruct (decide (i = 0)) as [->|Hi0].
      * rewrite list_lookup_insert in Hu by (rewrite insert_length; lia). simplify_eq. eauto.
      * rewrite list_lookup_insert_ne in Hu by lia.
        destruct (decide (i = S count)) as [->|].
        -- rewrite list_lookup_insert in Hu by lia. simplify_eq. apply le_refl.
        -- rewrite list_lookup_insert_ne in Hu by lia. eapply Hroot; eauto; lia.
    + rewrite !list_lookup_insert_ne in Hv by lia.
      destruct (decide (i = 0)) as [->|Hi0].
      { rewrite list_lookup_insert in Hu by (rewrite insert_length; lia). simplify_eq.
        eapply Hdom; [by eapply elem_of_list_lookup_2| |exact Hv|exists (S count); split; [lia|done]]. lia. }
      rewrite list_lookup_insert_ne in Hu by lia.
      destruct (decide (i = S count)) as [->|].
      { rewrite list_lookup_insert in Hu by lia. simplify_eq.
        eapply Hdom; [by eapply elem_of_list_lookup_2| |exact Hv|exists 0; split; [lia|done]]. lia. }
      rewrite list_lookup_insert_ne in Hu by lia.
      destruct (decide (i <= S count)).
      { eapply Hdom; [by eapply elem_of_list_lookup_2| |exact Hv|exists i; split; [lia|done]]. lia. }
      rewrite (Hout i) in Hu by lia. rewrite (Hout j) in Hv by lia.
      eapply (Hs i j); eauto; lia.
Qed.

Theorem hsort_sorted a b :
  hsort cmp a = Some b ->
  forall i j x y, i <= j -> b !! i = Some x -> b !! j = Some y -> le x y.
Proof.
  unfold hsort. destruct (Nat.leb_spec (length a) 1) as [Hl|Hl]; intros E.
  - simplify_eq. intros i j x y Hij Hx Hy.
    pose proof (lookup_lt_Some _ _ _ Hx). pose proof (lookup_lt_Some _ _ _ Hy).
    replace i with j in Hx by lia. simplify_eq. apply le_refl.
  - pose proof (Nat.div2_odd (length a - 1)) as Hd.
    destruct (build_safe (Nat.div2 (length a - 1)) a (length a - 1)) as (c & Hb & Hp); [lia|lia|].
    rewrite Hb in E. cbn [mbind option_bind] in E.
    assert (length c = length a) by (by rewrite Hp).
    eapply extract_sorted; [| | |exact E].
    + lia.
    + eapply build_heap; [| | |exact Hb]; [lia|lia|].
      intros j x y Hj Hlo Hjc. pose proof (par_spec j Hj).
      destruct (Nat.odd (length a - 1)); cbn [Nat.b2n] in Hd; lia.
    + intros i j x y Hij Hj Hx Hy. apply lookup_lt_Some in Hy. lia.
Qed.

End proof.

(** *** The sort does not look inside the elements *)
Section natural.
Context {A B : Type} (f : B -> A) (cmp : A -> A -> Z).
Notation cmpB := (fun x y => cmp (f x) (f y)).

Lemma rd_map (b : list B) i : rd (map f b) i = f <$> rd b i.
Proof. unfold rd. apply list_lookup_fmap. Qed.
Lemma wr_map (b : list B) i x : wr (map f b) i (f x) = map f <$> wr b i x.
Proof.
  unfold wr. rewrite map_length. destruct (Nat.ltb i (length b)); [|done].
  cbn. f_equal. symmetry. apply (list_fmap_insert f).
Qed.

Lemma sift_loop_map fuel b count x i0 i1 :
  sift_loop cmp fuel (map f b) count (f x) i0 i1 =
  (fun '(c, j0, j1) => (map f c, j0, j1)) <$> sift_loop cmpB fuel b count x i0 i1.
Proof.
  revert b i0 i1. induction fuel as [|fuel IH]; intros b i0 i1; [done|].
  cbn [sift_loop]. destruct (Nat.ltb i1 count); [|done].
  rewrite !rd_map. destruct (rd b i1) as [l|]; [|done].
  cbn [mbind option_bind fmap option_fmap option_map].
  destruct (rd b (i1 + 1)) as [r|]; [|done].
  cbn [mbind option_bind fmap option_fmap option_map].
  rewrite !rd_map. destruct (rd b _) as [c|]; [|done].
  cbn [mbind option_bind fmap option_fmap option_map].
  destruct (cmp (f c) (f x) <=? 0)%Z; [done|].
  rewrite wr_map. destruct (wr b i0 c) as [b'|]; [|done].
  cbn [mbind option_bind fmap option_fmap option_map]. apply IH.
Qed.

Lemma sift_map b count i : sift cmp (map f b) count i = map f <$> sift cmpB b count i.
Proof.
  unfold sift. rewrite rd_map. destruct (rd b i) as [x|]; [|done].
  cbn [mbind option_bind fmap option_fmap option_map]. rewrite sift_loop_map.
  destruct (sift_loop _ _ _ _ _ _ _) as [[[c j0] j1]|]; [|done].
  cbn [mbind option_bind fmap option_fmap option_map].
  destruct (Nat.eqb j1 count); [|apply wr_map].
  rewrite rd_map. destruct (rd c j1) as [y|]; [|done].
  cbn [mbind option_bind fmap option_fmap option_map].
  destruct (cmp (f y) (f x) >? 0)%Z; [|apply wr_map].
  rewrite wr_map. destruct (wr c j0 y) as [c'|]; [|done].
  cbn [mbind option_bind fmap option_fmap option_map]. apply wr_map.
Qed.

Lemma build_map i b count : build cmp i (map f b) count = map f <$> build cmpB i b count.
Proof.
  revert b. induction i as [|i IH]; intros b; [done|]. cbn [build]. rewrite sift_map.
  destruct (sift _ _ _ _) as [c|]; [|done]. cbn [mbind option_bind fmap option_fmap option_map]. apply IH.
Qed.

Lemma extract_map count b : extract cmp count (map f b) = map f <$> extract cmpB count b.
Proof.
  revert b. induction count as [|count IH]; intros b; [done|]. cbn [extract]. rewrite sift_map.
  destruct (sift _ _ _ _) as [c|]; [|done]. cbn [mbind option_bind fmap option_fmap option_map].
  rewrite !rd_map. destruct (rd c (S count)) as [x|]; [|done].
  cbn [mbind option_bind fmap option_fmap option_map].
  destruct (rd c 0) as [y|]; [|done]. cbn [mbind option_bind fmap option_fmap option_map].
  rewrite wr_map. destruct (wr c (S count) y) as [d|]; [|done].
  cbn [mbind option_bind fmap option_fmap option_map].
  rewrite wr_map. destruct (wr d 0 x) as [e|]; [|done].
  cbn [mbind option_bind fmap option_fmap option_map]. apply IH.
Qed.

Lemma hsort_map b : hsort cmp (map f b) = map f <$> hsort cmpB b.
Proof.
  unfold hsort. rewrite map_length. destruct (Nat.leb (length b) 1); [done|].
  rewrite build_map. destruct (build _ _ _ _) as [c|]; [|done].
  cbn [mbind option_bind fmap option_fmap option_map]. apply extract_map.
Qed.
End natural.

(** Order relative to the elements of the array only. *)
Theorem hsort_sorted_in {A} (cmp : A -> A -> Z) (R : A -> A -> Prop) a b :
  (forall x y, x ∈ a -> y ∈ a -> (cmp x y <= 0)%Z -> R x y) ->
  (forall x y, x ∈ a -> y ∈ a -> (cmp x y > 0)%Z -> R y x) ->
  (forall x y z, x ∈ a -> y ∈ a -> z ∈ a -> R x y -> R y z -> R x z) ->
  hsort cmp a = Some b ->
  forall i j x y, i <= j -> b !! i = Some x -> b !! j = Some y -> R x y.
Proof.
  intros H1 H2 H3 E. destruct a as [|d a]; [injection E as <-; done|].
  set (f := fun i => nth i (d :: a) d).
  assert (Hf : forall i, f i ∈ d :: a).
  { intros i. unfold f. destruct (nth_in_or_default i (d :: a) d) as [Hi| ->]; [by apply elem_of_list_In|left]. }
  assert (Ha : d :: a = map f (seq 0 (length (d :: a)))).
  { apply list_eq. intros i. rewrite (list_lookup_fmap f).
    destruct ((d :: a) !! i) as [x|] eqn:Hx.
    - assert (Hl := lookup_lt_Some _ _ _ Hx).
      rewrite lookup_seq_lt by done. cbn [fmap option_fmap option_map Nat.add]. f_equal.
      unfold f. rewrite nth_lookup, Hx. done.
    - apply lookup_ge_None in Hx. rewrite (lookup_ge_None_2 (seq _ _)); [done|rewrite seq_length; lia]. }
  rewrite Ha, hsort_map in E.
  destruct (hsort (fun x y => cmp (f x) (f y)) (seq 0 (length (d :: a)))) as [c|] eqn:Ec; [|done].
  injection E as <-. intros i j x y Hij Hx Hy.
  rewrite (list_lookup_fmap f) in Hx. rewrite (list_lookup_fmap f) in Hy.
  apply fmap_Some in Hx as (p & Hp & ->). apply fmap_Some in Hy as (q & Hq & ->).
  apply (hsort_sorted (fun x y => cmp (f x) (f y)) (fun p q => R (f p) (f q))) with (a := seq 0 (length (d :: a))) (b := c) (i := i) (j := j); try done.
  - intros u v. by apply H1.
  - intros u v. by apply H2.
  - intros u v w. by apply H3.
Qed.
