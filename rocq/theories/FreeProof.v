(** Proofs about mr_free_recursively (src/mr_extra.c:8-47). *)
From stdpp Require Import sets.
From Verif Require Import Base Ptrs DfsProof TreeFacts CopyFree CopyFreeSpec CopyMem.
Local Open Scope Z_scope.

Lemma is_ptr_dec n : is_ptr n \/ ~ is_ptr n.
Proof. unfold is_ptr. destruct (Z.eq_dec (x_type n) T_STRING), (Z.eq_dec (x_type n) T_POINTER); auto; right; intros [|]; done. Qed.

Lemma link_at ns i m : map link_of ns !! i = Some m -> exists n, ns !! i = Some n /\ link_of n = m.
Proof. rewrite list_lookup_fmap. destruct (ns !! i) as [n|]; [|done]. intros [= <-]. by exists n. Qed.
Lemma at_link ns i n : ns !! i = Some n -> map link_of ns !! i = Some (link_of n).
Proof. intros E. by rewrite list_lookup_fmap, E. Qed.

(** The value a live pointer or string holds. *)
Lemma area_own m ns i a s : i <> 0%nat -> area_of m ns i = Some (a, s) ->
  exists n d, ns !! i = Some n /\ live n = true /\ is_ptr n /\ x_data n = Some d /\ ld m d = Some (Some a) /\
    (x_type n = T_POINTER -> s = x_size n) /\ (x_type n = T_STRING -> exists cs, rd_text m a = Some cs /\ s = Z.of_nat (length cs)).
Proof.
  intros Z. unfold area_of. destruct (Nat.eqb_spec i 0); [done|]. destruct (ns !! i) as [n0|]; [|done]. cbn [mbind option_bind].
  destruct (live n0) eqn:L; cbn [negb]; [|done]. destruct (Z.eqb_spec (x_type n0) T_STRING) as [E|E].
  - destruct (x_data n0) as [d|] eqn:Ed; [|done]. cbn [mbind option_bind]. destruct (ld m d) as [[v|]|] eqn:Ev; cbn [mbind option_bind]; try done.
    destruct (rd_text m v) as [cs|] eqn:Et; cbn [mbind option_bind]; [|done]. intros [= <- <-]. exists n0, d. repeat split; try done; [by left|by rewrite E|].
    intros _. by exists cs.
  - destruct (Z.eqb_spec (x_type n0) T_POINTER) as [E'|E']; [|done]. destruct (x_data n0) as [d|] eqn:Ed; [|done]. cbn [mbind option_bind].
    destruct (ld m d) as [[v|]|] eqn:Ev; cbn [mbind option_bind]; try done. intros [= <- <-]. exists n0, d. repeat split; try done. by right.
Qed.
Lemma live_idx n : live n = true -> x_idx n <> 0%nat.
Proof. unfold live. destruct (Nat.eqb_spec (x_idx n) 0); [done|done]. Qed.
Lemma live_flags n : live n = true -> fl_null n = false /\ fl_ref n = false /\ fl_cref n = false.
Proof. unfold live. destruct (fl_null n), (fl_ref n), (fl_cref n); rewrite ?andb_false_r; done. Qed.

Section Free.
Context (m : mem) (ns : list xnode) (t : tree) (D : described m ns t).

Lemma own_in_tree i n : ns !! i = Some n -> i <> 0%nat -> live n = true -> i ∈ nodes t.
Proof. intros E Z L. apply (d_idx _ _ _ D i n E Z). by apply live_idx. Qed.

Lemma gather_ok i n : ns !! i = Some n -> i <> 0%nat -> gather m n = Some (true, fst <$> area_of m ns i).
Proof.
  intros E Z. unfold gather. destruct (live n) eqn:L; cbn [andb].
  2: { unfold area_of. destruct (Nat.eqb_spec i 0); [done|]. rewrite E. cbn [mbind option_bind]. by rewrite L. }
  destruct (d_node _ _ _ D i n (own_in_tree i n E Z L) E) as (a & Ea & O).
  destruct (is_ptr_dec n) as [P|P].
  - destruct (ok_own _ _ _ _ _ _ O P L) as ((p & s & A & _) & _). destruct (area_own _ _ _ _ _ Z A) as (n' & d & E' & _ & _ & Ed & Ev & _).
    assert (n' = n) as -> by congruence. rewrite A. cbn [fmap option_fmap option_map fst].
    destruct ((x_type n =? T_POINTER) || (x_type n =? T_STRING)) eqn:T; [|destruct P; lia]. rewrite Ed, Ev. done.
  - destruct ((x_type n =? T_POINTER) || (x_type n =? T_STRING)) eqn:T; [exfalso; apply P; unfold is_ptr; lia|].
    unfold area_of. destruct (Nat.eqb_spec i 0); [done|]. rewrite E. cbn [mbind option_bind]. rewrite L. cbn [negb].
    destruct (Z.eqb_spec (x_type n) T_STRING); [lia|]. destruct (Z.eqb_spec (x_type n) T_POINTER); [lia|done].
Qed.

Lemma gather_all_ok k : (1 <= k)%nat -> gather_all m (drop k ns) = Some (true, map (fun i => fst <$> area_of m ns i) (seq k (length ns - k))).
Proof.
  intros K. remember (length ns - k)%nat as l eqn:El. revert k K El. induction l as [|l IH]; intros k K El.
  - rewrite drop_ge by lia. done.
  - destruct (lookup_lt_is_Some_2 ns k) as [n En]; [lia|]. rewrite (drop_S _ _ _ En). cbn [gather_all].
    rewrite (gather_ok k n En) by lia. cbn [mbind option_bind]. rewrite (IH (S k)) by lia. cbn [mbind option_bind]. done.
Qed.

Lemma area_node i a s : i <> 0%nat -> area_of m ns i = Some (a, s) -> i ∈ nodes t /\ 0 < s /\ exists cs, rd_cells m a s = Some cs.
Proof.
  intros Z A. destruct (area_own _ _ _ _ _ Z A) as (n & d & E & L & P & _). pose proof (own_in_tree i n E Z L) as I. split; [done|].
  destruct (d_node _ _ _ D i n I E) as (a' & _ & O). destruct (ok_own _ _ _ _ _ _ O P L) as ((p & s' & A' & S & R & _) & _).
  rewrite A in A'. injection A' as <- <-. done.
Qed.

Lemma free_list : forall vs m0, NoDup (map fst (omap id vs)) -> (forall b, Some b ∈ vs -> snd b = 0 /\ dynamic m0 (fst b)) ->
  exists m', free_all m0 vs = Some m' /\ length m' = length m0 /\
    forall b, (b ∈ map fst (omap id vs) -> m' !! b = Some None) /\ (b ∉ map fst (omap id vs) -> m' !! b = m0 !! b).
Proof.
  clear D t ns m. induction vs as [|[[b o]|] vs IH]; intros m0 N H.
  - exists m0. split; [done|]. split; [done|]. intros b. split; [|done]. intros Hb. cbn in Hb. by apply elem_of_nil in Hb.
  - cbn in N. apply NoDup_cons in N as [N1 N2]. destruct (H (b, o)) as [Ho Hd]; [left|]. cbn in Ho, Hd. subst o.
    cbn [free_all]. rewrite (free_ok m0 b Hd). cbn [mbind option_bind].
    assert (b < length m0)%nat as Lb by (destruct Hd as [? Hd]; by eapply lookup_lt_Some).
    destruct (IH (<[b := None]> m0) N2) as (m' & E' & L' & M').
    { intros [b' o'] Hb'. destruct (H (b', o')) as [Ho' [cs Hd']]; [by right|]. split; [done|]. exists cs. cbn in *.
      rewrite list_lookup_insert_ne; [done|]. intros <-. apply N1. apply elem_of_list_fmap. exists (b, o'). split; [done|].
      apply elem_of_list_omap. by exists (Some (b, o')). }
    exists m'. split; [done|]. split; [by rewrite L', insert_length|]. intros b'. cbn [omap list_omap id map fst]. split.
    + intros Hb'. destruct (decide (b' ∈ map fst (omap id vs))) as [I|I]; [by apply M'|]. apply elem_of_cons in Hb' as [->|]; [|done].
      destruct (M' b) as [_ ->]; [|done]. by apply list_lookup_insert.
    + intros Hb'. apply not_elem_of_cons in Hb' as [Nb Hb']. destruct (M' b') as [_ ->]; [|done]. by rewrite list_lookup_insert_ne.
  - cbn [free_all]. destruct (IH m0 N) as (m' & E' & L' & M'); [intros b Hb; apply H; by right|]. exists m'. split; [done|]. split; [done|]. exact M'.
Qed.

Context (HO : heap_owned m ns).

(** The blocks that the table owns. *)
Definition owned (b : nat) : Prop := exists i a s, i <> 0%nat /\ area_of m ns i = Some (a, s) /\ fst a = b.

Lemma values_nodup k l : (1 <= k)%nat -> NoDup (map fst (omap id (map (fun i => fst <$> area_of m ns i) (seq k l)))).
Proof.
  revert k. induction l as [|l IH]; intros k K; [constructor|]. cbn. destruct (area_of m ns k) as [[a s]|] eqn:A; cbn; [|by apply IH; lia].
  constructor; [|apply IH; lia]. intros H. apply elem_of_list_fmap in H as (b & Eb & H). apply elem_of_list_omap in H as (ob & H & Eo).
  unfold id in Eo. subst ob. apply elem_of_list_fmap in H as (j & Ej & Hj). apply elem_of_seq in Hj.
  destruct (area_of m ns j) as [[b' u]|] eqn:B; [|done]. cbn in Ej. injection Ej as ->.
  destruct (HO k a s) as (Z1 & _); [lia|done|]. destruct (HO j b' u) as (Z2 & _); [lia|done|].
  destruct (area_node k a s) as (_ & S1 & _); [lia|done|]. destruct (area_node j b' u) as (_ & S2 & _); [lia|done|].
  assert (k = j); [|lia]. eapply (d_disjoint _ _ _ D k j a b' s u a); [done|done|split; [done|lia]|]. split; [done|lia].
Qed.

Lemma free_owned : exists m', free_recursively m ns = Some (true, m') /\ length m' = length m /\
  forall b, (owned b -> m' !! b = Some None) /\ (~ owned b -> m' !! b = m !! b).
Proof.
  destruct (d_zero _ _ _ D) as [n0 E0]. destruct ns as [|n1 ns1] eqn:Ens; [done|]. unfold free_recursively.
  rewrite <- Ens in *. pose proof (gather_all_ok 1 ltac:(lia)) as G. assert (drop 1 ns = ns1) as Dr by (by rewrite Ens). rewrite Dr in G.
  rewrite G. cbn [mbind option_bind]. set (vs := map _ _) in *.
  assert (forall b, b ∈ map fst (omap id vs) <-> owned b) as Ow.
  { intros b. split.
    - intros H. apply elem_of_list_fmap in H as (a & -> & H). apply elem_of_list_omap in H as (oa & H & Eo). unfold id in Eo. subst oa.
      apply elem_of_list_fmap in H as (j & Ej & Hj). apply elem_of_seq in Hj. destruct (area_of m ns j) as [[b' u]|] eqn:Bj; [|done].
      cbn in Ej. injection Ej as ->. exists j, b', u. split; [lia|done].
    - intros (i & a & s & Z & A & <-). destruct (area_own _ _ _ _ _ Z A) as (n & d & E & _). apply lookup_lt_Some in E.
      apply elem_of_list_fmap. exists a. split; [done|]. apply elem_of_list_omap. exists (Some a). split; [|done].
      apply elem_of_list_fmap. exists i. split; [by rewrite A|]. apply elem_of_seq. lia. }
  destruct (free_list vs m) as (m' & F & L & M).
  - apply values_nodup. lia.
  - intros a Ha. apply elem_of_list_fmap in Ha as (j & Ej & Hj). apply elem_of_seq in Hj. destruct (area_of m ns j) as [[b' u]|] eqn:Bj; [|done].
    cbn in Ej. injection Ej as ->. destruct (HO j b' u) as (Z2 & Dy & _); [lia|done|]. done.
  - rewrite F. exists m'. split; [done|]. split; [done|]. intros b. destruct (M b) as [M1 M2]. rewrite <- Ow. done.
Qed.

(** The nodes lie in the structure or in reachable blocks. *)
Definition base : addr := match area_of m ns 0 with Some (a, _) => a | None => (0%nat, 0) end.
Definition base_size : Z := match area_of m ns 0 with Some (_, s) => s | None => 0 end.
Lemma area_base : area_of m ns 0 = Some (base, base_size).
Proof.
  destruct (d_base _ _ _ D) as (n & a & cs & E & Ea & _). unfold base, base_size, area_of. rewrite Nat.eqb_refl, E. cbn [mbind option_bind]. by rewrite Ea.
Qed.

Definition found (i : nat) (a : addr) : Prop := exists k p s, area_of m ns k = Some (p, s) /\ inside p s a /\
  (k = 0%nat \/ (k <> 0%nat /\ reached m base base_size (fst p))).

Lemma same_area a k j p q s u : area_of m ns k = Some (p, s) -> area_of m ns j = Some (q, u) -> inside p s a -> inside q u a -> k = j.
Proof. intros. by eapply (d_disjoint _ _ _ D k j p q s u a). Qed.

Lemma own_reached i n d a s : ns !! i = Some n -> x_data n = Some d -> i <> 0%nat -> area_of m ns i = Some (a, s) -> found i d -> reached m base base_size (fst a).
Proof.
  intros E Ed Z A (k & p & u & K1 & K2 & K3). destruct (area_own _ _ _ _ _ Z A) as (n' & d' & E' & _ & _ & Ed' & Ev & _).
  assert (n' = n) as -> by congruence. assert (d' = d) as -> by congruence. clear E' Ed'.
  assert (cell_at m d = Some (F a 0)) as C.
  { rewrite ld_iff in Ev. specialize (Ev 0%nat). rewrite padd_0 in Ev. apply Ev. lia. }
  destruct K3 as [->|[Zk R]].
  - rewrite area_base in K1. injection K1 as <- <-. by eapply reached_root.
  - destruct (HO k p u Zk K1) as (_ & Dy & Nb & _). destruct K2 as [K2 _]. destruct d as [db do]. cbn in K2. subst db.
    eapply (reached_step m base base_size (fst p) do a 0); [done|by eapply Nb, area_base|done|done].
Qed.

Lemma nodes_found : forall i, i ∈ nodes t -> forall n d, ns !! i = Some n -> x_data n = Some d -> found i d.
Proof.
  apply (top_down (map link_of ns) t 0 (fun i => forall n d, ns !! i = Some n -> x_data n = Some d -> found i d) (d_tree _ _ _ D)).
  - rewrite (d_root _ _ _ D). intros n d E Ed. pose proof area_base as A. exists 0%nat, base, base_size. split; [done|]. split; [|by left].
    destruct (d_base _ _ _ D) as (n' & a & cs & E' & Ea & S & _). assert (n' = n) as -> by congruence. assert (a = d) as -> by congruence.
    unfold area_of in A. rewrite Nat.eqb_refl, E in A. cbn [mbind option_bind] in A. rewrite Ea in A. injection A as <- <-. split; [done|lia].
  - intros j mm Hj Nj Em Pm IH n d E Ed. destruct (link_at _ _ _ Em) as (n' & E' & <-). assert (n' = n) as -> by congruence. cbn in Pm, IH.
    rewrite (d_root _ _ _ D) in Nj. destruct (nodes_nonzero _ _ _ (d_tree _ _ _ D) _ Pm) as (Zp & mp & Ep). destruct (link_at _ _ _ Ep) as (pn & Epn & _).
    destruct (d_node _ _ _ D _ pn Pm Epn) as (b & Eb & _). pose proof (d_edge _ _ _ D j n pn d b Hj Nj E Epn Ed Eb) as X.
    specialize (IH pn b Epn Eb). destruct (x_type pn =? T_POINTER).
    + destruct X as (p & s & A & I). exists (x_parent n), p, s. split; [done|]. split; [done|]. right. split; [done|]. by eapply own_reached.
    + destruct X as (k & p & s & A & I1 & I2). destruct IH as (k' & p' & s' & A' & I' & R'). assert (k = k') as -> by (by eapply (same_area b)).
      exists k', p, s. split; [done|]. split; [done|]. assert (p' = p) as -> by congruence. done.
Qed.

Context (HC : heap_closed m ns).

Lemma owned_iff b : owned b <-> reached m base base_size b /\ dynamic m b /\ b <> fst base.
Proof.
  split.
  - intros (i & a & s & Z & A & <-). destruct (HO i a s Z A) as (_ & Dy & Nb & _). split; [|split; [done|by eapply Nb, area_base]].
    destruct (area_own _ _ _ _ _ Z A) as (n & d & E & L & P & Ed & _). eapply own_reached; try done. eapply nodes_found; [by eapply own_in_tree|done|done].
  - intros (R & Dy & Nb). revert Dy Nb.
    assert (forall p q k, in_area m ns p -> cell_at m p = Some (F q k) -> dynamic m (fst q) -> fst q <> fst base -> owned (fst q)) as G.
    { intros p q k I C Dy Nb. destruct (HC p q k I C Dy) as [(i & a & s & A & [I1 I2])|(a & s & A & Eq)].
      - destruct (decide (i = 0%nat)) as [->|Z]; [rewrite area_base in A; injection A as <- <-; done|]. exists i, a, s. done.
      - rewrite area_base in A. injection A as <- <-. done. }
    induction R as [p q k I C|b o q k R IH Nb0 Dy0 C]; intros Dy Nb.
    + eapply G; try done. exists 0%nat, base, base_size. split; [by apply area_base|done].
    + destruct (IH Dy0 Nb0) as (i & a & s & Z & A & <-). destruct (HO i a s Z A) as (_ & _ & _ & W).
      eapply (G (fst a, o)); try done. exists i, a, s. split; [done|]. by eapply W.
Qed.

Lemma free_reached : exists m', free_recursively m ns = Some (true, m') /\ length m' = length m /\
  forall b, (reached m base base_size b /\ dynamic m b /\ b <> fst base -> m' !! b = Some None) /\
            (~ (reached m base base_size b /\ dynamic m b /\ b <> fst base) -> m' !! b = m !! b).
Proof.
  destruct free_owned as (m' & E & L & M). exists m'. split; [done|]. split; [done|]. intros b. destruct (M b) as [M1 M2].
  rewrite owned_iff in M1, M2. done.
Qed.
End Free.
