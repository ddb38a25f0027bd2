(** Proofs about the first loop of mr_copy_recursively (src/mr_extra.c:84-148). *)
From stdpp Require Import sets.
From Verif Require Import Base Ptrs DfsProof TreeFacts CopyFree CopyFreeSpec CopyMem FreeProof.
Local Open Scope Z_scope.

Section Copy.
Context (m : mem) (ns : list xnode) (t : tree) (D : described m ns t).
Context (dst : addr) (HA : apart m ns dst) (HP : plain_root ns).

(** ** Where the copies go *)
Definition owner (i : nat) : bool := match area_of m ns i with Some _ => true | None => false end.
Definition rank (k : nat) : nat := length (filter (fun i => owner i = true) (seq 2 (k - 2))).
Definition blk (i : nat) : nat := (length m + rank i)%nat.

Lemma rank_S k : (2 <= k)%nat -> rank (S k) = (rank k + if owner k then 1 else 0)%nat.
Proof.
  intros K. unfold rank. replace (S k - 2)%nat with (S (k - 2))%nat by lia. rewrite seq_S, filter_app, app_length. f_equal.
  replace (2 + (k - 2))%nat with k by lia. rewrite filter_cons, filter_nil. destruct (owner k); [by rewrite decide_True|by rewrite decide_False].
Qed.
Lemma rank_2 k : (k <= 2)%nat -> rank k = 0%nat.
Proof. intros K. unfold rank. by replace (k - 2)%nat with 0%nat by lia. Qed.
Lemma rank_mono i j : (i <= j)%nat -> (rank i <= rank j)%nat.
Proof.
  induction 1 as [|j L IH]; [done|]. destruct (decide (2 <= j)%nat); [rewrite rank_S by done; lia|]. rewrite (rank_2 (S j)), (rank_2 i) by lia. lia.
Qed.
Lemma rank_lt i j : (2 <= i)%nat -> (i < j)%nat -> owner i = true -> (rank i < rank j)%nat.
Proof. intros I L O. pose proof (rank_mono (S i) j). rewrite (rank_S i I), O in H. lia. Qed.
Lemma rank_inj i j : (2 <= i)%nat -> (2 <= j)%nat -> owner i = true -> owner j = true -> rank i = rank j -> i = j.
Proof.
  intros I J Oi Oj E. destruct (decide (i < j)%nat) as [L|L]; [pose proof (rank_lt i j I L Oi); lia|].
  destruct (decide (j < i)%nat) as [L'|L']; [pose proof (rank_lt j i J L' Oj); lia|]. lia.
Qed.
Lemma rank_onto k r : (r < rank k)%nat -> exists i, (2 <= i < k)%nat /\ owner i = true /\ rank i = r.
Proof.
  induction k as [|k IH]; intros H; [by rewrite (rank_2 0) in H by lia; lia|].
  destruct (decide (2 <= k)%nat) as [K|K]; [|rewrite rank_2 in H; lia].
  rewrite rank_S in H by done. destruct (decide (r < rank k)%nat) as [L|L].
  - destruct (IH L) as (i & ? & ? & ?). exists i. split; [lia|done].
  - exists k. destruct (owner k); [|lia]. split; [lia|]. split; [done|lia].
Qed.

Lemma area_1 : area_of m ns 1 = None.
Proof.
  unfold area_of. cbn [Nat.eqb]. destruct (ns !! 1%nat) as [n|] eqn:E; [|done]. cbn [mbind option_bind]. destruct (live n); [|done]. cbn [negb].
  pose proof (HP n E) as P. unfold is_ptr in P. destruct (Z.eqb_spec (x_type n) T_STRING); [tauto|]. destruct (Z.eqb_spec (x_type n) T_POINTER); [tauto|done].
Qed.
Lemma area_2 i a s : i <> 0%nat -> area_of m ns i = Some (a, s) -> (2 <= i < length ns)%nat.
Proof.
  intros Z A. destruct (area_own _ _ _ _ _ Z A) as (n & d & E & _). pose proof (lookup_lt_Some _ _ _ E).
  destruct (decide (i = 1%nat)) as [->|]; [by rewrite area_1 in A|lia].
Qed.

Definition inside_b (a : addr) (s : Z) (p : addr) : bool := Nat.eqb (fst p) (fst a) && (snd a <=? snd p) && (snd p <? snd a + s).
Lemma inside_b_iff a s p : inside_b a s p = true <-> inside a s p.
Proof. unfold inside_b, inside. destruct (Nat.eqb_spec (fst p) (fst a)); cbn; lia. Qed.

Definition home (p : addr) : option nat :=
  head (filter (fun i => match area_of m ns i with Some (a, s) => inside_b a s p | None => false end = true) (seq 0 (length ns))).
Definition rel (p : addr) : addr :=
  match home p with
  | Some i => match area_of m ns i with
              | Some (a, _) => if Nat.eqb i 0 then padd dst (snd p - snd a) else (blk i, snd p - snd a)
              | None => p
              end
  | None => p
  end.

Lemma ns_length : (2 <= length ns)%nat.
Proof. destruct (d_base _ _ _ D) as (n & _ & _ & E & _). apply lookup_lt_Some in E. lia. Qed.

Lemma home_area i a s p : area_of m ns i = Some (a, s) -> inside a s p -> home p = Some i.
Proof.
  intros A I. unfold home. set (f := fun i => _). destruct (filter f (seq 0 (length ns))) as [|j l] eqn:E.
  - assert (i ∈ filter f (seq 0 (length ns))) as X; [|rewrite E in X; by apply elem_of_nil in X].
    apply elem_of_list_filter. split; [unfold f; rewrite A; by apply inside_b_iff|]. apply elem_of_seq.
    pose proof ns_length. destruct (decide (i = 0%nat)) as [->|Z]; [lia|]. pose proof (area_2 i a s Z A). lia.
  - assert (j ∈ filter f (seq 0 (length ns))) as X by (rewrite E; left). apply elem_of_list_filter in X as [X _]. unfold f in X.
    destruct (area_of m ns j) as [[b u]|] eqn:Aj; [|done]. apply inside_b_iff in X. cbn. f_equal. by eapply (d_disjoint _ _ _ D j i b a u s p).
Qed.
Lemma rel_root a s k : area_of m ns 0 = Some (a, s) -> 0 <= k < s -> rel (padd a k) = padd dst k.
Proof.
  intros A K. unfold rel. rewrite (home_area 0 a s) by (try done; by apply inside_padd). rewrite A. cbn. f_equal. lia.
Qed.
Lemma rel_own i a s k : i <> 0%nat -> area_of m ns i = Some (a, s) -> 0 <= k < s -> rel (padd a k) = (blk i, k).
Proof.
  intros Z A K. unfold rel. rewrite (home_area i a s) by (try done; by apply inside_padd). rewrite A. destruct (Nat.eqb_spec i 0); [done|]. cbn. f_equal. lia.
Qed.
Lemma home_none p : ~ in_area m ns p -> home p = None.
Proof.
  intros H. unfold home. set (f := fun i => _). destruct (filter f (seq 0 (length ns))) as [|j l] eqn:E; [done|]. exfalso. apply H.
  assert (j ∈ filter f (seq 0 (length ns))) as X by (rewrite E; left). apply elem_of_list_filter in X as [X _]. unfold f in X.
  destruct (area_of m ns j) as [[b u]|] eqn:Aj; [|done]. apply inside_b_iff in X. by exists j, b, u.
Qed.
Lemma rel_ext p : ~ in_area m ns p -> rel p = p.
Proof. intros H. unfold rel. by rewrite (home_none p H). Qed.

(** Two bytes of one area keep their distance. *)
Lemma rel_shift i a s p q : area_of m ns i = Some (a, s) -> inside a s p -> inside a s q -> psub q p = Some (snd q - snd p) /\ rel q = padd (rel p) (snd q - snd p).
Proof.
  intros A I J. destruct (inside_inv _ _ _ I) as (x & X & ->), (inside_inv _ _ _ J) as (y & Y & ->). split.
  - unfold psub. cbn. by rewrite Nat.eqb_refl.
  - destruct (decide (i = 0%nat)) as [->|Z].
    + rewrite !(rel_root a s) by done. rewrite padd_padd. f_equal. cbn. lia.
    + rewrite !(rel_own i a s) by done. unfold padd. cbn. f_equal. lia.
Qed.

Lemma dst_block : exists d l, m !! fst dst = Some (Some (d, l)).
Proof.
  destruct (d_base _ _ _ D) as (n & _ & _ & E & _ & S & _). destruct HA as [H _]. destruct (H n E) as [cs R]. unfold rd_cells in R.
  destruct (m !! dst.1) as [[[d l]|]|]; try done. eauto.
Qed.
Lemma dst_lt : (fst dst < length m)%nat.
Proof. destruct dst_block as (d & l & E). by eapply lookup_lt_Some. Qed.

Lemma rel_inj p q : in_area m ns p -> in_area m ns q -> rel p = rel q -> p = q.
Proof.
  intros (i & a & s & A & I) (j & b & u & Bj & J). destruct (inside_inv _ _ _ I) as (x & X & ->), (inside_inv _ _ _ J) as (y & Y & ->).
  pose proof dst_lt as Ld. destruct (decide (i = 0%nat)) as [->|Zi], (decide (j = 0%nat)) as [->|Zj].
  - rewrite A in Bj. injection Bj as <- <-. rewrite !(rel_root a s) by done. unfold padd. intros [= E]. f_equal. lia.
  - rewrite (rel_root a s), (rel_own j b u) by done. unfold padd, blk. intros [= E _]. lia.
  - rewrite (rel_root b u), (rel_own i a s) by done. unfold padd, blk. intros [= E _]. lia.
  - rewrite (rel_own i a s), (rel_own j b u) by done. unfold blk. intros [= E ->].
    pose proof (area_2 i a s Zi A). pose proof (area_2 j b u Zj Bj).
    assert (i = j) as -> by (apply rank_inj; [lia|lia|unfold owner; by rewrite A|unfold owner; by rewrite Bj|lia]). congruence.
Qed.

(** ** The state of the first loop *)
(** The memory after the structure was copied (src/mr_extra.c:84). *)
Context (n1 : xnode) (a1 : addr) (cs1 : list cell) (m1 : mem).
Context (E1 : ns !! 1%nat = Some n1) (Ea1 : x_data n1 = Some a1) (R1 : rd_cells m a1 (x_size n1) = Some cs1) (W1 : wr_cells m dst cs1 = Some m1).

Lemma area_0 : area_of m ns 0 = Some (a1, x_size n1).
Proof. unfold area_of. cbn [Nat.eqb]. rewrite E1. cbn [mbind option_bind]. by rewrite Ea1. Qed.
Lemma cs1_length : Z.of_nat (length cs1) = x_size n1.
Proof. by apply rd_cells_inv in R1 as (_ & ? & _). Qed.
Lemma m1_length : length m1 = length m.
Proof. by apply wr_cells_inv in W1 as (? & _). Qed.
Lemma m1_area p : in_area m ns p -> cell_at m1 p = cell_at m p.
Proof.
  intros I. apply wr_cells_inv in W1 as (_ & _ & _ & _ & H). apply H. rewrite cs1_length. destruct HA as [_ HA2]. intros X. by eapply HA2.
Qed.
Lemma m1_blocks b : b <> fst dst -> m1 !! b = m !! b.
Proof. apply wr_cells_inv in W1 as (_ & H & _). apply H. Qed.
Lemma m1_dst k : 0 <= k < x_size n1 -> cell_at m1 (padd dst k) = cell_at m (padd a1 k).
Proof.
  intros K. pose proof cs1_length as L. apply wr_cells_inv in W1 as (_ & _ & _ & H & _). rewrite H by (rewrite L; by apply inside_padd).
  apply rd_cells_inv in R1 as (_ & _ & R). cbn. replace (dst.2 + k - dst.2) with (Z.of_nat (Z.to_nat k)) by lia. rewrite Nat2Z.id.
  rewrite <- R by lia. f_equal. f_equal. lia.
Qed.
Lemma m1_rest p : fst p = fst dst -> ~ inside dst (x_size n1) p -> cell_at m1 p = cell_at m p.
Proof. intros _ H. apply wr_cells_inv in W1 as (_ & _ & _ & _ & G). apply G. by rewrite cs1_length. Qed.

Definition kid (i j : nat) : Prop := j ∈ nodes t /\ exists n, ns !! j = Some n /\ x_parent n = i.
Definition is_string (i : nat) : Prop := exists n, ns !! i = Some n /\ x_type n = T_STRING.
Definition is_pointer (i : nat) : Prop := exists n, ns !! i = Some n /\ x_type n = T_POINTER.

(** Nodes below [k] are processed. *)
Record inv (k : nat) (s : cstate) : Prop := {
  i_len : length (c_res s) = length ns /\ length (c_txt s) = length ns;
  i_mem : length (c_mem s) = (length m + rank k)%nat;
  i_old : forall b, (b < length m)%nat -> c_mem s !! b = m1 !! b;
  i_new : forall i a z, (2 <= i < k)%nat -> area_of m ns i = Some (a, z) ->
    exists cs, c_mem s !! blk i = Some (Some (true, cs)) /\ Z.of_nat (length cs) = z /\
      forall j, (j < length cs)%nat -> cs !! j = cell_at m (padd a (Z.of_nat j));
  i_txt : forall i, (2 <= i < k)%nat -> owner i = true -> is_string i -> c_txt s !! i = Some (Some (blk i, 0));
  i_txt0 : forall i, (2 <= i < length ns)%nat -> ~ ((i < k)%nat /\ owner i = true /\ is_string i) -> c_txt s !! i = Some None;
  i_res1 : c_res s !! 1%nat = Some (Some dst);
  i_res : forall i j n d p z, (2 <= i < k)%nat -> area_of m ns i = Some (p, z) -> is_pointer i -> kid i j -> ns !! j = Some n -> x_data n = Some d ->
    c_res s !! j = Some (Some (blk i, snd d - snd p));
  i_res0 : forall j, (2 <= j < length ns)%nat -> (forall i, (2 <= i < k)%nat -> owner i = true -> is_pointer i -> ~ kid i j) -> c_res s !! j = Some None;
  i_first : forall i n, (2 <= i < k)%nat -> owner i = true -> ns !! i = Some n -> x_type n = T_POINTER -> x_first n <> 0%nat }.

Lemma inv_cell k s p c : inv k s -> in_area m ns p -> cell_at m p = Some c -> cell_at (c_mem s) p = Some c.
Proof.
  intros V I C. rewrite <- (m1_area p I) in C. unfold cell_at in *. rewrite (i_old _ _ V); [done|].
  rewrite <- m1_length. destruct (m1 !! p.1) as [o|] eqn:E; [|done]. by eapply lookup_lt_Some.
Qed.
Lemma inv_ld k s a v i p z : inv k s -> area_of m ns i = Some (p, z) -> inside p z a -> inside p z (padd a 7) -> ld m a = Some v -> ld (c_mem s) a = Some v.
Proof.
  intros V A I I7. apply ld_agree. intros x X c C. eapply inv_cell; [done| |done]. exists i, p, z. split; [done|].
  unfold inside, padd in *. cbn in *. split; [by destruct I|lia].
Qed.

Lemma inv_start r0 t0 t1 : inv 2 (CState (r0 :: Some dst :: replicate (length ns - 2) None) (t0 :: t1 :: replicate (length ns - 2) None) m1).
Proof.
  pose proof ns_length as L. split; cbn [c_res c_txt c_mem].
  - cbn. rewrite !replicate_length. lia.
  - rewrite (rank_2 2) by lia. rewrite m1_length. lia.
  - done.
  - intros i a z H. lia.
  - intros i H. lia.
  - intros i H _. destruct i as [|[|i]]; [lia|lia|]. cbn. rewrite lookup_replicate. split; [done|lia].
  - done.
  - intros i j n d p z H. lia.
  - intros j H _. destruct j as [|[|i]]; [lia|lia|]. cbn. rewrite lookup_replicate. split; [done|lia].
  - intros i n H. lia.
Qed.

(** ** The children of a copied pointer *)
Fixpoint xchain (l : list nat) : Prop :=
  match l with [] => True | i :: l => i <> 0%nat /\ (exists n, ns !! i = Some n /\ x_next n = hd 0%nat l) /\ xchain l end.
Lemma trees_xchain : forall ks par, trees_at (map link_of ns) par ks -> xchain (map root ks).
Proof.
  induction ks as [|k ks IH]; intros par A; [done|]. cbn in A. destruct A as [A1 A2].
  destruct (tree_at_root _ _ _ _ A1) as (Z & mm & Em & _ & Nm). destruct (link_at _ _ _ Em) as (n & En & <-). cbn in Nm.
  cbn. split; [done|]. split; [|by eapply IH]. exists n. split; [done|]. rewrite Nm. by destruct ks.
Qed.

Lemma place_chain q p : forall l fuel res, xchain l -> NoDup l -> (length l < fuel)%nat -> length res = length ns ->
  (forall j n, j ∈ l -> ns !! j = Some n -> exists d, x_data n = Some d /\ fst d = fst p) ->
  exists res', place fuel ns res q p (hd 0%nat l) = Some res' /\ length res' = length ns /\
    (forall j n d, j ∈ l -> ns !! j = Some n -> x_data n = Some d -> res' !! j = Some (Some (padd q (snd d - snd p)))) /\
    (forall j, j ∉ l -> res' !! j = res !! j).
Proof.
  induction l as [|i l IH]; intros fuel res C N F L H; (destruct fuel as [|fuel]; [cbn in F; lia|]).
  - exists res. split; [done|]. split; [done|]. split; [|done]. intros j n d Hj. by apply elem_of_nil in Hj.
  - cbn in C. destruct C as (Z & (n & En & Nn) & C). cbn [hd place]. destruct (Nat.eqb_spec i 0); [done|].
    rewrite (rd_lu _ _ _ En). cbn [mbind option_bind]. destruct (H i n (elem_of_list_here _ _) En) as (d & Ed & Bd). rewrite Ed. cbn [mbind option_bind].
    unfold psub. rewrite Bd, Nat.eqb_refl. cbn [mbind option_bind]. pose proof (lookup_lt_Some _ _ _ En) as Li.
    rewrite wr_Some by lia. cbn [mbind option_bind]. apply NoDup_cons in N as [N1 N2]. rewrite Nn.
    destruct (IH fuel (<[i := Some (padd q (d.2 - p.2))]> res) C N2) as (res' & E' & L' & P' & Q'); [cbn in F; lia|by rewrite insert_length|intros; eapply H; [by right|done]|].
    exists res'. split; [done|]. split; [done|]. split.
    + intros j n' d' Hj En' Ed'. apply elem_of_cons in Hj as [->|Hj]; [|by eapply P'].
      rewrite Q' by done. rewrite list_lookup_insert by lia. congruence.
    + intros j Hj. apply not_elem_of_cons in Hj as [Nj Hj]. rewrite Q' by done. by rewrite list_lookup_insert_ne.
Qed.

Lemma kid_list i n : i ∈ nodes t -> ns !! i = Some n -> x_first n <> 0%nat -> fl_ref n = false -> fl_cref n = false ->
  exists l, hd 0%nat l = x_first n /\ xchain l /\ NoDup l /\ (length l <= length ns)%nat /\ forall j, j ∈ l <-> kid i j.
Proof.
  intros I E F R1' R2'. destruct (tree_kids _ _ _ (d_tree _ _ _ D) (d_nodup _ _ _ D) i I) as (par & nxt & ks & A & N & K).
  rewrite tree_at_eq in A. destruct A as (mm & Em & Z & _ & _ & X). rewrite (at_link _ _ _ E) in Em. injection Em as <-.
  unfold expandable, link_of in X. cbn [first_child is_ref] in X. rewrite R1', R2' in X. destruct (Nat.eqb_spec (x_first n) 0); [done|]. cbn in X. destruct X as (X1 & X2 & X3).
  exists (map root ks). split; [by destruct ks|]. pose proof (trees_xchain _ _ X3) as C. split; [done|]. split; [done|]. split.
  - assert (forall j, j ∈ map root ks -> (j < length ns)%nat) as B.
    { intros j Hj. apply K in Hj as [_ (mm & Em & _)]. apply lookup_lt_Some in Em. by rewrite map_length in Em. }
    assert (map root ks ⊆+ seq 0 (length ns)) as S by (apply NoDup_submseteq; [done|]; intros j Hj; apply elem_of_seq; specialize (B j Hj); lia).
    apply submseteq_length in S. by rewrite seq_length in S.
  - intros j. rewrite K. unfold kid. split; intros [Hj Q]; split; try done.
    + destruct Q as (mm & Em & P). destruct (link_at _ _ _ Em) as (n' & En' & <-). eauto.
    + destruct Q as (n' & En' & P). exists (link_of n'). split; [by apply at_link|done].
Qed.

(** The data of the children of a pointer. *)
Lemma kid_data i n p z : i ∈ nodes t -> i <> 0%nat -> ns !! i = Some n -> x_type n = T_POINTER -> area_of m ns i = Some (p, z) ->
  forall j nj, kid i j -> ns !! j = Some nj -> exists d, x_data nj = Some d /\ inside p z d.
Proof.
  intros I Z E T A j nj [Hj (n' & En' & Pj)] Enj. assert (n' = nj) as -> by congruence. clear En'.
  destruct (d_node _ _ _ D j nj Hj Enj) as (d & Ed & _). exists d. split; [done|].
  destruct (d_node _ _ _ D i n I E) as (b & Eb & _).
  assert (j <> 1%nat) as N1.
  { intros ->. pose proof (d_tree _ _ _ D) as A0. destruct (tree_at_root _ _ _ _ A0) as (_ & mm & Em & Pm & _). rewrite (d_root _ _ _ D) in Em.
    rewrite (at_link _ _ _ Enj) in Em. injection Em as <-. cbn in Pm. congruence. }
  assert (ns !! x_parent nj = Some n) as Ep by (by rewrite Pj).
  pose proof (d_edge _ _ _ D j nj n d b Hj N1 Enj Ep Ed Eb) as X. rewrite T in X. cbn in X. destruct X as (p' & s' & A' & X).
  rewrite Pj, A in A'. injection A' as <- <-. done.
Qed.

(** ** One pass *)
Lemma inv_skip k s : (2 <= k)%nat -> owner k = false -> inv k s -> inv (S k) s.
Proof.
  intros K O V. split; try apply V.
  - rewrite (i_mem _ _ V), rank_S, O by done. lia.
  - intros i a z I A. apply (i_new _ _ V i a z); [|done]. destruct (decide (i = k)) as [->|]; [|lia]. unfold owner in O. by rewrite A in O.
  - intros i I Oi S. apply (i_txt _ _ V i); [|done|done]. destruct (decide (i = k)) as [->|]; [congruence|lia].
  - intros i I H. apply (i_txt0 _ _ V i I). intros (? & ? & ?). apply H. split; [lia|done].
  - intros i j n d p z I A P Q En Ed. eapply (i_res _ _ V i j n d p z); try done. destruct (decide (i = k)) as [->|]; [|lia]. unfold owner in O. by rewrite A in O.
  - intros j J H. apply (i_res0 _ _ V j J). intros i I Oi Pi. apply H; [lia|done|done].
  - intros i n I Oi. apply (i_first _ _ V i n); [|done]. destruct (decide (i = k)) as [->|]; [congruence|lia].
Qed.

Lemma area_string k n p z : ns !! k = Some n -> k <> 0%nat -> x_type n = T_STRING -> area_of m ns k = Some (p, z) ->
  exists cs, rd_text m p = Some cs /\ z = Z.of_nat (length cs).
Proof.
  intros E Z T A. destruct (area_own _ _ _ _ _ Z A) as (n' & d & E' & _ & _ & _ & _ & _ & H). assert (n' = n) as -> by congruence. by apply H.
Qed.

Lemma alloc_new k s cs a z : (2 <= k)%nat -> inv k s -> area_of m ns k = Some (a, z) -> Z.of_nat (length cs) = z ->
  (forall j, (j < length cs)%nat -> cs !! j = cell_at m (padd a (Z.of_nat j))) ->
  let m' := c_mem s ++ [Some (true, cs)] in
  length m' = (length m + rank (S k))%nat /\ (forall b, (b < length m)%nat -> m' !! b = m1 !! b) /\
  (forall i a z, (2 <= i < S k)%nat -> area_of m ns i = Some (a, z) -> exists cs, m' !! blk i = Some (Some (true, cs)) /\ Z.of_nat (length cs) = z /\
      forall j, (j < length cs)%nat -> cs !! j = cell_at m (padd a (Z.of_nat j))) /\ length (c_mem s) = blk k.
Proof.
  intros K V A L C m'. pose proof (i_mem _ _ V) as Lm. unfold m'. split; [|split; [|split]].
  - rewrite app_length, Lm, rank_S by done. unfold owner. rewrite A. cbn. lia.
  - intros b Hb. rewrite lookup_app_l by lia. by apply (i_old _ _ V).
  - intros i a' z' I A'. destruct (decide (i = k)) as [->|].
    + rewrite A in A'. injection A' as <- <-. exists cs. split; [|done]. rewrite lookup_app_r by (rewrite Lm; unfold blk; lia).
      by replace (blk k - length (c_mem s))%nat with 0%nat by (rewrite Lm; unfold blk; lia).
    + destruct (i_new _ _ V i a' z') as (cs' & M & Q); [lia|done|]. exists cs'. split; [|done]. rewrite lookup_app_l; [done|]. by eapply lookup_lt_Some.
  - by rewrite Lm.
Qed.

Lemma dup_step ok k s : (2 <= k < length ns)%nat -> inv k s -> exists b s', dup_node ok ns s k = Some (b, s') /\
  (b = true -> inv (S k) s') /\ (b = false -> s' = s) /\ (ok k = true -> no_opaque ns -> b = true).
Proof.
  intros K V. destruct (lookup_lt_is_Some_2 ns k) as [n En]; [lia|]. unfold dup_node. rewrite (rd_lu _ _ _ En). cbn [mbind option_bind].
  assert (k <> 0%nat) as Zk by lia.
  destruct (live n) eqn:Lv; cbn [negb].
  2: { exists true, s. split; [done|]. split; [|done]. intros _. apply inv_skip; [lia| |done]. unfold owner, area_of.
       destruct (Nat.eqb_spec k 0); [lia|]. rewrite En. cbn [mbind option_bind]. by rewrite Lv. }
  pose proof (own_in_tree m ns t D k n En Zk Lv) as I. destruct (live_flags n Lv) as (Fn & Fr & Fc).
  destruct (d_node _ _ _ D k n I En) as (d & Ed & O).
  destruct (Z.eqb_spec (x_type n) T_STRING) as [T|T].
  - assert (is_ptr n) as P by (by left). destruct (ok_own _ _ _ _ _ _ O P Lv) as ((p & z & A & Sp & _) & _).
    destruct (area_own _ _ _ _ _ Zk A) as (n' & d' & En' & _ & _ & Ed' & Ev & _). assert (n' = n) as -> by congruence. assert (d' = d) as -> by congruence.
    destruct (area_string k n p z En Zk T A) as (cs & Rt & ->). destruct (ok_area _ _ _ _ _ _ O) as (h & hb & hs & Ah & I1 & I2).
    rewrite Ed. cbn [mbind option_bind]. rewrite (inv_ld k s d (Some p) h hb hs V Ah I1 (I2 P) Ev). cbn [mbind option_bind].
    rewrite (rd_text_agree m (c_mem s) p cs); [|intros x X c C; eapply inv_cell; [done| |done]; exists k, p, (Z.of_nat (length cs)); split; [done|by apply inside_padd]|done].
    cbn [mbind option_bind]. destruct (ok k) eqn:Ok; [|exists false, s; split; [done|]; split; [done|]; split; [done|done]].
    unfold alloc. destruct (i_len _ _ V) as [L1 L2]. rewrite wr_Some by lia. cbn [mbind option_bind]. eexists true, _. split; [done|]. split; [|done]. intros _.
    destruct (alloc_new k s cs p (Z.of_nat (length cs))) as (M1 & M2 & M3 & M4); [lia|done|done|done| |].
    { intros j Hj. apply rd_text_inv in Rt as (_ & _ & _ & C). by rewrite C. }
    assert (owner k = true) as Ow by (unfold owner; by rewrite A). assert (is_string k) as Sk by (by exists n).
    assert (~ is_pointer k) as Pk by (intros (n' & E' & T'); unfold T_POINTER, T_STRING in *; congruence).
    split; cbn [c_res c_txt c_mem]; try done.
    + by rewrite insert_length.
    + intros i Ii Oi Si. destruct (decide (i = k)) as [->|]; [rewrite list_lookup_insert by lia; by rewrite M4|]. rewrite list_lookup_insert_ne by done.
      apply (i_txt _ _ V i); [lia|done|done].
    + intros i Ii H. destruct (decide (i = k)) as [->|]; [exfalso; apply H; split; [lia|done]|]. rewrite list_lookup_insert_ne by done.
      apply (i_txt0 _ _ V i Ii). intros (? & ? & ?). apply H. split; [lia|done].
    + apply (i_res1 _ _ V).
    + intros i j n' d' p' z' Ii Ai Pi Q. eapply (i_res _ _ V i j); try done. destruct (decide (i = k)) as [->|]; [done|lia].
    + intros j J H. apply (i_res0 _ _ V j J). intros i Ii Oi Pi. apply H; [lia|done|done].
    + intros i n' Ii Oi Ei Ti. apply (i_first _ _ V i n'); [|done|done|done]. destruct (decide (i = k)) as [->|]; [exfalso; apply Pk; by exists n'|lia].
  - destruct (Z.eqb_spec (x_type n) T_POINTER) as [T'|T'].
    2: { exists true, s. split; [done|]. split; [|done]. intros _. apply inv_skip; [lia| |done]. unfold owner, area_of.
         destruct (Nat.eqb_spec k 0); [lia|]. rewrite En. cbn [mbind option_bind]. rewrite Lv. cbn [negb].
         destruct (Z.eqb_spec (x_type n) T_STRING); [done|]. destruct (Z.eqb_spec (x_type n) T_POINTER); done. }
    destruct (Nat.eqb_spec (x_first n) 0) as [F|F].
    { exists false, s. split; [done|]. split; [done|]. split; [done|]. intros _ NO. exfalso. by apply (NO k n ltac:(lia) En). }
    destruct (ok k) eqn:Ok; [|exists false, s; split; [done|]; split; [done|]; split; [done|done]].
    assert (is_ptr n) as P by (by right). destruct (ok_own _ _ _ _ _ _ O P Lv) as ((p & z & A & Sp & (cs & Rc) & _) & _).
    destruct (area_own _ _ _ _ _ Zk A) as (n' & d' & En' & _ & _ & Ed' & Ev & Sz & _). assert (n' = n) as -> by congruence. assert (d' = d) as -> by congruence.
    specialize (Sz T'). subst z. destruct (ok_area _ _ _ _ _ _ O) as (h & hb & hs & Ah & I1 & I2).
    rewrite Ed. cbn [mbind option_bind]. rewrite (inv_ld k s d (Some p) h hb hs V Ah I1 (I2 P) Ev). cbn [mbind option_bind].
    pose proof (rd_cells_inv _ _ _ _ Rc) as (_ & Lc & Cc).
    rewrite (rd_cells_eq (c_mem s) p (x_size n) cs Sp Lc).
    2: { intros j Hj. destruct (lookup_lt_is_Some_2 cs j Hj) as [c Ec]. rewrite Ec. eapply inv_cell; [done| |by rewrite Cc].
         exists k, p, (x_size n). split; [done|]. apply inside_padd. lia. }
    cbn [mbind option_bind]. unfold alloc. destruct (i_len _ _ V) as [L1 L2].
    destruct (kid_list k n I En F Fr Fc) as (l & Hd & Ch & Nd & Ll & Kl). rewrite <- Hd.
    destruct (alloc_new k s cs p (x_size n)) as (M1 & M2 & M3 & M4); [lia|done|done|done| |].
    { intros j Hj. by rewrite Cc. }
    destruct (place_chain (length (c_mem s), 0) p l (S (length ns)) (c_res s) Ch Nd) as (res' & Pl & Lr & Q1 & Q2); [lia|done| |].
    { intros j nj Hj Ej. apply Kl in Hj. destruct (kid_data k n p (x_size n) I Zk En T' A j nj Hj Ej) as (dj & Edj & Ij). exists dj. split; [done|]. by destruct Ij. }
    rewrite Pl. cbn [mbind option_bind]. eexists true, _. split; [done|]. split; [|done]. intros _.
    assert (owner k = true) as Ow by (unfold owner; by rewrite A). assert (is_pointer k) as Pk by (by exists n).
    assert (~ is_string k) as Sk by (intros (n' & E' & T2); unfold T_POINTER, T_STRING in *; congruence).
    assert (forall j, kid k j -> j <> 1%nat) as K1.
    { intros j [_ (nj & Ej & Pj)] ->. pose proof (d_tree _ _ _ D) as A0. destruct (tree_at_root _ _ _ _ A0) as (_ & mm & Em & Pm & _). rewrite (d_root _ _ _ D) in Em.
      rewrite (at_link _ _ _ Ej) in Em. injection Em as <-. cbn in Pm. congruence. }
    split; cbn [c_res c_txt c_mem]; try done.
    + intros i Ii Oi Si. apply (i_txt _ _ V i); [|done|done]. destruct (decide (i = k)) as [->|]; [done|lia].
    + intros i Ii H. apply (i_txt0 _ _ V i Ii). intros (? & ? & ?). apply H. split; [lia|done].
    + rewrite Q2; [apply (i_res1 _ _ V)|]. intros H. by apply Kl, K1 in H.
    + intros i j n' d' p' z' Ii Ai Pi Q Enj Edj. destruct (decide (i = k)) as [->|].
      * rewrite A in Ai. injection Ai as <- <-. rewrite (Q1 j n' d') by (try done; by apply Kl). rewrite M4. done.
      * rewrite Q2; [eapply (i_res _ _ V i j n' d' p' z'); try done; lia|]. intros H. apply Kl in H. destruct H as [_ (n2 & E2 & P2)], Q as [_ (n3 & E3 & P3)]. congruence.
    + intros j J H. rewrite Q2; [|intros X; apply Kl in X; eapply (H k); [lia|done|done|done]]. apply (i_res0 _ _ V j J). intros i Ii Oi Pi. apply H; [lia|done|done].
    + intros i n' Ii Oi Ei Ti. destruct (decide (i = k)) as [->|]; [congruence|]. apply (i_first _ _ V i n'); [lia|done|done|done].
Qed.

Lemma dup_run ok : forall l k s, (2 <= k)%nat -> (k + l = length ns)%nat -> inv k s -> exists b s' k', dup_all ok ns s (seq k l) = Some (b, s') /\
  (k <= k' <= length ns)%nat /\ inv k' s' /\ (b = true -> k' = length ns) /\ ((forall i, ok i = true) -> no_opaque ns -> b = true).
Proof.
  induction l as [|l IH]; intros k s K L V.
  - exists true, s, k. split; [done|]. split; [lia|]. split; [done|]. split; [intros _; lia|done].
  - cbn [seq dup_all]. destruct (dup_step ok k s) as (b & s' & E & H1 & H2 & H3); [lia|done|]. rewrite E. cbn [mbind option_bind]. destruct b.
    + destruct (IH (S k) s') as (b & s2 & k' & E' & K' & V' & B' & O'); [lia|lia|by apply H1|]. exists b, s2, k'. split; [done|]. split; [lia|]. done.
    + exists false, s', k. split; [done|]. split; [lia|]. split; [by rewrite H2|]. split; [done|]. intros Hok NO. specialize (H3 (Hok k) NO). done.
Qed.

(** ** Addresses of all nodes (src/mr_extra.c:49-62, 151) *)
Definition fine (res : list (option addr)) (j : nat) : Prop :=
  exists n d, ns !! j = Some n /\ x_data n = Some d /\ res !! j = Some (Some (rel d)).
Definition ready (res : list (option addr)) (j : nat) : Prop :=
  fine res j \/
  (res !! j = Some None /\ exists n pn d b k p z, ns !! j = Some n /\ ns !! x_parent n = Some pn /\ x_data n = Some d /\ x_data pn = Some b /\
     area_of m ns k = Some (p, z) /\ inside p z d /\ inside p z b).

Lemma inv_ready s j : inv (length ns) s -> j ∈ nodes t -> ready (c_res s) j.
Proof.
  intros V J. destruct (nodes_nonzero _ _ _ (d_tree _ _ _ D) _ J) as (Zj & mm & Em). destruct (link_at _ _ _ Em) as (n & En & Lk).
  destruct (d_node _ _ _ D j n J En) as (d & Ed & _). destruct (decide (j = 1%nat)) as [->|N1].
  - left. exists n, d. split; [done|]. split; [done|]. rewrite (i_res1 _ _ V). assert (n = n1) as -> by congruence. assert (d = a1) as -> by congruence.
    destruct (d_base _ _ _ D) as (n' & _ & _ & E' & _ & S & _). assert (n' = n1) as -> by congruence.
    pose proof (rel_root a1 (x_size n1) 0 area_0 ltac:(lia)) as R. rewrite !padd_0 in R. by rewrite R.
  - assert (x_parent n ∈ nodes t) as Pt.
    { pose proof (parent_in _ _ _ (d_tree _ _ _ D) j mm J) as H. rewrite (d_root _ _ _ D) in H. rewrite <- Lk in H. apply H; [done|]. by rewrite Lk. }
    destruct (nodes_nonzero _ _ _ (d_tree _ _ _ D) _ Pt) as (Zp & mp & Ep). destruct (link_at _ _ _ Ep) as (pn & Epn & _).
    destruct (d_node _ _ _ D _ pn Pt Epn) as (b & Eb & _). pose proof (d_edge _ _ _ D j n pn d b J N1 En Epn Ed Eb) as X.
    assert (kid (x_parent n) j) as Kd by (split; [done|by exists n]).
    pose proof (lookup_lt_Some _ _ _ En) as Lj. destruct (Z.eqb_spec (x_type pn) T_POINTER) as [T|T].
    + destruct X as (p & z & A & I). left. exists n, d. split; [done|]. split; [done|].
      destruct (area_2 _ _ _ Zp A) as [Lp Lp']. rewrite (i_res _ _ V (x_parent n) j n d p z ltac:(lia) A ltac:(by exists pn) Kd En Ed).
      destruct (inside_inv _ _ _ I) as (x & X & ->). rewrite (rel_own _ _ _ _ Zp A X). do 3 f_equal. cbn. lia.
    + right. destruct X as (k & p & z & A & I1 & I2). split.
      * apply (i_res0 _ _ V j ltac:(lia)). intros i Ii Oi (ni & Ei & Ti) [_ (n' & E' & P')]. congruence.
      * by exists n, pn, d, b, k, p, z.
Qed.

Lemma calc_keeps : keeps_links (calc_relative_addr ns).
Proof.
  intros l c i lv o b l' c' H. unfold calc_relative_addr in H. destruct o; [|by injection H as <- <- <-].
  destruct (rd c i) as [[r|]|]; cbn [mbind option_bind] in H; [by injection H as <- <- <-| |done].
  repeat match type of H with context [?x ≫= _] => destruct x; cbn [mbind option_bind] in H; [|done] end. by injection H as <- <- <-.
Qed.

(** The siblings [ks] below a node with a known address. *)
Definition calc_goal (u : tree) : Prop := forall par nxt lv res (k : list node -> list (option addr) -> dres),
  tree_at (map link_of ns) par nxt u -> (forall j, j ∈ nodes u -> j ∈ nodes t) -> NoDup (nodes u) -> length res = length ns ->
  (forall j, j ∈ nodes u -> ready res j) -> (fine res (root u) \/ fine res par) ->
  exists res', apply_events (calc_relative_addr ns) (events lv u) (map link_of ns) res k = k (map link_of ns) res' /\ length res' = length ns /\
    (forall j, j ∈ nodes u -> fine res' j) /\ (forall j, j ∉ nodes u -> res' !! j = res !! j).

Lemma calc_kids ks : Forall calc_goal ks -> forall par lv res (k : list node -> list (option addr) -> dres),
  trees_at (map link_of ns) par ks -> (forall j, j ∈ concat (map nodes ks) -> j ∈ nodes t) -> NoDup (par :: concat (map nodes ks)) -> length res = length ns ->
  (forall j, j ∈ concat (map nodes ks) -> ready res j) -> fine res par ->
  exists res', apply_events (calc_relative_addr ns) (concat (map (events lv) ks)) (map link_of ns) res k = k (map link_of ns) res' /\ length res' = length ns /\
    (forall j, j ∈ concat (map nodes ks) -> fine res' j) /\ (forall j, j ∉ concat (map nodes ks) -> res' !! j = res !! j).
Proof.
  induction 1 as [|u ks Hu _ IH]; intros par lv res k A Inc Nd L Rd Fp.
  - exists res. split; [done|]. split; [done|]. split; [|done]. intros j Hj. cbn in Hj. by apply elem_of_nil in Hj.
  - cbn [map concat] in *. cbn [trees_at] in A. destruct A as [A1 A2]. apply NoDup_cons in Nd as [Np Nd]. apply NoDup_app in Nd as (Nu & Nuk & Nk).
    rewrite (apply_events_app (calc_relative_addr ns)). 
    destruct (Hu par _ lv res (fun ns' c => apply_events (calc_relative_addr ns) (concat (map (events lv) ks)) ns' c k) A1) as (r1 & E1' & L1 & F1 & Q1);
      [intros; apply Inc, elem_of_app; by left|done|done|intros; apply Rd, elem_of_app; by left|by right|].
    rewrite E1'. assert (par ∉ nodes u /\ par ∉ concat (map nodes ks)) as [Np1 Np2] by (split; intros ?; apply Np, elem_of_app; auto).
    destruct (IH par lv r1 k A2) as (r2 & E2 & L2 & F2 & Q2).
    + intros; apply Inc, elem_of_app; by right.
    + by constructor.
    + done.
    + intros j Hj. assert (j ∉ nodes u) as Nj by (intros ?; by eapply Nuk). specialize (Rd j ltac:(apply elem_of_app; by right)).
      unfold ready, fine in *. by rewrite Q1.
    + unfold fine in *. by rewrite Q1.
    + exists r2. split; [done|]. split; [done|]. split.
      * intros j Hj. destruct (decide (j ∈ concat (map nodes ks))) as [Hk|Hk]; [by apply F2|]. apply elem_of_app in Hj as [Hj|Hj]; [|done].
        specialize (F1 j Hj). unfold fine in *. by rewrite Q2.
      * intros j Hj. apply not_elem_of_app in Hj as [Hj1 Hj2]. by rewrite Q2, Q1.
Qed.

Lemma calc_tree u : calc_goal u.
Proof.
  induction u as [i ks IH] using tree_ind'. intros par nxt lv res k A Inc Nd L Rd Fp.
  pose proof A as A0. rewrite tree_at_eq in A. destruct A as (mm & Em & Zi & Pm & _ & K). destruct (link_at _ _ _ Em) as (n & En & Lk).
  change (nodes (T i ks)) with (i :: concat (map nodes ks)) in *. cbn [root] in Fp.
  (* the node itself *)
  assert (exists res1, calc_relative_addr ns (map link_of ns) res i lv PRE = Some (true, map link_of ns, res1) /\ length res1 = length ns /\ fine res1 i /\
    forall j, j <> i -> res1 !! j = res !! j) as (res1 & C1 & L1 & F1 & Q1).
  { pose proof (Rd i (elem_of_list_here _ _)) as [Fi|(R0 & n' & pn & d & b & h & p & z & En' & Epn & Ed & Eb & Ah & I1 & I2)].
    - exists res. split; [|done]. destruct Fi as (n' & d & En' & Ed & R). unfold calc_relative_addr. rewrite (rd_lu _ _ _ R). done.
    - assert (n' = n) as -> by congruence.
      assert (x_parent n = par) as Ep by (rewrite <- Lk in Pm; done).
      destruct Fp as [(n2 & d2 & _ & _ & X)|(n2 & d2 & En2 & Ed2 & X)]; [congruence|]. rewrite Ep in Epn. assert (n2 = pn) as -> by congruence. assert (d2 = b) as -> by congruence.
      pose proof (lookup_lt_Some _ _ _ En) as Li. destruct (rel_shift h p z b d Ah I2 I1) as [S1 S2].
      unfold calc_relative_addr. rewrite (rd_lu _ _ _ R0). cbn [mbind option_bind]. rewrite (rd_lu _ _ _ En). cbn [mbind option_bind]. rewrite Ep.
      rewrite (rd_lu _ _ _ Epn). cbn [mbind option_bind]. rewrite (rd_lu _ _ _ X). cbn [mbind option_bind]. rewrite Ed, Eb. cbn [mbind option_bind].
      rewrite S1. cbn [mbind option_bind]. rewrite wr_Some by lia. cbn [mbind option_bind]. rewrite <- S2.
      eexists. split; [done|]. split; [by rewrite insert_length|]. split.
      + exists n, d. split; [done|]. split; [done|]. apply list_lookup_insert. lia.
      + intros j Hj. by rewrite list_lookup_insert_ne. }
  cbn [events apply_events]. unfold visit at 1. rewrite C1. rewrite (apply_events_app (calc_relative_addr ns)).
  apply NoDup_cons in Nd as [Ni Nk].
  assert (exists res', apply_events (calc_relative_addr ns) (concat (map (events (lv + 1)) ks)) (map link_of ns) res1
     (fun ns' c => apply_events (calc_relative_addr ns) [(i, lv, POST)] ns' c k) = apply_events (calc_relative_addr ns) [(i, lv, POST)] (map link_of ns) res' k /\ length res' = length ns /\
    (forall j, j ∈ concat (map nodes ks) -> fine res' j) /\ (forall j, j ∉ concat (map nodes ks) -> res' !! j = res1 !! j)) as (res' & E' & L' & F' & Q').
  { destruct (expandable mm).
    - destruct K as (_ & _ & K). apply (calc_kids ks IH i); [done|intros; apply Inc; by right|by constructor|done| |done].
      intros j Hj. assert (j <> i) as Nj by (by intros ->). specialize (Rd j ltac:(by right)). unfold ready, fine in *. by rewrite Q1.
    - subst ks. exists res1. split; [done|]. split; [done|]. split; [|done]. intros j Hj. cbn in Hj. by apply elem_of_nil in Hj. }
  exists res'. split; [rewrite E'; done|]. split; [done|]. split.
  - intros j Hj. apply elem_of_cons in Hj as [->|Hj]; [|by apply F']. unfold fine in *. by rewrite Q'.
  - intros j Hj. apply not_elem_of_cons in Hj as [Nj Hj]. by rewrite Q', Q1.
Qed.

Lemma calc_all s : inv (length ns) s -> exists fuel res, length res = length ns /\ (forall j, j ∈ nodes t -> fine res j) /\
  forall fuel', (fuel <= fuel')%nat -> dfs (calc_relative_addr ns) fuel' (map link_of ns) (c_res s) 1 = Done true (map link_of ns) res.
Proof.
  intros V. pose proof (d_tree _ _ _ D) as A. pose proof (d_root _ _ _ D) as R. pose proof (d_nodup _ _ _ D) as N. destruct t as [i ks] eqn:Et. cbn in R. subst i.
  destruct (dfs_tree (calc_relative_addr ns) calc_keeps 1 (map link_of ns) 1 ks 0 0 (c_res s) eq_refl A N ltac:(by right)) as (fuel & E).
  rewrite <- Et in *. destruct (calc_tree t 0%nat 0%nat 0 (c_res s) (fun ns c => Done true ns c) A) as (res & E' & L & F & _); [done|done|by apply V|intros j Hj; by apply inv_ready| |].
  { left. assert (root t = 1%nat) as -> by (by rewrite Et). assert (1%nat ∈ nodes t) as H1 by (rewrite Et; cbn; left).
    destruct (inv_ready s 1 V H1) as [?|(X & _)]; [done|]. rewrite (i_res1 _ _ V) in X. done. }
  exists fuel, res. split; [done|]. split; [done|]. intros fuel' Hf. rewrite (E fuel' Hf). by rewrite E'.
Qed.

(** ** Pointers of the copy (src/mr_extra.c:154-179) *)
Definition touched (k : nat) (p : addr) : Prop := exists i n a j, (i < k)%nat /\ i ∈ nodes t /\ ns !! i = Some n /\ resolved n /\ x_data n = Some a /\
  (j < 8)%nat /\ p = padd a (Z.of_nat j).
Record rinv (k : nat) (ms M : mem) : Prop := {
  r_len : length M = length ms;
  r_old : forall b, (b < length m)%nat -> b <> fst dst -> M !! b = m !! b;
  r_rest : forall p, fst p = fst dst -> ~ inside dst (x_size n1) p -> cell_at M p = cell_at m p;
  r_new : forall i a z, i <> 0%nat -> area_of m ns i = Some (a, z) -> exists cs, M !! blk i = Some (Some (true, cs)) /\ Z.of_nat (length cs) = z;
  r_cell : forall p c, in_area m ns p -> cell_at m p = Some c -> cell_at M (rel p) = Some c \/ cell_at M (rel p) = Some (relcell rel c);
  r_done : forall p c, in_area m ns p -> touched k p -> cell_at m p = Some c -> cell_at M (rel p) = Some (relcell rel c) }.

Lemma rinv_start s : inv (length ns) s -> rinv 2 (c_mem s) (c_mem s).
Proof.
  intros V. split.
  - done.
  - intros b Hb Nb. rewrite (i_old _ _ V b Hb). by apply m1_blocks.
  - intros p Hp Np. rewrite <- (m1_rest p Hp Np). unfold cell_at. rewrite (i_old _ _ V); [done|]. rewrite Hp. apply dst_lt.
  - intros i a z Zi A. destruct (i_new _ _ V i a z) as (cs & M & L & _); [by eapply area_2|done|]. eauto.
  - intros p c (i & a & z & A & I) C. left. destruct (inside_inv _ _ _ I) as (x & X & ->). destruct (decide (i = 0%nat)) as [->|Zi].
    + rewrite (rel_root a z) by done. rewrite area_0 in A. injection A as <- <-.
      transitivity (cell_at m1 (padd dst x)); [unfold cell_at; rewrite (i_old _ _ V); [done|apply dst_lt]|]. rewrite m1_dst by done. done.
    + rewrite (rel_own i a z) by done. destruct (i_new _ _ V i a z) as (cs & M & L & H); [by eapply area_2|done|]. unfold cell_at. cbn [fst snd]. rewrite M.
      cbn [mbind option_bind mjoin option_join]. destruct (Z.leb_spec 0 x); [|lia]. rewrite H by lia. by replace (Z.of_nat (Z.to_nat x)) with x by lia.
  - intros p c I (i & n & a & j & Li & Hi & En & [Rp _] & _) C. exfalso.
    destruct (nodes_nonzero _ _ _ (d_tree _ _ _ D) _ Hi) as (Zi & _). assert (i = 1%nat) as -> by lia. by eapply HP.
Qed.

Lemma rinv_skip k ms M n : ns !! k = Some n -> (k ∈ nodes t -> ~ resolved n) -> rinv k ms M -> rinv (S k) ms M.
Proof.
  intros En H V. split; try apply V. intros p c I (i & n' & a & j & Li & Hi & En' & R & Q) C. apply (r_done _ _ _ V p c I); [|done].
  exists i, n', a, j. split; [|done]. destruct (decide (i = k)) as [->|]; [|lia]. assert (n' = n) as -> by congruence. by apply H in R.
Qed.

Lemma rinv_store k ms M n d v h hb hs : ns !! k = Some n -> x_data n = Some d -> ld m d = Some (Some v) ->
  area_of m ns h = Some (hb, hs) -> inside hb hs d -> inside hb hs (padd d 7) -> rinv k ms M ->
  exists M', st M (rel d) (Some (rel v)) = Some M' /\ rinv (S k) ms M'.
Proof.
  intros En Ed Ev Ah I0 I7 V.
  assert (forall j, 0 <= j < 8 -> inside hb hs (padd d j)) as Ij by (intros j Hj; unfold inside, padd in *; cbn in *; split; [by destruct I0|lia]).
  assert (forall j, 0 <= j < 8 -> in_area m ns (padd d j)) as Aj by (intros j Hj; exists h, hb, hs; split; [done|by apply Ij]).
  assert (forall j, 0 <= j < 8 -> rel (padd d j) = padd (rel d) j) as Rj.
  { intros j Hj. destruct (rel_shift h hb hs d (padd d j) Ah I0 (Ij j Hj)) as [_ ->]. f_equal. cbn. lia. }
  rewrite ld_iff in Ev. assert (forall j, (j < 8)%nat -> cell_at m (padd d (Z.of_nat j)) = Some (F v j)) as Cj by (intros j Hj; rewrite Ev, enc_lookup by done; done).
  assert (exists cs, rd_cells M (rel d) (Z.of_nat (length (enc (Some (rel v))))) = Some cs) as [cs Rc].
  { rewrite enc_length. apply rd_cells_ok; [lia|]. intros j Hj. rewrite <- Rj by lia.
    replace j with (Z.of_nat (Z.to_nat j)) by lia. destruct (r_cell _ _ _ V (padd d (Z.of_nat (Z.to_nat j))) (F v (Z.to_nat j))) as [C|C]; [apply Aj; lia|apply Cj; lia|rewrite C; eauto|rewrite C; eauto]. }
  destruct (wr_cells_ok _ _ _ _ Rc) as [M' W]. exists M'. split; [done|].
  apply wr_cells_inv in W as (W1' & W2 & (dd & l & l' & W3a & W3b & W3c) & W4 & W5). rewrite enc_length in W4, W5.
  assert (forall q, inside (rel d) (Z.of_nat 8) q -> exists j, (j < 8)%nat /\ q = rel (padd d (Z.of_nat j))) as Hin.
  { intros q Iq. destruct (inside_inv _ _ _ Iq) as (x & X & ->). exists (Z.to_nat x). split; [lia|]. rewrite Rj by lia. f_equal. lia. }
  assert ((h = 0%nat /\ inside dst (x_size n1) (rel d) /\ inside dst (x_size n1) (padd (rel d) 7)) \/ (length m <= fst (rel d))%nat) as Hb.
  { destruct (inside_inv _ _ _ I0) as (x & X & Ex). destruct (decide (h = 0%nat)) as [->|Zh].
    - left. split; [done|]. rewrite area_0 in Ah. injection Ah as <- <-. rewrite Ex. rewrite (rel_root a1 (x_size n1)) by (try done; apply area_0).
      rewrite padd_padd. rewrite Ex in I7. rewrite padd_padd in I7. apply inside_padd in I7. split; by apply inside_padd.
    - right. rewrite Ex, (rel_own h hb hs) by done. unfold blk. cbn. lia. }
  split.
  - rewrite W1'. apply (r_len _ _ _ V).
  - intros b Lb Nb. rewrite W2; [by apply (r_old _ _ _ V)|]. destruct Hb as [(_ & [Hb _] & _)|Hb]; [by rewrite Hb|lia].
  - intros p Hp Np. rewrite W5; [by apply (r_rest _ _ _ V)|]. intros Iq. apply Np. destruct Iq as [Q1 Q2]. destruct Hb as [(_ & [Hb1 Hb2] & [Hb3 Hb4])|Hb].
    + unfold inside, padd in *. cbn in *. split; [done|lia].
    + exfalso. pose proof dst_lt. lia.
  - intros i a z Zi A. destruct (r_new _ _ _ V i a z Zi A) as (cs' & M1 & L1). destruct (decide (blk i = fst (rel d))) as [Eb|Nb].
    + rewrite Eb in *. rewrite M1 in W3a. injection W3a as <- <-. exists l'. split; [done|]. lia.
    + exists cs'. rewrite W2; [done|congruence].
  - intros p c I C. destruct (decide (inside_b (rel d) (Z.of_nat 8) (rel p) = true)) as [X|X].
    + apply inside_b_iff in X. right. destruct (Hin _ X) as (j & Lj & E). assert (p = padd d (Z.of_nat j)) as -> by (apply rel_inj; [done|apply Aj; lia|done]).
      rewrite (Cj j Lj) in C. injection C as <-. rewrite W4 by done. rewrite Rj by lia. cbn [padd snd]. replace (_ - _) with (Z.of_nat j) by lia. rewrite Nat2Z.id. by apply enc_lookup.
    + rewrite inside_b_iff in X. rewrite !W5 by done. by apply (r_cell _ _ _ V).
  - intros p c I T C. destruct (decide (inside_b (rel d) (Z.of_nat 8) (rel p) = true)) as [X|X].
    + apply inside_b_iff in X. destruct (Hin _ X) as (j & Lj & E). assert (p = padd d (Z.of_nat j)) as -> by (apply rel_inj; [done|apply Aj; lia|done]).
      rewrite (Cj j Lj) in C. injection C as <-. rewrite W4 by done. rewrite Rj by lia. cbn [padd snd]. replace (_ - _) with (Z.of_nat j) by lia. rewrite Nat2Z.id. by apply enc_lookup.
    + rewrite inside_b_iff in X. rewrite !W5 by done. apply (r_done _ _ _ V p c I); [|done].
      destruct T as (i & n' & a' & j & Li & Hi & En' & R & Ea' & Lj & ->). exists i, n', a', j. split; [|done].
      destruct (decide (i = k)) as [->|]; [|lia]. exfalso. apply X. assert (n' = n) as -> by congruence. assert (a' = d) as -> by congruence.
      rewrite Rj by lia. apply inside_padd. lia.
Qed.

(** ** Clean-up (src/mr_extra.c:183-193) *)
Record uinv (k j : nat) (s s' : cstate) : Prop := {
  u_txt : c_txt s' = c_txt s;
  u_len : length (c_res s') = length (c_res s);
  u_mem : length (c_mem s') = length (c_mem s);
  u_old : forall b, (b < length m)%nat -> c_mem s' !! b = c_mem s !! b;
  u_str : forall i, (2 <= i < k)%nat -> owner i = true -> is_string i -> c_mem s' !! blk i = if (i <? j)%nat then Some None else c_mem s !! blk i;
  u_ptr : forall i n, (2 <= i < k)%nat -> owner i = true -> ns !! i = Some n -> x_type n = T_POINTER ->
    (c_mem s' !! blk i = Some None /\ c_res s' !! x_first n = Some None) \/
    ((j <= i)%nat /\ c_mem s' !! blk i = c_mem s !! blk i /\ c_res s' !! x_first n = c_res s !! x_first n);
  u_res : forall f, (forall i n, (2 <= i < k)%nat -> owner i = true -> ns !! i = Some n -> x_type n = T_POINTER -> x_first n <> f) ->
    c_res s' !! f = c_res s !! f }.

Context (GR : first_kids ns t).

Lemma kid_first i n : (2 <= i)%nat -> owner i = true -> ns !! i = Some n -> x_type n = T_POINTER -> x_first n <> 0%nat -> kid i (x_first n).
Proof.
  intros I O En T Fz. unfold owner in O. destruct (area_of m ns i) as [[a z]|] eqn:A; [|done].
  assert (i <> 0%nat) as Zi by lia. destruct (area_own _ _ _ _ _ Zi A) as (n' & d & En' & Lv & _). assert (n' = n) as -> by congruence.
  pose proof (own_in_tree m ns t D i n En ltac:(lia) Lv) as It. destruct (live_flags n Lv) as (Fn & Fr & Fc).
  destruct (kid_list i n It En Fz Fr Fc) as (l & Hl & _ & _ & _ & Kl). destruct l as [|x l]; [done|]. cbn in Hl. subst x. apply Kl. left.
Qed.

Lemma res_first k s i n : inv k s -> (2 <= i < k)%nat -> owner i = true -> ns !! i = Some n -> x_type n = T_POINTER ->
  c_res s !! x_first n = Some (Some (blk i, 0)).
Proof.
  intros V I O En T. pose proof (i_first _ _ V i n I O En T) as Fz. pose proof (kid_first i n ltac:(lia) O En T Fz) as K.
  pose proof O as O'. unfold owner in O'. destruct (area_of m ns i) as [[p z]|] eqn:A; [|done].
  assert (i <> 0%nat) as Zi by lia. destruct (area_own _ _ _ _ _ Zi A) as (n' & d & En' & Lv & _). assert (n' = n) as -> by congruence.
  pose proof (own_in_tree m ns t D i n En ltac:(lia) Lv) as It. destruct (d_node _ _ _ D i n It En) as (b & Eb & Ok).
  destruct (ok_own _ _ _ _ _ _ Ok ltac:(by right) Lv) as ((p' & z' & A' & Sz & _ & Hf) & _). rewrite A in A'. injection A' as <- <-.
  destruct (Hf T Fz) as (c & Ec & Dc). rewrite (i_res _ _ V i (x_first n) c p p z I A ltac:(by exists n) K Ec Dc). do 2 f_equal. f_equal. lia.
Qed.

Lemma blk_ge i : (length m <= blk i)%nat.
Proof. unfold blk. lia. Qed.
Lemma blk_inj i j : (2 <= i)%nat -> (2 <= j)%nat -> owner i = true -> owner j = true -> blk i = blk j -> i = j.
Proof. intros. apply rank_inj; try done. unfold blk in *. lia. Qed.
Lemma blk_live k s i : inv k s -> (2 <= i < k)%nat -> owner i = true -> exists cs, c_mem s !! blk i = Some (Some (true, cs)).
Proof.
  intros V I O. unfold owner in O. destruct (area_of m ns i) as [[a z]|] eqn:A; [|done]. destruct (i_new _ _ V i a z I A) as (cs & M & _). eauto.
Qed.
Lemma free_blk M i cs : M !! blk i = Some (Some (true, cs)) -> free M (blk i, 0) = Some (<[blk i := None]> M).
Proof. intros E. unfold free. cbn [fst snd]. by rewrite E. Qed.

Lemma first_inj i i' n n' : (2 <= i)%nat -> (2 <= i')%nat -> owner i = true -> owner i' = true -> ns !! i = Some n -> ns !! i' = Some n' ->
  x_type n = T_POINTER -> x_type n' = T_POINTER -> x_first n <> 0%nat -> x_first n = x_first n' -> i = i'.
Proof.
  intros I I' O O' E E' T T' Fz Eq. destruct (kid_first i n I O E T Fz) as (_ & c & Ec & Pc).
  destruct (kid_first i' n' I' O' E' T' ltac:(congruence)) as (_ & c' & Ec' & Pc'). congruence.
Qed.

Lemma undo_step k s j s' : inv k s -> (k <= length ns)%nat -> (2 <= j < length ns)%nat -> uinv k j s s' -> exists s2, undo_node ns s' j = Some s2 /\ uinv k (S j) s s2.
Proof.
  intros V Kn J U. destruct (lookup_lt_is_Some_2 ns j) as [n En]; [lia|]. destruct (i_len _ _ V) as [L1 L2]. unfold undo_node. rewrite (rd_lu _ _ _ En). cbn [mbind option_bind].
  destruct (lookup_lt_is_Some_2 (c_txt s') j) as [q Eq]; [rewrite (u_txt _ _ _ _ U); lia|]. rewrite (rd_lu _ _ _ Eq). cbn [mbind option_bind].
  rewrite (u_txt _ _ _ _ U) in Eq.
  assert (forall s2, (x_type n = T_STRING -> (j < k)%nat -> owner j = true -> False) -> (x_type n = T_POINTER -> (j < k)%nat -> owner j = true -> c_res s' !! x_first n = Some None) -> s2 = s' -> uinv k (S j) s s2) as Skip.
  { intros s2 H1 H2 ->. split; try apply U.
    - intros i I O Si. rewrite (u_str _ _ _ _ U i I O Si). destruct (Nat.ltb_spec i j), (Nat.ltb_spec i (S j)); try done; try lia.
      assert (i = j) as -> by lia. destruct Si as (n' & En' & T). exfalso. apply H1; [congruence|lia|done].
    - intros i n' I O Ei T. destruct (u_ptr _ _ _ _ U i n' I O Ei T) as [X|(X & Y & Z)]; [by left|]. destruct (decide (i = j)) as [->|]; [|right; split; [lia|done]].
      exfalso. assert (n' = n) as -> by congruence. specialize (H2 T ltac:(lia) O). rewrite Z, (res_first k s j n V I O En T) in H2. done. }
  destruct (Z.eqb_spec (x_type n) T_STRING) as [T|T].
  - assert (is_string j) as Sj by (by exists n). destruct (decide ((j < k)%nat /\ owner j = true)) as [[Jk Oj]|Nj].
    + rewrite (i_txt _ _ V j ltac:(lia) Oj Sj) in Eq. injection Eq as <-. destruct (blk_live k s j V ltac:(lia) Oj) as (cs & M).
      assert (c_mem s' !! blk j = Some (Some (true, cs))) as M'. { rewrite (u_str _ _ _ _ U j ltac:(lia) Oj Sj). destruct (Nat.ltb_spec j j); [lia|done]. }
      rewrite (free_blk _ _ _ M'). cbn [mbind option_bind]. eexists. split; [done|]. pose proof (lookup_lt_Some _ _ _ M') as Lb.
      split; cbn [c_mem c_res c_txt]; try apply U.
      * rewrite insert_length. apply U.
      * intros b Lb'. pose proof (blk_ge j). rewrite list_lookup_insert_ne by lia. by apply (u_old _ _ _ _ U).
      * intros i I O Si. destruct (decide (i = j)) as [->|Nij].
        { rewrite list_lookup_insert by lia. destruct (Nat.ltb_spec j (S j)); [done|lia]. }
        rewrite list_lookup_insert_ne by (intros X; apply Nij; symmetry; apply blk_inj; [lia|lia|done|done|done]).
        rewrite (u_str _ _ _ _ U i I O Si). destruct (Nat.ltb_spec i j), (Nat.ltb_spec i (S j)); try done; lia.
      * intros i n' I O Ei Ti. assert (i <> j) as Nij by (intros ->; unfold T_STRING, T_POINTER in *; congruence).
        rewrite list_lookup_insert_ne by (intros X; apply Nij; symmetry; apply blk_inj; [lia|lia|done|done|done]).
        destruct (u_ptr _ _ _ _ U i n' I O Ei Ti) as [X|(X & Y & Z)]; [by left|right]. split; [lia|done].
    + rewrite (i_txt0 _ _ V j ltac:(lia)) in Eq by (intros (? & ? & ?); apply Nj; split; [lia|done]). injection Eq as <-.
      destruct (Z.eqb_spec (x_type n) T_POINTER) as [T'|]; [unfold T_STRING, T_POINTER in *; congruence|]. cbn [andb].
      exists s'. split; [done|]. apply Skip; [|intros; done|done]. intros _ X Y. by apply Nj.
  - destruct (Z.eqb_spec (x_type n) T_POINTER) as [T'|T']; cbn [andb]; [|exists s'; split; [done|]; by apply Skip].
    destruct (Nat.eqb_spec (x_first n) 0) as [Fz|Fz]; cbn [negb].
    { exists s'. split; [done|]. apply Skip; [done| |done]. intros _ Jk Oj. exfalso. by apply (i_first _ _ V j n ltac:(lia) Oj En T'). }
    destruct (GR j n ltac:(lia) En T' Fz) as (F1 & Lf & Hf).
    assert ((exists i ni, (2 <= i < k)%nat /\ owner i = true /\ ns !! i = Some ni /\ x_type ni = T_POINTER /\ x_first ni = x_first n) \/
            (forall i ni, (2 <= i < k)%nat -> owner i = true -> ns !! i = Some ni -> x_type ni = T_POINTER -> x_first ni <> x_first n)) as [Ex|Nx].
    { destruct (lookup_lt_is_Some_2 ns (x_first n) Lf) as [c Ec]. destruct (decide ((2 <= x_parent c < k)%nat /\ owner (x_parent c) = true)) as [[P1 P2]|Np].
      - destruct (ns !! x_parent c) as [pn|] eqn:Ep; [|right]. 
        + destruct (decide (x_type pn = T_POINTER /\ x_first pn = x_first n)) as [[Q1 Q2]|Nq]; [left; eauto 10|right].
          intros i ni I O Ei Ti Eq'. destruct (kid_first i ni ltac:(lia) O Ei Ti ltac:(congruence)) as (_ & c' & Ec' & Pc'). apply Nq.
          assert (c' = c) as -> by congruence. subst i. assert (ni = pn) as -> by congruence. done.
        + intros i ni I O Ei Ti Eq'. destruct (kid_first i ni ltac:(lia) O Ei Ti ltac:(congruence)) as (_ & c' & Ec' & Pc'). congruence.
      - right. intros i ni I O Ei Ti Eq'. destruct (kid_first i ni ltac:(lia) O Ei Ti ltac:(congruence)) as (_ & c' & Ec' & Pc'). apply Np.
        assert (c' = c) as -> by congruence. by subst i. }
    + destruct Ex as (i & ni & I & O & Ei & Ti & Ef). rewrite <- Ef in *.
      destruct (u_ptr _ _ _ _ U i ni I O Ei Ti) as [[X1 X2]|(X1 & X2 & X3)].
      * rewrite (rd_lu _ _ _ X2). cbn [mbind option_bind]. exists s'. split; [done|]. by apply Skip.
      * rewrite (res_first k s i ni V I O Ei Ti) in X3. rewrite (rd_lu _ _ _ X3). cbn [mbind option_bind].
        destruct (blk_live k s i V I O) as (cs & M). rewrite M in X2. rewrite (free_blk _ _ _ X2). cbn [mbind option_bind].
        pose proof (lookup_lt_Some _ _ _ X2) as Lb. pose proof (lookup_lt_Some _ _ _ X3) as Lr. rewrite wr_Some by done. cbn [mbind option_bind]. eexists. split; [done|].
        split; cbn [c_mem c_res c_txt]; try apply U.
        -- rewrite insert_length. apply U.
        -- rewrite insert_length. apply U.
        -- intros b Lb'. pose proof (blk_ge i). rewrite list_lookup_insert_ne by lia. by apply (u_old _ _ _ _ U).
        -- intros i' I' O' Si'. assert (i' <> i) as Nij by (intros ->; destruct Si' as (? & ? & ?); unfold T_STRING, T_POINTER in *; congruence).
           rewrite list_lookup_insert_ne by (intros X; apply Nij; symmetry; apply blk_inj; [lia|lia|done|done|done]).
           rewrite (u_str _ _ _ _ U i' I' O' Si'). assert (i' <> j) by (intros ->; destruct Si' as (? & ? & ?); congruence).
           destruct (Nat.ltb_spec i' j), (Nat.ltb_spec i' (S j)); try done; lia.
        -- intros i' n' I' O' Ei' Ti'. destruct (decide (i' = i)) as [->|Nij].
           { left. assert (n' = ni) as -> by congruence. rewrite !list_lookup_insert by done. done. }
           rewrite list_lookup_insert_ne by (intros X; apply Nij; symmetry; apply blk_inj; [lia|lia|done|done|done]).
           rewrite list_lookup_insert_ne. 2: { intros X. apply Nij. symmetry. eapply (first_inj i i' ni n'); try done; lia. }
           destruct (u_ptr _ _ _ _ U i' n' I' O' Ei' Ti') as [X|(Y1 & Y2 & Y3)]; [by left|right]. split; [|done].
           destruct (decide (i' = j)) as [->|]; [|lia]. exfalso. apply Nij. assert (n' = n) as -> by congruence.
           symmetry. eapply (first_inj i j ni n); try done; lia.
        -- intros f Hf'. rewrite list_lookup_insert_ne by (by eapply Hf'). by apply (u_res _ _ _ _ U).
    + assert (c_res s !! x_first n = Some None) as Rn.
      { apply (i_res0 _ _ V); [lia|]. intros i I O Pi Ki. destruct Pi as (ni & Ei & Ti). destruct Ki as (Kt & c & Ec & Pc).
        apply (Nx i ni I O Ei Ti). apply (Hf c ni Kt Ec); [by rewrite Pc|done]. }
      rewrite <- (u_res _ _ _ _ U) in Rn by done. rewrite (rd_lu _ _ _ Rn). cbn [mbind option_bind]. exists s'. split; [done|]. by apply Skip.
Qed.

Lemma undo_run k s : inv k s -> (k <= length ns)%nat -> forall l j s', (2 <= j)%nat -> (j + l = length ns)%nat -> uinv k j s s' ->
  exists s2, undo_all ns s' (seq j l) = Some s2 /\ uinv k (length ns) s s2.
Proof.
  intros V Kn. induction l as [|l IH]; intros j s' J L U.
  - exists s'. split; [done|]. by replace (length ns) with j by lia.
  - cbn [seq undo_all]. destruct (undo_step k s j s' V Kn) as (s2 & E & U'); [lia|done|]. rewrite E. cbn [mbind option_bind]. apply IH; [lia|lia|done].
Qed.

Lemma uinv_start k s : inv k s -> uinv k 2 s s.
Proof.
  intros V. split; try done.
  - intros i I _ _. destruct (Nat.ltb_spec i 2); [lia|done].
  - intros i n I _ _ _. right. split; [lia|done].
Qed.

Lemma uinv_end k s s' : inv k s -> uinv k (length ns) s s' -> (k <= length ns)%nat ->
  (forall b, (b < length m)%nat -> c_mem s' !! b = m1 !! b) /\ (forall b, (length m <= b < length (c_mem s'))%nat -> c_mem s' !! b = Some None).
Proof.
  intros V U Kn. split.
  - intros b Lb. rewrite (u_old _ _ _ _ U b Lb). by apply (i_old _ _ V).
  - intros b [B1 B2]. rewrite (u_mem _ _ _ _ U), (i_mem _ _ V) in B2. destruct (rank_onto k (b - length m)) as (i & I & O & R); [lia|].
    assert (b = blk i) as -> by (unfold blk; lia). pose proof O as O'. unfold owner in O'. destruct (area_of m ns i) as [[a z]|] eqn:A; [|done].
    assert (i <> 0%nat) as Zi by lia. destruct (area_own _ _ _ _ _ Zi A) as (n & d & En & _ & [T|T] & _).
    + rewrite (u_str _ _ _ _ U i I O ltac:(by exists n)). destruct (Nat.ltb_spec i (length ns)); [done|lia].
    + destruct (u_ptr _ _ _ _ U i n I O En T) as [[X _]|[X _]]; [done|lia].
Qed.

(** ** Pointers, continued *)
Context (NO : no_opaque ns).
Lemma relink_step s res k M : inv (length ns) s -> length res = length ns -> (forall j, j ∈ nodes t -> fine res j) -> (2 <= k < length ns)%nat ->
  rinv k (c_mem s) M -> exists M', relink ns res (c_txt s) M k = Some M' /\ rinv (S k) (c_mem s) M'.
Proof.
  intros V Lr Fr K R. destruct (lookup_lt_is_Some_2 ns k) as [n En]; [lia|]. unfold relink. rewrite (rd_lu _ _ _ En). cbn [mbind option_bind].
  assert (k <> 0%nat) as Zk by lia.
  destruct (Nat.eqb_spec (x_idx n) 0) as [Z|Z].
  { exists M. split; [done|]. eapply rinv_skip; [done| |done]. intros I. by apply (d_idx _ _ _ D k n En Zk) in I. }
  pose proof Z as I. apply (d_idx _ _ _ D k n En Zk) in I. destruct (d_node _ _ _ D k n I En) as (d & Ed & O).
  destruct (Fr k I) as (n' & d' & En' & Ed' & Rk). assert (n' = n) as -> by congruence. assert (d' = d) as -> by congruence. clear En' Ed'.
  destruct (ok_area _ _ _ _ _ _ O) as (h & hb & hs & Ah & I1 & I2).
  assert (forall v, is_ptr n -> ld m d = Some (Some v) -> exists M', st M (rel d) (Some (rel v)) = Some M' /\ rinv (S k) (c_mem s) M') as St.
  { intros v P Ev. by eapply (rinv_store k (c_mem s) M n d v h hb hs); try done; apply I2. }
  assert (forall r b, x_first n ∈ nodes t -> ns !! x_first n = Some r -> x_data r = Some b -> rd res (x_first n) = Some (Some (rel b))) as Rf.
  { intros r b Hr Er Eb. destruct (Fr _ Hr) as (r' & b' & Er' & Eb' & Q). rewrite (rd_lu _ _ _ Q). congruence. }
  assert (live n = true \/ fl_null n = true \/ fl_ref n = true \/ fl_cref n = true) as Cases.
  { unfold live. destruct (Nat.eqb_spec (x_idx n) 0); [done|]. destruct (fl_null n), (fl_ref n), (fl_cref n); cbn; tauto. }
  destruct (Z.eqb_spec (x_type n) T_STRING) as [T|T].
  - assert (is_ptr n) as P by (by left). destruct (fl_null n) eqn:Fn.
    + exists M. split; [done|]. eapply rinv_skip; [done| |done]. intros _ [_ Q]. rewrite Fn in Q. cbn in Q. rewrite orb_false_r in Q. apply orb_true_iff in Q as [Q|Q].
      * destruct (ok_ref _ _ _ _ _ _ O P Q) as [X _]. rewrite (X T) in Fn. done.
      * destruct (fl_ref n) eqn:Q'; [destruct (ok_ref _ _ _ _ _ _ O P Q') as [X _]; rewrite (X T) in Fn; done|].
        destruct (ok_cref _ _ _ _ _ _ O P Q' Q) as (_ & X & _). congruence.
    + assert (exists v, (if fl_ref n then rd res (x_first n) else if fl_cref n then rd (c_txt s) (x_first n) else rd (c_txt s) k) = Some (Some (rel v)) /\ ld m d = Some (Some v)) as (v & E & Ev).
      { destruct (fl_ref n) eqn:Q.
        - destruct (ok_ref _ _ _ _ _ _ O P Q) as (_ & r & b & Hr & Er & Eb & Ev). exists b. split; [|done]. by eapply Rf.
        - assert (forall i p z, i <> 0%nat -> area_of m ns i = Some (p, z) -> is_string i -> rd (c_txt s) i = Some (Some (rel p))) as Tx.
          { intros i p z Zi A Si. destruct (area_2 i p z Zi A). rewrite (rd_lu _ _ _ (i_txt _ _ V i ltac:(lia) ltac:(unfold owner; by rewrite A) Si)).
            destruct (area_node m ns t D i p z Zi A) as (_ & Sz & _). rewrite <- (padd_0 p) at 1. rewrite (rel_own i p z) by (try done; lia). done. }
          destruct (fl_cref n) eqn:Q'.
          + destruct (ok_cref _ _ _ _ _ _ O P Q Q') as (_ & _ & r & b & p & Hr & Er & Lv & Tr & Eb & Evb & Ev). exists p. split; [|done].
            destruct (nodes_nonzero _ _ _ (d_tree _ _ _ D) _ Hr) as (Zr & _). destruct (d_node _ _ _ D _ r Hr Er) as (b' & Eb' & Or).
            destruct (ok_own _ _ _ _ _ _ Or ltac:(by left) Lv) as ((p' & z & A & _) & _).
            destruct (area_own _ _ _ _ _ Zr A) as (r2 & d2 & Er2 & _ & _ & Ed2 & Ev2 & _). assert (p' = p) as -> by congruence.
            eapply Tx; [done|done|by exists r].
          + assert (live n = true) as Lv by (destruct Cases as [?|[?|[?|?]]]; congruence).
            destruct (ok_own _ _ _ _ _ _ O P Lv) as ((p & z & A & _) & _). destruct (area_own _ _ _ _ _ Zk A) as (n2 & d2 & En2 & _ & _ & Ed2 & Ev2 & _).
            exists p. split; [|congruence]. eapply Tx; [done|done|by exists n]. }
      rewrite E. cbn [mbind option_bind]. rewrite (rd_lu _ _ _ Rk). cbn [mbind option_bind]. by apply St.
  - destruct (Z.eqb_spec (x_type n) T_POINTER) as [T'|T'].
    2: { exists M. split; [done|]. eapply rinv_skip; [done| |done]. intros _ [[Q|Q] _]; done. }
    assert (is_ptr n) as P by (by right). destruct (Nat.eqb_spec (x_first n) 0) as [Fz|Fz].
    + exists M. split; [done|]. eapply rinv_skip; [done| |done]. intros _ [_ Q]. destruct (fl_ref n) eqn:Qr.
      * destruct (ok_ref _ _ _ _ _ _ O P Qr) as (_ & r & b & Hr & _). rewrite Fz in Hr. by destruct (nodes_nonzero _ _ _ (d_tree _ _ _ D) _ Hr) as (? & _).
      * destruct (fl_cref n) eqn:Qc; [by destruct (ok_cref _ _ _ _ _ _ O P Qr Qc) as (X & _)|]. cbn [orb] in Q.
        apply (NO k n ltac:(lia) En); [|done|done]. destruct Cases as [?|[X|[?|?]]]; try congruence. rewrite X in Q. done.
    + assert (exists v, rd res (x_first n) = Some (Some (rel v)) /\ ld m d = Some (Some v)) as (v & E & Ev).
      { destruct (fl_ref n) eqn:Qr.
        - destruct (ok_ref _ _ _ _ _ _ O P Qr) as (_ & r & b & Hr & Er & Eb & Ev). exists b. split; [|done]. by eapply Rf.
        - destruct (fl_cref n) eqn:Qc; [by destruct (ok_cref _ _ _ _ _ _ O P Qr Qc) as (X & _)|].
          destruct (fl_null n) eqn:Qn; [by apply (ok_null _ _ _ _ _ _ O P Qn Qr) in Qc|].
          assert (live n = true) as Lv by (destruct Cases as [?|[?|[?|?]]]; congruence).
          destruct (ok_own _ _ _ _ _ _ O P Lv) as ((p & z & A & _ & _ & Hf) & _). destruct (Hf T' Fz) as (c & Ec & Dc).
          destruct (area_own _ _ _ _ _ Zk A) as (n2 & d2 & En2 & _ & _ & Ed2 & Ev2 & _). exists p. split; [|congruence].
          eapply Rf; [|done|done]. destruct (kid_list k n I En Fz Qr Qc) as (l & Hl & _ & _ & _ & Kl). destruct l as [|x l]; [done|]. cbn in Hl. subst x.
          by destruct (proj1 (Kl (x_first n)) (elem_of_list_here _ _)). }
      rewrite E. cbn [mbind option_bind]. rewrite (rd_lu _ _ _ Rk). cbn [mbind option_bind]. by apply St.
Qed.

Lemma relink_run s res : inv (length ns) s -> length res = length ns -> (forall j, j ∈ nodes t -> fine res j) ->
  forall l k M, (2 <= k)%nat -> (k + l = length ns)%nat -> rinv k (c_mem s) M ->
  exists M', relink_all ns res (c_txt s) M (seq k l) = Some M' /\ rinv (length ns) (c_mem s) M'.
Proof.
  intros V Lr Fr. induction l as [|l IH]; intros k M K L R.
  - exists M. split; [done|]. by replace (length ns) with k by lia.
  - cbn [seq relink_all]. destruct (relink_step s res k M V Lr Fr) as (M1 & E & R'); [lia|done|]. rewrite E. cbn [mbind option_bind]. apply IH; [lia|lia|done].
Qed.

Lemma rinv_copied s M : inv (length ns) s -> rinv (length ns) (c_mem s) M -> copied m M ns dst rel.
Proof.
  intros V R. split.
  - apply rel_root.
  - intros i a z Zi A. destruct (r_new _ _ _ R i a z Zi A) as (cs & E & L). exists (blk i), cs. split; [unfold blk; lia|]. split; [done|]. split; [done|].
    intros k K. by apply (rel_own i a z).
  - intros b [B1 B2]. rewrite (r_len _ _ _ R), (i_mem _ _ V) in B2. destruct (rank_onto (length ns) (b - length m)) as (i & Ii & Oi & Ri); [lia|].
    unfold owner in Oi. destruct (area_of m ns i) as [[a z]|] eqn:A; [|done]. exists i, a, z. split; [lia|]. split; [done|].
    destruct (area_node m ns t D i a z ltac:(lia) A) as (_ & Sz & _). rewrite <- (padd_0 a). rewrite (rel_own i a z) by (try done; lia). unfold blk. f_equal. lia.
  - apply rel_inj.
  - intros p c I C. destruct c as [z|q k].
    + destruct (r_cell _ _ _ R p (B z) I C) as [X|X]; exact X.
    + destruct (home q) as [h|] eqn:Hq.
      * destruct (d_cover _ _ _ D p q k I C) as (i & n & a & Hi & En & Rs & Ea & Lk & ->).
        { unfold home in Hq. set (f := fun i => _) in Hq. destruct (filter f (seq 0 (length ns))) as [|j l] eqn:E; [done|].
          assert (j ∈ filter f (seq 0 (length ns))) as X by (rewrite E; left). apply elem_of_list_filter in X as [X _]. unfold f in X.
          destruct (area_of m ns j) as [[b u]|] eqn:Aj; [|done]. apply inside_b_iff in X. by exists j, b, u. }
        apply (r_done _ _ _ R); [done| |done]. exists i, n, a, k. split; [by eapply lookup_lt_Some|]. done.
      * assert (rel q = q) as Rq by (unfold rel; by rewrite Hq). destruct (r_cell _ _ _ R p (F q k) I C) as [X|X]; [|done]. cbn [relcell]. by rewrite Rq.
  - apply rel_ext.
  - intros b Lb Nb. by apply (r_old _ _ _ R).
  - intros p z a A Hp Np. rewrite area_0 in A. injection A as <- <-. by apply (r_rest _ _ _ R).
Qed.
End Copy.
