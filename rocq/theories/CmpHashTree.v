(** Proofs about hashing of saved structures. *)
From stdpp Require Import sets.
From Verif Require Import Base Bitfield HashStr HashStrProof Ptrs DfsProof CmpHash CmpHashSpec CmpHashProof.
Local Open Scope Z_scope.

(** ** One node *)
Lemma hash_block_take a b size bs : 0 <= size -> bytes_at a 0 (Z.to_nat size) = Some bs -> bytes_at b 0 (Z.to_nat size) = Some bs ->
  exists h, hash_block a size = Some h /\ hash_block b size = Some h /\ 0 <= h < 2 ^ 32.
Proof.
  intros Hs Ea Eb. apply bytes_at_inv in Ea as (E1 & L1 & N1), Eb as (E2 & _ & N2). rewrite drop_0 in E1, E2. cbn in N1, N2.
  destruct (hash_block_ok a size) as (h & E & R); [lia|]. exists h. split; [done|]. split; [|done].
  rewrite <- E. unfold hash_block. apply hash_loop_local. intros i Hi.
  rewrite <- (lookup_take b (Z.to_nat size) i), <- (lookup_take a (Z.to_nat size) i) by lia. by rewrite <- E1, <- E2.
Qed.
Lemma hash_block_some a size : 0 <= size -> (Z.to_nat size <= length a)%nat -> exists h, hash_block a size = Some h /\ 0 <= h < 2 ^ 32.
Proof. intros Hs L. apply hash_block_ok. lia. Qed.

Lemma fval_of_inj f a b x : 0 <= a < 2 ^ (8 * Z.of_nat (fmt_size f)) -> 0 <= b < 2 ^ (8 * Z.of_nat (fmt_size f)) ->
  a <> 2 ^ (8 * Z.of_nat (fmt_size f) - 1) -> b <> 2 ^ (8 * Z.of_nat (fmt_size f) - 1) ->
  fval_of f a = FNum x -> fval_of f b = FNum x -> a = b.
Proof.
  intros Ha Hb Na Nb. unfold fval_of. set (w := 8 * Z.of_nat (fmt_size f)) in *.
  assert (2 ^ w = 2 * 2 ^ (w - 1)) as Ew by (rewrite <- Z.pow_succ_r by (subst w; destruct f; cbn; lia); f_equal; lia).
  set (p := 2 ^ (w - 1)) in *. assert (0 < p) as Hp by (subst p; apply Z.pow_pos_nonneg; subst w; destruct f; cbn; lia).
  clearbody p. rewrite Ew in Ha, Hb. clear Ew. clearbody w.
  repeat match goal with |- context [if ?c then FNan else _] => destruct c; [done|] end.
  assert (forall c, 0 <= c < 2 * p -> c = (if p <=? c then p + c mod p else c mod p) /\ 0 <= c mod p < p) as D.
  { intros c Hc. pose proof (Z.mod_pos_bound c p Hp). split; [|done]. destruct (Z.leb_spec p c).
    - replace (c mod p) with ((c - p + 1 * p) mod p) by (f_equal; lia). rewrite Z.mod_add, Z.mod_small by lia. lia.
    - by rewrite Z.mod_small by lia. }
  destruct (D a ltac:(lia)) as [Da Ra], (D b ltac:(lia)) as [Db Rb]. intros [= E1] [= E2].
  destruct (p <=? a), (p <=? b); lia.
Qed.

Lemma rd_float_inj f a b pos x : Forall (fun b => 0 <= b < 256) a -> Forall (fun b => 0 <= b < 256) b ->
  plain_zero f a pos -> plain_zero f b pos -> rd_float f a pos = Some (FNum x) -> rd_float f b pos = Some (FNum x) ->
  exists bs, bytes_at a pos (fmt_size f) = Some bs /\ bytes_at b pos (fmt_size f) = Some bs.
Proof.
  intros Ha Hb Pa Pb. unfold rd_float.
  destruct (bytes_at a pos (fmt_size f)) as [u|] eqn:Eu; [|done]. destruct (bytes_at b pos (fmt_size f)) as [v|] eqn:Ev; [|done].
  cbn [mbind option_bind]. intros [= E1] [= E2]. exists u. split; [done|]. f_equal.
  pose proof (bytes_at_bytes _ _ _ _ Ha Eu) as Bu. pose proof (bytes_at_bytes _ _ _ _ Hb Ev) as Bv.
  pose proof (bytes_at_inv _ _ _ _ Eu) as (_ & Lu & _). pose proof (bytes_at_inv _ _ _ _ Ev) as (_ & Lv & _).
  pose proof (le_num_range u Bu) as Ru. pose proof (le_num_range v Bv) as Rv. rewrite Lu in Ru. rewrite Lv in Rv.
  symmetry. apply le_num_inj; [done..|congruence|].
  apply (fval_of_inj f _ _ x); [done|done|by apply Pa|by apply Pb|done|done].
Qed.

Lemma bytes_at_app mem n k a b : bytes_at mem 0 n = Some a -> bytes_at mem n k = Some b -> bytes_at mem 0 (n + k) = Some (a ++ b).
Proof.
  intros Ea Eb. apply bytes_at_inv in Ea as (Ea & _ & _), Eb as (Eb & _ & L). unfold bytes_at. cbn.
  destruct (Nat.leb_spec (n + k) (length mem)); [|lia]. f_equal. rewrite Ea, Eb, !drop_0.
  rewrite <- (take_drop n (take (n + k) mem)), take_take. rewrite Nat.min_l by lia. f_equal.
  rewrite <- take_drop_commute. done.
Qed.
Lemma bytes_at_drop mem n k : (n + k <= length mem)%nat -> bytes_at (drop n mem) 0 k = bytes_at mem n k.
Proof.
  intros L. unfold bytes_at. rewrite drop_length. cbn. destruct (Nat.leb_spec k (length mem - n)), (Nat.leb_spec (n + k) (length mem)); try lia. by rewrite drop_0.
Qed.

(** The hash of a node that is not a structure. *)
Lemma hash_value_leaf e ns res n : node_ok e n -> c_idx n <> 0%nat -> hash_ok e n -> kind_of (c_type n) <> KCompound ->
  exists h, leaf_hash e n = Some h /\ hash_value e ns res n 0 = Some h /\ 0 <= h < 2 ^ 32.
Proof.
  intros (_ & _ & _ & _ & _ & _ & _ & _ & _ & _ & Hb & Hv) Hi Hh Hk. destruct (Hv Hi) as [v Ev]. clear Hv Hi.
  unfold leaf_hash, hash_value, value_of, hash_ok in *.
  destruct (kind_of (c_type n)) eqn:K; [| | | | | |done| | | |].
  - destruct (bytes_at (c_data n) 0 8) as [p|]; [|done]. cbn [mbind option_bind] in *.
    destruct (le_num p =? 0); cbn [mbind option_bind].
    + destruct (hash_str_ok None) as (h & E & R). by exists h.
    + destruct (text e (le_num p)) as [t|]; [|done]. cbn [mbind option_bind]. destruct (hash_str_ok (Some t)) as (h & E & R). by exists h.
  - destruct (text_at (c_data n)) as [t|]; [|done]. cbn [mbind option_bind]. destruct (hash_str_ok (Some t)) as (h & E & R). by exists h.
  - unfold rd_bool in *. destruct (rd (c_data n) 0) as [b|]; [|done]. cbn [mbind option_bind] in *.
    destruct ((b =? 0) || (b =? 1)) eqn:Eb; [|done]. exists b. split; [done|]. split; [done|lia].
  - destruct (bytes_at (c_data n) 0 size) as [bs|] eqn:Eb; [|done]. apply bytes_at_inv in Eb as (_ & _ & L).
    destruct (hash_block_some (c_data n) (Z.of_nat size)) as (h & E & R); [lia|lia|]. by exists h.
  - destruct (rd_float f (c_data n) 0) as [x|] eqn:Ex; [|done]. cbn [mbind option_bind].
    destruct x as [|x]; cbn [isnan]; [by exists minus_one|].
    unfold rd_float in Ex. destruct (bytes_at (c_data n) 0 (fmt_size f)) as [bs|] eqn:Eb; [|done]. apply bytes_at_inv in Eb as (_ & _ & L).
    destruct (hash_block_some (c_data n) (Z.of_nat (fmt_size f))) as (h & E & R); [lia|lia|]. by exists h.
  - unfold hash_complex. destruct (rd_float f (c_data n) 0) as [x|] eqn:Ex; [|done]. cbn [mbind option_bind] in *.
    destruct (rd_float f (c_data n) (fmt_step f)) as [y|] eqn:Ey; [|done]. cbn [mbind option_bind] in *.
    destruct x as [|x]; cbn [isnan orb]; [by exists minus_one|].
    destruct y as [|y]; cbn [isnan orb]; [by exists minus_one|].
    unfold rd_float in Ey. destruct (bytes_at (c_data n) (fmt_step f) (fmt_size f)) as [bs|] eqn:Eb; [|done]. apply bytes_at_inv in Eb as (_ & _ & L).
    destruct f; cbn [fmt_step fmt_size] in L |- *.
    + destruct (hash_block_some (c_data n) 8) as (h & E & R); [lia|lia|]. by exists h.
    + destruct (hash_block_some (c_data n) 16) as (h & E & R); [lia|lia|]. by exists h.
    + destruct (hash_block_some (c_data n) 10) as (h & -> & R); [lia|lia|]. destruct (hash_block_some (drop 16 (c_data n)) 10) as (h' & -> & R'); [lia|rewrite drop_length; lia|].
      cbn [mbind option_bind]. eexists. split; [done|]. split; [done|]. apply Z.mod_pos_bound. lia.
  - destruct Hh as (size & sgn & E1 & E2). rewrite E1 in Ev. rewrite E2.
    destruct (bytes_at (c_data n) 0 size) as [bs|] eqn:Eb; [|done]. apply bytes_at_inv in Eb as (_ & _ & L).
    destruct (hash_block_some (c_data n) (Z.of_nat size)) as (h & E & R); [lia|lia|]. by exists h.
  - destruct (bytes_at (c_data n) 0 8) as [bs|] eqn:Eb; [|done]. apply bytes_at_inv in Eb as (_ & _ & L).
    destruct (hash_block_some (c_data n) 8) as (h & E & R); [lia|lia|]. by exists h.
  - destruct (rd_bits (fd e (c_fdp n)) (c_data n)) as [z|]; [|done]. cbn [mbind option_bind].
    destruct (hash_block_some (num_le 16 z) 16) as (h & E & R); [lia|rewrite num_le_length; lia|]. by exists h.
  - by exists 0.
Qed.

(** Equal nodes have equal hashes. *)
Lemma leaf_hash_same e x y : node_ok e x -> node_ok e y -> same_node e x y -> c_idx x <> 0%nat -> hash_ok e x -> hash_ok e y ->
  leaf_hash e x = leaf_hash e y.
Proof.
  intros (_ & _ & _ & _ & _ & _ & _ & _ & _ & _ & Bx & _) (_ & _ & _ & _ & _ & _ & _ & _ & _ & _ & By & _) S Ix Hx Hy.
  destruct S as [[? ?]|(_ & D & a & b & Ea & Eb & S)]; [done|]. injection D as D1 D2 D3 _ _ _ _ _ _ _.
  unfold leaf_hash, hash_ok in *. rewrite <- D2, <- D1 in *. rewrite <- D3 in *.
  pose proof Ea as Va. pose proof Eb as Vb. rewrite Ea, Eb.
  unfold value_of in Ea, Eb. rewrite <- D2, <- D1, <- D3 in Eb.
  destruct (kind_of (c_type x)); cbn [mbind option_bind].
  - destruct a, b; cbn in S; try done; by injection S as ->.
  - destruct a, b; cbn in S; try done; by injection S as ->.
  - destruct a, b; cbn in S; try done; by injection S as ->.
  - destruct (bytes_at (c_data x) 0 size) as [u|] eqn:Eu; [|done]. destruct (bytes_at (c_data y) 0 size) as [v|] eqn:Ev; [|done].
    injection Ea as <-. injection Eb as <-. cbn in S. injection S as S.
    pose proof (bytes_at_inv _ _ _ _ Eu) as (_ & Lu & _). pose proof (bytes_at_inv _ _ _ _ Ev) as (_ & Lv & _).
    assert (u = v) as <- by (apply (le_int_inj sgn); [exact (bytes_at_bytes _ _ _ _ Bx Eu)|exact (bytes_at_bytes _ _ _ _ By Ev)|congruence|done]).
    destruct (hash_block_take (c_data x) (c_data y) (Z.of_nat size) u) as (h & -> & -> & _); [lia|by rewrite Nat2Z.id..|done].
  - destruct (rd_float f (c_data x) 0) as [u|] eqn:Eu; [|done]. destruct (rd_float f (c_data y) 0) as [v|] eqn:Ev; [|done].
    injection Ea as <-. injection Eb as <-. cbn in S. injection S as <-. destruct u as [|u]; [done|].
    destruct (rd_float_inj f (c_data x) (c_data y) 0 u) as (bs & E1 & E2); [done..|].
    destruct (hash_block_take (c_data x) (c_data y) (Z.of_nat (fmt_size f)) bs) as (h & -> & -> & _); [lia|by rewrite Nat2Z.id..|done].
  - destruct (rd_float f (c_data x) 0) as [u|] eqn:Eu; [|done]. destruct (rd_float f (c_data x) (fmt_step f)) as [u'|] eqn:Eu'; [|done].
    destruct (rd_float f (c_data y) 0) as [v|] eqn:Ev; [|done]. destruct (rd_float f (c_data y) (fmt_step f)) as [v'|] eqn:Ev'; [|done].
    injection Ea as <-. injection Eb as <-. cbn in S. destruct S as [[N1 N2]|[<- <-]].
    + unfold has_nan in *. destruct u as [|u]; [|destruct u' as [|u']; [|destruct N1; done]]; (destruct v as [|v]; [done|destruct v' as [|v']; [done|destruct N2; done]]).
    + destruct u as [|u]; [done|]. destruct u' as [|u']; [done|].
      destruct Hx as [Hx Hx'], Hy as [Hy Hy'].
      destruct (rd_float_inj f (c_data x) (c_data y) 0 u) as (bs & E1 & E2); [done..|].
      destruct (rd_float_inj f (c_data x) (c_data y) (fmt_step f) u') as (bs' & E1' & E2'); [done..|].
      destruct f; cbn in E1, E2, E1', E2'.
      * pose proof (bytes_at_app _ _ _ _ _ E1 E1') as F1. pose proof (bytes_at_app _ _ _ _ _ E2 E2') as F2.
        destruct (hash_block_take (c_data x) (c_data y) 8 (bs ++ bs')) as (h & -> & -> & _); done.
      * pose proof (bytes_at_app _ _ _ _ _ E1 E1') as F1. pose proof (bytes_at_app _ _ _ _ _ E2 E2') as F2.
        destruct (hash_block_take (c_data x) (c_data y) 16 (bs ++ bs')) as (h & -> & -> & _); done.
      * destruct (hash_block_take (c_data x) (c_data y) 10 bs) as (h & -> & -> & _); [done..|].
        pose proof (bytes_at_inv _ _ _ _ E1') as (_ & _ & L1). pose proof (bytes_at_inv _ _ _ _ E2') as (_ & _ & L2).
        destruct (hash_block_take (drop 16 (c_data x)) (drop 16 (c_data y)) 10 bs') as (h' & -> & -> & _); [done|by rewrite bytes_at_drop..|done].
  - done.
  - destruct Hx as (size & sgn & F1 & F2). rewrite F1 in Ea, Eb. rewrite F2.
    destruct (bytes_at (c_data x) 0 size) as [u|] eqn:Eu; [|done]. destruct (bytes_at (c_data y) 0 size) as [v|] eqn:Ev; [|done].
    injection Ea as <-. injection Eb as <-. cbn in S. injection S as S.
    pose proof (bytes_at_inv _ _ _ _ Eu) as (_ & Lu & _). pose proof (bytes_at_inv _ _ _ _ Ev) as (_ & Lv & _).
    assert (u = v) as <- by (apply (le_int_inj sgn); [exact (bytes_at_bytes _ _ _ _ Bx Eu)|exact (bytes_at_bytes _ _ _ _ By Ev)|congruence|done]).
    destruct (hash_block_take (c_data x) (c_data y) (Z.of_nat size) u) as (h & -> & -> & _); [lia|by rewrite Nat2Z.id..|done].
  - destruct (bytes_at (c_data x) 0 8) as [u|] eqn:Eu; [|done]. destruct (bytes_at (c_data y) 0 8) as [v|] eqn:Ev; [|done].
    injection Ea as <-. injection Eb as <-. cbn in S. injection S as S.
    pose proof (bytes_at_inv _ _ _ _ Eu) as (_ & Lu & _). pose proof (bytes_at_inv _ _ _ _ Ev) as (_ & Lv & _).
    assert (u = v) as <- by (apply le_num_inj; [exact (bytes_at_bytes _ _ _ _ Bx Eu)|exact (bytes_at_bytes _ _ _ _ By Ev)|congruence|done]).
    destruct (hash_block_take (c_data x) (c_data y) 8 u) as (h & -> & -> & _); done.
  - destruct a, b; cbn in S; try done; by injection S as ->.
  - done.
Qed.

(** ** Links *)
Lemma tree_at_local ns ns' t : (forall i, i ∈ nodes t -> ns !! i = ns' !! i) ->
  forall par nxt, tree_at ns par nxt t -> tree_at ns' par nxt t.
Proof.
  induction t as [i ks IH] using tree_ind'. intros A par nxt. rewrite !tree_at_eq.
  intros (n & En & Z & P & N & K). exists n. split; [rewrite <- A; [done|cbn; left]|]. split; [done|]. split; [done|]. split; [done|].
  destruct (expandable n); [|done]. destruct K as (K1 & K2 & K3). split; [done|]. split; [done|].
  assert (forall j, j ∈ concat (map nodes ks) -> ns !! j = ns' !! j) as A' by (intros j Hj; apply A; cbn; by right).
  clear A En K1 K2 P N. induction IH as [|k ks Hk _ IHk]; [done|]. cbn in K3, A'. destruct K3 as [K3 K4]. cbn. split.
  - apply Hk; [|done]. intros j Hj. apply A'. apply elem_of_app. by left.
  - apply IHk; [done|]. intros j Hj. apply A'. apply elem_of_app. by right.
Qed.

(** The chain that starts at a node of the tree is the list of it and its later siblings. *)
Lemma trees_chain ns par ks : trees_at ns par ks -> forall i, i ∈ concat (map nodes ks) ->
  exists par' ks', hd_idx ks' = i /\ trees_at ns par' ks' /\ sublist (map root ks') (concat (map nodes ks)) /\ ks' <> [].
Proof.
  assert (forall t, forall par nxt, tree_at ns par nxt t -> forall i, i ∈ concat (map nodes (match t with T _ ks => ks end)) ->
    exists par' ks', hd_idx ks' = i /\ trees_at ns par' ks' /\ sublist (map root ks') (concat (map nodes (match t with T _ ks => ks end))) /\ ks' <> []) as Sub.
  { induction t as [j js IH] using tree_ind'. intros par0 nxt A i Hi. rewrite tree_at_eq in A. destruct A as (n & _ & _ & _ & _ & K).
    destruct (expandable n); [|subst js; cbn in Hi; by apply elem_of_nil in Hi]. destruct K as (_ & _ & K). clear n.
    revert j K. induction IH as [|k js Hk _ IHk]; intros j K; [cbn in Hi; by apply elem_of_nil in Hi|].
    cbn in K. destruct K as [K1 K2]. cbn in Hi. apply elem_of_app in Hi as [Hi|Hi].
    - destruct k as [r rs]. cbn in Hi. apply elem_of_cons in Hi as [->|Hi].
      + exists j, (T r rs :: js). split; [done|]. split; [by split|]. split; [|done]. cbn. apply sublist_skip. apply sublist_inserts_l.
        clear. induction js as [|[i ks] js IH]; [constructor|]. cbn. apply sublist_skip. by apply sublist_inserts_l.
      + destruct (Hk _ _ K1 i Hi) as (p' & ks' & E1 & E2 & E3 & E4). exists p', ks'. split; [done|]. split; [done|]. split; [|done]. cbn.
        apply sublist_cons. by apply sublist_inserts_r.
    - destruct (IHk Hi j K2) as (p' & ks' & E1 & E2 & E3 & E4). exists p', ks'. split; [done|]. split; [done|]. split; [|done]. cbn. by apply sublist_inserts_l. }
  intros A i Hi. revert A. induction ks as [|k ks IH]; intros A; [cbn in Hi; by apply elem_of_nil in Hi|].
  cbn in A. destruct A as [K1 K2]. cbn in Hi. apply elem_of_app in Hi as [Hi|Hi].
  - destruct k as [r rs]. cbn in Hi. apply elem_of_cons in Hi as [->|Hi].
    + exists par, (T r rs :: ks). split; [done|]. split; [by split|]. split; [|done]. cbn. apply sublist_skip. apply sublist_inserts_l.
      clear. induction ks as [|[i ks'] js IH]; [constructor|]. cbn. apply sublist_skip. by apply sublist_inserts_l.
    + destruct (Sub _ _ _ K1 i Hi) as (p' & ks' & E1 & E2 & E3 & E4). exists p', ks'. split; [done|]. split; [done|]. split; [|done]. cbn.
      apply sublist_cons. by apply sublist_inserts_r.
  - destruct (IH Hi K2) as (p' & ks' & E1 & E2 & E3 & E4). exists p', ks'. split; [done|]. split; [done|]. split; [|done]. cbn. by apply sublist_inserts_l.
Qed.

Lemma link_lookup ns i m : map link_of ns !! i = Some m -> exists n, ns !! i = Some n /\ link_of n = m.
Proof. rewrite list_lookup_fmap. destruct (ns !! i) as [n|]; [|done]. intros [= <-]. by exists n. Qed.

Lemma sublist_nodup {A} (l k : list A) : sublist l k -> NoDup k -> NoDup l.
Proof.
  induction 1 as [|x l k H IH|x l k H IH]; intros N; [done|..]; apply NoDup_cons in N as [N1 N2]; [|by apply IH].
  constructor; [|by apply IH]. intros Hx. apply N1. eapply elem_of_submseteq; [done|by apply sublist_submseteq].
Qed.
(** Siblings chained by [next]. *)
Fixpoint chain (ns : list cnode) (l : list nat) : Prop :=
  match l with [] => True | i :: l => i <> 0%nat /\ (exists n, ns !! i = Some n /\ c_next n = hd 0%nat l) /\ chain ns l end.
Lemma trees_at_chain ns : forall ks par, trees_at (map link_of ns) par ks -> chain ns (map root ks).
Proof.
  induction ks as [|k ks IH]; intros par A; [done|]. cbn in A. destruct A as [A1 A2].
  destruct (tree_at_root _ _ _ _ A1) as (Z & m & Em & _ & Nm). destruct (link_lookup _ _ _ Em) as (n & En & <-). cbn in Nm.
  cbn. split; [done|]. split; [|by eapply IH]. exists n. split; [done|]. rewrite Nm. by destruct ks.
Qed.
(** The loop over a chain of siblings. *)
Lemma hash_chain_run ns res : forall l fuel h (f : nat -> Z),
  chain ns l -> (length l < fuel)%nat -> (forall i, i ∈ l -> res !! i = Some (f i)) ->
  hash_chain fuel ns res (hd 0%nat l) h = Some (foldl (fun h k => (h * 3 + k + 1) mod 2 ^ 32) h (map f l)).
Proof.
  induction l as [|i l IH]; intros fuel h f A L R; (destruct fuel as [|fuel]; [cbn in L; lia|]); [done|].
  cbn in A. destruct A as (Z & (n & En & Nn) & A). cbn [hd hash_chain].
  destruct (Nat.eqb_spec i 0); [done|]. rewrite (rd_lu _ _ _ En). rewrite (rd_lu _ _ _ (R i (elem_of_list_here _ _))).
  cbn [mbind option_bind]. rewrite Nn. rewrite (IH fuel _ f); [done|done|cbn in L; lia|].
  intros k' Hk'. apply R. by right.
Qed.

Lemma events_nodes t : forall l i l' o, (i, l', o) ∈ events l t -> i ∈ nodes t.
Proof.
  induction t as [j ks IH] using tree_ind'. intros l i l' o H. cbn in H. cbn.
  apply elem_of_cons in H as [[= -> _ _]|H]; [left|]. apply elem_of_app in H as [H|H].
  - right. revert H. induction IH as [|k ks Hk _ IHk]; intros H; [cbn in H; by apply elem_of_nil in H|].
    cbn in H |- *. apply elem_of_app in H as [H|H]; apply elem_of_app; [left; by eapply Hk|right; by apply IHk].
  - apply elem_of_list_singleton in H as [= -> _ _]. left.
Qed.

(** ** Equal tables have equal hashes *)
Section Two.
Context (e : env) (xs ys : list cnode) (t : tree).
Context (Hcs : forall p s, text e p = Some s -> Forall (fun c => 1 <= c <= 255) s).
Context (Ox : Forall (node_ok e) xs) (Oy : Forall (node_ok e) ys).
Context (Hlen : length xs = length ys).
Context (Hroot : tree_at (map link_of xs) 0 0 t) (Hnd : NoDup (nodes t)).
Context (Hx : forall i n, i ∈ nodes t -> xs !! i = Some n -> c_idx n <> 0%nat /\ hash_ok e n /\ (c_first n = 0%nat \/ c_first n ∈ nodes t)).
Context (Hy : forall i n, i ∈ nodes t -> ys !! i = Some n -> hash_ok e n).
Context (Hsame : forall i n m, i ∈ nodes t -> xs !! i = Some n -> ys !! i = Some m -> same_node e n m).

Lemma in_table i : i ∈ nodes t -> exists n m, xs !! i = Some n /\ ys !! i = Some m.
Proof.
  intros Hi. clear -Hroot Hlen Hi. assert (i < length xs)%nat as L.
  { assert (forall u par nxt, tree_at (map link_of xs) par nxt u -> forall j, j ∈ nodes u -> (j < length xs)%nat) as K.
    { clear. induction u as [k ks IH] using tree_ind'. intros par nxt A j Hj. rewrite tree_at_eq in A. destruct A as (m & Em & _ & _ & _ & K).
      cbn in Hj. apply elem_of_cons in Hj as [->|Hj]; [apply lookup_lt_Some in Em; by rewrite map_length in Em|].
      destruct (expandable m); [|subst ks; cbn in Hj; by apply elem_of_nil in Hj]. destruct K as (_ & _ & K). clear Em m.
      revert K. induction IH as [|u ks Hk _ IHk]; intros K; [cbn in Hj; by apply elem_of_nil in Hj|].
      cbn in K, Hj. destruct K as [K1 K2]. apply elem_of_app in Hj as [Hj|Hj]; [by eapply Hk|by apply IHk]. }
    by eapply K. }
  destruct (lookup_lt_is_Some_2 xs i L) as [n En]. destruct (lookup_lt_is_Some_2 ys i ltac:(lia)) as [m Em]. eauto.
Qed.
Lemma same_described i n m : i ∈ nodes t -> xs !! i = Some n -> ys !! i = Some m -> described n = described m.
Proof.
  intros Hi En Em. destruct (Hx i n Hi En) as (N & _). destruct (Hsame i n m Hi En Em) as [[? ?]|(_ & D & _)]; done.
Qed.
Lemma same_tree : tree_at (map link_of ys) 0 0 t.
Proof.
  apply (tree_at_local (map link_of xs)); [|done]. intros i Hi. destruct (in_table i Hi) as (n & m & En & Em).
  rewrite !list_lookup_fmap, En, Em. cbn. f_equal. pose proof (same_described i n m Hi En Em) as [= _ _ _ E4 _ _ E7 E8 E9 E10].
  unfold link_of. by rewrite E4, E7, E8, E9, E10.
Qed.

Lemma hash_value_two res i n m : i ∈ nodes t -> xs !! i = Some n -> ys !! i = Some m -> length res = length xs ->
  (forall j, j ∈ nodes t -> exists r, res !! j = Some r) -> (kind_of (c_type n) = KCompound \/ res !! i = Some 0) ->
  exists h, forall old, res !! i = Some old -> hash_value e xs res n old = Some h /\ hash_value e ys res m old = Some h.
Proof.
  intros Hi En Em Lr Hr H0. destruct (Hx i n Hi En) as (Ni & Hn & Hf). pose proof (Hy i m Hi Em) as Hm.
  pose proof (same_described i n m Hi En Em) as D.
  pose proof (Forall_lookup_1 _ _ _ _ Ox En) as On. pose proof (Forall_lookup_1 _ _ _ _ Oy Em) as Om.
  injection D as D1 D2 D3 D4 D5 D6 D7 D8 D9 D10.
  assert (kind_of (c_type n) = KCompound \/ kind_of (c_type n) <> KCompound) as [K|K] by (destruct (kind_of (c_type n)); first [by left|by right]).
  - unfold hash_value. rewrite <- D2, K, <- D10, Hlen.
    destruct Hf as [->|Hf]; [exists 0; by intros|].
    destruct (trees_chain (map link_of xs) 0 [t]) with (i := c_first n) as (p' & ks' & E1 & E2 & E3 & E4); [by split|cbn; by rewrite app_nil_r|].
    cbn in E3. rewrite app_nil_r in E3. apply trees_at_chain in E2.
    replace (hd_idx ks') with (hd 0%nat (map root ks')) in E1 by (by destruct ks'). clear E4. revert E1 E2 E3. generalize (map root ks'). clear ks'. intros l E1 E2 E3.
    assert (NoDup l) as Nk by (by eapply sublist_nodup).
    assert (forall j, j ∈ l -> j ∈ nodes t) as Sub by (intros j Hj; eapply elem_of_submseteq; [done|by apply sublist_submseteq]).
    assert (length l <= length ys)%nat as Lk.
    { rewrite <- (seq_length (length ys) 0). apply submseteq_length, NoDup_submseteq; [done|].
      intros j Hj. apply elem_of_seq. split; [lia|]. cbn.
      destruct (in_table j (Sub j Hj)) as (? & ? & _ & Ej). by apply lookup_lt_Some in Ej. }
    set (f := fun k : nat => default 0 (res !! k)).
    assert (forall k, k ∈ l -> res !! k = Some (f k)) as Hf'.
    { intros k Hk. unfold f. destruct (Hr _ (Sub _ Hk)) as [r ->]. done. }
    assert (chain ys l) as E2'.
    { clear -E2 Sub Hx Hsame Ox Oy Hroot Hlen. induction l as [|j l IH]; [done|]. cbn in E2 |- *. destruct E2 as (Zj & (u & Eu & Nu) & E2).
      split; [done|]. split; [|apply IH; [done|intros; apply Sub; by right]].
      assert (j ∈ nodes t) as Hj by (apply Sub; left). destruct (in_table j Hj) as (u' & v & Eu' & Ev). rewrite Eu in Eu'. injection Eu' as <-.
      exists v. split; [done|]. pose proof (same_described j u v Hj Eu Ev) as [= _ _ _ _ _ _ _ _ E9 _]. by rewrite <- E9. }
    eexists. intros old _. rewrite <- E1.
    rewrite (hash_chain_run xs res l _ 0 f E2); [|lia|done]. by rewrite (hash_chain_run ys res l _ 0 f E2'); [|lia|done].
  - destruct H0 as [?|H0]; [done|].
    destruct (hash_value_leaf e xs res n On Ni Hn K) as (h & E1 & E2 & _).
    destruct (hash_value_leaf e ys res m Om ltac:(lia) Hm ltac:(by rewrite <- D2)) as (h' & E1' & E2' & _).
    rewrite (leaf_hash_same e n m On Om (Hsame i n m Hi En Em) Ni Hn Hm) in E1. rewrite E1' in E1. injection E1 as ->.
    exists h. intros old Eo. rewrite H0 in Eo. by injection Eo as <-.
Qed.

(** The sequences of calls on both tables end with the same results, as long
    as each node is left once. *)
Definition posts (evs : list event) : list nat := flat_map (fun ev => match ev with (i, _, POST) => [i] | _ => [] end) evs.
Lemma events_two : forall evs res, (forall i l o, (i, l, o) ∈ evs -> i ∈ nodes t) -> NoDup (posts evs) ->
  length res = length xs -> (forall i, i ∈ posts evs -> res !! i = Some 0) ->
  exists res', length res' = length xs /\
    apply_events (node_hash e xs) evs (map link_of xs) res (fun ns c => Done true ns c) = Done true (map link_of xs) res' /\
    apply_events (node_hash e ys) evs (map link_of ys) res (fun ns c => Done true ns c) = Done true (map link_of ys) res'.
Proof.
  induction evs as [|[[i l] o] evs IH]; intros res Hin Nd Lr Hz.
  - by exists res.
  - assert (i ∈ nodes t) as Hi by (eapply Hin; left). destruct (in_table i Hi) as (n & m & En & Em).
    assert (forall i l o, (i, l, o) ∈ evs -> i ∈ nodes t) as Hin' by (intros; eapply Hin; by right).
    cbn [apply_events]. unfold visit. destruct o.
    + cbn [node_hash]. by apply IH.
    + cbn in Nd, Hz. apply NoDup_cons in Nd as [Ni Nd].
      destruct (hash_value_two res i n m Hi En Em Lr) as [h Hh].
      * intros j Hj. destruct (in_table j Hj) as (? & ? & Ej & _). apply lookup_lt_is_Some_2. apply lookup_lt_Some in Ej. lia.
      * right. apply Hz. left.
      * assert (res !! i = Some 0) as E0 by (apply Hz; left). destruct (Hh _ E0) as [H1 H2].
        cbn [node_hash]. rewrite (rd_lu _ _ _ En), (rd_lu _ _ _ Em), (rd_lu _ _ _ E0). cbn [mbind option_bind]. rewrite H1, H2. cbn [mbind option_bind].
        rewrite wr_Some by (apply lookup_lt_Some in E0; done). cbn [mbind option_bind].
        apply IH; [done|done|by rewrite insert_length|]. intros j Hj. rewrite list_lookup_insert_ne; [apply Hz; by right|]. by intros ->.
Qed.
End Two.

Lemma posts_nodes t : forall l, posts (events l t) ≡ₚ nodes t.
Proof.
  induction t as [i ks IH] using tree_ind'. intros l. cbn. unfold posts in *. rewrite flat_map_app. cbn.
  rewrite Permutation_app_comm. cbn. constructor. induction IH as [|k ks Hk _ IHk]; [done|]. cbn. rewrite flat_map_app. by rewrite (Hk (l + 1)), IHk.
Qed.

Lemma hash_two e xs ys t : table_ok e xs -> table_ok e ys -> same_struct e xs ys -> hashable e xs t ->
  (forall i n, i ∈ nodes t -> ys !! i = Some n -> hash_ok e n) ->
  exists fuel h, forall fuel', (fuel <= fuel')%nat -> hash_struct fuel' e xs = Some h /\ hash_struct fuel' e ys = Some h.
Proof.
  intros (Nx & Ox & C) (Ny & Oy & _) [S L] (R & A & Nd & Hx) Hy.
  assert (forall i n m, i ∈ nodes t -> xs !! i = Some n -> ys !! i = Some m -> same_node e n m) as Hs.
  { intros i n m Hi En Em. destruct i as [|i].
    - exfalso. clear -A Hi. assert (forall t par nxt, tree_at (map link_of xs) par nxt t -> 0%nat ∉ nodes t) as K; [|by apply (K t 0%nat 0%nat)].
      clear. induction t as [j ks IH] using tree_ind'. intros par nxt. rewrite tree_at_eq. intros (n & _ & Z & _ & _ & K). cbn.
      intros [?|H]%elem_of_cons; [done|]. destruct (expandable n); [|subst ks; by apply elem_of_nil in H]. destruct K as (_ & _ & K).
      revert j Z K. induction IH as [|k ks Hk _ IHk]; intros j Z K; [by apply elem_of_nil in H|]. cbn in H, K. destruct K as [K1 K2].
      apply elem_of_app in H as [H|H]; [by eapply Hk|by eapply IHk].
    - destruct xs as [|x xs]; [done|]. destruct ys as [|y ys]; [done|]. cbn in En, Em, S. by eapply Forall2_lookup_lr. }
  pose proof (same_tree e xs ys t L A Hx Hs) as A'.
  destruct t as [r ks]. cbn in R. subst r.
  assert (forall (ns : list cnode), keeps_links (node_hash e ns)) as Kl.
  { intros ns ls c i l o b ls' c' E. unfold node_hash in E. destruct o; [by injection E as _ <- _|].
    destruct (rd ns i); [|done]. cbn in E. destruct (rd c i); [|done]. cbn in E. destruct (hash_value _ _ _ _ _); [|done]. cbn in E.
    destruct (wr c i _); [|done]. by injection E as _ <- _. }
  destruct (dfs_tree (node_hash e xs) (Kl xs) 1 (map link_of xs) 1 ks 0 0 (replicate (length xs) 0) eq_refl A Nd (or_intror (conj eq_refl eq_refl))) as [f1 E1].
  destruct (dfs_tree (node_hash e ys) (Kl ys) 1 (map link_of ys) 1 ks 0 0 (replicate (length ys) 0) eq_refl A' Nd (or_intror (conj eq_refl eq_refl))) as [f2 E2].
  destruct (events_two e xs ys (T 1 ks) C Ox Oy L A Nd Hx Hy Hs (events 0 (T 1 ks)) (replicate (length xs) 0)) as (res & Lr & G1 & G2).
  - intros i l o. apply events_nodes.
  - by rewrite posts_nodes.
  - apply replicate_length.
  - intros i Hi. rewrite posts_nodes in Hi. destruct (in_table xs ys _ L A i Hi) as (n & _ & En & _). apply lookup_replicate. split; [done|]. by apply lookup_lt_Some in En.
  - destruct (lookup_lt_is_Some_2 res 1) as [h Eh].
    { destruct (in_table xs ys _ L A 1%nat) as (n & _ & En & _); [left|]. apply lookup_lt_Some in En. lia. }
    exists (f1 + f2)%nat, h. intros fuel' Hf. unfold hash_struct.
    destruct xs as [|x xs]; [done|]. destruct ys as [|y ys]; [done|].
    rewrite E1 by lia. rewrite E2 by lia. rewrite <- L. rewrite G1, G2. by rewrite (rd_lu _ _ _ Eh).
Qed.

(** ** The hash is the recursive hash of the tree *)
Section One.
Context (e : env) (ns : list cnode) (Ok : Forall (node_ok e) ns).
Definition fine (u : tree) : Prop := forall i n, i ∈ nodes u -> ns !! i = Some n ->
  c_idx n <> 0%nat /\ hash_ok e n /\ (kind_of (c_type n) = KCompound -> is_ref (link_of n) = false).
Notation run := (apply_events (node_hash e ns)).
Definition hashed (u : tree) : Prop := forall par nxt l res (k : list node -> list Z -> dres),
  tree_at (map link_of ns) par nxt u -> NoDup (nodes u) -> fine u -> length res = length ns ->
  (forall i, i ∈ nodes u -> res !! i = Some 0) ->
  exists res', run (events l u) (map link_of ns) res k = k (map link_of ns) res' /\ length res' = length ns /\
    res' !! root u = Some (tree_hash e ns u) /\ forall j, j ∉ nodes u -> res' !! j = res !! j.

Lemma hashed_kids ks : Forall hashed ks -> forall par l res (k : list node -> list Z -> dres),
  trees_at (map link_of ns) par ks -> NoDup (concat (map nodes ks)) -> (forall u, u ∈ ks -> fine u) -> length res = length ns ->
  (forall i, i ∈ concat (map nodes ks) -> res !! i = Some 0) ->
  exists res', run (concat (map (events l) ks)) (map link_of ns) res k = k (map link_of ns) res' /\ length res' = length ns /\
    (forall u, u ∈ ks -> res' !! root u = Some (tree_hash e ns u)) /\
    forall j, j ∉ concat (map nodes ks) -> res' !! j = res !! j.
Proof.
  induction 1 as [|u ks Hu _ IH]; intros par l res k A N F L Z.
  - exists res. split; [done|]. split; [done|]. split; [|done]. intros u Hu. by apply elem_of_nil in Hu.
  - cbn in A, N, Z |- *. destruct A as [A1 A2]. apply NoDup_app in N as (N1 & N2 & N3). rewrite apply_events_app.
    destruct (Hu par (hd_idx ks) l res (fun ns0 c => run (concat (map (events l) ks)) ns0 c k) A1 N1) as (res1 & E1 & L1 & R1 & O1).
    { apply F. left. } { done. } { intros i Hi. apply Z. apply elem_of_app. by left. }
    rewrite E1. destruct (IH par l res1 k A2 N3) as (res2 & E2 & L2 & R2 & O2).
    { intros u' Hu'. apply F. by right. } { done. }
    { intros i Hi. rewrite O1; [apply Z; apply elem_of_app; by right|]. intros Hi'. by apply (N2 i). }
    exists res2. split; [done|]. split; [done|]. split.
    + intros u' [->|Hu']%elem_of_cons; [|by apply R2]. rewrite O2; [done|]. apply N2. destruct u. cbn. left.
    + intros j Hj. rewrite O2, O1; [done|..]; intros Hj'; apply Hj; apply elem_of_app; auto.
Qed.

Lemma hashed_tree u : hashed u.
Proof.
  induction u as [i ks IH] using tree_ind'. intros par nxt l res k A N F L Z.
  rewrite tree_at_eq in A. destruct A as (m & Em & Zi & P & Nx & K). destruct (link_lookup _ _ _ Em) as (n & En & <-).
  cbn in N. apply NoDup_cons in N as [Ni N].
  assert (exists p, trees_at (map link_of ns) p ks) as [p Ak].
  { destruct (expandable (link_of n)); [destruct K as (_ & _ & K); by exists i|subst ks; by exists 0%nat]. }
  cbn [events apply_events]. unfold visit at 1. cbn [node_hash]. rewrite apply_events_app.
  destruct (hashed_kids ks IH p (l + 1) res (fun ns0 c => run [(i, l, POST)] ns0 c k) Ak N) as (res1 & E1 & L1 & R1 & O1).
  { intros u Hu j n' Hj. apply F. cbn. right. apply elem_of_list_In, in_concat. exists (nodes u). split; [|by apply elem_of_list_In].
    apply in_map. by apply elem_of_list_In. }
  { done. } { intros j Hj. apply Z. cbn. by right. }
  rewrite E1. cbn [apply_events]. unfold visit.
  assert (res1 !! i = Some 0) as E0 by (rewrite O1 by done; apply Z; left).
  destruct (F i n ltac:(left) En) as (Ii & Hh & Hr).
  assert (hash_value e ns res1 n 0 = Some (tree_hash e ns (T i ks))) as Eh.
  { cbn [tree_hash]. rewrite En.
    assert (kind_of (c_type n) = KCompound \/ kind_of (c_type n) <> KCompound) as [Kc|Kc] by (destruct (kind_of (c_type n)); first [by left|by right]).
    - unfold hash_value. rewrite Kc. specialize (Hr Kc).
      assert (c_first n = hd 0%nat (map root ks)) as ->.
      { unfold expandable in K. rewrite Hr in K. cbn in K. destruct (Nat.eqb_spec (c_first n) 0); cbn in K; [by subst ks|].
        destruct K as (-> & _). by destruct ks. }
      unfold mix_members. rewrite (hash_chain_run ns res1 (map root ks) _ 0 (fun j => default 0 (res1 !! j))).
      + do 2 f_equal. clear -R1. induction ks as [|u ks IHk]; [done|]. cbn. rewrite (R1 u) by left. cbn. f_equal. apply IHk. intros; apply R1. by right.
      + by apply (trees_at_chain ns ks p).
      + assert (length (map root ks) <= length ns)%nat; [|lia].
        rewrite <- (seq_length (length ns) 0). apply submseteq_length, NoDup_submseteq.
        * clear -N. induction ks as [|u ks IHk]; [constructor|]. cbn in N |- *. apply NoDup_app in N as (N1 & N2 & N3). constructor; [|by apply IHk].
          intros (v & Ev & Hv)%elem_of_list_fmap. apply (N2 (root u)); [destruct u; left|].
          apply elem_of_list_In, in_concat. exists (nodes v). split; [apply in_map; by apply elem_of_list_In|]. rewrite Ev. apply elem_of_list_In. destruct v. left.
        * intros j (v & -> & Hv)%elem_of_list_fmap. apply elem_of_seq. split; [lia|]. cbn. rewrite <- L1. apply lookup_lt_is_Some. rewrite (R1 v Hv). eauto.
      + intros j (v & -> & Hv)%elem_of_list_fmap. by rewrite (R1 v Hv).
    - destruct (hash_value_leaf e ns res1 n (Forall_lookup_1 _ _ _ _ Ok En) Ii Hh Kc) as (h & E2 & E3 & _). rewrite E2, E3.
      by destruct (kind_of (c_type n)). }
  cbn [node_hash]. rewrite (rd_lu _ _ _ En), (rd_lu _ _ _ E0). cbn [mbind option_bind]. rewrite Eh. cbn [mbind option_bind].
  rewrite wr_Some by (by apply lookup_lt_Some in E0). cbn [mbind option_bind].
  eexists. split; [done|]. split; [by rewrite insert_length|]. split.
  - cbn [root]. apply list_lookup_insert. by apply lookup_lt_Some in E0.
  - intros j Hj. cbn in Hj. apply not_elem_of_cons in Hj as [Hj1 Hj2]. rewrite list_lookup_insert_ne by done. by apply O1.
Qed.
End One.

Lemma hash_tree e ns t : table_ok e ns -> hashable e ns t ->
  (forall i n, i ∈ nodes t -> ns !! i = Some n -> kind_of (c_type n) = KCompound -> is_ref (link_of n) = false) ->
  exists fuel, forall fuel', (fuel <= fuel')%nat -> hash_struct fuel' e ns = Some (tree_hash e ns t).
Proof.
  intros (Nx & Ox & C) (R & A & Nd & Hx) Hr.
  assert (keeps_links (node_hash e ns)) as Kl.
  { intros ls c i l o b ls' c' E. unfold node_hash in E. destruct o; [by injection E as _ <- _|].
    destruct (rd ns i); [|done]. cbn in E. destruct (rd c i); [|done]. cbn in E. destruct (hash_value _ _ _ _ _); [|done]. cbn in E.
    destruct (wr c i _); [|done]. by injection E as _ <- _. }
  destruct t as [r ks]. cbn in R. subst r.
  destruct (dfs_tree (node_hash e ns) Kl 1 (map link_of ns) 1 ks 0 0 (replicate (length ns) 0) eq_refl A Nd (or_intror (conj eq_refl eq_refl))) as [f1 E1].
  destruct (hashed_tree e ns Ox (T 1 ks) 0%nat 0%nat 0 (replicate (length ns) 0) (fun ns c => Done true ns c) A Nd) as (res & E & L & Rr & _).
  - intros i n Hi En. destruct (Hx i n Hi En) as (? & ? & _). split; [done|]. split; [done|]. by apply (Hr i).
  - apply replicate_length.
  - intros i Hi. destruct (in_table ns ns _ eq_refl A i Hi) as (n & _ & En & _). apply lookup_replicate. split; [done|]. by apply lookup_lt_Some in En.
  - exists f1. intros fuel' Hf. unfold hash_struct. destruct ns as [|n ns]; [done|]. rewrite E1 by done. rewrite E. exact (rd_lu _ _ _ Rr).
Qed.
