(** The whole of mr_copy_recursively, and what can be said of the copy. *)
From stdpp Require Import sets.
From Verif Require Import Base Ptrs DfsProof TreeFacts CopyFree CopyFreeSpec CopyMem FreeProof CopyDup.
Local Open Scope Z_scope.

Lemma in_area_dec m ns p : in_area m ns p \/ ~ in_area m ns p.
Proof.
  destruct (existsb (fun i => match area_of m ns i with Some (a, s) => inside_b a s p | None => false end) (seq 0 (S (length ns)))) eqn:E.
  - left. apply existsb_exists in E as (i & _ & E). destruct (area_of m ns i) as [[a s]|] eqn:A; [|done]. apply inside_b_iff in E. by exists i, a, s.
  - right. intros (i & a & s & A & I). apply not_true_iff_false in E. apply E, existsb_exists. exists i. split; [|rewrite A; by apply inside_b_iff].
    apply in_seq. split; [lia|]. unfold area_of in A. destruct (Nat.eqb_spec i 0); [lia|]. destruct (ns !! i) as [n'|] eqn:En; [|done]. apply lookup_lt_Some in En. lia.
Qed.

(** ** mr_copy_recursively *)
Section Top.
Context (m : mem) (ns : list xnode) (t : tree) (D : described m ns t).
Context (dst : addr) (HA : apart m ns dst) (HP : plain_root ns).

Lemma copy_gen ok t1 : first_kids ns t \/ ((forall i, ok i = true) /\ no_opaque ns) ->
  exists b m' fuel, (forall fuel', (fuel <= fuel')%nat -> copy_recursively fuel' ok t1 m ns dst = Some (b, m')) /\
    ((forall i, ok i = true) -> no_opaque ns -> b = true) /\
    (b = true -> no_opaque ns /\ exists rel, copied m m' ns dst rel) /\
    (b = false -> (forall i, (length m <= i < length m')%nat -> m' !! i = Some None) /\
      (forall i, (i < length m)%nat -> i <> fst dst -> m' !! i = m !! i) /\
      (forall p s a, area_of m ns 0 = Some (a, s) -> fst p = fst dst -> ~ inside dst s p -> cell_at m' p = cell_at m p)).
Proof.
  intros GR. destruct (d_base _ _ _ D) as (n1 & a1 & cs1 & E1 & Ea1 & Sz & R1). pose proof HA as [HA1 HA2]. destruct (HA1 n1 E1) as [cd Rd].
  assert (Z.of_nat (length cs1) = x_size n1) as L1 by (by apply rd_cells_inv in R1 as (_ & ? & _)).
  destruct (wr_cells_ok m dst cs1 cd) as [m1 W1]; [by rewrite L1|].
  assert (area_of m ns 0 = Some (a1, x_size n1)) as A0 by (unfold area_of; rewrite Nat.eqb_refl, E1; cbn [mbind option_bind]; by rewrite Ea1).
  assert (overlap dst a1 (x_size n1) = false) as Ov.
  { unfold overlap. destruct (Nat.eqb_spec (fst dst) (fst a1)) as [Eb|]; [|done]. destruct (Z.ltb_spec (snd dst) (snd a1 + x_size n1)), (Z.ltb_spec (snd a1) (snd dst + x_size n1)); try done.
    exfalso. apply (HA2 n1 (fst dst, Z.max (snd dst) (snd a1)) E1); [split; cbn; [done|lia]|]. exists 0%nat, a1, (x_size n1). split; [done|]. split; cbn; [done|lia]. }
  pose proof (inv_start m ns t D dst cs1 m1 W1 None None t1) as V0.
  assert (2 <= length ns)%nat as Ln by (apply lookup_lt_Some in E1; lia).
  destruct (dup_run m ns t D dst HA n1 a1 cs1 m1 E1 R1 W1 ok (length ns - 2) 2 _ ltac:(lia) ltac:(lia) V0) as (b & s & k & Ed & K & V & Kt & Ok).
  assert (exists n0 nr, ns = n0 :: nr) as (n0 & nr & Ens) by (destruct ns; [done|eauto]).
  assert (forall fuel, copy_recursively fuel ok t1 m ns dst =
     if b then match dfs (calc_relative_addr ns) fuel (map link_of ns) (c_res s) 1 with
      | Done _ _ res => m ← relink_all ns res (c_txt s) (c_mem s) (seq 2 (length ns - 2)); Some (true, m)
      | _ => None
      end else s ← undo_all ns s (seq 2 (length ns - 2)); Some (false, c_mem s)) as Run.
  { intros fuel. unfold copy_recursively. rewrite Ens. cbn iota. rewrite <- Ens. rewrite (rd_lu _ _ _ E1). cbn [mbind option_bind]. rewrite Ea1. cbn [mbind option_bind]. rewrite Ov, R1. cbn [mbind option_bind].
    rewrite W1. cbn [mbind option_bind]. rewrite Ed. done. }
  destruct b.
  - rewrite (Kt eq_refl) in V. assert (no_opaque ns) as NO.
    { intros i n I2 En Lv T. pose proof (own_in_tree m ns t D i n En ltac:(lia) Lv) as I.
        destruct (d_node _ _ _ D i n I En) as (a & Ea & O). destruct (ok_own _ _ _ _ _ _ O ltac:(by right) Lv) as ((p & z & A & _) & _).
        apply (i_first _ _ _ _ _ _ _ V i n); [apply lookup_lt_Some in En; lia| |done|done]. unfold owner. by rewrite A. }
    destruct (calc_all m ns t D dst HP n1 a1 m1 E1 Ea1 s V) as (fuel & res & Lr & Fr & Dfs).
    pose proof (rinv_start m ns t D dst HA HP n1 a1 cs1 m1 E1 Ea1 R1 W1 s V) as R0.
    destruct (relink_run m ns t D dst HA HP n1 a1 m1 E1 Ea1 NO s res V Lr Fr (length ns - 2) 2 _ ltac:(lia) ltac:(lia) R0) as (M' & Er & Rv).
    exists true, M', fuel. split; [|split; [done|split; [|done]]].
    + intros fuel' Hf. rewrite Run, (Dfs fuel' Hf), Er. done.
    + intros _. split; [done|]. eexists. by eapply (rinv_copied m ns t D dst HA HP n1 a1 m1 E1 Ea1).
  - destruct GR as [GR|[G1 G2]]; [|specialize (Ok G1 G2); done].
    destruct (undo_run m ns t D dst m1 GR k s V ltac:(lia) (length ns - 2) 2 s ltac:(lia) ltac:(lia)) as (s2 & Eu & U); [by eapply uinv_start|].
    destruct (uinv_end m ns t dst m1 k s s2 V U ltac:(lia)) as [U1 U2].
    exists false, (c_mem s2), 0%nat. split; [|split; [done|split; [done|]]].
    + intros fuel _. rewrite Run, Eu. done.
    + intros _. split; [done|]. split.
      * intros i Li Ni. rewrite U1 by done. by eapply m1_blocks.
      * intros p z a A Hp Np. rewrite A0 in A. injection A as <- <-. rewrite <- (m1_rest m dst n1 a1 cs1 m1 R1 W1 p Hp Np). unfold cell_at.
        rewrite U1; [done|]. rewrite Hp. by eapply dst_lt.
Qed.
End Top.

(** ** The copy *)
Section Copied.
Context (m m' : mem) (ns : list xnode) (t : tree) (D : described m ns t).
Context (dst : addr) (HA : apart m ns dst) (rel : addr -> addr) (C : copied m m' ns dst rel).

Lemma area_pos i a s : area_of m ns i = Some (a, s) -> 0 < s /\ exists cs, rd_cells m a s = Some cs.
Proof.
  intros A. destruct (decide (i = 0%nat)) as [->|Z].
  - destruct (d_base _ _ _ D) as (n & b & cs & E & Eb & Sz & R). unfold area_of in A. rewrite Nat.eqb_refl, E in A. cbn [mbind option_bind] in A. rewrite Eb in A.
    cbn [mbind option_bind] in A. injection A as <- <-. eauto.
  - by destruct (area_node m ns t D i a s Z A) as (_ & ? & ?).
Qed.
Lemma rel_area i a s k : area_of m ns i = Some (a, s) -> 0 <= k < s -> rel (padd a k) = padd (rel a) k.
Proof.
  intros A K. destruct (area_pos i a s A) as [Sz _]. destruct (decide (i = 0%nat)) as [->|Z].
  - rewrite (cp_root _ _ _ _ _ C a s k A K). rewrite <- (padd_0 a). rewrite (cp_root _ _ _ _ _ C a s 0 A ltac:(lia)). by rewrite padd_0.
  - destruct (cp_block _ _ _ _ _ C i a s Z A) as (b & cs & _ & _ & _ & H). rewrite H by done. rewrite <- (padd_0 a). rewrite H by lia. unfold padd. cbn. f_equal.
Qed.
Lemma rel_two i a s p j : area_of m ns i = Some (a, s) -> inside a s p -> inside a s (padd p j) -> rel (padd p j) = padd (rel p) j.
Proof.
  intros A I J. destruct (inside_inv _ _ _ I) as (k & K & ->). rewrite padd_padd in *. apply inside_padd in J.
  rewrite !(rel_area i a s) by done. by rewrite padd_padd.
Qed.
Lemma rel_inside i a s p : area_of m ns i = Some (a, s) -> inside a s p -> inside (rel a) s (rel p).
Proof. intros A I. destruct (inside_inv _ _ _ I) as (k & K & ->). rewrite (rel_area i a s) by done. by apply inside_padd. Qed.
Lemma inside_rel i a s q : area_of m ns i = Some (a, s) -> inside (rel a) s q -> exists p, inside a s p /\ q = rel p.
Proof. intros A I. destruct (inside_inv _ _ _ I) as (k & K & ->). exists (padd a k). rewrite (rel_area i a s) by done. split; [by apply inside_padd|done]. Qed.

(** Where the copy of an area is. *)
Lemma rel_block i a s : area_of m ns i = Some (a, s) -> (i = 0%nat /\ rel a = dst) \/ (i <> 0%nat /\ exists b, rel a = (b, 0) /\ (length m <= b)%nat).
Proof.
  intros A. destruct (area_pos i a s A) as [Sz _]. destruct (decide (i = 0%nat)) as [->|Z].
  - left. split; [done|]. rewrite <- (padd_0 a), (cp_root _ _ _ _ _ C a s 0 A ltac:(lia)). apply padd_0.
  - right. split; [done|]. destruct (cp_block _ _ _ _ _ C i a s Z A) as (b & cs & L & _ & _ & H). exists b. split; [|done]. rewrite <- (padd_0 a). rewrite H by lia. done.
Qed.
Lemma dst_old : (fst dst < length m)%nat.
Proof.
  destruct (d_base _ _ _ D) as (n & a & cs & E & Ea & Sz & R). destruct HA as [H _]. destruct (H n E) as [cd Rd]. unfold rd_cells in Rd.
  destruct (m !! fst dst) as [x|] eqn:X; [by eapply lookup_lt_Some|done].
Qed.
Lemma area_cell i a s p : area_of m ns i = Some (a, s) -> inside a s p -> exists c, cell_at m p = Some c.
Proof.
  intros A I. destruct (area_pos i a s A) as [_ [cs R]]. apply rd_cells_inv in R as (_ & L & R). destruct (inside_inv _ _ _ I) as (k & K & ->).
  destruct (lookup_lt_is_Some_2 cs (Z.to_nat k)) as [c Ec]; [lia|]. exists c. rewrite <- Ec, <- R by lia. by replace (Z.of_nat (Z.to_nat k)) with k by lia.
Qed.

Lemma ld_moved i a s p v : area_of m ns i = Some (a, s) -> inside a s p -> inside a s (padd p 7) -> ld m p = Some v -> ld m' (rel p) = Some (rel <$> v).
Proof.
  intros A I I7 E. rewrite ld_iff in E. rewrite ld_iff. intros k K.
  assert (inside a s (padd p (Z.of_nat k))) as Ik by (unfold inside, padd in *; cbn in *; split; [by destruct I|lia]).
  rewrite <- (rel_two i a s p) by done. destruct v as [q|].
  - specialize (E k K). cbn [fmap option_fmap option_map]. rewrite enc_lookup in E |- * by done.
    by rewrite (cp_cells _ _ _ _ _ C (padd p (Z.of_nat k)) (F q k) ltac:(by exists i, a, s) E).
  - specialize (E k K). destruct (area_cell i a s _ A Ik) as [c Ec]. rewrite (cp_cells _ _ _ _ _ C _ c ltac:(by exists i, a, s) Ec). cbn [fmap option_fmap option_map enc] in *. rewrite Ec in E. rewrite <- E. f_equal.
    assert (c = B 0) as ->; [|done]. assert (c ∈ replicate 8 (B 0)) as X by (eapply elem_of_list_lookup_2; symmetry; exact E). by apply elem_of_replicate in X as [-> _].
Qed.
Lemma text_moved i a s cs : area_of m ns i = Some (a, s) -> rd_text m a = Some cs -> Z.of_nat (length cs) = s -> rd_text m' (rel a) = Some cs.
Proof.
  intros A R L. apply rd_text_inv in R as (N & T & H & G). apply rd_text_eq; [done|done|]. intros k K. rewrite <- (rel_area i a s) by (try done; lia).
  destruct (lookup_lt_is_Some_2 cs k K) as [c Ec]. rewrite Ec. destruct (H c ltac:(by eapply elem_of_list_lookup_2)) as [z ->].
  rewrite (cp_cells _ _ _ _ _ C (padd a (Z.of_nat k)) (B z)); [done| |by rewrite G, Ec]. exists i, a, s. split; [done|]. apply inside_padd. lia.
Qed.

Lemma mv_lookup i n : moved rel ns !! i = Some n -> exists n0, ns !! i = Some n0 /\ n = XNode (x_type n0) (x_flags n0) (x_size n0) (x_idx n0) (x_parent n0) (x_next n0) (x_first n0) (rel <$> x_data n0).
Proof. unfold moved. rewrite list_lookup_fmap. destruct (ns !! i) as [n0|]; cbn; [|done]. intros [= <-]. eauto. Qed.
Lemma mv_at i n : ns !! i = Some n -> moved rel ns !! i = Some (XNode (x_type n) (x_flags n) (x_size n) (x_idx n) (x_parent n) (x_next n) (x_first n) (rel <$> x_data n)).
Proof. intros E. unfold moved. rewrite list_lookup_fmap. by rewrite E. Qed.

Lemma area_moved i : area_of m' (moved rel ns) i = (fun '(a, s) => (rel a, s)) <$> area_of m ns i.
Proof.
  destruct (decide (i = 0%nat)) as [->|Z].
  - unfold area_of. rewrite Nat.eqb_refl. destruct (d_base _ _ _ D) as (n & a & cs & E & Ea & _). rewrite E, (mv_at _ _ E). cbn [mbind option_bind x_data x_size]. by rewrite Ea.
  - destruct (area_of m ns i) as [[p z]|] eqn:A; cbn [fmap option_fmap option_map].
    + destruct (area_own _ _ _ _ _ Z A) as (n & d & E & Lv & P & Ed & Ev & Tp & Ts).
      pose proof (own_in_tree m ns t D i n E Z Lv) as I. destruct (d_node _ _ _ D i n I E) as (d' & Ed' & O). assert (d' = d) as -> by congruence.
      destruct (ok_area _ _ _ _ _ _ O) as (h & hb & hs & Ah & I1 & I2). pose proof (ld_moved h hb hs d (Some p) Ah I1 (I2 P) Ev) as Ev'.
      unfold area_of. destruct (Nat.eqb_spec i 0); [done|]. rewrite (mv_at _ _ E). cbn [mbind option_bind].
      change (live (XNode (x_type n) (x_flags n) (x_size n) (x_idx n) (x_parent n) (x_next n) (x_first n) (rel <$> x_data n))) with (live n). rewrite Lv. cbn [negb x_type x_data x_size].
      rewrite Ed. cbn [fmap option_fmap option_map mbind option_bind]. rewrite Ev'. cbn [fmap option_fmap option_map mbind option_bind].
      destruct P as [P|P]; rewrite P; cbn [Z.eqb T_STRING T_POINTER].
      * destruct (Ts P) as (cs & R & ->). rewrite (text_moved i p _ cs A R eq_refl). done.
      * rewrite (Tp P). done.
    + destruct (area_of m' (moved rel ns) i) as [[q z]|] eqn:A'; [|done]. exfalso.
      destruct (area_own _ _ _ _ _ Z A') as (n & d & E & Lv & P & _). apply mv_lookup in E as (n0 & E & ->).
      change (live n0 = true) in Lv. pose proof (own_in_tree m ns t D i n0 E Z Lv) as I. destruct (d_node _ _ _ D i n0 I E) as (d' & Ed' & O).
      destruct (ok_own _ _ _ _ _ _ O P Lv) as ((p & z' & A2 & _) & _). congruence.
Qed.
Lemma mv_area i a s : area_of m ns i = Some (a, s) -> area_of m' (moved rel ns) i = Some (rel a, s).
Proof. intros A. by rewrite area_moved, A. Qed.
Lemma area_mv i b s : area_of m' (moved rel ns) i = Some (b, s) -> exists a, area_of m ns i = Some (a, s) /\ b = rel a.
Proof. rewrite area_moved. destruct (area_of m ns i) as [[a z]|]; cbn; [|done]. intros [= <- <-]. eauto. Qed.
Lemma in_mv p : in_area m ns p -> in_area m' (moved rel ns) (rel p).
Proof. intros (i & a & s & A & I). exists i, (rel a), s. split; [by apply mv_area|by eapply rel_inside]. Qed.
Lemma mv_in q : in_area m' (moved rel ns) q -> exists p, in_area m ns p /\ q = rel p.
Proof. intros (i & b & s & A & I). apply area_mv in A as (a & A & ->). destruct (inside_rel _ _ _ _ A I) as (p & Ip & ->). exists p. split; [by exists i, a, s|done]. Qed.

Context (SC : self_contained m ns dst).

(** A pointer in the copy comes from a pointer in the original. *)
Lemma cell_back p q' k : in_area m ns p -> cell_at m' (rel p) = Some (F q' k) -> exists q, cell_at m p = Some (F q k) /\ q' = rel q.
Proof.
  intros I E. pose proof I as (i & a & s & A & Ip). destruct (area_cell i a s p A Ip) as [c Ec]. rewrite (cp_cells _ _ _ _ _ C p c I Ec) in E.
  destruct c as [z|q j]; [done|]. cbn in E. injection E as <- <-. eauto.
Qed.
Lemma mv_outside q : in_area m ns q \/ (fst q < length m)%nat /\ fst q <> fst dst /\ ~ dynamic m (fst q) -> in_area m' (moved rel ns) (rel q) -> in_area m ns q.
Proof.
  intros [H|(H1 & H2 & H3)] I; [done|]. apply mv_in in I as (p & (i & a & s & A & Ip) & E).
  destruct (in_area_dec m ns q) as [?|Nq]; [done|].
  exfalso. rewrite (cp_ext _ _ _ _ _ C q Nq) in E. destruct (rel_inside _ _ _ _ A Ip) as [Eb _]. rewrite <- E in Eb.
  destruct (rel_block i a s A) as [[_ Q]|[_ (b & Q & L)]]; rewrite Q in Eb; [done|cbn in Eb; lia].
Qed.

Lemma moved_links : map link_of (moved rel ns) = map link_of ns.
Proof. unfold moved. rewrite map_map. done. Qed.

Lemma copy_described : described m' (moved rel ns) t.
Proof.
  split.
  - apply D.
  - rewrite moved_links. apply D.
  - apply D.
  - destruct (d_zero _ _ _ D) as [n E]. eexists. by apply mv_at.
  - intros i n E Z. apply mv_lookup in E as (n0 & E & ->). by apply (d_idx _ _ _ D i n0).
  - destruct (d_base _ _ _ D) as (n & a & cs & E & Ea & Sz & R). 
    assert (area_of m ns 0 = Some (a, x_size n)) as A0 by (unfold area_of; rewrite Nat.eqb_refl, E; cbn [mbind option_bind]; by rewrite Ea).
    destruct (rd_cells_ok m' (rel a) (x_size n)) as [cs' R']; [done| |].
    { intros k K. rewrite <- (rel_area 0 a (x_size n)) by done. destruct (area_cell 0 a (x_size n) (padd a k) A0) as [c Ec]; [by apply inside_padd|].
      rewrite (cp_cells _ _ _ _ _ C (padd a k) c); [eauto| |done]. exists 0%nat, a, (x_size n). split; [done|by apply inside_padd]. }
    eexists _, (rel a), cs'. split; [by apply mv_at|]. cbn. rewrite Ea. done.
  - intros i n I E. apply mv_lookup in E as (n0 & E & ->). destruct (d_node _ _ _ D i n0 I E) as (a & Ea & O). exists (rel a). cbn [x_data]. rewrite Ea. split; [done|].
    destruct (ok_area _ _ _ _ _ _ O) as (h & hb & hs & Ah & I1 & I2).
    assert (forall v, is_ptr n0 -> ld m a = Some v -> ld m' (rel a) = Some (rel <$> v)) as LD by (intros v P Ev; by eapply (ld_moved h hb hs); [..|apply I2|]).
    split; cbn [x_type x_flags x_size x_idx x_parent x_next x_first x_data].
    + exists h, (rel hb), hs. split; [by apply mv_area|]. split; [by eapply rel_inside|]. intros P. rewrite <- (rel_two h hb hs) by (try done; by apply I2). eapply rel_inside; [done|]. by apply I2.
    + intros P Fr. destruct (ok_ref _ _ _ _ _ _ O P Fr) as (N & r & b & Hr & Er & Eb & Ev). split; [done|]. eexists _, (rel b). split; [done|]. split; [by apply mv_at|].
      cbn. rewrite Eb. split; [done|]. by apply (LD (Some b)).
    + intros P Fr Fc. destruct (ok_cref _ _ _ _ _ _ O P Fr Fc) as (T & N & r & b & p & Hr & Er & Lr & Tr & Eb & Evb & Ev). split; [done|]. split; [done|].
      eexists _, (rel b), (rel p). split; [done|]. split; [by apply mv_at|]. cbn [x_data x_type]. rewrite Eb. split; [done|]. split; [done|]. split; [done|]. split; [|by apply (LD (Some p))].
      destruct (d_node _ _ _ D _ r Hr Er) as (b' & Eb' & Or). assert (b' = b) as -> by congruence. destruct (ok_area _ _ _ _ _ _ Or) as (h' & hb' & hs' & Ah' & I1' & I2').
      apply (ld_moved h' hb' hs' b (Some p)); [done|done|apply I2'; by left|done].
    + intros P Lv. destruct (ok_own _ _ _ _ _ _ O P Lv) as ((p & s & A & Sz & (cs & R) & Hf) & Hs). split; [|done]. exists (rel p), s. split; [by apply mv_area|]. split; [done|]. split.
      * apply rd_cells_ok; [done|]. intros k K. rewrite <- (rel_area i p s) by done. destruct (area_cell i p s (padd p k) A) as [c Ec]; [by apply inside_padd|].
        rewrite (cp_cells _ _ _ _ _ C (padd p k) c); [eauto| |done]. exists i, p, s. split; [done|by apply inside_padd].
      * intros T Fz. destruct (Hf T Fz) as (c & Ec & Dc). eexists. split; [by apply mv_at|]. cbn. by rewrite Dc.
    + apply (ok_null _ _ _ _ _ _ O).
    + apply (ok_plain _ _ _ _ _ _ O).
  - intros i n pn a b I N1 E Ep Ea Eb. apply mv_lookup in E as (n0 & E & ->). apply mv_lookup in Ep as (p0 & Ep & ->). cbn in Ep, Ea, Eb |- *.
    destruct (x_data n0) as [a0|] eqn:Ea0; [|done]. destruct (x_data p0) as [b0|] eqn:Eb0; [|done]. injection Ea as <-. injection Eb as <-.
    pose proof (d_edge _ _ _ D i n0 p0 a0 b0 I N1 E Ep Ea0 Eb0) as X. destruct (x_type p0 =? T_POINTER).
    + destruct X as (p & s & A & X). exists (rel p), s. split; [by apply mv_area|by eapply rel_inside].
    + destruct X as (k & p & s & A & X & Y). exists k, (rel p), s. split; [by apply mv_area|]. split; by eapply rel_inside.
  - intros i j a b s u p Ai Aj Ii Ij. apply area_mv in Ai as (a0 & Ai & ->). apply area_mv in Aj as (b0 & Aj & ->).
    destruct (inside_rel _ _ _ _ Ai Ii) as (x & Ix & ->). destruct (inside_rel _ _ _ _ Aj Ij) as (y & Iy & Exy).
    assert (x = y) as -> by (apply (cp_inj _ _ _ _ _ C); [by exists i, a0, s|by exists j, b0, u|done]). by eapply (d_disjoint _ _ _ D).
  - intros p' q' k Ip Ec Iq. apply mv_in in Ip as (p & Ip & ->). destruct (cell_back p q' k Ip Ec) as (q & Eq & ->).
    pose proof (mv_outside q (SC p q k Ip Eq) Iq) as Iq'. destruct (d_cover _ _ _ D p q k Ip Eq Iq') as (i & n & a & I & E & R & Ea & K & ->).
    eexists i, _, (rel a). split; [done|]. split; [by apply mv_at|]. split; [by apply R|]. cbn [x_data]. rewrite Ea. split; [done|]. split; [done|].
    destruct (d_node _ _ _ D i n I E) as (a' & Ea' & O). assert (a' = a) as -> by congruence. destruct (ok_area _ _ _ _ _ _ O) as (h & hb & hs & Ah & I1 & I2).
    destruct R as [P _]. specialize (I2 P). apply (rel_two h hb hs); [done|done|]. unfold inside, padd in *; cbn in *; split; [by destruct I1|lia].
Qed.

Lemma copy_owned : heap_owned m' (moved rel ns).
Proof.
  intros i a s Z A. apply area_mv in A as (a0 & A & ->). destruct (cp_block _ _ _ _ _ C i a0 s Z A) as (b & cs & Lb & M & L & H).
  destruct (area_pos i a0 s A) as [Sz _]. assert (rel a0 = (b, 0)) as -> by (rewrite <- (padd_0 a0), H by lia; done). cbn [fst snd].
  split; [done|]. split; [by exists cs|]. split.
  - intros c u A0. apply area_mv in A0 as (c0 & A0 & ->). destruct (rel_block 0 c0 u A0) as [[_ ->]|[X _]]; [|done]. pose proof dst_old. lia.
  - intros o q k Ec. apply cell_at_Some in Ec as (d & l & Ml & Bd & _). cbn [fst snd] in *. rewrite M in Ml. injection Ml as <- <-. split; [done|cbn; lia].
Qed.

Lemma copy_closed : heap_closed m' (moved rel ns).
Proof.
  intros p' q' k Ip Ec Dy. apply mv_in in Ip as (p & Ip & ->). destruct (cell_back p q' k Ip Ec) as (q & Eq & ->). left.
  destruct (SC p q k Ip Eq) as [I|(H1 & H2 & H3)]; [by apply in_mv|].
  destruct (in_area_dec m ns q) as [?|Nq]; [by apply in_mv|].
  exfalso. apply H3. rewrite (cp_ext _ _ _ _ _ C q Nq) in Dy. destruct Dy as [cs Dy]. exists cs. by rewrite <- (cp_blocks _ _ _ _ _ C (fst q)).
Qed.

(** What can be reached from the copy is new, or not allocated. *)
Lemma copy_reached s a : area_of m ns 0 = Some (a, s) -> forall b, reached m' dst s b -> b = fst dst \/ (length m <= b)%nat \/ ~ dynamic m' b.
Proof.
  intros A0.
  assert (forall p q k, in_area m ns p -> cell_at m' (rel p) = Some (F q k) -> fst q = fst dst \/ (length m <= fst q)%nat \/ ~ dynamic m' (fst q)) as G.
  { intros p q' k Ip Ec. destruct (decide (fst q' = fst dst)); [by left|]. destruct (decide (length m <= fst q')%nat) as [|L]; [tauto|]. right. right. intros Dy.
    destruct (copy_closed (rel p) q' k (in_mv _ Ip) Ec Dy) as [X|(c & u & A & E)].
    - apply mv_in in X as (x & (i & b & z & A & Ix) & ->). destruct (rel_inside _ _ _ _ A Ix) as [Eb _]. destruct (rel_block i b z A) as [[_ Q]|[_ (y & Q & Ly)]]; rewrite Q in Eb; [done|cbn in Eb; lia].
    - apply area_mv in A as (c0 & A & ->). destruct (rel_block 0 c0 u A) as [[_ Q]|[X _]]; [|done]. by rewrite Q in E. }
  intros b R. induction R as [p q k I Ec|b o q k R IH Nb Dy Ec].
  - destruct (inside_inv _ _ _ I) as (x & X & ->). rewrite <- (cp_root _ _ _ _ _ C a s x A0 X) in Ec. apply (G (padd a x) q k); [|done]. exists 0%nat, a, s. split; [done|by apply inside_padd].
  - destruct IH as [?|[L|?]]; [done| |done]. destruct (cell_at_Some _ _ _ Ec) as (d & l & Ml & Bd & _). cbn [fst snd] in *.
    destruct (cp_new _ _ _ _ _ C b) as (i & c & z & Z & A & Rc); [split; [done|by eapply lookup_lt_Some]|].
    destruct (cp_block _ _ _ _ _ C i c z Z A) as (b' & cs & _ & M & Lc & H). destruct (area_pos i c z A) as [Sz _].
    assert (b' = b) as ->. { rewrite <- (padd_0 c), H in Rc by lia. congruence. }
    rewrite M in Ml. injection Ml as <- <-. apply (G (padd c o) q k); [|rewrite H by lia; done]. exists i, c, z. split; [done|]. apply inside_padd. lia.
Qed.

(** Releasing the copy gives back the new blocks and nothing else. *)
Lemma copy_freed : exists m2, free_recursively m' (moved rel ns) = Some (true, m2) /\
  (forall b, (b < length m)%nat -> m2 !! b = m' !! b) /\ (forall b, (length m <= b < length m')%nat -> m2 !! b = Some None).
Proof.
  destruct (free_owned m' (moved rel ns) t copy_described copy_owned) as (m2 & E & L & H). exists m2. split; [done|]. split.
  - intros b Lb. apply (H b). intros (i & a & s & Z & A & <-). apply area_mv in A as (a0 & A & ->). destruct (rel_block i a0 s A) as [[? _]|[_ (b & Q & Lq)]]; [done|].
    rewrite Q in Lb. cbn in Lb. lia.
  - intros b Lb. apply (H b). destruct (cp_new _ _ _ _ _ C b Lb) as (i & a & s & Z & A & R). exists i, (rel a), s. split; [done|]. split; [by apply mv_area|]. by rewrite R.
Qed.
End Copied.
