(** C33: the walk of [mr_save_array] (src/mr_save.c:1172-1230) over the elements
    of an array, and the collection of extents (src/metaresc.c:1259-1290). *)
From Verif Require Import Base ArrayGeom ArrayGeomProof.
Local Open Scope Z_scope.

(** C33: let an array have one to four positive extents [d1 :: ds] and elements
    of [esz] bytes.  Saving it gives its elements, each once, in increasing
    address order, exactly when the number of elements is the first extent to
    the power of the number of extents.  This covers every one-dimensional array
    and every array with equal extents; for all others what is saved is wrong,
    since line 1219 moves the extents from [dim[0]] instead of [dim[1]] and the
    first extent is used at every level. *)
Theorem C33_row_major_iff : forall d1 ds esz addr,
  Forall (fun d => 0 < d) (d1 :: ds) -> (length (d1 :: ds) <= 4)%nat -> 0 < esz ->
  let n := foldr Z.mul 1 (d1 :: ds) in
  save_field (d1 :: ds) None (n * esz) addr =
    Some ((fun i => (addr + i * esz, esz)) <$> seqZ 0 n)
  <-> n = d1 ^ Z.of_nat (length (d1 :: ds)).
Proof.
  intros d1 ds esz addr Hpos Hlen He n. unfold save_field.
  cbn [length]. set (k := length ds).
  inversion Hpos as [|? ? Hd1 _]; subst.
  assert (Hd : cells (d1 :: ds) !! 0%nat = Some d1) by done.
  pose proof (prodZ_pos _ Hpos) as Hn. fold (prodZ (d1 :: ds)) in n. fold n in Hn.
  split.
  - intros H. pose proof (save_array_length k _ d1 None _ _ _ true Hd Hd1 (or_intror eq_refl) H) as L.
    rewrite <- L. rewrite fmap_length, seqZ_length. lia.
  - intros E. pose proof (save_array_exact k _ d1 esz true None Hd Hd1 He (or_intror eq_refl) addr) as X.
    fold k in E. rewrite <- E in X. rewrite Z.mul_comm. exact X.
Qed.
Print Assumptions C33_row_major_iff.

(** Both sides occur: [short a[4][2][8]] has 64 = 4^3 elements and is saved
    correctly, [int a[2][3]] has 6 <> 4 and is not. *)
Example C33_iff_case :
  Forall (fun d => 0 < d) [4; 2; 8] /\ (length [4; 2; 8] <= 4)%nat /\ 0 < 2 /\
  foldr Z.mul 1 [4; 2; 8] = 4 ^ Z.of_nat (length [4; 2; 8]) /\
  Forall (fun d => 0 < d) [2; 3] /\
  foldr Z.mul 1 [2; 3] <> 2 ^ Z.of_nat (length [2; 3]).
Proof.
  split; [repeat constructor|]. split; [cbn; lia|]. split; [lia|]. split; [done|].
  split; [repeat constructor|]. done.
Qed.

(** C33: arrays whose extents are all equal are saved in row-major order. *)
Theorem C33_equal_extents : forall d k esz addr,
  0 < d -> (k < 4)%nat -> 0 < esz ->
  save_field (replicate (S k) d) None (d ^ Z.of_nat (S k) * esz) addr =
    Some ((fun i => (addr + i * esz, esz)) <$> seqZ 0 (d ^ Z.of_nat (S k))).
Proof.
  intros d k esz addr Hd Hk He.
  assert (P : forall m, foldr Z.mul 1 (replicate m d) = d ^ Z.of_nat m).
  { induction m as [|m IH]; [done|]. rewrite Nat2Z.inj_succ, Z.pow_succ_r by lia. rewrite <- IH. done. }
  rewrite <- !P. cbn [replicate]. apply C33_row_major_iff.
  - change (d :: replicate k d) with (replicate (S k) d). apply Forall_replicate. done.
  - cbn [length]. rewrite replicate_length. lia.
  - done.
  - change (d :: replicate k d) with (replicate (S k) d). rewrite P, replicate_length. done.
Qed.
Print Assumptions C33_equal_extents.

(** [int a[3][3]] at address 1000. *)
Example C33_equal_case :
  save_field (replicate 2 3) None (3 ^ Z.of_nat 2 * 4) 1000 =
  Some [(1000, 4); (1004, 4); (1008, 4); (1012, 4); (1016, 4);
        (1020, 4); (1024, 4); (1028, 4); (1032, 4)].
Proof. done. Qed.

(** C33 is refuted for [int a[2][3]]: four pieces of six bytes are saved as the
    elements instead of six integers. *)
Theorem C33_row_major_refuted : exists d1 ds esz addr,
  Forall (fun d => 0 < d) (d1 :: ds) /\ (length (d1 :: ds) <= 4)%nat /\ 0 < esz /\
  let n := foldr Z.mul 1 (d1 :: ds) in
  save_field (d1 :: ds) None (n * esz) addr <>
    Some ((fun i => (addr + i * esz, esz)) <$> seqZ 0 n) /\
  save_field (d1 :: ds) None (n * esz) addr = Some [(addr, 6); (addr + 6, 6); (addr + 12, 6); (addr + 18, 6)].
Proof.
  exists 2, [3], 4, 0. split; [repeat constructor|]. split; [cbn; lia|]. split; [lia|]. done.
Qed.
Print Assumptions C33_row_major_refuted.

(** C33: a one-dimensional array with a size field.  Its first elements are
    saved, as many as fit in the given number of bytes, never more than the
    declared extent; none if the size is not positive. *)
Theorem C33_limited_array : forall d limit esz addr,
  0 < d < 2 ^ 32 -> 0 < esz -> limit / esz < 2 ^ 32 ->
  exists n, 0 <= n <= d /\
    save_field [d] (Some limit) (d * esz) addr =
      Some ((fun i => (addr + i * esz, esz)) <$> seqZ 0 n) /\
    n * esz <= Z.max 0 limit /\ (n < d -> Z.max 0 limit < (n + 1) * esz).
Proof.
  intros d limit esz addr Hd He Hl. unfold save_field. cbn [length cells save_array].
  unfold cells, rd. cbn [app lookup list_lookup mbind option_bind].
  destruct (Z.eqb_spec d 0); [lia|]. destruct (Z.eqb_spec (d * esz) 0); [nia|].
  rewrite Z.mul_comm, Z.div_mul by lia. destruct (Z.eqb_spec esz 0); [lia|].
  rewrite andb_false_r, andb_false_r. cbn [andb limit_count].
  destruct (Z.leb_spec limit 0).
  { exists 0. split; [lia|]. split; [done|]. nia. }
  pose proof (Z.div_pos limit esz ltac:(lia) ltac:(lia)).
  rewrite Z.mod_small by lia.
  pose proof (Z.mul_div_le limit esz ltac:(lia)).
  pose proof (Z.mul_succ_div_gt limit esz ltac:(lia)).
  destruct (Z.gtb_spec d (limit / esz)).
  - exists (limit / esz). split; [lia|]. split; [done|]. nia.
  - exists d. split; [lia|]. split; [done|]. nia.
Qed.
Print Assumptions C33_limited_array.

(** Ten integers with a size field of 14 bytes: three are saved. *)
Example C33_limited_case :
  0 < 10 < 2 ^ 32 /\ 0 < 4 /\ 14 / 4 < 2 ^ 32 /\
  save_field [10] (Some 14) (10 * 4) 100 = Some [(100, 4); (104, 4); (108, 4)].
Proof. split; [lia|]. split; [lia|]. split; [done|]. done. Qed.

(** C33: the extents collected from a declaration.  However many brackets there
    are, at most four cells are used, the number of elements is preserved, and
    up to four extents are kept as they are. *)
Theorem C33_collect_dims : forall counts,
  Forall (fun d => 0 < d) counts -> foldr Z.mul 1 counts < 2 ^ 32 ->
  exists dims, collect_dims counts = Some dims /\
    length dims = Nat.min 4 (length counts) /\
    foldr Z.mul 1 dims = foldr Z.mul 1 counts /\
    take 3 dims = take 3 counts.
Proof.
  intros counts Hc Hp.
  destruct (add_dims_ok counts []) as (r & E & _ & _ & P & L).
  - cbn; lia.
  - constructor.
  - done.
  - change (prodZ []) with 1. unfold prodZ. lia.
  - exists r. split; [done|]. split; [done|]. split.
    { change (prodZ []) with 1 in P. unfold prodZ in P. lia. }
    clear P. revert E L. unfold collect_dims.
    destruct counts as [|a [|b [|c counts]]]; cbn [add_dims add_dim length app]; try (intros [= <-]; done).
    unfold add_dim; cbn [length app Nat.ltb Nat.leb max_dims mbind option_bind add_dims].
    intros E _.
    assert (H : forall counts x y, take 3 x = [a; b; c] -> (3 <= length x)%nat ->
              add_dims x counts = Some y -> take 3 y = [a; b; c]).
    { clear. induction counts as [|z counts IH]; intros x y Hx Hl H; cbn [add_dims] in H.
      { by injection H as <-. }
      unfold add_dim in H. destruct (Nat.ltb_spec (length x) max_dims); cbn [mbind option_bind] in H.
      - eapply IH; [| |exact H].
        + rewrite take_app_le by done. done.
        + rewrite app_length. lia.
      - destruct (rd x _) as [v|]; cbn [mbind option_bind] in H; [|done].
        destruct (wr x _ _) as [w|] eqn:W; cbn [mbind option_bind] in H; [|done].
        apply wr_inv in W as [W ->]. unfold max_dims in *. eapply IH; [| |exact H].
        + rewrite take_insert by lia. done.
        + rewrite insert_length. lia. }
    eapply H; [| |exact E]; [done|cbn; lia].
Qed.
Print Assumptions C33_collect_dims.

(** [int a[2][3][4][5][6]]: the last two extents share a cell. *)
Example C33_collect_case :
  Forall (fun d => 0 < d) [2; 3; 4; 5; 6] /\ foldr Z.mul 1 [2; 3; 4; 5; 6] < 2 ^ 32 /\
  collect_dims [2; 3; 4; 5; 6] = Some [2; 3; 4; 30].
Proof. split; [repeat constructor|]. split; [done|]. done. Qed.
