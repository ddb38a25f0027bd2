(** Proofs about [ArrayGeom]. *)
From Verif Require Import Base ArrayGeom.
Local Open Scope Z_scope.

Definition prodZ (l : list Z) : Z := foldr Z.mul 1 l.

Lemma prodZ_cons x l : prodZ (x :: l) = x * prodZ l.
Proof. done. Qed.

Lemma prodZ_one x : prodZ [x] = x.
Proof. unfold prodZ. cbn [foldr]. lia. Qed.

Lemma prodZ_app l k : prodZ (l ++ k) = prodZ l * prodZ k.
Proof.
  induction l as [|x l IH]; cbn [app]; [by rewrite Z.mul_1_l|].
  rewrite !prodZ_cons, IH. lia.
Qed.

Lemma prodZ_pos l : Forall (fun d => 0 < d) l -> 0 < prodZ l.
Proof. induction 1; [done|]. rewrite prodZ_cons. lia. Qed.

(** * Collection of extents *)
Lemma add_dims_ok counts : forall dims,
  (length dims <= max_dims)%nat ->
  Forall (fun d => 0 < d) dims -> Forall (fun d => 0 < d) counts ->
  prodZ dims * prodZ counts < 2 ^ 32 ->
  exists r, add_dims dims counts = Some r /\ (length r <= max_dims)%nat /\
    Forall (fun d => 0 < d) r /\
    prodZ r = prodZ dims * prodZ counts /\
    length r = Nat.min max_dims (length dims + length counts).
Proof.
  induction counts as [|c counts IH]; intros dims Hl Hd Hc Hp; cbn [add_dims].
  { exists dims. change (prodZ []) with 1 in *. cbn [length] in *.
    split; [done|]. split; [done|]. split; [done|]. split; lia. }
  rewrite prodZ_cons in Hp |- *. inversion Hc as [|? ? Hc0 Hc']; subst. unfold add_dim.
  pose proof (prodZ_pos _ Hc') as Hp'. pose proof (prodZ_pos _ Hd) as Hpd.
  destruct (Nat.ltb_spec (length dims) max_dims) as [Hlt|Hge]; cbn [mbind option_bind].
  - destruct (IH (dims ++ [c])) as (r & E & L & F & P & Q).
    + rewrite app_length; cbn [length]; lia.
    + apply Forall_app; split; [done|by constructor].
    + done.
    + rewrite prodZ_app, prodZ_one. lia.
    + exists r. split; [done|]. split; [done|]. split; [done|]. split.
      * rewrite P, prodZ_app, prodZ_one. lia.
      * rewrite Q, app_length. cbn [length]. lia.
  - assert (Hmax : length dims = max_dims) by lia. unfold max_dims in *.
    destruct dims as [|x dims'] using rev_ind; [cbn in *; lia|]. clear IHdims'.
    rewrite app_length in Hmax, Hl, Hge |- *. cbn [length] in Hmax, Hl, Hge |- *.
    replace (length dims' + 1 - 1)%nat with (length dims') by lia.
    unfold rd, wr. rewrite lookup_app_r, Nat.sub_diag by lia. cbn [lookup list_lookup mbind option_bind].
    rewrite app_length; cbn [length].
    destruct (Nat.ltb_spec (length dims') (length dims' + 1)); [|lia]. cbn [mbind option_bind].
    rewrite insert_app_r_alt, Nat.sub_diag by lia. cbn [insert list_insert].
    apply Forall_app in Hd as [Hd Hx]. inversion Hx; subst.
    rewrite prodZ_app, prodZ_one in Hp, Hpd.
    pose proof (prodZ_pos _ Hd).
    assert (x * c < 2 ^ 32) by nia.
    rewrite Z.mod_small by nia.
    destruct (IH (dims' ++ [x * c])) as (r & E & L & F & P & Q).
    + rewrite app_length; cbn [length]; lia.
    + apply Forall_app; split; [done|constructor; [lia|constructor]].
    + done.
    + rewrite prodZ_app, prodZ_one. nia.
    + exists r. split; [done|]. split; [done|]. split; [done|]. split.
      * rewrite P, !prodZ_app, !prodZ_one. lia.
      * rewrite Q, app_length. cbn [length]. lia.
Qed.

(** * Walk over the elements *)
Lemma mapM_all_Some {A B} (f : A -> option B) (g : A -> B) l :
  (forall x, x ∈ l -> f x = Some (g x)) -> mapM f l = Some (g <$> l).
Proof.
  induction l as [|x l IH]; intros H; cbn; [done|].
  rewrite (H x) by constructor. cbn. rewrite IH; [done|]. intros; apply H. by constructor.
Qed.

Lemma move_cells_same dim n : move_cells dim 0 0 n = dim.
Proof. unfold move_cells. cbn. apply take_drop. Qed.

(** [n] consecutive elements. *)
Definition row (addr esz n : Z) : list (Z * Z) := (fun i => (addr + i * esz, esz)) <$> seqZ 0 n.

Lemma row_app addr esz n m :
  0 <= n -> 0 <= m -> row addr esz (n + m) = row addr esz n ++ row (addr + n * esz) esz m.
Proof.
  intros Hn Hm. unfold row. rewrite seqZ_app by lia. rewrite fmap_app. f_equal.
  apply list_eq. intros i. rewrite !list_lookup_fmap.
  destruct (decide (Z.of_nat i < m)) as [Hi|Hi].
  - rewrite !lookup_seqZ_lt by lia. cbn. f_equal. f_equal. lia.
  - rewrite !lookup_seqZ_ge by lia. done.
Qed.

Lemma concat_rows addr esz n (m : nat) :
  0 <= n ->
  concat ((fun i => row (addr + i * (n * esz)) esz n) <$> seqZ 0 (Z.of_nat m)) =
  row addr esz (Z.of_nat m * n).
Proof.
  intros Hn. induction m as [|m IH]; [done|].
  replace (Z.of_nat (S m)) with (Z.of_nat m + 1) by lia.
  rewrite seqZ_app by lia. rewrite fmap_app, concat_app, IH.
  replace ((Z.of_nat m + 1) * n) with (Z.of_nat m * n + n) by lia.
  rewrite row_app by lia. f_equal.
  rewrite (seqZ_cons (0 + Z.of_nat m) 1) by lia. change (Z.pred 1) with 0. rewrite seqZ_nil by lia.
  cbn [fmap list_fmap concat]. rewrite app_nil_r. f_equal. lia.
Qed.

(** Exact sizes: the walk is row-major. *)
Lemma save_array_exact k dim d esz p l :
  dim !! 0%nat = Some d -> 0 < d -> 0 < esz -> (p = false \/ l = None) ->
  forall addr, save_array (S k) dim p l (esz * d ^ Z.of_nat (S k)) addr =
    Some (row addr esz (d ^ Z.of_nat (S k))).
Proof.
  intros Hd Hpos He. revert p. induction k as [|k IH]; intros p Hpl addr.
  - cbn [save_array]. unfold rd. rewrite Hd. cbn [mbind option_bind].
    change (Z.of_nat 1) with 1. rewrite Z.pow_1_r.
    destruct (Z.eqb_spec d 0); [lia|].
    destruct (Z.eqb_spec (esz * d) 0); [nia|].
    rewrite Z.div_mul by lia.
    destruct Hpl as [->|Hl]; [done|]. rewrite Hl. rewrite andb_false_r. by destruct p.
  - set (m := S k) in *.
    change (save_array (S m) dim p l (esz * d ^ Z.of_nat (S m)) addr) with
      (count ← rd dim 0;
       if count =? 0 then Some []
       else if esz * d ^ Z.of_nat (S m) =? 0 then None
       else rows ← mapM (fun i => save_array m (move_cells dim 0 0 m) false l
                           (esz * d ^ Z.of_nat (S m) / count)
                           (addr + i * (esz * d ^ Z.of_nat (S m) / count))) (seqZ 0 count);
            Some (concat rows)).
    unfold rd. rewrite Hd. cbn [mbind option_bind].
    assert (Hpw : 0 < d ^ Z.of_nat m) by (apply Z.pow_pos_nonneg; lia).
    assert (E : d ^ Z.of_nat (S m) = d * d ^ Z.of_nat m).
    { rewrite Nat2Z.inj_succ, Z.pow_succ_r by lia. done. }
    destruct (Z.eqb_spec d 0); [lia|].
    destruct (Z.eqb_spec (esz * d ^ Z.of_nat (S m)) 0); [rewrite E in *; nia|].
    replace (esz * d ^ Z.of_nat (S m) / d) with (esz * d ^ Z.of_nat m).
    2:{ rewrite E. apply Z.div_unique_exact; lia. }
    rewrite move_cells_same.
    rewrite (mapM_all_Some _ (fun i => row (addr + i * (esz * d ^ Z.of_nat m)) esz (d ^ Z.of_nat m))).
    2:{ intros i _. apply IH. by left. }
    cbn [mbind option_bind]. f_equal.
    pose proof (concat_rows addr esz (d ^ Z.of_nat m) (Z.to_nat d) ltac:(lia)) as C.
    rewrite Z2Nat.id in C by lia.
    rewrite E, <- C. f_equal. apply list_fmap_ext. intros i x _. f_equal. lia.
Qed.

Lemma mapM_length_inv {A B} (f : A -> option (list B)) n l r :
  (forall x y, f x = Some y -> length y = n) -> mapM f l = Some r ->
  length (concat r) = (length l * n)%nat.
Proof.
  intros Hf. revert r. induction l as [|x l IH]; intros r H; cbn in H.
  - injection H as <-. done.
  - destruct (f x) as [y|] eqn:E; cbn in H; [|done].
    destruct (mapM f l) as [z|] eqn:E2; cbn in H; [|done]. injection H as <-.
    cbn. rewrite app_length, (Hf _ _ E), (IH _ eq_refl). lia.
Qed.

(** Whatever the sizes, the number of elements visited is a power of the first
    extent. *)
Lemma save_array_length k dim d l : forall size addr r p,
  dim !! 0%nat = Some d -> 0 < d -> (p = false \/ l = None) ->
  save_array (S k) dim p l size addr = Some r -> Z.of_nat (length r) = d ^ Z.of_nat (S k).
Proof.
  induction k as [|k IH]; intros size addr r p Hd Hpos Hpl.
  - cbn [save_array]. unfold rd. rewrite Hd. cbn [mbind option_bind].
    destruct (Z.eqb_spec d 0); [lia|]. destruct (Z.eqb_spec size 0); [done|].
    change (Z.of_nat 1) with 1. rewrite Z.pow_1_r.
    destruct Hpl as [->|Hl]; [|rewrite Hl, andb_false_r; destruct p]; intros [= <-];
      cbn [limit_count]; rewrite fmap_length, seqZ_length; lia.
  - set (m := S k) in *.
    change (save_array (S m) dim p l size addr) with
      (count ← rd dim 0;
       if count =? 0 then Some []
       else if size =? 0 then None
       else rows ← mapM (fun i => save_array m (move_cells dim 0 0 m) false l
                           (size / count)
                           (addr + i * (size / count))) (seqZ 0 count);
            Some (concat rows)).
    unfold rd. rewrite Hd. cbn [mbind option_bind].
    destruct (Z.eqb_spec d 0); [lia|]. destruct (Z.eqb_spec size 0); [done|].
    rewrite move_cells_same.
    destruct (mapM _ _) as [rows|] eqn:E; cbn [mbind option_bind]; [|done]. intros [= <-].
    apply (mapM_length_inv _ (Z.to_nat (d ^ Z.of_nat m))) in E.
    + rewrite E, seqZ_length. rewrite (Nat2Z.inj_succ m), Z.pow_succ_r by lia.
      assert (0 < d ^ Z.of_nat m) by (apply Z.pow_pos_nonneg; lia). nia.
    + intros x y Hy. apply IH in Hy; [|done|done|by left]. lia.
Qed.

Lemma row_length addr esz n : 0 <= n -> Z.of_nat (length (row addr esz n)) = n.
Proof. intros. unfold row. rewrite fmap_length, seqZ_length. lia. Qed.
