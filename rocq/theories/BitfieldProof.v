(** Proof layer: bit-fields as bit ranges of memory. *)
From Verif Require Import Base Bitfield.
Local Open Scope Z_scope.

(** *** Vocabulary of the statements *)
Definition bytes (mem : list Z) : Prop := Forall (fun b => 0 <= b < 256) mem.
(** Bit [n] of memory, counting from the least significant bit of the first byte. *)
Definition membit (mem : list Z) (n : Z) : bool :=
  match mem !! Z.to_nat (n / 8) with Some b => Z.testbit b (n mod 8) | None => false end.
(** Value of a [width]-bit two's complement number. *)
Definition sext (width x : Z) : Z := if x <? 2 ^ (width - 1) then x else x - 2 ^ width.

(** *** Bit facts *)
Lemma bits_mod x n j : 0 <= n -> 0 <= j -> Z.testbit (x mod 2 ^ n) j = (j <? n) && Z.testbit x j.
Proof.
  intros Hn Hj. destruct (Z.ltb_spec j n).
  - by rewrite Z.mod_pow2_bits_low.
  - by rewrite Z.mod_pow2_bits_high.
Qed.
Lemma bits_mul x n j : 0 <= n -> 0 <= j -> Z.testbit (x * 2 ^ n) j = (n <=? j) && Z.testbit x (j - n).
Proof.
  intros Hn Hj. rewrite <- Z.shiftl_mul_pow2 by done. rewrite Z.shiftl_spec by done.
  destruct (Z.leb_spec n j); [done|]. by rewrite Z.testbit_neg_r by lia.
Qed.
Lemma bits_div x n j : 0 <= n -> 0 <= j -> Z.testbit (x / 2 ^ n) j = Z.testbit x (j + n).
Proof. intros. rewrite <- Z.shiftr_div_pow2 by done. by rewrite Z.shiftr_spec. Qed.
Lemma bits_ones n j : 0 <= n -> 0 <= j -> Z.testbit (2 ^ n - 1) j = (j <? n).
Proof.
  intros Hn Hj. replace (2 ^ n - 1) with (Z.ones n) by (rewrite Z.ones_equiv; lia).
  destruct (Z.ltb_spec j n); [by apply Z.ones_spec_low|by apply Z.ones_spec_high].
Qed.
Lemma bits_small x n j : 0 <= n -> 0 <= x < 2 ^ n -> n <= j -> Z.testbit x j = false.
Proof. intros Hn Hx Hj. rewrite <- (Z.mod_small x (2 ^ n)) by done. apply Z.mod_pow2_bits_high. lia. Qed.
Lemma bits_byte b j : 0 <= b < 256 -> 8 <= j -> Z.testbit b j = false.
Proof. intros Hb. apply (bits_small b 8); [lia|exact Hb]. Qed.

Lemma width_mask_ok w : 1 <= w <= 128 -> width_mask w = Some (2 ^ w - 1).
Proof.
  intros Hw. unfold width_mask, shl128. replace ((0 <=? w - 1) && (w - 1 <? 128)) with true by lia.
  cbn [mbind option_bind]. f_equal. rewrite <- Z.pow_succ_r by lia. replace (Z.succ (w - 1)) with w by lia.
  rewrite Zminus_mod_idemp_l. apply Z.mod_small.
  assert (0 < 2 ^ w) by (apply Z.pow_pos_nonneg; lia). assert (2 ^ w <= 2 ^ 128) by (apply Z.pow_le_mono_r; lia). lia.
Qed.

Lemma land_mask x w : 0 <= w -> Z.land x (2 ^ w - 1) = x mod 2 ^ w.
Proof. intros. rewrite <- Z.land_ones by done. by rewrite Z.ones_equiv. Qed.

Lemma membit_at mem p j b : mem !! p = Some b -> 0 <= j < 8 -> membit mem (8 * Z.of_nat p + j) = Z.testbit b j.
Proof.
  intros H Hj. unfold membit. replace ((8 * Z.of_nat p + j) / 8) with (Z.of_nat p) by (Z.to_euclidean_division_equations; lia).
  rewrite Nat2Z.id, H. f_equal. Z.to_euclidean_division_equations; lia.
Qed.
Lemma membit_ins mem p x n : (p < length mem)%nat -> 0 <= n ->
  membit (<[p := x]> mem) n = if n / 8 =? Z.of_nat p then Z.testbit x (n mod 8) else membit mem n.
Proof.
  intros Hp Hn. unfold membit. destruct (Z.eqb_spec (n / 8) (Z.of_nat p)) as [E|E].
  - rewrite E, Nat2Z.id. by rewrite list_lookup_insert.
  - rewrite list_lookup_insert_ne; [done|]. intros ->. apply E. rewrite Z2Nat.id; [done|]. apply Z.div_pos; lia.
Qed.
Lemma bytes_ins mem p x : bytes mem -> bytes (<[p := x mod 256]> mem).
Proof.
  intros H. apply Forall_insert; [done|]. apply Z.mod_pos_bound. lia.
Qed.
Lemma bytes_lookup mem p b : bytes mem -> mem !! p = Some b -> 0 <= b < 256.
Proof. intros H Hp. by apply (Forall_lookup_1 _ _ _ _ H Hp). Qed.

(** *** Reading *)
Lemma save_loop_ok fuel : forall mem p i w v base,
  bytes mem -> 8 * Z.of_nat p = base + i -> 0 <= base -> 0 < i -> w <= 128 -> base + w <= 8 * Z.of_nat (length mem) ->
  w - i < 8 * (Z.of_nat fuel - 1) -> (0 < fuel)%nat ->
  (forall j, 0 <= j -> Z.testbit v j = (j <? Z.min i 128) && membit mem (base + j)) ->
  exists v', save_loop fuel mem p i w v = Some v' /\
    forall j, 0 <= j < w -> Z.testbit v' j = membit mem (base + j).
Proof.
  induction fuel as [|fuel IH]; intros mem p i w v base Hby Hp Hb Hi Hw Hl Hf Hf0 Hv; [lia|].
  cbn [save_loop]. destruct (Z.ltb_spec i w).
  - destruct (lookup_lt_is_Some_2 mem p) as [b Eb]; [lia|]. rewrite !(rd_lu _ _ _ Eb). cbn [mbind option_bind].
    unfold shl128. replace ((0 <=? i) && (i <? 128)) with true by lia. cbn [mbind option_bind].
    apply (IH mem (S p) (i + 8) w _ base); try done; try lia.
    intros j Hj. rewrite Z.lor_spec, Hv by done. rewrite bits_mod, bits_mul by lia.
    pose proof (bytes_lookup _ _ _ Hby Eb) as Hbb.
    destruct (Z.ltb_spec j (Z.min i 128)).
    + replace (j <? Z.min (i + 8) 128) with true by lia. replace (i <=? j) with false by lia.
      cbn. rewrite andb_false_r. apply orb_false_r.
    + cbn. destruct (Z.ltb_spec j (Z.min (i + 8) 128)).
      * replace (j <? 128) with true by lia. replace (i <=? j) with true by lia. cbn.
        replace (base + j) with (8 * Z.of_nat p + (j - i)) by lia. by rewrite (membit_at _ _ _ _ Eb) by lia.
      * destruct (Z.ltb_spec j 128); [|done]. cbn. rewrite (bits_byte b (j - i)) by lia. apply andb_false_r.
  - exists v. split; [done|]. intros j Hj. rewrite Hv by lia. replace (j <? Z.min i 128) with true by lia. done.
Qed.

Lemma save_bitfield_ok mem p shift w sg :
  bytes mem -> 0 <= shift < 8 -> 1 <= w <= 128 -> 8 * Z.of_nat p + shift + w <= 8 * Z.of_nat (length mem) ->
  exists v u, save_bitfield mem p shift w sg = Some v /\ 0 <= u < 2 ^ w /\
    (forall j, 0 <= j < w -> Z.testbit u j = membit mem (8 * Z.of_nat p + shift + j)) /\
    v = (if sg then sext w u else u) mod 2 ^ 128.
Proof.
  intros Hby Hs Hw Hl. unfold save_bitfield.
  destruct (lookup_lt_is_Some_2 mem p) as [b Eb]; [lia|]. rewrite (rd_lu _ _ _ Eb). cbn [mbind option_bind].
  pose proof (bytes_lookup _ _ _ Hby Eb) as Hbb.
  destruct (save_loop_ok 17 mem (S p) (8 - shift) w (b / 2 ^ shift) (8 * Z.of_nat p + shift)) as (v' & -> & Hv');
    try done; try lia.
  { intros j Hj. rewrite bits_div by lia. destruct (Z.ltb_spec j (Z.min (8 - shift) 128)); cbn.
    - replace (8 * Z.of_nat p + shift + j) with (8 * Z.of_nat p + (j + shift)) by lia. by rewrite (membit_at _ _ _ _ Eb) by lia.
    - apply bits_byte; lia. }
  cbn [mbind option_bind]. rewrite width_mask_ok by done. cbn [mbind option_bind].
  rewrite land_mask by lia. set (u := v' mod 2 ^ w).
  assert (Hu : 0 <= u < 2 ^ w) by (apply Z.mod_pos_bound; apply Z.pow_pos_nonneg; lia).
  assert (Hww : 2 ^ w <= 2 ^ 128) by (apply Z.pow_le_mono_r; lia).
  assert (Hub : forall j, 0 <= j < w -> Z.testbit u j = membit mem (8 * Z.of_nat p + shift + j)).
  { intros j Hj. unfold u. rewrite bits_mod by lia. replace (j <? w) with true by lia. by apply Hv'. }
  unfold shr128. replace ((0 <=? w - 1) && (w - 1 <? 128)) with true by lia. cbn [mbind option_bind].
  assert (E2 : 2 ^ w = 2 * 2 ^ (w - 1)) by (rewrite <- Z.pow_succ_r by lia; f_equal; lia).
  assert (Hs1 : Z.land (u / 2 ^ (w - 1)) 1 = if u <? 2 ^ (w - 1) then 0 else 1).
  { change 1 with (2 ^ 1 - 1) at 2. rewrite land_mask by lia. change (2 ^ 1) with 2.
    destruct (Z.ltb_spec u (2 ^ (w - 1))).
    - rewrite Z.div_small by lia. done.
    - replace (u / 2 ^ (w - 1)) with 1; [done|]. apply (Z.div_unique _ _ 1 (u - 2 ^ (w - 1))); lia. }
  rewrite Hs1. unfold sext. destruct sg; cbn [andb].
  - destruct (Z.ltb_spec u (2 ^ (w - 1))); cbn.
    + exists u, u. split; [done|]. split; [done|]. split; [done|]. replace (u <? 2 ^ (w - 1)) with true by lia.
      rewrite Z.mod_small by lia. done.
    + eexists _, u. split; [done|]. split; [done|]. split; [done|]. replace (u <? 2 ^ (w - 1)) with false by lia.
      rewrite <- (Z.mod_add _ 1) by lia. rewrite Z.mod_small by lia.
      assert (Hd : Z.land u (2 ^ 128 - 1 - (2 ^ w - 1)) = 0).
      { apply Z.bits_inj'. intros j Hj. rewrite Z.land_spec, Z.bits_0.
        destruct (Z.ltb_spec j w).
        - replace (2 ^ 128 - 1 - (2 ^ w - 1)) with ((2 ^ (128 - w) - 1) * 2 ^ w).
          + rewrite bits_mul by lia. replace (w <=? j) with false by lia. apply andb_false_r.
          + rewrite Z.mul_sub_distr_r, <- Z.pow_add_r by lia. replace (128 - w + w) with 128 by lia. lia.
        - rewrite (bits_small u w) by lia. done. }
      rewrite <- Z.lxor_lor, <- Z.add_nocarry_lxor by done. lia.
  - exists u, u. split; [done|]. split; [done|]. split; [done|]. rewrite Z.mod_small by lia. done.
Qed.

(** *** Writing *)
Lemma wr8_ok mem p x : (p < length mem)%nat -> wr8 mem p x = Some (<[p := x mod 256]> mem).
Proof. intros H. by apply wr_Some. Qed.

Lemma div8 n p j : 0 <= j < 8 -> n = 8 * p + j -> n / 8 = p /\ n mod 8 = j.
Proof. intros Hj ->. split; Z.to_euclidean_division_equations; lia. Qed.
Lemma split8 n : n = 8 * (n / 8) + n mod 8 /\ 0 <= n mod 8 < 8.
Proof. Z.to_euclidean_division_equations; lia. Qed.

Lemma load_loop_ok fuel : forall mem p i w v base (old : Z -> bool),
  bytes mem -> 8 * Z.of_nat p = base + i -> 0 <= base -> 0 < i -> w <= 128 -> 0 <= v < 2 ^ w ->
  base + w <= 8 * Z.of_nat (length mem) ->
  w - i < 8 * (Z.of_nat fuel - 1) -> (0 < fuel)%nat ->
  (forall n, 0 <= n -> membit mem n =
     if (base <=? n) && (n <? base + Z.min i w) then Z.testbit v (n - base) else old n) ->
  exists mem', load_loop fuel mem p i w v = Some mem' /\ bytes mem' /\ length mem' = length mem /\
    (forall n, 0 <= n -> membit mem' n =
       if (base <=? n) && (n <? base + w) then Z.testbit v (n - base) else old n).
Proof.
  induction fuel as [|fuel IH]; intros mem p i w v base old Hby Hp Hb Hi Hw Hv Hl Hf Hf0 Hm; [lia|].
  cbn [load_loop]. destruct (Z.ltb_spec i w) as [Hiw|Hiw].
  - destruct (lookup_lt_is_Some_2 mem p) as [b Eb]; [lia|].
    pose proof (bytes_lookup _ _ _ Hby Eb) as Hbb.
    assert (Hpl : (p < length mem)%nat) by (by eapply lookup_lt_Some).
    unfold shr128. replace ((0 <=? i) && (i <? 128)) with true by lia. cbn [mbind option_bind].
    assert (Hstep : exists y, (if 8 <=? w - i then wr8 mem p (v / 2 ^ i)
             else b ← rd mem p;
               mem ← wr8 mem p (Z.land b (Z.lnot (2 ^ (w - i) - 1)));
               b ← rd mem p;
               wr8 mem p (Z.lor b (v / 2 ^ i))) = Some (<[p := y mod 256]> mem) /\
        forall j, 0 <= j < 8 -> Z.testbit y j = if j <? w - i then Z.testbit v (j + i) else Z.testbit b j).
    { destruct (Z.leb_spec 8 (w - i)).
      - exists (v / 2 ^ i). rewrite wr8_ok by done. split; [done|]. intros j Hj. rewrite bits_div by lia.
        by replace (j <? w - i) with true by lia.
      - rewrite !(rd_lu _ _ _ Eb). cbn [mbind option_bind]. rewrite wr8_ok by done. cbn [mbind option_bind].
        rewrite (rd_lu _ _ _ (list_lookup_insert mem p _ Hpl)). cbn [mbind option_bind].
        rewrite wr8_ok by (by rewrite insert_length). rewrite list_insert_insert. eexists. split; [done|].
        intros j Hj. rewrite Z.lor_spec. change 256 with (2 ^ 8). rewrite bits_mod by lia.
        replace (j <? 8) with true by lia. cbn [andb]. rewrite Z.land_spec, Z.lnot_spec, bits_ones, bits_div by lia.
        destruct (Z.ltb_spec j (w - i)); cbn.
        + rewrite andb_false_r. done.
        + rewrite andb_true_r, (bits_small v w) by lia. apply orb_false_r. }
    destruct Hstep as (y & -> & Hy). cbn [mbind option_bind].
    destruct (IH (<[p := y mod 256]> mem) (S p) (i + 8) w v base old) as (mem' & E & B & L & M); try done; try lia.
    + by apply bytes_ins.
    + rewrite insert_length. lia.
    + intros n Hn. rewrite membit_ins by done. pose proof (split8 n) as [Hn8 Hr]. rewrite Hm by done.
      destruct (Z.eqb_spec (n / 8) (Z.of_nat p)) as [E|E].
      * change 256 with (2 ^ 8). rewrite bits_mod by lia. replace (n mod 8 <? 8) with true by lia. cbn [andb].
        rewrite Hy by lia. destruct (Z.ltb_spec (n mod 8) (w - i)).
        -- replace ((base <=? n) && (n <? base + Z.min (i + 8) w)) with true by lia. f_equal. lia.
        -- replace ((base <=? n) && (n <? base + Z.min (i + 8) w)) with false by lia.
           rewrite <- (membit_at mem p (n mod 8) b Eb) by lia.
           replace (8 * Z.of_nat p + n mod 8) with n by lia. rewrite Hm by done.
           replace ((base <=? n) && (n <? base + Z.min i w)) with false by lia. done.
      * replace ((base <=? n) && (n <? base + Z.min (i + 8) w)) with ((base <=? n) && (n <? base + Z.min i w)); [done|].
        assert (~ (8 * Z.of_nat p <= n < 8 * Z.of_nat p + 8)) by lia. lia.
    + exists mem'. rewrite insert_length in L. done.
  - exists mem. split; [done|]. split; [done|]. split; [done|]. intros n Hn. rewrite Hm by done.
    by replace (Z.min i w) with w by lia.
Qed.

Lemma load_bitfield_ok mem p shift w value :
  bytes mem -> 0 <= shift < 8 -> 1 <= w <= 128 -> 8 * Z.of_nat p + shift + w <= 8 * Z.of_nat (length mem) ->
  exists mem', load_bitfield mem p shift w value = Some mem' /\ bytes mem' /\ length mem' = length mem /\
    forall n, 0 <= n -> membit mem' n =
      (let lo := 8 * Z.of_nat p + shift in
       if (lo <=? n) && (n <? lo + w) then Z.testbit value (n - lo) else membit mem n).
Proof.
  intros Hby Hs Hw Hl. unfold load_bitfield. rewrite width_mask_ok by done. cbn [mbind option_bind].
  rewrite land_mask by lia. set (v := value mod 2 ^ w).
  assert (Hv : 0 <= v < 2 ^ w) by (apply Z.mod_pos_bound; apply Z.pow_pos_nonneg; lia).
  destruct (lookup_lt_is_Some_2 mem p) as [b Eb]; [lia|].
  pose proof (bytes_lookup _ _ _ Hby Eb) as Hbb.
  assert (Hpl : (p < length mem)%nat) by (by eapply lookup_lt_Some).
  rewrite (rd_lu _ _ _ Eb). cbn [mbind option_bind].
  set (m := if 8 <=? shift + w then 2 ^ shift - 1 else Z.lor (Z.lnot (2 ^ (shift + w) - 1)) (2 ^ shift - 1)).
  assert (Hm : forall j, 0 <= j < 8 -> Z.testbit m j = negb ((shift <=? j) && (j <? shift + w))).
  { intros j Hj. unfold m. destruct (Z.leb_spec 8 (shift + w)).
    - rewrite bits_ones by lia. lia.
    - rewrite Z.lor_spec, Z.lnot_spec, !bits_ones by lia. lia. }
  assert (Ewr : (if 8 <=? shift + w then wr8 mem p (Z.land b (2 ^ shift - 1))
         else wr8 mem p (Z.land b (Z.lor (Z.lnot (2 ^ (shift + w) - 1)) (2 ^ shift - 1)))) =
         Some (<[p := Z.land b m mod 256]> mem)).
  { unfold m. destruct (8 <=? shift + w); by rewrite wr8_ok. }
  rewrite Ewr. cbn [mbind option_bind]. rewrite (rd_lu _ _ _ (list_lookup_insert mem p _ Hpl)). cbn [mbind option_bind].
  unfold shl128. replace ((0 <=? shift) && (shift <? 128)) with true by lia. cbn [mbind option_bind].
  rewrite wr8_ok by (by rewrite insert_length). cbn [mbind option_bind]. rewrite list_insert_insert.
  set (y := Z.lor (Z.land b m mod 256) (v * 2 ^ shift mod 2 ^ 128)).
  assert (Hy : forall j, 0 <= j < 8 -> Z.testbit y j =
    if (shift <=? j) && (j <? shift + w) then Z.testbit v (j - shift) else Z.testbit b j).
  { intros j Hj. unfold y. change 256 with (2 ^ 8). rewrite Z.lor_spec, !bits_mod, Z.land_spec, bits_mul, Hm by lia.
    replace (j <? 8) with true by lia. replace (j <? 128) with true by lia. cbn [andb].
    destruct (Z.leb_spec shift j); cbn [andb negb].
    - destruct (Z.ltb_spec j (shift + w)); cbn [negb].
      + by rewrite andb_false_r.
      + rewrite andb_true_r, (bits_small v w (j - shift)) by lia. apply orb_false_r.
    - by rewrite andb_true_r, orb_false_r. }
  destruct (load_loop_ok 17 (<[p := y mod 256]> mem) (S p) (8 - shift) w v (8 * Z.of_nat p + shift) (membit mem))
    as (mem' & E & B & L & M); try done; try lia.
  { by apply bytes_ins. }
  { rewrite insert_length. lia. }
  { intros n Hn. rewrite membit_ins by done. pose proof (split8 n) as [Hn8 Hr].
    destruct (Z.eqb_spec (n / 8) (Z.of_nat p)) as [E|E].
    - change 256 with (2 ^ 8). rewrite bits_mod by lia. replace (n mod 8 <? 8) with true by lia. cbn [andb].
      rewrite Hy by lia. destruct ((shift <=? n mod 8) && (n mod 8 <? shift + w)) eqn:E2.
      + replace ((8 * Z.of_nat p + shift <=? n) && (n <? 8 * Z.of_nat p + shift + Z.min (8 - shift) w)) with true by lia.
        f_equal. lia.
      + replace ((8 * Z.of_nat p + shift <=? n) && (n <? 8 * Z.of_nat p + shift + Z.min (8 - shift) w)) with false by lia.
        rewrite <- (membit_at mem p (n mod 8) b Eb) by lia. f_equal. lia.
    - replace ((8 * Z.of_nat p + shift <=? n) && (n <? 8 * Z.of_nat p + shift + Z.min (8 - shift) w)) with false; [done|].
      assert (~ (8 * Z.of_nat p <= n < 8 * Z.of_nat p + 8)) by lia. lia. }
  rewrite insert_length in L. exists mem'. split; [done|]. split; [done|]. split; [done|].
  intros n Hn. rewrite M by done. cbv zeta. destruct (_ && _) eqn:E2; [|done].
  unfold v. rewrite bits_mod by lia. replace (n - (8 * Z.of_nat p + shift) <? w) with true by lia. done.
Qed.

(** Round trip. *)
Lemma bitfield_round_trip mem p shift w value sg :
  bytes mem -> 0 <= shift < 8 -> 1 <= w <= 128 -> 8 * Z.of_nat p + shift + w <= 8 * Z.of_nat (length mem) ->
  exists mem', load_bitfield mem p shift w value = Some mem' /\
    save_bitfield mem' p shift w sg =
      Some ((if sg then sext w (value mod 2 ^ w) else value mod 2 ^ w) mod 2 ^ 128).
Proof.
  intros Hby Hs Hw Hl. destruct (load_bitfield_ok mem p shift w value Hby Hs Hw Hl) as (mem' & E & B & L & M).
  exists mem'. split; [done|].
  destruct (save_bitfield_ok mem' p shift w sg B Hs Hw) as (v & u & Es & Hu & Hub & ->); [by rewrite L|].
  rewrite Es. f_equal. assert (u = value mod 2 ^ w) as ->; [|done].
  apply Z.bits_inj'. intros j Hj. rewrite bits_mod by lia. destruct (Z.ltb_spec j w).
  - cbn [andb]. rewrite Hub by lia. rewrite M by lia. cbv zeta.
    replace ((8 * Z.of_nat p + shift <=? 8 * Z.of_nat p + shift + j) &&
      (8 * Z.of_nat p + shift + j <? 8 * Z.of_nat p + shift + w)) with true by lia. f_equal. lia.
  - by apply (bits_small u w); lia.
Qed.

(** *** Geometry *)
Lemma bit_set_ok b i : 0 <= i -> bit_set b i = Z.testbit b i.
Proof.
  intros Hi. unfold bit_set. rewrite Z.land_comm.
  assert (E : Z.land (2 ^ i) b = if Z.testbit b i then 2 ^ i else 0).
  { apply Z.bits_inj'. intros j Hj. rewrite Z.land_spec, Z.pow2_bits_eqb by done.
    destruct (Z.eqb_spec i j) as [->|Hij]; cbn.
    - destruct (Z.testbit b j); [by rewrite Z.pow2_bits_true|by rewrite Z.bits_0].
    - destruct (Z.testbit b i); [by rewrite Z.pow2_bits_false by lia|by rewrite Z.bits_0]. }
  rewrite E. destruct (Z.testbit b i); [|done]. assert (0 < 2 ^ i) by (apply Z.pow_pos_nonneg; lia). lia.
Qed.

Lemma first_bit_ok n b i k : 0 <= i <= k -> k < i + Z.of_nat n -> Z.testbit b k = true ->
  (forall j, i <= j < k -> Z.testbit b j = false) -> first_bit n b i = k.
Proof.
  revert i. induction n as [|n IH]; intros i Hi Hn Hk Hz; [lia|]. cbn [first_bit]. rewrite bit_set_ok by lia.
  destruct (decide (i = k)) as [->|Hne]; [by rewrite Hk|]. rewrite Hz by lia. apply IH; try done; try lia; intros j Hj; apply Hz; lia.
Qed.

Lemma bit_run_ok n : forall b i w k, 0 <= i <= k -> k <= i + Z.of_nat n -> w + (k - i) < 256 -> 0 <= w ->
  (forall j, i <= j < k -> Z.testbit b j = true) ->
  (k < i + Z.of_nat n -> Z.testbit b k = false) -> bit_run n b i w = (k, w + (k - i)).
Proof.
  induction n as [|n IH]; intros b i w k Hi Hk Hw Hw0 Ht Hf; cbn [bit_run].
  - replace i with k by lia. f_equal. lia.
  - rewrite bit_set_ok by lia. destruct (decide (i = k)) as [->|Hne].
    + rewrite Hf by lia. f_equal. lia.
    + rewrite Ht by lia. rewrite Z.mod_small by lia. rewrite (IH b (i + 1) (w + 1) k); try (f_equal; lia);
        first [lia | intros j Hj; apply Ht; lia | intros Hj; apply Hf; lia].
Qed.

Lemma membit_cons_lo b mem j : 0 <= j < 8 -> membit (b :: mem) j = Z.testbit b j.
Proof. intros Hj. apply (membit_at (b :: mem) 0 j b); [done|lia]. Qed.
Lemma membit_cons_hi b mem n : 8 <= n -> membit (b :: mem) n = membit mem (n - 8).
Proof.
  intros Hn. unfold membit. replace ((n - 8) / 8) with (n / 8 - 1) by (Z.to_euclidean_division_equations; lia).
  replace ((n - 8) mod 8) with (n mod 8) by (Z.to_euclidean_division_equations; lia).
  assert (1 <= n / 8) by (Z.to_euclidean_division_equations; lia).
  replace (Z.to_nat (n / 8)) with (S (Z.to_nat (n / 8 - 1))) by lia. done.
Qed.

Lemma width_loop_ok mem : forall i k acc, 0 <= i <= k -> i < 8 -> k <= 8 * Z.of_nat (length mem) -> 0 <= acc -> acc + (k - i) < 256 ->
  (i < k \/ mem <> []) ->
  (forall n, i <= n -> membit mem n = (n <? k)) -> width_loop mem i acc = acc + (k - i).
Proof.
  induction mem as [|b mem IH]; intros i k acc Hi Hi8 Hk Ha Hw Hne Hm.
  - cbn in *. lia.
  - cbn [width_loop]. cbn [length] in Hk. destruct (Z.ltb_spec k 8).
    + rewrite (bit_run_ok _ b i acc k); try lia.
      * replace (k <? 8) with true by lia. done.
      * intros j Hj. rewrite <- (membit_cons_lo b mem) by lia. rewrite Hm by lia. lia.
      * intros Hj. rewrite <- (membit_cons_lo b mem) by lia. rewrite Hm by lia. lia.
    + rewrite (bit_run_ok _ b i acc 8); try lia.
      * cbn [Z.ltb]. replace (8 <? 8) with false by lia.
        destruct (decide (mem = [])) as [->|Hmem]; [cbn in *; lia|].
        rewrite (IH 0 (k - 8) (acc + (8 - i))); try lia; [by right|].
        intros n Hn. specialize (Hm (n + 8) ltac:(lia)). rewrite membit_cons_hi in Hm by lia.
        replace (n + 8 - 8) with n in Hm by lia. rewrite Hm. lia.
      * intros j Hj. rewrite <- (membit_cons_lo b mem) by lia. rewrite Hm by lia. lia.
Qed.

Lemma first_nonzero_ok mem : forall lo w i, bytes mem -> 0 <= lo -> 1 <= w -> lo + w <= 8 * Z.of_nat (length mem) ->
  (forall n, 0 <= n -> membit mem n = (lo <=? n) && (n <? lo + w)) ->
  first_nonzero mem i = Some (i + Z.to_nat (lo / 8))%nat.
Proof.
  induction mem as [|b mem IH]; intros lo w i Hby Hlo Hw Hl Hm; [cbn in Hl; lia|].
  cbn [first_nonzero]. apply Forall_cons in Hby as [Hb Hby]. cbn [length] in Hl.
  destruct (Z.ltb_spec lo 8).
  - replace (lo / 8) with 0 by (Z.to_euclidean_division_equations; lia).
    destruct (Z.eqb_spec b 0) as [->|_]; [|f_equal; lia]. exfalso.
    specialize (Hm lo Hlo). rewrite membit_cons_lo, Z.bits_0 in Hm by lia. lia.
  - assert (b = 0) as ->.
    { apply Z.bits_inj'. intros j Hj. rewrite Z.bits_0. destruct (Z.ltb_spec j 8); [|by apply bits_byte].
      rewrite <- (membit_cons_lo b mem) by lia. rewrite Hm by lia. lia. }
    cbn. rewrite (IH (lo - 8) w (S i)); try done; try lia.
    + f_equal. assert (1 <= lo / 8) by (Z.to_euclidean_division_equations; lia).
      replace ((lo - 8) / 8) with (lo / 8 - 1) by (Z.to_euclidean_division_equations; lia). lia.
    + intros n Hn. specialize (Hm (n + 8) ltac:(lia)). rewrite membit_cons_hi in Hm by lia.
      replace (n + 8 - 8) with n in Hm by lia. rewrite Hm. lia.
Qed.

Lemma membit_drop mem k n : 0 <= n -> membit (drop k mem) n = membit mem (8 * Z.of_nat k + n).
Proof.
  intros Hn. unfold membit. rewrite lookup_drop.
  replace ((8 * Z.of_nat k + n) / 8) with (Z.of_nat k + n / 8) by (Z.to_euclidean_division_equations; lia).
  replace ((8 * Z.of_nat k + n) mod 8) with (n mod 8) by (Z.to_euclidean_division_equations; lia).
  assert (0 <= n / 8) by (Z.to_euclidean_division_equations; lia).
  by replace (Z.to_nat (Z.of_nat k + n / 8)) with (k + Z.to_nat (n / 8))%nat by lia.
Qed.

Lemma init_bitfield_ok mem lo w :
  bytes mem -> 0 <= lo -> 1 <= w <= 255 -> lo + w <= 8 * Z.of_nat (length mem) ->
  (forall n, 0 <= n -> membit mem n = (lo <=? n) && (n <? lo + w)) ->
  init_bitfield mem = Some (Z.to_nat (lo / 8), lo mod 8, w).
Proof.
  intros Hby Hlo Hw Hl Hm. unfold init_bitfield. rewrite (first_nonzero_ok mem lo w 0 Hby Hlo ltac:(lia) Hl Hm).
  cbn [mbind option_bind Nat.add]. pose proof (split8 lo) as [Hs Hr].
  assert (0 <= lo / 8) by (Z.to_euclidean_division_equations; lia).
  destruct (lookup_lt_is_Some_2 mem (Z.to_nat (lo / 8))) as [b Eb]; [lia|].
  rewrite !(rd_lu _ _ _ Eb). cbn [mbind option_bind].
  rewrite (first_bit_ok 8 b 0 (lo mod 8)); try lia.
  - f_equal. f_equal. rewrite (width_loop_ok _ _ (lo mod 8 + w)); try lia.
    + rewrite drop_length. lia.
    + intros n Hn. rewrite membit_drop by lia. rewrite Hm by lia. lia.
  - rewrite <- (membit_at mem _ _ b Eb) by lia. rewrite Hm by lia. lia.
  - intros j Hj. rewrite <- (membit_at mem _ _ b Eb) by lia. rewrite Hm by lia. lia.
Qed.

Lemma byte_ext mem mem' q : bytes mem -> bytes mem' -> length mem' = length mem ->
  (forall j, 0 <= j < 8 -> membit mem' (8 * Z.of_nat q + j) = membit mem (8 * Z.of_nat q + j)) ->
  mem' !! q = mem !! q.
Proof.
  intros B B' L H. destruct (decide (q < length mem)%nat) as [Hq|Hq].
  - destruct (lookup_lt_is_Some_2 mem q) as [b Eb]; [lia|].
    destruct (lookup_lt_is_Some_2 mem' q) as [b' Eb']; [lia|]. rewrite Eb, Eb'. f_equal.
    pose proof (bytes_lookup _ _ _ B Eb). pose proof (bytes_lookup _ _ _ B' Eb').
    apply Z.bits_inj'. intros j Hj. destruct (Z.ltb_spec j 8); [|by rewrite !bits_byte].
    rewrite <- (membit_at _ _ _ _ Eb), <- (membit_at _ _ _ _ Eb') by lia. apply H. lia.
  - rewrite !lookup_ge_None_2 by lia. done.
Qed.
