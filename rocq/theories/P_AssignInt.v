(** C97: assignment between integers of any types. *)
From Verif Require Import Base Bitfield BitfieldProof P_Bitfield CmpHash CmpHashProof AssignInt.
Local Open Scope Z_scope.

(** *** Vocabulary *)

Inductive rep := RBool | RUnsigned | RSigned.
Definition in_range (r : rep) (w z : Z) : Prop :=
  match r with
  | RBool => 0 <= z <= 1
  | RUnsigned => 0 <= z < 2 ^ w
  | RSigned => - 2 ^ (w - 1) <= z < 2 ^ (w - 1)
  end.
(** The [w] bits of the memory from bit [first] are those of the number. *)
Definition holds (mem : list Z) (first w : Z) (r : rep) (z : Z) : Prop :=
  in_range r w z /\ forall j, 0 <= j < w -> membit mem (first + j) = Z.testbit z j.

(** The integer types of at least 8 bits that an enumeration may have (INT8 to
    UINT128, 6 to 15), and all integer types (CHAR is 3, BOOL is 5). *)
Definition sized : list (Z * Z * rep) :=
  [(6, 8, RSigned); (7, 8, RUnsigned); (8, 16, RSigned); (9, 16, RUnsigned); (10, 32, RSigned); (11, 32, RUnsigned);
   (12, 64, RSigned); (13, 64, RUnsigned); (14, 128, RSigned); (15, 128, RUnsigned)].
Definition basic : list (Z * Z * rep) := (3, 8, RSigned) :: (5, 8, RBool) :: sized.

(** The address of the value and its type: the operand itself, an operand of type
    void (4) with another type behind it, or a pointer (28) that is not null. *)
Inductive target (mem : list Z) (o : operand) : nat -> Z -> Prop :=
  | TDirect : o_type o <> 4 -> o_type o <> 28 -> o_ptr o <> O -> target mem o (o_ptr o) (o_type o)
  | TVoid : o_type o = 4 -> o_ptr o <> O -> target mem o (o_ptr o) (o_aux o)
  | TPointer a : o_type o = 28 -> a <> O -> 8 * Z.of_nat (o_ptr o) + 64 <= 8 * Z.of_nat (length mem) ->
      holds mem (8 * Z.of_nat (o_ptr o)) 64 RUnsigned (Z.of_nat a) -> target mem o a (o_aux o).

(** Sign of a bit-field: that of its type, or of the type of its enumeration (23). *)
Definition signed_type (t : Z) : Prop := exists w, In (t, w, RSigned) sized.
Definition bits_type (o : operand) (t : Z) : Prop :=
  (o_aux o <> 23 /\ t = o_aux o) \/ (o_aux o = 23 /\ o_enum o = Some t).

(** The bits of the memory in which an operand is stored: first bit, number of
    bits, representation. *)
Inductive place (mem : list Z) (o : operand) : Z -> Z -> rep -> Prop :=
  | PBasic a t w r : target mem o a t -> In (t, w, r) basic -> place mem o (8 * Z.of_nat a) w r
  | PEnum a t e w r : target mem o a t -> t = 4 \/ t = 23 -> o_enum o = Some e -> In (e, w, r) sized ->
      place mem o (8 * Z.of_nat a) w r
  | PBits t r : o_type o = 26 -> o_ptr o <> O -> bits_type o t -> 0 <= o_shift o < 8 -> 1 <= o_width o <= 128 ->
      r = RSigned /\ signed_type t \/ r = RUnsigned /\ ~ signed_type t ->
      place mem o (8 * Z.of_nat (o_ptr o) + o_shift o) (o_width o) r.

(** *** Proof *)

Lemma le_num_bit bs : Forall (fun b => 0 <= b < 256) bs -> forall j, 0 <= j ->
  Z.testbit (le_num bs) j = membit bs j.
Proof.
  induction 1 as [|b bs Hb H IH]; intros j Hj.
  - unfold membit. cbn [le_num]. by rewrite Z.testbit_0_l.
  - cbn [le_num]. unfold membit. destruct (Z.ltb_spec j 8) as [L|L].
    + rewrite (Z.div_small j 8), (Z.mod_small j 8) by lia. cbn.
      rewrite <- (Z.mod_pow2_bits_low _ 8 j) by lia. rewrite (Z.mul_comm 256). change (2 ^ 8) with 256. rewrite Z.mod_add by lia.
      by rewrite Z.mod_small by lia.
    + replace j with ((j - 8) + 8) at 1 by lia. rewrite <- bits_div by lia. change (2 ^ 8) with 256.
      replace ((b + 256 * le_num bs) / 256) with (le_num bs) by (apply Z.div_unique with b; lia).
      rewrite IH by lia. unfold membit.
      assert (E1 : j / 8 = (j - 8) / 8 + 1) by (replace j with (j - 8 + 1 * 8) at 1 by lia; rewrite Z.div_add by lia; lia).
      assert (E2 : j mod 8 = (j - 8) mod 8) by (replace j with (j - 8 + 1 * 8) at 1 by lia; rewrite Z.mod_add by lia; lia).
      rewrite E1, E2. assert (0 <= (j - 8) / 8) by (apply Z.div_pos; lia).
      replace (Z.to_nat ((j - 8) / 8 + 1)) with (S (Z.to_nat ((j - 8) / 8))) by lia. reflexivity.
Qed.

Lemma slice_bit mem p n j : 0 <= j < 8 * Z.of_nat n -> (p + n <= length mem)%nat ->
  membit (take n (drop p mem)) j = membit mem (8 * Z.of_nat p + j).
Proof.
  intros J L. unfold membit.
  assert (E1 : (8 * Z.of_nat p + j) / 8 = Z.of_nat p + j / 8) by (rewrite Z.mul_comm, Z.add_comm, Z.div_add by lia; lia).
  assert (E2 : (8 * Z.of_nat p + j) mod 8 = j mod 8) by (rewrite Z.mul_comm, Z.add_comm, Z.mod_add by lia; lia).
  rewrite E1, E2. assert (0 <= j / 8 < Z.of_nat n) by (split; [apply Z.div_pos; lia|apply Z.div_lt_upper_bound; lia]).
  rewrite lookup_take by lia. rewrite lookup_drop.
  by replace (p + Z.to_nat (j / 8))%nat with (Z.to_nat (Z.of_nat p + j / 8)) by lia.
Qed.

Lemma same_bits w x y : 0 <= w -> 0 <= x < 2 ^ w -> 0 <= y < 2 ^ w ->
  (forall j, 0 <= j < w -> Z.testbit x j = Z.testbit y j) -> x = y.
Proof.
  intros W X Y H. apply Z.bits_inj'. intros j J. destruct (Z.lt_ge_cases j w); [by apply H; lia|].
  by rewrite (bits_small x w), (bits_small y w).
Qed.

Lemma read_num mem p n z : bytes mem -> (p + n <= length mem)%nat ->
  (forall j, 0 <= j < 8 * Z.of_nat n -> membit mem (8 * Z.of_nat p + j) = Z.testbit z j) ->
  exists bs, bytes_at mem p n = Some bs /\ length bs = n /\ le_num bs = z mod 2 ^ (8 * Z.of_nat n).
Proof.
  intros B L H. exists (take n (drop p mem)). unfold bytes_at. replace (p + n <=? length mem)%nat with true by (symmetry; apply Nat.leb_le; lia).
  assert (Len : length (take n (drop p mem)) = n) by (rewrite take_length, drop_length; lia).
  assert (F : Forall (fun b => 0 <= b < 256) (take n (drop p mem))) by (apply Forall_take, Forall_drop, B).
  split; [done|]. split; [done|].
  apply (same_bits (8 * Z.of_nat n)); [lia| |apply Z.mod_pos_bound, Z.pow_pos_nonneg; lia|].
  - pose proof (le_num_range _ F) as R. by rewrite Len in R.
  - intros j J. rewrite le_num_bit by (try done; lia). rewrite slice_bit by (lia || done). rewrite Z.mod_pow2_bits_low by lia. by apply H.
Qed.

Definition rep_signed (r : rep) : bool := match r with RSigned => true | _ => false end.

Lemma read_int mem p n r z : bytes mem -> (0 < n)%nat -> (p + n <= length mem)%nat -> r <> RBool ->
  holds mem (8 * Z.of_nat p) (8 * Z.of_nat n) r z -> get_int mem p n (rep_signed r) = Some (z mod 2 ^ 128).
Proof.
  intros B N L Rb [R H]. destruct (read_num mem p n z B L H) as (bs & E & Len & V).
  unfold get_int. rewrite E. cbn [mbind option_bind]. do 2 f_equal. unfold le_int. rewrite V, Len.
  set (w := 8 * Z.of_nat n) in *. assert (Hw : 0 < w) by lia.
  assert (E2 : 2 ^ w = 2 * 2 ^ (w - 1)) by (rewrite <- Z.pow_succ_r by lia; f_equal; lia).
  destruct r; [done| |]; cbn [rep_signed andb in_range] in *.
  - by apply Z.mod_small.
  - destruct (Z.ltb_spec z 0).
    + assert (z mod 2 ^ w = z + 2 ^ w) as -> by (symmetry; apply Z.mod_unique with (-1); lia).
      destruct (Z.leb_spec (2 ^ (w - 1)) (z + 2 ^ w)); lia.
    + rewrite Z.mod_small by lia. destruct (Z.leb_spec (2 ^ (w - 1)) z); lia.
Qed.

Lemma put_bytes_ok bs : forall mem p, bytes mem -> Forall (fun b => 0 <= b < 256) bs -> (p + length bs <= length mem)%nat ->
  exists mem', put_bytes mem p bs = Some mem' /\ bytes mem' /\ length mem' = length mem /\
    (forall k, (k < p \/ p + length bs <= k)%nat -> mem' !! k = mem !! k) /\
    (forall k, (k < length bs)%nat -> mem' !! (p + k)%nat = bs !! k).
Proof.
  induction bs as [|b bs IH]; intros mem p B F L; cbn [put_bytes].
  - exists mem. repeat split; try done. intros k K. cbn in K. lia.
  - apply Forall_cons in F as [Hb F]. cbn [length] in L. unfold wr.
    destruct (decide (p < length mem)%nat) as [P|P]; [|lia].
    match goal with |- context [mbind _ ?w] => assert (W : w = Some (<[p:=b]> mem)) end.
    { destruct (Nat.ltb_spec p (length mem)); [done|lia]. }
    rewrite W. cbn [mbind option_bind].
    destruct (IH (<[p:=b]> mem) (S p)) as (m & E & Bm & Lm & O & I).
    + by apply Forall_insert.
    + done.
    + rewrite insert_length. lia.
    + exists m. split; [done|]. split; [done|]. rewrite insert_length in Lm. split; [done|]. split.
      * intros k K. cbn [length] in K. rewrite O by lia. rewrite list_lookup_insert_ne by lia. done.
      * intros [|k] K.
        -- rewrite Nat.add_0_r, O by lia. rewrite list_lookup_insert by lia. done.
        -- replace (p + S k)%nat with (S p + k)%nat by lia. rewrite I by (cbn in K; lia). done.
Qed.

Lemma num_le_lookup n : forall z k, (k < n)%nat -> num_le n z !! k = Some (z / 2 ^ (8 * Z.of_nat k) mod 256).
Proof.
  induction n as [|n IH]; intros z k K; [lia|]. cbn [num_le]. destruct k as [|k].
  - cbn. by rewrite Z.div_1_r.
  - change ((z mod 256 :: num_le n (z / 256)) !! S k) with (num_le n (z / 256) !! k). rewrite IH by lia.
    rewrite Z.div_div by (try lia; apply Z.pow_pos_nonneg; lia). do 3 f_equal.
    replace (8 * Z.of_nat (S k)) with (8 + 8 * Z.of_nat k) by lia. by rewrite Z.pow_add_r by lia.
Qed.

Lemma byte_index n : 0 <= n -> n = 8 * Z.of_nat (Z.to_nat (n / 8)) + n mod 8 /\ 0 <= n mod 8 < 8.
Proof. intros N. pose proof (Z.div_mod n 8 ltac:(lia)). pose proof (Z.mod_pos_bound n 8 ltac:(lia)). pose proof (Z.div_pos n 8 N ltac:(lia)). lia. Qed.

(** A number stored in [n] bytes. *)
Lemma write_num mem p n v : bytes mem -> (p + n <= length mem)%nat ->
  exists mem', put_bytes mem p (num_le n v) = Some mem' /\ bytes mem' /\ length mem' = length mem /\
    (forall j, 0 <= j < 8 * Z.of_nat n -> membit mem' (8 * Z.of_nat p + j) = Z.testbit v j) /\
    (forall k, 0 <= k -> k < 8 * Z.of_nat p \/ 8 * Z.of_nat p + 8 * Z.of_nat n <= k -> membit mem' k = membit mem k).
Proof.
  intros B L. destruct (put_bytes_ok (num_le n v) mem p B (num_le_bytes n v)) as (m & E & Bm & Lm & O & I).
  { by rewrite num_le_length. }
  rewrite num_le_length in *. exists m. split; [done|]. split; [done|]. split; [done|]. split.
  - intros j J. destruct (byte_index j ltac:(lia)) as [E1 E2]. set (k := Z.to_nat (j / 8)) in *.
    unfold membit.
    assert ((8 * Z.of_nat p + j) / 8 = Z.of_nat (p + k)) as -> by (symmetry; apply Z.div_unique with (j mod 8); lia).
    assert ((8 * Z.of_nat p + j) mod 8 = j mod 8) as -> by (rewrite Z.mul_comm, Z.add_comm, Z.mod_add by lia; lia).
    rewrite Nat2Z.id, I, num_le_lookup by lia. change 256 with (2 ^ 8). rewrite Z.mod_pow2_bits_low by lia.
    rewrite bits_div by lia. f_equal. lia.
  - intros k K Out. destruct (byte_index k K) as [E1 E2]. unfold membit. rewrite O; [done|]. lia.
Qed.

Lemma target_data mem o a t : bytes mem -> target mem o a t -> data_of mem o = Some a /\ a <> O /\ type_of o = t.
Proof.
  intros B [N4 N28 P|T P|x T X L H]; unfold data_of, type_of.
  - replace (o_type o =? 28) with false by lia. replace (o_type o =? 4) with false by lia. done.
  - rewrite T. done.
  - rewrite T. cbn [Z.eqb orb Pos.eqb]. destruct H as [R H]. cbn [in_range] in R.
    destruct (read_num mem (o_ptr o) 8 (Z.of_nat x) B ltac:(lia) H) as (bs & -> & _ & V). cbn [mbind option_bind].
    rewrite V, Z.mod_small by exact R. by rewrite Nat2Z.id.
Qed.

Lemma basic_kind t w r : In (t, w, r) basic -> t <> 4 /\ t <> 23 /\
  (r = RBool /\ w = 8 /\ kind_of t = KBool \/
   r <> RBool /\ exists n, (0 < n <= 16)%nat /\ w = 8 * Z.of_nat n /\ kind_of t = KInt n (rep_signed r)).
Proof.
  intros I. cbn in I. repeat (destruct I as [I|I]; [injection I as <- <- <-; split; [done|]; split; [done|]|]); [..|done];
    first [left; done | right; split; [done|]; eexists; split; [|split; [|reflexivity]]; [lia|reflexivity]].
Qed.
Lemma sized_kind e w r : In (e, w, r) sized -> r <> RBool /\
  exists n, (0 < n <= 16)%nat /\ w = 8 * Z.of_nat n /\ enum_kind e = Some (n, rep_signed r).
Proof.
  intros I. cbn in I. repeat (destruct I as [I|I]; [injection I as <- <- <-; split; [done|]|]); [..|done];
    eexists; split; [|split; [|reflexivity]| |split; [|reflexivity]| |split; [|reflexivity]| |split; [|reflexivity]| |split; [|reflexivity]| |split; [|reflexivity]| |split; [|reflexivity]| |split; [|reflexivity]| |split; [|reflexivity]| |split; [|reflexivity]]; try lia; reflexivity.
Qed.
Lemma bits_signed_spec o t r : bits_type o t -> r = RSigned /\ signed_type t \/ r = RUnsigned /\ ~ signed_type t ->
  bits_signed o = rep_signed r /\ r <> RBool.
Proof.
  intros T R.
  assert (E : bits_signed o = (t =? 6) || (t =? 8) || (t =? 10) || (t =? 12) || (t =? 14)).
  { unfold bits_signed. destruct T as [[N ->]|[-> ->]]; [|done]. by replace (o_aux o =? 23) with false by lia. }
  assert (S : signed_type t <-> (t =? 6) || (t =? 8) || (t =? 10) || (t =? 12) || (t =? 14) = true).
  { split.
    - intros [w I]. cbn in I. repeat (destruct I as [I|I]; [try discriminate I; injection I as <- <-; reflexivity|]). done.
    - intros B. assert (t = 6 \/ t = 8 \/ t = 10 \/ t = 12 \/ t = 14) as D by lia. unfold signed_type, sized.
      destruct D as [-> |[-> |[-> |[-> | ->]]]]; eexists; cbn; eauto 20. }
  rewrite E. destruct R as [[-> R]|[-> R]]; split; try done; cbn [rep_signed].
  - by apply S.
  - destruct (_ || _) eqn:X; [|done]. destruct R. by apply S.
Qed.

Lemma in_range_sext w u : 1 <= w -> 0 <= u < 2 ^ w -> in_range RSigned w (sext w u) /\
  (forall j, 0 <= j < w -> Z.testbit (sext w u) j = Z.testbit u j) /\ sext w u mod 2 ^ w = u.
Proof.
  intros W U. assert (E2 : 2 ^ w = 2 * 2 ^ (w - 1)) by (rewrite <- Z.pow_succ_r by lia; f_equal; lia).
  assert (M : sext w u mod 2 ^ w = u).
  { unfold sext. destruct (Z.ltb_spec u (2 ^ (w - 1))); [by apply Z.mod_small|].
    symmetry. apply Z.mod_unique with (-1); lia. }
  split; [|split; [|exact M]].
  - cbn [in_range]. unfold sext. destruct (Z.ltb_spec u (2 ^ (w - 1))); lia.
  - intros j J. rewrite <- M at 2. by rewrite Z.mod_pow2_bits_low by lia.
Qed.
Lemma range_sext w z : 1 <= w -> in_range RSigned w z -> sext w (z mod 2 ^ w) = z.
Proof.
  intros W R. cbn [in_range] in R. assert (E2 : 2 ^ w = 2 * 2 ^ (w - 1)) by (rewrite <- Z.pow_succ_r by lia; f_equal; lia).
  unfold sext. destruct (Z.ltb_spec z 0).
  - assert (z mod 2 ^ w = z + 2 ^ w) as -> by (symmetry; apply Z.mod_unique with (-1); lia).
    destruct (Z.ltb_spec (z + 2 ^ w) (2 ^ (w - 1))); lia.
  - rewrite Z.mod_small by lia. destruct (Z.ltb_spec z (2 ^ (w - 1))); lia.
Qed.

Lemma get_ok mem o first w r z : bytes mem -> place mem o first w r -> first + w <= 8 * Z.of_nat (length mem) ->
  holds mem first w r z ->
  exists p, data_of mem o = Some p /\ p <> O /\ get_value mem o p = Some (z mod 2 ^ 128).
Proof.
  intros B P L H. destruct P as [a t w r T I|a t e w r T D En I|t r Ty Pt BT Sh Wd R].
  - destruct (target_data _ _ _ _ B T) as (E & N & Et). exists a. split; [done|]. split; [done|]. unfold get_value. rewrite Et.
    destruct (basic_kind _ _ _ I) as (N4 & N23 & C).
    replace (t =? 4) with false by lia. replace (t =? 23) with false by lia. cbn [orb].
    destruct C as [(-> & -> & ->)|(NB & n & Hn & -> & ->)].
    + destruct H as [R H]. cbn [in_range] in R. destruct (read_num mem a 1 z B ltac:(lia) H) as (bs & -> & Len & V). cbn [mbind option_bind].
      destruct bs as [|b [|]]; [done| |done]. unfold rd_bool, rd. cbn [lookup list_lookup mbind option_bind].
      cbn [le_num] in V. replace (z mod 2 ^ (8 * Z.of_nat 1)) with z in V by (symmetry; apply Z.mod_small; lia).
      replace b with z by lia. replace ((z =? 0) || (z =? 1)) with true by lia. f_equal. symmetry. apply Z.mod_small. lia.
    + apply read_int; try done; lia.
  - destruct (target_data _ _ _ _ B T) as (E & N & Et). exists a. split; [done|]. split; [done|]. unfold get_value. rewrite Et, En.
    replace ((t =? 4) || (t =? 23)) with true by lia. destruct (sized_kind _ _ _ I) as (NB & n & Hn & -> & ->).
    apply read_int; try done; lia.
  - exists (o_ptr o). unfold data_of, get_value, type_of. rewrite Ty. cbn [Z.eqb Pos.eqb orb]. split; [done|]. split; [done|].
    change (kind_of 26) with KBitfield. cbn [mbind].
    destruct (bits_signed_spec _ _ _ BT R) as [-> NB].
    destruct (C15_bitfield_read_exact mem (o_ptr o) (o_shift o) (o_width o) (rep_signed r) B Sh Wd L) as (v & u & -> & U & Bu & ->).
    do 2 f_equal. destruct H as [Ra H].
    assert (Eu : u = z mod 2 ^ o_width o).
    { apply (same_bits (o_width o)); [lia|done|apply Z.mod_pos_bound, Z.pow_pos_nonneg; lia|].
      intros j J. rewrite Bu, H by lia. by rewrite Z.mod_pow2_bits_low by lia. }
    subst u. destruct r; [done| |]; cbn [rep_signed].
    + by apply Z.mod_small.
    + apply range_sext; [lia|done].
Qed.

Definition shown (r : rep) (v : Z) : Z := match r with RBool => if v =? 0 then 0 else 1 | _ => v end.

Lemma set_ok mem o first w r : bytes mem -> place mem o first w r -> first + w <= 8 * Z.of_nat (length mem) ->
  exists p, data_of mem o = Some p /\ p <> O /\ 1 <= w <= 128 /\ (r = RBool -> w = 8) /\ forall v, exists mem', set_value mem o p v = Some mem' /\
    bytes mem' /\ length mem' = length mem /\
    (forall j, 0 <= j < w -> membit mem' (first + j) = Z.testbit (shown r v) j) /\
    (forall k, 0 <= k -> k < first \/ first + w <= k -> membit mem' k = membit mem k).
Proof.
  intros B P L. destruct P as [a t w r T I|a t e w r T D En I|t r Ty Pt BT Sh Wd R].
  - destruct (target_data _ _ _ _ B T) as (E & N & Et). exists a. split; [done|]. split; [done|]. unfold set_value. rewrite Et.
    destruct (basic_kind _ _ _ I) as (N4 & N23 & C).
    replace (t =? 4) with false by lia. replace (t =? 23) with false by lia. cbn [orb].
    destruct C as [(-> & -> & ->)|(NB & n & Hn & -> & ->)].
    + split; [lia|]. split; [done|]. intros v. cbn [shown].
      replace [if v =? 0 then 0 else 1] with (num_le 1 (if v =? 0 then 0 else 1)) by (by destruct (v =? 0)).
      apply (write_num mem a 1); [done|lia].
    + split; [lia|]. split; [done|]. intros v. replace (shown r v) with v by (by destruct r).
      apply write_num; [done|lia].
  - destruct (target_data _ _ _ _ B T) as (E & N & Et). exists a. split; [done|]. split; [done|]. unfold set_value. rewrite Et, En.
    replace ((t =? 4) || (t =? 23)) with true by lia. destruct (sized_kind _ _ _ I) as (NB & n & Hn & -> & ->).
    split; [lia|]. split; [done|]. intros v. replace (shown r v) with v by (by destruct r).
    apply write_num; [done|lia].
  - exists (o_ptr o). unfold data_of, set_value, type_of. rewrite Ty. cbn [Z.eqb Pos.eqb orb]. split; [done|]. split; [done|].
    change (kind_of 26) with KBitfield. destruct (bits_signed_spec _ _ _ BT R) as [_ NB].
    split; [lia|]. split; [done|]. intros v. replace (shown r v) with v by (by destruct r).
    destruct (C16_bitfield_frame mem (o_ptr o) (o_shift o) (o_width o) v B Sh Wd L) as (m & E & Bm & Lm & O & I & _).
    by exists m.
Qed.

Lemma source_range mem o first w r z : place mem o first w r -> in_range r w z -> - 2 ^ 127 <= z < 2 ^ 128.
Proof.
  intros P R. assert (W : 1 <= w <= 128).
  { destruct P as [a t w r _ I|a t e w r _ _ _ I|]; [| |done].
    - destruct (basic_kind _ _ _ I) as (_ & _ & [(_ & -> & _)|(_ & n & Hn & -> & _)]); lia.
    - destruct (sized_kind _ _ _ I) as (_ & n & Hn & -> & _); lia. }
  pose proof (Z.pow_le_mono_r 2 w 128 ltac:(lia) ltac:(lia)). pose proof (Z.pow_le_mono_r 2 (w - 1) 127 ltac:(lia) ltac:(lia)).
  destruct r; cbn [in_range] in R; lia.
Qed.

(** *** Theorems *)

(** C97: whatever the types of the operands, the destination gets the value of the
    source: the value itself if its type can represent it, otherwise the value
    modulo a power of two (a boolean: whether it is not zero).  No other bit of the
    memory changes. *)
Theorem C97_assign : forall mem dst src ps ws rs z pd wd rd,
  bytes mem ->
  place mem src ps ws rs -> ps + ws <= 8 * Z.of_nat (length mem) -> holds mem ps ws rs z ->
  place mem dst pd wd rd -> pd + wd <= 8 * Z.of_nat (length mem) ->
  exists mem' z', assign_int mem dst src = Some mem' /\ bytes mem' /\ length mem' = length mem /\
    holds mem' pd wd rd z' /\
    (rd = RBool -> z' = if z =? 0 then 0 else 1) /\
    (rd <> RBool -> z' mod 2 ^ wd = z mod 2 ^ wd) /\
    (in_range rd wd z -> z' = z) /\
    (forall k, 0 <= k -> k < pd \/ pd + wd <= k -> membit mem' k = membit mem k).
Proof.
  intros mem dst src ps ws rs z pd wd rd B Ps Ls Hs Pd Ld.
  destruct (get_ok _ _ _ _ _ _ B Ps Ls Hs) as (s & Es & Ns & Gs).
  destruct (set_ok _ _ _ _ _ B Pd Ld) as (d & Ed & Nd & W & WB & Set_).
  destruct (Set_ (z mod 2 ^ 128)) as (m & E & Bm & Lm & I & O).
  pose proof (source_range _ _ _ _ _ _ Ps (proj1 Hs)) as Rz.
  assert (A : assign_int mem dst src = Some m).
  { unfold assign_int. rewrite Es. cbn [mbind option_bind]. replace (Nat.eqb s 0) with false by (symmetry; by apply Nat.eqb_neq).
    rewrite Ed. cbn [mbind option_bind]. replace (Nat.eqb d 0) with false by (symmetry; by apply Nat.eqb_neq).
    rewrite Gs. exact E. }
  assert (Z0 : (z mod 2 ^ 128 =? 0) = (z =? 0)).
  { destruct (Z.eqb_spec z 0) as [-> |Nz]; [done|]. apply Z.eqb_neq. intros Z0. apply Z.mod_divide in Z0 as [q Q]; [|lia].
    assert (q = 0) by lia. lia. }
  assert (Low : forall j, 0 <= j < wd -> Z.testbit (z mod 2 ^ 128) j = Z.testbit (z mod 2 ^ wd) j).
  { intros j J. by rewrite !Z.mod_pow2_bits_low by lia. }
  assert (Pos : 0 <= z mod 2 ^ wd < 2 ^ wd) by (apply Z.mod_pos_bound, Z.pow_pos_nonneg; lia).
  exists m. destruct rd.
  - exists (if z =? 0 then 0 else 1). cbn [shown] in I. rewrite Z0 in I.
    split; [done|]. split; [done|]. split; [done|]. split; [split; [cbn [in_range]; destruct (z =? 0); lia|done]|].
    split; [done|]. split; [done|]. split; [|done]. cbn [in_range]. intros R. destruct (Z.eqb_spec z 0); lia.
  - exists (z mod 2 ^ wd). cbn [shown] in I.
    split; [done|]. split; [done|]. split; [done|]. split; [split; [done|intros j J; rewrite I by done; by apply Low]|].
    split; [done|]. split; [intros _; by apply Z.mod_small|]. split; [|done]. apply Z.mod_small.
  - exists (sext wd (z mod 2 ^ wd)). cbn [shown] in I. destruct (in_range_sext wd (z mod 2 ^ wd)) as (R1 & R2 & R3); [lia|done|].
    split; [done|]. split; [done|]. split; [done|]. split; [split; [done|intros j J; rewrite I, R2 by done; by apply Low]|].
    split; [done|]. split; [done|]. split; [|done]. apply range_sext. lia.
Qed.
Print Assumptions C97_assign.

(** A 13-bit signed field with the value -1000 goes through a pointer to a 16 bit
    integer; the pointer is at 16, the integer at 8, the field at bit 6 of byte 1. *)
Definition mem97 : list Z :=
  [0; 37; 6; 255; 7; 0; 0; 0; 170; 170; 85; 0; 0; 0; 0; 0; 8; 0; 0; 0; 0; 0; 0; 0].
Definition src97 : operand := Op 1 26 10 None 6 13.
Definition dst97 : operand := Op 16 28 8 None 0 0.
Lemma bits_case mem first w z : forallb (fun j => Bool.eqb (membit mem (first + Z.of_nat j)) (Z.testbit z (Z.of_nat j))) (seq 0 (Z.to_nat w)) = true ->
  forall j, 0 <= j < w -> membit mem (first + j) = Z.testbit z j.
Proof.
  intros H j J. rewrite forallb_forall in H. specialize (H (Z.to_nat j)). rewrite Z2Nat.id in H by lia.
  apply Bool.eqb_prop, H, in_seq. lia.
Qed.
Example C97_case : bytes mem97 /\ place mem97 src97 14 13 RSigned /\ holds mem97 14 13 RSigned (-1000) /\
  place mem97 dst97 64 16 RSigned /\
  assign_int mem97 dst97 src97 = Some [0; 37; 6; 255; 7; 0; 0; 0; 24; 252; 85; 0; 0; 0; 0; 0; 8; 0; 0; 0; 0; 0; 0; 0].
Proof.
  split; [apply Forall_forall; intros b Hb; apply elem_of_list_In in Hb; cbn in Hb; lia|].
  split; [|split; [|split; [|vm_compute; reflexivity]]].
  - apply (PBits mem97 src97 10); cbn; try lia; [left; done|]. left. split; [done|]. exists 32. cbn. eauto 20.
  - split; [cbn; lia|]. apply bits_case. vm_compute. reflexivity.
  - apply (PBasic mem97 dst97 8 8); [|cbn; eauto 20]. apply TPointer; [done|done|cbn; lia|].
    split; [cbn; lia|]. apply bits_case. vm_compute. reflexivity.
Qed.

(** C97: a null pointer as either operand, and nothing changes. *)
Theorem C97_null : forall mem dst src o ps ws rs z,
  bytes mem -> o = dst \/ o = src -> o_type o = 28 ->
  8 * Z.of_nat (o_ptr o) + 64 <= 8 * Z.of_nat (length mem) ->
  (forall j, 0 <= j < 64 -> membit mem (8 * Z.of_nat (o_ptr o) + j) = false) ->
  (o = dst -> place mem src ps ws rs /\ ps + ws <= 8 * Z.of_nat (length mem) /\ holds mem ps ws rs z) ->
  assign_int mem dst src = Some mem.
Proof.
  intros mem dst src o ps ws rs z B Eo T L H P.
  assert (E : data_of mem o = Some O).
  { unfold data_of. rewrite T. cbn [Z.eqb Pos.eqb].
    destruct (read_num mem (o_ptr o) 8 0 B ltac:(lia)) as (bs & -> & _ & V).
    { intros j J. rewrite H by lia. by rewrite Z.testbit_0_l. }
    cbn [mbind option_bind]. by rewrite V. }
  unfold assign_int. destruct Eo as [-> | ->].
  - destruct (P eq_refl) as (Ps & Ls & Hs). destruct (get_ok _ _ _ _ _ _ B Ps Ls Hs) as (s & -> & Ns & _). cbn [mbind option_bind].
    replace (Nat.eqb s 0) with false by (symmetry; by apply Nat.eqb_neq). by rewrite E.
  - by rewrite E.
Qed.
Print Assumptions C97_null.
Example C97_null_case : assign_int (replicate 24 0) dst97 src97 = Some (replicate 24 0) /\
  (forall j, 0 <= j < 64 -> membit (replicate 24 0) (8 * 16 + j) = false).
Proof.
  split; [vm_compute; reflexivity|]. intros j J. rewrite (bits_case _ _ 64 0); [apply Z.testbit_0_l|vm_compute; reflexivity|done].
Qed.

(** Only the destination is a null pointer. *)
Example C97_null_dst_case : let mem := take 16 mem97 ++ replicate 8 0 in
  place mem src97 14 13 RSigned /\ holds mem 14 13 RSigned (-1000) /\
  (forall j, 0 <= j < 64 -> membit mem (8 * 16 + j) = false) /\ assign_int mem dst97 src97 = Some mem.
Proof.
  intros mem. split; [|split; [|split; [|vm_compute; reflexivity]]].
  - apply (PBits mem src97 10); cbn; try lia; [left; done|]. left. split; [done|]. exists 32. cbn. eauto 20.
  - split; [cbn; lia|]. apply bits_case. vm_compute. reflexivity.
  - intros j J. rewrite (bits_case _ _ 64 0); [apply Z.testbit_0_l|vm_compute; reflexivity|done].
Qed.

(** C97: a bit-field turned into a field of type void is no longer assigned as one:
    the whole integer at its byte is written, with the bits of other fields. *)
Theorem C97_void_bitfield_refuted : exists mem dst src mem',
  bytes mem /\ place mem dst 11 3 RUnsigned /\ place mem src 64 8 RUnsigned /\ holds mem 64 8 RUnsigned 5 /\
  (exists mem1, assign_int mem dst src = Some mem1 /\ mem1 !! 2%nat = mem !! 2%nat /\ mem1 !! 1%nat = Some 239) /\
  assign_int mem (void_field dst) src = Some mem' /\ mem !! 2%nat = Some 255 /\ mem' !! 2%nat = Some 0.
Proof.
  exists [0; 255; 255; 255; 255; 0; 0; 0; 5], (Op 1 26 11 None 3 3), (Op 8 7 7 None 0 0). eexists.
  split; [apply Forall_forall; intros b Hb; apply elem_of_list_In in Hb; cbn in Hb; lia|].
  split; [|split; [|split; [|split]]].
  - apply (PBits _ (Op 1 26 11 None 3 3) 11); cbn; try lia; [left; done|]. right. split; [done|].
    intros [w I]. cbn in I. repeat (destruct I as [I|I]; [discriminate I|]). done.
  - apply (PBasic _ (Op 8 7 7 None 0 0) 8 7); [apply TDirect; done|cbn; eauto 20].
  - split; [cbn; lia|]. apply bits_case. vm_compute. reflexivity.
  - eexists. split; [vm_compute; reflexivity|]. split; reflexivity.
  - split; [vm_compute; reflexivity|]. split; reflexivity.
Qed.
Print Assumptions C97_void_bitfield_refuted.
