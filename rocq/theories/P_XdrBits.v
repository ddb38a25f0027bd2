(** C95: bit-fields in XDR streams. *)
From Verif Require Import Base Bitfield BitfieldProof P_Bitfield Xdr XdrProof XdrBits.
Local Open Scope Z_scope.

(** *** Vocabulary *)

(** The number of bits of the C type. *)
Definition type_bits (t : itype) : Z :=
  match t with
  | TChar | TBool | TInt8 | TUint8 => 8 | TInt16 | TUint16 => 16 | TInt32 | TUint32 => 32
  | TInt64 | TUint64 => 64 | TInt128 | TUint128 => 128
  end.
Definition type_signed (t : itype) : bool :=
  match t with TInt8 | TInt16 | TInt32 | TInt64 | TInt128 => true | _ => false end.
(** An enumeration has one of the types of 8 to 64 bits. *)
Definition enum_type (t : itype) : bool :=
  match t with TInt8 | TUint8 | TInt16 | TUint16 | TInt32 | TUint32 | TInt64 | TUint64 => true | _ => false end.
(** The integer type below the type of a field. *)
Definition base_of (t : ftype) (i : itype) : Prop :=
  t = FInt i \/ (t = FEnum (Some i) /\ enum_type i = true).
(** First bit of the field, counted from the start of the memory. *)
Definition first_bit_of (f : field) : Z := 8 * Z.of_nat (f_ptr f) + f_shift f.
(** The field lies in the memory and is not wider than its type. *)
Definition in_memory (mem : list Z) (f : field) (i : itype) : Prop :=
  BitfieldProof.bytes mem /\ base_of (f_type f) i /\ 0 <= f_shift f < 8 /\ 1 <= f_width f <= type_bits i /\
  first_bit_of f + f_width f <= 8 * Z.of_nat (length mem).

(** *** Proof *)

Lemma base_handler t i : base_of t i -> exists k, handler t = Some k /\ bits k = type_bits i /\
  k = int_handler i /\ sign_extends t = type_signed i.
Proof.
  intros [-> | [-> E]]; exists (int_handler i); destruct i; try discriminate E; repeat split; reflexivity.
Qed.

Lemma type_bits_le i : type_bits i <= 128.
Proof. destruct i; cbn; lia. Qed.

Lemma sext_bit w u j : 0 < w -> 0 <= u < 2 ^ w -> 0 <= j ->
  Z.testbit (BitfieldProof.sext w u) j = if j <? w then Z.testbit u j else Z.testbit u (w - 1).
Proof.
  intros Hw Hu Hj. unfold BitfieldProof.sext.
  assert (E : 2 ^ w = 2 * 2 ^ (w - 1)) by (rewrite <- Z.pow_succ_r by lia; f_equal; lia).
  assert (T : Z.testbit u (w - 1) = negb (u <? 2 ^ (w - 1))).
  { rewrite Z.testbit_eqb by lia. destruct (Z.ltb_spec u (2 ^ (w - 1))).
    - by rewrite Z.div_small by lia.
    - replace (u / 2 ^ (w - 1)) with 1; [done|]. apply Z.div_unique with (u - 2 ^ (w - 1)); lia. }
  rewrite T. destruct (Z.ltb_spec u (2 ^ (w - 1))) as [L|L]; cbn [negb].
  - destruct (Z.ltb_spec j w); [done|]. apply (bits_small u w); lia.
  - destruct (Z.ltb_spec j w) as [J|J].
    + assert (M : (u - 2 ^ w) mod 2 ^ w = u).
      { replace (u - 2 ^ w) with (u + (-1) * 2 ^ w) by lia. rewrite Z.mod_add by lia. by apply Z.mod_small. }
      rewrite <- (Z.mod_pow2_bits_low _ w j) by lia. by rewrite M.
    + replace (u - 2 ^ w) with (- (2 ^ w - u)) by lia.
      rewrite Z.bits_opp by lia. apply negb_true_iff. apply (bits_small _ w); [lia| |lia].
      unfold Z.pred. lia.
Qed.

(** *** Statement *)

(** C95: a bit-field saved into a stream and loaded into a bit-field with the
    same integer type, which may have another width and another place, in another
    object.  The load consumes what the save wrote, whatever surrounds it and
    whatever the uninitialised variable held; afterwards the bits of the loaded
    field are those of the saved field, extended with the sign of a signed type
    or with zeros, and all other bits of the object are as before. *)
Theorem C95_bitfield : forall mem f mem2 f2 i junk before after,
  in_memory mem f i -> in_memory mem2 f2 i -> 0 <= junk < 2 ^ 128 ->
  Z.of_nat (length before + length after) + 16 < 2 ^ 32 ->
  exists w mem3,
    save_field mem f = SOk w /\
    Z.of_nat (length w) = Z.max 4 (type_bits i / 8) /\
    load_field junk mem2 f2 (before ++ w ++ after) (Z.of_nat (length before))
      = Ok mem3 (Z.of_nat (length before + length w)) /\
    length mem3 = length mem2 /\
    (forall j, 0 <= j < f_width f2 ->
      membit mem3 (first_bit_of f2 + j) =
        if j <? f_width f then membit mem (first_bit_of f + j)
        else type_signed i && membit mem (first_bit_of f + f_width f - 1)) /\
    (forall n, 0 <= n -> n < first_bit_of f2 \/ first_bit_of f2 + f_width f2 <= n ->
      membit mem3 n = membit mem2 n).
Proof.
  intros mem f mem2 f2 i junk before after (B & T & S & W & L) (B2 & T2 & S2 & W2 & L2) J HL.
  unfold first_bit_of in *. pose proof (type_bits_le i) as TB.
  destruct (base_handler _ _ T) as (k & K & KB & KI & SG).
  destruct (base_handler _ _ T2) as (k2 & K2 & _ & KI2 & _). assert (k2 = k) as -> by congruence.
  destruct (C15_bitfield_read_exact mem (f_ptr f) (f_shift f) (f_width f) (type_signed i) B S ltac:(lia) L)
    as (v & u & E & U & UB & V).
  set (x := v mod 2 ^ bits k).
  assert (HX : 0 <= x < 2 ^ bits k) by (apply Z.mod_pos_bound; rewrite KB; destruct i; cbn; lia).
  destruct (C16_bitfield_frame mem2 (f_ptr f2) (f_shift f2) (f_width f2) (junk / 2 ^ bits k * 2 ^ bits k + x) B2 S2 ltac:(lia) L2)
    as (mem3 & E3 & B3 & L3 & F3 & V3 & _).
  exists (put_int k x), mem3.
  assert (LW : Z.of_nat (length (put_int k x)) = Z.max 4 (type_bits i / 8)).
  { rewrite KI. destruct i; reflexivity. }
  split; [unfold save_field; rewrite SG, E, K; reflexivity|]. split; [exact LW|].
  split.
  { unfold load_field. rewrite K2. unfold bnd.
    rewrite (reads_get_int k x HX).
    2:{ rewrite !app_length. assert (type_bits i / 8 <= 16) by (clear; by destruct i). lia. }
    cbv zeta. rewrite E3. reflexivity. }
  split; [exact L3|]. split; [|intros n N1 N2; apply F3; lia].
  intros j Hj. rewrite V3 by lia.
  assert (Z.testbit (junk / 2 ^ bits k * 2 ^ bits k + x) j = Z.testbit v j) as ->.
  { rewrite <- (Z.mod_pow2_bits_low _ (bits k) j) by (rewrite KB; lia).
    rewrite Z.add_comm, Z.mod_add by lia. rewrite Z.mod_small by done. unfold x. apply Z.mod_pow2_bits_low. rewrite KB. lia. }
  rewrite V. rewrite Z.mod_pow2_bits_low by lia.
  destruct (type_signed i) eqn:SI; cbn [andb].
  - rewrite sext_bit by lia. destruct (Z.ltb_spec j (f_width f)).
    + apply UB. lia.
    + replace (8 * Z.of_nat (f_ptr f) + f_shift f + f_width f - 1) with (8 * Z.of_nat (f_ptr f) + f_shift f + (f_width f - 1)) by lia.
      apply UB. lia.
  - destruct (Z.ltb_spec j (f_width f)).
    + apply UB. lia.
    + apply (bits_small u (f_width f)); lia.
Qed.
Print Assumptions C95_bitfield.

(** A signed field of 5 bits at bit 6, with the value -3, loaded into a field of
    11 bits at bit 3 of another object. *)
Example C95_case :
  let mem := [64 + 63; 7; 9] in
  let mem2 := [255; 0; 170; 85] in
  let f := {| f_type := FInt TInt32; f_ptr := 0%nat; f_shift := 6; f_width := 5 |} in
  let f2 := {| f_type := FEnum (Some TInt32); f_ptr := 1%nat; f_shift := 3; f_width := 11 |} in
  in_memory mem f TInt32 /\ in_memory mem2 f2 TInt32 /\
  save_field mem f = SOk [255; 255; 255; 253] /\
  load_field (2 ^ 100) mem2 f2 [1; 255; 255; 255; 253; 2] 1 = Ok [255; 232; 191; 85] 5.
Proof.
  assert (forall l, forallb (fun b => (0 <=? b) && (b <? 256)) l = true -> BitfieldProof.bytes l) as H.
  { intros l F. apply Forall_forall. intros x Hx. rewrite forallb_forall in F. apply elem_of_list_In in Hx. specialize (F x Hx). lia. }
  split; [|split; [|split; vm_compute; reflexivity]].
  - split; [by apply H|]. split; [by left|]. unfold first_bit_of. cbn. lia.
  - split; [by apply H|]. split; [by right|]. unfold first_bit_of. cbn. lia.
Qed.

(** C95: loading fails exactly when the stream ends within the value; every other
    content is accepted, and no byte outside of the stream is read. *)
Theorem C95_truncated : forall mem f i junk stream h,
  in_memory mem f i -> 0 <= h <= Z.of_nat (length stream) -> Z.of_nat (length stream) < 2 ^ 32 ->
  (Z.of_nat (length stream) - h < Z.max 4 (type_bits i / 8) -> load_field junk mem f stream h = Fail) /\
  (Z.max 4 (type_bits i / 8) <= Z.of_nat (length stream) - h ->
    exists mem', load_field junk mem f stream h = Ok mem' (h + Z.max 4 (type_bits i / 8))).
Proof.
  intros mem f i junk stream h (B & T & S & W & L) H HL.
  unfold first_bit_of in *. pose proof (type_bits_le i) as TB.
  destruct (base_handler _ _ T) as (k & K & KB & KI & SG).
  assert (LD : forall v, exists m, load_bitfield mem (f_ptr f) (f_shift f) (f_width f) v = Some m).
  { intros v. destruct (C16_bitfield_frame mem (f_ptr f) (f_shift f) (f_width f) v B S ltac:(lia) L) as (m & E & _). by exists m. }
  assert (GL : forall h, 0 <= h <= Z.of_nat (length stream) ->
    (Z.of_nat (length stream) - h < 4 /\ getlong stream h = Fail) \/
    (4 <= Z.of_nat (length stream) - h /\ exists v, getlong stream h = Ok v (h + 4))).
  { intros g G. destruct (Z.ltb_spec (Z.of_nat (length stream) - g) 4) as [C|C]; [left|right]; split; try lia.
    - unfold getlong. rewrite Z.mod_small by lia. by replace (_ <? 4) with true by lia.
    - unfold getlong. rewrite Z.mod_small by lia. replace (_ <? 4) with false by lia.
      rewrite peek_spec by lia. eexists. rewrite u32_small by lia. reflexivity. }
  assert (GI : (Z.of_nat (length stream) - h < Z.max 4 (type_bits i / 8) /\ get_int k stream h = Fail) \/
    (Z.max 4 (type_bits i / 8) <= Z.of_nat (length stream) - h /\ exists v, get_int k stream h = Ok v (h + Z.max 4 (type_bits i / 8)))).
  { assert (W4 : k <> I64 -> k <> I128 -> Z.max 4 (type_bits i / 8) = 4) by (rewrite KI; destruct i; cbn; done).
    assert (W8 : k = I64 -> Z.max 4 (type_bits i / 8) = 8) by (rewrite KI; destruct i; cbn; done).
    assert (W16 : k = I128 -> Z.max 4 (type_bits i / 8) = 16) by (rewrite KI; destruct i; cbn; done).
    clear KI KB K SG TB W T. destruct k as [|sg| | |]; cbn [get_int].
    1-3: rewrite W4 by done; unfold bnd, ret; destruct (GL h H) as [[A ->]|[A [v ->]]];
      [left; split; [lia|reflexivity]|right; split; [lia|eexists; reflexivity]].
    - rewrite W8 by done. unfold get64, bnd, ret. destruct (GL h H) as [[A ->]|[A [v ->]]]; [left; split; [lia|done]|].
      destruct (GL (h + 4) ltac:(lia)) as [[A' ->]|[A' [v' ->]]]; [left; split; [lia|done]|right; split; [lia|eexists; f_equal; lia]].
    - rewrite W16 by done. unfold get64, bnd, ret. destruct (GL h H) as [[A ->]|[A [v ->]]]; [left; split; [lia|done]|].
      destruct (GL (h + 4) ltac:(lia)) as [[A' ->]|[A' [v' ->]]]; [left; split; [lia|done]|].
      destruct (GL (h + 4 + 4) ltac:(lia)) as [[A2 ->]|[A2 [v2 ->]]]; [left; split; [lia|done]|].
      destruct (GL (h + 4 + 4 + 4) ltac:(lia)) as [[A3 ->]|[A3 [v3 ->]]]; [left; split; [lia|done]|right; split; [lia|eexists; f_equal; lia]]. }
  unfold load_field. rewrite K. unfold bnd. destruct GI as [[A ->]|[A (v & ->)]].
  - split; [reflexivity|lia].
  - cbv zeta. destruct (LD (junk / 2 ^ bits k * 2 ^ bits k + v)) as [m ->]. split; [lia|by exists m].
Qed.
Print Assumptions C95_truncated.

Example C95_truncated_case :
  let f := {| f_type := FInt TUint64; f_ptr := 0%nat; f_shift := 2; f_width := 40 |} in
  in_memory [0; 0; 0; 0; 0; 0] f TUint64 /\
  load_field 7 [0; 0; 0; 0; 0; 0] f [9; 0; 0; 0; 1; 2; 3; 4] 1 = Fail /\
  load_field 7 [0; 0; 0; 0; 0; 0] f [9; 0; 0; 0; 1; 2; 3; 4; 5] 1 = Ok [20; 16; 12; 8; 4; 0] 9.
Proof.
  split; [|split; vm_compute; reflexivity].
  split; [|split; [by left|unfold first_bit_of; cbn; lia]]. apply Forall_forall. intros x Hx. apply elem_of_list_In in Hx. cbn in Hx. lia.
Qed.
