(** C15-C17: bit-fields (src/metaresc.c:501-565, 1139-1183). *)
From Verif Require Import Base Bitfield BitfieldProof.
Local Open Scope Z_scope.

(** C15: what is stored is read back, truncated to the width and sign-extended
    to 128 bits for signed types; [mem] may end right after the field. *)
Theorem C15_bitfield_round_trip : forall mem p shift w value signed,
  bytes mem -> 0 <= shift < 8 -> 1 <= w <= 128 ->
  8 * Z.of_nat p + shift + w <= 8 * Z.of_nat (length mem) ->
  exists mem', load_bitfield mem p shift w value = Some mem' /\
    save_bitfield mem' p shift w signed =
      Some ((if signed then sext w (value mod 2 ^ w) else value mod 2 ^ w) mod 2 ^ 128).
Proof. exact bitfield_round_trip. Qed.
Print Assumptions C15_bitfield_round_trip.

(** 13-bit signed field at bit 6 of byte 1, value -1000. *)
Example C15_case :
  match load_bitfield [255; 165; 0; 255; 7] 1 6 13 (2 ^ 128 - 1000) with
  | Some mem' => mem' = [255; 37; 6; 255; 7] /\ save_bitfield mem' 1 6 13 true = Some (2 ^ 128 - 1000) /\
      save_bitfield mem' 1 6 13 false = Some (2 ^ 13 - 1000)
  | None => False
  end.
Proof. vm_compute. repeat split. Qed.

(** C15: reading gives exactly the bits of the field. *)
Theorem C15_bitfield_read_exact : forall mem p shift w signed,
  bytes mem -> 0 <= shift < 8 -> 1 <= w <= 128 ->
  8 * Z.of_nat p + shift + w <= 8 * Z.of_nat (length mem) ->
  exists v u, save_bitfield mem p shift w signed = Some v /\ 0 <= u < 2 ^ w /\
    (forall j, 0 <= j < w -> Z.testbit u j = membit mem (8 * Z.of_nat p + shift + j)) /\
    v = (if signed then sext w u else u) mod 2 ^ 128.
Proof. exact save_bitfield_ok. Qed.
Print Assumptions C15_bitfield_read_exact.

(** C15: a field of width 0 reaches an undefined shift by -1. *)
Theorem C15_width_zero_undefined : forall mem p shift signed value,
  save_bitfield mem p shift 0 signed = None /\ load_bitfield mem p shift 0 value = None.
Proof.
  intros mem p shift signed value. split; [|reflexivity]. unfold save_bitfield.
  destruct (rd mem p); [|reflexivity]. cbn [mbind option_bind]. by destruct (save_loop 17 mem (S p) (8 - shift) 0 (z / 2 ^ shift)).
Qed.
Print Assumptions C15_width_zero_undefined.

(** C16: exactly the bits of the field change. *)
Theorem C16_bitfield_frame : forall mem p shift w value,
  bytes mem -> 0 <= shift < 8 -> 1 <= w <= 128 ->
  8 * Z.of_nat p + shift + w <= 8 * Z.of_nat (length mem) ->
  exists mem', load_bitfield mem p shift w value = Some mem' /\ bytes mem' /\ length mem' = length mem /\
    (forall n, 0 <= n -> n < 8 * Z.of_nat p + shift \/ 8 * Z.of_nat p + shift + w <= n -> membit mem' n = membit mem n) /\
    (forall j, 0 <= j < w -> membit mem' (8 * Z.of_nat p + shift + j) = Z.testbit value j) /\
    (forall q, (q < p)%nat \/ 8 * Z.of_nat p + shift + w <= 8 * Z.of_nat q -> mem' !! q = mem !! q).
Proof.
  intros mem p shift w value Hb Hs Hw Hl.
  destruct (load_bitfield_ok mem p shift w value Hb Hs Hw Hl) as (mem' & E & B & L & M). cbv zeta in M.
  assert (F : forall n, 0 <= n -> n < 8 * Z.of_nat p + shift \/ 8 * Z.of_nat p + shift + w <= n -> membit mem' n = membit mem n).
  { intros n Hn Ho. rewrite M by done. destruct (_ && _) eqn:X; [lia|done]. }
  exists mem'. split; [exact E|]. split; [exact B|]. split; [exact L|]. split; [exact F|]. split.
  - intros j Hj. rewrite M by lia. destruct (_ && _) eqn:X; [f_equal; lia|lia].
  - intros q Hq. apply byte_ext; [done|done|done|]. intros j Hj. apply F; lia.
Qed.
Print Assumptions C16_bitfield_frame.

Example C16_case : load_bitfield [170; 170; 170] 0 3 4 (2 ^ 100 + 15) = Some [250; 170; 170].
Proof. vm_compute. reflexivity. Qed.

(** C17: offset, shift and width of a contiguous run of set bits are found. *)
Theorem C17_bitfield_geometry : forall mem lo w,
  bytes mem -> 0 <= lo -> 1 <= w <= 255 -> lo + w <= 8 * Z.of_nat (length mem) ->
  (forall n, 0 <= n -> membit mem n = (lo <=? n) && (n <? lo + w)) ->
  init_bitfield mem = Some (Z.to_nat (lo / 8), lo mod 8, w).
Proof. exact init_bitfield_ok. Qed.
Print Assumptions C17_bitfield_geometry.

Example C17_case :
  bytes [0; 192; 255; 3; 0] /\ init_bitfield [0; 192; 255; 3; 0] = Some (1%nat, 6, 12) /\
  (forall n, 0 <= n -> membit [0; 192; 255; 3; 0] n = (14 <=? n) && (n <? 14 + 12)).
Proof.
  split; [repeat constructor; lia|]. split; [vm_compute; reflexivity|]. intros n Hn.
  destruct (Z.ltb_spec n 40) as [H|H].
  - assert (Hall : Forall (fun k => membit [0; 192; 255; 3; 0] (Z.of_nat k) = (14 <=? Z.of_nat k) && (Z.of_nat k <? 14 + 12)) (seq 0 40))
      by (vm_compute; repeat constructor).
    rewrite Forall_forall in Hall. specialize (Hall (Z.to_nat n)). rewrite Z2Nat.id in Hall by done. apply Hall.
    apply elem_of_seq. lia.
  - unfold membit. rewrite lookup_ge_None_2; [lia|]. cbn. assert (5 <= n / 8) by (apply Z.div_le_lower_bound; lia). lia.
Qed.

(** C15-C17 together: detect the field from its mask, store, read back. *)
Theorem C17_detected_field_round_trip : forall mask mem lo w value signed,
  bytes mask -> bytes mem -> length mem = length mask ->
  0 <= lo -> 1 <= w <= 128 -> lo + w <= 8 * Z.of_nat (length mask) ->
  (forall n, 0 <= n -> membit mask n = (lo <=? n) && (n <? lo + w)) ->
  exists off shift width mem', init_bitfield mask = Some (off, shift, width) /\
    load_bitfield mem off shift width value = Some mem' /\
    save_bitfield mem' off shift width signed =
      Some ((if signed then sext w (value mod 2 ^ w) else value mod 2 ^ w) mod 2 ^ 128) /\
    (forall n, 0 <= n -> membit mask n = false -> membit mem' n = membit mem n).
Proof.
  intros mask mem lo w value signed Hk Hm HL Hlo Hw Hl Hbits.
  rewrite (init_bitfield_ok mask lo w) by (done || lia).
  pose proof (split8 lo) as [Hs Hr]. assert (0 <= lo / 8) by (apply Z.div_pos; lia).
  destruct (bitfield_round_trip mem (Z.to_nat (lo / 8)) (lo mod 8) w value signed) as (mem' & E & S); try (done || lia).
  exists (Z.to_nat (lo / 8)), (lo mod 8), w, mem'. split; [reflexivity|]. split; [exact E|]. split; [exact S|].
  intros n Hn Hb. destruct (load_bitfield_ok mem (Z.to_nat (lo / 8)) (lo mod 8) w value) as (m2 & E2 & _ & _ & M); try (done || lia).
  rewrite E in E2. injection E2 as <-. rewrite M by done. cbv zeta. rewrite Hbits in Hb by done.
  replace ((8 * Z.of_nat (Z.to_nat (lo / 8)) + lo mod 8 <=? n) && (n <? 8 * Z.of_nat (Z.to_nat (lo / 8)) + lo mod 8 + w)) with false by lia. done.
Qed.
Print Assumptions C17_detected_field_round_trip.
