(** Proofs about Enum.v together with the parsing in Value.v. *)
From Verif Require Import Base HSort HSortProof ICArrays ICArraysProof FdOffset FdOffsetProof NumStr NumStrProof Value ValueProof Enum.
Local Open Scope Z_scope.

(** ** Parsing of or-lists *)
Lemma isident_not c : isident c = false → ¬ digit_in 8 c ∧ ¬ digit_in 10 c ∧ isdigit c = false ∧ c ≠ 120 ∧ c ≠ 88.
Proof.
  unfold isident. intros H. apply orb_false_elim in H as [H _]. apply orb_false_elim in H as [Ha Hd].
  assert (N10 : ¬ digit_in 10 c). { intros D. apply isdigit_in in D. congruence. }
  split; [|split; [done|split; [done|]]].
  - intros (d & E & L). apply N10. exists d. split; [done|lia].
  - unfold isalpha, isupper, islower in Ha. lia.
Qed.

Lemma parse_decimal_any (neg : bool) ds v c rest : decimal_text ds v → isident c = false →
  strtouintmax ((if neg then [45] else []) ++ ds ++ c :: rest) 0 =
    Some ((if neg then - v else v) mod 2 ^ 128, length ((if neg then [45] else []) ++ ds)).
Proof.
  intros (N1 & N2 & N3 & N4) Hc. destruct (isident_not c Hc) as (C8 & C10 & Cd & Cx & CX).
  destruct ds as [|d0 ds]; [done|]. assert (D0 := Forall_inv N2).
  destruct (digit_not_blank d0 D0) as (NB & N43 & N45). assert (Hd0 : isdigit d0 = true) by (by apply isdigit_in).
  set (sg := if neg then [45] else []).
  set (s := sg ++ (d0 :: ds) ++ c :: rest).
  assert (Hskip : skip_space (S (length s)) s 0 = Some 0%nat).
  { unfold s, sg. destruct neg; cbn [app].
    - apply (skip_space_ok [] [] 45 _ _); [constructor|by apply sign_not_blank; right|cbn; lia].
    - apply (skip_space_ok [] [] d0 _ _); [constructor|done|cbn; lia]. }
  unfold strtouintmax. rewrite Hskip. cbn [mbind option_bind].
  assert (Hacc : ∀ b, (b = 8 ∧ d0 :: ds = [48]) ∨ b = 10 →
    acc_loop (S (length s)) s (length sg) b 0 = Some (v mod 2 ^ 128, (length sg + length (d0 :: ds))%nat)).
  { intros b Hb. change 0 with (0 mod 2 ^ 128) at 1. unfold s. rewrite acc_loop_ok.
    - f_equal. f_equal. f_equal. rewrite <- N3. unfold numeral_value.
      destruct Hb as [[-> E]| ->]; [|done]. by rewrite E.
    - destruct Hb as [[-> E]| ->]; [|done]. rewrite E. repeat constructor. exists 0. split; [done|lia].
    - by destruct Hb as [[-> _]| ->].
    - rewrite !app_length. cbn. lia. }
  assert (Hend : ∀ b, (b = 8 ∧ d0 :: ds = [48]) ∨ b = 10 →
    (r ← acc_loop (S (length s)) s (length sg) b 0;
     Some (if neg then (- r.1) mod 2 ^ 128 else r.1, r.2)) =
    Some ((if neg then - v else v) mod 2 ^ 128, length (sg ++ d0 :: ds))).
  { intros b Hb. rewrite Hacc by done. cbn [mbind option_bind fst snd]. rewrite app_length. f_equal. f_equal.
    destruct neg; [|done]. rewrite <- (Z.sub_0_l (v mod 2 ^ 128)), Zminus_mod_idemp_r. by rewrite Z.sub_0_l. }
  assert (Hrd : rd s (length sg) = Some d0) by (unfold s; apply rd_mid).
  assert (Hrd1 : d0 = 48 → rd s (S (length sg)) = Some c).
  { intros ->. specialize (N4 eq_refl). injection N4 as ->. unfold s.
    replace (S (length sg)) with (length (sg ++ [48])) by (rewrite app_length; cbn; lia).
    rewrite app_assoc. apply rd_mid. }
  assert (Hc0 : ∃ c0, rd s 0 = Some c0 ∧ (c0 =? 45) = neg ∧
     (if (c0 =? 43) || (c0 =? 45) then 1%nat else 0%nat) = length sg).
  { unfold s, sg. destruct neg; cbn [app rd lookup list_lookup].
    - by exists 45.
    - exists d0. split; [done|]. destruct (Z.eqb_spec d0 45), (Z.eqb_spec d0 43); cbn; done || lia. }
  destruct Hc0 as (c0 & E0 & En & Es). rewrite E0. cbn [mbind option_bind]. rewrite Es, En, Hrd. cbn [mbind option_bind].
  rewrite Hd0. cbn [negb orb andb Z.eqb].
  destruct (Z.eqb_spec d0 48) as [E48|E48].
  - rewrite (Hrd1 E48). cbn [mbind option_bind].
    destruct (Z.eqb_spec c 120); [done|]. destruct (Z.eqb_spec c 88); [done|]. cbn [orb Z.eqb].
    rewrite Hrd. cbn [mbind option_bind]. destruct (Z.eqb_spec d0 48); [|done].
    apply Hend. left. split; [done|]. subst d0. by apply N4.
  - cbn [mbind option_bind Z.eqb]. rewrite Hrd. cbn [mbind option_bind].
    destruct (Z.eqb_spec d0 48); [done|]. apply Hend. by right.
Qed.

(** A part of an or-list and the number it stands for. *)
Definition part (e : env) (p : list Z) (z : Z) : Prop :=
  (names e p z ∧ ∃ c p', p = c :: p' ∧ (isalpha c = true ∨ c = 95)) ∨
  (∃ (neg : bool) ds v, p = (if neg then [45] else []) ++ ds ∧ decimal_text ds v ∧ 0 <= v < 2 ^ 127 ∧ z = if neg then - v else v).

Lemma isalpha_not_blank c : isalpha c = true ∨ c = 95 → ¬ blank c.
Proof.
  unfold isalpha, isupper, islower, blank. rewrite !elem_of_cons, elem_of_nil.
  intros [H|H] Hb; [|lia]. lia.
Qed.

Lemma get_int_part e bl p z c rest : part e p z → Forall blank bl → isident c = false →
  get_int e (bl ++ p ++ c :: rest) = Some (Some (z mod 2 ^ 128, (length bl + length p)%nat)).
Proof.
  intros Hp Hbl Hc. unfold get_int.
  assert (Hsk : ∀ x r, bl ++ p ++ c :: rest = bl ++ x :: r → ¬ blank x →
    skip_space (S (length (bl ++ p ++ c :: rest))) (bl ++ p ++ c :: rest) 0 = Some (length bl)).
  { intros x r E Hx. rewrite E. apply (skip_space_ok bl [] x r); [done|done|rewrite app_length; lia]. }
  destruct Hp as [(Hn & x & p' & -> & Hx)|(neg & ds & v & -> & Hd & _ & ->)].
  - assert (Nb := isalpha_not_blank x Hx). rewrite (Hsk x (p' ++ c :: rest)) by done. cbn [mbind option_bind].
    change ((x :: p') ++ c :: rest) with (x :: p' ++ c :: rest). rewrite rd_mid. cbn [mbind option_bind].
    assert (E : isalpha x || (x =? 95) = true) by (destruct Hx as [-> | ->]; [done|by rewrite orb_true_r]).
    rewrite E. rewrite drop_app.
    change (x :: p' ++ c :: rest) with ((x :: p') ++ c :: rest). rewrite (get_enum_ok e _ (x :: p') z).
    + done.
    + by exists c, rest.
    + done.
  - assert (∃ x r, (if neg then [45] else []) ++ ds = x :: r ∧ ¬ blank x ∧ isalpha x || (x =? 95) = false) as (x & r & E & Nb & Na).
    { destruct neg; [exists 45, ds; split; [done|]; split; [by apply sign_not_blank; right|done]|].
      destruct Hd as (N1 & N2 & _). destruct ds as [|x ds]; [done|]. exists x, ds. split; [done|].
      assert (D := Forall_inv N2). split; [by apply digit_not_blank|]. apply isdigit_in in D.
      unfold isdigit, isalpha, isupper, islower in *. lia. }
    rewrite (Hsk x (r ++ c :: rest)) by (first [done | by rewrite E]). cbn [mbind option_bind].
    assert (Hrd : rd (bl ++ ((if neg then [45] else []) ++ ds) ++ c :: rest) (length bl) = Some x).
    { rewrite E. apply rd_mid. }
    rewrite Hrd. cbn [mbind option_bind]. rewrite Na, drop_app, <- app_assoc.
    rewrite parse_decimal_any with (v := v) by done. cbn [mbind option_bind]. done.
Qed.

(** Text of an or-list. *)
Fixpoint join (ps : list (list Z)) : list Z :=
  match ps with
  | [] => []
  | [p] => p
  | p :: ps => p ++ delimiter ++ join ps
  end.

Lemma lor_mod a b n : 0 <= n → Z.lor (a mod 2 ^ n) (b mod 2 ^ n) = Z.lor a b mod 2 ^ n.
Proof. intros Hn. rewrite <- !Z.land_ones by done. by rewrite Z.land_lor_distr_l. Qed.

Definition ends (c : Z) : Prop := isident c = false ∧ ¬ blank c ∧ c ≠ 124.

Lemma bitmask_loop_ok e ps zs pre bl c rest fuel acc :
  Forall2 (part e) ps zs → ps ≠ [] → Forall blank bl → ends c → (length ps <= fuel)%nat →
  bitmask_loop e fuel (pre ++ bl ++ join ps ++ c :: rest) (length pre) (acc mod 2 ^ 128) =
    Some (Some (foldl Z.lor acc zs mod 2 ^ 128, length (pre ++ bl ++ join ps))).
Proof.
  intros H. revert pre bl fuel acc. induction H as [|p z ps zs Hp Hps IH]; intros pre bl fuel acc Hne Hbl Hc Hf; [done|].
  destruct fuel as [|fuel]; [cbn in Hf; lia|]. cbn [bitmask_loop].
  destruct Hc as (Hci & Hcb & Hc124).
  rewrite drop_app. destruct Hps as [|p2 z2 ps zs Hp2 Hps].
  - cbn [join foldl]. rewrite (get_int_part e bl p z c rest) by done. cbn [mbind option_bind].
    assert (Hsk : skip_space (S (length (pre ++ bl ++ p ++ c :: rest))) (pre ++ bl ++ p ++ c :: rest) (length pre + (length bl + length p)) = Some (length (pre ++ bl ++ p))).
    { replace (pre ++ bl ++ p ++ c :: rest) with ((pre ++ bl ++ p) ++ [] ++ c :: rest) by (by rewrite <- !app_assoc).
      replace (length pre + (length bl + length p))%nat with (length (pre ++ bl ++ p)) by (rewrite !app_length; lia).
      rewrite skip_space_ok; [f_equal; cbn; lia|constructor|done|cbn; lia]. }
    rewrite Hsk. cbn [mbind option_bind].
    assert (Hrd : rd (pre ++ bl ++ p ++ c :: rest) (length (pre ++ bl ++ p)) = Some c).
    { replace (pre ++ bl ++ p ++ c :: rest) with ((pre ++ bl ++ p) ++ c :: rest) by (by rewrite <- !app_assoc). apply rd_mid. }
    rewrite Hrd. cbn [mbind option_bind]. destruct (Z.eqb_spec c 124); [done|].
    by rewrite lor_mod by lia.
  - set (J := join (p2 :: ps)) in *.
    assert (EJ : join (p :: p2 :: ps) = p ++ 32 :: 124 :: 32 :: J) by done. clearbody J.
    rewrite EJ, <- app_assoc. cbn [app].
    rewrite (get_int_part e bl p z 32) by done. cbn [mbind option_bind].
    set (S1 := pre ++ bl ++ p ++ 32 :: 124 :: 32 :: J ++ c :: rest).
    assert (ES : S1 = (pre ++ bl ++ p) ++ [32] ++ 124 :: 32 :: J ++ c :: rest) by (unfold S1; by rewrite <- !app_assoc).
    assert (Hsk : skip_space (S (length S1)) S1 (length pre + (length bl + length p)) = Some (length (pre ++ bl ++ p ++ [32]))).
    { replace (length pre + (length bl + length p))%nat with (length (pre ++ bl ++ p)) by (rewrite !app_length; lia).
      rewrite ES. rewrite skip_space_ok.
      - f_equal. rewrite !app_length. cbn. lia.
      - repeat constructor.
      - unfold blank. rewrite !elem_of_cons, elem_of_nil. lia.
      - rewrite !app_length. cbn. lia. }
    rewrite Hsk. cbn [mbind option_bind].
    assert (Hrd : rd S1 (length (pre ++ bl ++ p ++ [32])) = Some 124).
    { unfold S1. replace (pre ++ bl ++ p ++ 32 :: 124 :: 32 :: J ++ c :: rest) with ((pre ++ bl ++ p ++ [32]) ++ 124 :: 32 :: J ++ c :: rest) by (by rewrite <- !app_assoc). apply rd_mid. }
    rewrite Hrd. cbn [mbind option_bind Z.eqb Pos.eqb].
    replace (Nat.add (length (pre ++ bl ++ p ++ [32])) 1) with (length (pre ++ bl ++ p ++ [32; 124])) by (rewrite !app_length; cbn; lia).
    rewrite lor_mod by lia.
    replace S1 with ((pre ++ bl ++ p ++ [32; 124]) ++ [32] ++ J ++ c :: rest) by (unfold S1; by rewrite <- !app_assoc).
    rewrite IH; [|done|by repeat constructor|done|cbn in *; lia].
    cbn [foldl]. do 2 f_equal. f_equal. rewrite !app_length. cbn. lia.
Qed.

(** Reading an or-list followed by a terminator, as a string or as part of a longer text. *)
Lemma join_length ps e zs : Forall2 (part e) ps zs → (length ps <= S (length (join ps)))%nat.
Proof.
  induction 1 as [|p z ps zs Hp Hps IH]; [cbn; lia|]. destruct Hps; [cbn; lia|].
  change (join (p :: x :: l)) with (p ++ delimiter ++ join (x :: l)). rewrite !app_length.
  change (length delimiter) with 3%nat. cbn [length] in *. lia.
Qed.

Lemma to_signed_lor z bytes : 0 <= bytes <= 16 → to_signed (z mod 2 ^ 128) mod 2 ^ (8 * bytes) = z mod 2 ^ (8 * bytes).
Proof.
  intros Hb. destruct (to_signed_spec (z mod 2 ^ 128)) as (_ & k & ->).
  rewrite mod_same_bytes by done. symmetry.
  rewrite (Z.div_mod z (2 ^ 128)) at 1 by lia. rewrite Z.add_comm, Z.mul_comm. by apply mod_same_bytes.
Qed.

Section F.
Context {F : Type} `{FL : Floats F}.

Lemma load_var_join e ps zs c rest : Forall2 (part e) ps zs → ps ≠ [] → ends c →
  load_var (F := F) e TInt (join ps ++ c :: rest) =
    Some (Some (VInt (to_signed (foldl Z.lor 0 zs mod 2 ^ 128)), length (join ps))).
Proof.
  intros H Hne Hc. unfold load_var, load_bitmask.
  assert (E := bitmask_loop_ok e ps zs [] [] c rest (S (length (join ps ++ c :: rest))) 0 H Hne ltac:(constructor) Hc).
  change (0 mod 2 ^ 128) with 0 in E. cbn [app length] in E. rewrite E.
  2:{ rewrite app_length. pose proof (join_length ps e zs H). lia. }
  cbn [mbind option_bind].
  assert (Hsk : skip_space (S (length (join ps ++ c :: rest))) (join ps ++ c :: rest) (length (join ps)) = Some (length (join ps))).
  { change (join ps ++ c :: rest) with (join ps ++ [] ++ c :: rest). rewrite skip_space_ok; [f_equal; cbn; lia|constructor|apply Hc|cbn; lia]. }
  by rewrite Hsk.
Qed.

Lemma ends_0 : ends 0.
Proof. split; [done|]. split; [apply not_blank_0|lia]. Qed.

Lemma load_or_list e ps zs bytes : Forall2 (part e) ps zs → ps ≠ [] → 0 <= bytes <= 16 →
  load_integer (F := F) e (VString (join ps ++ [0])) bytes = Some (Some (foldl Z.lor 0 zs mod 2 ^ (8 * bytes))) ∧
  ∀ c rest, ends c → load_integer (F := F) e (VSubstr (join ps ++ c :: rest) (length (join ps))) bytes =
    Some (Some (foldl Z.lor 0 zs mod 2 ^ (8 * bytes))).
Proof.
  intros H Hne Hb. split.
  - unfold load_integer. cbn [value_cast]. rewrite (load_var_join e ps zs 0 []) by (done || apply ends_0).
    cbn [mbind option_bind]. rewrite rd_mid. cbn [mbind option_bind Z.eqb]. by rewrite to_signed_lor.
  - intros c rest Hc. unfold load_integer. cbn [value_cast]. rewrite (load_var_join e ps zs c rest) by done.
    cbn [mbind option_bind]. rewrite Nat.eqb_refl. by rewrite to_signed_lor.
Qed.
End F.

(** ** Values and their bits *)
Lemma read_as_mod t data : t ≠ NotInt → read_as t data mod 2 ^ width t = data mod 2 ^ width t.
Proof.
  intros Ht. unfold read_as. destruct (is_signed t).
  - rewrite Zminus_mod_idemp_l. by rewrite Z.add_simpl_r.
  - by rewrite Zmod_mod.
Qed.

Lemma width_pos t : t ≠ NotInt → 8 <= width t.
Proof. destruct t; cbn; lia || done. Qed.

(** The bits of a value read: those of the memory, the last one repeated if signed. *)
Lemma read_as_bits t data i : t ≠ NotInt → 0 <= i →
  Z.testbit (read_as t data) i =
    if i <? width t then Z.testbit data i else is_signed t && Z.testbit data (width t - 1).
Proof.
  intros Ht Hi. pose proof (width_pos t Ht) as Hw.
  assert (Hlow : ∀ j, 0 <= j < width t → Z.testbit (read_as t data) j = Z.testbit data j).
  { intros j Hj. rewrite <- (Z.mod_pow2_bits_low (read_as t data) (width t)) by lia.
    rewrite read_as_mod by done. apply Z.mod_pow2_bits_low. lia. }
  destruct (Z.ltb_spec i (width t)) as [L|L]; [apply Hlow; lia|].
  destruct (is_signed t) eqn:Es; cbn [andb].
  - rewrite <- Hlow by lia. unfold read_as. rewrite Es. set (H := 2 ^ (width t - 1)).
    assert (EH : 2 ^ width t = 2 * H). { unfold H. rewrite <- Z.pow_succ_r by lia. f_equal. lia. }
    assert (PH : 0 < H) by (unfold H; apply Z.pow_pos_nonneg; lia).
    set (r := (data + H) mod 2 ^ width t - H).
    assert (Hr : - H <= r < H).
    { unfold r. pose proof (Z.mod_pos_bound (data + H) (2 ^ width t) ltac:(lia)). lia. }
    replace i with ((i - (width t - 1)) + (width t - 1)) by lia. rewrite <- Z.shiftr_spec by lia.
    replace (Z.testbit r (width t - 1)) with (Z.testbit (Z.shiftr r (width t - 1)) 0).
    2:{ rewrite Z.shiftr_spec by lia. f_equal. }
    assert (Hs : Z.shiftr r (width t - 1) = 0 ∨ Z.shiftr r (width t - 1) = -1).
    { rewrite Z.shiftr_div_pow2 by lia. fold H.
      destruct (Z.le_gt_cases 0 r) as [P|P].
      - left. apply Z.div_small. lia.
      - right. symmetry. apply (Z.div_unique_pos r H (-1) (r + H)); lia. }
    destruct Hs as [-> | ->]; [by rewrite !Z.bits_0|]. rewrite !Z.bits_m1; [done|lia|lia].
  - unfold read_as. rewrite Es. apply Z.mod_pow2_bits_high. lia.
Qed.

(** The 64 bit value of some memory. *)
Definition ext (t : ity) (d : Z) : Z := read_as t d mod 2 ^ 64.

Lemma ext_bits t d i : t ≠ NotInt → width t <= 64 → 0 <= i →
  Z.testbit (ext t d) i =
    if i <? 64 then if i <? width t then Z.testbit d i else is_signed t && Z.testbit d (width t - 1) else false.
Proof.
  intros Ht Hw Hi. unfold ext. destruct (Z.ltb_spec i 64) as [L|L].
  - rewrite Z.mod_pow2_bits_low by lia. by apply read_as_bits.
  - apply Z.mod_pow2_bits_high. lia.
Qed.

Lemma ext_land t a b : t ≠ NotInt → width t <= 64 → Z.land (ext t a) (ext t b) = ext t (Z.land a b).
Proof.
  intros Ht Hw. apply Z.bits_inj'. intros i Hi. rewrite Z.land_spec, !ext_bits, !Z.land_spec by done.
  destruct (i <? 64), (i <? width t), (is_signed t); cbn; done.
Qed.
Lemma ext_lxor t a b : t ≠ NotInt → width t <= 64 → Z.lxor (ext t a) (ext t b) = ext t (Z.lxor a b).
Proof.
  intros Ht Hw. apply Z.bits_inj'. intros i Hi. rewrite Z.lxor_spec, !ext_bits, !Z.lxor_spec by done.
  destruct (i <? 64), (i <? width t), (is_signed t); cbn; done.
Qed.

Lemma mod_mod_le z a b : 0 <= a <= b → (z mod 2 ^ b) mod 2 ^ a = z mod 2 ^ a.
Proof.
  intros H. rewrite <- !Z.land_ones by lia. rewrite <- Z.land_assoc. f_equal.
  apply Z.bits_inj'. intros i Hi. rewrite Z.land_spec, !Z.testbit_ones by lia.
  destruct (Z.leb_spec 0 i), (Z.ltb_spec i a), (Z.ltb_spec i b); cbn; done || lia.
Qed.

Lemma ext_mod t d : t ≠ NotInt → width t <= 64 → ext t d mod 2 ^ width t = d mod 2 ^ width t.
Proof.
  intros Ht Hw. pose proof (width_pos t Ht). unfold ext. rewrite mod_mod_le by lia. by apply read_as_mod.
Qed.

Lemma ext_zero t d : t ≠ NotInt → width t <= 64 → ext t d = 0 ↔ d mod 2 ^ width t = 0.
Proof.
  intros Ht Hw. pose proof (width_pos t Ht). split; intros H0.
  - rewrite <- ext_mod, H0 by done. apply Z.mod_0_l. apply Z.pow_nonzero; lia.
  - apply Z.bits_inj'. intros i Hi. rewrite ext_bits, Z.bits_0 by done.
    assert (E : ∀ j, 0 <= j < width t → Z.testbit d j = false).
    { intros j Hj. rewrite <- (Z.mod_pow2_bits_low d (width t)) by lia. by rewrite H0, Z.bits_0. }
    destruct (Z.ltb_spec i 64), (Z.ltb_spec i (width t)); try done; rewrite E by lia; [done|by rewrite andb_false_r].
Qed.

(** A number with no bit in common with its predecessor. *)
Lemma power_of_two v : 0 <= v < 2 ^ 64 → Z.land v ((v - 1) mod 2 ^ 64) = 0 → v = 0 ∨ ∃ k, 0 <= k ∧ v = 2 ^ k.
Proof.
  intros Hv H. destruct (Z.eq_dec v 0) as [|N]; [by left|]. right.
  rewrite Z.mod_small in H by lia. exists (Z.log2 v). split; [apply Z.log2_nonneg|].
  destruct (Z.log2_spec v ltac:(lia)) as [L U].
  destruct (Z.eq_dec v (2 ^ Z.log2 v)) as [|N2]; [done|]. exfalso.
  assert (Hp : 0 < 2 ^ Z.log2 v) by (apply Z.pow_pos_nonneg; [lia|apply Z.log2_nonneg]).
  assert (E : Z.log2 (v - 1) = Z.log2 v) by (apply Z.log2_unique; [apply Z.log2_nonneg|lia]).
  assert (B : Z.testbit (Z.land v (v - 1)) (Z.log2 v) = true).
  { rewrite Z.land_spec, Z.bit_log2 by lia. rewrite <- E. by rewrite Z.bit_log2 by lia. }
  by rewrite H, Z.bits_0 in B.
Qed.

(** Removing a single bit that is set. *)
Lemma take_bit w v e : 0 <= w → (∃ k, 0 <= k < w ∧ e mod 2 ^ w = 2 ^ k) → Z.land v e mod 2 ^ w ≠ 0 →
  Z.lor e (Z.lxor v e) mod 2 ^ w = v mod 2 ^ w.
Proof.
  intros Hw (k & Hk & He) Hn.
  assert (Be : ∀ i, 0 <= i < w → Z.testbit e i = (i =? k)).
  { intros i Hi. rewrite <- (Z.mod_pow2_bits_low e w) by lia. rewrite He.
    destruct (Z.eqb_spec i k) as [-> |N]; [apply Z.pow2_bits_true; lia|apply Z.pow2_bits_false; lia]. }
  assert (Bv : Z.testbit v k = true).
  { destruct (Z.testbit v k) eqn:Ev; [done|]. exfalso. apply Hn. apply Z.bits_inj'. intros i Hi.
    rewrite Z.bits_0. destruct (Z.lt_ge_cases i w) as [L|L]; [|apply Z.mod_pow2_bits_high; lia].
    rewrite Z.mod_pow2_bits_low, Z.land_spec, Be by lia.
    destruct (Z.eqb_spec i k) as [-> |]; [by rewrite Ev|by rewrite andb_false_r]. }
  apply Z.bits_inj'. intros i Hi. destruct (Z.lt_ge_cases i w) as [L|L]; [|by rewrite !Z.mod_pow2_bits_high by lia].
  rewrite !Z.mod_pow2_bits_low, Z.lor_spec, Z.lxor_spec, Be by lia.
  destruct (Z.eqb_spec i k) as [-> |]; [by rewrite Bv|]. by destruct (Z.testbit v i).
Qed.

(** ** Printing *)
Lemma lor_list a zs : foldl Z.lor a zs = Z.lor a (foldr Z.lor 0 zs).
Proof.
  revert a. induction zs as [|z zs IH]; intros a; cbn [foldl foldr]; [by rewrite Z.lor_0_r|].
  by rewrite IH, Z.lor_assoc.
Qed.

Lemma join_snoc ps p : ps ≠ [] → join (ps ++ [p]) = join ps ++ delimiter ++ p.
Proof.
  induction ps as [|q ps IH]; intros Hne; [done|]. destruct ps as [|r ps]; [done|].
  change (join ((q :: r :: ps) ++ [p])) with (q ++ delimiter ++ join ((r :: ps) ++ [p])).
  change (join (q :: r :: ps)) with (q ++ delimiter ++ join (r :: ps)).
  rewrite IH by done. by rewrite <- !app_assoc.
Qed.

Lemma print_number_ok wrapv buf t data e : length buf = print_buffer → t ≠ NotInt → width t <= 64 →
  ∃ txt, print_number wrapv buf t data = Some txt ∧ part e txt (read_as t data).
Proof.
  intros Hb Ht Hw. pose proof (width_pos t Ht) as H8. unfold print_number.
  assert (HP : 2 ^ (width t - 1) <= 2 ^ 63 ∧ 0 < 2 ^ (width t - 1) ∧ 2 ^ width t = 2 * 2 ^ (width t - 1)).
  { split; [apply Z.pow_le_mono_r; lia|]. split; [apply Z.pow_pos_nonneg; lia|].
    rewrite <- Z.pow_succ_r by lia. f_equal. lia. }
  pose proof (Z.mod_pos_bound (data + 2 ^ (width t - 1)) (2 ^ width t) ltac:(lia)).
  pose proof (Z.mod_pos_bound data (2 ^ width t) ltac:(lia)).
  destruct (is_signed t) eqn:Es.
  - assert (Hr : - 2 ^ 63 <= read_as t data < 2 ^ 63) by (unfold read_as; rewrite Es; lia).
    destruct (print_int128_ok wrapv buf (read_as t data) Hb ltac:(lia) ltac:(right; lia)) as (ds & -> & _ & Hd).
    cbn [mbind option_bind]. rewrite app_assoc.
    set (sg := (if decide (read_as t data < 0) then [45] else [])) in *.
    exists (sg ++ ds). rewrite take_app_alt by (rewrite (app_length _ [0]); cbn [length]; lia).
    split; [done|]. right.
    exists (bool_decide (read_as t data < 0)), ds, (Z.abs (read_as t data)).
    unfold sg. case_bool_decide as Hn; [rewrite decide_True by done|rewrite decide_False by done]; (split; [done|]; split; [done|]; lia).
  - assert (Hr : 0 <= read_as t data < 2 ^ 64) by (unfold read_as; rewrite Es; lia).
    destruct (print_uint128_ok buf (read_as t data) Hb ltac:(lia)) as (ds & -> & _ & Hd).
    cbn [mbind option_bind]. exists ds. rewrite take_app_alt by (rewrite app_length; cbn [length]; lia).
    split; [done|]. right. exists false, ds, (read_as t data). split; [done|]. split; [done|]. split; [lia|done].
Qed.

Section mem.
Context (mem : N → edesc).

(** The value of every enumerator fits the type, and its name reads as that value. *)
Definition enumerators_ok (e : env) (t : ity) (es : list N) : Prop :=
  ∀ x, x ∈ es → (∃ v, ed_val (mem x) = ext t v) ∧
    ∃ z, part e (ed_name (mem x)) z ∧ z mod 2 ^ 64 = ed_val (mem x).

Lemma print_names_ok e t es : t ≠ NotInt → width t <= 64 → enumerators_ok e t es →
  (∀ x, x ∈ es → ed_val (mem x) mod 2 ^ width t = 0 ∨ ∃ k, 0 <= k < width t ∧ ed_val (mem x) mod 2 ^ width t = 2 ^ k) →
  ∀ ps zs d d0 b txt rest, Forall2 (part e) ps zs → Z.lor (foldl Z.lor 0 zs) d mod 2 ^ width t = d0 →
  print_names mem delimiter es (bool_decide (ps = [])) (join ps) (ext t d) = (b, txt, rest) →
  ∃ ps' zs' d', Forall2 (part e) ps' zs' ∧ Z.lor (foldl Z.lor 0 zs') d' mod 2 ^ width t = d0 ∧
    b = bool_decide (ps' = []) ∧ txt = join ps' ∧ rest = ext t d' ∧ (ps' = [] → d' = d ∧ ps = []).
Proof.
  intros Ht Hw. pose proof (width_pos t Ht) as H8.
  induction es as [|x es IH]; intros He Hk ps zs d d0 b txt rest HF Hd Hpn.
  - cbn in Hpn. injection Hpn as <- <- <-. exists ps, zs, d. done.
  - cbn [print_names] in Hpn. destruct (He x ltac:(left)) as ((v & Ev) & z & Hz & Ez).
    assert (He' : enumerators_ok e t es) by (intros y Hy; apply He; by right).
    assert (Hk' : ∀ x, x ∈ es → ed_val (mem x) mod 2 ^ width t = 0 ∨ ∃ k, 0 <= k < width t ∧ ed_val (mem x) mod 2 ^ width t = 2 ^ k)
      by (intros y Hy; apply Hk; by right).
    rewrite Ev, ext_land, ext_lxor in Hpn by done.
    destruct (Z.eqb_spec (ext t (Z.land d v)) 0) as [E0|E0]; [by apply (IH He' Hk' ps zs d d0 b txt rest)|].
    assert (N0 : Z.land d v mod 2 ^ width t ≠ 0) by (rewrite <- ext_zero by done; done).
    assert (Hnew : Forall2 (part e) (ps ++ [ed_name (mem x)]) (zs ++ [z])) by (apply Forall2_app; [done|constructor; [done|constructor]]).
    assert (Ezv : z mod 2 ^ width t = v mod 2 ^ width t).
    { rewrite <- (mod_mod_le z (width t) 64) by lia. rewrite Ez, Ev. by apply ext_mod. }
    assert (Hnewd : Z.lor (foldl Z.lor 0 (zs ++ [z])) (Z.lxor d v) mod 2 ^ width t = d0).
    { rewrite <- Hd, foldl_app. cbn [foldl]. rewrite <- Z.lor_assoc.
      rewrite <- !(lor_mod (foldl Z.lor 0 zs) _ (width t)) by lia. f_equal.
      rewrite <- lor_mod by lia. rewrite Ezv. rewrite lor_mod by lia. apply take_bit; [lia| |done].
      destruct (Hk x ltac:(left)) as [E|E].
      - exfalso. apply N0. rewrite Ev, ext_mod in E by done.
        rewrite <- Z.land_ones by lia. rewrite <- Z.land_assoc, Z.land_ones by lia. by rewrite E, Z.land_0_r.
      - by rewrite Ev, ext_mod in E by done. }
    assert (Etxt : (if bool_decide (ps = []) then join ps else join ps ++ delimiter) ++ ed_name (mem x) = join (ps ++ [ed_name (mem x)])).
    { case_bool_decide as Hps; [by rewrite Hps|]. rewrite join_snoc by done. by rewrite <- app_assoc. }
    rewrite Etxt in Hpn.
    assert (Nn : ps ++ [ed_name (mem x)] ≠ []) by (by destruct ps).
    destruct (Z.eqb_spec (ext t (Z.lxor d v)) 0) as [E1|E1].
    + injection Hpn as <- <- <-. exists (ps ++ [ed_name (mem x)]), (zs ++ [z]), (Z.lxor d v).
      split; [done|]. split; [done|]. split; [by rewrite bool_decide_false|]. done.
    + replace false with (bool_decide (ps ++ [ed_name (mem x)] = [])) in Hpn by (by rewrite bool_decide_false).
      destruct (IH He' Hk' _ _ _ d0 b txt rest Hnew Hnewd Hpn) as (ps' & zs' & d' & P1 & P2 & P3 & P4 & P5 & P6).
      exists ps', zs', d'. do 5 (split; [done|]). intros E. by destruct (P6 E) as [_ ?].
Qed.

(** ** Lookup by value *)
Definition val_sorted (a : list N) : Prop :=
  ∀ i j x y, (i <= j)%nat → a !! i = Some x → a !! j = Some y → ed_val (mem x) <= ed_val (mem y).

Lemma find_val_loop kp value a fuel down up diff :
  kp ∉ a → val_sorted a → (down <= up <= length a)%nat → (up - down < fuel)%nat → diff ≠ 0 →
  (∀ i x, (i < down)%nat → a !! i = Some x → ed_val (mem x) < value) →
  (∀ i x, (up <= i)%nat → a !! i = Some x → value < ed_val (mem x)) →
  ∃ d idx, find_idx_loop (value_cmp mem kp value) fuel kp a down up diff = Some (d, idx) ∧
    ((d = 0 ∧ ∃ x, a !! idx = Some x ∧ ed_val (mem x) = value) ∨
     (d ≠ 0 ∧ ∀ x, x ∈ a → ed_val (mem x) ≠ value)).
Proof.
  intros Hk Hs. revert down up diff. induction fuel as [|fuel IH]; intros down up diff Hb Hf Hd Hlo Hhi; [lia|].
  cbn [find_idx_loop].
  destruct (Z.eqb_spec diff 0) as [|_]; [done|].
  destruct (Nat.eqb_spec up down) as [->|Hne]; cbn [negb andb].
  { exists diff, down. split; [done|]. right. split; [done|].
    intros x Hx. apply elem_of_list_lookup in Hx as [i Hi].
    destruct (decide (i < down)%nat) as [Hl|Hl]; [specialize (Hlo i x Hl Hi); lia|].
    specialize (Hhi i x ltac:(lia) Hi). lia. }
  pose proof (div2_between down up ltac:(lia)) as Hm.
  destruct (rd_Some a (Nat.div2 (down + up))) as [x Hx]; [lia|].
  rewrite Hx. cbn [mbind option_bind]. unfold rd in Hx.
  set (mid := Nat.div2 (down + up)) in *.
  assert (Ec : value_cmp mem kp value kp x = sign3 value (ed_val (mem x))).
  { unfold value_cmp. rewrite N.eqb_refl. destruct (N.eqb_spec x kp) as [->|]; [|done].
    exfalso. apply Hk. by eapply elem_of_list_lookup_2. }
  rewrite Ec.
  pose proof (sign3_neg value (ed_val (mem x))) as N1.
  pose proof (sign3_pos value (ed_val (mem x))) as P1.
  pose proof (sign3_zero value (ed_val (mem x))) as Z1.
  destruct (Z.leb_spec (sign3 value (ed_val (mem x))) 0) as [Hle|Hgt].
  - destruct (Z.eq_dec (sign3 value (ed_val (mem x))) 0) as [He|He].
    + assert (Hfu : ∃ f', fuel = S f') by (exists (fuel - 1)%nat; lia).
      destruct Hfu as [f' ->]. rewrite He. cbn [find_idx_loop].
      change (0 =? 0) with true. cbn [negb]. rewrite andb_false_r.
      exists 0, mid. split; [done|]. left. split; [done|]. exists x. split; [done|lia].
    + apply IH; [lia|lia|lia|done|].
      intros i y Hi Hy. pose proof (Hs mid i x y Hi Hx Hy). lia.
  - apply IH; [lia|lia|lia| |done].
    intros i y Hi Hy. pose proof (Hs i mid y x ltac:(lia) Hy Hx). lia.
Qed.

Lemma by_value_ok kp td value : kp ∉ enums td → val_sorted (enums td) →
  ∃ r, get_enum_by_value mem kp td value = Some r ∧
    match r with
    | None => ∀ x, x ∈ enums td → ed_val (mem x) ≠ value
    | Some x => x ∈ enums td ∧ ed_val (mem x) = value
    end.
Proof.
  intros Hk Hs. unfold get_enum_by_value, find_idx.
  destruct (find_val_loop kp value (enums td) (S (S (length (enums td)))) 0 (length (enums td)) 1) as (d & idx & E & H);
    [done|done|lia|lia|lia|intros; lia|intros i x Hi Hx; apply lookup_lt_Some in Hx; lia|].
  rewrite E. cbn [mbind option_bind]. destruct H as [(-> & x & Hx & Hv)|(Hd & H)].
  - cbn [negb Z.eqb]. unfold rd. rewrite Hx. exists (Some x). split; [done|]. split; [by eapply elem_of_list_lookup_2|done].
  - destruct (Z.eqb_spec d 0); [done|]. cbn [negb]. by exists None.
Qed.

(** ** [mr_init_enum] *)
Lemma classify_true m l cnt : (classify mem m l cnt true).2 = true →
  ∀ x, x ∈ l → Z.land (Z.land (ed_val (mem x)) m) ((Z.land (ed_val (mem x)) m - 1) mod 2 ^ 64) = 0.
Proof.
  assert (Hf : ∀ l cnt, (classify mem m l cnt false).2 = false).
  { induction l0 as [|y l0 IH]; intros c; [done|]. cbn. repeat destruct (_ =? 0); apply IH. }
  revert cnt. induction l as [|y l IH]; intros cnt Hc x Hx; [by apply elem_of_nil in Hx|].
  cbn in Hc. destruct (Z.eqb_spec (Z.land (Z.land (ed_val (mem y)) m) ((Z.land (ed_val (mem y)) m - 1) mod 2 ^ 64)) 0) as [E|E].
  - apply elem_of_cons in Hx as [->|Hx]; [done|]. by eapply IH.
  - by rewrite Hf in Hc.
Qed.

Lemma init_enum_ok wrapv t0 sz es td : t0 ≠ NotInt → width t0 <= 64 → init_enum mem wrapv t0 sz es = Some td →
  mr_type_effective td = t0 ∧ enums td ≡ₚ es ∧ val_sorted (enums td) ∧
  (is_bitmask td = true → ∀ x, x ∈ es →
     ed_val (mem x) mod 2 ^ width t0 = 0 ∨ ∃ k, 0 <= k < width t0 ∧ ed_val (mem x) mod 2 ^ width t0 = 2 ^ k).
Proof.
  intros Ht Hw H. unfold init_enum in H.
  assert (Hdet : detect t0 sz = (t0, width t0 / 8, sz)) by (by destruct t0).
  rewrite Hdet in H.
  destruct (hsort_safe (value_cmp_sorting mem) es) as (a & Ha & Hp). rewrite Ha in H. cbn [mbind option_bind] in H.
  assert (Hs : val_sorted a).
  { refine (hsort_sorted_in (value_cmp_sorting mem) (λ x y, ed_val (mem x) <= ed_val (mem y)) es a _ _ _ Ha).
    - intros x y _ _. unfold value_cmp_sorting. pose proof (sign3_pos (ed_val (mem x)) (ed_val (mem y))). lia.
    - intros x y _ _. unfold value_cmp_sorting. pose proof (sign3_pos (ed_val (mem x)) (ed_val (mem y))). lia.
    - intros x y z _ _ _. lia. }
  assert (Hm : a ≠ [] → ∀ m, mask wrapv (width t0 / 8 * 8) = Some m → m = Z.ones (width t0)).
  { intros _ m. unfold mask. rewrite Z.ones_equiv. destruct t0; try done; cbn [width]; cbn;
      try (injection 1 as <-; done). all: destruct wrapv; [injection 1 as <-; done|done]. }
  destruct (match a with [] => Some 0 | _ => mask wrapv (width t0 / 8 * 8) end) as [m|] eqn:Em; [|done].
  cbn [mbind option_bind] in H. destruct (classify mem m a 0 true) as [cnt bm] eqn:Ec. injection H as <-. cbn.
  split; [done|]. split; [by symmetry|]. split; [done|].
  intros Hb x Hx. apply andb_prop in Hb as [-> _].
  assert (Hx' : x ∈ a) by (by rewrite <- Hp).
  assert (Em' : m = Z.ones (width t0)).
  { destruct a; [by apply elem_of_nil in Hx'|]. by apply Hm. }
  assert (Hc := classify_true m a 0). rewrite Ec in Hc. specialize (Hc eq_refl x Hx'). rewrite Em' in Hc.
  pose proof (width_pos t0 Ht). rewrite Z.land_ones in Hc by lia.
  assert (HP : 2 ^ width t0 <= 2 ^ 64) by (apply Z.pow_le_mono_r; lia).
  assert (HP0 : 0 < 2 ^ width t0) by (apply Z.pow_pos_nonneg; lia).
  pose proof (Z.mod_pos_bound (ed_val (mem x)) (2 ^ width t0) HP0).
  destruct (power_of_two (ed_val (mem x) mod 2 ^ width t0)) as [E|(k & Hk & E)]; [lia|done|by left|].
  right. exists k. split; [|done]. split; [done|]. apply (Z.pow_lt_mono_r_iff 2); lia.
Qed.

Lemma init_enum_defined wrapv t0 sz es : t0 ≠ NotInt → width t0 <= 32 ∨ (width t0 <= 64 ∧ wrapv = true) →
  ∃ td, init_enum mem wrapv t0 sz es = Some td.
Proof.
  intros Ht Hw. unfold init_enum.
  assert (Hdet : detect t0 sz = (t0, width t0 / 8, sz)) by (by destruct t0).
  rewrite Hdet. destruct (hsort_safe (value_cmp_sorting mem) es) as (a & -> & _). cbn [mbind option_bind].
  assert (Hm : ∃ m, match a with [] => Some 0 | _ => mask wrapv (width t0 / 8 * 8) end = Some m).
  { destruct a; [by eexists|]. unfold mask.
    destruct Hw as [Hw|[Hw ->]]; destruct t0; try done; cbn in *; try lia; eexists; done. }
  destruct Hm as [m ->]. cbn [mbind option_bind]. destruct (classify mem m a 0 true). by eexists.
Qed.

(** ** Round trip *)
Lemma printf_enum_ok e wrapv buf kp td t data : length buf = print_buffer → t ≠ NotInt → width t <= 64 →
  mr_type_effective td = t → kp ∉ enums td → val_sorted (enums td) → enumerators_ok e t (enums td) →
  ∃ txt z, printf_enum mem wrapv buf kp td data = Some txt ∧ part e txt z ∧ z mod 2 ^ width t = data mod 2 ^ width t.
Proof.
  intros Hb Ht Hw Et Hk Hs He. pose proof (width_pos t Ht). unfold printf_enum.
  destruct (by_value_ok kp td (get_enum_value td data) Hk Hs) as (r & -> & Hr). cbn [mbind option_bind].
  assert (Ev : get_enum_value td data = ext t data) by (unfold get_enum_value; rewrite Et; by destruct t).
  destruct r as [x|].
  - destruct Hr as [Hx Hv]. destruct (He x Hx) as (_ & z & Hz & Ez). exists (ed_name (mem x)), z.
    split; [done|]. split; [done|]. rewrite <- (mod_mod_le z (width t) 64) by lia.
    rewrite Ez, Hv, Ev. by apply ext_mod.
  - rewrite Et. destruct (print_number_ok wrapv buf t data e Hb Ht Hw) as (txt & E & Hp).
    exists txt, (read_as t data). split; [destruct t; done|]. split; [done|]. by apply read_as_mod.
Qed.

Lemma printf_bitmask_ok e wrapv buf kp td t data : length buf = print_buffer → t ≠ NotInt → width t <= 64 →
  mr_type_effective td = t → kp ∉ enums td → val_sorted (enums td) → enumerators_ok e t (enums td) →
  (is_bitmask td = true → ∀ x, x ∈ enums td →
     ed_val (mem x) mod 2 ^ width t = 0 ∨ ∃ k, 0 <= k < width t ∧ ed_val (mem x) mod 2 ^ width t = 2 ^ k) →
  ∃ ps zs, printf_bitmask mem wrapv buf kp td data delimiter = Some (join ps) ∧ ps ≠ [] ∧ Forall2 (part e) ps zs ∧
    foldl Z.lor 0 zs mod 2 ^ width t = data mod 2 ^ width t.
Proof.
  intros Hb Ht Hw Et Hk Hs He Hbm. pose proof (width_pos t Ht). unfold printf_bitmask.
  destruct (printf_enum_ok e wrapv buf kp td t data) as (txt & z & E & Hp & Hz); [done..|].
  assert (Hone : ∃ ps zs, printf_enum mem wrapv buf kp td data = Some (join ps) ∧ ps ≠ [] ∧ Forall2 (part e) ps zs ∧
    foldl Z.lor 0 zs mod 2 ^ width t = data mod 2 ^ width t).
  { exists [txt], [z]. split; [done|]. split; [done|]. split; [constructor; [done|constructor]|done]. }
  destruct (is_bitmask td); [|done]. cbn [negb]. specialize (Hbm eq_refl).
  assert (Ev : get_enum_value td data = ext t data) by (unfold get_enum_value; rewrite Et; by destruct t).
  rewrite Ev. destruct (Z.eqb_spec (ext t data) 0) as [E0|E0]; [done|]. clear Hone.
  destruct (print_names mem delimiter (enums td) true [] (ext t data)) as [[b tx] rest] eqn:Epn.
  destruct (print_names_ok e t (enums td) Ht Hw He Hbm [] [] data (data mod 2 ^ width t) b tx rest) as (ps & zs & d & P1 & P2 & P3 & P4 & P5 & P6);
    [constructor|done|done|].
  subst tx rest. destruct (Z.eqb_spec (ext t d) 0) as [Er|Er].
  - exists ps, zs. split; [done|]. split. { intros Hn. destruct (P6 Hn) as [-> _]. done. }
    split; [done|]. rewrite <- P2, <- lor_mod by lia. apply ext_zero in Er; [|done|done]. by rewrite Er, Z.lor_0_r.
  - destruct (print_number_ok wrapv buf t (ext t d) e Hb Ht Hw) as (n & En & Hn).
    assert (Etx : (if b then join ps else join ps ++ delimiter) ++ n = join (ps ++ [n])).
    { rewrite P3. case_bool_decide as Hps; [by rewrite Hps|]. rewrite join_snoc by done. by rewrite <- app_assoc. }
    exists (ps ++ [n]), (zs ++ [read_as t (ext t d)]).
    split. { rewrite Et. rewrite <- Etx. destruct t; try done; rewrite En; cbn [mbind option_bind]; by destruct b. }
    split; [by destruct ps|]. split; [apply Forall2_app; [done|constructor; [done|constructor]]|].
    rewrite foldl_app. cbn [foldl]. rewrite <- lor_mod by lia. rewrite read_as_mod, ext_mod by done. by rewrite lor_mod by lia.
Qed.
End mem.

(** ** As an expression *)
(** The expression the CINIT grammar makes of a part: an identifier, a number, or a
    number with a sign (src/cinit_load.y:225-243). *)
Inductive part_expr {F} (p : list Z) : expr F → Prop :=
  | pe_id s : text_at s p → (∃ c p', p = c :: p' ∧ (isalpha c = true ∨ c = 95)) → part_expr p (Id s (length p))
  | pe_num v : decimal_text p v → part_expr p (Num v)
  | pe_neg ds v : p = 45 :: ds → decimal_text ds v → part_expr p (Neg (Num v)).

(** The same for an or-list; [|] is left associative (src/cinit_load.y:96). *)
Inductive list_expr {F} : list (list Z) → expr F → Prop :=
  | le_one p x : part_expr p x → list_expr [p] x
  | le_more ps x p y : list_expr ps x → part_expr p y → list_expr (ps ++ [p]) (Int Or x y).

Section E.
Context {F : Type} `{FL : Floats F}.

Lemma part_expr_ok e p z (x : expr F) : part e p z → part_expr p x → denotes e x z.
Proof.
  intros Hp Hx. destruct Hp as [(Hn & c & p' & Ep & Hc)|(neg & ds & v & Ep & Hd & Hv & ->)].
  - destruct Hx as [s Ht _|v Hd|ds v E Hd].
    + by apply d_id.
    + exfalso. destruct Hd as (_ & H2 & _). rewrite Ep in H2. apply Forall_inv in H2. apply isdigit_in in H2.
      unfold isalpha, isdigit, isupper, islower in *. lia.
    + exfalso. rewrite Ep in E. injection E as -> _. destruct Hc as [Hc|Hc]; done.
  - assert (Hfirst : ∀ d r, ds = d :: r → isdigit d = true).
    { intros d r E. destruct Hd as (_ & H2 & _). rewrite E in H2. apply isdigit_in. by apply Forall_inv in H2. }
    assert (Hne : ds ≠ []) by apply Hd.
    destruct Hx as [s Ht (c & p' & E & Hc)|v' Hd'|ds' v' E Hd'].
    + exfalso. rewrite Ep in E. destruct neg; cbn in E.
      * injection E as <- _. destruct Hc as [Hc|Hc]; done.
      * assert (D := Hfirst _ _ E). unfold isalpha, isdigit, isupper, islower in *. lia.
    + destruct neg; cbn in Ep.
      * exfalso. destruct Hd' as (_ & H2 & _). rewrite Ep in H2. apply Forall_inv in H2. by apply isdigit_in in H2.
      * subst ds. assert (v' = v) as ->. { destruct Hd as (_ & _ & <- & _), Hd' as (_ & _ & <- & _). done. }
        by apply d_num.
    + destruct neg; cbn in Ep.
      * rewrite Ep in E. injection E as <-. assert (v' = v) as ->. { destruct Hd as (_ & _ & <- & _), Hd' as (_ & _ & <- & _). done. }
        apply d_neg; [by apply d_num|]. unfold int128. lia.
      * exfalso. rewrite Ep in E. assert (D := Hfirst _ _ E). done.
Qed.

Lemma list_expr_ok e ps zs (x : expr F) : Forall2 (part e) ps zs → list_expr ps x → denotes e x (foldl Z.lor 0 zs).
Proof.
  intros H Hx. revert zs H. induction Hx as [p x Hp|ps x p y Hx IH Hp]; intros zs H.
  - apply Forall2_cons_inv_l in H as (z & zs' & Hz & H & ->). apply Forall2_nil_inv_l in H as ->.
    cbn [foldl]. rewrite Z.lor_0_l. by eapply part_expr_ok.
  - apply Forall2_app_inv_l in H as (z1 & z2 & H1 & H2 & ->).
    apply Forall2_cons_inv_l in H2 as (z & zs' & Hz & H & ->). apply Forall2_nil_inv_l in H as ->.
    rewrite foldl_app. cbn [foldl]. apply d_or; [by apply IH|]. by eapply part_expr_ok.
Qed.
End E.

Lemma part_expr_exists {F} e p z : part e p z → ∃ x : expr F, part_expr p x.
Proof.
  intros [(Hn & Hc)|(neg & ds & v & -> & Hd & _)].
  - exists (Id (p ++ [0]) (length p)). apply pe_id; [|done]. by exists 0, [].
  - destruct neg.
    + exists (Neg (Num v)). by apply (pe_neg _ ds).
    + exists (Num v). by apply pe_num.
Qed.

Lemma list_expr_exists {F} e ps zs : Forall2 (part e) ps zs → ps ≠ [] → ∃ x : expr F, list_expr ps x.
Proof.
  intros H. revert zs H. induction ps as [|p ps IH] using rev_ind; intros zs H Hne; [done|].
  apply Forall2_app_inv_l in H as (z1 & z2 & H1 & H2 & ->).
  apply Forall2_cons_inv_l in H2 as (z & zs' & Hz & H & ->).
  destruct (@part_expr_exists F e p z Hz) as [y Hy].
  destruct (decide (ps = [])) as [->|Hn]; [exists y; by apply (le_one p)|].
  destruct (IH z1 H1 Hn) as [x Hx]. exists (Int Or x y). by apply le_more.
Qed.

(** ** Registered enumerators *)
(** A C identifier other than the two constants of the parser. *)
Definition identifier (name : list Z) : Prop :=
  Forall (λ c, isident c = true) name ∧ (∃ c r, name = c :: r ∧ (isalpha c = true ∨ c = 95)) ∧
  name ≠ txt_false ∧ name ≠ txt_true.

Lemma max_length_in e name d : (name, d) ∈ e → (length name <= max_length e)%nat.
Proof.
  induction e as [|[n d'] e IH]; intros H; [by apply elem_of_nil in H|]. cbn.
  apply elem_of_cons in H as [[= <- <-]|H]; [lia|]. specialize (IH H). unfold max_length in IH. lia.
Qed.

Lemma env_split (e : env) name d : NoDup e.*1 → (name, d) ∈ e →
  ∃ before after, e = before ++ (name, d) :: after ∧ name ∉ before.*1.
Proof.
  intros Hn Hin. apply elem_of_list_split in Hin as (b & a & ->). exists b, a. split; [done|].
  rewrite fmap_app in Hn. apply NoDup_app in Hn as (_ & Hd & _). intros H. apply (Hd name H). left.
Qed.

Section R.
Context (mem : N → edesc).

Lemma registered_ok e t es : t ≠ NotInt → width t <= 64 → NoDup e.*1 →
  (∀ x, x ∈ es → (ed_name (mem x), descriptor t (ed_val (mem x))) ∈ e ∧ identifier (ed_name (mem x)) ∧
     ∃ v, ed_val (mem x) = read_as t v mod 2 ^ 64) →
  enumerators_ok mem e t es.
Proof.
  intros Ht Hw Hn He x Hx. destruct (He x Hx) as (Hin & (Hid & Hhd & Hf & Htr) & v & Ev).
  split; [by exists v|].
  assert (Hr : 0 <= ed_val (mem x) < 2 ^ 64) by (rewrite Ev; apply Z.mod_pos_bound; lia).
  destruct (env_split e _ _ Hn Hin) as (b & a & Ee & Hb).
  assert (∃ z, ed_means (descriptor t (ed_val (mem x))) z ∧ z mod 2 ^ 64 = ed_val (mem x)) as (z & Hz & Em).
  { unfold descriptor. destruct t; try done; cbn [width] in Hw; try lia; cbn [ed_means].
    1,3,5,7: exists (ed_val (mem x)); split; [done|]; by apply Z.mod_small.
    all: exists ((ed_val (mem x) + 2 ^ 63) mod 2 ^ 64 - 2 ^ 63);
      (split; [split; [done|]; pose proof (Z.mod_pos_bound (ed_val (mem x) + 2 ^ 63) (2 ^ 64) ltac:(lia)); lia|]);
      rewrite Zminus_mod_idemp_l, Z.add_simpl_r; by apply Z.mod_small. }
  exists z. split; [|done]. left. split; [|done].
  split; [done|]. split; [by eapply max_length_in|]. right; right. split; [done|]. split; [done|].
  by exists b, (descriptor t (ed_val (mem x))), a.
Qed.
End R.
