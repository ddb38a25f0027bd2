(** C96: arrays of basic types are sorted. *)
From Verif Require Import Base Spec HSort HSortProof P_Sort HashStr HashStrProof CmpHash CmpHashProof BasicSort.
Local Open Scope Z_scope.

(** *** Vocabulary *)

(** The bytes of a number, least significant first. *)
Definition stores (n : nat) (e : list Z) (z : Z) : Prop :=
  length e = n /\ forall k : nat, (k < n)%nat -> e !! k = Some (z / 256 ^ Z.of_nat k mod 256).

(** Number, size in bytes and sign of the integer types (MR_TYPE_CHAR is 3,
    INT8 to UINT128 are 6 to 15), and of the function types, stored as pointers. *)
Definition int_types : list (Z * nat * bool) :=
  [(3, 1%nat, true); (6, 1%nat, true); (7, 1%nat, false); (8, 2%nat, true); (9, 2%nat, false);
   (10, 4%nat, true); (11, 4%nat, false); (12, 8%nat, true); (13, 8%nat, false);
   (14, 16%nat, true); (15, 16%nat, false); (24, 8%nat, false); (25, 8%nat, false)].
Definition int_range (n : nat) (signed : bool) (z : Z) : Prop :=
  if signed then - 2 ^ (8 * Z.of_nat n - 1) <= z < 2 ^ (8 * Z.of_nat n - 1) else 0 <= z < 2 ^ (8 * Z.of_nat n).

(** The floating point types: number, format, size in memory, bits of the
    fraction, and the largest exponent field. *)
Definition float_types : list (Z * fmt * nat * Z * Z) :=
  [(16, F32, 4%nat, 23, 255); (18, F64, 8%nat, 52, 2047); (20, F80, 16%nat, 63, 32767)].
(** Magnitude of a number with exponent field [e] and fraction [m], in units of
    the least positive number; an infinity is larger than all numbers. *)
Definition magnitude (fr e m : Z) : Z := (if e =? 0 then m else m + 2 ^ fr) * 2 ^ (Z.max e 1 - 1).
(** Bit pattern without sign; the 80 bit format has an explicit integer bit. *)
Definition pattern (f : fmt) (fr e m : Z) : Z :=
  match f with
  | F80 => e * 2 ^ 64 + (if e =? 0 then 0 else 2 ^ 63) + m
  | _ => e * 2 ^ fr + m
  end.

Inductive value := VNum (z : Z) | VNull | VText (s : list Z).

(** The element [x] of an array of type [t] holds the value. *)
Inductive holds (ev : env) (t : Z) (x : list Z) : value -> Prop :=
  | HInt n signed z : In (t, n, signed) int_types -> stores n x z -> int_range n signed z -> holds ev t x (VNum z)
  | HBool z : t = 5 -> stores 1 x z -> 0 <= z <= 1 -> holds ev t x (VNum z)
  | HFloat f n fr emax (s : bool) e m : In (t, f, n, fr, emax) float_types -> length x = n ->
      stores (fmt_size f) (take (fmt_size f) x)
        (pattern f fr e m + if s then 2 ^ (8 * Z.of_nat (fmt_size f) - 1) else 0) ->
      0 <= e <= emax -> 0 <= m < 2 ^ fr -> (e = emax -> m = 0) ->
      holds ev t x (VNum (if s then - magnitude fr e m else magnitude fr e m))
  | HNull : t = 1 -> stores 8 x 0 -> holds ev t x VNull
  | HString p s : t = 1 -> stores 8 x p -> 0 < p < 2 ^ 64 -> text ev p = Some s -> is_cstr s -> holds ev t x (VText s)
  | HChars s rest : t = 2 -> x = s ++ 0 :: rest -> is_cstr s -> holds ev t x (VText s).

(** The types with an order: STRING, CHAR_ARRAY, CHAR, BOOL, the integer and the
    real floating point types, FUNC_TYPE and FUNC. *)
Definition ordered_types : list Z := [1; 2; 3; 5; 6; 7; 8; 9; 10; 11; 12; 13; 14; 15; 16; 18; 20; 24; 25].

(** Alphabetical order by bytes. *)
Definition alphabetical (a b : list Z) : Prop :=
  (exists r, b = a ++ r) \/ (exists p c d a' b', a = p ++ c :: a' /\ b = p ++ d :: b' /\ c < d).
(** Numbers by size, null strings first, texts in alphabetical order. *)
Definition value_le (v w : value) : Prop :=
  match v, w with
  | VNum a, VNum b => a <= b
  | VNull, (VNull | VText _) => True
  | VText a, VText b => alphabetical a b
  | _, _ => False
  end.

(** *** Proof *)

Lemma stores_num n : forall e z, stores n e z -> e = num_le n z.
Proof.
  induction n as [|n IH]; intros e z [L K].
  - by destruct e.
  - destruct e as [|b e]; [done|]. cbn [num_le].
    pose proof (K O ltac:(lia)) as K0. change (256 ^ Z.of_nat 0) with 1 in K0. rewrite Z.div_1_r in K0. cbn in K0.
    injection K0 as ->. f_equal. apply IH. split; [cbn in L; lia|].
    intros k Hk. pose proof (K (S k) ltac:(lia)) as K1. change ((z mod 256 :: e) !! S k) with (e !! k) in K1.
    rewrite K1. f_equal. rewrite Nat2Z.inj_succ, Z.pow_succ_r by lia. rewrite Z.div_div by lia. done.
Qed.

Lemma le_num_le n : forall z, le_num (num_le n z) = z mod 2 ^ (8 * Z.of_nat n).
Proof.
  induction n as [|n IH]; intros z; cbn [num_le le_num].
  - by rewrite Z.mod_1_r.
  - rewrite IH. replace (8 * Z.of_nat (S n)) with (8 + 8 * Z.of_nat n) by lia.
    rewrite Z.pow_add_r by lia. change (2 ^ 8) with 256. rewrite Z.rem_mul_r by lia. lia.
Qed.

Lemma le_int_of n signed z : (0 < n)%nat -> int_range n signed z -> le_int signed (num_le n z) = z.
Proof.
  intros Hn R. unfold le_int. rewrite le_num_le, num_le_length.
  set (w := 8 * Z.of_nat n) in *. assert (Hw : 0 < w) by lia.
  assert (E : 2 ^ w = 2 * 2 ^ (w - 1)) by (rewrite <- Z.pow_succ_r by lia; f_equal; lia).
  unfold int_range in R. fold w in R. destruct signed; cbn [andb].
  - destruct (Z.ltb_spec z 0).
    + assert (z mod 2 ^ w = z + 2 ^ w) as -> by (symmetry; apply Z.mod_unique with (-1); lia).
      destruct (Z.leb_spec (2 ^ (w - 1)) (z + 2 ^ w)); lia.
    + rewrite Z.mod_small by lia. destruct (Z.leb_spec (2 ^ (w - 1)) z); lia.
  - by rewrite Z.mod_small by lia.
Qed.

Lemma bytes_at_all x n : length x = n -> bytes_at x 0 n = Some x.
Proof. intros <-. unfold bytes_at. rewrite Nat.leb_refl, drop_0, take_ge; done. Qed.

Lemma ptr_bytes x p : stores 8 x p -> 0 <= p < 2 ^ 64 -> bytes_at x 0 8 = Some x /\ le_num x = p.
Proof.
  intros S P. split; [apply bytes_at_all; apply S|]. apply stores_num in S as ->. rewrite le_num_le. by apply Z.mod_small.
Qed.

Lemma sgn3_le a b : sgn3 a b <= 0 <-> a <= b.
Proof. unfold sgn3. destruct (Z.ltb_spec b a), (Z.ltb_spec a b); cbn; lia. Qed.

Lemma text_at_app s rest : is_cstr s -> text_at (s ++ 0 :: rest) = Some s.
Proof.
  induction s as [|c s IH]; intros H; [done|]. apply Forall_cons in H as [Hc H]. cbn [app text_at].
  destruct (Z.eqb_spec c 0); [lia|]. by rewrite IH.
Qed.

Lemma strcmp_alpha a : forall b, is_cstr a -> is_cstr b -> strcmp a b <= 0 <-> alphabetical a b.
Proof.
  unfold alphabetical. induction a as [|x a IH]; intros [|y b] Ha Hb; cbn [strcmp].
  - split; [|lia]. intros _. left. by exists [].
  - apply Forall_cons in Hb as [Hy _]. split; [|lia]. intros _. left. by exists (y :: b).
  - apply Forall_cons in Ha as [Hx _]. split; [lia|].
    intros [[r E]|(p & c & d & a' & b' & _ & E & _)]; [done|]. by destruct p.
  - apply Forall_cons in Ha as [Hx Ha]. apply Forall_cons in Hb as [Hy Hb].
    destruct (Z.eqb_spec x y) as [->|N].
    + rewrite (IH b Ha Hb). split.
      * intros [[r ->]|(p & c & d & a' & b' & -> & -> & L)]; [left; by exists r|right].
        by exists (y :: p), c, d, a', b'.
      * intros [[r E]|(p & c & d & a' & b' & E1 & E2 & L)].
        -- left. injection E as ->. by exists r.
        -- destruct p as [|q p]; cbn in E1, E2; injection E1 as -> ->; injection E2; intros; subst; [lia|].
           right. by exists p, c, d, a', b'.
    + split.
      * intros L. right. exists [], x, y, a, b. repeat split; lia.
      * intros [[r E]|(p & c & d & a' & b' & E1 & E2 & L)]; [by injection E|].
        destruct p as [|q p]; cbn in E1, E2; injection E1; injection E2; intros; subst; lia.
Qed.

Lemma magnitude_mono fr e m e' m' : 0 <= fr -> 0 <= e -> 0 <= e' -> 0 <= m < 2 ^ fr -> 0 <= m' < 2 ^ fr ->
  e < e' \/ (e = e' /\ m < m') -> magnitude fr e m < magnitude fr e' m'.
Proof.
  intros Hf He He' Hm Hm' [L|[-> L]]; unfold magnitude.
  - replace (e' =? 0) with false by lia.
    assert (P : 2 ^ (Z.max e 1 - 1) > 0) by (apply Z.lt_gt, Z.pow_pos_nonneg; lia).
    destruct (Z.eqb_spec e 0) as [->|N].
    + change (2 ^ (Z.max 0 1 - 1)) with 1. assert (1 <= 2 ^ (Z.max e' 1 - 1)) by (apply (Z.pow_le_mono_r 2 0); lia). nia.
    + rewrite !Z.max_l by lia. rewrite Z.max_l in P by lia.
      assert (2 * 2 ^ (e - 1) <= 2 ^ (e' - 1)).
      { rewrite <- Z.pow_succ_r by lia. apply Z.pow_le_mono_r; lia. }
      nia.
  - assert (P : 2 ^ (Z.max e' 1 - 1) > 0) by (apply Z.lt_gt, Z.pow_pos_nonneg; lia).
    destruct (e' =? 0); nia.
Qed.

Lemma magnitude_nonneg fr e m : 0 <= fr -> 0 <= m -> 0 <= magnitude fr e m.
Proof. intros. unfold magnitude. apply Z.mul_nonneg_nonneg; [|apply Z.pow_nonneg; lia]. pose proof (Z.pow_nonneg 2 fr). destruct (e =? 0); lia. Qed.

Lemma pattern_mono t f n fr emax e m e' m' : In (t, f, n, fr, emax) float_types ->
  0 <= e -> 0 <= e' -> 0 <= m < 2 ^ fr -> 0 <= m' < 2 ^ fr ->
  e < e' \/ (e = e' /\ m < m') -> pattern f fr e m < pattern f fr e' m'.
Proof.
  intros I He He' Hm Hm' L.
  assert (C : (f <> F80 /\ 0 <= fr) \/ (f = F80 /\ fr = 63)).
  { cbn in I. destruct I as [I|[I|[I|[]]]]; injection I; intros; subst; [left|left|right]; done. }
  destruct C as [[Nf F]|[-> ->]].
  - destruct f; try done; cbn [pattern]; destruct L as [L|[-> L]]; nia.
  - cbn [pattern]. destruct L as [L|[E L]]; destruct (Z.eqb_spec e 0), (Z.eqb_spec e' 0); lia.
Qed.

(** Patterns and magnitudes are in the same order. *)
Lemma float_le t f n fr emax e m e' m' : In (t, f, n, fr, emax) float_types -> 0 <= fr ->
  0 <= e -> 0 <= e' -> 0 <= m < 2 ^ fr -> 0 <= m' < 2 ^ fr ->
  pattern f fr e m <= pattern f fr e' m' <-> magnitude fr e m <= magnitude fr e' m'.
Proof.
  intros I F He He' Hm Hm'.
  destruct (Z.lt_trichotomy e e') as [L|[E|L]].
  - pose proof (pattern_mono t f n fr emax e m e' m' I He He' Hm Hm' (or_introl L)).
    pose proof (magnitude_mono fr e m e' m' F He He' Hm Hm' (or_introl L)). lia.
  - destruct (Z.lt_trichotomy m m') as [L|[E2|L]].
    + pose proof (pattern_mono t f n fr emax e m e' m' I He He' Hm Hm' (or_intror (conj E L))).
      pose proof (magnitude_mono fr e m e' m' F He He' Hm Hm' (or_intror (conj E L))). lia.
    + subst. lia.
    + pose proof (pattern_mono t f n fr emax e' m' e m I He' He Hm' Hm (or_intror (conj (eq_sym E) L))).
      pose proof (magnitude_mono fr e' m' e m F He' He Hm' Hm (or_intror (conj (eq_sym E) L))). lia.
  - pose proof (pattern_mono t f n fr emax e' m' e m I He' He Hm' Hm (or_introl L)).
    pose proof (magnitude_mono fr e' m' e m F He' He Hm' Hm (or_introl L)). lia.
Qed.

(** What the comparison sees of an element. *)
Lemma float_place t f n fr emax (s : bool) e m x : In (t, f, n, fr, emax) float_types -> length x = n ->
  stores (fmt_size f) (take (fmt_size f) x) (pattern f fr e m + if s then 2 ^ (8 * Z.of_nat (fmt_size f) - 1) else 0) ->
  0 <= e <= emax -> 0 <= m < 2 ^ fr -> (e = emax -> m = 0) ->
  rd_float f x 0 = Some (FNum (if s then - pattern f fr e m else pattern f fr e m)) /\ 0 <= pattern f fr e m.
Proof.
  intros I L St He Hm Hinf. apply stores_num in St.
  assert (P : 0 <= pattern f fr e m < 2 ^ (8 * Z.of_nat (fmt_size f) - 1) /\ (fmt_size f <= n)%nat /\
    match f with F32 => 2139095040 <? pattern f fr e m | F64 => 9218868437227405312 <? pattern f fr e m
    | F80 => (pattern f fr e m / 2 ^ 64 =? 32767) && negb (pattern f fr e m mod 2 ^ 63 =? 0) end = false).
  { cbn in I. destruct I as [I|[I|[I|[]]]]; injection I; intros; subst; cbn [pattern fmt_size]; clear I St.
    - change (2 ^ 23) with 8388608 in *. change (2 ^ (8 * Z.of_nat 4 - 1)) with 2147483648. split; [lia|]. split; [lia|].
      apply Z.ltb_ge. destruct (Z.eq_dec e 255) as [->|]; lia.
    - change (2 ^ 52) with 4503599627370496 in *. change (2 ^ (8 * Z.of_nat 8 - 1)) with 9223372036854775808. split; [lia|]. split; [lia|].
      apply Z.ltb_ge. destruct (Z.eq_dec e 2047) as [->|]; lia.
    - change (2 ^ 64) with (2 * 2 ^ 63). set (q := 2 ^ 63) in *. assert (Hq : q > 0) by (unfold q; lia).
      change (2 ^ (8 * Z.of_nat 10 - 1)) with (65536 * q).
      assert (Hr : exists r, (if e =? 0 then 0 else q) = r /\ 0 <= r <= q) by (destruct (e =? 0); eexists; (split; [reflexivity|lia])).
      destruct (Z.eqb_spec e 0) as [->|N].
      + split; [lia|]. split; [lia|]. apply andb_false_iff. left. rewrite Z.div_small by lia. reflexivity.
      + split; [nia|]. split; [lia|]. destruct (Z.eq_dec e 32767) as [->|N2].
        * rewrite Hinf by done. apply andb_false_iff. right. apply negb_false_iff, Z.eqb_eq.
          replace (32767 * (2 * q) + q + 0) with (65535 * q) by lia. apply Z.mod_mul. lia.
        * apply andb_false_iff. left. apply Z.eqb_neq. intros C.
          assert ((e * (2 * q) + q + m) / (2 * q) = e) by (symmetry; apply Z.div_unique with (q + m); lia). lia. }
  destruct P as (P & Sz & NaN). split; [|lia].
  unfold rd_float, bytes_at. cbn [Nat.add]. replace (fmt_size f <=? length x)%nat with true by (symmetry; apply Nat.leb_le; lia).
  cbn [mbind option_bind]. rewrite drop_0, St, le_num_le. f_equal. unfold fval_of.
  set (w := 8 * Z.of_nat (fmt_size f)) in *. assert (Hw : 0 < w) by (unfold w; destruct f; cbn; lia).
  assert (E : 2 ^ w = 2 * 2 ^ (w - 1)) by (rewrite <- Z.pow_succ_r by lia; f_equal; lia).
  assert (B : (pattern f fr e m + (if s then 2 ^ (w - 1) else 0)) mod 2 ^ w = pattern f fr e m + (if s then 2 ^ (w - 1) else 0))
    by (apply Z.mod_small; destruct s; lia).
  rewrite B.
  assert (M : (pattern f fr e m + (if s then 2 ^ (w - 1) else 0)) mod 2 ^ (w - 1) = pattern f fr e m).
  { destruct s.
    - symmetry. apply Z.mod_unique with 1; lia.
    - rewrite Z.add_0_r. apply Z.mod_small. lia. }
  rewrite M, NaN. f_equal. destruct s.
  - replace (2 ^ (w - 1) <=? pattern f fr e m + 2 ^ (w - 1)) with true by lia. reflexivity.
  - replace (2 ^ (w - 1) <=? pattern f fr e m + 0) with false by lia. reflexivity.
Qed.

Lemma compared ev t x y v w : holds ev t x v -> holds ev t y w -> exists cmp c,
  compar_fn ev t = Some cmp /\ t <> 0 /\ cmp x y = Some c /\ (c <= 0 <-> value_le v w).
Proof.
  intros Hx Hy.
  destruct Hx as [n sg z I S R|z -> S R|f n fr emax s e m I L S He Hm Hi| -> S|p s -> S P T C|s rest -> -> C].
  - (* integers *)
    assert (exists z', w = VNum z' /\ stores n y z' /\ int_range n sg z') as (z' & -> & S' & R').
    { destruct Hy as [n' sg' z' I' S' R'|z' -> S' R'|f n' fr emax s e m I' L' S' He Hm Hi| -> S'|p s -> S' P T C|s rest -> -> C].
      - exists z'. assert ((n', sg') = (n, sg)) as [= -> ->].
        { clear -I I'. cbn in I, I'. decompose [or] I; decompose [or] I'; try contradiction; congruence. }
        done.
      - exfalso. clear -I. cbn in I. decompose [or] I; try contradiction; congruence.
      - exfalso. clear -I I'. cbn in I, I'. decompose [or] I; decompose [or] I'; try contradiction; congruence.
      - exfalso. clear -I. cbn in I. decompose [or] I; try contradiction; congruence.
      - exfalso. clear -I. cbn in I. decompose [or] I; try contradiction; congruence.
      - exfalso. clear -I. cbn in I. decompose [or] I; try contradiction; congruence. }
    assert (N : (0 < n)%nat /\ t <> 0 /\ (compar_fn ev t = Some (int_cmp n sg) \/ (compar_fn ev t = Some ptr_cmp /\ n = 8%nat /\ sg = false))).
    { clear -I. cbn in I. decompose [or] I; try done; match goal with H : _ = _ |- _ => injection H as <- <- <- end;
      (split; [lia|split; [lia|]]); first [left; reflexivity|right; split; [reflexivity|done]]. }
    destruct N as (N & T0 & K). pose proof (stores_num _ _ _ S) as E. pose proof (stores_num _ _ _ S') as E'.
    destruct S as [Lx _], S' as [Ly _].
    assert (G : Some (sgn3 (le_int sg x) (le_int sg y)) = Some (sgn3 z z')) by (rewrite E, E', !le_int_of; done).
    destruct K as [K|(K & -> & ->)].
    + exists (int_cmp n sg), (sgn3 z z'). split; [done|]. split; [done|]. split; [|apply sgn3_le].
      unfold int_cmp. rewrite !bytes_at_all by done. exact G.
    + exists ptr_cmp, (sgn3 z z'). split; [done|]. split; [done|]. split; [|apply sgn3_le].
      unfold ptr_cmp. rewrite !bytes_at_all by done. exact G.
  - (* bool *)
    assert (exists z', w = VNum z' /\ stores 1 y z' /\ 0 <= z' <= 1) as (z' & -> & S' & R').
    { inversion Hy; subst; try discriminate; try (exfalso; match goal with H : In _ _ |- _ => cbn in H; decompose [or] H; try contradiction; congruence end).
      eexists. split; [reflexivity|]. done. }
    exists bool_cmp, (sgn3 z z'). split; [done|]. split; [done|]. split; [|apply sgn3_le].
    apply stores_num in S as ->. apply stores_num in S' as ->. unfold bool_cmp, rd_bool. cbn [num_le].
    rewrite !Z.mod_small by lia. cbn [rd lookup list_lookup mbind option_bind].
    replace ((z =? 0) || (z =? 1)) with true by lia. cbn [mbind option_bind].
    replace ((z' =? 0) || (z' =? 1)) with true by lia. reflexivity.
  - (* floating point *)
    destruct (float_place t f n fr emax s e m x I L S He Hm Hi) as [E P].
    assert (exists (s' : bool) e' m', w = VNum (if s' then - magnitude fr e' m' else magnitude fr e' m') /\
      rd_float f y 0 = Some (FNum (if s' then - pattern f fr e' m' else pattern f fr e' m')) /\
      0 <= pattern f fr e' m' /\ 0 <= e' /\ 0 <= m' < 2 ^ fr) as (s' & e' & m' & -> & E' & P' & He' & Hm').
    { destruct Hy as [n' sg' z' I' S' R'|z' -> S' R'|f' n' fr' emax' s' e' m' I' L' S' He' Hm' Hi'| -> S'|p s' -> S' Pp T C|s' rest -> -> C].
      - exfalso. clear -I I'. cbn in I, I'. decompose [or] I; decompose [or] I'; try contradiction; congruence.
      - exfalso. clear -I. cbn in I. decompose [or] I; try contradiction; congruence.
      - assert ((f', n', fr', emax') = (f, n, fr, emax)) as [= -> -> -> ->].
        { clear -I I'. cbn in I, I'. decompose [or] I; decompose [or] I'; try contradiction; congruence. }
        destruct (float_place t f n fr emax s' e' m' y I L' S' He' Hm' Hi') as [E' P']. exists s', e', m'. split; [done|]. split; [done|]. split; [done|]. split; [lia|done].
      - exfalso. clear -I. cbn in I. decompose [or] I; try contradiction; congruence.
      - exfalso. clear -I. cbn in I. decompose [or] I; try contradiction; congruence.
      - exfalso. clear -I. cbn in I. decompose [or] I; try contradiction; congruence. }
    assert (K : compar_fn ev t = Some (float_cmp f) /\ t <> 0 /\ 0 <= fr).
    { clear -I. cbn in I. decompose [or] I; try done; match goal with H : _ = _ |- _ => injection H as <- <- <- <- <- end; done. }
    destruct K as (K & T0 & F).
    eexists _, _. split; [exact K|]. split; [done|]. unfold float_cmp. rewrite E, E'. cbn [mbind option_bind]. split; [reflexivity|].
    assert (G : forall a b, fsgn3 (FNum a) (FNum b) <= 0 <-> a <= b) by (intros; apply sgn3_le).
    rewrite G. cbn [value_le].
    pose proof (float_le t f n fr emax e m e' m' I F ltac:(lia) He' Hm Hm') as O1.
    pose proof (float_le t f n fr emax e' m' e m I F He' ltac:(lia) Hm' Hm) as O2.
    pose proof (float_le t f n fr emax e m 0 0 I F ltac:(lia) ltac:(lia) Hm ltac:(lia)) as Z1.
    pose proof (float_le t f n fr emax e' m' 0 0 I F He' ltac:(lia) Hm' ltac:(lia)) as Z2.
    assert (pattern f fr 0 0 = 0) as P0 by (destruct f; reflexivity).
    assert (magnitude fr 0 0 = 0) as M0 by reflexivity. rewrite P0, M0 in Z1, Z2.
    pose proof (magnitude_nonneg fr e m F ltac:(lia)). pose proof (magnitude_nonneg fr e' m' F ltac:(lia)).
    destruct s, s'; lia.
  - (* null string *)
    exists (string_cmp ev). destruct (ptr_bytes x 0 S ltac:(lia)) as [Bx Nx].
    assert (exists p, stores 8 y p /\ 0 <= p < 2 ^ 64 /\ (w = VNull \/ exists s, w = VText s)) as (p & S' & R' & W).
    { inversion Hy; subst; try discriminate; try (exfalso; match goal with H : In _ _ |- _ => cbn in H; decompose [or] H; try contradiction; congruence end).
      - exists 0. split; [done|]. split; [lia|by left].
      - exists p. split; [done|]. split; [lia|right; eauto]. }
    destruct (ptr_bytes y p S' R') as [By Ny].
    exists (sgn3 0 p). split; [done|]. split; [done|]. split.
    + unfold string_cmp. rewrite Bx, By. cbn [mbind option_bind]. cbv zeta. rewrite Nx, Ny. reflexivity.
    + rewrite sgn3_le. destruct W as [-> |[s ->]]; cbn; split; intros; (done || lia).
  - (* string *)
    exists (string_cmp ev). destruct (ptr_bytes x p S ltac:(lia)) as [Bx Nx].
    assert (exists q, stores 8 y q /\ ((q = 0 /\ w = VNull) \/ (0 < q < 2 ^ 64 /\ exists s', text ev q = Some s' /\ is_cstr s' /\ w = VText s'))) as (q & S' & W).
    { inversion Hy; subst; try discriminate; try (exfalso; match goal with H : In _ _ |- _ => cbn in H; decompose [or] H; try contradiction; congruence end).
      - exists 0. split; [done|by left].
      - eexists. split; [done|right]. split; [done|eauto]. }
    destruct (ptr_bytes y q S' ltac:(lia)) as [By Ny].
    unfold string_cmp. rewrite Bx, By. cbn [mbind option_bind]. cbv zeta. rewrite Nx, Ny.
    replace (p =? 0) with false by lia. cbn [negb andb].
    destruct W as [[-> ->]|(Q & s' & T' & C' & ->)].
    + exists (sgn3 p 0). split; [done|]. split; [done|]. split; [done|]. rewrite sgn3_le. cbn. lia.
    + replace (q =? 0) with false by lia. cbn [negb]. rewrite T, T'. exists (strcmp s s'). split; [done|]. split; [done|]. split; [done|].
      by apply strcmp_alpha.
  - (* char array *)
    assert (exists s' rest', y = s' ++ 0 :: rest' /\ is_cstr s' /\ w = VText s') as (s' & rest' & -> & C' & ->).
    { inversion Hy; subst; try discriminate; try (exfalso; match goal with H : In _ _ |- _ => cbn in H; decompose [or] H; try contradiction; congruence end).
      eauto. }
    exists chars_cmp, (strcmp s s'). split; [done|]. split; [done|]. unfold chars_cmp. rewrite !text_at_app by done.
    split; [done|]. by apply strcmp_alpha.
Qed.

(** The values that the elements of one array hold. *)
Definition class (v : value) : bool := match v with VNum _ => false | _ => true end.
Lemma holds_text ev t x s : holds ev t x (VText s) -> is_cstr s.
Proof. inversion 1; done. Qed.
Lemma holds_class ev t x y v w : holds ev t x v -> holds ev t y w -> class v = class w.
Proof.
  intros Hx Hy. assert (forall x v, holds ev t x v -> class v = (t =? 1) || (t =? 2)) as G; [|by rewrite (G x v), (G y w)].
  clear. intros x v H. destruct H; subst; cbn [class]; try done;
    match goal with H : In _ _ |- _ => cbn in H; decompose [or] H; try done; match goal with H : _ = _ |- _ => injection H as <- end; done end.
Qed.
Lemma le_total ev t x y v w : holds ev t x v -> holds ev t y w -> value_le v w \/ value_le w v.
Proof.
  intros Hx Hy. pose proof (holds_class _ _ _ _ _ _ Hx Hy) as K.
  destruct v as [a| |s], w as [b| |s']; try discriminate K; cbn; try tauto; [lia|].
  apply holds_text in Hx, Hy. rewrite <- !strcmp_alpha by done. pose proof (strcmp_anti s s'). lia.
Qed.
Lemma le_trans ev t x y z u v w : holds ev t x u -> holds ev t y v -> holds ev t z w ->
  value_le u v -> value_le v w -> value_le u w.
Proof.
  intros Hx Hy Hz. destruct u as [a| |s], v as [b| |s'], w as [c| |s'']; cbn; try tauto; [lia|].
  apply holds_text in Hx, Hy, Hz. rewrite <- !strcmp_alpha by done. by apply strcmp_trans.
Qed.

(** *** Statements *)

(** C96: an array of integers, boolean values, floating point numbers, strings,
    char arrays or functions, of any length, is rearranged in ascending order:
    numbers by size (an infinity beyond all numbers, both zeros equal), null
    strings first, texts alphabetically. *)
Theorem C96_basic_sort : forall ev generic t data,
  In t ordered_types -> (forall x, x ∈ data -> exists v, holds ev t x v) ->
  exists r, basic_sort ev generic t data = Sorted r /\
    data ≡ₚ r /\
    forall i j x y v w, (i <= j)%nat -> r !! i = Some x -> r !! j = Some y ->
      holds ev t x v -> holds ev t y w -> value_le v w.
Proof.
  intros ev generic t data O H. destruct data as [|x0 data'].
  { exists []. split.
    { cbn in O. decompose [or] O; try contradiction; subst t; reflexivity. } split; [done|]. intros i j x y v w _ E. discriminate E. }
  set (data := x0 :: data') in *.
  destruct (H x0) as [v0 H0]; [by left|].
  destruct (compared ev t x0 x0 v0 v0 H0 H0) as (cmp & c0 & K & T0 & _ & _).
  assert (G : forall x y v w, holds ev t x v -> holds ev t y w -> exists c, cmp x y = Some c /\ (c <= 0 <-> value_le v w)).
  { intros x y v w Hx Hy. destruct (compared ev t x y v w Hx Hy) as (cmp' & c & K' & _ & E & L).
    assert (cmp' = cmp) as -> by congruence. by exists c. }
  destruct (C01_hsort_respected_order _ (fun x y => default 0 (cmp x y)) (fun x y => default 0 (cmp x y) <= 0) data) as (r & E & P & S).
  - done.
  - intros x y Hx Hy L. destruct (H x Hx) as [v Hv], (H y Hy) as [w Hw].
    destruct (G x y v w Hv Hw) as (c & E1 & L1). destruct (G y x w v Hw Hv) as (c' & E2 & L2).
    rewrite E1 in L. rewrite E2. cbn in *. apply L2. destruct (le_total _ _ _ _ _ _ Hv Hw); [|done]. apply L1 in H1. lia.
  - intros x y z Hx Hy Hz. destruct (H x Hx) as [u Hu], (H y Hy) as [v Hv], (H z Hz) as [w Hw].
    destruct (G x y u v Hu Hv) as (c1 & -> & L1). destruct (G y z v w Hv Hw) as (c2 & -> & L2). destruct (G x z u w Hu Hw) as (c3 & -> & L3).
    cbn. intros A B. apply L3. eapply (le_trans ev t x y z); try done; tauto.
  - exists r. split; [|split; [done|]].
    + unfold basic_sort. replace (t =? 0) with false by lia. rewrite K. unfold sort_by.
      assert (forallb (fun e => match cmp e e with Some _ => true | None => false end) data = true) as ->.
      { apply forallb_forall. intros x Hx. apply elem_of_list_In in Hx. destruct (H x Hx) as [v Hv]. by destruct (G x x v v Hv Hv) as (c & -> & _). }
      cbn [negb]. rewrite andb_false_r, E. done.
    + intros i j x y v w L Ex Ey Hv Hw. specialize (S i j x y L Ex Ey). destruct (G x y v w Hv Hw) as (c & E1 & L1).
      rewrite E1 in S. by apply L1.
Qed.
Print Assumptions C96_basic_sort.

(** 16 bit signed numbers, and strings of which one is null. *)
Example C96_case :
  let ev := Env (fun p => if p =? 40 then Some [98; 97] else if p =? 41 then Some [98] else None) (fun _ => FDesc 0 1 false None) in
  let ints := [[1; 0]; [255; 255]; [0; 128]; [44; 1]] in
  let strs := [[40; 0; 0; 0; 0; 0; 0; 0]; [0; 0; 0; 0; 0; 0; 0; 0]; [41; 0; 0; 0; 0; 0; 0; 0]] in
  (forall x, x ∈ ints -> exists v, holds ev 8 x v) /\ (forall x, x ∈ strs -> exists v, holds ev 1 x v) /\
  basic_sort ev None 8 ints = Sorted [[0; 128]; [255; 255]; [1; 0]; [44; 1]] /\
  basic_sort ev None 1 strs = Sorted [[0; 0; 0; 0; 0; 0; 0; 0]; [41; 0; 0; 0; 0; 0; 0; 0]; [40; 0; 0; 0; 0; 0; 0; 0]] /\
  basic_sort ev None 2 [[98; 0]; [97; 98]] = Undefined.
Proof.
  intros ev ints strs. split; [|split; [|split; [|split]; vm_compute; reflexivity]].
  - assert (forall x z, stores 2 x z -> -32768 <= z < 32768 -> exists v, holds ev 8 x v) as G.
    { intros x z S R. exists (VNum z). apply (HInt ev 8 x 2 true z); [cbn; tauto|done|exact R]. }
    intros x Hx. unfold ints in Hx. repeat (apply elem_of_cons in Hx as [->|Hx]); [apply (G _ 1)|apply (G _ (-1))|apply (G _ (-32768))|apply (G _ 300)|by apply elem_of_nil in Hx];
      try lia; (split; [done|]); intros k Hk; do 2 (destruct k as [|k]; [reflexivity|]); lia.
  - assert (forall x z, length x = 8%nat -> x = num_le 8 z -> stores 8 x z) as G.
    { intros x z _ ->. split; [done|]. intros k Hk. do 8 (destruct k as [|k]; [cbn [num_le lookup list_lookup]; rewrite ?Z.div_div by lia; f_equal; f_equal; by rewrite ?Z.div_1_r|]). lia. }
    intros x Hx. unfold strs in Hx. repeat (apply elem_of_cons in Hx as [->|Hx]); [..|by apply elem_of_nil in Hx].
    + exists (VText [98; 97]). apply (HString ev 1 _ 40); [done|by apply G|lia|done|repeat constructor; lia].
    + exists VNull. apply HNull; [done|by apply G].
    + exists (VText [98]). apply (HString ev 1 _ 41); [done|by apply G|lia|done|repeat constructor; lia].
Qed.

(** C96: every other type is refused, except MR_TYPE_NONE, which is sorted with
    the descriptor of the type, if any. *)
Theorem C96_other_types : forall ev generic t data,
  (t <> 0 -> ~ In t ordered_types -> basic_sort ev generic t data = Failure) /\
  basic_sort ev None 0 data = Failure /\
  (forall cmp, total_preorder cmp -> exists r, basic_sort ev (Some cmp) 0 data = Sorted r /\ data ≡ₚ r /\ sorted_by cmp r).
Proof.
  intros ev generic t data. split; [|split; [reflexivity|]].
  - intros T N. unfold basic_sort. replace (t =? 0) with false by lia.
    assert (compar_fn ev t = None) as ->; [|done]. unfold compar_fn, kind_of.
    repeat (match goal with |- context [?a =? ?b] => destruct (Z.eqb_spec a b) as [->|?] end; cbn [orb];
      [first [reflexivity|exfalso; apply N; cbn; tauto]|]).
    reflexivity.
  - intros cmp TP. destruct (C01_hsort_sorted_permutation _ cmp data TP) as (r & E & P & S). exists r. split; [|done].
    unfold basic_sort, sort_by. cbn [Z.eqb]. 
    assert (forallb (fun e : list Z => match Some (cmp e e) with Some _ => true | None => false end) data = true) as ->.
    { by apply forallb_forall. }
    rewrite andb_false_r. change (hsort _ data) with (hsort cmp data). by rewrite E.
Qed.
Print Assumptions C96_other_types.

(** C96 does not hold with values that are not numbers: 1, 2, not-a-number becomes
    2, not-a-number, 1. *)
Theorem C96_nan_refuted : exists ev data r,
  basic_sort ev None 16 data = Sorted r /\
  exists x y, data = [y; x; [0; 0; 192; 127]] /\ r = [x; [0; 0; 192; 127]; y] /\
    holds ev 16 x (VNum (2 ^ 150)) /\ holds ev 16 y (VNum (2 ^ 149)).
Proof.
  exists (Env (fun _ => None) (fun _ => FDesc 0 1 false None)), [[0; 0; 128; 63]; [0; 0; 0; 64]; [0; 0; 192; 127]], [[0; 0; 0; 64]; [0; 0; 192; 127]; [0; 0; 128; 63]].
  split; [vm_compute; reflexivity|]. eexists _, _. split; [reflexivity|]. split; [reflexivity|]. split.
  - eapply (HFloat _ _ _ F32 4 23 255 false 128 0); [by left|done| |lia|change (2 ^ 23) with 8388608; lia|done].
    split; [done|]. intros k Hk. cbn in Hk. do 4 (destruct k as [|k]; [reflexivity|]). lia.
  - eapply (HFloat _ _ _ F32 4 23 255 false 127 0); [by left|done| |lia|change (2 ^ 23) with 8388608; lia|done].
    split; [done|]. intros k Hk. cbn in Hk. do 4 (destruct k as [|k]; [reflexivity|]). lia.
Qed.
Print Assumptions C96_nan_refuted.
