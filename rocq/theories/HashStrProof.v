(** Proofs about HashStr.v. *)
From Verif Require Import Base Spec HashStr.
Local Open Scope Z_scope.

(** Content of a C string: bytes 1..255. *)
Definition is_cstr (s : list Z) : Prop := Forall (fun c => 1 <= c <= 255) s.

Lemma is_cstr_lu s i c : is_cstr s -> s !! i = Some c -> 0 <= c <= 255.
Proof. intros H E. apply (Forall_lookup_1 _ _ _ _ H) in E. lia. Qed.

Lemma mix_range h w : 0 <= h < 2 ^ 32 -> 0 <= mix h w < 2 ^ 32.
Proof.
  intros Hh. unfold mix.
  set (x := ((h * 2) mod 2 ^ 32 + w) mod 2 ^ 32).
  assert (Hx : 0 <= x < 2 ^ 32) by (apply Z.mod_pos_bound; lia).
  assert (Hnn : 0 <= Z.lxor h x) by (apply Z.lxor_nonneg; lia).
  split; [done|].
  destruct (Z.eq_dec (Z.lxor h x) 0) as [->|Hne]; [lia|].
  apply Z.log2_lt_pow2; [lia|].
  eapply Z.le_lt_trans; [apply Z.log2_lxor; lia|].
  assert (forall y, 0 <= y < 2 ^ 32 -> Z.log2 y < 32).
  { intros y Hy. destruct (Z.eq_dec y 0) as [->|]; [done|]. apply Z.log2_lt_pow2; lia. }
  apply Z.max_lub_lt; auto.
Qed.

Lemma hash_loop_ok fuel : forall mem p size h,
  0 <= size -> (Z.to_nat size < fuel)%nat -> (p + Z.to_nat size <= length mem)%nat -> 0 <= h < 2 ^ 32 ->
  exists v, hash_loop fuel mem p size h = Some v /\ 0 <= v < 2 ^ 32.
Proof.
  induction fuel as [|f IH]; intros mem p size h Hs Hf Hlen Hh; [lia|].
  cbn [hash_loop]. destruct (Z.ltb_spec 4 size).
  - destruct (rd_Some mem p) as [b0 ->]; [lia|]. destruct (rd_Some mem (p + 1)) as [b1 ->]; [lia|].
    destruct (rd_Some mem (p + 2)) as [b2 ->]; [lia|]. destruct (rd_Some mem (p + 3)) as [b3 ->]; [lia|].
    cbn [mbind option_bind]. apply IH; [lia|lia|lia|by apply mix_range].
  - destruct (Z.ltb_spec 0 size); [|eauto].
    assert (exists w, last_word mem p size = Some w) as [w ->].
    { unfold last_word. destruct (rd_Some mem p) as [b0 ->]; [lia|]. cbn [mbind option_bind].
      destruct (Z.ltb_spec 1 size); [destruct (rd_Some mem (p + 1)) as [b1 ->]; [lia|]|]; cbn [mbind option_bind];
      (destruct (Z.ltb_spec 2 size); [destruct (rd_Some mem (p + 2)) as [b2 ->]; [lia|]|]); cbn [mbind option_bind];
      (destruct (Z.ltb_spec 3 size); [destruct (rd_Some mem (p + 3)) as [b3 ->]; [lia|]|]); cbn [mbind option_bind]; eauto. }
    cbn [mbind option_bind]. eexists. split; [done|by apply mix_range].
Qed.

(** Reads of the first [size] bytes only. *)
Lemma hash_loop_local fuel : forall mem1 mem2 p size h,
  (forall i, (p <= i < p + Z.to_nat size)%nat -> mem1 !! i = mem2 !! i) ->
  hash_loop fuel mem1 p size h = hash_loop fuel mem2 p size h.
Proof.
  induction fuel as [|f IH]; intros mem1 mem2 p size h Hl; [done|].
  cbn [hash_loop]. unfold rd. destruct (Z.ltb_spec 4 size).
  - rewrite !(Hl p), !(Hl (p + 1)%nat), !(Hl (p + 2)%nat), !(Hl (p + 3)%nat) by lia.
    destruct (mem2 !! p); [|done]. destruct (mem2 !! (p + 1)%nat); [|done].
    destruct (mem2 !! (p + 2)%nat); [|done]. destruct (mem2 !! (p + 3)%nat); [|done].
    cbn [mbind option_bind]. apply IH. intros i Hi. apply Hl. lia.
  - destruct (Z.ltb_spec 0 size); [|done].
    assert (last_word mem1 p size = last_word mem2 p size) as ->; [|done].
    unfold last_word, rd. rewrite (Hl p) by lia.
    destruct (Z.ltb_spec 1 size); [rewrite (Hl (p + 1)%nat) by lia|];
    (destruct (Z.ltb_spec 2 size); [rewrite (Hl (p + 2)%nat) by lia|]);
    (destruct (Z.ltb_spec 3 size); [rewrite (Hl (p + 3)%nat) by lia|]); done.
Qed.

Lemma hash_block_ok mem size :
  0 <= size <= Z.of_nat (length mem) -> exists v, hash_block mem size = Some v /\ 0 <= v < 2 ^ 32.
Proof. intros H. unfold hash_block. apply hash_loop_ok; lia. Qed.

Lemma hash_str_ok s : exists v, hash_str s = Some v /\ 0 <= v < 2 ^ 32.
Proof.
  destruct s as [s|]; cbn [hash_str]; [|by exists 1].
  apply hash_block_ok. pose proof (Z.mod_pos_bound (Z.of_nat (length s)) (2 ^ 32) ltac:(lia)).
  pose proof (Z.mod_le (Z.of_nat (length s)) (2 ^ 32) ltac:(lia) ltac:(lia)). lia.
Qed.

(** The hash of a string as a number. *)
Definition hs (s : option (list Z)) : Z := default 0 (hash_str s).

Lemma hash_str_hs s : hash_str s = Some (hs s).
Proof. unfold hs. by destruct (hash_str_ok s) as (v & -> & _). Qed.

Lemma hs_range s : 0 <= hs s < 2 ^ 32.
Proof. unfold hs. by destruct (hash_str_ok s) as (v & -> & ?). Qed.

(** *** strcmp *)
Lemma strcmp_eq a b : is_cstr a -> is_cstr b -> strcmp a b = 0 <-> a = b.
Proof.
  revert b. induction a as [|x a IH]; intros [|y b] Ha Hb; cbn [strcmp]; try done.
  - apply Forall_cons in Hb as [Hy _]. split; [lia|done].
  - apply Forall_cons in Ha as [Hx _]. split; [lia|done].
  - apply Forall_cons in Ha as [Hx Ha]. apply Forall_cons in Hb as [Hy Hb].
    destruct (Z.eqb_spec x y) as [->|Hne].
    + rewrite IH by done. split; [by intros ->|]. by intros [= ->].
    + split; [lia|]. intros [= ? ?]. lia.
Qed.

Lemma strcmp_anti a : forall b, Z.sgn (strcmp a b) = - Z.sgn (strcmp b a).
Proof.
  induction a as [|x a IH]; intros [|y b]; cbn [strcmp]; try done.
  - by destruct y.
  - by destruct x.
  - rewrite (Z.eqb_sym y x). destruct (Z.eqb_spec x y); [apply IH|].
    replace (x - y) with (- (y - x)) by lia. by rewrite Z.sgn_opp.
Qed.

Lemma strcmp_trans a : forall b c, is_cstr a -> is_cstr b -> is_cstr c ->
  strcmp a b <= 0 -> strcmp b c <= 0 -> strcmp a c <= 0.
Proof.
  induction a as [|x a IH]; intros [|y b] [|z c] Ha Hb Hc; cbn [strcmp];
    repeat match goal with H : is_cstr (_ :: _) |- _ => apply Forall_cons in H as [? H] end; try lia.
  destruct (Z.eqb_spec x y) as [->|Hxy].
  + destruct (Z.eqb_spec y z) as [->|]; [|lia]. by apply IH.
  + destruct (Z.eqb_spec y z) as [->|]; destruct (Z.eqb_spec x z) as [->|]; intros; lia.
Qed.

(** *** Order on contents: hash, NULL first, then strcmp. *)
Definition ccmp (a b : option (list Z)) : Z :=
  if negb (Z.eqb (hs a) (hs b)) then Z.b2z (hs b <? hs a) - Z.b2z (hs a <? hs b)
  else match a, b with
       | None, None => 0
       | None, Some _ => -1
       | Some _, None => 1
       | Some a, Some b => strcmp a b
       end.

Definition is_name (a : option (list Z)) : Prop := match a with None => True | Some s => is_cstr s end.

Lemma ccmp_eq a b : is_name a -> is_name b -> ccmp a b = 0 <-> a = b.
Proof.
  intros Ha Hb. unfold ccmp. destruct (Z.eqb_spec (hs a) (hs b)) as [He|Hne]; cbn [negb].
  - destruct a as [a|], b as [b|]; try done. cbn in Ha, Hb. rewrite strcmp_eq by done.
    split; [by intros ->|by intros [= ->]].
  - split; [|by intros ->]. destruct (Z.ltb_spec (hs b) (hs a)), (Z.ltb_spec (hs a) (hs b)); cbn; lia.
Qed.

Lemma ccmp_anti a b : Z.sgn (ccmp a b) = - Z.sgn (ccmp b a).
Proof.
  unfold ccmp. rewrite (Z.eqb_sym (hs b)). destruct (Z.eqb_spec (hs a) (hs b)) as [He|Hne]; cbn [negb].
  - destruct a as [a|], b as [b|]; try done. apply strcmp_anti.
  - destruct (Z.ltb_spec (hs b) (hs a)), (Z.ltb_spec (hs a) (hs b)); cbn; lia.
Qed.

Lemma ccmp_le a b : ccmp a b <= 0 <-> hs a < hs b \/ (hs a = hs b /\ ccmp a b <= 0).
Proof.
  split; [|intros [H|[_ H]]; [|done]].
  - intros H. unfold ccmp in H. destruct (Z.eqb_spec (hs a) (hs b)) as [He|Hne]; cbn [negb] in H.
    + right. split; [done|]. unfold ccmp. rewrite He, Z.eqb_refl. done.
    + left. destruct (Z.ltb_spec (hs b) (hs a)), (Z.ltb_spec (hs a) (hs b)); cbn in H; lia.
  - unfold ccmp. destruct (Z.eqb_spec (hs a) (hs b)); [lia|]. cbn [negb].
    destruct (Z.ltb_spec (hs b) (hs a)), (Z.ltb_spec (hs a) (hs b)); cbn; lia.
Qed.

Lemma ccmp_trans a b c : is_name a -> is_name b -> is_name c ->
  ccmp a b <= 0 -> ccmp b c <= 0 -> ccmp a c <= 0.
Proof.
  intros Ha Hb Hc H1 H2. rewrite ccmp_le in H1. rewrite ccmp_le in H2. rewrite ccmp_le.
  destruct H1 as [H1|[E1 H1]], H2 as [H2|[E2 H2]]; [lia|lia|lia|].
  right. split; [lia|]. unfold ccmp in *.
  rewrite E1, Z.eqb_refl in H1. rewrite E2, Z.eqb_refl in H2. rewrite E1, E2, Z.eqb_refl. cbn [negb] in *.
  destruct a as [a|], b as [b|], c as [c|]; try lia. by apply (strcmp_trans a b c).
Qed.

(** *** The cached structures *)
Section names.
Context (cstr : Z -> list Z).

(** A name whose cache is empty or right. *)
Definition hstr_ok (x : hstr) : Prop :=
  is_name (at_ptr cstr (str x)) /\ (hval x = 0 \/ hval x = hs (at_ptr cstr (str x))).

Lemma get_hash_ok x : hstr_ok x ->
  exists x', get_hash cstr x = Some (hs (at_ptr cstr (str x)), x') /\ str x' = str x /\ hstr_ok x'.
Proof.
  intros [Hn Hv]. unfold get_hash. destruct (Z.eqb_spec (hval x) 0) as [E|E].
  - rewrite hash_str_hs. cbn [mbind option_bind]. eexists. split; [done|]. split; [done|].
    split; [done|]. by right.
  - destruct Hv as [Hv|Hv]; [done|]. exists x. rewrite Hv. split; [done|]. split; [done|]. split; [done|by right].
Qed.

Lemma strcmp_refl a : strcmp a a = 0.
Proof. induction a as [|x a IH]; [done|]. cbn. by rewrite Z.eqb_refl. Qed.

Lemma hstr_cmp_ok x y : hstr_ok x -> hstr_ok y ->
  exists x' y', hstr_cmp cstr x y = Some (ccmp (at_ptr cstr (str x)) (at_ptr cstr (str y)), x', y') /\
    str x' = str x /\ str y' = str y /\ hstr_ok x' /\ hstr_ok y'.
Proof.
  intros Hx Hy. unfold hstr_cmp.
  destruct (get_hash_ok x Hx) as (x' & -> & Ex & Hx'). destruct (get_hash_ok y Hy) as (y' & -> & Ey & Hy').
  cbn [mbind option_bind]. eexists _, _. split; [|done]. do 3 f_equal.
  unfold ccmp. set (a := at_ptr cstr (str x)). set (b := at_ptr cstr (str y)).
  destruct (Z.eqb_spec (hs a) (hs b)) as [E|E]; cbn [negb].
  - rewrite E, Z.ltb_irrefl. cbn. unfold a, b, at_ptr in *. rewrite Ex, Ey.
    destruct (Z.eqb_spec (str x) (str y)) as [Es|Es].
    { rewrite Es. destruct (str y =? 0); [done|]. by rewrite strcmp_refl. }
    destruct (Z.eqb_spec (str x) 0), (Z.eqb_spec (str y) 0); try done. lia.
  - destruct (Z.ltb_spec (hs b) (hs a)), (Z.ltb_spec (hs a) (hs b)); cbn; try done; lia.
Qed.

Context (names : N -> hstr) (Hok : forall k, hstr_ok (names k)).

Definition content (k : N) : option (list Z) := at_ptr cstr (str (names k)).

Lemma name_cmp_ccmp x y : name_cmp cstr names x y = ccmp (content x) (content y).
Proof. unfold name_cmp. by destruct (hstr_cmp_ok (names x) (names y) (Hok x) (Hok y)) as (? & ? & -> & _). Qed.

Lemma content_name k : is_name (content k).
Proof. by destruct (Hok k). Qed.

Lemma name_cmp_zero x y : name_cmp cstr names x y = 0 <-> content x = content y.
Proof. rewrite name_cmp_ccmp. apply ccmp_eq; apply content_name. Qed.

Lemma name_cmp_three_way : three_way (name_cmp cstr names).
Proof.
  split.
  - intros x y. rewrite !name_cmp_ccmp. apply ccmp_anti.
  - intros x y z. rewrite !name_cmp_ccmp. apply ccmp_trans; apply content_name.
Qed.

Lemma name_hash_content x : name_hash cstr names x = Z.to_N (hs (content x)).
Proof. unfold name_hash. by destruct (get_hash_ok (names x) (Hok x)) as (? & -> & _). Qed.

Lemma name_hash_ok x y : name_cmp cstr names x y = 0 -> name_hash cstr names x = name_hash cstr names y.
Proof. rewrite name_cmp_zero, !name_hash_content. by intros ->. Qed.
End names.
