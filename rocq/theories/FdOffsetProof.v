From Verif Require Import Base HSort HSortProof ICArrays ICArraysProof FdOffset.
Local Open Scope Z_scope.

Lemma sign3_neg x y : sign3 x y < 0 <-> x < y.
Proof. unfold sign3. destruct (Z.gtb_spec x y), (Z.ltb_spec x y); lia. Qed.
Lemma sign3_pos x y : 0 < sign3 x y <-> y < x.
Proof. unfold sign3. destruct (Z.gtb_spec x y), (Z.ltb_spec x y); lia. Qed.
Lemma sign3_zero x y : sign3 x y = 0 <-> x = y.
Proof. unfold sign3. destruct (Z.gtb_spec x y), (Z.ltb_spec x y); lia. Qed.

Section mem.
Context (mem : N -> fd).

(** Lexicographic order on shift, width and size; for other fields on the size. *)
Definition key_le (b : bool) (X Y : fd) : Prop :=
  if b then
    f_shift X < f_shift Y \/ (f_shift X = f_shift Y /\
      (f_width X < f_width Y \/ (f_width X = f_width Y /\ f_size X <= f_size Y)))
  else f_size X <= f_size Y.

Lemma key_le_trans b X Y Z : key_le b X Y -> key_le b Y Z -> key_le b X Z.
Proof. destruct b; cbn; lia. Qed.

Definition fle (hom : Z -> option bool) (x y : N) : Prop :=
  f_off (mem x) < f_off (mem y) \/
  (f_off (mem x) = f_off (mem y) /\
   match hom (f_off (mem x)) with Some b => key_le b (mem x) (mem y) | None => True end).

Lemma fle_trans hom x y z : fle hom x y -> fle hom y z -> fle hom x z.
Proof.
  unfold fle. intros [H1|[H1 K1]] [H2|[H2 K2]]; [left; lia|left; lia|left; lia|].
  right. split; [lia|]. rewrite <- H1 in K2. destruct (hom (f_off (mem x))); [|done].
  by eapply key_le_trans.
Qed.

Lemma sorting_cases hom x y :
  (forall b, hom (f_off (mem x)) = Some b -> f_bit (mem x) = b) ->
  (forall b, hom (f_off (mem y)) = Some b -> f_bit (mem y) = b) ->
  (offset_cmp_sorting mem x y <= 0 -> fle hom x y) /\
  (offset_cmp_sorting mem x y > 0 -> fle hom y x).
Proof.
  intros Hx Hy. unfold offset_cmp_sorting, fle.
  pose proof (sign3_neg (f_off (mem x)) (f_off (mem y))) as N1.
  pose proof (sign3_pos (f_off (mem x)) (f_off (mem y))) as P1.
  pose proof (sign3_zero (f_off (mem x)) (f_off (mem y))) as Z1.
  destruct (Z.eqb_spec (sign3 (f_off (mem x)) (f_off (mem y))) 0) as [E|E]; cbn [negb].
  2:{ split; intros; left; lia. }
  apply Z1 in E. clear N1 P1 Z1. rewrite <- E in *.
  destruct (hom (f_off (mem x))) as [b|].
  2:{ split; intros; right; done. }
  rewrite (Hx b eq_refl), (Hy b eq_refl).
  pose proof (sign3_neg (f_shift (mem x)) (f_shift (mem y))).
  pose proof (sign3_pos (f_shift (mem x)) (f_shift (mem y))).
  pose proof (sign3_zero (f_shift (mem x)) (f_shift (mem y))).
  pose proof (sign3_neg (f_width (mem x)) (f_width (mem y))).
  pose proof (sign3_pos (f_width (mem x)) (f_width (mem y))).
  pose proof (sign3_zero (f_width (mem x)) (f_width (mem y))).
  pose proof (sign3_neg (f_size (mem x)) (f_size (mem y))).
  pose proof (sign3_pos (f_size (mem x)) (f_size (mem y))).
  pose proof (sign3_zero (f_size (mem x)) (f_size (mem y))).
  destruct b; cbn [andb key_le].
  - destruct (Z.eqb_spec (sign3 (f_shift (mem x)) (f_shift (mem y))) 0); cbn [negb];
      [destruct (Z.eqb_spec (sign3 (f_width (mem x)) (f_width (mem y))) 0); cbn [negb]|];
      split; intros; right; (split; [done|lia]).
  - split; intros; right; (split; [done|lia]).
Qed.

Definition off_sorted (a : list N) : Prop :=
  forall i j x y, (i <= j)%nat -> a !! i = Some x -> a !! j = Some y -> f_off (mem x) <= f_off (mem y).

(** Binary search in an array sorted by offset, equal offsets allowed. *)
Lemma find_off_loop kp offset a fuel down up diff :
  kp ∉ a -> off_sorted a -> (down <= up <= length a)%nat -> (up - down < fuel)%nat -> diff <> 0 ->
  (forall i x, (i < down)%nat -> a !! i = Some x -> f_off (mem x) < offset) ->
  (forall i x, (up <= i)%nat -> a !! i = Some x -> offset < f_off (mem x)) ->
  exists d idx, find_idx_loop (offset_cmp mem kp offset) fuel kp a down up diff = Some (d, idx) /\
    ((d = 0 /\ exists x, a !! idx = Some x /\ f_off (mem x) = offset) \/
     (d <> 0 /\ forall x, x ∈ a -> f_off (mem x) <> offset)).
Proof.
  intros Hk Hs. revert down up diff. induction fuel as [|fuel IH]; intros down up diff Hb Hf Hd Hlo Hhi; [lia|].
  cbn [find_idx_loop].
  destruct (Z.eqb_spec diff 0) as [|_]; [done|].
  destruct (Nat.eqb_spec up down) as [->|Hne]; cbn [negb andb].
  { exists diff, down. split; [done|]. right. split; [done|].
    intros x Hx. apply elem_of_list_lookup in Hx as [i Hi].
    destruct (decide (i < down)%nat) as [Hl|Hl]; [specialize (Hlo i x Hl Hi); lia|].
    specialize (Hhi i x ltac:(lia) Hi). lia. }
  pose proof (div2_between down up ltac:(lia)) as Hm.
  destruct (rd_Some a (Nat.div2 (down + up))) as [x Hx]; [lia|].
  rewrite Hx. cbn [mbind option_bind]. unfold rd in Hx.
  set (mid := Nat.div2 (down + up)) in *.
  assert (Ec : offset_cmp mem kp offset kp x = sign3 offset (f_off (mem x))).
  { unfold offset_cmp. rewrite N.eqb_refl. destruct (N.eqb_spec x kp) as [->|]; [|done].
    exfalso. apply Hk. by eapply elem_of_list_lookup_2. }
  rewrite Ec.
  pose proof (sign3_neg offset (f_off (mem x))) as N1.
  pose proof (sign3_pos offset (f_off (mem x))) as P1.
  pose proof (sign3_zero offset (f_off (mem x))) as Z1.
  destruct (Z.leb_spec (sign3 offset (f_off (mem x))) 0) as [Hle|Hgt].
  - destruct (Z.eq_dec (sign3 offset (f_off (mem x))) 0) as [He|He].
    + assert (Hfu : exists f', fuel = S f') by (exists (fuel - 1)%nat; lia).
      destruct Hfu as [f' ->]. rewrite He. cbn [find_idx_loop].
      change (0 =? 0) with true. cbn [negb]. rewrite andb_false_r.
      exists 0, mid. split; [done|]. left. split; [done|]. exists x. split; [done|lia].
    + apply IH; [lia|lia|lia|done|].
      intros i y Hi Hy. pose proof (Hs mid i x y Hi Hx Hy). lia.
  - apply IH; [lia|lia|lia| |done].
    intros i y Hi Hy. pose proof (Hs i mid y x ltac:(lia) Hy Hx). lia.
Qed.

Lemma last_same_ok a offset fuel idx x :
  a !! idx = Some x -> f_off (mem x) = offset -> (length a - idx <= fuel)%nat -> (0 < fuel)%nat -> off_sorted a ->
  exists i y, last_same mem fuel a offset idx = Some i /\ a !! i = Some y /\ f_off (mem y) = offset /\
    (forall j z, a !! j = Some z -> f_off (mem z) = offset -> (j <= i)%nat).
Proof.
  revert idx x. induction fuel as [|fuel IH]; intros idx x Hx Ho Hf H0 Hs; [lia|].
  cbn [last_same]. destruct (Nat.ltb_spec (idx + 1) (length a)) as [Hl|Hl].
  - destruct (rd_Some a (idx + 1) Hl) as [p Hp]. rewrite Hp. cbn [mbind option_bind]. unfold rd in Hp.
    destruct (Z.eqb_spec (f_off (mem p)) offset) as [E|E].
    + apply (IH _ p); [done|done|lia|lia|done].
    + exists idx, x. split; [done|]. split; [done|]. split; [done|].
      intros j z Hj Hz. destruct (Nat.le_gt_cases j idx) as [|Hgt]; [done|]. exfalso.
      pose proof (Hs idx (idx + 1)%nat x p ltac:(lia) Hx Hp).
      pose proof (Hs (idx + 1)%nat j p z ltac:(lia) Hp Hj). lia.
  - exists idx, x. split; [done|]. split; [done|]. split; [done|].
    intros j z Hj _. apply lookup_lt_Some in Hj. lia.
Qed.

Lemma sort_fields_ok fields (hom : Z -> option bool) :
  (forall p b, p ∈ fields -> hom (f_off (mem p)) = Some b -> f_bit (mem p) = b) ->
  exists a, sort_fields mem fields = Some a /\ fields ≡ₚ a /\
    forall i j x y, (i <= j)%nat -> a !! i = Some x -> a !! j = Some y -> fle hom x y.
Proof.
  intros Hh. unfold sort_fields.
  destruct (hsort_safe (offset_cmp_sorting mem) fields) as (a & Ha & Hp).
  exists a. split; [done|]. split; [done|].
  apply (hsort_sorted_in (offset_cmp_sorting mem) (fle hom) fields a); [| | |done].
  - intros x y Hx Hy. apply sorting_cases; eauto.
  - intros x y Hx Hy. apply sorting_cases; eauto.
  - intros x y z _ _ _. apply fle_trans.
Qed.

Lemma get_fd_ok kp a offset :
  kp ∉ a -> off_sorted a ->
  exists r, get_fd_by_offset mem kp a offset = Some r /\
    match r with
    | None => forall p, p ∈ a -> f_off (mem p) <> offset
    | Some p => exists i, a !! i = Some p /\ f_off (mem p) = offset /\
        forall j z, a !! j = Some z -> f_off (mem z) = offset -> (j <= i)%nat
    end.
Proof.
  intros Hk Hs. unfold get_fd_by_offset, find_idx.
  destruct (find_off_loop kp offset a (S (S (length a))) 0 (length a) 1) as (d & idx & -> & H); try done; try lia.
  { intros i x Hi Hx. apply lookup_lt_Some in Hx. lia. }
  cbn [mbind option_bind]. destruct H as [[-> (x & Hx & Ho)]|[Hd Hn]].
  - change (0 =? 0) with true. cbn [negb].
    destruct (last_same_ok a offset (S (length a)) idx x) as (i & y & -> & Hy & Hoy & Hlast); try done; try lia.
    cbn [mbind option_bind]. rewrite (rd_lu _ _ _ Hy). cbn [mbind option_bind].
    eexists. split; [done|]. cbn. eauto.
  - destruct (Z.eqb_spec d 0); [done|]. cbn [negb]. eexists. split; [done|]. cbn. done.
Qed.
End mem.
