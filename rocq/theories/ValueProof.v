(** Proofs about Value.v. *)
From Verif Require Import Base NumStr Value.
Local Open Scope Z_scope.

(** ** What an integer expression means *)

(** The number an enumerator stands for (64 bits in the descriptor). *)
Definition ed_means (d : ed) (z : Z) : Prop :=
  match d with
  | Signed v => v = z ∧ - 2 ^ 63 <= z < 2 ^ 63
  | Unsigned v => v = z ∧ 0 <= z < 2 ^ 64
  | Other => False
  end.

(** [name] is a registered enumerator with value [z] (the first one of that name), or
    false or true. *)
Definition names (e : env) (name : list Z) (z : Z) : Prop :=
  Forall (λ c, isident c = true) name ∧ (length name <= max_length e)%nat ∧
  ((name = txt_false ∧ z = 0) ∨ (name = txt_true ∧ z = 1) ∨
   (name ≠ txt_false ∧ name ≠ txt_true ∧
    ∃ before d after, e = before ++ (name, d) :: after ∧ name ∉ before.*1 ∧ ed_means d z)).

(** The text at an identifier token: the name, then something else. *)
Definition text_at (s : list Z) (name : list Z) : Prop :=
  ∃ c rest, s = name ++ c :: rest ∧ isident c = false.

Definition int128 (z : Z) : Prop := - 2 ^ 127 <= z < 2 ^ 127.

Section P.
Context {F : Type} `{FL : Floats F}.

(** Exact arithmetic; every result has to be a 128 bit number, divisors are not zero. *)
Inductive denotes (e : env) : expr F → Z → Prop :=
  | d_num u : 0 <= u < 2 ^ 127 → denotes e (Num u) u
  | d_id s name z : text_at s name → names e name z → denotes e (Id s (length name)) z
  | d_add a b x y : denotes e a x → denotes e b y → int128 (x + y) → denotes e (Arith Add a b) (x + y)
  | d_sub a b x y : denotes e a x → denotes e b y → int128 (x - y) → denotes e (Arith Sub a b) (x - y)
  | d_mul a b x y : denotes e a x → denotes e b y → int128 (x * y) → denotes e (Arith Mul a b) (x * y)
  | d_div a b x y : denotes e a x → denotes e b y → y ≠ 0 → int128 (Z.quot x y) → denotes e (Arith Div a b) (Z.quot x y)
  | d_mod a b x y : denotes e a x → denotes e b y → y ≠ 0 → int128 (Z.quot x y) → denotes e (Int Mod a b) (Z.rem x y)
  | d_or a b x y : denotes e a x → denotes e b y → denotes e (Int Or a b) (Z.lor x y)
  | d_and a b x y : denotes e a x → denotes e b y → denotes e (Int And a b) (Z.land x y)
  | d_xor a b x y : denotes e a x → denotes e b y → denotes e (Int Xor a b) (Z.lxor x y)
  | d_neg a x : denotes e a x → int128 (- x) → denotes e (Neg a) (- x)
  | d_plus a x : denotes e a x → denotes e (Plus a) x.

(** ** Names *)
Lemma scan_name_ok name c rest fuel n max :
  Forall (λ c, isident c = true) name → isident c = false → (n <= length name <= max)%nat →
  (length name - n < fuel)%nat → scan_name fuel (name ++ c :: rest) n max = Some (Some (length name)).
Proof.
  intros Hn Hc. revert n. induction fuel as [|fuel IH]; intros n Hle Hf; [lia|].
  cbn [scan_name]. destruct (decide (n = length name)) as [->|Hne].
  - unfold rd. rewrite lookup_app_r, Nat.sub_diag by lia. cbn [mbind option_bind lookup list_lookup]. by rewrite Hc.
  - destruct (lookup_lt_is_Some_2 name n) as [x Hx]; [lia|].
    unfold rd. rewrite lookup_app_l, Hx by lia. cbn [mbind option_bind].
    rewrite (Forall_lookup_1 _ _ _ _ Hn Hx). destruct (Nat.ltb_spec max (n + 1)); [lia|].
    apply IH; lia.
Qed.

Lemma enum_by_name_first e1 name d e2 : name ∉ e1.*1 → enum_by_name (e1 ++ (name, d) :: e2) name = Some d.
Proof.
  induction e1 as [|[n d'] e1 IH]; cbn; intros Hn.
  - by rewrite bool_decide_true.
  - apply not_elem_of_cons in Hn as [H1 H2]. rewrite bool_decide_false by congruence. by apply IH.
Qed.

Lemma get_enum_ok e s name z : text_at s name → names e name z →
  get_enum e s = Some (Some (z mod 2 ^ 128, length name)).
Proof.
  intros (c & rest & -> & Hc) (Hid & Hlen & Hz). unfold get_enum.
  rewrite scan_name_ok by (first [done | rewrite ?app_length; lia]). cbn [mbind option_bind].
  rewrite take_app. destruct Hz as [[-> ->]|[[-> ->]|(N1 & N2 & e1 & d & e2 & -> & Hn & Hd)]].
  - by rewrite bool_decide_true.
  - rewrite bool_decide_false by (by compute; congruence). by rewrite bool_decide_true.
  - rewrite !bool_decide_false by done. rewrite enum_by_name_first by done.
    destruct d as [v|v|]; cbn in Hd; [|destruct Hd|]; try done.
    + by destruct Hd as [-> _].
    + subst. rewrite Z.mod_small; [done|lia].
Qed.

Lemma to_signed_mod z : int128 z → to_signed (z mod 2 ^ 128) = z.
Proof.
  intros Hz. unfold to_signed, int128 in *. rewrite Zplus_mod_idemp_l.
  rewrite Z.mod_small by lia. lia.
Qed.

Lemma ed_means_range d z : ed_means d z → int128 z.
Proof. unfold int128. destruct d; cbn; lia. Qed.

Lemma names_range e name z : names e name z → int128 z.
Proof.
  intros (_ & _ & [[_ ->]|[[_ ->]|(_ & _ & ? & d & ? & _ & _ & Hd)]]); [by unfold int128..|].
  by eapply ed_means_range.
Qed.

Lemma value_id_ok e s name z : text_at s name → names e name z →
  value_id e s (length name) = Some (Some z).
Proof.
  intros Ht Hn. unfold value_id. rewrite (get_enum_ok e s name z) by done. cbn.
  rewrite Nat.eqb_refl. do 2 f_equal. apply to_signed_mod. by eapply names_range.
Qed.

(** ** Ranges *)
Lemma int128_shift z : int128 z ↔ (Z.shiftr z 127 = 0 ∨ Z.shiftr z 127 = -1).
Proof.
  unfold int128. rewrite Z.shiftr_div_pow2 by lia. split; intros H.
  - destruct (decide (0 <= z)); [left|right].
    + apply Z.div_small. lia.
    + symmetry. apply Z.div_unique with (r := z + 2 ^ 127); lia.
  - assert (E := Z.div_mod z (2 ^ 127) ltac:(lia)). assert (B := Z.mod_pos_bound z (2 ^ 127) ltac:(lia)).
    destruct H as [H|H]; rewrite H in E; lia.
Qed.

Lemma int128_lor a b : int128 a → int128 b → int128 (Z.lor a b).
Proof. rewrite !int128_shift, Z.shiftr_lor. intros [-> | ->] [-> | ->]; cbn; auto. Qed.
Lemma int128_land a b : int128 a → int128 b → int128 (Z.land a b).
Proof. rewrite !int128_shift, Z.shiftr_land. intros [-> | ->] [-> | ->]; cbn; auto. Qed.
Lemma int128_lxor a b : int128 a → int128 b → int128 (Z.lxor a b).
Proof. rewrite !int128_shift, Z.shiftr_lxor. intros [-> | ->] [-> | ->]; cbn; auto. Qed.

Lemma quot_range a b : int128 a → b ≠ 0 → ¬ (a = - 2 ^ 127 ∧ b = -1) → int128 (Z.quot a b).
Proof.
  unfold int128. intros Ha Hb Hn.
  assert (Habs : Z.abs (Z.quot a b) <= Z.abs a).
  { rewrite <- Z.quot_abs by done.
    apply Z.quot_le_upper_bound; [lia|]. nia. }
  destruct (decide (a = - 2 ^ 127)) as [->|]; [|lia].
  destruct (decide (b = 1)) as [->|]; [rewrite Z.quot_1_r; lia|].
  assert (Habs' : Z.abs (Z.quot (- 2 ^ 127) b) <= 2 ^ 126).
  { rewrite <- Z.quot_abs by done. apply Z.quot_le_upper_bound; [lia|].
    change (Z.abs (- 2 ^ 127)) with (2 ^ 127). change (2 ^ 127) with (2 * 2 ^ 126). nia. }
  lia.
Qed.

Lemma denotes_range e x z : denotes e x z → int128 z.
Proof.
  induction 1; auto using int128_lor, int128_land, int128_lxor.
  - unfold int128. lia.
  - by eapply names_range.
  - assert (Hb := Z.rem_bound_abs x y ltac:(done)).
    assert (Hl : Z.abs (Z.rem x y) <= Z.abs x).
    { destruct (decide (0 <= x)).
      - assert (B := Z.rem_bound_pos x (Z.abs y) ltac:(lia) ltac:(lia)). 
        rewrite <- Z.rem_abs by done. rewrite Z.abs_eq with (n := x) by lia. apply Z.rem_le; lia.
      - rewrite <- Z.rem_abs by done. apply Z.rem_le; lia. }
    unfold int128 in *. 
    destruct (decide (x = - 2 ^ 127)) as [->|]; [|lia].
    assert (Z.abs y <= 2 ^ 127) by (unfold int128 in *; lia). lia.
Qed.

(** ** Evaluation *)
(** What an integer subexpression evaluates to. *)
Definition is_int (e : env) (v : value F) (z : Z) : Prop :=
  v = VInt z ∨ ∃ s len, v = VId s len ∧ value_id e s len = Some (Some z).

Lemma is_int_cast e v z : is_int e v z → value_cast e TInt v = Some (Some (VInt z)).
Proof. intros [-> | (s & len & -> & H)]; cbn [value_cast]; [done|]. by rewrite H. Qed.
Lemma is_int_operand e v z : is_int e v z → int_operand e v = Some (Some z).
Proof. intros [-> | (s & len & -> & H)]; cbn [int_operand]; [done|]. by rewrite H. Qed.
Lemma is_int_rank e v z : is_int e v z → rank v = TInt.
Proof. by intros [-> | (s & len & -> & H)]. Qed.

Lemma int_result_in wrapv z : int128 z → int_result wrapv z = Some z.
Proof.
  unfold int_result, int128. intros Hz.
  destruct (Z.leb_spec (- 2 ^ 127) z); [|lia]. destruct (Z.ltb_spec z (2 ^ 127)); [done|lia].
Qed.

Lemma value_op_int wrapv e op l r x y : is_int e l x → is_int e r y →
  value_op wrapv e op l r =
    match op with
    | Div => if y =? 0 then Some (false, VInt 0) else z ← int_div x y; Some (true, VInt z)
    | Add => z ← int_result wrapv (x + y); Some (true, VInt z)
    | Sub => z ← int_result wrapv (x - y); Some (true, VInt z)
    | Mul => z ← int_result wrapv (x * y); Some (true, VInt z)
    end.
Proof.
  intros Hl Hr. unfold value_op. rewrite (is_int_rank e l x Hl), (is_int_rank e r y Hr). cbn [max_type].
  rewrite (is_int_cast e l x Hl), (is_int_cast e r y Hr). by destruct op.
Qed.

Lemma value_int_op_int e op l r x y : is_int e l x → is_int e r y →
  value_int_op e op l r =
    match op with
    | Mod => if y =? 0 then Some (false, VInt 0) else z ← int_mod x y; Some (true, VInt z)
    | Or => Some (true, VInt (Z.lor x y))
    | And => Some (true, VInt (Z.land x y))
    | Xor => Some (true, VInt (Z.lxor x y))
    end.
Proof.
  intros Hl Hr. unfold value_int_op. by rewrite (is_int_operand e l x Hl), (is_int_operand e r y Hr).
Qed.

Lemma value_neg_int wrapv e v z : is_int e v z →
  value_neg wrapv e v = (z ← int_result wrapv (- z); Some (true, VInt z)).
Proof. intros [-> | (s & len & -> & H)]; cbn [value_neg]; [done|]. by rewrite H. Qed.

Lemma int_div_ok x y : y ≠ 0 → int128 (Z.quot x y) → int_div x y = Some (Z.quot x y) ∧ int_mod x y = Some (Z.rem x y).
Proof.
  intros Hy Hq. unfold int_div, int_mod. destruct (Z.eqb_spec y 0); [done|].
  destruct (Z.eqb_spec x (- 2 ^ 127)) as [->|]; [|done]. destruct (Z.eqb_spec y (-1)) as [->|]; [|done].
  exfalso. revert Hq. unfold int128. change (Z.quot (- 2 ^ 127) (-1)) with (2 ^ 127). lia.
Qed.

Lemma int_div_inv x y z : int_div x y = Some z → int128 x → y ≠ 0 ∧ z = Z.quot x y ∧ int128 z.
Proof.
  unfold int_div. destruct (Z.eqb_spec y 0); [done|]. intros H Hx.
  destruct (Z.eqb_spec x (- 2 ^ 127)), (Z.eqb_spec y (-1)); cbn in H; try done; injection H as <-;
    (split; [done|]; split; [done|]; apply quot_range; [done|done|lia]).
Qed.
Lemma int_mod_inv x y z : int_mod x y = Some z → int128 x → y ≠ 0 ∧ z = Z.rem x y ∧ int128 (Z.quot x y).
Proof.
  unfold int_mod. destruct (Z.eqb_spec y 0); [done|]. intros H Hx.
  destruct (Z.eqb_spec x (- 2 ^ 127)), (Z.eqb_spec y (-1)); cbn in H; try done; injection H as <-;
    (split; [done|]; split; [done|]; apply quot_range; [done|done|lia]).
Qed.

Lemma eval_denotes wrapv e x z : denotes e x z → ∃ v, eval wrapv e x = Some v ∧ is_int e v z.
Proof.
  induction 1 as [u Hu|s name z Ht Hn|a b x y _ (va & Ea & Ia) _ (vb & Eb & Ib) Hr|a b x y _ (va & Ea & Ia) _ (vb & Eb & Ib) Hr
    |a b x y _ (va & Ea & Ia) _ (vb & Eb & Ib) Hr|a b x y _ (va & Ea & Ia) _ (vb & Eb & Ib) Hy Hr
    |a b x y _ (va & Ea & Ia) _ (vb & Eb & Ib) Hy Hr|a b x y _ (va & Ea & Ia) _ (vb & Eb & Ib)
    |a b x y _ (va & Ea & Ia) _ (vb & Eb & Ib)|a b x y _ (va & Ea & Ia) _ (vb & Eb & Ib)
    |a x _ (va & Ea & Ia) Hr|a x _ (va & Ea & Ia)]; cbn [eval].
  - eexists. split; [done|]. left. f_equal. rewrite <- (Z.mod_small u (2 ^ 128)) at 1 by lia.
    apply to_signed_mod. unfold int128. lia.
  - eexists. split; [done|]. right. eexists _, _. split; [done|]. by apply value_id_ok.
  - rewrite Ea, Eb. cbn [mbind option_bind]. rewrite (value_op_int wrapv e Add va vb x y) by done.
    rewrite int_result_in by done. cbn. eexists. split; [done|]. by left.
  - rewrite Ea, Eb. cbn [mbind option_bind]. rewrite (value_op_int wrapv e Sub va vb x y) by done.
    rewrite int_result_in by done. cbn. eexists. split; [done|]. by left.
  - rewrite Ea, Eb. cbn [mbind option_bind]. rewrite (value_op_int wrapv e Mul va vb x y) by done.
    rewrite int_result_in by done. cbn. eexists. split; [done|]. by left.
  - rewrite Ea, Eb. cbn [mbind option_bind]. rewrite (value_op_int wrapv e Div va vb x y) by done.
    destruct (Z.eqb_spec y 0); [done|]. rewrite (proj1 (int_div_ok x y Hy Hr)). cbn. eexists. split; [done|]. by left.
  - rewrite Ea, Eb. cbn [mbind option_bind]. rewrite (value_int_op_int e Mod va vb x y) by done.
    destruct (Z.eqb_spec y 0); [done|]. rewrite (proj2 (int_div_ok x y Hy Hr)). cbn. eexists. split; [done|]. by left.
  - rewrite Ea, Eb. cbn [mbind option_bind]. rewrite (value_int_op_int e Or va vb x y) by done. cbn. eexists. split; [done|]. by left.
  - rewrite Ea, Eb. cbn [mbind option_bind]. rewrite (value_int_op_int e And va vb x y) by done. cbn. eexists. split; [done|]. by left.
  - rewrite Ea, Eb. cbn [mbind option_bind]. rewrite (value_int_op_int e Xor va vb x y) by done. cbn. eexists. split; [done|]. by left.
  - rewrite Ea. cbn [mbind option_bind]. rewrite (value_neg_int wrapv e va x) by done.
    rewrite int_result_in by done. cbn. eexists. split; [done|]. by left.
  - rewrite Ea. eauto.
Qed.

(** Expressions of numbers and known names. *)
Fixpoint integral (e : env) (x : expr F) : Prop :=
  match x with
  | Num u => 0 <= u < 2 ^ 127
  | Flt _ => False
  | Id s len => ∃ name z, len = length name ∧ text_at s name ∧ names e name z
  | Arith _ a b | Int _ a b => integral e a ∧ integral e b
  | Neg a | Plus a => integral e a
  end.

(** No divisor is zero. *)
Fixpoint no_zero_divisor (e : env) (x : expr F) : Prop :=
  match x with
  | Num _ | Flt _ | Id _ _ => True
  | Arith op a b => no_zero_divisor e a ∧ no_zero_divisor e b ∧ (op = Div → ¬ denotes e b 0)
  | Int op a b => no_zero_divisor e a ∧ no_zero_divisor e b ∧ (op = Mod → ¬ denotes e b 0)
  | Neg a | Plus a => no_zero_divisor e a
  end.

Lemma int_result_inv z r : int_result false z = Some r → r = z ∧ int128 z.
Proof.
  unfold int_result, int128. destruct (Z.leb_spec (- 2 ^ 127) z), (Z.ltb_spec z (2 ^ 127)); cbn; try done.
  intros [= <-]. lia.
Qed.

Lemma eval_exact e x v : integral e x → no_zero_divisor e x → eval false e x = Some v →
  ∃ z, denotes e x z ∧ is_int e v z.
Proof.
  revert v. induction x as [u|w|s len|op a IHa b IHb|op a IHa b IHb|a IHa|a IHa]; cbn [eval integral no_zero_divisor]; intros v Hi Hz Hv.
  - injection Hv as <-. exists u. split; [by constructor|]. left. f_equal.
    rewrite <- (Z.mod_small u (2 ^ 128)) at 1 by lia. apply to_signed_mod. unfold int128. lia.
  - done.
  - injection Hv as <-. destruct Hi as (name & z & -> & Ht & Hn). exists z. split; [by constructor|].
    right. eexists _, _. split; [done|]. by apply value_id_ok.
  - destruct Hi as [Hia Hib]. destruct Hz as (Hza & Hzb & Hd).
    destruct (eval false e a) as [va|] eqn:Ea; cbn in Hv; [|done].
    destruct (eval false e b) as [vb|] eqn:Eb; cbn in Hv; [|done].
    destruct (IHa va Hia Hza eq_refl) as (x & Dx & Ix). destruct (IHb vb Hib Hzb eq_refl) as (y & Dy & Iy).
    rewrite (value_op_int false e op va vb x y) in Hv by done.
    destruct op.
    + destruct (int_result false (x + y)) as [r|] eqn:Er; cbn in Hv; [|done]. injection Hv as <-.
      destruct (int_result_inv _ _ Er) as [-> Hr]. eexists. split; [by econstructor|]. by left.
    + destruct (int_result false (x - y)) as [r|] eqn:Er; cbn in Hv; [|done]. injection Hv as <-.
      destruct (int_result_inv _ _ Er) as [-> Hr]. eexists. split; [by econstructor|]. by left.
    + destruct (int_result false (x * y)) as [r|] eqn:Er; cbn in Hv; [|done]. injection Hv as <-.
      destruct (int_result_inv _ _ Er) as [-> Hr]. eexists. split; [by econstructor|]. by left.
    + destruct (Z.eqb_spec y 0) as [Hy0|Hy]; [rewrite Hy0 in Dy; by destruct (Hd eq_refl)|].
      destruct (int_div x y) as [r|] eqn:Er; cbn in Hv; [|done]. injection Hv as <-.
      destruct (int_div_inv _ _ _ Er (denotes_range _ _ _ Dx)) as (_ & -> & Hr). eexists. split; [by econstructor|]. by left.
  - destruct Hi as [Hia Hib]. destruct Hz as (Hza & Hzb & Hd).
    destruct (eval false e a) as [va|] eqn:Ea; cbn in Hv; [|done].
    destruct (eval false e b) as [vb|] eqn:Eb; cbn in Hv; [|done].
    destruct (IHa va Hia Hza eq_refl) as (x & Dx & Ix). destruct (IHb vb Hib Hzb eq_refl) as (y & Dy & Iy).
    rewrite (value_int_op_int e op va vb x y) in Hv by done.
    destruct op.
    + destruct (Z.eqb_spec y 0) as [Hy0|Hy]; [rewrite Hy0 in Dy; by destruct (Hd eq_refl)|].
      destruct (int_mod x y) as [r|] eqn:Er; cbn in Hv; [|done]. injection Hv as <-.
      destruct (int_mod_inv _ _ _ Er (denotes_range _ _ _ Dx)) as (_ & -> & Hr). eexists. split; [by econstructor|]. by left.
    + injection Hv as <-. eexists. split; [by econstructor|]. by left.
    + injection Hv as <-. eexists. split; [by econstructor|]. by left.
    + injection Hv as <-. eexists. split; [by econstructor|]. by left.
  - destruct (eval false e a) as [va|] eqn:Ea; cbn in Hv; [|done].
    destruct (IHa va Hi Hz eq_refl) as (x & Dx & Ix).
    rewrite (value_neg_int false e va x) in Hv by done.
    destruct (int_result false (- x)) as [r|] eqn:Er; cbn in Hv; [|done]. injection Hv as <-.
    destruct (int_result_inv _ _ Er) as [-> Hr]. eexists. split; [by econstructor|]. by left.
  - destruct (IHa v Hi Hz Hv) as (z & Dz & Iz). exists z. split; [by constructor|done].
Qed.

(** ** Arithmetic modulo 2^128 *)
(** Polynomial expressions and their value without any bound. *)
Inductive polynomial (e : env) : expr F → Z → Prop :=
  | p_num u : 0 <= u < 2 ^ 128 → polynomial e (Num u) u
  | p_id s name z : text_at s name → names e name z → polynomial e (Id s (length name)) z
  | p_add a b x y : polynomial e a x → polynomial e b y → polynomial e (Arith Add a b) (x + y)
  | p_sub a b x y : polynomial e a x → polynomial e b y → polynomial e (Arith Sub a b) (x - y)
  | p_mul a b x y : polynomial e a x → polynomial e b y → polynomial e (Arith Mul a b) (x * y)
  | p_neg a x : polynomial e a x → polynomial e (Neg a) (- x)
  | p_plus a x : polynomial e a x → polynomial e (Plus a) x.

Lemma to_signed_spec z : int128 (to_signed z) ∧ ∃ k, to_signed z = z + k * 2 ^ 128.
Proof.
  unfold to_signed, int128. assert (B := Z.mod_pos_bound (z + 2 ^ 127) (2 ^ 128) ltac:(lia)). split; [lia|].
  assert (E := Z.div_mod (z + 2 ^ 127) (2 ^ 128) ltac:(lia)).
  exists (- ((z + 2 ^ 127) / 2 ^ 128)). lia.
Qed.

Lemma int_result_wraps z : ∃ r k, int_result true z = Some r ∧ r = z + k * 2 ^ 128.
Proof.
  unfold int_result. destruct (_ && _).
  - exists z, 0. split; [done|lia].
  - destruct (to_signed_spec z) as (_ & k & E). eauto.
Qed.

Lemma eval_polynomial e x z : polynomial e x z → ∃ v r k, eval true e x = Some v ∧ is_int e v r ∧ r = z + k * 2 ^ 128.
Proof.
  induction 1 as [u Hu|s name z Ht Hn|a b x y _ (va & ra & ka & Ea & Ia & Ra) _ (vb & rb & kb & Eb & Ib & Rb)
    |a b x y _ (va & ra & ka & Ea & Ia & Ra) _ (vb & rb & kb & Eb & Ib & Rb)
    |a b x y _ (va & ra & ka & Ea & Ia & Ra) _ (vb & rb & kb & Eb & Ib & Rb)
    |a x _ (va & ra & ka & Ea & Ia & Ra)|a x _ (va & ra & ka & Ea & Ia & Ra)]; cbn [eval].
  - destruct (to_signed_spec u) as (_ & k & E). exists (VInt (to_signed u)), (to_signed u), k.
    split; [done|]. split; [by left|done].
  - exists (VId s (length name)), z, 0. split; [done|]. split; [|lia].
    right. eexists _, _. split; [done|]. by apply value_id_ok.
  - rewrite Ea, Eb. cbn [mbind option_bind]. rewrite (value_op_int true e Add va vb ra rb) by done.
    destruct (int_result_wraps (ra + rb)) as (r & k & Er & E). rewrite Er. cbn.
    exists (VInt r), r, (k + ka + kb). split; [done|]. split; [by left|]. lia.
  - rewrite Ea, Eb. cbn [mbind option_bind]. rewrite (value_op_int true e Sub va vb ra rb) by done.
    destruct (int_result_wraps (ra - rb)) as (r & k & Er & E). rewrite Er. cbn.
    exists (VInt r), r, (k + ka - kb). split; [done|]. split; [by left|]. lia.
  - rewrite Ea, Eb. cbn [mbind option_bind]. rewrite (value_op_int true e Mul va vb ra rb) by done.
    destruct (int_result_wraps (ra * rb)) as (r & k & Er & E). rewrite Er. cbn.
    exists (VInt r), r, (k + ka * y + kb * x + ka * kb * 2 ^ 128). split; [done|]. split; [by left|].
    rewrite E, Ra, Rb. ring.
  - rewrite Ea. cbn [mbind option_bind]. rewrite (value_neg_int true e va ra) by done.
    destruct (int_result_wraps (- ra)) as (r & k & Er & E). rewrite Er. cbn.
    exists (VInt r), r, (k - ka). split; [done|]. split; [by left|]. lia.
  - rewrite Ea. eauto 10.
Qed.

Lemma load_integer_int e v z bytes : is_int e v z → load_integer e v bytes = Some (Some (z mod 2 ^ (8 * bytes))).
Proof. intros Hv. unfold load_integer. by rewrite (is_int_cast e v z Hv). Qed.

Lemma load_bool_int e v z : is_int e v z → load_bool e v = Some (Some (negb (z =? 0))).
Proof. intros Hv. unfold load_bool. by rewrite (is_int_cast e v z Hv). Qed.

Lemma mod_same_bytes z k bytes : 0 <= bytes <= 16 → (z + k * 2 ^ 128) mod 2 ^ (8 * bytes) = z mod 2 ^ (8 * bytes).
Proof.
  intros Hb. replace (2 ^ 128) with (2 ^ (128 - 8 * bytes) * 2 ^ (8 * bytes)).
  - rewrite Z.mul_assoc. apply Z.mod_add. lia.
  - rewrite <- Z.pow_add_r by lia. f_equal. lia.
Qed.

Lemma is_int_accepted e v z : is_int e v z → accepted v = true.
Proof. by intros [-> | (? & ? & -> & _)]. Qed.

End P.
