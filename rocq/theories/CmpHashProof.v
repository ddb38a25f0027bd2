(** Proofs about comparison of saved structures. *)
From Verif Require Import Base Bitfield HashStr HashStrProof Ptrs DfsProof CmpHash CmpHashSpec.
Local Open Scope Z_scope.

(** ** Bytes *)
Lemma le_num_range bs : Forall (fun b => 0 <= b < 256) bs -> 0 <= le_num bs < 2 ^ (8 * Z.of_nat (length bs)).
Proof.
  induction 1 as [|b bs Hb _ IH]; [done|]. cbn [le_num length].
  replace (8 * Z.of_nat (S (length bs))) with (8 + 8 * Z.of_nat (length bs)) by lia.
  rewrite Z.pow_add_r by lia. change (2 ^ 8) with 256. lia.
Qed.
Lemma le_num_inj a : forall b, Forall (fun b => 0 <= b < 256) a -> Forall (fun b => 0 <= b < 256) b ->
  length a = length b -> le_num a = le_num b -> a = b.
Proof.
  induction a as [|x a IH]; intros [|y b] Ha Hb L E; try done.
  apply Forall_cons in Ha as [Hx Ha]. apply Forall_cons in Hb as [Hy Hb]. cbn in E, L.
  assert (x = y /\ le_num a = le_num b) as [-> E'] by lia. f_equal. apply IH; [done|done|lia|done].
Qed.
Lemma le_int_inj sgn a b : Forall (fun b => 0 <= b < 256) a -> Forall (fun b => 0 <= b < 256) b ->
  length a = length b -> le_int sgn a = le_int sgn b -> a = b.
Proof.
  intros Ha Hb L E. apply le_num_inj; [done..|]. unfold le_int in E. rewrite L in E.
  pose proof (le_num_range a Ha) as Ra. pose proof (le_num_range b Hb) as Rb. rewrite L in Ra.
  destruct sgn; cbn [andb] in E; [|done].
  destruct (Z.leb_spec (2 ^ (8 * Z.of_nat (length b) - 1)) (le_num a)),
           (Z.leb_spec (2 ^ (8 * Z.of_nat (length b) - 1)) (le_num b)); lia.
Qed.
Lemma num_le_length n : forall z, length (num_le n z) = n.
Proof. induction n as [|n IH]; intros z; [done|]. cbn. by rewrite IH. Qed.
Lemma num_le_bytes n : forall z, Forall (fun b => 0 <= b < 256) (num_le n z).
Proof. induction n as [|n IH]; intros z; constructor; [|done]. apply Z.mod_pos_bound. lia. Qed.
Lemma num_le_inj n : forall x y, 0 <= x < 2 ^ (8 * Z.of_nat n) -> 0 <= y < 2 ^ (8 * Z.of_nat n) ->
  num_le n x = num_le n y -> x = y.
Proof.
  induction n as [|n IH]; intros x y Hx Hy E.
  - change (2 ^ (8 * Z.of_nat 0)) with 1 in *. lia.
  - cbn in E. injection E as E1 E2.
    replace (8 * Z.of_nat (S n)) with (8 + 8 * Z.of_nat n) in * by lia.
    rewrite Z.pow_add_r in Hx, Hy by lia. change (2 ^ 8) with 256 in *.
    apply IH in E2.
    + rewrite (Z.div_mod x 256), (Z.div_mod y 256) by lia. by rewrite E1, E2.
    + split; [apply Z.div_pos; lia|]. apply Z.div_lt_upper_bound; lia.
    + split; [apply Z.div_pos; lia|]. apply Z.div_lt_upper_bound; lia.
Qed.
Lemma bytes_at_inv mem pos size bs : bytes_at mem pos size = Some bs ->
  bs = take size (drop pos mem) /\ length bs = size /\ (pos + size <= length mem)%nat.
Proof.
  unfold bytes_at. destruct (Nat.leb_spec (pos + size) (length mem)); [|done]. intros [= <-].
  split; [done|]. split; [|done]. rewrite take_length, drop_length. lia.
Qed.
Lemma bytes_at_bytes mem pos size bs : Forall (fun b => 0 <= b < 256) mem -> bytes_at mem pos size = Some bs ->
  Forall (fun b => 0 <= b < 256) bs.
Proof. intros H E. apply bytes_at_inv in E as (-> & _). by apply Forall_take, Forall_drop. Qed.

(** ** memcmp *)
Lemma memcmp_anti a : forall b, Z.sgn (memcmp a b) = - Z.sgn (memcmp b a).
Proof.
  induction a as [|x a IH]; intros [|y b]; try done. cbn. rewrite (Z.eqb_sym y x).
  destruct (Z.eqb_spec x y); [apply IH|]. replace (x - y) with (- (y - x)) by lia. by rewrite Z.sgn_opp.
Qed.
Lemma memcmp_trans a : forall b c, length a = length b -> length b = length c ->
  memcmp a b <= 0 -> memcmp b c <= 0 -> memcmp a c <= 0.
Proof.
  induction a as [|x a IH]; intros [|y b] [|z c] L1 L2; try done. cbn in *.
  destruct (Z.eqb_spec x y) as [->|Hxy].
  - destruct (Z.eqb_spec y z) as [->|]; [|lia]. apply IH; lia.
  - destruct (Z.eqb_spec y z) as [->|]; destruct (Z.eqb_spec x z) as [->|]; intros; try lia.
Qed.
Lemma memcmp_eq a : forall b, length a = length b -> memcmp a b = 0 <-> a = b.
Proof.
  induction a as [|x a IH]; intros [|y b] L; try done. cbn in *.
  destruct (Z.eqb_spec x y) as [->|Hne].
  - rewrite IH by lia. split; [by intros ->|by intros [= ->]].
  - split; [lia|]. intros [= ? ?]. lia.
Qed.

Lemma header_length n : length (header n) = 32%nat.
Proof. unfold header. rewrite !app_length, !num_le_length. done. Qed.
Lemma header_eq e x y : node_ok e x -> node_ok e y -> header x = header y <-> described x = described y.
Proof.
  intros (X1 & X2 & X3 & X4 & X5 & X6 & X7 & X8 & X9 & X10 & _) (Y1 & Y2 & Y3 & Y4 & Y5 & Y6 & Y7 & Y8 & Y9 & Y10 & _).
  unfold fits, described in *. split.
  - intros E. unfold header in E.
    repeat (apply app_inj_1 in E as [?H E]; [|by rewrite !num_le_length]).
    apply num_le_inj in H, H0, H1, H2, H3, H4, H5, H6, H7, E; [|done..].
    apply Nat2Z.inj in H5, H6, H7, E. by rewrite H, H0, H1, H2, H3, H4, H5, H6, H7, E.
  - intros [= E1 E2 E3 E4 E5 E6 E7 E8 E9 E10]. unfold header.
    by rewrite E1, E2, E3, E4, E5, E6, E7, E8, E9, E10.
Qed.

(** ** Three-way comparators on a domain *)
Definition anti_on {A} (P : A -> A -> Prop) (c : A -> A -> Z) : Prop :=
  forall x y, P x y -> Z.sgn (c x y) = - Z.sgn (c y x).
Lemma anti_zero a b : Z.sgn a = - Z.sgn b -> a = 0 <-> b = 0.
Proof. intros H. destruct a, b; cbn in H; try done; lia. Qed.
Lemma anti_le a b : Z.sgn a = - Z.sgn b -> a <= 0 <-> 0 <= b.
Proof. intros H. destruct a, b; cbn in H; try done; lia. Qed.

(** Strictness: a strict step makes the whole strict. *)
Lemma trans_strict {A} (c : A -> A -> Z) x y z :
  Z.sgn (c x y) = - Z.sgn (c y x) -> Z.sgn (c y z) = - Z.sgn (c z y) -> Z.sgn (c x z) = - Z.sgn (c z x) ->
  (c x y <= 0 -> c y z <= 0 -> c x z <= 0) ->
  (c y z <= 0 -> c z x <= 0 -> c y x <= 0) ->
  (c z x <= 0 -> c x y <= 0 -> c z y <= 0) ->
  c x y <= 0 -> c y z <= 0 -> (c x z < 0 \/ (c x z = 0 /\ c x y = 0 /\ c y z = 0)).
Proof.
  intros A1 A2 A3 T1 T2 T3 H1 H2. pose proof (T1 H1 H2) as H3.
  destruct (Z.eq_dec (c x z) 0) as [E|]; [|left; lia]. right.
  assert (c z x = 0) as E' by (apply (anti_zero _ _ A3); done).
  pose proof (T2 H2 ltac:(lia)) as H4. pose proof (T3 ltac:(lia) H1) as H5.
  pose proof (proj1 (anti_le (c y x) (c x y) ltac:(lia)) H4).
  pose proof (proj1 (anti_le (c z y) (c y z) ltac:(lia)) H5). lia.
Qed.

Lemma sgn3_anti x y : sgn3 x y = - sgn3 y x.
Proof. unfold sgn3. lia. Qed.
Lemma sgn3_le x y : sgn3 x y <= 0 <-> x <= y.
Proof. unfold sgn3. destruct (Z.ltb_spec y x), (Z.ltb_spec x y); cbn; lia. Qed.
Lemma sgn3_zero x y : sgn3 x y = 0 <-> x = y.
Proof. unfold sgn3. destruct (Z.ltb_spec y x), (Z.ltb_spec x y); cbn; lia. Qed.

(** ** Values *)
(** Order of floating point values, NaN first. *)
Lemma cmp_part_anti x y : cmp_part x y = - cmp_part y x.
Proof. destruct x, y; unfold cmp_part; cbn; try done. unfold fsgn3; cbn. lia. Qed.
Lemma cmp_part_zero x y : cmp_part x y = 0 <-> x = y.
Proof.
  destruct x as [|a], y as [|b]; unfold cmp_part; cbn; try done. unfold fsgn3; cbn.
  destruct (Z.ltb_spec b a), (Z.ltb_spec a b); cbn; split; try lia; try (intros [= ?]; lia). intros _. f_equal. lia.
Qed.
Lemma cmp_part_trans x y z : cmp_part x y <= 0 -> cmp_part y z <= 0 -> cmp_part x z <= 0.
Proof.
  destruct x as [|a], y as [|b], z as [|c]; unfold cmp_part; cbn; try lia. unfold fsgn3; cbn.
  destruct (Z.ltb_spec b a), (Z.ltb_spec a b), (Z.ltb_spec c b), (Z.ltb_spec b c), (Z.ltb_spec c a), (Z.ltb_spec a c); cbn; lia.
Qed.
Lemma cmp_float_part f x y vx vy : rd_float f x 0 = Some vx -> rd_float f y 0 = Some vy ->
  cmp_float f x y = Some (cmp_part vx vy).
Proof.
  intros E1 E2. unfold cmp_float. rewrite E1, E2. cbn [mbind option_bind].
  destruct vx, vy; unfold cmp_part; cbn [isnan negb andb]; try done.
  destruct (Z.eqb_spec (fsgn3 (FNum place) (FNum place0)) 0) as [E|]; cbn [negb]; [|done]. by rewrite E.
Qed.

Definition complex_cmp (r i r' i' : fval) : Z :=
  if (isnan r || isnan i) && (isnan r' || isnan i') then 0
  else if negb (cmp_part r r' =? 0) then cmp_part r r' else cmp_part i i'.

Definition vcmp (a b : value) : Z :=
  match a, b with
  | VText None, VText (Some _) => -1
  | VText (Some _), VText None => 1
  | VText (Some s), VText (Some t) => strcmp s t
  | VNum x, VNum y => sgn3 x y
  | VReal x, VReal y => cmp_part x y
  | VComplex r i, VComplex r' i' => complex_cmp r i r' i'
  | _, _ => 0
  end.

(** Values of one shape. *)
Definition alike (a b : value) : Prop :=
  match a, b with
  | VText _, VText _ | VNum _, VNum _ | VReal _, VReal _ | VComplex _ _, VComplex _ _ | VNothing, VNothing => True
  | _, _ => False
  end.
Definition value_ok (a : value) : Prop :=
  match a with VText (Some t) => is_cstr t | _ => True end.
Definition tidy (a : value) : Prop :=
  match a with VComplex r FNan => r = FNan | _ => True end.

Lemma vcmp_anti a b : Z.sgn (vcmp a b) = - Z.sgn (vcmp b a).
Proof.
  destruct a as [[s|]|x|x|r i|], b as [[t|]|y|y|r' i'|]; cbn; try done.
  - apply strcmp_anti.
  - rewrite sgn3_anti. by rewrite Z.sgn_opp.
  - rewrite cmp_part_anti. by rewrite Z.sgn_opp.
  - unfold complex_cmp. rewrite (andb_comm (isnan r' || isnan i')).
    destruct ((isnan r || isnan i) && (isnan r' || isnan i')); [done|].
    rewrite (cmp_part_anti r' r), (cmp_part_anti i' i).
    destruct (Z.eqb_spec (cmp_part r r') 0) as [->|]; cbn [negb]; [change (- 0 =? 0) with true; cbn [negb]|].
    + rewrite Z.sgn_opp. lia.
    + destruct (Z.eqb_spec (- cmp_part r r') 0); [lia|]. cbn [negb]. rewrite Z.sgn_opp. lia.
Qed.
Lemma vcmp_zero a b : alike a b -> value_ok a -> value_ok b -> vcmp a b = 0 <-> same_value a b.
Proof.
  destruct a as [[s|]|x|x|r i|], b as [[t|]|y|y|r' i'|]; cbn; try done; intros _ Ha Hb.
  - rewrite strcmp_eq by done. split; [by intros ->|by intros [= ->]].
  - rewrite sgn3_zero. split; [by intros ->|by intros [= ->]].
  - rewrite cmp_part_zero. split; [by intros ->|by intros [= ->]].
  - unfold complex_cmp, has_nan.
    destruct ((isnan r || isnan i) && (isnan r' || isnan i')) eqn:E.
    + split; [|done]. intros _. left. destruct r, i, r', i'; try done; auto.
    + destruct (Z.eqb_spec (cmp_part r r') 0) as [E1|E1]; cbn [negb].
      * apply cmp_part_zero in E1 as ->. rewrite cmp_part_zero. split.
        -- intros ->. by right.
        -- intros [[H1 H2]|[_ ->]]; [|done]. exfalso. destruct r', i, i'; try done; destruct H1, H2; done.
      * split; [done|]. intros [[H1 H2]|[-> _]].
        -- exfalso. destruct r, i, r', i'; try done; destruct H1, H2; done.
        -- exfalso. apply E1. by apply cmp_part_zero.
Qed.
Lemma vcmp_trans a b c : alike a b -> alike b c -> value_ok a -> value_ok b -> value_ok c ->
  tidy a -> tidy b -> tidy c -> vcmp a b <= 0 -> vcmp b c <= 0 -> vcmp a c <= 0.
Proof.
  destruct a as [[s|]|x|x|r i|], b as [[t|]|y|y|r' i'|], c as [[u|]|z|z|r'' i''|]; cbn; try done; intros _ _ Ha Hb Hc Ta Tb Tc; try lia.
  - by apply strcmp_trans.
  - rewrite !sgn3_le. lia.
  - apply cmp_part_trans.
  - assert (forall r i r' i', (i = FNan -> r = FNan) -> (i' = FNan -> r' = FNan) ->
      complex_cmp r i r' i' <= 0 <-> r = FNan \/ (r <> FNan /\ r' <> FNan /\
        (cmp_part r r' < 0 \/ cmp_part r r' = 0 /\ cmp_part i i' <= 0))) as K.
    { clear. intros r i r' i' T T'. unfold complex_cmp.
      destruct r as [|a]; cbn [isnan orb].
      - split; [by left|]. intros _. destruct r' as [|a']; cbn [isnan orb andb]; [done|].
        destruct i' as [|b']; [by discriminate T'|]. change (cmp_part FNan (FNum a')) with (-1). cbn. lia.
      - destruct i as [|b]; [by discriminate T|]. cbn [isnan orb andb].
        destruct r' as [|a'].
        + change (cmp_part (FNum a) FNan) with 1. cbn. split; [lia|]. intros [?|(_ & ? & _)]; done.
        + destruct i' as [|b']; [by discriminate T'|].
          destruct (Z.eqb_spec (cmp_part (FNum a) (FNum a')) 0) as [E|E]; cbn [negb].
          * split; [intros H; right; split; [done|]; split; [done|]; right; lia|]. intros [?|(_ & _ & [?|[_ ?]])]; [done|lia|done].
          * split; [intros H; right; split; [done|]; split; [done|]; left; lia|]. intros [?|(_ & _ & [?|[? ?]])]; [done|lia|done]. }
    assert (forall r i, (match i with FNan => r = FNan | FNum _ => True end) -> i = FNan -> r = FNan) as T0 by (intros ?? H ->; done).
    rewrite !K by (by apply T0). intros [->|(N1 & N2 & H1)]; [by left|]. intros [->|(_ & N3 & H2)]; [done|].
    right. split; [done|]. split; [done|].
    pose proof (trans_strict cmp_part r r' r'') as S.
    assert (forall u v, Z.sgn (cmp_part u v) = - Z.sgn (cmp_part v u)) as A by (intros; rewrite cmp_part_anti; by rewrite Z.sgn_opp).
    specialize (S (A _ _) (A _ _) (A _ _) (cmp_part_trans _ _ _) (cmp_part_trans _ _ _) (cmp_part_trans _ _ _) ltac:(lia) ltac:(lia)).
    destruct S as [S|(S1 & S2 & S3)]; [by left|]. right. split; [done|].
    apply (cmp_part_trans i i' i''); lia.
Qed.

(** ** Nodes *)
Lemma text_at_cstr mem t : Forall (fun b => 0 <= b < 256) mem -> text_at mem = Some t -> is_cstr t.
Proof.
  revert t. induction mem as [|b mem IH]; intros t H E; [done|]. apply Forall_cons in H as [Hb H]. cbn in E.
  destruct (Z.eqb_spec b 0); [injection E as <-; constructor|].
  destruct (text_at mem) as [s|]; [|done]. injection E as <-. constructor; [lia|by apply IH].
Qed.

Section Env.
Context (e : env) (Hcstr : forall p t, text e p = Some t -> Forall (fun c => 1 <= c <= 255) t).

Lemma value_of_ok n v : node_ok e n -> value_of e n = Some v -> value_ok v.
Proof.
  intros (_ & _ & _ & _ & _ & _ & _ & _ & _ & _ & Hb & _). unfold value_of.
  destruct (kind_of (c_type n)); intros E.
  - destruct (bytes_at _ 0 8) as [p|]; [|done]. cbn in E. destruct (Z.eqb_spec (le_num p) 0); [by injection E as <-|].
    destruct (text e (le_num p)) as [t|] eqn:Et; [|done]. injection E as <-. by apply (Hcstr (le_num p)).
  - destruct (text_at (c_data n)) as [t|] eqn:Et; [|done]. injection E as <-. by apply (text_at_cstr (c_data n)).
  - destruct (rd_bool _); [|done]. by injection E as <-.
  - destruct (bytes_at _ 0 _); [|done]. by injection E as <-.
  - destruct (rd_float _ _ 0); [|done]. by injection E as <-.
  - destruct (rd_float _ _ 0); [|done]. cbn in E. destruct (rd_float _ _ _); [|done]. by injection E as <-.
  - by injection E as <-.
  - destruct (enum_kind _) as [[size sgn]|]; [|by injection E as <-]. destruct (bytes_at _ 0 _); [|done]. by injection E as <-.
  - destruct (bytes_at _ 0 _); [|done]. by injection E as <-.
  - destruct (rd_bits _ _); [|done]. by injection E as <-.
  - by injection E as <-.
Qed.

Lemma value_alike x y a b : c_type x = c_type y -> c_aux x = c_aux y -> value_of e x = Some a -> value_of e y = Some b -> alike a b.
Proof.
  intros T A. unfold value_of. rewrite T, A. destruct (kind_of (c_type y)); intros E1 E2.
  all: repeat match goal with
  | E : (_ ≫= _) = Some _ |- _ =>
      let H := fresh in destruct (proj1 (bind_Some _ _ _) E) as (? & _ & H); clear E; cbv beta in H
  | E : match enum_kind _ with _ => _ end = Some _ |- _ => destruct (enum_kind _) as [[]|]
  | E : (if ?b then _ else _) = Some _ |- _ => destruct b
  | E : Some _ = Some _ |- _ => injection E as <-
  end; try done.
Qed.

(** The comparison of two nodes by their values. *)
Lemma cmp_value_ok x y a b : node_ok e x -> node_ok e y -> c_type x = c_type y -> c_aux x = c_aux y ->
  value_of e x = Some a -> value_of e y = Some b -> cmp_value e x y = Some (vcmp a b).
Proof.
  intros Ox Oy T A. destruct Ox as (_ & _ & _ & _ & _ & _ & _ & _ & _ & _ & Hbx & _). destruct Oy as (_ & _ & _ & _ & _ & _ & _ & _ & _ & _ & Hby & _).
  unfold value_of, cmp_value. rewrite <- T, <- A. destruct (kind_of (c_type x)); intros E1 E2.
  - unfold cmp_string. destruct (bytes_at (c_data x) 0 8) as [p|] eqn:Ep; [|done]. destruct (bytes_at (c_data y) 0 8) as [q|] eqn:Eq; [|done].
    cbn [mbind option_bind] in *. 
    pose proof (le_num_range p (bytes_at_bytes _ _ _ _ Hbx Ep)). pose proof (le_num_range q (bytes_at_bytes _ _ _ _ Hby Eq)).
    destruct (Z.eqb_spec (le_num p) (le_num q)) as [E|E].
    + rewrite E in E1. assert (a = b) as -> by congruence. destruct b as [[t|]| | | |]; cbn; try done; [by rewrite strcmp_refl|..];
      destruct (le_num q =? 0); [done|destruct (text e (le_num q)); done|done|destruct (text e (le_num q)); done|done|destruct (text e (le_num q)); done].
    + destruct (Z.eqb_spec (le_num p) 0) as [E0|E0]; cbn [orb].
      * injection E1 as <-. destruct (Z.eqb_spec (le_num q) 0); [lia|].
        destruct (text e (le_num q)) as [t|]; [|done]. injection E2 as <-. cbn. f_equal. unfold sgn3.
        destruct (Z.ltb_spec (le_num q) (le_num p)), (Z.ltb_spec (le_num p) (le_num q)); cbn; lia.
      * destruct (text e (le_num p)) as [s|]; [|done]. injection E1 as <-.
        destruct (Z.eqb_spec (le_num q) 0); cbn [mbind option_bind].
        -- injection E2 as <-. cbn. f_equal. unfold sgn3.
           destruct (Z.ltb_spec (le_num q) (le_num p)), (Z.ltb_spec (le_num p) (le_num q)); cbn; lia.
        -- destruct (text e (le_num q)) as [t|]; [|done]. by injection E2 as <-.
  - destruct (text_at (c_data x)); [|done]. destruct (text_at (c_data y)); [|done]. injection E1 as <-. by injection E2 as <-.
  - destruct (rd_bool (c_data x)); [|done]. destruct (rd_bool (c_data y)); [|done]. injection E1 as <-. by injection E2 as <-.
  - unfold cmp_int. destruct (bytes_at (c_data x) 0 size); [|done]. destruct (bytes_at (c_data y) 0 size); [|done]. injection E1 as <-. by injection E2 as <-.
  - destruct (rd_float f (c_data x) 0) as [vx|] eqn:Ex; [|done]. destruct (rd_float f (c_data y) 0) as [vy|] eqn:Ey; [|done].
    injection E1 as <-. injection E2 as <-. by apply cmp_float_part.
  - unfold cmp_complex. destruct (rd_float f (c_data x) 0) as [rx|]; [|done]. destruct (rd_float f (c_data x) (fmt_step f)) as [ix|]; [|done].
    destruct (rd_float f (c_data y) 0) as [ry|]; [|done]. destruct (rd_float f (c_data y) (fmt_step f)) as [iy|]; [|done].
    injection E1 as <-. injection E2 as <-. cbn [mbind option_bind vcmp]. unfold complex_cmp.
    destruct ((isnan rx || isnan ix) && (isnan ry || isnan iy)); [done|]. by destruct (negb (cmp_part rx ry =? 0)).
  - injection E1 as <-. by injection E2 as <-.
  - destruct (enum_kind (c_aux x)) as [[size sgn]|]; [|injection E1 as <-; by injection E2 as <-].
    unfold cmp_int. destruct (bytes_at (c_data x) 0 size); [|done]. destruct (bytes_at (c_data y) 0 size); [|done]. injection E1 as <-. by injection E2 as <-.
  - unfold cmp_int. destruct (bytes_at (c_data x) 0 8); [|done]. destruct (bytes_at (c_data y) 0 8); [|done]. injection E1 as <-. by injection E2 as <-.
  - destruct (rd_bits (fd e (c_fdp x)) (c_data x)); [|done]. destruct (rd_bits (fd e (c_fdp y)) (c_data y)); [|done]. injection E1 as <-. by injection E2 as <-.
  - injection E1 as <-. by injection E2 as <-.
Qed.

Definition val (n : cnode) : value := default VNothing (value_of e n).
(** The comparison of nodes as a total function. *)
Definition ncmp (x y : cnode) : Z :=
  let diff := sgn3 (Z.of_nat (c_idx x)) (Z.of_nat (c_idx y)) in
  if negb (diff =? 0) then diff
  else if Nat.eqb (c_idx x) 0 then 0
  else if negb (memcmp (header x) (header y) =? 0) then memcmp (header x) (header y)
  else vcmp (val x) (val y).

Lemma val_eq n : node_ok e n -> c_idx n <> 0%nat -> value_of e n = Some (val n).
Proof. intros (_ & _ & _ & _ & _ & _ & _ & _ & _ & _ & _ & H) N. destruct (H N) as [v E]. unfold val. by rewrite E. Qed.

Lemma cmp_node_ok x y : node_ok e x -> node_ok e y -> cmp_node e x y = Some (ncmp x y).
Proof.
  intros Ox Oy. unfold cmp_node, ncmp.
  destruct (Z.eqb_spec (sgn3 (Z.of_nat (c_idx x)) (Z.of_nat (c_idx y))) 0) as [E|E]; cbn [negb]; [|done].
  apply (proj1 (sgn3_zero _ _)) in E. destruct (Nat.eqb_spec (c_idx x) 0) as [E0|E0]; [done|].
  destruct (Z.eqb_spec (memcmp (header x) (header y)) 0) as [Em|Em]; cbn [negb]; [|done].
  apply memcmp_eq in Em; [|by rewrite !header_length]. apply (header_eq e) in Em; [|done..]. injection Em as D1 D2 D3 D4 D5 D6 D7 D8 D9 D10.
  apply cmp_value_ok; [done..| |]; apply val_eq; done || lia.
Qed.

Lemma ncmp_anti x y : Z.sgn (ncmp x y) = - Z.sgn (ncmp y x).
Proof.
  clear Hcstr.
  unfold ncmp. rewrite (sgn3_anti (Z.of_nat (c_idx y))).
  destruct (Z.eqb_spec (sgn3 (Z.of_nat (c_idx x)) (Z.of_nat (c_idx y))) 0) as [E|E].
  - rewrite E. change (- 0 =? 0) with true. cbn [negb]. apply (proj1 (sgn3_zero _ _)) in E. assert (c_idx y = c_idx x) as Exy by lia. rewrite Exy.
    destruct (Nat.eqb (c_idx x) 0); [done|].
    pose proof (memcmp_anti (header x) (header y)) as A. pose proof (anti_zero _ _ A) as Az.
    destruct (Z.eqb_spec (memcmp (header x) (header y)) 0) as [Em|Em], (Z.eqb_spec (memcmp (header y) (header x)) 0) as [Em'|Em']; cbn [negb]; try tauto.
    apply vcmp_anti.
  - destruct (Z.eqb_spec (- sgn3 (Z.of_nat (c_idx x)) (Z.of_nat (c_idx y))) 0); [lia|]. cbn [negb]. rewrite Z.sgn_opp. lia.
Qed.

Lemma ncmp_zero x y : node_ok e x -> node_ok e y -> ncmp x y = 0 <-> same_node e x y.
Proof.
  intros Ox Oy. unfold ncmp, same_node.
  destruct (Z.eqb_spec (sgn3 (Z.of_nat (c_idx x)) (Z.of_nat (c_idx y))) 0) as [E|E]; cbn [negb].
  - apply (proj1 (sgn3_zero _ _)) in E. destruct (Nat.eqb_spec (c_idx x) 0) as [E0|E0]; [split; [left; lia|done]|].
    destruct (Z.eqb_spec (memcmp (header x) (header y)) 0) as [Em|Em]; cbn [negb].
    + apply memcmp_eq in Em; [|by rewrite !header_length]. apply (header_eq e) in Em; [|done..].
      pose proof Em as Em0. injection Em as D1 D2 D3 D4 D5 D6 D7 D8 D9 D10.
      pose proof (val_eq x Ox E0) as Vx. pose proof (val_eq y Oy ltac:(lia)) as Vy.
      rewrite vcmp_zero; [|by apply (value_alike x y)|by apply (value_of_ok x)|by apply (value_of_ok y)].
      split.
      * intros S. right. split; [done|]. split; [done|]. by exists (val x), (val y).
      * intros [[? ?]|(_ & _ & a & b & Ea & Eb & S)]; [done|]. rewrite Vx in Ea. rewrite Vy in Eb. injection Ea as ->. by injection Eb as ->.
    + split; [done|]. intros [[? ?]|(_ & D & _)]; [done|]. exfalso. apply Em. apply memcmp_eq; [by rewrite !header_length|]. by apply (header_eq e).
  - split; [done|]. intros [[A B]|(_ & D & _)].
    + rewrite A, B in E. done.
    + injection D as _ _ _ _ _ _ D _ _ _. rewrite D in E. exfalso. apply E. by apply sgn3_zero.
Qed.

Lemma ncmp_trans x y z : node_ok e x -> node_ok e y -> node_ok e z -> tidy (val x) -> tidy (val y) -> tidy (val z) ->
  ncmp x y <= 0 -> ncmp y z <= 0 -> ncmp x z <= 0.
Proof.
  intros Ox Oy Oz Tx Ty Tz. unfold ncmp.
  destruct (Z.eqb_spec (sgn3 (Z.of_nat (c_idx x)) (Z.of_nat (c_idx y))) 0) as [E1|E1]; cbn [negb].
  2:{ intros H1. apply (proj1 (sgn3_le _ _)) in H1. assert (c_idx x < c_idx y)%nat by (rewrite sgn3_zero in E1; lia).
      assert (ncmp y z <= 0 -> (c_idx y <= c_idx z)%nat) as K.
      { unfold ncmp. destruct (Z.eqb_spec (sgn3 (Z.of_nat (c_idx y)) (Z.of_nat (c_idx z))) 0) as [E|E]; cbn [negb].
        - apply (proj1 (sgn3_zero _ _)) in E. lia.
        - rewrite sgn3_le. lia. }
      intros H2%K. destruct (Z.eqb_spec (sgn3 (Z.of_nat (c_idx x)) (Z.of_nat (c_idx z))) 0) as [E|E]; cbn [negb].
      - apply (proj1 (sgn3_zero _ _)) in E. lia.
      - apply sgn3_le. lia. }
  apply (proj1 (sgn3_zero _ _)) in E1. assert (c_idx x = c_idx y) as Exy by lia. rewrite Exy.
  destruct (Z.eqb_spec (sgn3 (Z.of_nat (c_idx y)) (Z.of_nat (c_idx z))) 0) as [E2|E2]; cbn [negb]; [|done].
  apply (proj1 (sgn3_zero _ _)) in E2. destruct (Nat.eqb_spec (c_idx y) 0) as [E0|E0]; [done|].
  assert (Lh : forall u v, length (header u) = length (header v)) by (intros; by rewrite !header_length).
  assert (D : forall u v, node_ok e u -> node_ok e v -> memcmp (header u) (header v) = 0 -> described u = described v).
  { intros u v Hu Hv Hm. apply memcmp_eq in Hm; [|done]. by apply (header_eq e). }
  intros H1 H2.
  assert (memcmp (header x) (header y) <= 0) as M1 by (destruct (Z.eqb_spec (memcmp (header x) (header y)) 0); cbn [negb] in *; lia).
  assert (memcmp (header y) (header z) <= 0) as M2 by (destruct (Z.eqb_spec (memcmp (header y) (header z)) 0); cbn [negb] in *; lia).
  pose proof (trans_strict (fun u v => memcmp (header u) (header v)) x y z (memcmp_anti _ _) (memcmp_anti _ _) (memcmp_anti _ _)
    (memcmp_trans _ _ _ (Lh _ _) (Lh _ _)) (memcmp_trans _ _ _ (Lh _ _) (Lh _ _)) (memcmp_trans _ _ _ (Lh _ _) (Lh _ _)) M1 M2) as S. cbv beta in S.
  destruct S as [S|(S1 & S2 & S3)].
  - destruct (Z.eqb_spec (memcmp (header x) (header z)) 0); cbn [negb]; lia.
  - rewrite S1. rewrite S2 in H1. rewrite S3 in H2. cbn [negb Z.eqb] in *.
    pose proof (D x y Ox Oy S2) as D1. pose proof (D y z Oy Oz S3) as D2.
    injection D1 as _ ? ? _ _ _ _ _ _ _. injection D2 as _ ? ? _ _ _ _ _ _ _.
    pose proof (val_eq x Ox ltac:(lia)) as Vx. pose proof (val_eq y Oy ltac:(lia)) as Vy. pose proof (val_eq z Oz ltac:(lia)) as Vz.
    apply (vcmp_trans (val x) (val y) (val z)); try done.
    + by apply (value_alike x y).
    + by apply (value_alike y z).
    + by apply (value_of_ok x).
    + by apply (value_of_ok y).
    + by apply (value_of_ok z).
Qed.

(** ** Tables *)
Fixpoint lcmp (xs ys : list cnode) : Z :=
  match xs, ys with
  | x :: xs, y :: ys => if negb (ncmp x y =? 0) then ncmp x y else lcmp xs ys
  | _, _ => 0
  end.
Definition tcmp (xs ys : list cnode) : Z :=
  let diff := sgn3 (Z.of_nat (length xs)) (Z.of_nat (length ys)) in
  if negb (diff =? 0) then diff else lcmp (drop 1 xs) (drop 1 ys).

Lemma cmp_nodes_ok xs : forall ys, Forall (node_ok e) xs -> Forall (node_ok e) ys -> cmp_nodes e xs ys = Some (lcmp xs ys).
Proof.
  induction xs as [|x xs IH]; intros [|y ys] Hx Hy; try done.
  apply Forall_cons in Hx as [Ox Hx]. apply Forall_cons in Hy as [Oy Hy]. cbn.
  rewrite (cmp_node_ok x y Ox Oy). cbn. destruct (negb (ncmp x y =? 0)); [done|by apply IH].
Qed.
Lemma lcmp_anti xs : forall ys, Z.sgn (lcmp xs ys) = - Z.sgn (lcmp ys xs).
Proof.
  clear Hcstr.
  induction xs as [|x xs IH]; intros [|y ys]; try done. cbn.
  pose proof (ncmp_anti x y) as A. pose proof (anti_zero _ _ A).
  destruct (Z.eqb_spec (ncmp x y) 0), (Z.eqb_spec (ncmp y x) 0); cbn [negb]; try tauto. apply IH.
Qed.
Lemma lcmp_zero xs : forall ys, Forall (node_ok e) xs -> Forall (node_ok e) ys -> length xs = length ys ->
  lcmp xs ys = 0 <-> Forall2 (same_node e) xs ys.
Proof.
  induction xs as [|x xs IH]; intros [|y ys] Hx Hy L; [by split; [constructor|]|done|done|].
  apply Forall_cons in Hx as [Ox Hx]. apply Forall_cons in Hy as [Oy Hy]. cbn in *.
  rewrite Forall2_cons. rewrite <- (ncmp_zero x y Ox Oy), <- (IH ys) by (done || lia).
  destruct (Z.eqb_spec (ncmp x y) 0); cbn [negb]; tauto.
Qed.
Lemma lcmp_trans xs : forall ys zs, Forall (node_ok e) xs -> Forall (node_ok e) ys -> Forall (node_ok e) zs ->
  Forall (fun n => tidy (val n)) xs -> Forall (fun n => tidy (val n)) ys -> Forall (fun n => tidy (val n)) zs ->
  length xs = length ys -> length ys = length zs -> lcmp xs ys <= 0 -> lcmp ys zs <= 0 -> lcmp xs zs <= 0.
Proof.
  induction xs as [|x xs IH]; intros [|y ys] [|z zs] Hx Hy Hz Tx Ty Tz L1 L2; try done.
  apply Forall_cons in Hx as [Ox Hx]. apply Forall_cons in Hy as [Oy Hy]. apply Forall_cons in Hz as [Oz Hz].
  apply Forall_cons in Tx as [Px Tx]. apply Forall_cons in Ty as [Py Ty]. apply Forall_cons in Tz as [Pz Tz]. cbn in *.
  intros H1 H2.
  assert (ncmp x y <= 0) as M1 by (destruct (Z.eqb_spec (ncmp x y) 0); cbn [negb] in *; lia).
  assert (ncmp y z <= 0) as M2 by (destruct (Z.eqb_spec (ncmp y z) 0); cbn [negb] in *; lia).
  pose proof (trans_strict ncmp x y z (ncmp_anti _ _) (ncmp_anti _ _) (ncmp_anti _ _)
    (ncmp_trans x y z Ox Oy Oz Px Py Pz) (ncmp_trans y z x Oy Oz Ox Py Pz Px) (ncmp_trans z x y Oz Ox Oy Pz Px Py) M1 M2) as [S|(S1 & S2 & S3)].
  - destruct (Z.eqb_spec (ncmp x z) 0); cbn [negb]; lia.
  - rewrite S1. rewrite S2 in H1. rewrite S3 in H2. cbn [negb Z.eqb] in *. apply (IH ys zs); done || lia.
Qed.
End Env.

Lemma cmp_structs_ok e xs ys : table_ok e xs -> table_ok e ys -> cmp_structs e xs ys = Some (tcmp e xs ys).
Proof.
  intros (Nx & Fx & C) (Ny & Fy & _). destruct xs as [|x xs]; [done|]. destruct ys as [|y ys]; [done|].
  unfold cmp_structs, tcmp. destruct (negb _); [done|]. cbn [drop].
  apply Forall_cons in Fx as [_ Fx]. apply Forall_cons in Fy as [_ Fy]. by apply cmp_nodes_ok.
Qed.
Lemma tcmp_anti e xs ys : Z.sgn (tcmp e xs ys) = - Z.sgn (tcmp e ys xs).
Proof.
  unfold tcmp. rewrite (sgn3_anti (Z.of_nat (length ys))).
  destruct (Z.eqb_spec (sgn3 (Z.of_nat (length xs)) (Z.of_nat (length ys))) 0) as [E|E].
  - rewrite E. change (- 0 =? 0) with true. cbn [negb]. apply lcmp_anti.
  - destruct (Z.eqb_spec (- sgn3 (Z.of_nat (length xs)) (Z.of_nat (length ys))) 0); [lia|]. cbn [negb]. rewrite Z.sgn_opp. lia.
Qed.
Lemma tcmp_zero e xs ys : table_ok e xs -> table_ok e ys -> tcmp e xs ys = 0 <-> same_struct e xs ys.
Proof.
  intros (Nx & Fx & C) (Ny & Fy & _). unfold tcmp, same_struct.
  destruct (Z.eqb_spec (sgn3 (Z.of_nat (length xs)) (Z.of_nat (length ys))) 0) as [E|E]; cbn [negb].
  - apply (proj1 (sgn3_zero _ _)) in E. rewrite lcmp_zero; [|done|by apply Forall_drop..|rewrite !drop_length; lia]. split; [intros H; split; [done|lia]|by intros [? _]].
  - split; [done|]. intros [_ L]. exfalso. apply E. apply sgn3_zero. lia.
Qed.
Lemma tidy_all e ns : no_half_nan e ns -> Forall (fun n => tidy (val e n)) ns.
Proof.
  intros H. apply Forall_forall. intros n Hn. unfold val. destruct (value_of e n) as [v|] eqn:E; [|done]. cbn.
  destruct v as [|?|?|r [|i]|]; try done. cbn. by apply (H n).
Qed.
Lemma tcmp_trans e xs ys zs : table_ok e xs -> table_ok e ys -> table_ok e zs ->
  no_half_nan e xs -> no_half_nan e ys -> no_half_nan e zs ->
  tcmp e xs ys <= 0 -> tcmp e ys zs <= 0 -> tcmp e xs zs <= 0.
Proof.
  intros (Nx & Fx & C) (Ny & Fy & _) (Nz & Fz & _) Tx%tidy_all Ty%tidy_all Tz%tidy_all H1 H2. unfold tcmp in *.
  assert (length xs <= length ys)%nat as L1.
  { destruct (Z.eqb_spec (sgn3 (Z.of_nat (length xs)) (Z.of_nat (length ys))) 0) as [E|E]; cbn [negb] in H1; [apply (proj1 (sgn3_zero _ _)) in E|apply (proj1 (sgn3_le _ _)) in H1]; lia. }
  assert (length ys <= length zs)%nat as L2.
  { destruct (Z.eqb_spec (sgn3 (Z.of_nat (length ys)) (Z.of_nat (length zs))) 0) as [E|E]; cbn [negb] in H2; [apply (proj1 (sgn3_zero _ _)) in E|apply (proj1 (sgn3_le _ _)) in H2]; lia. }
  destruct (Z.eqb_spec (sgn3 (Z.of_nat (length xs)) (Z.of_nat (length zs))) 0) as [E|E]; cbn [negb]; [|apply sgn3_le; lia].
  apply (proj1 (sgn3_zero _ _)) in E. assert (length xs = length ys) as E1 by lia. assert (length ys = length zs) as E2 by lia.
  rewrite E1, (proj2 (sgn3_zero _ _) eq_refl) in H1. rewrite E2, (proj2 (sgn3_zero _ _) eq_refl) in H2. cbn [negb Z.eqb] in *.
  apply (lcmp_trans e C (drop 1 xs) (drop 1 ys) (drop 1 zs)); try (by apply Forall_drop); try done; rewrite !drop_length; lia.
Qed.
