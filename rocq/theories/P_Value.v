(** C31: integer expressions (Value.v). *)
From Verif Require Import Base NumStr Value ValueProof.
Local Open Scope Z_scope.

(** An expression of numbers, names of enumerators, the four operations, remainder,
    bit operations and signs, whose value [z] and all intermediate values fit in 128
    bits and whose divisors are not zero, is accepted and stores [z] in an integer of
    any width, whatever the compiler does on overflow. *)
Theorem C31_expression (F : Type) (FL : Floats F) wrapv e (x : expr F) z bytes :
  denotes e x z → ∃ v, eval wrapv e x = Some v ∧ accepted v = true ∧
    load_integer e v bytes = Some (Some (z mod 2 ^ (8 * bytes))).
Proof.
  intros Hx. destruct (eval_denotes wrapv e x z Hx) as (v & Ev & Iv). exists v.
  split; [done|]. split; [by eapply is_int_accepted|by apply load_integer_int].
Qed.
Print Assumptions C31_expression.

(** The same expression stored in a bool gives true exactly when its value is not zero. *)
Theorem C31_bool (F : Type) (FL : Floats F) wrapv e (x : expr F) z :
  denotes e x z → ∃ v b, eval wrapv e x = Some v ∧ load_bool e v = Some (Some b) ∧ (b = true ↔ z ≠ 0).
Proof.
  intros Hx. destruct (eval_denotes wrapv e x z Hx) as (v & Ev & Iv). exists v, (negb (z =? 0)).
  split; [done|]. split; [by apply load_bool_int|]. destruct (Z.eqb_spec z 0); cbn; intuition congruence.
Qed.
Print Assumptions C31_bool.

(** Conversely nothing else than the exact value is ever stored: if no divisor is
    zero, an evaluation that is defined gives the exact value. *)
Theorem C31_never_wrong (F : Type) (FL : Floats F) e (x : expr F) v bytes :
  integral e x → no_zero_divisor e x → eval false e x = Some v →
  ∃ z, denotes e x z ∧ load_integer e v bytes = Some (Some (z mod 2 ^ (8 * bytes))).
Proof.
  intros Hi Hz Hv. destruct (eval_exact e x v Hi Hz Hv) as (z & Dz & Iz). exists z. split; [done|].
  by apply load_integer_int.
Qed.
Print Assumptions C31_never_wrong.

(** With a compiler that wraps on overflow, sums, differences and products are
    exact modulo 2^128 whatever the operands and the intermediate values. *)
Theorem C31_modulo (F : Type) (FL : Floats F) e (x : expr F) z bytes :
  0 <= bytes <= 16 → polynomial e x z → ∃ v, eval true e x = Some v ∧ accepted v = true ∧
    load_integer e v bytes = Some (Some (z mod 2 ^ (8 * bytes))).
Proof.
  intros Hb Hx. destruct (eval_polynomial e x z Hx) as (v & r & k & Ev & Iv & ->). exists v.
  split; [done|]. split; [by eapply is_int_accepted|].
  rewrite (load_integer_int e v _ bytes Iv). by rewrite mod_same_bytes.
Qed.
Print Assumptions C31_modulo.

(** The functions report division by zero, for integers and for the other types. *)
Theorem C31_zero_divisor_reported (F : Type) (FL : Floats F) wrapv e a :
  (∃ r, value_op wrapv e Div (VInt a) (VInt 0) = Some (false, r)) ∧
  (∃ r, value_int_op e Mod (VInt a) (@VInt F 0) = Some (false, r)) ∧
  (∀ f, f_is_zero f = true → ∃ r, value_op wrapv e Div (VInt a) (VFloat f) = Some (false, r)).
Proof. split; [|split]; [by eexists..|]. intros f Hf. unfold value_op. cbn. rewrite Hf. by eexists. Qed.
Print Assumptions C31_zero_divisor_reported.

(** The grammar does not look at what they report: an expression with a zero divisor
    is accepted, whatever is divided, and counts as zero in what surrounds it. *)
Theorem C31_zero_divisor_refuted (F : Type) (FL : Floats F) wrapv e a b bytes :
  0 <= a < 2 ^ 127 → 0 <= b < 2 ^ 127 → ∃ v,
  eval wrapv e (Arith Add (Num b) (Arith Div (Num a) (Num 0))) = Some v ∧ accepted v = true ∧
    load_integer e v bytes = Some (Some (b mod 2 ^ (8 * bytes))).
Proof.
  intros Ha Hb. exists (VInt b). split; [|done].
  assert (Eb : to_signed b = b).
  { rewrite <- (Z.mod_small b (2 ^ 128)) at 1 by lia. apply to_signed_mod. unfold int128. lia. }
  cbn [eval mbind option_bind]. rewrite Eb.
  rewrite (value_op_int wrapv e Div _ _ (to_signed a) (to_signed 0)) by (by left).
  change (to_signed 0) with 0. cbn [mbind option_bind Z.eqb snd].
  rewrite (value_op_int wrapv e Add _ _ b 0) by (by left).
  rewrite Z.add_0_r, int_result_in by (unfold int128; lia). done.
Qed.
Print Assumptions C31_zero_divisor_refuted.

(** Not every number of 128 bits can be written: the smallest one, as it is printed
    (a minus sign and its absolute value, C18), is undefined without wrapping. *)
Theorem C31_smallest_refuted (F : Type) (FL : Floats F) e :
  eval false e (Neg (Num (2 ^ 127))) = None.
Proof. done. Qed.
Print Assumptions C31_smallest_refuted.

(** Integers are converted when the other operand is not an integer. *)
Theorem C31_promotion (F : Type) (FL : Floats F) wrapv e a f c :
  value_op wrapv e Add (VInt a) (VFloat f) = Some (true, VFloat (f_add (f_of_int a) f)) ∧
  value_op wrapv e Sub (VFloat f) (VInt a) = Some (true, VFloat (f_sub f (f_of_int a))) ∧
  value_op wrapv e Mul (VInt a) (VComplex c) = Some (true, VComplex (c_mul (f_of_int a, f_of_int 0) c)) ∧
  value_op wrapv e Add (VFloat f) (VComplex c) = Some (true, VComplex (f_add f c.1, f_add (f_of_int 0) c.2)).
Proof. done. Qed.
Print Assumptions C31_promotion.

(** ** Cases *)
(** A stand-in for floating point numbers. *)
Local Instance ints_as_floats : Floats Z := {|
  f_of_int z := z; f_to_int z := Some z; f_neg := Z.opp; f_is_zero z := z =? 0;
  f_add := Z.add; f_sub := Z.sub; f_mul := Z.mul; f_div := Z.quot;
  c_mul a b := (a.1 * b.1 - a.2 * b.2, a.1 * b.2 + a.2 * b.1); c_div a b := a; strtold s := (0, 0%nat) |}.

(** "RED" and "LOW" are enumerators; (-7 + RED * 3) / 2 | LOW. *)
Definition env1 : env := [([66; 76; 85; 69], Unsigned 8); ([82; 69; 68], Unsigned 3); ([76; 79; 87], Signed (-128))].
Definition red_text : list Z := [82; 69; 68; 32; 42; 32; 51; 0].
Definition low_text : list Z := [76; 79; 87; 0].
Definition case1 : expr Z :=
  Int Or (Arith Div (Arith Add (Neg (Num 7)) (Arith Mul (Id red_text 3) (Num 3))) (Num 2)) (Id low_text 3).

Lemma case1_names : text_at red_text [82; 69; 68] ∧ names env1 [82; 69; 68] 3 ∧
  text_at low_text [76; 79; 87] ∧ names env1 [76; 79; 87] (-128).
Proof.
  split; [by exists 32, [42; 32; 51; 0]|]. split; [|split; [by exists 0, []|]].
  - split; [by repeat constructor|]. split; [cbn; lia|]. right; right. do 2 (split; [done|]).
    exists [([66; 76; 85; 69], Unsigned 8)], (Unsigned 3), [([76; 79; 87], Signed (-128))].
    split; [done|]. split; [cbn; by rewrite elem_of_list_singleton|cbn; lia].
  - split; [by repeat constructor|]. split; [cbn; lia|]. right; right. do 2 (split; [done|]).
    exists [([66; 76; 85; 69], Unsigned 8); ([82; 69; 68], Unsigned 3)], (Signed (-128)), [].
    split; [done|]. split; [|cbn; lia]. cbn. rewrite elem_of_cons, elem_of_list_singleton. naive_solver.
Qed.

Example C31_case : denotes env1 case1 (-127) ∧ integral env1 case1 ∧ no_zero_divisor env1 case1 ∧
  eval false env1 case1 = Some (VInt (-127)) ∧ load_integer env1 (@VInt Z (-127)) 1 = Some (Some 129).
Proof.
  destruct case1_names as (T1 & N1 & T2 & N2).
  split.
  { change (-127) with (Z.lor (Z.quot (- (7) + 3 * 3) 2) (-128)).
    repeat first [apply d_or | apply d_div | apply d_add | apply d_mul | apply d_neg | apply d_num];
      try (unfold int128; cbn; lia); try (unfold int128; vm_compute; intuition congruence).
    - by apply (d_id _ _ [82; 69; 68]).
    - by apply (d_id _ _ [76; 79; 87]). }
  split; [cbn [integral case1]; repeat split; try lia; [by exists [82; 69; 68], 3|by exists [76; 79; 87], (-128)]|].
  split; [|done]. cbn [no_zero_divisor case1]. repeat split; try done. intros _ H. by inversion H.
Qed.

Example C31_bool_case : denotes env1 case1 (-127) ∧ eval false env1 case1 = Some (VInt (-127)) ∧ load_bool env1 (@VInt Z (-127)) = Some (Some true) ∧
  load_bool env1 (@VInt Z 0) = Some (Some false).
Proof. split; [apply C31_case|]. split; [apply C31_case|done]. Qed.

(** 2^127 + 2^127 - 5 with wrapping. *)
Example C31_modulo_case : polynomial [] (Arith Sub (Arith Add (Num (2 ^ 127)) (Num (2 ^ 127))) (Num 5) : expr Z) (2 ^ 128 - 5) ∧
  load_integer [] (@VInt Z (-5)) 16 = Some (Some (2 ^ 128 - 5)).
Proof.
  split; [|done]. change (2 ^ 128 - 5) with (2 ^ 127 + 2 ^ 127 - 5).
  repeat first [apply p_sub | apply p_add | apply p_num]; lia.
Qed.

(** "FALSE" is not known to the enumerator lookup, the empty text counts as zero, and
    blanks may surround the parts of an or-list (the texts are the strings
    "FALSE", "", " RED|4 | LOW"). *)
Example C31_text_case :
  load_integer env1 (@VString Z [70; 65; 76; 83; 69; 0]) 4 = Some None ∧
  load_integer env1 (@VString Z [0]) 4 = Some (Some 0) ∧
  load_integer env1 (@VString Z [32; 82; 69; 68; 124; 52; 32; 124; 32; 76; 79; 87; 0]) 4 = Some (Some (2 ^ 32 - 121)).
Proof. by vm_compute. Qed.
