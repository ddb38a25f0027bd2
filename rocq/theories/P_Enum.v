(** C32: printing and reading enum values (Enum.v, Value.v). *)
From Verif Require Import Base NumStr NumStrProof Value ValueProof Enum EnumProof.
Local Open Scope Z_scope.

(** The enumerators [es] of a type [t] as the library knows them: all names different
    and registered, each a C identifier, each value one the type can hold. *)
Definition registered (mem : N → edesc) (e : env) (t : ity) (es : list N) : Prop :=
  NoDup e.*1 ∧ ∀ x, x ∈ es → (ed_name (mem x), descriptor t (ed_val (mem x))) ∈ e ∧ identifier (ed_name (mem x)) ∧
    ∃ v, ed_val (mem x) = read_as t v mod 2 ^ 64.

(** Whatever the enumerators of an enum of up to 64 bits, every value [data] is printed
    as a text that is read back as [data]: as a string of its own, as the part of a
    longer text up to a terminator such as a quote or a tag, and as an expression. *)
Theorem C32_enum_round_trip (F : Type) (FL : Floats F) mem wrapv e t sz es td buf kp data :
  t ≠ NotInt → width t <= 64 → registered mem e t es → init_enum mem wrapv t sz es = Some td →
  length buf = print_buffer → kp ∉ es →
  ∃ txt ps, printf_bitmask mem wrapv buf kp td data delimiter = Some txt ∧ txt = join ps ∧
    load_integer (F := F) e (VString (txt ++ [0])) (width t / 8) = Some (Some (data mod 2 ^ width t)) ∧
    (∀ c rest, isident c = false → isspace c = false → c ≠ 124 →
       load_integer (F := F) e (VSubstr (txt ++ c :: rest) (length txt)) (width t / 8) = Some (Some (data mod 2 ^ width t))) ∧
    (∃ x : expr F, list_expr ps x) ∧
    (∀ x : expr F, list_expr ps x → ∃ v, eval wrapv e x = Some v ∧ accepted v = true ∧
       load_integer e v (width t / 8) = Some (Some (data mod 2 ^ width t))).
Proof.
  intros Ht Hw (Hn & He) Hi Hb Hk.
  destruct (init_enum_ok mem wrapv t sz es td Ht Hw Hi) as (E1 & E2 & E3 & E4).
  assert (He' : enumerators_ok mem e t (enums td)).
  { intros x Hx. rewrite E2 in Hx. by apply (registered_ok mem e t es). }
  destruct (printf_bitmask_ok mem e wrapv buf kp td t data) as (ps & zs & Hp & Hne & HF & Hz);
    [done|done|done|done|by rewrite E2|done|done|intros Hbm x Hx; rewrite E2 in Hx; by apply E4|].
  assert (H8 : 8 * (width t / 8) = width t) by (by destruct t). assert (Hw8 : 0 <= width t / 8 <= 16) by (by destruct t).
  destruct (load_or_list (F := F) e ps zs (width t / 8) HF Hne Hw8) as [L1 L2].
  rewrite H8, Hz in L1, L2.
  exists (join ps), ps. split; [done|]. split; [done|]. split; [done|]. split.
  { intros c rest H1 H2 H3. apply L2. split; [done|]. split; [|done]. rewrite <- isspace_blank. congruence. }
  split; [by apply (list_expr_exists e ps zs)|].
  intros x Hx. destruct (eval_denotes wrapv e x _ (list_expr_ok e ps zs x HF Hx)) as (v & Ev & Iv).
  exists v. split; [done|]. split; [by eapply is_int_accepted|]. rewrite (load_integer_int e v _ _ Iv). by rewrite H8, Hz.
Qed.
Print Assumptions C32_enum_round_trip.

(** The same for [mr_ra_printf_enum], used where the field is not shown as a mask. *)
Theorem C32_enum_name_round_trip (F : Type) (FL : Floats F) mem wrapv e t sz es td buf kp data :
  t ≠ NotInt → width t <= 64 → registered mem e t es → init_enum mem wrapv t sz es = Some td →
  length buf = print_buffer → kp ∉ es →
  ∃ txt, printf_enum mem wrapv buf kp td data = Some txt ∧
    load_integer (F := F) e (VString (txt ++ [0])) (width t / 8) = Some (Some (data mod 2 ^ width t)) ∧
    (∀ x, x ∈ es → ed_val (mem x) = read_as t data mod 2 ^ 64 → ∃ y, y ∈ es ∧ ed_val (mem y) = ed_val (mem x) ∧ txt = ed_name (mem y)).
Proof.
  intros Ht Hw (Hn & He) Hi Hb Hk.
  destruct (init_enum_ok mem wrapv t sz es td Ht Hw Hi) as (E1 & E2 & E3 & E4).
  assert (He' : enumerators_ok mem e t (enums td)).
  { intros x Hx. rewrite E2 in Hx. by apply (registered_ok mem e t es). }
  destruct (printf_enum_ok mem e wrapv buf kp td t data) as (txt & z & Hp & Hz & Ez);
    [done|done|done|done|by rewrite E2|done|done|].
  assert (H8 : 8 * (width t / 8) = width t) by (by destruct t). assert (Hw8 : 0 <= width t / 8 <= 16) by (by destruct t).
  destruct (load_or_list (F := F) e [txt] [z] (width t / 8)) as [L1 _]; [constructor; [done|constructor]|done|done|].
  rewrite H8 in L1. cbn [foldl join] in L1. rewrite Z.lor_0_l, Ez in L1.
  exists txt. split; [done|]. split; [done|].
  intros x Hx Ex. unfold printf_enum in Hp.
  destruct (by_value_ok mem kp td (get_enum_value td data)) as (r & Er & Hr); [by rewrite E2|done|].
  rewrite Er in Hp. cbn [mbind option_bind] in Hp.
  assert (Ev : get_enum_value td data = read_as t data mod 2 ^ 64) by (unfold get_enum_value; rewrite E1; by destruct t).
  destruct r as [y|].
  - injection Hp as <-. destruct Hr as [Hy Ey]. exists y. rewrite <- E2. split; [done|]. split; [congruence|done].
  - exfalso. rewrite <- E2 in Hx. apply (Hr x Hx). congruence.
Qed.
Print Assumptions C32_enum_name_round_trip.

(** [mr_init_enum] is defined for enums of up to four bytes, and for eight bytes
    with a compiler that wraps; the mask then shifts into the sign. *)
Theorem C32_init_defined mem wrapv t sz es : t ≠ NotInt → width t <= 32 ∨ (width t <= 64 ∧ wrapv = true) →
  ∃ td, init_enum mem wrapv t sz es = Some td.
Proof. apply init_enum_defined. Qed.
Print Assumptions C32_init_defined.

(** An enum of eight bytes makes [mr_init_enum] compute [2LL << 63], which overflows:
    undefined for every such enum that has an enumerator. *)
Theorem C32_init_8_refuted mem t sz x es : width t = 64 → init_enum mem false t sz (x :: es) = None.
Proof.
  intros Hw. unfold init_enum.
  assert (Hd : detect t sz = (t, 8, sz)) by (by destruct t). rewrite Hd.
  destruct (HSortProof.hsort_safe (value_cmp_sorting mem) (x :: es)) as (a & -> & Hp). cbn [mbind option_bind].
  destruct a as [|y a]; [by apply Permutation_nil_r in Hp|]. done.
Qed.
Print Assumptions C32_init_8_refuted.

(** ** Cases *)
(** typedef enum { NONE, RD = 1, WR = 2, NEG = -128 } of type signed char. *)
Definition x_mem (n : N) : edesc :=
  match n with
  | 1%N => Ed [78;79;78;69] 0 | 2%N => Ed [82;68] 1 | 3%N => Ed [87;82] 2 | 4%N => Ed [78;69;71] (2 ^ 64 - 128)
  | _ => Ed [] 0
  end.
Definition x_env : env := [([87;82], Signed 2); ([88], Signed 77); ([78;69;71], Signed (-128)); ([82;68], Signed 1); ([78;79;78;69], Signed 0)].

Example C32_case_registered : registered x_mem x_env I8 [4;2;1;3]%N.
Proof.
  split.
  - apply (bool_decide_unpack _). vm_compute. done.
  - intros x. rewrite !elem_of_cons, elem_of_nil.
    assert (H : ∀ n, x = n → n ∈ [1;2;3;4]%N → (ed_name (x_mem x), descriptor I8 (ed_val (x_mem x))) ∈ x_env ∧ identifier (ed_name (x_mem x)) ∧
      ∃ v, ed_val (x_mem x) = read_as I8 v mod 2 ^ 64).
    { intros n -> Hn. rewrite !elem_of_cons, elem_of_nil in Hn.
      destruct Hn as [->|[->|[->|[->|[]]]]]; (split; [vm_compute; repeat first [apply elem_of_list_here|apply elem_of_list_further]|]);
        (split; [split; [repeat constructor|]; split; [eexists _, _; split; [done|left; done]|done]|]).
      - by exists 0.
      - by exists 1.
      - by exists 2.
      - by exists (-128). }
    intros [E|[E|[E|[E|[]]]]]; (eapply H; [apply E|]); apply (bool_decide_unpack _); vm_compute; done.
Qed.
(** 0x83 as a signed char is the mask of three names; 5 leaves a remainder; in the
    memory of a char 0xC1 is -63. *)
Example C32_case : ∃ td, init_enum x_mem false I8 1 [4;2;1;3]%N = Some td ∧ is_bitmask td = true ∧
  printf_bitmask x_mem false (repeat 7 print_buffer) 9%N td 131 delimiter = Some [82;68;32;124;32;87;82;32;124;32;78;69;71] ∧
  printf_bitmask x_mem false (repeat 7 print_buffer) 9%N td 5 delimiter = Some [82;68;32;124;32;52] ∧
  printf_bitmask x_mem false (repeat 7 print_buffer) 9%N td 0 delimiter = Some [78;79;78;69].
Proof. eexists. split; [vm_compute; reflexivity|]. split; [vm_compute; reflexivity|]. split; [vm_compute; reflexivity|]. split; vm_compute; reflexivity. Qed.
(** A type that is no mask: a plain enumeration. *)
Example C32_case_plain : ∃ td, init_enum (λ n, Ed [65] (Z.of_N n)) false U16 2 [1;2;3]%N = Some td ∧ is_bitmask td = false.
Proof. eexists. split; vm_compute; reflexivity. Qed.
