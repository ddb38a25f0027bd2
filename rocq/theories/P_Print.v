(** C99: MR_PRINT of integers and enumerations. *)
From Coq Require Import Ascii String.
From Verif Require Import Base NumStr NumStrProof P_NumStr Value ValueProof Enum EnumProof Print.
Local Open Scope Z_scope.

(** The numbers of a type. *)
Definition of_type (t : ity) (z : Z) : Prop :=
  t <> NotInt /\ if is_signed t then - 2 ^ (width t - 1) <= z < 2 ^ (width t - 1) else 0 <= z < 2 ^ width t.
(** The text is the number in decimal notation, without superfluous characters. *)
Definition decimal (txt : list Z) (z : Z) : Prop :=
  exists ds, txt = (if decide (z < 0) then [45] else []) ++ ds /\ decimal_text ds (Z.abs z).
(** An enumeration with the enumerators [es], as mr_init_enum leaves it. *)
Definition enumeration (mem : N -> edesc) (td : enum_td) (es : list N) : Prop :=
  exists wrapv t sz, t <> NotInt /\ width t <= 64 /\ init_enum mem wrapv t sz es = Some td.

Lemma read_as_of t z : of_type t z -> read_as t z = z.
Proof.
  intros [N R]. unfold read_as. destruct (is_signed t) eqn:S.
  - assert (W : 0 < width t) by (by destruct t).
    assert (E : 2 ^ width t = 2 * 2 ^ (width t - 1)) by (rewrite <- Z.pow_succ_r by lia; f_equal; lia).
    rewrite Z.mod_small by lia. lia.
  - by apply Z.mod_small.
Qed.

Lemma number_ok wrapv buf t z : length buf = print_buffer -> of_type t z -> wrapv = true \/ - 2 ^ 127 < z ->
  exists txt, print_number wrapv buf t z = Some txt /\ decimal txt z.
Proof.
  intros B T W. pose proof (read_as_of t z T) as E. destruct T as [N R]. unfold print_number. rewrite E.
  destruct (C18_text_canonical wrapv buf z B) as [U S].
  assert (Wt : width t <= 128) by (by destruct t). assert (W0 : 0 < width t) by (by destruct t).
  destruct (is_signed t).
  - pose proof (Z.pow_le_mono_r 2 (width t - 1) 127 ltac:(lia) ltac:(lia)).
    destruct S as (ds & -> & _ & D); [lia|done|]. cbn [mbind option_bind]. eexists. split; [reflexivity|].
    exists ds. split; [|done]. rewrite app_assoc. rewrite app_length. cbn [length]. rewrite Nat.add_sub. by rewrite take_app.
  - pose proof (Z.pow_le_mono_r 2 (width t) 128 ltac:(lia) ltac:(lia)).
    destruct U as (ds & -> & _ & D); [lia|]. cbn [mbind option_bind]. eexists. split; [reflexivity|].
    exists ds. destruct (decide (z < 0)); [lia|]. rewrite Z.abs_eq by lia. split; [|done].
    rewrite app_length. cbn [length]. rewrite Nat.add_sub. by rewrite take_app.
Qed.

(** C99: a number of an integer type of 8 to 128 bits is printed in decimal notation,
    unless its type is an enumeration (of up to 64 bits) with this value: then the name
    of an enumerator with this value is printed.  The smallest number of 128 bits
    needs a compiler that wraps on overflow. *)
Theorem C99_print : forall mem wrapv buf kp td es t z,
  length buf = print_buffer -> of_type t z -> wrapv = true \/ - 2 ^ 127 < z ->
  match td with Some td => enumeration mem td es /\ kp ∉ es | None => es = [] end ->
  exists txt, print_value mem wrapv buf kp td (PInt t) z = Some txt /\
    ((exists x, x ∈ es /\ ed_val (mem x) = z mod 2 ^ 64) -> width t <= 64 ->
       exists y, y ∈ es /\ ed_val (mem y) = z mod 2 ^ 64 /\ txt = ed_name (mem y)) /\
    ((forall x, x ∈ es -> ed_val (mem x) <> z mod 2 ^ 64) \/ width t = 128 -> decimal txt z).
Proof.
  intros mem wrapv buf kp td es t z B T W D. pose proof (proj1 T) as N.
  destruct (number_ok wrapv buf t z B T W) as (num & En & Dn).
  assert (P : print_value mem wrapv buf kp td (PInt t) z =
    (e ← print_enumerator mem kp td t z; match e with Some p => Some (ed_name (mem p)) | None => print_number wrapv buf t z end))
    by (by destruct t). rewrite P. clear P.
  assert (EI : enum_int t = true /\ width t <= 64 \/ enum_int t = false /\ width t = 128) by (destruct t; cbn; try done; lia).
  unfold print_enumerator. destruct td as [td|].
  - destruct D as [(w & t' & sz & N' & W' & I) K]. destruct (init_enum_ok mem w t' sz es td N' W' I) as (_ & Pm & So & _).
    destruct EI as [[-> Wt]|[-> Wt]].
    + destruct (by_value_ok mem kp td (z mod 2 ^ 64)) as (r & -> & H); [by rewrite Pm|done|]. cbn [mbind option_bind].
      destruct r as [x|].
      * destruct H as [Hx Hv]. rewrite Pm in Hx. eexists. split; [reflexivity|]. split; [eauto|].
        intros [F|F]; [by destruct (F x Hx)|lia].
      * exists num. split; [done|]. split; [|done]. intros (x & Hx & Hv). destruct (H x); [by rewrite Pm|done].
    + cbn [mbind option_bind]. exists num. split; [done|]. split; [lia|done].
  - cbn [mbind option_bind]. exists num. split; [done|]. split; [|done]. subst es. intros (x & Hx & _). by apply elem_of_nil in Hx.
Qed.
Print Assumptions C99_print.

(** C99: boolean values. *)
Theorem C99_bool : forall mem wrapv buf kp td z, exists txt, print_value mem wrapv buf kp td PBool z = Some txt /\
  (z <> 0 <-> txt = [116; 114; 117; 101]) /\ (z = 0 <-> txt = [102; 97; 108; 115; 101]).
Proof.
  intros. eexists. split; [reflexivity|]. destruct (Z.eqb_spec z 0); (split; split; intros; try done; exfalso; congruence).
Qed.
Print Assumptions C99_bool.

(** typedef enum { RD = 1, NEG = -128 } of type signed char: -128 is printed as NEG,
    -127 as a number. *)
Definition mem99 (n : N) : edesc := match n with 1%N => Ed [82; 68] 1 | 2%N => Ed [78; 69; 71] (2 ^ 64 - 128) | _ => Ed [] 0 end.
Example C99_case : exists td, enumeration mem99 td [2; 1]%N /\ (9 ∉ [2; 1])%N /\ of_type I8 (-128) /\ of_type I8 (-127) /\
  print_value mem99 false (repeat 7 print_buffer) 9 (Some td) (PInt I8) (-128) = Some [78; 69; 71] /\
  print_value mem99 false (repeat 7 print_buffer) 9 (Some td) (PInt I8) (-127) = Some [45; 49; 50; 55] /\
  print_value mem99 false (repeat 7 print_buffer) 9 None (PInt U128) (10 ^ 38) = Some (49 :: repeat 48 38).
Proof.
  eexists. split; [exists false, I8, 1; split; [done|]; split; [cbn; lia|]; vm_compute; reflexivity|].
  split; [apply (bool_decide_unpack _); vm_compute; done|]. split; [split; [done|cbn; lia]|]. split; [split; [done|cbn; lia]|].
  split; [vm_compute; reflexivity|]. split; vm_compute; reflexivity.
Qed.

(** C99 without the proviso is false in ISO C, as for C18. *)
Theorem C99_min_refuted : exists mem buf kp, length buf = print_buffer /\ of_type I128 (- 2 ^ 127) /\
  print_value mem false buf kp None (PInt I128) (- 2 ^ 127) = None.
Proof.
  exists mem99, (repeat 7 print_buffer), 9%N. split; [done|]. split; [split; [done|cbn; lia]|]. vm_compute. reflexivity.
Qed.
Print Assumptions C99_min_refuted.
