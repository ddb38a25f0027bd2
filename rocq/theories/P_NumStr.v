(** C18, C19: decimal printing and integer parsing
    (src/mr_stringify.c:56-91, src/metaresc.c:2030-2082). *)
From Verif Require Import Base NumStr NumStrProof.
Local Open Scope Z_scope.

(** C18: any unsigned value is printed within the local buffer and read back,
    the whole text being consumed, in base 10 and in automatic base. *)
Theorem C18_uint128_round_trip : forall buf v base,
  length buf = print_buffer -> 0 <= v < 2 ^ 128 -> base = 0 \/ base = 10 ->
  exists txt, print_uint128 buf v = Some (txt ++ [0]) /\ strtouintmax (txt ++ [0]) base = Some (v, length txt).
Proof. exact print_parse_uint128. Qed.
Print Assumptions C18_uint128_round_trip.

(** C18: the same for signed values.  The smallest value needs a compiler that
    wraps on overflow. *)
Theorem C18_int128_round_trip : forall wrapv buf v base,
  length buf = print_buffer -> - 2 ^ 127 <= v < 2 ^ 127 -> wrapv = true \/ - 2 ^ 127 < v -> base = 0 \/ base = 10 ->
  exists txt, print_int128 wrapv buf v = Some (txt ++ [0]) /\
    strtouintmax (txt ++ [0]) base = Some (v mod 2 ^ 128, length txt).
Proof. exact print_parse_int128. Qed.
Print Assumptions C18_int128_round_trip.

(** C18: the text is the canonical decimal numeral of the value. *)
Theorem C18_text_canonical : forall wrapv buf v,
  length buf = print_buffer ->
  (0 <= v < 2 ^ 128 ->
   exists ds, print_uint128 buf v = Some (ds ++ [0]) /\ (length ds <= 39)%nat /\ decimal_text ds v) /\
  (- 2 ^ 127 <= v < 2 ^ 127 -> wrapv = true \/ - 2 ^ 127 < v ->
   exists ds, print_int128 wrapv buf v = Some ((if decide (v < 0) then [45] else []) ++ ds ++ [0]) /\
     (length ds <= 39)%nat /\ decimal_text ds (Z.abs v)).
Proof. intros wrapv buf v H. split; [exact (print_uint128_ok buf v H)|exact (print_int128_ok wrapv buf v H)]. Qed.
Print Assumptions C18_text_canonical.

(** C18 without the proviso is false in ISO C: [~value + 1] overflows for the
    smallest value. *)
Theorem C18_int128_min_refuted : exists buf v, length buf = print_buffer /\ - 2 ^ 127 <= v < 2 ^ 127 /\
  print_int128 false buf v = None.
Proof. exists (replicate print_buffer 0), (- 2 ^ 127). vm_compute. done. Qed.
Print Assumptions C18_int128_min_refuted.

Example C18_case :
  print_uint128 (replicate print_buffer 0) (2 ^ 128 - 1) =
    Some [51;52;48;50;56;50;51;54;54;57;50;48;57;51;56;52;54;51;52;54;51;51;55;52;54;48;55;52;51;49;55;54;56;50;49;49;52;53;53;0] /\
  print_int128 true (replicate print_buffer 7) (- 1024) = Some [45; 49; 48; 50; 52; 0] /\
  strtouintmax [45; 49; 48; 50; 52; 0] 0 = Some (2 ^ 128 - 1024, 5%nat) /\
  (exists txt, print_int128 true (replicate print_buffer 7) (- 2 ^ 127) = Some txt /\ length txt = print_buffer).
Proof. split_and!; try (by vm_compute). eexists. split; by vm_compute. Qed.

(** C19: on a zero-terminated string the parser stays within the string, reads
    the longest number and returns its value modulo 2^128; text which is not a
    number is not consumed.  The hypothesis-free form covers every base. *)
Theorem C19_strtouintmax : forall body rest base,
  exists v e, strtouintmax (body ++ 0 :: rest) base = Some (v, e) /\
    number_read body base v e /\ (e <= length body)%nat.
Proof.
  intros body rest base. destruct (strtouintmax_ok body rest base) as (v & e & E & R).
  exists v, e. split; [exact E|]. split; [exact R|].
  destruct R as (bl & sg & text & -> & _ & _ & [(p & d & t & b & -> & _ & _ & _ & _ & -> & _)|(_ & _ & -> & _)]);
    rewrite !app_length; lia.
Qed.
Print Assumptions C19_strtouintmax.

(** C19: with base 0, 10 or 16 a number has at least one digit or a 0x prefix. *)
Theorem C19_progress : forall body rest base v e,
  base = 0 \/ base = 10 \/ base = 16 ->
  strtouintmax (body ++ 0 :: rest) base = Some (v, e) ->
  (e = 0%nat /\ v = 0) \/ (exists c, body !! (e - 1)%nat = Some c /\ c <> 43 /\ c <> 45 /\ ~ blank c /\ (0 < e)%nat).
Proof. exact strtouintmax_progress. Qed.
Print Assumptions C19_progress.

(** C19: with base 8 a lone sign is consumed before a digit 8 or 9. *)
Theorem C19_base8_refuted : exists body v e,
  strtouintmax (body ++ [0]) 8 = Some (v, e) /\ e = 1%nat /\ body = [45; 57].
Proof. by exists [45; 57], 0, 1%nat. Qed.
Print Assumptions C19_base8_refuted.

(** "  -0x1Fg", "+0777 8", "12a", "zz", "0xg". *)
Example C19_case :
  strtouintmax [32; 32; 45; 48; 120; 49; 70; 103; 0] 0 = Some (2 ^ 128 - 31, 7%nat) /\
  strtouintmax [43; 48; 55; 55; 56; 0] 0 = Some (63, 4%nat) /\
  strtouintmax [49; 50; 97; 0; 9] 10 = Some (12, 2%nat) /\
  strtouintmax [49; 50; 97; 0; 9] 16 = Some (298, 3%nat) /\
  strtouintmax [32; 122; 122; 0] 16 = Some (0, 0%nat) /\
  strtouintmax [48; 120; 103; 0] 16 = Some (0, 2%nat).
Proof. by vm_compute. Qed.
