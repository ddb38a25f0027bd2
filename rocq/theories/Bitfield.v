(** Model of bit-field access: src/metaresc.c:501-565, 1139-1183.
    Memory is a list of bytes, each in [0, 255].  [mr_uintmax_t] is the 128-bit
    unsigned type; shift counts outside 0..127 are undefined behaviour ([None]).
    C [int] operands are exact integers in two's complement ([Z.lnot] is [~]). *)
From Verif Require Import Base.
Local Open Scope Z_scope.

(** [x << n] for [mr_uintmax_t x].
    Used in src/metaresc.c:517, 518, 529, 550, 555. *)
Definition shl128 (x n : Z) : option Z :=
  if (0 <=? n) && (n <? 128) then Some ((x * 2 ^ n) mod 2 ^ 128) else None.
(** [x >> n].
    Used in src/metaresc.c:528, 558, 562. *)
Definition shr128 (x n : Z) : option Z :=
  if (0 <=? n) && (n <? 128) then Some (x / 2 ^ n) else None.
(** [(((mr_uintmax_t)2) << (width - 1)) - 1] (src/metaresc.c:518, 550). *)
Definition width_mask (width : Z) : option Z :=
  x ← shl128 2 (width - 1); Some ((x - 1) mod 2 ^ 128).
(** Store to an [uint8_t].
    Stores through [uint8_t * ptr], src/metaresc.c:552-562. *)
Definition wr8 (mem : list Z) (p : nat) (x : Z) : option (list Z) := wr mem p (x mod 256).

(** src/metaresc.c:516-517, loop over the remaining bytes. *)
Fixpoint save_loop (fuel : nat) (mem : list Z) (p : nat) (i width value : Z) : option Z :=
  match fuel with
  | O => None
  | S fuel =>
    if i <? width then
      b ← rd mem p;
      x ← shl128 b i;
      save_loop fuel mem (S p) (i + 8) width (Z.lor value x)
    else Some value
  end.

(** src/metaresc.c:507-533 [mr_save_bitfield_value].  [p] is the index of the byte
    [ptrdes->data.ptr] points at; [signed] stands for the test of the (effective)
    type against MR_SIGNED_INT_TYPES (519-527). *)
Definition save_bitfield (mem : list Z) (p : nat) (shift width : Z) (signed : bool) : option Z :=
  b ← rd mem p;
  v ← save_loop 17 mem (S p) (8 - shift) width (b / 2 ^ shift);
  m ← width_mask width;
  let v := Z.land v m in
  s ← shr128 v (width - 1);
  if signed && (Z.land s 1 =? 1) then Some (Z.lor v (2 ^ 128 - 1 - m)) else Some v.

(** src/metaresc.c:556-563, loop over the remaining bytes. *)
Fixpoint load_loop (fuel : nat) (mem : list Z) (p : nat) (i width value : Z) : option (list Z) :=
  match fuel with
  | O => None
  | S fuel =>
    if i <? width then
      x ← shr128 value i;
      mem ← (if 8 <=? width - i then wr8 mem p x
             else
               b ← rd mem p;
               mem ← wr8 mem p (Z.land b (Z.lnot (2 ^ (width - i) - 1)));
               b ← rd mem p;
               wr8 mem p (Z.lor b x));
      load_loop fuel mem (S p) (i + 8) width value
    else Some mem
  end.

(** src/metaresc.c:541-565 [mr_load_bitfield_value]. *)
Definition load_bitfield (mem : list Z) (p : nat) (shift width value : Z) : option (list Z) :=
  m ← width_mask width;
  let v := Z.land value m in
  b ← rd mem p;
  mem ← (if 8 <=? shift + width then wr8 mem p (Z.land b (2 ^ shift - 1))
         else wr8 mem p (Z.land b (Z.lor (Z.lnot (2 ^ (shift + width) - 1)) (2 ^ shift - 1))));
  b ← rd mem p;
  x ← shl128 v shift;
  mem ← wr8 mem p (Z.lor b x);
  load_loop 17 mem (S p) (8 - shift) width v.

(** src/metaresc.c:1159-1161: first non-zero byte. *)
Fixpoint first_nonzero (mem : list Z) (i : nat) : option nat :=
  match mem with
  | [] => None
  | b :: mem => if b =? 0 then first_nonzero mem (S i) else Some i
  end.
(** [bitfield[j] & (1 << i)]
    The tests of src/metaresc.c:1168 and 1175. *)
Definition bit_set (b : Z) (i : Z) : bool := negb (Z.land b (2 ^ i) =? 0).
(** src/metaresc.c:1167-1169: first set bit at or after [i], 8 if none. *)
Fixpoint first_bit (n : nat) (b i : Z) : Z :=
  match n with
  | O => i
  | S n => if bit_set b i then i else first_bit n b (i + 1)
  end.
(** src/metaresc.c:1174-1178: run of set bits from [i]; new [i] and [width], the
    latter an [uint8_t]. *)
Fixpoint bit_run (n : nat) (b i width : Z) : Z * Z :=
  match n with
  | O => (i, width)
  | S n => if bit_set b i then bit_run n b (i + 1) ((width + 1) mod 256) else (i, width)
  end.
(** src/metaresc.c:1172-1182. *)
Fixpoint width_loop (mem : list Z) (i width : Z) : Z :=
  match mem with
  | [] => width
  | b :: mem =>
    let '(i, width) := bit_run (Z.to_nat (8 - i)) b i width in
    if i <? 8 then width else width_loop mem 0 width
  end.
(** src/metaresc.c:1144-1183 [mr_fd_init_bitfield_params] on a fresh bit-field
    descriptor with mask bytes [mem]: offset, shift, width; [None] if nothing is set. *)
Definition init_bitfield (mem : list Z) : option (nat * Z * Z) :=
  off ← first_nonzero mem 0;
  b ← rd mem off;
  let i := first_bit 8 b 0 in
  Some (off, i, width_loop (drop off mem) i 0).
