(** Model of names: mr_hash_block, mr_hash_str (src/mr_extra.c:198-228), the
    cached hash and the comparison of mr_hashed_string_t (src/metaresc.c:668-701)
    and the comparators built on it (src/metaresc.c:703-755, 803-822). *)
From Verif Require Import Base.
Local Open Scope Z_scope.

(** Word of four bytes, as read through a pointer to mr_hash_value_t (an unsigned
    of 32 bits, src/metaresc.h:1495) on a little-endian machine. *)
Definition word (b0 b1 b2 b3 : Z) : Z := b0 + 256 * b1 + 65536 * b2 + 16777216 * b3.

(** [hash_value ^= (hash_value << 1) + w], src/mr_extra.c:205 and 213. *)
Definition mix (h w : Z) : Z := Z.lxor h (((h * 2) mod 2 ^ 32 + w) mod 2 ^ 32).

(** memcpy (&last, _block, size) into a zeroed word, src/mr_extra.c:211-212, for
    sizes 1 to 4; bytes outside of the object are [None]. *)
Definition last_word (mem : list Z) (p : nat) (size : Z) : option Z :=
  b0 ← rd mem p;
  b1 ← (if 1 <? size then rd mem (p + 1) else Some 0);
  b2 ← (if 2 <? size then rd mem (p + 2) else Some 0);
  b3 ← (if 3 <? size then rd mem (p + 3) else Some 0);
  Some (word b0 b1 b2 b3).

(** The loop and the tail of mr_hash_block, src/mr_extra.c:203-216.  [p] is the
    position of [_block]; running out of fuel is [None]. *)
Fixpoint hash_loop (fuel : nat) (mem : list Z) (p : nat) (size h : Z) : option Z :=
  match fuel with
  | O => None
  | S f =>
      if 4 <? size then
        b0 ← rd mem p; b1 ← rd mem (p + 1); b2 ← rd mem (p + 2); b3 ← rd mem (p + 3);
        hash_loop f mem (p + 4) (size - 4) (mix h (word b0 b1 b2 b3))
      else if 0 <? size then w ← last_word mem p size; Some (mix h w)
      else Some h
  end.

(** mr_hash_block, src/mr_extra.c:198-217.  [size] is an uint32_t. *)
Definition hash_block (mem : list Z) (size : Z) : option Z :=
  hash_loop (S (Z.to_nat size)) mem 0 size 0.

(** mr_hash_str, src/mr_extra.c:224-228; [None] is NULL, strings are given
    without their terminator.  The length is converted to 32 bits. *)
Definition hash_str (s : option (list Z)) : option Z :=
  match s with
  | None => Some 1
  | Some s => hash_block s (Z.of_nat (length s) mod 2 ^ 32)
  end.

(** mr_hashed_string_t (src/mr_protos.h:325-328): pointer to the string (0 is NULL)
    and the cached hash, 0 when there is none. *)
Record hstr := HStr { str : Z; hval : Z }.

Section names.
(** Strings in memory by address; NULL and other addresses without a string are
    not looked at. *)
Context (cstr : Z -> list Z).

(** The string behind a pointer.
    [char * str] of src/mr_protos.h:326. *)
Definition at_ptr (p : Z) : option (list Z) := if p =? 0 then None else Some (cstr p).

(** mr_hashed_string_get_hash, src/metaresc.c:668-675: the value and the structure
    with the filled cache. *)
Definition get_hash (x : hstr) : option (Z * hstr) :=
  if hval x =? 0 then h ← hash_str (at_ptr (str x)); Some (h, HStr (str x) h)
  else Some (hval x, x).

(** strcmp on bytes as unsigned char: difference of the first differing
    characters, the terminator being 0; used at src/metaresc.c:700. *)
Fixpoint strcmp (a b : list Z) : Z :=
  match a, b with
  | [], [] => 0
  | [], y :: _ => 0 - y
  | x :: _, [] => x
  | x :: a, y :: b => if x =? y then strcmp a b else x - y
  end.

(** mr_hashed_string_cmp, src/metaresc.c:683-701: the sign and both structures
    with filled caches. *)
Definition hstr_cmp (x y : hstr) : option (Z * hstr * hstr) :=
  '(hx, x) ← get_hash x;
  '(hy, y) ← get_hash y;
  let diff := Z.b2z (hy <? hx) - Z.b2z (hx <? hy) in
  Some (if negb (diff =? 0) then diff
        else if str x =? str y then 0
        else if str x =? 0 then -1
        else if str y =? 0 then 1
        else strcmp (cstr (str x)) (cstr (str y)), x, y).

(** Comparators of descriptors by name: mr_fd_name_cmp, mr_ed_name_cmp,
    mr_td_name_cmp (src/metaresc.c:741-755, 816-822) all compare the name member of
    the structures the keys point at; [names] gives this member.  The sign only;
    see the theorems for the caches.  An undefined comparison counts as 0 (excluded
    by the theorems). *)
Definition name_cmp (names : N -> hstr) (x y : N) : Z :=
  match hstr_cmp (names x) (names y) with Some (c, _, _) => c | None => 0 end.

(** mr_fd_name_get_hash, mr_ed_name_get_hash, mr_td_name_get_hash
    (src/metaresc.c:721-733, 803-808). *)
Definition name_hash (names : N -> hstr) (x : N) : N :=
  match get_hash (names x) with Some (h, _) => Z.to_N h | None => 0%N end.

(** mr_fd_name_and_type_cmp, src/metaresc.c:710-719: name, then type name. *)
Definition name_type_cmp (names types : N -> hstr) (x y : N) : Z :=
  let cmp := name_cmp names x y in
  if negb (cmp =? 0) then cmp else name_cmp types x y.

(** mr_fd_name_and_type_get_hash, src/metaresc.c:703-708; the sum is an unsigned of
    32 bits. *)
Definition name_type_hash (names types : N -> hstr) (x : N) : N :=
  ((name_hash names x + name_hash types x) mod 2 ^ 32)%N.

End names.
