(** Model of decimal printing and of integer parsing:
    mr_uintmaxtostr, mr_ra_printf_int128_t_default, mr_ra_printf_uint128_t_default
    (src/mr_stringify.c:56-90) and mr_strtouintmax (src/metaresc.c:2030-2082).
    Characters are numbers 0..255.  The build is taken to have __int128, so
    mr_uintmax_t has 128 bits.  isspace/isdigit/isalpha/isupper are those of the
    "C" locale. *)
From Verif Require Import Base.
Local Open Scope Z_scope.

(** isspace of the "C" locale, used at src/metaresc.c:2036. *)
Definition isspace (c : Z) : bool := (c =? 32) || ((9 <=? c) && (c <=? 13)).

(** isdigit, used at src/metaresc.c:2044 and 2061. *)
Definition isdigit (c : Z) : bool := (48 <=? c) && (c <=? 57).

(** isupper of the "C" locale, used at src/metaresc.c:2064. *)
Definition isupper (c : Z) : bool := (65 <=? c) && (c <=? 90).

(** islower of the "C" locale, part of isalpha at src/metaresc.c:2063. *)
Definition islower (c : Z) : bool := (97 <=? c) && (c <=? 122).

(** isalpha of the "C" locale, used at src/metaresc.c:2063. *)
Definition isalpha (c : Z) : bool := isupper c || islower c.

(** Size of the local array [buffer], src/mr_stringify.c:70 and 87:
    [(sizeof (value) * 12 + 4) / 5 + sizeof ("-")] with sizeof (value) = 16. *)
Definition print_buffer : nat := (16 * 12 + 4) / 5 + 2.

(** [*--out = c], src/mr_stringify.c:59, 61 and 80.  [out] is the index of the
    pointer in the buffer; a store below the buffer is [None]. *)
Definition push_down (buf : list Z) (out : nat) (c : Z) : option (list Z * nat) :=
  match out with
  | O => None
  | S o => buf' ← wr buf o c; Some (buf', o)
  end.

(** The do-while loop of mr_uintmaxtostr, src/mr_stringify.c:60-63.  Fuel bounds
    the iterations; running out of it is [None]. *)
Fixpoint digits_loop (fuel : nat) (buf : list Z) (out : nat) (value : Z) : option (list Z * nat) :=
  match fuel with
  | O => None
  | S f =>
      bo ← push_down buf out (48 + value mod 10);
      let value' := value / 10 in
      if value' =? 0 then Some bo else digits_loop f bo.1 bo.2 value'
  end.

(** mr_uintmaxtostr, src/mr_stringify.c:56-65.  One iteration per stored
    character, so the length of the buffer is enough fuel. *)
Definition uintmaxtostr (buf : list Z) (out : nat) (value : Z) : option (list Z * nat) :=
  bo ← push_down buf out 0;
  digits_loop (S (length buf)) bo.1 bo.2 value.

(** mr_ra_printf_uint128_t_default, src/mr_stringify.c:84-90: the string handed
    to mr_ra_append_string, as the bytes from [out] to the end of the buffer.
    [buf] is the uninitialised local array. *)
Definition print_uint128 (buf : list Z) (value : Z) : option (list Z) :=
  bo ← uintmaxtostr buf (length buf) value;
  Some (drop bo.2 bo.1).

(** [value = ~value + 1] on mr_intmax_t, src/mr_stringify.c:76, converted to
    mr_uintmax_t for the call at line 78.  The addition overflows for the
    smallest value: undefined unless the compiler is told to wrap ([wrapv]). *)
Definition negate_int128 (wrapv : bool) (value : Z) : option Z :=
  let r := Z.lnot value + 1 in
  if (2 ^ 127 <=? r) && negb wrapv then None else Some (r mod 2 ^ 128).

(** mr_ra_printf_int128_t_default, src/mr_stringify.c:67-82; result as for
    [print_uint128]. *)
Definition print_int128 (wrapv : bool) (buf : list Z) (value : Z) : option (list Z) :=
  let negative := value <? 0 in
  v ← (if negative then negate_int128 wrapv value else Some value);
  bo ← uintmaxtostr buf (length buf) v;
  if negative
  then bo' ← push_down bo.1 bo.2 45; Some (drop bo'.2 bo'.1)
  else Some (drop bo.2 bo.1).

(** The scan [while (isspace (s[0])) ++s], src/metaresc.c:2036-2037. *)
Fixpoint skip_space (fuel : nat) (str : list Z) (s : nat) : option nat :=
  match fuel with
  | O => None
  | S f => c ← rd str s; if isspace c then skip_space f str (S s) else Some s
  end.

(** The digit loop, src/metaresc.c:2057-2073.  [unsigned int c = s[0]] of a
    character above 127 is neither a digit nor a letter, so it is enough to
    carry the character itself. *)
Fixpoint acc_loop (fuel : nat) (str : list Z) (s : nat) (base acc : Z) : option (Z * nat) :=
  match fuel with
  | O => None
  | S f =>
      ch ← rd str s;
      if isdigit ch || isalpha ch then
        let c := if isdigit ch then ch - 48
                 else if isupper ch then ch - (65 - 10) else ch - (97 - 10) in
        if base <=? c then Some (acc, s)
        else acc_loop f str (S s) base ((acc * base + c) mod 2 ^ 128)
      else Some (acc, s)
  end.

(** mr_strtouintmax, src/metaresc.c:2030-2082: value and index of the end
    pointer.  [str] is the object holding the string, read from index 0;
    indices beyond it are [None].  [s[1]] is read only when [s[0]] is '0', as
    in C. *)
Definition strtouintmax (str : list Z) (base : Z) : option (Z * nat) :=
  s ← skip_space (S (length str)) str 0;
  c0 ← rd str s;
  let neg := c0 =? 45 in
  let s := if (c0 =? 43) || (c0 =? 45) then S s else s in
  c ← rd str s;
  if negb (isdigit c) then Some (0, 0%nat)
  else
    hex ← (if ((base =? 0) || (base =? 16)) && (c =? 48)
           then c1 ← rd str (S s); Some ((c1 =? 120) || (c1 =? 88))
           else Some false);
    let s := if (hex : bool) then S (S s) else s in
    let base := if hex then 16 else base in
    base ← (if base =? 0 then c ← rd str s; Some (if c =? 48 then 8 else 10) else Some base);
    r ← acc_loop (S (length str)) str s base 0;
    Some (if neg then (- r.1) mod 2 ^ 128 else r.1, r.2).
