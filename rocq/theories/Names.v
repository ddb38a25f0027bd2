(** Model of the treatment of names: [mr_normalize_field_name]
    (src/metaresc.c:1564-1579), [mr_strndup] and [mr_strdup]
    (src/metaresc.c:469-499) and [mr_get_struct_type_name_extra]
    (src/metaresc.c:92-126).

    Characters are numbers 0..255.  Memory is a list of characters; reading behind
    its end is [None]. *)
From Verif Require Import Base.
From Verif Require NumStr Value TypeName.
Local Open Scope Z_scope.

(** Is the character alphanumeric or an underscore, src/metaresc.c:1573 and 1575, in the C
    locale.  Characters from 128 on are negative as [char], for which [isalnum] is
    undefined. *)
Definition is_name (c : Z) : option bool :=
  if c <? 128 then Some (Value.isident c) else None.

(** src/metaresc.c:1573: characters that are not of an identifier are skipped, the
    NUL among them. *)
Fixpoint skip_invalid (fuel : nat) (m : list Z) (p : nat) : option nat :=
  match fuel with
  | O => None
  | S fuel =>
    c ← rd m p;
    b ← is_name c;
    if (b : bool) then Some p else skip_invalid fuel m (S p)
  end.

(** src/metaresc.c:1575: characters of an identifier are skipped. *)
Fixpoint skip_valid (fuel : nat) (m : list Z) (p : nat) : option nat :=
  match fuel with
  | O => None
  | S fuel =>
    c ← rd m p;
    b ← is_name c;
    if (b : bool) then skip_valid fuel m (S p) else Some p
  end.

(** src/metaresc.c:1563-1579 [mr_normalize_field_name] for a name at [p] that is not
    NULL; [void] is [MR_TYPE_VOID == fdp->stype.mr_type].  The new pointer and the
    new memory. *)
Definition normalize_field_name (void : bool) (m : list Z) (p : nat) : option (nat * list Z) :=
  c ← rd m p;
  if negb (c =? 0) && void then
    q ← skip_invalid (S (length m)) m p;
    e ← skip_valid (S (length m)) m q;
    x ← rd m e;
    if x =? 0 then Some (q, m) else m' ← wr m e 0; Some (q, m')
  else Some (p, m).

(** src/metaresc.c:475: [n] is [_size], [rest] is [size - _size]. *)
Fixpoint strn_size (rest : nat) (m : list Z) (n : nat) : option nat :=
  match rest with
  | O => Some n
  | S rest => c ← rd m n; if c =? 0 then Some n else strn_size rest m (S n)
  end.

(** [memcpy] out of the memory, src/metaresc.c:482 and 497. *)
Definition copy_out (m : list Z) (n : nat) : option (list Z) :=
  if (n <=? length m)%nat then Some (take n m) else None.

(** src/metaresc.c:469-485 [mr_strndup]: the new block.  The allocation succeeds and
    [_size + 1] does not overflow (there is no string of SIZE_MAX characters). *)
Definition strndup (m : list Z) (size : nat) : option (list Z) :=
  n ← strn_size size m 0;
  s ← copy_out m n;
  Some (s ++ [0]).

(** [strlen], src/metaresc.c:490. *)
Fixpoint strlen (m : list Z) : option nat :=
  match m with
  | [] => None
  | c :: m => if c =? 0 then Some O else n ← strlen m; Some (S n)
  end.

(** The conversion to [int], src/metaresc.c:490. *)
Definition to_int (x : Z) : Z := (x + 2 ^ 31) mod 2 ^ 32 - 2 ^ 31.

(** src/metaresc.c:487-499 [mr_strdup]: the new block, or [Some None] for NULL.  The
    allocation succeeds unless [_size] is negative, when more than half of the
    address space is asked for. *)
Definition strdup (m : list Z) : option (option (list Z)) :=
  n ← strlen m;
  let size := to_int (Z.of_nat n + 1) in
  if size <? 0 then Some None
  else s ← copy_out m (Z.to_nat size); Some (Some s).

(** [mr_get_any_fd_by_name (name, NULL)], src/metaresc.c:1708-1715, called at
    src/metaresc.c:107 and 117: the names of all fields are in the collection
    [mr_conf.field_by_name], whose search is that of C07 and C09. *)
Definition any_fd (names : list (list Z)) (name : list Z) : bool := bool_decide (name ∈ names).

(** [strchr (fmt, ' ')], src/metaresc.c:110: what is before the blank
    (src/metaresc.c:113-116). *)
Fixpoint first_word (s : list Z) : option (list Z) :=
  match s with
  | [] => None
  | c :: s => if c =? 32 then Some [] else w ← first_word s; Some (c :: w)
  end.

(** "%s", src/metaresc.c:97. *)
Definition percent_s : list Z := [37; 115].

(** "mr_dummy_struct_t", src/metaresc.c:122. *)
Definition dummy : list Z :=
  [109; 114; 95; 100; 117; 109; 109; 121; 95; 115; 116; 114; 117; 99; 116; 95; 116].

(** src/metaresc.c:92-126 [mr_get_struct_type_name_extra]: [ctx->type_name], [None]
    for NULL.  [arg] is the argument behind the format.  Simplified: strings are
    lists without the NUL; [longjmp] is the return. *)
Definition struct_type_name (names : list (list Z)) (fmt arg : list Z) : option (list Z) :=
  let fmt := if bool_decide (fmt = percent_s) then arg else fmt in
  let fmt := TypeName.skip_keywords fmt in
  let found := if any_fd names fmt then Some fmt
               else w ← first_word fmt; if any_fd names w then Some w else None in
  match found with
  | Some n => if bool_decide (n = dummy) then None else Some n
  | None => None
  end.
