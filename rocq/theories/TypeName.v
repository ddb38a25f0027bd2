(** Model of the treatment of type names: [mr_skip_keywords]
    (src/metaresc.c:73-90), [mr_type_is_a_pointer] (src/metaresc.c:1241-1257) and
    [mr_normalize_type] (src/metaresc.c:1297-1354).

    Characters are numbers 0..255.  A C string is the list of its characters
    before the terminating NUL, or, where the function writes to it in place, the
    buffer including the NUL. *)
From Verif Require Import Base.
Local Open Scope Z_scope.

(** [type[i]]: the NUL can be read, anything behind it not (e.g.
    src/metaresc.c:1333). *)
Definition ch (s : list Z) (i : nat) : option Z := rd (s ++ [0]) i.

(** [isspace] of the C locale (src/metaresc.c:1251, 1342, 1344). *)
Definition isspace (c : Z) : bool := (c =? 32) || ((9 <=? c) && (c <=? 13)).

(** [isdelimiter], src/metaresc.c:1315-1321: NUL, blank, tab, star. *)
Definition isdelim (c : Z) : bool := (c =? 0) || (c =? 32) || (c =? 9) || (c =? 42).

(** Does [s] start with [kw]?  Part of [strstr].
    The comparison at one place made by [strstr] in src/metaresc.c:1330. *)
Fixpoint is_prefix (kw s : list Z) : bool :=
  match kw, s with
  | [], _ => true
  | k :: kw, c :: s => (k =? c) && is_prefix kw s
  | _ :: _, [] => false
  end.

(** [strstr] of libc (src/metaresc.c:1330): offset of the first occurrence. *)
Fixpoint strstr (s kw : list Z) : option nat :=
  if is_prefix kw s then Some O
  else match s with
       | [] => None
       | _ :: s => match strstr s kw with Some n => Some (S n) | None => None end
       end.

(** [memset (found, ' ', length)], src/metaresc.c:1334. *)
Definition memset_blank (s : list Z) (found length_ : nat) : option (list Z) :=
  if (found + length_ <=? length s)%nat
  then Some (take found s ++ replicate length_ 32 ++ drop (found + length_) s)
  else None.

(** src/metaresc.c:1328-1336: all occurrences of one keyword, from [ptr] on. *)
Fixpoint kw_loop (fuel : nat) (kw s : list Z) (ptr : nat) : option (list Z) :=
  match fuel with
  | O => None
  | S fuel =>
    match strstr (drop ptr s) kw with
    | None => Some s
    | Some off =>
      let found := (ptr + off)%nat in
      let len := length kw in
      next ← ch s (found + len);
      prev ← (if Nat.eqb found 0 then Some true else c ← ch s (found - 1); Some (isdelim c));
      s ← (if isdelim next && prev then memset_blank s found len else Some s);
      kw_loop fuel kw s (found + len)
    end
  end.

(** src/metaresc.c:1324-1337: all keywords in turn. *)
Fixpoint kws_loop (kws : list (list Z)) (s : list Z) : option (list Z) :=
  match kws with
  | [] => Some s
  | kw :: kws => s ← kw_loop (S (length s)) kw s 0; kws_loop kws s
  end.

(** src/metaresc.c:1342: skip leading blanks. *)
Fixpoint skip_loop (fuel : nat) (buf : list Z) (i : nat) : option nat :=
  match fuel with
  | O => None
  | S fuel => c ← rd buf i; if isspace c then skip_loop fuel buf (i + 1) else Some i
  end.

(** src/metaresc.c:1343-1352: move the characters to the front of the buffer. *)
Fixpoint squeeze_loop (fuel : nat) (buf : list Z) (i ptr : nat) (prev_is_space : bool)
  : option (list Z * nat) :=
  match fuel with
  | O => None
  | S fuel =>
    c ← rd buf i;
    if c =? 0 then Some (buf, ptr)
    else if isspace c then squeeze_loop fuel buf (i + 1) ptr true
    else
      '(buf, ptr) ← (if prev_is_space : bool then b ← wr buf ptr 32; Some (b, (ptr + 1)%nat) else Some (buf, ptr));
      c ← rd buf i;
      buf ← wr buf ptr c;
      squeeze_loop fuel buf (i + 1) (ptr + 1) false
  end.

(** The string in a buffer: what precedes the first NUL; the view every later
    reader of [type] has (e.g. src/metaresc.c:1370). *)
Fixpoint cstr (buf : list Z) : option (list Z) :=
  match buf with
  | [] => None
  | c :: buf => if c =? 0 then Some [] else s ← cstr buf; Some (c :: s)
  end.

(** ASCII letters used by the keywords below.
    src/metaresc.c:1302. *)
Definition kw_struct : list Z := [115; 116; 114; 117; 99; 116].
(** src/metaresc.c:1303. *)
Definition kw_union : list Z := [117; 110; 105; 111; 110].
(** src/metaresc.c:1304. *)
Definition kw_enum : list Z := [101; 110; 117; 109].
(** src/metaresc.c:1305. *)
Definition kw_const : list Z := [99; 111; 110; 115; 116].
(** src/metaresc.c:1308. *)
Definition kw_volatile : list Z := [118; 111; 108; 97; 116; 105; 108; 101].
(** src/metaresc.c:1311. *)
Definition kw_restrict : list Z := [114; 101; 115; 116; 114; 105; 99; 116].
(** Two underscores.
    The underscores of src/metaresc.c:1306-1307, 1309-1310, 1312-1313. *)
Definition uu : list Z := [95; 95].

(** src/metaresc.c:1300-1314: the keywords in their order. *)
Definition keywords : list (list Z) :=
  [kw_struct; kw_union; kw_enum;
   kw_const; uu ++ kw_const; uu ++ kw_const ++ uu;
   kw_volatile; uu ++ kw_volatile; uu ++ kw_volatile ++ uu;
   kw_restrict; uu ++ kw_restrict; uu ++ kw_restrict ++ uu].

(** src/metaresc.c:1297-1354 [mr_normalize_type]; the result is the string left
    in the buffer. *)
Definition normalize_type (type : list Z) : option (list Z) :=
  s ← kws_loop keywords type;
  let buf := s ++ [0] in
  i ← skip_loop (S (length buf)) buf 0;
  '(buf, ptr) ← squeeze_loop (S (length buf)) buf i 0 false;
  buf ← wr buf ptr 0;
  cstr buf.

(** src/metaresc.c:1251-1252: the loop over [end[-1]]; reading before the start
    of the string is undefined behaviour. *)
Fixpoint back_loop (type : list Z) (end_ : nat) : option nat :=
  match end_ with
  | O => None
  | S e => c ← rd type e; if isspace c then back_loop type e else Some end_
  end.

(** src/metaresc.c:1241-1257 [mr_type_is_a_pointer]: the answer and the
    truncated string. *)
Definition type_is_a_pointer (type : list Z) : option (bool * list Z) :=
  match length type with
  | O => Some (false, type)
  | S last =>
    c ← rd type last;
    if c =? 42 then
      e ← back_loop type last;
      Some (true, take e type)
    else Some (false, type)
  end.

(** One of the three conditionals of [mr_skip_keywords], src/metaresc.c:80-81. *)
Definition skip_keyword (kw type : list Z) : list Z :=
  if is_prefix (kw ++ [32]) type then drop (length kw + 1) type else type.

(** src/metaresc.c:73-90 [mr_skip_keywords]. *)
Definition skip_keywords (type : list Z) : list Z :=
  skip_keyword kw_enum (skip_keyword kw_union (skip_keyword kw_struct type)).
