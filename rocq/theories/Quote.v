(** Model of string and character literals of the JSON, CINIT and SCM formats:
    mr_ra_printf_quote_string (src/mr_stringify.c:399-424), cinit_printf_char
    (src/cinit_save.c:23-44), scm_save_char (src/scm_save.c:114-122), the string
    rules of the lexers (src/json_load.l:39-43, src/cinit_load.l:82-92,
    src/scm_load.l:71-89), json_unquote_str (src/json_load.y:28-68),
    cinit_unquote_str (src/cinit_load.y:29-69), scm_unquote_str
    (src/scm_load.y:31-71) and the actions using them.  Characters are numbers
    0..255.  The output array is a list: its growth is the subject of RArray.v
    and failure to allocate is not modelled.  [isprint] is a parameter, so any
    single-byte locale is covered. *)
From Verif Require Import Base NumStr.
Local Open Scope Z_scope.

(** The three text formats using backslash escapes.
    The callers: src/json_save.c, src/cinit_save.c, src/scm_save.c through src/mr_stringify.c:399-424. *)
Inductive format := JSON | CINIT | SCM.

(** mr_esc_char_map, src/mr_stringify.c:381-391; 0 where there is no entry. *)
Definition esc_char_map (c : Z) : Z :=
  match c with
  | 7 => 97 | 8 => 98 | 9 => 116 | 10 => 110 | 11 => 118 | 12 => 102 | 13 => 114 | 92 => 92
  | _ => 0
  end.

(** The array [map] filled by the loops at src/json_load.y:37-40,
    src/cinit_load.y:38-41, src/scm_load.y:40-43: for i from 0 to 255,
    [if (mr_esc_char_map[i]) map[mr_esc_char_map[i]] = i]. *)
Definition unesc_table : list Z :=
  foldl (fun map i => if esc_char_map i =? 0 then map else <[Z.to_nat (esc_char_map i) := i]> map)
        (replicate 256 0) (seqZ 0 256).

(** [map[(unsigned char)c]], e.g. src/json_load.y:51. *)
Definition unesc_map (c : Z) : Z := default 0 (unesc_table !! Z.to_nat c).

(** One hexadecimal digit of printf %x, used by the patterns below:
    src/json_save.c:17, src/scm_save.c:121. *)
Definition hex_char (d : Z) : Z := if d <? 10 then 48 + d else 87 + d.

(** mr_ra_printf with the character pattern of each format and one byte as the
    argument, src/mr_stringify.c:419: "\\u%04x" (src/json_save.c:17),
    "\\%03o" (src/cinit_save.c:19), "\\x%02x;" (src/scm_save.c:136, 152).
    Simplification: the printf conversions are written out for arguments below
    256, where they give exactly 4, 3 and 2 digits. *)
Definition char_pattern (k : format) (c : Z) : list Z :=
  match k with
  | JSON => [92; 117; 48; 48; hex_char (c / 16); hex_char (c mod 16)]
  | CINIT => [92; 48 + c / 64; 48 + c / 8 mod 8; 48 + c mod 8]
  | SCM => [92; 120; hex_char (c / 16); hex_char (c mod 16); 59]
  end.

(** Body of the loop of mr_ra_printf_quote_string, src/mr_stringify.c:408-419;
    with quote character 39 the same steps in cinit_printf_char,
    src/cinit_save.c:27-41. *)
Definition quote_char (k : format) (isprint : Z -> bool) (q c : Z) : list Z :=
  let mapped := esc_char_map c in
  let mapped := if c =? q then q else mapped in
  if negb (mapped =? 0) then [92; mapped]
  else if isprint c then [c]
  else char_pattern k c.

(** mr_ra_printf_quote_string, src/mr_stringify.c:399-424, on the string up to
    its terminator: what is appended to the output. *)
Definition quote_string (k : format) (isprint : Z -> bool) (str : list Z) : list Z :=
  34 :: concat (map (quote_char k isprint 34) str) ++ [34].

(** The lexer rule for literals between quotes [q], after the opening quote: any
    number of characters other than the quote and backslash, or of backslash
    followed by dot, then the quote (src/json_load.l:39, src/cinit_load.l:82 and
    88, src/scm_load.l:71).  Gives the text between the quotes and the rest;
    [None] when the rule does not match.  The dot of flex excludes newline. *)
Fixpoint lex_literal (q : Z) (text : list Z) : option (list Z * list Z) :=
  match text with
  | [] => None
  | c :: t =>
      if c =? q then Some ([], t)
      else if c =? 92 then
        match t with
        | [] => None
        | d :: t' => if d =? 10 then None else r ← lex_literal q t'; Some (c :: d :: r.1, r.2)
        end
      else r ← lex_literal q t; Some (c :: r.1, r.2)
  end.

(** Value of a digit for sscanf %x and %o (src/json_load.y:55,
    src/cinit_load.y:57, src/scm_load.y:59); 255 when it is not one. *)
Definition digit_val (c : Z) : Z :=
  if isdigit c then c - 48
  else if (97 <=? c) && (c <=? 102) then c - 87
  else if (65 <=? c) && (c <=? 70) then c - 55 else 255.

(** Digits of sscanf %x and %o: at most [width] characters, value (not
    truncated) and number of characters; used through src/json_load.y:55,
    src/cinit_load.y:57, src/scm_load.y:59. *)
Fixpoint scan_digits (base : Z) (width : nat) (text : list Z) (acc : Z) : Z * nat :=
  match width, text with
  | S w, c :: t =>
      let d := digit_val c in
      if d <? base then let r := scan_digits base w t (acc * base + d) in (r.1, S r.2)
      else (acc, 0%nat)
  | _, _ => (acc, 0%nat)
  end.

(** White space skipped by sscanf before a number (same places).
    Used through src/cinit_load.y:57 and src/scm_load.y:59. *)
Fixpoint scan_space (text : list Z) : nat :=
  match text with
  | c :: t => if isspace c then S (scan_space t) else 0%nat
  | [] => 0%nat
  end.

(** sscanf of one %x or %o conversion (same places) on a string: value as
    unsigned int and characters consumed, [None] when nothing is converted.
    White space, a sign, and 0x for base 16 are accepted in front; the value
    saturates like strtoul with 64-bit long.  Simplification: "0x" not followed
    by a hexadecimal digit within the width is read as the number 0.
    Used through src/json_load.y:55, src/cinit_load.y:57, src/scm_load.y:59. *)
Definition scan_int (base : Z) (width : nat) (text : list Z) : option (Z * nat) :=
  let sp := scan_space text in
  let text := drop sp text in
  let sign := match text with c :: _ => if (c =? 43) || (c =? 45) then 1%nat else 0%nat | [] => 0%nat end in
  let neg := match text with c :: _ => c =? 45 | [] => false end in
  let text := drop sign text in
  let width := (width - sign)%nat in
  let prefix := if base =? 16 then
      match text with
      | 48 :: x :: t =>
          if ((x =? 120) || (x =? 88)) && Nat.ltb 0 (scan_digits 16 (width - 2) t 0).2 then 2%nat else 0%nat
      | _ => 0%nat
      end else 0%nat in
  let r := scan_digits base (width - prefix) (drop prefix text) 0 in
  if Nat.eqb r.2 0 then None
  else
    let v := if 2 ^ 64 <=? r.1 then 2 ^ 64 - 1 else if neg then (- r.1) mod 2 ^ 64 else r.1 in
    Some (v mod 2 ^ 32, (sp + sign + prefix + r.2)%nat).

(** The conversion tried for an escape which is not in [map].  [s] is the text
    from the character after the backslash.  Gives the character stored
    (conversion of int to char) and by how much [i] is advanced:
    "u%04x%n" and [size - 1] at src/json_load.y:55-58, "%o%n" and [size - 1] at
    src/cinit_load.y:57-60, "x%x%n;" and [size] at src/scm_load.y:59-62. *)
Definition numeric_escape (k : format) (s : list Z) : option (Z * nat) :=
  match k with
  | JSON =>
      match s with
      | 117 :: t => r ← scan_int 16 4 t; Some (r.1 mod 256, r.2)
      | _ => None
      end
  | CINIT => r ← scan_int 8 (length s) s; Some (r.1 mod 256, (r.2 - 1)%nat)
  | SCM =>
      match s with
      | 120 :: t => r ← scan_int 16 (length t) t; Some (r.1 mod 256, S r.2)
      | _ => None
      end
  end.

(** The loop of the unquote functions, src/json_load.y:47-66,
    src/cinit_load.y:49-68, src/scm_load.y:51-70.  [s] is the text buffer from
    the start of the literal, [n] the length of the literal; reads outside of
    [s] are [None].  The result is what is stored in [dst].  In the JSON and
    CINIT versions the test is [c > 0], in SCM [c]; the entries of [map] are
    never negative. *)
Fixpoint unquote_loop (k : format) (fuel : nat) (s : list Z) (n i : nat) : option (list Z) :=
  match fuel with
  | O => None
  | S f =>
      if Nat.ltb i n then
        ch ← rd s i;
        if ch =? 92 then
          let i := S i in
          e ← rd s i;
          if negb (unesc_map e =? 0) then
            r ← unquote_loop k f s n (S i); Some (unesc_map e :: r)
          else
            match numeric_escape k (drop i s) with
            | Some (c, adv) => r ← unquote_loop k f s n (S (i + adv)); Some (c :: r)
            | None => r ← unquote_loop k f s n (S i); Some (e :: r)
            end
        else r ← unquote_loop k f s n (S i); Some (ch :: r)
      else Some []
  end.

(** Value of a string literal: lexer rule, then the action which unquotes only
    when there is a backslash, src/json_load.y:114-131, src/cinit_load.y:176-194,
    src/scm_load.y:158-176.  [text] starts at the opening quote; gives the
    characters of the value (for an unquoted buffer up to its terminator) and
    the remaining text. *)
Definition read_string (k : format) (text : list Z) : option (list Z * list Z) :=
  match text with
  | 34 :: t =>
      lr ← lex_literal 34 t;
      let content := lr.1 in
      if existsb (Z.eqb 92) content
      then r ← unquote_loop k (S (length content)) t (length content) 0; Some (r, lr.2)
      else Some (content, lr.2)
  | _ => None
  end.

(** cinit_printf_char, src/cinit_save.c:23-44. *)
Definition cinit_print_char (isprint : Z -> bool) (c : Z) : list Z :=
  39 :: quote_char CINIT isprint 39 c ++ [39].

(** Prefix of a list of characters up to the terminator: what strlen and
    [vt_char_str[0]] see, src/cinit_load.y:215-222. *)
Fixpoint c_string (l : list Z) : list Z :=
  match l with
  | [] => []
  | c :: t => if c =? 0 then [] else c :: c_string t
  end.

(** Character literal of CINIT, src/cinit_load.l:88-92 and the action at
    src/cinit_load.y:203-223: the closing quote is overwritten by 0, literals
    longer than sizeof ("\\000") = 5 are rejected, so are values of more than
    one character.  [None] is a rejected literal. *)
Definition cinit_read_char (text : list Z) : option (Z * list Z) :=
  match text with
  | 39 :: t =>
      lr ← lex_literal 39 t;
      let content := lr.1 in
      if Nat.ltb 5 (length content) then None
      else
        r ← unquote_loop CINIT (S (length content)) (content ++ 0 :: lr.2) (length content) 0;
        if Nat.ltb 1 (length (c_string r)) then None
        else Some (default 0 (head (c_string r)), lr.2)
  | _ => None
  end.

(** scm_save_char, src/scm_save.c:114-122. *)
Definition scm_print_char (isprint : Z -> bool) (c : Z) : list Z :=
  if isprint c then [35; 92; c] else [35; 92; 120; hex_char (c / 16); hex_char (c mod 16)].

(** isxdigit, src/scm_load.l:83. *)
Definition isxdigit (c : Z) : bool :=
  isdigit c || ((97 <=? c) && (c <=? 102)) || ((65 <=? c) && (c <=? 70)).

(** Character literal of SCM, rules at src/scm_load.l:77-89: the longest match
    wins, so "#\x" and two hexadecimal digits is the code, otherwise "#\" and any
    character but newline is the character itself. *)
Definition scm_read_char (text : list Z) : option (Z * list Z) :=
  match text with
  | 35 :: 92 :: c :: t =>
      let one := if c =? 10 then None else Some (c, t) in
      if c =? 120 then
        match t with
        | a :: b :: t' =>
            if isxdigit a && isxdigit b
            then r ← scan_int 16 2 [a; b]; Some (r.1 mod 256, t')
            else one
        | _ => one
        end
      else one
  | _ => None
  end.
