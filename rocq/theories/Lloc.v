(** Model of the locations of tokens and of the comparison with keywords (src/lexer.h:19-79).
    Pointers into the scanner's buffer are positions in it. *)
From Verif Require Import Base.
Local Open Scope Z_scope.

(** mr_lloc_t, src/mr_protos.h:637-641. *)
Record lloc := Lloc { lineno : Z; column : Z; offset : Z }.
(** mr_token_lloc_t, src/lexer.h:10-13. *)
Record token_lloc := Token { start : lloc; tend : lloc }.
(** The members [buf] and [lloc] of mr_load_t, src/mr_protos.h:643-649. *)
Record lstate := LS { buf : option nat; cur : lloc }.

(** [int] increment, src/lexer.h:24, 27, 31: overflow is undefined behaviour. *)
Definition incr (z : Z) : option Z := if z <? 2 ^ 31 - 1 then Some (z + 1) else None.

(** One round of the loop, src/lexer.h:24-31. *)
Definition advance (text : list Z) (b : nat) (l : lloc) : option lloc :=
  c ← (if offset l <? 0 then None else rd text (b + Z.to_nat (offset l)));
  if c =? 10 then n ← incr (lineno l); o ← incr (offset l); Some (Lloc n 0 o)
  else n ← incr (column l); o ← incr (offset l); Some (Lloc (lineno l) n o).

(** The loop of src/lexer.h:24-31.  Fuel bounds the number of rounds. *)
Fixpoint advance_to (fuel : nat) (text : list Z) (b : nat) (l : lloc) (ptr : nat) : option lloc :=
  if Z.of_nat b + offset l <? Z.of_nat ptr then
    match fuel with
    | O => None
    | S fuel => l ← advance text b l; advance_to fuel text b l ptr
    end
  else Some l.

(** mr_calc_lloc, src/lexer.h:19-32.  A round moves by one byte, so the length of the text is enough fuel. *)
Definition calc_lloc (text : list Z) (s : lstate) (ptr : nat) : option lstate :=
  match buf s with
  | None => Some (LS (Some ptr) (cur s))
  | Some b => l ← advance_to (length text) text b (cur s) ptr; Some (LS (Some b) l)
  end.

(** YY_USER_ACTION for the token from [bp] to [cp], src/lexer.h:54-60. *)
Definition user_action (text : list Z) (s : lstate) (bp cp : nat) : option (token_lloc * lstate) :=
  s ← calc_lloc text s bp; let st := cur s in
  s ← calc_lloc text s cp;
  Some (Token st (cur s), s).

(** The start of a parser, src/lexer.h:89. *)
Definition lstart : lstate := LS None (Lloc 1 0 0).

(** The scanner matches one token after the other, from the start of the buffer; [lens] are their
    lengths.  Flex's part is taken from its manual (src/lexer.h:54). *)
Fixpoint scan (text : list Z) (s : lstate) (pos : nat) (lens : list nat) : option (list token_lloc * lstate) :=
  match lens with
  | [] => Some ([], s)
  | n :: lens =>
    '(t, s) ← user_action text s pos (pos + n)%nat;
    '(ts, s) ← scan text s (pos + n)%nat lens;
    Some (t :: ts, s)
  end.

(** YYLLOC_DEFAULT, src/lexer.h:62-79: location of a rule from those of its right-hand side, or of what is
    before it for an empty one. *)
Definition yylloc_default (prev : token_lloc) (rhs : list token_lloc) : token_lloc :=
  match rhs with
  | [] => Token (tend prev) (tend prev)
  | t :: _ => Token (start t) (tend (List.last rhs t))
  end.

(** strncmp of the first [length a] bytes, src/lexer.h:39: 0, or the difference of the first bytes that
    differ.  [b] has as many bytes. *)
Fixpoint strncmp (a b : list Z) : Z :=
  match a, b with
  | x :: a, y :: b => if x =? y then (if x =? 0 then 0 else strncmp a b) else x - y
  | _, _ => 0
  end.
(** mr_substrcmp, src/lexer.h:34-40, with the conversion of [size_t] to [int]. *)
Definition substrcmp (str substr : list Z) : Z :=
  let d := Z.of_nat (length str) - Z.of_nat (length substr) in
  if d =? 0 then strncmp str substr
  else (d + 2 ^ 31) mod 2 ^ 32 - 2 ^ 31.
