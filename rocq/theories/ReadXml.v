(** Model of [mr_read_xml_doc] (src/metaresc.c:2089-2168): one XML document is
    read from a stream, character by character, into a growing buffer.

    The stream is the list of the characters (0..255) that [fgetc] delivers before
    EOF.  Allocations succeed; what [realloc] leaves in the new part of the buffer
    is arbitrary ([junk]).  [int] is a two's complement 32 bit number; overflow is
    undefined behaviour. *)
From Verif Require Import Base.
Local Open Scope Z_scope.

(** [isspace] of the C locale (src/metaresc.c:2133, 2165). *)
Definition isspace (c : Z) : bool := (c =? 32) || ((9 <=? c) && (c <=? 13)).

(** Limit of [int] (src/metaresc.c:2092, 2095). *)
Definition int_max : Z := 2147483647.

(** A signed addition such as src/metaresc.c:2141. *)
Definition add_int (x y : Z) : option Z :=
  if (- int_max - 1 <=? x + y) && (x + y <=? int_max) then Some (x + y) else None.

(** NULL after a warning, or the string (src/metaresc.c:2115, 2137, 2156, 2162). *)
Inductive outcome := Refused | Doc (buf : list Z).

(** The local variables (src/metaresc.c:2092-2099); [max_size] and [size] as in the
    code, [size] being -1 at the start. *)
Record vars := Vars { str : list Z; size : Z; max_size : Z; c_ : Z;
                      opened_tags : Z; tags_to_close : Z; count : Z }.

(** src/metaresc.c:2118-2131: store the character and double the buffer if only
    one more fits. *)
Definition store (junk : nat -> list Z) (v : vars) (c : Z) : option vars :=
  size ← add_int (size v) 1;
  str ← wr (str v) (Z.to_nat size) c;
  if size =? max_size v - 1 then
    (* max_size <<= 1 *)
    if max_size v * 2 <=? int_max then
      Some (Vars (str ++ junk (length str)) size (max_size v * 2) (c_ v) (opened_tags v) (tags_to_close v) (count v))
    else None
  else Some (Vars str size (max_size v) (c_ v) (opened_tags v) (tags_to_close v) (count v)).

(** src/metaresc.c:2108-2167: the loop. *)
Fixpoint loop (junk : nat -> list Z) (v : vars) (stream : list Z) : option outcome :=
  match stream with
  | [] => Some Refused
  | c :: stream =>
    if c =? 0 then Some Refused
    else
      v ← store junk v c;
      if (opened_tags v =? 0) && negb ((c =? 60) || isspace c) then Some Refused
      else
        op ← (if c =? 60 then add_int (opened_tags v) 2 else Some (opened_tags v));
        let tc := tags_to_close v in
        let tc := if (c_ v =? 47) && (c =? 62) then -2 else tc in
        let tc := if (c_ v =? 63) && (c =? 62) then -2 else tc in
        let tc := if (c_ v =? 60) && (c =? 47) then -3 else tc in
        let c'  := if isspace c then c_ v else c in
        if c =? 62 then
          op ← add_int op tc;
          if op <? 0 then Some Refused
          else if op =? 0 then
            if count v - 1 =? 0 then
              size ← add_int (size v) 1;
              str ← wr (str v) (Z.to_nat size) 0;
              Some (Doc str)
            else loop junk (Vars (str v) (size v) (max_size v) c' op (-1) (count v - 1)) stream
          else loop junk (Vars (str v) (size v) (max_size v) c' op (-1) (count v)) stream
        else loop junk (Vars (str v) (size v) (max_size v) c' op tc (count v)) stream
  end.

(** The initial values, src/metaresc.c:2092-2106. *)
Definition init : vars := Vars (replicate 2048 0) (-1) 2048 0 0 (-1) 2.

(** src/metaresc.c:2089-2168 [mr_read_xml_doc]. *)
Definition read_xml_doc (junk : nat -> list Z) (stream : list Z) : option outcome := loop junk init stream.
