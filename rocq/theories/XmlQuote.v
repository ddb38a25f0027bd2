(** Model of XML text escaping: xml_ra_printf_quote_char/_string
    (src/xml_save.c:122-150), xml_unquote_string (src/xml_save.c:49-118), the
    content rule of the XML lexer (src/xml1_load.l:64-68) and the action using
    it (src/xml1_load.y:136-153).  Characters are numbers 0..255; the end of the
    list standing for the text buffer acts as the terminating 0.  Output arrays
    are lists (see Quote.v).  [isprint] is a parameter. *)
From Verif Require Import Base NumStr Quote.
Local Open Scope Z_scope.

(** esc_char_map, src/xml_save.c:30-35; [] where there is no entry. *)
Definition xml_esc (c : Z) : list Z :=
  match c with
  | 38 => [38; 97; 109; 112; 59]
  | 60 => [38; 108; 116; 59]
  | 62 => [38; 103; 116; 59]
  | 34 => [38; 113; 117; 111; 116; 59]
  | _ => []
  end.

(** One upper-case hexadecimal digit of printf %X, src/xml_save.c:27. *)
Definition hex_char_up (d : Z) : Z := if d <? 10 then 48 + d else 55 + d.

(** xml_ra_printf_quote_char, src/xml_save.c:122-135: mapped sequence, the
    character itself, or the pattern "&#x%02X;" (line 27; two digits for
    arguments below 256). *)
Definition xml_quote_char (isprint : Z -> bool) (c : Z) : list Z :=
  match xml_esc c with
  | [] => if isprint c then [c] else [38; 35; 120; hex_char_up (c / 16); hex_char_up (c mod 16); 59]
  | m => m
  end.

(** xml_ra_printf_quote_string, src/xml_save.c:143-150, on the string up to its
    terminator. *)
Definition xml_quote (isprint : Z -> bool) (str : list Z) : list Z :=
  concat (map (xml_quote_char isprint) str).

(** esc_seq_hash as filled at src/xml_save.c:58-67: escape sequence and symbol,
    indexed by the second character of the sequence. *)
Definition esc_seq_hash : list (option (list Z * Z)) :=
  foldl (fun h i => match xml_esc i with
                    | [] => h
                    | m => <[Z.to_nat (default 0 (m !! 1%nat)) := Some (m, i)]> h
                    end)
        (replicate 256 None) (seqZ 0 256).

(** tolower of the C locale, src/xml_save.c:99. *)
Definition tolower (c : Z) : Z := if isupper c then c + 32 else c.

(** [0 == strncasecmp (a, b, n)], src/xml_save.c:101; the end of a list is the
    terminating 0. *)
Fixpoint strncasecmp_eq (a b : list Z) (n : nat) : bool :=
  match n with
  | O => true
  | S m =>
      let x := default 0 (head a) in
      let y := default 0 (head b) in
      if tolower x =? tolower y
      then if x =? 0 then true else strncasecmp_eq (tail a) (tail b) m
      else false
  end.

(** Copy of the text around an escape into [esc], src/xml_save.c:76-82: 9 bytes
    are copied by strncpy and strchr looks for a semicolon.  When there is
    neither a semicolon nor a terminator among them strchr runs into the
    uninitialised last byte of [esc] and beyond: [false]. *)
Definition esc_copy_ok (s : list Z) : bool :=
  existsb (fun c => (c =? 59) || (c =? 0)) (take 9 s) || Nat.ltb (length s) 9.

(** sscanf (s, "&#x%02X;%n", &code, &size) with [size] set to 0 before,
    src/xml_save.c:88.  [s] starts with '&' and '#'.  [None]: not converted.
    %n is stored only when the semicolon is there. *)
Definition scan_xml_code (s : list Z) : option (Z * nat) :=
  match s with
  | _ :: _ :: 120 :: t =>
      r ← scan_int 16 2 t;
      Some (r.1, if Z.eqb (default 0 (t !! r.2)) 59 then (3 + r.2 + 1)%nat else 0%nat)
  | _ => None
  end.

(** Body of the loop of xml_unquote_string for position [i], src/xml_save.c:71-116:
    the characters stored and the next value of [i] (after the increment of the
    loop).  [i += size - 1] with size 0 makes the next position [i] again.
    [None] is undefined behaviour. *)
Definition xml_step (s : list Z) (i : nat) : option (list Z * nat) :=
  c ← rd s i;
  if negb (c =? 38) then Some ([c], S i)
  else if negb (esc_copy_ok (drop i s)) then None
  else
    d ← rd s (S i);
    if d =? 35 then
      match scan_xml_code (drop i s) with
      | None => Some ([], S i)
      | Some (code, size) => Some ([code mod 256], (i + size)%nat)
      end
    else
      match default None (esc_seq_hash !! Z.to_nat (tolower d)) with
      | Some (seq, symbol) =>
          if strncasecmp_eq (drop (S (S i)) s) (drop 2 seq) (length seq - 2)
          then Some ([symbol], (i + length seq)%nat)
          else Some ([c], S i)
      | None => Some ([c], S i)
      end.

(** The loop, src/xml_save.c:71-117; [n] is the length of the text.  Running out
    of fuel is [None]. *)
Fixpoint xml_loop (fuel : nat) (s : list Z) (n i : nat) : option (list Z) :=
  match fuel with
  | O => None
  | S f =>
      if Nat.ltb i n then
        st ← xml_step s i;
        r ← xml_loop f s n st.2;
        Some (st.1 ++ r)
      else Some []
  end.

(** Text up to the next '<', the part [^<]* of the rule at src/xml1_load.l:64. *)
Fixpoint xml_content (text : list Z) : list Z :=
  match text with
  | [] => []
  | c :: t => if c =? 60 then [] else c :: xml_content t
  end.

(** Value of the content of a tag: unquoted only when there is an '&',
    src/xml1_load.y:136-153. *)
Definition xml_read (text : list Z) : option (list Z) :=
  let content := xml_content text in
  if existsb (Z.eqb 38) content
  then xml_loop (S (length content)) text (length content) 0
  else Some content.
