(** Model of the SCM format as a whole: mr_scm_save (src/scm_save.c:222-383)
    printing a node table, the lexer (src/scm_load.l) and the grammar with its
    actions (src/scm_load.y).  The text is a list of characters 0..255.  Not
    modelled: growth of the output (RArray.v), failing allocations, positions for
    messages. *)
From Verif Require Import Base Ptrs NumStr Enum Quote Value Parse Json Cinit.
Local Open Scope Z_scope.

(** * Writing *)

(** What the handler of a node prints, by [mr_type] (table src/scm_save.c:186-220).
    [MFloat] carries the text of printf (src/mr_stringify.c:39-45), [MQuoted] the text
    between the quotes of an enumeration, a bitmask or a complex number
    (src/scm_save.c:24-54).  Integers and bit-fields of integer type are [MInt] with
    the bytes as a number (Enum.v).  [MFunc] has the name found by
    mr_serialize_func and the address. *)
Inductive mkind :=
  | MNothing                      (* MR_TYPE_NONE, MR_TYPE_VOID *)
  | MBool (b : bool)
  | MInt (t : ity) (data : Z)
  | MFloat (txt : list Z)
  | MChar (c : Z)
  | MChars (s : list Z)           (* array of characters *)
  | MString (s : list Z)
  | MQuoted (txt : list Z)
  | MFunc (name : option (list Z)) (addr : Z)
  | MComp                         (* structures, unions and arrays *)
  | MPtr.

(** The members of [mr_ptrdes_t] used here in addition to the links of Ptrs.v.
    [m_unnamed] is the flag MR_IS_UNNAMED as the printing sees it:
    src/scm_save.c:251-256 clears it for the members of a union mr_ptr_t before
    any use.  src/scm_save.c:223-274. *)
Record minfo := MInfo { m_kind : mkind; m_unnamed : bool; m_null : bool; m_cref : bool; m_name : list Z }.

(** MR_SCM_FALSE, src/scm_save.c:13. *)
Definition txt_nil : list Z := [110; 105; 108].
(** MR_SCM_TRUE, src/scm_save.c:14. *)
Definition txt_t : list Z := [116].

(** The digits of "%llx" for a number less than 16 ^ fuel, src/scm_save.c:99. *)
Fixpoint hex_digits (fuel : nat) (v : Z) : list Z :=
  match fuel with
  | O => []
  | S fuel => (if v <? 16 then [] else hex_digits fuel (v / 16)) ++ [hex_char (v mod 16)]
  end.

(** A '\n' at the end of the text is removed, src/scm_save.c:230-231: the last
    character is looked at, which must exist. *)
Definition drop_nl (txt : list Z) : option (list Z) :=
  c ← last txt; Some (if c =? 10 then removelast txt else txt).
(** MR_SCM_INDENT_TEMPLATE after that, src/scm_save.c:230-233. *)
Definition new_line (level : Z) (txt : list Z) : option (list Z) :=
  txt ← drop_nl txt; Some (txt ++ 10 :: spaces (indent level)).
(** The same, only after a '\n', src/scm_save.c:282-288. *)
Definition new_line_if (level : Z) (txt : list Z) : option (list Z) :=
  c ← last txt; if c =? 10 then new_line level txt else Some txt.

Section Save.
  Context (isprint : Z -> bool) (wrapv : bool) (buf : list Z) (js : list minfo).

  (** The handlers of scm_save_handler, src/scm_save.c:24-181, for a node with links
      [n] and the rest [d]. *)
  Definition scm_handler (n : node) (d : minfo) : option (list Z) :=
    match m_kind d with
    | MNothing => Some []
    | MBool b => Some (if b then txt_t else txt_nil)
    | MInt t data => print_number wrapv buf t data
    | MFloat txt => Some txt
    | MChar c => Some (scm_print_char isprint c)
    | MChars s => Some (quote_string SCM isprint s)
    | MString s => Some (if m_null d || is_ref n then txt_nil else quote_string SCM isprint s)
    | MQuoted txt => Some (34 :: txt ++ [34])
    | MFunc name addr =>
      Some (if m_null d then txt_nil else
            match name with
            | None => [35; 120] ++ hex_digits 16 addr
            | Some nm => 34 :: nm ++ [34]
            end)
    | MComp => Some (if Nat.eqb (first_child n) 0 then [40; 41] else [])
    | MPtr => Some (if m_null d || is_ref n then txt_nil else [])
    end.

  (** MR_SCM_ATTR_INT, src/scm_save.c:20. *)
  Definition scm_attr (name : list Z) (v : nat) : option (list Z) :=
    num ← print_number wrapv buf U32 (Z.of_nat v);
    Some ([59; 40] ++ name ++ [32; 46; 32] ++ num ++ [41; 10]).

  (** Children printed in brackets, src/scm_save.c:280 and 324-325. *)
  Definition bracketed (n : node) : bool := negb (Nat.eqb (first_child n) 0) && negb (is_ref n).

  (** scm_pre_print_node, src/scm_save.c:222-316. *)
  Definition scm_pre (ns : list node) (txt : list Z) (i : nat) (level : Z) : option (list Z) :=
    n ← rd ns i; d ← rd js i;
    (* 228-238 *)
    txt ← (if is_ref n
           then txt ← new_line level txt; m ← rd ns (first_child n);
                a ← scm_attr (if m_cref d then txt_ref_content else txt_ref) (pub_idx m); Some (txt ++ a)
           else Some txt);
    (* 240-249 *)
    txt ← (if referenced n
           then txt ← new_line level txt; a ← scm_attr txt_ref_idx (pub_idx n); Some (txt ++ a)
           else Some txt);
    (* 258-275 *)
    txt ← (if m_unnamed d
           then c ← last txt;
                if c =? 10 then new_line level txt
                else if Nat.eqb (parent n) 0 then Some txt
                else p ← rd ns (parent n); Some (if Nat.eqb (first_child p) i then txt else txt ++ [32])
           else txt ← new_line level txt; Some (txt ++ 40 :: m_name d ++ [32; 46; 32]));
    (* 280-292 *)
    txt ← (if bracketed n then txt ← new_line_if level txt; Some (txt ++ [40]) else Some txt);
    (* 294-300 *)
    txt ← (if m_unnamed d && Nat.eqb (first_child n) 0 then new_line_if level txt else Some txt);
    (* 302-313 *)
    h ← scm_handler n d; Some (txt ++ h).

  (** scm_post_print_node, src/scm_save.c:318-342. *)
  Definition scm_post (ns : list node) (txt : list Z) (i : nat) (level : Z) : option (list Z) :=
    n ← rd ns i; d ← rd js i;
    if negb (m_unnamed d) || bracketed n
    then txt ← new_line_if level txt;
         Some (txt ++ [41] ++ (if negb (m_unnamed d) && bracketed n then [41] else []) ++ [10])
    else Some txt.

  (** scm_print_node, src/scm_save.c:344-358. *)
  Definition scm_print_node (ns : list node) (txt : list Z) (i : nat) (level : Z) (o : order) :
    option (bool * list node * list Z) :=
    txt' ← match o with PRE => scm_pre ns txt i level | POST => scm_post ns txt i level end;
    Some (true, ns, txt').

  (** mr_scm_save, src/scm_save.c:365-383: the first character is removed at the end. *)
  Definition scm_save (fuel : nat) (ns : list node) : option (list Z) :=
    match dfs scm_print_node fuel ns [10] 1 with
    | Done _ _ txt => Some (drop 1 txt)
    | _ => None
    end.
End Save.

(** * Reading: the lexer *)

Section Load.
  Context {F : Type} `{FL : Floats F}.

  (** The tokens, src/scm_load.y:93-96. *)
  Inductive mtok :=
    | MtWs | MtNum (v : value F) | MtFalse | MtStr (content : list Z) | MtChar (v : value F)
    | MtAttr (id : list Z) (v : Z) | MtLp | MtRp | MtId (s : list Z) | MtDot | MtErr.

  (** HEX_NUMBER and OCT_NUMBER, src/scm_load.l:26-27, after the sign: '#', a letter,
      then [p].  *)
  Definition m_hash (lo up : Z) (p : list Z -> option nat) (text : list Z) : option nat :=
    let s := m_sign text in
    match drop s text with
    | 35 :: x :: t => if (x =? lo) || (x =? up) then n ← p t; Some (s + 2 + n)%nat else None
    | _ => None
    end.
  (** HEX_NUMBER, src/scm_load.l:26. *)
  Definition m_shex : list Z -> option nat :=
    m_hash 120 88 (fun t => match run isxdigit t with O => None | n => Some n end).
  (** OCT_NUMBER, src/scm_load.l:27, as flex reads it: one of "[" and the octal digits,
      then any number of "]". *)
  Definition m_soct : list Z -> option nat :=
    m_hash 111 79 (fun t =>
      match t with
      | x :: t => if (x =? 91) || ((48 <=? x) && (x <=? 55))
                  then match run (Z.eqb 93) t with O => None | n => Some (S n) end else None
      | [] => None
      end).

  (** The number of FLOAT_NUMBER, src/scm_load.l:30.  INT_NUMBER has a sign of its own,
      so the exponent may have two. *)
  Definition m_sdecimal (text : list Z) : option nat :=
    n ← m_int text;
    let t := drop n text in
    let f := match t with 46 :: t' => S (run isdigit t') | _ => 0%nat end in
    let t := drop f t in
    let e := match t with
             | c :: t' => if (c =? 101) || (c =? 69)
                          then match m_int (drop (m_sign t') t') with Some k => S (m_sign t' + k) | None => 0%nat end else 0%nat
             | [] => 0%nat
             end in
    Some (n + f + e)%nat.
  (** FLOAT_NUMBER, src/scm_load.l:28-30. *)
  Definition m_sfloat (text : list Z) : option nat :=
    longest (m_word [110; 97; 110] text) (longest (m_word [105; 110; 102] text) (m_sdecimal text)).

  (** The character, src/scm_load.l:77. *)
  Definition m_schar (text : list Z) : option nat :=
    match text with 35 :: 92 :: c :: _ => if c =? 10 then None else Some 3%nat | _ => None end.
  (** The character by its code, src/scm_load.l:83. *)
  Definition m_sxchar (text : list Z) : option nat :=
    match text with
    | 35 :: 92 :: 120 :: a :: b :: _ => if isxdigit a && isxdigit b then Some 5%nat else None
    | _ => None
    end.

  (** {WS}*, src/scm_load.l:91, 97, 99. *)
  Definition m_spaces (text : list Z) : option nat := Some (run isspace text).
  (** ";"+, src/scm_load.l:91. *)
  Definition m_semis (text : list Z) : option nat := match run (Z.eqb 59) text with O => None | n => Some n end.
  (** The attribute, src/scm_load.l:91. *)
  Definition m_sattr (text : list Z) : option nat :=
    m_seq m_semis (m_seq (m_ws (m_lit [40])) (m_seq (m_ws m_id) (m_seq (m_ws (m_lit [46]))
      (m_seq (m_ws m_uint) (m_seq (m_ws (m_lit [41])) m_spaces))))) text.
  (** The comment, src/scm_load.l:97. *)
  Definition m_scomment (text : list Z) : option nat :=
    m_seq (m_lit [59]) (m_seq (fun t => Some (run (fun c => negb (c =? 10)) t)) m_spaces) text.
  (** The parentheses, src/scm_load.l:99-100. *)
  Definition m_lp (text : list Z) : option nat := m_seq (m_lit [40]) m_spaces text.
  (** The closing one, src/scm_load.l:100. *)
  Definition m_rp (text : list Z) : option nat := m_ws (m_lit [41]) text.
  (** The dot between white space, src/scm_load.l:108. *)
  Definition m_dot (text : list Z) : option nat := m_seq m_space (m_seq (m_lit [46]) m_space) text.

  (** The action of INT_NUMBER, src/scm_load.l:35-39; vt_int is signed. *)
  Definition scm_int (base : Z) (txt : list Z) : option (option mtok) :=
    r ← strtouintmax (txt ++ [0]) base; Some (Some (MtNum (VInt (Json.to_signed r.1)))).
  (** The actions of HEX_NUMBER and OCT_NUMBER, src/scm_load.l:41-56: [k] characters
      from the '#' on are replaced by '0'. *)
  Definition scm_hash (base : Z) (k : nat) (txt : list Z) : option (option mtok) :=
    let s := match txt with 35 :: _ => 0%nat | _ => 1%nat end in
    scm_int base (take s txt ++ replicate k 48 ++ drop (s + k) txt).
  (** The actions of characters, src/scm_load.l:77-89 (Quote.v has the computation). *)
  Definition scm_char (txt : list Z) : option (option mtok) :=
    r ← scm_read_char txt; Some (Some (MtChar (VChar r.1))).

  (** The text after the first [c], strchr of src/scm_load.l:92-93. *)
  Fixpoint after_char (c : Z) (l : list Z) : list Z :=
    match l with
    | d :: t => if d =? c then t else after_char c t
    | [] => []
    end.

  (** The rules in their order, src/scm_load.l:33-110. *)
  Definition scm_rules : list ((list Z -> option nat) * (list Z -> option (option mtok))) :=
    [ (m_space, fun _ => Some (Some MtWs));
      (m_int, scm_int 10);
      (m_shex, scm_hash 16 1);
      (m_soct, scm_hash 8 2);
      (m_sfloat, fun txt => Some (Some (MtNum (VFloat (strtold (txt ++ [0])).1))));
      (m_lit txt_nil, fun _ => Some (Some MtFalse));
      (m_lit txt_t, fun _ => Some (Some (MtNum (VInt 1))));
      (m_quoted 34, fun txt => Some (Some (MtStr (unquoted txt))));
      (m_schar, scm_char);
      (m_sxchar, scm_char);
      (m_sattr, fun txt => Some (Some (MtAttr (get_id (after_char 40 txt)) (strtoull0 (after_char 46 txt)))));
      (m_scomment, fun _ => Some None);
      (m_lp, fun _ => Some (Some MtLp));
      (m_rp, fun _ => Some (Some MtRp));
      (m_id, fun txt => Some (Some (MtId txt)));
      (m_dot, fun _ => Some (Some MtDot));
      (m_any, fun _ => Some (Some MtErr)) ].

  (** The calls of yylex, src/scm_load.l:31-110. *)
  Definition scm_lex (text : list Z) : option (list mtok) := lex scm_rules (length text) text.

  (** * Reading: the grammar *)

  (** The members of [mr_ptrdes_t] set by the parser are those of Cinit.v without the
      type of a cast: src/scm_load.y:121-199.  The value of a string,
      src/scm_load.y:158-178, simplified as in Json.v: of the text after the content
      only the closing quote is kept, and a terminator. *)
  Definition scm_string (content : list Z) : option (value F) :=
    if existsb (Z.eqb 92) content
    then r ← unquote_loop SCM (S (length content)) (content ++ [34]) (length content) 0; Some (VString (c_string r ++ [0]))
    else Some (VSubstr (content ++ [34; 0]) (length content)).

  Section Grammar.
    (** [known nm] tells whether mr_get_any_fd_by_name finds the name for any type,
        src/scm_load.y:193. *)
    Context (known : list Z -> bool).

    (** The action of named_node, src/scm_load.y:190-199. *)
    Definition name_action (nm : list Z) (s : lst cinfo) : option (lst (cinfo (F := F))) :=
      if known nm then lset_info s (l_cur s) (cset_name nm) else None.

    (** Nonterminals, src/scm_load.y:102-201. *)
    Inductive mnt := NTop | NScm | NStmt | NValue | NList | NWs.

    (** The grammar with its actions, rule by rule, src/scm_load.y:102-201, as in
        Json.v; start_node is lpush, the action of an attribute is that of Cinit.v. *)
    Inductive mderives : mnt -> list mtok -> lst cinfo -> list mtok -> lst cinfo -> Prop :=
      (* 102 *)
      | MD_top ts s ts1 s1 ts2 s2 ts' s' : mderives NWs ts s ts1 s1 -> mderives NScm ts1 s1 ts2 s2 -> mderives NWs ts2 s2 ts' s' ->
          mderives NTop ts s ts' s'
      (* 104-117 *)
      | MD_scm ts s s1 ts' s2 s3 : lpush cinfo0 s = Some s1 -> mderives NStmt ts s1 ts' s2 -> lpop s2 = Some s3 ->
          mderives NScm ts s ts' s3
      (* 120 *)
      | MD_stmt ts s ts' s' : mderives NValue ts s ts' s' -> mderives NStmt ts s ts' s'
      (* 121-141 *)
      | MD_attr id v ts s ts' s1 s' : mderives NStmt ts s ts' s1 -> attr_action id v s1 = Some s' ->
          mderives NStmt (MtAttr id v :: ts) s ts' s'
      (* 144, 186 *)
      | MD_compound ts s ts' s' : mderives NList ts s (MtRp :: ts') s' -> mderives NValue (MtLp :: ts) s ts' s'
      (* 145, 190-199 *)
      | MD_named nm ts s ts' s1 s' : mderives NValue ts s (MtRp :: ts') s1 -> name_action nm s1 = Some s' ->
          mderives NValue (MtLp :: MtId nm :: MtDot :: ts) s ts' s'
      (* 146-151 *)
      | MD_char v ts s s' : accepted v = true -> lset_info s (l_cur s) (cset_val v) = Some s' ->
          mderives NValue (MtChar v :: ts) s ts s'
      (* 152-157 *)
      | MD_number v ts s s' : accepted v = true -> lset_info s (l_cur s) (cset_val v) = Some s' ->
          mderives NValue (MtNum v :: ts) s ts s'
      (* 158-178 *)
      | MD_string c v ts s s' : scm_string c = Some v -> lset_info s (l_cur s) (cset_val v) = Some s' ->
          mderives NValue (MtStr c :: ts) s ts s'
      (* 179-184 *)
      | MD_false ts s s' : lset_info s (l_cur s) cset_null = Some s' -> mderives NValue (MtFalse :: ts) s ts s'
      (* 188 *)
      | MD_list_empty ts s : mderives NList ts s ts s
      | MD_list ts s ts1 s1 ts2 s2 ts' s' : mderives NScm ts s ts1 s1 -> mderives NWs ts1 s1 ts2 s2 -> mderives NList ts2 s2 ts' s' ->
          mderives NList ts s ts' s'
      (* 201 *)
      | MD_ws_none ts s : mderives NWs ts s ts s
      | MD_ws ts s : mderives NWs (MtWs :: ts) s ts s.

    (** mr_scm_load, src/scm_load.y:98-102, 205 and src/lexer.h:85-104, as json_load. *)
    Definition scm_load (text : list Z) (s : lst cinfo) : Prop :=
      exists ts, scm_lex text = Some ts /\ mderives NTop ts (lstart cinfo0) [] s.
  End Grammar.
End Load.
