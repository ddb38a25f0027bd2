(** Model of the CINIT format as a whole: mr_cinit_save (src/cinit_save.c:189-293)
    printing a node table, the lexer (src/cinit_load.l) and the grammar with its
    actions (src/cinit_load.y).  The text is a list of characters 0..255.  Not
    modelled: growth of the output (RArray.v), failing allocations, positions for
    messages, named anonymous unions (two elements for one node,
    src/cinit_save.c:127-133), complex numbers and functions without a name. *)
From Verif Require Import Base Ptrs NumStr Enum Quote Value Parse Json.
Local Open Scope Z_scope.

(** * Writing *)

(** cinit_printf_void, src/cinit_save.c:135-152: no field descriptor, record,
    union, array; a pointer; anything else. *)
Inductive cvoid := CVRecord | CVPointer | CVOther.

(** What the handler of a node prints, by [mr_type] (table src/cinit_save.c:154-187).
    [CFloat] carries the text of printf (src/mr_stringify.c:39-45).  [CNames] is an
    enumeration, a bitmask or a function: names and a remaining number, printed
    with CINIT_BITMASK_DELIMITER between them (src/mr_stringify.c:164-233; Enum.v
    models which ones).  [CPtr] carries the type with the asterisk for pointers to
    pointers (src/cinit_save.c:116-125). *)
Inductive ckind :=
  | CNone                         (* MR_TYPE_NONE *)
  | CVoid (c : cvoid)
  | CBool (b : bool)
  | CInt (t : ity) (data : Z)
  | CFloat (txt : list Z)
  | CChar (c : Z)
  | CStr (s : list Z)             (* string and array of characters *)
  | CNames (l : list (list Z)) (rest : option (ity * Z))
  | CStruct                       (* structures, unions and arrays *)
  | CPtr (type : list Z).

(** The members of [mr_ptrdes_t] used here in addition to the links of Ptrs.v, as in
    Json.v: src/cinit_save.c:208-231. *)
Record sinfo := SInfo { s_kind : ckind; s_unnamed : bool; s_null : bool; s_cref : bool; s_name : list Z }.

(** " | ", CINIT_BITMASK_DELIMITER, src/cinit_save.c:20, used at
    src/mr_stringify.c:190 and 205. *)
Definition txt_or : list Z := [32; 124; 32].
(** CINIT_NULL, src/cinit_save.c:21. *)
Definition txt_NULL : list Z := [78; 85; 76; 76].
(** MR_REF, src/metaresc.h:95. *)
Definition txt_ref : list Z := [114; 101; 102].
(** MR_REF_CONTENT, src/metaresc.h:96. *)
Definition txt_ref_content : list Z := txt_ref ++ [95; 99; 111; 110; 116; 101; 110; 116].
(** MR_REF_IDX, src/metaresc.h:93. *)
Definition txt_ref_idx : list Z := txt_ref ++ [95; 105; 100; 120].

(** Names and number with delimiters, src/mr_stringify.c:184-205. *)
Fixpoint join (d : list Z) (l : list (list Z)) : list Z :=
  match l with
  | [] => []
  | [x] => x
  | x :: l => x ++ d ++ join d l
  end.

Section Save.
  Context (isprint : Z -> bool) (wrapv : bool) (buf : list Z) (js : list sinfo).

  (** The handlers of cinit_save_tbl, src/cinit_save.c:23-152: the text, and the
      closing bracket left in [res]. *)
  Definition cinit_handler (k : ckind) : option (list Z * option Z) :=
    match k with
    | CNone => Some ([], None)
    | CVoid CVRecord => Some ([123; 125], None)
    | CVoid CVPointer => Some (txt_NULL, None)
    | CVoid CVOther => Some ([48], None)
    | CBool b => Some (if b then txt_true else txt_false, None)
    | CInt t data => txt ← print_number wrapv buf t data; Some (txt, None)
    | CFloat txt => Some (txt, None)
    | CChar c => Some (cinit_print_char isprint c, None)
    | CStr s => Some (quote_string CINIT isprint s, None)
    | CNames l None => Some (join txt_or l, None)
    | CNames l (Some (t, data)) => txt ← print_number wrapv buf t data; Some (join txt_or (l ++ [txt]), None)
    | CStruct => Some ([123; 10], Some 125)
    | CPtr type => Some (40 :: type ++ [91; 93; 41; 123; 10], Some 125)
    end.

  (** CINIT_ATTR_INT, src/cinit_save.c:17. *)
  Definition attr_int (name : list Z) (v : nat) : option (list Z) :=
    num ← print_number wrapv buf U32 (Z.of_nat v);
    Some ([47; 42; 32] ++ name ++ [32; 61; 32] ++ num ++ [32; 42; 47; 32]).

  (** The context is that of JSON: the text so far, and the members [res],
      src/cinit_save.c:94, 119, 203, 245. *)
  (** cinit_pre_print_node, src/cinit_save.c:189-240. *)
  Definition cinit_pre (ns : list node) (c : jctx) (i : nat) (level : Z) : option jctx :=
    n ← rd ns i; d ← rd js i;
    (* 205 *)
    let txt := c.1 ++ spaces (indent level) in
    (* 208-217 *)
    let txt := if s_unnamed d then txt else txt ++ 46 :: s_name d ++ [32; 61; 32] in
    (* 219-225 *)
    ref ← (if is_ref n
           then m ← rd ns (first_child n); attr_int (if s_cref d then txt_ref_content else txt_ref) (pub_idx m)
           else Some []);
    (* 227-229 *)
    idx ← (if referenced n then attr_int txt_ref_idx (pub_idx n) else Some []);
    let txt := txt ++ ref ++ idx in
    (* 231-237 *)
    if s_null d || is_ref n then Some (txt ++ txt_NULL, (i, None) :: c.2)
    else h ← cinit_handler (s_kind d); Some (txt ++ h.1, (i, h.2) :: c.2).

  (** cinit_post_print_node, src/cinit_save.c:242-257, is json_post_print_node
      (Json.v).  cinit_print_node, src/cinit_save.c:259-273. *)
  Definition cinit_print_node (ns : list node) (c : jctx) (i : nat) (level : Z) (o : order) :
    option (bool * list node * jctx) :=
    c' ← match o with PRE => cinit_pre ns c i level | POST => json_post ns c i level end;
    Some (true, ns, c').

  (** mr_cinit_save, src/cinit_save.c:275-293. *)
  Definition cinit_save (fuel : nat) (ns : list node) : option (list Z) :=
    match dfs cinit_print_node fuel ns ([], []) 1 with
    | Done _ _ c => Some c.1
    | _ => None
    end.
End Save.

(** * Reading: the lexer *)

Section Load.
  Context {F : Type} `{FL : Floats F}.

  (** The operators, src/cinit_load.l:108-115, src/cinit_load.y:96-98. *)
  Inductive cop := OpPlus | OpMinus | OpMul | OpDiv | OpMod | OpOr | OpAnd | OpXor.

  (** The tokens, src/cinit_load.y:91-98; numbers as in Value.v. *)
  Inductive ctok :=
    | CtNum (x : expr F) | CtId (s : list Z) | CtStr (content : list Z) | CtChar (content : list Z)
    | CtCast (type : list Z) | CtAttr (id : list Z) (v : Z)
    | CtNull | CtDot | CtAssign | CtLBrace | CtRBrace | CtLParen | CtRParen | CtComma | CtErr
    | CtOp (o : cop).

  (** The longer one of two matches, for "|" in patterns, src/cinit_load.l:50, 53. *)
  Definition longest (a b : option nat) : option nat :=
    match a, b with
    | Some n, Some m => Some (Nat.max n m)
    | Some n, None => Some n
    | None, _ => b
    end.

  (** First characters of ID, src/cinit_load.l:46. *)
  Definition isid (c : Z) : bool := isalpha c || (c =? 95).
  (** ID, src/cinit_load.l:46. *)
  Definition m_id (text : list Z) : option nat :=
    match text with c :: t => if isid c then Some (S (run isident t)) else None | [] => None end.

  (** INT_NUMBER, src/cinit_load.l:47. *)
  Definition m_uint (text : list Z) : option nat :=
    match run isdigit text with O => None | n => Some n end.
  (** HEX_NUMBER, src/cinit_load.l:48. *)
  Definition m_hex (text : list Z) : option nat :=
    match text with
    | 48 :: x :: t => if (x =? 120) || (x =? 88)
                      then match run isxdigit t with O => None | n => Some (2 + n)%nat end else None
    | _ => None
    end.
  (** OCT_NUMBER, src/cinit_load.l:49, as flex reads it: 0, one of "[" and the octal
      digits, then any number of "]". *)
  Definition m_oct (text : list Z) : option nat :=
    match text with
    | 48 :: x :: t => if (x =? 91) || ((48 <=? x) && (x <=? 55))
                      then match run (Z.eqb 93) t with O => None | n => Some (2 + n)%nat end else None
    | _ => None
    end.
  (** NUMBER, src/cinit_load.l:50. *)
  Definition m_number (text : list Z) : option nat := longest (m_uint text) (longest (m_hex text) (m_oct text)).

  (** The number of FLOAT_NUMBER and IMAGENARY_NUMBER without sign, src/cinit_load.l:53-54. *)
  Definition m_udecimal (text : list Z) : option nat :=
    n ← m_uint text;
    let t := drop n text in
    let f := match t with 46 :: t' => S (run isdigit t') | _ => 0%nat end in
    let t := drop f t in
    let e := match t with
             | c :: t' => if (c =? 101) || (c =? 69)
                          then match m_int t' with Some k => S k | None => 0%nat end else 0%nat
             | [] => 0%nat
             end in
    Some (n + f + e)%nat.
  (** FLOAT_NUMBER, src/cinit_load.l:51-53. *)
  Definition m_cfloat (text : list Z) : option nat :=
    longest (m_word [110; 97; 110] text) (longest (m_word [105; 110; 102] text) (m_udecimal text)).
  (** IMAGENARY_NUMBER, src/cinit_load.l:54. *)
  Definition m_imag (text : list Z) : option nat :=
    n ← m_udecimal text;
    match drop n text with
    | c :: _ => if (c =? 73) || (c =? 105) then Some (S n) else None
    | [] => None
    end.

  (** Literals between quotes, src/cinit_load.l:82 and 88 (Quote.v has the part after the quote). *)
  Definition m_quoted (q : Z) (text : list Z) : option nat :=
    match text with
    | c :: t => if c =? q then r ← lex_literal q t; Some (length r.1 + 2)%nat else None
    | [] => None
    end.

  (** ({ID}{WS})*{ID}{WS}, src/cinit_load.l:94. *)
  Fixpoint m_words (fuel : nat) (text : list Z) : option nat :=
    match fuel with
    | O => None
    | S fuel =>
      n ← m_id text;
      let t := drop n text in
      let w := run isspace t in
      match m_id (drop w t) with
      | Some _ => k ← m_words fuel (drop w t); Some (n + w + k)%nat
      | None => Some (n + w)%nat
      end
    end.
  (** A pattern after white space: the length of both, src/cinit_load.l:94, 96. *)
  Definition m_ws (m : list Z -> option nat) (text : list Z) : option nat :=
    let w := run isspace text in n ← m (drop w text); Some (w + n)%nat.
  (** One pattern after the other, src/cinit_load.l:94, 96; the first one has no
      shorter match that helps. *)
  Definition m_seq (m1 m2 : list Z -> option nat) (text : list Z) : option nat :=
    n ← m1 text; k ← m2 (drop n text); Some (n + k)%nat.
  (** An optional pattern, src/cinit_load.l:94. *)
  Definition m_opt (m : list Z -> option nat) (text : list Z) : option nat :=
    match m text with Some n => Some n | None => Some 0%nat end.
  (** The cast, src/cinit_load.l:94. *)
  Definition m_cast (text : list Z) : option nat :=
    m_seq (m_lit [40]) (m_seq (m_ws (m_words (length text))) (m_seq (m_opt (m_lit [42]))
      (m_seq (m_ws (m_opt (m_seq (m_lit [91]) (m_ws (m_lit [93]))))) (m_ws (m_lit [41]))))) text.
  (** The attribute, src/cinit_load.l:96. *)
  Definition m_attr (text : list Z) : option nat :=
    m_seq (m_lit [47; 42]) (m_seq (m_ws m_id) (m_seq (m_ws (m_lit [61])) (m_seq (m_ws m_uint) (m_ws (m_lit [42; 47]))))) text.

  (** The end of a comment, src/cinit_load.l:102-106. *)
  Fixpoint comment_end (text : list Z) : nat :=
    match text with
    | [] => 0%nat
    | c :: t => match t with
                | d :: _ => if (c =? 42) && (d =? 47) then 2%nat else S (comment_end t)
                | [] => 1%nat
                end
    end.
  (** The comment, src/cinit_load.l:102-106.  Simplification: one match to its end (or
      to the end of the text) instead of the start condition in_comment; the only
      other rule with a match of more than "/" is the attribute, which comes first
      and never is the shorter one. *)
  Definition m_comment (text : list Z) : option nat :=
    match text with
    | 47 :: 42 :: t => Some (2 + comment_end t)%nat
    | _ => None
    end.

  (** Characters removed from the end of a type, src/cinit_load.l:35. *)
  Definition trimmed (c : Z) : bool := isspace c || (c =? 91) || (c =? 93) || (c =? 42).
  (** The loop from the end, src/cinit_load.l:34-36, on the reversed text; the first
      character is never removed. *)
  Fixpoint trim_rev (l : list Z) : list Z :=
    match l with
    | c :: t => match t with [] => l | _ :: _ => if trimmed c then trim_rev t else l end
    | [] => l
    end.
  (** Up to the first closing parenthesis, src/cinit_load.l:31. *)
  Fixpoint before_paren (l : list Z) : list Z :=
    match l with
    | c :: t => if c =? 41 then [] else c :: before_paren t
    | [] => []
    end.
  (** get_type, src/cinit_load.l:22-39. *)
  Definition get_type (start : list Z) : list Z :=
    rev (trim_rev (rev (before_paren (drop (run isspace start) start)))).

  (** mr_get_id, src/lexer.h:42-52. *)
  Definition get_id (start : list Z) : list Z :=
    let t := drop (run isspace start) start in take (run isident t) t.
  (** The text after the first "=", strchr of src/cinit_load.l:98. *)
  Fixpoint after_assign (l : list Z) : list Z :=
    match l with
    | c :: t => if c =? 61 then t else after_assign t
    | [] => []
    end.
  (** The number of a sequence of digits, for strtoull at src/cinit_load.l:98. *)
  Definition digits_value (base : Z) (ds : list Z) : Z := foldl (fun v c => v * base + (c - 48)) 0 ds.
  (** strtoull with base 0 as used at src/cinit_load.l:98: on white space and decimal
      digits, a leading 0 meaning octal; too large values are ULLONG_MAX, and the
      result is converted to mr_idx_t. *)
  Definition strtoull0 (l : list Z) : Z :=
    let t := drop (run isspace l) l in
    let v := match t with
             | 48 :: u => digits_value 8 (take (run (fun c => (48 <=? c) && (c <=? 55)) u) u)
             | _ => digits_value 10 (take (run isdigit t) t)
             end in
    Z.min v (2 ^ 64 - 1) mod 2 ^ 32.

  (** The action of NUMBER, src/cinit_load.l:66. *)
  Definition cinit_int (txt : list Z) : option (option ctok) :=
    r ← strtouintmax (txt ++ [0]) 0; Some (Some (CtNum (Num r.1))).
  (** The content between quotes, src/cinit_load.l:83-84, 89-90. *)
  Definition unquoted (txt : list Z) : list Z := take (length txt - 2) (drop 1 txt).

  (** The rules in their order, src/cinit_load.l:57-124.  Simplification: the
      product of I and a number is the pair of 0 and the number. *)
  Definition cinit_rules : list ((list Z -> option nat) * (list Z -> option (option ctok))) :=
    [ (m_space, fun _ => Some None);
      (m_lit txt_NULL, fun _ => Some (Some CtNull));
      (m_lit txt_false, fun _ => Some (Some (CtNum (Num 0))));
      (m_lit [70; 65; 76; 83; 69], fun _ => Some (Some (CtNum (Num 0))));
      (m_lit txt_true, fun _ => Some (Some (CtNum (Num 1))));
      (m_lit [84; 82; 85; 69], fun _ => Some (Some (CtNum (Num 1))));
      (m_nocase [105], fun _ => Some (Some (CtNum (Flt (VComplex (f_of_int 0, f_of_int 1))))));
      (m_number, cinit_int);
      (m_cfloat, fun txt => Some (Some (CtNum (Flt (VFloat (strtold (txt ++ [0])).1)))));
      (m_imag, fun txt => Some (Some (CtNum (Flt (VComplex (f_of_int 0, (strtold (txt ++ [0])).1))))));
      (m_id, fun txt => Some (Some (CtId txt)));
      (m_quoted 34, fun txt => Some (Some (CtStr (unquoted txt))));
      (m_quoted 39, fun txt => Some (Some (CtChar (unquoted txt))));
      (m_cast, fun txt => Some (Some (CtCast (get_type (drop 1 txt)))));
      (m_attr, fun txt => Some (Some (CtAttr (get_id (drop 2 txt)) (strtoull0 (after_assign txt)))));
      (m_comment, fun _ => Some None);
      (m_lit [43], fun _ => Some (Some (CtOp OpPlus)));
      (m_lit [45], fun _ => Some (Some (CtOp OpMinus)));
      (m_lit [42], fun _ => Some (Some (CtOp OpMul)));
      (m_lit [47], fun _ => Some (Some (CtOp OpDiv)));
      (m_lit [37], fun _ => Some (Some (CtOp OpMod)));
      (m_lit [124], fun _ => Some (Some (CtOp OpOr)));
      (m_lit [38], fun _ => Some (Some (CtOp OpAnd)));
      (m_lit [94], fun _ => Some (Some (CtOp OpXor)));
      (m_lit [123], fun _ => Some (Some CtLBrace));
      (m_lit [125], fun _ => Some (Some CtRBrace));
      (m_lit [40], fun _ => Some (Some CtLParen));
      (m_lit [41], fun _ => Some (Some CtRParen));
      (m_lit [44], fun _ => Some (Some CtComma));
      (m_lit [46], fun _ => Some (Some CtDot));
      (m_lit [61], fun _ => Some (Some CtAssign));
      (m_any, fun _ => Some (Some CtErr)) ].

  (** The calls of yylex, src/cinit_load.l:55-125. *)
  Definition cinit_lex (text : list Z) : option (list ctok) := lex cinit_rules (length text) text.

  (** * Reading: the grammar *)

  (** The members of [mr_ptrdes_t] set by the parser besides the links: value_type with
      load_params, MR_IS_NULL, MR_IS_CONTENT_REFERENCE, the name of the field
      descriptor, the type given by a cast (MR_IS_TYPED), src/cinit_load.y:121-223, 249-267. *)
  Record cinfo := CInfo { c_val : value F; c_null : bool; c_cref : bool; c_name : option (list Z); c_type : option (list Z) }.
  (** A cleared descriptor, src/metaresc.c:620. *)
  Definition cinfo0 : cinfo := CInfo VVoid false false None None.
  (** mr_value_to_mr_ptrdes, src/cinit_load.y:172 and the other assignments of values, src/cinit_load.y:187-194, 221-222. *)
  Definition cset_val (v : value F) (d : cinfo) : cinfo := CInfo v (c_null d) (c_cref d) (c_name d) (c_type d).
  (** src/cinit_load.y:197-202. *)
  Definition cset_null (d : cinfo) : cinfo := CInfo (VInt 0) true (c_cref d) (c_name d) (c_type d).
  (** src/cinit_load.y:135. *)
  Definition cset_cref (d : cinfo) : cinfo := CInfo (c_val d) (c_null d) true (c_name d) (c_type d).
  (** src/cinit_load.y:261. *)
  Definition cset_name (nm : list Z) (d : cinfo) : cinfo := CInfo (c_val d) (c_null d) (c_cref d) (Some nm) (c_type d).
  (** src/cinit_load.y:162-163. *)
  Definition cset_type (ty : list Z) (d : cinfo) : cinfo := CInfo (c_val d) (c_null d) (c_cref d) (c_name d) (Some ty).

  (** MR_IS_REFERENCE or MR_IS_CONTENT_REFERENCE with the number, src/cinit_load.y:127-136. *)
  Definition set_ref (v : nat) (n : node) : node :=
    Node (parent n) (next n) v (pub_idx n) true (referenced n) (structured n) (rm_type n).
  (** MR_IS_REFERENCED with the number, src/cinit_load.y:137-141. *)
  Definition set_idx (v : nat) (n : node) : node :=
    Node (parent n) (next n) (first_child n) v (is_ref n) true (structured n) (rm_type n).

  (** The value of a string, src/cinit_load.y:176-196, simplified as in Json.v: of the
      text after the content only the closing quote is kept, and a terminator. *)
  Definition cinit_string (content : list Z) : option (value F) :=
    if existsb (Z.eqb 92) content
    then r ← unquote_loop CINIT (S (length content)) (content ++ [34]) (length content) 0; Some (VString (c_string r ++ [0]))
    else Some (VSubstr (content ++ [34; 0]) (length content)).
  (** The value of a character, src/cinit_load.y:203-223 (Quote.v has the
      computation; the closing quote is overwritten by 0). *)
  Definition cinit_char (content : list Z) : option (value F) :=
    if Nat.ltb 5 (length content) then None
    else
      r ← unquote_loop CINIT (S (length content)) (content ++ [0]) (length content) 0;
      if Nat.ltb 1 (length (c_string r)) then None else Some (VChar (default 0 (head (c_string r)))).

  (** Precedence of binary operators, src/cinit_load.y:96-98. *)
  Definition op_level (o : cop) : nat :=
    match o with
    | OpOr | OpAnd | OpXor => 0
    | OpPlus | OpMinus => 1
    | OpMul | OpDiv | OpMod => 2
    end.
  (** The actions of binary operators, src/cinit_load.y:226-233. *)
  Definition op_expr (o : cop) (a b : expr F) : expr F :=
    match o with
    | OpPlus => Arith Add a b
    | OpMinus => Arith Sub a b
    | OpMul => Arith Mul a b
    | OpDiv => Arith Div a b
    | OpMod => Int Mod a b
    | OpOr => Int Or a b
    | OpAnd => Int And a b
    | OpXor => Int Xor a b
    end.

  (** Expressions, src/cinit_load.y:225-243: [phrase l ts x] when [ts] is an
      expression which binary operators of level less than [l] do not take apart, with
      the precedences and the associativity declared at 96-99: left, and signs
      stronger than any binary operator. *)
  Inductive phrase : nat -> list ctok -> expr F -> Prop :=
    | P_up l ts x : (l < 3)%nat -> phrase (S l) ts x -> phrase l ts x
    (* 226-233 *)
    | P_op o ta tb a b : phrase (op_level o) ta a -> phrase (S (op_level o)) tb b ->
        phrase (op_level o) (ta ++ CtOp o :: tb) (op_expr o a b)
    (* 234-235 *)
    | P_neg ts x : phrase 3 ts x -> phrase 3 (CtOp OpMinus :: ts) (Neg x)
    | P_plus ts x : phrase 3 ts x -> phrase 3 (CtOp OpPlus :: ts) (Plus x)
    (* 236 *)
    | P_num x : phrase 3 [CtNum x] x
    (* 237-242; the text after the identifier is simplified to the terminator *)
    | P_id s : phrase 3 [CtId s] (Id (s ++ [0]) (length s))
    (* 243 *)
    | P_paren ts x : phrase 0 ts x -> phrase 3 (CtLParen :: ts ++ [CtRParen]) x.

  Section Grammar.
    (** [known ty nm] tells whether mr_get_any_fd_by_name finds the name, with the type
        of a cast if there is one; [ktype] whether mr_get_td_by_name_internal finds
        the type.  [e] holds the enumerators, [wrapv] is as in Value.v. *)
    Context (known : option (list Z) -> list Z -> bool) (ktype : list Z -> bool) (wrapv : bool) (e : env).

    (** "void", src/cinit_load.y:152. *)
    Definition txt_void : list Z := [118; 111; 105; 100].

    (** The action of a cast, src/cinit_load.y:147-166. *)
    Definition cast_action (ty : list Z) (s : lst cinfo) : option (lst cinfo) :=
      if decide (ty = txt_void) then Some s
      else if ktype ty then lset_info s (l_cur s) (cset_type ty) else None.

    (** The action of an attribute, src/cinit_load.y:123-143. *)
    Definition attr_action (id : list Z) (v : Z) (s : lst cinfo) : option (lst cinfo) :=
      if decide (id = txt_ref) then lset_node s (l_cur s) (set_ref (Z.to_nat v))
      else if decide (id = txt_ref_content) then
        s ← lset_node s (l_cur s) (set_ref (Z.to_nat v)); lset_info s (l_cur s) cset_cref
      else if decide (id = txt_ref_idx) then lset_node s (l_cur s) (set_idx (Z.to_nat v))
      else Some s.

    (** The action of list_element, src/cinit_load.y:250-267: name the last child. *)
    Definition cname_last (nm : list Z) (s : lst cinfo) : option (lst cinfo) :=
      r ← llast s;
      let '(idx, s) := (r : nat * lst cinfo) in
      if Nat.eqb idx 0 then None
      else d ← rd (l_info s) idx;
           if known (c_type d) nm then lset_info s idx (cset_name nm) else None.

    (** Nonterminals, src/cinit_load.y:106-267. *)
    Inductive cnt := NCinit | NStmt | NCasted | NValue | NList | NElem.

    (** The grammar with its actions, rule by rule, src/cinit_load.y:106-267, as in
        Json.v; start_node is lpush. *)
    Inductive cderives : cnt -> list ctok -> lst cinfo -> list ctok -> lst cinfo -> Prop :=
      (* 106-119 *)
      | CD_cinit ts s s1 ts' s2 s3 : lpush cinfo0 s = Some s1 -> cderives NStmt ts s1 ts' s2 -> lpop s2 = Some s3 ->
          cderives NCinit ts s ts' s3
      (* 122 *)
      | CD_stmt ts s ts' s' : cderives NCasted ts s ts' s' -> cderives NStmt ts s ts' s'
      (* 123-143 *)
      | CD_attr id v ts s ts' s1 s' : cderives NStmt ts s ts' s1 -> attr_action id v s1 = Some s' ->
          cderives NStmt (CtAttr id v :: ts) s ts' s'
      (* 146 *)
      | CD_casted ts s ts' s' : cderives NValue ts s ts' s' -> cderives NCasted ts s ts' s'
      (* 147-166 *)
      | CD_cast ty ts s ts' s1 s' : cderives NValue ts s ts' s1 -> cast_action ty s1 = Some s' ->
          cderives NCasted (CtCast ty :: ts) s ts' s'
      (* 169, 245 *)
      | CD_compound ts s ts' s' : cderives NList ts s (CtRBrace :: ts') s' -> cderives NValue (CtLBrace :: ts) s ts' s'
      (* 170-175 *)
      | CD_expr tx x v ts s s' : phrase 0 tx x -> eval wrapv e x = Some v -> accepted v = true ->
          lset_info s (l_cur s) (cset_val v) = Some s' -> cderives NValue (tx ++ ts) s ts s'
      (* 176-196 *)
      | CD_string c v ts s s' : cinit_string c = Some v -> lset_info s (l_cur s) (cset_val v) = Some s' ->
          cderives NValue (CtStr c :: ts) s ts s'
      (* 197-202 *)
      | CD_null ts s s' : lset_info s (l_cur s) cset_null = Some s' -> cderives NValue (CtNull :: ts) s ts s'
      (* 203-223 *)
      | CD_char c v ts s s' : cinit_char c = Some v -> lset_info s (l_cur s) (cset_val v) = Some s' ->
          cderives NValue (CtChar c :: ts) s ts s'
      (* 247 *)
      | CD_list_empty ts s : cderives NList ts s ts s
      | CD_list_one ts s ts' s' : cderives NElem ts s ts' s' -> cderives NList ts s ts' s'
      | CD_list ts s ts1 s1 ts' s' : cderives NElem ts s (CtComma :: ts1) s1 -> cderives NList ts1 s1 ts' s' ->
          cderives NList ts s ts' s'
      (* 249 *)
      | CD_elem ts s ts' s' : cderives NCinit ts s ts' s' -> cderives NElem ts s ts' s'
      (* 250-267 *)
      | CD_named nm ts s ts' s1 s' : cderives NCinit ts s ts' s1 -> cname_last nm s1 = Some s' ->
          cderives NElem (CtDot :: CtId nm :: CtAssign :: ts) s ts' s'.

    (** mr_cinit_load, src/cinit_load.y:102-110, 271 and src/lexer.h:85-104, as json_load. *)
    Definition cinit_load (text : list Z) (s : lst cinfo) : Prop :=
      exists ts, cinit_lex text = Some ts /\ cderives NCinit ts (lstart cinfo0) [] s.
  End Grammar.
End Load.
