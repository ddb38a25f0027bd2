(** Model of the JSON format as a whole: mr_json_save (src/json_save.c:203-309)
    printing a node table, the lexer (src/json_load.l) and the grammar with its
    actions (src/json_load.y).  The text is a list of characters 0..255.  Not
    modelled: growth of the output (RArray.v), failing allocations, positions
    for messages. *)
From Verif Require Import Base Ptrs NumStr Enum Quote Parse.
Local Open Scope Z_scope.

(** * Writing *)

(** [mr_type_class] as json_printf_void looks at it, src/json_save.c:152-165:
    no field descriptor or a pointer; record, union or array; anything else. *)
Inductive void_class := VNoFd | VRecord | VOtherClass.

(** What the handler of a node prints, by [mr_type] (table src/json_save.c:168-201).
    [KFloat], [KQuoted] carry the text of the functions not modelled here: printf
    of floating point numbers (src/mr_stringify.c:39-45); names of enumerators,
    functions, and complex numbers, printed between quotes
    (src/json_save.c:43-77, 94-104, 130-139).  Integers and bit-fields of integer
    type are [KInt] with the bytes as a number (Enum.v). *)
Inductive jkind :=
  | KNone                         (* MR_TYPE_NONE *)
  | KVoid (c : void_class)
  | KBool (b : bool)
  | KInt (t : ity) (data : Z)
  | KFloat (txt : list Z)
  | KChar (c : Z)
  | KStr (s : list Z)             (* string and array of characters *)
  | KQuoted (txt : list Z)
  | KStruct                       (* structures and unions *)
  | KList.                        (* arrays and pointers *)

(** The members of [mr_ptrdes_t] used here in addition to the links of Ptrs.v:
    type and value, the flags MR_IS_UNNAMED, MR_IS_NULL, MR_IS_CONTENT_REFERENCE
    and the name (or MR_DEFAULT_NODE_NAME), src/json_save.c:222, 232, 241, 247.
    The flag [is_ref] of Ptrs.v is either of the reference flags. *)
Record jinfo := JInfo { j_kind : jkind; j_unnamed : bool; j_null : bool; j_cref : bool; j_name : list Z }.

(** MR_STRUCT_TYPES, src/mr_save.h:7, tested at src/json_save.c:225. *)
Definition struct_kind (k : jkind) : bool := match k with KStruct => true | _ => false end.

(** MR_LIMIT_LEVEL (level) * JSON_INDENT_SPACES, src/metaresc.h:41-43,
    src/json_save.c:13. *)
Definition indent (level : Z) : nat := Z.to_nat (Z.min level 30 * 2).
(** printf of "%*s" with the empty string, src/json_save.c:219. *)
Definition spaces (n : nat) : list Z := replicate n 32.

(** JSON_NULL, src/json_save.c:15. *)
Definition txt_null : list Z := [110; 117; 108; 108].
(** mr_ra_printf_bool prints "true" or "false", src/mr_stringify.c:32-37. *)
Definition txt_true : list Z := [116; 114; 117; 101].
(** "false", src/mr_stringify.c:32-37. *)
Definition txt_false : list Z := [102; 97; 108; 115; 101].

Section Save.
  (** [isprint] of the locale; overflow behaviour of the compiler and the
      uninitialised buffer of the 128 bit printer (NumStr.v); the other members of
      the descriptors. *)
  Context (isprint : Z -> bool) (wrapv : bool) (buf : list Z) (js : list jinfo).

  (** The handlers of json_save_tbl, src/json_save.c:20-166: the text, and the
      closing bracket left in [res]. *)
  Definition json_handler (k : jkind) : option (list Z * option Z) :=
    match k with
    | KNone => Some ([], None)
    | KVoid VNoFd => Some (txt_null, None)
    | KVoid VRecord => Some ([123; 125], None)
    | KVoid VOtherClass => Some ([48], None)
    | KBool b => Some (if b then txt_true else txt_false, None)
    | KInt t data => txt ← print_number wrapv buf t data; Some (txt, None)
    | KFloat txt => Some (txt, None)
    | KChar c => Some (34 :: quote_char JSON isprint 34 c ++ [34], None)
    | KStr s => Some (quote_string JSON isprint s, None)
    | KQuoted txt => Some (34 :: txt ++ [34], None)
    | KStruct => Some ([123; 10], Some 125)
    | KList => Some ([91; 10], Some 93)
    end.

  (** The context: the text so far, and the members [res] set by the handlers, as
      a list of pairs (node, closing bracket); the latest entry counts.
      src/json_save.c:140-150, 217, 261, 302-303. *)
  Definition jctx : Type := list Z * list (nat * option Z).

  (** [ptrs->ra[idx].res.data.string], src/json_save.c:217 and 261. *)
  Fixpoint get_res (l : list (nat * option Z)) (i : nat) : option Z :=
    match l with
    | [] => None
    | (j, r) :: l => if Nat.eqb i j then r else get_res l i
    end.

  (** json_pre_print_node, src/json_save.c:203-256. *)
  Definition json_pre (ns : list node) (c : jctx) (i : nat) (level : Z) : option jctx :=
    n ← rd ns i; d ← rd js i;
    (* 219 *)
    let txt := c.1 ++ spaces (indent level) in
    (* 222-226 *)
    unnamed ← (if j_unnamed d && negb (Nat.eqb (parent n) 0)
               then pd ← rd js (parent n); Some (negb (struct_kind (j_kind pd)))
               else Some (j_unnamed d));
    (* 228-237 *)
    let txt := if (unnamed : bool) then txt else txt ++ 34 :: j_name d ++ [34; 58; 32] in
    (* 239-254 *)
    if is_ref n then
      m ← rd ns (first_child n);
      num ← print_number wrapv buf U32 (Z.of_nat (pub_idx m));
      Some (txt ++ (if j_cref d then [45] else []) ++ num, (i, None) :: c.2)
    else if j_null d then Some (txt ++ txt_null, (i, None) :: c.2)
    else h ← json_handler (j_kind d); Some (txt ++ h.1, (i, h.2) :: c.2).

  (** json_post_print_node, src/json_save.c:258-273; "%*s" with the width one more
      than the indent is that many spaces and the bracket. *)
  Definition json_post (ns : list node) (c : jctx) (i : nat) (level : Z) : option jctx :=
    n ← rd ns i;
    let txt := match get_res c.2 i with Some b => c.1 ++ spaces (indent level) ++ [b] | None => c.1 end in
    let txt := if Nat.eqb (next n) 0 then txt else txt ++ [44] in
    Some (txt ++ [10], c.2).

  (** json_print_node, src/json_save.c:275-289. *)
  Definition json_print_node (ns : list node) (c : jctx) (i : nat) (level : Z) (o : order) :
    option (bool * list node * jctx) :=
    c' ← match o with PRE => json_pre ns c i level | POST => json_post ns c i level end;
    Some (true, ns, c').

  (** mr_json_save, src/json_save.c:291-309; mr_ptrs_dfs starts at node 1
      (src/metaresc.h:1619).  The text; [None] for undefined behaviour or exhausted fuel. *)
  Definition json_save (fuel : nat) (ns : list node) : option (list Z) :=
    match dfs json_print_node fuel ns ([], []) 1 with
    | Done _ _ c => Some c.1
    | _ => None
    end.
End Save.

(** * Reading: the lexer *)

(** [mr_value_t] and the other outcomes of the JSON parser in [value_type] and
    [load_params] (src/mr_protos.h:497-529); MR_VT_FLOAT carries the text given to
    strtold.  [LNone] is MR_VT_UNKNOWN. *)
Inductive lval := LNone | LInt (z : Z) | LFloat (txt : list Z) | LStr (s : list Z) | LSub (s : list Z).

(** The tokens, src/json_load.y:85-87. *)
Inductive token :=
  | TNum (v : lval) | TStr (content : list Z) | TColon | TLBrace | TRBrace | TLBracket | TRBracket
  | TComma | TNull | TErr.

(** Longest match of a literal of src/json_load.l:32-34 and 45-51. *)
Fixpoint m_lit (lit text : list Z) : option nat :=
  match lit, text with
  | [], _ => Some 0%nat
  | c :: lit, d :: text => if c =? d then n ← m_lit lit text; Some (S n) else None
  | _, _ => None
  end.

(** The same without regard to case: [Nn][Aa][Nn], src/json_load.l:27-28. *)
Fixpoint m_nocase (lit text : list Z) : option nat :=
  match lit, text with
  | [], _ => Some 0%nat
  | c :: lit, d :: text => if (c =? d) || (c - 32 =? d) then n ← m_nocase lit text; Some (S n) else None
  | _, _ => None
  end.

(** Length of the longest run, [[:digit:]]* and [[:space:]]*, src/json_load.l:24-29. *)
Fixpoint run (p : Z -> bool) (text : list Z) : nat :=
  match text with
  | c :: t => if p c then S (run p t) else 0%nat
  | [] => 0%nat
  end.

(** [+-]?, src/json_load.l:26. *)
Definition m_sign (text : list Z) : nat :=
  match text with c :: _ => if (c =? 43) || (c =? 45) then 1%nat else 0%nat | [] => 0%nat end.

(** INT_NUMBER, src/json_load.l:26. *)
Definition m_int (text : list Z) : option nat :=
  let s := m_sign text in
  match run isdigit (drop s text) with O => None | n => Some (s + n)%nat end.

(** FLOAT_NAN, FLOAT_INF, src/json_load.l:27-28. *)
Definition m_word (w text : list Z) : option nat :=
  let s := m_sign text in
  n ← m_nocase w (drop s text); Some (s + n)%nat.

(** The number of FLOAT_NUMBER, src/json_load.l:29: both options are taken when they
    match, the first one has no shorter match with a longer total. *)
Definition m_decimal (text : list Z) : option nat :=
  n ← m_int text;
  let t := drop n text in
  let f := match t with 46 :: t' => S (run isdigit t') | _ => 0%nat end in
  let t := drop f t in
  let e := match t with
           | c :: t' => if (c =? 101) || (c =? 69)
                        then match m_int t' with Some k => S k | None => 0%nat end else 0%nat
           | [] => 0%nat
           end in
  Some (n + f + e)%nat.

(** FLOAT_NUMBER, src/json_load.l:29. *)
Definition m_float (text : list Z) : option nat :=
  match m_word [110; 97; 110] text with
  | Some n => Some n
  | None =>
    match m_word [105; 110; 102] text with
    | Some n => Some n
    | None => m_decimal text
    end
  end.

(** The string rule, src/json_load.l:39 (Quote.v has the part after the quote). *)
Definition m_string (text : list Z) : option nat :=
  match text with
  | 34 :: t => r ← lex_literal 34 t; Some (length r.1 + 2)%nat
  | _ => None
  end.

(** WS, src/json_load.l:24. *)
Definition m_space (text : list Z) : option nat :=
  match run isspace text with O => None | n => Some n end.

(** The dot, src/json_load.l:52. *)
Definition m_any (text : list Z) : option nat :=
  match text with c :: _ => if c =? 10 then None else Some 1%nat | [] => None end.

(** vt_int is mr_intmax_t, src/mr_protos.h:514: the unsigned result of
    mr_strtouintmax is converted, src/json_load.l:36. *)
Definition to_signed (v : Z) : Z := if v <? 2 ^ 127 then v else v - 2 ^ 128.

(** The action of INT_NUMBER, src/json_load.l:36; yytext is terminated by 0. *)
Definition int_token (txt : list Z) : option (option token) :=
  r ← strtouintmax (txt ++ [0]) 0; Some (Some (TNum (LInt (to_signed r.1)))).

(** The rules in their order, src/json_load.l:32-52: the match and the action on
    yytext.  [Some None] is no token, [None] undefined behaviour. *)
Definition json_rules : list ((list Z -> option nat) * (list Z -> option (option token))) :=
  [ (m_lit txt_null, fun _ => Some (Some TNull));
    (m_lit txt_false, fun _ => Some (Some (TNum (LInt 0))));
    (m_lit txt_true, fun _ => Some (Some (TNum (LInt 1))));
    (m_int, int_token);
    (m_float, fun txt => Some (Some (TNum (LFloat txt))));
    (m_string, fun txt => Some (Some (TStr (take (length txt - 2) (drop 1 txt)))));
    (m_space, fun _ => Some None);
    (m_lit [58], fun _ => Some (Some TColon));
    (m_lit [123], fun _ => Some (Some TLBrace));
    (m_lit [125], fun _ => Some (Some TRBrace));
    (m_lit [91], fun _ => Some (Some TLBracket));
    (m_lit [93], fun _ => Some (Some TRBracket));
    (m_lit [44], fun _ => Some (Some TComma));
    (m_any, fun _ => Some (Some TErr)) ].

Section Flex.
  Context {T : Type}.
  (** The rule flex selects: the longest match, the first one of these.  Generated
      code of src/json_load.l:30-54, as documented by flex. *)
  Fixpoint select (rules : list ((list Z -> option nat) * (list Z -> option T))) (text : list Z)
    (best : option (nat * (list Z -> option T))) : option (nat * (list Z -> option T)) :=
    match rules with
    | [] => best
    | (m, act) :: rules =>
      let best := match m text, best with
                  | Some n, None => Some (n, act)
                  | Some n, Some (n', _) => if Nat.ltb n' n then Some (n, act) else best
                  | None, _ => best
                  end in
      select rules text best
    end.
End Flex.

(** The calls of yylex until the end of the text (src/json_load.l:30-54, called by the
    parser): the tokens.  No matching rule means the default action of flex, which
    no text needs here; it is [None], like a match of nothing. *)
Fixpoint lex {T : Type} (rules : list ((list Z -> option nat) * (list Z -> option (option T))))
  (fuel : nat) (text : list Z) : option (list T) :=
  match text with
  | [] => Some []
  | _ :: _ =>
    match fuel with
    | O => None
    | S fuel =>
      r ← select rules text None;
      let '(n, act) := (r : nat * (list Z -> option (option T))) in
      if Nat.eqb n 0 then None else
      t ← act (take n text);
      l ← lex rules fuel (drop n text);
      Some (match t with Some t => t :: l | None => l end)
    end
  end.

(** The whole text; every match takes a character, so its length is enough fuel.
    src/json_load.l:30-54. *)
Definition json_lex (text : list Z) : option (list token) := lex json_rules (length text) text.

(** * Reading: the grammar *)

(** The members of [mr_ptrdes_t] set by the parser besides the links:
    value_type with load_params, the flag MR_IS_NULL, and the name of the field
    descriptor fdp (src/json_load.y:125-145, 163). *)
Record pinfo := PInfo { p_val : lval; p_null : bool; p_name : option (list Z) }.

(** A cleared descriptor, src/metaresc.c:620. *)
Definition pinfo0 : pinfo := PInfo LNone false None.

(** src/json_load.y:125-132, 137: a value. *)
Definition set_val (v : lval) (d : pinfo) : pinfo := PInfo v (p_null d) (p_name d).
(** src/json_load.y:143-145. *)
Definition set_null (d : pinfo) : pinfo := PInfo (LInt 0) true (p_name d).
(** src/json_load.y:163. *)
Definition set_name (nm : list Z) (d : pinfo) : pinfo := PInfo (p_val d) (p_null d) (Some nm).

(** The value of a string, src/json_load.y:114-134: unquoted into a terminated
    buffer when there is a backslash, a slice of the text otherwise.
    Simplification: of the text after the content only the closing quote is given
    to the unquoting; it stops the scan of any escape. *)
Definition string_value (content : list Z) : option lval :=
  if existsb (Z.eqb 92) content
  then r ← unquote_loop JSON (S (length content)) (content ++ [34]) (length content) 0; Some (LStr (c_string r))
  else Some (LSub content).

(** push_node, src/json_load.y:103-111. *)
Definition json_push (s : lst pinfo) : option (lst pinfo) :=
  s ← lpush pinfo0 s; lset_node s (l_cur s) (fun n => set_pub_idx n (l_cur s)).

(** The action of member, src/json_load.y:153-169: name the last child.  [known]
    tells whether mr_get_any_fd_by_name finds the name. *)
Definition name_last (known : list Z -> bool) (nm : list Z) (s : lst pinfo) : option (lst pinfo) :=
  r ← llast s;
  let '(idx, s) := (r : nat * lst pinfo) in
  if Nat.eqb idx 0 then None
  else if known nm then lset_info s idx (set_name nm) else None.

(** Nonterminals, src/json_load.y:93-174. *)
Inductive nt := Element | Value | Object | Members | Member | Array | Elements.

Section Grammar.
  Context (known : list Z -> bool).

  (** The grammar with its actions, rule by rule, src/json_load.y:93-174:
      [derives nt ts s ts' s'] when [ts] is a phrase of the nonterminal followed by
      [ts'], and the actions of the phrase, in the order in which bison executes
      them, change the state [s] to [s'].  An action that fails (YYERROR) has no
      derivation. *)
  Inductive derives : nt -> list token -> lst pinfo -> list token -> lst pinfo -> Prop :=
    (* 95 *)
    | D_element ts s s1 ts' s2 s3 : json_push s = Some s1 -> derives Value ts s1 ts' s2 -> lpop s2 = Some s3 ->
        derives Element ts s ts' s3
    (* 113 *)
    | D_value_object ts s ts' s' : derives Object ts s ts' s' -> derives Value ts s ts' s'
    | D_value_array ts s ts' s' : derives Array ts s ts' s' -> derives Value ts s ts' s'
    (* 114-134 *)
    | D_value_string c v ts s s' : string_value c = Some v -> lset_info s (l_cur s) (set_val v) = Some s' ->
        derives Value (TStr c :: ts) s ts s'
    (* 135-140 *)
    | D_value_number v ts s s' : lset_info s (l_cur s) (set_val v) = Some s' ->
        derives Value (TNum v :: ts) s ts s'
    (* 141-146 *)
    | D_value_null ts s s' : lset_info s (l_cur s) set_null = Some s' ->
        derives Value (TNull :: ts) s ts s'
    (* 148-149 *)
    | D_object_empty ts s : derives Object (TLBrace :: TRBrace :: ts) s ts s
    | D_object ts s ts' s' : derives Members ts s (TRBrace :: ts') s' -> derives Object (TLBrace :: ts) s ts' s'
    (* 151 *)
    | D_members_one ts s ts' s' : derives Member ts s ts' s' -> derives Members ts s ts' s'
    | D_members ts s ts1 s1 ts' s' : derives Member ts s (TComma :: ts1) s1 -> derives Members ts1 s1 ts' s' ->
        derives Members ts s ts' s'
    (* 153-169 *)
    | D_member nm ts s ts' s1 s' : derives Element ts s ts' s1 -> name_last known nm s1 = Some s' ->
        derives Member (TStr nm :: TColon :: ts) s ts' s'
    (* 171-172 *)
    | D_array_empty ts s : derives Array (TLBracket :: TRBracket :: ts) s ts s
    | D_array ts s ts' s' : derives Elements ts s (TRBracket :: ts') s' -> derives Array (TLBracket :: ts) s ts' s'
    (* 174 *)
    | D_elements_one ts s ts' s' : derives Element ts s ts' s' -> derives Elements ts s ts' s'
    | D_elements ts s ts1 s1 ts' s' : derives Element ts s (TComma :: ts1) s1 -> derives Elements ts1 s1 ts' s' ->
        derives Elements ts s ts' s'.

  (** mr_json_load, src/json_load.y:89-93, 178 and src/lexer.h:85-104: the whole text is a phrase of the
      start symbol; bison is trusted to accept exactly these texts and to run the
      actions of the derivation. *)
  Definition json_load (text : list Z) (s : lst pinfo) : Prop :=
    exists ts, json_lex text = Some ts /\ derives Element ts (lstart pinfo0) [] s.
End Grammar.
