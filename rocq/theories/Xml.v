(** Model of the XML1 format as a whole: mr_xml1_save (src/xml_save.c:248-372)
    printing a node table, the lexer (src/xml1_load.l) and the grammar with its
    actions (src/xml1_load.y).  The text is a list of characters 0..255.  Not
    modelled: growth of the output (RArray.v), failing allocations, positions for
    messages, the format XML2 with libxml2 (ReadXml.v has its reader). *)
From Verif Require Import Base Ptrs NumStr Enum Quote XmlQuote Value Parse Json Cinit Scm.
Local Open Scope Z_scope.

(** * Writing *)

(** What the handler of a node prints, by [mr_type] (table src/xml_save.c:212-246).
    [XText] is a string or an array of characters.  [XPlain] carries a text printed
    as it is: a floating point or complex number (src/mr_stringify.c:39-45, 92-118), an
    enumeration, a bitmask or the name of a function (src/xml_save.c:152-182, 203-204;
    Enum.v models the names).  Integers and bit-fields of integer type are [XInt] with the
    bytes as a number (Enum.v).  [XAddr] is a function without a name. *)
Inductive xkind :=
  | XNothing                      (* void, structures, arrays, pointers, unions *)
  | XBool (b : bool)
  | XInt (t : ity) (data : Z)
  | XText (s : list Z)
  | XChar (c : Z)
  | XPlain (txt : list Z)
  | XAddr (addr : Z).

(** The members of [mr_ptrdes_t] used here in addition to the links of Ptrs.v; the name
    is that of the field descriptor, if there is one.  Simplification: of the two
    flags for references one is set, as mr_save does.  src/xml_save.c:266-287. *)
Record xinfo := XInfo { x_kind : xkind; x_null : bool; x_cref : bool; x_name : option (list Z) }.

(** MR_XML1_DOCUMENT_HEADER, src/xml_save.c:16. *)
Definition txt_header : list Z :=
  [60; 63; 120; 109; 108; 32; 118; 101; 114; 115; 105; 111; 110; 61; 34; 49; 46; 48; 34; 63; 62].
(** MR_DEFAULT_NODE_NAME, src/metaresc.h:107. *)
Definition txt_entity : list Z := [101; 110; 116; 105; 116; 121].
(** MR_ISNULL, src/metaresc.h:108. *)
Definition txt_isnull : list Z := [105; 115; 110; 117; 108; 108].
(** The name of a tag, src/xml_save.c:266 and 322. *)
Definition tag_name (d : xinfo) : list Z := default txt_entity (x_name d).

(** The context: the text so far, and [res.data.intptr] of the nodes printed,
    src/xml_save.c:264, 305. *)
Definition xctx : Type := list Z * list (nat * bool).
(** [res] of node [i], src/xml_save.c:318; 0 when nothing was stored (264). *)
Fixpoint get_flag (l : list (nat * bool)) (i : nat) : bool :=
  match l with
  | [] => false
  | (j, r) :: l => if Nat.eqb i j then r else get_flag l i
  end.

Section Save.
  Context (isprint : Z -> bool) (wrapv : bool) (buf : list Z) (js : list xinfo).

  (** The handlers of xml_ra_printf_tbl, src/xml_save.c:137-246. *)
  Definition xml_handler (k : xkind) : option (list Z) :=
    match k with
    | XNothing => Some []
    | XBool b => Some (if b then txt_true else txt_false)
    | XInt t data => print_number wrapv buf t data
    | XText s => Some (xml_quote isprint s)
    | XChar c => Some (xml_quote_char isprint c)
    | XPlain txt => Some txt
    | XAddr addr => Some ([48; 120] ++ hex_digits 16 addr)
    end.

  (** MR_XML1_ATTR_CHARP, src/xml_save.c:21. *)
  Definition xml_attr (name v : list Z) : list Z := 32 :: name ++ [61; 34] ++ v ++ [34].
  (** MR_XML1_ATTR_INT, src/xml_save.c:22. *)
  Definition xml_attr_int (name : list Z) (v : nat) : option (list Z) :=
    num ← print_number wrapv buf U32 (Z.of_nat v); Some (xml_attr name num).

  (** MR_XML1_INDENT_TEMPLATE, src/xml_save.c:19, used at 267-268 and 315. *)
  Definition xml_line (level : Z) : list Z := 10 :: spaces (indent level).

  (** xml1_pre_print_node, src/xml_save.c:248-309. *)
  Definition xml_pre (ns : list node) (c : xctx) (i : nat) (level : Z) : option xctx :=
    n ← rd ns i; d ← rd js i;
    (* 266-269 *)
    let txt := c.1 ++ xml_line level ++ 60 :: tag_name d in
    (* 271-277 *)
    ref ← (if is_ref n
           then m ← rd ns (first_child n); xml_attr_int (if x_cref d then txt_ref_content else txt_ref) (pub_idx m)
           else Some []);
    (* 279-281 *)
    idx ← (if referenced n then xml_attr_int txt_ref_idx (pub_idx n) else Some []);
    (* 283-285 *)
    let txt := txt ++ ref ++ idx ++ (if x_null d then xml_attr txt_isnull txt_true else []) in
    (* 287-303 *)
    if x_null d || is_ref n then Some (txt ++ [47; 62], (i, true) :: c.2)
    else
      h ← xml_handler (x_kind d);
      if Nat.eqb (first_child n) 0 && Nat.eqb (length h) 0 then Some (txt ++ [47; 62], (i, true) :: c.2)
      else Some (txt ++ 62 :: h, (i, false) :: c.2).

  (** xml1_post_print_node, src/xml_save.c:311-330. *)
  Definition xml_post (ns : list node) (c : xctx) (i : nat) (level : Z) : option xctx :=
    n ← rd ns i; d ← rd js i;
    let txt := if negb (Nat.eqb (first_child n) 0) && negb (is_ref n) then c.1 ++ xml_line level else c.1 in
    Some (if get_flag c.2 i then txt else txt ++ [60; 47] ++ tag_name d ++ [62], c.2).

  (** xml1_print_node, src/xml_save.c:332-346. *)
  Definition xml_print_node (ns : list node) (c : xctx) (i : nat) (level : Z) (o : order) :
    option (bool * list node * xctx) :=
    c' ← match o with PRE => xml_pre ns c i level | POST => xml_post ns c i level end;
    Some (true, ns, c').

  (** mr_xml1_save, src/xml_save.c:353-372. *)
  Definition xml1_save (fuel : nat) (ns : list node) : option (list Z) :=
    match dfs xml_print_node fuel ns (txt_header, []) 1 with
    | Done _ _ c => Some (c.1 ++ [10])
    | _ => None
    end.
End Save.

(** * Reading: the lexer *)

(** The tokens, src/xml1_load.y:53-54; a value of a property is the text between the
    quotes, a tag its name, the end of a tag the text after it. *)
Inductive xtok :=
  | XtWs | XtId (s : list Z) | XtAssign | XtVal (s : list Z) | XtDocOpen | XtDocClose
  | XtOpen (name : list Z) | XtClose (name : list Z) | XtEmpty (after : list Z) | XtContent (c : list Z) | XtErr.

(** ID, src/xml1_load.l:23. *)
Definition m_xid (text : list Z) : option nat :=
  n ← m_id text;
  match drop n text with
  | 58 :: t => match m_id t with Some k => Some (n + S k)%nat | None => Some n end
  | _ => Some n
  end.
(** [[:space:]]*"="[[:space:]]*, src/xml1_load.l:34. *)
Definition m_xassign (text : list Z) : option nat := m_seq (m_ws (m_lit [61])) m_spaces text.
(** The value of a property, src/xml1_load.l:36. *)
Definition m_xvalue (text : list Z) : option nat :=
  match text with
  | 34 :: t => let n := run (fun c => negb (c =? 34)) t in
               match drop n t with 34 :: _ => Some (2 + n)%nat | _ => None end
  | _ => None
  end.
(** [^<]*, src/xml1_load.l:43, 58, 64. *)
Definition m_nolt (text : list Z) : option nat := Some (run (fun c => negb (c =? 60)) text).
(** The end of a tag [e] after white space with the text up to the next tag,
    src/xml1_load.l:43, 58, 64. *)
Definition m_xend (e text : list Z) : option nat := m_seq (m_ws (m_lit e)) m_nolt text.

(** The rules in their order, src/xml1_load.l:26-70. *)
Definition xml_rules : list ((list Z -> option nat) * (list Z -> option (option xtok))) :=
  [ (m_space, fun _ => Some (Some XtWs));
    (m_xid, fun txt => Some (Some (XtId txt)));
    (m_xassign, fun _ => Some (Some XtAssign));
    (m_xvalue, fun txt => Some (Some (XtVal (take (length txt - 2) (drop 1 txt)))));
    (m_lit [60; 63; 120; 109; 108], fun _ => Some (Some XtDocOpen));
    (m_xend [63; 62], fun _ => Some (Some XtDocClose));
    (m_seq (m_lit [60]) m_xid, fun txt => Some (Some (XtOpen (drop 1 txt))));
    (m_seq (m_lit [60; 47]) m_xid, fun txt => Some (Some (XtClose (drop 2 txt))));
    (m_xend [47; 62], fun txt => Some (Some (XtEmpty (after_char 62 txt))));
    (m_xend [62], fun txt => Some (Some (XtContent (after_char 62 txt))));
    (m_any, fun _ => Some (Some XtErr)) ].

(** The calls of yylex, src/xml1_load.l:24-71. *)
Definition xml_lex (text : list Z) : option (list xtok) := lex xml_rules (length text) text.

(** * Reading: the grammar *)

(** strtoull with base 0, src/xml1_load.y:27: the number and the length of the text
    read, 0 when there is none.  (C17 compilers may not know "0b".) *)
Definition strtoull_end (l : list Z) : Z * nat :=
  let w := run isspace l in
  let t := drop w l in
  let s := m_sign t in
  let neg := match t with 45 :: _ => true | _ => false end in
  let u := drop s t in
  let '(base, p) := match u with
                    | 48 :: x :: y :: _ => if ((x =? 120) || (x =? 88)) && isxdigit y then (16, 2%nat) else (8, 0%nat)
                    | 48 :: _ => (8, 0%nat)
                    | _ => (10, 0%nat)
                    end in
  let ds := take (run (fun c => digit_val c <? base) (drop p u)) (drop p u) in
  if Nat.eqb (length ds) 0 then (0, 0%nat)
  else
    let v := foldl (fun v c => v * base + digit_val c) 0 ds in
    (if v <? 2 ^ 64 then if neg then (- v) mod 2 ^ 64 else v else 2 ^ 64 - 1, (w + s + p + length ds)%nat).

(** load_idx, src/xml1_load.y:23-36: the number converted to mr_idx_t; the text is followed
    by the closing quote.  [None] is MR_FAILURE. *)
Definition load_idx (v : list Z) : option nat :=
  let '(x, k) := strtoull_end (v ++ [34]) in
  if Nat.leb (length v) (k + run isspace (drop k v)) then Some (Z.to_nat (x mod 2 ^ 32)) else None.

(** A tag without its prefix, src/xml1_load.y:77-84, 119-126. *)
Definition local_name (nm : list Z) : list Z := if existsb (Z.eqb 58) nm then after_char 58 nm else nm.

Section Load.
  Context {F : Type} `{FL : Floats F}.

  (** The members of [mr_ptrdes_t] set by the parser are those of Cinit.v without the type
      of a cast.  MR_IS_NULL, src/xml1_load.y:180-181. *)
  Definition cset_isnull (d : @cinfo F) : cinfo := CInfo (c_val d) true (c_cref d) (c_name d) (c_type d).

  (** The action of a property, src/xml1_load.y:170-192.  [None]: YYERROR. *)
  Definition prop_action (id v : list Z) (s : lst cinfo) : option (lst (@cinfo F)) :=
    if decide (id = txt_ref_idx) then i ← load_idx v; lset_node s (l_cur s) (set_idx i)
    else if decide (id = txt_ref) then i ← load_idx v; lset_node s (l_cur s) (set_ref i)
    else if decide (id = txt_ref_content) then
      i ← load_idx v; s ← lset_node s (l_cur s) (set_ref i); lset_info s (l_cur s) cset_cref
    else if decide (id = txt_isnull) then lset_info s (l_cur s) cset_isnull
    else Some s.

  (** The value of a tag with content, src/xml1_load.y:136-153, simplified: of the text
      after the content only the "<" is kept, and a terminator. *)
  Definition xml_value (content : list Z) : option (value F) :=
    if existsb (Z.eqb 38) content
    then r ← xml_loop (S (length content)) (content ++ [60]) (length content) 0; Some (VString (c_string r ++ [0]))
    else Some (VSubstr (content ++ [60; 0]) (length content)).

  Section Grammar.
    (** [known nm] tells whether mr_get_any_fd_by_name finds the name for any type,
        src/xml1_load.y:87, 129. *)
    Context (known : list Z -> bool).

    (** The end of a tag: src/xml1_load.y:68-98 and 110-155 without the value. *)
    Definition close_tag (nm after : list Z) (v : value F) (s : lst cinfo) : option (lst (@cinfo F)) :=
      if forallb isspace after && known (local_name nm)
      then s ← lset_info s (l_cur s) (fun d => cset_val v (cset_name (local_name nm) d)); lpop s
      else None.

    (** Nonterminals, src/xml1_load.y:60-170. *)
    Inductive xnt := NXml | NDocProps | NTag | NNested | NProps.

    (** The grammar with its actions, rule by rule, src/xml1_load.y:60-192, as in
        Json.v; start_tag is lpush. *)
    Inductive xderives : xnt -> list xtok -> lst cinfo -> list xtok -> lst (@cinfo F) -> Prop :=
      (* 60 *)
      | XD_xml ts s ts1 s1 ts' s' : xderives NDocProps ts s (XtDocClose :: ts1) s1 -> xderives NTag ts1 s1 ts' s' ->
          xderives NXml (XtDocOpen :: ts) s ts' s'
      (* 62 *)
      | XD_docprops_empty ts s : xderives NDocProps ts s ts s
      | XD_docprops id v ts s ts' s' : xderives NDocProps ts s ts' s' ->
          xderives NDocProps (XtWs :: XtId id :: XtAssign :: XtVal v :: ts) s ts' s'
      (* 64-99 *)
      | XD_empty nm ts s s1 after ts' s2 s' : lpush cinfo0 s = Some s1 -> xderives NProps ts s1 (XtEmpty after :: ts') s2 ->
          close_tag nm after (VSubstr [0] 0) s2 = Some s' ->
          xderives NTag (XtOpen nm :: ts) s ts' s'
      (* 100-156 *)
      | XD_full nm ts s s1 c ts1 s2 after ts' s3 v s' : lpush cinfo0 s = Some s1 -> xderives NProps ts s1 (XtContent c :: ts1) s2 ->
          xderives NNested ts1 s2 (XtClose nm :: XtContent after :: ts') s3 ->
          xml_value c = Some v -> close_tag nm after v s3 = Some s' ->
          xderives NTag (XtOpen nm :: ts) s ts' s'
      (* 168 *)
      | XD_nested_empty ts s : xderives NNested ts s ts s
      | XD_nested ts s ts1 s1 ts' s' : xderives NTag ts s ts1 s1 -> xderives NNested ts1 s1 ts' s' -> xderives NNested ts s ts' s'
      (* 170-192 *)
      | XD_props_empty ts s : xderives NProps ts s ts s
      | XD_props id v ts s s1 ts' s' : prop_action id v s = Some s1 -> xderives NProps ts s1 ts' s' ->
          xderives NProps (XtWs :: XtId id :: XtAssign :: XtVal v :: ts) s ts' s'.

    (** mr_xml1_load, src/xml1_load.y:58-60, 196 and src/lexer.h:85-104, as json_load. *)
    Definition xml1_load (text : list Z) (s : lst cinfo) : Prop :=
      exists ts, xml_lex text = Some ts /\ xderives NXml ts (lstart cinfo0) [] s.
  End Grammar.
End Load.
