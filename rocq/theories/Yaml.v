(** Model of the YAML format up to libyaml: mr_yaml_save (src/yaml_save.c) as the
    list of events given to the emitter, and mr_yaml_load (src/yaml_load.c) as a
    reader of the events the parser delivers.  libyaml itself (texts from events and
    back) is not modelled; of an event only what the two files set or look at is
    kept.  Not modelled: growth of the output (RArray.v), failing allocations,
    messages. *)
From Verif Require Import Base Ptrs NumStr Enum Quote Parse Json Cinit Xml.
Local Open Scope Z_scope.

(** [yaml_event_t] of libyaml as used in src/yaml_load.c:116-205 and
    src/yaml_save.c:52-83, 104, 176, 190, 210, 224, 446-470: an anchor may be
    missing; tags and styles are left out. *)
Inductive yev :=
  | EStreamStart | EStreamEnd | EDocStart | EDocEnd
  | EScalar (anchor : option (list Z)) (v : list Z)
  | EMap (anchor : option (list Z)) | EMapEnd
  | ESeq (anchor : option (list Z)) | ESeqEnd
  | EAlias (a : list Z).

(** * Writing *)

(** What the handlers of a node look at, by [mr_type] (tables
    src/yaml_save.c:311-381).  [YPrinted] carries the text printed by functions not
    modelled here, [mr_ra_printf_*] of floating point and complex numbers,
    enumerators and bit-fields of enumerations (src/mr_stringify.c); [YFunc] the name
    of a function or its address (src/yaml_save.c:158-168).  [YUnion b]: unions, [b]
    if the type is mr_ptr_t. *)
Inductive ykind :=
  | YVoid                         (* MR_TYPE_NONE, MR_TYPE_VOID *)
  | YBool (b : bool)
  | YInt (t : ity) (data : Z)
  | YPrinted (txt : list Z)
  | YFunc (txt : list Z)
  | YChar (c : Z)
  | YStr (s : list Z)             (* string (NULL is empty) and array of characters *)
  | YStruct
  | YUnion (ptr_t : bool)
  | YAnon                         (* MR_TYPE_ANON_UNION *)
  | YArray
  | YPointer.

(** The members of [mr_ptrdes_t] used here in addition to the links of Ptrs.v, as in
    Json.v: src/yaml_save.c:49, 52, 68, 75, 239-244. *)
Record yinfo := YInfo { y_kind : ykind; y_unnamed : bool; y_null : bool; y_cref : bool; y_name : option (list Z) }.

(** MR_YAML_ANCHOR_TMPLT and MR_YAML_REF_ANCHOR_TMPLT up to the number,
    src/metaresc.h:93, 98-99. *)
Definition txt_anchor : list Z := txt_ref_idx ++ [95].
(** MR_YAML_REF_ANCHOR_CONTENT_TMPLT up to the number, src/metaresc.h:96, 100. *)
Definition txt_anchor_content : list Z := txt_ref_content ++ [95].

(** The characters printed for a character, src/yaml_save.c:119-132; [c] is the
    unsigned value. *)
Definition char_text (c : Z) : list Z :=
  if (32 <=? c) && (c <? 128) then [c] else [48; 120; hex_char (c / 16); hex_char (c mod 16)].

(** A string as strlen sees it is the text itself in [YStr]; for arrays of characters
    src/yaml_save.c:135-142 copies up to the terminator or the end.  The text of a
    handler, [None] when the handler fails (src/yaml_save.c:288-289).
    src/yaml_save.c:112-168, 281-309. *)
Definition scalar_text (wrapv : bool) (buf : list Z) (k : ykind) : option (list Z) :=
  match k with
  | YBool b => Some (if b then txt_true else txt_false)
  | YInt t data => print_number wrapv buf t data
  | YPrinted txt => match txt with [] => None | _ => Some txt end
  | YFunc txt => Some txt
  | YChar c => Some (char_text c)
  | YStr s => Some s
  | _ => None
  end.

Section Save.
  (** [utf8 s]: libyaml accepts the text of a scalar (yaml_scalar_event_initialize
      fails otherwise, src/yaml_save.c:53-60, 104-108); printing of numbers as in
      Json.v; the other members of the descriptors. *)
  Context (utf8 : list Z -> bool) (wrapv : bool) (buf : list Z) (js : list yinfo).

  (** [sprintf] of the templates with "%u" of a 32 bit number, src/yaml_save.c:39, 71-73. *)
  Definition anchor_text (prefix : list Z) (v : nat) : option (list Z) :=
    num ← print_number wrapv buf U32 (Z.of_nat v); Some (prefix ++ num).

  (** yaml_get_anchor, src/yaml_save.c:33-41. *)
  Definition get_anchor (n : node) : option (option (list Z)) :=
    if referenced n then a ← anchor_text txt_anchor (pub_idx n); Some (Some a) else Some None.

  (** The result of a handler: the status and the events given to the emitter, which
      accepts them.  [None] is undefined behaviour.  src/yaml_save.c:9. *)
  Definition emitted : Type := option (bool * list yev).

  (** yaml_emit_field, src/yaml_save.c:43-91: [unnamed] is the flag MR_IS_UNNAMED at
      this moment. *)
  Definition emit_field (ns : list node) (n : node) (d : yinfo) (unnamed : bool) (ev : yev) : emitted :=
    let name := default txt_entity (y_name d) in
    if negb unnamed && negb (utf8 name) then Some (false, []) else
    let names := if unnamed then [] else [EScalar None name] in
    if is_ref n && (first_child n <? length ns)%nat then
      m ← rd ns (first_child n);
      a ← anchor_text (if y_cref d then txt_anchor_content else txt_anchor) (pub_idx m);
      Some (true, names ++ [EAlias a])
    else if y_null d then Some (true, names ++ [EAlias txt_isnull])
    else Some (true, names ++ [ev]).

  (** yaml_emit_string, src/yaml_save.c:93-109. *)
  Definition emit_string (ns : list node) (n : node) (d : yinfo) (unnamed : bool) (v : list Z) : emitted :=
    a ← get_anchor n;
    if utf8 v then emit_field ns n d unnamed (EScalar a v) else Some (false, []).

  (** yaml_pre_save_struct, src/yaml_save.c:170-182. *)
  Definition pre_struct (ns : list node) (n : node) (d : yinfo) (unnamed : bool) : emitted :=
    a ← get_anchor n; emit_field ns n d unnamed (EMap a).
  (** yaml_pre_save_array, src/yaml_save.c:198-216; the style is left out. *)
  Definition pre_array (ns : list node) (n : node) (d : yinfo) (unnamed : bool) : emitted :=
    a ← get_anchor n; emit_field ns n d unnamed (ESeq a).

  (** The handlers of yaml_pre_save_tbl, src/yaml_save.c:111-345: the flag
      MR_IS_UNNAMED is cleared for anonymous unions (262) and for pointers in a union
      of type mr_ptr_t (236-241); it is not looked at afterwards. *)
  Definition yaml_pre (ns : list node) (i : nat) : emitted :=
    n ← rd ns i; d ← rd js i;
    match y_kind d with
    | YVoid => Some (true, [])
    | YStruct | YUnion _ => pre_struct ns n d (y_unnamed d)
    | YAnon => pre_struct ns n d false
    | YArray => pre_array ns n d (y_unnamed d)
    | YPointer =>
        unnamed ← (if Nat.eqb (parent n) 0 then Some (y_unnamed d)
                   else pd ← rd js (parent n);
                        Some (match y_kind pd with YUnion true => false | _ => y_unnamed d end));
        if y_null d || is_ref n then emit_string ns n d unnamed [] else pre_array ns n d unnamed
    | k => match scalar_text wrapv buf k with
           | Some v => emit_string ns n d (y_unnamed d) v
           | None => Some (false, [])
           end
    end.

  (** The handlers of yaml_post_save_tbl, src/yaml_save.c:184-196, 218-230, 249-257, 347-381. *)
  Definition yaml_post (ns : list node) (i : nat) : emitted :=
    n ← rd ns i; d ← rd js i;
    match y_kind d with
    | YStruct | YUnion _ | YAnon => Some (true, [EMapEnd])
    | YArray => Some (true, [ESeqEnd])
    | YPointer => Some (true, if y_null d || is_ref n then [] else [ESeqEnd])
    | _ => Some (true, [])
    end.

  (** yaml_print_node, src/yaml_save.c:383-409. *)
  Definition yaml_print_node (ns : list node) (c : list yev) (i : nat) (level : Z) (o : order) :
    option (bool * list node * list yev) :=
    r ← match o with PRE => yaml_pre ns i | POST => yaml_post ns i end;
    Some (r.1, ns, c ++ r.2).

  (** mr_yaml_save, src/yaml_save.c:416-498: the events; [Some None] is NULL. *)
  Definition yaml_save (fuel : nat) (ns : list node) : option (option (list yev)) :=
    match dfs yaml_print_node fuel ns [EStreamStart; EDocStart] 1 with
    | Done true _ c => Some (Some (c ++ [EDocEnd; EStreamEnd]))
    | Done false _ _ => Some None
    | _ => None
    end.
End Save.

(** * Reading *)

(** The members of [mr_ptrdes_t] set by the reader: the text of MR_VT_STRING, the
    flags MR_IS_NULL, MR_IS_UNNAMED, MR_IS_CONTENT_REFERENCE and the name of the field
    found, src/yaml_load.c:49-77. *)
Record yread := YRead { r_val : option (list Z); r_null : bool; r_unnamed : bool; r_cref : bool; r_name : option (list Z) }.
(** A cleared descriptor, src/metaresc.c:620. *)
Definition yread0 : yread := YRead None false false false None.

(** [sscanf] of a text with a template ending in "%u", src/yaml_load.c:63, 68, 83: the
    characters before the number, then blanks, a sign and decimal digits (glibc:
    strtoul, converted to 32 bits); what follows is ignored. *)
Definition scan_template (prefix txt : list Z) : option nat :=
  if decide (take (length prefix) txt = prefix) then
    let l := drop (length prefix) txt in
    let t := drop (run isspace l) l in
    let u := drop (m_sign t) t in
    let neg := match t with 45 :: _ => true | _ => false end in
    let ds := take (run (fun c => (48 <=? c) && (c <=? 57)) u) u in
    match ds with
    | [] => None
    | _ => let v := foldl (fun v c => v * 10 + (c - 48)) 0 ds in
           let v := if v <? 2 ^ 64 then if neg then (- v) mod 2 ^ 64 else v else 2 ^ 64 - 1 in
           Some (Z.to_nat (v mod 2 ^ 32))
    end
  else None.

(** What an alias sets in a descriptor, src/yaml_load.c:61-79. *)
Definition read_alias (a : list Z) (n : node) (r : yread) : node * yread :=
  match scan_template txt_anchor_content a with
  | Some v => (set_ref v n, YRead (r_val r) (r_null r) (r_unnamed r) true (r_name r))
  | None =>
    match scan_template txt_anchor a with
    | Some v => (set_ref v n, r)
    | None => if decide (a = txt_isnull) then (n, YRead (r_val r) true (r_unnamed r) (r_cref r) (r_name r)) else (n, r)
    end
  end.

(** What an anchor sets, src/yaml_load.c:81-90. *)
Definition read_anchor (a : option (list Z)) (n : node) : node :=
  match a with
  | Some a => match scan_template txt_anchor a with Some v => set_idx v n | None => n end
  | None => n
  end.

(** yaml_add_node, src/yaml_load.c:40-95.  The caller's [parent] is [l_cur]. *)
Definition add_node (name value anchor alias : option (list Z)) (unnamed : bool) (s : lst yread) : option (lst yread) :=
  let cur := l_cur s in
  s ← lpush (YRead value false unnamed false name) s;
  let idx := l_cur s in
  n ← rd (ra (l_ptrs s)) idx; r ← rd (l_info s) idx;
  let '(n, r) := match alias with Some a => read_alias a n r | None => (n, r) end in
  s ← lset_node s idx (fun _ => read_anchor anchor n);
  s ← lset_info s idx (fun _ => r);
  Some (match value, alias with
        | None, None => s
        | _, _ => LSt yread (l_ptrs s) (l_info s) cur
        end).

Section Load.
  (** [known nm] tells whether mr_get_any_fd_by_name finds the name for any type,
      src/yaml_load.c:123. *)
  Context (known : list Z -> bool).

  (** The flag of the current parent, src/yaml_load.c:121, 169, 183; node 0 is the
      top of the document. *)
  Definition cur_unnamed (s : lst yread) : option bool := r ← rd (l_info s) (l_cur s); Some (r_unnamed r).

  (** The end of a mapping or sequence, src/yaml_load.c:164-173, 178-187. *)
  Definition close_node (unnamed : bool) (s : lst yread) : option (lst yread) :=
    if Nat.eqb (l_cur s) 0 then None
    else u ← cur_unnamed s; if Bool.eqb u unnamed then lpop s else None.

  (** The loop over events, src/yaml_load.c:112-209.  [None] is MR_FAILURE (also when
      the parser fails, which ends the list) or undefined behaviour; events after the
      end of the stream are not read. *)
  Fixpoint read_events (evs : list yev) (s : lst yread) : option (lst yread) :=
    match evs with
    | [] => None
    | EScalar a v :: evs =>
        u ← (if Nat.eqb (l_cur s) 0 then Some true else cur_unnamed s);
        if (u : bool) then s ← add_node None (Some v) a None true s; read_events evs s
        else if known v then
          match evs with
          | EScalar a w :: evs => s ← add_node (Some v) (Some w) a None false s; read_events evs s
          | EMap a :: evs => s ← add_node (Some v) None a None false s; read_events evs s
          | ESeq a :: evs => s ← add_node (Some v) None a None true s; read_events evs s
          | EAlias a :: evs => s ← add_node (Some v) None None (Some a) false s; read_events evs s
          | _ => None
          end
        else None
    | EAlias a :: evs => s ← add_node None None None (Some a) true s; read_events evs s
    | EMap a :: evs => s ← add_node None None a None false s; read_events evs s
    | ESeq a :: evs => s ← add_node None None a None true s; read_events evs s
    | EMapEnd :: evs => s ← close_node false s; read_events evs s
    | ESeqEnd :: evs => s ← close_node true s; read_events evs s
    | EStreamEnd :: _ => if Nat.eqb (l_cur s) 0 then Some s else None
    | EStreamStart :: evs | EDocStart :: evs | EDocEnd :: evs =>
        if Nat.eqb (l_cur s) 0 then read_events evs s else None
    end.

  (** The largest number, src/yaml_load.c:11-13. *)
  Definition max_number (ns : list node) : nat := foldr (fun n m => Nat.max (pub_idx n) m) 0%nat (drop 1 ns).

  (** The table of numbered nodes, src/yaml_load.c:15, 19-21: [max_idx + 1] elements, a
      number of 32 bits. *)
  Fixpoint fill_table (ns : list node) (i : nat) (table : list nat) : option (list nat) :=
    match ns with
    | [] => Some table
    | n :: ns => table ← (if Nat.eqb (pub_idx n) 0 then Some table else wr table (pub_idx n) i);
                 fill_table ns (S i) table
    end.

  (** One round of src/yaml_load.c:23-35.  The index of the table is an [int]. *)
  Definition missed_step (mx count : nat) (ns : list node) (table : list nat) (i : nat) :
    option (list node * list nat) :=
    n ← rd ns i;
    if is_ref n then
      let r := first_child n in
      free ← (if Nat.ltb mx r then Some true
              else if Z.of_nat r <? 2 ^ 31 then x ← rd table r; Some (Nat.eqb x 0) else None);
      if (free : bool) && Nat.ltb r count then
        m ← rd ns r;
        if Nat.eqb (pub_idx m) 0 then
          ns ← wr ns r (set_idx r m);
          table ← (if Nat.leb r mx then wr table r r else Some table);
          Some (ns, table)
        else Some (ns, table)
      else Some (ns, table)
    else Some (ns, table).

  (** The rounds for nodes [i], [i + 1], ..., src/yaml_load.c:23-35. *)
  Fixpoint missed_loop (k i mx count : nat) (ns : list node) (table : list nat) : option (list node) :=
    match k with
    | O => Some ns
    | S k => r ← missed_step mx count ns table i; missed_loop k (S i) mx count r.1 r.2
    end.

  (** add_missed_crossrefs, src/yaml_load.c:4-38. *)
  Definition add_missed_crossrefs (ns : list node) : option (list node) :=
    let mx := max_number ns in
    table ← fill_table (drop 1 ns) 1 (replicate (Z.to_nat ((Z.of_nat mx + 1) mod 2 ^ 32)) 0%nat);
    missed_loop (length ns - 1) 1 mx (length ns) ns table.

  (** mr_yaml_load, src/yaml_load.c:97-226: the list of nodes holds the NULL node
      already (src/metaresc.h:1316-1322). *)
  Definition yaml_load (evs : list yev) : option (lst yread) :=
    s ← read_events evs (lstart yread0);
    ns ← add_missed_crossrefs (ra (l_ptrs s));
    Some (LSt yread (Ptrs ns (cache (l_ptrs s))) (l_info s) (l_cur s)).
End Load.
