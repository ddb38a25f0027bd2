(** Model of the XML2 format up to libxml2: mr_xml2_save (src/xml_save.c:376-486)
    building a document of libxml2 from a node table, and mr_xml2_load
    (src/xml2_load.c) reading one.  Of libxml2 the functions used are modelled as
    documented; printing and parsing of the document as text are not.  Not modelled:
    growth of the buffer (RArray.v), failing allocations, messages. *)
From Verif Require Import Base Ptrs NumStr Enum Quote XmlQuote Parse Json Cinit Xml.
Local Open Scope Z_scope.

(** xmlNode of libxml2 as used at src/xml_save.c:404-442 and src/xml2_load.c:32-86: an
    element with [_private], its name, properties and children, or any other node
    (text, CDATA, comment and so on; [comment] tells comments) with its content, which
    may be NULL. *)
Inductive xdoc :=
  | XE (priv : nat) (name : list Z) (props : list (list Z * list Z)) (kids : list xdoc)
  | XLeaf (comment : bool) (content : option (list Z)).

(** * libxml2 *)

(** A character reference becomes UTF-8, xmlNodeSetContent as called at
    src/xml_save.c:418; the writer has none above 255. *)
Definition utf8_char (v : Z) : option (list Z) :=
  if v =? 0 then Some [] else if v <? 128 then Some [v]
  else if v <? 2048 then Some [192 + v / 64; 128 + v mod 64] else None.

(** The predefined entities the writer uses (src/xml_save.c:31-34). *)
Definition entity_char (e : list Z) : option Z :=
  if decide (e = [97; 109; 112]) then Some 38
  else if decide (e = [108; 116]) then Some 60
  else if decide (e = [103; 116]) then Some 62
  else if decide (e = [113; 117; 111; 116]) then Some 34
  else None.

(** The text xmlNodeSetContent makes of its argument (src/xml_save.c:417-418): entities
    and character references are replaced.  [None]: something the writer does not
    produce. *)
Fixpoint content_text (fuel : nat) (l : list Z) : option (list Z) :=
  match fuel with
  | O => None
  | S fuel =>
    match l with
    | [] => Some []
    | 38 :: 35 :: 120 :: t =>
      let k := run isxdigit t in
      match drop k t with
      | 59 :: r =>
        c ← utf8_char (foldl (fun v x => v * 16 + digit_val x) 0 (take k t));
        s ← content_text fuel r; Some (c ++ s)
      | _ => None
      end
    | 38 :: t =>
      let k := run (fun c => negb (c =? 59)) t in
      match drop k t with
      | 59 :: r => c ← entity_char (take k t); s ← content_text fuel r; Some (c :: s)
      | _ => None
      end
    | c :: t => s ← content_text fuel t; Some (c :: s)
    end
  end.

(** xmlSetProp, src/xml_save.c:424, 430, 436, 439: replaces or appends. *)
Fixpoint set_prop (ps : list (list Z * list Z)) (nm v : list Z) : list (list Z * list Z) :=
  match ps with
  | [] => [(nm, v)]
  | (nm', v') :: ps => if decide (nm = nm') then (nm, v) :: ps else (nm', v') :: set_prop ps nm v
  end.

(** xmlGetProp, src/xml2_load.c:10, 49. *)
Fixpoint get_prop (ps : list (list Z * list Z)) (nm : list Z) : option (list Z) :=
  match ps with
  | [] => None
  | (nm', v) :: ps => if decide (nm = nm') then Some v else get_prop ps nm
  end.

(** xmlAddChild to the element kept in [res] of node [par], src/xml_save.c:442: it is
    the element with this [_private] (src/xml_save.c:413-415). *)
Fixpoint add_elem (par : nat) (new x : xdoc) : xdoc :=
  match x with
  | XE i nm ps ks =>
    let ks := (fix go ks := match ks with [] => [] | k :: ks => add_elem par new k :: go ks end) ks in
    XE i nm ps (if Nat.eqb i par then ks ++ [new] else ks)
  | XLeaf _ _ => x
  end.

(** * Writing *)

Section Save.
  Context (isprint : Z -> bool) (wrapv : bool) (buf : list Z) (js : list xinfo).

  (** sprintf with "%d" of a number converted to uint32_t, src/xml_save.c:423, 429, 435. *)
  Definition prop_number (v : nat) : option (list Z) := print_number wrapv buf I32 (Z.of_nat v).

  (** xml2_save_node, src/xml_save.c:376-445, at MR_DFS_PRE_ORDER.  The context are the
      elements without parent made so far; the handlers are those of Xml.v. *)
  Definition xml2_pre (ns : list node) (c : list xdoc) (i : nat) : option (list xdoc) :=
    n ← rd ns i; d ← rd js i;
    (* 397-402 *)
    h ← (if x_null d || is_ref n then Some [] else xml_handler isprint wrapv buf (x_kind d));
    (* 417-418 *)
    txt ← (if Nat.eqb (length h) 0 then Some []
           else t ← content_text (S (length h)) h; Some [XLeaf false (Some t)]);
    (* 420-431 *)
    ps ← (if is_ref n
          then m ← rd ns (first_child n); v ← prop_number (pub_idx m);
               Some (set_prop [] (if x_cref d then txt_ref_content else txt_ref) v)
          else Some []);
    (* 432-437 *)
    ps ← (if referenced n then v ← prop_number (pub_idx n); Some (set_prop ps txt_ref_idx v) else Some ps);
    (* 438-439, 404-415 *)
    let ps := if x_null d then set_prop ps txt_isnull txt_true else ps in
    let new := XE i (tag_name d) ps txt in
    (* 441-442 *)
    if Nat.eqb (parent n) 0 then Some (c ++ [new]) else Some (map (add_elem (parent n) new) c).

  (** xml2_save_node, src/xml_save.c:376-445. *)
  Definition xml2_save_node (ns : list node) (c : list xdoc) (i : nat) (level : Z) (o : order) :
    option (bool * list node * list xdoc) :=
    match o with
    | PRE => c ← xml2_pre ns c i; Some (true, ns, c)
    | POST => Some (true, ns, c)
    end.

  (** The element made for node 1, src/xml_save.c:477-479. *)
  Fixpoint root_elem (c : list xdoc) : option xdoc :=
    match c with
    | XE 1 nm ps ks :: _ => Some (XE 1 nm ps ks)
    | _ :: c => root_elem c
    | [] => None
    end.

  (** mr_xml2_save, src/xml_save.c:452-486: the root of the document.  Simplification: node
      1 has no parent. *)
  Definition xml2_save (fuel : nat) (ns : list node) : option xdoc :=
    match dfs xml2_save_node fuel ns [] 1 with
    | Done _ _ c => root_elem c
    | _ => None
    end.
End Save.

(** * Reading *)

(** The members of [mr_ptrdes_t] set by mr_xml2_load beside the links: the name, the
    text (MR_VT_SUBSTR), MR_IS_NULL and MR_IS_CONTENT_REFERENCE, src/xml2_load.c:46-71. *)
Record winfo := WInfo { w_name : option (list Z); w_text : list Z; w_null : bool; w_cref : bool }.

(** A cleared descriptor, src/metaresc.c:620. *)
Definition winfo0 : winfo := WInfo None [] false false.

(** The number of a property, mr_load_xml_property, src/xml2_load.c:13-24: converted to
    mr_idx_t; [None] is MR_FAILURE. *)
Definition prop_value (v : list Z) : option nat :=
  r ← strtouintmax (v ++ [0]) 0;
  if forallb isspace (drop r.2 v) then Some (Z.to_nat (r.1 mod 2 ^ 32)) else None.

(** mr_load_xml_property, src/xml2_load.c:7-27, for node [idx]: [set] stores number and
    flag. *)
Definition load_property (ps : list (list Z * list Z)) (nm : list Z) (set : nat -> node -> node) (idx : nat) (ns : list node) :
  option (list node) :=
  match get_prop ps nm with
  | Some v => i ← prop_value v; upd ns idx (set i)
  | None => Some ns
  end.

(** The content of an element, src/xml2_load.c:56-60: that of the first child which has
    one; XML_GET_CONTENT is NULL for elements. *)
Fixpoint elem_content (ks : list xdoc) : list Z :=
  match ks with
  | XLeaf _ (Some c) :: _ => c
  | _ :: ks => elem_content ks
  | [] => []
  end.

Section Load.
  (** [known nm] tells whether mr_get_any_fd_by_name finds the name for any type,
      src/xml2_load.c:62. *)
  Context (known : list Z -> bool).

  (** mr_xml2_load, src/xml2_load.c:29-95.  [None]: it returns MR_NULL_IDX (or undefined
      behaviour). *)
  Fixpoint xml2_load (x : xdoc) (p : ptrs) (inf : list winfo) : option (nat * ptrs * list winfo) :=
    match x with
    | XLeaf _ _ => None
    | XE _ nm ps ks =>
      (* 35-37 *)
      let '(idx, p) := add_ptr p in
      if Nat.eqb idx 0 then None else
      (* 40-47 *)
      ns ← load_property ps txt_ref_idx set_idx idx (ra p);
      ns ← load_property ps txt_ref set_ref idx ns;
      ns ← load_property ps txt_ref_content set_ref idx ns;
      let cref := match get_prop ps txt_ref_content with Some _ => true | None => false end in
      (* 49-54 *)
      let null := match get_prop ps txt_isnull with Some _ => true | None => false end in
      (* 62-67 *)
      if negb (known nm) then None else
      (* 56-60, 69-71 *)
      let inf := inf ++ [WInfo (Some nm) (elem_content ks) null cref] in
      (* 74-86 *)
      (fix loop ks p inf :=
         match ks with
         | [] => Some (idx, p, inf)
         | XLeaf _ _ :: ks => loop ks p inf
         | x :: ks =>
           n ← rd (ra p) idx;
           if is_ref n then None else
           r ← xml2_load x p inf;
           p ← add_child r.1.2 idx r.1.1;
           loop ks p r.2
         end) ks (Ptrs ns (cache p)) inf
    end.

  (** MR_LOAD_XML2_NODE up to mr_load, src/metaresc.h:1227-1252: a list with the NULL node. *)
  Definition xml2_load_doc (x : xdoc) : option (ptrs * list winfo) :=
    r ← xml2_load x ptrs_init [winfo0]; Some (r.1.2, r.2).
End Load.
