(** Model of src/mr_load.c: filling typed memory from the tree of nodes built by
    a parser.  Memory is a list of blocks and a log of stores; a store outside
    of a live block, a release of something that is not a block, or the use of
    bytes that are no pointer as a pointer is undefined behaviour ([None]). *)
From Verif Require Import Base.
Local Open Scope Z_scope.

(** * Types *)

(** The classes of [mr_type_t] that the loader treats differently, see the
    handler table src/mr_load.c:804-838.  [Scalar n] is a type of [n] bytes
    listed in [mr_type_size] (src/metaresc.c:1185-1204), also functions and
    bit-fields; [Enum] a MR_TYPE_ENUM; [Struct] also stands for unions and
    anonymous unions, [NamedAnon] is MR_TYPE_NAMED_ANON_UNION, [Void] has the
    dummy handler and [Unsupported] has none. *)
Inductive kind :=
  Scalar (n : Z) | Enum | CharArray | Str | Struct | NamedAnon | Array | Pointer | Void | Unsupported.

(** Comparisons of [mr_type], e.g. src/mr_load.c:75, 76, 904, 912. *)
Definition kind_is (k l : kind) : bool :=
  match k, l with
  | Scalar n, Scalar m => n =? m
  | Enum, Enum | CharArray, CharArray | Str, Str | Struct, Struct | NamedAnon, NamedAnon
  | Array, Array | Pointer, Pointer | Void, Void | Unsupported, Unsupported => true
  | _, _ => false
  end.

(** [mr_stype_t] (src/mr_protos.h:309-324): [mr_type], [mr_type_aux], size,
    extents in use, and the type descriptor, given by its number. *)
Record stype := SType { s_kind : kind; s_aux : kind; s_size : Z; s_dims : list Z; s_td : option nat }.

(** Names are numbers: the loader only compares them.  [unnamed] is the member
    of the same name of [mr_fd_t].
    [mr_fd_t], src/mr_protos.h:358-390. *)
Record fd := Fd { f_name : option N; f_unnamed : bool; f_off : Z; f_ty : stype }.

(** [mr_td_t] (src/mr_protos.h:454-467): type, size and fields in the order of
    declaration. *)
Record td := Td { t_kind : kind; t_size : Z; t_fields : list fd }.

(** * Parsed values *)

(** What a parser leaves in a node ([value_type] and [load_params]).  [VStr
    None] is a NULL vt_string; [VOther] are the types of value that the handlers
    of strings and pointers do not look at.
    [mr_value_type_t] and [mr_load_params_t], src/mr_protos.h:497-529. *)
Inductive value := VInt (z : Z) | VSub (s : list Z) | VStr (s : option (list Z)) | VOther.

(** A node of the parsed tree, [mr_ptrdes_t].  [n_idx] is the position in the
    array of nodes, [n_id] the identifier of the node (member [idx], 0 if
    none), [n_fd] name and type descriptor of member [fdp], [n_ref] the flags
    MR_IS_CONTENT_REFERENCE ([true]) or MR_IS_REFERENCE ([false]) with the
    number stored in [first_child], [n_par] the member [parent].  Simplification: [first_child] and [next]
    are represented by the list of children; a node flagged as reference has
    none.
    [mr_ptrdes_t] as the parsers fill it, src/mr_protos.h:572-597. *)
Inductive node := Node {
  n_idx : nat; n_par : nat; n_id : Z; n_fd : option (option N * option nat);
  n_typed : bool; n_null : bool; n_ref : option (bool * Z); n_val : value;
  n_kids : list node }.

(** * Memory *)

(** Address: number of a block and offset; block 0 is the destination.
    [void * data], src/mr_load.c:849. *)
Definition addr : Type := nat * Z.
(** Address arithmetic as in src/mr_load.c:607, 670, 762. *)
Definition shift (a : addr) (d : Z) : addr := (a.1, a.2 + d).

(** Contents of a pointer variable, src/mr_load.c:99, 709, 752. *)
Inductive ptr := Null | To (a : addr).

(** One store: at an address, a pointer, some text, or the bytes of the scalar
    of the node with the given index.
    The stores of src/mr_load.c:99, 435-446, 709, 752 and of the scalar handlers (src/mr_load.c:152-420). *)
Inductive what := WPtr (p : ptr) | WText (s : list Z) | WScalar (idx : nat) (n : Z).
(** One store of src/mr_load.c:99, 152-470, 709, 752. *)
Record store := Store { st_at : addr; st_what : what }.
(** Size of the object stored to, src/mr_load.c:99, 152-470, 709. *)
Definition width (w : what) : Z :=
  match w with WPtr _ => 8 | WText s => Z.of_nat (length s) | WScalar _ n => n end.

(** An element of [ptrs->ra]: the node, where it was loaded ([data.ptr],
    [mr_type], [mr_type_aux] and [fdp->stype]) and the reference it holds.
    [ptrs->ra[idx]] after src/mr_load.c:882-886, and the reference of src/mr_load.c:456-462, 719-725. *)
Record entry := Entry { e_node : node; e_at : option (addr * stype); e_ref : option (bool * Z) }.

(** The state: size of each block, [None] once released; the stores, latest
    first; the nodes.
    Memory and [ptrs], the state the functions of src/mr_load.c:849-924 change. *)
Record state := State { blocks : list (option Z); log : list store; ra : list entry }.

(** A store in C, e.g. src/mr_load.c:99; undefined outside of a live block. *)
Definition put (s : state) (a : addr) (w : what) : option state :=
  match blocks s !! a.1 with
  | Some (Some n) =>
    if (0 <=? a.2) && (a.2 + width w <=? n)
    then Some (State (blocks s) (Store a w :: log s) (ra s))
    else None
  | _ => None
  end.

(** Do the bytes of the store meet the eight bytes of a pointer read at [a]
    (src/mr_load.c:90, 913)? *)
Definition meets (a : addr) (x : store) : bool :=
  (0 <? width (st_what x)) && (a.1 =? (st_at x).1)%nat && (a.2 <? (st_at x).2 + width (st_what x)) && ((st_at x).2 <? a.2 + 8).

(** Read of a pointer: the latest store that meets the eight bytes must be a
    pointer stored at this place; blocks are zeroed at first.
    The reads of src/mr_load.c:90, 913, 915. *)
Definition get_ptr (s : state) (a : addr) : option ptr :=
  match blocks s !! a.1 with
  | Some (Some n) =>
    if (0 <=? a.2) && (a.2 + 8 <=? n) then
      match filter (fun x => is_true (meets a x)) (log s) with
      | [] => Some Null
      | Store b (WPtr p) :: _ => if b.2 =? a.2 then Some p else None
      | _ => None
      end
    else None
  | _ => None
  end.

(** [MR_FREE] of a pointer to the start of a live block; the destination itself
    must not be released (src/mr_load.c:915). *)
Definition release (s : state) (p : ptr) : option state :=
  match p with
  | To (S b, 0) =>
    match blocks s !! S b with
    | Some (Some _) => Some (State (<[S b := None]> (blocks s)) (log s) (ra s))
    | _ => None
    end
  | _ => None
  end.

(** [ptrs->ra[idx].… = …].
    Stores to [ptrs->ra[idx]], src/mr_load.c:456-462, 719-725, 882-886, 921. *)
Definition set_entry (s : state) (idx : nat) (f : entry -> entry) : state :=
  State (blocks s) (log s) (alter f idx (ra s)).

Section load.
(** The registered type descriptors. *)
Context (env : list td).
(** The handler of a scalar: status, and whether it stored the value. *)
Context (leaf : node -> stype -> bool * bool).
(** Does the allocation succeed that would create the block of this number? *)
Context (alloc : nat -> bool).

(** [MR_CALLOC] of src/mr_load.c:435, 752: address of a zeroed block. *)
Definition calloc (s : state) (size : Z) : option (state * addr) :=
  if alloc (length (blocks s))
  then Some (State (blocks s ++ [Some size]) (log s) (ra s), (length (blocks s), 0))
  else None.

(** src/metaresc.c:1185-1204 [mr_type_size]. *)
Definition kind_size (k : kind) : Z :=
  match k with
  | Scalar n => n
  | Str | Pointer | Void => 8
  | _ => 0
  end.

(** Type descriptor behind [stype.tdp].
    [fdp->stype.tdp], src/mr_load.c:582, 737. *)
Definition get_td (t : option nat) : option td := i ← t; env !! i.
(** [tdp ? tdp->mr_type : MR_TYPE_VOID], src/mr_load.c:651 and 743. *)
Definition td_kind (t : option nat) : kind :=
  match get_td t with Some d => t_kind d | None => Void end.
(** src/mr_load.c:745-747: size of what a pointer points to. *)
Definition target_size (k : kind) (t : option nat) : Z :=
  if kind_size k =? 0 then match get_td t with Some d => t_size d | None => 0 end
  else kind_size k.

(** src/mr_load.c:456-462 and 719-725: a number in place of a pointer is a
    reference; the number is converted to [mr_idx_t] (uint32_t). *)
Definition int_ref (z : Z) : bool * Z :=
  if 0 <=? z then (false, z mod 2 ^ 32) else (true, (- z) mod 2 ^ 32).

(** Result of a handler: status, and the name and type given to the next node
    by [mr_load_anon_union].
    What src/mr_load.c:849-924 leaves behind: the status, the descriptor handed to the next node (line 795), the memory. *)
Definition res : Type := bool * option (option N * option nat) * state.

(** src/mr_load.c:423-474 [mr_load_string].  The text of [VStr] was allocated by
    the parser and changes owner; here it is a new block. *)
Definition load_string (nd : node) (a : addr) (s : state) : option res :=
  s ← put s a (WPtr Null);
  if n_null nd || (match n_ref nd with Some _ => true | None => false end) then Some (true, None, s)
  else
    match n_val nd with
    | VSub t =>
      match calloc s (Z.of_nat (length t) + 1) with
      | None => Some (false, None, s)
      | Some (s, b) =>
        s ← put s a (WPtr (To b));
        s ← put s b (WText t);
        Some (true, None, s)
      end
    | VStr None => s ← put s a (WPtr Null); Some (true, None, s)
    | VStr (Some t) =>
      let b := (length (blocks s), 0) in
      let s := State (blocks s ++ [Some (Z.of_nat (length t) + 1)]) (log s) (ra s) in
      s ← put s a (WPtr (To b));
      s ← put s b (WText (t ++ [0]));
      Some (true, None, s)
    | VInt z =>
      Some (true, None, set_entry s (n_idx nd) (fun e => Entry (e_node e) (e_at e) (Some (int_ref z))))
    | VOther => Some (false, None, s)
    end.

(** src/mr_load.c:476-513 [mr_get_char_array].  [par] is the address of the
    pointer if the parent node is a pointer (line 484). *)
Definition get_char_array (nd : node) (a : addr) (ty : stype) (par : option addr) (t : list Z)
    (s : state) : option res :=
  let len := Z.of_nat (length t) in
  match par with
  | Some cell =>
    if s_size ty <=? len then
      (* MR_REALLOC of the pointer to the text *)
      s ← release s (To a);
      match calloc s (len + 1) with
      | None =>
        s ← put s cell (WPtr Null);
        Some (false, None, set_entry s (n_idx nd) (fun e => Entry (e_node e) None (e_ref e)))
      | Some (s, b) =>
        s ← put s cell (WPtr (To b));
        let s := set_entry s (n_idx nd) (fun e => Entry (e_node e) (Some (b, ty)) (e_ref e)) in
        s ← put s b (WText t);
        s ← put s (shift b len) (WText [0]);
        Some (true, None, s)
      end
    else
      s ← put s a (WText t);
      s ← put s (shift a len) (WText [0]);
      Some (true, None, s)
  | None =>
    let t := if len >? s_size ty then take (Z.to_nat (s_size ty)) t else t in
    let len := Z.of_nat (length t) in
    s ← put s a (WText t);
    s ← (if len <? s_size ty then put s (shift a len) (WText [0]) else Some s);
    Some (true, None, s)
  end.

(** src/mr_load.c:522-553 [mr_load_char_array]. *)
Definition load_char_array (nd : node) (a : addr) (ty : stype) (par : option addr)
    (s : state) : option res :=
  s ← (if 0 <? s_size ty then put s a (WText [0]) else Some s);
  match n_val nd with
  | VSub t | VStr (Some t) => get_char_array nd a ty par t s
  | _ => Some (false, None, s)
  end.

(** Handlers of types that store into a fixed place, src/mr_load.c:152-415;
    what they compute from the text is modelled elsewhere. *)
Definition load_scalar (nd : node) (a : addr) (ty : stype) (n : Z) (s : state) : option res :=
  let '(ok, stored) := leaf nd ty in
  s ← (if stored then put s a (WScalar (n_idx nd) n) else Some s);
  Some (ok, None, s).

(** [mr_get_fd_by_name] (src/metaresc.c:1656-1667): position of the field of
    this name. *)
Fixpoint find_field (fields : list fd) (name : N) : option nat :=
  match fields with
  | [] => None
  | f :: fields =>
    if (match f_name f with Some x => N.eqb x name | None => false end) then Some O
    else S <$> find_field fields name
  end.

(** src/mr_load.c:555-567 [mr_load_struct_next_field]; fields are given by their
    positions. *)
Definition next_field (fields : list fd) (prev : option nat) : option nat :=
  let i := match prev with None => O | Some p => S p end in
  if Nat.ltb i (length fields) then Some i else None.

(** src/mr_load.c:595-597: the field for the next value. *)
Definition choose_field (fields : list fd) (nfd : option (option N * option nat)) (prev : option nat)
    : option nat :=
  match (match nfd with Some (Some name, _) => find_field fields name | _ => None end) with
  | Some i => Some i
  | None => next_field fields prev
  end.

(** src/mr_load.c:643-657: type and descriptor of the elements of an array. *)
Definition elem_ty (ty : stype) (count : Z) : stype :=
  let size := s_size ty / count in
  match s_dims ty with
  | [_] => SType (s_aux ty) (td_kind (s_td ty)) size (s_dims ty) (s_td ty)
  | _ => SType (s_kind ty) (s_aux ty) size (tail (s_dims ty)) (s_td ty)
  end.
(** src/mr_load.c:643-646. *)
Definition elem_fd (f : fd) (count : Z) : fd := Fd (f_name f) true 0 (elem_ty (f_ty f) count).

(** src/mr_load.c:738-749: descriptor of what a pointer points to. *)
Definition target_fd (ty : stype) : fd :=
  Fd None true 0
    (SType (s_aux ty) (td_kind (s_td ty)) (target_size (s_aux ty) (s_td ty)) [] (s_td ty)).

(** Is there a next node, and has it no descriptor?  src/mr_load.c:792-793. *)
Definition next_nameless (ks : list node) : bool :=
  match ks with k :: _ => (match n_fd k with None => true | Some _ => false end) | [] => false end.

(** The comparison of descriptors in src/mr_load.c:866. *)
Definition eq_opt (x y : option nat) : bool :=
  match x, y with Some a, Some b => (a =? b)%nat | None, None => true | _, _ => false end.

(** src/mr_load.c:865-880: may this node be loaded as this field? *)
Definition accepts (f : fd) (nd : node) (nfd : option (option N * option nat)) : bool :=
  match nfd with
  | None => true
  | Some (name, t) =>
    negb (n_typed nd && negb (eq_opt (s_td (f_ty f)) t)) &&
    (f_unnamed f ||
     match f_name f, name with Some x, Some y => N.eqb x y | _, _ => true end)
  end.

Section walk.
(** The function [mr_load] applied to the nodes below. *)
Context (ld : node -> option (option N * option nat) -> bool -> addr -> fd -> option addr -> state -> option res).

(** src/mr_load.c:593-608, the loop of [mr_load_struct] over the values [ks] of
    a structure at [a]; [prev] is the field of the previous value, [given] what
    the previous node gave to this one. *)
Fixpoint values (fields : list fd) (a : addr) (ks : list node) (prev : option nat)
    (given : option (option N * option nat)) (s : state) : option res :=
  match ks with
  | [] => Some (true, None, s)
  | k :: ks =>
    let kfd := match given with Some _ => given | None => n_fd k end in
    match choose_field fields kfd prev with
    | None => Some (false, None, s)
    | Some i =>
      g ← fields !! i;
      '(ok, given, s) ← ld k kfd (next_nameless ks) (shift a (f_off g)) g None s;
      if (ok : bool) then values fields a ks (Some i) given s else Some (false, None, s)
    end
  end.

(** src/mr_load.c:660-673, the loop of [mr_load_array]: [i] is the number of the
    next element, [g] the descriptor of the elements. *)
Fixpoint elements (count : Z) (g : fd) (a : addr) (ks : list node) (i : Z)
    (given : option (option N * option nat)) (s : state) : option res :=
  match ks with
  | [] => Some (true, None, s)
  | k :: ks =>
    if count <=? i then Some (false, None, s)
    else
      let kfd := match given with Some _ => given | None => n_fd k end in
      '(ok, given, s) ← ld k kfd (next_nameless ks) (shift a (i * s_size (f_ty g))) g None s;
      if (ok : bool) then elements count g a ks (i + 1) given s else Some (false, None, s)
  end.

(** src/mr_load.c:759-762, the loop of [mr_load_pointer_postponed] over the
    nodes under the pointer at [cell]; the address of the block is read from the
    pointer for every node. *)
Fixpoint targets (g : fd) (cell : addr) (ks : list node) (i : Z)
    (given : option (option N * option nat)) (s : state) : option res :=
  match ks with
  | [] => Some (true, None, s)
  | k :: ks =>
    let kfd := match given with Some _ => given | None => n_fd k end in
    p ← get_ptr s cell;
    match p with
    | Null => Some (false, None, s)
    | To b =>
      '(ok, given, s) ← ld k kfd (next_nameless ks) (shift b (i * s_size (f_ty g))) g (Some cell) s;
      if (ok : bool) then targets g cell ks (i + 1) given s else Some (false, None, s)
    end
  end.
End walk.

(** src/mr_load.c:848-924 [mr_load] without the part for the top level (lines
    899-918), and the handlers of structures, arrays and anonymous unions
    (lines 576-675, 777-799).  [nfd] is the node's member [fdp], which may have
    been set by the previous node; [next_free] tells that there is a next node
    and it has no descriptor.  Simplification: [mr_ptrdes_t.fdp] of a
    non-persistent descriptor (line 921) keeps its type descriptor. *)
Fixpoint load (nd : node) (nfd : option (option N * option nat)) (next_free : bool)
    (a : addr) (f : fd) (par : option addr) (s : state) {struct nd} : option res :=
  if negb ((0 <? n_idx nd)%nat && (n_idx nd <? length (ra s))%nat) then Some (false, None, s)
  else if negb (accepts f nd nfd) then Some (false, None, s)
  else
    let ty := f_ty f in
    let s := set_entry s (n_idx nd) (fun e => Entry (e_node e) (Some (a, ty)) (e_ref e)) in
    let load_struct (s : state) : option res :=
      match get_td (s_td ty) with
      | None => Some (false, None, s)
      | Some d => values load (t_fields d) a (n_kids nd) None None s
      end in
    match s_kind ty with
    | Scalar n => load_scalar nd a ty n s
    | Enum => load_scalar nd a ty (s_size ty) s
    | CharArray => load_char_array nd a ty par s
    | Str => load_string nd a s
    | Void | Pointer => Some (true, None, s)
    | Unsupported => Some (false, None, s)
    | Struct => load_struct s
    | NamedAnon =>
      if (match n_kids nd with [] => true | _ => false end) &&
         (match n_val nd with VSub [] => true | _ => false end) && next_free
      then Some (true, Some (f_name f, s_td ty), s)
      else load_struct s
    | Array =>
      count ← s_dims ty !! 0%nat;
      if count =? 0 then
        Some ((match n_kids nd with [] => true | _ => false end), None, s)
      else if s_size ty =? 0 then Some (false, None, s)
      else elements load count (elem_fd f count) a (n_kids nd) 0 None s
    end.

(** src/mr_load.c:697-768 [mr_load_pointer_postponed] for the entry at [idx].
    Simplification: the size field of the pointer (lines 764-765) is not
    written. *)
Definition load_pointer_postponed (idx : nat) (s : state) : option (bool * state) :=
  e ← ra s !! idx;
  match e_at e with
  | None => Some (false, s)
  | Some (cell, ty) =>
    s ← put s cell (WPtr Null);
    if n_null (e_node e) then Some (true, s)
    else
      let ref := match n_val (e_node e) with VInt z => Some (int_ref z) | _ => e_ref e end in
      let s := set_entry s idx (fun e => Entry (e_node e) (e_at e) ref) in
      match ref with
      | Some _ => Some (true, s)
      | None =>
        match n_kids (e_node e) with
        | [] => Some (true, s)
        | ks =>
          let g := target_fd ty in
          if s_size (f_ty g) =? 0 then Some (false, s)
          else
            match calloc s (Z.of_nat (length ks) * s_size (f_ty g)) with
            | None => Some (false, s)
            | Some (s, b) =>
              s ← put s cell (WPtr (To b));
              '(ok, _, s) ← targets load g cell ks 0 None s;
              Some (ok, s)
            end
        end
      end
  end.

(** [MR_TYPE_POINTER == ptrs->ra[i].mr_type].
    The tests of [mr_type] in src/mr_load.c:904 and 912. *)
Definition loaded_as (k : kind) (e : entry) : bool :=
  match e_at e with Some (_, ty) => kind_is (s_kind ty) k | None => false end.

(** src/mr_load.c:903-905: all pointers, in the order of the nodes. *)
Fixpoint load_pointers (todo : nat) (i : nat) (s : state) : option (bool * state) :=
  match todo with
  | O => Some (true, s)
  | S todo =>
    e ← ra s !! i;
    if loaded_as Pointer e then
      '(ok, s) ← load_pointer_postponed i s;
      if (ok : bool) then load_pointers todo (S i) s else Some (false, s)
    else load_pointers todo (S i) s
  end.

(** src/mr_load.c:36-54: the table from identifiers to nodes.  The table has
    [max_idx + 1] elements computed in uint32_t. *)
Definition max_id (r : list entry) : Z := foldl (fun m e => Z.max m (n_id (e_node e))) 0 r.
(** src/mr_load.c:47-54. *)
Fixpoint fill_table (r : list entry) (i : nat) (table : list nat) : option (list nat) :=
  match r with
  | [] => Some table
  | e :: r =>
    let id := n_id (e_node e) in
    if id =? 0 then fill_table r (S i) table
    else
      table ← wr table (Z.to_nat id) i;
      fill_table r (S i) table
  end.
(** src/mr_load.c:36-54. *)
Definition make_table (r : list entry) : option (list nat) :=
  fill_table r 0 (replicate (Z.to_nat ((max_id r + 1) mod 2 ^ 32)) O).

(** src/mr_load.c:57-100: one reference. *)
Definition set_crossref (table : list nat) (max_idx : Z) (i : nat) (s : state) : option state :=
  e ← ra s !! i;
  match e_ref e with
  | None => Some s
  | Some (content, num) =>
    if max_idx <? num then Some s
    else
      j ← rd table (Z.to_nat num);
      if (j =? 0)%nat then Some s
      else
        t ← ra s !! j;
        if negb (loaded_as Pointer e || loaded_as Str e) then Some s
        else
          match e_at e, e_at t, content with
          | Some (cell, _), None, true => Some s
          | Some (cell, _), None, false => put s cell (WPtr Null)
          | Some (cell, _), Some (d, _), false => put s cell (WPtr (To d))
          | Some (cell, _), Some (d, _), true =>
            p ← get_ptr s d;
            put s cell (WPtr p)
          | None, _, _ => Some s
          end
  end.

(** The loop of src/mr_load.c:57-100. *)
Fixpoint set_refs (todo : nat) (table : list nat) (max_idx : Z) (i : nat) (s : state) : option state :=
  match todo with
  | O => Some s
  | S todo =>
    s ← set_crossref table max_idx i s;
    set_refs todo table max_idx (S i) s
  end.

(** src/mr_load.c:29-105 [mr_set_crossrefs].  Simplification: the table itself
    is not a block of the model; its allocation succeeds. *)
Definition set_crossrefs (s : state) : option state :=
  table ← make_table (ra s);
  set_refs (length (ra s)) table (max_id (ra s)) 0 s.

(** src/mr_load.c:910-917: after a failure all strings and blocks are released,
    from the last node down to node 1. *)
Fixpoint clean_up (i : nat) (s : state) : option state :=
  match i with
  | O => Some s
  | S j =>
    e ← ra s !! i;
    s ← (if loaded_as Pointer e || loaded_as Str e then
           match e_at e with
           | None => Some s
           | Some (cell, _) =>
             p ← get_ptr s cell;
             match p with
             | Null => Some s
             | To _ => s ← release s p; put s cell (WPtr Null)
             end
           end
         else Some s);
    clean_up j s
  end.

(** src/mr_load.c:848-905 [mr_load] of node 1, the call that loads a whole
    object: the tree, then the pointers. *)
Definition load_all (nd : node) (a : addr) (f : fd) (s : state) : option (bool * state) :=
  '(ok, _, s) ← load nd (n_fd nd) false a f None s;
  if (ok : bool) then load_pointers (length (ra s)) 0 s else Some (false, s).

(** src/mr_load.c:848-924 [mr_load] of node 1 to the end: the references, or
    the clean-up if anything failed. *)
Definition load_top (nd : node) (a : addr) (f : fd) (s : state) : option (bool * state) :=
  '(ok, s) ← load_all nd a f s;
  if (ok : bool) then s ← set_crossrefs s; Some (true, s)
  else s ← clean_up (length (ra s) - 1) s; Some (false, s).
End load.

(** The nodes of a tree.
    Nodes reached through [first_child] and [next] (src/mr_protos.h:583-584) in the order the parsers create them. *)
Fixpoint subtree (nd : node) : list node := nd :: concat (map subtree (n_kids nd)).

(** The state in which a load starts: the destination is zeroed
    (src/metaresc.h:1163-1383), node 0 is a dummy, no node is loaded. *)
Definition dummy : node := Node 0 0 0 None false false None VOther [].
(** The array [ptrs] as handed to src/mr_load.c:849. *)
Definition start (size : Z) (nodes : list node) : state :=
  State [Some size] [] ((fun n => Entry n None (n_ref n)) <$> dummy :: nodes).
