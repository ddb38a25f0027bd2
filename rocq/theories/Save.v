(** Model of the construction of the node table from data in memory, mr_save
    (src/mr_save.c:456-1065, 1067-1230, 1386-1612). *)
From Verif Require Import Base Ptrs.
Local Open Scope Z_scope.

(** Codes of [mr_type_t], src/mr_protos.h:91-126. *)
Definition T_NONE : Z := 0.
(** src/mr_protos.h:93. *)
Definition T_STRING : Z := 1.
(** src/mr_protos.h:94. *)
Definition T_CHAR_ARRAY : Z := 2.
(** src/mr_protos.h:96. *)
Definition T_VOID : Z := 4.
(** src/mr_protos.h:99. *)
Definition T_UINT8 : Z := 7.
(** src/mr_protos.h:114. *)
Definition T_STRUCT : Z := 22.
(** src/mr_protos.h:115. *)
Definition T_ENUM : Z := 23.
(** src/mr_protos.h:116. *)
Definition T_FUNC_TYPE : Z := 24.
(** src/mr_protos.h:117. *)
Definition T_FUNC : Z := 25.
(** src/mr_protos.h:118. *)
Definition T_BITFIELD : Z := 26.
(** src/mr_protos.h:119. *)
Definition T_ARRAY : Z := 27.
(** src/mr_protos.h:120. *)
Definition T_POINTER : Z := 28.
(** src/mr_protos.h:121. *)
Definition T_UNION : Z := 29.
(** src/mr_protos.h:122. *)
Definition T_ANON_UNION : Z := 30.
(** src/mr_protos.h:123. *)
Definition T_NAMED_ANON_UNION : Z := 31.

(** [MR_TYPE_UNION], [MR_TYPE_ANON_UNION], [MR_TYPE_NAMED_ANON_UNION],
    src/mr_protos.h:121-123. *)
Definition union_type (t : Z) : bool := (t =? T_UNION) || (t =? T_ANON_UNION) || (t =? T_NAMED_ANON_UNION).

(** Conversion to [mr_size_t] or [mr_idx_t], src/metaresc.h:1487-1488. *)
Definition w32 (z : Z) : Z := z mod 2 ^ 32.
(** Conversion to ssize_t, src/mr_save.c:1200. *)
Definition s64 (z : Z) : Z := (z + 2 ^ 63) mod 2 ^ 64 - 2 ^ 63.

(** How a field names its size field: [res_type] and [res] of src/mr_protos.h:386-387,
    tested in src/mr_save.c:961-968.  Names are numbers. *)
Inductive szref := ByOffset (off : Z) | ByName (name : nat).

(** src/mr_protos.h:309-390, mr_stype_t and mr_fd_t, reduced to what mr_save
    reads: [f_dim0] and [f_dims] are [dim.dim[0]] and [dim.size / sizeof (dim.dim[0])],
    [f_np] is [non_persistent], [f_opaque] tells that the name is MR_OPAQUE_DATA_STR,
    [f_tdp] is the number of the type descriptor. *)
Record fd := FD { f_type : Z; f_aux : Z; f_base : Z; f_size : Z; f_tdp : option nat;
  f_dim0 : Z; f_dims : nat; f_off : Z; f_name : nat; f_unnamed : bool; f_np : bool;
  f_opaque : bool; f_szf : option szref }.

(** src/mr_protos.h:454-467, mr_td_t: size, fields of a structure or a union,
    [mr_ptr_fd], and [param.enum_param.mr_type_effective]. *)
Record td := TD { t_size : Z; t_fields : list fd; t_ptr_fd : fd; t_enum : Z }.

(** What mr_save reads: the type descriptors, the pointer stored at an address
    (e.g. src/mr_save.c:1089, 1506; [None]: not readable; 0: NULL),
    the value mr_assign_int (src/mr_save.c:830-931) takes from the size field at an
    address ([Some None]: it stores nothing, line 841), and the number of the field
    mr_union_discriminator (src/mr_save.c:345-447) chooses for the union at an
    address.  Simplification: the choice depends on the address and the type of
    the union only, not on the nodes above it; then mr_check_ud (lines 548-572)
    always succeeds and is left out. *)
Record world := World { w_tds : list td; w_ptr : Z -> option Z;
  w_int : Z -> fd -> option (option Z); w_disc : Z -> nat -> option nat }.

(** src/mr_protos.h:572-597, mr_ptrdes_t: the fields that are not in [Ptrs.node].
    [i_chain] is [save_params.next_untyped]; [i_null], [i_cref], [i_opaque] and
    [i_unnamed] are flags (lines 476-485). *)
Record info := Info { i_data : Z; i_fdp : option fd; i_type : Z; i_aux : Z;
  i_unnamed : bool; i_null : bool; i_cref : bool; i_opaque : bool;
  i_size : Z; i_chain : nat }.

(** Stores to single fields, e.g. src/mr_save.c:625-631, 1076, 1116, 1213. *)
Definition set_fdp (x : info) (v : option fd) : info :=
  Info (i_data x) v (i_type x) (i_aux x) (i_unnamed x) (i_null x) (i_cref x) (i_opaque x) (i_size x) (i_chain x).
(** src/mr_save.c:631, 673, 732, 763, 1213, 1517. *)
Definition set_size (x : info) (v : Z) : info :=
  Info (i_data x) (i_fdp x) (i_type x) (i_aux x) (i_unnamed x) (i_null x) (i_cref x) (i_opaque x) v (i_chain x).
(** src/mr_save.c:1116. *)
Definition set_aux (x : info) (v : Z) : info :=
  Info (i_data x) (i_fdp x) (i_type x) v (i_unnamed x) (i_null x) (i_cref x) (i_opaque x) (i_size x) (i_chain x).
(** [flags |= MR_IS_NULL], src/mr_save.c:1076, 1092, 1406, 1507, 1535, 1542. *)
Definition set_null (x : info) : info :=
  Info (i_data x) (i_fdp x) (i_type x) (i_aux x) (i_unnamed x) true (i_cref x) (i_opaque x) (i_size x) (i_chain x).
(** [flags |= MR_IS_OPAQUE_DATA], src/mr_save.c:1537. *)
Definition set_opaque (x : info) : info :=
  Info (i_data x) (i_fdp x) (i_type x) (i_aux x) (i_unnamed x) (i_null x) (i_cref x) true (i_size x) (i_chain x).
(** src/mr_save.c:1469-1470: MR_IS_REFERENCE becomes MR_IS_CONTENT_REFERENCE. *)
Definition set_cref (x : info) : info :=
  Info (i_data x) (i_fdp x) (i_type x) (i_aux x) (i_unnamed x) (i_null x) true (i_opaque x) (i_size x) (i_chain x).
(** src/mr_save.c:1047. *)
Definition set_chain (x : info) (v : nat) : info :=
  Info (i_data x) (i_fdp x) (i_type x) (i_aux x) (i_unnamed x) (i_null x) (i_cref x) (i_opaque x) (i_size x) v.
(** src/mr_save.c:625-631: what a moved node takes over. *)
Definition take_over (x : info) (fdp : option fd) (type aux : Z) (unnamed : bool) (size : Z) : info :=
  Info (i_data x) fdp type aux unnamed (i_null x) (i_cref x) (i_opaque x) size (i_chain x).

(** src/mr_protos.h:623-631, mr_save_data_t.  [s_ptrs] holds the links of the
    nodes with the [last_child] cache, [s_info] the other fields of the same
    nodes; [s_heads k] is the node found under key [k] in [untyped_ptrs], 0 if
    there is none.  The collection is a hash table (src/mr_save.c:1574); by C06
    it behaves as a set of keys. *)
Record sst := SSt { s_ptrs : ptrs; s_info : list info; s_heads : Z -> nat }.

(** The links of all nodes.
    [ptrs.ra], src/mr_protos.h:606-614. *)
Definition lns (st : sst) : list node := ra (s_ptrs st).

(** A store to one of the links of a node, e.g. src/mr_save.c:708-710.
    Flags MR_IS_REFERENCE and MR_IS_REFERENCED are kept there too. *)
Definition upd_link (st : sst) (i : nat) (f : node -> node) : option sst :=
  ns ← upd (lns st) i f; Some (SSt (Ptrs ns (cache (s_ptrs st))) (s_info st) (s_heads st)).
(** A store to one of the other fields, e.g. src/mr_save.c:732. *)
Definition upd_info (st : sst) (i : nat) (f : info -> info) : option sst :=
  x ← rd (s_info st) i; l ← wr (s_info st) i (f x); Some (SSt (s_ptrs st) l (s_heads st)).

(** [flags |= MR_IS_REFERENCED], src/mr_save.c:620. *)
Definition mark_referenced (n : node) : node :=
  Node (parent n) (next n) (first_child n) (pub_idx n) (is_ref n) true (structured n) (rm_type n).
(** [flags |= MR_IS_REFERENCE], src/mr_save.c:619. *)
Definition mark_ref (n : node) : node :=
  Node (parent n) (next n) (first_child n) (pub_idx n) true (referenced n) (structured n) (rm_type n).

(** src/mr_save.c:516, 518-532: the key of an address in [untyped_ptrs], the
    address without its two low bits.  Equal keys have equal hash values. *)
Definition key (a : Z) : Z := a / 4.

(** src/mr_save.c:456-514, mr_cmp_ptrdes for two different nodes: [true] is 0. *)
Definition same_typed (x y : info) : bool :=
  (i_data x =? i_data y) && (i_type x =? i_type y) &&
  (if (i_type x =? T_ARRAY) || (i_type x =? T_POINTER) || (i_type x =? T_BITFIELD) then false
   else if (i_type x =? T_STRUCT) || (i_type x =? T_ENUM) || union_type (i_type x) then
     match i_fdp x, i_fdp y with
     | Some f, Some g => bool_decide (f_tdp f = f_tdp g)
     | None, None => true
     | _, _ => false
     end
   else true).

(** src/mr_save.c:574-581. *)
Definition is_first_child (ns : list node) (i : nat) : option bool :=
  n ← rd ns i;
  if Nat.eqb (parent n) 0 then Some false
  else p ← rd ns (parent n); Some (Nat.eqb (first_child p) i).

(** src/mr_save.c:583-589. *)
Fixpoint ref_is_parent (fuel : nat) (ns : list node) (i ref_idx : nat) : option bool :=
  match fuel with
  | O => None
  | S fuel =>
    if Nat.eqb i 0 || Nat.eqb i ref_idx then Some (Nat.eqb i ref_idx)
    else n ← rd ns i; ref_is_parent fuel ns (parent n) ref_idx
  end.

(** src/mr_save.c:598-605: the descriptor of the nearest node above that has a
    persistent one; [None] inside is NULL (line 602 fails). *)
Fixpoint climb_persistent (fuel : nat) (st : sst) (i : nat) : option (option fd) :=
  match fuel with
  | O => None
  | S fuel =>
    if Nat.eqb i 0 then Some None else
    n ← rd (lns st) i;
    x ← rd (s_info st) i;
    match i_fdp x with
    | Some f => if f_np f then climb_persistent fuel st (parent n) else Some (Some f)
    | None => climb_persistent fuel st (parent n)
    end
  end.

Section Save.
  (** The data and the type descriptors; every theorem quantifies over them. *)
  Variable W : world.

  (** [&tdp->mr_ptr_fd], src/mr_save.c:605. *)
  Definition ptr_fd (f : fd) : option (option fd) :=
    match f_tdp f with
    | None => Some None
    | Some k => t ← rd (w_tds W) k; Some (Some (t_ptr_fd t))
    end.

  (** src/mr_save.c:591-608, mr_get_persistent_fd for a node with descriptor
      [fdp] below node [par]; NULL is undefined behaviour (line 595). *)
  Definition persistent_fd (st : sst) (fdp : option fd) (par : nat) : option (option fd) :=
    f ← fdp;
    if f_np f then
      r ← climb_persistent (S (length (lns st))) st par;
      match r with Some g => Some (Some g) | None => ptr_fd f end
    else Some (Some f).

  (** src/mr_save.c:622-634, the loop of move_nodes_to_parent; [x] is the pending
      node [ra[idx]], [par] its parent. *)
  Fixpoint move_loop (fuel : nat) (st : sst) (x : info) (par : nat) (esize : Z) (ref_idx : nat) (count : Z)
      : option (Z * sst) :=
    match fuel with
    | O => None
    | S fuel =>
      if Nat.eqb ref_idx 0 then Some (count, st) else
      n ← rd (lns st) ref_idx;
      fdp ← persistent_fd st (i_fdp x) par;
      st ← upd_info st ref_idx (fun y => take_over y fdp (i_type x) (i_aux x) (i_unnamed x) (w32 (i_size x - count * esize)));
      p ← add_child (s_ptrs st) par ref_idx;
      move_loop fuel (SSt p (s_info st) (s_heads st)) x par esize (next n) (count + 1)
    end.

  (** src/mr_save.c:610-636, move_nodes_to_parent. *)
  Definition move_nodes (st : sst) (ref_parent : nat) (x : info) (par : nat) : option (Z * sst) :=
    n ← rd (lns st) ref_parent;
    let esize := match i_fdp x with Some f => f_size f | None => 0 end in
    st ← upd_link st ref_parent mark_ref;
    st ← upd_link st (first_child n) mark_referenced;
    move_loop (S (length (lns st))) st x par esize (first_child n) 0.

  (** src/metaresc.c:1185-1204, mr_type_size on a 64 bit machine: the sizes of the
      types in the order of src/mr_protos.h:91-126. *)
  Definition type_size (t : Z) : Z :=
    if t <? 0 then 0 else
    match nth_error [0; 8; 0; 1; 8; 1; 1; 1; 2; 2; 4; 4; 8; 8; 16; 16; 4; 8; 8; 16; 16; 32; 0; 0; 8; 8; 0; 0; 8] (Z.to_nat t) with
    | Some s => s
    | None => 0
    end.

  (** src/mr_save.c:659-661 and 1513-1516: the size of what a pointer leads to. *)
  Definition target_size (aux : Z) (fdp : option fd) : option Z :=
    if type_size aux =? 0 then
      match fdp with
      | Some f => match f_tdp f with Some k => t ← rd (w_tds W) k; Some (t_size t) | None => Some 0 end
      | None => Some 0
      end
    else Some (type_size aux).

  (** src/mr_save.c:652-661: the descriptor of the content of a pointer. *)
  Definition content_fd (x : info) : option fd :=
    s ← target_size (i_aux x) (i_fdp x);
    Some (FD (i_aux x) (match i_fdp x with Some f => f_base f | None => T_VOID end) 0 s
      (match i_fdp x with Some f => f_tdp f | None => None end) 0 0 0 0 true true false None).

  (** The type of mr_save_inner (src/mr_save.c:1012-1013): data, descriptor, count,
      state and parent; the result is nodes_added with the new state. *)
  Notation saver := (Z -> fd -> Z -> sst -> nat -> option (Z * sst)).

  Section Open.
    (** Recursive calls of mr_save_inner. *)
    Variable rec : saver.

    (** src/mr_save.c:678-685 and 1222-1229: save the elements from number [i] on;
        [None] inside: an element was not saved.  [base] is the address of
        element 0, read again for every element (line 680). *)
    Fixpoint elems_loop (fuel : nat) (base : option Z) (f : fd) (i count : Z) (idx : nat) (st : sst)
        : option (option Z * sst) :=
      match fuel with
      | O => None
      | S fuel =>
        if i <? count then
          b ← base;
          r ← rec (b + i * f_size f) f (count - i) st idx;
          let '(n, st) := (r : Z * sst) in
          if n =? 0 then Some (None, st) else elems_loop fuel base f (i + n) count idx st
        else Some (Some i, st)
      end.

    (** src/mr_save.c:669-676: the sizes of the elements saved before. *)
    Fixpoint resize_loop (fuel : nat) (st : sst) (node : nat) (i count size : Z) : option (Z * sst) :=
      match fuel with
      | O => None
      | S fuel =>
        if Nat.eqb node 0 then Some (i, st) else
        st ← upd_info st node (fun y => if i_size y <? w32 ((count - i) * size) then set_size y (w32 ((count - i) * size)) else y);
        if count <=? i + 1 then Some (i + 1, st)
        else n ← rd (lns st) node; resize_loop fuel st (next n) (i + 1) count size
      end.

    (** src/mr_save.c:645-686, mr_save_pointer_content. *)
    Definition save_pointer_content (idx : nat) (st : sst) : option (Z * sst) :=
      x ← rd (s_info st) idx;
      f ← content_fd x;
      if f_size f =? 0 then Some (0, st) else
      let count := i_size x / f_size f in
      n ← rd (lns st) idx;
      r ← resize_loop (S (length (lns st))) st (first_child n) 0 count (f_size f);
      let '(i, st) := (r : Z * sst) in
      r ← elems_loop (S (Z.to_nat count)) (w_ptr W (i_data x)) f i count idx st;
      let '(r, st) := (r : option Z * sst) in
      Some (match r with Some i => i | None => 0 end, st).

    (** src/mr_save.c:762-763: more room in the elements saved before. *)
    Fixpoint grow_loop (fuel : nat) (st : sst) (node : nat) (delta : Z) : option sst :=
      match fuel with
      | O => None
      | S fuel =>
        if Nat.eqb node 0 then Some st else
        st ← upd_info st node (fun y => set_size y (w32 (i_size y + delta)));
        n ← rd (lns st) node; grow_loop fuel st (next n) delta
      end.

    (** The node [par] becomes a reference to [ref_idx]; src/mr_save.c:708-710,
        733-735, 799-801. *)
    Definition make_ref (st : sst) (par ref_idx : nat) : option sst :=
      st ← upd_link st par (fun n => mark_ref (set_first_child n ref_idx));
      upd_link st ref_idx mark_referenced.

    (** src/mr_save.c:688-773, resolve_pointer: [*resolved], the answer and the state. *)
    Definition resolve_pointer (st : sst) (ref_idx : nat) (x : info) (par : nat) : option (bool * Z * sst) :=
      f ← i_fdp x;
      let esize := f_size f in
      if esize =? 0 then Some (false, 0, st) else
      rn ← rd (lns st) ref_idx;
      rx ← rd (s_info st) ref_idx;
      px ← rd (s_info st) (parent rn);
      pn ← rd (lns st) par;
      if Nat.eqb (first_child pn) 0 then
        if i_size x <=? i_size rx then
          st ← make_ref st par ref_idx;
          Some (true, i_size x / esize, st)
        else if i_type px =? T_POINTER then
          b ← is_first_child (lns st) ref_idx;
          if (b : bool) then
            r ← move_nodes st (parent rn) x par;
            let '(n, st) := (r : Z * sst) in Some (true, n, st)
          else
            st ← upd_info st (parent rn) (fun y => set_size y (w32 (i_size y + (i_size x - i_size rx))));
            st ← make_ref st par ref_idx;
            r ← save_pointer_content (parent rn) st;
            let '(n, st) := (r : Z * sst) in
            Some (true, if n =? 0 then 0 else i_size x / esize, st)
        else Some (false, 0, st)
      else if i_type px =? T_POINTER then
        if i_size x <? i_size rx then
          let delta := i_size rx - i_size x in
          st ← grow_loop (S (length (lns st))) st (first_child pn) delta;
          st ← upd_info st par (fun y => set_size y (w32 (i_size y + delta)));
          r ← move_nodes st (parent rn) (set_size x (i_size rx)) par;
          let '(n, st) := (r : Z * sst) in Some (true, n, st)
        else
          r ← move_nodes st (parent rn) x par;
          let '(n, st) := (r : Z * sst) in Some (true, n, st)
      else Some (false, 0, st).

    (** src/mr_save.c:812-822: the matched node is the content of a string or a
        pointer and can become a member of the structure being saved. *)
    Definition movable (st : sst) (rn : node) (rx : info) (ref_idx : nat) (x : info) (par : nat) : option bool :=
      if Nat.eqb (parent rn) 0 then Some false else
      px ← rd (s_info st) (parent rn);
      b ← (if i_type px =? T_STRING then Some true
           else if i_type px =? T_POINTER then
             c ← is_first_child (lns st) ref_idx; Some ((c : bool) && (i_size rx <=? i_size x))
           else Some false);
      if (b : bool) then r ← ref_is_parent (S (length (lns st))) (lns st) par ref_idx; Some (negb (r : bool))
      else Some false.

    (** src/mr_save.c:775-828, resolve_matched.  For pointers the loop ends with
        the first node of the same type, because line 807 tests the pointer
        [resolved] and not [*resolved]. *)
    Fixpoint resolve_matched (fuel : nat) (st : sst) (ref_idx : nat) (x : info) (par : nat) : option (bool * Z * sst) :=
      match fuel with
      | O => None
      | S fuel =>
        if Nat.eqb ref_idx 0 then Some (false, 0, st) else
        rn ← rd (lns st) ref_idx;
        rx ← rd (s_info st) ref_idx;
        if negb (same_typed rx x) then resolve_matched fuel st (i_chain rx) x par else
        px ← rd (s_info st) par;
        if i_type px =? T_STRING then
          st ← make_ref st par ref_idx;
          Some (true, 1, st)
        else if i_type px =? T_POINTER then resolve_pointer st ref_idx x par
        else
          b ← movable st rn rx ref_idx x par;
          if (b : bool) then
            r ← move_nodes st (parent rn) x par;
            let '(n, st) := (r : Z * sst) in Some (true, n, st)
          else resolve_matched fuel st (i_chain rx) x par
      end.

    (** src/mr_save.c:976-981: the nearest structure above a node; 0: none. *)
    Fixpoint climb_struct (fuel : nat) (st : sst) (i : nat) : option nat :=
      match fuel with
      | O => None
      | S fuel =>
        if Nat.eqb i 0 then Some 0%nat else
        n ← rd (lns st) i;
        x ← rd (s_info st) i;
        if i_type x =? T_STRUCT then Some i else climb_struct fuel st (parent n)
      end.

    (** src/mr_save.c:933-952, 990-994: the field that holds the size; by offset it
        is the last one there (C44), by name the only one of this name (C37). *)
    Definition find_size_fd (t : td) (r : szref) : option fd :=
      match r with
      | ByOffset o => last (filter (fun g => f_off g = o) (t_fields t))
      | ByName s => head (filter (fun g => f_name g = s) (t_fields t))
      end.

    (** src/mr_save.c:954-1003, mr_pointer_get_size_ptrdes: the address and the
        descriptor of the size field; [None] inside: there is none. *)
    Definition size_field (st : sst) (idx : nat) : option (option (Z * fd)) :=
      x ← rd (s_info st) idx;
      f ← i_fdp x;
      match f_szf f with
      | None => Some None
      | Some r =>
        n ← rd (lns st) idx;
        p ← climb_struct (S (length (lns st))) st (parent n);
        if Nat.eqb p 0 then Some None else
        px ← rd (s_info st) p;
        match pf ← i_fdp px; f_tdp pf with
        | None => Some None
        | Some k =>
          t ← rd (w_tds W) k;
          match find_size_fd t r with
          | None => Some None
          | Some g =>
            let a := i_data px + f_off g in
            Some (if a =? 0 then None else Some (a, g))
          end
        end
      end.

    (** src/mr_save.c:1071-1078, mr_save_func. *)
    Definition save_func (idx : nat) (st : sst) : option (Z * sst) :=
      x ← rd (s_info st) idx;
      p ← w_ptr W (i_data x);
      if p =? 0 then st ← upd_info st idx set_null; Some (1, st) else Some (1, st).

    (** src/mr_save.c:1085-1101, mr_save_string. *)
    Definition save_string (idx : nat) (st : sst) : option (Z * sst) :=
      x ← rd (s_info st) idx;
      p ← w_ptr W (i_data x);
      if p =? 0 then st ← upd_info st idx set_null; Some (1, st) else
      f ← i_fdp x;
      rec p (FD T_CHAR_ARRAY (f_aux f) (f_base f) 1 (f_tdp f) (f_dim0 f) (f_dims f) (f_off f) (f_name f) (f_unnamed f) true (f_opaque f) (f_szf f)) 1 st idx.

    (** src/mr_save.c:1107-1118, mr_save_enum; the codes of the integer types are
        6-15 (src/mr_protos.h:98-107).  Other types with a code above 63 do not
        occur. *)
    Definition save_enum (idx : nat) (st : sst) : option (Z * sst) :=
      x ← rd (s_info st) idx;
      f ← i_fdp x;
      if (6 <=? i_aux x) && (i_aux x <=? 15) then Some (1, st) else
      match f_tdp f with
      | None => st ← upd_info st idx (fun y => set_aux y T_UINT8); Some (1, st)
      | Some k => t ← rd (w_tds W) k; st ← upd_info st idx (fun y => set_aux y (t_enum t)); Some (1, st)
      end.

    (** src/mr_save.c:1131-1137: the fields of a structure in turn. *)
    Fixpoint fields_loop (fs : list fd) (data : Z) (idx : nat) (st : sst) : option (bool * sst) :=
      match fs with
      | [] => Some (true, st)
      | f :: fs =>
        r ← rec (data + f_off f) f 1 st idx;
        let '(n, st) := (r : Z * sst) in
        if n =? 0 then Some (false, st) else fields_loop fs data idx st
      end.

    (** src/mr_save.c:1124-1139, mr_save_struct. *)
    Definition save_struct (idx : nat) (st : sst) : option (Z * sst) :=
      x ← rd (s_info st) idx;
      f ← i_fdp x;
      k ← f_tdp f;
      t ← rd (w_tds W) k;
      r ← fields_loop (t_fields t) (i_data x) idx st;
      let '(b, st) := (r : bool * sst) in Some (if b : bool then 1 else 0, st).

    (** src/mr_save.c:1145-1166, mr_save_union (see [world] for the choice of the field). *)
    Definition save_union (idx : nat) (st : sst) : option (Z * sst) :=
      x ← rd (s_info st) idx;
      f ← i_fdp x;
      match k ← f_tdp f; t ← rd (w_tds W) k; d ← w_disc W (i_data x) k; rd (t_fields t) d with
      | Some g => rec (i_data x + f_off g) g 1 st idx
      | None => Some (1, st)
      end.

    (** src/mr_save.c:1185-1220: the descriptor of the elements.  The memmove on
        line 1219 copies the extents onto themselves. *)
    Definition elem_fd (f : fd) : fd :=
      if Nat.eqb (f_dims f) 1 then
        FD (f_aux f) (f_base f) (f_base f) (f_size f / f_dim0 f) (f_tdp f) (f_dim0 f) (f_dims f) 0 (f_name f) true true (f_opaque f) (f_szf f)
      else
        FD (f_type f) (f_aux f) (f_base f) (f_size f / f_dim0 f) (f_tdp f) (f_dim0 f) (f_dims f - 1)%nat 0 (f_name f) true true (f_opaque f) (f_szf f).

    (** src/mr_save.c:1196-1212: the number of elements in use.  A size field that
        stores nothing leaves [size] uninitialised; a division by zero on line
        1208 is undefined. *)
    Definition elem_count (st : sst) (idx : nat) (count esize : Z) : option Z :=
      r ← size_field st idx;
      match r with
      | None => Some count
      | Some (a, g) =>
        v ← w_int W a g;
        v ← v;
        if s64 v <=? 0 then Some 0
        else if esize =? 0 then None
        else Some (if w32 (s64 v / esize) <? count then w32 (s64 v / esize) else count)
      end.

    (** src/mr_save.c:1172-1230, mr_save_array. *)
    Definition save_array (idx : nat) (st : sst) : option (Z * sst) :=
      x ← rd (s_info st) idx;
      f ← i_fdp x;
      if f_dim0 f =? 0 then Some (1, st) else
      if f_size f =? 0 then Some (0, st) else
      let g := elem_fd f in
      r ← (if Nat.eqb (f_dims f) 1 && negb (f_np f) then
             c ← elem_count st idx (f_dim0 f) (f_size g);
             st ← upd_info st idx (fun y => set_size y (w32 (c * f_size g)));
             Some (c, st)
           else Some (f_dim0 f, st));
      let '(count, st) := (r : Z * sst) in
      r ← elems_loop (S (Z.to_nat count)) (Some (i_data x)) g 0 count idx st;
      let '(r, st) := (r : option Z * sst) in
      Some (match r with Some _ => 1 | None => 0 end, st).

    (** src/mr_save.c:1499-1545, mr_save_pointer. *)
    Definition save_pointer (idx : nat) (st : sst) : option (Z * sst) :=
      x ← rd (s_info st) idx;
      p ← w_ptr W (i_data x);
      if p =? 0 then st ← upd_info st idx set_null; Some (1, st) else
      f ← i_fdp x;
      esize ← target_size (i_aux x) (Some f);
      r ← size_field st idx;
      size ← match r with
             | None => Some esize
             | Some (a, g) => v ← w_int W a g; Some (match v with Some v => w32 v | None => esize end)
             end;
      let y := set_size x size in
      let y := if f_opaque f then (if size =? 0 then set_null y else set_opaque y) else y in
      let y := if negb (i_opaque y) && ((esize =? 0) || (size <? esize)) then set_null y else y in
      st ← upd_info st idx (fun _ => y);
      Some (1, st).

    (** The handler table, src/mr_save.c:1617-1629, and its use, lines 1054-1060. *)
    Definition handle (t : Z) (idx : nat) (st : sst) : option (Z * sst) :=
      if (t =? T_FUNC) || (t =? T_FUNC_TYPE) then save_func idx st
      else if t =? T_STRING then save_string idx st
      else if t =? T_ENUM then save_enum idx st
      else if t =? T_STRUCT then save_struct idx st
      else if t =? T_ARRAY then save_array idx st
      else if t =? T_POINTER then save_pointer idx st
      else if union_type t then save_union idx st
      else Some (1, st).

    (** src/mr_save.c:1018-1031: the node as it is searched for and added. *)
    Definition new_info (data : Z) (f : fd) (count : Z) : info :=
      Info data (Some f) (f_type f) (f_aux f) (f_unnamed f) false false false (w32 (f_size f * count)) 0.
    (** Its links; the last two fields are the type tests of src/mr_save.c:1319-1334
        and src/mr_save.h:7. *)
    Definition new_link (f : fd) (par : nat) : node :=
      Node par 0 0 0 false false ((f_type f =? T_STRUCT) || union_type (f_type f))
        ((f_type f =? T_VOID) || (f_type f =? T_STRUCT) || (f_type f =? T_ARRAY) || union_type (f_type f)).

    (** src/mr_save.c:1051-1064: the node is added; [h] is the node of the same key
        found before it (0: none, lines 1047-1048). *)
    Definition add_node (data : Z) (f : fd) (count : Z) (h : nat) (st : sst) (par : nat) : option (Z * sst) :=
      let idx := length (s_info st) in
      let hs := fun k => if k =? key data then idx else s_heads st k in
      p ← add_child (Ptrs (lns st ++ [new_link f par]) (cache (s_ptrs st))) par idx;
      r ← handle (f_type f) idx (SSt p (s_info st ++ [set_chain (new_info data f count) h]) hs);
      let '(n, st) := (r : Z * sst) in
      x ← rd (s_info st) idx;
      nd ← rd (lns st) idx;
      fdp ← persistent_fd st (i_fdp x) (parent nd);
      st ← upd_info st idx (fun y => set_fdp y fdp);
      Some (n, st).

    (** src/mr_save.c:1012-1065, mr_save_inner (allocation succeeds). *)
    Definition save_step : saver := fun data f count st par =>
      let h := s_heads st (key data) in
      if Nat.eqb h 0 then add_node data f count 0 st par else
      r ← resolve_matched (S (length (s_info st))) st h (new_info data f count) par;
      let '(b, n, st) := (r : bool * Z * sst) in
      if (b : bool) then Some (n, st) else add_node data f count h st par.
  End Open.

  (** src/mr_save.c:1012-1065 with the recursive calls, at most [fuel] deep. *)
  Fixpoint save_inner (fuel : nat) : saver :=
    match fuel with
    | O => fun _ _ _ _ _ => None
    | S fuel => save_step (save_inner fuel)
    end.

  (** src/mr_save.c:1583-1586: the pointer of node [i] is followed. *)
  Definition followed (x : info) : bool :=
    (i_type x =? T_POINTER) && negb (i_aux x =? T_VOID) && negb (i_aux x =? T_NONE) && negb (i_null x || i_opaque x).

  (** src/mr_save.c:1582-1591: pointers are followed in the order of the nodes.
      [false]: a content was not saved. *)
  Fixpoint follow_loop (fuel depth : nat) (st : sst) (i : nat) : option (bool * sst) :=
    match fuel with
    | O => None
    | S fuel =>
      if Nat.ltb i (length (s_info st)) then
        x ← rd (s_info st) i;
        if followed x then
          r ← save_pointer_content (save_inner depth) i st;
          let '(n, st) := (r : Z * sst) in
          if n =? 0 then Some (false, st) else follow_loop fuel depth st (S i)
        else follow_loop fuel depth st (S i)
      else Some (true, st)
    end.

  (** src/mr_save.c:1424-1431: the biggest of the nodes at an address. *)
  Fixpoint bucket_loop (fuel : nat) (st : sst) (a : Z) (bucket best : nat) : option nat :=
    match fuel with
    | O => None
    | S fuel =>
      if Nat.eqb bucket 0 then Some best else
      x ← rd (s_info st) bucket;
      if i_data x =? a then
        if Nat.eqb best 0 then bucket_loop fuel st a (i_chain x) bucket
        else y ← rd (s_info st) best;
             bucket_loop fuel st a (i_chain x) (if i_size y <? i_size x then bucket else best)
      else bucket_loop fuel st a (i_chain x) best
    end.

  (** src/mr_save.c:1394-1454: first part of resolve_void_ptr_and_strings. *)
  Definition resolve_void (st : sst) (i : nat) : option sst :=
    x ← rd (s_info st) i;
    n ← rd (lns st) i;
    if i_type x =? T_POINTER then
      if ((i_aux x =? T_NONE) || (i_aux x =? T_VOID)) && negb (i_null x) then
        p ← w_ptr W (i_data x);
        st ← upd_info st i set_null;
        r ← bucket_loop (S (length (s_info st))) st p (s_heads st (key p)) 0;
        if Nat.eqb r 0 then Some st else make_ref st i r
      else Some st
    else if i_type x =? T_STRING then
      if is_ref n then Some st else upd_link st i (fun n => set_first_child n 0)
    else if i_type x =? T_CHAR_ARRAY then
      if Nat.eqb (parent n) 0 then Some st else
      px ← rd (s_info st) (parent n);
      if ((i_type px =? T_ARRAY) || (i_type px =? T_POINTER)) && negb (Nat.eqb (next n) 0) then
        y ← rd (s_info st) (next n);
        upd_info st i (fun x => set_size x (w32 (i_size x - i_size y)))
      else Some st
    else Some st.

  (** src/mr_save.c:1460-1474: references to the content of a string. *)
  Definition resolve_content (st : sst) (i : nat) : option sst :=
    x ← rd (s_info st) i;
    n ← rd (lns st) i;
    if is_ref n && negb (i_cref x) then
      c ← rd (lns st) (first_child n);
      if Nat.eqb (parent c) 0 then Some st else
      px ← rd (s_info st) (parent c);
      if i_type px =? T_STRING then
        st ← upd_link st i (fun n => set_first_child n (parent c));
        st ← upd_info st i set_cref;
        upd_link st (parent c) mark_referenced
      else Some st
    else Some st.

  (** src/mr_save.c:1489-1490: the loop of mr_post_process from node [i] on. *)
  Fixpoint post_loop (k : nat) (st : sst) (i : nat) : option sst :=
    match k with
    | O => Some st
    | S k => st ← resolve_void st i; st ← resolve_content st i; post_loop k st (S i)
    end.

  (** src/mr_save.c:1485-1493, mr_post_process; [fuel] bounds the traversal. *)
  Definition post_process (fuel : nat) (st : sst) : option sst :=
    st ← post_loop (length (s_info st) - 1)%nat st 1%nat;
    match dfs renumber_node fuel (lns st) 1%nat 1%nat with
    | Done true ns _ => Some (SSt (Ptrs ns (cache (s_ptrs st))) (s_info st) (s_heads st))
    | _ => None
    end.

  (** src/mr_save.c:1564-1575: node 0 stands for NULL. *)
  Definition save_init : sst :=
    SSt ptrs_init [Info 0 None T_NONE 0 false false false false 0 0] (fun _ => 0%nat).

  (** src/mr_save.c:1577. *)
  Definition root_fd (f : fd) : fd :=
    FD (f_type f) (f_aux f) (f_base f) (f_size f) (f_tdp f) (f_dim0 f) (f_dims f) (f_off f) (f_name f) true (f_np f) (f_opaque f) (f_szf f).

  (** src/mr_save.c:1553-1612, mr_save: [None] inside: the result is empty (lines
      1565, 1599-1603).  [fuel] bounds the loops, [depth] the nesting of
      structures. *)
  Definition mr_save (fuel depth : nat) (data : Z) (f : fd) : option (option sst) :=
    if data =? 0 then Some None else
    r ← save_inner depth data (root_fd f) 1 save_init 0%nat;
    let '(n, st) := (r : Z * sst) in
    if n =? 0 then Some None else
    r ← follow_loop fuel depth st 1%nat;
    let '(b, st) := (r : bool * sst) in
    if (b : bool) then st ← post_process fuel st; Some (Some st) else Some None.
End Save.
