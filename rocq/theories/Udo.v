(** Model of the detection of the types of union discriminator overrides
    (src/mr_udo_init.c) and of the pointers registered in mr_ptr_t
    (src/metaresc.c:1212-1239). *)
From Verif Require Import Base.

(** [mr_ud_override_t], src/mr_protos.h:296-302: the value, the name of its type ([None]
    is NULL, else the address of the string) and whether typed_value points to the
    value. *)
Record uover := Ov { o_value : Z; o_type : option Z; o_typed : bool }.

(** [mr_fd_t], src/mr_protos.h:358-390: the name, the type descriptor, meta ([None] is
    NULL) and the array of overrides with the number of its elements, MR_SIZE divided by
    the size of one; [None] when res is NULL or res_type is not "mr_ud_override_t".
    Names are numbers, equal for equal strings. *)
Record ufield := Fl { f_name : nat; f_tdp : option nat; f_meta : option nat; f_udo : option nat; f_count : nat }.

(** [mr_td_t], src/mr_protos.h:454-468: the bit of MR_STRUCT_TYPES, the name, its address,
    the array of the fields and the content of field_by_name in the order of
    mr_ic_foreach. *)
Record utd := Td { t_struct : bool; t_name : nat; t_str : Z; t_fields : list ufield; t_index : list ufield }.

(** [mr_type_ref_t], src/mr_udo_init.c:6-11. *)
Record tref := Tr { r_tdp : nat; r_ref : list nat }.

(** src/metaresc.c:1656-1667, mr_get_fd_by_name for a type that is not NULL: the field of
    this name in field_by_name. *)
Definition fd_by_name (t : utd) (name : nat) : option ufield :=
  if negb (t_struct t) then None else find (fun f => Nat.eqb (f_name f) name) (t_index t).

(** src/metaresc.c:1212-1239, mr_register_type_pointer for the type [k], [u] being the
    descriptor of mr_ptr_t (lines 1216-1221): a field with the name of the type is added
    to its index.  The indexes of all fields (lines 1235-1236) are not part of this model. *)
Definition register_pointer (tds : list utd) (u k : nat) : option (list utd) :=
  un ← rd tds u;
  t ← rd tds k;
  match fd_by_name un (t_name t) with
  | Some _ => Some tds
  | None =>
    f ← rd (t_fields un) 0;
    wr tds u (Td (t_struct un) (t_name un) (t_str un) (t_fields un)
      (t_index un ++ [Fl (t_name t) (Some k) (f_meta f) (f_udo f) (f_count f)]))
  end.

(** src/metaresc.c:1959-1969: the calls for the registered types in turn. *)
Fixpoint register_pointers (tds : list utd) (u : nat) (ks : list nat) : option (list utd) :=
  match ks with
  | [] => Some tds
  | k :: ks => tds ← register_pointer tds u k; register_pointers tds u ks
  end.

Section Udo.
(** All type descriptors; a descriptor is its index. *)
Context (tds : list utd).

(** src/mr_udo_init.c:36-52, mr_append_td for all types of mr_conf.type_by_name in the
    order [order] of mr_ic_foreach (line 220). *)
Fixpoint append_tds (order : list nat) : option (list tref) :=
  match order with
  | [] => Some []
  | k :: order =>
    t ← rd tds k;
    ts ← append_tds order;
    Some (if t_struct t then Tr k [] :: ts else ts)
  end.

(** mr_ic_find in the index by descriptors, src/mr_udo_init.c:54-74, 89-90: the position
    of the type [k], the first one. *)
Fixpoint tr_find (types : list tref) (k : nat) : option nat :=
  match types with
  | [] => None
  | r :: types => if Nat.eqb (r_tdp r) k then Some 0 else i ← tr_find types k; Some (S i)
  end.

(** src/mr_udo_init.c:81-101, mr_append_ref for a field of the type at position [idx].  A
    field without descriptor is not found because no descriptor of the index is NULL. *)
Definition append_ref (types : list tref) (idx : nat) (f : ufield) : option (list tref) :=
  match k ← f_tdp f; tr_find types k with
  | Some j => r ← rd types j; wr types j (Tr (r_tdp r) (r_ref r ++ [idx]))
  | None => Some types
  end.

(** mr_ic_foreach of src/mr_udo_init.c:119 over the fields of one type. *)
Fixpoint append_refs (types : list tref) (idx : nat) (fs : list ufield) : option (list tref) :=
  match fs with
  | [] => Some types
  | f :: fs => types ← append_ref types idx f; append_refs types idx fs
  end.

(** src/mr_udo_init.c:103-124, mr_udo_build_ref_graph: the loop for [n] more types. *)
Fixpoint build_graph (types : list tref) (i n : nat) : option (list tref) :=
  match n with
  | O => Some types
  | S n =>
    r ← rd types i;
    t ← rd tds (r_tdp r);
    types ← append_refs types i (t_index t);
    build_graph types (S i) n
  end.

Section Dfs.
(** The graph and the name looked for, src/mr_udo_init.c:127. *)
Context (types : list tref) (name : nat).

(** src/mr_udo_init.c:126-151, mr_udo_dfs: the status with the array [visited] and
    [*discriminator_type]. *)
Fixpoint udo_dfs (fuel i : nat) (visited : list bool) (disc : option Z) : option (bool * list bool * option Z) :=
  match fuel with
  | O => None
  | S fuel =>
    v ← rd visited i;
    if (v : bool) then Some (true, visited, disc)
    else
      visited ← wr visited i true;
      r ← rd types i;
      t ← rd tds (r_tdp r);
      match f ← fd_by_name t name; f_tdp f with
      | Some d =>
        td ← rd tds d;
        match disc with
        | None => Some (true, visited, Some (t_str td))
        | Some s => Some (Z.eqb s (t_str td), visited, disc)
        end
      | None =>
        (fix loop (refs : list nat) (visited : list bool) (disc : option Z) :=
           match refs with
           | [] => Some (true, visited, disc)
           | j :: refs =>
             x ← udo_dfs fuel j visited disc;
             let '(ok, visited, disc) := (x : bool * list bool * option Z) in
             if ok then loop refs visited disc else Some (false, visited, disc)
           end) (r_ref r) visited disc
      end
  end.
End Dfs.

(** The loop of src/mr_udo_init.c:164-166: is there an override without type among the
    first [n]? *)
Fixpoint some_untyped (udo : list uover) (i n : nat) : option bool :=
  match n with
  | O => Some false
  | S n =>
    o ← rd udo i;
    match o_type o with None => Some true | Some _ => some_untyped udo (S i) n end
  end.

(** The loop of src/mr_udo_init.c:177-182. *)
Fixpoint set_types (udo : list uover) (s : Z) (i n : nat) : option (list uover) :=
  match n with
  | O => Some udo
  | S n =>
    o ← rd udo i;
    udo ← match o_type o with
          | None => wr udo i (Ov (o_value o) (Some s) true)
          | Some _ => Some udo
          end;
    set_types udo s (S i) n
  end.

(** src/mr_udo_init.c:153-183, mr_udo_detect_types.  [ovs] are the arrays of overrides. *)
Definition detect_types (types : list tref) (idx : nat) (f : ufield) (ovs : list (list uover)) : option (list (list uover)) :=
  match f_udo f, f_tdp f, f_meta f with
  | Some a, Some _, Some name =>
    udo ← rd ovs a;
    u ← some_untyped udo 0 (f_count f);
    if (u : bool) then
      x ← udo_dfs types name (S (length types)) idx (replicate (length types) false) None;
      match (x : bool * list bool * option Z) with
      | (true, _, Some s) => udo ← set_types udo s 0 (f_count f); wr ovs a udo
      | _ => Some ovs
      end
    else Some ovs
  | _, _, _ => Some ovs
  end.

(** src/mr_udo_init.c:193-194: the fields of one type. *)
Fixpoint detect_fields (types : list tref) (idx : nat) (fs : list ufield) (ovs : list (list uover)) : option (list (list uover)) :=
  match fs with
  | [] => Some ovs
  | f :: fs => ovs ← detect_types types idx f ovs; detect_fields types idx fs ovs
  end.

(** src/mr_udo_init.c:185-196, mr_udo_foreach: [n] more types. *)
Fixpoint udo_foreach (types : list tref) (i n : nat) (ovs : list (list uover)) : option (list (list uover)) :=
  match n with
  | O => Some ovs
  | S n =>
    r ← rd types i;
    t ← rd tds (r_tdp r);
    ovs ← detect_fields types i (t_fields t) ovs;
    udo_foreach types (S i) n ovs
  end.

(** src/mr_udo_init.c:213-236, mr_udo_init.  [alloc]: all allocations succeed; else the
    function ends before line 232 (lines 221-230).  The release of memory is not
    modelled. *)
Definition udo_init (order : list nat) (alloc : bool) (ovs : list (list uover)) : option (list (list uover)) :=
  if negb alloc then Some ovs
  else
    types ← append_tds order;
    types ← build_graph types 0 (length types);
    udo_foreach types 0 (length types) ovs.
End Udo.
