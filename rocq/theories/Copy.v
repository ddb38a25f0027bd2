(** How the stages of saving to JSON and loading fit together: the table made by
    mr_save (Save.v) is what mr_json_save prints (Json.v), the table made by the
    parser is what mr_load loads (Load.v), with the same type descriptors. *)
From stdpp Require Import countable.
From Verif Require Import Base Ptrs DfsProof Save Json.
From Verif Require Load.
Local Open Scope Z_scope.

Section Print.
  (** Data and types; the names of fields; the characters at an address up to the
      terminating zero; what the handlers of the other types print for the value of
      a type at an address, declared by a descriptor. *)
  Context (W : world) (names : nat -> list Z) (cstr : Z -> list Z) (shown : Z -> Z -> fd -> jkind).

  (** json_save_tbl by [mr_type], src/json_save.c:168-201; strings are printed by
      lines 88-92. *)
  Definition print_kind (x : info) : jkind :=
    if (i_type x =? T_STRUCT) || union_type (i_type x) then KStruct
    else if (i_type x =? T_ARRAY) || (i_type x =? T_POINTER) then KList
    else if i_type x =? T_STRING then match w_ptr W (i_data x) with Some p => KStr (cstr p) | None => KNone end
    else match i_fdp x with Some h => shown (i_data x) (i_type x) h | None => KNone end.

  (** The members of a node json_pre_print_node looks at, src/json_save.c:203-256;
      the name is that of its field descriptor (lines 230-233). *)
  Definition print_info (x : info) : jinfo :=
    JInfo (print_kind x) (i_unnamed x) (i_null x) (i_cref x)
      (match i_fdp x with Some h => names (f_name h) | None => [] end).

  (** Names as the loader compares them, src/metaresc.c:1656-1667. *)
  Definition name_code (s : list Z) : N := Npos (encode s).

  (** The rows of the handler table of the loader, src/mr_load.c:804-838, by [mr_type].
      MR_TYPE_NONE, which JSON cannot show, is left out. *)
  Definition load_kind (c : Z) : Load.kind :=
    if c =? T_NONE then Load.Unsupported
    else if c =? T_STRING then Load.Str
    else if c =? T_CHAR_ARRAY then Load.CharArray
    else if c =? T_VOID then Load.Void
    else if c =? T_STRUCT then Load.Struct
    else if c =? T_ENUM then Load.Enum
    else if c =? T_ARRAY then Load.Array
    else if c =? T_POINTER then Load.Pointer
    else if c =? T_NAMED_ANON_UNION then Load.NamedAnon
    else if union_type c then Load.Struct
    else Load.Scalar (type_size c).

  (** mr_stype_t (src/mr_protos.h:309-324) as Load.v has it: a bit-field is a scalar
      of the size of its field. *)
  Definition load_stype (g : fd) : Load.stype :=
    Load.SType (if f_type g =? T_BITFIELD then Load.Scalar (f_size g) else load_kind (f_type g)) (load_kind (f_aux g))
      (f_size g) (replicate (f_dims g) (f_dim0 g)) (f_tdp g).

  (** mr_fd_t, src/mr_protos.h:358-390. *)
  Definition load_fd (g : fd) : Load.fd :=
    Load.Fd (Some (name_code (names (f_name g)))) (f_unnamed g) (f_off g) (load_stype g).

  (** mr_td_t, src/mr_protos.h:454-467; its [mr_type] is the one of [mr_ptr_fd]. *)
  Definition load_td (t : td) : Load.td :=
    Load.Td (load_kind (f_base (t_ptr_fd t))) (t_size t) (map load_fd (t_fields t)).

  (** The registered types, src/mr_protos.h:454-467. *)
  Definition load_env : list Load.td := map load_td (w_tds W).

  (** [value_type] and [load_params] of a parsed node, src/mr_protos.h:497-529. *)
  Definition load_value (v : lval) : Load.value :=
    match v with
    | LInt z => Load.VInt z
    | LStr s => Load.VStr (Some s)
    | LSub s => Load.VSub s
    | LNone | LFloat _ => Load.VOther
    end.

  (** A node of the parsed tree as mr_load sees it, src/mr_protos.h:572-597: the
      parser sets neither the type nor the reference flags (src/json_load.y:93-174). *)
  Fixpoint load_node (ns : list node) (ps : list pinfo) (t : tree) : Load.node :=
    match t with
    | T i ks =>
      let n := default fresh_node (ns !! i) in
      let p := default pinfo0 (ps !! i) in
      Load.Node i (parent n) (Z.of_nat (pub_idx n))
        (match p_name p with Some s => Some (Some (name_code s), None) | None => None end)
        false (p_null p) None (load_value (p_val p)) (map (load_node ns ps) ks)
    end.
End Print.
