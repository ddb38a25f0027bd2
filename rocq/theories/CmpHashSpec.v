(** Specification of comparison and hashing of saved structures: the value a
    node stands for and equality of values, stated without the model's
    comparison functions. *)
From Verif Require Import Base Bitfield HashStr Ptrs DfsProof CmpHash.
Local Open Scope Z_scope.

(** Values of nodes. *)
Inductive value :=
  | VText (t : option (list Z))   (* a string, [None] for NULL *)
  | VNum (z : Z)                  (* an integer, a truth value, a bit-field or an address of a function *)
  | VReal (x : fval)
  | VComplex (re im : fval)
  | VNothing.                     (* no value of its own: structures, pointers, ... *)

(** The value of a node as its type says; [None] when it cannot be read. *)
Definition value_of (e : env) (n : cnode) : option value :=
  match kind_of (c_type n) with
  | KString =>
    p ← bytes_at (c_data n) 0 8;
    if le_num p =? 0 then Some (VText None) else t ← text e (le_num p); Some (VText (Some t))
  | KCharArray => t ← text_at (c_data n); Some (VText (Some t))
  | KBool => b ← rd_bool (c_data n); Some (VNum b)
  | KInt size sgn => bs ← bytes_at (c_data n) 0 size; Some (VNum (le_int sgn bs))
  | KFloat f => x ← rd_float f (c_data n) 0; Some (VReal x)
  | KComplex f => r ← rd_float f (c_data n) 0; i ← rd_float f (c_data n) (fmt_step f); Some (VComplex r i)
  | KEnum =>
    match enum_kind (c_aux n) with
    | Some (size, sgn) => bs ← bytes_at (c_data n) 0 size; Some (VNum (le_int sgn bs))
    | None => Some VNothing
    end
  | KBitfield => v ← rd_bits (fd e (c_fdp n)) (c_data n); Some (VNum v)
  | KFunc => bs ← bytes_at (c_data n) 0 8; Some (VNum (le_num bs))
  | KCompound | KOther => Some VNothing
  end.

(** Equal values: all NaNs are one value, and so are all complex numbers with a
    NaN in them. *)
Definition has_nan (r i : fval) : Prop := r = FNan \/ i = FNan.
Definition same_value (a b : value) : Prop :=
  match a, b with
  | VComplex r i, VComplex r' i' => (has_nan r i /\ has_nan r' i') \/ (r = r' /\ i = i')
  | _, _ => a = b
  end.

(** The members of a node which describe it and its place in the table. *)
Definition described (n : cnode) :=
  (c_fdp n, c_type n, c_aux n, c_flags n, c_vtype n, c_size n, (c_idx n, c_parent n, c_next n, c_first n)).

(** Structurally equal nodes; nodes without a number are not part of the structure. *)
Definition same_node (e : env) (x y : cnode) : Prop :=
  (c_idx x = 0%nat /\ c_idx y = 0%nat) \/
  (c_idx x <> 0%nat /\ described x = described y /\
   exists a b, value_of e x = Some a /\ value_of e y = Some b /\ same_value a b).

(** Structurally equal tables: node by node, the first one aside. *)
Definition same_struct (e : env) (xs ys : list cnode) : Prop :=
  Forall2 (same_node e) (drop 1 xs) (drop 1 ys) /\ length xs = length ys.

(** A node as the machine can hold it, with a readable value. *)
Definition fits (w z : Z) : Prop := 0 <= z < 2 ^ w.
Definition node_ok (e : env) (n : cnode) : Prop :=
  fits 64 (c_fdp n) /\ fits 8 (c_type n) /\ fits 8 (c_aux n) /\ fits 8 (c_flags n) /\ fits 8 (c_vtype n) /\
  fits 32 (c_size n) /\ fits 32 (Z.of_nat (c_idx n)) /\ fits 32 (Z.of_nat (c_parent n)) /\
  fits 32 (Z.of_nat (c_next n)) /\ fits 32 (Z.of_nat (c_first n)) /\
  Forall (fun b => 0 <= b < 256) (c_data n) /\
  (c_idx n <> 0%nat -> exists v, value_of e n = Some v).

(** A table with a first node, all nodes readable, over texts of bytes 1 to 255. *)
Definition table_ok (e : env) (ns : list cnode) : Prop :=
  ns <> [] /\ Forall (node_ok e) ns /\
  (forall p t, text e p = Some t -> Forall (fun c => 1 <= c <= 255) t).

(** No complex number with a number as real part and NaN as imaginary part. *)
Definition no_half_nan (e : env) (ns : list cnode) : Prop :=
  forall n r, n ∈ ns -> value_of e n = Some (VComplex r FNan) -> r = FNan.

(** Contents for which equality and hash agree: no negative zero, and
    enumerations whose type descriptor and detected type have one size. *)
Definition plain_zero (f : fmt) (mem : list Z) (pos : nat) : Prop :=
  forall bs, bytes_at mem pos (fmt_size f) = Some bs -> le_num bs <> 2 ^ (8 * Z.of_nat (fmt_size f) - 1).
Definition hash_ok (e : env) (n : cnode) : Prop :=
  match kind_of (c_type n) with
  | KFloat f => plain_zero f (c_data n) 0
  | KComplex f => plain_zero f (c_data n) 0 /\ plain_zero f (c_data n) (fmt_step f)
  | KEnum => exists size sgn, enum_kind (c_aux n) = Some (size, sgn) /\ f_enum (fd e (c_fdp n)) = Some (Z.of_nat size)
  | _ => True
  end.

(** The nodes of a table form a tree below node 1, all of them numbered and
    hashable; references lead into the tree. *)
Definition hashable (e : env) (ns : list cnode) (t : tree) : Prop :=
  root t = 1%nat /\ tree_at (map link_of ns) 0 0 t /\ NoDup (nodes t) /\
  (forall i n, i ∈ nodes t -> ns !! i = Some n ->
     c_idx n <> 0%nat /\ hash_ok e n /\ (c_first n = 0%nat \/ c_first n ∈ nodes t)).

(** The hash of a tree, by recursion: a structure mixes the hashes of its
    members in their order; any other node has the hash of its value ([None]:
    the value cannot be read), nodes without a value have hash 0. *)
Definition leaf_hash (e : env) (n : cnode) : option Z :=
  match kind_of (c_type n) with
  | KString | KCharArray =>
    v ← value_of e n; match v with VText t => hash_str t | _ => None end
  | KBool => v ← value_of e n; match v with VNum z => Some z | _ => None end
  | KInt size _ => hash_block (c_data n) (Z.of_nat size)
  | KFloat f =>
    v ← value_of e n;
    match v with VReal FNan => Some (2 ^ 32 - 1) | _ => hash_block (c_data n) (Z.of_nat (fmt_size f)) end
  | KComplex f =>
    v ← value_of e n;
    match v with
    | VComplex FNan _ | VComplex _ FNan => Some (2 ^ 32 - 1)
    | _ => match f with
           | F32 => hash_block (c_data n) 8
           | F64 => hash_block (c_data n) 16
           | F80 => a ← hash_block (c_data n) 10; b ← hash_block (drop 16 (c_data n)) 10; Some ((a + b) mod 2 ^ 32)
           end
    end
  | KEnum => match f_enum (fd e (c_fdp n)) with Some size => hash_block (c_data n) size | None => Some 0 end
  | KBitfield => v ← value_of e n; match v with VNum z => hash_block (num_le 16 z) 16 | _ => None end
  | KFunc => hash_block (c_data n) 8
  | KCompound | KOther => Some 0
  end.
Definition mix_members (hs : list Z) : Z := foldl (fun h k => (h * 3 + k + 1) mod 2 ^ 32) 0 hs.
Fixpoint tree_hash (e : env) (ns : list cnode) (t : tree) : Z :=
  match t with
  | T i ks =>
    match ns !! i with
    | None => 0
    | Some n =>
      match kind_of (c_type n) with
      | KCompound => mix_members (map (tree_hash e ns) ks)
      | _ => default 0 (leaf_hash e n)
      end
    end
  end.
