(** Vocabulary of the statements about mr_save (src/mr_save.c:1553-1612). *)
From Verif Require Import Base Ptrs ChildrenProof DfsProof Save.
Local Open Scope Z_scope.

(** Nodes of these types lead to other data. *)
Definition ptr_or_str (t : Z) : bool := (t =? T_POINTER) || (t =? T_STRING).
(** The type descriptor is part of what the type is. *)
Definition compound (t : Z) : bool := (t =? T_STRUCT) || (t =? T_ENUM) || union_type t.
(** Types with a size of their own. *)
Definition sized (t : Z) : bool :=
  negb ((t =? T_NONE) || (t =? T_CHAR_ARRAY) || (t =? T_VOID) || (t =? T_BITFIELD) || (t =? T_ARRAY) || (t =? T_POINTER)).

Section Spec.
  Context (W : world).

  (** Number of bytes of a value of type [t] with type descriptor [k]. *)
  Definition unit_size (t : Z) (k : option nat) : option Z :=
    if type_size t =? 0 then match k with Some k => t_size <$> w_tds W !! k | None => Some 0 end
    else Some (type_size t).

  (** ** Descriptors the theorems apply to *)
  (** The type in the type descriptor; void without one. *)
  Definition base_of (k : option nat) : Z :=
    match k with Some k => match w_tds W !! k with Some t => f_base (t_ptr_fd t) | None => T_VOID end | None => T_VOID end.
  (** What a pointer leads to; arrays are left out. *)
  Definition target_type (a : Z) : Prop := a <> T_CHAR_ARRAY /\ a <> T_ARRAY /\ 0 <= a <= T_NAMED_ANON_UNION.
  (** A single value: it has room for its type; a pointer has neither a size
      field nor an opaque target and does not lead to an array. *)
  Definition leaf_ok (f : fd) (t a size : Z) : Prop :=
    0 <= size < 2 ^ 32 /\
    (sized t = true -> exists u, unit_size t (f_tdp f) = Some u /\ u <= size) /\
    (t = T_POINTER -> f_szf f = None /\ f_opaque f = false /\ target_type a /\ (a = T_POINTER -> target_type (base_of (f_tdp f)))).
  (** An array of [f_dims] dimensions with [f_dim0] elements in each of them. *)
  Definition fd_ok (f : fd) : Prop :=
    0 <= f_size f < 2 ^ 32 /\ (f_np f = false -> f_base f = base_of (f_tdp f)) /\
    if f_type f =? T_ARRAY then
      (1 <= f_dims f)%nat /\ 0 <= f_dim0 f /\ f_aux f <> T_ARRAY /\
      (f_dim0 f <> 0 -> leaf_ok f (f_aux f) (f_base f) (f_size f / f_dim0 f ^ Z.of_nat (f_dims f)))
    else leaf_ok f (f_type f) (f_aux f) (f_size f).
  Definition wf_world : Prop := forall k t, w_tds W !! k = Some t ->
    0 <= t_size t < 2 ^ 32 /\ Forall (fun f => fd_ok f /\ f_np f = false) (t_fields t) /\
    f_np (t_ptr_fd t) = false /\ f_tdp (t_ptr_fd t) = Some k.
  Definition wf_root (f : fd) : Prop :=
    fd_ok f /\ (f_np f = true -> exists k t, f_tdp f = Some k /\ w_tds W !! k = Some t).

  (** ** What a node stands for *)
  (** The elements of an array: of one dimension less, or single values. *)
  Definition part (g : fd) : fd :=
    FD (if Nat.eqb (f_dims g) 1 then f_aux g else T_ARRAY) (if Nat.eqb (f_dims g) 1 then f_base g else f_aux g)
      (f_base g) (f_size g / f_dim0 g) (f_tdp g) (f_dim0 g) (if Nat.eqb (f_dims g) 1 then f_dims g else (f_dims g - 1)%nat) 0 (f_name g)
      true true (f_opaque g) (f_szf g).

  (** What a pointer leads to: a single value of the type it is declared with; for
      a pointer to a pointer the type descriptor tells what the second one leads to. *)
  Definition content (g : fd) : fd :=
    FD (f_aux g) (base_of (f_tdp g)) 0 (match unit_size (f_aux g) (f_tdp g) with Some u => u | None => 0 end) (f_tdp g) 0 0 0 0 true true false None.

  (** The number of elements in use; [encl] is the address and the type of the
      structure the array is a field of. *)
  Definition in_use (encl : option (Z * nat)) (g : fd) (cnt : Z) : Prop :=
    if f_dim0 g =? 0 then cnt = 0
    else if negb (Nat.eqb (f_dims g) 1) || f_np g then cnt = f_dim0 g
    else match f_szf g with
    | None => cnt = f_dim0 g
    | Some r =>
      0 <= cnt <= f_dim0 g /\
      forall pa k t, encl = Some (pa, k) -> w_tds W !! k = Some t ->
        match (match r with
               | ByOffset o => last (filter (fun h => f_off h = o) (t_fields t))
               | ByName s => head (filter (fun h => f_name h = s) (t_fields t))
               end) with
        | None => cnt = f_dim0 g
        | Some h =>
          if pa + f_off h =? 0 then cnt = f_dim0 g else
          exists v, w_int W (pa + f_off h) h = Some (Some v) /\
            cnt = if s64 v <=? 0 then 0 else Z.min (f_dim0 g) (w32 (s64 v / (f_size g / f_dim0 g)))
        end
    end.

  (** The member of a union that is in use. *)
  Definition chosen (a : Z) (g : fd) : option fd :=
    k ← f_tdp g; t ← w_tds W !! k; d ← w_disc W a k; t_fields t !! d.

  Section Result.
    Context (st : sst).

    (** Node [i] stands for the data at [a] described by [g]: it carries the
        descriptor of the field, or one of the same type for descriptors that do
        not outlive the call.  Only pointers, strings and functions can be NULL. *)
    Definition stands (i : nat) (g : fd) (a : Z) (x : info) (n : node) : Prop :=
      s_info st !! i = Some x /\ lns st !! i = Some n /\
      i_data x = a /\ i_type x = f_type g /\ i_unnamed x = f_unnamed g /\ (f_type g <> T_ENUM -> i_aux x = f_aux g) /\
      (ptr_or_str (f_type g) || ((f_type g =? T_FUNC) || (f_type g =? T_FUNC_TYPE)) = false -> i_null x = false) /\
      exists h, i_fdp x = Some h /\ f_np h = false /\ f_tdp h = f_tdp g /\ (f_np g = false -> h = g).

    (** A node that is printed with its number so that others can refer to it; the
        characters of a string have no node of their own in the text. *)
    Definition target (r : nat) (xr : info) : Prop :=
      r <> 0%nat /\
      exists nr, s_info st !! r = Some xr /\ lns st !! r = Some nr /\ referenced nr = true /\ pub_idx nr <> 0%nat /\
        (parent nr <> 0%nat -> forall q, s_info st !! parent nr = Some q -> i_type q <> T_STRING).

    (** The node refers to the characters at [p]: a string that leads there and
        shows them, or an array of characters. *)
    Definition to_text (x : info) (n : node) (p : Z) : Prop :=
      exists xr, target (first_child n) xr /\
        if i_cref x then i_type xr = T_STRING /\ w_ptr W (i_data xr) = Some p /\
          exists nr, lns st !! first_child n = Some nr /\ is_ref nr = false
        else i_type xr = T_CHAR_ARRAY /\ i_data xr = p.

    (** Nodes without children. *)
    Definition bare (g : fd) (a : Z) (x : info) (n : node) : Prop :=
      if f_type g =? T_POINTER then
        exists p u, w_ptr W a = Some p /\ (p <> 0 -> unit_size (f_aux g) (f_tdp g) = Some u) /\
          if (p =? 0) || (u =? 0) then i_null x = true /\ is_ref n = false
          else if (f_aux g =? T_VOID) || (f_aux g =? T_NONE) then
            (* of unknown type: any node there, or nothing *)
            i_null x = true /\
            if is_ref n then (exists xr, target (first_child n) xr /\ i_cref x = false /\ i_data xr = p) \/ to_text x n p
            else forall r xr, r <> 0%nat -> s_info st !! r = Some xr -> i_data xr <> p
          else
            (* typed: a node of this type, never another pointer *)
            i_null x = false /\ is_ref n = true /\ i_cref x = false /\ f_aux g <> T_POINTER /\
            exists xr, target (first_child n) xr /\ i_data xr = p /\ i_type xr = f_aux g /\
              (compound (f_aux g) = true -> exists h, i_fdp xr = Some h /\ f_tdp h = f_tdp g)
      else if f_type g =? T_STRING then
        exists p, w_ptr W a = Some p /\ i_null x = (p =? 0) /\ (p = 0 -> is_ref n = false) /\ (is_ref n = true -> to_text x n p)
      else if (f_type g =? T_FUNC) || (f_type g =? T_FUNC_TYPE) then
        is_ref n = false /\ exists p, w_ptr W a = Some p /\ i_null x = (p =? 0)
      else is_ref n = false /\ f_type g <> T_STRUCT /\ f_type g <> T_ARRAY /\ union_type (f_type g) = false.

    (** The tree [t] shows the data at [a] described by [g]; [encl] is the structure
        it is a field of. *)
    Inductive describes : option (Z * nat) -> fd -> Z -> tree -> Prop :=
      | d_struct encl g a i ks x n k t : stands i g a x n -> f_type g = T_STRUCT -> is_ref n = false ->
          f_tdp g = Some k -> w_tds W !! k = Some t ->
          Forall2 (fun f s => describes (Some (a, k)) f (a + f_off f) s) (t_fields t) ks -> describes encl g a (T i ks)
      | d_array encl g a i ks x n cnt : stands i g a x n -> f_type g = T_ARRAY -> is_ref n = false -> in_use encl g cnt ->
          Forall2 (fun j s => describes None (part g) (a + j * f_size (part g)) s) (seqZ 0 cnt) ks -> describes encl g a (T i ks)
      | d_union encl g a i x n h s : stands i g a x n -> union_type (f_type g) = true -> is_ref n = false ->
          chosen a g = Some h -> describes None h (a + f_off h) s -> describes encl g a (T i [s])
      | d_no_union encl g a i x n : stands i g a x n -> union_type (f_type g) = true -> is_ref n = false ->
          chosen a g = None -> describes encl g a (T i [])
      | d_pointer encl g a i x n p s : stands i g a x n -> f_type g = T_POINTER -> is_ref n = false -> i_null x = false ->
          w_ptr W a = Some p -> p <> 0 -> f_aux g <> T_VOID -> f_aux g <> T_NONE ->
          describes None (content g) p s -> describes encl g a (T i [s])
      | d_bare encl g a i x n : stands i g a x n -> bare g a x n -> describes encl g a (T i []).
  End Result.
End Spec.
