(** Vocabulary of C76: parsed trees which fit a type, and what memory must hold
    after a load (src/mr_load.c:849-924). *)
From Verif Require Import Base Load LoadSpec.
Local Open Scope Z_scope.

Section fits.
(** The types, the handler of scalars, the tree. *)
Context (env : list td) (leaf : node -> stype -> bool * bool) (root : node).
(** The type each node has to be loaded with, and its offset: from the structure or
    array around it, or from the start of the block behind a pointer.  Nodes are given
    by their indices. *)
Context (ty : nat -> stype) (off : nat -> Z).

(** Name and type descriptor of the node, as far as given, are those of the field. *)
Definition suits (g : fd) (k : node) : Prop :=
  match n_fd k with
  | None => True
  | Some (name, t) =>
    (n_typed k = true -> t = s_td (f_ty g)) /\ (f_unnamed g = true \/ name = None \/ f_name g = None \/ name = f_name g)
  end.

(** The same for elements, which have no name. *)
Definition suits_type (t : stype) (k : node) : Prop :=
  match n_fd k with Some (_, t') => n_typed k = true -> t' = s_td t | None => True end.

(** What an array element and what a pointer leads to is described by. *)
Definition elements_of (ks : list node) (T : stype) : Prop :=
  forall x k, ks !! x = Some k -> suits_type T k /\ ty (n_idx k) = T /\ off (n_idx k) = Z.of_nat x * s_size T.

(** The node can be loaded with its type.  Values of scalars are accepted by the
    handler; the values of a structure go to different fields; there are not more
    elements than the array has. *)
Definition fits (nd : node) : Prop :=
  let t := ty (n_idx nd) in
  match s_kind t with
  | Scalar _ | Enum => n_kids nd = [] /\ leaf nd t = (true, true)
  | CharArray => n_kids nd = [] /\ exists s, n_val nd = VSub s \/ n_val nd = VStr (Some s)
  | Str => n_kids nd = [] /\ (n_null nd = true \/ n_ref nd <> None \/ n_val nd <> VOther)
  | Void => n_kids nd = []
  | Struct =>
    exists d is, get_td env (s_td t) = Some d /\ length is = length (n_kids nd) /\ NoDup is /\
      forall x k, n_kids nd !! x = Some k ->
        exists i g, is !! x = Some i /\ t_fields d !! i = Some g /\ suits g k /\
          field_for (t_fields d) (n_fd k) (match x with O => None | S y => is !! y end) i g /\
          ty (n_idx k) = f_ty g /\ off (n_idx k) = f_off g
  | Array =>
    exists c, s_dims t !! 0%nat = Some c /\ Z.of_nat (length (n_kids nd)) <= c /\ (c <> 0 -> s_size t <> 0) /\
      elements_of (n_kids nd) (elem_ty env t c)
  | Pointer =>
    n_kids nd = [] \/
    n_null nd = false /\ asks_none nd /\ s_size (f_ty (target_fd env t)) <> 0 /\
      elements_of (n_kids nd) (f_ty (target_fd env t))
  | NamedAnon | Unsupported => False
  end.

Definition tree_fits (f : fd) : Prop :=
  ty (n_idx root) = f_ty f /\ off (n_idx root) = 0 /\ suits f root /\ forall m, m ∈ subtree root -> fits m.
End fits.

(** * What is in memory *)
(** The store does not touch the [n] bytes at [a]. *)
Definition away (x : store) (a : addr) (n : Z) : Prop :=
  (st_at x).1 <> a.1 \/ (st_at x).2 + width (st_what x) <= a.2 \/ a.2 + n <= (st_at x).2.

(** The [n] bytes at [a] hold the scalar of node [idx]: it was stored there and only
    other scalars (bit-fields next to it) were stored to some of the bytes since. *)
Definition scalar_at (l : list store) (a : addr) (n : Z) (idx : nat) : Prop :=
  exists l1 l2, l = l1 ++ Store a (WScalar idx n) :: l2 /\
    Forall (fun x => away x a n \/ exists j n', st_what x = WScalar j n' /\ j <> idx) l1.

(** The same for types that are never bit-fields. *)
Definition alone_at (l : list store) (a : addr) (n : Z) (idx : nat) : Prop :=
  exists l1 l2, l = l1 ++ Store a (WScalar idx n) :: l2 /\ Forall (fun x => away x a n) l1.

(** The text [t] is at [a], cut to [n] characters, with a zero after it if there is room. *)
Definition chars_at (l : list store) (a : addr) (n : Z) (t : list Z) : Prop :=
  (forall i c, Z.of_nat i < n -> t !! i = Some c -> char_at l (shift a (Z.of_nat i)) = Some c) /\
  (Z.of_nat (length t) < n -> char_at l (shift a (Z.of_nat (length t))) = Some 0).

(** The block [b] holds the string [t]: its characters and a zero, blocks being zeroed
    when they are made. *)
Definition string_in (l : list store) (b : nat) (t : list Z) : Prop :=
  (forall i c, t !! i = Some c -> char_at l (b, Z.of_nat i) = Some c) /\
  (char_at l (b, Z.of_nat (length t)) = Some 0 \/
   forall x, x ∈ l -> (st_at x).1 = b -> (st_at x).2 + width (st_what x) <= Z.of_nat (length t)).

(** The text of a node. *)
Definition text (nd : node) (t : list Z) : Prop := n_val nd = VSub t \/ n_val nd = VStr (Some t).

(** What the loader has to leave for the node [nd] at [a] with type [t]; what pointers
    and references lead to is in [C58_pointer] and [C43_references]. *)
Definition value_loaded (s : state) (nd : node) (a : addr) (t : stype) : Prop :=
  match s_kind t with
  | Scalar n => scalar_at (log s) a n (n_idx nd)
  | Enum => alone_at (log s) a (s_size t) (n_idx nd)
  | CharArray => forall x, text nd x -> chars_at (log s) a (s_size t) x
  | Str =>
    n_ref nd = None ->
    if n_null nd then get_ptr s a = Some Null
    else
      (n_val nd = VStr None -> get_ptr s a = Some Null) /\
      forall x, text nd x -> exists b, b <> 0%nat /\ b <> a.1 /\ get_ptr s a = Some (To (b, 0)) /\
        blocks s !! b = Some (Some (Z.of_nat (length x) + 1)) /\ string_in (log s) b x
  | _ => True
  end.

(** * References *)
(** The node asks for what the node with identifier [num] points to. *)
Definition asks_content (nd : node) (num : Z) : Prop :=
  n_ref nd = Some (true, num) \/ exists z, n_val nd = VInt z /\ z < 0 /\ num = (- z) mod 4294967296.

(** Identifiers are 32-bit numbers other than the largest; references to the content of a
    node name pointers and strings only. *)
Definition refs_fit (nodes : list node) (root : node) (ty : nat -> stype) : Prop :=
  (forall m, m ∈ nodes -> 0 <= n_id m < 2 ^ 32 - 1) /\
  forall nd nd', nd ∈ subtree root -> nd' ∈ subtree root -> is_ptr (s_kind (ty (n_idx nd))) ->
    asks_content nd (n_id nd') -> is_ptr (s_kind (ty (n_idx nd'))).
