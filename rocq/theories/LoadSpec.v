(** Conditions on types and trees under which the loader (src/mr_load.c) is
    specified. *)
From Verif Require Import Base Load.
Local Open Scope Z_scope.

Section spec.
Context (env : list td).

(** An object of kind [k] (not an array) with descriptor [t] fits in [size]
    bytes. *)
Definition basic_ok (k : kind) (t : option nat) (size : Z) : Prop :=
  match k with
  | Scalar n => 0 < n <= size
  | Enum | CharArray => True
  | Str | Pointer => 8 <= size
  | Struct | NamedAnon => forall d, get_td env t = Some d -> t_size d <= size
  | Array => False
  | Void | Unsupported => True
  end.

(** A pointer may point to objects of kind [k]: they fit in the size that
    [mr_load_pointer_postponed] computes, and are not char arrays. *)
Definition target_ok (k : kind) (t : option nat) : Prop :=
  k <> CharArray /\ 0 <= target_size env k t /\ basic_ok k t (target_size env k t).

(** A type is consistent. *)
Definition stype_ok (ty : stype) : Prop :=
  0 <= s_size ty /\
  match s_kind ty with
  | Array =>
    exists esz, s_dims ty <> [] /\ Forall (fun d => 0 <= d) (s_dims ty) /\ 0 <= esz /\
      s_size ty = foldr Z.mul 1 (s_dims ty) * esz /\ basic_ok (s_aux ty) (s_td ty) esz /\
      (s_aux ty = Pointer -> target_ok (td_kind env (s_td ty)) (s_td ty))
  | Pointer =>
    8 <= s_size ty /\ target_ok (s_aux ty) (s_td ty) /\
    (s_aux ty = Pointer -> target_ok (td_kind env (s_td ty)) (s_td ty))
  | k => basic_ok k (s_td ty) (s_size ty)
  end.

(** All registered descriptors are consistent: every field has a consistent
    type and lies inside of its structure. *)
Definition env_ok : Prop :=
  forall i d, env !! i = Some d ->
    forall f, f ∈ t_fields d ->
      0 <= f_off f /\ f_off f + s_size (f_ty f) <= t_size d /\ stype_ok (f_ty f).

(** There are no unions: two fields of a structure do not overlap, unless both
    are scalars (bit-fields share bytes). *)
Definition union_free : Prop :=
  forall i d, env !! i = Some d ->
    forall x y f g, t_fields d !! x = Some f -> t_fields d !! y = Some g -> x <> y ->
      f_off f + s_size (f_ty f) <= f_off g \/ f_off g + s_size (f_ty g) <= f_off f \/
      ((exists n, s_kind (f_ty f) = Scalar n) /\ exists n, s_kind (f_ty g) = Scalar n).
End spec.

(** The tree under [nd] is the one stored in the array of nodes: every node is
    at its index, knows its parent and precedes its children; no index is used
    twice. *)
Definition links_ok (nd : node) : Prop :=
  forall m, m ∈ subtree nd ->
    (0 < n_idx m)%nat /\
    forall k, k ∈ n_kids m -> n_par k = n_idx m /\ (n_idx m < n_idx k)%nat.
Definition tree_ok (nodes : list node) (nd : node) : Prop :=
  n_par nd = O /\ NoDup (n_idx <$> subtree nd) /\ links_ok nd /\
  forall m, m ∈ subtree nd -> (dummy :: nodes) !! n_idx m = Some m.

(** No pointer or string was given two values: the places of the nodes loaded as
    such are distinct. *)
Definition is_ptr (k : kind) : Prop := k = Pointer \/ k = Str.
Definition one_value (s : state) : Prop :=
  forall i j e e' a t t', ra s !! i = Some e -> ra s !! j = Some e' ->
    e_at e = Some (a, t) -> e_at e' = Some (a, t') -> is_ptr (s_kind t) -> is_ptr (s_kind t') -> i = j.

(** * Where values go *)
(** Node [nd] was loaded at [a] as an object of type [t]. *)
Definition placed (r : list entry) (nd : node) (a : addr) (t : stype) : Prop :=
  exists e, r !! n_idx nd = Some e /\ e_at e = Some (a, t).

(** The field for a value, as in a C initialiser: the one it names; or, if it
    names none, the one after the previous value's field, the first one for the
    first value.  A name that the structure does not know is accepted for an
    anonymous field only. *)
Definition field_for (fields : list fd) (d : option (option N * option nat)) (prev : option nat)
    (i : nat) (g : fd) : Prop :=
  (exists n t, d = Some (Some n, t) /\ f_name g = Some n /\
     forall j h, (j < i)%nat -> fields !! j = Some h -> f_name h <> Some n) \/
  (i = match prev with None => O | Some p => S p end /\
   forall n t, d = Some (Some n, t) ->
     (forall j h, fields !! j = Some h -> f_name h <> Some n) /\ (f_unnamed g = true \/ f_name g = None)).

(** The values [ks] of a structure at [a] were loaded like this.  [handed] is
    the designator that the value before handed on; only the empty string
    before an anonymous union does that. *)
Inductive fields_placed (r : list entry) (fields : list fd) (a : addr)
  : option nat -> option (option N * option nat) -> list node -> Prop :=
| fields_nil prev handed : fields_placed r fields a prev handed []
| fields_cons prev handed k ks i g handed' :
    fields !! i = Some g ->
    field_for fields (match handed with Some _ => handed | None => n_fd k end) prev i g ->
    placed r k (shift a (f_off g)) (f_ty g) ->
    (s_kind (f_ty g) <> NamedAnon -> handed' = None) ->
    fields_placed r fields a (Some i) handed' ks ->
    fields_placed r fields a prev handed (k :: ks).

(** The values under a node that was loaded at [a] as a [t]. *)
Definition kids_placed (env : list td) (r : list entry) (nd : node) (a : addr) (t : stype) : Prop :=
  match s_kind t with
  | Struct => exists d, get_td env (s_td t) = Some d /\ fields_placed r (t_fields d) a None None (n_kids nd)
  | NamedAnon =>
    n_kids nd = [] \/
    exists d, get_td env (s_td t) = Some d /\ fields_placed r (t_fields d) a None None (n_kids nd)
  | Array =>
    exists c, s_dims t !! 0%nat = Some c /\ Z.of_nat (length (n_kids nd)) <= c /\
      forall i k, n_kids nd !! i = Some k ->
        placed r k (shift a (Z.of_nat i * s_size (elem_ty env t c))) (elem_ty env t c)
  | _ => True
  end.

(** * References *)
(** A number given in place of a pointer refers to the node with this
    identifier, a negative one to what that node points to.  Identifiers are
    32-bit numbers. *)
Definition number_ref (z : Z) (r : bool * Z) : Prop :=
  (0 <= z /\ r = (false, z mod 4294967296)) \/ (z < 0 /\ r = (true, (- z) mod 4294967296)).

(** The reference that a string node holds, and the one of a pointer node. *)
Definition string_ref (nd : node) (r : option (bool * Z)) : Prop :=
  match n_val nd with
  | VInt z => if n_null nd || (match n_ref nd with Some _ => true | None => false end) then r = n_ref nd
              else exists x, r = Some x /\ number_ref z x
  | _ => r = n_ref nd
  end.
Definition pointer_ref (nd : node) (r : option (bool * Z)) : Prop :=
  match n_val nd with
  | VInt z => if n_null nd then r = n_ref nd else exists x, r = Some x /\ number_ref z x
  | _ => r = n_ref nd
  end.

(** * Pointers *)
(** What is in the pointer at [cell], read as the latest store to these eight
    bytes. *)
Definition holds (s : state) (cell : addr) (p : ptr) : Prop :=
  match filter (fun x => is_true (meets cell x)) (log s) with
  | [] => p = Null
  | x :: _ => x = Store cell (WPtr p)
  end.

(** A pointer of type [t] at [cell] after its node was followed: NULL if the
    node is null, a reference or empty; else the values are in a row in a block
    of their own. *)
Definition followed (env : list td) (s : state) (e : entry) (cell : addr) (t : stype) : Prop :=
  if n_null (e_node e) || (match e_ref e with Some _ => true | None => false end) ||
     (match n_kids (e_node e) with [] => true | _ => false end)
  then holds s cell Null
  else exists b, b <> 0%nat /\ b <> cell.1 /\ holds s cell (To (b, 0)) /\
    (exists m, blocks s !! b = Some (Some m)) /\
    let T := f_ty (target_fd env t) in
    forall i k, n_kids (e_node e) !! i = Some k -> placed (ra s) k (b, Z.of_nat i * s_size T) T.

(** The node with identifier [num]; the last one if several have it. *)
Definition names (r : list entry) (num : Z) (j : nat) : Prop :=
  num <> 0 /\ (exists e, r !! j = Some e /\ n_id (e_node e) = num) /\
  forall j' e, (j < j')%nat -> r !! j' = Some e -> n_id (e_node e) <> num.

(** The pointer or string of entry [e] at [cell] after the references were set
    in state [s]: a reference points to the object of the node it names, and to
    nothing if this node was not loaded; a content reference points to the same
    as the pointer it names; others are unchanged. *)
Definition resolved (s s' : state) (e : entry) (cell : addr) : Prop :=
  let same := forall p, holds s cell p -> holds s' cell p in
  match e_ref e with
  | None => same
  | Some (content, num) =>
    ((forall j, ~ names (ra s) num j) -> same) /\
    forall j t, names (ra s) num j -> ra s !! j = Some t ->
      match e_at t with
      | Some (d, _) =>
        if content then e_ref t = None -> forall p, holds s d p -> holds s' cell p
        else holds s' cell (To d)
      | None => if content then same else holds s' cell Null
      end
  end.

(** Content references of pointers and strings name pointers or strings. *)
Definition content_ok (s : state) : Prop :=
  forall i e c tc num j t d ty, ra s !! i = Some e -> e_at e = Some (c, tc) -> is_ptr (s_kind tc) ->
    e_ref e = Some (true, num) -> names (ra s) num j -> ra s !! j = Some t -> e_at t = Some (d, ty) -> is_ptr (s_kind ty).

(** * A whole load *)
(** The descriptors are consistent and have no unions, the tree is well formed,
    and the destination of [size] bytes has room for an object of [f]. *)
Definition well_typed (env : list td) (nodes : list node) (root : node) (size : Z) (f : fd) : Prop :=
  env_ok env /\ union_free env /\ tree_ok nodes root /\ stype_ok env (f_ty f) /\ s_size (f_ty f) <= size.

(** The node reached from [nd] by taking child [p0], of this child [p1], ... *)
Fixpoint at_path (nd : node) (p : list nat) : option node :=
  match p with
  | [] => Some nd
  | i :: p => k ← n_kids nd !! i; at_path k p
  end.

(** Number of elements of an array, and position of the element
    [p0][p1]...[pn] in it. *)
Definition count_of (dims : list Z) : Z := foldr Z.mul 1 dims.
Fixpoint row_major (p : list nat) (dims : list Z) : Z :=
  match p, dims with
  | i :: p, _ :: dims => Z.of_nat i * count_of dims + row_major p dims
  | _, _ => 0
  end.

(** The object of type [t] at [a] lies inside of a live block. *)
Definition inside (s : state) (a : addr) (t : stype) : Prop :=
  exists m, blocks s !! a.1 = Some (Some m) /\ 0 <= a.2 /\ a.2 + s_size t <= m.

(** The character in memory at [a]: the one of the latest store there that
    wrote text. *)
Fixpoint char_at (l : list store) (a : addr) : option Z :=
  match l with
  | [] => None
  | Store b (WText t) :: l =>
    if (b.1 =? a.1)%nat && (b.2 <=? a.2) && (a.2 <? b.2 + Z.of_nat (length t))
    then t !! Z.to_nat (a.2 - b.2) else char_at l a
  | _ :: l => char_at l a
  end.

(** The reference that the text of a node asks for: a number, or for a content
    reference the negated number, in place of a value; or the flag set by the
    parser. *)
Definition asks (nd : node) (content : bool) (num : Z) : Prop :=
  n_null nd = false /\ 0 <= num < 2 ^ 32 /\
  (n_ref nd = Some (content, num) /\ (forall z, n_val nd <> VInt z) \/
   n_ref nd = None /\ (if content then num <> 0 /\ n_val nd = VInt (- num) else n_val nd = VInt num)).
Definition asks_none (nd : node) : Prop := n_ref nd = None /\ forall z, n_val nd <> VInt z.
