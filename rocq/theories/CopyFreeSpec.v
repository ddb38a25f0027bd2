(** What a correct node table, a deep copy and a deep release are; nothing here
    refers to the loops of src/mr_extra.c. *)
From stdpp Require Import sets.
From Verif Require Import Base Ptrs DfsProof CopyFree.
Local Open Scope Z_scope.

(** The byte at an address. *)
Definition cell_at (m : mem) (p : addr) : option cell :=
  '(_, cs) ← mjoin (m !! fst p); if 0 <=? snd p then cs !! Z.to_nat (snd p) else None.

(** [p] is one of the [s] bytes at [a]. *)
Definition inside (a : addr) (s : Z) (p : addr) : Prop := fst p = fst a /\ snd a <= snd p < snd a + s.

(** A block that was allocated and is not released. *)
Definition dynamic (m : mem) (b : nat) : Prop := exists cs, m !! b = Some (Some (true, cs)).

(** ** The memory a table describes *)
(** Area 0 is the structure itself.  Area [i > 0] is what the pointer or string
    of node [i] leads to, when the node is neither NULL nor a reference. *)
Definition area_of (m : mem) (ns : list xnode) (i : nat) : option (addr * Z) :=
  if Nat.eqb i 0 then n ← ns !! 1%nat; a ← x_data n; Some (a, x_size n) else
  n ← ns !! i;
  if negb (live n) then None else
  if x_type n =? T_STRING then a ← x_data n; v ← ld m a; p ← v; cs ← rd_text m p; Some (p, Z.of_nat (length cs))
  else if x_type n =? T_POINTER then a ← x_data n; v ← ld m a; p ← v; Some (p, x_size n)
  else None.
Definition in_area (m : mem) (ns : list xnode) (p : addr) : Prop :=
  exists i a s, area_of m ns i = Some (a, s) /\ inside a s p.

Definition is_ptr (n : xnode) : Prop := x_type n = T_STRING \/ x_type n = T_POINTER.

(** A pointer or string that the table follows: not NULL, or resolved to a node. *)
Definition resolved (n : xnode) : Prop := is_ptr n /\ (fl_ref n || fl_cref n || negb (fl_null n)) = true.

(** One node agrees with the memory. *)
Record node_ok (m : mem) (ns : list xnode) (t : tree) (i : nat) (n : xnode) (a : addr) : Prop := {
  (** the whole pointer lies in one area *)
  ok_area : exists k b s, area_of m ns k = Some (b, s) /\ inside b s a /\ (is_ptr n -> inside b s (padd a 7));
  (** a reference holds the address of the node it names *)
  ok_ref : is_ptr n -> fl_ref n = true -> (x_type n = T_STRING -> fl_null n = false) /\
    exists r b, x_first n ∈ nodes t /\ ns !! x_first n = Some r /\ x_data r = Some b /\ ld m a = Some (Some b);
  (** a reference to the content of a string holds the same text pointer; only
      strings are such references (see C45_void_content_refuted) *)
  ok_cref : is_ptr n -> fl_ref n = false -> fl_cref n = true -> x_type n = T_STRING /\ fl_null n = false /\
    exists r b p, x_first n ∈ nodes t /\ ns !! x_first n = Some r /\ live r = true /\ x_type r = T_STRING /\
      x_data r = Some b /\ ld m b = Some (Some p) /\ ld m a = Some (Some p);
  (** what is neither NULL nor a reference leads to an area; the first child of
      a pointer is at its beginning, and its text ends *)
  ok_own : is_ptr n -> live n = true -> (exists p s, area_of m ns i = Some (p, s) /\ 0 < s /\
      (exists cs, rd_cells m p s = Some cs) /\
      (x_type n = T_POINTER -> x_first n <> 0%nat -> exists c, ns !! x_first n = Some c /\ x_data c = Some p)) /\
    (x_type n = T_STRING -> x_first n = 0%nat);
  (** NULL has no content *)
  ok_null : is_ptr n -> fl_null n = true -> fl_ref n = false -> fl_cref n = false -> x_first n = 0%nat;
  (** only pointers and strings are references *)
  ok_plain : ~ is_ptr n -> fl_ref n = false /\ fl_cref n = false }.

(** The table describes the memory: its nodes form a tree [t], they are exactly
    the numbered ones, the members of a structure lie beside it, the content of
    a pointer lies where the pointer leads, and areas do not overlap. *)
Record described (m : mem) (ns : list xnode) (t : tree) : Prop := {
  d_root : root t = 1%nat;
  d_tree : tree_at (map link_of ns) 0 0 t;
  d_nodup : NoDup (nodes t);
  d_zero : exists n, ns !! 0%nat = Some n;
  d_idx : forall i n, ns !! i = Some n -> i <> 0%nat -> x_idx n <> 0%nat <-> i ∈ nodes t;
  d_base : exists n a cs, ns !! 1%nat = Some n /\ x_data n = Some a /\ 0 < x_size n /\ rd_cells m a (x_size n) = Some cs;
  d_node : forall i n, i ∈ nodes t -> ns !! i = Some n -> exists a, x_data n = Some a /\ node_ok m ns t i n a;
  d_edge : forall i n pn a b, i ∈ nodes t -> i <> 1%nat -> ns !! i = Some n -> ns !! x_parent n = Some pn ->
    x_data n = Some a -> x_data pn = Some b ->
    if x_type pn =? T_POINTER then exists p s, area_of m ns (x_parent n) = Some (p, s) /\ inside p s a
    else exists k p s, area_of m ns k = Some (p, s) /\ inside p s a /\ inside p s b;
  d_disjoint : forall i j a b s u p, area_of m ns i = Some (a, s) -> area_of m ns j = Some (b, u) ->
    inside a s p -> inside b u p -> i = j;
  (** pointers into an area are known to the table *)
  d_cover : forall p q k, in_area m ns p -> cell_at m p = Some (F q k) -> in_area m ns q ->
    exists i n a, i ∈ nodes t /\ ns !! i = Some n /\ resolved n /\ x_data n = Some a /\
      (k < 8)%nat /\ p = padd a (Z.of_nat k) }.

(** The structure itself is not a pointer or a string
    (see C45_root_string_refuted and C45_root_pointer_refuted). *)
Definition plain_root (ns : list xnode) : Prop := forall n, ns !! 1%nat = Some n -> ~ is_ptr n.

(** No pointer was saved as opaque data: the copy is refused for those. *)
Definition no_opaque (ns : list xnode) : Prop := forall i n, (2 <= i)%nat -> ns !! i = Some n ->
  live n = true -> x_type n = T_POINTER -> x_first n <> 0%nat.

(** The destination: [size] bytes apart from everything described. *)
Definition apart (m : mem) (ns : list xnode) (dst : addr) : Prop :=
  (forall n, ns !! 1%nat = Some n -> exists cs, rd_cells m dst (x_size n) = Some cs) /\
  (forall n p, ns !! 1%nat = Some n -> inside dst (x_size n) p -> ~ in_area m ns p).

(** References of pointers lead neither to the structure itself nor to a node
    that lies behind the first one in the content of another pointer
    (see C45_failure_frees_destination_refuted and C45_failure_interior_refuted). *)
Definition first_kids (ns : list xnode) (t : tree) : Prop :=
  forall i n, (2 <= i)%nat -> ns !! i = Some n -> x_type n = T_POINTER -> x_first n <> 0%nat ->
    x_first n <> 1%nat /\ (x_first n < length ns)%nat /\
    forall c pn, x_first n ∈ nodes t -> ns !! x_first n = Some c -> ns !! x_parent c = Some pn -> x_type pn = T_POINTER ->
      x_first pn = x_first n.

(** ** Deep copy *)
Definition relcell (rel : addr -> addr) (c : cell) : cell :=
  match c with B z => B z | F p k => F (rel p) k end.

(** [m'] holds a copy at [dst]; [rel] leads from each described byte to its copy. *)
Record copied (m m' : mem) (ns : list xnode) (dst : addr) (rel : addr -> addr) : Prop := {
  (** the structure goes to the destination *)
  cp_root : forall a s k, area_of m ns 0 = Some (a, s) -> 0 <= k < s -> rel (padd a k) = padd dst k;
  (** every other area goes to the beginning of a new block of its size *)
  cp_block : forall i a s, i <> 0%nat -> area_of m ns i = Some (a, s) ->
    exists b cs, (length m <= b)%nat /\ m' !! b = Some (Some (true, cs)) /\ Z.of_nat (length cs) = s /\
      forall k, 0 <= k < s -> rel (padd a k) = (b, k);
  (** there are no other new blocks *)
  cp_new : forall b, (length m <= b < length m')%nat -> exists i a s, i <> 0%nat /\ area_of m ns i = Some (a, s) /\ rel a = (b, 0);
  (** shared data stays shared and separate data stays separate *)
  cp_inj : forall p q, in_area m ns p -> in_area m ns q -> rel p = rel q -> p = q;
  (** all bytes are copied; pointers into the structure lead into the copy *)
  cp_cells : forall p c, in_area m ns p -> cell_at m p = Some c -> cell_at m' (rel p) = Some (relcell rel c);
  (** pointers out of the structure are kept *)
  cp_ext : forall p, ~ in_area m ns p -> rel p = p;
  (** nothing else changes *)
  cp_blocks : forall b, (b < length m)%nat -> b <> fst dst -> m' !! b = m !! b;
  cp_rest : forall p s a, area_of m ns 0 = Some (a, s) -> fst p = fst dst -> ~ inside dst s p -> cell_at m' p = cell_at m p }.

(** The table of the copy: the same nodes at their new places. *)
Definition moved (rel : addr -> addr) (ns : list xnode) : list xnode :=
  map (fun n => XNode (x_type n) (x_flags n) (x_size n) (x_idx n) (x_parent n) (x_next n) (x_first n) (rel <$> x_data n)) ns.

(** Pointers out of the structure lead to existing blocks that are not
    allocated (code, constants) and hold no part of the destination. *)
Definition self_contained (m : mem) (ns : list xnode) (dst : addr) : Prop :=
  forall p q k, in_area m ns p -> cell_at m p = Some (F q k) ->
    in_area m ns q \/ ((fst q < length m)%nat /\ fst q <> fst dst /\ ~ dynamic m (fst q)).

(** ** Deep release *)
(** Blocks that can be reached from the [s] bytes at [a] by following pointers;
    the block of [a] itself is only left through these bytes, and blocks that
    are not allocated (code, constants) are not searched. *)
Inductive reached (m : mem) (a : addr) (s : Z) : nat -> Prop :=
| reached_root p q k : inside a s p -> cell_at m p = Some (F q k) -> reached m a s (fst q)
| reached_step b o q k : reached m a s b -> b <> fst a -> dynamic m b ->
    cell_at m (b, o) = Some (F q k) -> reached m a s (fst q).

(** What is described lies at the beginning of allocated blocks, outside of the
    block of the structure; the rest of these blocks holds no pointers, and
    their pointers lead to allocated blocks only inside of the areas. *)
Definition heap_owned (m : mem) (ns : list xnode) : Prop :=
  forall i a s, i <> 0%nat -> area_of m ns i = Some (a, s) ->
    snd a = 0 /\ dynamic m (fst a) /\ (forall b u, area_of m ns 0 = Some (b, u) -> fst a <> fst b) /\
    forall o q k, cell_at m (fst a, o) = Some (F q k) -> inside a s (fst a, o).
Definition heap_closed (m : mem) (ns : list xnode) : Prop :=
  forall p q k, in_area m ns p -> cell_at m p = Some (F q k) -> dynamic m (fst q) ->
    in_area m ns q \/ exists a s, area_of m ns 0 = Some (a, s) /\ fst q = fst a.
