(** Vocabulary of C77: data saved to JSON and loaded again. *)
From Verif Require Import Base Ptrs DfsProof Save SaveSpec Json JsonSpec Copy.
From Verif Require Load LoadSpec LoadFits.
Local Open Scope Z_scope.

Section Spec.
  Context (W : world) (names : nat -> list Z) (known : list Z -> bool) (wrapv : bool) (cstr : Z -> list Z) (shown : Z -> Z -> fd -> jkind).
  Notation base g := (base_of W (f_tdp g)).

  (** ** Types *)
  (** The type has a size. *)
  Definition nonempty (c : Z) (g : fd) : Prop := exists u, unit_size W c (f_tdp g) = Some u /\ u <> 0.
  (** No union, nothing of unknown type except behind pointers, bit-fields only as
      members, no array of empty elements, no pointer to an empty type. *)
  Definition plain_fd (g : fd) : Prop :=
    f_type g <> T_NONE /\ union_type (f_type g) = false /\
    union_type (f_aux g) = false /\ f_aux g <> T_BITFIELD /\ union_type (base g) = false /\ base g <> T_BITFIELD /\
    (f_type g = T_ARRAY -> f_aux g <> T_NONE /\ f_base g = base g /\ (f_dim0 g <> 0 -> f_size g <> 0)) /\
    (f_type g = T_POINTER -> f_aux g <> T_NONE -> nonempty (f_aux g) g) /\
    (f_aux g = T_POINTER -> base g <> T_NONE -> nonempty (base g) g).
  (** Fields have names of their own that the library knows and JSON can show. *)
  Definition plain_world : Prop := forall k t, w_tds W !! k = Some t ->
    Forall plain_fd (t_fields t) /\ NoDup (map (fun f => names (f_name f)) (t_fields t)) /\
    Forall (fun f => Forall unquotable (names (f_name f)) /\ known (names (f_name f)) = true) (t_fields t).
  (** The loader's conditions on the same types. *)
  Definition loadable (f : fd) (size : Z) : Prop :=
    LoadSpec.env_ok (load_env W names) /\ LoadSpec.union_free (load_env W names) /\
    LoadSpec.stype_ok (load_env W names) (load_stype f) /\ f_size f <= size.

  (** ** Values *)
  (** Types with a value that is printed by itself. *)
  Definition single (c : Z) : Prop :=
    c <> T_NONE /\ c <> T_STRING /\ c <> T_CHAR_ARRAY /\ c <> T_VOID /\ c <> T_STRUCT /\ c <> T_ARRAY /\ c <> T_POINTER /\ union_type c = false.
  (** The descriptor of the value itself, or one with the same type descriptor. *)
  Definition declares (h g : fd) : Prop := f_tdp h = f_tdp g /\ (f_np g = false -> h = g).
  (** What is printed for values can be printed, and is not a bracket. *)
  Definition printable : Prop :=
    (forall p, Forall (fun c => 0 < c < 256) (cstr p)) /\
    (forall a c h, kind_ok wrapv (shown a c h) /\ shown a c h <> KStruct /\ shown a c h <> KList) /\
    (forall a h, exists s, shown a T_CHAR_ARRAY h = KStr s).
  (** The handlers of the loader accept what was printed for a value of the type. *)
  Definition readable (leaf : Load.node -> Load.stype -> bool * bool) : Prop :=
    forall a h g nd v null, declares h g -> single (f_type g) -> Load.n_kids nd = [] ->
      Load.n_val nd = load_value v -> Load.n_null nd = null ->
      leaf_read (shown a (f_type g) h) v null \/ ((f_type g = T_FUNC \/ f_type g = T_FUNC_TYPE) /\ v = LInt 0 /\ null = true) ->
      leaf nd (load_stype g) = (true, true).

  (** ** The copy *)
  Section Copied.
    (** Memory after the load, the parsed nodes, and which value is where: [R e a g b]
        tells that the value at [a] described by [g], a member of [e], is at [b] now. *)
    Context (m : Load.state) (ps : list pinfo) (R : option (Z * nat) -> Z -> fd -> Load.addr -> Prop).

    (** [b] has the characters at [p]: as a string of its own, or as an array of
        characters that is part of the copy. *)
    Definition text_copied (p : Z) (b : Load.addr) : Prop :=
      (b.2 = 0 /\ LoadFits.string_in (Load.log m) b.1 (cstr p)) \/
      exists e g, R e p g b /\ f_type g = T_CHAR_ARRAY.

    (** The number of bytes of a scalar. *)
    Definition scalar_size (g : fd) : Z := if f_type g =? T_BITFIELD then f_size g else type_size (f_type g).

    Definition copied (e : option (Z * nat)) (a : Z) (g : fd) (b : Load.addr) : Prop :=
      if f_type g =? T_STRUCT then
        exists k t, f_tdp g = Some k /\ w_tds W !! k = Some t /\
          forall f, f ∈ t_fields t -> R (Some (a, k)) (a + f_off f) f (Load.shift b (f_off f))
      else if f_type g =? T_ARRAY then
        exists cnt, in_use W e g cnt /\
          forall j, 0 <= j < cnt -> R None (a + j * f_size (part g)) (part g) (Load.shift b (j * f_size (part g)))
      else if f_type g =? T_POINTER then
        exists p u, w_ptr W a = Some p /\ (p <> 0 -> unit_size W (f_aux g) (f_tdp g) = Some u) /\
          if (p =? 0) || (u =? 0) then Load.get_ptr m b = Some Load.Null
          else if (f_aux g =? T_VOID) || (f_aux g =? T_NONE) then
            (* of unknown type: it leads to the copy of something that was there, or
               nothing of the copy was there *)
            (Load.get_ptr m b = Some Load.Null /\ forall e g b, ~ R e p g b) \/
            exists b', Load.get_ptr m b = Some (Load.To b') /\ ((exists e g, R e p g b') \/ text_copied p b')
          else
            exists b', Load.get_ptr m b = Some (Load.To b') /\
              exists e g', R e p g' b' /\ f_type g' = f_aux g /\ (compound (f_aux g) = true -> f_tdp g' = f_tdp g)
      else if f_type g =? T_STRING then
        exists p, w_ptr W a = Some p /\
          if p =? 0 then Load.get_ptr m b = Some Load.Null
          else exists b', Load.get_ptr m b = Some (Load.To b') /\ text_copied p b'
      else if f_type g =? T_CHAR_ARRAY then
        exists h s, declares h g /\ shown a T_CHAR_ARRAY h = KStr s /\ LoadFits.chars_at (Load.log m) b (f_size g) s
      else if f_type g =? T_VOID then True
      else
        (* the bytes are those of a node that was read from what was printed *)
        exists h idx p, declares h g /\ ps !! idx = Some p /\
          (leaf_read (shown a (f_type g) h) (p_val p) (p_null p) \/
           (f_type g = T_FUNC \/ f_type g = T_FUNC_TYPE) /\ w_ptr W a = Some 0 /\ p_null p = true) /\
          if f_type g =? T_ENUM then LoadFits.alone_at (Load.log m) b (f_size g) idx
          else LoadFits.scalar_at (Load.log m) b (scalar_size g) idx.
  End Copied.
End Spec.
