(** Vocabulary of the statement that mr_save comes to an end (src/mr_save.c:1553-1612):
    the data it looks at, and what is asked of it. *)
From Verif Require Import Base Ptrs Save SaveSpec.
Local Open Scope Z_scope.

Section Total.
  Context (W : world).

  (** The data looked at when [root] at [a0] is saved (src/mr_save.c:652-685, 1124-1230,
      1577-1591); as in [describes], the first
      argument is the structure of which the data is a field. *)
  Inductive visits (root : fd) (a0 : Z) : option (Z * nat) -> fd -> Z -> Prop :=
    | vi_root : visits root a0 None (root_fd root) a0
    | vi_field e g a k t f : visits root a0 e g a -> f_type g = T_STRUCT -> f_tdp g = Some k -> w_tds W !! k = Some t ->
        f ∈ t_fields t -> visits root a0 (Some (a, k)) f (a + f_off f)
    | vi_elem e g a cnt i : visits root a0 e g a -> f_type g = T_ARRAY -> in_use W e g cnt -> 0 <= i < cnt ->
        visits root a0 None (part g) (a + i * f_size (part g))
    | vi_member e g a h : visits root a0 e g a -> union_type (f_type g) = true -> chosen W a g = Some h -> visits root a0 None h (a + f_off h)
    | vi_content e g a p : visits root a0 e g a -> f_type g = T_POINTER -> w_ptr W a = Some p -> p <> 0 ->
        f_aux g <> T_VOID -> f_aux g <> T_NONE -> visits root a0 None (content W g) p.

  (** The references to size fields in the descriptors (src/mr_save.c:961-968). *)
  Definition size_ref (root : fd) (r : szref) : Prop :=
    f_szf root = Some r \/ exists k t f, w_tds W !! k = Some t /\ f ∈ t_fields t /\ f_szf f = Some r.

  (** The type of a value, or of the elements of an array (src/mr_save.c:1185-1192). *)
  Definition value_type (f : fd) : Z := if f_type f =? T_ARRAY then f_aux f else f_type f.

  (** Type descriptors exist, structures have one, and the elements of arrays are not empty. *)
  Definition plain (f : fd) : Prop :=
    (forall k, f_tdp f = Some k -> is_Some (w_tds W !! k)) /\
    (value_type f = T_STRUCT -> f_tdp f <> None) /\
    (value_type f = T_POINTER -> (if f_type f =? T_ARRAY then f_base f else f_aux f) = T_STRUCT -> f_tdp f <> None) /\
    (f_type f = T_ARRAY -> f_dim0 f <> 0 -> 1 <= f_size f / f_dim0 f ^ Z.of_nat (f_dims f)).

  (** What is asked of the data at [a0]. *)
  Record tame (root : fd) (a0 : Z) : Prop := {
    tm_root : plain root;
    tm_plain : forall k t f, w_tds W !! k = Some t -> f ∈ t_fields t -> plain f;
    (* no structure or union has itself as a member *)
    tm_nest : exists rank : nat -> nat, forall k t f j, w_tds W !! k = Some t -> f ∈ t_fields t ->
      value_type f = T_STRUCT \/ union_type (value_type f) = true -> f_tdp f = Some j -> (rank j < rank k)%nat;
    (* no type is the type of a pointer *)
    tm_base : forall k t, w_tds W !! k = Some t -> f_base (t_ptr_fd t) <> T_POINTER;
    (* pointers and size fields can be read *)
    tm_read : forall e g a, visits root a0 e g a ->
      f_type g = T_POINTER \/ f_type g = T_STRING \/ f_type g = T_FUNC \/ f_type g = T_FUNC_TYPE -> w_ptr W a <> None;
    tm_size : forall e g a k t r h, visits root a0 e g a -> f_type g = T_STRUCT -> f_tdp g = Some k -> w_tds W !! k = Some t ->
      size_ref root r -> (match r with
                          | ByOffset o => last (filter (fun h => f_off h = o) (t_fields t))
                          | ByName s => head (filter (fun h => f_name h = s) (t_fields t))
                          end) = Some h -> exists v, w_int W (a + f_off h) h = Some (Some v);
    (* the pointers lead to finitely many addresses *)
    tm_finite : exists L : list Z, forall e g a p, visits root a0 e g a -> f_type g = T_POINTER \/ f_type g = T_STRING ->
      w_ptr W a = Some p -> p ∈ L }.
End Total.
