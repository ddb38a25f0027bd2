(** Vocabulary of C75: which type the discriminator of an override has. *)
From Verif Require Import Base Udo.

Section Spec.
Context (tds : list utd) (order : list nat).

(** Registered structures and unions. *)
Definition compound (k : nat) : Prop := k ∈ order /\ exists t, tds !! k = Some t /\ t_struct t = true.

(** The compound type [k] has a field of the compound type [j] (or an array of it, or a
    pointer to it). *)
Definition encloses (k j : nat) : Prop :=
  compound k /\ compound j /\ exists t f, tds !! k = Some t /\ f ∈ t_index t /\ f_tdp f = Some j.

(** [k] has a field [m] whose type has the name at [s]. *)
Definition discriminated (k m : nat) (s : Z) : Prop :=
  exists t f d td, tds !! k = Some t /\ f ∈ t_index t /\ f_name f = m /\ f_tdp f = Some d /\
    tds !! d = Some td /\ t_str td = s.

(** [k] is [i] or encloses it, directly or through types that have no field [m]. *)
Inductive around (m i : nat) : nat -> Prop :=
  | around_self : around m i i
  | around_up j k : around m i j -> (forall s, ~ discriminated j m s) -> encloses k j -> around m i k.

(** The fields [m] nearest to [i] on all ways out exist and have one type, the one with
    the name at [s]. *)
Definition agreed (i m : nat) (s : Z) : Prop :=
  (exists k, around m i k /\ discriminated k m s) /\
  forall k s', around m i k -> discriminated k m s' -> s' = s.

(** Override number [e] of the array [a] belongs to a field of [i] whose discriminator is
    called [m]. *)
Definition overrides (i a e m : nat) : Prop :=
  compound i /\ exists t f, tds !! i = Some t /\ f ∈ t_fields t /\ f_udo f = Some a /\ f_tdp f <> None /\
    f_meta f = Some m /\ e < f_count f.

(** What the rest of the library ensures: types are registered once, field_by_name has
    every name once, descriptors exist and arrays have the size stated. *)
Record udo_wf (ovs : list (list uover)) : Prop := {
  uw_types : forall k, k ∈ order -> k < length tds;
  uw_once : NoDup order;
  uw_names : forall k t, tds !! k = Some t -> NoDup (map f_name (t_index t));
  uw_desc : forall k t f d, tds !! k = Some t -> f ∈ t_index t -> f_tdp f = Some d -> d < length tds;
  uw_size : forall k t f a, k ∈ order -> tds !! k = Some t -> f ∈ t_fields t -> f_udo f = Some a ->
    exists u, ovs !! a = Some u /\ f_count f <= length u;
}.
End Spec.
