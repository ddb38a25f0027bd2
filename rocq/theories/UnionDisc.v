(** Model of [mr_type_is_union_discriminator] (src/metaresc.c:1864-1881): which
    types may select the active member of a union. *)
From Verif Require Import Base.

Section disc.
(** Of a type descriptor (numbered): whether it is a structure or union type
    with at least one field (src/metaresc.c:1871-1872); the descriptor of the
    type of its first field, [param.struct_param.fields[0]->stype.tdp], [None]
    for NULL; whether its [mr_type] is in MR_UNION_RESOLVABLE_TYPES
    (src/metaresc.c:1874). *)
Context (compound : nat -> bool) (first : nat -> option nat) (resolvable : nat -> bool).

(** Assignment to one flag, e.g. src/metaresc.c:1870. *)
Definition upd (f : nat -> bool) (x : nat) (b : bool) : nat -> bool :=
  fun y => if Nat.eqb y x then b else f y.

(** The flags [is_union_discriminator_set] and [is_union_discriminator]
    (src/mr_protos.h, mr_td_t).
    src/mr_protos.h:458-459. *)
Record flags := Flags { is_set : nat -> bool; is_disc : nat -> bool }.

(** src/metaresc.c:1868-1877, the first loop; returns the flags and the final
    [resolve_to].  [continue] goes to the first field's type, [break] leaves
    [resolve_to] unchanged. *)
Fixpoint mark_loop (fuel : nat) (fl : flags) (r : option nat) : option (flags * option nat) :=
  match fuel with
  | O => None
  | S fuel =>
    match r with
    | None => Some (fl, None)
    | Some x =>
      if is_set fl x then Some (fl, Some x)
      else
        let fl := Flags (upd (is_set fl) x true) (is_disc fl) in
        if compound x then mark_loop fuel fl (first x)
        else Some (Flags (is_set fl) (upd (is_disc fl) x (resolvable x)), Some x)
    end
  end.

(** src/metaresc.c:1879-1880, the second loop.  Reading the first field of a type
    without fields is undefined behaviour. *)
Fixpoint spread_loop (fuel : nat) (fl : flags) (r : option nat) : option flags :=
  match fuel with
  | O => None
  | S fuel =>
    match r with
    | None => Some fl
    | Some x =>
      if is_disc fl x then Some fl
      else
        let fl := Flags (is_set fl) (upd (is_disc fl) x true) in
        if compound x then spread_loop fuel fl (first x) else None
    end
  end.

(** src/metaresc.c:1864-1881 [mr_type_is_union_discriminator]. *)
Definition union_discriminator (fuel : nat) (fl : flags) (tdp : nat) : option flags :=
  '(fl, r) ← mark_loop fuel fl (Some tdp);
  match r with
  | Some x => if is_disc fl x then spread_loop fuel fl (Some tdp) else Some fl
  | None => Some fl
  end.

(** src/metaresc.c:1971-1972: called for the types of the list in turn. *)
Fixpoint union_discriminators (fuel : nat) (fl : flags) (ts : list nat) : option flags :=
  match ts with
  | [] => Some fl
  | t :: ts => fl ← union_discriminator fuel fl t; union_discriminators fuel fl ts
  end.
End disc.
