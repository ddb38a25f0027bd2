(** Model of the list of registered types: [mr_add_type] (src/metaresc.c:1721-1731),
    [mr_sort_td] (src/metaresc.c:1883-1911) and the walk of [mr_conf_init] that
    registers the types by name (src/metaresc.c:1943-1957).

    A type descriptor is a number; [nx] gives the [next] member of each
    descriptor ([None] is NULL).  Reading or writing the member of a descriptor
    outside of [nx] is undefined behaviour ([None] of the outer option), and so
    is running out of fuel, i.e. not terminating. *)
From Verif Require Import Base.

(** MR_TDP_LAST of mr_td_producer_t, src/mr_protos.h:152-157: MR_TDP_MACRO,
    MR_TDP_DWARF, MR_TDP_DUMP_STRUCT, MR_TDP_ANON_UNION. *)
Definition TDP_LAST : nat := 4.

Section td.
(** [td_producer] (src/mr_protos.h:457), whether [mr_type] is MR_TYPE_NONE, and
    the type name of each descriptor. *)
Context (prod : nat -> nat) (none : nat -> bool) (name : nat -> N).

(** src/metaresc.c:1721-1731 [mr_add_type]; state: [next] members and
    [mr_conf.td_list]. *)
Definition add_type (st : list (option nat) * option nat) (tdp : option nat)
  : option (list (option nat) * option nat) :=
  match tdp with
  | None => Some st
  | Some p =>
    let '(nx, td_list) := st in
    q ← rd nx p;
    if none p || (match q with Some _ => true | None => false end) then Some st
    else nx ← wr nx p td_list; Some (nx, Some p)
  end.

(** Calls of [mr_add_type] from the constructors (src/metaresc.h:784, 811, 826,
    915) and for the DWARF descriptors (src/metaresc.c:1930-1935). *)
Fixpoint add_types (st : list (option nat) * option nat) (ps : list nat)
  : option (list (option nat) * option nat) :=
  match ps with
  | [] => Some st
  | p :: ps => st ← add_type st (Some p); add_types st ps
  end.

(** src/metaresc.c:1889-1898: distribution over [by_producer]. *)
Fixpoint split_loop (fuel : nat) (nx : list (option nat)) (by_producer : list (option nat)) (tdp : option nat)
  : option (list (option nat) * list (option nat)) :=
  match tdp with
  | None => Some (nx, by_producer)
  | Some p =>
    match fuel with
    | O => None
    | S fuel =>
      next ← rd nx p;
      if Nat.ltb (prod p) TDP_LAST then
        h ← rd by_producer (prod p);
        nx ← wr nx p h;
        by_producer ← wr by_producer (prod p) (Some p);
        split_loop fuel nx by_producer next
      else split_loop fuel nx by_producer next
    end
  end.

(** src/metaresc.c:1903-1909: one list moved, element by element, to the front
    of [root]. *)
Fixpoint move_loop (fuel : nat) (nx : list (option nat)) (root tdp : option nat)
  : option (list (option nat) * option nat) :=
  match tdp with
  | None => Some (nx, root)
  | Some p =>
    match fuel with
    | O => None
    | S fuel =>
      next ← rd nx p;
      nx ← wr nx p root;
      move_loop fuel nx (Some p) next
    end
  end.

(** src/metaresc.c:1902: [for (i = MR_TDP_LAST - 1; i >= 0; --i)]; [n] = i + 1. *)
Fixpoint join_loop (fuel n : nat) (nx : list (option nat)) (by_producer : list (option nat)) (root : option nat)
  : option (list (option nat) * option nat) :=
  match n with
  | O => Some (nx, root)
  | S i =>
    h ← rd by_producer i;
    '(nx, root) ← move_loop fuel nx root h;
    join_loop fuel i nx by_producer root
  end.

(** src/metaresc.c:1883-1911 [mr_sort_td]. *)
Definition sort_td (fuel : nat) (nx : list (option nat)) (tdp : option nat)
  : option (list (option nat) * option nat) :=
  '(nx, by_producer) ← split_loop fuel nx (replicate TDP_LAST None) tdp;
  join_loop fuel TDP_LAST nx by_producer None.

(** src/metaresc.c:1943-1957: the walk that registers types by name.  The hash
    [type_by_name] is the list of registered descriptors, looked up by name (the
    hash table is modelled in Hash.v, its comparison of names in HashStr.v).
    Simplifications: the normalisation of the name is part of [name];
    [mr_init_struct], which may push descriptors of anonymous unions in front of
    the list, is left out. *)
Fixpoint register_loop (fuel : nat) (nx : list (option nat)) (reg : list nat) (tdp : option nat)
  : option (list nat) :=
  match tdp with
  | None => Some reg
  | Some p =>
    match fuel with
    | O => None
    | S fuel =>
      let reg := if existsb (fun q => N.eqb (name q) (name p)) reg then reg else reg ++ [p] in
      next ← rd nx p;
      register_loop fuel nx reg next
    end
  end.

(** src/metaresc.c:1941-1957: sorting followed by the walk. *)
Definition conf_init_types (fuel : nat) (st : list (option nat) * option nat) : option (list nat) :=
  '(nx, td_list) ← sort_td fuel (fst st) (snd st);
  register_loop fuel nx [] td_list.
End td.
