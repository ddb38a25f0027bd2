(** Model of how members of structures are described from debug information (src/mr_dwarf.c:612-976).
    A debugging information entry (DIE) is given by the attributes that are looked at.  That attributes have the forms
    the assertions ask for (for example src/mr_dwarf.c:695) is taken from libdwarf; allocation succeeds; sizes and
    offsets are not cut to mr_size_t and mr_offset_t.
    [None]: a failed assertion, or too little fuel. *)
From Coq Require Import Ascii String.
From Verif Require Import Base.
Local Open Scope Z_scope.

(** A literal as a list of bytes, for src/mr_dwarf.c:669, 829 and src/metaresc.h:103-104. *)
Definition lit (s : string) : list Z := map (fun c => Z.of_nat (nat_of_ascii c)) (list_ascii_of_string s).

(** mr_type_t, src/mr_protos.h:91-126; the remaining types of numbers are [BASIC] with their number. *)
Inductive mtype := NONE | STRING | CHAR | VOID | BASIC (n : Z) | STRUCT | ENUM | FUNC_TYPE | BITFIELD | ARRAY | POINTER | UNION | ANON_UNION.
(** Equality of types, as used by [==] in src/mr_dwarf.c:712, 715, 753, 844, 870-871. *)
Global Instance mtype_dec : EqDecision mtype.
Proof. solve_decision. Defined.

(** The tags that are told apart, src/mr_dwarf.c:629-655, 807-865. *)
Inductive dtag := T_const | T_volatile | T_array | T_typedef | T_pointer | T_base | T_subroutine | T_structure | T_union | T_enumeration | T_other.
(** mr_die_t, src/mr_dwarf.c:435-444, with attributes: name, byte size, referred type, the flag added at 681-683.  [subs]: for
    the children of an array, the count and the upper bound if any (772-784). *)
Record die := Die { off : Z; tag : dtag; dname : option (list Z); byte_size : option Z; type_ref : option Z;
  anonymous : bool; subs : list (option Z * option Z) }.

(** The part of mr_stype_t (src/mr_protos.h:309-323) that is filled in. *)
Record stype := Stype { mr_type : mtype; mr_type_aux : mtype; mr_type_ptr : mtype; type : option (list Z); size : Z; dim : list Z }.
(** The memory of a new descriptor is zero, src/mr_dwarf.c:1091. *)
Definition stype0 : stype := Stype NONE NONE NONE None 0 [].

(** Entries that are put into the index, src/mr_dwarf.c:631-645. *)
Definition indexed (t : dtag) : bool := match t with T_other => false | _ => true end.
(** mr_ic_find in the index by offset, src/mr_dwarf.c:803; the collection is a list by C06. *)
Definition find_die (g : list die) (o : Z) : option die := List.find (fun d => indexed (tag d) && (off d =? o)) g.
(** Assignment to the entry at an offset, src/mr_dwarf.c:675-690. *)
Definition set_die (g : list die) (d' : die) : list die := map (fun d => if off d =? off d' then d' else d) g.

(** get_type_name, src/mr_dwarf.c:663-707.  [dec] prints a number in decimal. *)
Definition get_type_name (dec : Z -> list Z) (g : list die) (s : stype) (d : die) : stype * list die :=
  let '(name, g) :=
    match dname d with
    | Some n => (n, g)
    | None =>
      let n := match type s with Some t => t | None => lit "mr_type_anonymous_" ++ dec (off d) ++ lit "_t" end in
      (n, set_die g (Die (off d) (tag d) (Some n) (byte_size d) (type_ref d) true (subs d)))
    end in
  let t := match type s with Some t => t | None => name end in
  let sz := match byte_size d with Some z => z | None => size s end in
  (Stype (mr_type s) (mr_type_aux s) (mr_type_ptr s) (Some t) sz (dim s), g).

(** push_mr_type, src/mr_dwarf.c:709-727. *)
Definition push (s : stype) (m : mtype) : stype :=
  if decide (mr_type s = NONE) then Stype (mr_type_aux s) (mr_type_ptr s) m (type s) (size s) (dim s)
  else if decide (mr_type s = VOID) then s
  else Stype VOID (mr_type s) (mr_type_ptr s) (type s) (size s) (dim s).

(** get_base_mr_type, src/mr_dwarf.c:729-761.  [sign]: the table of built-in types by name and size (1216-1229). *)
Definition get_base (sign : list Z -> Z -> option mtype) (s : stype) (d : die) : option stype :=
  sz ← byte_size d; n ← dname d; m ← sign n sz;
  let s := Stype (mr_type s) (mr_type_aux s) (mr_type_ptr s) (type s) sz (dim s) in
  let s := if decide (mr_type_ptr s = POINTER /\ m = CHAR) then Stype (mr_type s) (mr_type_aux s) STRING (type s) (size s) (dim s) else push s m in
  Some (Stype (mr_type s) (mr_type_aux s) (mr_type_ptr s) (Some (match type s with Some t => t | None => n end)) (size s) (dim s)).

(** The number of elements of a subrange, src/mr_dwarf.c:771-784, as [uint32_t]. *)
Definition dimension (sub : option Z * option Z) : Z :=
  match snd sub with
  | Some u => (u + 1) mod 2 ^ 32
  | None => match fst sub with Some c => c mod 2 ^ 32 | None => 1 end
  end.
(** The loop of get_array_mr_type, src/mr_dwarf.c:766-790; [acc] is [dim.dim] up to [j]. *)
Fixpoint get_dims (acc : list Z) (subs : list (option Z * option Z)) : list Z :=
  match subs with
  | [] => acc
  | sub :: subs =>
    if (length acc <? 4)%nat then get_dims (acc ++ [dimension sub]) subs
    else get_dims (alter (fun x => (x * dimension sub) mod 2 ^ 32) (length acc - 1)%nat acc) subs
  end.
(** get_array_mr_type, src/mr_dwarf.c:763-791. *)
Definition get_array (s : stype) (d : die) : stype :=
  Stype (mr_type s) (mr_type_aux s) (mr_type_ptr s) (type s) (size s) (get_dims [] (subs d)).

(** One round of src/mr_dwarf.c:872-876. *)
Definition shift1 (s : stype) : stype := Stype (mr_type_aux s) (mr_type_ptr s) NONE (type s) (size s) (dim s).
(** The end of get_mr_type, src/mr_dwarf.c:870-876: after two rounds the last member, which is not [NONE], is the first. *)
Definition finish (s : stype) : stype :=
  if decide (mr_type_ptr s = NONE) then s
  else if decide (mr_type s = NONE) then
    let s := shift1 s in
    if decide (mr_type s = NONE) then shift1 s else s
  else s.

(** get_mr_type, src/mr_dwarf.c:793-877: the loop and the recursive call for pointers.  Fuel bounds their number. *)
Fixpoint get_mr_type (fuel : nat) (dec : Z -> list Z) (sign : list Z -> Z -> option mtype) (g : list die) (s : stype) (d : die)
  : option (stype * list die) :=
  match fuel with
  | O => None
  | S fuel =>
    match type_ref d with
    | None => Some (finish s, g)
    | Some o =>
      d ← find_die g o;
      match tag d with
      | T_const | T_volatile => get_mr_type fuel dec sign g s d
      | T_array => get_mr_type fuel dec sign g (get_array (push s ARRAY) d) d
      | T_typedef => let '(s, g) := get_type_name dec g s d in get_mr_type fuel dec sign g s d
      | T_pointer =>
        '(s', g) ← get_mr_type fuel dec sign g (push s POINTER) d;
        let t := match type s, type s' with None, Some t => Some (t ++ lit " *") | _, t => t end in
        Some (finish (Stype (mr_type s') (mr_type_aux s') (mr_type_ptr s') t 8 (dim s')), g)
      | T_base => s ← get_base sign s d; Some (finish s, g)
      | T_subroutine =>
        if decide (mr_type_ptr s = POINTER)
        then Some (finish (Stype (mr_type s) (mr_type_aux s) FUNC_TYPE (type s) (size s) (dim s)), g) else None
      | T_structure => let '(s, g) := get_type_name dec g (push s STRUCT) d in Some (finish s, g)
      | T_union =>
        let '(s, g) := get_type_name dec g s d in
        d ← find_die g o;
        Some (finish (push s (if anonymous d then ANON_UNION else UNION)), g)
      | T_enumeration => let '(s, g) := get_type_name dec g (push s ENUM) d in Some (finish s, g)
      | T_other => None
      end
    end
  end.

(** The entry of a member: its attributes looked at in src/mr_dwarf.c:907-976; [mdie] has the name, the byte size and the
    type. *)
Record member := Member { mdie : die; location : option Z; bit_size : option Z; data_bit_offset : option Z; bit_offset : option Z }.
(** The part of mr_fd_t (src/mr_protos.h:358-390, 330-337) that is filled in. *)
Record fd := Fd { fname : list Z; unnamed : bool; offset : Z; width : Z; shift : Z; fstype : stype }.

(** load_member, src/mr_dwarf.c:907-976, for member number [idx] of type [ty].  [width] and [shift] are [uint8_t]. *)
Definition load_member (fuel : nat) (dec : Z -> list Z) (sign : list Z -> Z -> option mtype) (g : list die) (ty : list Z) (idx : Z) (m : member)
  : option (fd * list die) :=
  let field := ty ++ lit "_" ++ dec idx in
  let '(name, un, t) := match dname (mdie m) with Some n => (n, false, None) | None => (field, true, Some (field ++ lit "_t")) end in
  let sz := match byte_size (mdie m) with Some z => z | None => 0 end in
  let o := match location m with Some z => z | None => 0 end in
  let '(p, w, sh, o) :=
    match bit_size m with
    | None => (NONE, 0, 0, o)
    | Some w =>
      let w := w mod 2 ^ 8 in
      let '(sh, o) := match data_bit_offset m with Some x => (x mod 8, x / 8) | None => (0, o) end in
      let '(sh, o) := match bit_offset m with
        | Some x => let sh := (sz * 8 - w - x) mod 2 ^ 8 in (sh mod 8, o + sh / 8)
        | None => (sh, o) end in
      (BITFIELD, w, sh, o)
    end in
  '(s, g) ← get_mr_type fuel dec sign g (Stype NONE NONE p t sz []) (mdie m);
  Some (Fd name un o w sh s, g).
