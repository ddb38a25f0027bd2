(** Model of the choice of a union's member by the value of its discriminator:
    src/mr_save.c:14-196.  Members are numbered by their place in
    [param.union_param.fields].  Memory and the table of types are arbitrary. *)
From Verif Require Import Base NumStr Enum.
Local Open Scope Z_scope.

(** [mr_type_t] as far as the switch of src/mr_save.c:75-188 tells types apart:
    [DtInt] are the eight integer types and those of 128 bits, [DtStruct] structures
    and the three kinds of unions, [DtOther] the types of the default branch. *)
Inductive dty := DtNone | DtVoid | DtBool | DtInt (t : ity) | DtBits | DtChars | DtString | DtEnum
  | DtArray | DtPointer | DtStruct | DtOther.
(** Comparisons of types, e.g. src/mr_save.c:144. *)
Global Instance dty_eq_dec : EqDecision dty.
Proof. unfold EqDecision, Decision. decide equality. decide equality. Defined.

(** The members of [mr_fd_t] used: stype.mr_type, stype.mr_type_aux, mr_type_base, offset,
    bitfield_param and stype.tdp as a number.  src/mr_protos.h:358-390. *)
Record fdesc := Fdesc { d_type : dty; d_aux : dty; d_base : dty; d_off : Z; d_shift : Z; d_width : Z; d_td : option nat }.

(** The members of [mr_td_t] used: of an enumeration the parameters for
    mr_get_enum_value (Enum.v) and the meta text of the enumerator with a value, [None]
    if there is none or no text; is_union_discriminator; the first field.
    src/mr_protos.h:412-468. *)
Record tdesc := Tdesc { t_enum : option (enum_td * (Z -> option (list Z))); t_disc : bool; t_first : option fdesc }.

(** The union: the names of its fields, and the overrides (src/metaresc.c:1533-1557)
    with the number of the field each one names. *)
Record udesc := Udesc { u_names : list (list Z); u_over : list (Z * nat) }.

(** Memory: the bytes from an address on as one little endian number, pointers (0 is
    NULL), the text at an address; src/mr_save.c:79, 90, 124, 127, 155. *)
Record memory := Memory { m_data : Z -> Z; m_ptr : Z -> Z; m_str : Z -> list Z }.

Section Select.
  Context (tds : nat -> tdesc) (M : memory) (u : udesc).

  (** src/mr_save.c:20-23, 37-40: the first field, NULL for an empty union. *)
  Definition first_field : option nat := match u_names u with [] => None | _ => Some 0%nat end.

  (** mr_union_discriminator_by_idx, src/mr_save.c:14-24; the argument is an int. *)
  Definition by_idx (x : Z) : option nat :=
    let idx := read_as I32 x in
    let idx := if (idx <? 0) || (Z.of_nat (length (u_names u)) <=? idx) then 0 else idx in
    match u_names u with [] => None | _ => Some (Z.to_nat idx) end.

  (** mr_get_fd_by_name, src/metaresc.c:1656-1667, simplified: names in a type are
      distinct, so that any index finds the same field. *)
  Fixpoint field_named (nm : list Z) (l : list (list Z)) : option nat :=
    match l with
    | [] => None
    | x :: l => if decide (x = nm) then Some 0%nat else i ← field_named nm l; Some (S i)
    end.

  (** mr_union_discriminator_by_name, src/mr_save.c:26-41; [None] is NULL. *)
  Definition by_name (nm : option (list Z)) : option nat :=
    match nm with
    | Some (c :: t) => match field_named (c :: t) (u_names u) with Some i => Some i | None => first_field end
    | _ => first_field
    end.

  (** mr_ud_override_value, src/mr_save.c:43-53: the argument is an uint64_t; the
      collection keeps the first of several overrides for a value (src/metaresc.c:1544). *)
  Fixpoint over_find (v : Z) (l : list (Z * nat)) : option nat :=
    match l with
    | [] => None
    | (x, f) :: l => if x =? v then Some f else over_find v l
    end.
  (** The call of mr_ud_override_value with any integer, src/mr_save.c:80, 90, 108, 136. *)
  Definition override (x : Z) : option nat := over_find (x mod 2 ^ 64) (u_over u).

  (** src/mr_save.c:79-83, 87-94, 108-110, 120. *)
  Definition by_value (x : Z) : option nat :=
    match override x with Some f => Some f | None => by_idx x end.

  (** src/mr_save.c:108-118, 135-140: an override, or the field the enumerator names. *)
  Definition by_enum (meta : Z -> option (list Z)) (x : Z) : option nat :=
    match override x with Some f => Some f | None => by_name (meta (x mod 2 ^ 64)) end.

  (** mr_init_pointer_fd, src/mr_save.c:55-66. *)
  Definition pointer_fd (fd : fdesc) : fdesc :=
    Fdesc (d_aux fd) (d_base fd) (d_base fd) 0 (d_shift fd) (d_width fd) (d_td fd).

  (** mr_save_bitfield_value as called at src/mr_save.c:103-107, where mr_type_aux of the
      descriptor is left 0 so that the sign is not extended (src/metaresc.c:507-533,
      Bitfield.v). *)
  Definition bits_at (fd : fdesc) (a : Z) : Z := (m_data M a / 2 ^ d_shift fd) mod 2 ^ d_width fd.

  (** mr_union_discriminator_by_type, src/mr_save.c:68-196: the loop.  [None]: out of
      fuel, i.e. the loop does not end. *)
  Fixpoint by_type (fuel : nat) (t : dty) (fd : fdesc) (a : Z) : option (option nat) :=
    match fuel with
    | O => None
    | S fuel =>
      (* src/mr_save.c:153-161 *)
      let pointer fd :=
        let a := m_ptr M a in
        if a =? 0 then Some (by_name None)
        else by_type fuel (d_aux fd) (if decide (d_aux fd = DtPointer) then pointer_fd fd else fd) a in
      match t with
      | DtBool => Some (by_value (if m_data M a mod 256 =? 0 then 0 else 1))
      | DtInt t => Some (by_value (read_as t (m_data M a)))
      | DtBits =>
        let x := bits_at fd a in
        match t ← d_td fd; t_enum (tds t) with
        | Some (_, meta) => Some (by_enum meta x)
        | None => Some (by_value x)
        end
      | DtChars => Some (by_name (Some (m_str M a)))
      | DtString => Some (by_name (if m_ptr M a =? 0 then None else Some (m_str M (m_ptr M a))))
      | DtEnum =>
        match d_td fd with
        | None => Some (by_name None)
        | Some t => match t_enum (tds t) with
                    | Some (etd, meta) => Some (by_enum meta (get_enum_value etd (m_data M a)))
                    | None => Some (by_name None)
                    end
        end
      | DtArray => if decide (d_aux fd = DtPointer) then pointer (pointer_fd fd) else by_type fuel (d_aux fd) fd a
      | DtPointer => pointer fd
      | DtVoid =>
        if decide (d_aux fd = DtVoid \/ d_aux fd = DtArray \/ d_aux fd = DtPointer \/ d_aux fd = DtNone) then Some (by_name None)
        else by_type fuel (d_aux fd) fd a
      | DtStruct =>
        match t ← d_td fd; (if t_disc (tds t) then t_first (tds t) else None) with
        | Some f => if decide (d_type f = DtNone) then Some (by_name None) else by_type fuel (d_type f) f (a + d_off f)
        | None => Some (by_name None)
        end
      | DtNone | DtOther => Some (by_name None)
      end
    end.
End Select.
