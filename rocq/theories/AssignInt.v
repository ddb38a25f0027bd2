(** Model of mr_assign_int, src/mr_save.c:830-931, and of the conversion of fields
    to MR_TYPE_VOID, src/metaresc.c:1692-1702.  Memory is a list of bytes, an
    address is an index, 0 is NULL; little-endian, with 128 bit integers.
    Accesses outside of the list are undefined, [None]. *)
From Verif Require Import Base Bitfield CmpHash.
Local Open Scope Z_scope.

(** src/mr_protos.h:572-597, mr_ptrdes_t as mr_assign_int uses it: [data.ptr],
    [mr_type], [mr_type_aux], the field [mr_type_effective] of the descriptor
    [fdp->stype.tdp] if that is one of an enumeration (src/mr_save.c:860-866),
    and [fdp->bitfield_param] (src/metaresc.c:511-512). *)
Record operand := Op { o_ptr : nat; o_type : Z; o_aux : Z; o_enum : option Z; o_shift : Z; o_width : Z }.

(** src/mr_save.c:835-845: the address of the value, 0 if there is none. *)
Definition data_of (mem : list Z) (o : operand) : option nat :=
  if o_type o =? 28 then p ← bytes_at mem (o_ptr o) 8; Some (Z.to_nat (le_num p)) else Some (o_ptr o).

(** src/mr_save.c:850-853, 891-894: the type of the value. *)
Definition type_of (o : operand) : Z := if (o_type o =? 4) || (o_type o =? 28) then o_aux o else o_type o.

(** src/metaresc.c:520-527 on the types of the operand. *)
Definition bits_signed (o : operand) : bool :=
  let t := if o_aux o =? 23 then default 23 (o_enum o) else o_aux o in
  (t =? 6) || (t =? 8) || (t =? 10) || (t =? 12) || (t =? 14).

(** [value = *(TYPE * )src_data] as [mr_uintmax_t], src/mr_save.c:869. *)
Definition get_int (mem : list Z) (p size : nat) (sgn : bool) : option Z :=
  bs ← bytes_at mem p size; Some (le_int sgn bs mod 2 ^ 128).

(** src/mr_save.c:855-889: the value read; 0 for types without a case. *)
Definition get_value (mem : list Z) (o : operand) (p : nat) : option Z :=
  if (type_of o =? 4) || (type_of o =? 23) then
    match o_enum o with
    | None => Some 0
    | Some e => match enum_kind e with Some (size, sgn) => get_int mem p size sgn | None => Some 0 end
    end
  else match kind_of (type_of o) with
       | KBool => bs ← bytes_at mem p 1; rd_bool bs
       | KInt size sgn => get_int mem p size sgn
       | KBitfield => save_bitfield mem (o_ptr o) (o_shift o) (o_width o) (bits_signed o)
       | _ => Some 0
       end.

(** Store of consecutive bytes, src/mr_save.c:910. *)
Fixpoint put_bytes (mem : list Z) (p : nat) (bs : list Z) : option (list Z) :=
  match bs with [] => Some mem | b :: bs => mem ← wr mem p b; put_bytes mem (S p) bs end.

(** src/mr_save.c:896-930: the value stored; nothing for types without a case. *)
Definition set_value (mem : list Z) (o : operand) (p : nat) (value : Z) : option (list Z) :=
  if (type_of o =? 4) || (type_of o =? 23) then
    match o_enum o with
    | None => Some mem
    | Some e => match enum_kind e with Some (size, _) => put_bytes mem p (num_le size value) | None => Some mem end
    end
  else match kind_of (type_of o) with
       | KBool => put_bytes mem p [if value =? 0 then 0 else 1]
       | KInt size _ => put_bytes mem p (num_le size value)
       | KBitfield => load_bitfield mem (o_ptr o) (o_shift o) (o_width o) value
       | _ => Some mem
       end.

(** mr_assign_int, src/mr_save.c:830-931: the memory afterwards. *)
Definition assign_int (mem : list Z) (dst src : operand) : option (list Z) :=
  s ← data_of mem src;
  if Nat.eqb s 0 then Some mem else
  d ← data_of mem dst;
  if Nat.eqb d 0 then Some mem else
  v ← get_value mem src s;
  set_value mem dst d v.

(** src/metaresc.c:1695-1702, a field turned into one of type void by
    mr_type_void_fields_impl. *)
Definition void_field (o : operand) : operand :=
  if o_type o =? 4 then o
  else Op (o_ptr o) 4 (if (o_type o =? 26) || (o_type o =? 27) || (o_type o =? 28) then o_aux o else o_type o)
          (o_enum o) (o_shift o) (o_width o).
