(** Model of bit-fields in XDR streams, src/xdr.c:762-864.  The access to the
    bits is that of Bitfield.v, the integers of the stream are those of Xdr.v;
    the host is little-endian. *)
From Verif Require Import Base Bitfield Xdr.
Local Open Scope Z_scope.

(** The types a bit-field may have: src/metaresc.c:43, MR_INT_TYPES, enforced by
    src/metaresc.c:1800.  Enumerations are in [ftype]. *)
Inductive itype := TChar | TBool | TInt8 | TUint8 | TInt16 | TUint16 | TInt32 | TUint32 | TInt64 | TUint64 | TInt128 | TUint128.

(** [stype.mr_type_aux] of the field; for an enumeration with the field
    [mr_type_effective] of its descriptor, or no descriptor at all.
    src/metaresc.c:520-522, src/xdr.c:765-770. *)
Inductive ftype := FInt (t : itype) | FEnum (effective : option itype).

(** The entries of the integer types in the two tables of handlers, which agree:
    src/xdr.c:1056-1066, 1073 and 1126-1136, 1143.  [mr_xdr_bool] (799-811) is the
    8 bit handler since [sizeof (bool)] is 1; both 128 bit types share one. *)
Definition int_handler (t : itype) : ikind :=
  match t with
  | TChar | TBool | TInt8 | TUint8 => I8
  | TInt16 => I16 true | TUint16 => I16 false
  | TInt32 | TUint32 => I32
  | TInt64 | TUint64 => I64
  | TInt128 | TUint128 => I128
  end.

(** src/xdr.c:762-783, [_xdr_enum]: which integer handler runs; [None] is
    MR_FAILURE.  Only the sized types of 8 to 64 bits have a case. *)
Definition enum_handler (effective : option itype) : option ikind :=
  match effective with
  | Some TUint8 => Some (int_handler TUint8)
  | Some TInt8 => Some (int_handler TInt8)
  | Some TUint16 => Some (int_handler TUint16)
  | Some TInt16 => Some (int_handler TInt16)
  | Some TUint32 => Some (int_handler TUint32)
  | Some TInt32 => Some (int_handler TInt32)
  | Some TUint64 => Some (int_handler TUint64)
  | Some TInt64 => Some (int_handler TInt64)
  | _ => None
  end.

(** src/xdr.c:820-832, [xdr_bitfield_value]: the handler of [mr_type_aux]. *)
Definition handler (t : ftype) : option ikind :=
  match t with FInt t => Some (int_handler t) | FEnum e => enum_handler e end.

(** src/metaresc.c:520-527: the type is extended with its sign.  An enumeration
    without descriptor keeps MR_TYPE_ENUM, which is not in the set. *)
Definition sign_extends (t : ftype) : bool :=
  match t with
  | FInt t | FEnum (Some t) => match t with TInt8 | TInt16 | TInt32 | TInt64 | TInt128 => true | _ => false end
  | FEnum None => false
  end.

(** Field descriptor and address: the byte [data.ptr] points at, [shift] and
    [width] of [bitfield_param]; src/metaresc.c:511-513. *)
Record field := { f_type : ftype; f_ptr : nat; f_shift : Z; f_width : Z }.

(** Result of saving: the bytes appended, MR_FAILURE, or undefined behaviour.
    The status of src/xdr.c:842. *)
Inductive saved := SOk (w : list Z) | SFail | SUB.

(** src/xdr.c:841-848, [xdr_save_bitfield].  The handler reads the low bytes of
    the 16 byte variable [value]. *)
Definition save_field (mem : list Z) (f : field) : saved :=
  match save_bitfield mem (f_ptr f) (f_shift f) (f_width f) (sign_extends (f_type f)) with
  | None => SUB
  | Some value =>
    match handler (f_type f) with
    | None => SFail
    | Some k => SOk (put_int k (value mod 2 ^ bits k))
    end
  end.

(** src/xdr.c:857-864, [xdr_load_bitfield].  [value] is not initialised: [junk]
    is what the variable holds; the handler stores into its low bytes.  The
    result is the new memory. *)
Definition load_field (junk : Z) (mem : list Z) (f : field) : dec (list Z) :=
  match handler (f_type f) with
  | None => fail
  | Some k =>
    let* v := get_int k in
    let value := junk / 2 ^ bits k * 2 ^ bits k + v in
    fun b h => match load_bitfield mem (f_ptr f) (f_shift f) (f_width f) value with
               | Some mem => Ok mem h
               | None => UB
               end
  end.
