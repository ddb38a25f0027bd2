(** Vocabulary for the theorems about discriminators of unions, independent of the
    loop of UnionSel.v: the C type a field descriptor stands for, the value found in
    an object of that type, and the member of the union this value means. *)
From Verif Require Import Base NumStr Enum UnionSel.
Local Open Scope Z_scope.

(** C types.  Fields of src/mr_protos.h:358-390. *)
Inductive cty := CNothing | CBool | CInt (t : ity) | CBits (shift width : Z) (td : option nat) | CChars | CString
  | CEnum (td : option nat) | CPtr (c : cty) | CArr (c : cty) | CComp (td : option nat).

(** A type which is no array or pointer.  The cases of src/mr_save.c:77-141, 170-186. *)
Definition simple (t : dty) (fd : fdesc) : cty :=
  match t with
  | DtBool => CBool | DtInt t => CInt t | DtBits => CBits (d_shift fd) (d_width fd) (d_td fd)
  | DtChars => CChars | DtString => CString | DtEnum => CEnum (d_td fd) | DtStruct => CComp (d_td fd)
  | DtNone | DtVoid | DtOther | DtArray | DtPointer => CNothing
  end.
(** Elements of arrays and targets of pointers: the type mr_type_aux, or pointers to
    mr_type_base.  src/mr_protos.h:362; followed at src/mr_save.c:143-161. *)
Definition element (fd : fdesc) : cty :=
  if decide (d_aux fd = DtPointer) then CPtr (simple (d_base fd) fd) else simple (d_aux fd) fd.
(** The type of a field; one declared as void may have the type mr_type_aux.
    src/mr_save.c:71, 163-168. *)
Definition field_type (fd : fdesc) : cty :=
  match d_type fd with
  | DtArray => CArr (element fd)
  | DtPointer => CPtr (element fd)
  | DtVoid => simple (d_aux fd) fd
  | t => simple t fd
  end.

(** Arrays have no arrays for elements (they are multidimensional instead), and what is
    below two levels of pointers is no pointer.  src/mr_protos.h:359, 362. *)
Definition fd_wf (fd : fdesc) : Prop := d_aux fd <> DtArray /\ d_base fd <> DtArray /\ d_base fd <> DtPointer.

(** A value: a number, that of an enumeration with its meta text, a name or none.
    The arguments of the calls at src/mr_save.c:83, 93, 117, 120, 124, 127, 140, 157, 195. *)
Inductive dval := DvNum (x : Z) | DvEnum (x : Z) (meta : option (list Z)) | DvName (nm : list Z) | DvNone.

(** The value found in an object: that of the first scalar, following pointers.
    src/mr_save.c:75-188. *)
Inductive found (tds : nat -> tdesc) (M : memory) : cty -> Z -> dval -> Prop :=
  | F_nothing a : found tds M CNothing a DvNone
  | F_bool a : found tds M CBool a (DvNum (if decide (m_data M a mod 256 = 0) then 0 else 1))
  | F_int t a : found tds M (CInt t) a (DvNum (read_as t (m_data M a)))
  | F_bits sh w td a : (forall t, td = Some t -> t_enum (tds t) = None) ->
      found tds M (CBits sh w td) a (DvNum ((m_data M a / 2 ^ sh) mod 2 ^ w))
  | F_bits_enum sh w t e meta a : t_enum (tds t) = Some (e, meta) ->
      found tds M (CBits sh w (Some t)) a (DvEnum ((m_data M a / 2 ^ sh) mod 2 ^ w) (meta (((m_data M a / 2 ^ sh) mod 2 ^ w) mod 2 ^ 64)))
  | F_chars a : found tds M CChars a (DvName (m_str M a))
  | F_string a : m_ptr M a <> 0 -> found tds M CString a (DvName (m_str M (m_ptr M a)))
  | F_string_null a : m_ptr M a = 0 -> found tds M CString a DvNone
  | F_enum t e meta a : t_enum (tds t) = Some (e, meta) ->
      found tds M (CEnum (Some t)) a (DvEnum (get_enum_value e (m_data M a)) (meta (get_enum_value e (m_data M a) mod 2 ^ 64)))
  | F_enum_none td a : (forall t, td = Some t -> t_enum (tds t) = None) -> found tds M (CEnum td) a DvNone
  | F_ptr c a v : m_ptr M a <> 0 -> found tds M c (m_ptr M a) v -> found tds M (CPtr c) a v
  | F_ptr_null c a : m_ptr M a = 0 -> found tds M (CPtr c) a DvNone
  | F_arr c a v : found tds M c a v -> found tds M (CArr c) a v
  | F_comp t f a v : t_disc (tds t) = true -> t_first (tds t) = Some f ->
      found tds M (field_type f) (a + d_off f) v -> found tds M (CComp (Some t)) a v
  | F_comp_none td a : (forall t, td = Some t -> t_disc (tds t) = false \/ t_first (tds t) = None) -> found tds M (CComp td) a DvNone.

(** The first override for a 64 bit value.  src/mr_save.c:43-53, src/metaresc.c:1533-1557. *)
Definition overridden (u : udesc) (x : Z) (f : nat) : Prop :=
  exists k, u_over u !! k = Some (x mod 2 ^ 64, f) /\ forall j g, (j < k)%nat -> u_over u !! j <> Some (x mod 2 ^ 64, g).
(** The member of that name.  src/mr_save.c:32. *)
Definition named (u : udesc) (nm : list Z) (f : nat) : Prop :=
  u_names u !! f = Some nm /\ forall j, (j < f)%nat -> u_names u !! j <> Some nm.

(** The member meant by a name: the one that has it, else the first.
    src/mr_save.c:26-41. *)
Definition means_name (u : udesc) (nm : list Z) (f : nat) : Prop :=
  named u nm f \/ ((forall g, ~ named u nm g) /\ f = 0%nat).

(** The member meant by a value: an override; otherwise for an int the member at that
    place, or the first when there is none; for a name that member, or the first.
    src/mr_save.c:14-41. *)
Definition means (u : udesc) (v : dval) (f : nat) : Prop :=
  match v with
  | DvNum x => overridden u x f \/
      ((forall g, ~ overridden u x g) /\
       (- 2 ^ 31 <= x < 2 ^ 31 -> Z.of_nat f = if decide (0 <= x < Z.of_nat (length (u_names u))) then x else 0))
  | DvEnum x meta => overridden u x f \/
      ((forall g, ~ overridden u x g) /\
       match meta with Some nm => if decide (nm = []) then f = 0%nat else means_name u nm f | None => f = 0%nat end)
  | DvName nm => if decide (nm = []) then f = 0%nat else means_name u nm f
  | DvNone => f = 0%nat
  end.
