(** Model of the detection of types: [mr_type_size] (src/metaresc.c:1185-1204),
    [mr_type_is_an_array] (src/metaresc.c:1259-1290), [mr_detect_structured_type]
    (src/metaresc.c:1356-1459), [mr_fd_detect_field_type] (src/metaresc.c:1461-1470),
    [mr_validate_stype] (src/metaresc.c:1751-1851), [mr_validate_td]
    (src/metaresc.c:1853-1862), [mr_type_void_fields_impl] for one field
    (src/metaresc.c:1690-1703) and [mr_detect_type] (src/metaresc.c:1987-1997).

    Type names are lists of character codes as in [TypeName]. *)
From Coq Require Import String Ascii.
From Verif Require Import Base TypeName ArrayGeom.
Local Open Scope list_scope.
Local Open Scope Z_scope.

(** *** [mr_type_t], src/mr_protos.h:91-126 *)
(** src/mr_protos.h:92. *)
Definition M_NONE : Z := 0.
(** src/mr_protos.h:93. *)
Definition M_STRING : Z := 1.
(** src/mr_protos.h:94. *)
Definition M_CHAR_ARRAY : Z := 2.
(** src/mr_protos.h:95. *)
Definition M_CHAR : Z := 3.
(** src/mr_protos.h:96. *)
Definition M_VOID : Z := 4.
(** src/mr_protos.h:97. *)
Definition M_BOOL : Z := 5.
(** src/mr_protos.h:98. *)
Definition M_INT8 : Z := 6.
(** src/mr_protos.h:107. *)
Definition M_UINT128 : Z := 15.
(** src/mr_protos.h:113. *)
Definition M_COMPLEX_LONG_DOUBLE : Z := 21.
(** src/mr_protos.h:114. *)
Definition M_STRUCT : Z := 22.
(** src/mr_protos.h:115. *)
Definition M_ENUM : Z := 23.
(** src/mr_protos.h:116. *)
Definition M_FUNC_TYPE : Z := 24.
(** src/mr_protos.h:117. *)
Definition M_FUNC : Z := 25.
(** src/mr_protos.h:118. *)
Definition M_BITFIELD : Z := 26.
(** src/mr_protos.h:119. *)
Definition M_ARRAY : Z := 27.
(** src/mr_protos.h:120. *)
Definition M_POINTER : Z := 28.
(** src/mr_protos.h:121. *)
Definition M_UNION : Z := 29.
(** src/mr_protos.h:122. *)
Definition M_ANON_UNION : Z := 30.
(** src/mr_protos.h:123. *)
Definition M_NAMED_ANON_UNION : Z := 31.
(** src/mr_protos.h:124. *)
Definition M_END_ANON_UNION : Z := 32.
(** src/mr_protos.h:125. *)
Definition M_LAST : Z := 33.

(** The masks of types, [(MASK >> type) & 1] (e.g. src/metaresc.c:1360), as lists
    of their types.  Simplification: a type above 63, where the shift would be
    undefined, is in no mask. *)
Definition in_mask (mask : list Z) (t : Z) : bool := existsb (Z.eqb t) mask.
(** src/metaresc.c:1359 [MR_TYPES_SKIP_RESOLUTION]. *)
Definition skip_resolution : list Z := [M_VOID; M_FUNC].
(** The mask of src/metaresc.c:1375: no type and the integers. *)
Definition enum_cases : list Z := [M_NONE; 6; 7; 8; 9; 10; 11; 12; 13; 14; 15].
(** The mask of src/metaresc.c:1378 and 1385. *)
Definition none_or_pointer : list Z := [M_NONE; M_POINTER].
(** src/metaresc.c:43 [MR_INT_TYPES]. *)
Definition int_types : list Z := [M_CHAR; M_BOOL; 6; 7; 8; 9; 10; 11; 12; 13; 14; 15; M_ENUM].
(** src/mr_save.h:7 [MR_STRUCT_TYPES]. *)
Definition struct_types : list Z := [M_STRUCT; M_UNION; M_ANON_UNION; M_NAMED_ANON_UNION].
(** src/mr_save.h:8 [MR_TYPED_TYPES]. *)
Definition typed_types : list Z := [M_STRUCT; M_ENUM; M_UNION; M_ANON_UNION; M_NAMED_ANON_UNION].
(** src/metaresc.c:1809 [VALID_POINTER_AUX_TYPES]. *)
Definition valid_pointer_aux : list Z :=
  [M_STRING; M_CHAR_ARRAY; M_CHAR; M_VOID; M_BOOL; 6; 7; 8; 9; 10; 11; 12; 13; 14; 15;
   16; 17; 18; 19; 20; 21; M_STRUCT; M_ENUM; M_FUNC_TYPE; M_POINTER; M_UNION].

(** A registered type ([mr_td_t], src/mr_protos.h:454-468): its name, [mr_type]
    and [size]; the other members play no role here. *)
Record tdesc := Tdesc { d_name : list Z; d_type : Z; d_size : Z }.

(** [mr_stype_t], src/mr_protos.h:309-324.  [st_class] tells whether
    [mr_type_class] is [MR_POINTER_TYPE_CLASS]; [st_dims] are the cells of [dim]
    in use; [st_tdp] is the index of a registered type.  [mr_type_ptr] (used for
    DWARF only) is left out. *)
Record stype := Stype {
  st_tdp : option nat; st_type : option (list Z); st_mt : Z; st_aux : Z; st_class : bool;
  st_array : bool; st_bitfield : bool; st_size : Z; st_dims : list Z }.

(** Assignment of [mr_type], e.g. src/metaresc.c:1376. *)
Definition set_mt (t : Z) (s : stype) : stype :=
  Stype (st_tdp s) (st_type s) t (st_aux s) (st_class s) (st_array s) (st_bitfield s) (st_size s) (st_dims s).
(** Assignment of [mr_type_aux], e.g. src/metaresc.c:1374. *)
Definition set_aux (t : Z) (s : stype) : stype :=
  Stype (st_tdp s) (st_type s) (st_mt s) t (st_class s) (st_array s) (st_bitfield s) (st_size s) (st_dims s).
(** Assignment of [tdp], src/metaresc.c:1428. *)
Definition set_tdp (d : option nat) (s : stype) : stype :=
  Stype d (st_type s) (st_mt s) (st_aux s) (st_class s) (st_array s) (st_bitfield s) (st_size s) (st_dims s).
(** Assignment of [size], e.g. src/metaresc.c:1444. *)
Definition set_size (z : Z) (s : stype) : stype :=
  Stype (st_tdp s) (st_type s) (st_mt s) (st_aux s) (st_class s) (st_array s) (st_bitfield s) z (st_dims s).
(** src/metaresc.c:1284-1286. *)
Definition set_dims (dims : list Z) (s : stype) : stype :=
  Stype (st_tdp s) (st_type s) (st_mt s) (st_aux s) (st_class s) true (st_bitfield s) (st_size s) dims.

(** src/metaresc.c:1185-1204 [mr_type_size] on a 64-bit machine. *)
Definition type_size (t : Z) : Z :=
  nth (Z.to_nat t)
      [0; 8; 0; 1; 8; 1; 1; 1; 2; 2; 4; 4; 8; 8; 16; 16; 4; 8; 8; 16; 16; 32; 0; 0; 8; 8; 0; 0; 8] 0.

(** The characters of a string literal of the source (src/metaresc.c:1409-1415). *)
Definition lit (s : string) : list Z :=
  map (fun c => Z.of_nat (nat_of_ascii c)) (list_ascii_of_string s).

(** src/metaresc.c:1409-1415: the table [type_name]. *)
Definition type_name (t : Z) : option (list Z) :=
  if t =? 4 then Some (lit "void") else if t =? 1 then Some (lit "string_t")
  else if t =? 3 then Some (lit "char") else if t =? 5 then Some (lit "bool")
  else if t =? 6 then Some (lit "int8_t") else if t =? 7 then Some (lit "uint8_t")
  else if t =? 8 then Some (lit "int16_t") else if t =? 9 then Some (lit "uint16_t")
  else if t =? 10 then Some (lit "int32_t") else if t =? 11 then Some (lit "uint32_t")
  else if t =? 12 then Some (lit "int64_t") else if t =? 13 then Some (lit "uint64_t")
  else if t =? 14 then Some (lit "mr_int128_t") else if t =? 15 then Some (lit "mr_uint128_t")
  else if t =? 16 then Some (lit "float") else if t =? 17 then Some (lit "complex_float_t")
  else if t =? 18 then Some (lit "double") else if t =? 19 then Some (lit "complex_double_t")
  else if t =? 20 then Some (lit "long_double_t") else if t =? 21 then Some (lit "complex_long_double_t")
  else None.

(** Skipping of blanks in [atoi] of libc (src/metaresc.c:1274). *)
Fixpoint skip_blanks (s : list Z) : list Z :=
  match s with
  | c :: s' => if isspace c then skip_blanks s' else s
  | [] => []
  end.
(** The digits read by [atoi] (src/metaresc.c:1274). *)
Fixpoint atoi_digits (acc : Z) (s : list Z) : Z :=
  match s with
  | c :: s => if (48 <=? c) && (c <=? 57) then atoi_digits (10 * acc + (c - 48)) s else acc
  | [] => acc
  end.
(** [atoi] of libc (src/metaresc.c:1274); a value outside of int is undefined
    behaviour. *)
Definition atoi (s : list Z) : option Z :=
  let v := match skip_blanks s with
           | c :: s' => if c =? 45 then - atoi_digits 0 s'
                        else if c =? 43 then atoi_digits 0 s' else atoi_digits 0 (c :: s')
           | [] => 0
           end in
  if (- 2 ^ 31 <=? v) && (v <? 2 ^ 31) then Some v else None.

(** src/metaresc.c:1270-1272: the text before the first bracket ... *)
Fixpoint before_bracket (s : list Z) : list Z :=
  match s with
  | c :: s => if c =? 91 then [] else c :: before_bracket s
  | [] => []
  end.
(** ... and what follows each of the brackets (src/metaresc.c:1270-1274). *)
Fixpoint after_brackets (s : list Z) : list (list Z) :=
  match s with
  | c :: s => if c =? 91 then s :: after_brackets s else after_brackets s
  | [] => []
  end.

(** src/metaresc.c:1259-1290 [mr_type_is_an_array]: the descriptor and the text
    left in the buffer (the return value is not used by the caller). *)
Definition type_is_an_array (s : stype) (type : list Z) : option (stype * list Z) :=
  match type with
  | [] => Some (s, type)
  | _ =>
    counts ← mapM (fun t => n ← atoi t; Some (n mod 2 ^ 32)) (after_brackets type);
    dims ← collect_dims counts;
    let i := length dims in
    let s := if (0 <? i)%nat && negb ((st_mt s =? M_CHAR_ARRAY) && (i =? 1)%nat)
             then set_dims dims s else s in
    Some (s, before_bracket type)
  end.

Section reg.
(** The registered types in the order of their registration. *)
Context (reg : list tdesc).

(** [mr_get_td_by_name_internal] (src/metaresc.c:829-836): the type registered
    under the name.  Simplification: the hash table (Hash.v) is a search through
    the list. *)
Definition td_by_name (name : list Z) : option nat :=
  fst <$> list_find (fun d => d_name d = name) reg.
(** [tdp->mr_type], e.g. src/metaresc.c:1376; a pointer that leads nowhere is
    undefined behaviour. *)
Definition td_mt (i : nat) : option Z := d ← reg !! i; Some (d_type d).

(** src/metaresc.c:1370-1391: the resolution of the name. *)
Definition resolve_name (s : stype) (type : list Z) : option (stype * option nat) :=
  match td_by_name type with
  | Some i =>
    t ← td_mt i;
    Some ((if st_mt s =? M_BITFIELD then set_aux t s
           else if in_mask enum_cases (st_mt s) then set_mt t s else s), Some i)
  | None =>
    if in_mask none_or_pointer (st_mt s) then
      '(p, type) ← type_is_a_pointer type;
      if p : bool then
        let s := set_mt M_POINTER s in
        match td_by_name type with
        | Some i => t ← td_mt i; Some (set_aux t s, Some i)
        | None =>
          if in_mask none_or_pointer (st_aux s) then
            '(p, type) ← type_is_a_pointer type;
            if p : bool then Some (set_aux M_POINTER s, td_by_name type) else Some (s, None)
          else Some (s, None)
        end
      else Some (s, None)
    else Some (s, None)
  end.

(** src/metaresc.c:1393-1407: types found at compile time and types not found
    at all. *)
Definition settle (s : stype) : stype :=
  let s := if (st_mt s =? M_NONE) && negb (st_aux s =? M_NONE) then set_mt M_POINTER s else s in
  let s := if (st_mt s =? M_NONE) && st_class s && negb (st_array s) then set_mt M_POINTER s else s in
  if st_mt s =? M_POINTER then (if st_aux s =? M_NONE then set_aux M_VOID s else s)
  else if st_mt s =? M_NONE then set_mt M_VOID s else s.

(** src/metaresc.c:1416-1426: the descriptor of a basic type is the one of its
    standard name.  Simplification: the table [type_tdp] only remembers results of
    earlier look-ups. *)
Definition basic_tdp (s : stype) (tdp : option nat) : option nat :=
  let t := if in_mask [M_BITFIELD; M_POINTER] (st_mt s) then st_aux s else st_mt s in
  match type_name t with
  | Some n => td_by_name n
  | None => tdp
  end.

(** src/metaresc.c:1430-1439. *)
Definition wrap_array_bitfield (s : stype) : stype :=
  let s := if st_array s then set_mt M_ARRAY (set_aux (st_mt s) s) else s in
  if st_bitfield s then set_mt M_BITFIELD (set_aux (st_mt s) s) else s.

(** src/metaresc.c:1456-1457: multiplication with the extents; [size] is
    uint32_t. *)
Fixpoint mul_dims (size : Z) (dims : list Z) : Z :=
  match dims with
  | [] => size
  | d :: dims => ((mul_dims size dims) * d) mod 2 ^ 32
  end.

(** src/metaresc.c:1441-1458: the size, unless it is known. *)
Definition detect_size (s : stype) : option stype :=
  if negb (st_size s =? 0) then Some s
  else
    let s := set_size (type_size (st_mt s)) s in
    if negb (st_size s =? 0) then Some s
    else
      s ← match st_tdp s with
          | Some i => d ← reg !! i; Some (set_size (d_size d) s)
          | None => Some s
          end;
      if st_mt s =? M_ARRAY then
        let s := if st_aux s =? M_POINTER then set_size 8 s else s in
        Some (set_size (mul_dims (st_size s) (st_dims s)) s)
      else Some s.

(** src/metaresc.c:1356-1459 [mr_detect_structured_type]. *)
Definition detect_structured_type (s : stype) : option stype :=
  if in_mask skip_resolution (st_mt s) then Some s
  else match st_type s with
       | None => Some s
       | Some type =>
         '(s, type) ← type_is_an_array s type;
         type ← normalize_type type;
         '(s, tdp) ← resolve_name s type;
         let s := settle s in
         let s := set_tdp (basic_tdp s tdp) s in
         detect_size (wrap_array_bitfield s)
       end.

(** src/metaresc.c:1461-1470 [mr_fd_detect_field_type]: the descriptor and
    [mr_type_base]. *)
Definition detect_field_type (s : stype) : option (stype * Z) :=
  s ← detect_structured_type s;
  base ← match st_tdp s with Some i => td_mt i | None => Some M_VOID end;
  Some (s, base).

(** src/metaresc.c:1756-1842: the switch of [mr_validate_stype]: does the
    descriptor fit?  (The types that become VOID without a failure are treated
    in [validate_stype].) *)
Definition stype_fits (s : stype) : option bool :=
  dt ← match st_tdp s with Some i => t ← td_mt i; Some (Some t) | None => Some None end;
  let t := st_mt s in
  let a := st_aux s in
  Some
    (if in_mask [M_VOID; M_FUNC; M_NONE; M_END_ANON_UNION; M_LAST] t then true
     else if t =? M_BITFIELD then
       in_mask int_types a &&
       negb (in_mask typed_types a && match dt with None => true | Some _ => false end) &&
       negb (in_mask typed_types a && match dt with Some d => negb (a =? d) | None => false end)
     else if in_mask [M_ARRAY; M_POINTER] t then
       negb ((t =? M_ARRAY) && (a =? M_VOID)) &&
       (if a =? M_POINTER then match dt with None => false | Some _ => true end
        else in_mask valid_pointer_aux a &&
             match dt with Some d => a =? d | None => true end &&
             negb (in_mask typed_types a && match dt with None => true | Some _ => false end))
     else if in_mask typed_types t then
       match dt with Some d => t =? d | None => false end
     else if (M_STRING <=? t) && (t <=? M_FUNC_TYPE) then
       ((t =? M_CHAR_ARRAY) && match dt with Some d => d =? M_CHAR | None => false end) ||
       match dt with Some d => t =? d | None => true end
     else true).

(** src/metaresc.c:1751-1851 [mr_validate_stype]: success and the descriptor. *)
Definition validate_stype (s : stype) : option (bool * stype) :=
  ok ← stype_fits s;
  let s := if in_mask [M_NONE; M_END_ANON_UNION; M_LAST] (st_mt s) then set_mt M_VOID s else s in
  if ok : bool then Some (true, s)
  else
    let s := if negb (st_mt s =? M_POINTER) then set_mt M_VOID s else s in
    Some (false, set_aux M_VOID s).

(** src/metaresc.c:1853-1862 [mr_validate_td]: all fields of a structure or
    union. *)
Definition validate_td (mt : Z) (fields : list stype) : option (list stype) :=
  if in_mask struct_types mt then mapM (fun s => r ← validate_stype s; Some (snd r)) fields
  else Some fields.

(** src/metaresc.c:1987-1997 [mr_detect_type]: the descriptor and
    [mr_type_base].  The name given to the field (line 1994) is left out. *)
Definition detect_type (s : stype) : option (stype * Z) :=
  '(s, base) ← detect_field_type s;
  r ← validate_stype s;
  Some (snd r, base).
End reg.

(** src/metaresc.c:1695-1702: a field is made opaque ([mr_type_void_fields_impl]
    for a field that was found). *)
Definition void_field (s : stype) : stype :=
  if st_mt s =? M_VOID then s
  else
    let s := if negb (st_mt s =? M_BITFIELD) && negb (st_mt s =? M_ARRAY) && negb (st_mt s =? M_POINTER)
             then set_aux (st_mt s) s else s in
    set_mt M_VOID s.
