(** Model of enum types: [mr_init_enum] (src/metaresc.c:1012-1092), the reading of a
    value (src/metaresc.c:945-972), the lookup by value (src/metaresc.c:993-1006,
    1114-1122) and the printing as a name, an or-list or a number
    (src/mr_stringify.c:137-219).

    A value in memory is the number its bytes form (little endian, as the code
    demands at src/metaresc.c:964-967).  Enumerators are pointers; [mem] is what is
    behind them.  Left out: messages, user supplied output formats
    (src/mr_stringify.c:127), failing allocations, and the registration of the names,
    which is the collection [mr_conf.enum_by_name] (C09) given as [env] in Value.v. *)
From Verif Require Import Base HSort ICArrays FdOffset NumStr Value.
Local Open Scope Z_scope.

(** The integer types [mr_type_effective] may be (src/metaresc.c:1039), and the rest. *)
Inductive ity := U8 | I8 | U16 | I16 | U32 | I32 | U64 | I64 | U128 | I128 | NotInt.

(** sizeof of the type in bits (src/metaresc.c:1037). *)
Definition width (t : ity) : Z :=
  match t with
  | U8 | I8 => 8 | U16 | I16 => 16 | U32 | I32 => 32 | U64 | I64 => 64 | U128 | I128 => 128 | NotInt => 0
  end.
(** Signedness of the type (src/metaresc.c:956-961). *)
Definition is_signed (t : ity) : bool := match t with I8 | I16 | I32 | I64 | I128 => true | _ => false end.

(** The memory [data] read as an object of the type (src/metaresc.c:956). *)
Definition read_as (t : ity) (data : Z) : Z :=
  if is_signed t then (data + 2 ^ (width t - 1)) mod 2 ^ width t - 2 ^ (width t - 1) else data mod 2 ^ width t.

(** [mr_ed_t] (src/mr_protos.h:412-420): the name and [value._unsigned]. *)
Record edesc := Ed { ed_name : list Z; ed_val : Z }.

(** The part of [mr_td_t] and [mr_enum_param_t] used (src/mr_protos.h:422-428). *)
Record enum_td := Etd { enums : list N; size : Z; size_effective : Z; mr_type_effective : ity; is_bitmask : bool }.

(** src/mr_value.c:112-130 read with the type that line 1020 of
    src/metaresc.c gives to the enumerators: how a name is looked up. *)
Definition descriptor (t : ity) (v : Z) : ed :=
  match t with
  | I8 | I16 | I32 | I64 => Signed ((v + 2 ^ 63) mod 2 ^ 64 - 2 ^ 63)
  | U8 | U16 | U32 | U64 => Unsigned v
  | U128 | I128 | NotInt => Other
  end.

Section mem.
Context (mem : N -> edesc).

(** [mr_ed_enum_value_cmp_sorting] (src/metaresc.c:1002-1006). *)
Definition value_cmp_sorting (x y : N) : Z := sign3 (ed_val (mem x)) (ed_val (mem y)).

(** The mask [(2LL << (bits - 1)) - 1] converted to 64 bits (src/metaresc.c:1071).
    The shift of 2 by 63 overflows ([wrapv]: gives 0), longer shifts are undefined. *)
Definition mask (wrapv : bool) (bits : Z) : option Z :=
  if bits <=? 62 then Some (2 ^ bits - 1)
  else if bits =? 64 then if wrapv then Some (2 ^ 64 - 1) else None
  else None.

(** The loop over the enumerators (src/metaresc.c:1060-1088): [non_zero_cnt] and
    [is_bitmask]. *)
Fixpoint classify (m : Z) (l : list N) (cnt : nat) (bm : bool) : nat * bool :=
  match l with
  | [] => (cnt, bm)
  | x :: l =>
    let value := Z.land (ed_val (mem x)) m in
    classify m l (if value =? 0 then cnt else S cnt)
      (if Z.land value ((value - 1) mod 2 ^ 64) =? 0 then bm else false)
  end.

(** The detection of the effective type and size (src/metaresc.c:1035-1056): type,
    effective size and size. *)
Definition detect (t : ity) (size : Z) : ity * Z * Z :=
  match t with
  | NotInt =>
      if size =? 1 then (U8, size, size) else if size =? 2 then (U16, size, size)
      else if size =? 4 then (U32, size, size) else if size =? 8 then (U64, size, size)
      else if size =? 16 then (U128, size, size) else (I32, 4, 4)
  | _ => (t, width t / 8, size)
  end.

(** [mr_init_enum] (src/metaresc.c:1012-1092). *)
Definition init_enum (wrapv : bool) (t : ity) (sz : Z) (es : list N) : option enum_td :=
  let '(t, seff, sz) := detect t sz in
  es ← hsort value_cmp_sorting es;
  m ← (match es with [] => Some 0 | _ => mask wrapv (seff * 8) end);
  let '(cnt, bm) := classify m es 0 true in
  Some (Etd es sz seff t (bm && negb (Nat.ltb cnt 2))).

(** [mr_get_enum_value] (src/metaresc.c:945-972): a 64 bit value. *)
Definition get_enum_value (td : enum_td) (data : Z) : Z :=
  match mr_type_effective td with
  | NotInt => data mod 2 ^ (8 * Z.min (size_effective td) 8)
  | t => read_as t data mod 2 ^ 64
  end.

(** [mr_ed_enum_value_cmp] (src/metaresc.c:993-1000) as [mr_get_enum_by_value] calls
    it: [kp] is the address such that the member [value] of [kp] is the function's
    argument (src/metaresc.c:1118). *)
Definition value_cmp (kp : N) (value : Z) (x y : N) : Z :=
  let val p := if N.eqb p kp then value else ed_val (mem p) in
  sign3 (val x) (val y).

(** [mr_get_enum_by_value] (src/metaresc.c:1114-1122). *)
Definition get_enum_by_value (kp : N) (td : enum_td) (value : Z) : option (option N) :=
  '(diff, idx) ← find_idx (value_cmp kp value) kp (enums td);
  if negb (diff =? 0) then Some None else p ← rd (enums td) idx; Some (Some p).

(** The number printed by mr_ra_printf_int8_t .. mr_ra_printf_uint128_t
    (src/mr_stringify.c:47-54, 67-90, 132-135) from the memory [data], without the
    terminating zero.  printf with the integer conversions is taken to print the
    same digits as the 128 bit functions (NumStr.v).  [buf] is the uninitialised
    local buffer. *)
Definition print_number (wrapv : bool) (buf : list Z) (t : ity) (data : Z) : option (list Z) :=
  txt ← (if is_signed t then print_int128 wrapv buf (read_as t data) else print_uint128 buf (read_as t data));
  Some (take (length txt - 1) txt).

(** [mr_ra_printf_enum] (src/mr_stringify.c:137-164) for a field with a type
    descriptor; the name is never NULL. *)
Definition printf_enum (wrapv : bool) (buf : list Z) (kp : N) (td : enum_td) (data : Z) : option (list Z) :=
  r ← get_enum_by_value kp td (get_enum_value td data);
  match r with
  | Some p => Some (ed_name (mem p))
  | None => match mr_type_effective td with
            | NotInt => None
            | t => print_number wrapv buf t data
            end
  end.

(** The loop over the enumerators (src/mr_stringify.c:183-194): [first], the text
    and what is left of the value. *)
Fixpoint print_names (delim : list Z) (l : list N) (first : bool) (txt : list Z) (value : Z) : bool * list Z * Z :=
  match l with
  | [] => (first, txt, value)
  | x :: l =>
    if Z.land value (ed_val (mem x)) =? 0 then print_names delim l first txt value
    else
      let txt := (if first then txt else txt ++ delim) ++ ed_name (mem x) in
      let value := Z.lxor value (ed_val (mem x)) in
      if value =? 0 then (false, txt, value) else print_names delim l false txt value
  end.

(** [mr_ra_printf_bitmask] (src/mr_stringify.c:166-219) for a field with an enum
    descriptor.  A 128 bit remainder would be read beyond the local variable
    (src/mr_stringify.c:198, 213-214). *)
Definition printf_bitmask (wrapv : bool) (buf : list Z) (kp : N) (td : enum_td) (data : Z) (delim : list Z) : option (list Z) :=
  if negb (is_bitmask td) then printf_enum wrapv buf kp td data else
  let value := get_enum_value td data in
  if value =? 0 then printf_enum wrapv buf kp td data else
  let '(first, txt, rest) := print_names delim (enums td) true [] value in
  if rest =? 0 then Some txt else
  let txt := if first then txt else txt ++ delim in
  match mr_type_effective td with
  | U128 | I128 => None
  | NotInt => Some txt
  | t => n ← print_number wrapv buf t rest; Some (txt ++ n)
  end.
End mem.

(** The delimiter all the formats use (src/cinit_save.c:20, src/json_save.c:18,
    src/scm_save.c:22, src/xml_save.c:170, src/yaml_save.c:305): " | ". *)
Definition delimiter : list Z := [32; 124; 32].
