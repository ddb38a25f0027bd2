(** Model of mr_print_value, src/mr_print.c:89-214, on integers, enumerations and
    boolean values: what MR_PRINT writes for them.
    Left out: floating point numbers, characters, strings (vfprintf at
    src/mr_print.c:149 and 187-204) and mr_print_pointer. *)
From Coq Require Import Ascii String.
From Verif Require Import Base NumStr Enum.
Local Open Scope Z_scope.

(** The types of src/mr_print.c:94-101, 153, 162 and 179. *)
Inductive pty := PBool | PInt (t : ity).

(** The bytes of a string literal, src/mr_print.c:157, 159. *)
Definition chars (s : string) : list Z := map (fun c => Z.of_N (N_of_ascii c)) (list_ascii_of_string s).

(** MR_ENUM_INT_TYPES, src/mr_print.c:116-119: integers of up to 64 bits. *)
Definition enum_int (t : ity) : bool := match t with NotInt | I128 | U128 => false | _ => true end.

(** src/mr_print.c:119-140: the enumerator to be printed.  [td] is the descriptor of
    the type of the argument if there is one of an enumeration.  The argument is
    converted to [mr_enum_value_type_t], 64 bits (src/metaresc.h:1530). *)
Definition print_enumerator (mem : N -> edesc) (kp : N) (td : option enum_td) (t : ity) (z : Z) : option (option N) :=
  match td with
  | Some td => if enum_int t then get_enum_by_value mem kp td (z mod 2 ^ 64) else Some None
  | None => Some None
  end.

(** mr_print_value, src/mr_print.c:89-214: the characters written for the argument [z].
    The formats (:94-101) print the same digits as the 128 bit code (:162-186, the code
    of src/mr_stringify.c:67-90 with a buffer of the same size), see [print_number]. *)
Definition print_value (mem : N -> edesc) (wrapv : bool) (buf : list Z) (kp : N) (td : option enum_td) (t : pty) (z : Z) : option (list Z) :=
  match t with
  | PBool => Some (if z =? 0 then chars "false" else chars "true")
  | PInt NotInt => Some []
  | PInt t =>
    e ← print_enumerator mem kp td t z;
    match e with
    | Some p => Some (ed_name (mem p))
    | None => print_number wrapv buf t z
    end
  end.
