(** Model of the values of expressions (src/mr_value.c:57-501) and of their use by
    the expressions of the CINIT grammar (src/cinit_load.y:168-175, 225-243).

    Characters are numbers 0..255, [isalnum] and friends those of the "C" locale
    (NumStr.v).  A pointer on text is the rest of the object from there on, with
    its terminating zero.  The build is taken to have __int128.

    Outcomes: [None] is undefined behaviour (or exhausted fuel), [Some None] a
    failure the function reports, [Some (Some x)] a result.

    Left out: NULL pointers (src/mr_value.c:264, 295, 360, 380 report a failure),
    messages, and casts on other targets than the three numeric ones (the code only
    asks for these: src/mr_load.c:160, 297, 312, 335, 407 and src/mr_value.c:440). *)
From Verif Require Import Base NumStr.
Local Open Scope Z_scope.

(** The enumerator descriptor [mr_ed_t] behind a name as [mr_get_enum] reads it:
    signed with its [_signed] value, unsigned with its [_unsigned] value, or of
    another type (src/mr_value.c:112-130). *)
Inductive ed := Signed (v : Z) | Unsigned (v : Z) | Other.

(** The collection [mr_conf.enum_by_name] as a list; the lookup
    [mr_get_enum_by_name] (src/metaresc.c:1130-1137) finds the first one
    registered under a name (C07, C09). *)
Definition env := list (list Z * ed).

(** src/metaresc.c:1130-1137. *)
Fixpoint enum_by_name (e : env) (name : list Z) : option ed :=
  match e with
  | [] => None
  | (n, d) :: e => if bool_decide (n = name) then Some d else enum_by_name e name
  end.

(** [enum_max_length] (src/mr_value.c:57-66, 77-79).  Simplified: computed anew on
    each call; no enum is registered after the initialisation. *)
Definition max_length (e : env) : nat := foldr (fun p m => Nat.max (length p.1) m) 0%nat e.

(** [isalnum (c) || ('_' == c)] (src/mr_value.c:84). *)
Definition isident (c : Z) : bool := isalpha c || isdigit c || (c =? 95).

(** The scan of the name (src/mr_value.c:84-92); [n] is both [size] and the
    distance of [str] from [name]. *)
Fixpoint scan_name (fuel : nat) (str : list Z) (n max : nat) : option (option nat) :=
  match fuel with
  | O => None
  | S fuel =>
    c ← rd str n;
    if isident c then
      if Nat.ltb max (n + 1) then Some None else scan_name fuel str (n + 1) max
    else Some (Some n)
  end.

(** "false" and "true" (src/mr_value.c:98-101). *)
Definition txt_false : list Z := [102; 97; 108; 115; 101].
(** src/mr_value.c:100. *)
Definition txt_true : list Z := [116; 114; 117; 101]. (* src/mr_value.c:100 *)

(** [mr_get_enum] (src/mr_value.c:74-133): the value as mr_uintmax_t and the number
    of characters consumed. *)
Definition get_enum (e : env) (str : list Z) : option (option (Z * nat)) :=
  r ← scan_name (S (length str)) str 0 (max_length e);
  match r with
  | None => Some None
  | Some size =>
    let name := take size str in
    if bool_decide (name = txt_false) then Some (Some (0, size))
    else if bool_decide (name = txt_true) then Some (Some (1, size))
    else match enum_by_name e name with
         | Some (Signed v) => Some (Some (v mod 2 ^ 128, size))
         | Some (Unsigned v) => Some (Some (v, size))
         | Some Other | None => Some None
         end
  end.

(** [mr_get_int] (src/mr_value.c:141-151). *)
Definition get_int (e : env) (str : list Z) : option (option (Z * nat)) :=
  s ← skip_space (S (length str)) str 0;
  c ← rd str s;
  if isalpha c || (c =? 95) then
    r ← get_enum e (drop s str);
    Some (match r with Some (v, n) => Some (v, (s + n)%nat) | None => None end)
  else
    '(v, n) ← strtouintmax (drop s str) 0;
    Some (Some (v, (s + n)%nat)).

(** The loop of [mr_load_bitmask] (src/mr_value.c:157-169). *)
Fixpoint bitmask_loop (e : env) (fuel : nat) (str : list Z) (pos : nat) (accum : Z) : option (option (Z * nat)) :=
  match fuel with
  | O => None
  | S fuel =>
    r ← get_int e (drop pos str);
    match r with
    | None => Some None
    | Some (v, n) =>
      pos ← skip_space (S (length str)) str (pos + n);
      c ← rd str pos;
      if c =? 124 then bitmask_loop e fuel str (pos + 1) (Z.lor accum v) else Some (Some (Z.lor accum v, pos))
    end
  end.

(** Conversion of mr_uintmax_t to mr_intmax_t: modulo 2^128, as gcc and clang define
    it (src/mr_value.c:170, 310, src/cinit_load.l:66). *)
Definition to_signed (v : Z) : Z := (v + 2 ^ 127) mod 2 ^ 128 - 2 ^ 127.

(** [mr_load_bitmask] (src/mr_value.c:153-172): [vt_int] and characters consumed. *)
Definition load_bitmask (e : env) (str : list Z) : option (option (Z * nat)) :=
  r ← bitmask_loop e (S (length str)) str 0 0;
  Some (match r with Some (v, n) => Some (to_signed v, n) | None => None end).

(** Floating point arithmetic is not modelled: any type with these operations
    ([long double]; src/mr_value.c:331, 340, 419, 451, 487, strtold at 178). *)
Class Floats (F : Type) := {
  f_of_int : Z -> F; f_to_int : F -> option Z; f_neg : F -> F; f_is_zero : F -> bool;
  f_add : F -> F -> F; f_sub : F -> F -> F; f_mul : F -> F -> F; f_div : F -> F -> F;
  c_mul : F * F -> F * F -> F * F; c_div : F * F -> F * F -> F * F;
  strtold : list Z -> F * nat }.

Section Values.
Context {F : Type} `{FL : Floats F}.

(** [mr_value_t] (src/mr_protos.h:497-519); a complex number is its two parts. *)
Inductive value :=
  | VVoid | VChar (c : Z) | VString (s : list Z) | VSubstr (s : list Z) (len : nat) | VId (s : list Z) (len : nat)
  | VInt (z : Z) | VFloat (f : F) | VComplex (c : F * F).

(** The numeric types, in the order of src/mr_protos.h:503-505. *)
Inductive numtype := TInt | TFloat | TComplex.

(** [mr_load_complex_long_double] (src/mr_value.c:187-259). *)
Definition load_complex (str : list Z) : option (option ((F * F) * nat)) :=
  let zero := f_of_int 0 in
  s ← skip_space (S (length str)) str 0;
  c ← rd str s;
  if c =? 73 then Some (Some ((zero, f_of_int 1), (s + 1)%nat)) else
  let '(real, n) := strtold (drop s str) in
  let s := (s + n)%nat in
  c ← rd str s;
  if c =? 73 then Some (Some ((zero, real), (s + 1)%nat)) else
  s ← skip_space (S (length str)) str s;
  c ← rd str s;
  if negb (c =? 43) then Some (Some ((real, zero), s)) else
  s ← skip_space (S (length str)) str (s + 1);
  c ← rd str s;
  if c =? 73 then Some (Some ((real, f_of_int 1), (s + 1)%nat)) else
  let '(imag, n) := strtold (drop s str) in
  s ← skip_space (S (length str)) str (s + n);
  c ← rd str s;
  if c =? 73 then Some (Some ((real, imag), (s + 1)%nat)) else Some None.

(** [mr_load_var] (src/mr_value.c:261-290) for the numeric types: the value and the
    number of characters up to the first one that is neither part of it nor blank
    after it. *)
Definition load_var (e : env) (t : numtype) (str : list Z) : option (option (value * nat)) :=
  r ← match t with
      | TInt => r ← load_bitmask e str; Some (match r with Some (z, n) => Some (VInt z, n) | None => None end)
      | TFloat => let '(f, n) := strtold str in Some (Some (VFloat f, n))
      | TComplex => r ← load_complex str; Some (match r with Some (c, n) => Some (VComplex c, n) | None => None end)
      end;
  match r with
  | None => Some None
  | Some (v, n) => n ← skip_space (S (length str)) str n; Some (Some (v, n))
  end.

(** [mr_value_id] (src/mr_value.c:292-312). *)
Definition value_id (e : env) (s : list Z) (len : nat) : option (option Z) :=
  r ← get_enum e s;
  Some (match r with
        | Some (v, n) => if Nat.eqb n len then Some (to_signed v) else None
        | None => None
        end).

(** [mr_value_cast] (src/mr_value.c:314-403). *)
Definition value_cast (e : env) (t : numtype) (v : value) : option (option value) :=
  let of_int z := match t with
                  | TInt => VInt z
                  | TFloat => VFloat (f_of_int z)
                  | TComplex => VComplex (f_of_int z, f_of_int 0)
                  end in
  let of_float f := match t with
                    | TInt => z ← f_to_int f; Some (Some (VInt z))
                    | TFloat => Some (Some (VFloat f))
                    | TComplex => Some (Some (VComplex (f, f_of_int 0)))
                    end in
  match v with
  | VId s len => r ← value_id e s len; Some (match r with Some z => Some (of_int z) | None => None end)
  | VInt z => Some (Some (of_int z))
  | VFloat f => of_float f
  | VComplex c => match t with TComplex => Some (Some (VComplex c)) | _ => of_float c.1 end
  | VSubstr s len =>
      r ← load_var e t s;
      Some (match r with Some (v, n) => if Nat.eqb n len then Some v else None | None => None end)
  | VString s =>
      r ← load_var e t s;
      match r with
      | Some (v, n) => c ← rd s n; Some (if c =? 0 then Some v else None)
      | None => Some None
      end
  | VVoid | VChar _ => Some None
  end.

(** A signed 128 bit result (src/mr_value.c:415, 450): beyond the range undefined,
    or wrapped around if the compiler is told so ([wrapv]). *)
Definition int_result (wrapv : bool) (z : Z) : option Z :=
  if (- 2 ^ 127 <=? z) && (z <? 2 ^ 127) then Some z else if wrapv then Some (to_signed z) else None.

(** [mr_value_neg] (src/mr_value.c:405-431): the status and the value left. *)
Definition value_neg (wrapv : bool) (e : env) (v : value) : option (bool * value) :=
  match v with
  | VId s len =>
      r ← value_id e s len;
      match r with
      | Some z => z ← int_result wrapv (- z); Some (true, VInt z)
      | None => Some (false, v)
      end
  | VInt z => z ← int_result wrapv (- z); Some (true, VInt z)
  | VFloat f => Some (true, VFloat (f_neg f))
  | VComplex c => Some (true, VComplex (f_neg c.1, f_neg c.2))
  | _ => Some (false, v)
  end.

(** The operations of MR_VALUE_OP and MR_INT_VALUE_OP (src/mr_value.c:494-501). *)
Inductive arith := Add | Sub | Mul | Div.
(** src/mr_value.c:498-501. *)
Inductive intop := Mod | Or | And | Xor. (* src/mr_value.c:498-501 *)

(** [result_type] (src/mr_value.c:436-438). *)
Definition rank (v : value) : numtype :=
  match v with VFloat _ => TFloat | VComplex _ => TComplex | _ => TInt end.
(** MR_MAX on the value types (src/mr_value.c:436, src/metaresc.h:42). *)
Definition max_type (a b : numtype) : numtype :=
  match a, b with
  | TComplex, _ | _, TComplex => TComplex
  | TFloat, _ | _, TFloat => TFloat
  | TInt, TInt => TInt
  end.

(** [mr_value_is_zero] (src/mr_value.c:481-492). *)
Definition is_zero (v : value) : bool :=
  match v with
  | VInt z => z =? 0
  | VFloat f => f_is_zero f
  | VComplex c => f_is_zero c.1 && f_is_zero c.2
  | _ => false
  end.

(** The integer operators of C on mr_intmax_t (src/mr_value.c:450, 477).  Division by
    zero does not get here; the quotient of the smallest number by -1 does not exist
    whatever the compiler does on overflow. *)
Definition int_div (a b : Z) : option Z :=
  if b =? 0 then None else if (a =? - 2 ^ 127) && (b =? - 1) then None else Some (Z.quot a b).
(** As [int_div], src/mr_value.c:477 for [%]. *)
Definition int_mod (a b : Z) : option Z :=
  if b =? 0 then None else if (a =? - 2 ^ 127) && (b =? - 1) then None else Some (Z.rem a b).

(** src/mr_value.c:448-457: the operation on two values of the same type. *)
Definition apply_arith (wrapv : bool) (op : arith) (a b : value) : option (bool * value) :=
  match a, b with
  | VInt a, VInt b =>
      z ← match op with
          | Add => int_result wrapv (a + b)
          | Sub => int_result wrapv (a - b)
          | Mul => int_result wrapv (a * b)
          | Div => int_div a b
          end;
      Some (true, VInt z)
  | VFloat a, VFloat b =>
      Some (true, VFloat (match op with Add => f_add a b | Sub => f_sub a b | Mul => f_mul a b | Div => f_div a b end))
  | VComplex a, VComplex b =>
      Some (true, VComplex (match op with
                            | Add => (f_add a.1 b.1, f_add a.2 b.2)
                            | Sub => (f_sub a.1 b.1, f_sub a.2 b.2)
                            | Mul => c_mul a b
                            | Div => c_div a b
                            end))
  | _, _ => Some (false, VVoid)
  end.

(** [memset (result, 0, ...)] with [result->value_type] set (src/mr_value.c:439, 446). *)
Definition zero_of (t : numtype) : value :=
  match t with TInt => VInt 0 | TFloat => VFloat (f_of_int 0) | TComplex => VComplex (f_of_int 0, f_of_int 0) end.

(** MR_VALUE_OP (src/mr_value.c:433-458, 494-497): the status and [*result]. *)
Definition value_op (wrapv : bool) (e : env) (op : arith) (l r : value) : option (bool * value) :=
  let t := max_type (rank l) (rank r) in
  lc ← value_cast e t l;
  match lc with
  | None => Some (false, VVoid)
  | Some lc =>
    rc ← value_cast e t r;
    match rc with
    | None => Some (false, VVoid)
    | Some rc =>
      match op with
      | Div => if is_zero rc then Some (false, zero_of t) else apply_arith wrapv op lc rc
      | _ => apply_arith wrapv op lc rc
      end
    end
  end.

(** An operand of MR_INT_VALUE_OP (src/mr_value.c:464-474). *)
Definition int_operand (e : env) (v : value) : option (option Z) :=
  match v with VInt z => Some (Some z) | VId s len => value_id e s len | _ => Some None end.

(** MR_INT_VALUE_OP (src/mr_value.c:460-479, 498-501): the status and [*result]. *)
Definition value_int_op (e : env) (op : intop) (l r : value) : option (bool * value) :=
  lz ← int_operand e l;
  match lz with
  | None => Some (false, VVoid)
  | Some a =>
    rz ← int_operand e r;
    match rz with
    | None => Some (false, VVoid)
    | Some b =>
      match op with
      | Mod => if b =? 0 then Some (false, VInt 0) else z ← int_mod a b; Some (true, VInt z)
      | Or => Some (true, VInt (Z.lor a b))
      | And => Some (true, VInt (Z.land a b))
      | Xor => Some (true, VInt (Z.lxor a b))
      end
    end
  end.

(** Expressions of the grammar (src/cinit_load.y:225-243).  [Num u] is a number
    token, [u] being what [mr_strtouintmax] makes of it (src/cinit_load.l:66);
    [Flt v] is one of the other number tokens (src/cinit_load.l:60-74). *)
Inductive expr :=
  | Num (u : Z) | Flt (v : value) | Id (s : list Z) (len : nat)
  | Arith (op : arith) (a b : expr) | Int (op : intop) (a b : expr) | Neg (a : expr) | Plus (a : expr).

(** The actions of the grammar (src/cinit_load.y:225-243): the status of the
    operations is not looked at. *)
Fixpoint eval (wrapv : bool) (e : env) (x : expr) : option value :=
  match x with
  | Num u => Some (VInt (to_signed u))
  | Flt v => Some v
  | Id s len => Some (VId s len)
  | Arith op a b => l ← eval wrapv e a; r ← eval wrapv e b; p ← value_op wrapv e op l r; Some p.2
  | Int op a b => l ← eval wrapv e a; r ← eval wrapv e b; p ← value_int_op e op l r; Some p.2
  | Neg a => v ← eval wrapv e a; p ← value_neg wrapv e v; Some p.2
  | Plus a => eval wrapv e a
  end.

(** The action for [value : expr] (src/cinit_load.y:170-175) with
    [mr_value_to_mr_ptrdes] (src/mr_value.c:13-35): whether the value is accepted.
    Simplified: the allocation for a complex number succeeds. *)
Definition accepted (v : value) : bool := match v with VVoid => false | _ => true end.

(** [mr_load_integer] (src/mr_load.c:152-191) for an integer type of [bytes] bytes:
    the bits stored. *)
Definition load_integer (e : env) (v : value) (bytes : Z) : option (option Z) :=
  r ← value_cast e TInt v;
  Some (match r with Some (VInt z) => Some (z mod 2 ^ (8 * bytes)) | _ => None end).

(** [mr_load_integer] for a bool (src/mr_load.c:166-167). *)
Definition load_bool (e : env) (v : value) : option (option bool) :=
  r ← value_cast e TInt v;
  Some (match r with Some (VInt z) => Some (negb (z =? 0)) | _ => None end).

End Values.
Arguments value : clear implicits.
Arguments expr : clear implicits.
