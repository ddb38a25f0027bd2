(** Model of how descriptors of types are made from debug information: which entries become types
    (src/mr_dwarf.c:978-1032, 1231-1272), enumerators (src/mr_dwarf.c:879-905, 1082-1099) and the completion of the
    descriptors (src/mr_dwarf.c:1274-1362).  The members are those of Dwarf.v.
    As in Dwarf.v the forms of attributes are taken from libdwarf and allocation succeeds.
    [None]: a failed assertion, a store outside of an object, or too little fuel. *)
From Coq Require Import Ascii String.
From Verif Require Import Base Dwarf.
From Verif Require Enum Names.
Local Open Scope Z_scope.

(** The loop src/mr_dwarf.c:999-1010: the entry behind typedefs; [Some None]: return. *)
Fixpoint resolve (fuel : nat) (g : list die) (d : die) : option (option die) :=
  match fuel with
  | O => None
  | S fuel =>
    match tag d with
    | T_typedef =>
      match type_ref d with
      | None => Some None
      | Some o => d ← find_die g o; resolve fuel g d
      end
    | _ => Some (Some d)
    end
  end.

(** src/mr_dwarf.c:1012-1015. *)
Definition makes_type (t : dtag) : bool :=
  match t with T_structure | T_union | T_enumeration | T_pointer => true | _ => false end.

(** The collection of types by name, a list by C06: the name of the type and the entry that it is made of
    (src/mr_dwarf.c:995, 1031). *)
Definition types := list (list Z * die).
(** mr_ic_find in it, src/mr_dwarf.c:995. *)
Fixpoint find_td (tab : types) (name : list Z) : option die :=
  match tab with
  | [] => None
  | (n, d) :: tab => if bool_decide (n = name) then Some d else find_td tab name
  end.

(** create_td up to the choice of the entry, src/mr_dwarf.c:978-1032.  [decl]: the entry at an offset is a declaration
    (982). *)
Definition create_td (fuel : nat) (decl : Z -> bool) (g : list die) (tab : types) (d : die) : option types :=
  if decl (off d) then Some tab
  else match dname d with
       | None => Some tab
       | Some name =>
         match find_td tab name with
         | Some _ => Some tab
         | None =>
           r ← resolve fuel g d;
           match r with
           | None => Some tab
           | Some d' => if makes_type (tag d') then Some (tab ++ [(name, d')]) else Some tab
           end
         end
       end.

(** The inner loop of extract_metadata for types, src/mr_dwarf.c:1248-1266. *)
Fixpoint create_tds (fuel : nat) (decl : Z -> bool) (g : list die) (tab : types) (ds : list die) : option types :=
  match ds with
  | [] => Some tab
  | d :: ds =>
    tab ← match tag d with
          | T_typedef | T_structure | T_union | T_enumeration => create_td fuel decl g tab d
          | _ => Some tab
          end;
    create_tds fuel decl g tab ds
  end.

(** The two rounds, src/mr_dwarf.c:1247.  Simplified: names that [get_type_name] (Dwarf.v) gives to entries without one
    are those of [g] from the start. *)
Definition extract_types (fuel : nat) (decl : Z -> bool) (g : list die) : option types :=
  tab ← create_tds fuel decl g [] g; create_tds fuel decl g tab g.

(** A child of an enumeration: an enumerator with name, whether its value is given as DW_FORM_sdata, and the value; or
    another entry (src/mr_dwarf.c:884-896, 1087). *)
Inductive child := Enumerator (name : list Z) (sdata : bool) (v : Z) | OtherChild.
(** mr_ed_t, src/mr_protos.h:412-420: name, whether [mr_type] is that of [dw_signed], [value._unsigned]. *)
Record edesc := Edesc { ename : list Z; esigned : bool; evalue : Z }.
(** load_enumerator, src/mr_dwarf.c:879-905: [_signed] and [_unsigned] share their 64 bits. *)
Definition load_enumerator (name : list Z) (sdata : bool) (v : Z) : edesc := Edesc name sdata (v mod 2 ^ 64).
(** The children of an enumeration, src/mr_dwarf.c:1085-1094. *)
Fixpoint load_enumerators (l : list child) : list edesc :=
  match l with
  | [] => []
  | Enumerator n s v :: l => load_enumerator n s v :: load_enumerators l
  | OtherChild :: l => load_enumerators l
  end.
(** The effective type of an enumeration, src/mr_dwarf.c:1282-1304. *)
Definition effective (es : list edesc) (size : Z) : Enum.ity :=
  let sg := existsb esigned es in
  if size =? 1 then (if sg then Enum.I8 else Enum.U8)
  else if size =? 2 then (if sg then Enum.I16 else Enum.U16)
  else if size =? 4 then (if sg then Enum.I32 else Enum.U32)
  else if size =? 8 then (if sg then Enum.I64 else Enum.U64)
  else Enum.NotInt.

(** [strcpy] of a string to a place in a block, src/mr_dwarf.c:1343, 1356. *)
Definition put_str (buf : list Z) (p : nat) (s : list Z) : option (list Z) :=
  if (p + length s + 1 <=? length buf)%nat then Some (take p buf ++ s ++ [0] ++ drop (p + length s + 1) buf) else None.
(** The new name, src/mr_dwarf.c:1341-1344 and 1354-1357: the block after [strcpy] and [strcat]. *)
Definition suffixed (name suffix : list Z) : option (list Z) :=
  let buf := replicate (length name + (length suffix + 1)) 0 in
  buf ← put_str buf 0 name;
  e ← Names.strlen buf;
  put_str buf e suffix.

(** What the completion adds to a member: the type MR_TYPE_CHAR_ARRAY (not in [mtype]), the strings [res] and [meta],
    src/mr_dwarf.c:1331, 1345, 1358. *)
Record completed := Completed { member_fd : fd; char_array : bool; res : option (list Z); meta : option (list Z) }.

(** The product of src/mr_dwarf.c:1325-1327; [size] is [mr_size_t], 32 bits (src/metaresc.h:1488). *)
Fixpoint times (size : Z) (dims : list Z) : Z :=
  match dims with [] => size | n :: dims => times ((size * n) mod 2 ^ 32) dims end.

(** The body of the loop over members, src/mr_dwarf.c:1312-1359. *)
Definition process_fd (f : fd) : option completed :=
  let s := fstype f in
  let is_ptr := bool_decide (mr_type s = POINTER) in
  let is_arr := bool_decide (mr_type s = ARRAY) in
  let aux := if is_ptr && bool_decide (mr_type_aux s = NONE) then VOID else mr_type_aux s in
  let sz := if is_arr then times (size s) (dim s) else size s in
  let one := is_arr && Nat.eqb (length (dim s)) 1 in
  let chars := one && bool_decide (aux = CHAR) in
  let need := (is_ptr && negb (bool_decide (aux = VOID))) || (one && negb (bool_decide (aux = CHAR))) in
  r ← (if need then b ← suffixed (fname f) (lit "_size"); Some (Some b) else Some None);
  let union := bool_decide (mr_type s = UNION) || bool_decide (aux = UNION) || bool_decide (mr_type_ptr s = UNION) || bool_decide (mr_type s = ANON_UNION) in
  m ← (if union then b ← suffixed (fname f) (lit "_discriminator"); Some (Some b) else Some None);
  Some (Completed (Fd (fname f) (unnamed f) (offset f) (width f) (shift f)
    (Stype (mr_type s) aux (mr_type_ptr s) (type s) sz (dim s))) chars r m).
