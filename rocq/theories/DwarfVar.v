(** Model of how the types of objects are found from debug information: the entries are collected
    (src/mr_dwarf.c:623-661), the variables declared by MR_OBJ_TYPE_DWARF (src/metaresc.h:1036-1042) are given types
    (src/mr_dwarf.c:1102-1181, 1231-1272), and mr_ptr_detect_type (src/metaresc.c:2017-2028) looks them up.
    As in Dwarf.v the forms of attributes are taken from libdwarf and allocation succeeds.
    [None]: a failed assertion, a null pointer used, or too little fuel. *)
From Coq Require Import Ascii String.
From Verif Require Import Base Dwarf.
From Verif Require TypeName.
Local Open Scope Z_scope.

(** An entry as walk_dies tells them apart, src/mr_dwarf.c:629-655: compilation unit with its name, variable, type, other. *)
Inductive entry := EUnit (name : option (list Z)) | EVar (d : die) | EType (d : die) | EOther.
(** mr_die_t with its children, src/mr_dwarf.c:435-444. *)
Inductive tree := Tree (e : entry) (children : list tree).
(** A variable and the [filename] it is given, src/mr_dwarf.c:656. *)
Record var := Var { vfile : option (list Z); vdie : die }.

(** walk_dies, src/mr_dwarf.c:623-661.  Simplified: types and variables are collected in two lists; no type refers to a
    variable, so that the index by offsets needs the types only. *)
Fixpoint walk (file : option (list Z)) (t : tree) : option (list die * list var) :=
  match t with
  | Tree e children =>
    '(file, here) ← match e with
                    | EUnit None => None
                    | EUnit (Some n) => Some (Some n, ([], []))
                    | EVar d => Some (file, ([], [Var file d]))
                    | EType d => Some (file, ([d], []))
                    | EOther => Some (file, ([], []))
                    end;
    '(ds, vs) ← (fix walks (l : list tree) : option (list die * list var) :=
                   match l with
                   | [] => Some ([], [])
                   | t :: l => '(ds, vs) ← walk file t; '(ds', vs') ← walks l; Some (ds ++ ds', vs ++ vs')
                   end) children;
    Some (fst here ++ ds, snd here ++ vs)
  end.

(** "mr_ptr_detect_type_var_", src/metaresc.h:1036. *)
Definition var_prefix : list Z := lit "mr_ptr_detect_type_var_".

(** The loop src/mr_dwarf.c:1124-1145: the entry behind pointers and arrays and how many of them; [Some None]: return. *)
Fixpoint var_loop (fuel : nat) (g : list die) (d : die) (ptr_cnt arr_cnt : Z) : option (option (die * Z * Z)) :=
  match fuel with
  | O => None
  | S fuel =>
    match type_ref d with
    | None => Some None
    | Some o =>
      let ptr_cnt := match tag d with T_pointer => ptr_cnt + 1 | _ => ptr_cnt end in
      let arr_cnt := match tag d with T_array => arr_cnt + Z.of_nat (length (subs d)) | _ => arr_cnt end in
      d ← find_die g o;
      match tag d with
      | T_pointer | T_array => var_loop fuel g d ptr_cnt arr_cnt
      | _ => Some (Some (d, ptr_cnt, arr_cnt))
      end
    end
  end.

(** The collection of mr_var_t by file and name, src/metaresc.c:1999-2015; a list by C06. *)
Definition table := list (list Z * list Z * list Z).
(** mr_ic_find in it, src/mr_dwarf.c:1120 and src/metaresc.c:2022-2027: the type. *)
Fixpoint find_var (tab : table) (file name : list Z) : option (list Z) :=
  match tab with
  | [] => None
  | (f, n, t) :: tab => if bool_decide (f = file /\ n = name) then Some t else find_var tab file name
  end.

(** create_var, src/mr_dwarf.c:1102-1181. *)
Definition create_var (fuel : nat) (sign : list Z -> Z -> option mtype) (g : list die) (tab : table) (v : var) : option table :=
  match dname (vdie v) with
  | None => Some tab
  | Some name =>
    if negb (TypeName.is_prefix var_prefix name) then Some tab
    else
      file ← vfile v;
      match find_var tab file name with
      | Some _ => Some tab
      | None =>
        r ← var_loop fuel g (vdie v) 0 0;
        match r with
        | None => Some tab
        | Some (d, ptr_cnt, arr_cnt) =>
          if negb (((ptr_cnt =? 1) && (arr_cnt =? 1)) || (ptr_cnt =? 0)) then Some tab
          else match dname d with
               | None => Some tab
               | Some type =>
                 match (match byte_size d with Some z => sign type z | None => None end) with
                 | Some _ => Some tab
                 | None => Some (tab ++ [(file, name, type)])
                 end
               end
        end
      end
  end.

(** The inner loop of extract_metadata for variables, src/mr_dwarf.c:1248-1266. *)
Fixpoint create_vars (fuel : nat) (sign : list Z -> Z -> option mtype) (g : list die) (tab : table) (vs : list var) : option table :=
  match vs with
  | [] => Some tab
  | v :: vs => tab ← create_var fuel sign g tab v; create_vars fuel sign g tab vs
  end.

(** The two rounds, src/mr_dwarf.c:1247.  Between them entries without a name may have got one ([get_type_name] in
    Dwarf.v), so the entries of each round are given. *)
Definition extract_vars (fuel : nat) (sign : list Z -> Z -> option mtype) (g1 g2 : list die) (vs : list var) : option table :=
  tab ← create_vars fuel sign g1 [] vs; create_vars fuel sign g2 tab vs.

(** mr_ptr_detect_type, src/metaresc.c:2017-2028. *)
Definition ptr_detect_type (tab : table) (filename varname : list Z) : option (list Z) := find_var tab filename varname.
