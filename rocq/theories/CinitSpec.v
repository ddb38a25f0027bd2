(** Vocabulary for the theorems about CINIT documents, independent of the writer,
    the lexer and the grammar: which node tables can be printed, and what a reader
    must find in a descriptor. *)
From Verif Require Import Base Ptrs NumStrProof Enum Quote QuoteProof Value ValueProof Cinit DfsProof JsonSpec.
Local Open Scope Z_scope.

(** Identifiers of C; those the lexer takes for something else. *)
Definition ident_start (c : Z) : Prop := 65 <= c <= 90 \/ 97 <= c <= 122 \/ c = 95.
Definition ident_char (c : Z) : Prop := ident_start c \/ 48 <= c <= 57.
Definition identifier (s : list Z) : Prop := exists c t, s = c :: t /\ ident_start c /\ Forall ident_char t.
Definition lower (c : Z) : Z := if decide (65 <= c <= 90) then c + 32 else c.
Definition reserved (s : list Z) : Prop :=
  s ∈ [[78; 85; 76; 76];                                   (* NULL *)
       [102; 97; 108; 115; 101]; [70; 65; 76; 83; 69];     (* false, FALSE *)
       [116; 114; 117; 101]; [84; 82; 85; 69]] \/          (* true, TRUE *)
  map lower s ∈ [[105]; [110; 97; 110]; [105; 110; 102]].  (* i, nan, inf in upper or lower case *)
Definition usable (s : list Z) : Prop := identifier s /\ ~ reserved s.

(** Words with one space between them. *)
Fixpoint words (ws : list (list Z)) : list Z :=
  match ws with
  | [] => []
  | [w] => w
  | w :: ws => w ++ 32 :: words ws
  end.
(** The type of a cast: without the asterisk of a pointer; "void" is no type. *)
Definition pointee (type : list Z) : list Z := if decide (last type = Some 42) then removelast type else type.
Definition cast_type (type : list Z) : option (list Z) :=
  if decide (pointee type = [118; 111; 105; 100]) then None else Some (pointee type).

Section Values.
  Context {F : Type} `{FL : Floats F}.
  Context (isprint : Z -> bool) (known : option (list Z) -> list Z -> bool) (ktype : list Z -> bool) (wrapv : bool) (e : env).

  (** Leaf values that have a representation.  (A node of type MR_TYPE_NONE prints
      nothing at all.) *)
  Definition kind_ok (k : ckind) : Prop :=
    match k with
    | CNone => False
    | CVoid _ | CBool _ | CStruct => True
    | CInt t data => t <> NotInt /\ (wrapv = true \/ - 2 ^ 127 < read_as t data)
    | CFloat txt => float_text txt /\ forall ds, txt = 45 :: ds -> numeral ds -> numeral_value 10 ds < 2 ^ 127
    | CChar c => 0 <= c < 256
    | CStr s => Forall (fun c => 0 < c < 256) s /\ octal_safe isprint s
    | CNames l rest => l <> [] /\ Forall usable l /\
        match rest with Some (t, data) => t <> NotInt /\ (wrapv = true \/ - 2 ^ 127 < read_as t data) | None => True end /\
        (length l = 1%nat /\ rest = None \/ Forall (fun nm => exists z, names e nm z) l)
    | CPtr type => (exists ws, ws <> [] /\ Forall identifier ws /\ pointee type = words ws) /\
        match cast_type type with Some ty => ktype ty = true | None => True end
    end.

  (** The number read for a number printed. *)
  Definition same_int (z v : Z) : Prop := - 2 ^ 127 <= z < 2 ^ 127 /\ z mod 2 ^ 128 = v mod 2 ^ 128.

  (** The value the parser has to find for a kind of node, and the flag for NULL. *)
  Definition leaf_read (k : ckind) (v : value F) (null : bool) : Prop :=
    match k with
    | CNone => False
    | CVoid CVPointer => v = VInt 0 /\ null = true
    | CVoid CVRecord | CStruct | CPtr _ => v = VVoid /\ null = false
    | CVoid CVOther => v = VInt 0 /\ null = false
    | CBool b => v = VInt (if b then 1 else 0) /\ null = false
    | CInt t data => null = false /\ exists z, v = VInt z /\ same_int z (read_as t data)
    | CFloat txt => null = false /\ exists neg w, txt = minus neg ++ w /\ head w <> Some 45 /\
        ((numeral w /\ exists z, v = VInt z /\ same_int z (if neg then - numeral_value 10 w else numeral_value 10 w)) \/
         (w ∈ [[110; 97; 110]; [105; 110; 102]] /\ v = VFloat (strtold (txt ++ [0])).1) \/
         (~ numeral w /\ ~ w ∈ [[110; 97; 110]; [105; 110; 102]] /\
          v = VFloat (let f := (strtold (w ++ [0])).1 in if neg then f_neg f else f)))
    | CChar c => null = false /\ v = VChar c
    | CStr s => null = false /\ (v = VString (s ++ [0]) \/ v = VSubstr (s ++ [34; 0]) (length s))
    | CNames l rest => null = false /\
        ((exists nm, l = [nm] /\ rest = None /\ v = VId (nm ++ [0]) (length nm)) \/
         exists zs r, Forall2 (names e) l zs /\
           match rest with Some (t, data) => same_int r (read_as t data) | None => r = 0 end /\
           v = VInt (foldr Z.lor r zs))
    end.

  Section Table.
    Context (ns : list node) (js : list sinfo).

    (** The type given for a node. *)
    Definition node_type (n : node) (d : sinfo) : option (list Z) :=
      if is_ref n || s_null d then None else match s_kind d with CPtr type => cast_type type | _ => None end.

    (** Names are identifiers the library knows; references point into the tree; only
        structures, unions, arrays and pointers which are not NULL have children. *)
    Definition node_ok (t : tree) (i : nat) : Prop :=
      exists n d, ns !! i = Some n /\ js !! i = Some d /\
        (if s_unnamed d then True else usable (s_name d) /\ known (node_type n d) (s_name d) = true /\ parent n <> 0%nat) /\
        (if is_ref n then first_child n ∈ nodes t
         else kind_ok (s_kind d) /\
           (first_child n = 0%nat \/ (s_null d = false /\ (s_kind d = CStruct \/ exists type, s_kind d = CPtr type)))).

    (** A parsed descriptor [q], [p] corresponds to the node [n], [d] that was printed. *)
    Definition node_read (n : node) (d : sinfo) (q : node) (p : @cinfo F) : Prop :=
      c_name p = (if s_unnamed d then None else Some (s_name d)) /\
      c_type p = node_type n d /\
      c_cref p = is_ref n && s_cref d /\
      is_ref q = is_ref n /\ referenced q = referenced n /\
      pub_idx q = (if referenced n then pub_idx n else 0%nat) /\
      (if is_ref n then
         exists m, ns !! first_child n = Some m /\ first_child q = pub_idx m /\ c_null p = true
       else if s_null d then c_null p = true
       else leaf_read (s_kind d) (c_val p) (c_null p)).
  End Table.
End Values.
