(** Vocabulary for the theorems about JSON documents, independent of the writer,
    the lexer and the grammar: which node tables can be printed, and what a reader
    must find in a descriptor. *)
From Verif Require Import Base Ptrs NumStrProof Enum Json DfsProof.
Local Open Scope Z_scope.

(** Decimal digits; a numeral without superfluous zeros. *)
Definition digit (c : Z) : Prop := 48 <= c <= 57.
Definition numeral (ds : list Z) : Prop := ds <> [] /\ Forall digit ds /\ (head ds = Some 48 -> ds = [48]).
Definition minus (neg : bool) : list Z := if neg then [45] else [].

(** The forms printf gives to floating point numbers with %g: "nan" and "inf"; a
    numeral; a numeral with a fraction, an exponent, or both. *)
Inductive float_text : list Z -> Prop :=
  | F_nan neg : float_text (minus neg ++ [110; 97; 110])
  | F_inf neg : float_text (minus neg ++ [105; 110; 102])
  | F_int neg ds : numeral ds -> float_text (minus neg ++ ds)
  | F_frac neg ds fs es : numeral ds ->
      (fs = [] \/ exists l, fs = 46 :: l /\ Forall digit l) ->
      (es = [] \/ exists s l, es = 101 :: s :: l /\ (s = 43 \/ s = 45) /\ l <> [] /\ Forall digit l) ->
      fs <> [] \/ es <> [] -> float_text (minus neg ++ ds ++ fs ++ es).

(** Characters that may stand between quotes as they are. *)
Definition unquotable (c : Z) : Prop := 0 < c < 256 /\ c <> 34 /\ c <> 92.

(** Leaf values that have a representation.  (A node of type MR_TYPE_NONE prints
    nothing at all.) *)
Definition kind_ok (wrapv : bool) (k : jkind) : Prop :=
  match k with
  | KNone => False
  | KInt t data => t <> NotInt /\ (wrapv = true \/ - 2 ^ 127 < read_as t data)
  | KFloat txt => float_text txt
  | KChar c => 0 <= c < 256
  | KStr s => Forall (fun c => 0 < c < 256) s
  | KQuoted txt => Forall unquotable txt
  | KVoid _ | KBool _ | KStruct | KList => True
  end.

Section Table.
  Context (known : list Z -> bool) (wrapv : bool) (ns : list node) (js : list jinfo).

  (** The parent of the node is a structure or a union. *)
  Definition in_struct (n : node) : bool :=
    match parent n with
    | O => false
    | p => match js !! p with Some pd => match j_kind pd with KStruct => true | _ => false end | None => false end
    end.

  (** Members have a name the library knows, everything else has none; references
      point into the tree; only structures, unions, arrays and pointers which are
      not NULL have children. *)
  Definition node_ok (t : tree) (i : nat) : Prop :=
    exists n d, ns !! i = Some n /\ js !! i = Some d /\
      (if in_struct n then Forall unquotable (j_name d) /\ known (j_name d) = true else j_unnamed d = true) /\
      (if is_ref n then first_child n ∈ nodes t
       else kind_ok wrapv (j_kind d) /\
         (first_child n = 0%nat \/ (j_null d = false /\ (j_kind d = KStruct \/ j_kind d = KList)))).

  (** A text, in either of the two forms the parser has for it. *)
  Definition text_val (v : lval) (s : list Z) : Prop := v = LStr s \/ v = LSub s.

  (** The value the parser has to find for a kind of node, and the flag for NULL. *)
  Definition leaf_read (k : jkind) (v : lval) (null : bool) : Prop :=
    match k with
    | KNone => False
    | KVoid VNoFd => v = LInt 0 /\ null = true
    | KVoid VRecord | KStruct | KList => v = LNone /\ null = false
    | KVoid VOtherClass => v = LInt 0 /\ null = false
    | KBool b => v = LInt (if b then 1 else 0) /\ null = false
    | KInt t data => null = false /\ exists z, v = LInt z /\ - 2 ^ 127 <= z < 2 ^ 127 /\ z mod 2 ^ 128 = read_as t data mod 2 ^ 128
    | KFloat txt => null = false /\
        ((exists neg ds z, txt = minus neg ++ ds /\ numeral ds /\ v = LInt z /\ - 2 ^ 127 <= z < 2 ^ 127 /\
            z mod 2 ^ 128 = (if neg then - numeral_value 10 ds else numeral_value 10 ds) mod 2 ^ 128) \/
         ((forall neg ds, numeral ds -> txt <> minus neg ++ ds) /\ v = LFloat txt))
    | KChar c => null = false /\ text_val v (if c =? 0 then [] else [c])
    | KStr s => null = false /\ text_val v s
    | KQuoted txt => null = false /\ text_val v txt
    end.

  (** A parsed descriptor [p] corresponds to the node [n], [d] that was printed:
      a reference is the public number of its target, negative for the content of
      a pointer. *)
  Definition node_read (n : node) (d : jinfo) (p : pinfo) : Prop :=
    p_name p = (if in_struct n then Some (j_name d) else None) /\
    (if is_ref n then
       exists m, ns !! first_child n = Some m /\ p_null p = false /\
         p_val p = LInt (if j_cref d then - Z.of_nat (pub_idx m) else Z.of_nat (pub_idx m))
     else if j_null d then p_null p = true /\ p_val p = LInt 0
     else leaf_read (j_kind d) (p_val p) (p_null p)).
End Table.

(** A tree with its nodes renamed. *)
Fixpoint rename (f : nat -> nat) (t : tree) : tree :=
  match t with T i ks => T (f i) (map (rename f) ks) end.

(** The public number of a node. *)
Definition public (ns : list node) (i : nat) : nat := match ns !! i with Some n => pub_idx n | None => 0 end.
