(** Vocabulary for the theorems about XML1 documents, independent of the writer, the
    lexer and the grammar: which node tables can be printed, and what a reader must
    find in a descriptor. *)
From Verif Require Import Base Ptrs NumStrProof Enum Value Cinit DfsProof JsonSpec CinitSpec Xml.
Local Open Scope Z_scope.

Section Values.
  Context {F : Type} `{FL : Floats F}.
  Context (known : list Z -> bool) (wrapv : bool).

  (** Leaf values that have a representation. *)
  Definition xkind_ok (k : xkind) : Prop :=
    match k with
    | XNothing | XBool _ => True
    | XInt t data => t <> NotInt /\ (wrapv = true \/ - 2 ^ 127 < read_as t data)
    | XText s => Forall (fun c => 0 < c < 256) s
    | XChar c => 0 <= c < 256
    | XPlain txt => Forall (fun c => 0 < c < 256 /\ c <> 38 /\ c <> 60) txt
    | XAddr addr => 0 <= addr < 2 ^ 64
    end.

  (** The text that stands for a value; a node with others inside has white space. *)
  Definition says (inner : bool) (k : xkind) (s : list Z) : Prop :=
    match k with
    | XNothing => if inner then Forall (fun c => c = 10 \/ c = 32) s else s = []
    | XBool b => s = if b then [116; 114; 117; 101] else [102; 97; 108; 115; 101]
    | XInt t data => exists neg ds, s = minus neg ++ ds /\ numeral ds /\
        (if neg then - numeral_value 10 ds else numeral_value 10 ds) = read_as t data
    | XText txt | XPlain txt => s = txt
    | XChar c => s = if decide (c = 0) then [] else [c]
    | XAddr addr => exists ds, s = 48 :: 120 :: ds /\ ds <> [] /\ Forall (digit_in 16) ds /\ numeral_value 16 ds = addr
    end.

  (** A value of the parser holding the text [s]: a text of its own, a part of the
      document up to the next tag, or the empty text of a tag without content. *)
  Definition holds (v : value F) (s : list Z) : Prop :=
    v = VString (s ++ [0]) \/ v = VSubstr (s ++ [60; 0]) (length s) \/ (s = [] /\ v = VSubstr [0] 0).

  Section Table.
    Context (ns : list node) (js : list xinfo).

    (** Names are identifiers the library knows, that of unnamed nodes as well;
        references point into the tree; only structures, arrays and pointers which are
        not NULL have children. *)
    Definition xnode_ok (t : tree) (i : nat) : Prop :=
      exists n d, ns !! i = Some n /\ js !! i = Some d /\
        identifier (tag_name d) /\ known (tag_name d) = true /\
        (if is_ref n then first_child n ∈ nodes t
         else if x_null d then first_child n = 0%nat
         else xkind_ok (x_kind d) /\ (first_child n <> 0%nat -> x_kind d = XNothing)).

    (** A parsed descriptor [q], [p] corresponds to the node [n], [d] that was printed. *)
    Definition xnode_read (n : node) (d : xinfo) (q : node) (p : @cinfo F) : Prop :=
      c_name p = Some (default txt_entity (x_name d)) /\
      c_type p = None /\
      c_cref p = is_ref n && x_cref d /\
      c_null p = x_null d /\
      is_ref q = is_ref n /\ referenced q = referenced n /\
      pub_idx q = (if referenced n then pub_idx n else 0%nat) /\
      (is_ref n = true -> exists m, ns !! first_child n = Some m /\ first_child q = pub_idx m) /\
      exists s, holds (c_val p) s /\
        (if x_null d || is_ref n then s = [] else says (negb (Nat.eqb (first_child n) 0)) (x_kind d) s).
  End Table.
End Values.
