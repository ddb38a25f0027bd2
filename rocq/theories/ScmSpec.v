(** Vocabulary for the theorems about SCM documents, independent of the writer, the
    lexer and the grammar: which node tables can be printed, and what a reader must
    find in a descriptor. *)
From Verif Require Import Base Ptrs NumStrProof Enum Value Cinit DfsProof JsonSpec CinitSpec Scm.
Local Open Scope Z_scope.

(** Identifiers the lexer takes for something else: t and nil; nan and inf in upper or
    lower case. *)
Definition mreserved (s : list Z) : Prop :=
  s ∈ [[116]; [110; 105; 108]] \/ map lower s ∈ [[110; 97; 110]; [105; 110; 102]].
Definition musable (s : list Z) : Prop := identifier s /\ ~ mreserved s.

Section Values.
  Context {F : Type} `{FL : Floats F}.
  Context (known : list Z -> bool) (wrapv : bool).

  (** Leaf values that have a representation.  (A void node prints nothing at all.) *)
  Definition mkind_ok (k : mkind) : Prop :=
    match k with
    | MNothing => False
    | MBool _ | MComp | MPtr => True
    | MInt t data => t <> NotInt /\ (wrapv = true \/ - 2 ^ 127 < read_as t data)
    | MFloat txt => float_text txt
    | MChar c => 0 <= c < 256
    | MChars s | MString s => Forall (fun c => 0 < c < 256) s
    | MQuoted txt | MFunc (Some txt) _ => Forall unquotable txt
    | MFunc None addr => 0 <= addr < 2 ^ 64
    end.

  (** The value the parser has to find for a kind of node, [gone] telling that a
      pointer, text or function is not printed, and the flag for NULL. *)
  Definition mleaf_read (gone : bool) (k : mkind) (v : value F) (null : bool) : Prop :=
    match k with
    | MNothing => False
    | MBool b => v = VInt (if b then 1 else 0) /\ null = negb b
    | MInt t data => null = false /\ exists z, v = VInt z /\ same_int z (read_as t data)
    | MFloat txt => null = false /\
        ((exists neg ds z, txt = minus neg ++ ds /\ numeral ds /\ v = VInt z /\
            same_int z (if neg then - numeral_value 10 ds else numeral_value 10 ds)) \/
         ((forall neg ds, numeral ds -> txt <> minus neg ++ ds) /\ v = VFloat (strtold (txt ++ [0])).1))
    | MChar c => null = false /\ v = VChar c
    | MChars s => null = false /\ (v = VString (s ++ [0]) \/ v = VSubstr (s ++ [34; 0]) (length s))
    | MString s => if gone then v = VInt 0 /\ null = true
        else null = false /\ (v = VString (s ++ [0]) \/ v = VSubstr (s ++ [34; 0]) (length s))
    | MQuoted txt => null = false /\ v = VSubstr (txt ++ [34; 0]) (length txt)
    | MFunc name addr => if gone then v = VInt 0 /\ null = true
        else null = false /\ match name with Some txt => v = VSubstr (txt ++ [34; 0]) (length txt) | None => v = VInt addr end
    | MComp => v = VVoid /\ null = false
    | MPtr => if gone then v = VInt 0 /\ null = true else v = VVoid /\ null = false
    end.

  Section Table.
    Context (ns : list node) (js : list minfo).

    (** Names are identifiers the library knows; references are pointers or texts and
        point into the tree; only structures, unions, arrays and pointers which are not
        NULL have children, and the latter do have some. *)
    Definition mnode_ok (t : tree) (i : nat) : Prop :=
      exists n d, ns !! i = Some n /\ js !! i = Some d /\
        (m_unnamed d = true \/ (musable (m_name d) /\ known (m_name d) = true)) /\
        (if is_ref n then first_child n ∈ nodes t /\ (m_kind d = MPtr \/ exists s, m_kind d = MString s)
         else mkind_ok (m_kind d) /\
           (if decide (first_child n = 0%nat) then m_kind d = MPtr -> m_null d = true
            else m_kind d = MComp \/ (m_kind d = MPtr /\ m_null d = false))).

    (** A parsed descriptor [q], [p] corresponds to the node [n], [d] that was printed. *)
    Definition mnode_read (n : node) (d : minfo) (q : node) (p : @cinfo F) : Prop :=
      c_name p = (if m_unnamed d then None else Some (m_name d)) /\
      c_type p = None /\
      c_cref p = is_ref n && m_cref d /\
      is_ref q = is_ref n /\ referenced q = referenced n /\
      pub_idx q = (if referenced n then pub_idx n else 0%nat) /\
      (is_ref n = true -> exists m, ns !! first_child n = Some m /\ first_child q = pub_idx m) /\
      mleaf_read (m_null d || is_ref n) (m_kind d) (c_val p) (c_null p).
  End Table.
End Values.
