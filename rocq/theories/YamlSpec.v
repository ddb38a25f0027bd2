(** Vocabulary for the theorems about YAML documents, independent of the writer and
    the reader. *)
From Verif Require Import Base Ptrs NumStrProof Enum Json Xml DfsProof JsonSpec Yaml.
Local Open Scope Z_scope.

(** ** Streams of events libyaml's emitter takes and its parser delivers: one
    document, a mapping having pairs of nodes. *)
Inductive wf_node : list yev -> Prop :=
  | W_scalar a v : wf_node [EScalar a v]
  | W_alias a : wf_node [EAlias a]
  | W_map a l : wf_pairs l -> wf_node (EMap a :: l ++ [EMapEnd])
  | W_seq a l : wf_nodes l -> wf_node (ESeq a :: l ++ [ESeqEnd])
with wf_pairs : list yev -> Prop :=
  | P_nil : wf_pairs []
  | P_cons x y l : wf_node x -> wf_node y -> wf_pairs l -> wf_pairs (x ++ y ++ l)
with wf_nodes : list yev -> Prop :=
  | N_nil : wf_nodes []
  | N_cons x l : wf_node x -> wf_nodes l -> wf_nodes (x ++ l).
Definition wf_stream (evs : list yev) : Prop :=
  exists body, wf_node body /\ evs = EStreamStart :: EDocStart :: body ++ [EDocEnd; EStreamEnd].

(** ** What a value looks like as a text *)
Definition own_text (k : ykind) (s : list Z) : Prop :=
  match k with
  | YBool b => s = if b then [116; 114; 117; 101] else [102; 97; 108; 115; 101]
  | YInt t data => exists neg ds, s = minus neg ++ ds /\ numeral ds /\ (if neg then - numeral_value 10 ds else numeral_value 10 ds) = read_as t data
  | YPrinted txt | YFunc txt | YStr txt => s = txt
  | YChar c => if (32 <=? c) && (c <? 128) then s = [c]
               else exists ds, s = 48 :: 120 :: ds /\ length ds = 2%nat /\ Forall (digit_in 16) ds /\ numeral_value 16 ds = c
  | _ => False
  end.

(** Kinds with members that have names; kinds with elements that have none; kinds
    whose brackets are printed in any case. *)
Definition has_members (k : ykind) : bool := match k with YStruct | YUnion _ | YAnon => true | _ => false end.
Definition brackets (k : ykind) : bool := has_members k || match k with YArray => true | _ => false end.
Definition has_elements (k : ykind) : bool := match k with YArray | YPointer => true | _ => false end.

(** Values that have a representation. *)
Definition ykind_ok (utf8 : list Z -> bool) (wrapv : bool) (k : ykind) : Prop :=
  match k with
  | YInt t data => t <> NotInt /\ (wrapv = true \/ - 2 ^ 127 < read_as t data)
  | YPrinted txt => txt <> [] /\ utf8 txt = true
  | YFunc txt | YStr txt => utf8 txt = true
  | YChar c => 0 <= c < 256
  | _ => True
  end.

Definition label (d : yinfo) : list Z := default [101; 110; 116; 105; 116; 121] (y_name d).

Section Table.
  Context (known utf8 : list Z -> bool) (wrapv : bool) (ns : list node) (js : list yinfo).

  Definition void (i : nat) : bool := match js !! i with Some d => match y_kind d with YVoid => true | _ => false end | None => false end.

  (** The kind of the parent, if there is one. *)
  Definition parent_kind (n : node) : option ykind :=
    match parent n with O => None | p => y_kind <$> js !! p end.
  Definition in_map (n : node) : bool := match parent_kind n with Some k => has_members k | None => false end.

  (** Nodes with a name: all but the unnamed, anonymous unions, and pointers in a
      union of type mr_ptr_t. *)
  Definition named (n : node) (d : yinfo) : bool :=
    match y_kind d with
    | YAnon => true
    | YPointer => match parent_kind n with Some (YUnion true) => true | _ => negb (y_unnamed d) end
    | _ => negb (y_unnamed d)
    end.

  (** Exactly the members of structures and unions have names, which the library
      knows; references point into the tree; structures and arrays are there; only
      they and pointers that are not NULL have children. *)
  Definition ynode_ok (t : tree) (i : nat) : Prop :=
    exists n d, ns !! i = Some n /\ js !! i = Some d /\
      if void i then is_ref n = true \/ first_child n = 0%nat
      else named n d = in_map n /\ (in_map n = true -> known (label d) = true /\ utf8 (label d) = true) /\
        ykind_ok utf8 wrapv (y_kind d) /\
        (brackets (y_kind d) = true -> is_ref n = false /\ y_null d = false) /\
        (if is_ref n then first_child n ∈ nodes t
         else first_child n = 0%nat \/ brackets (y_kind d) = true \/ (y_kind d = YPointer /\ y_null d = false)).

  (** What is left of a tree without the nodes of type void. *)
  Fixpoint kept (t : tree) : list tree :=
    match t with T i ks => if void i then [] else [T i (concat (map kept ks))] end.

  (** What is found in the node [m] and the descriptor [r] read for [n], [d]. *)
  Definition ynode_read (n : node) (d : yinfo) (m : node) (r : yread) : Prop :=
    r_name r = (if in_map n then Some (label d) else None) /\
    is_ref m = is_ref n /\
    r_null r = (if is_ref n then false else y_null d) /\
    r_cref r = (if is_ref n then y_cref d else false) /\
    (if is_ref n || y_null d || has_members (y_kind d) || has_elements (y_kind d) then r_val r = None
     else exists s, own_text (y_kind d) s /\ r_val r = Some s) /\
    (is_ref n || y_null d = false -> has_members (y_kind d) = true -> r_unnamed r = false) /\
    (is_ref n || y_null d = false -> has_elements (y_kind d) = true -> r_unnamed r = true).
End Table.

(** Nothing is left out: every event that starts something is a node or a name. *)
Definition starts (ev : yev) : bool := match ev with EScalar _ _ | EMap _ | ESeq _ | EAlias _ => true | _ => false end.
Definition has_name (r : yread) : bool := match r_name r with Some _ => true | None => false end.
Definition count {A} (p : A -> bool) (l : list A) : nat := length (filter p l).

(** Documents without anchors and aliases, keys being names the library knows. *)
Section Plain.
  Context (known : list Z -> bool).
  Inductive plain_node : list yev -> Prop :=
    | L_scalar v : plain_node [EScalar None v]
    | L_map l : plain_pairs l -> plain_node (EMap None :: l ++ [EMapEnd])
    | L_seq l : plain_nodes l -> plain_node (ESeq None :: l ++ [ESeqEnd])
  with plain_pairs : list yev -> Prop :=
    | LP_nil : plain_pairs []
    | LP_cons nm y l : known nm = true -> plain_node y -> plain_pairs l -> plain_pairs (EScalar None nm :: y ++ l)
  with plain_nodes : list yev -> Prop :=
    | LN_nil : plain_nodes []
    | LN_cons x l : plain_node x -> plain_nodes l -> plain_nodes (x ++ l).
End Plain.
