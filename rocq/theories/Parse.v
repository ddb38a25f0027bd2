(** Model of what the generated parsers share: the state [mr_load_t]
    (src/mr_protos.h, used at src/lexer.h:85-104) and the two actions which open
    and close a node (src/json_load.y:97-111, src/cinit_load.y, src/scm_load.y).
    The part of a descriptor that differs between the formats is the type [I]. *)
From Verif Require Import Base Ptrs.

(** The state of a parser: [mr_load->ptrs] split into the links (Ptrs.v) and the
    rest of each descriptor, and [mr_load->parent] (src/lexer.h:89).  The position
    in the text is not modelled. *)
Record lst {I : Type} := LSt { l_ptrs : ptrs; l_info : list I; l_cur : nat }.
Arguments lst : clear implicits.

(** src/metaresc.h:1317-1322 and src/lexer.h:89: the list holds the NULL node, the
    current parent is 0.  [d] is the cleared descriptor. *)
Definition lstart {I} (d : I) : lst I := LSt I ptrs_init [d] 0.

(** push_node, src/json_load.y:103-111 without the last line: a new descriptor
    [d] below the current one becomes the current one.  [None]: YYERROR (the index
    is 0, which stands for a failing allocation) or undefined behaviour. *)
Definition lpush {I} (d : I) (s : lst I) : option (lst I) :=
  let '(idx, p) := add_ptr (l_ptrs s) in
  if Nat.eqb idx 0 then None else
  p ← add_child p (l_cur s) idx;
  Some (LSt I p (l_info s ++ [d]) idx).

(** pop_node, src/json_load.y:97-101. *)
Definition lpop {I} (s : lst I) : option (lst I) :=
  n ← rd (ra (l_ptrs s)) (l_cur s);
  Some (LSt I (l_ptrs s) (l_info s) (parent n)).

(** A store to the links of node [i], e.g. src/json_load.y:110. *)
Definition lset_node {I} (s : lst I) (i : nat) (f : node -> node) : option (lst I) :=
  ns ← upd (ra (l_ptrs s)) i f;
  Some (LSt I (Ptrs ns (cache (l_ptrs s))) (l_info s) (l_cur s)).

(** A store to the other members of node [i], e.g. src/json_load.y:125-132. *)
Definition lset_info {I} (s : lst I) (i : nat) (f : I -> I) : option (lst I) :=
  d ← rd (l_info s) i; inf ← wr (l_info s) i (f d);
  Some (LSt I (l_ptrs s) inf (l_cur s)).

(** The call of mr_last_child_for_parent with [mr_load->parent],
    src/json_load.y:155, src/cinit_load.y:252. *)
Definition llast {I} (s : lst I) : option (nat * lst I) :=
  r ← last_child_for_parent (l_ptrs s) (l_cur s);
  Some (r.1, LSt I r.2 (l_info s) (l_cur s)).
