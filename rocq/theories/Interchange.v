(** Model of the dispatcher over collection kinds, src/mr_ic.h:60-129. *)
From Verif Require Import Base Spec ICArrays Hash BTree.

(** [mr_ic_type_t] (src/mr_ic.h / src/mr_protos.h): kinds accepted by [mr_ic_new].
    The cases of src/mr_ic.h:112-128. *)
Inductive kind := KUnsorted | KSorted | KHash | KStatic | KRBTree | KAVLTree.

(** src/mr_ic.h:108-129 [mr_ic_new] followed by calls of [mr_ic_add], [mr_ic_del],
    [mr_ic_find] (src/mr_ic.h:60-106) through the table of functions of the kind.
    Answers only.  [junk] and [path0] are uninitialised memory. *)
Definition kind_run (cmp : N -> N -> Z) (hash : N -> N) (junk : N) (path0 : path_t) (k : kind) (ops : list op)
  : option (list res) :=
  match k with
  | KUnsorted => fst <$> run (arr_step cmp junk) (unsorted_index []) ops
  | KSorted => fst <$> run (arr_step cmp junk) (Sorted sorted_new) ops
  | KHash => fst <$> run (hash_step cmp hash) hash_new ops
  | KStatic => fst <$> run (arr_step cmp junk) static_new ops
  | KRBTree => fst <$> run (rb_step cmp path0) tree_ic_new ops
  | KAVLTree => fst <$> run (avl_step cmp path0) tree_ic_new ops
  end.
