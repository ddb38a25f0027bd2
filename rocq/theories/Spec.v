(** Specification vocabulary, independent of the model: comparators and
    the abstract first-wins set that every indexed collection must implement. *)
From Verif Require Import Base.

(** [cmp x y <= 0] is a total preorder. *)
Definition total_preorder {A} (cmp : A -> A -> Z) : Prop :=
  (forall x y, (cmp x y <= 0)%Z \/ (cmp y x <= 0)%Z) /\
  (forall x y z, (cmp x y <= 0)%Z -> (cmp y z <= 0)%Z -> (cmp x z <= 0)%Z).

(** A three-way comparator in the sense of qsort(3): antisymmetric in sign and
    transitive.  Distinct keys may compare equal (the payload is not compared). *)
Definition three_way {A} (cmp : A -> A -> Z) : Prop :=
  (forall x y, Z.sgn (cmp x y) = (- Z.sgn (cmp y x))%Z) /\
  (forall x y z, (cmp x y <= 0)%Z -> (cmp y z <= 0)%Z -> (cmp x z <= 0)%Z).

(** An array is sorted when no element compares greater than a later one. *)
Definition sorted_by {A} (cmp : A -> A -> Z) (a : list A) : Prop :=
  forall i j x y, i <= j -> a !! i = Some x -> a !! j = Some y -> (cmp x y <= 0)%Z.

(** Strictly increasing. *)
Definition strictly_sorted_by {A} (cmp : A -> A -> Z) (a : list A) : Prop :=
  forall i j x y, i < j -> a !! i = Some x -> a !! j = Some y -> (cmp x y < 0)%Z.

(** *** First-wins set of keys, as a list whose order is irrelevant *)
Section fw.
Context (cmp : N -> N -> Z).

(** The member equal to [k], if any. *)
Definition fw_find (s : list N) (k : N) : option N :=
  List.find (fun x => Z.eqb (cmp k x) 0) s.

(** Set without the members equal to [k]. *)
Definition fw_remove (s : list N) (k : N) : list N :=
  List.filter (fun x => negb (Z.eqb (cmp k x) 0)) s.

(** Operations of the public API ([mr_ic_add], [mr_ic_del], [mr_ic_find]).  The
    flag tells whether memory allocations during the call succeed. *)
Inductive op := Add (k : N) (alloc : bool) | Del (k : N) (alloc : bool) | Find (k : N).

(** Observable answers: the key stored behind the returned pointer ([None] for
    NULL), or the returned status ([true] for MR_SUCCESS). *)
Inductive res := RKey (r : option N) | RStatus (ok : bool).

(** Meaning of one call.  A failed allocation may only turn the answer into
    failure and must leave the set as it was. *)
Inductive fw_step (s : list N) : op -> res -> list N -> Prop :=
| fw_find_ k : fw_step s (Find k) (RKey (fw_find s k)) s
| fw_add_old k al x : fw_find s k = Some x -> fw_step s (Add k al) (RKey (Some x)) s
| fw_add_new k al : fw_find s k = None -> fw_step s (Add k al) (RKey (Some k)) (k :: s)
| fw_add_oom k : fw_find s k = None -> fw_step s (Add k false) (RKey None) s
| fw_del_ok k al x : fw_find s k = Some x -> fw_step s (Del k al) (RStatus true) (fw_remove s k)
| fw_del_none k al : fw_find s k = None -> fw_step s (Del k al) (RStatus false) s
| fw_del_oom k x : fw_find s k = Some x -> fw_step s (Del k false) (RStatus false) s.

(** A whole history of calls with its answers. *)
Inductive fw_run : list N -> list op -> list res -> list N -> Prop :=
| fw_run_nil s : fw_run s [] [] s
| fw_run_cons s o r s1 ops rs s2 :
    fw_step s o r s1 -> fw_run s1 ops rs s2 -> fw_run s (o :: ops) (r :: rs) s2.

(** Set denoted by an array to be indexed: members added from left to right. *)
Definition fw_index (l : list N) : list N :=
  fold_left (fun s k => match fw_find s k with Some _ => s | None => k :: s end) l [].

(** No two members are equal. *)
Definition fw_wf (s : list N) : Prop := ForallOrdPairs (fun x y => cmp x y <> 0%Z) s.

End fw.

(** Running a concrete collection over a history; [None] is undefined behaviour. *)
Fixpoint run {S} (step : S -> op -> option (res * S)) (st : S) (ops : list op)
  : option (list res * S) :=
  match ops with
  | [] => Some ([], st)
  | o :: ops => '(r, st) ← step st o; '(rs, st) ← run step st ops; Some (r :: rs, st)
  end.
