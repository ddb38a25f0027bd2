(** Vocabulary for the theorems about the search for discriminators, without the cache:
    the member of a union as the tree of nodes gives it. *)
From Verif Require Import Base UnionSel UnionRes.

Section Spec.
  Context (ufds : nat -> ufd) (known : list Z -> bool) (field : nat -> list Z -> option fdesc) (choose : udesc -> fdesc -> Z -> option nat).

  (** The discriminator field in a node: arrays and pointers have none.
      src/mr_save.c:398-410. *)
  Definition disc_at (n : unode) (meta : list Z) : option fdesc :=
    if n_skip n then None else match n_td n with None => None | Some t => field t meta end.

  (** The nearest node with a discriminator, from a node upwards, decides; the first
      member without any.  src/mr_save.c:366, 388, 407, 422. *)
  Inductive resolves (nodes : list unode) (u : udesc) (meta : list Z) : option nat -> option nat -> Prop :=
    | Rs_root : resolves nodes u meta None (Some 0)
    | Rs_here p n f : nodes !! p = Some n -> disc_at n meta = Some f ->
        resolves nodes u meta (Some p) (choose u f (n_addr n + d_off f)%Z)
    | Rs_up p n r : nodes !! p = Some n -> disc_at n meta = None -> resolves nodes u meta (n_parent n) r ->
        resolves nodes u meta (Some p) r.

  (** The member for a union: none without a type, the first if no field at all has the
      name of the discriminator.  src/mr_save.c:363-368. *)
  Definition member_of (nodes : list unode) (x p : nat) (r : option nat) : Prop :=
    match f_type (ufds x) with
    | None => r = None
    | Some u => if known (f_meta (ufds x)) then resolves nodes u (f_meta (ufds x)) (Some p) r else r = Some 0
    end.
End Spec.

(** Operations on nodes that exist at that time, given whether each node is an array or
    a pointer: parents and unions are nodes, and a node is never matched with an array
    or a pointer (src/mr_save.c:494-497, 788) or moved along with siblings (622-634). *)
Fixpoint ops_ok (skips : list bool) (ops : list uop) : Prop :=
  match ops with
  | [] => True
  | ONode p s _ _ :: ops => (forall q, p = Some q -> q < length skips) /\ ops_ok (skips ++ [s]) ops
  | OUnion n _ :: ops => n < length skips /\ ops_ok skips ops
  | OMatch p r sibs :: ops => p < length skips /\ skips !! r = Some false /\ sibs = [] /\ ops_ok skips ops
  end.
