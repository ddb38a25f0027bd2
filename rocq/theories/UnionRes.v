(** Model of the search for the discriminator of a union and of the cache of its
    results: src/mr_save.c:198-447, 548-589, 610-636, 775-828.  Nodes, types and unions are
    numbered.  Collections are first-wins lists (C06); allocation succeeds. *)
From Verif Require Import Base UnionSel.

(** The parts of [mr_ptrdes_t] read: the parent, whether mr_type is MR_TYPE_ARRAY or
    MR_TYPE_POINTER, fdp->stype.tdp ([None] also if fdp is NULL), data.ptr.
    src/mr_save.c:389-413. *)
Record unode := Unode { n_parent : option nat; n_skip : bool; n_td : option nat; n_addr : Z }.

(** The set of indexes of a node, [mr_ud_set_t]: a short list in place or a collection
    (src/mr_protos.h:531-540). *)
Inductive udset := Small (l : list nat) | Coll (l : list nat).

(** [mr_union_discriminator_t], src/mr_protos.h:487-490. *)
Record urec := Urec { r_union : nat; r_member : option nat }.

(** The part of [mr_save_data_t] used: nodes, their sets (kept apart from the nodes here),
    [mr_ra_ud] and [union_discriminators], src/mr_protos.h:623-631. *)
Record ustate := Ustate { s_nodes : list unode; s_uds : list udset; s_ra : list urec; s_all : list nat }.

(** The field descriptor of a union: stype.tdp and meta, src/mr_save.c:360-361. *)
Record ufd := Ufd { f_type : option udesc; f_meta : list Z }.

(** What mr_union_discriminator returns: NULL because of too many records
    (src/mr_save.c:384), or a member (NULL for none). *)
Inductive outcome := TooMany | Member (r : option nat).

Section Res.
  (** Number of places in [mr_ud_set_t.idx] (src/mr_protos.h:534), sizeof of
      MR_RA_UD_IDX_TYPE, the unions, whether any field has a name
      (mr_get_any_fd_by_name, src/mr_save.c:367), the field of a type with a name
      (mr_get_fd_by_name, src/mr_save.c:408), and mr_union_discriminator_by_type
      (src/mr_save.c:414, see UnionSel.v). *)
  Context (cap : nat) (bytes : Z) (ufds : nat -> ufd) (known : list Z -> bool)
    (field : nat -> list Z -> option fdesc) (choose : udesc -> fdesc -> Z -> option nat).

  (** mr_ud_cmp, src/mr_save.c:225-232: the same union. *)
  Definition same_union (ra : list urec) (x y : nat) : bool :=
    bool_decide (r_union <$> ra !! x = r_union <$> ra !! y).
  (** mr_uds_cmp, src/mr_save.c:198-209: the same union and member. *)
  Definition same_rec (ra : list urec) (x y : nat) : bool :=
    bool_decide (r_union <$> ra !! x = r_union <$> ra !! y) && bool_decide (r_member <$> ra !! x = r_member <$> ra !! y).

  (** mr_ic_find, and src/mr_save.c:251-255. *)
  Definition set_find (eq : nat -> nat -> bool) (l : list nat) (key : nat) : option nat := List.find (eq key) l.
  (** mr_ic_add (C06), as used at src/mr_save.c:263, 312, 428. *)
  Definition set_add (eq : nat -> nat -> bool) (l : list nat) (key : nat) : list nat * nat :=
    match set_find eq l key with Some x => (l, x) | None => (l ++ [key], key) end.

  (** The indexes in a set, src/mr_protos.h:531-540. *)
  Definition elems (s : udset) : list nat := match s with Small l | Coll l => l end.

  (** mr_ud_find, src/mr_save.c:242-256. *)
  Definition ud_find (ra : list urec) (s : udset) (key : nat) : option nat := set_find (same_union ra) (elems s) key.

  (** mr_ud_add, src/mr_save.c:258-321. *)
  Definition ud_add (ra : list urec) (s : udset) (key : nat) : udset * nat :=
    match s with
    | Coll l => let (l, x) := set_add (same_union ra) l key in (Coll l, x)
    | Small l =>
      match ud_find ra s key with
      | Some x => (s, x)
      | None =>
        let l := if cap <? length l then [] else l in (* 271-275 *)
        if length l =? cap then (* 277-314 *)
          let ic := fold_left (fun ic k => fst (set_add (same_union ra) ic k)) l [] in
          let (ic, x) := set_add (same_union ra) ic key in (Coll ic, x)
        else (Small (l ++ [key]), key)
      end
    end.

  (** src/mr_save.c:389-416, the traversal: the node it stops at, the record found, and
      the member chosen by a discriminator. *)
  Fixpoint climb (fuel : nat) (st : ustate) (ra : list urec) (u : udesc) (meta : list Z) (key : nat) (parent : option nat)
      : option (option nat * option nat * option nat) :=
    match fuel with
    | O => None
    | S fuel =>
      match parent with
      | None => Some (None, None, None)
      | Some p =>
        n ← s_nodes st !! p;
        s ← s_uds st !! p;
        match ud_find ra s key with
        | Some i => Some (Some p, Some i, None)
        | None =>
          if n_skip n then climb fuel st ra u meta key (n_parent n)
          else match t ← n_td n; field t meta with
               | None => climb fuel st ra u meta key (n_parent n)
               | Some f => Some (Some p, None, choose u f (n_addr n + d_off f)%Z)
               end
        end
      end
    end.

  (** src/mr_save.c:442-444: the record is added to the nodes from [idx] to before [stop]. *)
  Fixpoint add_up (fuel : nat) (nodes : list unode) (ra : list urec) (uds : list udset) (idx stop : option nat) (key : nat) : option (list udset) :=
    match fuel with
    | O => None
    | S fuel =>
      if decide (idx = stop) then Some uds
      else
        i ← idx;
        n ← nodes !! i;
        s ← uds !! i;
        add_up fuel nodes ra (<[i := fst (ud_add ra s key)]> uds) (n_parent n) stop key
    end.

  (** mr_union_discriminator, src/mr_save.c:353-447. *)
  Definition union_discriminator (fuel : nat) (st : ustate) (node : nat) (union : nat) : option (ustate * outcome) :=
    match f_type (ufds union) with
    | None => Some (st, Member None)
    | Some u =>
      let meta := f_meta (ufds union) in
      if known meta then
        let ud_idx := length (s_ra st) in
        if (2 ^ (8 * (bytes - 1)) <=? Z.of_nat ud_idx / 256)%Z then Some (st, TooMany)
        else
          '(parent, found, fdp) ← climb fuel st (s_ra st ++ [Urec union None]) u meta ud_idx (Some node);
          match found with
          | Some i =>
            r ← s_ra st !! i;
            uds ← add_up fuel (s_nodes st) (s_ra st) (s_uds st) (Some node) parent i;
            Some (Ustate (s_nodes st) uds (s_ra st) (s_all st), Member (r_member r))
          | None =>
            let fdp := match fdp with Some m => Some m | None => by_name u None end in
            let ra := s_ra st ++ [Urec union fdp] in
            let (all, i) := set_add (same_rec ra) (s_all st) ud_idx in
            let kept := if i =? ud_idx then ra else s_ra st in
            stop ← match parent with None => Some None | Some p => n ← s_nodes st !! p; Some (n_parent n) end;
            uds ← add_up fuel (s_nodes st) ra (s_uds st) (Some node) stop i;
            Some (Ustate (s_nodes st) uds kept all, Member fdp)
          end
      else Some (st, Member (by_name u None))
    end.

  (** mr_check_ud, src/mr_save.c:548-572; [parent] is that of the node about to be added
      (554-555). *)
  Definition check_ud (fuel : nat) (st : ustate) (parent ref key : nat) : option (ustate * bool) :=
    r ← s_ra st !! key;
    n ← s_nodes st !! ref;
    match t ← n_td n; field t (f_meta (ufds (r_union r))) with
    | Some _ => Some (st, true)
    | None =>
      '(st, o) ← union_discriminator fuel st parent (r_union r);
      let fdp := match o with TooMany => None | Member m => m end in
      Some (st, bool_decide (fdp = r_member r))
    end.

  (** Reading place [i] of the list or collection visited by mr_ud_foreach; it is
      undefined when the representation has changed since the visit started.
      src/mr_save.c:326-331. *)
  Definition uds_at (coll : bool) (s : udset) (i : nat) : option nat :=
    match s, coll with Small l, false | Coll l, true => l !! i | _, _ => None end.

  (** mr_ud_foreach with mr_check_ud, src/mr_save.c:323-334, 791-792: [k] places are left. *)
  Fixpoint check_all (fuel : nat) (st : ustate) (parent ref : nat) (coll : bool) (i k : nat) : option (ustate * bool) :=
    match k with
    | O => Some (st, true)
    | S k =>
      s ← s_uds st !! ref;
      key ← uds_at coll s i;
      '(st, ok) ← check_ud fuel st parent ref key;
      if (ok : bool) then check_all fuel st parent ref coll (S i) k else Some (st, false)
    end.

  (** ref_is_parent, src/mr_save.c:583-589. *)
  Fixpoint ref_is_parent (fuel : nat) (nodes : list unode) (node : option nat) (ref : nat) : option bool :=
    match fuel with
    | O => None
    | S fuel =>
      match node with
      | None => Some false
      | Some p => if p =? ref then Some true else n ← nodes !! p; ref_is_parent fuel nodes (n_parent n) ref
      end
    end.

  (** mr_add_child at src/mr_save.c:632 as far as the parent is concerned. *)
  Definition set_parent (nodes : list unode) (parent ref : nat) : list unode :=
    alter (fun n => Unode (Some parent) (n_skip n) (n_td n) (n_addr n)) ref nodes.

  (** resolve_matched for one node [ref] of the same address and type, the branch for
      parents which are no pointers or strings (src/mr_save.c:791-792, 812-822), with the loop
      of move_nodes_to_parent (611-636): [sibs] are the other children of the
      parent of [ref].  The descriptor given to moved nodes (625) has the same type. *)
  Definition match_node (fuel : nat) (st : ustate) (parent ref : nat) (sibs : list nat) : option (ustate * bool) :=
    s ← s_uds st !! ref;
    '(st, ok) ← check_all fuel st parent ref (match s with Coll _ => true | Small _ => false end) 0 (length (elems s));
    if (ok : bool) then
      below ← ref_is_parent fuel (s_nodes st) (Some parent) ref;
      if (below : bool) then Some (st, false)
      else Some (Ustate (fold_left (fun nodes x => set_parent nodes parent x) (ref :: sibs) (s_nodes st)) (s_uds st) (s_ra st) (s_all st), true)
    else Some (st, false).

  (** The steps of saving which touch this state: a new node without records
      (src/mr_save.c:1015-1030, 1045), a union (1159), and a node that matches one saved before
      (1041).  The results are those of the unions. *)
  Inductive uop := ONode (parent : option nat) (skip : bool) (td : option nat) (addr : Z)
    | OUnion (node union : nat) | OMatch (parent ref : nat) (sibs : list nat).
  (** The steps in order.  src/mr_save.c:1007-1051, 1133-1166. *)
  Fixpoint run (fuel : nat) (st : ustate) (ops : list uop) : option (ustate * list (nat * nat * outcome)) :=
    match ops with
    | [] => Some (st, [])
    | ONode p s t a :: ops =>
      run fuel (Ustate (s_nodes st ++ [Unode p s t a]) (s_uds st ++ [Small []]) (s_ra st) (s_all st)) ops
    | OUnion n x :: ops =>
      '(st, o) ← union_discriminator fuel st n x;
      '(st, l) ← run fuel st ops;
      Some (st, (n, x, o) :: l)
    | OMatch p r sibs :: ops =>
      '(st, _) ← match_node fuel st p r sibs;
      run fuel st ops
    end.
End Res.
