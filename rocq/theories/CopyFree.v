(** Model of the deep copy and deep release of a saved structure
    (src/mr_extra.c:8-196). *)
From Verif Require Import Base Ptrs.
Local Open Scope Z_scope.

(** ** Memory *)
(** An address: number of a block and offset in it; the C code uses [void *]
    (src/mr_extra.c:38, 143).  NULL is [None] wherever it may occur. *)
Notation addr := (nat * Z)%type.

(** One byte: an ordinary byte, or byte [k] of the pointer [p] (a pointer takes
    8 bytes).  src/mr_extra.c:84 and 140 copy bytes, 38 and 163-174 access
    pointers.  Simplified: the bytes of a non-NULL pointer are not numbers. *)
Inductive cell := B (z : Z) | F (p : addr) (k : nat).

(** A block: obtained from [MR_CALLOC] (src/mr_extra.c:132, src/metaresc.c:491)
    or not, and its bytes.  A released block (src/mr_extra.c:44) is [None]; its
    number is not used again. *)
Notation mem := (list (option (bool * list cell))).

(** src/mr_extra.c:84, 140: [n] bytes at an address; [None] when the block is
    released or too short. *)
Definition rd_cells (m : mem) (a : addr) (n : Z) : option (list cell) :=
  '(_, cs) ← mjoin (m !! fst a);
  if (0 <=? snd a) && (0 <=? n) && (snd a + n <=? Z.of_nat (length cs))
  then Some (take (Z.to_nat n) (drop (Z.to_nat (snd a)) cs)) else None.

(** src/mr_extra.c:84, 140, 163-174: bytes are stored at an address. *)
Definition wr_cells (m : mem) (a : addr) (new : list cell) : option mem :=
  '(dyn, cs) ← mjoin (m !! fst a);
  if (0 <=? snd a) && (snd a + Z.of_nat (length new) <=? Z.of_nat (length cs))
  then let o := Z.to_nat (snd a) in
       Some (<[fst a := Some (dyn, take o cs ++ new ++ drop (o + length new) cs)]> m) else None.

(** src/mr_extra.c:163-174: the bytes of a pointer; NULL is eight zero bytes. *)
Definition enc (v : option addr) : list cell :=
  match v with None => replicate 8 (B 0) | Some p => map (F p) (seq 0 8) end.

(** src/mr_extra.c:38, 103: comparison of bytes, for reading a pointer. *)
Definition cell_eqb (c d : cell) : bool :=
  match c, d with
  | B x, B y => x =? y
  | F p i, F q j => Nat.eqb (fst p) (fst q) && (snd p =? snd q) && Nat.eqb i j
  | _, _ => false
  end.
(** src/mr_extra.c:38: the same bytes. *)
Fixpoint cells_eqb (cs ds : list cell) : bool :=
  match cs, ds with
  | [], [] => true
  | c :: cs, d :: ds => cell_eqb c d && cells_eqb cs ds
  | _, _ => false
  end.
(** src/mr_extra.c:38: the pointer whose bytes these are. *)
Definition dec (cs : list cell) : option (option addr) :=
  match cs with
  | F p _ :: _ => if cells_eqb cs (enc (Some p)) then Some (Some p) else None
  | _ => if cells_eqb cs (enc None) then Some None else None
  end.
(** src/mr_extra.c:38, 103, 140, 143: a pointer is read. *)
Definition ld (m : mem) (a : addr) : option (option addr) := cs ← rd_cells m a 8; dec cs.
(** src/mr_extra.c:163-174: a pointer is stored. *)
Definition st (m : mem) (a : addr) (v : option addr) : option mem := wr_cells m a (enc v).

(** src/mr_extra.c:44, 186, 191, [MR_FREE]: defined for the start of a block
    that was allocated and is not released. *)
Definition free (m : mem) (a : addr) : option mem :=
  '(dyn, _) ← mjoin (m !! fst a);
  if dyn && (snd a =? 0) then Some (<[fst a := None]> m) else None.

(** src/metaresc.c:491, src/mr_extra.c:132: a new block with the given bytes
    (the bytes are copied at once, src/metaresc.c:497, src/mr_extra.c:140). *)
Definition alloc (m : mem) (cs : list cell) : addr * mem := ((length m, 0), m ++ [Some (true, cs)]).

(** src/metaresc.c:490, [strlen]: the text with its end mark. *)
Fixpoint text_cells (cs : list cell) : option (list cell) :=
  match cs with
  | B 0 :: _ => Some [B 0]
  | B z :: cs => r ← text_cells cs; Some (B z :: r)
  | _ => None
  end.
(** src/metaresc.c:490: the text at an address. *)
Definition rd_text (m : mem) (a : addr) : option (list cell) :=
  '(_, cs) ← mjoin (m !! fst a);
  if 0 <=? snd a then text_cells (drop (Z.to_nat (snd a)) cs) else None.

(** src/mr_extra.c:59, 143: difference of two addresses; undefined for
    addresses in different blocks. *)
Definition psub (p q : addr) : option Z :=
  if Nat.eqb (fst p) (fst q) then Some (snd p - snd q) else None.
(** src/mr_extra.c:59, 143: address of a byte. *)
Definition padd (p : addr) (d : Z) : addr := (fst p, snd p + d).

(** ** Nodes *)
(** src/mr_protos.h:572-597, struct mr_ptrdes_t, without [fdp], [mr_type_aux] and
    [value_type].  The member [res] (line 595) is kept in two arrays beside the
    table, one for [res.data.ptr] and one for [res.type]. *)
Record xnode := XNode {
  x_type : Z; x_flags : Z; x_size : Z;
  x_idx : nat; x_parent : nat; x_next : nat; x_first : nat;
  x_data : option addr }.

(** src/mr_protos.h:91-126: MR_TYPE_STRING. *)
Definition T_STRING : Z := 1.
(** src/mr_protos.h:91-126: MR_TYPE_POINTER. *)
Definition T_POINTER : Z := 28.
(** src/mr_protos.h:476-485: test of MR_IS_NULL. *)
Definition fl_null (n : xnode) : bool := Z.testbit (x_flags n) 0.
(** src/mr_protos.h:476-485: test of MR_IS_REFERENCE. *)
Definition fl_ref (n : xnode) : bool := Z.testbit (x_flags n) 1.
(** src/mr_protos.h:476-485: test of MR_IS_CONTENT_REFERENCE. *)
Definition fl_cref (n : xnode) : bool := Z.testbit (x_flags n) 3.

(** src/mr_extra.c:29, 99: a node of the final graph that is neither NULL nor a
    reference. *)
Definition live (n : xnode) : bool :=
  negb (Nat.eqb (x_idx n) 0) && negb (fl_null n || fl_ref n || fl_cref n).

(** The links read by [mr_ptrs_dfs] (src/mr_save.c:1239-1270). *)
Definition link_of (n : xnode) : node :=
  Node (x_parent n) (x_next n) (x_first n) (x_idx n) (fl_ref n || fl_cref n) false false false.

(** ** Release *)
(** src/mr_extra.c:25-39: status and [res.data.ptr] of one node. *)
Definition gather (m : mem) (n : xnode) : option (bool * option addr) :=
  if live n && ((x_type n =? T_POINTER) || (x_type n =? T_STRING)) then
    match x_data n with
    | None => Some (false, None)
    | Some a => v ← ld m a; Some (true, v)
    end
  else Some (true, None).

(** src/mr_extra.c:23-40. *)
Fixpoint gather_all (m : mem) (ns : list xnode) : option (bool * list (option addr)) :=
  match ns with
  | [] => Some (true, [])
  | n :: ns => '(s, v) ← gather m n; '(ok, vs) ← gather_all m ns; Some (s && ok, v :: vs)
  end.

(** src/mr_extra.c:42-44. *)
Fixpoint free_all (m : mem) (vs : list (option addr)) : option mem :=
  match vs with
  | [] => Some m
  | None :: vs => free_all m vs
  | Some a :: vs => m ← free m a; free_all m vs
  end.

(** src/mr_extra.c:8-47, mr_free_recursively: status and memory.  The empty
    table stands for a NULL [ra]; [ptrs] is not NULL. *)
Definition free_recursively (m : mem) (ns : list xnode) : option (bool * mem) :=
  match ns with
  | [] => Some (false, m)
  | _ :: ns => '(ok, vs) ← gather_all m ns; m ← free_all m vs; Some (ok, m)
  end.

(** ** Copy *)
(** The state of the copy: [res.data.ptr] and [res.type] of each node
    (src/mr_extra.c:85-91) and the memory. *)
Record cstate := CState { c_res : list (option addr); c_txt : list (option addr); c_mem : mem }.

(** src/mr_extra.c:142-143: the children of a pointer get addresses in the copy. *)
Fixpoint place (fuel : nat) (ns : list xnode) (res : list (option addr)) (copy v : addr) (idx : nat)
    : option (list (option addr)) :=
  match fuel with
  | O => None
  | S fuel =>
    if Nat.eqb idx 0 then Some res else
    n ← rd ns idx; a ← x_data n; d ← psub a v;
    res ← wr res idx (Some (padd copy d)); place fuel ns res copy v (x_next n)
  end.

(** src/mr_extra.c:99-148, one pass of the loop; [false] is [goto failure].
    [ok i] says whether the allocation made for node [i] succeeds.  The test of
    line 126 is void, as MR_SIZE is unsigned. *)
Definition dup_node (ok : nat -> bool) (ns : list xnode) (s : cstate) (i : nat) : option (bool * cstate) :=
  n ← rd ns i;
  if negb (live n) then Some (true, s) else
  if x_type n =? T_STRING then
    a ← x_data n; v ← ld (c_mem s) a;
    match v with
    | None => Some (true, s)
    | Some p =>
      cs ← rd_text (c_mem s) p;
      if ok i then
        let '(q, m) := alloc (c_mem s) cs in
        txt ← wr (c_txt s) i (Some q); Some (true, CState (c_res s) txt m)
      else Some (false, s)
    end
  else if x_type n =? T_POINTER then
    if Nat.eqb (x_first n) 0 then Some (false, s) else
    if ok i then
      a ← x_data n; v ← ld (c_mem s) a; p ← v;
      cs ← rd_cells (c_mem s) p (x_size n);
      let '(q, m) := alloc (c_mem s) cs in
      res ← place (S (length ns)) ns (c_res s) q p (x_first n);
      Some (true, CState res (c_txt s) m)
    else Some (false, s)
  else Some (true, s).

(** src/mr_extra.c:94-148: the loop. *)
Fixpoint dup_all (ok : nat -> bool) (ns : list xnode) (s : cstate) (is_ : list nat) : option (bool * cstate) :=
  match is_ with
  | [] => Some (true, s)
  | i :: is_ => '(b, s) ← dup_node ok ns s i;
                if (b : bool) then dup_all ok ns s is_ else Some (false, s)
  end.

(** src/mr_extra.c:49-62, calc_relative_addr; the visitor's context is the array
    of [res.data.ptr]. *)
Definition calc_relative_addr (xs : list xnode) (ns : list node) (res : list (option addr))
    (idx : nat) (level : Z) (o : order) : option (bool * list node * list (option addr)) :=
  match o with
  | POST => Some (true, ns, res)
  | PRE =>
    r ← rd res idx;
    match r with
    | Some _ => Some (true, ns, res)
    | None =>
      n ← rd xs idx; pn ← rd xs (x_parent n); pr ← rd res (x_parent n);
      base ← pr; a ← x_data n; b ← x_data pn; d ← psub a b;
      res ← wr res idx (Some (padd base d)); Some (true, ns, res)
    end
  end.

(** src/mr_extra.c:155-179, one pass of the loop. *)
Definition relink (ns : list xnode) (res txt : list (option addr)) (m : mem) (i : nat) : option mem :=
  n ← rd ns i;
  if Nat.eqb (x_idx n) 0 then Some m else
  if x_type n =? T_STRING then
    if fl_null n then Some m else
    v ← (if fl_ref n then rd res (x_first n) else if fl_cref n then rd txt (x_first n) else rd txt i);
    r ← rd res i; a ← r; st m a v
  else if x_type n =? T_POINTER then
    if Nat.eqb (x_first n) 0 then Some m else
    v ← rd res (x_first n); r ← rd res i; a ← r; st m a v
  else Some m.

(** src/mr_extra.c:154-179: the loop. *)
Fixpoint relink_all (ns : list xnode) (res txt : list (option addr)) (m : mem) (is_ : list nat) : option mem :=
  match is_ with
  | [] => Some m
  | i :: is_ => m ← relink ns res txt m i; relink_all ns res txt m is_
  end.

(** src/mr_extra.c:184-193, one pass of the loop at label failure. *)
Definition undo_node (ns : list xnode) (s : cstate) (i : nat) : option cstate :=
  n ← rd ns i; q ← rd (c_txt s) i;
  match (if x_type n =? T_STRING then q else None) with
  | Some a => m ← free (c_mem s) a; Some (CState (c_res s) (c_txt s) m)
  | None =>
    if (x_type n =? T_POINTER) && negb (Nat.eqb (x_first n) 0) then
      r ← rd (c_res s) (x_first n);
      match r with
      | None => Some s
      | Some a => m ← free (c_mem s) a; res ← wr (c_res s) (x_first n) None; Some (CState res (c_txt s) m)
      end
    else Some s
  end.

(** src/mr_extra.c:184-193: the loop. *)
Fixpoint undo_all (ns : list xnode) (s : cstate) (is_ : list nat) : option cstate :=
  match is_ with
  | [] => Some s
  | i :: is_ => s ← undo_node ns s i; undo_all ns s is_
  end.

(** src/mr_extra.c:84: the areas given to memcpy may not overlap. *)
Definition overlap (p q : addr) (n : Z) : bool :=
  Nat.eqb (fst p) (fst q) && (snd p <? snd q + n) && (snd q <? snd p + n).

(** src/mr_extra.c:69-196, mr_copy_recursively: status and memory.  [ptrs] and
    [dst] are not NULL; the empty table stands for a NULL [ra].  [t1] is what
    [ra[1].res.type] holds at the beginning: nobody sets it. *)
Definition copy_recursively (fuel : nat) (ok : nat -> bool) (t1 : option addr) (m : mem) (ns : list xnode) (dst : addr)
    : option (bool * mem) :=
  match ns with
  | [] => Some (false, m)
  | _ =>
    n1 ← rd ns 1; a1 ← x_data n1;
    if overlap dst a1 (x_size n1) then None else
    cs ← rd_cells m a1 (x_size n1);
    m ← wr_cells m dst cs;
    let res := None :: Some dst :: replicate (length ns - 2) None in
    let txt := None :: t1 :: replicate (length ns - 2) None in
    let is_ := seq 2 (length ns - 2) in
    '(b, s) ← dup_all ok ns (CState res txt m) is_;
    if (b : bool) then
      match dfs (calc_relative_addr ns) fuel (map link_of ns) (c_res s) 1 with
      | Done _ _ res => m ← relink_all ns res (c_txt s) (c_mem s) is_; Some (true, m)
      | _ => None
      end
    else s ← undo_all ns s is_; Some (false, c_mem s)
  end.
