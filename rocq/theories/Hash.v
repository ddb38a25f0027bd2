(** Model of the hash collection of src/mr_ic.c:435-699 (open addressing with
    linear probing; the last slot is reserved for the key 0). *)
From Verif Require Import Base Spec.

(** Arithmetic of [unsigned int].
    [unsigned int items_count] (src/mr_protos.h:271) is a 32-bit number. *)
Definition u32 (x : N) : N := (x mod 2 ^ 32)%N.
(** [++ic->items_count], src/mr_ic.c:457, 469, 552. *)
Definition u32_incr (x : N) : N := u32 (x + 1).
(** [--ic->items_count], src/mr_ic.c:569, 596. *)
Definition u32_decr (x : N) : N := u32 (x + (2 ^ 32 - 1)).

(** [mr_ic_hash_t] (src/mr_protos.h:194-200) with [items_count] (271).  [tbl] has
    [size / sizeof (hash_table[0])] slots, the last one is for the zero key. *)
Record hash_ic := HashIC { tbl : list N; zk : bool; hitems : N }.

(** src/mr_ic.c:653-699 [mr_ic_hash_new]. *)
Definition hash_new : hash_ic := HashIC [] false 0.

Section hash.
Context (cmp : N -> N -> Z).
Context (hash : N -> N).

(** hash_fn (key) % count: src/mr_ic.c:463 and 613. *)
Definition bucket_of (key : N) (count : nat) : nat := N.to_nat (hash key mod N.of_nat count).

(** Result of a probe: an empty slot, a slot with an equal key, or a full table.
    The exits of the loops in src/mr_ic.c:465-479 and 615-625. *)
Inductive probe_res := PEmpty (i : nat) | PEqual (i : nat) | PFull.

(** The probing loop, the same in src/mr_ic.c:465-479 and 615-625. *)
Fixpoint probe (fuel : nat) (t : list N) (count : nat) (key : N) (bucket i : nat) : option probe_res :=
  match fuel with
  | O => None
  | S fuel =>
    x ← rd t i;
    if (x =? 0)%N then Some (PEmpty i)
    else if (cmp key x =? 0)%Z then Some (PEqual i)
    else
      let i := if Nat.leb count (S i) then 0 else S i in
      if Nat.eqb i bucket then Some PFull else probe fuel t count key bucket i
  end.

(** src/mr_ic.c:448-483 [mr_ic_hash_index_add]: slot of the result, if any. *)
Definition hash_index_add (m : hash_ic) (key : N) : option (option nat * hash_ic) :=
  if Nat.leb 2 (length (tbl m)) then
    let count := length (tbl m) - 1 in
    if (key =? 0)%N then
      t ← wr (tbl m) count 0%N;
      Some (Some count, HashIC t true (u32_incr (hitems m)))
    else
      let bucket := bucket_of key count in
      p ← probe (S count) (tbl m) count key bucket bucket;
      match p with
      | PEmpty i => t ← wr (tbl m) i key; Some (Some i, HashIC t (zk m) (u32_incr (hitems m)))
      | PEqual i => Some (Some i, m)
      | PFull => Some (None, m)
      end
  else Some (None, m).

(** src/mr_ic.c:485-491 and 519: [mr_ic_foreach] over the source with
    [mr_ic_hash_index_visitor]. *)
Fixpoint hash_index_all (m : hash_ic) (keys : list N) : option (bool * hash_ic) :=
  match keys with
  | [] => Some (true, m)
  | k :: keys =>
    '(r, m) ← hash_index_add m k;
    match r with
    | None => Some (false, m)
    | Some _ => hash_index_all m keys
    end
  end.

(** src/mr_ic.c:493-520 [mr_ic_hash_reindex]; the source is given by its
    [items_count] and the keys its foreach visits. *)
Definition hash_reindex (dst : hash_ic) (src_items : N) (src_keys : list N) (alloc : bool)
  : option (bool * hash_ic) :=
  let count := N.to_nat (u32 (u32 (src_items * 4) + 6)) in
  if negb (src_items =? 0)%N && Nat.ltb (length (tbl dst)) count then
    if alloc then hash_index_all (HashIC (replicate count 0%N) false 0) src_keys
    else Some (false, hash_new)
  else hash_index_all (HashIC (replicate (length (tbl dst)) 0%N) false 0) src_keys.

(** src/mr_ic.c:522-538 [mr_ic_hash_index]. *)
Definition hash_index (m : hash_ic) (input : list N) (alloc : bool) : option (bool * hash_ic) :=
  hash_reindex m (u32 (N.of_nat (length input))) input alloc.

(** src/mr_ic.c:606-632 [mr_ic_hash_find]: slot of the result. *)
Definition hash_find (m : hash_ic) (key : N) : option (option nat) :=
  if Nat.ltb (length (tbl m)) 2 then Some None
  else
    let count := length (tbl m) - 1 in
    let bucket := bucket_of key count in
    p ← probe (S count) (tbl m) count key bucket bucket;
    match p with
    | PEqual i => Some (Some i)
    | _ =>
      if zk m then
        x ← rd (tbl m) count;
        if (cmp key x =? 0)%Z then Some (Some count) else Some None
      else Some None
    end.

(** src/mr_ic.c:634-651 [mr_ic_hash_foreach]: visited keys in order. *)
Definition hash_elems (m : hash_ic) : list N :=
  if Nat.ltb (length (tbl m)) 2 then []
  else
    let count := length (tbl m) - 1 in
    (if zk m then take 1 (drop count (tbl m)) else []) ++
    List.filter (fun x => negb (x =? 0)%N) (take count (tbl m)).

(** src/mr_ic.c:540-560 [mr_ic_hash_add]. *)
Definition hash_add (m : hash_ic) (key : N) (alloc : bool) : option (option nat * hash_ic) :=
  f ← hash_find m key;
  match f with
  | Some i => Some (Some i, m)
  | None =>
    if (N.of_nat (length (tbl m)) / 2 <=? hitems m)%N then
      let m := HashIC (tbl m) (zk m) (u32_incr (hitems m)) in
      '(ok, dst) ← hash_reindex hash_new (hitems m) (hash_elems m) alloc;
      if (ok : bool) then hash_index_add dst key else Some (None, m)
    else hash_index_add m key
  end.

(** src/mr_ic.c:580-600, the re-indexing loop of [mr_ic_hash_del]. *)
Fixpoint hash_del_loop (fuel : nat) (m : hash_ic) (count bucket i : nat) : option (bool * hash_ic) :=
  match fuel with
  | O => None
  | S fuel =>
    let i := if Nat.leb count (S i) then 0 else S i in
    k ← rd (tbl m) i;
    if (k =? 0)%N then Some (true, m)
    else if Nat.eqb i bucket then Some (false, m)
    else
      t ← wr (tbl m) i 0%N;
      '(r, m) ← hash_index_add (HashIC t (zk m) (u32_decr (hitems m))) k;
      match r with
      | None => Some (false, m)
      | Some _ => hash_del_loop fuel m count bucket i
      end
  end.

(** src/mr_ic.c:562-604 [mr_ic_hash_del]. *)
Definition hash_del (m : hash_ic) (key : N) : option (bool * hash_ic) :=
  f ← hash_find m key;
  match f with
  | None => Some (false, m)
  | Some bucket =>
    let items := u32_decr (hitems m) in
    let count := length (tbl m) - 1 in
    if Nat.eqb bucket count then Some (true, HashIC (tbl m) false items)
    else
      t ← wr (tbl m) bucket 0%N;
      hash_del_loop (S count) (HashIC t (zk m) items) count bucket bucket
  end.

(** One call of the public API; the answer is the key behind the pointer.
    Dispatch through [virt_func], src/mr_ic.h:60-106. *)
Definition hash_step (m : hash_ic) (o : op) : option (res * hash_ic) :=
  match o with
  | Find k =>
    r ← hash_find m k;
    match r with
    | None => Some (RKey None, m)
    | Some i => x ← rd (tbl m) i; Some (RKey (Some x), m)
    end
  | Add k al =>
    '(r, m) ← hash_add m k al;
    match r with
    | None => Some (RKey None, m)
    | Some i => x ← rd (tbl m) i; Some (RKey (Some x), m)
    end
  | Del k _ => '(b, m) ← hash_del m k; Some (RStatus b, m)
  end.

End hash.
