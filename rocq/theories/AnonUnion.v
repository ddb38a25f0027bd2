(** Model of the extraction of anonymous unions: [mr_anon_unions_extract]
    (src/metaresc.c:851-938) together with the part of [mr_init_struct] that calls
    it and that it calls (src/metaresc.c:1587-1602).

    Field descriptors are numbers; [kind] gives their [stype.mr_type] as far as it
    matters here.  The array of pointers on field descriptors of a struct is a
    list ([None] is NULL); the arrays of the extracted unions are parts of the
    same array, so a description refers to it with an index.

    Left out: the [sprintf]s that build the names and their buffers (the name is
    the sequence of the indexes printed into it, src/metaresc.c:912), hash values,
    the indexes by name (C09), [mr_add_type] (C56; here the order of the calls). *)
From Verif Require Import Base.
Local Open Scope nat_scope.

(** Ordinary fields; MR_TYPE_ANON_UNION or MR_TYPE_NAMED_ANON_UNION;
    MR_TYPE_END_ANON_UNION (src/metaresc.c:860, 870-873). *)
Inductive kind := Plain | Open | Close.

(** [mr_td_t] of an extracted union: the field it comes from, the indexes in its
    name, start of the fields, their number, the size (src/metaresc.c:862, 896,
    912, 919, 927). *)
Record td := Td { td_field : nat; td_name : list nat; td_base : nat; td_count : nat; td_size : nat }.

(** The array of fields; [fdp->offset] and [fdp->stype.size] of the fields; which
    field's [meta], [res], [res_type] and [MR_SIZE] a field carries
    (src/metaresc.c:922-925); the types added so far (src/metaresc.c:933). *)
Record state := State { arr : list (option nat); off : nat -> nat; sz : nat -> nat;
                        meta : nat -> nat; types : list td }.

(** A store to one field of a descriptor (e.g. src/metaresc.c:902). *)
Definition upd (f : nat -> nat) (x v : nat) : nat -> nat := fun y => if Nat.eqb y x then v else f y.

(** [tdp->param.struct_param.fields[i]] where a descriptor is needed
    (src/metaresc.c:859): NULL would be dereferenced. *)
Definition field (a : list (option nat)) (i : nat) : option nat :=
  match rd a i with Some (Some f) => Some f | _ => None end.

(** src/metaresc.c:867-876: index of the end of the union, or [count]. *)
Fixpoint find_end (k : nat -> kind) (n : nat) (a : list (option nat)) (base count j opened : nat) : option nat :=
  match n with
  | O => None
  | S n =>
    if j <? count then
      f ← field a (base + j);
      match k f with
      | Open => find_end k n a base count (j + 1) (opened + 1)
      | Close => if Nat.eqb (opened - 1) 0 then Some j else find_end k n a base count (j + 1) (opened - 1)
      | Plain => find_end k n a base count (j + 1) opened
      end
    else Some j
  end.

(** memcpy out of the array (src/metaresc.c:892); reads have to stay inside. *)
Definition copy_out (a : list (option nat)) (i n : nat) : option (list (option nat)) :=
  if i + n <=? length a then Some (take n (drop i a)) else None.
(** memcpy and memmove into the array (src/metaresc.c:893-894). *)
Definition copy_in (a : list (option nat)) (i : nat) (b : list (option nat)) : option (list (option nat)) :=
  if i + length b <=? length a then Some (take i a ++ b ++ drop (i + length b) a) else None.

(** src/metaresc.c:896-905: the offset of the union is that of its members, which
    become zero; the size is that of the largest member.  [fs]: the local array
    [fields] without its last element. *)
Fixpoint members (fs : list (option nat)) (u : nat) (of_ : nat -> nat) (sz_ : nat -> nat) (size : nat)
  : option ((nat -> nat) * nat) :=
  match fs with
  | [] => Some (of_, size)
  | None :: _ => None
  | Some f :: fs =>
    let of_ := if Nat.eqb (of_ f) 0 then of_ else upd of_ u (of_ f) in
    let of_ := upd of_ f 0 in
    members fs u of_ sz_ (if size <? sz_ f then sz_ f else size)
  end.

(** src/metaresc.c:1594: length of a NULL terminated array. *)
Fixpoint count_fields (n : nat) (a : list (option nat)) (base count : nat) : option nat :=
  match n with
  | O => None
  | S n => p ← rd a (base + count);
           match p with None => Some count | Some _ => count_fields n a base (count + 1) end
  end.

(** src/metaresc.c:857-937: the loop over the fields from [i] on, with the call of
    [mr_init_struct] inlined (src/metaresc.c:931, 1593-1598, whose result is not
    looked at).  Result: state, final [count], and whether MR_SUCCESS. *)
Fixpoint extract (k : nat -> kind) (fuel : nat) (s : state) (base : nat) (name : list nat) (count i : nat)
  : option (state * nat * bool) :=
  match fuel with
  | O => None
  | S fuel =>
    if i <? count then
      u ← field (arr s) (base + i);
      match k u with
      | Open =>
        j ← find_end k (S count) (arr s) base count (i + 1) 1;
        if count <=? j then Some (s, count, false)
        else
          let fields_count := j - i in
          let first := base + i + 1 in
          fields ← copy_out (arr s) first fields_count;
          moved ← copy_out (arr s) (first + fields_count) (count - j);
          a ← copy_in (arr s) first moved;
          a ← copy_in a (first + (count - j)) fields;
          '(of_, size) ← members (take (fields_count - 1) fields) u (off s) (sz s) 0;
          last ← field a (base + count);
          a ← wr a (base + count) None;
          let s := State a of_ (upd (sz s) u size) (upd (meta s) u (meta s last)) (types s) in
          let sub := base + (count - fields_count + 1) in
          let subname := name ++ [i] in
          subcount ← count_fields (S (length a)) a sub 0;
          '(s, subcount, _) ← extract k fuel s sub subname subcount 0;
          let s := State (arr s) (off s) (sz s) (meta s) (types s ++ [Td u subname sub subcount size]) in
          extract k fuel s base name (count - fields_count) (i + 1)
      | _ => extract k fuel s base name count (i + 1)
      end
    else Some (s, count, true)
  end.

(** src/metaresc.c:1587-1602 [mr_init_struct] for a type whose fields start at
    index 0. *)
Definition init_struct (k : nat -> kind) (s : state) : option (state * nat * bool) :=
  count ← count_fields (S (length (arr s))) (arr s) 0 0;
  extract k (S (length (arr s))) s 0 [] count 0.
