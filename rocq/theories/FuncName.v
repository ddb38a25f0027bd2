(** Model of the names of functions and their cache (src/mr_stringify.c:245-335). *)
From Verif Require Import Base.
Local Open Scope Z_scope.

(** The dynamic linker: dladdr (name if any, and address of the symbol found for an address) and dlsym with
    RTLD_DEFAULT, src/mr_stringify.c:319, 323.  Names are texts; NULL of dlsym is 0. *)
Record linker := Linker { dladdr : Z -> option (option (list Z) * Z); dlsym : list Z -> Z }.

(** mr_func_name_t, src/mr_stringify.c:245-250. *)
Record fn_entry := Fn { func : Z; fname : option (list Z) }.
(** The variables [ra_fn] and [cache], src/mr_stringify.c:271-272.  The collection is the list of its keys
    in the order of insertion; it is initialised on the first use (mr_ic_new cannot fail for a hash,
    src/mr_ic.c:653-699). *)
Record fn_cache := FC { ra_fn : list fn_entry; cache : list nat }.

(** mr_fn_cmp with an entry whose function is [f], src/mr_stringify.c:264-269. *)
Definition fn_eq (ra : list fn_entry) (f : Z) (k : nat) : bool :=
  match ra !! k with Some e => Z.eqb (func e) f | None => false end.

(** Resolution without the cache, src/mr_stringify.c:317-332. *)
Definition resolve (dl : linker) (f : Z) : option (list Z) :=
  match dladdr dl f with
  | Some (Some name, addr) => if Z.eqb f addr && Z.eqb (dlsym dl name) f then Some name else None
  | _ => None
  end.

(** mr_serialize_func, src/mr_stringify.c:284-335, with HAVE_LIBDL.  [caching]: the setting of the library;
    [al]: mr_rarray_allocate_element succeeds; [ad]: mr_ic_add can store a new key (it finds an equal key
    first, src/mr_ic.c:543-545).  [None]: access outside of [ra_fn]. *)
Definition serialize_func (caching al ad : bool) (dl : linker) (s : fn_cache) (f : Z) : option (option (list Z) * fn_cache) :=
  if caching && al then
    let idx := length (ra_fn s) in
    let ra := ra_fn s ++ [Fn f None] in
    match List.find (fn_eq ra f) (cache s) with
    | Some k =>
      if Nat.eqb k idx then Some (resolve dl f, FC (ra_fn s ++ [Fn f (resolve dl f)]) (cache s))
      else e ← rd ra k; Some (fname e, FC (ra_fn s) (cache s))
    | None => Some (resolve dl f, FC (ra_fn s ++ [Fn f (resolve dl f)]) (if ad then cache s ++ [idx] else cache s))
    end
  else Some (resolve dl f, s).

(** Successive calls from the state of the variables at the start, src/mr_stringify.c:271-272. *)
Fixpoint serialize_calls (s : fn_cache) (calls : list (bool * bool * bool * linker * Z)) : option (list (option (list Z)) * fn_cache) :=
  match calls with
  | [] => Some ([], s)
  | (caching, al, ad, dl, f) :: calls =>
    '(r, s) ← serialize_func caching al ad dl s f;
    '(rs, s) ← serialize_calls s calls;
    Some (r :: rs, s)
  end.
