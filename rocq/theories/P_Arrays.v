(** C03, C04, C05, C08: array based collections (src/mr_ic.c). *)
From Verif Require Import Base Spec FwFacts ICArrays ICArraysProof Examples.

(** C03: binary search is exact, and probes never leave the array. *)
Theorem C03_binary_search_exact : forall cmp key a,
  three_way cmp -> strictly_sorted_by cmp a ->
  exists diff idx, find_idx cmp key a = Some (diff, idx) /\
    ((diff = 0%Z /\ exists x, a !! idx = Some x /\ cmp key x = 0%Z) \/
     (diff <> 0%Z /\ idx <= length a /\
      (forall i x, i < idx -> a !! i = Some x -> (0 < cmp key x)%Z) /\
      (forall i x, idx <= i -> a !! i = Some x -> (cmp key x < 0)%Z))).
Proof. intros cmp key a Hc. exact (find_idx_ok cmp Hc key a). Qed.
Print Assumptions C03_binary_search_exact.

(** C03: a match is reported iff an equal element is present. *)
Theorem C03_find_iff_present : forall cmp m key,
  three_way cmp -> strictly_sorted_by cmp (ra m) ->
  exists r, sorted_find cmp m key = Some r /\
    (forall x, r = Some x -> x ∈ ra m /\ cmp key x = 0%Z) /\
    (r = None -> forall x, x ∈ ra m -> cmp key x <> 0%Z).
Proof.
  intros cmp m key Hc Hs. exists (fw_find cmp (ra m) key).
  split; [exact (sorted_find_ok cmp Hc m key Hs)|].
  split; [intros x; exact (fw_find_Some cmp (ra m) key x)|exact (proj1 (fw_find_None cmp (ra m) key))].
Qed.
Print Assumptions C03_find_iff_present.

Example C03_case : three_way hicmp /\ strictly_sorted_by hicmp [3; 20; 40; 90]%N /\
  sorted_find hicmp (RArr [3; 20; 40; 90]%N 8 4) 47%N = Some (Some 40%N) /\
  find_idx hicmp 65%N [3; 20; 40; 90]%N = Some ((-1)%Z, 3).
Proof.
  split; [exact hicmp_three_way|]. split; [|split; vm_compute; reflexivity].
  intros i j x y Hij Hx Hy.
  do 4 (destruct i as [|i]; [do 4 (destruct j as [|j]; [first [lia|injection Hx as <-; injection Hy as <-; done]|]); discriminate Hy|]).
  discriminate Hx.
Qed.

(** C04: every history of calls on a sorted array answers like the first-wins
    set (failed allocations only turn an answer into failure), no call leaves
    the array, the members stay strictly sorted and [items_count] is exact. *)
Theorem C04_sorted_array_is_first_wins_set : forall cmp junk ops,
  three_way cmp ->
  exists rs m s, run (arr_step cmp junk) (Sorted sorted_new) ops = Some (rs, Sorted m) /\
    fw_run cmp [] ops rs s /\ ra m ≡ₚ s /\ strictly_sorted_by cmp (ra m) /\
    items m = length s /\ length (ra m) <= cap m.
Proof. exact sorted_history. Qed.
Print Assumptions C04_sorted_array_is_first_wins_set.

Example C04_case :
  match run (arr_step hicmp 0%N) (Sorted sorted_new)
    [Add 40 true; Add 41 true; Add 3 true; Add 90 false; Del 47 true; Find 40; Del 40 true; Find 5]%N with
  | Some (rs, _) => rs = [RKey (Some 40); RKey (Some 40); RKey (Some 3); RKey None; RStatus true;
                          RKey None; RStatus false; RKey (Some 3)]%N
  | None => False
  end.
Proof. vm_compute. reflexivity. Qed.

(** C05: bulk indexing of any array (into a collection with any capacity) gives
    the strictly increasing array of the first representatives; it fails only
    when memory for it cannot be allocated. *)
Theorem C05_index_keeps_first_of_equals : forall cmp m input al,
  three_way cmp ->
  exists ok m', sorted_index cmp m input al = Some (ok, m') /\
    (ok = true ->
       strictly_sorted_by cmp (ra m') /\ items m' = length (ra m') /\
       (forall x, x ∈ ra m' <->
          exists i, input !! i = Some x /\
            forall j y, j < i -> input !! j = Some y -> cmp x y <> 0%Z) /\
       (forall y, y ∈ input -> exists x, x ∈ ra m' /\ cmp x y = 0%Z)) /\
    (ok = false -> al = false /\ cap m < length input).
Proof. exact sorted_index_keeps_first. Qed.
Print Assumptions C05_index_keeps_first_of_equals.

Example C05_case : sorted_index hicmp sorted_new [40; 3; 41; 4; 90; 47; 3]%N true =
  Some (true, RArr [3; 40; 90]%N 14 3).
Proof. vm_compute. reflexivity. Qed.

(** C08: static array collections, over any history and any number of growth
    conversions. *)
Theorem C08_static_array_is_first_wins_set : forall cmp junk ops,
  three_way cmp ->
  exists rs ic s, run (arr_step cmp junk) static_new ops = Some (rs, ic) /\
    fw_run cmp [] ops rs s /\ arr_elems ic ≡ₚ s /\ arr_items ic = length s.
Proof. exact static_history. Qed.
Print Assumptions C08_static_array_is_first_wins_set.

Example C08_static_case :
  match run (arr_step hicmp 0%N) static_new
    [Add 40 true; Add 3 true; Add 90 true; Add 47 true; Add 200 false; Add 201 true; Find 95; Del 3 true]%N with
  | Some (rs, Sorted m) => rs = [RKey (Some 40); RKey (Some 3); RKey (Some 90); RKey (Some 40); RKey None;
                          RKey (Some 201); RKey (Some 90); RStatus true]%N /\ ra m = [40; 90; 201]%N
  | _ => False
  end.
Proof. vm_compute. split; reflexivity. Qed.

(** C08: an unsorted collection borrowing any array (with duplicates) answers
    like the set of first representatives of that array. *)
Theorem C08_unsorted_array_is_first_wins_set : forall cmp junk input ops,
  three_way cmp ->
  exists rs ic s, run (arr_step cmp junk) (unsorted_index input) ops = Some (rs, ic) /\
    fw_run cmp (fw_index cmp input) ops rs s /\
    (forall k, arr_find cmp ic k = Some (fw_find cmp s k)) /\
    (forall x, x ∈ arr_elems ic -> exists y, y ∈ s /\ cmp x y = 0%Z) /\
    (forall y, y ∈ s -> y ∈ arr_elems ic).
Proof. exact unsorted_history. Qed.
Print Assumptions C08_unsorted_array_is_first_wins_set.

Example C08_unsorted_case :
  match run (arr_step hicmp 0%N) (unsorted_index [40; 3; 41; 90]%N) [Find 47; Del 41 false; Del 41 true; Find 47; Add 45 true]%N with
  | Some (rs, Sorted m) => rs = [RKey (Some 40); RStatus false; RStatus true; RKey None; RKey (Some 45)]%N
      /\ ra m = [3; 45; 90]%N
  | _ => False
  end.
Proof. vm_compute. split; reflexivity. Qed.

(** C08: bulk indexing of a static array, whatever the number of elements. *)
Theorem C08_static_index : forall cmp junk a input al,
  three_way cmp -> length a = 3 ->
  exists ok ic, static_index cmp junk a input al = Some (ok, ic) /\
    (ok = true -> arr_elems ic ≡ₚ fw_index cmp input /\ arr_items ic = length (arr_elems ic)) /\
    (ok = false -> al = false).
Proof. exact static_index_spec. Qed.
Print Assumptions C08_static_index.

Example C08_static_index_case :
  static_index hicmp 0%N [7; 7; 7]%N [40; 3; 41]%N false = Some (true, Static [40; 3; 7]%N 2) /\
  static_index hicmp 0%N [7; 7; 7]%N [40; 3; 41; 90]%N true = Some (true, Sorted (RArr [3; 40; 90]%N 8 3)).
Proof. split; vm_compute; reflexivity. Qed.
