(** C01, C02: heap sort (src/mr_hsort.c). *)
From Verif Require Import Base Spec HSort HSortProof Examples.

(** C01: with a total preorder the sort succeeds with a sorted permutation. *)
Theorem C01_hsort_sorted_permutation : forall (A : Type) (cmp : A -> A -> Z) (a : list A),
  total_preorder cmp ->
  exists b, hsort cmp a = Some b /\ a ≡ₚ b /\ sorted_by cmp b.
Proof.
  intros A cmp a [H1 H2]. destruct (hsort_safe cmp a) as (b & Hb & Hp).
  exists b. split; [done|]. split; [done|]. assert (H3 : forall x y, (cmp x y > 0)%Z -> (cmp y x <= 0)%Z).
  { intros x y Hxy. destruct (H1 x y); [lia|done]. }
  exact (hsort_sorted cmp (fun x y => (cmp x y <= 0)%Z) (fun _ _ H => H) H3 H2 a b Hb).
Qed.
Print Assumptions C01_hsort_sorted_permutation.

Example C01_case : total_preorder hicmp /\ hsort hicmp [33; 1; 50; 2; 20; 0; 17]%N = Some [1; 0; 2; 20; 17; 33; 50]%N.
Proof. split; [exact hicmp_total_preorder|vm_compute; reflexivity]. Qed.

(** C01, stronger: whatever the comparator, the result is sorted by every
    relation that is transitive on the elements and that the comparator respects
    on them.  The comparator itself need not
    be transitive, as [mr_fd_offset_cmp_sorting] is not (see P_FdOffset). *)
Theorem C01_hsort_respected_order : forall (A : Type) (cmp : A -> A -> Z) (R : A -> A -> Prop) (a : list A),
  (forall x y, x ∈ a -> y ∈ a -> (cmp x y <= 0)%Z -> R x y) ->
  (forall x y, x ∈ a -> y ∈ a -> (cmp x y > 0)%Z -> R y x) ->
  (forall x y z, x ∈ a -> y ∈ a -> z ∈ a -> R x y -> R y z -> R x z) ->
  exists b, hsort cmp a = Some b /\ a ≡ₚ b /\
    forall i j x y, i <= j -> b !! i = Some x -> b !! j = Some y -> R x y.
Proof.
  intros A cmp R a H1 H2 H3. destruct (hsort_safe cmp a) as (b & Hb & Hp).
  exists b. split; [done|]. split; [done|]. exact (hsort_sorted_in cmp R a b H1 H2 H3 Hb).
Qed.
Print Assumptions C01_hsort_respected_order.

(** A comparator with a cycle inside each block of ten still sorts the blocks. *)
Example C01_respected_case :
  let cmp (x y : N) : Z :=
    if (x / 10 =? y / 10)%N then (if (N.modulo (y + 3 - x) 3 =? 1)%N then -1 else 1)%Z
    else (Z.of_N x - Z.of_N y)%Z in
  let R (x y : N) := (x / 10 <= y / 10)%N in
  (forall x y, (cmp x y <= 0)%Z -> R x y) /\
  (forall x y, (cmp x y > 0)%Z -> R y x) /\
  hsort cmp [21; 0; 11; 2; 20; 1]%N = Some [0; 1; 2; 11; 20; 21]%N /\
  (cmp 0%N 1%N < 0 /\ cmp 1%N 2%N < 0 /\ cmp 2%N 0%N < 0)%Z.
Proof.
  cbv zeta. split; [|split].
  - intros x y H. destruct (N.eqb_spec (x / 10) (y / 10)) as [->|_]; [done|].
    apply N.div_le_mono; lia.
  - intros x y H. destruct (N.eqb_spec (x / 10) (y / 10)) as [->|_]; [done|].
    apply N.div_le_mono; lia.
  - vm_compute. done.
Qed.

(** C02: with any comparator whatsoever no access leaves the array, the loops
    end, and the result is a permutation. *)
Theorem C02_hsort_safe_any_comparator : forall (A : Type) (cmp : A -> A -> Z) (a : list A),
  exists b, hsort cmp a = Some b /\ a ≡ₚ b.
Proof. exact @hsort_safe. Qed.
Print Assumptions C02_hsort_safe_any_comparator.

Example C02_case : exists b, hsort badcmp [3; 1; 2; 5; 4]%N = Some b /\ b <> [3; 1; 2; 5; 4]%N.
Proof. eexists. split; [vm_compute; reflexivity|done]. Qed.
