(** C44: lookup of a field by its offset (src/mr_save.c:933-952) in the fields
    sorted at registration (src/metaresc.c:1646-1647). *)
From Verif Require Import Base HSort FdOffset FdOffsetProof.
Local Open Scope Z_scope.

(** C44: whatever the fields of a structure and their order, sorting them
    succeeds with a permutation, and looking up an offset answers NULL exactly
    when no field has it and otherwise gives one of the fields with it.  If the
    fields at that offset are all bit-fields or all not, the answer is the
    greatest of them: by size for ordinary fields (so a field of size zero is
    never preferred to a later one), by shift, width and size for bit-fields.
    [kp] is the address of the search key, which is not one of the fields. *)
Theorem C44_fd_by_offset : forall (mem : N -> fd) (fields : list N) (kp : N),
  kp ∉ fields ->
  exists sorted, sort_fields mem fields = Some sorted /\ fields ≡ₚ sorted /\
    forall offset, exists r, get_fd_by_offset mem kp sorted offset = Some r /\
      match r with
      | None => forall p, p ∈ fields -> f_off (mem p) <> offset
      | Some p =>
        p ∈ fields /\ f_off (mem p) = offset /\
        ((forall q, q ∈ fields -> f_off (mem q) = offset -> f_bit (mem q) = false) ->
         forall q, q ∈ fields -> f_off (mem q) = offset -> f_size (mem q) <= f_size (mem p)) /\
        ((forall q, q ∈ fields -> f_off (mem q) = offset -> f_bit (mem q) = true) ->
         forall q, q ∈ fields -> f_off (mem q) = offset ->
           f_shift (mem q) < f_shift (mem p) \/
           (f_shift (mem q) = f_shift (mem p) /\ f_width (mem q) < f_width (mem p)) \/
           (f_shift (mem q) = f_shift (mem p) /\ f_width (mem q) = f_width (mem p) /\
            f_size (mem q) <= f_size (mem p)))
      end.
Proof.
  intros mem fields kp Hk.
  destruct (sort_fields_ok mem fields (fun _ => None)) as (a & Ha & Hp & Hle); [done|].
  exists a. split; [done|]. split; [done|]. intros offset.
  assert (Hs : off_sorted mem a).
  { intros i j x y Hij Hx Hy. destruct (Hle i j x y Hij Hx Hy) as [|[]]; lia. }
  destruct (get_fd_ok mem kp a offset) as (r & Hr & H); [by rewrite <- Hp|done|].
  exists r. split; [done|]. destruct r as [p|].
  2:{ intros p Hin. apply H. by rewrite <- Hp. }
  destruct H as (i & Hi & Ho & Hlast).
  assert (Hbest : forall b, (forall q, q ∈ fields -> f_off (mem q) = offset -> f_bit (mem q) = b) ->
            forall q, q ∈ fields -> f_off (mem q) = offset -> key_le b (mem q) (mem p)).
  { intros b Hb q Hq Hqo.
    destruct (sort_fields_ok mem fields (fun o => if o =? offset then Some b else None)) as (a' & Ha' & _ & Hle').
    { intros z b' Hz. destruct (Z.eqb_spec (f_off (mem z)) offset) as [E|]; [|done].
      intros [= <-]. by apply Hb. }
    assert (a' = a) as -> by congruence.
    rewrite Hp in Hq. apply elem_of_list_lookup in Hq as [j Hj].
    destruct (Hle' j i q p (Hlast j q Hj Hqo) Hj Hi) as [|[_ H]]; [lia|].
    rewrite Hqo, Z.eqb_refl in H. done. }
  split; [rewrite Hp; by eapply elem_of_list_lookup_2|]. split; [done|]. split.
  - intros Hb q Hq Hqo. exact (Hbest false Hb q Hq Hqo).
  - intros Hb q Hq Hqo. pose proof (Hbest true Hb q Hq Hqo) as H. cbn in H. lia.
Qed.
Print Assumptions C44_fd_by_offset.

(** Six fields in declaration order 1..6 of
    [struct { char z[0]; int x; int b:3; int c:5; short s; char t; }] given in
    an arbitrary order; [z] shares its offset with [x], [b] with [c]. *)
Definition ex_fd (p : N) : fd :=
  match p with
  | 1%N => Fd 0 0 false 0 0
  | 2%N => Fd 0 4 false 0 0
  | 3%N => Fd 4 4 true 0 3
  | 4%N => Fd 4 4 true 3 5
  | 5%N => Fd 6 2 false 0 0
  | _ => Fd 8 1 false 0 0
  end.
Example C44_case :
  99%N ∉ [4; 2; 6; 1; 3; 5]%N /\
  sort_fields ex_fd [4; 2; 6; 1; 3; 5]%N = Some [1; 2; 3; 4; 5; 6]%N /\
  map (get_fd_by_offset ex_fd 99%N [1; 2; 3; 4; 5; 6]%N) [0; 4; 6; 8; 5] =
    [Some (Some 2%N); Some (Some 4%N); Some (Some 5%N); Some (Some 6%N); Some None].
Proof. split; [rewrite !elem_of_cons, elem_of_nil; lia|vm_compute; done]. Qed.

(** The comparator used for sorting is not transitive when a bit-field and an
    ordinary field share an offset (src/metaresc.c:783), so the sort is not
    covered by a theorem for total preorders. *)
Theorem C44_sorting_comparator_cycle_refuted :
  exists mem x y z,
    offset_cmp_sorting mem x y < 0 /\ offset_cmp_sorting mem y z < 0 /\ offset_cmp_sorting mem z x < 0.
Proof.
  exists (fun p => match p with
            | 1%N => Fd 0 4 true 0 8
            | 2%N => Fd 0 1 true 8 8
            | _ => Fd 0 2 false 0 0 end), 1%N, 2%N, 3%N.
  vm_compute. done.
Qed.
Print Assumptions C44_sorting_comparator_cycle_refuted.
