(** Model of src/mr_hsort.c: heap sort. *)
From Verif Require Import Base.

Section hsort.
Context {A : Type} (cmp : A -> A -> Z).

(** src/mr_hsort.c:18-26, the loop of [sift].  [count] is the index of the last
    element of the heap, [x] the local copy of the sifted element.  Result: array,
    final [idx0], final [idx1].  A [break] (line 23) leaves the loop with the
    current values.  Simplifications: element size is abstracted (an element is
    one list cell); [unsigned] indices do not wrap (count < 2^31); fuel replaces
    the unbounded loop and running out of it is [None]. *)
Fixpoint sift_loop (fuel : nat) (a : list A) (count : nat) (x : A) (idx0 idx1 : nat)
  : option (list A * nat * nat) :=
  match fuel with
  | O => None
  | S fuel =>
    if Nat.ltb idx1 count then
      l ← rd a idx1;
      r ← rd a (idx1 + 1);
      let idx1 := if (cmp l r <=? 0)%Z then S idx1 else idx1 in
      c ← rd a idx1;
      if (cmp c x <=? 0)%Z then Some (a, idx0, idx1)
      else
        a ← wr a idx0 c;
        sift_loop fuel a count x idx1 (2 * idx1 + 1)
    else Some (a, idx0, idx1)
  end.

(** src/mr_hsort.c:11-34, [sift]. *)
Definition sift (a : list A) (count idx0 : nat) : option (list A) :=
  x ← rd a idx0;
  '(a, idx0, idx1) ← sift_loop (S count) a count x idx0 (2 * idx0 + 1);
  if Nat.eqb idx1 count then
    c ← rd a idx1;
    if (cmp c x >? 0)%Z then
      a ← wr a idx0 c;
      wr a idx1 x
    else wr a idx0 x
  else wr a idx0 x.

(** src/mr_hsort.c:44-45, loop [for (i = count >> 1; i > 0; --i) sift (i)]. *)
Fixpoint build (i : nat) (a : list A) (count : nat) : option (list A) :=
  match i with
  | O => Some a
  | S i' => a ← sift a count i; build i' a count
  end.

(** src/mr_hsort.c:47-55, loop [for ( ; count > 0; --count)]. *)
Fixpoint extract (count : nat) (a : list A) : option (list A) :=
  match count with
  | O => Some a
  | S count' =>
    a ← sift a count 0;
    x ← rd a count;
    f ← rd a 0;
    a ← wr a count f;
    a ← wr a 0 x;
    extract count' a
  end.

(** src/mr_hsort.c:36-56, [mr_hsort] on an array of [length a] elements. *)
Definition hsort (a : list A) : option (list A) :=
  let count := length a in
  if Nat.leb count 1 then Some a
  else
    let count := count - 1 in
    a ← build (Nat.div2 count) a count;
    extract count a.

End hsort.
