(** Common vocabulary of the model: checked memory access in the option monad.
    [None] stands for undefined behaviour (access outside of an object) or for
    exhausted fuel; theorems state that it does not occur. *)
From Coq Require Export Lia Sorting.Sorted.
From Coq Require Export ZifyBool ZifyNat ZifyN.
From stdpp Require Export numbers option list_numbers list.

(** Read of element [i] of an object stored as a list; models a C array access
    such as src/mr_hsort.c:16.  Out of bounds is [None]. *)
Definition rd {A} (a : list A) (i : nat) : option A := a !! i.

(** Write of element [i]; models a C array store such as src/mr_hsort.c:24.
    Out of bounds is [None]. *)
Definition wr {A} (a : list A) (i : nat) (x : A) : option (list A) :=
  if Nat.ltb i (length a) then Some (<[i := x]> a) else None.

Lemma wr_Some {A} (a : list A) i x :
  i < length a -> wr a i x = Some (<[i := x]> a).
Proof. intros H. unfold wr. destruct (Nat.ltb_spec i (length a)); [done|lia]. Qed.

Lemma wr_inv {A} (a : list A) i x b :
  wr a i x = Some b -> i < length a /\ b = <[i := x]> a.
Proof.
  unfold wr. destruct (Nat.ltb_spec i (length a)); intros H'; [|done].
  by inversion H'.
Qed.

Lemma rd_Some {A} (a : list A) i :
  i < length a -> exists x, rd a i = Some x.
Proof. intros H. unfold rd. by apply lookup_lt_is_Some_2. Qed.

Lemma rd_lu {A} (a : list A) i x : a !! i = Some x -> rd a i = Some x.
Proof. done. Qed.
