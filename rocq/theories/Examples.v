(** Concrete comparators used to show that hypotheses of theorems are met. *)
From Verif Require Import Base Spec.

(** Plain order of keys. *)
Definition ncmp (x y : N) : Z := (Z.of_N x - Z.of_N y)%Z.
(** Order by the high part only: 16 different keys compare equal. *)
Definition hicmp (x y : N) : Z := (Z.of_N (x / 16) - Z.of_N (y / 16))%Z.
(** A comparator that always says "greater": neither total preorder nor symmetric. *)
Definition badcmp (x y : N) : Z := 1%Z.

Lemma ncmp_three_way : three_way ncmp.
Proof. unfold ncmp. split; [intros x y|intros x y z]; lia. Qed.
Lemma hicmp_three_way : three_way hicmp.
Proof. unfold hicmp. split; [intros x y|intros x y z]; lia. Qed.
Lemma hicmp_total_preorder : total_preorder hicmp.
Proof. unfold hicmp. split; [intros x y|intros x y z]; lia. Qed.
