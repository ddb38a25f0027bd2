(** C42: which types may select the member of a union
    (src/metaresc.c:1864-1881, 1971-1972). *)
From Verif Require Import Base UnionDisc UnionDiscProof.

(** C42: for every graph of types, cyclic ones included, and every order in which
    the types are visited, with repetitions or not: the computation ends, and
    afterwards a visited type is a discriminator exactly if going from a type to
    the type of its first field a finite number of times ([leads]) ends at a
    type without fields that is an integer, a string or a character array.
    No type is ever marked wrongly, visited or not. *)
Theorem C42_union_discriminator : forall compound first resolvable n fuel ts,
  (forall x y, x < n -> compound x = true -> first x = Some y -> y < n) ->
  (forall t, t ∈ ts -> t < n) -> n < fuel ->
  exists fl, union_discriminators compound first resolvable fuel
               (Flags (fun _ => false) (fun _ => false)) ts = Some fl /\
    (forall t, t ∈ ts -> (is_disc fl t = true <-> leads compound first resolvable t)) /\
    (forall x, is_disc fl x = true -> leads compound first resolvable x).
Proof.
  intros compound first resolvable n fuel ts Hn Ht Hf.
  destruct (union_discriminators_ok compound first resolvable n Hn fuel (Flags (fun _ => false) (fun _ => false)) ts)
    as (fl & E & Hi & Hs & _); [|done|done|].
  { intros x. cbn. done. }
  exists fl. split; [done|]. split.
  - intros t H. apply (Hi t). by apply Hs.
  - intros x Hx. apply (Hi x); [by apply (Hi x)|done].
Qed.
Print Assumptions C42_union_discriminator.

(** The answer for a type does not depend on the order of the visits. *)
Theorem C42_order_independent : forall compound first resolvable n fuel ts ts' fl fl' t,
  (forall x y, x < n -> compound x = true -> first x = Some y -> y < n) ->
  (forall t, t ∈ ts -> t < n) -> (forall t, t ∈ ts' -> t < n) -> n < fuel ->
  union_discriminators compound first resolvable fuel (Flags (fun _ => false) (fun _ => false)) ts = Some fl ->
  union_discriminators compound first resolvable fuel (Flags (fun _ => false) (fun _ => false)) ts' = Some fl' ->
  t ∈ ts -> t ∈ ts' -> is_disc fl t = is_disc fl' t.
Proof.
  intros compound first resolvable n fuel ts ts' fl fl' t Hn H1 H2 Hf E1 E2 Ht Ht'.
  destruct (C42_union_discriminator compound first resolvable n fuel ts Hn H1 Hf) as (g & Eg & Hg & _).
  destruct (C42_union_discriminator compound first resolvable n fuel ts' Hn H2 Hf) as (g' & Eg' & Hg' & _).
  assert (g = fl) as -> by congruence. assert (g' = fl') as -> by congruence.
  specialize (Hg t Ht). specialize (Hg' t Ht'). apply eq_true_iff_eq. rewrite Hg, Hg'. done.
Qed.
Print Assumptions C42_order_independent.

(** 0: struct starting with 1; 1: struct starting with 2; 2: int; 3 and 4:
    unions starting with each other; 5: struct starting with 3; 6: double;
    7: struct starting with 6. *)
Definition ex_compound (x : nat) : bool := nth x [true; true; false; true; true; true; false; true] false.
Definition ex_first (x : nat) : option nat := nth x [Some 1; Some 2; None; Some 4; Some 3; Some 3; None; Some 6] None.
Example C42_case :
  (forall x y, x < 8 -> ex_compound x = true -> ex_first x = Some y -> y < 8) /\
  (fl ← union_discriminators ex_compound ex_first (Nat.eqb 2) 9 (Flags (fun _ => false) (fun _ => false)) [5; 7; 1; 0; 4; 0];
   Some (map (is_disc fl) [0; 1; 2; 3; 4; 5; 6; 7]))
  = Some [true; true; true; false; false; false; false; false] /\
  leads ex_compound ex_first (Nat.eqb 2) 0 /\ ~ leads ex_compound ex_first (Nat.eqb 2) 5.
Proof.
  split; [|split; [vm_compute; reflexivity|split]].
  - intros x y Hx Hc Hf. do 8 (destruct x as [|x]; [cbn in Hf; simplify_eq; lia|]). lia.
  - exists 2. apply (leads_step _ _ _ 1 0 1); [done|done|]. apply (leads_step _ _ _ 0 1 2); [done|done|]. by apply leads_base.
  - intros [k H]. assert (Hk : forall k, ~ leads_in ex_compound ex_first (Nat.eqb 2) k 3 /\ ~ leads_in ex_compound ex_first (Nat.eqb 2) k 4).
    { induction k0 as [|k0 [IH1 IH2]]; split; intros Hl; inversion Hl as [|? ? ? ? Hf Hl']; subst; try done; cbn in Hf; simplify_eq; done. }
    inversion H as [|k' ? ? ? Hf Hl]; subst; [done|]. cbn in Hf. injection Hf as <-. exact (proj1 (Hk _) Hl).
Qed.
