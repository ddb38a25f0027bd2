(** The number at the beginning of a text is unique. *)
From Verif Require Import Base NumStr NumStrProof.
Local Open Scope Z_scope.

Lemma span_unique (P : Z -> Prop) a : forall a' b b', Forall P a -> Forall P a' ->
  (forall c, head b = Some c -> ~ P c) -> (forall c, head b' = Some c -> ~ P c) -> a ++ b = a' ++ b' -> a = a' /\ b = b'.
Proof.
  induction a as [|x a IH]; intros [|x' a'] b b' Fa Fa' Hb Hb' E; cbn in E.
  - done.
  - subst b. apply Forall_cons in Fa' as [X _]. by destruct (Hb x' eq_refl).
  - subst b'. apply Forall_cons in Fa as [X _]. by destruct (Hb' x eq_refl).
  - injection E as -> E. apply Forall_cons in Fa as [_ Fa]. apply Forall_cons in Fa' as [_ Fa'].
    by destruct (IH a' b b' Fa Fa' Hb Hb' E) as [-> ->].
Qed.

Lemma sign_unique (sg tx sg' tx' : list Z) : sg ++ tx = sg' ++ tx' ->
  sg = [] \/ sg = [43] \/ sg = [45] -> sg' = [] \/ sg' = [43] \/ sg' = [45] ->
  (sg = sg' /\ tx = tx') \/ (sg = [] /\ (tx = 43 :: tx' \/ tx = 45 :: tx')) \/ (sg' = [] /\ (tx' = 43 :: tx \/ tx' = 45 :: tx)).
Proof.
  intros E [->|[->| ->]] [->|[->| ->]]; cbn in E; try (injection E as E); try discriminate E; subst; tauto.
Qed.

Lemma number_read_unique body base v e v' e' : number_read body base v e -> number_read body base v' e' -> v = v' /\ e = e'.
Proof.
  assert (forall c, digit_in 10 c -> ~ blank c /\ c <> 43 /\ c <> 45) as Dn by (intros c Dc; by apply digit_not_blank).
  intros (bl & sg & tx & Eb & Bl & Sg & A) (bl' & sg' & tx' & Eb' & Bl' & Sg' & A').
  assert (forall sg tx, sg = [] \/ sg = [43] \/ sg = [45] -> ((exists c, head tx = Some c /\ digit_in 10 c) \/ (sg = [] -> forall c, head tx = Some c -> ~ blank c /\ c <> 43 /\ c <> 45)) ->
    forall c, head (sg ++ tx) = Some c -> ~ blank c) as Hd.
  { intros s t [->|[->| ->]] X c E; cbn in E.
    - destruct X as [(c' & E' & D)|X]; [rewrite E in E'; injection E' as <-; by apply Dn|by apply X].
    - injection E as <-. unfold blank. rewrite !elem_of_cons, elem_of_nil. lia.
    - injection E as <-. unfold blank. rewrite !elem_of_cons, elem_of_nil. lia. }
  rewrite Eb in Eb'. apply (span_unique blank) in Eb' as [-> Es]; [|done|done|..].
  2: { apply Hd; [done|]. destruct A as [(p & ds & tl & b & _ & X & _)|(_ & X & _)]; auto. }
  2: { apply Hd; [done|]. destruct A' as [(p & ds & tl & b & _ & X & _)|(_ & X & _)]; auto. }
  destruct A as [(p & ds & tl & b & Et & Hh & Hp & Fd & Ht & -> & ->)|(N1 & N2 & -> & ->)], A' as [(p' & ds' & tl' & b' & Et' & Hh' & Hp' & Fd' & Ht' & -> & ->)|(N1' & N2' & -> & ->)].
  - assert (sg = sg' /\ tx = tx') as [<- <-].
    { destruct Hh as (c & Ec & Dc), Hh' as (c' & Ec' & Dc'). pose proof (Dn c Dc). pose proof (Dn c' Dc').
      apply sign_unique in Es as [[-> ->]|[[-> E]|[-> E]]]; [done| | |done|done].
      - destruct E as [->| ->]; cbn in Ec; injection Ec as <-; tauto.
      - destruct E as [->| ->]; cbn in Ec'; injection Ec' as <-; tauto. }
    assert (p = p' /\ b = b') as [<- <-].
    { case_decide as Hd16.
      - destruct Hp as [L ->], Hp' as [L' ->]. split; [|done]. rewrite Et in Et'. apply app_inj_1 in Et' as [-> _]; [done|lia].
      - destruct Hp as [-> ->], Hp' as [-> ->]. done. }
    rewrite Et in Et'. apply app_inv_head in Et'. apply (span_unique (digit_in b)) in Et' as [-> ->]; [|done..]. done.
  - exfalso. destruct Hh as (c & Ec & Dc). pose proof (Dn c Dc) as (? & ? & ?).
    apply sign_unique in Es as [[-> ->]|[[-> E]|[-> E]]]; [|  | |done|done].
    + by apply (N1' c).
    + destruct E as [->| ->]; cbn in Ec; injection Ec as <-; tauto.
    + specialize (N2' eq_refl). destruct E as [->| ->]; [destruct (N2' 43 eq_refl)|destruct (N2' 45 eq_refl)]; tauto.
  - exfalso. destruct Hh' as (c & Ec & Dc). pose proof (Dn c Dc) as (? & ? & ?).
    apply sign_unique in Es as [[-> ->]|[[-> E]|[-> E]]]; [|  | |done|done].
    + by apply (N1 c).
    + specialize (N2 eq_refl). destruct E as [->| ->]; [destruct (N2 43 eq_refl)|destruct (N2 45 eq_refl)]; tauto.
    + destruct E as [->| ->]; cbn in Ec; injection Ec as <-; tauto.
  - done.
Qed.
