(** The loader (src/mr_load.c) keeps memory consistent. *)
From Verif Require Import Base Load LoadSpec.
Local Open Scope Z_scope.

(** * Trees *)
Lemma node_ind2 (P : node -> Prop) :
  (forall nd, Forall P (n_kids nd) -> P nd) -> forall nd, P nd.
Proof.
  intros H. fix IH 1. intros nd. apply H. destruct nd as [? ? ? ? ? ? ? ? ks]. cbn.
  induction ks as [|k ks IHk]; constructor; [apply IH|apply IHk].
Qed.

Lemma subtree_unfold nd : subtree nd = nd :: concat (map subtree (n_kids nd)).
Proof. by destruct nd. Qed.

Lemma subtree_self nd : nd ∈ subtree nd.
Proof. rewrite subtree_unfold. constructor. Qed.

Lemma elem_of_concat_map {A B} (f : A -> list B) l x :
  x ∈ concat (map f l) <-> exists y, y ∈ l /\ x ∈ f y.
Proof.
  induction l as [|a l IH]; cbn.
  - split; [by intros H%elem_of_nil|]. intros (y & H & _). by apply elem_of_nil in H.
  - rewrite elem_of_app, IH. split.
    + intros [H|(y & Hy & H)]; [exists a; split; [constructor|done]|].
      exists y; split; [by constructor|done].
    + intros (y & Hy & H). apply elem_of_cons in Hy as [->|Hy]; [by left|].
      right. by exists y.
Qed.

Lemma subtree_kid nd k m : k ∈ n_kids nd -> m ∈ subtree k -> m ∈ subtree nd.
Proof.
  intros Hk Hm. rewrite subtree_unfold. apply elem_of_cons. right.
  apply elem_of_concat_map. by exists k.
Qed.

Lemma subtree_inv nd m : m ∈ subtree nd -> m = nd \/ exists k, k ∈ n_kids nd /\ m ∈ subtree k.
Proof.
  rewrite subtree_unfold. intros H. apply elem_of_cons in H as [->|H]; [by left|right].
  by apply elem_of_concat_map in H.
Qed.

Lemma links_kid nd k : links_ok nd -> k ∈ n_kids nd -> links_ok k.
Proof. intros H Hk m Hm. apply H. by eapply subtree_kid. Qed.

Lemma links_order nd m : links_ok nd -> m ∈ subtree nd -> (n_idx nd <= n_idx m)%nat.
Proof.
  revert nd m. apply (node_ind2 (fun nd => forall m, links_ok nd -> m ∈ subtree nd -> (n_idx nd <= n_idx m)%nat)).
  intros nd IH m Hl Hm. apply subtree_inv in Hm as [->|(k & Hk & Hm)]; [done|].
  rewrite Forall_forall in IH. specialize (IH k Hk m (links_kid _ _ Hl Hk) Hm).
  destruct (Hl nd (subtree_self nd)) as [_ H]. apply H in Hk as [_ Hk]. lia.
Qed.

(** * Places inside of a type *)
Section env.
Context (env : list td).

(** [sub T o t]: an object of type [T] has a part of type [t] at offset [o]. *)
Inductive sub : stype -> Z -> stype -> Prop :=
| sub_refl T : sub T 0 T
| sub_field T d i g o t :
    (s_kind T = Struct \/ s_kind T = NamedAnon) ->
    get_td env (s_td T) = Some d -> t_fields d !! i = Some g ->
    sub (f_ty g) o t -> sub T (f_off g + o) t
| sub_elem T c i o t :
    s_kind T = Array -> s_dims T !! 0%nat = Some c -> 0 <= i < c ->
    sub (elem_ty env T c) o t -> sub T (i * s_size (elem_ty env T c) + o) t.

Lemma sub_trans T o t o' t' : sub T o t -> sub t o' t' -> sub T (o + o') t'.
Proof.
  induction 1 as [|T d i g o t Hk Hd Hg Hs IH|T c i o t Hk Hc Hi Hs IH]; intros H.
  - done.
  - rewrite <- Z.add_assoc. eapply sub_field; [done|done|done|]. by apply IH.
  - rewrite <- Z.add_assoc. eapply sub_elem; [done|done|done|]. by apply IH.
Qed.

Hypothesis Henv : env_ok env.

Lemma get_td_env t d : get_td env t = Some d -> exists i, env !! i = Some d.
Proof. unfold get_td. destruct t as [i|]; cbn; [|done]. intros H. by exists i. Qed.

Lemma stype_ok_basic t : s_kind t <> Array -> s_kind t <> Pointer ->
  stype_ok env t -> basic_ok env (s_kind t) (s_td t) (s_size t).
Proof. intros H1 H2 [_ H]. by destruct (s_kind t). Qed.

Lemma elem_ok T c :
  stype_ok env T -> s_kind T = Array -> s_dims T !! 0%nat = Some c -> 0 < c ->
  stype_ok env (elem_ty env T c) /\ s_size T = c * s_size (elem_ty env T c).
Proof.
  intros [H0 H] Hk Hc Hpos. rewrite Hk in H.
  destruct H as (esz & Hd & Hf & He & Hs & Hb & Hp).
  unfold elem_ty. destruct (s_dims T) as [|c' ds] eqn:ED; [done|].
  injection Hc as ->. inversion Hf as [|? ? _ Hf']; subst. cbn [foldr] in Hs.
  assert (Hdiv : s_size T / c = foldr Z.mul 1 ds * esz).
  { rewrite Hs. symmetry. apply Z.div_unique_exact; lia. }
  assert (Hprod : 0 <= foldr Z.mul 1 ds).
  { clear -Hf'. induction Hf'; cbn [foldr]; lia. }
  destruct ds as [|c2 ds].
  - cbn [foldr] in Hdiv. split.
    + split; cbn [s_size s_kind s_td s_aux s_dims]; [nia|].
      rewrite Hdiv, Z.mul_1_l. destruct (s_aux T) eqn:EA; try done.
      cbn in Hb. split; [done|]. split; [by apply Hp|]. intros _. by apply Hp.
    + cbn [s_size]. rewrite Hdiv. cbn [foldr] in Hs. lia.
  - split.
    + split; cbn [s_size s_kind s_td s_aux s_dims tail]; [nia|]. rewrite Hk.
      exists esz. split; [done|]. split; [done|]. split; [done|]. split; [done|]. split; done.
    + cbn [s_size]. rewrite Hdiv. lia.
Qed.

Lemma sub_range T o t : sub T o t -> stype_ok env T ->
  stype_ok env t /\ 0 <= o /\ o + s_size t <= s_size T.
Proof.
  induction 1 as [|T d i g o t Hk Hd Hg Hs IH|T c i o t Hk Hc Hi Hs IH]; intros HT.
  - split; [done|]. lia.
  - destruct (get_td_env _ _ Hd) as [x Hx].
    destruct (Henv x d Hx g (elem_of_list_lookup_2 _ _ _ Hg)) as (Ho & Hsz & Hok).
    destruct (IH Hok) as (Ht & H1 & H2). split; [done|].
    assert (t_size d <= s_size T).
    { destruct HT as [_ HT]. destruct Hk as [Hk|Hk]; rewrite Hk in HT; by apply HT. }
    lia.
  - destruct (elem_ok T c HT Hk Hc ltac:(lia)) as [Hok Hsz].
    destruct (IH Hok) as (Ht & H1 & H2). split; [done|].
    pose proof (proj1 Hok). nia.
Qed.

Definition leaf_kind (k : kind) : Prop :=
  match k with Scalar _ | Enum | CharArray | Str | Pointer => True | _ => False end.
Definition scalar_kind (k : kind) : Prop := exists n, k = Scalar n.

Hypothesis Hunion : union_free env.

Lemma sub_scalar T o t : scalar_kind (s_kind T) -> sub T o t -> t = T.
Proof.
  intros [n Hn] H. inversion H as [|? ? ? ? ? ? Hk|? ? ? ? ? Hk]; subst; [done| |congruence].
  destruct Hk; congruence.
Qed.

Lemma sub_disjoint T o1 t1 o2 t2 :
  sub T o1 t1 -> sub T o2 t2 -> stype_ok env T -> leaf_kind (s_kind t1) -> leaf_kind (s_kind t2) ->
  (o1 = o2 /\ t1 = t2) \/ o1 + s_size t1 <= o2 \/ o2 + s_size t2 <= o1 \/
  (scalar_kind (s_kind t1) /\ scalar_kind (s_kind t2)).
Proof.
  intros H. revert o2 t2.
  induction H as [T|T d i g o t Hk Hd Hg Hs IH|T c i o t Hk Hc Hi Hs IH]; intros o2 t2 H2 HT L1 L2.
  - inversion H2 as [|? ? ? ? ? ? Hk|? ? ? ? ? Hk]; subst; [by left| |].
    + by destruct Hk as [Hk|Hk]; rewrite Hk in L1.
    + by rewrite Hk in L1.
  - inversion H2 as [|? d' i' g' o' ? Hk' Hd' Hg' Hs'|? ? ? ? ? Hk']; subst.
    + by destruct Hk as [Hk|Hk]; rewrite Hk in L2.
    + assert (d' = d) as -> by congruence.
      destruct (get_td_env _ _ Hd) as [x Hx].
      destruct (Henv x d Hx g (elem_of_list_lookup_2 _ _ _ Hg)) as (Ho & Hsz & Hok).
      destruct (Henv x d Hx g' (elem_of_list_lookup_2 _ _ _ Hg')) as (Ho' & Hsz' & Hok').
      destruct (decide (i = i')) as [<-|Hne].
      { assert (g' = g) as -> by congruence.
        destruct (IH o' t2 Hs' Hok L1 L2) as [[-> ->]|[?|[?|?]]];
          [by left|right; left; lia|right; right; left; lia|by right; right; right]. }
      destruct (sub_range _ _ _ Hs Hok) as (_ & A1 & A2).
      destruct (sub_range _ _ _ Hs' Hok') as (_ & B1 & B2).
      destruct (Hunion x d Hx i i' g g' Hg Hg' Hne) as [?|[?|[F1 F2]]].
      * right; left; lia.
      * right; right; left; lia.
      * right; right; right.
        rewrite (sub_scalar _ _ _ F1 Hs), (sub_scalar _ _ _ F2 Hs'). done.
    + destruct Hk; congruence.
  - inversion H2 as [|? ? ? ? ? ? Hk'|? c' i' o' ? Hk' Hc' Hi' Hs']; subst.
    + by rewrite Hk in L2.
    + destruct Hk'; congruence.
    + assert (c' = c) as -> by congruence.
      destruct (elem_ok T c HT Hk Hc ltac:(lia)) as [Hok Hsz].
      destruct (sub_range _ _ _ Hs Hok) as (_ & A1 & A2).
      destruct (sub_range _ _ _ Hs' Hok) as (_ & B1 & B2).
      pose proof (proj1 Hok) as Hnn. set (S := s_size (elem_ty env T c)) in *. clearbody S.
      destruct (Z.lt_trichotomy i i') as [?|[->|?]].
      * right; left; nia.
      * destruct (IH o' t2 Hs' Hok L1 L2) as [[-> ->]|[?|[?|?]]];
          [by left|right; left; lia|right; right; left; lia|by right; right; right].
      * right; right; left; nia.
Qed.
End env.
