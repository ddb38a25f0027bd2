(** The nodes of a finished mr_save as a tree (src/mr_save.c:1485-1493). *)
From stdpp Require Import sets.
From Verif Require Import Base Ptrs ChildrenProof DfsProof Save SaveForest SaveSpec SaveInv SaveSteps SavePost.

Section Tree.
  Context (ns0 ns : list node) (K K2 : nat -> list nat).
  Hypothesis R : forest_ok ns0 K.
  Hypothesis sub : forall p, K2 p = K p \/ K2 p = [].
  Hypothesis node2 : forall i, i <> 0 -> i < length ns0 -> exists n, ns !! i = Some n /\ parent n = parf ns0 i /\
    if is_ref n then K2 i = [] else linked ns (first_child n) (K2 i).

  Fixpoint shaped (t : tree) : Prop :=
    match t with T i ks => map root ks = K2 i /\ (fix go ks := match ks with [] => True | k :: ks => shaped k /\ go ks end) ks end.
  Lemma shaped_eq i ks : shaped (T i ks) <-> map root ks = K2 i /\ Forall shaped ks.
  Proof.
    cbn. assert (forall ks, (fix go ks := match ks with [] => True | k :: ks => shaped k /\ go ks end) ks <-> Forall shaped ks) as H.
    { intros l. induction l as [|k l IH]; [done|]. rewrite IH. by rewrite Forall_cons. }
    by rewrite H.
  Qed.

  Lemma sub_in p c : c ∈ K2 p -> c ∈ K p.
  Proof. destruct (sub p) as [-> | ->]; [done|]. by intros ?%elem_of_nil. Qed.

  Lemma trees_linked i ks : forall h, linked ns h (map root ks) ->
    Forall (fun t => exists n, ns !! root t = Some n /\ tree_at ns i (next n) t) ks -> h = hd_idx ks /\ trees_at ns i ks.
  Proof.
    induction ks as [|t ks IH]; intros h L F; cbn in L.
    - done.
    - destruct L as (-> & _ & n & En & L). inversion F as [|? ? (n' & En' & A) F']; subst. rewrite En in En'. injection En' as <-.
      destruct (IH _ L F') as [E A']. split; [done|]. cbn. rewrite <- E. done.
  Qed.

  Lemma build m : forall i k, i <> 0 -> i < length ns0 -> lev (parf ns0) i k -> length ns0 <= k + m ->
    exists t n, root t = i /\ shaped t /\ ns !! i = Some n /\ tree_at ns (parf ns0 i) (next n) t /\ NoDup (nodes t) /\
      (forall y, y ∈ nodes t -> anc (parf ns0) y i /\ y <> 0 /\ y < length ns0).
  Proof.
    induction m as [|m IH]; intros i k I L Lv Lk.
    { pose proof (lev_bound _ _ R i k I L Lv). lia. }
    destruct (node2 i I L) as (n & En & Pn & Hk).
    assert (exists ks, map root ks = K2 i /\ Forall (fun t => shaped t /\ (exists n, ns !! root t = Some n /\ tree_at ns i (next n) t) /\ NoDup (nodes t) /\
      forall y, y ∈ nodes t -> anc (parf ns0) y (root t) /\ y <> 0 /\ y < length ns0) ks) as (ks & Rk & Fk).
    { assert (forall c, c ∈ K2 i -> c ∈ K i) as Hs by (apply sub_in). clear Hk. induction (K2 i) as [|c l IHl].
      - exists []. done.
      - destruct IHl as (ks & Rk & Fk); [intros; apply Hs; by right|]. destruct (kid_lt _ _ R i c) as (C0 & Cl & _ & _ & Pc); [apply Hs; left|].
        destruct (IH c (S k) C0 Cl) as (t & nc & Rt & Sh & Enc & At & Nd & An); [constructor; rewrite Pc; done|lia|].
        exists (t :: ks). cbn. rewrite Rk, Rt. split; [done|]. constructor; [|done]. split; [done|]. split; [exists nc; rewrite Rt; split; [done|]; rewrite Pc in At; exact At|].
        split; [done|]. by rewrite Rt. }
    exists (T i ks), n. split; [done|]. split; [apply shaped_eq; split; [done|]; eapply Forall_impl; [exact Fk|]; by intros ? []|].
    split; [done|].
    assert (forall y, y ∈ concat (map nodes ks) -> exists t, t ∈ ks /\ y ∈ nodes t) as Cc.
    { intros y Hy. clear -Hy. induction ks as [|t ks IHk]; [by apply elem_of_nil in Hy|]. cbn in Hy. apply elem_of_app in Hy as [Hy|Hy].
      - exists t. split; [left|done].
      - destruct (IHk Hy) as (t' & ? & ?). exists t'. split; [by right|done]. }
    assert (forall t, t ∈ ks -> root t ∈ K i) as Kt.
    { intros t Ht. apply sub_in. rewrite <- Rk. by apply elem_of_list_fmap_1. }
    rewrite Forall_forall in Fk.
    split; [|split].
    - rewrite tree_at_eq. exists n. do 4 (split; [done|]). unfold expandable.
      assert (Forall (fun t => exists n, ns !! root t = Some n /\ tree_at ns i (next n) t) ks) as Ft by (apply Forall_forall; intros t Ht; by destruct (Fk t Ht) as (_ & ? & _)).
      destruct (is_ref n); cbn; [rewrite <- Rk in Hk; rewrite andb_false_r; by destruct ks|].
      rewrite <- Rk in Hk. destruct (trees_linked i ks _ Hk Ft) as [E A]. rewrite andb_true_r.
      destruct (Nat.eqb_spec (first_child n) 0) as [Z|Nz]; cbn.
      + destruct ks as [|t ks]; [done|]. cbn in Hk. destruct Hk as (E1 & ? & _). congruence.
      + split; [done|]. split; [|done]. intros ->. done.
    - cbn. constructor.
      + intros Hi. destruct (Cc i Hi) as (t & Ht & Hy). destruct (Fk t Ht) as (_ & _ & _ & An). destruct (An i Hy) as [A _].
        by apply (kid_not_anc _ _ R i (root t) (Kt t Ht)).
      + assert (NoDup (map root ks)) as Nd by (rewrite Rk; destruct (sub i) as [-> | ->]; [apply R|constructor]).
        clear Hk Rk Cc. induction ks as [|t ks IHk]; [constructor|]. cbn. cbn in Nd. apply NoDup_cons in Nd as [Nt Nd].
        apply NoDup_app. split; [apply Fk; left|]. split.
        * intros y Hy Hc.
          assert (exists u, u ∈ ks /\ y ∈ nodes u) as (u & Hu & Hyu).
          { clear -Hc. induction ks as [|u ks IHk]; [by apply elem_of_nil in Hc|]. cbn in Hc. apply elem_of_app in Hc as [Hc|Hc].
            - exists u. split; [left|done].
            - destruct (IHk Hc) as (u' & ? & ?). exists u'. split; [by right|done]. }
          assert (t ∈ t :: ks) as Ht by left. assert (u ∈ t :: ks) as Hu' by (by right).
          destruct (Fk t Ht) as (_ & _ & _ & A1). destruct (Fk u Hu') as (_ & _ & _ & A2). destruct (A1 y Hy) as [B1 _], (A2 y Hyu) as [B2 _].
          pose proof (anc_kid_unique _ _ R y _ _ i B1 B2 (Kt t Ht) (Kt u Hu')) as E. apply Nt. rewrite E. by apply elem_of_list_fmap_1.
        * apply IHk; [| |done]; intros u Hu; [apply Fk|apply Kt]; by right.
    - intros y Hy. cbn in Hy. apply elem_of_cons in Hy as [-> |Hy]; [split; [constructor|done]|].
      destruct (Cc y Hy) as (t & Ht & Hyt). destruct (Fk t Ht) as (_ & _ & _ & An). destruct (An y Hyt) as (A & ? & ?). split; [|done].
      eapply anc_trans; [exact A|]. apply (kid_anc _ _ R). by apply Kt.
  Qed.

  Lemma shaped_closed t : shaped t -> forall p c, p ∈ nodes t -> c ∈ K2 p -> c ∈ nodes t.
  Proof.
    induction t as [i ks IH] using tree_ind'. rewrite shaped_eq. intros [Rk Sk] p c Hp Hc. cbn in Hp |- *. apply elem_of_cons in Hp as [-> |Hp].
    - right. rewrite <- Rk in Hc. clear -Hc. induction ks as [|t ks IHk]; [by apply elem_of_nil in Hc|]. cbn in Hc |- *. apply elem_of_app.
      apply elem_of_cons in Hc as [-> |Hc]; [left|right; auto]. destruct t. cbn. left.
    - right. clear Rk. induction ks as [|t ks IHk]; [by apply elem_of_nil in Hp|]. cbn in Hp |- *. apply elem_of_app. inversion IH as [|? ? I1 I2]; subst.
      inversion Sk as [|? ? S1 S2]; subst. apply elem_of_app in Hp as [Hp|Hp]; [left|right]; eauto.
  Qed.
End Tree.
