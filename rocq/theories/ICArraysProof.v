From Verif Require Import Base Spec FwFacts HSort HSortProof ICArrays.

Section proof.
Context (cmp : N -> N -> Z) (junk : N) (Hc : three_way cmp).
Notation ssorted := (strictly_sorted_by cmp).

(** *** Binary search *)
Lemma div2_between a b : a < b -> a <= Nat.div2 (a + b) < b.
Proof.
  intros H. pose proof (Nat.div2_odd (a + b)) as Ho.
  destruct (Nat.odd (a + b)); cbn [Nat.b2n] in Ho; lia.
Qed.

Lemma find_idx_loop_ok fuel key a down up diff :
  ssorted a -> down <= up <= length a -> up - down < fuel ->
  diff <> 0%Z ->
  (forall i x, i < down -> a !! i = Some x -> (0 < cmp key x)%Z) ->
  (forall i x, up <= i -> a !! i = Some x -> (cmp key x < 0)%Z) ->
  exists d idx, find_idx_loop cmp fuel key a down up diff = Some (d, idx) /\
    ((d = 0%Z /\ exists x, a !! idx = Some x /\ cmp key x = 0%Z) \/
     (d <> 0%Z /\ idx <= length a /\
      (forall i x, i < idx -> a !! i = Some x -> (0 < cmp key x)%Z) /\
      (forall i x, idx <= i -> a !! i = Some x -> (cmp key x < 0)%Z))).
Proof.
  intros Hs. revert down up diff. induction fuel as [|fuel IH]; intros down up diff Hb Hf Hd Hlo Hhi; [lia|].
  cbn [find_idx_loop].
  destruct (Z.eqb_spec diff 0) as [|_]; [done|].
  destruct (Nat.eqb_spec up down) as [->|Hne]; cbn [negb andb].
  { exists diff, down. split; [done|]. right. split_and!; [done|lia|done|done]. }
  pose proof (div2_between down up ltac:(lia)) as Hm.
  destruct (rd_Some a (Nat.div2 (down + up))) as [x Hx]; [lia|].
  rewrite Hx. cbn [mbind option_bind]. unfold rd in Hx.
  set (mid := Nat.div2 (down + up)) in *.
  destruct (Z.leb_spec (cmp key x) 0) as [Hle|Hgt].
  - destruct (Z.eq_dec (cmp key x) 0%Z) as [He|He].
    + assert (Hfu : exists f', fuel = S f') by (exists (fuel - 1); lia).
      destruct Hfu as [f' ->]. rewrite He. cbn [find_idx_loop].
      change (0 =? 0)%Z with true. cbn [negb]. rewrite andb_false_r.
      exists 0%Z, mid. split; [done|]. left. eauto.
    + apply IH; [lia|lia|lia|done|].
      intros i y Hi Hy. destruct (decide (i = mid)) as [->|Hn]; [simplify_eq; lia|].
      pose proof (Hs mid i x y ltac:(lia) Hx Hy) as Hxy.
      apply (tw_lt_trans cmp Hc key x y); [lia|done].
  - apply IH; [lia|lia|lia| |done].
    intros i y Hi Hy. destruct (decide (i = mid)) as [->|Hn]; [simplify_eq; lia|].
    pose proof (Hs i mid y x ltac:(lia) Hy Hx) as Hxy.
    apply (tw_lt cmp Hc). apply (tw_lt cmp Hc) in Hgt.
    apply (tw_lt_trans cmp Hc y x key); done.
Qed.

Lemma find_idx_ok key a :
  ssorted a ->
  exists d idx, find_idx cmp key a = Some (d, idx) /\
    ((d = 0%Z /\ exists x, a !! idx = Some x /\ cmp key x = 0%Z) \/
     (d <> 0%Z /\ idx <= length a /\
      (forall i x, i < idx -> a !! i = Some x -> (0 < cmp key x)%Z) /\
      (forall i x, idx <= i -> a !! i = Some x -> (cmp key x < 0)%Z))).
Proof.
  intros Hs. apply find_idx_loop_ok; [done|lia|lia|done|lia|].
  intros i x Hi Hx. apply lookup_lt_Some in Hx. lia.
Qed.

Lemma ssorted_wf a : ssorted a -> fw_wf cmp a.
Proof.
  induction a as [|x a IH]; intros H; [constructor|].
  apply fw_wf_cons. split.
  - apply IH. intros i j u v Hij Hu Hv. apply (H (S i) (S j)); [lia|done|done].
  - intros y Hy. apply elem_of_list_lookup in Hy as [i Hi].
    pose proof (H 0 (S i) x y ltac:(lia) eq_refl Hi). lia.
Qed.

(** *** memmove *)
Lemma memmove_up (a : list N) idx :
  idx <= length a ->
  memmove (a ++ [junk]) (idx + 1) idx (length (a ++ [junk]) - (idx + 1)) =
    Some (take idx a ++ [match drop idx (a ++ [junk]) with x :: _ => x | [] => junk end] ++ drop idx a).
Proof.
  intros H. unfold memmove. rewrite app_length. cbn [length].
  replace (Nat.leb (idx + 1 + (length a + 1 - (idx + 1))) (length a + 1)) with true by (symmetry; apply Nat.leb_le; lia).
  replace (Nat.leb (idx + (length a + 1 - (idx + 1))) (length a + 1)) with true by (symmetry; apply Nat.leb_le; lia).
  cbn [andb]. f_equal.
  replace (length a + 1 - (idx + 1)) with (length a - idx) by lia.
  rewrite (drop_ge (a ++ [junk]) (idx + 1 + (length a - idx))) by (rewrite app_length; cbn [length]; lia).
  rewrite app_nil_r.
  rewrite (drop_app_le a) by lia.
  rewrite (take_app_le (drop idx a)) by (rewrite drop_length; lia).
  rewrite (take_ge (drop idx a)) by (rewrite drop_length; lia).
  rewrite Nat.add_1_r.
  destruct (lookup_lt_is_Some_2 (a ++ [junk]) idx) as [x Hx]; [rewrite app_length; cbn [length]; lia|].
  rewrite (take_S_r _ _ _ Hx). rewrite <- app_assoc. rewrite take_app_le by lia.
  f_equal. f_equal.
  pose proof (drop_S _ _ _ Hx) as Hd. rewrite drop_app_le in Hd by lia. rewrite Hd. done.
Qed.

Lemma memmove_down (a : list N) idx x :
  a !! idx = Some x ->
  exists b, memmove a idx (idx + 1) (length a - 1 - idx) = Some b /\
    take (length a - 1) b = take idx a ++ drop (S idx) a /\ length b = length a.
Proof.
  intros Hx. pose proof (lookup_lt_Some _ _ _ Hx) as Hl. unfold memmove.
  replace (Nat.leb (idx + (length a - 1 - idx)) (length a)) with true by (symmetry; apply Nat.leb_le; lia).
  replace (Nat.leb (idx + 1 + (length a - 1 - idx)) (length a)) with true by (symmetry; apply Nat.leb_le; lia).
  cbn [andb]. eexists. split; [done|].
  rewrite Nat.add_1_r.
  rewrite (take_ge (drop (S idx) a)) by (rewrite drop_length; lia). split.
  - rewrite app_assoc. rewrite take_app_alt; [done|].
    rewrite app_length, take_length, drop_length. lia.
  - rewrite !app_length, take_length, !drop_length. lia.
Qed.

(** *** Sorted array *)
Lemma insert_mid' (p s : list N) x y : <[length p := x]> (p ++ y :: s) = p ++ x :: s.
Proof. by apply insert_mid. Qed.

Lemma ssorted_nil : ssorted [].
Proof. intros i j x y _ H. by rewrite lookup_nil in H. Qed.

Lemma ssorted_app p q :
  ssorted (p ++ q) <-> ssorted p /\ ssorted q /\ forall x y, x ∈ p -> y ∈ q -> (cmp x y < 0)%Z.
Proof.
  split.
  - intros H. split_and!.
    + intros i j x y Hij Hx Hy. apply (H i j); [done|by apply lookup_app_l_Some|by apply lookup_app_l_Some].
    + intros i j x y Hij Hx Hy. apply (H (length p + i) (length p + j)); [lia| |].
      * rewrite lookup_app_r by lia. by replace (length p + i - length p) with i by lia.
      * rewrite lookup_app_r by lia. by replace (length p + j - length p) with j by lia.
    + intros x y Hx Hy. apply elem_of_list_lookup in Hx as [i Hi]. apply elem_of_list_lookup in Hy as [j Hj].
      pose proof (lookup_lt_Some _ _ _ Hi).
      apply (H i (length p + j)); [lia|by apply lookup_app_l_Some|].
      rewrite lookup_app_r by lia. by replace (length p + j - length p) with j by lia.
  - intros (Hp & Hq & Hpq) i j x y Hij Hx Hy.
    apply lookup_app_Some in Hx as [Hx|[Hl Hx]]; apply lookup_app_Some in Hy as [Hy|[Hl' Hy]].
    + by apply (Hp i j).
    + apply Hpq; by eapply elem_of_list_lookup_2.
    + apply lookup_lt_Some in Hy. lia.
    + apply (Hq (i - length p) (j - length p)); [lia|done|done].
Qed.

Lemma ssorted_cons x q : ssorted (x :: q) <-> ssorted q /\ forall y, y ∈ q -> (cmp x y < 0)%Z.
Proof.
  change (x :: q) with ([x] ++ q). rewrite ssorted_app. split.
  - intros (_ & H1 & H2). split; [done|]. intros y Hy. apply H2; [left|done].
  - intros [H1 H2]. split_and!; [|done|].
    + intros i j u v Hij Hu Hv. apply lookup_lt_Some in Hu, Hv. cbn [length] in *. lia.
    + intros u v Hu Hv. apply elem_of_list_singleton in Hu as ->. by apply H2.
Qed.

(** Invariant of the sorted array collection. *)
Definition sinv (m : rarr) : Prop :=
  ssorted (ra m) /\ length (ra m) <= cap m /\ items m = length (ra m).

Lemma sinv_new : sinv sorted_new.
Proof. split_and!; [apply ssorted_nil|cbn; lia|done]. Qed.

Lemma sorted_find_ok m key :
  ssorted (ra m) -> sorted_find cmp m key = Some (fw_find cmp (ra m) key).
Proof.
  intros Hs. unfold sorted_find.
  destruct (find_idx_ok key (ra m) Hs) as (d & idx & -> & H). cbn [mbind option_bind].
  destruct H as [[-> (x & Hx & He)]|(Hd & Hi & Hlo & Hhi)].
  - change (0 =? 0)%Z with true. cbn [negb]. unfold rd. rewrite Hx. cbn [mbind option_bind].
    f_equal. symmetry. apply fw_find_unique; [done|by apply ssorted_wf|by eapply elem_of_list_lookup_2|done].
  - destruct (Z.eqb_spec d 0); [done|]. f_equal. symmetry. apply fw_find_None.
    intros x Hx. apply elem_of_list_lookup in Hx as [i Hx].
    destruct (decide (i < idx)); [pose proof (Hlo i x); lia|].
    pose proof (Hhi i x ltac:(lia) Hx). lia.
Qed.

Lemma sorted_add_ok m key al :
  sinv m ->
  exists r m', sorted_add cmp junk m key al = Some (r, m') /\ sinv m' /\
    ((exists x, fw_find cmp (ra m) key = Some x /\ r = Some x /\ m' = m) \/
     (fw_find cmp (ra m) key = None /\ r = Some key /\ ra m' ≡ₚ key :: ra m) \/
     (fw_find cmp (ra m) key = None /\ al = false /\ length (ra m) = cap m /\ r = None /\ m' = m)).
Proof.
  intros (Hs & Hcap & Hit). unfold sorted_add.
  destruct (find_idx_ok key (ra m) Hs) as (d & idx & -> & H). cbn [mbind option_bind].
  destruct H as [[-> (x & Hx & He)]|(Hd & Hi & Hlo & Hhi)].
  - change (0 =? 0)%Z with true. cbn [negb]. unfold rd. rewrite Hx. cbn [mbind option_bind].
    exists (Some x), m. split; [done|]. split; [done|]. left. exists x. split; [|done].
    apply fw_find_unique; [done|by apply ssorted_wf|by eapply elem_of_list_lookup_2|done].
  - destruct (Z.eqb_spec d 0); [done|].
    assert (Hnone : fw_find cmp (ra m) key = None).
    { apply fw_find_None. intros x Hx. apply elem_of_list_lookup in Hx as [i Hx].
      destruct (decide (i < idx)); [pose proof (Hlo i x); lia|].
      pose proof (Hhi i x ltac:(lia) Hx). lia. }
    destruct (grow al (cap m) (length (ra m) + 1)) as [cap'|] eqn:Eg.
    + assert (Hc' : length (ra m) + 1 <= cap').
      { unfold grow in Eg. destruct (Nat.ltb_spec (cap m) (length (ra m) + 1)); [destruct al|]; simplify_eq; lia. }
      rewrite memmove_up by done. cbn [mbind option_bind].
      set (y := match drop idx (ra m ++ [junk]) with x :: _ => x | [] => junk end).
      assert (Hlen : length (take idx (ra m)) = idx) by (rewrite take_length; lia).
      rewrite wr_Some.
      2:{ rewrite !app_length, Hlen, drop_length. cbn [length]. lia. }
      cbn [mbind option_bind app].
      rewrite insert_mid by done.
      unfold rd. rewrite list_lookup_middle by done. cbn [mbind option_bind].
      eexists _, _. split; [done|].
      assert (Hperm : take idx (ra m) ++ key :: drop idx (ra m) ≡ₚ key :: ra m).
      { rewrite <- Permutation_middle. by rewrite take_drop. }
      split; [|right; left; split; [done|split; done]].
      split_and!; cbn [ra cap items].
      * rewrite <- (take_drop idx (ra m)) in Hs. apply ssorted_app in Hs as (H1 & H2 & H3).
        apply ssorted_app. split_and!; [done| |].
        -- apply ssorted_cons. split; [done|]. intros z Hz.
           apply elem_of_list_lookup in Hz as [j Hz]. rewrite lookup_drop in Hz.
           apply (Hhi (idx + j)); [lia|done].
        -- intros x z Hx Hz.
           assert (Hxk : (cmp x key < 0)%Z).
           { apply elem_of_list_lookup in Hx as [j Hx]. apply lookup_take_Some in Hx as [Hx Hj].
             apply (tw_lt cmp Hc). by apply (Hlo j). }
           apply elem_of_cons in Hz as [->|Hz]; [done|]. by apply H3.
      * rewrite Hperm. cbn [length]. lia.
      * done.
    + exists None, m. split; [done|]. split; [done|]. right. right.
      unfold grow in Eg. destruct (Nat.ltb_spec (cap m) (length (ra m) + 1)); [destruct al|]; simplify_eq.
      split_and!; [done|done|lia|done|done].
Qed.

Lemma sorted_del_ok m key :
  sinv m ->
  exists b m', sorted_del cmp m key = Some (b, m') /\ sinv m' /\
    ((exists x, fw_find cmp (ra m) key = Some x /\ b = true /\ ra m' ≡ₚ fw_remove cmp (ra m) key) \/
     (fw_find cmp (ra m) key = None /\ b = false /\ m' = m)).
Proof.
  intros (Hs & Hcap & Hit). unfold sorted_del.
  destruct (find_idx_ok key (ra m) Hs) as (d & idx & -> & H). cbn [mbind option_bind].
  destruct H as [[-> (x & Hx & He)]|(Hd & Hi & Hlo & Hhi)].
  - change (0 =? 0)%Z with true. cbn [negb].
    destruct (memmove_down (ra m) idx x Hx) as (b & -> & Hb & Hlb). cbn [mbind option_bind].
    rewrite Hb.
    pose proof (lookup_lt_Some _ _ _ Hx) as Hl.
    eexists _, _. split; [done|].
    pose proof (take_drop_middle _ _ _ Hx) as Hmid.
    split.
    + split_and!; cbn [ra cap items].
      * rewrite <- Hmid in Hs. apply ssorted_app in Hs as (H1 & H2 & H3).
        apply ssorted_cons in H2 as [H2 _]. apply ssorted_app. split_and!; [done|done|].
        intros u v Hu Hv. apply H3; [done|by right].
      * rewrite app_length, take_length, drop_length. lia.
      * rewrite app_length, take_length, drop_length. lia.
    + left. exists x. split; [|split; [done|]].
      * apply fw_find_unique; [done|by apply ssorted_wf|by eapply elem_of_list_lookup_2|done].
      * cbn [ra]. symmetry. apply (fw_remove_perm_cons cmp Hc _ _ x); [by apply ssorted_wf| |done].
        rewrite <- Hmid at 1. by rewrite <- Permutation_middle.
  - destruct (Z.eqb_spec d 0); [done|]. cbn [negb].
    exists false, m. split; [done|]. split; [done|]. right.
    split; [|done]. apply fw_find_None.
    intros x Hx. apply elem_of_list_lookup in Hx as [i Hx].
    destruct (decide (i < idx)); [pose proof (Hlo i x); lia|].
    pose proof (Hhi i x ltac:(lia) Hx). lia.
Qed.

(** *** Bulk indexing *)

Section index.
Context (input : list N).
Notation V i := (nth (N.to_nat i) input 0%N).
Notation K := (sort_key_cmp cmp input).

Lemma sort_key_tot x y : (K x y <= 0)%Z \/ (K y x <= 0)%Z.
Proof.
  unfold sort_key_cmp. pose proof (tw_sym cmp Hc (V x) (V y)).
  destruct (Z.eqb_spec (cmp (V x) (V y)) 0), (Z.eqb_spec (cmp (V y) (V x)) 0); cbn [negb]; try lia.
Qed.

Lemma sort_key_le x y : (K x y <= 0)%Z <-> (cmp (V x) (V y) < 0)%Z \/ (cmp (V x) (V y) = 0%Z /\ (x <= y)%N).
Proof.
  unfold sort_key_cmp. destruct (Z.eqb_spec (cmp (V x) (V y)) 0); cbn [negb]; lia.
Qed.

Lemma sort_key_trans x y z : (K x y <= 0)%Z -> (K y z <= 0)%Z -> (K x z <= 0)%Z.
Proof.
  rewrite !sort_key_le. intros [H1|[H1 L1]] [H2|[H2 L2]].
  - left. by apply (tw_lt_trans cmp Hc _ (V y)).
  - left. pose proof (tw_eq_r cmp Hc _ _ (V x) H2). lia.
  - left. pose proof (tw_eq_l cmp Hc _ _ (V z) H1). lia.
  - right. split; [by apply (tw_eq_trans cmp Hc _ (V y))|lia].
Qed.

(** List version of the de-duplication loop. *)
Fixpoint dd (prev : N) (ps : list N) : list N :=
  match ps with
  | [] => []
  | i :: ps => if negb (cmp (V i) prev =? 0)%Z then V i :: dd (V i) ps else dd (V i) ps
  end.

Lemma rd_V i : N.to_nat i < length input -> rd input (N.to_nat i) = Some (V i).
Proof.
  intros H. unfold rd. destruct (lookup_lt_is_Some_2 input (N.to_nat i) H) as [x Hx].
  rewrite Hx. f_equal. symmetry. rewrite nth_lookup. by rewrite Hx.
Qed.

Lemma dedup_loop_ok n ps prev out g :
  Forall (fun i => N.to_nat i < length input) ps ->
  length ps = n ->
  exists a' dst', dedup_loop cmp n input (out ++ g ++ ps) prev (length out + length g) (length out) = Some (a', dst') /\
    take dst' a' = out ++ dd prev ps /\ length a' = length (out ++ g ++ ps) /\ dst' <= length a'.
Proof.
  revert ps prev out g. induction n as [|n IH]; intros ps prev out g Hf Hn.
  { destruct ps; [|done]. cbn [dedup_loop]. eexists _, _. split; [done|].
    split; [|split; [done|rewrite app_length; lia]]. cbn [dd]. rewrite take_app, app_nil_r. done. }
  destruct ps as [|i ps]; [done|]. injection Hn as Hn. apply Forall_cons_1 in Hf as [Hi Hf].
  cbn [dedup_loop].
  assert (Hrd : rd (out ++ g ++ i :: ps) (length out + length g) = Some i).
  { unfold rd. rewrite app_assoc. rewrite list_lookup_middle by (rewrite app_length; lia). done. }
  rewrite Hrd. cbn [mbind option_bind]. rewrite rd_V by done. cbn [mbind option_bind dd].
  destruct (Z.eqb_spec (cmp (V i) prev) 0) as [He|He]; cbn [negb].
  - destruct (IH ps (V i) out (g ++ [i]) Hf Hn) as (a' & dst' & E & H1 & H2 & H3).
    replace (out ++ (g ++ [i]) ++ ps) with (out ++ g ++ i :: ps) in * by (by rewrite <- (app_assoc g)).
    replace (S (length out + length g)) with (length out + length (g ++ [i])) by (rewrite app_length; cbn [length]; lia).
    exists a', dst'. done.
  - rewrite wr_Some by (rewrite !app_length; cbn [length]; lia). cbn [mbind option_bind].
    assert (exists g', <[length out := V i]> (out ++ g ++ i :: ps) = (out ++ [V i]) ++ g' ++ ps /\ length g' = length g) as (g' & -> & Hg').
    { destruct g as [|y g].
      - exists []. cbn [app]. rewrite insert_mid by done. by rewrite <- app_assoc.
      - exists (g ++ [i]). cbn [app]. rewrite insert_mid by done. rewrite <- !app_assoc. cbn [app].
        split; [done|]. rewrite app_length. cbn [length]. lia. }
    destruct (IH ps (V i) (out ++ [V i]) g' Hf Hn) as (a' & dst' & E & H1 & H2 & H3).
    replace (S (length out + length g)) with (length (out ++ [V i]) + length g') by (rewrite app_length; cbn [length]; lia).
    replace (S (length out)) with (length (out ++ [V i])) by (rewrite app_length; cbn [length]; lia).
    rewrite E. eexists _, _. split; [done|]. rewrite H1, <- app_assoc. cbn [app].
    split; [done|]. split; [|done]. rewrite H2, !app_length. cbn [length]. lia.
Qed.

(** Order of positions after sorting. *)
Definition klt (i j : N) : Prop := (cmp (V i) (V j) < 0)%Z \/ (cmp (V i) (V j) = 0%Z /\ (i < j)%N).

Lemma dd_elem i0 ps x :
  StronglySorted klt (i0 :: ps) ->
  x ∈ dd (V i0) ps <->
  exists i, i ∈ ps /\ x = V i /\ (cmp (V i0) x < 0)%Z /\ forall j, j ∈ ps -> cmp (V j) x = 0%Z -> (i <= j)%N.
Proof.
  revert i0. induction ps as [|i1 ps IH]; intros i0 Hs.
  { cbn [dd]. split; [intros H; by apply elem_of_nil in H|]. intros (i & H & _). by apply elem_of_nil in H. }
  apply StronglySorted_inv in Hs as [Hs H0]. specialize (IH i1 Hs).
  pose proof (Forall_inv H0) as H01.
  assert (Hs1 := Hs). apply StronglySorted_inv in Hs1 as [_ H1]. rewrite list.Forall_forall in H1.
  cbn [dd].
  assert (Htail : (exists i, i ∈ ps /\ x = V i /\ (cmp (V i1) x < 0)%Z /\ forall j, j ∈ ps -> cmp (V j) x = 0%Z -> (i <= j)%N)
    <-> exists i, i ∈ ps /\ x = V i /\ (cmp (V i0) x < 0)%Z /\ forall j, j ∈ i1 :: ps -> cmp (V j) x = 0%Z -> (i <= j)%N).
  { split.
    - intros (i & Hi & -> & Hlt & Hmin). exists i. split_and!; [done|done| |].
      + destruct H01 as [H01|[H01 _]]; [by apply (tw_lt_trans cmp Hc _ (V i1))|].
        pose proof (tw_eq_l cmp Hc _ _ (V i) H01). lia.
      + intros j Hj He. apply elem_of_cons in Hj as [->|Hj]; [lia|by apply Hmin].
    - intros (i & Hi & -> & Hlt & Hmin). exists i. split_and!; [done|done| |].
      + destruct (H1 i Hi) as [|[H2 H3]]; [done|].
        pose proof (Hmin i1 (elem_of_list_here _ _) H2). lia.
      + intros j Hj He. apply Hmin; [by right|done]. }
  assert (Hsym : cmp (V i1) (V i0) = 0%Z <-> cmp (V i0) (V i1) = 0%Z) by apply (tw_zero cmp Hc).
  destruct (Z.eqb_spec (cmp (V i1) (V i0)) 0) as [He|He]; cbn [negb].
  - rewrite IH, Htail. split.
    + intros (i & Hi & H2). exists i. split; [by right|done].
    + intros (i & Hi & H2). exists i. split; [|done]. apply elem_of_cons in Hi as [->|Hi]; [|done].
      exfalso. destruct H2 as (-> & H2 & _). lia.
  - rewrite elem_of_cons, IH, Htail. split.
    + intros [->|(i & Hi & H2)]; [|exists i; split; [by right|done]].
      exists i1. split; [left|]. split; [done|]. split; [destruct H01; lia|].
      intros j Hj Hj0. apply elem_of_cons in Hj as [->|Hj]; [lia|].
      destruct (H1 j Hj) as [H2|[H2 H3]]; [|lia]. pose proof (tw_zero cmp Hc (V j) (V i1)). lia.
    + intros (i & Hi & H2). apply elem_of_cons in Hi as [->|Hi]; [left; apply H2|].
      right. exists i. done.
Qed.

Lemma dd_sorted i0 ps : StronglySorted klt (i0 :: ps) -> ssorted (V i0 :: dd (V i0) ps).
Proof.
  intros Hs. apply ssorted_cons. split.
  2:{ intros y Hy. apply (dd_elem i0 ps y Hs) in Hy as (i & _ & _ & H & _). done. }
  revert i0 Hs. induction ps as [|i1 ps IH]; intros i0 Hs; [apply ssorted_nil|].
  apply StronglySorted_inv in Hs as [Hs _]. cbn [dd]. specialize (IH i1 Hs).
  destruct (Z.eqb_spec (cmp (V i1) (V i0)) 0); cbn [negb]; [done|].
  apply ssorted_cons. split; [done|].
  intros y Hy. apply (dd_elem i1 ps y Hs) in Hy as (i & _ & _ & H & _). done.
Qed.

Lemma dd_fw_index i0 ps :
  StronglySorted klt (i0 :: ps) -> i0 :: ps ≡ₚ map N.of_nat (seq 0 (length input)) ->
  V i0 :: dd (V i0) ps ≡ₚ fw_index cmp input.
Proof.
  intros Hs Hp. apply NoDup_Permutation.
  - apply (fw_wf_NoDup cmp Hc), ssorted_wf, dd_sorted, Hs.
  - apply (fw_wf_NoDup cmp Hc), fw_index_wf.
  - intros x. rewrite (fw_index_elem cmp Hc).
    assert (Hin : forall i, i ∈ i0 :: ps <-> N.to_nat i < length input).
    { intros i. rewrite Hp, elem_of_list_fmap. split.
      - intros (k & -> & Hk). apply elem_of_seq in Hk. lia.
      - intros Hi. exists (N.to_nat i). split; [lia|]. apply elem_of_seq. lia. }
    assert (HV : forall i y, input !! N.to_nat i = Some y -> V i = y).
    { intros i y Hy. rewrite nth_lookup. by rewrite Hy. }
    assert (HV' : forall i, N.to_nat i < length input -> input !! N.to_nat i = Some (V i)).
    { intros i Hi. pose proof (rd_V i Hi) as H. done. }
    assert (Hs1 := Hs). apply StronglySorted_inv in Hs1 as [_ H1]. rewrite list.Forall_forall in H1.
    rewrite elem_of_cons, (dd_elem i0 ps x Hs).
    transitivity (exists i, i ∈ i0 :: ps /\ x = V i /\ forall j, j ∈ i0 :: ps -> cmp (V j) x = 0%Z -> (i <= j)%N).
    + split.
      * intros [->|(i & Hi & -> & Hlt & Hmin)].
        -- exists i0. split; [left|]. split; [done|]. intros j Hj He. apply elem_of_cons in Hj as [->|Hj]; [lia|].
           destruct (H1 j Hj) as [H2|[H2 H3]]; [|lia]. pose proof (tw_zero cmp Hc (V j) (V i0)). lia.
        -- exists i. split; [by right|]. split; [done|].
           intros j Hj He. apply elem_of_cons in Hj as [->|Hj]; [lia|by apply Hmin].
      * intros (i & Hi & -> & Hmin). apply elem_of_cons in Hi as [->|Hi]; [by left|]. right.
        exists i. split_and!; [done|done| |].
        -- destruct (H1 i Hi) as [|[H2 H3]]; [done|]. pose proof (Hmin i0 (elem_of_list_here _ _) H2). lia.
        -- intros j Hj. apply Hmin. by right.
    + split.
      * intros (i & Hi & -> & Hmin). exists (N.to_nat i). split; [apply HV'; by apply Hin|].
        intros j y Hj Hy He. assert (Hl := lookup_lt_Some _ _ _ Hy).
        pose proof (Hmin (N.of_nat j)) as H2. rewrite Hin, Nat2N.id in H2.
        rewrite nth_lookup, Hy in H2. cbn [default from_option id] in H2.
        apply (tw_zero cmp Hc) in He. specialize (H2 Hl He). lia.
      * intros (i & Hi & Hmin). assert (Hl := lookup_lt_Some _ _ _ Hi).
        exists (N.of_nat i). rewrite Hin, Nat2N.id. split; [done|]. split; [by rewrite nth_lookup, Hi|].
        intros j Hj He. destruct (N.le_gt_cases (N.of_nat i) j) as [|Hlt]; [done|]. exfalso.
        apply Hin in Hj. apply (Hmin (N.to_nat j) (V j)); [lia|by apply HV'|]. by apply (tw_zero cmp Hc).
Qed.

Lemma sorted_index_ok m al :
  exists b m', sorted_index cmp m input al = Some (b, m') /\ sinv m' /\
    ((b = true /\ ra m' ≡ₚ fw_index cmp input /\ (input <> [] -> 2 * length input <= cap m' \/ cap m' = cap m)) \/
     (b = false /\ al = false /\ cap m < length input /\ m' = RArr [] (cap m) 0)).
Proof.
  unfold sorted_index. destruct (Nat.eqb_spec (length input) 0) as [E|E].
  { apply nil_length_inv in E as ->. eexists _, _. split; [done|].
    split; [split_and!; [apply ssorted_nil|cbn; lia|done]|]. left. split; [done|]. split; [done|]. done. }
  destruct (grow al (cap m) (length input)) as [cap'|] eqn:Eg.
  2:{ eexists _, _. split; [done|]. split; [split_and!; [apply ssorted_nil|cbn; lia|done]|].
      right. unfold grow in Eg. destruct (Nat.ltb_spec (cap m) (length input)); [destruct al|]; simplify_eq. done. }
  assert (Hc' : length input <= cap').
  { unfold grow in Eg. destruct (Nat.ltb_spec (cap m) (length input)); [destruct al|]; simplify_eq; lia. }
  destruct (hsort_safe K (map N.of_nat (seq 0 (length input)))) as (p & Ep & Hp).
  rewrite Ep. cbn [mbind option_bind].
  pose proof (hsort_sorted K (fun x y => (K x y <= 0)%Z) (fun _ _ H => H)
    (fun x y (H : (K x y > 0)%Z) => match sort_key_tot x y with or_introl H' => False_ind _ (H' H) | or_intror H' => H' end)
    sort_key_trans _ _ Ep) as Hsrt.
  assert (Hlp : length p = length input) by (rewrite <- Hp, map_length, seq_length; done).
  destruct p as [|i0 ps]; [cbn in Hlp; lia|].
  change (rd (i0 :: ps) 0) with (Some i0). cbn [mbind option_bind].
  assert (Hrange : Forall (fun i => N.to_nat i < length input) (i0 :: ps)).
  { apply list.Forall_forall. intros i Hi. rewrite <- Hp in Hi. apply elem_of_list_fmap in Hi as (k & -> & Hk).
    apply elem_of_seq in Hk. lia. }
  apply Forall_cons_1 in Hrange as [Hi0 Hps].
  rewrite rd_V by done. cbn [mbind option_bind].
  rewrite wr_Some by (cbn; lia). cbn [mbind option_bind].
  change (<[0:=V i0]> (i0 :: ps)) with ([V i0] ++ [] ++ ps).
  destruct (dedup_loop_ok (length input - 1) ps (V i0) [V i0] [] Hps) as (a' & dst' & E2 & H1 & H2 & H3).
  { cbn [length] in Hlp. lia. }
  change (length [V i0] + length []) with 1 in E2. change (length [V i0]) with 1 in E2.
  rewrite E2. cbn [mbind option_bind].
  assert (HS : StronglySorted klt (i0 :: ps)).
  { assert (Hnd : NoDup (i0 :: ps)).
    { rewrite <- Hp. apply NoDup_fmap_2; [|apply NoDup_seq]. intros x y. lia. }
    clear -Hsrt Hnd. revert Hsrt Hnd. generalize (i0 :: ps). clear. intros l.
    induction l as [|i l IH]; intros Hsrt Hnd; [constructor|]. apply NoDup_cons in Hnd as [Hi Hnd].
    constructor.
    - apply IH; [|done]. intros a b x y Hab Hx Hy. apply (Hsrt (S a) (S b)); [lia|done|done].
    - apply list.Forall_forall. intros j Hj. assert (Hj' := Hj). apply elem_of_list_lookup in Hj as [k Hk].
      pose proof (Hsrt 0 (S k) i j ltac:(lia) eq_refl Hk) as Hle. apply sort_key_le in Hle.
      destruct Hle as [Hle|[Hle Hle']]; [by left|right]. split; [done|].
      assert (i <> j) by (intros ->; done). lia. }
  eexists _, _. split; [done|]. rewrite H1. cbn [app].
  split.
  - split_and!; cbn [ra cap items].
    + by apply dd_sorted.
    + apply (f_equal length) in H1. rewrite take_length in H1. cbn [length app] in H1, H2.
      cbn [length]. rewrite <- H1. cbn [length] in Hlp. lia.
    + apply (f_equal length) in H1. rewrite take_length in H1. cbn [length app] in H1 |- *. lia.
  - left. split; [done|]. split.
    + cbn [ra]. apply dd_fw_index; [done|]. by rewrite Hp.
    + intros _. cbn [cap]. unfold grow in Eg.
      destruct (Nat.ltb_spec (cap m) (length input)); [destruct al|]; simplify_eq; [left; lia|by right].
Qed.
End index.

(** *** Collections that may change their representation *)
Lemma unsorted_find_from_spec a key i :
  match unsorted_find_from cmp a key i with
  | Some p => exists x, i <= p /\ a !! (p - i) = Some x /\ cmp key x = 0%Z /\
      (forall j y, j < p - i -> a !! j = Some y -> cmp key y <> 0%Z)
  | None => forall x, x ∈ a -> cmp key x <> 0%Z
  end.
Proof.
  revert i. induction a as [|y a IH]; intros i; cbn [unsorted_find_from].
  { intros x Hx. by apply elem_of_nil in Hx. }
  destruct (Z.eqb_spec (cmp key y) 0) as [E|E].
  - exists y. rewrite Nat.sub_diag. split_and!; [lia|done|done|lia].
  - specialize (IH (S i)). destruct (unsorted_find_from cmp a key (S i)) as [p|].
    + destruct IH as (x & Hle & Hx & He & Hmin). exists x.
      replace (p - i) with (S (p - S i)) by lia. split_and!; [lia|done|done|].
      intros [|j] z Hj Hz; [by simplify_eq/=|]. apply (Hmin j); [lia|done].
    + intros x Hx. apply elem_of_cons in Hx as [->|Hx]; [done|by apply IH].
Qed.

Lemma fw_find_index_first input key x p :
  input !! p = Some x -> cmp key x = 0%Z ->
  (forall j y, j < p -> input !! j = Some y -> cmp key y <> 0%Z) ->
  fw_find cmp (fw_index cmp input) key = Some x.
Proof.
  intros Hx He Hmin. apply fw_find_unique; [done|apply fw_index_wf| |done].
  apply (fw_index_elem cmp Hc). exists p. split; [done|]. intros j y Hj Hy E.
  apply (Hmin j y Hj Hy). by apply (tw_eq_trans cmp Hc key x y).
Qed.

Lemma fw_find_index_None input key :
  (forall x, x ∈ input -> cmp key x <> 0%Z) -> fw_find cmp (fw_index cmp input) key = None.
Proof.
  intros H. apply fw_find_None. intros x Hx. apply (fw_index_elem cmp Hc) in Hx as (i & Hi & _).
  apply H. by eapply elem_of_list_lookup_2.
Qed.

(** Set represented by a collection. *)
Definition arr_rep (ic : arr_ic) (s : list N) : Prop :=
  match ic with
  | Unsorted m => fw_index cmp (ra m) ≡ₚ s /\ items m = length (ra m)
  | Sorted m => sinv m /\ ra m ≡ₚ s
  | Static a n => length a = STATIC_SIZE /\ n <= STATIC_SIZE /\ fw_wf cmp (take n a) /\ take n a ≡ₚ s
  end.

Lemma arr_rep_wf ic s : arr_rep ic s -> fw_wf cmp s.
Proof.
  destruct ic as [m|m|a n]; cbn [arr_rep].
  - intros [H _]. eapply (fw_wf_perm cmp Hc); [exact H|apply fw_index_wf].
  - intros [(H & _) H2]. eapply (fw_wf_perm cmp Hc); [exact H2|by apply ssorted_wf].
  - intros (_ & _ & H & H2). by eapply (fw_wf_perm cmp Hc).
Qed.

Lemma arr_find_ok ic s key : arr_rep ic s -> arr_find cmp ic key = Some (fw_find cmp s key).
Proof.
  intros HR. pose proof (arr_rep_wf _ _ HR) as Hw. destruct ic as [m|m|a n]; cbn [arr_rep arr_find] in *.
  - destruct HR as [HR _]. unfold unsorted_find_pos.
    rewrite <- (fw_find_perm cmp Hc _ s) by (done || apply fw_index_wf).
    pose proof (unsorted_find_from_spec (ra m) key 0) as H.
    destruct (unsorted_find_from cmp (ra m) key 0) as [p|].
    + destruct H as (x & _ & Hx & He & Hmin). rewrite Nat.sub_0_r in *. unfold rd. rewrite Hx.
      cbn [mbind option_bind]. by rewrite (fw_find_index_first _ _ _ _ Hx He Hmin).
    + by rewrite fw_find_index_None.
  - destruct HR as [(H & _) H2]. rewrite sorted_find_ok by done. f_equal.
    apply (fw_find_perm cmp Hc); [done|by apply ssorted_wf].
  - destruct HR as (Hl & Hn & Hw' & Hp). unfold static_find_pos.
    rewrite <- (fw_find_perm cmp Hc _ s) by done.
    pose proof (unsorted_find_from_spec (take n a) key 0) as H.
    destruct (unsorted_find_from cmp (take n a) key 0) as [p|].
    + destruct H as (x & _ & Hx & He & Hmin). rewrite Nat.sub_0_r in *.
      rewrite (fw_find_unique cmp Hc _ _ x) by (done || by eapply elem_of_list_lookup_2).
      apply lookup_take_Some in Hx as [Hx _]. unfold rd. rewrite Hx. done.
    + f_equal. symmetry. by apply fw_find_None.
Qed.

Lemma fw_step_add_perm s s0 k al r m' :
  fw_wf cmp s0 -> s0 ≡ₚ s ->
  ((exists x, fw_find cmp s0 k = Some x /\ r = Some x /\ m' ≡ₚ s0) \/
   (fw_find cmp s0 k = None /\ r = Some k /\ m' ≡ₚ k :: s0) \/
   (fw_find cmp s0 k = None /\ al = false /\ r = None /\ m' ≡ₚ s0)) ->
  exists s', fw_step cmp s (Add k al) (RKey r) s' /\ m' ≡ₚ s'.
Proof.
  intros Hw Hp H. rewrite (fw_find_perm cmp Hc s0 s) in H by done.
  destruct H as [(x & Hf & -> & Hm)|[(Hf & -> & Hm)|(Hf & -> & -> & Hm)]].
  - exists s. split; [by constructor|by rewrite Hm].
  - exists (k :: s). split; [by constructor|by rewrite Hm, Hp].
  - exists s. split; [by constructor|by rewrite Hm].
Qed.

Lemma fw_step_del_perm s s0 k al b m' :
  fw_wf cmp s0 -> s0 ≡ₚ s ->
  ((exists x, fw_find cmp s0 k = Some x /\ b = true /\ m' ≡ₚ fw_remove cmp s0 k) \/
   (fw_find cmp s0 k = None /\ b = false /\ m' ≡ₚ s0) \/
   (exists x, fw_find cmp s0 k = Some x /\ al = false /\ b = false /\ m' ≡ₚ s0)) ->
  exists s', fw_step cmp s (Del k al) (RStatus b) s' /\ m' ≡ₚ s'.
Proof.
  intros Hw Hp H. rewrite (fw_find_perm cmp Hc s0 s) in H by done.
  destruct H as [(x & Hf & -> & Hm)|[(Hf & -> & Hm)|(x & Hf & -> & -> & Hm)]].
  - exists (fw_remove cmp s k). split; [by econstructor|]. rewrite Hm. by apply fw_remove_perm.
  - exists s. split; [by constructor|by rewrite Hm].
  - exists s. split; [by econstructor|by rewrite Hm].
Qed.

Lemma fw_index_id l : fw_wf cmp l -> fw_index cmp l ≡ₚ l.
Proof.
  intros Hw. apply NoDup_Permutation; [apply (fw_wf_NoDup cmp Hc), fw_index_wf|by apply (fw_wf_NoDup cmp Hc)|].
  intros x. rewrite (fw_index_elem cmp Hc). split.
  - intros (i & Hi & _). by eapply elem_of_list_lookup_2.
  - intros Hx. induction l as [|y l IH]; [by apply elem_of_nil in Hx|].
    apply fw_wf_cons in Hw as [Hw Hd]. apply elem_of_cons in Hx as [->|Hx].
    + exists 0. split; [done|lia].
    + destruct (IH Hw Hx) as (i & Hi & Hm). exists (S i). split; [done|].
      intros [|j] z Hj Hz; [|apply (Hm j); [lia|done]]. cbn in Hz. simplify_eq.
      intros E. apply (Hd x Hx). by apply (tw_zero cmp Hc).
Qed.

Lemma sorted_add_rep m s key al :
  arr_rep (Sorted m) s -> exists r m' s', sorted_add cmp junk m key al = Some (r, m') /\
    fw_step cmp s (Add key al) (RKey r) s' /\ arr_rep (Sorted m') s'.
Proof.
  intros [Hi Hp]. destruct (sorted_add_ok m key al Hi) as (r & m' & E & Hi' & H).
  destruct (fw_step_add_perm s (ra m) key al r (ra m')) as (s' & Hs' & Hp').
  { apply ssorted_wf, Hi. }
  { done. }
  { destruct H as [(x & Hf & -> & ->)|[H|(Hf & -> & _ & -> & ->)]]; [left; eauto|by right; left|by right; right]. }
  exists r, m', s'. done.
Qed.

Lemma sorted_del_rep m s key al :
  arr_rep (Sorted m) s -> exists b m' s', sorted_del cmp m key = Some (b, m') /\
    fw_step cmp s (Del key al) (RStatus b) s' /\ arr_rep (Sorted m') s'.
Proof.
  intros [Hi Hp]. destruct (sorted_del_ok m key Hi) as (r & m' & E & Hi' & H).
  destruct (fw_step_del_perm s (ra m) key al r (ra m')) as (s' & Hs' & Hp').
  { apply ssorted_wf, Hi. }
  { done. }
  { destruct H as [H|(Hf & -> & ->)]; [by left|right; left; done]. }
  exists r, m', s'. done.
Qed.

Lemma convert_rep input s al :
  fw_index cmp input ≡ₚ s ->
  exists b m', sorted_index cmp sorted_new input al = Some (b, m') /\
    ((b = true /\ arr_rep (Sorted m') s) \/ (b = false /\ al = false)).
Proof.
  intros Hp. destruct (sorted_index_ok input sorted_new al) as (b & m' & E & Hi & H).
  exists b, m'. split; [done|]. destruct H as [(-> & H & _)|(-> & H & _)]; [left|by right].
  split; [done|]. split; [done|by rewrite H].
Qed.

Lemma arr_step_ok ic s o :
  arr_rep ic s -> exists r ic' s', arr_step cmp junk ic o = Some (r, ic') /\
    fw_step cmp s o r s' /\ arr_rep ic' s'.
Proof.
  intros HR. pose proof (arr_rep_wf _ _ HR) as Hw.
  destruct o as [k al|k al|k]; cbn [arr_step].
  - (* Add *)
    pose proof (arr_find_ok ic s k HR) as Hf.
    destruct ic as [m|m|a n]; cbn [arr_add].
    + rewrite Hf. cbn [mbind option_bind]. destruct (fw_find cmp s k) as [x|] eqn:Ef.
      { eexists _, _, s. split; [done|]. split; [by constructor|done]. }
      destruct HR as [HR Hit]. destruct (convert_rep (ra m) s al HR) as (b & d & -> & H). cbn [mbind option_bind].
      destruct H as [[-> H]|[-> ->]].
      * destruct (sorted_add_rep d s k al H) as (r & m' & s' & -> & Hs & HR'). cbn [mbind option_bind].
        eexists _, _, s'. done.
      * cbn [mbind option_bind]. eexists _, _, s. split; [done|]. split; [by constructor|done].
    + destruct (sorted_add_rep m s k al HR) as (r & m' & s' & -> & Hs & HR'). cbn [mbind option_bind].
      eexists _, _, s'. done.
    + rewrite Hf. cbn [mbind option_bind]. destruct (fw_find cmp s k) as [x|] eqn:Ef.
      { eexists _, _, s. split; [done|]. split; [by constructor|done]. }
      destruct HR as (Hl & Hn & Hwt & Hp).
      destruct (Nat.ltb_spec STATIC_SIZE n) as [|_]; [lia|].
      destruct (Nat.eqb_spec n STATIC_SIZE) as [->|Hne].
      * assert (Ht : take STATIC_SIZE a = a) by (apply take_ge; lia). rewrite Ht in *.
        destruct (convert_rep a s al) as (b & d & -> & H); [rewrite fw_index_id by done; done|].
        cbn [mbind option_bind]. destruct H as [[-> H]|[-> ->]].
        -- destruct (sorted_add_rep d s k al H) as (r & m' & s' & -> & Hs & HR'). cbn [mbind option_bind].
           eexists _, _, s'. done.
        -- cbn [mbind option_bind]. eexists _, _, s. split; [done|]. split; [by constructor|].
           cbn [arr_rep]. rewrite Ht. done.
      * rewrite wr_Some by lia. cbn [mbind option_bind]. unfold rd.
        rewrite list_lookup_insert by lia. cbn [mbind option_bind].
        eexists _, _, (k :: s). split; [done|]. split; [by constructor|]. cbn [arr_rep].
        rewrite insert_length.
        assert (Hts : take (S n) (<[n := k]> a) = take n a ++ [k]).
        { rewrite (take_S_r _ n k) by (apply list_lookup_insert; lia). by rewrite take_insert by lia. }
        assert (Hpp : take (S n) (<[n := k]> a) ≡ₚ k :: s).
        { rewrite Hts, Hp. by rewrite Permutation_app_comm. }
        split_and!; [done|lia| |done].
        eapply (fw_wf_perm cmp Hc); [symmetry; exact Hpp|]. apply fw_wf_cons. split; [done|].
        by apply fw_find_None.
  - (* Del *)
    pose proof (arr_find_ok ic s k HR) as Hf.
    destruct ic as [m|m|a n]; cbn [arr_del].
    + rewrite Hf. cbn [mbind option_bind]. destruct (fw_find cmp s k) as [x|] eqn:Ef.
      2:{ eexists _, _, s. split; [done|]. split; [by constructor|done]. }
      destruct HR as [HR Hit]. destruct (convert_rep (ra m) s al HR) as (b & d & -> & H). cbn [mbind option_bind].
      destruct H as [[-> H]|[-> ->]].
      * destruct (sorted_del_rep d s k al H) as (r & m' & s' & -> & Hs & HR'). cbn [mbind option_bind].
        eexists _, _, s'. done.
      * cbn [mbind option_bind]. eexists _, _, s. split; [done|]. split; [by econstructor|done].
    + destruct (sorted_del_rep m s k al HR) as (r & m' & s' & -> & Hs & HR'). cbn [mbind option_bind].
      eexists _, _, s'. done.
    + destruct HR as (Hl & Hn & Hwt & Hp). unfold static_find_pos in *. clear Hf.
      pose proof (unsorted_find_from_spec (take n a) k 0) as H.
      destruct (unsorted_find_from cmp (take n a) k 0) as [p|]; cbn [mbind option_bind].
      2:{ eexists _, _, s. split; [done|]. split; [|done]. constructor.
          apply fw_find_None. intros x Hx. apply H. by rewrite Hp. }
      destruct H as (x & _ & Hx & He & _). rewrite Nat.sub_0_r in *.
      apply lookup_take_Some in Hx as [Hx Hpn].
      assert (Hmm : memmove a p (p + 1) (n - 1 - p) =
        Some (take p a ++ take (n - 1 - p) (drop (p + 1) a) ++ drop (p + (n - 1 - p)) a)).
      { unfold memmove. replace (Nat.leb _ _) with true by (symmetry; apply Nat.leb_le; lia).
        replace (Nat.leb _ _) with true by (symmetry; apply Nat.leb_le; lia). done. }
      rewrite Hmm. cbn [mbind option_bind].
      set (a1 := take p a ++ _).
      assert (Hl1 : length a1 = length a).
      { unfold a1. rewrite !app_length, !take_length, !drop_length. lia. }
      rewrite wr_Some by lia. cbn [mbind option_bind].
      assert (Ht : take (n - 1) (<[n - 1 := 0%N]> a1) = take p a ++ take (n - 1 - p) (drop (p + 1) a)).
      { rewrite take_insert by lia. unfold a1. rewrite app_assoc. apply take_app_alt.
        rewrite app_length, !take_length, drop_length. lia. }
      assert (Hpx : take n a ≡ₚ x :: (take p a ++ take (n - 1 - p) (drop (p + 1) a))).
      { rewrite Permutation_middle. rewrite <- (take_drop_middle (take n a) p x).
        2:{ by rewrite lookup_take. }
        rewrite take_take, Nat.min_l by lia. rewrite skipn_firstn_comm.
        replace (n - S p) with (n - 1 - p) by lia. by rewrite Nat.add_1_r. }
      eexists _, _, (fw_remove cmp s k). split; [done|]. split.
      * econstructor. apply (fw_find_unique cmp Hc _ _ x); [done| |done]. rewrite <- Hp, Hpx. left.
      * assert (Hrm : take (n - 1) (<[n - 1 := 0%N]> a1) ≡ₚ fw_remove cmp s k).
        { rewrite Ht. symmetry. apply (fw_remove_perm_cons cmp Hc _ _ x); [done| |done].
          by rewrite <- Hp. }
        cbn [arr_rep]. rewrite insert_length. split_and!; [lia|lia| |done].
        eapply (fw_wf_perm cmp Hc); [symmetry; exact Hrm|]. by apply fw_wf_remove.
  - rewrite (arr_find_ok ic s k HR). cbn [mbind option_bind].
    eexists _, _, s. split; [done|]. split; [constructor|done].
Qed.

Lemma arr_items_ok ic s : arr_rep ic s ->
  arr_items ic = length (arr_elems ic) /\
  match ic with Unsorted _ => True | _ => arr_items ic = length s end.
Proof.
  destruct ic as [m|m|a n]; cbn [arr_rep arr_items arr_elems].
  - intros [_ H]. done.
  - intros [(_ & _ & H) Hp]. rewrite H, Hp. done.
  - intros (Hl & Hn & _ & Hp). rewrite <- Hp, take_length. lia.
Qed.

(** Static array: indexing is adding one by one, keeping the first of equals. *)
Lemma static_add_small a n s k al :
  arr_rep (Static a n) s -> n < STATIC_SIZE ->
  exists r a' n', arr_add cmp junk (Static a n) k al = Some (r, Static a' n') /\ n' <= S n /\
    arr_rep (Static a' n') (fw_add1 cmp s k).
Proof.
  intros HR Hn. pose proof (arr_rep_wf _ _ HR) as Hw. pose proof (arr_find_ok _ s k HR) as Hf.
  cbn [arr_add]. rewrite Hf. cbn [mbind option_bind]. unfold fw_add1.
  destruct (fw_find cmp s k) as [x|] eqn:Ef.
  { eexists _, _, n. split; [done|]. split; [lia|done]. }
  destruct HR as (Hl & Hn' & Hwt & Hp).
  destruct (Nat.ltb_spec STATIC_SIZE n) as [|_]; [lia|].
  destruct (Nat.eqb_spec n STATIC_SIZE) as [->|Hne]; [lia|].
  rewrite wr_Some by lia. cbn [mbind option_bind]. unfold rd.
  rewrite list_lookup_insert by lia. cbn [mbind option_bind].
  eexists _, _, _. split; [done|]. split; [lia|]. cbn [arr_rep].
  rewrite insert_length.
  assert (Hts : take (S n) (<[n := k]> a) = take n a ++ [k]).
  { rewrite (take_S_r _ n k) by (apply list_lookup_insert; lia). by rewrite take_insert by lia. }
  assert (Hpp : take (S n) (<[n := k]> a) ≡ₚ k :: s).
  { rewrite Hts, Hp. by rewrite Permutation_app_comm. }
  split_and!; [done|lia| |done].
  eapply (fw_wf_perm cmp Hc); [symmetry; exact Hpp|]. apply fw_wf_cons. split; [done|].
  by apply fw_find_None.
Qed.

Lemma static_index_loop_ok input a n s al :
  arr_rep (Static a n) s -> n + length input <= STATIC_SIZE ->
  exists a' n', static_index_loop cmp junk (Static a n) input al = Some (Static a' n') /\
    arr_rep (Static a' n') (fold_left (fw_add1 cmp) input s).
Proof.
  revert a n s. induction input as [|k input IH]; intros a n s HR Hn; cbn [static_index_loop fold_left].
  { by exists a, n. }
  cbn [length] in Hn.
  destruct (static_add_small a n s k al HR ltac:(lia)) as (r & a' & n' & -> & Hn' & HR').
  cbn [mbind option_bind]. apply IH; [done|lia].
Qed.

Lemma static_index_ok a input al :
  length a = STATIC_SIZE ->
  exists b ic', static_index cmp junk a input al = Some (b, ic') /\
    ((b = true /\ arr_rep ic' (fw_index cmp input)) \/ (b = false /\ al = false)).
Proof.
  intros Hl. unfold static_index. destruct (Nat.ltb_spec STATIC_SIZE (length input)) as [H|H].
  - destruct (convert_rep input (fw_index cmp input) al (reflexivity _)) as (b & d & -> & Hd).
    cbn [mbind option_bind]. eexists _, _. split; [done|]. done.
  - destruct (static_index_loop_ok input a 0 [] al) as (a' & n' & -> & HR).
    { cbn [arr_rep take]. split_and!; [done|lia|constructor|done]. }
    { done. }
    cbn [mbind option_bind]. eexists _, _. split; [done|]. left. done.
Qed.

Lemma static_new_rep : arr_rep static_new [].
Proof. cbn. split_and!; [done|unfold STATIC_SIZE; lia|constructor|done]. Qed.

(** *** Histories *)
Lemma sorted_step_kind m o r ic' : arr_step cmp junk (Sorted m) o = Some (r, ic') -> exists m', ic' = Sorted m'.
Proof.
  destruct o as [k al|k al|k]; cbn [arr_step arr_add arr_del arr_find].
  - destruct (sorted_add cmp junk m k al) as [[q m']|]; cbn [mbind option_bind]; [|done].
    intros H. injection H as _ <-. by exists m'.
  - destruct (sorted_del cmp m k) as [[q m']|]; cbn [mbind option_bind]; [|done].
    intros H. injection H as _ <-. by exists m'.
  - destruct (sorted_find cmp m k) as [q|]; cbn [mbind option_bind]; [|done].
    intros H. injection H as _ <-. by exists m.
Qed.

Lemma sorted_history_from ops m0 s0 :
  arr_rep (Sorted m0) s0 ->
  exists rs m s, run (arr_step cmp junk) (Sorted m0) ops = Some (rs, Sorted m) /\
    fw_run cmp s0 ops rs s /\ arr_rep (Sorted m) s.
Proof.
  intros H0.
  destruct (sim_run cmp (arr_step cmp junk) (fun ic s => (exists m, ic = Sorted m) /\ arr_rep ic s))
    with (ops := ops) (m := Sorted m0) (s := s0) as (rs & ic & s & Hr & Hf & [m ->] & HR).
  - intros ic s o [[m ->] HR]. destruct (arr_step_ok _ s o HR) as (r & ic' & s' & E & F & R').
    exists r, ic', s'. split; [done|]. split; [done|]. split; [|done]. by eapply sorted_step_kind.
  - split; [by exists m0|done].
  - exists rs, m, s. done.
Qed.

Lemma sorted_history_ ops :
  exists rs m s, run (arr_step cmp junk) (Sorted sorted_new) ops = Some (rs, Sorted m) /\
    fw_run cmp [] ops rs s /\ ra m ≡ₚ s /\ ssorted (ra m) /\
    items m = length s /\ length (ra m) <= cap m.
Proof.
  destruct (sorted_history_from ops sorted_new []) as (rs & m & s & Hr & Hf & (Hs & Hcap & Hit) & Hp).
  { split; [apply sinv_new|done]. }
  exists rs, m, s. split_and!; try done. by rewrite Hit, Hp.
Qed.

Lemma arr_history ops ic0 s0 :
  arr_rep ic0 s0 ->
  exists rs ic s, run (arr_step cmp junk) ic0 ops = Some (rs, ic) /\ fw_run cmp s0 ops rs s /\ arr_rep ic s.
Proof. intros H. by apply (sim_run cmp (arr_step cmp junk) arr_rep arr_step_ok). Qed.

(** Starting from a static array the unsorted kind is never reached. *)
Lemma static_step_kind ic o r ic' :
  (forall m, ic <> Unsorted m) -> arr_step cmp junk ic o = Some (r, ic') -> forall m, ic' <> Unsorted m.
Proof.
  intros Hk H m ->. destruct ic as [m0|m0|a n]; [by eapply Hk| |].
  - apply sorted_step_kind in H as [m' H]. done.
  - destruct o as [k al|k al|k]; cbn [arr_step arr_add arr_del] in H.
    + destruct (arr_find cmp (Static a n) k) as [[x|]|]; cbn [mbind option_bind] in H; try done.
      destruct (Nat.eqb (if Nat.ltb STATIC_SIZE n then 0 else n) STATIC_SIZE).
      * destruct (sorted_index cmp sorted_new a al) as [[[] d]|]; cbn [mbind option_bind] in H; try done.
        destruct (sorted_add cmp junk d k al) as [[q d']|]; cbn [mbind option_bind] in H; done.
      * destruct (wr a _ k) as [a'|]; cbn [mbind option_bind] in H; [|done].
        destruct (rd a' _) as [x|]; cbn [mbind option_bind] in H; done.
    + destruct (static_find_pos cmp a n k) as [i|]; cbn [mbind option_bind] in H; [|done].
      destruct (memmove a i (i + 1) (n - 1 - i)) as [a'|]; cbn [mbind option_bind] in H; [|done].
      destruct (wr a' (n - 1) 0%N) as [a''|]; cbn [mbind option_bind] in H; done.
    + destruct (arr_find cmp (Static a n) k); cbn [mbind option_bind] in H; done.
Qed.

Lemma arr_rep_elems ic s : (forall m, ic <> Unsorted m) -> arr_rep ic s -> arr_elems ic ≡ₚ s /\ arr_items ic = length s.
Proof.
  intros Hk HR. pose proof (arr_items_ok ic s HR) as [_ H2].
  destruct ic as [m|m|a n]; [by destruct (Hk m)| |].
  - split; [apply HR|done].
  - split; [apply HR|done].
Qed.

Lemma static_history_ ops :
  exists rs ic s, run (arr_step cmp junk) static_new ops = Some (rs, ic) /\
    fw_run cmp [] ops rs s /\ arr_elems ic ≡ₚ s /\ arr_items ic = length s.
Proof.
  destruct (sim_run cmp (arr_step cmp junk) (fun ic s => (forall m, ic <> Unsorted m) /\ arr_rep ic s))
    with (ops := ops) (m := static_new) (s := @nil N) as (rs & ic & s & Hr & Hf & Hk & HR).
  - intros ic s o [Hk HR]. destruct (arr_step_ok _ s o HR) as (r & ic' & s' & E & F & R').
    exists r, ic', s'. split; [done|]. split; [done|]. split; [|done]. by eapply static_step_kind.
  - split; [done|apply static_new_rep].
  - exists rs, ic, s. split; [done|]. split; [done|]. by apply arr_rep_elems.
Qed.

Lemma unsorted_history_ input ops :
  exists rs ic s, run (arr_step cmp junk) (unsorted_index input) ops = Some (rs, ic) /\
    fw_run cmp (fw_index cmp input) ops rs s /\
    (forall k, arr_find cmp ic k = Some (fw_find cmp s k)) /\
    (forall x, x ∈ arr_elems ic -> exists y, y ∈ s /\ cmp x y = 0%Z) /\
    (forall y, y ∈ s -> y ∈ arr_elems ic).
Proof.
  destruct (arr_history ops (unsorted_index input) (fw_index cmp input)) as (rs & ic & s & Hr & Hf & HR).
  { cbn. done. }
  exists rs, ic, s. split; [done|]. split; [done|].
  split; [intros k; by apply arr_find_ok|].
  assert (Hcase : (forall m, ic <> Unsorted m) \/ exists m, ic = Unsorted m).
  { destruct ic as [m|m|a n]; [right; eauto|by left|by left]. }
  destruct Hcase as [Hk|[m ->]].
  - destruct (arr_rep_elems ic s Hk HR) as [Hp _]. split.
    + intros x Hx. exists x. split; [by rewrite <- Hp|apply (tw_refl cmp Hc)].
    + intros y Hy. by rewrite Hp.
  - destruct HR as [Hp _]. cbn [arr_elems]. split.
    + intros x Hx.
      pose proof (unsorted_find_from_spec (ra m) x 0) as Hfd.
      destruct (unsorted_find_from cmp (ra m) x 0) as [p|].
      * destruct Hfd as (y & _ & Hy & He & Hmin). rewrite Nat.sub_0_r in *. exists y. split; [|done].
        rewrite <- Hp. apply (fw_index_elem cmp Hc). exists p. split; [done|].
        intros j z Hj Hz E. apply (Hmin j z Hj Hz). by apply (tw_eq_trans cmp Hc x y z).
      * exfalso. apply (Hfd x Hx). apply (tw_refl cmp Hc).
    + intros y Hy. rewrite <- Hp in Hy. apply (fw_index_elem cmp Hc) in Hy as (i & Hi & _).
      by eapply elem_of_list_lookup_2.
Qed.

Lemma sorted_index_keeps_first_ m input al :
  exists ok m', sorted_index cmp m input al = Some (ok, m') /\
    (ok = true ->
       ssorted (ra m') /\ items m' = length (ra m') /\
       (forall x, x ∈ ra m' <->
          exists i, input !! i = Some x /\
            forall j y, j < i -> input !! j = Some y -> cmp x y <> 0%Z) /\
       (forall y, y ∈ input -> exists x, x ∈ ra m' /\ cmp x y = 0%Z)) /\
    (ok = false -> al = false /\ cap m < length input).
Proof.
  destruct (sorted_index_ok input m al) as (b & m' & E & (Hs & Hcap & Hit) & H).
  exists b, m'. split; [done|]. destruct H as [(-> & Hp & _)|(-> & Hal & Hlt & ->)]; [|done].
  split; [|done]. intros _. split; [done|]. split; [done|].
  split.
  - intros x. rewrite Hp. apply (fw_index_elem cmp Hc).
  - intros y Hy. destruct (fw_find cmp (fw_index cmp input) y) as [x|] eqn:Ef.
    + apply fw_find_Some in Ef as [Hx He]. exists x. split; [by rewrite Hp|]. by apply (tw_zero cmp Hc).
    + exfalso. pose proof (unsorted_find_from_spec input y 0) as Hfd.
      destruct (unsorted_find_from cmp input y 0) as [p|].
      * destruct Hfd as (z & _ & Hz & He & Hmin). rewrite Nat.sub_0_r in *.
        by rewrite (fw_find_index_first _ _ _ _ Hz He Hmin) in Ef.
      * apply (Hfd y Hy). apply (tw_refl cmp Hc).
Qed.

Lemma static_index_spec_ a input al :
  length a = 3 ->
  exists ok ic, static_index cmp junk a input al = Some (ok, ic) /\
    (ok = true -> arr_elems ic ≡ₚ fw_index cmp input /\ arr_items ic = length (arr_elems ic)) /\
    (ok = false -> al = false).
Proof.
  intros Hl. destruct (static_index_ok a input al Hl) as (b & ic & E & H).
  exists b, ic. split; [done|]. destruct H as [[-> HR]|[-> ->]]; [|done].
  split; [|done]. intros _.
  assert (Hk : forall m, ic <> Unsorted m).
  { intros m ->. unfold static_index in E. destruct (Nat.ltb STATIC_SIZE (length input)) eqn:El.
    - destruct (sorted_index cmp sorted_new input al) as [[q d]|]; cbn [mbind option_bind] in E; done.
    - apply Nat.ltb_ge in El. destruct (static_index_loop_ok input a 0 [] al) as (a' & n' & E2 & _).
      { cbn [arr_rep take]. split_and!; [done|lia|constructor|done]. }
      { done. }
      rewrite E2 in E. done. }
  destruct (arr_rep_elems ic _ Hk HR) as [H1 H2]. split; [done|]. by rewrite H1.
Qed.

End proof.

Definition sorted_history cmp junk ops Hc := sorted_history_ cmp junk Hc ops.
Definition static_history cmp junk ops Hc := static_history_ cmp junk Hc ops.
Definition unsorted_history cmp junk input ops Hc := unsorted_history_ cmp junk Hc input ops.
Definition sorted_index_keeps_first cmp m input al Hc := sorted_index_keeps_first_ cmp 0%N Hc m input al.
Definition static_index_spec cmp junk a input al Hc := static_index_spec_ cmp junk Hc a input al.
