From Verif Require Import Base Spec FwFacts HSortProof Hash.

(** Slots visited by a probe that starts at [h] before it reaches [i]. *)
Definition on_path (h i x : nat) : Prop :=
  (h <= i /\ h <= x /\ x < i) \/ (i < h /\ (h <= x \/ x < i)).

Global Instance on_path_dec h i x : Decision (on_path h i x).
Proof. unfold on_path. apply _. Defined.

Definition nxt (count i : nat) : nat := if Nat.leb count (S i) then 0 else S i.
Lemma nxt_spec count i : i < count ->
  (S i < count /\ nxt count i = S i) \/ (S i = count /\ nxt count i = 0).
Proof. intros H. unfold nxt. destruct (Nat.leb_spec count (S i)); lia. Qed.

Lemma path_l c i e x : i < c -> x < c -> e < c -> i <> e ->
  on_path i e x <-> x = i \/ on_path (nxt c i) e x.
Proof. intros H1 H2 H3 H4. pose proof (nxt_spec c i H1). unfold on_path. lia. Qed.
Lemma path_l_ne c i e x : i < c -> x < c -> e < c -> i <> e -> on_path (nxt c i) e x -> x <> i.
Proof. intros H1 H2 H3 H4. pose proof (nxt_spec c i H1). unfold on_path. lia. Qed.
Lemma path_r c p i y : p < c -> i < c -> y < c -> nxt c i <> p ->
  on_path p (nxt c i) y <-> y = i \/ on_path p i y.
Proof. intros H1 H2 H3 H4. pose proof (nxt_spec c i H2). unfold on_path. lia. Qed.
Lemma path_all c b i y : b < c -> i < c -> y < c -> nxt c i = b -> y <> i -> on_path b i y.
Proof. intros H1 H2 H3 H4. pose proof (nxt_spec c i H2). unfold on_path. lia. Qed.
Lemma path_cut h x j e : on_path h x j -> ~ on_path h x e -> x <> e -> x <> j -> j <> e -> on_path j e x.
Proof. unfold on_path. lia. Qed.
Lemma path_adv c p e i : p < c -> e < c -> i < c -> p <> e -> (i = p \/ (on_path p e i /\ i <> p)) ->
  nxt c i = e \/ (on_path p e (nxt c i) /\ nxt c i <> p).
Proof. intros H1 H2 H3 H4. pose proof (nxt_spec c i H3). unfold on_path. lia. Qed.
Lemma path_total b q j : ~ on_path b q j -> q <> j -> on_path b j q.
Proof. unfold on_path. lia. Qed.
Lemma path_excl p e j : on_path p j e -> on_path p e j -> False.
Proof. unfold on_path. lia. Qed.
Lemma path_start j e : j <> e -> on_path j e j.
Proof. unfold on_path. lia. Qed.
Lemma path_nil e x : ~ on_path e e x.
Proof. unfold on_path. lia. Qed.
Lemma path_measure c i e : i < c -> e < c -> i <> e ->
  (if Nat.leb (nxt c i) e then e - nxt c i else e + c - nxt c i) < (if Nat.leb i e then e - i else e + c - i).
Proof.
  intros H1 H2 H3. pose proof (nxt_spec c i H1).
  destruct (Nat.leb_spec i e), (Nat.leb_spec (nxt c i) e); lia.
Qed.

(** *** Non-empty slots *)
Notation nzs := (List.filter (fun x : N => negb (x =? 0)%N)).

Lemma nzs_app a b : nzs (a ++ b) = nzs a ++ nzs b.
Proof. apply List.filter_app. Qed.
Lemma nzs_elem x t : x ∈ nzs t <-> x ∈ t /\ x <> 0%N.
Proof.
  rewrite !elem_of_list_In, List.filter_In. split; intros [H1 H2]; split; try done; lia.
Qed.
Lemma nzs_fill t i k : t !! i = Some 0%N -> k <> 0%N -> nzs (<[i:=k]> t) ≡ₚ k :: nzs t.
Proof.
  intros Hi Hk. pose proof (lookup_lt_Some _ _ _ Hi) as Hl.
  rewrite <- (take_drop_middle _ _ _ Hi) at 2. rewrite insert_take_drop by done.
  rewrite !nzs_app. cbn [List.filter]. destruct (N.eqb_spec k 0); [done|]. cbn [negb].
  change (0 =? 0)%N with true. cbn [negb]. by rewrite <- Permutation_middle.
Qed.
Lemma nzs_clear t i k : t !! i = Some k -> k <> 0%N -> nzs t ≡ₚ k :: nzs (<[i:=0%N]> t).
Proof.
  intros Hi Hk. pose proof (lookup_lt_Some _ _ _ Hi) as Hl.
  rewrite <- (take_drop_middle _ _ _ Hi) at 1. rewrite insert_take_drop by done.
  rewrite !nzs_app. cbn [List.filter]. destruct (N.eqb_spec k 0); [done|]. cbn [negb].
  change (0 =? 0)%N with true. cbn [negb]. by rewrite <- Permutation_middle.
Qed.
Lemma nzs_full t n : n <= length t -> (forall i, i < n -> t !! i <> Some 0%N) -> n <= length (nzs t).
Proof.
  revert n. induction t as [|x t IH]; intros n Hn Hf; [cbn in *; lia|].
  destruct n as [|n]; [lia|]. cbn [List.filter].
  destruct (N.eqb_spec x 0) as [->|Hx]; [exfalso; apply (Hf 0); [lia|done]|].
  cbn [negb length]. apply le_n_S. apply IH; [cbn in Hn; lia|]. intros i Hi. apply (Hf (S i)). lia.
Qed.
Lemma nzs_replicate n : nzs (replicate n 0%N) = [].
Proof. induction n as [|n IH]; [done|]. cbn. done. Qed.
Lemma empty_slot t count : length t = S count -> length (nzs t) < count ->
  exists e, e < count /\ t !! e = Some 0%N.
Proof.
  intros Hl Hn.
  assert (Hdec : forall n, (exists e, e < n /\ t !! e = Some 0%N) \/ forall i, i < n -> t !! i <> Some 0%N).
  { induction n as [|n [(e & He & Hz)|IH]]; [right; lia|left; exists e; split; [lia|done]|].
    destruct (decide (t !! n = Some 0%N)) as [Hz|Hz]; [left; exists n; split; [lia|done]|].
    right. intros i Hi. destruct (decide (i = n)) as [->|]; [done|]. apply IH. lia. }
  destruct (Hdec count) as [|Hf]; [done|]. pose proof (nzs_full t count ltac:(lia) Hf). lia.
Qed.

Section proof.
Context (cmp : N -> N -> Z) (hash : N -> N).
Context (Hc : three_way cmp) (Hh : forall x y, cmp x y = 0%Z -> hash x = hash y).

Notation BK count k := (bucket_of hash k count).
Lemma bucket_lt count k : 0 < count -> BK count k < count.
Proof.
  intros Hp. unfold bucket_of. pose proof (N.mod_lt (hash k) (N.of_nat count)). lia.
Qed.
Lemma bucket_eq count x y : cmp x y = 0%Z -> BK count x = BK count y.
Proof. intros E. unfold bucket_of. by rewrite (Hh x y E). Qed.

Definition differs (t : list N) (key : N) (y : nat) : Prop :=
  exists x, t !! y = Some x /\ x <> 0%N /\ cmp key x <> 0%Z.

Lemma probe_ok fuel t count key b i :
  length t = S count -> b < count -> i < count ->
  (forall y, y < count -> on_path b i y -> differs t key y) ->
  (exists e, e < count /\ t !! e = Some 0%N) ->
  (if Nat.leb b i then count - (i - b) else b - i) < fuel ->
  (exists q x, probe cmp fuel t count key b i = Some (PEqual q) /\ q < count /\ t !! q = Some x /\
      x <> 0%N /\ cmp key x = 0%Z) \/
  (exists q, probe cmp fuel t count key b i = Some (PEmpty q) /\ q < count /\ t !! q = Some 0%N /\
      forall y, y < count -> on_path b q y -> differs t key y).
Proof.
  intros Hl Hb. revert i. induction fuel as [|fuel IH]; intros i Hi Hp He Hf; [lia|].
  cbn [probe]. destruct (rd_Some t i) as [x Hx]; [lia|]. rewrite Hx. cbn [mbind option_bind].
  unfold rd in Hx. destruct (N.eqb_spec x 0) as [->|Hx0].
  { right. exists i. split_and!; done. }
  destruct (Z.eqb_spec (cmp key x) 0) as [E|E].
  { left. exists i, x. split_and!; done. }
  fold (nxt count i).
  assert (Hd : differs t key i) by (exists x; done).
  pose proof (nxt_spec count i Hi) as Hn.
  destruct (Nat.eqb_spec (nxt count i) b) as [En|En].
  - exfalso. destruct He as (e & He & Hez).
    assert (differs t key e) as (z & Hz & Hz0 & _); [|congruence].
    destruct (decide (e = i)) as [->|Hne]; [done|]. apply Hp; [done|]. by apply (path_all count).
  - apply IH; [lia| |done|].
    + intros y Hy Hpy. apply (path_r count) in Hpy; [|done..]. destruct Hpy as [->|Hpy]; [done|]. by apply Hp.
    + destruct (Nat.leb_spec b i), (Nat.leb_spec b (nxt count i)); lia.
Qed.

Definition reach (t : list N) (count : nat) : Prop :=
  forall x k, x < count -> t !! x = Some k -> k <> 0%N ->
  forall y, y < count -> on_path (BK count k) x y -> t !! y <> Some 0%N.

Lemma probe_absent t count key q :
  length t = S count -> t !! count = Some 0%N -> 0 < count -> reach t count -> q < count -> t !! q = Some 0%N ->
  (forall y, y < count -> on_path (BK count key) q y -> differs t key y) ->
  forall x, x ∈ nzs t -> cmp key x <> 0%Z.
Proof.
  intros Hl Hlast H0 Hr Hq Hqz Hp x Hx E. apply nzs_elem in Hx as [Hx Hx0].
  apply elem_of_list_lookup in Hx as [i Hi].
  assert (Hic : i < count).
  { pose proof (lookup_lt_Some _ _ _ Hi). destruct (decide (i = count)) as [->|]; [congruence|lia]. }
  pose proof (bucket_lt count key H0) as Hb.
  assert (i <> q) by (intros ->; congruence).
  destruct (decide (on_path (BK count key) q i)) as [Ho|Ho].
  - destruct (Hp i Hic Ho) as (z & Hz & _ & Hne). congruence.
  - apply path_total in Ho; [|done]. rewrite (bucket_eq count key x E) in Ho. exact (Hr i x Hic Hi Hx0 q Hq Ho Hqz).
Qed.

(** *** Invariant *)
Record tinv (t : list N) (count : nat) : Prop := {
  ti_len : length t = S count;
  ti_count : 5 <= count;
  ti_last : t !! count = Some 0%N;
  ti_load : length (nzs t) < count;
}.

Definition elems_of (z : bool) (t : list N) : list N := (if z then [0%N] else []) ++ nzs t.

Definition hrep (m : hash_ic) (s : list N) : Prop :=
  elems_of (zk m) (tbl m) ≡ₚ s /\ fw_wf cmp s /\ (N.of_nat (length s) <= hitems m)%N /\
  ((tbl m = [] /\ zk m = false) \/
   (exists count, tinv (tbl m) count /\ reach (tbl m) count)).

Lemma hash_elems_ok m s : hrep m s -> hash_elems m ≡ₚ s.
Proof.
  intros (He & _ & _ & [[Ht Hz]|(count & Hi & _)]); unfold hash_elems, elems_of in *.
  - rewrite Ht, Hz in *. cbn in *. done.
  - rewrite (ti_len _ _ Hi). pose proof (ti_count _ _ Hi).
    destruct (Nat.ltb_spec (S count) 2); [lia|]. cbn [Nat.sub]. rewrite Nat.sub_0_r.
    rewrite <- He. pose proof (ti_last _ _ Hi) as Hlast.
    rewrite (drop_S _ _ _ Hlast). cbn [take]. rewrite firstn_O.
    rewrite <- (take_drop_middle _ _ _ Hlast) at 2. rewrite nzs_app. cbn [List.filter].
    change (0 =? 0)%N with true. cbn [negb].
    rewrite (drop_ge (tbl m)) by (rewrite (ti_len _ _ Hi); lia). cbn [List.filter]. by rewrite app_nil_r.
Qed.

Lemma hrep_nzs m s : hrep m s -> forall x, x ∈ nzs (tbl m) -> x ∈ s.
Proof.
  intros (He & _) x Hx. rewrite <- He. unfold elems_of. apply elem_of_app. by right.
Qed.

Lemma hrep_length m s : hrep m s -> length s = (if zk m then 1 else 0) + length (nzs (tbl m)).
Proof.
  intros (He & _). rewrite <- He. unfold elems_of. rewrite app_length. by destruct (zk m).
Qed.

(** *** Find *)
Lemma hash_find_ok m s key : hrep m s ->
  exists r, hash_find cmp hash m key = Some r /\
    match r with
    | Some i => exists x, tbl m !! i = Some x /\ fw_find cmp s key = Some x /\
        ((x <> 0%N /\ i < length (tbl m) - 1) \/ (x = 0%N /\ i = length (tbl m) - 1 /\ zk m = true))
    | None => fw_find cmp s key = None
    end.
Proof.
  intros HR. pose proof HR as (He & Hw & _ & [[Ht Hz]|(count & Hi & Hr)]); unfold hash_find.
  - rewrite Ht. cbn. exists None. split; [done|]. rewrite Ht, Hz in He. cbn in He.
    apply Permutation_nil in He as ->. done.
  - pose proof (ti_len _ _ Hi) as Hl. pose proof (ti_count _ _ Hi) as Hcnt. rewrite Hl.
    destruct (Nat.ltb_spec (S count) 2); [lia|]. cbn [Nat.sub]. rewrite Nat.sub_0_r.
    pose proof (bucket_lt count key ltac:(lia)) as Hb.
    destruct (probe_ok (S count) (tbl m) count key (BK count key) (BK count key)) as
      [(q & x & -> & Hq & Hx & Hx0 & E)|(q & -> & Hq & Hqz & Hd)]; try done.
    + unfold on_path. lia.
    + eapply empty_slot; [done|apply Hi].
    + rewrite Nat.leb_refl. lia.
    + cbn [mbind option_bind]. exists (Some q). split; [done|]. exists x. split; [done|]. split; [|left; split; [done|lia]].
      apply (fw_find_unique cmp Hc); [done| |done]. apply (hrep_nzs m s HR).
      apply nzs_elem. split; [by eapply elem_of_list_lookup_2|done].
    + cbn [mbind option_bind].
      assert (Habs : forall x, x ∈ nzs (tbl m) -> cmp key x <> 0%Z).
      { apply (probe_absent (tbl m) count key q); try done; [apply Hi|lia]. }
      destruct (zk m) eqn:Ez.
      * unfold rd. rewrite (ti_last _ _ Hi). cbn [mbind option_bind].
        destruct (Z.eqb_spec (cmp key 0%N) 0) as [E|E].
        -- exists (Some count). split; [done|]. exists 0%N. split; [apply Hi|]. split; [|right; split; [done|split; [lia|done]]].
           apply (fw_find_unique cmp Hc); [done| |done]. rewrite <- He. left.
        -- exists None. split; [done|]. apply fw_find_None. intros x Hx. rewrite <- He in Hx.
           apply elem_of_cons in Hx as [->|Hx]; [done|by apply Habs].
      * exists None. split; [done|]. apply fw_find_None. intros x Hx. rewrite <- He in Hx. by apply Habs.
Qed.

(** *** Adding an absent key *)
Lemma index_add_raw m count key :
  tinv (tbl m) count -> key <> 0%N -> (forall x, x ∈ nzs (tbl m) -> cmp key x <> 0%Z) ->
  exists q, hash_index_add cmp hash m key = Some (Some q, HashIC (<[q:=key]> (tbl m)) (zk m) (u32_incr (hitems m))) /\
    q < count /\ tbl m !! q = Some 0%N /\
    (forall y, y < count -> on_path (BK count key) q y -> tbl m !! y <> Some 0%N).
Proof.
  intros Hi Hk Ha. unfold hash_index_add.
  pose proof (ti_len _ _ Hi) as Hl. pose proof (ti_count _ _ Hi) as Hcnt. rewrite Hl.
  destruct (Nat.leb_spec 2 (S count)); [|lia]. cbn [Nat.sub]. rewrite Nat.sub_0_r.
  destruct (N.eqb_spec key 0); [done|].
  pose proof (bucket_lt count key ltac:(lia)) as Hb.
  destruct (probe_ok (S count) (tbl m) count key (BK count key) (BK count key)) as
    [(q & x & -> & Hq & Hx & Hx0 & E)|(q & -> & Hq & Hqz & Hd)]; try done.
  + unfold on_path. lia.
  + eapply empty_slot; [done|apply Hi].
  + rewrite Nat.leb_refl. lia.
  + exfalso. apply (Ha x); [|done]. apply nzs_elem. split; [by eapply elem_of_list_lookup_2|done].
  + cbn [mbind option_bind]. rewrite wr_Some by lia. cbn [mbind option_bind].
    exists q. split_and!; try done. intros y Hy Hp Hz. destruct (Hd y Hy Hp) as (z & Hz' & Hne & _). congruence.
Qed.

Lemma reach_fill t count q key :
  length t = S count -> q < count -> t !! q = Some 0%N -> key <> 0%N -> reach t count ->
  (forall y, y < count -> on_path (BK count key) q y -> t !! y <> Some 0%N) ->
  reach (<[q:=key]> t) count.
Proof.
  intros Hl Hq Hqz Hk Hr Hp x k Hx Hxk Hk0 y Hy Hpy Hz.
  destruct (decide (y = q)) as [->|Hyq].
  { rewrite list_lookup_insert in Hz by lia. congruence. }
  rewrite list_lookup_insert_ne in Hz by done.
  destruct (decide (x = q)) as [->|Hxq].
  - rewrite list_lookup_insert in Hxk by lia. injection Hxk as <-. by apply (Hp y).
  - rewrite list_lookup_insert_ne in Hxk by done. by apply (Hr x k Hx Hxk Hk0 y).
Qed.

Lemma u32_incr_ok n : (n + 1 < 2 ^ 32)%N -> u32_incr n = (n + 1)%N.
Proof. intros Hn. unfold u32_incr, u32. by apply N.mod_small. Qed.
Lemma u32_decr_ok n : (0 < n < 2 ^ 32)%N -> u32_decr n = (n - 1)%N.
Proof.
  intros Hn. unfold u32_decr, u32. replace (n + (2 ^ 32 - 1))%N with (n - 1 + 1 * 2 ^ 32)%N by lia.
  rewrite N.mod_add by lia. apply N.mod_small. lia.
Qed.

(** Insertion of a key that is not in the set; [hitems] bound avoids wrap. *)
Lemma index_add_new m s count key :
  hrep m s -> tinv (tbl m) count -> length (nzs (tbl m)) + 1 < count -> (hitems m + 1 < 2 ^ 32)%N ->
  (forall x, x ∈ s -> cmp key x <> 0%Z) ->
  exists q m', hash_index_add cmp hash m key = Some (Some q, m') /\ tbl m' !! q = Some key /\
    hrep m' (key :: s) /\ tinv (tbl m') count /\ hitems m' = (hitems m + 1)%N /\
    length (nzs (tbl m')) <= length (nzs (tbl m)) + 1.
Proof.
  intros HR Hi Hload Hw32 Ha.
  assert (HR' := HR). destruct HR' as (He & Hw & Hit & [[Ht Hz]|(count' & Hi' & Hr)]).
  { pose proof (ti_len _ _ Hi) as Hl. rewrite Ht in Hl. done. }
  assert (count' = count) as -> by (pose proof (ti_len _ _ Hi); pose proof (ti_len _ _ Hi'); lia).
  assert (Hwf : fw_wf cmp (key :: s)) by (apply fw_wf_cons; done).
  destruct (N.eq_dec key 0) as [->|Hk].
  - unfold hash_index_add. pose proof (ti_len _ _ Hi) as Hl. pose proof (ti_count _ _ Hi) as Hcnt. rewrite Hl.
    destruct (Nat.leb_spec 2 (S count)); [|lia]. cbn [Nat.sub]. rewrite Nat.sub_0_r.
    change (0 =? 0)%N with true. rewrite wr_Some by lia. cbn [mbind option_bind].
    rewrite list_insert_id by apply Hi.
    eexists _, _. split; [done|]. cbn [tbl zk hitems]. rewrite u32_incr_ok by done.
    split; [apply Hi|]. split; [|split_and!; [done|done|lia]].
    assert (Hzk : zk m = false).
    { destruct (zk m) eqn:Ez; [|done]. exfalso. apply (Ha 0%N); [|apply (tw_refl cmp Hc)].
      rewrite <- He. left. }
    split_and!; cbn [tbl zk hitems]; [|done|cbn [length]; lia|right; eauto].
    unfold elems_of in *. rewrite Hzk in He. cbn [app] in *. by rewrite He.
  - destruct (index_add_raw m count key Hi Hk) as (q & -> & Hq & Hqz & Hp).
    { intros x Hx. apply Ha. by apply (hrep_nzs m s HR). }
    eexists _, _. split; [done|]. cbn [tbl zk hitems]. rewrite u32_incr_ok by done.
    pose proof (ti_len _ _ Hi) as Hl.
    pose proof (nzs_fill _ _ _ Hqz Hk) as Hpf.
    assert (Hi2 : tinv (<[q:=key]> (tbl m)) count).
    { split; [by rewrite insert_length|apply Hi| |rewrite Hpf; cbn [length]; lia].
      rewrite list_lookup_insert_ne by lia. apply Hi. }
    split; [apply list_lookup_insert; lia|]. split; [|split_and!; [done|done|rewrite Hpf; cbn [length]; lia]].
    split_and!; cbn [tbl zk hitems]; [|done|cbn [length]; lia|right; exists count; split; [done|]].
    + unfold elems_of in *. rewrite Hpf. rewrite <- He. by rewrite <- Permutation_middle.
    + apply reach_fill; done.
Qed.

(** *** Re-indexing into a fresh table *)
Lemma hash_index_all_ok keys m s count :
  hrep m s -> tinv (tbl m) count -> length (nzs (tbl m)) + length keys < count ->
  (hitems m + N.of_nat (length keys) < 2 ^ 32)%N ->
  fw_wf cmp (keys ++ s) ->
  exists m', hash_index_all cmp hash m keys = Some (true, m') /\ hrep m' (keys ++ s) /\ tinv (tbl m') count /\
    hitems m' = (hitems m + N.of_nat (length keys))%N /\ length (nzs (tbl m')) <= length (nzs (tbl m)) + length keys.
Proof.
  revert m s. induction keys as [|k keys IH]; intros m s HR Hi Hl Hb Hw; cbn [hash_index_all].
  { exists m. split_and!; try done; cbn; lia. }
  cbn [length] in Hl, Hb. cbn [app] in Hw. assert (Hw' := Hw). apply fw_wf_cons in Hw' as [Hw1 Hw2].
  destruct (index_add_new m s count k) as (q & m1 & -> & _ & HR1 & Hi1 & Hit1 & Hn1); try done; [lia|lia| |].
  { intros x Hx. apply Hw2. apply elem_of_app. by right. }
  cbn [mbind option_bind].
  destruct (IH m1 (k :: s)) as (m2 & E2 & HR2 & Hi2 & Hit2 & Hn2); try done; [lia|lia| |].
  { eapply (fw_wf_perm cmp Hc); [|exact Hw]. by rewrite <- Permutation_middle. }
  exists m2. split; [done|]. split_and!; [|done|cbn [length]; lia|cbn [length]; lia].
  destruct HR2 as (He & Hwf & Hit & Hcase).
  assert (Hpp : keys ++ k :: s ≡ₚ (k :: keys) ++ s) by (by rewrite <- Permutation_middle).
  split_and!; [by rewrite He|by eapply (fw_wf_perm cmp Hc)|by rewrite <- Hpp|done].
Qed.

Lemma tinv_fresh n : 6 <= n -> tinv (replicate n 0%N) (n - 1).
Proof.
  intros Hn. split; [rewrite replicate_length; lia|lia|apply lookup_replicate; split; [done|lia]|].
  rewrite nzs_replicate. cbn [length]. lia.
Qed.
Lemma hrep_fresh n : 6 <= n -> hrep (HashIC (replicate n 0%N) false 0) [].
Proof.
  intros Hn. split_and!; cbn [tbl zk hitems]; [|constructor|done|].
  - unfold elems_of. by rewrite nzs_replicate.
  - right. exists (n - 1). split; [by apply tinv_fresh|].
    intros x k Hx Hk Hk0. apply lookup_replicate in Hk as [-> _]. done.
Qed.

Lemma new_count_ok n : (n < 2 ^ 29)%N -> N.to_nat (u32 (u32 (n * 4) + 6)) = 4 * N.to_nat n + 6.
Proof.
  intros Hn. unfold u32. rewrite (N.mod_small (n * 4)) by lia. rewrite N.mod_small by lia. lia.
Qed.

Lemma hash_reindex_new n keys al :
  (0 < n < 2 ^ 29)%N -> (N.of_nat (length keys) <= n)%N -> fw_wf cmp keys ->
  exists ok m', hash_reindex cmp hash hash_new n keys al = Some (ok, m') /\
    ((ok = true /\ hrep m' keys /\ (exists count, tinv (tbl m') count /\ length (nzs (tbl m')) + 1 < count) /\
      hitems m' = N.of_nat (length keys)) \/
     (ok = false /\ al = false)).
Proof.
  intros Hn Hlk Hw. unfold hash_reindex. rewrite new_count_ok by lia. cbn [tbl hash_new length].
  destruct (N.eqb_spec n 0); [lia|]. destruct (Nat.ltb_spec 0 (4 * N.to_nat n + 6)); [|lia]. cbn [negb andb].
  destruct al.
  - destruct (hash_index_all_ok keys (HashIC (replicate (4 * N.to_nat n + 6) 0%N) false 0) [] (4 * N.to_nat n + 5))
      as (m' & -> & HR & Hi & Hit & Hnz).
    + apply hrep_fresh. lia.
    + pose proof (tinv_fresh (4 * N.to_nat n + 6) ltac:(lia)) as Ht.
      by replace (4 * N.to_nat n + 6 - 1) with (4 * N.to_nat n + 5) in Ht by lia.
    + cbn [tbl]. rewrite nzs_replicate. cbn [length]. lia.
    + cbn [hitems]. lia.
    + by rewrite app_nil_r.
    + exists true, m'. split; [done|]. left. rewrite app_nil_r in HR. split_and!; try done.
      exists (4 * N.to_nat n + 5). split; [done|]. cbn [tbl] in Hnz. rewrite nzs_replicate in Hnz. cbn [length] in Hnz. lia.
  - eexists _, _. split; [done|]. by right.
Qed.

(** *** Deletion *)
Definition reach_del (t : list N) (count p i e : nat) : Prop :=
  forall x k, x < count -> t !! x = Some k -> k <> 0%N ->
  forall y, y < count -> on_path (BK count k) x y -> t !! y = Some 0%N -> on_path p i y /\ on_path i e x.

Lemma del_loop_ok fuel m count p i e s :
  let j := nxt count i in
  tinv (tbl m) count -> p < count -> i < count -> e < count ->
  (i = p \/ (on_path p e i /\ i <> p)) -> p <> e ->
  tbl m !! e = Some 0%N ->
  (forall x, x < count -> on_path j e x -> tbl m !! x <> Some 0%N) ->
  reach_del (tbl m) count p j e ->
  elems_of (zk m) (tbl m) ≡ₚ s -> fw_wf cmp s ->
  (N.of_nat (length s) <= hitems m < 2 ^ 32)%N ->
  (if Nat.leb i e then e - i else e + count - i) <= fuel ->
  exists m', hash_del_loop cmp hash fuel m count p i = Some (true, m') /\
    hrep m' s /\ hitems m' = hitems m /\ zk m' = zk m /\ length (tbl m') = length (tbl m).
Proof.
  cbn zeta. revert m i. induction fuel as [|fuel IH]; intros m i Hi Hp Hic He Hpi Hpe Hez Hun Hr Hel Hw Hit Hf.
  { exfalso. destruct (Nat.leb_spec i e); [|lia].
    destruct Hpi as [->|[Ho Hne]]; [lia|]. unfold on_path in Ho. lia. }
  cbn [hash_del_loop]. fold (nxt count i).
  pose proof (ti_len _ _ Hi) as Hl. pose proof (nxt_spec count i Hic) as Hn.
  set (j := nxt count i) in *.
  assert (Hj : j < count) by lia.
  destruct (rd_Some (tbl m) j) as [k Hk]; [lia|]. rewrite Hk. cbn [mbind option_bind]. unfold rd in Hk.
  assert (Hje : j = e \/ (on_path p e j /\ j <> p)).
  { by apply path_adv. }
  destruct (N.eqb_spec k 0) as [->|Hk0].
  - assert (j = e) as Heq.
    { destruct (decide (j = e)) as [|Hne]; [done|]. exfalso. apply (Hun j Hj); [|done]. by apply path_start. }
    exists m. split; [done|]. split; [|done]. split_and!; [done|done|lia|]. right. exists count. split; [done|].
    intros x k Hx Hxk Hk0 y Hy Hpy Hyz. destruct (Hr x k Hx Hxk Hk0 y Hy Hpy Hyz) as [_ Ho].
    rewrite Heq in Ho. by apply path_nil in Ho.
  - assert (Hjne : j <> e) by congruence. destruct Hje as [|[Hje Hjp]]; [done|].
    destruct (Nat.eqb_spec j p); [done|].
    rewrite wr_Some by lia. cbn [mbind option_bind].
    set (t1 := <[j:=0%N]> (tbl m)).
    assert (Hpc : nzs (tbl m) ≡ₚ k :: nzs t1) by (by apply nzs_clear).
    assert (Hlc : length (nzs (tbl m)) = S (length (nzs t1))) by (by rewrite Hpc).
    assert (Hi1 : tinv t1 count).
    { split; [unfold t1; by rewrite insert_length|apply Hi| |].
      - unfold t1. rewrite list_lookup_insert_ne by lia. apply Hi.
      - pose proof (ti_load _ _ Hi). lia. }
    set (m1 := HashIC t1 (zk m) (u32_decr (hitems m))).
    assert (Hkt1 : forall x, x ∈ nzs t1 -> cmp k x <> 0%Z).
    { assert (Hw' : fw_wf cmp (k :: nzs t1)).
      { assert (Hww : fw_wf cmp (elems_of (zk m) (tbl m))) by (eapply (fw_wf_perm cmp Hc); [symmetry; exact Hel|done]).
        unfold elems_of in Hww. destruct (zk m).
        - cbn [app] in Hww. apply fw_wf_cons in Hww as [Hww _]. by eapply (fw_wf_perm cmp Hc).
        - cbn [app] in Hww. by eapply (fw_wf_perm cmp Hc). }
      by apply fw_wf_cons in Hw' as [_ Hw']. }
    destruct (index_add_raw m1 count k Hi1 Hk0 Hkt1) as (q & -> & Hq & Hqz & Hqp).
    cbn [mbind option_bind]. cbn [m1 tbl zk hitems] in *.
    assert (Hls : 0 < length s).
    { rewrite <- Hel. unfold elems_of. rewrite app_length. lia. }
    assert (Hitm : u32_incr (u32_decr (hitems m)) = hitems m).
    { rewrite u32_decr_ok by lia. rewrite u32_incr_ok by lia. lia. }
    assert (Ht1 : forall y, y <> j -> t1 !! y = tbl m !! y).
    { intros y Hy. unfold t1. by rewrite list_lookup_insert_ne. }
    assert (Ht1j : t1 !! j = Some 0%N) by (unfold t1; apply list_lookup_insert; lia).
    pose proof (bucket_lt count k ltac:(lia)) as Hbk.
    (* the new place is not past [j] *)
    assert (Hqj : q = j \/ on_path (BK count k) j q).
    { destruct (decide (q = j)) as [|Hqj]; [by left|right].
      destruct (decide (on_path (BK count k) q j)) as [Ho|Ho].
      - exfalso. by apply (Hqp j Hj Ho).
      - by apply path_total. }
    assert (Hqe : q <> e).
    { intros ->. destruct Hqj as [|Hqj]; [done|].
      destruct (Hr j k Hj Hk Hk0 e He Hqj Hez) as [Ho _]. by eapply path_excl. }
    assert (Hqn : ~ on_path (nxt count j) e q).
    { intros Ho. assert (q <> j) by (by apply (path_l_ne count j e)).
      rewrite Ht1 in Hqz by done. apply (Hun q Hq); [|done]. apply (path_l count); [done..|by right]. }
    pose proof (nzs_fill t1 q k Hqz Hk0) as Hpf.
    pose proof (nxt_spec count j Hj) as Hnj.
    pose proof (ti_load _ _ Hi) as Hload.
    destruct (IH (HashIC (<[q:=k]> t1) (zk m) (u32_incr (u32_decr (hitems m)))) j) as (m' & E' & HR' & Hit' & Hz' & Hlen'); cbn [tbl zk hitems].
    + split; [rewrite insert_length; apply Hi1|apply Hi| |].
      * rewrite list_lookup_insert_ne by lia. apply Hi1.
      * rewrite Hpf. cbn [length]. lia.
    + done.
    + done.
    + done.
    + right. done.
    + done.
    + rewrite list_lookup_insert_ne by done. rewrite Ht1 by done. done.
    + intros x Hx Ho. destruct (decide (x = q)) as [->|Hxq]; [done|].
      rewrite list_lookup_insert_ne by done. rewrite Ht1 by (by apply (path_l_ne count j e)).
      apply Hun; [done|]. apply (path_l count); [done..|by right].
    + intros x k' Hx Hxk Hk'0 y Hy Hpy Hyz.
      destruct (decide (y = q)) as [->|Hyq].
      { rewrite list_lookup_insert in Hyz by (rewrite (ti_len _ _ Hi1); lia). congruence. }
      rewrite list_lookup_insert_ne in Hyz by done.
      destruct (decide (x = q)) as [->|Hxq].
      { rewrite list_lookup_insert in Hxk by (rewrite (ti_len _ _ Hi1); lia). injection Hxk as <-.
        by destruct (Hqp y Hy Hpy). }
      rewrite list_lookup_insert_ne in Hxk by done.
      assert (x <> j) by congruence. rewrite Ht1 in Hxk by done.
      assert (Hxe : x <> e) by congruence.
      assert (Hnp : nxt count j <> p).
      { clear -Hje Hjp Hj Hp He Hpe Hnj Hjne. unfold on_path in Hje. lia. }
      destruct (decide (y = j)) as [->|Hyj].
      * split; [apply (path_r count); [done..|by left]|].
        assert (Hox : on_path j e x).
        { destruct (decide (on_path j e x)) as [Ho|Ho]; [done|].
          assert (Hnoe : ~ on_path (BK count k') x e).
          { intros Hoe. destruct (Hr x k' Hx Hxk Hk'0 e He Hoe Hez) as [_ Ho']. done. }
          by eapply path_cut. }
        apply (path_l count) in Hox; [|done..]. by destruct Hox.
      * rewrite Ht1 in Hyz by done. destruct (Hr x k' Hx Hxk Hk'0 y Hy Hpy Hyz) as [Ho1 Ho2].
        split; [apply (path_r count); [done..|by right]|].
        apply (path_l count) in Ho2; [|done..]. by destruct Ho2.
    + rewrite <- Hel. unfold elems_of. by rewrite Hpf, Hpc.
    + done.
    + rewrite Hitm. done.
    + assert (i <> e) by (clear -Hpi Hpe; destruct Hpi as [->|[Ho _]]; [done|]; intros ->; unfold on_path in Ho; lia).
      pose proof (path_measure count i e Hic He ltac:(done)) as Hms. fold j in Hms. lia.
    + exists m'. split; [done|]. split; [done|]. cbn [hitems zk tbl] in *. rewrite Hitm in Hit'.
      split; [done|]. split; [done|]. rewrite Hlen', insert_length. unfold t1. by rewrite insert_length.
Qed.


Lemma first_empty (t : list N) count j n : forall e,
  j < count -> e < count -> t !! e = Some 0%N ->
  (if Nat.leb j e then e - j else e + count - j) <= n ->
  exists e', e' < count /\ t !! e' = Some 0%N /\ forall x, x < count -> on_path j e' x -> t !! x <> Some 0%N.
Proof.
  induction n as [|n IH]; intros e Hj He Hz Hn.
  - exists e. split; [done|]. split; [done|]. intros x Hx Ho.
    exfalso. unfold on_path in Ho. destruct (Nat.leb_spec j e); lia.
  - destruct (decide (Exists (fun x => on_path j e x /\ t !! x = Some 0%N) (seq 0 count))) as [Hex|Hex].
    + apply Exists_exists in Hex as (x & Hx & Ho & Hxz). apply elem_of_seq in Hx.
      apply (IH x); [done|lia|done|]. unfold on_path in Ho.
      destruct (Nat.leb_spec j e), (Nat.leb_spec j x); lia.
    + exists e. split; [done|]. split; [done|]. intros x Hx Ho Hxz. apply Hex.
      apply Exists_exists. exists x. split; [apply elem_of_seq; lia|done].
Qed.

Lemma hash_del_ok m s key : hrep m s -> (hitems m < 2 ^ 32)%N ->
  exists b m', hash_del cmp hash m key = Some (b, m') /\
    ((exists x, fw_find cmp s key = Some x /\ b = true /\ hrep m' (fw_remove cmp s key) /\
        (hitems m' = hitems m - 1)%N) \/
     (fw_find cmp s key = None /\ b = false /\ m' = m)).
Proof.
  intros HR Hb32. destruct (hash_find_ok m s key HR) as (r & Ef & Hr). unfold hash_del. rewrite Ef.
  cbn [mbind option_bind]. destruct r as [p|].
  2:{ exists false, m. split; [done|]. right. done. }
  destruct Hr as (x & Hx & Hfx & Hcase).
  pose proof HR as (He & Hw & Hit & Htb).
  destruct Htb as [[Ht Hz]|(count & Hi & Hreach)].
  { rewrite Ht in Hx. done. }
  pose proof (ti_len _ _ Hi) as Hl. rewrite Hl in Hcase |- *. cbn [Nat.sub] in *. rewrite Nat.sub_0_r in *.
  assert (Hexs := Hfx). apply fw_find_Some in Hexs as [Hxs Hkx].
  assert (Hls : 0 < length s). { destruct s; [by apply elem_of_nil in Hxs|cbn; lia]. }
  assert (Hdec : u32_decr (hitems m) = (hitems m - 1)%N) by (apply u32_decr_ok; lia).
  (* the rest of the set *)
  assert (Hrest : forall z t, x :: elems_of z t ≡ₚ s -> elems_of z t ≡ₚ fw_remove cmp s key).
  { intros z t Hp. symmetry. apply (fw_remove_perm_cons cmp Hc s key x); [done|by symmetry|done]. }
  assert (Hlen : forall z t, x :: elems_of z t ≡ₚ s -> length (fw_remove cmp s key) = length s - 1).
  { intros z t Hp. rewrite <- (Hrest z t Hp). rewrite <- Hp. cbn [length]. lia. }
  destruct Hcase as [[Hx0 Hp]|(-> & -> & Hz)].
  - destruct (Nat.eqb_spec p count) as [|_]; [lia|].
    rewrite wr_Some by lia. cbn [mbind option_bind]. rewrite Hdec.
    set (t1 := <[p:=0%N]> (tbl m)).
    pose proof (nzs_clear _ _ _ Hx Hx0) as Hpc. fold t1 in Hpc.
    assert (Hps : x :: elems_of (zk m) t1 ≡ₚ s).
    { rewrite <- He. unfold elems_of. rewrite Hpc. by rewrite <- Permutation_middle. }
    assert (Hlc : length (nzs (tbl m)) = S (length (nzs t1))) by (by rewrite Hpc).
    pose proof (ti_load _ _ Hi) as Hload. pose proof (ti_count _ _ Hi) as Hcnt.
    assert (Hi1 : tinv t1 count).
    { split; [unfold t1; by rewrite insert_length|done| |lia].
      unfold t1. rewrite list_lookup_insert_ne by lia. apply Hi. }
    pose proof (nxt_spec count p Hp) as Hn.
    destruct (empty_slot (tbl m) count Hl Hload) as (e0 & He0 & Hz0).
    destruct (first_empty (tbl m) count (nxt count p) (2 * count) e0) as (e & Hec & Hez & Hmin).
    { lia. } { done. } { done. } { destruct (Nat.leb_spec (nxt count p) e0); lia. }
    assert (Hpe : p <> e) by congruence.
    destruct (del_loop_ok (S count) (HashIC t1 (zk m) (hitems m - 1)) count p p e (fw_remove cmp s key))
      as (m' & E' & HR' & Hit' & _); cbn [tbl zk hitems].
    + done.
    + done.
    + done.
    + done.
    + by left.
    + done.
    + unfold t1. by rewrite list_lookup_insert_ne.
    + intros y Hy Ho. unfold t1. rewrite list_lookup_insert_ne; [by apply Hmin|].
      intros ->. by eapply (path_l_ne count y e y).
    + intros y k Hy Hyk Hk0 z Hzc Ho Hzz.
      assert (y <> p). { intros ->. unfold t1 in Hyk. rewrite list_lookup_insert in Hyk by lia. congruence. }
      unfold t1 in Hyk. rewrite list_lookup_insert_ne in Hyk by done.
      assert (z = p) as ->.
      { destruct (decide (z = p)) as [|Hzp]; [done|]. exfalso.
        unfold t1 in Hzz. rewrite list_lookup_insert_ne in Hzz by done. exact (Hreach y k Hy Hyk Hk0 z Hzc Ho Hzz). }
      split.
      * apply (path_r count); [done|done|done|lia|by left].
      * assert (Hne : ~ on_path (BK count k) y e).
        { intros Hoe. exact (Hreach y k Hy Hyk Hk0 e Hec Hoe Hez). }
        assert (y <> e) by congruence.
        pose proof (path_cut _ _ _ _ Ho Hne ltac:(done) ltac:(done) Hpe) as Hox.
        apply (path_l count) in Hox; [|done..]. by destruct Hox.
    + by apply Hrest.
    + by apply fw_wf_remove.
    + rewrite (Hlen _ _ Hps). lia.
    + destruct (Nat.leb_spec p e); lia.
    + exists true, m'. split; [done|]. left. exists x. done.
  - destruct (Nat.eqb_spec count count) as [_|]; [|done]. rewrite Hdec.
    assert (Hps : 0%N :: elems_of false (tbl m) ≡ₚ s).
    { rewrite <- He, Hz. done. }
    eexists _, _. split; [done|]. left. exists 0%N. split; [done|]. split; [done|]. split; [|done].
    split_and!; cbn [tbl zk hitems].
    + by apply Hrest.
    + by apply fw_wf_remove.
    + rewrite (Hlen _ _ Hps). lia.
    + right. exists count. done.
Qed.

Lemma hrep_perm m s s' : hrep m s -> s ≡ₚ s' -> hrep m s'.
Proof.
  intros (He & Hw & Hit & Hcase) Hp. split_and!; [by rewrite He|by eapply (fw_wf_perm cmp Hc)|by rewrite <- Hp|done].
Qed.

Lemma hash_add_ok m s key al : hrep m s -> (hitems m + 1 < 2 ^ 29)%N ->
  exists r m', hash_add cmp hash m key al = Some (r, m') /\
    ((exists x i, fw_find cmp s key = Some x /\ r = Some i /\ tbl m' !! i = Some x /\ m' = m) \/
     (exists i, fw_find cmp s key = None /\ r = Some i /\ tbl m' !! i = Some key /\ hrep m' (key :: s) /\
        (hitems m' <= hitems m + 1)%N /\
        (hitems m = N.of_nat (length s) -> hitems m' = N.of_nat (length (key :: s)))) \/
     (fw_find cmp s key = None /\ al = false /\ r = None /\ hrep m' s /\ hitems m' = (hitems m + 1)%N)).
Proof.
  intros HR Hb. destruct (hash_find_ok m s key HR) as (r & Ef & Hr). unfold hash_add. rewrite Ef.
  cbn [mbind option_bind]. destruct r as [i|].
  { destruct Hr as (x & Hx & Hfx & _). exists (Some i), m. split; [done|]. left. eauto 10. }
  pose proof HR as (He & Hw & Hit & Htb).
  assert (Ha : forall x, x ∈ s -> cmp key x <> 0%Z) by (by apply fw_find_None).
  destruct (N.leb_spec (N.of_nat (length (tbl m)) / 2) (hitems m)) as [Hg|Hg].
  - cbn [hitems]. rewrite u32_incr_ok by lia.
    set (m1 := HashIC (tbl m) (zk m) (hitems m + 1)).
    assert (HR1 : hrep m1 s) by (split_and!; cbn [m1 tbl zk hitems]; [done|done|lia|done]).
    assert (Hes : hash_elems m1 ≡ₚ s) by (by apply hash_elems_ok).
    destruct (hash_reindex_new (hitems m + 1) (hash_elems m1) al) as (ok & d & -> & Hd).
    { lia. } { rewrite Hes. lia. } { eapply (fw_wf_perm cmp Hc); [symmetry; exact Hes|done]. }
    cbn [mbind option_bind]. destruct Hd as [(-> & HRd & (count & Hid & Hnd) & Hitd)|[-> ->]].
    + rewrite Hes in Hitd.
      destruct (index_add_new d s count key) as (q & m' & -> & Hq & HR' & _ & Hit' & _).
      { by eapply hrep_perm. } { done. } { done. } { lia. } { done. }
      exists (Some q), m'. split; [done|]. right. left. exists q. split_and!; try done; [lia|].
      intros _. cbn [length]. lia.
    + exists None, m1. split; [done|]. right. right. done.
  - destruct Htb as [[Ht Hz]|(count & Hi & Hreach)].
    { rewrite Ht in Hg. cbn in Hg. lia. }
    pose proof (ti_len _ _ Hi) as Hl. pose proof (ti_count _ _ Hi) as Hcnt. rewrite Hl in Hg.
    pose proof (hrep_length m s HR) as Hlen.
    destruct (index_add_new m s count key) as (q & m' & -> & Hq & HR' & _ & Hit' & _).
    { done. } { done. } { destruct (zk m); lia. } { lia. } { done. }
    exists (Some q), m'. split; [done|]. right. left. exists q. split_and!; try done; [lia|].
    intros E0. rewrite Hit', E0. cbn [length]. lia.
Qed.

Lemma hash_step_ok m s o : hrep m s -> (hitems m + 1 < 2 ^ 29)%N ->
  exists r m' s', hash_step cmp hash m o = Some (r, m') /\ fw_step cmp s o r s' /\ hrep m' s' /\
    (hitems m' <= hitems m + 1)%N /\
    (op_alloc o = true -> hitems m = N.of_nat (length s) -> hitems m' = N.of_nat (length s')).
Proof.
  intros HR Hb. destruct o as [k al|k al|k]; cbn [hash_step op_alloc].
  - destruct (hash_add_ok m s k al HR Hb) as (r & m' & -> & H). cbn [mbind option_bind].
    destruct H as [(x & i & Hf & -> & Hx & ->)|[(i & Hf & -> & Hx & HR' & H1 & H2)|(Hf & -> & -> & HR' & H1)]].
    + unfold rd. rewrite Hx. cbn [mbind option_bind]. eexists _, _, s. split; [done|].
      split; [by constructor|]. split; [done|]. split; [lia|done].
    + unfold rd. rewrite Hx. cbn [mbind option_bind]. eexists _, _, (k :: s). split; [done|].
      split; [by constructor|]. done.
    + eexists _, _, s. split; [done|]. split; [by constructor|]. split; [done|]. split; [lia|done].
  - destruct (hash_del_ok m s k HR ltac:(lia)) as (b & m' & -> & H). cbn [mbind option_bind].
    destruct H as [(x & Hf & -> & HR' & H1)|(Hf & -> & ->)].
    + eexists _, _, (fw_remove cmp s k). split; [done|]. split; [by econstructor|]. split; [done|].
      split; [lia|]. intros _ E. rewrite H1, E.
      assert (Hxs := Hf). apply fw_find_Some in Hxs as [Hx Hk].
      apply elem_of_Permutation in Hx as [s1 Hs1].
      pose proof (proj1 (proj2 HR)) as Hw.
      rewrite (fw_remove_perm_cons cmp Hc s k x s1 Hw Hs1 Hk). rewrite Hs1. cbn [length]. lia.
    + eexists _, _, s. split; [done|]. split; [by econstructor|]. split; [done|]. split; [lia|done].
  - destruct (hash_find_ok m s k HR) as (r & -> & H). cbn [mbind option_bind]. destruct r as [i|].
    + destruct H as (x & Hx & Hf & _). unfold rd. rewrite Hx. cbn [mbind option_bind].
      eexists _, _, s. split; [done|]. rewrite <- Hf. split; [constructor|]. split; [done|]. split; [lia|done].
    + eexists _, _, s. split; [done|]. rewrite <- H. split; [constructor|]. split; [done|]. split; [lia|done].
Qed.

Lemma hash_history_from ops m s : hrep m s -> (hitems m + N.of_nat (length ops) < 2 ^ 29)%N ->
  exists rs m' s', run (hash_step cmp hash) m ops = Some (rs, m') /\ fw_run cmp s ops rs s' /\ hrep m' s' /\
    (forallb op_alloc ops = true -> hitems m = N.of_nat (length s) -> hitems m' = N.of_nat (length s')).
Proof.
  revert m s. induction ops as [|o ops IH]; intros m s HR Hb; cbn [run].
  { exists [], m, s. split; [done|]. split; [constructor|]. done. }
  cbn [length] in Hb. destruct (hash_step_ok m s o HR ltac:(lia)) as (r & m1 & s1 & -> & F1 & HR1 & Hb1 & Hi1).
  cbn [mbind option_bind].
  destruct (IH m1 s1 HR1 ltac:(lia)) as (rs & m2 & s2 & -> & F2 & HR2 & Hi2). cbn [mbind option_bind].
  exists (r :: rs), m2, s2. split; [done|]. split; [by econstructor|]. split; [done|].
  cbn [forallb]. intros Ha E. apply andb_prop in Ha as [Ha1 Ha2]. by apply Hi2; [|apply Hi1].
Qed.

Lemma hrep_new : hrep hash_new [].
Proof. split_and!; cbn; [done|constructor|lia|by left]. Qed.

Lemma hash_history_ ops : (N.of_nat (length ops) < 2 ^ 29)%N ->
  exists rs m s, run (hash_step cmp hash) hash_new ops = Some (rs, m) /\ fw_run cmp [] ops rs s /\
    hash_elems m ≡ₚ s /\ (N.of_nat (length s) <= hitems m)%N /\
    (forallb op_alloc ops = true -> hitems m = N.of_nat (length (hash_elems m))).
Proof.
  intros Hb. destruct (hash_history_from ops hash_new [] hrep_new) as (rs & m & s & E & F & HR & Hi).
  { cbn [hitems hash_new]. lia. }
  exists rs, m, s. split; [done|]. split; [done|]. pose proof (hash_elems_ok m s HR) as He.
  split; [done|]. split; [apply HR|]. intros Ha. rewrite He. by apply Hi.
Qed.

(** *** Bulk indexing: arrays in which nothing but itself equals the zero key *)
Lemma index_add_dup m s count key :
  hrep m s -> tinv (tbl m) count -> length (nzs (tbl m)) + 1 < count -> (hitems m + 1 < 2 ^ 32)%N ->
  (key = 0%N -> fw_find cmp s key = None) -> (fw_find cmp s key <> Some 0%N) ->
  exists q m', hash_index_add cmp hash m key = Some (Some q, m') /\
    hrep m' (fw_add1 cmp s key) /\ tinv (tbl m') count /\
    hitems m' = (hitems m + N.of_nat (length (fw_add1 cmp s key)) - N.of_nat (length s))%N /\
    length (nzs (tbl m')) <= length (nzs (tbl m)) + 1.
Proof.
  intros HR Hi Hl Hb Hz1 Hz2. unfold fw_add1.
  destruct (fw_find cmp s key) as [x|] eqn:Ef.
  - assert (Hk0 : key <> 0%N) by (intros ->; specialize (Hz1 eq_refl); done).
    assert (Hx0 : x <> 0%N) by congruence.
    pose proof (fw_find_Some _ _ _ _ Ef) as [Hxs Hkx].
    pose proof HR as (He & Hw & Hit & [[Ht Hz]|(count' & Hi' & Hr)]).
    { pose proof (ti_len _ _ Hi) as Hl'. rewrite Ht in Hl'. done. }
    assert (count' = count) as -> by (pose proof (ti_len _ _ Hi); pose proof (ti_len _ _ Hi'); lia).
    unfold hash_index_add. pose proof (ti_len _ _ Hi) as Hlt. pose proof (ti_count _ _ Hi) as Hcnt. rewrite Hlt.
    destruct (Nat.leb_spec 2 (S count)); [|lia]. cbn [Nat.sub]. rewrite Nat.sub_0_r.
    destruct (N.eqb_spec key 0); [done|].
    pose proof (bucket_lt count key ltac:(lia)) as Hbk.
    destruct (probe_ok (S count) (tbl m) count key (BK count key) (BK count key)) as
      [(q & z & -> & Hq & Hz & Hz0 & E)|(q & -> & Hq & Hqz & Hd)]; try done.
    + unfold on_path. lia.
    + eapply empty_slot; [done|apply Hi].
    + rewrite Nat.leb_refl. lia.
    + cbn [mbind option_bind]. eexists _, _. split; [done|]. split; [done|]. split; [done|]. split; [lia|lia].
    + exfalso. assert (Habs : forall x, x ∈ nzs (tbl m) -> cmp key x <> 0%Z).
      { apply (probe_absent (tbl m) count key q); try done; [apply Hi|lia]. }
      apply (Habs x); [|done]. rewrite <- He in Hxs. unfold elems_of in Hxs.
      apply elem_of_app in Hxs as [Hxs|Hxs]; [|done]. destruct (zk m); [|by apply elem_of_nil in Hxs].
      apply elem_of_list_singleton in Hxs. done.
  - destruct (index_add_new m s count key HR Hi Hl Hb) as (q & m' & -> & _ & HR' & Hi' & Hit' & Hn').
    { by apply fw_find_None. }
    eexists _, _. split; [done|]. split; [done|]. split; [done|]. split; [|lia].
    rewrite Hit'. cbn [length]. lia.
Qed.

Lemma fw_add1_length s k : length s <= length (fw_add1 cmp s k).
Proof. unfold fw_add1. destruct (fw_find cmp s k); cbn [length]; lia. Qed.

(** [pos] elements before; zero occurs at most once and equals nothing else. *)
Definition zero_alone (l : list N) : Prop :=
  forall i j x, l !! i = Some 0%N -> l !! j = Some x -> i <> j -> cmp 0%N x <> 0%Z.

Lemma hash_index_all_dup keys pre m s count :
  hrep m s -> tinv (tbl m) count -> length (nzs (tbl m)) + length keys < count ->
  (hitems m + N.of_nat (length keys) < 2 ^ 32)%N ->
  zero_alone (pre ++ keys) -> (forall x, x ∈ s -> x ∈ pre) -> hitems m = N.of_nat (length s) ->
  exists m', hash_index_all cmp hash m keys = Some (true, m') /\ hrep m' (fold_left (fw_add1 cmp) keys s) /\
    tinv (tbl m') count /\ hitems m' = N.of_nat (length (fold_left (fw_add1 cmp) keys s)).
Proof.
  revert pre m s. induction keys as [|k keys IH]; intros pre m s HR Hi Hl Hb Hz Hpre Hit; cbn [hash_index_all fold_left].
  { exists m. done. }
  cbn [length] in Hl, Hb.
  destruct (index_add_dup m s count k HR Hi) as (q & m1 & -> & HR1 & Hi1 & Hit1 & Hn1).
  { lia. } { lia. }
  { intros ->. apply fw_find_None. intros x Hx. apply Hpre in Hx. apply elem_of_list_lookup in Hx as [i Hx].
    apply (Hz (length pre) i x).
    - apply list_lookup_middle. done.
    - by apply lookup_app_l_Some.
    - apply lookup_lt_Some in Hx. lia. }
  { intros Ef. apply fw_find_Some in Ef as [Hx E]. apply Hpre in Hx. apply elem_of_list_lookup in Hx as [i Hx].
    apply (Hz i (length pre) k).
    - by apply lookup_app_l_Some.
    - apply list_lookup_middle. done.
    - apply lookup_lt_Some in Hx. lia.
    - by apply (tw_zero cmp Hc). }
  cbn [mbind option_bind]. pose proof (fw_add1_length s k) as Hfl.
  assert (Hfl2 : length (fw_add1 cmp s k) <= S (length s)).
  { unfold fw_add1. destruct (fw_find cmp s k); cbn [length]; lia. }
  apply (IH (pre ++ [k])); [done|done|lia|lia| | |lia].
  - by rewrite <- app_assoc.
  - intros x Hx. unfold fw_add1 in Hx. apply elem_of_app. destruct (fw_find cmp s k); [left; by apply Hpre|].
    apply elem_of_cons in Hx as [->|Hx]; [right; left|left; by apply Hpre].
Qed.

Lemma hash_index_ok m s0 input al :
  hrep m s0 -> (N.of_nat (length input) < 2 ^ 29)%N -> zero_alone input ->
  exists ok m', hash_index cmp hash m input al = Some (ok, m') /\
    ((ok = true /\ hrep m' (fw_index cmp input) /\ hitems m' = N.of_nat (length (fw_index cmp input))) \/
     (ok = false /\ al = false /\ hrep m' [] /\ m' = hash_new)).
Proof.
  intros HR Hb Hz. unfold hash_index, hash_reindex.
  assert (E32 : u32 (N.of_nat (length input)) = N.of_nat (length input)) by (unfold u32; apply N.mod_small; lia).
  rewrite E32. rewrite new_count_ok by lia. rewrite Nat2N.id.
  assert (Hgo : forall n, 6 <= n -> 4 * length input + 6 <= n -> 
    exists m', hash_index_all cmp hash (HashIC (replicate n 0%N) false 0) input = Some (true, m') /\
      hrep m' (fw_index cmp input) /\ hitems m' = N.of_nat (length (fw_index cmp input))).
  { intros n Hn Hn2.
    destruct (hash_index_all_dup input [] (HashIC (replicate n 0%N) false 0) [] (n - 1)) as (m' & -> & HR' & _ & Hit').
    - by apply hrep_fresh.
    - by apply tinv_fresh.
    - cbn [tbl]. rewrite nzs_replicate. cbn [length]. lia.
    - cbn [hitems]. lia.
    - done.
    - intros x Hx. by apply elem_of_nil in Hx.
    - done.
    - exists m'. done. }
  destruct (N.eqb_spec (N.of_nat (length input)) 0) as [E0|E0]; cbn [negb andb].
  - assert (input = []) as -> by (apply nil_length_inv; lia). cbn [hash_index_all].
    eexists _, _. split; [done|]. left. split; [done|]. split; [|done].
    destruct HR as (_ & _ & _ & [[Ht _]|(count & Hi & _)]).
    + rewrite Ht. cbn. apply hrep_new.
    + apply hrep_fresh. pose proof (ti_len _ _ Hi). pose proof (ti_count _ _ Hi). lia.
  - destruct (Nat.ltb_spec (length (tbl m)) (4 * length input + 6)) as [Hlt|Hge].
    + destruct al.
      * destruct (Hgo (4 * length input + 6)) as (m' & -> & H1 & H2); [lia|lia|].
        eexists _, _. split; [done|]. by left.
      * eexists _, _. split; [done|]. right. split; [done|]. split; [done|]. split; [apply hrep_new|done].
    + destruct (Hgo (length (tbl m))) as (m' & -> & H1 & H2); [lia|lia|].
      eexists _, _. split; [done|]. by left.
Qed.

Lemma hash_index_spec_ input al ops :
  (N.of_nat (length input + length ops) < 2 ^ 29)%N -> zero_alone input ->
  exists ok m, hash_index cmp hash hash_new input al = Some (ok, m) /\
    (ok = false -> al = false) /\
    (ok = true -> hash_elems m ≡ₚ fw_index cmp input /\
       hitems m = N.of_nat (length (fw_index cmp input)) /\
       exists rs m' s, run (hash_step cmp hash) m ops = Some (rs, m') /\
         fw_run cmp (fw_index cmp input) ops rs s /\ hash_elems m' ≡ₚ s).
Proof.
  intros Hb Hz. destruct (hash_index_ok hash_new [] input al hrep_new ltac:(lia) Hz) as (ok & m & -> & H).
  exists ok, m. split; [done|]. destruct H as [(-> & HR & Hit)|(-> & -> & _)]; [|done].
  split; [done|]. intros _. split; [by apply hash_elems_ok|]. split; [done|].
  assert (Hle : length (fw_index cmp input) <= length input).
  { clear. unfold fw_index. change (fun s k => _) with (fw_add1 cmp).
    assert (Hg : forall l s, length (fold_left (fw_add1 cmp) l s) <= length s + length l).
    { induction l as [|k l IH]; intros s; cbn [fold_left length]; [lia|]. specialize (IH (fw_add1 cmp s k)).
      unfold fw_add1 in *. destruct (fw_find cmp s k); cbn [length] in *; lia. }
    specialize (Hg input []). cbn [length] in Hg. lia. }
  destruct (hash_history_from ops m _ HR) as (rs & m' & s & E & F & HR' & _).
  { rewrite Hit. lia. }
  exists rs, m', s. split; [done|]. split; [done|]. by apply hash_elems_ok.
Qed.

End proof.
