(** The whole load (src/mr_load.c): pointers are followed, and everything is
    released after a failure. *)
From Verif Require Import Base Load LoadSpec LoadSafe LoadInv LoadInv2 LoadPlace.
Local Open Scope Z_scope.

Lemma peek_skip l1 l a :
  Forall (fun x => (st_at x).1 <> a.1) l1 -> peek (l1 ++ l) a = peek l a.
Proof.
  induction 1 as [|x l1 Hx HF IH]; [done|]. cbn [app]. rewrite peek_cons, IH.
  unfold meets. destruct (Nat.eqb_spec a.1 (st_at x).1); [congruence|].
  rewrite andb_false_r. done.
Qed.

Section run.
Context (env : list td) (leaf : node -> stype -> bool * bool) (alloc : nat -> bool).
Hypothesis Henv : env_ok env.
Hypothesis Hunion : union_free env.
Context (nodes : list node) (root : node) (size : Z).
Hypothesis Htree : tree_ok nodes root.

Notation Inv := (Inv env).
Notation place := (place env).
Notation load_good := (load_good env leaf alloc).

Record Run (bty : list gty) (i : nat) (s : state) : Prop := {
  r_inv : Inv bty i s;
  r_live : forall b, (b < length (blocks s))%nat -> exists m, blocks s !! b = Some (Some m);
  r_len : length (ra s) = S (length nodes);
  r_node : forall j e, ra s !! j = Some e -> (dummy :: nodes) !! j = Some (e_node e);
  r_in : forall j e, ra s !! j = Some e -> e_at e <> None -> j ∈ n_idx <$> subtree root;
  r_pos : (0 < length bty)%nat;
  r_dest : blocks s !! 0%nat = Some (Some size);
}.

Lemma links_sub nd m : links_ok nd -> m ∈ subtree nd -> links_ok m.
Proof.
  revert m. apply (node_ind2 (fun nd => forall m, links_ok nd -> m ∈ subtree nd -> links_ok m)).
  intros x IH m HL Hm. apply subtree_inv in Hm as [->|(k & Hk & Hm)]; [done|].
  rewrite Forall_forall in IH. eapply IH; [done|by eapply links_kid|done].
Qed.

Lemma subtree_trans x y z : y ∈ subtree x -> z ∈ subtree y -> z ∈ subtree x.
Proof.
  revert y z. apply (node_ind2 (fun x => forall y z, y ∈ subtree x -> z ∈ subtree y -> z ∈ subtree x)).
  intros nd IH y z Hy Hz. apply subtree_inv in Hy as [->|(k & Hk & Hy)]; [done|].
  rewrite Forall_forall in IH. eapply subtree_kid; [done|]. by eapply IH.
Qed.

Lemma nodup_sub nd m : NoDup (n_idx <$> subtree nd) -> m ∈ subtree nd -> NoDup (n_idx <$> subtree m).
Proof.
  revert m. apply (node_ind2 (fun nd => forall m, NoDup (n_idx <$> subtree nd) -> m ∈ subtree nd -> NoDup (n_idx <$> subtree m))).
  intros x IH m HN Hm. apply subtree_inv in Hm as [->|(k & Hk & Hm)]; [done|].
  rewrite Forall_forall in IH. eapply IH; [done| |done].
  rewrite idxs_sub in HN. apply NoDup_cons in HN as [_ HN]. clear -HN Hk.
  induction (n_kids x) as [|y ks IHk]; [by apply elem_of_nil in Hk|].
  rewrite idxs_cons in HN. apply NoDup_app in HN as (H1 & _ & H2).
  apply elem_of_cons in Hk as [->|Hk]; [done|by apply IHk].
Qed.

Lemma node_at bty i s j e :
  Run bty i s -> ra s !! j = Some e -> e_at e <> None -> e_node e ∈ subtree root /\ n_idx (e_node e) = j.
Proof.
  intros HR He Ha. destruct Htree as (_ & _ & _ & HT).
  pose proof (r_in _ _ _ HR _ _ He Ha) as Hin. apply elem_of_list_fmap in Hin as (m & -> & Hm).
  pose proof (r_node _ _ _ HR _ _ He) as H. rewrite (HT m Hm) in H. injection H as <-. done.
Qed.

Lemma node_entry bty i s m :
  Run bty i s -> m ∈ subtree root -> exists e, ra s !! n_idx m = Some e /\ e_node e = m.
Proof.
  intros HR Hm. destruct Htree as (_ & _ & _ & HT). specialize (HT m Hm).
  destruct (lookup_lt_is_Some_2 (ra s) (n_idx m)) as [e He].
  { rewrite (r_len _ _ _ HR). apply lookup_lt_Some in HT. exact HT. }
  exists e. split; [done|]. pose proof (r_node _ _ _ HR _ _ He). congruence.
Qed.

(** A node below a node that was not loaded was not loaded. *)
Lemma loaded_up bty i s nd :
  Run bty i s -> nd ∈ subtree root -> forall m, m ∈ subtree nd ->
  forall e, ra s !! n_idx m = Some e -> e_at e <> None ->
  forall e', ra s !! n_idx nd = Some e' -> e_at e' <> None.
Proof.
  intros HR. revert nd.
  apply (node_ind2 (fun nd => nd ∈ subtree root -> forall m, m ∈ subtree nd ->
    forall e, ra s !! n_idx m = Some e -> e_at e <> None ->
    forall e', ra s !! n_idx nd = Some e' -> e_at e' <> None)).
  intros nd IH Hnd m Hm e He Ha e' He'.
  apply subtree_inv in Hm as [->|(k & Hk & Hm)]; [congruence|].
  rewrite Forall_forall in IH.
  assert (Hkr : k ∈ subtree root).
  { eapply subtree_trans; [exact Hnd|]. eapply subtree_kid; [done|apply subtree_self]. }
  destruct (node_entry _ _ _ _ HR Hkr) as (ek & Hek & Enk).
  pose proof (IH k Hk Hkr m Hm e He Ha ek Hek) as Hak.
  destruct Htree as (_ & _ & HL & _).
  destruct (HL nd Hnd) as [Hpos Hkids]. destruct (Hkids k Hk) as [Hp _].
  destruct (i_par _ _ _ _ (r_inv _ _ _ HR) _ _ Hek Hak) as [H0|(ep & Hep & Hp' & _)].
  - rewrite Enk in H0. lia.
  - rewrite Enk, Hp in Hep. congruence.
Qed.

(** The nodes under a pointer that was not followed yet. *)
Lemma kids_fresh bty i s e k :
  Run bty i s -> ra s !! i = Some e -> loaded_as Pointer e = true -> k ∈ n_kids (e_node e) -> Fresh s k.
Proof.
  intros HR He Hl Hk m Hm.
  assert (Ha : e_at e <> None) by (unfold loaded_as in Hl; by destruct (e_at e)).
  destruct (node_at _ _ _ _ _ HR He Ha) as [Hnr Hni].
  assert (Hkr : k ∈ subtree root).
  { eapply subtree_trans; [exact Hnr|]. eapply subtree_kid; [done|apply subtree_self]. }
  destruct (node_entry _ _ _ m HR) as (em & Hem & Enm).
  { by eapply subtree_trans. }
  exists em. split; [done|]. split; [done|].
  destruct (e_at em) eqn:E; [|done]. exfalso.
  destruct (node_entry _ _ _ k HR Hkr) as (ek & Hek & Enk).
  assert (Hak : e_at ek <> None).
  { eapply loaded_up; [exact HR|exact Hkr|exact Hm|exact Hem|congruence|done]. }
  destruct Htree as (_ & _ & HL & _).
  destruct (HL _ Hnr) as [Hpos Hkids]. destruct (Hkids k Hk) as [Hp _].
  destruct (i_par _ _ _ _ (r_inv _ _ _ HR) _ _ Hek Hak) as [H0|(ep & Hep & Hp' & Hb)].
  - rewrite Enk in H0. lia.
  - rewrite Enk, Hp, Hni in Hep, Hb. assert (ep = e) as -> by congruence. specialize (Hb Hl). lia.
Qed.

Lemma target_stype ty : stype_ok env ty -> s_kind ty = Pointer ->
  stype_ok env (f_ty (target_fd env ty)) /\ s_kind (f_ty (target_fd env ty)) <> CharArray.
Proof.
  intros [_ H] Hk. rewrite Hk in H. destruct H as (_ & (H1 & H2 & H3) & H4).
  unfold target_fd, stype_ok. cbn [f_ty s_kind s_size s_aux s_td s_dims].
  split; [|done]. split; [done|].
  destruct (s_aux ty) eqn:Ek; try done. split; [done|]. split; [by apply H4|]. intros _. by apply H4.
Qed.

Lemma good_targets T g (cell : addr) b i cnt m mc :
  f_ty g = T -> s_kind T <> CharArray -> cell.1 <> b ->
  forall ks x given s bty, 0 <= x -> x + Z.of_nat (length ks) <= cnt ->
    Todo env leaf alloc ks i (S i) s -> Inv bty (S i) s ->
    bty !! b = Some (Some (T, cnt, i)) ->
    blocks s !! b = Some (Some m) ->
    blocks s !! cell.1 = Some (Some mc) -> 0 <= cell.2 -> cell.2 + 8 <= mc ->
    peek (log s) cell = Some (To (b, 0)) -> (0 < length bty)%nat ->
    good env (idxs ks) (b, 0) (S i) bty s (targets (load env leaf alloc) g cell ks x given s).
Proof.
  intros Hg HT Hne. induction ks as [|k ks IH]; intros x given s bty Hx Hc HTD HI Hb Hm Hmc Hc1 Hc2 Hpk Hpos;
    cbn [targets].
  { eapply good_intro; [done|apply Post_refl]. }
  rewrite (get_ptr_peek _ _ mc) by done. rewrite Hpk. cbn [mbind option_bind].
  destruct (Todo_head _ _ _ _ _ _ _ _ HTD) as (HG & HF & HN & HL & HO & HP).
  set (c := shift (b, 0) (x * s_size (f_ty g))).
  assert (Hpl : place bty c (f_ty g) i).
  { exists T, cnt, x, 0. rewrite Hg. split; [done|]. cbn [length] in Hc. split; [lia|]. split; [constructor|].
    cbn. rewrite Hg. lia. }
  destruct (HG (match given with Some _ => given | None => n_fd k end) (next_nameless ks)
              c g (Some cell) s bty (S i) i m) as (ok & giv & s1 & bty1 & -> & HI1 & HP1);
    [done..|right; by rewrite Hg|].
  cbn [mbind option_bind].
  assert (S1 : (n_idx <$> subtree k) ⊆ idxs (k :: ks)).
  { rewrite idxs_cons. intros z Hz. apply elem_of_app. by left. }
  assert (S2 : idxs ks ⊆ idxs (k :: ks)).
  { rewrite idxs_cons. intros z Hz. apply elem_of_app. by right. }
  destruct ok.
  - eapply good_trans; [exact HP1|apply IH|exact S1|exact S2|done|done].
    + lia.
    + cbn [length] in Hc. lia.
    + by eapply Todo_next.
    + done.
    + destruct (p_bty _ _ _ _ _ _ HP1) as [z ->]. by apply lookup_app_l_Some.
    + by eapply live_frame.
    + by eapply live_frame.
    + done.
    + done.
    + destruct (p_log _ _ _ _ _ _ HP1) as (l & -> & Hl). rewrite peek_skip; [done|].
      eapply Forall_impl; [exact Hl|]. cbn. intros y [Hy|Hy]; [congruence|].
      apply lookup_lt_Some in Hmc. lia.
    + by eapply btylen_frame.
  - eapply good_intro; [done|]. eapply Post_trans; [exact HP1|apply (Post_refl (idxs ks) (b, 0))|..]; done.
Qed.

Lemma targets_layout T g (cell : addr) b i cnt m mc :
  f_ty g = T -> s_kind T <> CharArray -> cell.1 <> b ->
  forall ks x given s bty giv s', 0 <= x -> x + Z.of_nat (length ks) <= cnt ->
    Forall (noref s) ks ->
    Todo env leaf alloc ks i (S i) s -> Inv bty (S i) s ->
    bty !! b = Some (Some (T, cnt, i)) ->
    blocks s !! b = Some (Some m) ->
    blocks s !! cell.1 = Some (Some mc) -> 0 <= cell.2 -> cell.2 + 8 <= mc ->
    peek (log s) cell = Some (To (b, 0)) -> (0 < length bty)%nat ->
    targets (load env leaf alloc) g cell ks x given s = Some (true, giv, s') ->
    (forall j k, ks !! j = Some k -> placed (ra s') k (b, (x + Z.of_nat j) * s_size T) T) /\
    all_placed env (ra s') (concat (map subtree ks)).
Proof.
  intros Hg HT Hne. induction ks as [|k ks IH];
    intros x given s bty giv s' Hx Hc HNR HTD HI Hb Hm Hmc Hc1 Hc2 Hpk Hpos; cbn [targets].
  { intros [= <- <-]. split; [intros j k Hj; by rewrite lookup_nil in Hj|].
    intros y e c t Hy. by apply elem_of_nil in Hy. }
  rewrite (get_ptr_peek _ _ mc) by done. rewrite Hpk. cbn [mbind option_bind].
  destruct (Todo_head _ _ _ _ _ _ _ _ HTD) as (HG & HF & HN & HL & HO & HP).
  set (c := shift (b, 0) (x * s_size (f_ty g))).
  assert (Hpl : place bty c (f_ty g) i).
  { exists T, cnt, x, 0. rewrite Hg. split; [done|]. cbn [length] in Hc. split; [lia|]. split; [constructor|].
    cbn. rewrite Hg. lia. }
  destruct (HG (match given with Some _ => given | None => n_fd k end) (next_nameless ks)
              c g (Some cell) s bty (S i) i m) as (ok & giv1 & s1 & bty1 & Erun & HI1 & HP1);
    [done..|right; by rewrite Hg|].
  rewrite Erun. cbn [mbind option_bind]. destruct ok; [|done]. intros Hrest.
  destruct (load_is_placed env leaf alloc Henv Hunion k
              (match given with Some _ => given | None => n_fd k end) (next_nameless ks)
              c g (Some cell) s bty (S i) i m giv1 s1) as (Hacc & Hplk & Hgiv & Hall);
    [done..|right; by rewrite Hg|by inversion HNR|done|].
  assert (HNR1 : Forall (noref s1) ks) by (eapply noref_next; [apply HTD|done|exact HP1]).
  assert (HT1 : Todo env leaf alloc ks i (S i) s1) by by eapply Todo_next.
  assert (Hpk1 : peek (log s1) cell = Some (To (b, 0))).
  { destruct (p_log _ _ _ _ _ _ HP1) as (l & -> & Hl). rewrite peek_skip; [done|].
    eapply Forall_impl; [exact Hl|]. cbn. intros y [Hy|Hy]; [congruence|].
    apply lookup_lt_Some in Hmc. lia. }
  assert (Hb1 : bty1 !! b = Some (Some (T, cnt, i))).
  { destruct (p_bty _ _ _ _ _ _ HP1) as [z ->]. by apply lookup_app_l_Some. }
  cbn [length] in Hc.
  destruct (good_targets T g cell b i cnt m mc Hg HT Hne ks (x + 1) giv1 s1 bty1)
    as (ok2 & giv2 & s2 & bty2 & Erun2 & HI2 & HP2).
  { lia. } { lia. } { done. } { done. } { done. } { by eapply live_frame. } { by eapply live_frame. }
  { done. } { done. } { done. } { by eapply btylen_frame. }
  rewrite Hrest in Erun2. injection Erun2 as <- <- <-.
  destruct (IH (x + 1) giv1 s1 bty1 giv s') as (Hks & Ha).
  { lia. } { lia. } { done. } { done. } { done. } { done. } { by eapply live_frame. } { by eapply live_frame. }
  { done. } { done. } { done. } { by eapply btylen_frame. } { done. }
  split.
  - intros [|j] k' Hj.
    + cbn in Hj. injection Hj as <-. rewrite Z.add_0_r.
      replace (b, x * s_size T) with c by (unfold c; rewrite Hg; done). rewrite <- Hg.
      eapply placed_mono; [by eapply post_grows|done].
    + cbn in Hj. replace (x + Z.of_nat (S j)) with (x + 1 + Z.of_nat j) by lia. by apply Hks.
  - cbn [map concat]. intros y e c' t Hy He Hat. apply elem_of_app in Hy as [Hy|Hy]; [|by eapply Ha].
    eapply (all_placed_post _ _ _ _ _ _ _ _ HP2 Hall); try done.
    intros z Hz Hin. destruct HTD as [_ Hnd _]. rewrite idxs_cons in Hnd. apply NoDup_app in Hnd as (_ & Hnd & _).
    eapply Hnd; [|exact Hin]. by apply elem_of_list_fmap_1.
Qed.

(** Everything loaded so far is where it belongs; the pointers below [i] were
    followed. *)
Record Done (i : nat) (s : state) : Prop := {
  d_kids : forall j e a t, ra s !! j = Some e -> e_at e = Some (a, t) -> kids_placed env (ra s) (e_node e) a t;
  d_none : forall j e, ra s !! j = Some e -> e_at e = None -> e_ref e = n_ref (e_node e);
  d_str : forall j e a t, ra s !! j = Some e -> e_at e = Some (a, t) -> s_kind t = Str ->
    string_ref (e_node e) (e_ref e);
  d_ptr : forall j e a t, ra s !! j = Some e -> e_at e = Some (a, t) -> s_kind t = Pointer -> (j < i)%nat ->
    pointer_ref (e_node e) (e_ref e);
  d_todo : forall j e a t, ra s !! j = Some e -> e_at e = Some (a, t) -> s_kind t = Pointer -> (i <= j)%nat ->
    e_ref e = n_ref (e_node e);
  d_mem : one_value s -> forall j e a t, ra s !! j = Some e -> e_at e = Some (a, t) -> s_kind t = Pointer ->
    (j < i)%nat -> followed env s e a t;
}.

Lemma followed_mono s s' e cell t :
  (forall p, holds s cell p -> holds s' cell p) -> grows (ra s) (ra s') ->
  (forall b m, blocks s !! b = Some (Some m) -> blocks s' !! b = Some (Some m)) ->
  followed env s e cell t -> followed env s' e cell t.
Proof.
  intros Hh Hg Hb. unfold followed. destruct (_ || _); [by apply Hh|].
  intros (b & Hb0 & Hbc & Hhold & (m & Hm) & Hk). exists b. split; [done|]. split; [done|]. split; [by apply Hh|].
  split; [exists m; by apply Hb|]. cbn zeta in Hk |- *. intros i k Hi. eapply placed_mono; [done|]. by apply Hk.
Qed.

Lemma one_value_grows s s' : grows (ra s) (ra s') -> one_value s' -> one_value s.
Proof.
  intros Hg H i j e1 e2 a t t' H1 H2 A1 A2 K1 K2.
  destruct (Hg _ _ H1) as (e1' & H1' & X1). destruct (Hg _ _ H2) as (e2' & H2' & X2).
  eapply (H i j e1' e2' a t t'); try done; [by apply X1|by apply X2].
Qed.

Lemma done_step bty i s s' (js : list nat) e e' cell ty :
  Run bty i s -> Done i s -> ra s !! i = Some e -> e_at e = Some (cell, ty) -> s_kind ty = Pointer ->
  (forall j, j ∈ js -> (i < j)%nat) -> (forall j, j ∉ js -> j <> i -> ra s' !! j = ra s !! j) ->
  ra s' !! i = Some e' -> e_node e' = e_node e -> e_at e' = e_at e -> pointer_ref (e_node e) (e_ref e') ->
  grows (ra s) (ra s') ->
  (forall j x, j ∈ js -> ra s' !! j = Some x -> e_at x = None -> e_ref x = n_ref (e_node x)) ->
  (forall j x a t, j ∈ js -> ra s' !! j = Some x -> e_at x = Some (a, t) ->
     kids_placed env (ra s') (e_node x) a t /\ ref_ok (e_node x) x t) ->
  (one_value s' -> followed env s' e' cell ty) ->
  (forall j x a t p, ra s !! j = Some x -> e_at x = Some (a, t) -> is_ptr (s_kind t) -> a <> cell ->
     holds s a p -> holds s' a p) ->
  (forall b m, blocks s !! b = Some (Some m) -> blocks s' !! b = Some (Some m)) ->
  Done (S i) s'.
Proof.
  intros HR HD He Ea Hk Hjs Hout He' En Eat Href Hg Hin0 Hin1 Hfol Hhold Hblk.
  assert (Hcase : forall j x, ra s' !! j = Some x ->
    (j ∈ js /\ (i < j)%nat) \/ (j = i /\ x = e') \/ (j <> i /\ j ∉ js /\ ra s !! j = Some x)).
  { intros j x Hx. destruct (decide (j ∈ js)) as [Hj|Hj]; [left; split; [done|by apply Hjs]|right].
    destruct (decide (j = i)) as [->|Hne]; [left; split; [done|congruence]|right].
    split; [done|]. split; [done|]. by rewrite <- Hout. }
  destruct HD as [D1 D2 D3 D4 D5 D6]. split.
  - intros j x a t Hx Ha. destruct (Hcase j x Hx) as [[Hj _]|[[-> ->]|(_ & _ & Hx')]].
    + by eapply Hin1.
    + rewrite En. eapply kids_mono; [done|]. eapply D1; [done|]. by rewrite <- Eat.
    + eapply kids_mono; [done|]. by eapply D1.
  - intros j x Hx Ha. destruct (Hcase j x Hx) as [[Hj _]|[[-> ->]|(_ & _ & Hx')]].
    + by eapply Hin0.
    + rewrite Eat, Ea in Ha. done.
    + by eapply D2.
  - intros j x a t Hx Ha Hs. destruct (Hcase j x Hx) as [[Hj _]|[[-> ->]|(_ & _ & Hx')]].
    + destruct (Hin1 _ _ _ _ Hj Hx Ha) as [_ [Hr _]]. by apply Hr.
    + rewrite Eat, Ea in Ha. injection Ha as -> ->. congruence.
    + by eapply D3.
  - intros j x a t Hx Ha Hs Hlt. destruct (Hcase j x Hx) as [[Hj ?]|[[-> ->]|(? & _ & Hx')]].
    + lia.
    + by rewrite En.
    + eapply D4; [done|done|done|lia].
  - intros j x a t Hx Ha Hs Hlt. destruct (Hcase j x Hx) as [[Hj _]|[[-> ->]|(? & _ & Hx')]].
    + destruct (Hin1 _ _ _ _ Hj Hx Ha) as [_ [_ Hr]]. apply Hr. congruence.
    + lia.
    + eapply D5; [done|done|done|lia].
  - intros H1 j x a t Hx Ha Hs Hlt. destruct (Hcase j x Hx) as [[Hj ?]|[[-> ->]|(? & _ & Hx')]].
    + lia.
    + rewrite Eat, Ea in Ha. injection Ha as <- <-. by apply Hfol.
    + assert (H1s : one_value s) by by eapply one_value_grows.
      eapply followed_mono; [|done|done|eapply D6; [done|done|done|done|lia]].
      intros p. eapply Hhold; [done|done|by left|].
      intros ->. assert (j = i) by (eapply (H1s j i x e cell t ty); try done; by left). done.
Qed.

(** A pointer store elsewhere. *)
Lemma holds_put bty i s s' j x a t cell p q :
  Inv bty i s -> ra s !! j = Some x -> e_at x = Some (a, t) -> is_ptr (s_kind t) ->
  store_ok env bty (Store cell (WPtr q)) -> a <> cell ->
  log s' = Store cell (WPtr q) :: log s -> holds s a p -> holds s' a p.
Proof.
  intros HI Hx Ha Hk Hs Hne Hlog.
  destruct (i_at _ _ _ _ HI _ _ _ _ Hx Ha) as (ow & Hpl & _).
  rewrite <- (peek_holds env Henv Hunion s bty a t ow p); [|by eapply i_ty|by eapply i_log|done|done].
  rewrite <- (peek_holds env Henv Hunion s' bty a t ow p);
    [|by eapply i_ty|rewrite Hlog; constructor; [done|by eapply i_log]|done|done].
  rewrite Hlog, (peek_put_ptr env Henv Hunion _ _ _ _ _ _ _ (i_ty _ _ _ _ HI) Hpl Hk Hs).
  by destruct (decide (a = cell)).
Qed.

Lemma holds_skip s s' l a p :
  log s' = l ++ log s -> Forall (fun x => (st_at x).1 <> a.1) l -> holds s a p -> holds s' a p.
Proof.
  intros Hlog HF. unfold holds. rewrite Hlog, filter_app.
  replace (filter (fun x => is_true (meets a x)) l) with (@nil store); [done|].
  clear Hlog. induction HF as [|x l Hx HF IH]; [done|]. rewrite filter_cons, <- IH.
  destruct (decide (is_true (meets a x))) as [H|H]; [|done]. unfold is_true, meets in H.
  destruct (Nat.eqb_spec a.1 (st_at x).1); [congruence|]. rewrite andb_false_r in H. done.
Qed.

Lemma holds_self s cell p l : log s = Store cell (WPtr p) :: l -> holds s cell p.
Proof.
  intros H. unfold holds. rewrite H, filter_cons, decide_True; [done|]. apply meets_self.
Qed.

Lemma run_post js a bty i i' s bty' s' :
  Run bty i s -> Inv bty' i' s' -> Post js a bty s bty' s' ->
  (forall j, j ∈ js -> j ∈ n_idx <$> subtree root) -> Run bty' i' s'.
Proof.
  intros [R1 R2 R3 R4 R5 R6 R7] HI HP Hjs. split.
  - done.
  - intros b Hb. destruct (p_blk _ _ _ _ _ _ HP) as [bs E]. rewrite E in *.
    destruct (decide (b < length (blocks s))%nat) as [Hl|Hl].
    + destruct (R2 b Hl) as [m Hm]. exists m. by apply lookup_app_l_Some.
    + rewrite app_length, fmap_length in Hb.
      destruct (lookup_lt_is_Some_2 bs (b - length (blocks s))) as [m Hm]; [lia|].
      exists m. rewrite lookup_app_r by lia. by rewrite list_lookup_fmap, Hm.
  - by rewrite (p_len _ _ _ _ _ _ HP).
  - intros j e He. destruct (lookup_lt_is_Some_2 (ra s) j) as [e0 He0].
    { rewrite <- (p_len _ _ _ _ _ _ HP). by eapply lookup_lt_Some. }
    destruct (p_node _ _ _ _ _ _ HP _ _ He0) as (e' & He' & En & _).
    assert (e' = e) as -> by congruence. rewrite En. by apply R4.
  - intros j e He Ha. destruct (decide (j ∈ js)) as [H|H]; [by apply Hjs|].
    rewrite (p_frame _ _ _ _ _ _ HP) in He by done. by eapply R5.
  - by eapply btylen_frame.
  - by eapply live_frame.
Qed.

Lemma run_same bty i s i' s' :
  Run bty i s -> Inv bty i' s' -> blocks s' = blocks s -> length (ra s') = length (ra s) ->
  (forall j e, ra s' !! j = Some e -> exists e', ra s !! j = Some e' /\ e_node e' = e_node e /\ e_at e' = e_at e) ->
  Run bty i' s'.
Proof.
  intros [R1 R2 R3 R4 R5 R6 R7] HI Hb Hl Hra. split; try done.
  - rewrite Hb. done.
  - congruence.
  - intros j e He. destruct (Hra _ _ He) as (e' & He' & En & Ea). rewrite <- En. by apply R4.
  - intros j e He Ha. destruct (Hra _ _ He) as (e' & He' & En & Ea). eapply R5; [done|]. by rewrite Ea.
  - by rewrite Hb.
Qed.

(** A pointer that was not followed yet owns nothing. *)
Lemma pointer_null bty i s e cell ty x :
  Inv bty i s -> ra s !! i = Some e -> e_at e = Some (cell, ty) -> s_kind ty = Pointer ->
  one_value s -> peek (log s) cell <> Some (To x).
Proof.
  intros HI He Ha Hk H1 H. destruct x as [b o].
  destruct (i_own _ _ _ _ HI _ _ _ H) as (_ & Hb & j & e' & t & Hj & He' & Hkk).
  assert (j = i) as ->.
  { eapply (H1 j i e' e cell t ty); try done; [|by left].
    destruct Hkk as [[? _]|[? _]]; [by right|by left]. }
  assert (t = ty) as -> by congruence.
  destruct Hkk as [[? _]|[_ (ty' & cnt & Hbt)]]; [congruence|].
  destruct b as [|b]; [lia|]. pose proof (i_ow _ _ _ _ HI _ _ _ _ Hbt). lia.
Qed.

Lemma run_postponed bty i s e :
  Run bty i s -> ra s !! i = Some e -> loaded_as Pointer e = true ->
  exists ok s' bty', load_pointer_postponed env leaf alloc i s = Some (ok, s') /\ Run bty' (S i) s' /\ grows (ra s) (ra s') /\
    (ok = true -> Done i s -> Done (S i) s').
Proof.
  intros HR He Hl. pose proof (r_inv _ _ _ HR) as HI.
  unfold load_pointer_postponed. rewrite He. cbn [mbind option_bind].
  destruct (e_at e) as [[cell ty]|] eqn:Ea; [|by unfold loaded_as in Hl; rewrite Ea in Hl].
  assert (Hk : s_kind ty = Pointer).
  { unfold loaded_as in Hl. rewrite Ea in Hl. by destruct (s_kind ty). }
  assert (Hptr : is_ptr (s_kind ty)) by by left.
  destruct (i_at _ _ _ _ HI _ _ _ _ He Ea) as (ow & Hpl & How).
  pose proof (place_type env Henv _ _ _ _ (i_ty _ _ _ _ HI) Hpl) as Hty.
  pose proof (ptr_size env _ Hty Hptr) as H8.
  assert (Hcell : (cell.1 < length (blocks s))%nat).
  { rewrite <- (i_len _ _ _ _ HI). destruct Hpl as (? & ? & ? & ? & Hb & _). by eapply lookup_lt_Some. }
  destruct (r_live _ _ _ HR _ Hcell) as [mc Hmc].
  destruct (place_room env leaf alloc Henv _ _ _ _ _ _ _ HI Hpl Hmc) as [Hr1 Hr2].
  rewrite (put_ok _ _ _ mc); [|done|lia|cbn; lia]. cbn [mbind option_bind].
  set (s1 := State (blocks s) (Store cell (WPtr Null) :: log s) (ra s)).
  assert (HI1 : Inv bty i s1).
  { eapply inv_null; [done|done|exact HI|done|done|].
    intros H1 x. exact (pointer_null _ _ _ _ _ _ x HI He Ea Hk H1). }
  assert (HR1 : Run bty i s1).
  { eapply run_same; [exact HR|exact HI1|done|done|]. intros j e' H. by exists e'. }
  assert (Hso : forall q, store_ok env bty (Store cell (WPtr q))) by (intros q; exists ty, ow; done).
  assert (Hh1 : forall j x a t p, ra s !! j = Some x -> e_at x = Some (a, t) -> is_ptr (s_kind t) -> a <> cell ->
     holds s a p -> holds s1 a p).
  { intros j x a t p Hx Hax Hkx Hne. eapply holds_put; try done. }
  assert (Hh1c : holds s1 cell Null) by by eapply holds_self.
  destruct (n_null (e_node e)) eqn:Enull.
  { exists true, s1, bty. split; [done|]. split; [|split; [apply grows_refl|]].
    - eapply run_same; [exact HR1|by eapply (inv_mono env _ i); [lia|]|done|done|].
      intros j e' H. by exists e'.
    - intros _ HD. eapply (done_step bty i s s1 [] e e cell ty); try done.
      + intros j Hj. by apply elem_of_nil in Hj.
      + unfold pointer_ref. rewrite Enull. pose proof (d_todo _ _ HD _ _ _ _ He Ea Hk) as Hd.
        destruct (n_val (e_node e)); by apply Hd.
      + apply grows_refl.
      + intros j x Hj. by apply elem_of_nil in Hj.
      + intros j x a t Hj. by apply elem_of_nil in Hj.
      + intros _. unfold followed. by rewrite Enull. }
  set (ref := match n_val (e_node e) with VInt z => Some (int_ref z) | _ => e_ref e end).
  set (s2 := set_entry s1 i (fun e => Entry (e_node e) (e_at e) ref)).
  assert (HI2 : Inv bty (S i) s2).
  { apply inv_ref. by eapply (inv_mono env _ i); [lia|]. }
  assert (Hra2 : forall j e', ra s2 !! j = Some e' ->
     exists e0, ra s1 !! j = Some e0 /\ e_node e0 = e_node e' /\ e_at e0 = e_at e').
  { intros j e' H. unfold s2 in H. cbn [set_entry ra] in H. destruct (decide (j = i)) as [->|Hne].
    - rewrite list_lookup_alter in H. cbn [s1 ra] in H. rewrite He in H. cbn in H. injection H as <-. by exists e.
    - rewrite list_lookup_alter_ne in H by congruence. by exists e'. }
  assert (HI2' : Inv bty i s2) by by apply inv_ref.
  assert (HR2' : Run bty i s2).
  { eapply run_same; [exact HR1|exact HI2'|done|cbn; by rewrite alter_length|exact Hra2]. }
  assert (HR2 : Run bty (S i) s2).
  { eapply run_same; [exact HR1|exact HI2|done|cbn; by rewrite alter_length|exact Hra2]. }
  set (e2 := Entry (e_node e) (e_at e) ref).
  assert (He2 : ra s2 !! i = Some e2).
  { unfold s2. cbn [set_entry ra s1]. rewrite list_lookup_alter, He. done. }
  assert (Hout2 : forall j, j <> i -> ra s2 !! j = ra s !! j).
  { intros j Hj. unfold s2. cbn [set_entry ra s1]. by rewrite list_lookup_alter_ne. }
  assert (Hg2 : grows (ra s) (ra s2)).
  { intros j x Hx. destruct (decide (j = i)) as [->|Hj]; [|exists x; by rewrite Hout2].
    exists e2. split; [done|]. intros y Hy. assert (x = e) as -> by congruence. done. }
  assert (Hpr : Done i s -> pointer_ref (e_node e) (e_ref e2)).
  { intros HD. pose proof (d_todo _ _ HD _ _ _ _ He Ea Hk) as Hd. cbn [e2 e_ref]. unfold ref, pointer_ref.
    rewrite Enull. destruct (n_val (e_node e)); try by apply Hd.
    eexists. split; [done|]. apply int_ref_spec. }
  assert (Hend : (match ref with Some _ => true | None => false end) ||
            (match n_kids (e_node e) with [] => true | _ => false end) = true -> Done i s -> Done (S i) s2).
  { intros Hcond HD. eapply (done_step bty i s s2 [] e e2 cell ty); try done.
    - intros j Hj. by apply elem_of_nil in Hj.
    - intros j _ Hj. by apply Hout2.
    - by apply Hpr.
    - intros j x Hj. by apply elem_of_nil in Hj.
    - intros j x a t Hj. by apply elem_of_nil in Hj.
    - intros _. unfold followed. cbn [e2 e_node e_ref]. rewrite Enull. cbn [orb]. by rewrite Hcond. }
  destruct ref as [r|] eqn:Eref.
  { exists true, s2, bty. split; [done|]. split; [done|]. split; [done|]. intros _. by apply Hend. }
  destruct (n_kids (e_node e)) as [|k0 ks0] eqn:Eks.
  { exists true, s2, bty. split; [done|]. split; [done|]. split; [done|]. intros _. by apply Hend. }
  clear Hend.
  set (ks := k0 :: ks0) in *.
  destruct (target_stype ty Hty Hk) as [Hgok Hgc].
  set (g := target_fd env ty) in *.
  destruct (Z.eqb_spec (s_size (f_ty g)) 0) as [|Hsz].
  { by exists false, s2, bty. }
  unfold calloc. destruct (alloc _).
  2:{ by exists false, s2, bty. }
  set (cnt := Z.of_nat (length ks)).
  rewrite (put_ok _ _ _ mc); [|cbn [blocks]; by apply lookup_app_l_Some|lia|cbn; lia].
  cbn [mbind option_bind blocks log ra].
  assert (Hnul : forall x, peek (log s2) cell <> Some (To x)).
  { intros x. unfold s2, s1. cbn [set_entry log]. rewrite peek_cons, meets_self. cbn. by rewrite Z.eqb_refl. }
  set (s3 := State (blocks s2 ++ [Some (cnt * s_size (f_ty g))])
               (Store cell (WPtr (To (length (blocks s2), 0))) :: log s2) (ra s2)).
  assert (HI3 : Inv (bty ++ [Some (f_ty g, cnt, i)]) (S i) s3).
  { eapply inv_new; [done|done|exact HI2|exact He2|exact Ea| |exact (r_pos _ _ _ HR)|].
    - right. split; [done|]. exists (f_ty g), cnt. split; [done|]. split; [done|].
      split; [unfold cnt; lia|]. split; [lia|lia].
    - intros _. exact Hnul. }
  assert (Hb : length bty = length (blocks s2)) by exact (i_len _ _ _ _ HI2).
  assert (HR3 : Run (bty ++ [Some (f_ty g, cnt, i)]) (S i) s3).
  { split.
    - done.
    - intros b Hlt. cbn [s3 blocks] in *. rewrite app_length in Hlt. cbn [length] in Hlt.
      destruct (decide (b < length (blocks s2))%nat) as [Hlt'|Hge].
      + destruct (r_live _ _ _ HR2 _ Hlt') as [m Hm]. exists m. by apply lookup_app_l_Some.
      + exists (cnt * s_size (f_ty g)). rewrite lookup_app_r by lia.
        replace (b - length (blocks s2))%nat with 0%nat by lia. done.
    - exact (r_len _ _ _ HR2).
    - exact (r_node _ _ _ HR2).
    - exact (r_in _ _ _ HR2).
    - rewrite app_length. cbn. lia.
    - cbn [s3 blocks]. apply lookup_app_l_Some. exact (r_dest _ _ _ HR2). }
  destruct (node_at _ _ _ _ _ HR He) as [Hnr Hni]; [by rewrite Ea|].
  destruct Htree as (HT1 & HT2 & HT3 & HT4).
  assert (HN : NoDup (n_idx <$> subtree (e_node e))) by by eapply nodup_sub.
  assert (HL : links_ok (e_node e)) by by eapply links_sub.
  assert (Hkids : idxs ks ⊆ n_idx <$> subtree (e_node e)).
  { rewrite idxs_sub, Eks. intros z Hz. by constructor. }
  assert (Hsub : forall j, j ∈ idxs ks -> j ∈ n_idx <$> subtree root).
  { intros j Hj. apply Hkids in Hj. apply elem_of_list_fmap in Hj as (x & -> & Hx).
    apply elem_of_list_fmap_1. by eapply subtree_trans. }
  assert (HTD : Todo env leaf alloc ks i (S i) s3).
  { split.
    + apply Forall_forall. intros k _. by apply load_is_good.
    + rewrite idxs_sub, Eks in HN. by apply NoDup_cons in HN as [_ HN].
    + intros k Hk'. rewrite <- Eks in Hk'.
      destruct (HL _ (subtree_self _)) as [Hpos Hkk]. destruct (Hkk k Hk') as [Hp Hlt].
      split; [|split; [|split]].
      * eapply (kids_fresh bty i s2); [exact HR2'|exact He2| |exact Hk'].
        unfold loaded_as. cbn [e2 e_at]. rewrite Ea, Hk. done.
      * by eapply links_kid.
      * lia.
      * right. rewrite Hp, Hni. split; [lia|]. exists e2. split; [exact He2|]. cbn [e2 e_at].
        split; [by rewrite Ea|]. intros _. lia. }
  assert (Hcb : cell.1 <> length (blocks s2)) by (cbn [s2 s1 set_entry blocks]; lia).
  assert (Hbl : (bty ++ [Some (f_ty g, cnt, i)]) !! length (blocks s2) = Some (Some (f_ty g, cnt, i))).
  { rewrite lookup_app_r by lia. rewrite Hb, Nat.sub_diag. done. }
  assert (Hbm : blocks s3 !! length (blocks s2) = Some (Some (cnt * s_size (f_ty g)))).
  { cbn [s3 blocks]. rewrite lookup_app_r, Nat.sub_diag by lia. done. }
  assert (Hmc3 : blocks s3 !! cell.1 = Some (Some mc)) by (cbn [s3 blocks]; by apply lookup_app_l_Some).
  assert (Hpk3 : peek (log s3) cell = Some (To (length (blocks s2), 0))).
  { cbn [s3 log]. rewrite peek_cons, meets_self. cbn [st_what st_at]. by rewrite Z.eqb_refl. }
  assert (Hpos3 : (0 < length (bty ++ [Some (f_ty g, cnt, i)]))%nat) by (rewrite app_length; cbn; lia).
  destruct (good_targets (f_ty g) g cell (length (blocks s2)) i cnt (cnt * s_size (f_ty g)) mc eq_refl Hgc Hcb)
    with (ks := ks) (x := 0) (given := @None (option N * option nat)) (s := s3)
         (bty := bty ++ [Some (f_ty g, cnt, i)])
    as (ok & giv & s4 & bty4 & Erun & HI4 & HP4); [done|unfold cnt; lia|done..|lia|done|done|].
  fold ks cnt. fold s3. rewrite Erun. cbn [mbind option_bind].
  assert (HR4 : Run bty4 (S i) s4) by (eapply run_post; [exact HR3|done|exact HP4|exact Hsub]).
  assert (Hg3 : grows (ra s2) (ra s4)) by exact (post_grows _ _ _ _ _ _ HP4).
  exists ok, s4, bty4. split; [done|]. split; [done|]. split; [by eapply grows_trans|]. intros -> HD.
  assert (Hlater : forall j, j ∈ idxs ks -> (i < j)%nat).
  { intros j Hj. unfold idxs in Hj. apply elem_of_list_fmap in Hj as (x & -> & Hx).
    apply elem_of_concat_map in Hx as (k & Hk' & Hx). rewrite <- Eks in Hk'.
    destruct (HL _ (subtree_self _)) as [Hpos Hkk]. destruct (Hkk k Hk') as [Hp Hlt].
    pose proof (links_order k x (links_kid _ _ HL Hk') Hx). lia. }
  assert (Hni4 : i ∉ idxs ks) by (intros Hj; apply Hlater in Hj; lia).
  destruct (targets_layout (f_ty g) g cell (length (blocks s2)) i cnt (cnt * s_size (f_ty g)) mc eq_refl Hgc Hcb
              ks 0 None s3 (bty ++ [Some (f_ty g, cnt, i)]) giv s4) as [Hrow Hall];
    [done|unfold cnt; lia| |done..|lia|done|done|done|].
  { apply Forall_forall. intros k Hk' x ex Hx Hex. cbn [s3 ra] in Hex.
    rewrite <- Eks in Hk'.
    destruct (kids_fresh bty i s2 e2 k HR2' He2) with (m := x) as (ex' & Hex' & Enx & Eax).
    - unfold loaded_as. cbn [e2 e_at]. rewrite Ea, Hk. done.
    - done.
    - done.
    - assert (ex' = ex) as -> by congruence.
      rewrite Hout2 in Hex.
      + rewrite (d_none _ _ HD _ _ Hex Eax). by rewrite Enx.
      + intros E. apply Hni4. rewrite <- E. apply elem_of_list_fmap_1. apply elem_of_concat_map. exists k.
        split; [by rewrite <- Eks|done]. }
  eapply (done_step bty i s s4 (idxs ks) e e2 cell ty); try done.
  - intros j Hj Hne. rewrite (p_frame _ _ _ _ _ _ HP4) by done. by apply Hout2.
  - by rewrite (p_frame _ _ _ _ _ _ HP4).
  - by apply Hpr.
  - by eapply grows_trans.
  - intros j x Hj Hx Hax. pose proof (p_un _ _ _ _ _ _ HP4 _ _ Hx Hax) as Hx'. cbn [s3 ra] in Hx'.
    rewrite Hout2 in Hx' by (intros ->; done). by eapply d_none.
  - intros j x a t Hj Hx Hax. destruct (node_at _ _ _ _ _ HR4 Hx) as [Hnx Hix]; [by rewrite Hax|].
    unfold idxs in Hj. apply elem_of_list_fmap in Hj as (y & Ey & Hy).
    assert (Hyr : y ∈ subtree root).
    { eapply subtree_trans; [exact Hnr|]. rewrite subtree_unfold, Eks. by constructor. }
    assert (e_node x = y) as ->.
    { pose proof (r_node _ _ _ HR4 _ _ Hx) as Hn. rewrite Ey, (HT4 y Hyr) in Hn. congruence. }
    eapply Hall; [done|by rewrite <- Ey|done].
  - intros _. unfold followed. cbn [e2 e_node e_ref]. rewrite Enull, Eks. cbn [orb].
    exists (length (blocks s2)). split; [rewrite <- Hb; pose proof (r_pos _ _ _ HR); lia|]. split; [done|]. split; [|split].
    + destruct (p_log _ _ _ _ _ _ HP4) as (l & Elog & Hll).
      eapply (holds_skip s3); [exact Elog| |by eapply holds_self].
      eapply Forall_impl; [exact Hll|]. cbn [fst]. intros y [Hy|Hy]; [congruence|].
      apply lookup_lt_Some in Hmc3. lia.
    + exists (cnt * s_size (f_ty g)). by eapply live_frame.
    + cbn zeta. intros j k Hj. specialize (Hrow j k Hj). by rewrite Z.add_0_l in Hrow.
  - intros j x a t p Hx Hax Hkx Hne Hh.
    assert (Hh3 : holds s3 a p).
    { assert (Hh2 : holds s2 a p) by by eapply Hh1.
      assert (Hx2 : exists x2, ra s2 !! j = Some x2 /\ e_at x2 = Some (a, t)).
      { destruct (Hg2 _ _ Hx) as (x2 & Hx2 & Hx2a). exists x2. split; [done|by apply Hx2a]. }
      destruct Hx2 as (x2 & Hx2 & Hx2a).
      eapply (holds_put bty (S i) s2 s3); try done. }
    destruct (p_log _ _ _ _ _ _ HP4) as (l & Elog & Hll).
    eapply (holds_skip s3); [exact Elog| |done].
    assert (Hax1 : (a.1 < length (blocks s2))%nat).
    { destruct (i_at _ _ _ _ HI _ _ _ _ Hx Hax) as (ow' & Hpl' & _). rewrite <- Hb.
      destruct Hpl' as (? & ? & ? & ? & Hbt & _). by eapply lookup_lt_Some. }
    eapply Forall_impl; [exact Hll|]. cbn [fst s3 blocks]. rewrite app_length. cbn [length]. intros y [Hy|Hy]; lia.
  - intros b m Hbm'. eapply live_frame; [exact HP4|]. cbn [s3 blocks]. by apply lookup_app_l_Some.
Qed.

Lemma run_pointers : forall todo i s bty,
  (i + todo = length (ra s))%nat -> Run bty i s ->
  exists ok s' bty' i', load_pointers env leaf alloc todo i s = Some (ok, s') /\ Run bty' i' s' /\
    grows (ra s) (ra s') /\
    (ok = true -> Done i s -> Done (length (ra s')) s').
Proof.
  induction todo as [|todo IH]; intros i s bty Hlen HR; cbn [load_pointers].
  { exists true, s, bty, i. split; [done|]. split; [done|]. split; [apply grows_refl|]. intros _. replace (length (ra s)) with i by lia. done. }
  destruct (lookup_lt_is_Some_2 (ra s) i) as [e He]; [lia|]. rewrite He. cbn [mbind option_bind].
  destruct (loaded_as Pointer e) eqn:El.
  - destruct (run_postponed _ _ _ _ HR He El) as (ok & s1 & bty1 & -> & HR1 & HG1 & HD1). cbn [mbind option_bind].
    destruct ok; [|by exists false, s1, bty1, (S i)].
    destruct (IH (S i) s1 bty1) as (ok & s2 & bty2 & i2 & -> & HR2 & HG2 & HD2); [|exact HR1|].
    { rewrite (r_len _ _ _ HR1), <- (r_len _ _ _ HR). lia. }
    exists ok, s2, bty2, i2. split; [done|]. split; [done|]. split; [by eapply grows_trans|]. intros Hok HD. apply HD2; [done|]. by apply HD1.
  - destruct (IH (S i) s bty) as (ok & s2 & bty2 & i2 & -> & HR2 & HG2 & HD2); [lia| |].
    { eapply run_same; [exact HR| |done|done|].
      + eapply (inv_mono env _ i); [lia|]. by apply r_inv.
      + intros j e' H. by exists e'. }
    exists ok, s2, bty2, i2. split; [done|]. split; [done|]. split; [done|]. intros Hok [D1 D2 D3 D4 D5 D6]. apply HD2; [done|].
    assert (Hnp : forall j x a t, ra s !! j = Some x -> e_at x = Some (a, t) -> s_kind t = Pointer -> j <> i).
    { intros j x a t Hx Ha Hk ->. assert (x = e) as -> by congruence. unfold loaded_as in El.
      rewrite Ha, Hk in El. done. }
    split; try done.
    + intros j x a t Hx Ha Hk Hlt. pose proof (Hnp _ _ _ _ Hx Ha Hk). eapply D4; [done|done|done|lia].
    + intros j x a t Hx Ha Hk Hlt. eapply D5; [done|done|done|lia].
    + intros H1 j x a t Hx Ha Hk Hlt. pose proof (Hnp _ _ _ _ Hx Ha Hk). eapply D6; [done|done|done|done|lia].
Qed.

(** * The start *)
Lemma run_start f :
  stype_ok env (f_ty f) -> s_size (f_ty f) <= size ->
  Run [Some (f_ty f, 1, 0%nat)] 0 (start size nodes).
Proof.
  intros Hok Hsz.
  assert (Hra : forall j e, ra (start size nodes) !! j = Some e ->
            e_at e = None /\ (dummy :: nodes) !! j = Some (e_node e)).
  { intros j e H. unfold start in H. cbn [ra] in H. rewrite list_lookup_fmap in H.
    destruct ((dummy :: nodes) !! j) as [n|]; [|done]. cbn in H. injection H as <-. done. }
  split.
  - split.
    + done.
    + intros b ty cnt ow H. apply list_lookup_singleton_Some in H as [_ [= <- <- <-]]. split; [done|lia].
    + intros b ty cnt ow m H H'. apply list_lookup_singleton_Some in H as [-> [= <- <- <-]].
      cbn in H'. injection H' as <-. lia.
    + intros j e a t H H'. apply Hra in H as [H _]. congruence.
    + constructor.
    + intros a b o H. cbn in H. done.
    + intros a a' x H. cbn in H. done.
    + intros _ b m H. by apply list_lookup_singleton_Some in H as [? _].
    + intros j e H H'. apply Hra in H as [H _]. congruence.
    + intros b ty cnt ow H. by apply list_lookup_singleton_Some in H as [? _].
  - intros b Hb. cbn in Hb. destruct b; [|lia]. by exists size.
  - unfold start. cbn [ra]. rewrite fmap_length. done.
  - intros j e H. by apply Hra.
  - intros j e H H'. apply Hra in H as [H _]. congruence.
  - cbn. lia.
  - done.
Qed.

(** [f] describes the destination. *)
Lemma run_load_all f :
  stype_ok env (f_ty f) -> s_size (f_ty f) <= size ->
  exists ok s bty i, load_all env leaf alloc root (0%nat, 0) f (start size nodes) = Some (ok, s) /\ Run bty i s /\
    (ok = true -> placed (ra s) root (0%nat, 0) (f_ty f) /\ Done (length (ra s)) s).
Proof.
  intros Hok Hsz. pose proof (run_start f Hok Hsz) as HR.
  pose proof Htree as (HT1 & HT2 & HT3 & HT4). unfold load_all.
  assert (Hst : forall j e, ra (start size nodes) !! j = Some e -> e_at e = None /\ e_ref e = n_ref (e_node e)).
  { intros j e He. unfold start in He. cbn [ra] in He. rewrite list_lookup_fmap in He.
    destruct ((dummy :: nodes) !! j); [|done]. cbn in He. by injection He as <-. }
  assert (HF : Fresh (start size nodes) root).
  { intros m Hm. destruct (node_entry _ _ _ m HR Hm) as (e & He & En). exists e. split; [done|]. split; [done|].
    by eapply Hst. }
  assert (HNR : noref (start size nodes) root).
  { intros m e Hm He. destruct (node_entry _ _ _ m HR Hm) as (e' & He' & En). assert (e' = e) as -> by congruence.
    rewrite <- En. by eapply Hst. }
  assert (Hpl : place [Some (f_ty f, 1, 0%nat)] (0%nat, 0) (f_ty f) 0).
  { exists (f_ty f), 1, 0, 0. split; [done|]. split; [lia|]. split; [constructor|]. cbn. lia. }
  assert (Hpos : (0 < n_idx root)%nat) by by destruct (HT3 root (subtree_self root)).
  destruct (load_is_good env leaf alloc Henv Hunion root (n_fd root) false (0%nat, 0) f None
              (start size nodes) [Some (f_ty f, 1, 0%nat)] 0%nat 0%nat size) as (ok & giv & s & bty & Erun & HI & HP);
    [exact (r_inv _ _ _ HR)|done..|cbn; lia|by left|by left|].
  rewrite Erun. cbn [mbind option_bind].
  assert (HR1 : Run bty 0 s) by (eapply run_post; [exact HR|done|exact HP|done]).
  destruct ok; [|by exists false, s, bty, 0%nat].
  destruct (run_pointers (length (ra s)) 0 s bty) as (ok & s' & bty' & i' & Erun' & HR' & HG' & HD'); [lia|done|].
  exists ok, s', bty', i'. split; [done|]. split; [done|]. intros ->.
  destruct (load_is_placed env leaf alloc Henv Hunion root (n_fd root) false (0%nat, 0) f None
              (start size nodes) [Some (f_ty f, 1, 0%nat)] 0%nat 0%nat size giv s) as (_ & Hp & _ & Hall);
    [exact (r_inv _ _ _ HR)|done..|cbn; lia|by left|by left|done|done|].
  assert (HD : Done 0 s).
  { assert (Hnode : forall j e a t, ra s !! j = Some e -> e_at e = Some (a, t) ->
              kids_placed env (ra s) (e_node e) a t /\ ref_ok (e_node e) e t).
    { intros j e a t He Ha. destruct (node_at _ _ _ _ _ HR1 He) as [Hn Hi]; [by rewrite Ha|].
      eapply Hall; [done|by rewrite Hi|done]. }
    split.
    - intros j e a t He Ha. by eapply Hnode.
    - intros j e He Ha. eapply Hst. by eapply p_un.
    - intros j e a t He Ha Hk. destruct (Hnode _ _ _ _ He Ha) as [_ [Hr _]]. by apply Hr.
    - intros j e a t He Ha Hk Hlt. lia.
    - intros j e a t He Ha Hk _. destruct (Hnode _ _ _ _ He Ha) as [_ [_ Hr]]. apply Hr. congruence.
    - intros _ j e a t He Ha Hk Hlt. lia. }
  split; [|by apply HD'].
  eapply placed_mono; [done|exact Hp].
Qed.

(** * Clean-up after a failure *)
Record Clean (bty : list gty) (i : nat) (s : state) : Prop := {
  c_len : length bty = length (blocks s);
  c_ty : types_ok env bty;
  c_size : forall b ty cnt ow m, bty !! b = Some (Some (ty, cnt, ow)) ->
    blocks s !! b = Some (Some m) -> cnt * s_size ty <= m;
  c_at : forall j e a t, ra s !! j = Some e -> e_at e = Some (a, t) ->
    exists ow, place bty a t ow /\ (ow < j)%nat;
  c_log : Forall (store_ok env bty) (log s);
  c_dead : forall b, blocks s !! b = Some None -> b <> 0%nat /\
    forall ty cnt ow, bty !! b = Some (Some (ty, cnt, ow)) -> (i < ow)%nat;
  c_own : forall a b o, peek (log s) a = Some (To (b, o)) ->
    o = 0 /\ (0 < b)%nat /\ (exists m, blocks s !! b = Some (Some m)) /\
    exists j e t, (j <= i)%nat /\ ra s !! j = Some e /\ e_at e = Some (a, t) /\
      ((s_kind t = Str /\ bty !! b = Some None) \/
       (s_kind t = Pointer /\ exists ty cnt, bty !! b = Some (Some (ty, cnt, j))));
  c_uni : forall a a' x, peek (log s) a = Some (To x) -> peek (log s) a' = Some (To x) -> a = a';
  c_leak : forall b m, blocks s !! S b = Some (Some m) -> exists a, peek (log s) a = Some (To (S b, 0));
}.

Lemma clean_place bty i s a x :
  Clean bty i s -> peek (log s) a = Some (To x) -> exists t ow, place bty a t ow /\ is_ptr (s_kind t).
Proof.
  intros HC H. destruct x as [b o].
  destruct (c_own _ _ _ HC _ _ _ H) as (_ & _ & _ & j & e & t & _ & Hj & He & Hk).
  destruct (c_at _ _ _ HC _ _ _ _ Hj He) as (ow & Hp & _).
  exists t, ow. split; [done|]. destruct Hk as [[? _]|[? _]]; [by right|by left].
Qed.

Lemma clean_start bty i s :
  Run bty i s -> one_value s -> Clean bty (length (ra s) - 1) s.
Proof.
  intros HR H1. pose proof (r_inv _ _ _ HR) as HI. split.
  - exact (i_len _ _ _ _ HI).
  - exact (i_ty _ _ _ _ HI).
  - exact (i_size _ _ _ _ HI).
  - exact (i_at _ _ _ _ HI).
  - exact (i_log _ _ _ _ HI).
  - intros b Hb. destruct (r_live _ _ _ HR b) as [m Hm]; [by eapply lookup_lt_Some|congruence].
  - intros a b o H. destruct (i_own _ _ _ _ HI _ _ _ H) as (? & ? & j & e & t & Hj & He & Hk).
    split; [done|]. split; [done|]. split.
    + apply (r_live _ _ _ HR). rewrite <- (i_len _ _ _ _ HI).
      destruct Hk as [[_ Hk]|[_ (ty & cnt & Hk)]]; by eapply lookup_lt_Some.
    + exists j, e, t. split; [|done]. apply lookup_lt_Some in Hj. lia.
  - exact (i_uni _ _ _ _ HI).
  - exact (i_leak _ _ _ _ HI H1).
Qed.

(** Nothing to release at entry [S i]. *)
Lemma clean_down bty i s :
  Clean bty (S i) s ->
  (forall e a t x, ra s !! S i = Some e -> e_at e = Some (a, t) -> is_ptr (s_kind t) -> peek (log s) a <> Some (To x)) ->
  Clean bty i s.
Proof.
  intros [C1 C2 C3 C4 C5 C6 C7 C8 C9] H. split; try done.
  - intros b Hb. destruct (C6 b Hb) as [? Ho]. split; [done|]. intros ty cnt ow Hbt. specialize (Ho _ _ _ Hbt). lia.
  - intros a b o Hp. destruct (C7 _ _ _ Hp) as (? & ? & ? & j & e & t & Hle & Hj & He & Hk).
    split; [done|]. split; [done|]. split; [done|]. exists j, e, t. split; [|done].
    destruct (decide (j = S i)) as [->|]; [|lia]. exfalso. eapply (H e a t (b, o)); try done.
    destruct Hk as [[? _]|[? _]]; [by right|by left].
Qed.

Lemma clean_step bty i s e a t b :
  Clean bty (S i) s -> one_value s -> ra s !! S i = Some e -> e_at e = Some (a, t) -> is_ptr (s_kind t) ->
  peek (log s) a = Some (To (b, 0)) -> b <> 0%nat ->
  Clean bty i (State (<[b := None]> (blocks s)) (Store a (WPtr Null) :: log s) (ra s)) /\ a.1 <> b.
Proof.
  intros HC H1 He Ha Hk Hp Hb0.
  destruct (c_at _ _ _ HC _ _ _ _ He Ha) as (ow & Hpl & How).
  assert (Hs : store_ok env bty (Store a (WPtr Null))) by (exists t, ow; done).
  assert (Hdown : forall c x, peek (Store a (WPtr Null) :: log s) c = Some (To x) -> c <> a /\ peek (log s) c = Some (To x)).
  { intros c x H. pose proof H as H'. apply peek_To_cons in H as [H|[_ H]]; [done|]. split; [|done].
    intros ->. rewrite peek_cons, meets_self in H'. cbn in H'. rewrite Z.eqb_refl in H'. done. }
  assert (Hup : forall c x, c <> a -> peek (log s) c = Some (To x) ->
                 peek (Store a (WPtr Null) :: log s) c = Some (To x)).
  { intros c x Hne H. destruct (clean_place _ _ _ _ _ HC H) as (t' & ow' & Hp' & Hk').
    rewrite (peek_put_ptr env Henv Hunion _ _ _ _ _ _ _ (c_ty _ _ _ HC) Hp' Hk' Hs). by destruct (decide (c = a)). }
  assert (Hj : forall j e' t', ra s !! j = Some e' -> e_at e' = Some (a, t') -> is_ptr (s_kind t') -> j = S i).
  { intros j e' t' Hj He' Hk'. by eapply (H1 j (S i) e' e a t' t). }
  assert (Hbo : forall ty cnt o, bty !! b = Some (Some (ty, cnt, o)) -> o = S i).
  { intros ty cnt o Hbt. destruct (c_own _ _ _ HC _ _ _ Hp) as (_ & _ & _ & j & e' & t' & _ & Hj' & He' & Hkk).
    destruct Hkk as [[_ ?]|[Hk' (ty' & cnt' & Hbt')]]; [congruence|].
    assert (j = S i) by (eapply Hj; [done|done|by left]). congruence. }
  assert (Hne : a.1 <> b).
  { intros E. destruct Hpl as (ty & cnt & ? & ? & Hbt & _). rewrite E in Hbt. apply Hbo in Hbt. lia. }
  split; [|done].
  destruct HC as [C1 C2 C3 C4 C5 C6 C7 C8 C9]. split; cbn [blocks log ra]; try done.
  - by rewrite insert_length.
  - intros c ty cnt o m Hbt Hm. destruct (decide (c = b)) as [->|Hcb].
    + rewrite list_lookup_insert in Hm; [done|]. rewrite <- C1. by eapply lookup_lt_Some.
    + rewrite list_lookup_insert_ne in Hm by done. by eapply C3.
  - by constructor.
  - intros c Hc. destruct (decide (c = b)) as [->|Hcb].
    + split; [done|]. intros ty cnt o Hbt. apply Hbo in Hbt. lia.
    + rewrite list_lookup_insert_ne in Hc by done. destruct (C6 c Hc) as [? Ho]. split; [done|].
      intros ty cnt o Hbt. specialize (Ho _ _ _ Hbt). lia.
  - intros c d o H. apply Hdown in H as [Hca H].
    destruct (C7 _ _ _ H) as (-> & ? & (m & Hm) & j & e' & t' & Hle & Hj' & He' & Hkk).
    split; [done|]. split; [done|]. split.
    + exists m. rewrite list_lookup_insert_ne; [done|]. intros ->. apply Hca. by eapply C8.
    + exists j, e', t'. split; [|done].
      destruct (decide (j = S i)) as [->|]; [|lia]. congruence.
  - intros c c' x H H'. apply Hdown in H as [_ H]. apply Hdown in H' as [_ H']. by eapply C8.
  - intros c m Hc. destruct (decide (S c = b)) as [E|Hcb].
    + rewrite E in Hc. pose proof (lookup_lt_Some _ _ _ Hc) as Hlt. rewrite insert_length in Hlt.
      by rewrite list_lookup_insert in Hc.
    + rewrite list_lookup_insert_ne in Hc by done. destruct (C9 _ _ Hc) as [x Hx]. exists x.
      apply Hup; [|done]. intros ->. congruence.
Qed.

Lemma clean_up_ok : forall i s bty,
  Clean bty i s -> one_value s -> (i < length (ra s))%nat ->
  exists s', clean_up i s = Some s' /\ Clean bty 0 s' /\ ra s' = ra s /\ length (blocks s') = length (blocks s) /\
    blocks s' !! 0%nat = blocks s !! 0%nat.
Proof.
  induction i as [|i IH]; intros s bty HC H1 Hi; cbn [clean_up].
  { by exists s. }
  destruct (lookup_lt_is_Some_2 (ra s) (S i)) as [e He]; [lia|]. rewrite He. cbn [mbind option_bind].
  destruct (loaded_as Pointer e || loaded_as Str e) eqn:El.
  2:{ cbn [mbind option_bind]. apply IH; [|done|lia]. apply clean_down; [done|].
      intros e' a t x He' Ha Hk. assert (e' = e) as -> by congruence.
      unfold loaded_as in El. rewrite Ha in El. by destruct Hk as [Hk|Hk]; rewrite Hk in El. }
  destruct (e_at e) as [[a t]|] eqn:Ea; [|by unfold loaded_as in El; rewrite Ea in El].
  assert (Hk : is_ptr (s_kind t)).
  { unfold loaded_as in El. rewrite Ea in El. destruct (s_kind t) eqn:Ek; try done; [by right|by left]. }
  destruct (c_at _ _ _ HC _ _ _ _ He Ea) as (ow & Hpl & How).
  pose proof (place_type env Henv _ _ _ _ (c_ty _ _ _ HC) Hpl) as Hty.
  pose proof (ptr_size env _ Hty Hk) as H8.
  assert (Hlive : exists m, blocks s !! a.1 = Some (Some m) /\ 0 <= a.2 /\ a.2 + 8 <= m).
  { pose proof Hpl as (ty & cnt & x & o & Hbt & Hx & Hs & Ea2).
    destruct (lookup_lt_is_Some_2 (blocks s) a.1) as [[m|] Hm].
    { rewrite <- (c_len _ _ _ HC). by eapply lookup_lt_Some. }
    - exists m. split; [done|]. destruct (c_ty _ _ _ HC _ _ _ _ Hbt) as [Hok Hc].
      destruct (sub_range env Henv _ _ _ Hs Hok) as (_ & R1 & R2).
      pose proof (c_size _ _ _ HC _ _ _ _ _ Hbt Hm). pose proof (proj1 Hok). nia.
    - exfalso. destruct (c_dead _ _ _ HC _ Hm) as [_ Hd]. apply Hd in Hbt. lia. }
  destruct Hlive as (m & Hm & L1 & L2).
  rewrite (get_ptr_peek _ _ m) by done.
  destruct (peek_place env Henv Hunion _ _ _ _ _ (c_ty _ _ _ HC) (c_log _ _ _ HC) Hpl Hk) as [p Hp].
  rewrite Hp. cbn [mbind option_bind]. destruct p as [|[b o]].
  - cbn [mbind option_bind]. apply IH; [|done|lia]. apply clean_down; [done|].
    intros e' a' t' x He' Ha' _. assert (e' = e) as -> by congruence.
    assert (a' = a) as -> by congruence. congruence.
  - destruct (c_own _ _ _ HC _ _ _ Hp) as (-> & Hb0 & (mb & Hmb) & _).
    destruct b as [|b]; [lia|].
    destruct (clean_step _ _ _ _ _ _ _ HC H1 He Ea Hk Hp) as [HC' Hne]; [done|].
    unfold release. rewrite Hmb. cbn [mbind option_bind].
    rewrite (put_ok _ _ _ m); [|cbn [blocks]; by rewrite list_lookup_insert_ne by congruence|lia|cbn; lia].
    cbn [mbind option_bind blocks log ra].
    destruct (IH _ _ HC') as (s' & Hs' & HC'' & Hr & Hl & H0); [exact H1|cbn [ra]; lia|].
    exists s'. split; [exact Hs'|]. split; [done|]. split; [done|].
    rewrite Hl, H0. cbn [blocks]. rewrite insert_length. split; [done|].
    by rewrite list_lookup_insert_ne.
Qed.

(** A load that fails releases every block it allocated, and leaves NULL in
    every pointer of the destination; nothing is undefined. *)
Theorem load_top_fails f :
  stype_ok env (f_ty f) -> s_size (f_ty f) <= size ->
  forall s, load_all env leaf alloc root (0%nat, 0) f (start size nodes) = Some (false, s) -> one_value s ->
  exists s', load_top env leaf alloc root (0%nat, 0) f (start size nodes) = Some (false, s') /\
    ra s' = ra s /\ blocks s' !! 0%nat = Some (Some size) /\
    (forall b, (0 < b < length (blocks s'))%nat -> blocks s' !! b = Some None) /\
    forall a x, get_ptr s' a <> Some (To x).
Proof.
  intros Hok Hsz s Hs H1.
  destruct (run_load_all f Hok Hsz) as (ok & s0 & bty & i & Hs0 & HR & _).
  rewrite Hs in Hs0. injection Hs0 as <- <-.
  unfold load_top. rewrite Hs. cbn [mbind option_bind].
  destruct (clean_up_ok (length (ra s) - 1) s bty) as (s' & -> & HC & Hra & Hlen & H0).
  { by eapply clean_start. }
  { done. }
  { rewrite (r_len _ _ _ HR). lia. }
  cbn [mbind option_bind]. exists s'. split; [done|]. split; [done|].
  assert (Hnone : forall a x, peek (log s') a <> Some (To x)).
  { intros a [b o] Hp.
    destruct (c_own _ _ _ HC _ _ _ Hp) as (_ & _ & _ & j & e & t & Hj & He & Ha & _).
    assert (j = 0%nat) as -> by lia. rewrite Hra in He.
    pose proof (r_in _ _ _ HR _ _ He) as Hin. rewrite Ha in Hin. specialize (Hin ltac:(done)).
    apply elem_of_list_fmap in Hin as (m & Hm & Hin).
    destruct Htree as (_ & _ & HL & _). destruct (HL m Hin) as [? _]. lia. }
  split; [|split].
  - rewrite H0. exact (r_dest _ _ _ HR).
  - intros b Hb. destruct (lookup_lt_is_Some_2 (blocks s') b) as [[m|] Hm]; [lia| |done].
    destruct b as [|b]; [lia|]. destruct (c_leak _ _ _ HC _ _ Hm) as [a Hp]. by apply Hnone in Hp.
  - intros a x Hp. apply (Hnone a x). unfold get_ptr in Hp.
    destruct (blocks s' !! a.1) as [[m|]|]; [|done|done]. destruct (_ && _); [|done]. exact Hp.
Qed.
End run.
