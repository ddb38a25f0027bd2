(** A tree that fits is loaded completely: the pointers (src/mr_load.c:697-768, 899-905). *)
From Verif Require Import Base Load LoadSpec LoadSafe LoadInv LoadInv2 LoadPlace LoadRun LoadText LoadFits LoadOk LoadRefs LoadTop.
Local Open Scope Z_scope.

Section fits2.
Context (env : list td) (leaf : node -> stype -> bool * bool) (alloc : nat -> bool).
Context (nodes : list node) (root : node) (size : Z) (f : fd).
Context (ty : nat -> stype) (off : nat -> Z).
Hypothesis Hw : well_typed env nodes root size f.
Hypothesis Halloc : forall b, alloc b = true.
Hypothesis HT : tree_fits env leaf root ty off f.
Notation tyn m := (ty (n_idx m)).
Notation offn m := (off (n_idx m)).
Notation fits := (fits env leaf ty off).
Notation inl := (inl ty off).

Lemma Henv : env_ok env. Proof. by destruct Hw. Qed.
Lemma Hunion : union_free env. Proof. by destruct Hw as (_ & ? & _). Qed.
Lemma Htree : tree_ok nodes root. Proof. by destruct Hw as (_ & _ & ? & _). Qed.

Lemma leaf_kind_dec k : leaf_kind k \/ ~ leaf_kind k.
Proof. destruct k; cbn; tauto. Qed.

Lemma all_fit m : m ∈ subtree root -> fits m.
Proof. apply HT. Qed.

Lemma types_ok : forall nd, (forall m, m ∈ subtree nd -> fits m) -> stype_ok env (tyn nd) -> forall m, m ∈ subtree nd -> stype_ok env (tyn m).
Proof.
  apply (node_ind2 (fun nd => (forall m, m ∈ subtree nd -> fits m) -> stype_ok env (tyn nd) -> forall m, m ∈ subtree nd -> stype_ok env (tyn m))).
  intros nd IH F Ok m Hm. apply subtree_inv in Hm as [->|(k & Hk & Hm)]; [done|].
  rewrite Forall_forall in IH. apply (IH k Hk); [intros x Hx; apply F; exact (subtree_kid _ _ _ Hk Hx)| |done].
  pose proof (F nd (subtree_self nd)) as Fn.
  assert (s_kind (tyn nd) = Struct \/ s_kind (tyn nd) = Array -> stype_ok env (tyn k)) as H.
  { intros HK. destruct (kid_types env leaf alloc Hunion Halloc ty off nd Fn Ok HK) as [Hs _]. by apply (sub_range env Henv _ _ _ (Hs k Hk)). }
  unfold LoadFits.fits in Fn. destruct (s_kind (tyn nd)) eqn:Ek.
  1-4: destruct Fn as [Fn _]; rewrite Fn in Hk; by apply elem_of_nil in Hk.
  - apply H. by left.
  - done.
  - apply H. by right.
  - destruct Fn as [E|(_ & _ & _ & E)]; [rewrite E in Hk; by apply elem_of_nil in Hk|].
    apply elem_of_list_lookup in Hk as [x Hx]. destruct (E x k Hx) as (_ & -> & _). by apply target_stype.
  - rewrite Fn in Hk. by apply elem_of_nil in Hk.
  - done.
Qed.

Lemma all_ok m : m ∈ subtree root -> stype_ok env (tyn m).
Proof. apply types_ok; [exact all_fit|]. destruct HT as [-> _]. by destruct Hw as (_ & _ & _ & ? & _). Qed.

Lemma same_node m m' : m ∈ subtree root -> m' ∈ subtree root -> n_idx m = n_idx m' -> m = m'.
Proof. intros H H' E. destruct Htree as (_ & _ & _ & N). pose proof (N m H). pose proof (N m' H'). congruence. Qed.

Lemma idx_pos m : m ∈ subtree root -> (0 < n_idx m)%nat.
Proof. destruct Htree as (_ & _ & L & _). intros H. by apply (L m H). Qed.

Lemma idx_kid p k m : p ∈ subtree root -> k ∈ n_kids p -> m ∈ subtree k -> (n_idx p < n_idx m)%nat.
Proof.
  destruct Htree as (_ & _ & L & _).
  assert (forall nd, links_ok nd -> forall m, m ∈ subtree nd -> (n_idx nd <= n_idx m)%nat) as Up.
  { apply (node_ind2 (fun nd => links_ok nd -> forall m, m ∈ subtree nd -> (n_idx nd <= n_idx m)%nat)).
    intros nd IH Ln x Hx. apply subtree_inv in Hx as [->|(y & Hy & Hx)]; [done|]. rewrite Forall_forall in IH.
    assert (links_ok y) as Ly by (eapply links_sub; [exact Ln|]; exact (subtree_kid _ _ _ Hy (subtree_self y))).
    pose proof (IH y Hy Ly x Hx). destruct (Ln nd (subtree_self nd)) as [_ K]. destruct (K y Hy). lia. }
  intros Hp Hk Hm. destruct (L p Hp) as [_ K]. destruct (K k Hk) as [_ Hlt].
  assert (links_ok k) as Lk.
  { eapply links_sub; [exact L|]. eapply subtree_trans; [exact Hp|]. exact (subtree_kid _ _ _ Hk (subtree_self k)). }
  pose proof (Up k Lk m Hm). lia.
Qed.

Definition head (h : node) : Prop := h = root \/ exists p, p ∈ subtree root /\ s_kind (tyn p) = Pointer /\ h ∈ n_kids p.

Lemma kid_in p k : p ∈ subtree root -> k ∈ n_kids p -> k ∈ subtree root.
Proof. intros Hp Hk. eapply subtree_trans; [exact Hp|]. exact (subtree_kid _ _ _ Hk (subtree_self k)). Qed.

Lemma head_in h : head h -> h ∈ subtree root.
Proof. intros [->|(p & Hp & _ & Hk)]; [apply subtree_self|by eapply kid_in]. Qed.

Lemma inl_in h m o : head h -> inl h m o -> m ∈ subtree root.
Proof. intros Hh Hi. eapply subtree_trans; [by apply head_in|]. by eapply inl_sub. Qed.

Lemma head_fit h m : head h -> m ∈ subtree h -> fits m.
Proof. intros Hh Hm. apply all_fit. eapply subtree_trans; [by apply head_in|done]. Qed.

Lemma inl_range h m o : head h -> inl h m o -> 0 <= o /\ o + s_size (tyn m) <= s_size (tyn h).
Proof.
  intros Hh Hi. pose proof (all_ok h (head_in h Hh)) as Ok.
  destruct (sub_range env Henv _ _ _ (inl_type env leaf alloc Henv Hunion Halloc ty off h m o Hi (fun x => head_fit h x Hh) Ok) Ok) as (_ & ? & ?). done.
Qed.

Lemma par_kid p k : p ∈ subtree root -> k ∈ n_kids p -> n_par k = n_idx p.
Proof. intros Hp Hk. destruct Htree as (_ & _ & L & _). destruct (L p Hp) as [_ K]. by destruct (K k Hk). Qed.

Lemma siblings h h' : head h -> head h' -> n_par h = n_par h' ->
  h = h' \/ offn h + s_size (tyn h) <= offn h' \/ offn h' + s_size (tyn h') <= offn h.
Proof.
  assert (n_par root = 0%nat) as R by (by destruct Htree).
  intros [->|(p & Hp & Hk & Hin)] [->|(p' & Hp' & Hk' & Hin')] E.
  - by left.
  - rewrite (par_kid p' h' Hp' Hin'), R in E. pose proof (idx_pos p' Hp'). lia.
  - rewrite (par_kid p h Hp Hin), R in E. pose proof (idx_pos p Hp). lia.
  - rewrite (par_kid p' h' Hp' Hin'), (par_kid p h Hp Hin) in E. apply (same_node _ _ Hp Hp') in E as <-.
    pose proof (all_fit p Hp) as F. unfold LoadFits.fits in F. rewrite Hk in F.
    destruct F as [F|(_ & _ & _ & F)]; [rewrite F in Hin; by apply elem_of_nil in Hin|].
    destruct (target_stype env (tyn p) (all_ok p Hp) Hk) as [[Sz _] _].
    apply elem_of_list_lookup in Hin as [x Hx], Hin' as [y Hy]. destruct (F x h Hx) as (_ & T1 & O1), (F y h' Hy) as (_ & T2 & O2).
    rewrite T1, T2, O1, O2. assert (x = y \/ Z.of_nat x < Z.of_nat y \/ Z.of_nat y < Z.of_nat x) as [<-|[?|?]] by lia.
    + left. congruence.
    + right. left. nia.
    + right. right. nia.
Qed.

(** * What holds while the pointers are followed *)
Record PH (own : list (option nat)) (c : nat) (s : state) : Prop := {
  ph_len : length own = length (blocks s);
  ph_ra : length (ra s) = S (length nodes);
  ph_node : forall m, m ∈ subtree root -> exists e, ra s !! n_idx m = Some e /\ e_node e = m;
  ph_at : forall j e a t, ra s !! j = Some e -> e_at e = Some (a, t) ->
    exists m h o, n_idx m = j /\ head h /\ inl h m o /\ own !! a.1 = Some (Some (n_par h)) /\ a.2 = offn h + o /\ t = tyn m;
  ph_val : forall m a t, m ∈ subtree root -> placed (ra s) m a t ->
    value_at ty (fun b => own !! b = Some None) (blocks s) (log s) m a;
  ph_log : log_in s;
  ph_room : forall b h, own !! b = Some (Some (n_par h)) -> head h ->
    exists n, blocks s !! b = Some (Some n) /\ 0 <= offn h /\ offn h + s_size (tyn h) <= n;
  ph_inj : forall b b' p, own !! b = Some (Some p) -> own !! b' = Some (Some p) -> b = b';
  ph_own : forall b p, own !! b = Some (Some p) -> p = 0%nat \/ (p < c)%nat;
}.

Lemma placed_head own c s m a t : PH own c s -> m ∈ subtree root -> placed (ra s) m a t ->
  exists h o, head h /\ inl h m o /\ own !! a.1 = Some (Some (n_par h)) /\ a.2 = offn h + o /\ t = tyn m.
Proof.
  intros P Hm (e & E & A). destruct (ph_at _ _ _ P _ _ _ _ E A) as (m' & h & o & Hj & Hh & Hi & R).
  assert (m' = m) as -> by (apply same_node; [by eapply inl_in|done|done]). by exists h, o.
Qed.

Lemma placed_space own c s m a t : PH own c s -> m ∈ subtree root -> placed (ra s) m a t ->
  exists n, blocks s !! a.1 = Some (Some n) /\ 0 <= a.2 /\ a.2 + s_size (tyn m) <= n.
Proof.
  intros P Hm Hp. destruct (placed_head _ _ _ _ _ _ P Hm Hp) as (h & o & Hh & Hi & Ho & Ha & _).
  destruct (ph_room _ _ _ P _ _ Ho Hh) as (n & Hn & O1 & O2). exists n. destruct (inl_range _ _ _ Hh Hi). split; [done|lia].
Qed.

Lemma far own c s m m' a a' t t' : PH own c s -> m ∈ subtree root -> m' ∈ subtree root -> m <> m' ->
  placed (ra s) m a t -> placed (ra s) m' a' t' -> leaf_kind (s_kind t) -> leaf_kind (s_kind t') -> a.1 = a'.1 ->
  a.2 + s_size t <= a'.2 \/ a'.2 + s_size t' <= a.2 \/ (scalar_kind (s_kind t) /\ scalar_kind (s_kind t')).
Proof.
  intros P Hm Hm' Ne Hp Hp' L L' Ea.
  destruct (placed_head _ _ _ _ _ _ P Hm Hp) as (h & o & Hh & Hi & Ho & Ha & ->).
  destruct (placed_head _ _ _ _ _ _ P Hm' Hp') as (h' & o' & Hh' & Hi' & Ho' & Ha' & ->).
  assert (n_par h = n_par h') as Ep by (rewrite Ea in Ho; congruence).
  destruct (inl_range _ _ _ Hh Hi), (inl_range _ _ _ Hh' Hi').
  destruct (siblings h h' Hh Hh' Ep) as [<-|D]; [|destruct D; [left|right; left]; lia].
  assert (NoDup (n_idx <$> subtree h)) as Nd by (eapply nodup_sub; [by destruct Htree as (_ & ? & _)|by apply head_in]).
  destruct (inl_disjoint env leaf alloc Henv Hunion Halloc ty off h (fun x => head_fit h x Hh) (all_ok h (head_in h Hh)) Nd _ _ _ _ Hi Hi' L L') as [[? _]|[?|[?|?]]];
    [done|left; lia|right; left; lia|by right; right].
Qed.

Lemma value_other (P : nat -> Prop) bs l m a : ~ leaf_kind (s_kind (tyn m)) -> value_at ty P bs l m a.
Proof. intros H. unfold value_at. destruct (s_kind (tyn m)); try done; by destruct H. Qed.

Lemma ph_mono own c c' s : (c <= c')%nat -> PH own c s -> PH own c' s.
Proof. intros Hc [P1 P2 P3 P4 P5 P6 P7 P8 P9]. split; try done. intros b p Hb. destruct (P9 b p Hb); [by left|right; lia]. Qed.

Lemma ph_same own c s s' : PH own c s -> blocks s' = blocks s -> log s' = log s -> length (ra s') = length (ra s) ->
  (forall j e', ra s' !! j = Some e' -> exists e, ra s !! j = Some e /\ e_node e' = e_node e /\ e_at e' = e_at e) -> PH own c s'.
Proof.
  intros [P1 P2 P3 P4 P5 P6 P7 P8 P9] B L Le H. split; try done.
  - by rewrite B.
  - by rewrite Le.
  - intros m Hm. destruct (P3 m Hm) as (e & E & N). apply lookup_lt_Some in E as E'. rewrite <- Le in E'.
    apply lookup_lt_is_Some in E' as [e' E']. exists e'. split; [done|]. destruct (H _ _ E') as (e1 & E1 & N1 & _). congruence.
  - intros j e a t E A. destruct (H _ _ E) as (e1 & E1 & N1 & A1). eapply P4; [exact E1|congruence].
  - intros m a t Hm (e & E & A). destruct (H _ _ E) as (e1 & E1 & N1 & A1). rewrite B, L. eapply (P5 m a t Hm). exists e1. split; [done|congruence].
  - unfold log_in. by rewrite L, B.
  - by rewrite B.
Qed.

Lemma ph_put own c s p cell t q : PH own c s -> p ∈ subtree root -> placed (ra s) p cell t -> s_kind t = Pointer ->
  exists s', put s cell (WPtr q) = Some s' /\ PH own c s' /\ peek (log s') cell = Some q /\ ra s' = ra s /\ blocks s' = blocks s.
Proof.
  intros P Hp Hpl Hk. destruct (placed_head _ _ _ _ _ _ P Hp Hpl) as (h & o & Hh & Hi & Ho & Ha & Et).
  destruct (placed_space _ _ _ _ _ _ P Hp Hpl) as (n & Hn & N1 & N2).
  assert (8 <= s_size t) as H8.
  { rewrite Et. destruct (all_ok p Hp) as [_ Ok]. rewrite <- Et, Hk in Ok. rewrite <- Et. by destruct Ok. }
  rewrite <- Et in N2. rewrite (put_ok s cell (WPtr q) n Hn N1) by (cbn; lia).
  eexists. split; [reflexivity|]. split; [|split; [|done]].
  - pose proof P as [P1 P2 P3 P4 P5 P6 P7 P8 P9]. split; try done.
    + intros m a t' Hm Hpm. cbn [blocks log ra] in *. destruct (placed_head _ _ _ _ _ _ P Hm Hpm) as (h' & o' & Hh' & Hi' & Ho' & Ha' & Et').
      destruct (decide (n_idx m = n_idx p)) as [E%(same_node _ _ Hm Hp)|Ne]; [subst m; unfold value_at; by rewrite <- Et, Hk|].
      destruct (leaf_kind_dec (s_kind (tyn m))) as [Lm|Lm]; [|by apply value_other].
      change (Store cell (WPtr q) :: log s) with ([Store cell (WPtr q)] ++ log s).
      eapply (value_mono env leaf alloc Halloc ty off); [by apply all_ok| | | | |eapply P5; [done|exact Hpm]].
      * constructor; [|constructor]. left. unfold away. cbn [st_at st_what width].
        destruct (decide (cell.1 = a.1)) as [Eb|Nb]; [right|by left].
        destruct (far _ _ _ _ _ _ _ _ _ P Hp Hm ltac:(congruence) Hpl Hpm) as [D|[D|[[? D] _]]]; [by rewrite Hk|by rewrite Et'|done| | |congruence].
        -- left. cbn. lia.
        -- right. rewrite <- Et'. lia.
      * intros b x Hb Hx. apply elem_of_list_singleton in Hx as ->. cbn. intros <-. congruence.
      * done.
      * done.
    + constructor; [|exact P6]. cbn. rewrite <- P1. by eapply lookup_lt_Some.
  - cbn [log]. rewrite peek_cons, meets_self. cbn. by rewrite Z.eqb_refl.
Qed.

(** A new block for what node [p] leads to. *)
Lemma ph_alloc own c s n p : PH own c s -> (0 < p)%nat -> (c <= p)%nat ->
  (forall h, head h -> n_par h = p -> 0 <= offn h /\ offn h + s_size (tyn h) <= n) ->
  PH (own ++ [Some p]) (S p) (State (blocks s ++ [Some n]) (log s) (ra s)).
Proof.
  intros P Hp0 Hc Hr. pose proof P as [P1 P2 P3 P4 P5 P6 P7 P8 P9].
  assert (forall b x, (own ++ [Some p]) !! b = Some (Some x) -> own !! b = Some (Some x) \/ b = length own /\ x = p) as Cs.
  { intros b x [?|[? H]]%lookup_app_Some; [by left|right]. apply list_lookup_singleton_Some in H as [? [= <-]]. split; [lia|done]. }
  split; cbn [blocks log ra]; try done.
  - rewrite !app_length. cbn. lia.
  - intros j e a t E A. destruct (P4 j e a t E A) as (m & h & o & R1 & R2 & R3 & R4 & R5). exists m, h, o.
    do 3 (split; [done|]). split; [by apply lookup_app_l_Some|done].
  - intros m a t Hm Hpm. rewrite <- (app_nil_l (log s)). eapply (value_mono env leaf alloc Halloc ty off); [by apply all_ok|constructor| | | |by eapply P5].
    + intros ? ? _ Hx. by apply elem_of_nil in Hx.
    + intros b Hb. by apply lookup_app_l_Some.
    + intros b x _ Hb. by apply lookup_app_l_Some.
  - eapply Forall_impl; [exact P6|]. cbn. intros x Hx. rewrite app_length. lia.
  - intros b h Hb Hh. destruct (Cs _ _ Hb) as [Ho|[-> Ep]].
    + destruct (P7 _ _ Ho Hh) as (n' & Hn' & R). exists n'. split; [by apply lookup_app_l_Some|done].
    + exists n. split; [rewrite lookup_app_r by lia; by rewrite P1, Nat.sub_diag|by apply Hr].
  - intros b b' x Hb Hb'. destruct (Cs _ _ Hb) as [Ho|[-> ->]], (Cs _ _ Hb') as [Ho'|[-> Ep]].
    + by eapply P8.
    + subst x. destruct (P9 _ _ Ho); lia.
    + destruct (P9 _ _ Ho'); lia.
    + done.
  - intros b x Hb. destruct (Cs _ _ Hb) as [Ho|[_ ->]]; [|right; lia]. destruct (P9 _ _ Ho); [by left|right; lia].
Qed.

Lemma inl_dec j : forall h, (exists m o, inl h m o /\ n_idx m = j) \/ (forall m o, inl h m o -> n_idx m <> j).
Proof.
  apply (node_ind2 (fun h => (exists m o, inl h m o /\ n_idx m = j) \/ (forall m o, inl h m o -> n_idx m <> j))).
  intros h IH. destruct (decide (n_idx h = j)) as [E|Nj]; [left; exists h, 0; split; [constructor|done]|].
  assert ((s_kind (tyn h) = Struct \/ s_kind (tyn h) = Array) \/ ~ (s_kind (tyn h) = Struct \/ s_kind (tyn h) = Array)) as [Hk|Nk].
  { destruct (s_kind (tyn h)); auto; right; intros [?|?]; done. }
  - assert ((exists k m o, k ∈ n_kids h /\ inl k m o /\ n_idx m = j) \/ (forall k m o, k ∈ n_kids h -> inl k m o -> n_idx m <> j)) as [H|H].
    { induction IH as [|k ks Hd HF IH']; [right; intros k m o H; by apply elem_of_nil in H|].
      destruct Hd as [(m & o & H)|N1]; [left; exists k, m, o; split; [by left|done]|].
      destruct IH' as [(k' & m & o & Hin & H)|N2]; [left; exists k', m, o; split; [by right|done]|].
      right. intros k' m o [->|Hin]%elem_of_cons Hi; [by eapply N1|by eapply N2]. }
    + destruct H as (k & m & o & Hin & Hi & E). left. exists m, (offn k + o). split; [by eapply inl_kid|done].
    + right. intros m o Hi. inversion Hi as [|? k ? o' _ Hin Hi']; subst; [done|by eapply H].
  - right. intros m o Hi. inversion Hi as [|? k ? o' Hc]; subst; [done|by destruct Nk].
Qed.

Lemma inls_dec j (ks : list node) : (exists k m o, k ∈ ks /\ inl k m o /\ n_idx m = j) \/ (forall k m o, k ∈ ks -> inl k m o -> n_idx m <> j).
Proof.
  induction ks as [|k ks IH]; [right; intros k m o H; by apply elem_of_nil in H|].
  destruct (inl_dec j k) as [(m & o & H)|N1]; [left; exists k, m, o; split; [by left|done]|].
  destruct IH as [(k' & m & o & Hin & H)|N2]; [left; exists k', m, o; split; [by right|done]|].
  right. intros k' m o [->|Hin]%elem_of_cons Hi; [by eapply N1|by eapply N2].
Qed.

Notation inside ks := (fun m o => exists k o', k ∈ (ks : list node) /\ inl k m o' /\ o = offn k + o').

(** Where the nodes are after loading [ks]. *)
Lemma places_after ks Q b n s s' m a t : Loaded ty (idxs ks) (inside ks) Q (b, 0) n s s' -> m ∈ subtree root ->
  (forall k, k ∈ ks -> head k) -> placed (ra s') m a t ->
  (exists k o, k ∈ ks /\ inl k m o /\ a = (b, offn k + o) /\ t = tyn m) \/
  ((forall k o, k ∈ ks -> ~ inl k m o) /\ placed (ra s) m a t).
Proof.
  intros L Hm Hks (e & E & A). destruct (inls_dec (n_idx m) ks) as [(k & m' & o & Hk & Hi & Em)|N].
  - left. assert (m' = m) as -> by (apply same_node; [eapply inl_in; [by apply Hks|done]|done|done]).
    destruct (lp_in _ _ _ _ _ _ _ _ L m (offn k + o)) as (e0 & e' & E0 & E' & _ & _ & A'); [by exists k, o|].
    rewrite E in E'. injection E' as <-. rewrite A in A'. injection A' as -> ->. exists k, o. unfold shift. cbn. done.
  - right. split; [intros k o Hk Hi; exact (N k m o Hk Hi eq_refl)|]. exists e. split; [|done]. rewrite <- (lp_out _ _ _ _ _ _ _ _ L); [done|].
    intros x o (k & o' & Hk & Hi & ->). by eapply N.
Qed.

Lemma placed_after ks Q b n s s' k m o : Loaded ty (idxs ks) (inside ks) Q (b, 0) n s s' -> k ∈ ks -> inl k m o ->
  placed (ra s') m (b, offn k + o) (tyn m).
Proof.
  intros L Hk Hi. destruct (lp_in _ _ _ _ _ _ _ _ L m (offn k + o)) as (e0 & e' & _ & E' & _ & _ & A'); [by exists k, o|]. by exists e'.
Qed.

Lemma ph_chain ks Q b n own c s s' : PH own c s -> Loaded ty (idxs ks) (inside ks) Q (b, 0) n s s' ->
  (exists p, own !! b = Some (Some p) /\ forall k, k ∈ ks -> head k /\ n_par k = p) ->
  (forall m a t, m ∈ subtree root -> placed (ra s) m a t -> a.1 <> b) ->
  exists own', PH own' c s'.
Proof.
  intros P L (p & Hb & Hks) Hfr. pose proof P as [P1 P2 P3 P4 P5 P6 P7 P8 P9].
  assert (b < length (blocks s))%nat as Hbl by (rewrite <- P1; by eapply lookup_lt_Some).
  destruct (lp_blk _ _ _ _ _ _ _ _ L) as [bs B]. destruct (lp_log _ _ _ _ _ _ _ _ L) as (l & El & F).
  set (own' := own ++ replicate (length bs) None). exists own'.
  assert (forall x q, own' !! x = Some (Some q) -> own !! x = Some (Some q)) as Cs.
  { intros x q [?|[_ H]]%lookup_app_Some; [done|]. by apply lookup_replicate in H as [? _]. }
  assert (forall x, news s s' x -> own' !! x = Some None) as Nw.
  { intros x [N1 N2]. rewrite B, app_length, fmap_length in N2. unfold own'. rewrite lookup_app_r by lia. apply lookup_replicate. split; [done|lia]. }
  assert (forall k, k ∈ ks -> head k) as Hhd by (intros k Hk; by apply Hks).
  assert (At : forall m a t, m ∈ subtree root -> placed (ra s') m a t ->
    value_at ty (fun b => own' !! b = Some None) (blocks s') (log s') m a).
  { intros m a t Hm Hp. destruct (places_after _ _ _ _ _ _ _ _ _ L Hm Hhd Hp) as [(k & o & Hk & Hi & -> & ->)|[_ Ho]].
    - rewrite <- (app_nil_l (log s')). eapply (value_mono env leaf alloc Halloc ty off); [by apply all_ok|constructor| |exact Nw|done|].
      + intros ? ? _ Hx. by apply elem_of_nil in Hx.
      + replace (b, offn k + o) with (shift (b, 0) (offn k + o)) by done. apply (lp_val _ _ _ _ _ _ _ _ L). by exists k, o.
    - destruct (placed_head _ _ _ _ _ _ P Hm Ho) as (h & o & _ & _ & Ow & _).
      pose proof (lookup_lt_Some _ _ _ Ow) as La. rewrite P1 in La.
      rewrite El. eapply (value_mono env leaf alloc Halloc ty off); [by apply all_ok| | | | |by eapply P5].
      + eapply Forall_impl; [exact F|]. intros x [Hx _]. left. left. destruct Hx as [[-> _]|Hx]; [by apply not_eq_sym, (Hfr _ _ _ Hm Ho)|].
        unfold news in Hx. lia.
      + intros b' x Hb' Hx E. rewrite Forall_forall in F. destruct (F x Hx) as [[[E' _]|Hn] _].
        * cbn in E'. congruence.
        * apply lookup_lt_Some in Hb'. unfold news in Hn. lia.
      + intros b' Hb'. by apply lookup_app_l_Some.
      + intros b' x _ Hb'. rewrite B. by apply lookup_app_l_Some. }
  split; try done.
  - unfold own'. rewrite B, !app_length, replicate_length, fmap_length. lia.
  - by rewrite (lp_len _ _ _ _ _ _ _ _ L).
  - intros m Hm. destruct (P3 m Hm) as (e & E & N). destruct (inls_dec (n_idx m) ks) as [(k & m' & o & Hk & Hi & Em)|Ni].
    + destruct (lp_in _ _ _ _ _ _ _ _ L m' (offn k + o)) as (e0 & e' & E0 & E' & N' & _); [by exists k, o|]. rewrite Em in *.
      exists e'. split; [done|]. congruence.
    + exists e. split; [|done]. rewrite (lp_out _ _ _ _ _ _ _ _ L); [done|]. intros x o (k & o' & Hk & Hi & ->). by eapply Ni.
  - intros j e a t E A. destruct (inls_dec j ks) as [(k & m' & o & Hk & Hi & Em)|Ni].
    + destruct (lp_in _ _ _ _ _ _ _ _ L m' (offn k + o)) as (e0 & e' & E0 & E' & _ & _ & A'); [by exists k, o|]. rewrite Em, E in E'. injection E' as <-.
      rewrite A in A'. injection A' as -> ->. exists m', k, o. destruct (Hks k Hk) as [Hh Ho]. cbn [fst snd].
      do 3 (split; [done|]). split; [rewrite Ho; by apply lookup_app_l_Some|done].
    + rewrite (lp_out _ _ _ _ _ _ _ _ L) in E by (intros x o (k & o' & Hk & Hi & ->); by eapply Ni).
      destruct (P4 j e a t E A) as (m & h & o & R1 & R2 & R3 & R4 & R5). exists m, h, o. do 3 (split; [done|]). split; [by apply lookup_app_l_Some|done].
  - by eapply loaded_log_in.
  - intros b' h Hb' Hh. destruct (P7 b' h (Cs _ _ Hb') Hh) as (n' & Hn' & R). exists n'. split; [|done]. rewrite B. by apply lookup_app_l_Some.
  - intros b1 b2 q H1 H2. eapply P8; by apply Cs.
  - intros b1 q H1. eapply P9; by apply Cs.
Qed.

(** The nodes inside of loaded nodes are loaded, and those behind the pointers below [i]. *)
Definition Cover (i : nat) (s : state) : Prop :=
  forall m a t, m ∈ subtree root -> placed (ra s) m a t ->
    s_kind (tyn m) = Struct \/ s_kind (tyn m) = Array \/ s_kind (tyn m) = Pointer /\ (n_idx m < i)%nat ->
    forall k, k ∈ n_kids m -> exists a' t', placed (ra s) k a' t'.

(** The pointers from [i] on have the reference the parser gave them. *)
Definition Orig (i : nat) (s : state) : Prop :=
  forall m, m ∈ subtree root -> s_kind (tyn m) = Pointer -> (i <= n_idx m)%nat ->
    exists e, ra s !! n_idx m = Some e /\ e_ref e = n_ref m.

Lemma inl_last h p o k : inl h p o -> s_kind (tyn p) = Struct \/ s_kind (tyn p) = Array -> k ∈ n_kids p -> inl h k (o + offn k).
Proof.
  induction 1 as [h|h x m o Hk Hin _ IH]; intros Hp Hin'.
  - replace (0 + offn k) with (offn k + 0) by lia. eapply inl_kid; [done|done|constructor].
  - replace (offn x + o + offn k) with (offn x + (o + offn k)) by lia. eapply inl_kid; [done|done|]. by apply IH.
Qed.

Lemma still_placed ks Q b n s s' m a t : Loaded ty (idxs ks) (inside ks) Q (b, 0) n s s' -> placed (ra s) m a t -> exists a' t', placed (ra s') m a' t'.
Proof.
  intros L (e & E & A). destruct (inls_dec (n_idx m) ks) as [(k & m' & o & Hk & Hi & Em)|Ni].
  - destruct (lp_in _ _ _ _ _ _ _ _ L m' (offn k + o)) as (e0 & e' & E0 & E' & N' & _ & A'); [by exists k, o|]. rewrite Em in E'. by eexists _, _, e'.
  - exists a, t, e. split; [|done]. rewrite (lp_out _ _ _ _ _ _ _ _ L); [done|]. intros x o (k & o' & Hk & Hi & ->). by eapply Ni.
Qed.

Lemma cover_chain ks Q b n s s' i i' : Cover i s -> Loaded ty (idxs ks) (inside ks) Q (b, 0) n s s' ->
  (forall k, k ∈ ks -> head k) -> (forall k m, k ∈ ks -> m ∈ subtree k -> (i' <= n_idx m)%nat) ->
  (forall m, m ∈ subtree root -> (i <= n_idx m < i')%nat -> s_kind (tyn m) = Pointer -> (exists a t, placed (ra s') m a t) -> forall k, k ∈ n_kids m -> k ∈ ks) ->
  Cover i' s'.
Proof.
  intros C L Hks Hi' Hmid m a t Hm Hp Hk k Hin. destruct (places_after _ _ _ _ _ _ _ _ _ L Hm Hks Hp) as [(h & o & Hh & Hi & -> & ->)|[_ Ho]].
  - assert (s_kind (tyn m) = Struct \/ s_kind (tyn m) = Array) as HSA.
    { destruct Hk as [?|[?|[_ Hlt]]]; [by left|by right|]. pose proof (Hi' h m Hh (inl_sub _ _ _ _ _ Hi)). lia. }
    eexists _, _. eapply placed_after; [exact L|exact Hh|]. by eapply inl_last.
  - destruct Hk as [Hk|[Hk|[Hk Hlt]]].
    + destruct (C m a t Hm Ho ltac:(by left) k Hin) as (a' & t' & H). by eapply still_placed.
    + destruct (C m a t Hm Ho ltac:(by right; left) k Hin) as (a' & t' & H). by eapply still_placed.
    + destruct (decide (n_idx m < i)%nat) as [?|Ni].
      * destruct (C m a t Hm Ho ltac:(by right; right) k Hin) as (a' & t' & H). by eapply still_placed.
      * eexists _, _. eapply placed_after; [exact L| |constructor]. eapply (Hmid m); [done|lia|done|by exists a, t|done].
Qed.

Lemma refs_chain ks Q b n s s' i : Orig i s -> Loaded ty (idxs ks) (inside ks) Q (b, 0) n s s' ->
  (forall k, k ∈ ks -> head k) -> Orig i s'.
Proof.
  intros R L Hks m Hm Hk Hi. destruct (R m Hm Hk Hi) as (e & E & Er). destruct (inls_dec (n_idx m) ks) as [(k & m' & o & Hin & Hl & Em)|Ni].
  - destruct (lp_in _ _ _ _ _ _ _ _ L m' (offn k + o)) as (e0 & e' & E0 & E' & N' & Rf & A'); [by exists k, o|]. rewrite Em in *.
    exists e'. split; [done|]. rewrite Rf by done. congruence.
  - exists e. split; [|done]. rewrite (lp_out _ _ _ _ _ _ _ _ L); [done|]. intros x o (k & o' & Hin & Hl & ->). by eapply Ni.
Qed.

Lemma targets_ok g (cell : addr) b n mc T : f_ty g = T -> f_unnamed g = true -> s_kind T <> CharArray -> cell.1 <> b ->
  forall ks x0 s, Kids env leaf alloc ty off ks (b, 0) n s ->
  blocks s !! cell.1 = Some (Some mc) -> 0 <= cell.2 -> cell.2 + 8 <= mc -> peek (log s) cell = Some (To (b, 0)) ->
  (forall x k, ks !! x = Some k -> suits_type T k /\ tyn k = T /\ offn k = (Z.of_nat x0 + Z.of_nat x) * s_size T) ->
  exists s', targets (load env leaf alloc) g cell ks (Z.of_nat x0) None s = Some (true, None, s') /\ Chain ty off (b, 0) ks s s'.
Proof.
  intros HTg Hun Hch Nb. induction ks as [|k ks IH]; intros x0 s K Hc C1 C2 Hpk H.
  { exists s. split; [done|constructor]. }
  destruct (H 0%nat k eq_refl) as (Hs & Ht & Ho). cbn [targets].
  rewrite (get_ptr_peek _ _ mc) by done. rewrite Hpk. cbn [mbind option_bind].
  destruct (kids_head env leaf alloc ty off k ks (b, 0) n s (next_nameless ks) g (Some cell) K) as (s1 & E1 & H1).
  - by rewrite HTg.
  - unfold suits. unfold suits_type in Hs. destruct (n_fd k) as [[nm t]|]; [|done]. split; [by rewrite HTg|by left].
  - right. by rewrite Ht.
  - rewrite HTg. replace (Z.of_nat x0 * s_size T) with (offn k) by (rewrite Ho; lia). rewrite E1. cbn [mbind option_bind].
    destruct (lp_blk _ _ _ _ _ _ _ _ H1) as [bs B]. destruct (lp_log _ _ _ _ _ _ _ _ H1) as (l & El & F).
    destruct (IH (S x0) s1) as (s' & E' & C).
    + eapply kids_next; done.
    + rewrite B. by apply lookup_app_l_Some.
    + done.
    + done.
    + rewrite El, (peek_away _ _ _ 8); [done|lia|]. eapply Forall_impl; [exact F|]. intros x [Hx _]. left.
      destruct Hx as [[-> _]|Hx]; [done|]. apply lookup_lt_Some in Hc. unfold news in Hx. lia.
    + intros x k' Hx. destruct (H (S x) k' Hx) as (R1 & R2 & R3). split; [done|]. split; [done|]. rewrite R3. f_equal. lia.
    + replace (Z.of_nat x0 + 1) with (Z.of_nat (S x0)) by lia. exists s'. split; [done|]. by econstructor.
Qed.

Lemma postponed_ok own i s e : PH own i s -> Cover i s -> Orig i s -> ra s !! i = Some e -> loaded_as Pointer e = true ->
  exists own' s', load_pointer_postponed env leaf alloc i s = Some (true, s') /\ PH own' (S i) s' /\ Cover (S i) s' /\ Orig (S i) s'.
Proof.
  intros P C R E Lp. unfold loaded_as in Lp. destruct (e_at e) as [[cell t]|] eqn:Ea; [|done].
  assert (s_kind t = Pointer) as Hkt by (by destruct (s_kind t)).
  destruct (ph_at _ _ _ P _ _ _ _ E Ea) as (p & h & o & Hj & Hh & Hi & Ow & A2 & Et).
  pose proof (inl_in h p o Hh Hi) as Hp.
  assert (e_node e = p) as En by (destruct (ph_node _ _ _ P p Hp) as (e1 & E1 & N1); rewrite Hj in E1; congruence).
  assert (placed (ra s) p cell t) as Hpl by (exists e; by rewrite Hj).
  assert (Hkp : s_kind (tyn p) = Pointer) by (by rewrite <- Et).
  unfold load_pointer_postponed. rewrite E. cbn [mbind option_bind]. rewrite Ea, En.
  destruct (ph_put _ _ _ _ _ _ Null P Hp Hpl Hkt) as (s1 & -> & P1 & Pk1 & Ra1 & B1). cbn [mbind option_bind].
  assert (RC : forall z (r : option (bool * Z)), ra z = alter (fun e => Entry (e_node e) (e_at e) r) i (ra s) ->
    (forall j e', ra z !! j = Some e' -> exists e, ra s !! j = Some e /\ e_node e' = e_node e /\ e_at e' = e_at e) /\
    (forall m a t, placed (ra z) m a t <-> placed (ra s) m a t) /\ Orig (S i) z).
  { intros z r Ez. rewrite Ez. split; [|split].
    - intros j e' E'. destruct (decide (i = j)) as [<-|Nj].
      + rewrite list_lookup_alter, E in E'. injection E' as <-. by exists e.
      + rewrite list_lookup_alter_ne in E' by done. by exists e'.
    - intros m a t'. unfold placed. destruct (decide (i = n_idx m)) as [Eq|Nj].
      + rewrite <- Eq. rewrite list_lookup_alter, E. cbn. split; intros (e1 & [= <-] & A1); by eexists.
      + by rewrite list_lookup_alter_ne.
    - intros m Hm Hk Hlt. destruct (R m Hm Hk ltac:(lia)) as (e1 & E1 & Er). exists e1. split; [|done].
      rewrite Ez, list_lookup_alter_ne by lia. done. }
  (* nothing to load behind the pointer *)
  assert (Stop : n_kids p = [] -> forall z, (ra z = ra s \/ exists r, ra z = alter (fun e => Entry (e_node e) (e_at e) r) i (ra s)) ->
    blocks z = blocks s1 -> log z = log s1 -> PH own (S i) z /\ Cover (S i) z /\ Orig (S i) z).
  { intros Nk z Hz Bz Lz.
    assert ((forall j e', ra z !! j = Some e' -> exists e, ra s !! j = Some e /\ e_node e' = e_node e /\ e_at e' = e_at e) /\
      (forall m a t, placed (ra z) m a t <-> placed (ra s) m a t) /\ Orig (S i) z) as (Z1 & Z2 & Z3).
    { destruct Hz as [Hz|[r Hz]]; [|by eapply RC]. rewrite Hz. split; [|split]; [intros j e' E'; by exists e'|done|].
      intros m Hm Hk Hlt. rewrite Hz. apply R; [done|done|lia]. }
    split; [|split; [|done]].
    - eapply ph_same; [eapply ph_mono; [|exact P1]; lia|done|done| |].
      + destruct Hz as [-> |[r ->]]; [by rewrite Ra1|by rewrite alter_length, Ra1].
      + intros j e' E'. rewrite Ra1. by apply Z1.
    - intros m a t' Hm Hpm Hk k Hin. apply Z2 in Hpm. destruct (C m a t' Hm Hpm) with k as (a' & t'' & H); [|done|exists a', t''; by apply Z2].
      destruct Hk as [?|[?|[Hk Hlt]]]; [by left|by right; left|]. right; right. split; [done|].
      destruct (decide (n_idx m = i)) as [Em|?]; [|lia]. rewrite <- Hj in Em. apply (same_node _ _ Hm Hp) in Em as ->.
      rewrite Nk in Hin. by apply elem_of_nil in Hin. }
  pose proof (all_fit p Hp) as Fp. unfold LoadFits.fits in Fp. rewrite Hkp in Fp.
  destruct (decide (n_kids p = [])) as [Nk|Nk].
  { specialize (Stop Nk). rewrite Nk. destruct (n_null p).
    - exists own, s1. split; [done|]. apply Stop; [by left|done|done].
    - match goal with |- exists _ _, match ?r with _ => _ end = _ /\ _ => destruct r end; (eexists own, _; split; [reflexivity|]; apply Stop; [right; eexists; cbn; by rewrite Ra1|done|done]). }
  destruct Fp as [?|(Nn & [Nr Nv] & Nz & El)]; [done|]. rewrite Nn.
  assert (e_ref e = None) as Er.
  { destruct (R p Hp Hkp ltac:(lia)) as (e1 & E1 & R1). rewrite Hj, E in E1. injection E1 as <-. by rewrite R1. }
  replace (match n_val p with VInt z => Some (int_ref z) | _ => e_ref e end) with (@None (bool * Z)) by (destruct (n_val p) as [z| | |]; [by destruct (Nv z)|done|done|done]).
  set (s2 := set_entry s1 i _). set (T := f_ty (target_fd env t)).
  assert (T = f_ty (target_fd env (tyn p))) as HTT by (unfold T; by rewrite Et).
  set (ks := n_kids p) in *. destruct ks as [|k0 ks0] eqn:Eks; [done|]. rewrite <- Eks in *. clear k0 ks0 Eks.
  rewrite <- HTT in Nz, El. destruct (Z.eqb_spec (s_size T) 0) as [?|_]; [done|].
  destruct (RC s2 None) as (Z1 & Z2 & Z3); [cbn; by rewrite Ra1|].
  assert (PH own i s2) as P2.
  { eapply ph_same; [exact P1|done|done|cbn; by rewrite alter_length|]. intros j e' E'. rewrite Ra1. by apply Z1. }
  destruct (target_stype env (tyn p) (all_ok p Hp) Hkp) as [OkT NcT]. rewrite <- HTT in OkT, NcT. pose proof OkT as [OkT0 _].
  assert (Hkids : forall k, k ∈ ks -> head k /\ n_par k = i /\ 0 <= offn k /\ offn k + s_size (tyn k) <= Z.of_nat (length ks) * s_size T).
  { intros k Hin. split; [right; by exists p|]. split; [by rewrite <- Hj; apply par_kid|].
    apply elem_of_list_lookup in Hin as [x Hx]. destruct (El x k Hx) as (_ & -> & ->). apply lookup_lt_Some in Hx. split; [lia|nia]. }
  unfold calloc. rewrite Halloc. cbn [mbind option_bind].
  set (n := Z.of_nat (length ks) * s_size T) in *. set (b := length (blocks s2)).
  assert (0 < i)%nat as Hi0 by (rewrite <- Hj; by apply idx_pos).
  assert (PH (own ++ [Some i]) (S i) (State (blocks s2 ++ [Some n]) (log s2) (ra s2))) as P3.
  { apply ph_alloc with i; [done|done|done|]. intros h' Hh' Hpar. destruct Hh' as [->|(p' & Hp' & Hk' & Hin')].
    - destruct Htree as [Hr _]. lia.
    - rewrite (par_kid p' h' Hp' Hin') in Hpar. rewrite <- Hj in Hpar. apply (same_node _ _ Hp' Hp) in Hpar as ->. by apply Hkids. }
  destruct (ph_put _ _ _ p cell t (To (b, 0)) P3 Hp) as (s3 & E3 & P4 & Pk & Ra3 & B3); [cbn [ra]; by apply Z2|done|].
  rewrite E3. cbn [mbind option_bind]. cbn [ra blocks] in Ra3, B3.
  assert (length own = b) as Lb by (apply (ph_len _ _ _ P2)).
  assert (cell.1 < b)%nat as Cb by (rewrite <- Lb; by eapply lookup_lt_Some).
  destruct (placed_space _ _ _ p cell t P4 Hp) as (mc & M1 & M2 & M3); [rewrite Ra3; by apply Z2|].
  assert (8 <= s_size (tyn p)) as H8.
  { destruct (all_ok p Hp) as [_ Okp]. rewrite Hkp in Okp. by destruct Okp. }
  assert (blocks s3 !! b = Some (Some n)) as Bn by (rewrite B3, lookup_app_r by done; by unfold b; rewrite Nat.sub_diag).
  assert (Kids env leaf alloc ty off ks (b, 0) n s3) as K.
  { split.
    - apply Forall_forall. intros k _. exact (load_fits env leaf alloc Henv Hunion Halloc ty off k).
    - destruct Htree as (_ & Nd & _). pose proof (nodup_sub _ _ Nd Hp) as Ndp. rewrite idxs_sub in Ndp. by apply NoDup_cons in Ndp as [_ ?].
    - intros k Hin. destruct (Hkids k Hin) as (Hhk & _ & O1 & O2). split; [|split; [apply all_ok; by apply head_in|done]].
      intros m Hm. split; [by eapply head_fit|]. 
      assert (m ∈ subtree root) as Hmr by (eapply subtree_trans; [apply head_in; exact Hhk|done]).
      split; [by apply idx_pos|]. destruct (ph_node _ _ _ P4 m Hmr) as (e1 & E1 & _). by eapply lookup_lt_Some.
    - apply (ph_log _ _ _ P4).
    - exists n. cbn. split; [done|]. lia. }
  destruct (targets_ok (target_fd env t) cell b n mc T eq_refl eq_refl NcT ltac:(lia) ks 0%nat s3 K M1 M2 ltac:(lia) Pk) as (s4 & E4 & C4).
  { intros x k Hx. destruct (El x k Hx) as (R1 & R2 & R3). by rewrite R3. }
  change (Z.of_nat 0) with 0 in E4. rewrite E4. cbn [mbind option_bind].
  assert (Loaded ty (idxs ks) (inside ks) (among ty off (b, 0) ks) (b, 0) n s3 s4) as L.
  { eapply (chain_loaded env leaf alloc Henv Hunion Halloc ty off (b, 0) n ks s3 s4 C4 (ph_log _ _ _ P4)).
    - cbn. by eapply lookup_lt_Some.
    - apply (k_nodup _ _ _ _ _ _ _ _ _ K).
    - intros k Hin. destruct (k_each _ _ _ _ _ _ _ _ _ K k Hin) as (F & Rs). split; [|done]. intros m Hm. by apply F.
    - intros x y k k' Hx Hy Nxy. destruct (El x k Hx) as (_ & -> & ->), (El y k' Hy) as (_ & -> & ->).
      assert (Z.of_nat x < Z.of_nat y \/ Z.of_nat y < Z.of_nat x) as [?|?] by lia; [left|right; left]; nia. }
  assert (forall m a t, m ∈ subtree root -> placed (ra s3) m a t -> (a.1 < b)%nat) as Old.
  { intros m a t' Hm Hpm. rewrite Ra3 in Hpm. destruct (placed_head _ _ _ _ _ _ P2 Hm Hpm) as (h' & o' & _ & _ & Ow' & _).
    rewrite <- Lb. by eapply lookup_lt_Some. }
  destruct (ph_chain _ _ _ _ _ _ _ _ P4 L) as [own' P5].
  { exists i. split; [rewrite lookup_app_r by lia; by rewrite Lb, Nat.sub_diag|]. intros k Hin. by destruct (Hkids k Hin) as (? & ? & _). }
  { intros m a t' Hm Hpm. pose proof (Old m a t' Hm Hpm). lia. }
  exists own', s4. split; [done|]. split; [done|]. split.
  - eapply (cover_chain _ _ _ _ s3 s4 i); [|exact L| | |].
    + intros m a t' Hm Hpm Hk k Hin. rewrite Ra3 in *. apply Z2 in Hpm. destruct (C m a t' Hm Hpm Hk k Hin) as (a' & t'' & H).
      exists a', t''. by apply Z2.
    + intros k Hin. by apply Hkids.
    + intros k m Hin Hm. pose proof (idx_kid p k m Hp Hin Hm). lia.
    + intros m Hm Hlt _ _ k Hin. assert (m = p) as -> by (apply same_node; [done|done|lia]). done.
  - eapply refs_chain; [|exact L|intros k Hin; by apply Hkids]. intros m Hm Hk Hlt. rewrite Ra3. by apply Z3.
Qed.

Lemma pointers_ok : forall todo i s own, (i + todo = length (ra s))%nat -> PH own i s -> Cover i s -> Orig i s ->
  exists own' s', load_pointers env leaf alloc todo i s = Some (true, s') /\ PH own' (length (ra s)) s' /\ Cover (length (ra s)) s'.
Proof.
  induction todo as [|todo IH]; intros i s own Hl P C R; cbn [load_pointers].
  { exists own, s. replace (length (ra s)) with i by lia. done. }
  destruct (lookup_lt_is_Some_2 (ra s) i ltac:(lia)) as [e E]. rewrite E. cbn [mbind option_bind].
  destruct (loaded_as Pointer e) eqn:Lp.
  - destruct (postponed_ok _ _ _ _ P C R E Lp) as (own1 & s1 & -> & P1 & C1 & R1). cbn [mbind option_bind].
    assert (length (ra s1) = length (ra s)) as Ll by (rewrite (ph_ra _ _ _ P1), (ph_ra _ _ _ P); done).
    destruct (IH (S i) s1 own1) as (own2 & s2 & E2 & P2 & C2); [lia|done|done|done|]. rewrite Ll in P2, C2. by exists own2, s2.
  - destruct (IH (S i) s own) as (own2 & s2 & E2 & P2 & C2); [lia| | | |by exists own2, s2].
    + eapply ph_mono; [|exact P]. lia.
    + intros m a t Hm Hp Hk k Hin. eapply C; [exact Hm|exact Hp| |done].
      destruct Hk as [?|[?|[Hk Hlt]]]; [by left|by right; left|right; right]. split; [done|].
      destruct (decide (n_idx m = i)) as [Em|?]; [|lia]. destruct (placed_head _ _ _ _ _ _ P Hm Hp) as (_ & _ & _ & _ & _ & _ & Et).
      destruct Hp as (e1 & E1 & A1). rewrite Em, E in E1. injection E1 as <-. unfold loaded_as in Lp. rewrite A1, Et, Hk in Lp. done.
    + intros m Hm Hk Hlt. apply R; [done|done|lia].
Qed.

Lemma all_placed own s : PH own (length (ra s)) s -> Cover (length (ra s)) s -> (exists a t, placed (ra s) root a t) ->
  forall m, m ∈ subtree root -> exists a t, placed (ra s) m a t.
Proof.
  intros P C Hr.
  assert (forall nd, nd ∈ subtree root -> (exists a t, placed (ra s) nd a t) -> forall m, m ∈ subtree nd -> exists a t, placed (ra s) m a t) as H.
  { apply (node_ind2 (fun nd => nd ∈ subtree root -> (exists a t, placed (ra s) nd a t) -> forall m, m ∈ subtree nd -> exists a t, placed (ra s) m a t)).
    intros nd IH Hnd (a & t & Hp) m Hm. apply subtree_inv in Hm as [->|(k & Hk & Hm)]; [by exists a, t|]. rewrite Forall_forall in IH.
    apply (IH k Hk); [by eapply kid_in| |done]. eapply C; [exact Hnd|exact Hp| |done].
    pose proof (all_fit nd Hnd) as F. unfold LoadFits.fits in F.
    destruct (s_kind (tyn nd)) eqn:Ek; try done.
    1-4: destruct F as [F _]; rewrite F in Hk; by apply elem_of_nil in Hk.
    - by left.
    - by right; left.
    - right; right. split; [done|]. destruct (ph_node _ _ _ P nd Hnd) as (e & E & _). by eapply lookup_lt_Some.
    - rewrite F in Hk. by apply elem_of_nil in Hk. }
  intros m Hm. eapply H; [apply subtree_self|done|done].
Qed.

(** The tree and all pointers are loaded. *)
Lemma load_all_ok : exists own s, load_all env leaf alloc root (0%nat, 0) f (start size nodes) = Some (true, s) /\
  PH own (length (ra s)) s /\ Cover (length (ra s)) s /\ placed (ra s) root (0%nat, 0) (tyn root).
Proof.
  pose proof Htree as (Hpar & Nd & L & Hn). destruct HT as (Hty & Hoff & Hsu & _). pose proof Hw as (_ & _ & _ & Okf & Hsz).
  assert (forall m, m ∈ subtree root -> (dummy :: nodes) !! n_idx m = Some m) as Hn' by done.
  set (s0 := start size nodes).
  assert (forall j e, ra s0 !! j = Some e -> e_at e = None /\ e_ref e = n_ref (e_node e) /\ (dummy :: nodes) !! j = Some (e_node e)) as H0.
  { intros j e E. unfold s0, start in E. cbn [ra] in E. rewrite list_lookup_fmap in E.
    destruct ((dummy :: nodes) !! j) as [x|]; [|done]. cbn in E. injection E as <-. done. }
  assert (forall m, m ∈ subtree root -> exists e, ra s0 !! n_idx m = Some e /\ e_node e = m) as N0.
  { intros m Hm. exists (Entry m None (n_ref m)). split; [|done]. unfold s0, start. cbn [ra]. rewrite list_lookup_fmap, (Hn' m Hm). done. }
  assert (length (ra s0) = S (length nodes)) as L0 by (unfold s0, start; cbn; by rewrite fmap_length).
  assert (head root) as Hh by by left.
  assert (PH [Some 0%nat] 0 s0) as P0.
  { split; try done.
    - intros j e a t E A. destruct (H0 j e E) as [? _]. congruence.
    - intros m a t _ (e & E & A). destruct (H0 _ e E) as [? _]. congruence.
    - unfold log_in. cbn. constructor.
    - intros b h Hb Hhd. apply list_lookup_singleton_Some in Hb as [-> [= Hb]]. exists size. split; [done|].
      destruct Hhd as [->|(p & Hp & _ & Hk)]; [rewrite Hoff, Hty; lia|]. rewrite (par_kid p h Hp Hk) in Hb. pose proof (idx_pos p Hp). lia.
    - intros b b' p [-> _]%list_lookup_singleton_Some [-> _]%list_lookup_singleton_Some. done.
    - intros b p [-> [= <-]]%list_lookup_singleton_Some. by left. }
  destruct (load_fits env leaf alloc Henv Hunion Halloc ty off root false (0%nat, 0) f None s0 size) as (s1 & E1 & LP1); try done.
  { intros m Hm. split; [by apply all_fit|]. split; [by apply idx_pos|]. destruct (N0 m Hm) as (e & E & _). by eapply lookup_lt_Some. }
  { by rewrite Hty. }
  { by left. }
  { unfold log_in. cbn. constructor. }
  { cbn [snd]. rewrite Hty. lia. }
  assert (Chain ty off (0%nat, 0) [root] s0 s1) as C1.
  { econstructor; [|constructor]. unfold shift. cbn [fst snd]. rewrite Hoff. exact LP1. }
  assert (Loaded ty (idxs [root]) (inside [root]) (among ty off (0%nat, 0) [root]) (0%nat, 0) size s0 s1) as L1.
  { eapply (chain_loaded env leaf alloc Henv Hunion Halloc ty off (0%nat, 0) size [root] s0 s1 C1).
    - unfold log_in. cbn. constructor.
    - cbn. lia.
    - rewrite idxs_cons. unfold idxs. cbn. by rewrite app_nil_r.
    - intros k ->%elem_of_list_singleton. split; [exact all_fit|]. split; [apply all_ok, subtree_self|]. rewrite Hoff, Hty. lia.
    - intros x y k k' Hx Hy Nxy. apply list_lookup_singleton_Some in Hx as [-> _], Hy as [-> _]. done. }
  destruct (ph_chain _ _ _ _ _ _ _ _ P0 L1) as [own1 P1].
  { exists 0%nat. split; [done|]. by intros k ->%elem_of_list_singleton. }
  { intros m a t _ (e & E & A). destruct (H0 _ e E) as [? _]. congruence. }
  assert (Cover 0 s1) as Cv.
  { eapply (cover_chain _ _ _ _ s0 s1 0); [|exact L1| | |].
    - intros m a t _ (e & E & A). destruct (H0 _ e E) as [? _]. congruence.
    - by intros k ->%elem_of_list_singleton.
    - lia.
    - lia. }
  assert (Orig 0 s1) as Rf.
  { eapply refs_chain; [|exact L1|by intros k ->%elem_of_list_singleton]. intros m Hm _ _. destruct (N0 m Hm) as (e & E & En).
    exists e. split; [done|]. destruct (H0 _ _ E) as (_ & -> & _). by rewrite En. }
  destruct (pointers_ok (length (ra s1)) 0 s1 own1 eq_refl P1 Cv Rf) as (own & s & E & P & C).
  assert (length (ra s) = length (ra s1)) as Ll by (by rewrite (ph_ra _ _ _ P), (ph_ra _ _ _ P1)).
  exists own, s. rewrite Ll. split; [|split; [done|split; [done|]]].
  - unfold load_all. fold s0. rewrite E1. cbn [mbind option_bind]. exact E.
  - destruct (all_run env leaf alloc nodes root size f Hw s) as (bty & i & _ & Hr & _); [|by rewrite Hty].
    unfold load_all. fold s0. rewrite E1. cbn [mbind option_bind]. exact E.
Qed.

(** * Places *)
Lemma inl_rev h m o : inl h m o -> m = h /\ o = 0 \/
  exists p o', inl h p o' /\ (s_kind (tyn p) = Struct \/ s_kind (tyn p) = Array) /\ m ∈ n_kids p /\ o = o' + offn m.
Proof.
  induction 1 as [h|h k m o Hk Hin Hi IH]; [by left|right]. destruct IH as [[-> ->]|(p & o' & Hp & Hkp & Hm & ->)].
  - exists h, 0. split; [constructor|]. split; [done|]. split; [done|lia].
  - exists p, (offn k + o'). split; [by eapply inl_kid|]. split; [done|]. split; [done|lia].
Qed.

(** A node is inside of one object only, at one place. *)
Lemma inl_fun : forall j h h' m o o', n_idx m = j -> head h -> head h' -> inl h m o -> inl h' m o' -> h = h' /\ o = o'.
Proof.
  assert (Hd : forall h p, head h -> p ∈ subtree root -> s_kind (tyn p) = Struct \/ s_kind (tyn p) = Array -> h ∈ n_kids p -> False).
  { intros h p [->|(q & Hq & Hkq & Hin)] Hp Hk Hin'.
    - pose proof (idx_kid p root root Hp Hin' (subtree_self root)). pose proof (par_kid p root Hp Hin') as E.
      destruct Htree as (E0 & _). pose proof (idx_pos p Hp). lia.
    - pose proof (par_kid p h Hp Hin') as E. rewrite (par_kid q h Hq Hin) in E. apply (same_node _ _ Hq Hp) in E as ->.
      destruct Hk; congruence. }
  induction j as [j IH] using lt_wf_ind. intros h h' m o o' Hj Hh Hh' Hi Hi'.
  destruct (inl_rev _ _ _ Hi) as [[-> ->]|(p & o1 & Hp & Hkp & Hm & ->)], (inl_rev _ _ _ Hi') as [[E ->]|(p' & o2 & Hp' & Hkp' & Hm' & ->)].
  - done.
  - exfalso. exact (Hd h p' Hh (inl_in _ _ _ Hh' Hp') Hkp' Hm').
  - exfalso. subst h'. exact (Hd m p Hh' (inl_in _ _ _ Hh Hp) Hkp Hm).
  - pose proof (inl_in _ _ _ Hh Hp) as P1. pose proof (inl_in _ _ _ Hh' Hp') as P2.
    assert (p = p') as <- by (apply same_node; [done|done|]; by rewrite <- (par_kid p m P1 Hm), <- (par_kid p' m P2 Hm')).
    destruct (IH (n_idx p)) with h h' p o1 o2 as [-> ->]; try done.
    rewrite <- Hj. exact (idx_kid p m m P1 Hm (subtree_self m)).
Qed.

(** The nodes inside of a node are [off] away from it. *)
Lemma placed_inside_kid own c s nd a t k a' t' : PH own c s -> nd ∈ subtree root -> placed (ra s) nd a t ->
  s_kind (tyn nd) = Struct \/ s_kind (tyn nd) = Array -> k ∈ n_kids nd -> placed (ra s) k a' t' -> a' = shift a (offn k) /\ t' = tyn k.
Proof.
  intros P Hnd Hp Hk Hin Hp'. pose proof (kid_in _ _ Hnd Hin) as Hkr.
  destruct (placed_head _ _ _ _ _ _ P Hnd Hp) as (h & o & Hh & Hi & Ho & Ha & ->).
  destruct (placed_head _ _ _ _ _ _ P Hkr Hp') as (h' & o' & Hh' & Hi' & Ho' & Ha' & ->). split; [|done].
  destruct (inl_fun _ h h' k (o + offn k) o' eq_refl Hh Hh') as [-> <-]; [exact (inl_last _ _ _ _ Hi Hk Hin)|done|].
  pose proof (ph_inj _ _ _ P _ _ _ Ho Ho'). destruct a as [b x], a' as [b' x']. unfold shift. cbn in *. f_equal; [done|lia].
Qed.

(** The nodes behind a pointer are [off] away from the start of one block. *)
Lemma placed_behind own c s nd k k' a a' t t' : PH own c s -> nd ∈ subtree root -> s_kind (tyn nd) = Pointer -> k ∈ n_kids nd -> k' ∈ n_kids nd ->
  placed (ra s) k a t -> placed (ra s) k' a' t' -> a.1 = a'.1 /\ a.2 = offn k /\ t = tyn k.
Proof.
  intros P Hnd Hk Hin Hin' Hp Hp'. pose proof (kid_in _ _ Hnd Hin) as Hr. pose proof (kid_in _ _ Hnd Hin') as Hr'.
  assert (head k) as Hd by (right; by exists nd). assert (head k') as Hd' by (right; by exists nd).
  destruct (placed_head _ _ _ _ _ _ P Hr Hp) as (h & o & Hh & Hi & Ho & Ha & ->).
  destruct (placed_head _ _ _ _ _ _ P Hr' Hp') as (h' & o' & Hh' & Hi' & Ho' & Ha' & ->).
  destruct (inl_fun _ h k k o 0 eq_refl Hh Hd Hi) as [-> ->]; [constructor|].
  destruct (inl_fun _ h' k' k' o' 0 eq_refl Hh' Hd' Hi') as [-> ->]; [constructor|].
  rewrite (par_kid nd k Hnd Hin) in Ho. rewrite (par_kid nd k' Hnd Hin') in Ho'. split; [by eapply ph_inj|]. split; [lia|done].
Qed.

Lemma one_value_ok own c s : PH own c s -> one_value s.
Proof.
  intros P i j e e' a t t' Hi Hj A A' Hk Hk'.
  destruct (ph_at _ _ _ P _ _ _ _ Hi A) as (m & h & o & Em & Hh & Hl & _ & _ & Et).
  destruct (ph_at _ _ _ P _ _ _ _ Hj A') as (m' & h' & o' & Em' & Hh' & Hl' & _ & _ & Et').
  pose proof (inl_in _ _ _ Hh Hl) as Hm. pose proof (inl_in _ _ _ Hh' Hl') as Hm'.
  assert (forall x, x ∈ subtree root -> is_ptr (s_kind (tyn x)) -> 8 <= s_size (tyn x)) as H8.
  { intros x Hx Hkx. destruct (all_ok x Hx) as [_ Ok]. destruct Hkx as [E|E]; rewrite E in Ok; [by destruct Ok|done]. }
  destruct (decide (i = j)) as [?|Ne]; [done|exfalso].
  destruct (far _ _ _ m m' a a t t' P Hm Hm') as [D|[D|[[n D] _]]].
  - congruence.
  - exists e. by rewrite Em.
  - exists e'. by rewrite Em'.
  - by destruct Hk as [-> | ->].
  - by destruct Hk' as [-> | ->].
  - done.
  - pose proof (H8 m Hm). rewrite <- Et in *. specialize (H Hk). lia.
  - pose proof (H8 m' Hm'). rewrite <- Et' in *. specialize (H Hk'). lia.
  - destruct Hk; congruence.
Qed.
End fits2.

(** * References *)
Lemma set_crossref_log tbl m i s s' : set_crossref tbl m i s = Some s' -> ra s' = ra s /\ blocks s' = blocks s /\
  exists l, log s' = l ++ log s /\ Forall (fun x => exists j e cell t p, x = Store cell (WPtr p) /\ ra s !! j = Some e /\
    e_at e = Some (cell, t) /\ is_ptr (s_kind t) /\ e_ref e <> None) l.
Proof.
  intros H. assert (Same : forall z : state, s = z -> ra z = ra s /\ blocks z = blocks s /\
    exists l, log z = l ++ log s /\ Forall (fun x => exists j e cell t p, x = Store cell (WPtr p) /\ ra s !! j = Some e /\
    e_at e = Some (cell, t) /\ is_ptr (s_kind t) /\ e_ref e <> None) l).
  { intros z <-. split; [done|]. split; [done|]. by exists []. }
  unfold set_crossref in H. destruct (ra s !! i) as [e|] eqn:E; [|done]. cbn [mbind option_bind] in H.
  destruct (e_ref e) as [[content num]|] eqn:Er; [|apply (inj Some) in H; by apply Same].
  destruct (_ <? _) in H; [apply (inj Some) in H; by apply Same|].
  destruct (rd _ _) as [j|] in H; [|done]. cbn [mbind option_bind] in H.
  destruct (_ =? _)%nat in H; [apply (inj Some) in H; by apply Same|].
  destruct (ra s !! j) as [t|] in H; [|done]. cbn [mbind option_bind] in H.
  destruct (loaded_as Pointer e || loaded_as Str e) eqn:El; [|apply (inj Some) in H; by apply Same]. cbn [negb] in H.
  destruct (e_at e) as [[cell tc]|] eqn:Ea; [|apply (inj Some) in H; by apply Same].
  assert (Put : forall p, put s cell (WPtr p) = Some s' -> ra s' = ra s /\ blocks s' = blocks s /\
    exists l, log s' = l ++ log s /\ Forall (fun x => exists j e cell t p, x = Store cell (WPtr p) /\ ra s !! j = Some e /\
    e_at e = Some (cell, t) /\ is_ptr (s_kind t) /\ e_ref e <> None) l).
  { intros p Hp. apply put_inv in Hp as [-> _]. split; [done|]. split; [done|]. eexists [_]. split; [reflexivity|]. constructor; [|constructor].
    exists i, e, cell, tc, p. split; [done|]. split; [done|]. split; [done|]. split; [|by rewrite Er].
    unfold loaded_as in El. rewrite Ea in El. unfold is_ptr. destruct (s_kind tc); cbn in El; try done; auto. }
  destruct (e_at t) as [[d ?]|], content; try (apply (inj Some) in H; by apply Same); try by eapply Put.
  destruct (get_ptr s d) as [p|]; [|done]. by eapply Put.
Qed.

Lemma set_refs_log k tbl m : forall i s s', set_refs k tbl m i s = Some s' -> ra s' = ra s /\ blocks s' = blocks s /\
  exists l, log s' = l ++ log s /\ Forall (fun x => exists j e cell t p, x = Store cell (WPtr p) /\ ra s !! j = Some e /\
    e_at e = Some (cell, t) /\ is_ptr (s_kind t) /\ e_ref e <> None) l.
Proof.
  induction k as [|k IH]; intros i s s' H; cbn [set_refs] in H.
  { injection H as <-. split; [done|]. split; [done|]. by exists []. }
  destruct (set_crossref tbl m i s) as [s1|] eqn:E; [|done]. cbn [mbind option_bind] in H.
  destruct (set_crossref_log _ _ _ _ _ E) as (R1 & B1 & l1 & L1 & F1). destruct (IH _ _ _ H) as (R2 & B2 & l2 & L2 & F2).
  rewrite R2, B2, R1, B1 in *. split; [done|]. split; [done|]. exists (l2 ++ l1). rewrite L2, L1, app_assoc. split; [done|].
  apply Forall_app. by split.
Qed.
