(** Facts about a whole load, from the proofs about its parts. *)
From Verif Require Import Base Load LoadSpec LoadSafe LoadInv LoadInv2 LoadPlace LoadRun LoadRefs.
Local Open Scope Z_scope.

Lemma set_crossref_same tbl m i s s' :
  set_crossref tbl m i s = Some s' -> ra s' = ra s /\ blocks s' = blocks s.
Proof.
  assert (HP : forall s a w s', put s a w = Some s' -> ra s' = ra s /\ blocks s' = blocks s).
  { clear. intros s a w s'. unfold put. destruct (blocks s !! a.1) as [[n|]|]; [|done|done].
    destruct (_ && _); [|done]. by intros [= <-]. }
  unfold set_crossref. destruct (ra s !! i) as [e|]; [|done]. cbn [mbind option_bind].
  destruct (e_ref e) as [[content num]|]; [|by intros [= <-]].
  destruct (_ <? _); [by intros [= <-]|].
  destruct (rd _ _) as [j|]; [|done]. cbn [mbind option_bind].
  destruct (_ =? _)%nat; [by intros [= <-]|].
  destruct (ra s !! j) as [t|]; [|done]. cbn [mbind option_bind].
  destruct (negb _); [by intros [= <-]|].
  destruct (e_at e) as [[cell ?]|]; [|by intros [= <-]].
  destruct (e_at t) as [[d ?]|], content; try (by intros [= <-]); try apply HP.
  destruct (get_ptr s d) as [p|]; [|done]. apply HP.
Qed.

Lemma set_refs_same k tbl m : forall i s s',
  set_refs k tbl m i s = Some s' -> ra s' = ra s /\ blocks s' = blocks s.
Proof.
  induction k as [|k IH]; intros i s s'; cbn [set_refs]; [by intros [= <-]|].
  destruct (set_crossref tbl m i s) as [s1|] eqn:E; [|done]. cbn [mbind option_bind]. intros H.
  apply set_crossref_same in E as [E1 E2]. apply IH in H as [H1 H2]. by rewrite H1, H2.
Qed.

Lemma load_top_inv env leaf alloc root a f s0 s' :
  load_top env leaf alloc root a f s0 = Some (true, s') ->
  exists s, load_all env leaf alloc root a f s0 = Some (true, s) /\ ra s' = ra s /\ blocks s' = blocks s.
Proof.
  unfold load_top. destruct (load_all _ _ _ _ _ _ _) as [[ok s]|]; [|done]. cbn [mbind option_bind].
  destruct ok.
  - unfold set_crossrefs. destruct (make_table _) as [tbl|]; [|done]. cbn [mbind option_bind].
    destruct (set_refs _ _ _ _ _) as [s1|] eqn:E; [|done]. cbn [mbind option_bind]. intros [= <-].
    apply set_refs_same in E. by exists s.
  - destruct (clean_up _ _); done.
Qed.

Lemma row_major_range p dims :
  Forall2 (fun i d => Z.of_nat i < d) p dims -> 0 <= row_major p dims < count_of dims.
Proof.
  induction 1 as [|i d p dims Hi HF IH]; cbn; [lia|]. fold (count_of dims). nia.
Qed.

Lemma fields_list r fields a :
  (forall g, g ∈ fields -> s_kind (f_ty g) <> NamedAnon) ->
  forall prev ks, fields_placed r fields a prev None ks ->
  exists is : list nat, length is = length ks /\
    forall x k, ks !! x = Some k -> exists i g, is !! x = Some i /\ fields !! i = Some g /\
      placed r k (shift a (f_off g)) (f_ty g) /\
      field_for fields (n_fd k) (match x with O => prev | S y => is !! y end) i g.
Proof.
  intros Hna prev ks. revert prev. induction ks as [|k ks IH]; intros prev H.
  { exists []. split; [done|]. intros x k Hk. done. }
  inversion H as [|? ? ? ? i g handed' Hi Hf Hp Hh Hr]; subst.
  assert (Hhn : handed' = None) by (apply Hh, Hna; by eapply elem_of_list_lookup_2). rewrite Hhn in Hr.
  destruct (IH _ Hr) as (is & Hl & His). exists (i :: is). split; [cbn; by rewrite Hl|].
  intros [|x] k' Hk; cbn in Hk.
  - injection Hk as <-. exists i, g. done.
  - destruct (His x k' Hk) as (i' & g' & H1 & H2 & H3 & H4). exists i', g'. split; [done|]. split; [done|]. split; [done|].
    destruct x; exact H4.
Qed.

Lemma holds_get s a m p :
  blocks s !! a.1 = Some (Some m) -> 0 <= a.2 -> a.2 + 8 <= m -> holds s a p <-> get_ptr s a = Some p.
Proof.
  intros Hm H1 H2. rewrite (get_ptr_peek _ _ m) by done. unfold holds, peek.
  destruct (filter _ (log s)) as [|x l] eqn:E.
  { split; [by intros ->|by intros [= ->]]. }
  assert (Hx : x ∈ filter (fun x => is_true (meets a x)) (log s)) by (rewrite E; constructor).
  apply elem_of_list_filter in Hx as [Hm' _]. split.
  - intros ->. by rewrite Z.eqb_refl.
  - destruct x as [b [q| |]]; [|done|done]. destruct (Z.eqb_spec b.2 a.2) as [Hb|]; [|done]. intros [= ->].
    unfold is_true, meets in Hm'. cbn in Hm'. apply andb_prop in Hm' as [Hm' _]. apply andb_prop in Hm' as [Hm' _].
    apply Nat.eqb_eq in Hm'. destruct a, b. cbn in *. by subst.
Qed.

Lemma asks_refs nd content num r : asks nd content num ->
  string_ref nd r \/ pointer_ref nd r -> r = Some (content, num).
Proof.
  intros (Hn & Hb & Ha) H. unfold string_ref, pointer_ref in H.
  destruct Ha as [[Hr Hv]|[Hr Hv]].
  - destruct (n_val nd); try (destruct H as [-> | ->]; done). by destruct (Hv z).
  - assert (exists z, n_val nd = VInt z /\ forall x, number_ref z x -> x = (content, num)) as (z & Ez & Hz).
    { destruct content; [destruct Hv as [Hn0 Hv]|]; (eexists; split; [exact Hv|]); intros x [[H1 ->]|[H1 ->]]; try lia.
      - rewrite Z.opp_involutive, Z.mod_small; [done|lia].
      - rewrite Z.mod_small; [done|lia]. }
    rewrite Ez, Hn, Hr in H. cbn [orb] in H. destruct H as [(x & -> & H)|(x & -> & H)]; f_equal; by apply Hz.
Qed.

Lemma asks_none_refs nd r : asks_none nd -> string_ref nd r \/ pointer_ref nd r -> r = None.
Proof.
  intros (Hr & Hv) H. unfold string_ref, pointer_ref in H. rewrite Hr in H.
  destruct (n_val nd); try (by destruct H as [-> | ->]). by destruct (Hv z).
Qed.

Section top.
Context (env : list td) (leaf : node -> stype -> bool * bool) (alloc : nat -> bool).
Context (nodes : list node) (root : node) (size : Z) (f : fd).
Hypothesis Hw : well_typed env nodes root size f.
Notation all := (load_all env leaf alloc root (0%nat, 0) f (start size nodes)).
Notation top := (load_top env leaf alloc root (0%nat, 0) f (start size nodes)).

Lemma run_all : exists ok s bty i, all = Some (ok, s) /\ Run env nodes root size bty i s /\
  (ok = true -> placed (ra s) root (0%nat, 0) (f_ty f) /\ Done env (length (ra s)) s).
Proof.
  destruct Hw as (H1 & H2 & H3 & H4 & H5).
  exact (run_load_all env leaf alloc H1 H2 nodes root size H3 f H4 H5).
Qed.

Section ok.
Context (s : state).
Hypothesis Hs : all = Some (true, s).

Lemma all_run : exists bty i, Run env nodes root size bty i s /\
  placed (ra s) root (0%nat, 0) (f_ty f) /\ Done env (length (ra s)) s.
Proof.
  destruct run_all as (ok & s0 & bty & i & E & HR & HD). rewrite Hs in E. injection E as <- <-.
  exists bty, i. split; [done|]. by apply HD.
Qed.

Lemma placed_kids nd a t :
  nd ∈ subtree root -> placed (ra s) nd a t -> kids_placed env (ra s) nd a t.
Proof.
  intros Hnd (e & He & Ha). destruct all_run as (bty & i & HR & _ & HD).
  destruct Hw as (_ & _ & Htree & _ & _).
  destruct (node_entry env nodes root size Htree _ _ _ _ HR Hnd) as (e' & He' & En).
  rewrite He in He'. injection He' as <-. rewrite <- En. by eapply d_kids.
Qed.

Lemma placed_inside nd a t : placed (ra s) nd a t -> stype_ok env t /\ inside s a t.
Proof.
  intros (e & He & Ha). destruct all_run as (bty & i & HR & _ & HD).
  pose proof (r_inv _ _ _ _ _ _ _ HR) as HI. destruct Hw as (Henv & _).
  destruct (i_at _ _ _ _ HI _ _ _ _ He Ha) as (ow & Hpl & _).
  split; [exact (place_type env Henv bty a t ow (i_ty _ _ _ _ HI) Hpl)|].
  assert (Hl : (a.1 < length (blocks s))%nat).
  { destruct Hpl as (ty & cnt & j & o & Hb & _). rewrite <- (i_len _ _ _ _ HI). by eapply lookup_lt_Some. }
  destruct (r_live _ _ _ _ _ _ _ HR _ Hl) as [m Hm].
  exists m. split; [done|]. by eapply (place_room env leaf alloc Henv).
Qed.

Lemma array_path dims : forall nd a t p k esz,
  nd ∈ subtree root -> placed (ra s) nd a t -> s_kind t = Array -> s_dims t = dims ->
  s_size t = count_of dims * esz ->
  length p = length dims -> dims <> [] -> at_path nd p = Some k ->
  Forall2 (fun i d => Z.of_nat i < d) p dims /\
  exists T, s_kind T = s_aux t /\ s_td T = s_td t /\ s_size T = esz /\
    placed (ra s) k (shift a (row_major p dims * esz)) T.
Proof.
  induction dims as [|d dims IH]; intros nd a t p k esz Hnd Hp Hk Hd Hsz Hlen Hne Hpath; [done|].
  destruct p as [|i p]; [done|]. cbn in Hlen, Hpath.
  pose proof (placed_kids nd a t Hnd Hp) as HK. unfold kids_placed in HK. rewrite Hk, Hd in HK.
  destruct HK as (c & Hc & Hle & HK). cbn in Hc. injection Hc as <-.
  destruct (n_kids nd !! i) as [k1|] eqn:Ek; [|done]. cbn [mbind option_bind] in Hpath.
  assert (Hi : Z.of_nat i < d) by (apply lookup_lt_Some in Ek; lia).
  specialize (HK i k1 Ek). cbn in Hsz. fold (count_of dims) in Hsz.
  assert (Hdiv : s_size t / d = count_of dims * esz).
  { rewrite Hsz, <- Z.mul_assoc, Z.mul_comm, Z.div_mul; lia. }
  assert (Hk1 : k1 ∈ subtree root).
  { eapply subtree_trans; [exact Hnd|]. eapply subtree_kid; [by eapply elem_of_list_lookup_2|apply subtree_self]. }
  destruct dims as [|d' dims].
  - destruct p; [|done]. cbn in Hpath. injection Hpath as <-.
    split; [by repeat constructor|]. cbn in Hdiv. rewrite Z.mul_1_l in Hdiv.
    eexists. split; [|split; [|split; [|]]]; cycle 3.
    { unfold elem_ty in HK. rewrite Hd in HK. cbn [s_size] in HK. rewrite Hdiv in HK. cbn [row_major count_of foldr].
      rewrite Z.mul_1_r, Z.add_0_r. exact HK. }
    all: done.
  - unfold elem_ty in HK. rewrite Hd in HK. cbn [s_size tail] in HK. rewrite Hdiv in HK.
    destruct (IH k1 _ _ p k esz Hk1 HK) as (HF & T & HT1 & HT2 & HT3 & HT4); cbn [s_kind s_dims s_size]; try done.
    { by injection Hlen. }
    split; [by constructor|]. exists T. split; [done|]. split; [done|]. split; [done|].
    change (row_major (i :: p) (d :: d' :: dims)) with (Z.of_nat i * count_of (d' :: dims) + row_major p (d' :: dims)).
    replace (shift a ((Z.of_nat i * count_of (d' :: dims) + row_major p (d' :: dims)) * esz))
      with (shift (shift a (Z.of_nat i * (count_of (d' :: dims) * esz))) (row_major p (d' :: dims) * esz)); [done|].
    unfold shift. cbn [fst snd]. f_equal. lia.
Qed.

(** The entry of a node loaded as a pointer or string. *)
Lemma placed_entry nd a t :
  nd ∈ subtree root -> placed (ra s) nd a t ->
  exists e, ra s !! n_idx nd = Some e /\ e_node e = nd /\ e_at e = Some (a, t) /\
    (is_ptr (s_kind t) -> string_ref nd (e_ref e) \/ pointer_ref nd (e_ref e)).
Proof.
  intros Hnd (e & He & Ha). destruct all_run as (bty & i & HR & _ & HD).
  destruct Hw as (_ & _ & Htree & _ & _).
  destruct (node_entry env nodes root size Htree _ _ _ _ HR Hnd) as (e' & He' & En).
  rewrite He in He'. injection He' as <-. exists e. split; [done|]. split; [done|]. split; [done|].
  intros [Hk|Hk]; [right|left]; rewrite <- En.
  - eapply d_ptr; [exact HD|done|done|done|]. by eapply lookup_lt_Some.
  - by eapply d_str.
Qed.

Lemma placed_room nd a t : placed (ra s) nd a t -> is_ptr (s_kind t) ->
  exists m, blocks s !! a.1 = Some (Some m) /\ 0 <= a.2 /\ a.2 + 8 <= m.
Proof.
  intros Hp Hk. destruct (placed_inside _ _ _ Hp) as (Ht & m & Hm & H1 & H2).
  pose proof (ptr_size _ _ Ht Hk). exists m. split; [done|]. lia.
Qed.

Lemma unique_names nd num :
  nd ∈ subtree root -> n_id nd = num -> num <> 0 ->
  (forall j m, nodes !! j = Some m -> n_id m = num -> S j = n_idx nd) -> names (ra s) num (n_idx nd).
Proof.
  intros Hnd Hid H0 Hu. destruct all_run as (bty & i & HR & _ & HD).
  destruct Hw as (_ & _ & Htree & _ & _).
  destruct (node_entry env nodes root size Htree _ _ _ _ HR Hnd) as (e & He & En).
  split; [done|]. split; [exists e; split; [done|congruence]|].
  intros j' e' Hlt He' Hid'. pose proof (r_node _ _ _ _ _ _ _ HR _ _ He') as Hj.
  destruct j' as [|j']; [lia|]. cbn in Hj. specialize (Hu _ _ Hj Hid'). lia.
Qed.

Lemma undefined_names num :
  (num = 0 \/ forall m, m ∈ nodes -> n_id m <> num) -> forall j, ~ names (ra s) num j.
Proof.
  intros Hu j (H0 & (e & He & Hid) & _). destruct Hu as [|Hu]; [done|].
  destruct all_run as (bty & i & HR & _ & HD). pose proof (r_node _ _ _ _ _ _ _ HR _ _ He) as Hj.
  destruct j as [|j]; cbn in Hj.
  - injection Hj as Hj. rewrite <- Hj in Hid. cbn in Hid. lia.
  - eapply Hu; [by eapply elem_of_list_lookup_2|done].
Qed.

Lemma pointer_followed nd a t :
  one_value s -> nd ∈ subtree root -> placed (ra s) nd a t -> s_kind t = Pointer ->
  exists e, ra s !! n_idx nd = Some e /\ e_node e = nd /\ followed env s e a t /\ pointer_ref nd (e_ref e).
Proof.
  intros H1 Hnd Hp Hk. destruct all_run as (bty & i & HR & _ & HD).
  destruct (placed_entry _ _ _ Hnd Hp) as (e & He & En & Ha & _).
  exists e. split; [done|]. split; [done|]. assert ((n_idx nd < length (ra s))%nat) by (by eapply lookup_lt_Some).
  split; [by eapply d_mem|]. rewrite <- En. by eapply d_ptr.
Qed.

Lemma blocks_owned : one_value s ->
  (forall a b x, get_ptr s a = Some (To x) -> get_ptr s b = Some (To x) -> a = b) /\
  (forall b, (0 < b < length (blocks s))%nat -> exists a, get_ptr s a = Some (To (b, 0))).
Proof.
  intros H1. destruct all_run as (bty & i & HR & _ & HD). pose proof (r_inv _ _ _ _ _ _ _ HR) as HI.
  assert (Hg : forall a p, get_ptr s a = Some p -> peek (log s) a = Some p).
  { intros a p. unfold get_ptr. destruct (blocks s !! a.1) as [[m|]|]; [|done|done]. by destruct (_ && _). }
  split.
  - intros a b x Ha Hb. eapply (i_uni _ _ _ _ HI); by apply Hg.
  - intros [|b] Hb; [lia|]. destruct (r_live _ _ _ _ _ _ _ HR (S b)) as [m Hm]; [lia|].
    destruct (i_leak _ _ _ _ HI H1 _ _ Hm) as [a Hp]. exists a.
    destruct (i_own _ _ _ _ HI _ _ _ Hp) as (_ & _ & j & e & t & Hj & He & Hk).
    assert (Hpl : placed (ra s) (e_node e) a t).
    { destruct Hw as (_ & _ & Htree & _ & _).
      destruct (node_at env nodes root size Htree _ _ _ _ _ HR Hj) as [_ Hidx]; [congruence|]. exists e. by rewrite Hidx. }
    destruct (placed_room _ _ _ Hpl) as (m' & Hm' & Hr1 & Hr2); [destruct Hk as [[? _]|[? _]]; [by right|by left]|].
    by rewrite (get_ptr_peek _ _ m').
Qed.
End ok.
End top.
