(** Cross references of a loaded tree (src/mr_load.c:29-105). *)
From Verif Require Import Base Load LoadSpec LoadSafe LoadInv LoadInv2 LoadPlace LoadRun.
Local Open Scope Z_scope.

(** * The table *)
Lemma max_id_foldl r m : 0 <= m -> 
  let x := foldl (fun m e => Z.max m (n_id (e_node e))) m r in
  m <= x /\ Forall (fun e => n_id (e_node e) <= x) r /\ (x = m \/ exists e, e ∈ r /\ n_id (e_node e) = x).
Proof.
  revert m. induction r as [|e r IH]; intros m Hm; cbn [foldl].
  { split; [lia|]. split; [constructor|by left]. }
  destruct (IH (Z.max m (n_id (e_node e)))) as (H1 & H2 & H3); [lia|]. cbn zeta.
  split; [lia|]. split; [constructor; [lia|done]|].
  destruct H3 as [H3|(e' & He' & H3)]; [|right; exists e'; split; [by constructor|done]].
  rewrite H3. destruct (Z.max_spec m (n_id (e_node e))) as [[_ ->]|[_ ->]]; [right|by left].
  exists e. split; [constructor|done].
Qed.

Lemma fill_table_ok r : forall i0 tbl,
  Forall (fun e => 0 <= n_id (e_node e) < Z.of_nat (length tbl)) r ->
  exists tbl', fill_table r i0 tbl = Some tbl' /\ length tbl' = length tbl /\
    forall id x, tbl' !! id = Some x ->
      (exists j e, r !! j = Some e /\ n_id (e_node e) = Z.of_nat id /\ id <> 0%nat /\ x = (i0 + j)%nat /\
         forall j' e', (j < j')%nat -> r !! j' = Some e' -> n_id (e_node e') <> Z.of_nat id) \/
      ((id = 0%nat \/ forall e, e ∈ r -> n_id (e_node e) <> Z.of_nat id) /\ tbl !! id = Some x).
Proof.
  induction r as [|e r IH]; intros i0 tbl HF; cbn [fill_table].
  { exists tbl. split; [done|]. split; [done|]. intros id x Hx. right. split; [|done]. right.
    intros e He. by apply elem_of_nil in He. }
  inversion HF as [|? ? He HF']; subst.
  destruct (Z.eqb_spec (n_id (e_node e)) 0) as [E0|E0].
  - destruct (IH (S i0) tbl HF') as (tbl' & -> & Hl & Hs). exists tbl'. split; [done|]. split; [done|].
    intros id x Hx. destruct (Hs id x Hx) as [(j & e' & Hj & Hid & Hn0 & -> & Hlast)|[Hno Hx']].
    + left. exists (S j), e'. split; [done|]. split; [done|]. split; [done|]. split; [lia|].
      intros [|j'] e'' Hlt Hj'; [lia|]. eapply Hlast; [|exact Hj']. lia.
    + right. split; [|done]. destruct (decide (id = 0%nat)) as [|Hn]; [by left|right].
      intros e' He'. apply elem_of_cons in He' as [->|He']; [lia|]. destruct Hno as [|Hno]; [done|by apply Hno].
  - rewrite wr_Some by lia. cbn [mbind option_bind].
    destruct (IH (S i0) (<[Z.to_nat (n_id (e_node e)):=i0]> tbl)) as (tbl' & -> & Hl & Hs).
    { by rewrite insert_length. }
    rewrite insert_length in Hl. exists tbl'. split; [done|]. split; [done|].
    intros id x Hx. destruct (Hs id x Hx) as [(j & e' & Hj & Hid & Hn0 & -> & Hlast)|[Hno Hx']].
    + left. exists (S j), e'. split; [done|]. split; [done|]. split; [done|]. split; [lia|].
      intros [|j'] e'' Hlt Hj'; [lia|]. eapply Hlast; [|exact Hj']. lia.
    + destruct (decide (id = Z.to_nat (n_id (e_node e)))) as [->|Hne].
      * rewrite list_lookup_insert in Hx' by lia. injection Hx' as <-. left. exists 0%nat, e.
        split; [done|]. split; [lia|]. split; [lia|]. split; [lia|].
        intros [|j'] e' Hlt Hj'; [lia|]. cbn in Hj'. destruct Hno as [|Hno]; [lia|].
        apply Hno. by eapply elem_of_list_lookup_2.
      * rewrite list_lookup_insert_ne in Hx' by done. right. split; [|done].
        destruct Hno as [|Hno]; [by left|right]. intros e' He'. apply elem_of_cons in He' as [->|He']; [lia|by apply Hno].
Qed.

(** The table has the node that each number names. *)
Lemma make_table_ok r :
  Forall (fun e => 0 <= n_id (e_node e) < 2 ^ 32 - 1) r ->
  exists tbl, make_table r = Some tbl /\ Z.of_nat (length tbl) = max_id r + 1 /\
    (forall num, max_id r < num -> forall j, ~ names r num j) /\
    forall num x, num <= max_id r -> tbl !! Z.to_nat num = Some x ->
      (x <> 0%nat -> names r num x) /\ (x = 0%nat -> forall j, (0 < j)%nat -> ~ names r num j).
Proof.
  intros HF. unfold make_table.
  destruct (max_id_foldl r 0) as (H0 & Hmax & Hex); [lia|]. fold (max_id r) in *.
  assert (Hlt : max_id r < 2 ^ 32 - 1).
  { destruct Hex as [->|(e & He & <-)]; [lia|]. rewrite Forall_forall in HF. by apply HF. }
  rewrite (Z.mod_small (max_id r + 1)) by lia.
  destruct (fill_table_ok r 0 (replicate (Z.to_nat (max_id r + 1)) 0%nat)) as (tbl & -> & Hl & Hs).
  { rewrite replicate_length. rewrite Forall_forall in *. intros e He. specialize (Hmax e He). specialize (HF e He). lia. }
  exists tbl. rewrite replicate_length in Hl. split; [done|]. split; [lia|]. split.
  { intros num Hnum j (_ & (e & He & Hid) & _). rewrite Forall_forall in Hmax.
    specialize (Hmax e (elem_of_list_lookup_2 _ _ _ He)). lia. }
  intros num x Hnum Hx.
  destruct (Hs _ _ Hx) as [(j & e & Hj & Hid & Hn0 & -> & Hlast)|[Hno Hx']].
  - split; [|intros E j' Hj' (Hnum0 & (e' & He' & Hid') & Hlast')].
    + intros _. split; [lia|]. split; [exists e; split; [done|lia]|]. intros j' e' Hlt' Hj'.
      specialize (Hlast j' e' Hlt' Hj'). lia.
    + eapply (Hlast j' e'); [lia|done|lia].
  - apply lookup_replicate in Hx' as [-> _]. split; [done|].
    intros _ j _ (Hnum0 & (e & He & Hid) & _).
    rewrite Forall_forall in HF. pose proof (HF e (elem_of_list_lookup_2 _ _ _ He)).
    destruct Hno as [Hz|Hno]; [lia|]. eapply (Hno e); [by eapply elem_of_list_lookup_2|lia].
Qed.

Section run.
Context (env : list td) (leaf : node -> stype -> bool * bool) (alloc : nat -> bool).
Hypothesis Henv : env_ok env.
Hypothesis Hunion : union_free env.
Context (nodes : list node) (root : node) (size : Z).
Hypothesis Htree : tree_ok nodes root.
Hypothesis Hids : Forall (fun n => 0 <= n_id n < 2 ^ 32 - 1) nodes.

Notation Run := (Run env nodes root size).

Section refs.
Context (bty : list gty) (i0 : nat) (s : state).
Hypothesis HR : Run bty i0 s.
Hypothesis H1 : one_value s.
Hypothesis Hcont : content_ok s.

(** After the references below [i] were set. *)
Record Refs (i : nat) (s' : state) : Prop := {
  f_blocks : blocks s' = blocks s;
  f_ra : ra s' = ra s;
  f_log : Forall (store_ok env bty) (log s');
  f_done : forall j e cell t, ra s !! j = Some e -> e_at e = Some (cell, t) -> is_ptr (s_kind t) ->
    (j < i)%nat -> resolved s s' e cell;
  f_todo : forall j e cell t, ra s !! j = Some e -> e_at e = Some (cell, t) -> is_ptr (s_kind t) ->
    (i <= j)%nat -> forall p, holds s cell p -> holds s' cell p;
}.

Lemma resolved_mono s1 s2 e cell :
  (forall p, holds s1 cell p -> holds s2 cell p) -> resolved s s1 e cell -> resolved s s2 e cell.
Proof.
  intros H. unfold resolved. destruct (e_ref e) as [[content num]|]; [|by eauto].
  intros [HA HB]. split; [by eauto|]. intros j t Hj Ht. specialize (HB j t Hj Ht).
  destruct (e_at t) as [[d ?]|], content; eauto.
Qed.

Lemma cell_facts j e cell t :
  ra s !! j = Some e -> e_at e = Some (cell, t) -> is_ptr (s_kind t) ->
  exists ow m, place env bty cell t ow /\ blocks s !! cell.1 = Some (Some m) /\ 0 <= cell.2 /\ cell.2 + 8 <= m.
Proof.
  intros He Ha Hp. pose proof (r_inv _ _ _ _ _ _ _ HR) as HI.
  destruct (i_at _ _ _ _ HI _ _ _ _ He Ha) as (ow & Hpl & _).
  pose proof (place_type env Henv bty cell t ow (i_ty _ _ _ _ HI) Hpl) as Ht.
  pose proof (ptr_size _ _ Ht Hp) as Hs.
  assert (Hl : (cell.1 < length (blocks s))%nat).
  { destruct Hpl as (ty & cnt & i & o & Hb & _). rewrite <- (i_len _ _ _ _ HI). by eapply lookup_lt_Some. }
  destruct (r_live _ _ _ _ _ _ _ HR _ Hl) as [m Hm].
  destruct (place_room env leaf alloc Henv _ _ _ _ _ _ _ HI Hpl Hm). exists ow, m. split; [done|]. split; [done|]. lia.
Qed.

Lemma peek_total l a t ow :
  Forall (store_ok env bty) l -> place env bty a t ow -> is_ptr (s_kind t) -> exists p, peek l a = Some p.
Proof.
  intros HF Ha Hp. pose proof (i_ty _ _ _ _ (r_inv _ _ _ _ _ _ _ HR)) as HT.
  induction HF as [|x l Hx HF [p IH]]; [by exists Null|]. rewrite peek_cons.
  destruct (meets a x) eqn:M; [|by exists p].
  destruct (store_meets_ptr env Henv Hunion _ _ _ _ _ HT Hx Ha Hp M) as [<- [q ->]]. rewrite Z.eqb_refl. by exists q.
Qed.

Lemma holds_set s1 s2 c q j e a t p :
  Forall (store_ok env bty) (log s1) -> ra s !! j = Some e -> e_at e = Some (a, t) -> is_ptr (s_kind t) ->
  store_ok env bty (Store c (WPtr q)) -> log s2 = Store c (WPtr q) :: log s1 -> a <> c ->
  holds s1 a p -> holds s2 a p.
Proof.
  intros HF He Ha Hp Hs Hl Hne. pose proof (i_ty _ _ _ _ (r_inv _ _ _ _ _ _ _ HR)) as HT.
  destruct (cell_facts _ _ _ _ He Ha Hp) as (ow & m & Hpl & _).
  rewrite <- (peek_holds env Henv Hunion s1 bty a t ow p) by done.
  rewrite <- (peek_holds env Henv Hunion s2 bty a t ow p); [|done|rewrite Hl; by constructor|done|done].
  rewrite Hl, (peek_put_ptr env Henv Hunion _ _ _ _ _ _ _ HT Hpl Hp Hs). by destruct (decide (a = c)).
Qed.

(** A store to the pointer of entry [i]. *)
Lemma refs_put i s1 e cell t q :
  Refs i s1 -> ra s !! i = Some e -> e_at e = Some (cell, t) -> is_ptr (s_kind t) ->
  (forall s2, holds s2 cell q -> resolved s s2 e cell) ->
  exists s2, put s1 cell (WPtr q) = Some s2 /\ Refs (S i) s2.
Proof.
  intros HF He Ha Hp Hq. destruct (cell_facts _ _ _ _ He Ha Hp) as (ow & m & Hpl & Hm & Hc1 & Hc2).
  rewrite (put_ok _ _ _ m); [|by rewrite (f_blocks _ _ HF)|done|done].
  assert (Hso : store_ok env bty (Store cell (WPtr q))) by (exists t, ow; done).
  eexists. split; [reflexivity|]. destruct HF as [F1 F2 F3 F4 F5]. split; cbn [blocks log ra].
  - done.
  - done.
  - by constructor.
  - intros j e' c' t' He' Ha' Hp' Hj. destruct (decide (j = i)) as [->|Hne].
    + rewrite He in He'. injection He' as <-. rewrite Ha in Ha'. injection Ha' as <- <-.
      apply Hq. by eapply holds_self.
    + assert (c' <> cell) by (intros ->; apply Hne; by eapply H1).
      eapply resolved_mono; [|eapply F4; [done|done|done|lia]].
      intros p. by eapply holds_set.
  - intros j e' c' t' He' Ha' Hp' Hj p Hh.
    assert (c' <> cell). { intros ->. assert (j = i) by (by eapply H1). lia. }
    eapply holds_set; [exact F3|done|done|done|done|reflexivity|done|]. eapply F5; [done|done|done|lia|done].
Qed.

Lemma refs_keep i s1 e :
  Refs i s1 -> ra s !! i = Some e ->
  (forall cell t s2, e_at e = Some (cell, t) -> is_ptr (s_kind t) ->
     (forall p, holds s cell p -> holds s2 cell p) -> resolved s s2 e cell) ->
  Refs (S i) s1.
Proof.
  intros [F1 F2 F3 F4 F5] He Hk. split; try done.
  - intros j e' c' t' He' Ha' Hp' Hj. destruct (decide (j = i)) as [->|Hne]; [|eapply F4; [done|done|done|lia]].
    rewrite He in He'. injection He' as <-. eapply Hk; [done|done|]. intros p. by eapply F5.
  - intros j e' c' t' He' Ha' Hp' Hj. eapply F5; [done|done|done|lia].
Qed.

Lemma names_fun r num j j' : names r num j -> names r num j' -> j = j'.
Proof.
  intros (_ & (e & He & Hi) & Hl) (_ & (e' & He' & Hi') & Hl').
  destruct (lt_eq_lt_dec j j') as [[H|H]|H]; [|done|].
  - by destruct (Hl _ _ H He').
  - by destruct (Hl' _ _ H He).
Qed.

Lemma names_pos num j : names (ra s) num j -> (0 < j)%nat.
Proof.
  intros (Hn & (e & He & Hi) & _). destruct j as [|j]; [|lia].
  pose proof (r_node _ _ _ _ _ _ _ HR _ _ He) as Hd. cbn in Hd. injection Hd as Hd.
  rewrite <- Hd in Hi. cbn in Hi. lia.
Qed.

Lemma loaded_is_ptr e cell t :
  e_at e = Some (cell, t) -> is_ptr (s_kind t) <-> loaded_as Pointer e || loaded_as Str e = true.
Proof.
  intros Ha. unfold loaded_as. rewrite Ha. unfold is_ptr. destruct (s_kind t); cbn; intuition congruence.
Qed.

Lemma refs_step tbl i s1 :
  make_table (ra s) = Some tbl -> Refs i s1 -> (i < length (ra s))%nat ->
  exists s2, set_crossref tbl (max_id (ra s)) i s1 = Some s2 /\ Refs (S i) s2.
Proof.
  intros Htbl HF Hi.
  destruct (make_table_ok (ra s)) as (tbl' & E & Hlen & Hbig & Htab).
  { rewrite Forall_forall. intros e He. apply elem_of_list_lookup in He as [j Hj].
    apply (r_node _ _ _ _ _ _ _ HR) in Hj. apply elem_of_list_lookup_2 in Hj.
    apply elem_of_cons in Hj as [->|Hj]; [cbn; lia|]. rewrite Forall_forall in Hids. by apply Hids. }
  rewrite Htbl in E. injection E as <-.
  destruct (lookup_lt_is_Some_2 _ _ Hi) as [e He].
  unfold set_crossref. rewrite (f_ra _ _ HF), He. cbn [mbind option_bind].
  destruct (e_ref e) as [[content num]|] eqn:Er.
  2: { eexists. split; [reflexivity|]. eapply refs_keep; [done|exact He|]. intros cell t s2 _ _ H. unfold resolved. by rewrite Er. }
  assert (Hundef : (forall j, ~ names (ra s) num j) -> Refs (S i) s1).
  { intros Hno. eapply refs_keep; [done|exact He|]. intros cell t s2 _ _ H. unfold resolved. rewrite Er.
    split; [done|]. intros j x Hj. by apply Hno in Hj. }
  destruct (Z.ltb_spec (max_id (ra s)) num) as [Hb|Hb].
  { eexists. split; [reflexivity|]. apply Hundef. by apply Hbig. }
  destruct (rd_Some tbl (Z.to_nat num)) as [x Hx]; [destruct (max_id_foldl (ra s) 0) as [? _]; [lia|]; fold (max_id (ra s)) in *; lia|].
  rewrite Hx. cbn [mbind option_bind]. destruct (Htab num x Hb Hx) as [Hx1 Hx0].
  destruct (Nat.eqb_spec x 0) as [Ex|Ex].
  { eexists. split; [reflexivity|]. apply Hundef. intros j Hj. eapply (Hx0 Ex j); [|done]. by eapply names_pos. }
  specialize (Hx1 Ex). pose proof Hx1 as (_ & (t & Ht & _) & _).
  rewrite Ht. cbn [mbind option_bind].
  destruct (e_at e) as [[cell ty]|] eqn:Ea.
  2: { destruct (negb _); (eexists; split; [reflexivity|]; eapply refs_keep; [done|exact He|]; congruence). }
  destruct (loaded_as Pointer e || loaded_as Str e) eqn:Elp; cbn [negb].
  2: { eexists. split; [reflexivity|]. eapply refs_keep; [done|exact He|]. intros c ty' s2 Ha Hp.
    apply (loaded_is_ptr _ _ _ Ha) in Hp. congruence. }
  assert (Hp : is_ptr (s_kind ty)) by (by apply (loaded_is_ptr _ _ _ Ea)).
  assert (Hone : forall s2, (match e_at t with
      | Some (d, _) => if content then e_ref t = None -> forall p, holds s d p -> holds s2 cell p else holds s2 cell (To d)
      | None => if content then forall p, holds s cell p -> holds s2 cell p else holds s2 cell Null end) -> resolved s s2 e cell).
  { intros s2 H. unfold resolved. rewrite Er. split; [intros Hno; by apply Hno in Hx1|].
    intros j t' Hj Ht'. rewrite (names_fun _ _ _ _ Hj Hx1), Ht in Ht'. injection Ht' as <-. exact H. }
  destruct (e_at t) as [[d td]|] eqn:Et.
  - destruct content.
    + assert (Hpd : is_ptr (s_kind td)) by exact (Hcont _ _ _ _ _ _ _ _ _ He Ea Hp Er Hx1 Ht Et).
      destruct (cell_facts _ _ _ _ Ht Et Hpd) as (ow & m & Hpl & Hm & Hd1 & Hd2).
      rewrite (get_ptr_peek _ _ m); [|by rewrite (f_blocks _ _ HF)|done|done].
      destruct (peek_total (log s1) d td ow (f_log _ _ HF) Hpl Hpd) as [q Hq]. rewrite Hq. cbn [mbind option_bind].
      eapply refs_put; [done|exact He|done|done|]. intros s2 Hs2. apply Hone. intros Hr p Hh.
      assert (holds s1 d p) as Hh1.
      { destruct (decide (x < i)%nat) as [Hl|Hl].
        - pose proof (f_done _ _ HF _ _ _ _ Ht Et Hpd Hl) as H. unfold resolved in H. rewrite Hr in H. by apply H.
        - eapply (f_todo _ _ HF _ _ _ _ Ht Et Hpd); [lia|done]. }
      rewrite <- (peek_holds env Henv Hunion s1 bty d td ow p) in Hh1;
        [|by apply (i_ty _ _ _ _ (r_inv _ _ _ _ _ _ _ HR))|by apply HF|done|done].
      rewrite Hq in Hh1. by injection Hh1 as <-.
    + eapply refs_put; [done|exact He|done|done|]. intros s2 Hs2. by apply Hone.
  - destruct content.
    + eexists. split; [reflexivity|]. eapply refs_keep; [done|exact He|]. intros c ty' s2 Ha _ H.
      rewrite Ea in Ha. injection Ha as <- _. by apply Hone.
    + eapply refs_put; [done|exact He|done|done|]. intros s2 Hs2. by apply Hone.
Qed.

Lemma refs_all tbl k : forall i s1,
  make_table (ra s) = Some tbl -> Refs i s1 -> (i + k = length (ra s))%nat ->
  exists s2, set_refs k tbl (max_id (ra s)) i s1 = Some s2 /\ Refs (length (ra s)) s2.
Proof.
  induction k as [|k IH]; intros i s1 Ht HF Hi; cbn [set_refs].
  - exists s1. split; [done|]. by replace (length (ra s)) with i by lia.
  - destruct (refs_step tbl i s1 Ht HF) as (s2 & -> & HF2); [lia|]. cbn [mbind option_bind].
    eapply IH; [done|done|lia].
Qed.

Lemma set_crossrefs_ok :
  exists s', set_crossrefs s = Some s' /\ Refs (length (ra s)) s'.
Proof.
  destruct (make_table_ok (ra s)) as (tbl & E & _).
  { rewrite Forall_forall. intros e He. apply elem_of_list_lookup in He as [j Hj].
    apply (r_node _ _ _ _ _ _ _ HR) in Hj. apply elem_of_list_lookup_2 in Hj.
    apply elem_of_cons in Hj as [->|Hj]; [cbn; lia|]. rewrite Forall_forall in Hids. by apply Hids. }
  unfold set_crossrefs. rewrite E. cbn [mbind option_bind]. apply refs_all; [done| |done].
  split; try done.
  - apply (i_log _ _ _ _ (r_inv _ _ _ _ _ _ _ HR)).
  - intros. lia.
Qed.
End refs.

(** A load that succeeds sets each reference. *)
Theorem load_top_refs f :
  stype_ok env (f_ty f) -> s_size (f_ty f) <= size ->
  forall s, load_all env leaf alloc root (0%nat, 0) f (start size nodes) = Some (true, s) ->
  one_value s -> content_ok s ->
  exists s', load_top env leaf alloc root (0%nat, 0) f (start size nodes) = Some (true, s') /\
    ra s' = ra s /\ blocks s' = blocks s /\
    forall j e cell t, ra s !! j = Some e -> e_at e = Some (cell, t) -> is_ptr (s_kind t) -> resolved s s' e cell.
Proof.
  intros Hok Hsz s Hs H1 Hc.
  destruct (run_load_all env leaf alloc Henv Hunion nodes root size Htree f Hok Hsz) as (ok & s0 & bty & i & Hs0 & HR & _).
  rewrite Hs in Hs0. injection Hs0 as <- <-.
  unfold load_top. rewrite Hs. cbn [mbind option_bind].
  destruct (set_crossrefs_ok bty i s HR H1 Hc) as (s' & -> & HF). cbn [mbind option_bind].
  exists s'. split; [done|]. split; [apply HF|]. split; [apply HF|].
  intros j e cell t He Ha Hp. eapply f_done; [exact HF|done|done|done|]. by eapply lookup_lt_Some.
Qed.
End run.
