(** [load] (src/mr_load.c) preserves the invariant and never leaves the
    destination. *)
From Verif Require Import Base Load LoadSpec LoadSafe LoadInv.
Local Open Scope Z_scope.

Notation gty := (option (stype * Z * nat)).

(** What a load of the nodes with indices [js] at [a] may change. *)
Record Post (js : list nat) (a : addr) (bty : list gty) (s : state) (bty' : list gty) (s' : state) : Prop := {
  p_bty : exists k, bty' = bty ++ replicate k None;
  p_blk : exists bs, blocks s' = blocks s ++ (Some <$> bs);
  p_len : length (ra s') = length (ra s);
  p_frame : forall j, j ∉ js -> ra s' !! j = ra s !! j;
  p_node : forall j e, ra s !! j = Some e -> exists e', ra s' !! j = Some e' /\
    e_node e' = e_node e /\ (forall x, e_at e = Some x -> e_at e' = Some x);
  p_un : forall j e', ra s' !! j = Some e' -> e_at e' = None -> ra s !! j = Some e';
  p_log : exists l, log s' = l ++ log s /\
    Forall (fun x => (st_at x).1 = a.1 \/ (length (blocks s) <= (st_at x).1)%nat) l;
}.

Lemma Post_refl js a bty s : Post js a bty s bty s.
Proof.
  split; try done.
  - exists 0%nat. by rewrite app_nil_r.
  - exists []. by rewrite app_nil_r.
  - intros j e H. by exists e.
  - by exists [].
Qed.

Lemma Post_trans js1 js2 js a bty s bty' s' bty'' s'' a1 a2 :
  Post js1 a1 bty s bty' s' -> Post js2 a2 bty' s' bty'' s'' ->
  js1 ⊆ js -> js2 ⊆ js -> a1.1 = a.1 -> a2.1 = a.1 ->
  Post js a bty s bty'' s''.
Proof.
  intros [[k1 A1] [b1 A2] A3 A4 A5 A8 [l1 [A6 A7]]] [[k2 B1] [b2 B2] B3 B4 B5 B8 [l2 [B6 B7]]] J1 J2 E1 E2.
  split.
  - exists (k1 + k2)%nat. rewrite B1, A1, <- app_assoc, <- replicate_add. done.
  - exists (b1 ++ b2). rewrite B2, A2, fmap_app, app_assoc. done.
  - congruence.
  - intros j Hj. rewrite B4, A4; [done|by intros ?%J1|by intros ?%J2].
  - intros j e H. destruct (A5 j e H) as (e' & H' & N & P). destruct (B5 j e' H') as (e'' & H'' & N' & P').
    exists e''. split; [done|]. split; [congruence|]. intros x Hx. by apply P', P.
  - intros j e' He' Hn. by apply A8; [apply B8|].
  - exists (l2 ++ l1). rewrite B6, A6, app_assoc. split; [done|].
    apply Forall_app. split.
    + eapply Forall_impl; [exact B7|]. cbn. intros x [Hx|Hx]; [left; congruence|right].
      rewrite A2, app_length in Hx. lia.
    + eapply Forall_impl; [exact A7|]. cbn. intros x [Hx|Hx]; [left; congruence|by right].
Qed.

Lemma Post_at js a bty s idx e b t :
  ra s !! idx = Some e -> e_at e = None -> idx ∈ js ->
  Post js a bty s bty (set_entry s idx (at_entry b t)).
Proof.
  intros He Hn Hi. split; try done.
  - exists 0%nat. by rewrite app_nil_r.
  - exists []. by rewrite app_nil_r.
  - cbn. by rewrite alter_length.
  - intros j Hj. cbn. rewrite list_lookup_alter_ne; [done|]. by intros ->.
  - intros j e' H. cbn. destruct (decide (j = idx)) as [->|Hne].
    + assert (e' = e) as -> by congruence. rewrite list_lookup_alter, He. cbn.
      eexists; split; [done|]. split; [done|]. intros x Hx. congruence.
    + rewrite list_lookup_alter_ne by congruence. by exists e'.
  - intros j e' H Hn'. cbn in H. destruct (decide (j = idx)) as [->|Hne].
    + rewrite list_lookup_alter, He in H. cbn in H. by injection H as <-.
    + by rewrite list_lookup_alter_ne in H.
  - by exists [].
Qed.

Lemma Post_ref js a bty s idx r e0 :
  ra s !! idx = Some e0 -> e_at e0 <> None ->
  idx ∈ js -> Post js a bty s bty (set_entry s idx (fun e => Entry (e_node e) (e_at e) r)).
Proof.
  intros He0 Ha0 Hi. split; try done.
  - exists 0%nat. by rewrite app_nil_r.
  - exists []. by rewrite app_nil_r.
  - cbn. by rewrite alter_length.
  - intros j Hj. cbn. rewrite list_lookup_alter_ne; [done|]. by intros ->.
  - intros j e' H. cbn. destruct (decide (j = idx)) as [->|Hne].
    + rewrite list_lookup_alter, H. cbn. eexists; split; [done|]. done.
    + rewrite list_lookup_alter_ne by congruence. by exists e'.
  - intros j e' H Hn'. cbn in H. destruct (decide (j = idx)) as [->|Hne].
    + rewrite list_lookup_alter, He0 in H. cbn in H. by injection H as <-.
    + by rewrite list_lookup_alter_ne in H.
  - by exists [].
Qed.

Lemma Post_put js a bty s b w :
  b.1 = a.1 -> Post js a bty s bty (State (blocks s) (Store b w :: log s) (ra s)).
Proof.
  intros Hb. split; try done.
  - exists 0%nat. by rewrite app_nil_r.
  - exists []. by rewrite app_nil_r.
  - intros j e' H. by exists e'.
  - exists [Store b w]. split; [done|]. constructor; [by left|constructor].
Qed.

(** A string: new block, the pointer, the text. *)
Lemma Post_string js a bty s n b p c w :
  b.1 = a.1 -> c.1 = length (blocks s) ->
  Post js a bty s (bty ++ [None])
    (State (blocks s ++ [Some n]) (Store c w :: Store b p :: log s) (ra s)).
Proof.
  intros Hb Hc. split; try done.
  - by exists 1%nat.
  - by exists [n].
  - intros j e' H. by exists e'.
  - exists [Store c w; Store b p]. split; [done|].
    constructor; [right; cbn; lia|]. constructor; [by left|constructor].
Qed.

Section env.
Context (env : list td) (leaf : node -> stype -> bool * bool) (alloc : nat -> bool).
Hypothesis Henv : env_ok env.
Hypothesis Hunion : union_free env.

Notation Inv := (Inv env).
Notation place := (place env).

Lemma place_room bty i s a t ow m :
  Inv bty i s -> place bty a t ow -> blocks s !! a.1 = Some (Some m) ->
  0 <= a.2 /\ a.2 + s_size t <= m.
Proof.
  intros HI (ty & cnt & k & o & Hb & Hk & Hs & Ha) Hm.
  destruct (i_ty _ _ _ _ HI _ _ _ _ Hb) as [Hok Hc].
  destruct (sub_range env Henv _ _ _ Hs Hok) as (_ & H1 & H2).
  pose proof (i_size _ _ _ _ HI _ _ _ _ _ Hb Hm). pose proof (proj1 Hok). nia.
Qed.

(** The place of a node that was not loaded before holds no block, if no pointer
    is given twice. *)
Lemma fresh_null bty i s idx e a t x :
  Inv bty i s -> ra s !! idx = Some e -> e_at e = None -> is_ptr (s_kind t) ->
  one_value (set_entry s idx (at_entry a t)) -> peek (log s) a <> Some (To x).
Proof.
  intros HI He Hn Hk H1 H. destruct x as [b o].
  destruct (i_own _ _ _ _ HI _ _ _ H) as (_ & _ & j & e' & t' & Hj & He' & Hk').
  assert (Hne : j <> idx) by congruence.
  apply Hne. eapply (H1 j idx e' (at_entry a t e) a t' t); cbn [set_entry ra].
  - by rewrite list_lookup_alter_ne.
  - by rewrite list_lookup_alter, He.
  - done.
  - done.
  - destruct Hk' as [[? _]|[? _]]; [by right|by left].
  - done.
Qed.

Definition good (js : list nat) (a : addr) (i : nat) bty s (r : option res) : Prop :=
  exists ok giv s' bty', r = Some (ok, giv, s') /\ Inv bty' i s' /\ Post js a bty s bty' s'.

Lemma good_intro js a i bty s ok giv s' bty' :
  Inv bty' i s' -> Post js a bty s bty' s' -> good js a i bty s (Some (ok, giv, s')).
Proof. intros. by exists ok, giv, s', bty'. Qed.

Lemma good_trans js a i bty s js1 bty1 s1 r a1 a2 js2 :
  Post js1 a1 bty s bty1 s1 -> good js2 a2 i bty1 s1 r ->
  js1 ⊆ js -> js2 ⊆ js -> a1.1 = a.1 -> a2.1 = a.1 -> good js a i bty s r.
Proof.
  intros HP (ok & giv & s' & bty' & -> & HI & HP') J1 J2 E1 E2.
  eapply good_intro; [done|]. by eapply Post_trans.
Qed.

Section handlers.
Context (bty : list gty) (i : nat) (s0 : state) (nd : node) (e : entry) (a : addr) (t : stype) (ow : nat) (m : Z).
Context (HI0 : Inv bty i s0) (He : ra s0 !! n_idx nd = Some e) (Hn : e_at e = None)
  (Hpl : place bty a t ow) (Hm : blocks s0 !! a.1 = Some (Some m)).
Let s := set_entry s0 (n_idx nd) (at_entry a t).
Context (HI : Inv bty i s).

Lemma Hroom : 0 <= a.2 /\ a.2 + s_size t <= m.
Proof. exact (place_room bty i s0 a t ow m HI0 Hpl Hm). Qed.

Lemma Htype : stype_ok env t.
Proof. exact (place_type env Henv bty a t ow (i_ty _ _ _ _ HI0) Hpl). Qed.

Lemma good_scalar n :
  (s_kind t = Scalar n \/ (s_kind t = Enum /\ n = s_size t)) ->
  good [n_idx nd] a i bty s (load_scalar leaf nd a t n s).
Proof.
  intros Hk. pose proof Hroom. pose proof Htype as [T0 T1]. unfold load_scalar.
  assert (n <= s_size t).
  { destruct Hk as [Hk|[_ ->]]; [|done]. rewrite Hk in T1. cbn in T1. lia. }
  destruct (leaf nd t) as [ok stored]. destruct stored; cbn [mbind option_bind].
  - rewrite (put_ok _ _ _ m); [|done|lia|cbn; lia]. cbn [mbind option_bind].
    eapply good_intro.
    + apply inv_put; [done|done|done| |done]. exists t, ow. done.
    + by apply Post_put.
  - eapply good_intro; [done|]. apply Post_refl.
Qed.

Lemma good_string :
  s_kind t = Str -> (0 < length bty)%nat -> good [n_idx nd] a i bty s (load_string alloc nd a s).
Proof.
  intros Hk Hpos. pose proof Hroom. pose proof Htype as Ht. unfold load_string.
  assert (Hptr : is_ptr (s_kind t)) by by right.
  pose proof (ptr_size env _ Ht Hptr).
  rewrite (put_ok _ _ _ m); [|done|lia|cbn; lia]. cbn [mbind option_bind].
  set (s1 := State (blocks s) (Store a (WPtr Null) :: log s) (ra s)).
  assert (HI1 : Inv bty i s1).
  { eapply inv_null; [done|done|exact HI|done|done|]. intros H1 x. exact (fresh_null bty i s0 (n_idx nd) e a t x HI0 He Hn Hptr H1). }
  assert (HP1 : Post [n_idx nd] a bty s bty s1) by by apply Post_put.
  assert (Hnul : peek (log s1) a = Some Null).
  { unfold s1. cbn [log]. rewrite peek_cons, meets_self. cbn. by rewrite Z.eqb_refl. }
  assert (Hlu : ra s1 !! n_idx nd = Some (at_entry a t e)).
  { cbn. rewrite list_lookup_alter, He. done. }
  assert (Hlt : (a.1 < length (blocks s1))%nat) by by eapply lookup_lt_Some.
  assert (Hnew : forall n w w', store_ok env (bty ++ [None]) (Store (length (blocks s1), 0) w') ->
            (forall p, w' <> WPtr p) -> w = WPtr (To (length (blocks s1), 0)) ->
     Inv (bty ++ [None]) i (State (blocks s1 ++ [Some n]) (Store (length (blocks s1), 0) w' :: Store a w :: log s1) (ra s1))).
  { intros n w w' Hw Hw' ->.
    eapply (inv_put _ Henv Hunion _ _ (State (blocks s1 ++ [Some n]) (Store a (WPtr (To (length (blocks s1), 0))) :: log s1) (ra s1)));
      [|done|done].
    eapply inv_new; [done|done|done|exact Hlu|done|by left|done|]. intros _ x. rewrite Hnul. done. }
  assert (Hlast : (bty ++ [None]) !! length (blocks s1) = Some None).
  { rewrite <- (i_len _ _ _ _ HI1). rewrite lookup_app_r, Nat.sub_diag by lia. done. }
  destruct (n_null nd || _).
  { by eapply good_intro. }
  destruct (n_val nd) as [z|x|[x|]|].
  - eapply good_intro; [by apply inv_ref|]. eapply Post_trans; [exact HP1|eapply Post_ref; [exact Hlu|done|constructor]|..]; done.
  - unfold calloc. destruct (alloc _).
    2:{ by eapply good_intro. }
    rewrite (put_ok _ _ _ m); [|cbn [blocks]; by rewrite lookup_app_l|lia|cbn; lia].
    cbn [mbind option_bind].
    rewrite (put_ok _ _ _ (Z.of_nat (length x) + 1));
      [|cbn [blocks fst]; rewrite lookup_app_r, Nat.sub_diag by lia; done|cbn; lia|cbn; lia].
    cbn [mbind option_bind blocks log ra].
    eapply good_intro; [apply (Hnew _ _ _); [by left|done|done]|].
    eapply Post_trans; [exact HP1|apply Post_string|..]; done.
  - cbn [blocks].
    rewrite (put_ok _ _ _ m); [|cbn [blocks]; by rewrite lookup_app_l|lia|cbn; lia].
    cbn [mbind option_bind].
    rewrite (put_ok _ _ _ (Z.of_nat (length x) + 1));
      [|cbn [blocks fst]; rewrite lookup_app_r, Nat.sub_diag by done; done|cbn; lia|].
    2:{ cbn [width snd]. rewrite app_length. cbn [length]. lia. }
    cbn [mbind option_bind blocks log ra].
    eapply good_intro; [apply (Hnew _ _ _); [by left|done|done]|].
    eapply Post_trans; [exact HP1|apply Post_string|..]; done.
  - rewrite (put_ok _ _ _ m); [|done|lia|cbn; lia]. cbn [mbind option_bind].
    eapply good_intro.
    + eapply inv_null; [done|done|exact HI1|done|done|]. intros _ x. rewrite Hnul. done.
    + eapply Post_trans; [exact HP1|apply Post_put|..]; done.
  - by eapply good_intro.
Qed.

Lemma good_text d x s1 r bty1 b :
  b = shift a d ->
  s_kind t = CharArray -> 0 <= d -> d + Z.of_nat (length x) <= s_size t ->
  Inv bty1 i s1 -> place bty1 a t ow -> blocks s1 !! a.1 = Some (Some m) ->
  (forall s2, s2 = State (blocks s1) (Store (shift a d) (WText x) :: log s1) (ra s1) ->
     Inv bty1 i s2 -> good [n_idx nd] a i bty1 s2 (r s2)) ->
  good [n_idx nd] a i bty1 s1 (s2 ← put s1 b (WText x); r s2).
Proof.
  intros -> Hk Hd Hl HI1 Hp1 Hm1 Hr. pose proof Hroom.
  rewrite (put_ok _ _ _ m); [|done|cbn; lia|cbn; lia]. cbn [mbind option_bind].
  eapply (good_trans _ _ _ _ _ [n_idx nd]); [exact (Post_put [n_idx nd] a bty1 s1 (shift a d) (WText x) eq_refl)|apply Hr; [done|]|..]; try done.
  apply inv_put; [done|done|done| |done]. right. exists t, ow, d.
  split; [|done]. cbn [st_at]. rewrite shift_shift.
  replace (d + - d) with 0 by lia. by rewrite shift_0.
Qed.

Lemma good_char_array :
  s_kind t = CharArray -> good [n_idx nd] a i bty s (load_char_array alloc nd a t None s).
Proof.
  intros Hk. pose proof (proj1 Htype) as Hsz.
  assert (Hbody : forall s1, Inv bty i s1 -> blocks s1 !! a.1 = Some (Some m) ->
    good [n_idx nd] a i bty s1
      match n_val nd with
      | VSub x | VStr (Some x) => get_char_array alloc nd a t None x s1
      | _ => Some (false, None, s1)
      end).
  { intros s1 HI1 Hm1.
    assert (Hget : forall x, good [n_idx nd] a i bty s1 (get_char_array alloc nd a t None x s1)).
    { intros x. unfold get_char_array.
      set (x' := if _ >? _ then _ else x).
      assert (Hx' : Z.of_nat (length x') <= s_size t).
      { unfold x'. destruct (Z.gtb_spec (Z.of_nat (length x)) (s_size t)); [|lia].
        rewrite take_length. lia. }
      clearbody x'.
      apply (good_text 0); try done; [by rewrite shift_0|].
      intros s2 -> HI2.
      destruct (Z.ltb_spec (Z.of_nat (length x')) (s_size t)).
      - apply (good_text (Z.of_nat (length x'))); try done; [lia|cbn; lia|].
        intros s3 -> HI3. eapply good_intro; [done|apply Post_refl].
      - cbn [mbind option_bind]. eapply good_intro; [done|apply Post_refl]. }
    destruct (n_val nd) as [z|x|[x|]|]; try apply Hget; (eapply good_intro; [done|apply Post_refl]). }
  unfold load_char_array. destruct (Z.ltb_spec 0 (s_size t)).
  - apply (good_text 0); try done; [by rewrite shift_0|cbn; lia|].
    intros s2 -> HI2. by apply Hbody.
  - cbn [mbind option_bind]. by apply Hbody.
Qed.
End handlers.

(** * The recursion *)
Definition Fresh (s : state) (nd : node) : Prop :=
  forall m, m ∈ subtree nd -> exists e, ra s !! n_idx m = Some e /\ e_node e = m /\ e_at e = None.

Definition parent_ok (i : nat) (s : state) (nd : node) : Prop :=
  n_par nd = O \/
  (n_par nd <> n_idx nd /\ exists ep, ra s !! n_par nd = Some ep /\ e_at ep <> None /\
    (loaded_as Pointer ep = true -> (n_par nd < i)%nat)).

Definition idxs (ks : list node) : list nat := n_idx <$> concat (map subtree ks).

Lemma idxs_cons k ks : idxs (k :: ks) = (n_idx <$> subtree k) ++ idxs ks.
Proof. unfold idxs. cbn. by rewrite fmap_app. Qed.

Lemma idxs_sub nd : n_idx <$> subtree nd = n_idx nd :: idxs (n_kids nd).
Proof. rewrite subtree_unfold. done. Qed.

Lemma Fresh_frame js a bty s bty' s' k :
  Post js a bty s bty' s' -> Fresh s k -> (forall j, j ∈ js -> j ∈ n_idx <$> subtree k -> False) -> Fresh s' k.
Proof.
  intros HP HF Hd m Hm. rewrite (p_frame _ _ _ _ _ _ HP); [by apply HF|].
  intros H. apply (Hd _ H). by apply elem_of_list_fmap_1.
Qed.

Lemma parent_frame js a bty s bty' s' i nd :
  Post js a bty s bty' s' -> parent_ok i s nd -> parent_ok i s' nd.
Proof.
  intros HP [H|(Hne & ep & Hep & Ha & Hp)]; [by left|right]. split; [done|].
  destruct (p_node _ _ _ _ _ _ HP _ _ Hep) as (e' & He' & _ & Hx). exists e'. split; [done|].
  destruct (e_at ep) as [x|] eqn:E; [|done]. specialize (Hx x eq_refl).
  split; [by rewrite Hx|]. unfold loaded_as in *. rewrite E in Hp. by rewrite Hx.
Qed.

Lemma live_frame js a bty s bty' s' b m :
  Post js a bty s bty' s' -> blocks s !! b = Some (Some m) -> blocks s' !! b = Some (Some m).
Proof. intros HP H. destruct (p_blk _ _ _ _ _ _ HP) as [bs ->]. by apply lookup_app_l_Some. Qed.

Lemma place_frame js a bty s bty' s' b t ow :
  Post js a bty s bty' s' -> place bty b t ow -> place bty' b t ow.
Proof. intros HP H. destruct (p_bty _ _ _ _ _ _ HP) as [k ->]. by apply place_app. Qed.

Lemma btylen_frame js a bty s bty' s' :
  Post js a bty s bty' s' -> (0 < length bty)%nat -> (0 < length bty')%nat.
Proof. intros HP H. destruct (p_bty _ _ _ _ _ _ HP) as [k ->]. rewrite app_length. lia. Qed.

Definition load_good (nd : node) : Prop :=
  forall nfd nf a f par s bty i ow m,
    Inv bty i s -> Fresh s nd -> NoDup (n_idx <$> subtree nd) -> links_ok nd ->
    place bty a (f_ty f) ow -> (ow < n_idx nd)%nat -> blocks s !! a.1 = Some (Some m) ->
    (0 < length bty)%nat -> parent_ok i s nd -> (par = None \/ s_kind (f_ty f) <> CharArray) ->
    good (n_idx <$> subtree nd) a i bty s (load env leaf alloc nd nfd nf a f par s).

(** What the loops know about the remaining nodes. *)
Record Todo (ks : list node) (ow i : nat) (s : state) : Prop := {
  t_good : Forall load_good ks;
  t_nodup : NoDup (idxs ks);
  t_each : forall k, k ∈ ks -> Fresh s k /\ links_ok k /\ (ow < n_idx k)%nat /\ parent_ok i s k;
}.

Lemma Todo_next k ks ow i s bty s' bty' a :
  Todo (k :: ks) ow i s -> Post (n_idx <$> subtree k) a bty s bty' s' -> Todo ks ow i s'.
Proof.
  intros [H1 H2 H3] HP. inversion H1; subst. rewrite idxs_cons in H2.
  apply NoDup_app in H2 as (_ & Hd & H2). split; [done|done|].
  intros k' Hk'. destruct (H3 k') as (F & L & O & P); [by constructor|].
  split; [|split; [done|split; [done|by eapply parent_frame]]].
  eapply Fresh_frame; [done|done|]. intros j Hj Hj'. apply (Hd j Hj).
  unfold idxs. apply elem_of_list_fmap in Hj' as (x & -> & Hx). apply elem_of_list_fmap_1.
  apply elem_of_concat_map. by exists k'.
Qed.

Lemma Todo_head k ks ow i s :
  Todo (k :: ks) ow i s ->
  load_good k /\ Fresh s k /\ NoDup (n_idx <$> subtree k) /\ links_ok k /\ (ow < n_idx k)%nat /\ parent_ok i s k.
Proof.
  intros [H1 H2 H3]. inversion H1; subst. rewrite idxs_cons in H2.
  apply NoDup_app in H2 as (H2 & _ & _).
  destruct (H3 k) as (F & L & O & P); [by constructor|]. done.
Qed.

Lemma find_field_lookup fields n x : find_field fields n = Some x -> exists g, fields !! x = Some g.
Proof.
  revert x. induction fields as [|g fields IH]; intros x; cbn; [done|].
  destruct (match f_name g with Some y => N.eqb y n | None => false end).
  - intros [= <-]. by exists g.
  - destruct (find_field fields n) as [y|]; cbn; [|done]. intros [= <-]. cbn. by apply IH.
Qed.

Lemma choose_field_lookup fields nfd prev x :
  choose_field fields nfd prev = Some x -> exists g, fields !! x = Some g.
Proof.
  unfold choose_field.
  assert (N : next_field fields prev = Some x -> exists g, fields !! x = Some g).
  { unfold next_field. destruct (Nat.ltb_spec (match prev with None => O | Some p => S p end) (length fields)); [|done].
    intros [= <-]. by apply lookup_lt_is_Some_2. }
  destruct nfd as [[[n|] t]|]; try exact N.
  destruct (find_field fields n) as [y|] eqn:E; [|exact N]. intros [= <-]. by eapply find_field_lookup.
Qed.

Lemma good_values T d a ow m i :
  (s_kind T = Struct \/ s_kind T = NamedAnon) -> get_td env (s_td T) = Some d ->
  forall ks prev given s bty,
    Todo ks ow i s -> Inv bty i s -> place bty a T ow -> blocks s !! a.1 = Some (Some m) ->
    (0 < length bty)%nat ->
    good (idxs ks) a i bty s (values (load env leaf alloc) (t_fields d) a ks prev given s).
Proof.
  intros Hk Hd. induction ks as [|k ks IH]; intros prev given s bty HT HI Hp Hm Hpos; cbn [values].
  { eapply good_intro; [done|apply Post_refl]. }
  destruct (choose_field (t_fields d) _ prev) as [x|] eqn:E.
  2:{ eapply good_intro; [done|apply Post_refl]. }
  destruct (choose_field_lookup _ _ _ _ E) as [g Hg]. rewrite Hg. cbn [mbind option_bind].
  destruct (Todo_head _ _ _ _ _ HT) as (HG & HF & HN & HL & HO & HP).
  assert (Hpl : place bty (shift a (f_off g)) (f_ty g) ow).
  { eapply place_sub; [done|]. rewrite <- (Z.add_0_r (f_off g)). eapply sub_field; [done..|constructor]. }
  destruct (HG (match given with Some _ => given | None => n_fd k end) (next_nameless ks)
              (shift a (f_off g)) g None s bty i ow m) as (ok & giv & s1 & bty1 & -> & HI1 & HP1);
    [done..|by left|].
  cbn [mbind option_bind].
  assert (S1 : (n_idx <$> subtree k) ⊆ idxs (k :: ks)).
  { rewrite idxs_cons. intros z Hz. apply elem_of_app. by left. }
  assert (S2 : idxs ks ⊆ idxs (k :: ks)).
  { rewrite idxs_cons. intros z Hz. apply elem_of_app. by right. }
  destruct ok.
  - eapply good_trans; [exact HP1|apply IH|exact S1|exact S2|done|done].
    + by eapply Todo_next.
    + done.
    + by eapply place_frame.
    + by eapply live_frame.
    + by eapply btylen_frame.
  - eapply good_intro; [done|]. eapply Post_trans; [exact HP1|apply (Post_refl (idxs ks) a)|..]; done.
Qed.

Lemma good_elements T c f a ow m i :
  s_kind T = Array -> s_dims T !! 0%nat = Some c -> f_ty f = T ->
  forall ks x given s bty, 0 <= x ->
    Todo ks ow i s -> Inv bty i s -> place bty a T ow -> blocks s !! a.1 = Some (Some m) ->
    (0 < length bty)%nat ->
    good (idxs ks) a i bty s (elements (load env leaf alloc) c (elem_fd env f c) a ks x given s).
Proof.
  intros Hk Hd Hf. induction ks as [|k ks IH]; intros x given s bty Hx HT HI Hp Hm Hpos; cbn [elements].
  { eapply good_intro; [done|apply Post_refl]. }
  destruct (Z.leb_spec c x).
  { eapply good_intro; [done|apply Post_refl]. }
  destruct (Todo_head _ _ _ _ _ HT) as (HG & HF & HN & HL & HO & HP).
  set (g := elem_fd env f c).
  assert (Hpl : place bty (shift a (x * s_size (f_ty g))) (f_ty g) ow).
  { eapply place_sub; [done|]. rewrite <- (Z.add_0_r (x * _)). unfold g, elem_fd. cbn [f_ty]. rewrite Hf.
    eapply sub_elem; [done|done|lia|constructor]. }
  destruct (HG (match given with Some _ => given | None => n_fd k end) (next_nameless ks)
              (shift a (x * s_size (f_ty g))) g None s bty i ow m) as (ok & giv & s1 & bty1 & -> & HI1 & HP1);
    [done..|by left|].
  cbn [mbind option_bind].
  assert (S1 : (n_idx <$> subtree k) ⊆ idxs (k :: ks)).
  { rewrite idxs_cons. intros z Hz. apply elem_of_app. by left. }
  assert (S2 : idxs ks ⊆ idxs (k :: ks)).
  { rewrite idxs_cons. intros z Hz. apply elem_of_app. by right. }
  destruct ok.
  - eapply good_trans; [exact HP1|apply IH|exact S1|exact S2|done|done].
    + lia.
    + by eapply Todo_next.
    + done.
    + by eapply place_frame.
    + by eapply live_frame.
    + by eapply btylen_frame.
  - eapply good_intro; [done|]. eapply Post_trans; [exact HP1|apply (Post_refl (idxs ks) a)|..]; done.
Qed.

Theorem load_is_good : forall nd, load_good nd.
Proof.
  apply node_ind2. intros nd IH nfd nf a f par s bty i ow m HI HF HN HL Hpl How Hm Hpos Hpar Hch.
  destruct (HF nd (subtree_self nd)) as (e & He & Hnode & Hnone).
  destruct (HL nd (subtree_self nd)) as [Hidx Hkids].
  assert (Hlen : (n_idx nd < length (ra s))%nat) by by eapply lookup_lt_Some.
  destruct nd as [idx par' id nfd' typed null ref val kids].
  set (nd := Node idx par' id nfd' typed null ref val kids) in *.
  assert (Hr : forall r, good (n_idx <$> subtree nd) a i bty s (Some (r, None, s))).
  { intros r. eapply good_intro; [done|apply Post_refl]. }
  unfold nd. cbn [load]. fold nd. clearbody nd.
  destruct (Nat.ltb_spec 0 (n_idx nd)); [|lia].
  destruct (Nat.ltb_spec (n_idx nd) (length (ra s))); [|lia]. cbn [andb negb].
  destruct (negb (accepts f nd nfd)); [apply Hr|].
  set (t := f_ty f) in *.
  change (set_entry s (n_idx nd) _) with (set_entry s (n_idx nd) (at_entry a t)).
  set (s1 := set_entry s (n_idx nd) (at_entry a t)).
  assert (HI1 : Inv bty i s1).
  { eapply inv_at; [exact HI|done|done|done|done|]. rewrite Hnode. exact Hpar. }
  assert (HP1 : Post (n_idx <$> subtree nd) a bty s bty s1).
  { eapply Post_at; [done|done|]. rewrite idxs_sub. constructor. }
  assert (Hown : [n_idx nd] ⊆ n_idx <$> subtree nd).
  { intros z Hz. apply elem_of_list_singleton in Hz as ->. rewrite idxs_sub. constructor. }
  assert (Hstep : forall js r, js ⊆ n_idx <$> subtree nd -> good js a i bty s1 r -> good (n_idx <$> subtree nd) a i bty s r).
  { intros js r Hjs Hgd. eapply good_trans; [exact HP1|exact Hgd|done|done|done|done]. }
  assert (Hr1 : forall r g, good (n_idx <$> subtree nd) a i bty s (Some (r, g, s1))).
  { intros r g. by eapply good_intro. }
  assert (Hm1 : blocks s1 !! a.1 = Some (Some m)) by done.
  assert (HT : s_kind t <> Pointer -> Todo (n_kids nd) ow i s1).
  { intros Hkp. split.
    - done.
    - rewrite idxs_sub in HN. by apply NoDup_cons in HN as [_ HN].
    - intros k Hk. destruct (Hkids k Hk) as [Hp1 Hp2].
      rewrite idxs_sub in HN. apply NoDup_cons in HN as [Hnot _].
      split; [|split; [|split]].
      + eapply Fresh_frame; [eapply (Post_at [n_idx nd] a bty s)|..]; [done|done|constructor| |].
        * intros m' Hm'. apply HF. by eapply subtree_kid.
        * intros j Hj Hj'. apply elem_of_list_singleton in Hj as ->. apply Hnot.
          apply elem_of_list_fmap in Hj' as (x & -> & Hx). apply elem_of_list_fmap_1.
          apply elem_of_concat_map. by exists k.
      + by eapply links_kid.
      + lia.
      + right. rewrite Hp1. split; [lia|]. exists (at_entry a t e).
        split; [cbn; by rewrite list_lookup_alter, He|]. split; [done|].
        unfold loaded_as. cbn. intros HH. destruct (s_kind t); done. }
  assert (Hkidsub : idxs (n_kids nd) ⊆ n_idx <$> subtree nd).
  { rewrite idxs_sub. intros z Hz. by constructor. }
  assert (Hstruct : s_kind t = Struct \/ s_kind t = NamedAnon ->
    good (n_idx <$> subtree nd) a i bty s
      match get_td env (s_td t) with
      | Some d => values (load env leaf alloc) (t_fields d) a (n_kids nd) None None s1
      | None => Some (false, None, s1)
      end).
  { intros Hk. destruct (get_td env (s_td t)) as [d|] eqn:ET; [|apply Hr1].
    eapply Hstep; [exact Hkidsub|]. eapply good_values; try done.
    apply HT. destruct Hk as [-> | ->]; done. }
  destruct (s_kind t) eqn:Hk.
  - eapply Hstep; [exact Hown|]. eapply (good_scalar bty i s nd); try done. by left.
  - eapply Hstep; [exact Hown|]. eapply (good_scalar bty i s nd); try done. by right.
  - destruct Hch as [->|]; [|done].
    eapply Hstep; [exact Hown|]. eapply (good_char_array bty i s nd); done.
  - eapply Hstep; [exact Hown|]. eapply (good_string bty i s nd e); done.
  - apply Hstruct. by left.
  - destruct (_ && _ && nf); [apply Hr1|]. apply Hstruct. by right.
  - pose proof (place_type env Henv _ _ _ _ (i_ty _ _ _ _ HI) Hpl) as [Hsz0 Hok].
    rewrite Hk in Hok. destruct Hok as (esz & Hd & Hdims & _).
    destruct (s_dims t) as [|c ds] eqn:ED; [done|]. cbn [lookup list_lookup mbind option_bind].
    destruct (Z.eqb_spec c 0); [apply Hr1|].
    destruct (Z.eqb_spec (s_size t) 0); [apply Hr1|].
    eapply Hstep; [exact Hkidsub|].
    eapply (good_elements t c f); try done; [by rewrite ED|]. by apply HT.
  - apply Hr1.
  - apply Hr1.
  - apply Hr1.
Qed.
End env.
