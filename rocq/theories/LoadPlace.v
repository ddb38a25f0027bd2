(** Where the values of a successful load go (src/mr_load.c). *)
From Verif Require Import Base Load LoadSpec LoadSafe LoadInv LoadInv2.
Local Open Scope Z_scope.

Definition grows (r r' : list entry) : Prop :=
  forall j e, r !! j = Some e -> exists e', r' !! j = Some e' /\ (forall x, e_at e = Some x -> e_at e' = Some x).

Lemma placed_mono r r' nd a t : grows r r' -> placed r nd a t -> placed r' nd a t.
Proof. intros H (e & He & Ha). destruct (H _ _ He) as (e' & He' & Hx). exists e'. split; [done|by apply Hx]. Qed.

Lemma fields_mono r r' fields a prev handed ks :
  grows r r' -> fields_placed r fields a prev handed ks -> fields_placed r' fields a prev handed ks.
Proof.
  intros H. induction 1 as [|prev handed k ks i g handed' Hg Hf Hp Hh _ IH]; [constructor|].
  econstructor; try done. by eapply placed_mono.
Qed.

Lemma kids_mono env r r' nd a t : grows r r' -> kids_placed env r nd a t -> kids_placed env r' nd a t.
Proof.
  intros H. unfold kids_placed. destruct (s_kind t); try done.
  - intros (d & Hd & Hf). exists d. split; [done|]. by eapply fields_mono.
  - intros [?|(d & Hd & Hf)]; [by left|right]. exists d. split; [done|]. by eapply fields_mono.
  - intros (c & Hc & Hl & Hk). exists c. split; [done|]. split; [done|].
    intros i k Hi. eapply placed_mono; [done|]. by apply Hk.
Qed.

Lemma post_grows js a bty s bty' s' : Post js a bty s bty' s' -> grows (ra s) (ra s').
Proof.
  intros HP j e He. destruct (p_node _ _ _ _ _ _ HP _ _ He) as (e' & He' & _ & Hx). by exists e'.
Qed.

Lemma grows_refl r : grows r r.
Proof. intros j e He. by exists e. Qed.
Lemma grows_trans r1 r2 r3 : grows r1 r2 -> grows r2 r3 -> grows r1 r3.
Proof.
  intros H1 H2 j e He. destruct (H1 _ _ He) as (e' & He' & Hx). destruct (H2 _ _ He') as (e'' & He'' & Hx').
  exists e''. split; [done|]. intros x Hex. by apply Hx', Hx.
Qed.

Lemma find_field_first fields n i :
  find_field fields n = Some i ->
  (exists g, fields !! i = Some g /\ f_name g = Some n) /\
  forall j h, (j < i)%nat -> fields !! j = Some h -> f_name h <> Some n.
Proof.
  revert i. induction fields as [|g fields IH]; intros i; cbn; [done|].
  destruct (match f_name g with Some y => N.eqb y n | None => false end) eqn:E.
  - intros [= <-]. split; [|intros; lia]. exists g. split; [done|].
    destruct (f_name g); [|done]. f_equal. by apply N.eqb_eq.
  - destruct (find_field fields n) as [y|]; cbn; [|done]. intros [= <-].
    destruct (IH y eq_refl) as [Hg Hj]. split; [done|].
    intros j h Hlt Hh. destruct j as [|j].
    + cbn in Hh. injection Hh as <-. intros En. rewrite En, N.eqb_refl in E. done.
    + cbn in Hh. eapply Hj; [|done]. lia.
Qed.

Lemma find_field_none fields n :
  find_field fields n = None -> forall j h, fields !! j = Some h -> f_name h <> Some n.
Proof.
  induction fields as [|g fields IH]; cbn; [by intros _ j h H; rewrite lookup_nil in H|].
  destruct (match f_name g with Some y => N.eqb y n | None => false end) eqn:E; [done|].
  destruct (find_field fields n) as [y|]; cbn; [done|]. intros _ [|j] h H.
  - cbn in H. injection H as <-. intros En. rewrite En, N.eqb_refl in E. done.
  - by eapply IH.
Qed.

Lemma choose_field_for fields d prev i g nd :
  choose_field fields d prev = Some i -> fields !! i = Some g -> accepts g nd d = true ->
  field_for fields d prev i g.
Proof.
  unfold choose_field. intros Hc Hg Ha.
  assert (Hn : next_field fields prev = Some i -> i = match prev with None => O | Some p => S p end).
  { unfold next_field. destruct (_ <? _)%nat; [|done]. by intros [= <-]. }
  destruct d as [[[n|] t]|].
  - destruct (find_field fields n) as [y|] eqn:E.
    + injection Hc as ->. left. destruct (find_field_first _ _ _ E) as [(g' & Hg' & En) Hfirst].
      exists n, t. assert (g' = g) as -> by congruence. done.
    + right. split; [by apply Hn|]. intros n' t' [= <- <-].
      split; [by apply find_field_none|].
      unfold accepts in Ha. apply andb_prop in Ha as [_ Ha]. apply orb_prop in Ha as [Ha|Ha]; [by left|].
      destruct (f_name g) as [x|] eqn:Ex; [|by right]. apply N.eqb_eq in Ha as ->.
      exfalso. eapply find_field_none; [exact E|exact Hg|done].
  - right. split; [by apply Hn|]. intros n' t' [=].
  - right. split; [by apply Hn|]. intros n' t' [=].
Qed.

Lemma put_ra s a w s' : put s a w = Some s' -> ra s' = ra s.
Proof.
  unfold put. destruct (blocks s !! a.1) as [[n|]|]; [|done|done]. destruct (_ && _); [|done]. by intros [= <-].
Qed.

Lemma int_ref_spec z : number_ref z (int_ref z).
Proof.
  unfold number_ref, int_ref. change (2 ^ 32) with 4294967296.
  destruct (Z.leb_spec 0 z); [left|right]; done.
Qed.

Section env.
Context (env : list td) (leaf : node -> stype -> bool * bool) (alloc : nat -> bool).
Hypothesis Henv : env_ok env.
Hypothesis Hunion : union_free env.
Notation Inv := (Inv env).
Notation place := (place env).

(** The reference of a loaded node; pointers are not followed yet. *)
Definition ref_ok (m : node) (e : entry) (t : stype) : Prop :=
  (s_kind t = Str -> string_ref m (e_ref e)) /\ (s_kind t <> Str -> e_ref e = n_ref m).

(** All nodes among [ms] that are loaded have their values placed. *)
Definition all_placed (r : list entry) (ms : list node) : Prop :=
  forall m e b t, m ∈ ms -> r !! n_idx m = Some e -> e_at e = Some (b, t) ->
    kids_placed env r m b t /\ ref_ok m e t.

Definition noref (s : state) (nd : node) : Prop :=
  forall m e, m ∈ subtree nd -> ra s !! n_idx m = Some e -> e_ref e = n_ref m.

Lemma noref_frame js a bty s bty' s' k :
  Post js a bty s bty' s' -> noref s k -> (forall j, j ∈ js -> j ∈ n_idx <$> subtree k -> False) -> noref s' k.
Proof.
  intros HP HF Hd m e Hm. rewrite (p_frame _ _ _ _ _ _ HP); [by apply HF|].
  intros H. apply (Hd _ H). by apply elem_of_list_fmap_1.
Qed.

Lemma noref_next k ks a s bty s' bty' :
  NoDup (idxs (k :: ks)) -> Forall (noref s) (k :: ks) -> Post (n_idx <$> subtree k) a bty s bty' s' ->
  Forall (noref s') ks.
Proof.
  intros HN HF HP. inversion HF as [|? ? _ HF']; subst. rewrite idxs_cons in HN.
  apply NoDup_app in HN as (_ & Hd & _). rewrite Forall_forall in *. intros k' Hk'.
  eapply noref_frame; [done|by apply HF'|]. intros j Hj Hj'. apply (Hd j Hj).
  unfold idxs. apply elem_of_list_fmap in Hj' as (x & -> & Hx). apply elem_of_list_fmap_1.
  apply elem_of_concat_map. by exists k'.
Qed.

Definition load_layout (nd : node) : Prop :=
  forall nfd nf a f par s bty i ow m giv s',
    Inv bty i s -> Fresh s nd -> NoDup (n_idx <$> subtree nd) -> links_ok nd ->
    place bty a (f_ty f) ow -> (ow < n_idx nd)%nat -> blocks s !! a.1 = Some (Some m) ->
    (0 < length bty)%nat -> parent_ok i s nd -> (par = None \/ s_kind (f_ty f) <> CharArray) ->
    noref s nd -> load env leaf alloc nd nfd nf a f par s = Some (true, giv, s') ->
    accepts f nd nfd = true /\ placed (ra s') nd a (f_ty f) /\
    (s_kind (f_ty f) <> NamedAnon -> giv = None) /\ all_placed (ra s') (subtree nd).

(** Leaves touch their own entry only. *)
Lemma load_leaf nd nfd nf a f par s bty i ow m :
    Inv bty i s -> Fresh s nd -> NoDup (n_idx <$> subtree nd) -> links_ok nd ->
    place bty a (f_ty f) ow -> (ow < n_idx nd)%nat -> blocks s !! a.1 = Some (Some m) ->
    (0 < length bty)%nat -> parent_ok i s nd -> (par = None \/ s_kind (f_ty f) <> CharArray) ->
    s_kind (f_ty f) <> Struct -> s_kind (f_ty f) <> NamedAnon -> s_kind (f_ty f) <> Array -> noref s nd ->
    exists ok giv s' bty', load env leaf alloc nd nfd nf a f par s = Some (ok, giv, s') /\
      Inv bty' i s' /\ Post [n_idx nd] a bty s bty' s' /\
      (ok = true -> accepts f nd nfd = true /\ placed (ra s') nd a (f_ty f) /\ giv = None /\
         forall e, ra s' !! n_idx nd = Some e -> ref_ok nd e (f_ty f)).
Proof.
  intros HI HF HN HL Hpl How Hm Hpos Hpar Hch K1 K2 K3 Href.
  destruct (HF nd (subtree_self nd)) as (e & He & Hnode & Hnone).
  destruct (HL nd (subtree_self nd)) as [Hidx Hkids].
  assert (Hlen : (n_idx nd < length (ra s))%nat) by by eapply lookup_lt_Some.
  destruct nd as [idx par' id nfd' typed null ref val kids].
  set (nd := Node idx par' id nfd' typed null ref val kids) in *.
  unfold nd. cbn [load]. fold nd. clearbody nd.
  destruct (Nat.ltb_spec 0 (n_idx nd)); [|lia].
  destruct (Nat.ltb_spec (n_idx nd) (length (ra s))); [|lia]. cbn [andb negb].
  destruct (accepts f nd nfd) eqn:Eacc; cbn [negb].
  2:{ exists false, None, s, bty. split; [done|]. split; [done|]. split; [apply Post_refl|done]. }
  set (t := f_ty f) in *.
  change (set_entry s (n_idx nd) _) with (set_entry s (n_idx nd) (at_entry a t)).
  set (s1 := set_entry s (n_idx nd) (at_entry a t)).
  assert (HI1 : Inv bty i s1).
  { eapply inv_at; [exact HI|done|done|done|done|]. rewrite Hnode. exact Hpar. }
  assert (HP1 : Post [n_idx nd] a bty s bty s1).
  { eapply Post_at; [done|done|]. constructor. }
  assert (Hpl1 : placed (ra s1) nd a t).
  { exists (at_entry a t e). split; [|done]. cbn. by rewrite list_lookup_alter, He. }
  set (refs := fun s' => forall e, ra s' !! n_idx nd = Some e -> ref_ok nd e t).
  assert (Hsame : s_kind t <> Str -> forall s', ra s' = ra s1 -> refs s').
  { intros Hks s' E e' He'. rewrite E in He'. cbn [s1 set_entry ra] in He'. rewrite list_lookup_alter, He in He'.
    cbn in He'. injection He' as <-. split; [done|]. intros _. cbn. by eapply Href; [apply subtree_self|]. }
  assert (Hstep : forall r, (forall ok giv s', r = Some (ok, giv, s') -> giv = None /\ (ok = true -> refs s')) ->
    good env [n_idx nd] a i bty s1 r ->
    exists ok giv s' bty', r = Some (ok, giv, s') /\ Inv bty' i s' /\ Post [n_idx nd] a bty s bty' s' /\
      (ok = true -> true = true /\ placed (ra s') nd a t /\ giv = None /\ refs s')).
  { intros r Hgiv (ok & giv & s' & bty' & -> & HI' & HP'). exists ok, giv, s', bty'. split; [done|]. split; [done|].
    split; [by eapply Post_trans|]. intros ->. destruct (Hgiv _ _ _ eq_refl) as [-> Hrefs].
    split; [done|]. split; [|split; [done|by apply Hrefs]].
    eapply placed_mono; [by eapply post_grows|done]. }
  assert (Hr1 : forall r, good env [n_idx nd] a i bty s1 (Some (r, None, s1))).
  { intros r. eapply good_intro; [done|apply Post_refl]. }
  destruct (s_kind t) eqn:Hk; try done;
    try (apply Hstep; [intros ? ? ? [= _ <- <-]; split; [done|]; intros _; by apply Hsame|apply Hr1]).
  - apply Hstep; [|eapply (good_scalar env leaf alloc Henv Hunion bty i s nd); try done; by left].
    unfold load_scalar. intros ok giv s' Hs. destruct (leaf nd t).
    apply bind_Some in Hs as (s2 & Hs2 & [= _ <- <-]). split; [done|]. intros _. apply Hsame; [done|].
    destruct b0; [by apply put_ra in Hs2|by injection Hs2 as <-].
  - apply Hstep; [|eapply (good_scalar env leaf alloc Henv Hunion bty i s nd); try done; by right].
    unfold load_scalar. intros ok giv s' Hs. destruct (leaf nd t).
    apply bind_Some in Hs as (s2 & Hs2 & [= _ <- <-]). split; [done|]. intros _. apply Hsame; [done|].
    destruct b0; [by apply put_ra in Hs2|by injection Hs2 as <-].
  - destruct Hch as [->|]; [|done].
    apply Hstep; [|eapply (good_char_array env leaf alloc Henv Hunion bty i s nd); done].
    unfold load_char_array. intros ok giv s' Hs. apply bind_Some in Hs as (s2 & Hs2 & Hs).
    assert (E2 : ra s2 = ra s1).
    { destruct (0 <? s_size t); [by apply put_ra in Hs2|by injection Hs2 as <-]. }
    assert (Hget : forall x, get_char_array alloc nd a t None x s2 = Some (ok, giv, s') ->
              giv = None /\ (ok = true -> refs s')).
    { intros x H'. unfold get_char_array in H'. apply bind_Some in H' as (s3 & H3 & H').
      apply bind_Some in H' as (s4 & H4 & [= _ <- <-]). split; [done|]. intros _. apply Hsame; [done|].
      apply put_ra in H3. destruct (_ <? _) in H4; [apply put_ra in H4|injection H4 as <-]; congruence. }
    destruct (n_val nd) as [|x|[x|]|]; try (by injection Hs as <- <- _); by eapply Hget.
  - apply Hstep; [|eapply (good_string env leaf alloc Henv Hunion bty i s nd e); done].
    unfold load_string. intros ok giv s' Hs. apply bind_Some in Hs as (s2 & Hs2 & Hs).
    apply put_ra in Hs2.
    assert (He1 : ra s1 !! n_idx nd = Some (at_entry a t e)) by (cbn; by rewrite list_lookup_alter, He).
    assert (Hr0 : e_ref e = n_ref nd) by (eapply Href; [apply subtree_self|done]).
    assert (Hkeep : forall s', ra s' = ra s1 -> string_ref nd (n_ref nd) -> refs s').
    { intros s3 E3 Hsr e' He'. rewrite E3, He1 in He'. injection He' as <-. split; [|done]. cbn. by rewrite Hr0. }
    destruct (_ || _) eqn:Enul.
    { injection Hs as <- <- <-. split; [done|]. intros _. apply Hkeep; [done|].
      unfold string_ref. rewrite Enul. by destruct (n_val nd). }
    destruct (n_val nd) as [z|x|[x|]|] eqn:Ev.
    + injection Hs as <- <- <-. split; [done|]. intros _ e' He'. cbn [set_entry ra] in He'.
      rewrite list_lookup_alter, Hs2, He1 in He'. cbn in He'. injection He' as <-. split; [|done]. cbn. intros _.
      unfold string_ref. rewrite Ev, Enul. eexists. split; [done|]. apply int_ref_spec.
    + assert (Hsr : string_ref nd (n_ref nd)) by (unfold string_ref; by rewrite Ev).
      unfold calloc in Hs. destruct (alloc _); [|by injection Hs as <- <- _].
      apply bind_Some in Hs as (s3 & H3 & Hs). apply bind_Some in Hs as (s4 & H4 & [= _ <- <-]).
      split; [done|]. intros _. apply Hkeep; [|done]. apply put_ra in H3, H4. cbn [ra] in H3. congruence.
    + assert (Hsr : string_ref nd (n_ref nd)) by (unfold string_ref; by rewrite Ev).
      apply bind_Some in Hs as (s3 & H3 & Hs). apply bind_Some in Hs as (s4 & H4 & [= _ <- <-]).
      split; [done|]. intros _. apply Hkeep; [|done]. apply put_ra in H3, H4. cbn [ra] in H3. congruence.
    + assert (Hsr : string_ref nd (n_ref nd)) by (unfold string_ref; by rewrite Ev).
      apply bind_Some in Hs as (s3 & H3 & [= _ <- <-]).
      split; [done|]. intros _. apply Hkeep; [|done]. apply put_ra in H3. congruence.
    + by injection Hs as <- <- _.
Qed.

(** Entries of nodes elsewhere keep their values. *)
Lemma all_placed_post js a bty s bty' s' ms :
  Post js a bty s bty' s' -> all_placed (ra s) ms ->
  (forall m, m ∈ ms -> n_idx m ∉ js) -> all_placed (ra s') ms.
Proof.
  intros HP HA Hd m e b t Hm He Ha.
  rewrite (p_frame _ _ _ _ _ _ HP) in He by by apply Hd.
  destruct (HA m e b t Hm He Ha) as [Hk Hr]. split; [|done]. eapply kids_mono; [by eapply post_grows|done].
Qed.

Lemma all_placed_fresh r ms :
  (forall m, m ∈ ms -> exists e, r !! n_idx m = Some e /\ e_at e = None) -> all_placed r ms.
Proof. intros H m e b t Hm He Ha. destruct (H m Hm) as (e' & He' & Hn). congruence. Qed.

Lemma values_layout T d a ow m i :
  (s_kind T = Struct \/ s_kind T = NamedAnon) -> get_td env (s_td T) = Some d ->
  forall ks prev given s bty giv s',
    Forall load_layout ks -> Forall (noref s) ks ->
    Todo env leaf alloc ks ow i s -> Inv bty i s -> place bty a T ow -> blocks s !! a.1 = Some (Some m) ->
    (0 < length bty)%nat ->
    values (load env leaf alloc) (t_fields d) a ks prev given s = Some (true, giv, s') ->
    giv = None /\ fields_placed (ra s') (t_fields d) a prev given ks /\
    all_placed (ra s') (concat (map subtree ks)).
Proof.
  intros Hk Hd. induction ks as [|k ks IH]; intros prev given s bty giv s' HLL HNR HT HI Hp Hm Hpos; cbn [values].
  { intros [= <- <-]. split; [done|]. split; [constructor|]. intros x e b t Hx. by apply elem_of_nil in Hx. }
  inversion HLL as [|? ? HLk HLks]; subst.
  destruct (choose_field (t_fields d) _ prev) as [x|] eqn:E; [|done].
  destruct (choose_field_lookup _ _ _ _ E) as [g Hg]. rewrite Hg. cbn [mbind option_bind].
  destruct (Todo_head _ _ _ _ _ _ _ _ HT) as (HG & HF & HN & HL & HO & HP).
  assert (Hpl : place bty (shift a (f_off g)) (f_ty g) ow).
  { eapply place_sub; [done|]. rewrite <- (Z.add_0_r (f_off g)). eapply sub_field; [done..|constructor]. }
  destruct (HG (match given with Some _ => given | None => n_fd k end) (next_nameless ks)
              (shift a (f_off g)) g None s bty i ow m) as (ok & giv1 & s1 & bty1 & Erun & HI1 & HP1);
    [done..|by left|].
  rewrite Erun. cbn [mbind option_bind]. destruct ok; [|done]. intros Hrest.
  destruct (HLk (match given with Some _ => given | None => n_fd k end) (next_nameless ks)
              (shift a (f_off g)) g None s bty i ow m giv1 s1) as (Hacc & Hplk & Hgiv & Hall);
    [done..|by left|by inversion HNR|done|].
  assert (HNR1 : Forall (noref s1) ks) by (eapply noref_next; [apply HT|done|exact HP1]).
  assert (HT1 : Todo env leaf alloc ks ow i s1) by by eapply Todo_next.
  destruct (good_values env leaf alloc T d a ow m i Hk Hd ks (Some x) giv1 s1 bty1)
    as (ok2 & giv2 & s2 & bty2 & Erun2 & HI2 & HP2).
  { done. } { done. } { by eapply place_frame. } { by eapply live_frame. } { by eapply btylen_frame. }
  rewrite Hrest in Erun2. injection Erun2 as <- <- <-.
  destruct (IH (Some x) giv1 s1 bty1 giv s') as (Hg0 & Hf & Ha).
  { done. } { done. } { done. } { done. } { by eapply place_frame. } { by eapply live_frame. } { by eapply btylen_frame. } { done. }
  split; [done|]. split.
  - econstructor; [exact Hg| | |exact Hgiv|exact Hf].
    + by eapply choose_field_for.
    + eapply placed_mono; [by eapply post_grows|done].
  - cbn [map concat]. intros y e b t Hy He Hat. apply elem_of_app in Hy as [Hy|Hy]; [|by eapply Ha].
    eapply (all_placed_post _ _ _ _ _ _ _ HP2 Hall); try done.
    intros z Hz Hin. destruct HT as [_ Hnd _]. rewrite idxs_cons in Hnd. apply NoDup_app in Hnd as (_ & Hnd & _).
    eapply Hnd; [|exact Hin]. by apply elem_of_list_fmap_1.
Qed.

Lemma elements_layout T c f a ow m i :
  s_kind T = Array -> s_dims T !! 0%nat = Some c -> f_ty f = T ->
  forall ks x given s bty giv s', 0 <= x ->
    Forall load_layout ks -> Forall (noref s) ks ->
    Todo env leaf alloc ks ow i s -> Inv bty i s -> place bty a T ow -> blocks s !! a.1 = Some (Some m) ->
    (0 < length bty)%nat -> x <= c ->
    elements (load env leaf alloc) c (elem_fd env f c) a ks x given s = Some (true, giv, s') ->
    giv = None /\ x + Z.of_nat (length ks) <= c /\
    (forall j k, ks !! j = Some k ->
       placed (ra s') k (shift a ((x + Z.of_nat j) * s_size (elem_ty env T c))) (elem_ty env T c)) /\
    all_placed (ra s') (concat (map subtree ks)).
Proof.
  intros Hk Hd Hf. induction ks as [|k ks IH]; intros x given s bty giv s' Hx HLL HNR HT HI Hp Hm Hpos Hxc; cbn [elements].
  { intros [= <- <-]. split; [done|]. split; [cbn; lia|]. split; [intros j k Hj; by rewrite lookup_nil in Hj|].
    intros y e b t Hy. by apply elem_of_nil in Hy. }
  inversion HLL as [|? ? HLk HLks]; subst.
  destruct (Z.leb_spec c x); [done|].
  destruct (Todo_head _ _ _ _ _ _ _ _ HT) as (HG & HF & HN & HL & HO & HP).
  set (g := elem_fd env f c).
  assert (Eg : f_ty g = elem_ty env (f_ty f) c) by done.
  assert (Hpl : place bty (shift a (x * s_size (f_ty g))) (f_ty g) ow).
  { eapply place_sub; [done|]. rewrite <- (Z.add_0_r (x * _)). rewrite Eg.
    eapply sub_elem; [done|done|lia|constructor]. }
  destruct (HG (match given with Some _ => given | None => n_fd k end) (next_nameless ks)
              (shift a (x * s_size (f_ty g))) g None s bty i ow m) as (ok & giv1 & s1 & bty1 & Erun & HI1 & HP1);
    [done..|by left|].
  rewrite Erun. cbn [mbind option_bind]. destruct ok; [|done]. intros Hrest.
  destruct (HLk (match given with Some _ => given | None => n_fd k end) (next_nameless ks)
              (shift a (x * s_size (f_ty g))) g None s bty i ow m giv1 s1) as (Hacc & Hplk & Hgiv & Hall);
    [done..|by left|by inversion HNR|done|].
  assert (HNR1 : Forall (noref s1) ks) by (eapply noref_next; [apply HT|done|exact HP1]).
  assert (HT1 : Todo env leaf alloc ks ow i s1) by by eapply Todo_next.
  destruct (good_elements env leaf alloc (f_ty f) c f a ow m i Hk Hd eq_refl ks (x + 1) giv1 s1 bty1)
    as (ok2 & giv2 & s2 & bty2 & Erun2 & HI2 & HP2).
  { lia. } { done. } { done. } { by eapply place_frame. } { by eapply live_frame. } { by eapply btylen_frame. }
  change (elem_fd env f c) with g in Erun2. rewrite Hrest in Erun2. injection Erun2 as <- <- <-.
  destruct (IH (x + 1) giv1 s1 bty1 giv s') as (Hg0 & Hl & Hks & Ha).
  { lia. } { done. } { done. } { done. } { done. } { by eapply place_frame. } { by eapply live_frame. }
  { by eapply btylen_frame. } { lia. } { done. }
  split; [done|]. split; [cbn [length]; lia|]. split.
  - intros [|j] k' Hj.
    + cbn in Hj. injection Hj as <-. rewrite Z.add_0_r, <- Eg. eapply placed_mono; [by eapply post_grows|done].
    + cbn in Hj. replace (x + Z.of_nat (S j)) with (x + 1 + Z.of_nat j) by lia. by apply Hks.
  - cbn [map concat]. intros y e b t Hy He Hat. apply elem_of_app in Hy as [Hy|Hy]; [|by eapply Ha].
    eapply (all_placed_post _ _ _ _ _ _ _ HP2 Hall); try done.
    intros z Hz Hin. destruct HT as [_ Hnd _]. rewrite idxs_cons in Hnd. apply NoDup_app in Hnd as (_ & Hnd & _).
    eapply Hnd; [|exact Hin]. by apply elem_of_list_fmap_1.
Qed.

Theorem load_is_placed : forall nd, load_layout nd.
Proof.
  apply node_ind2. intros nd IH nfd nf a f par s bty i ow m giv s' HI HF HN HL Hpl How Hm Hpos Hpar Hch Href Hrun.
  set (t := f_ty f) in *.
  assert (Hleaf : s_kind t <> Struct -> s_kind t <> NamedAnon -> s_kind t <> Array ->
    accepts f nd nfd = true /\ placed (ra s') nd a t /\ (s_kind t <> NamedAnon -> giv = None) /\ all_placed (ra s') (subtree nd)).
  { intros K1 K2 K3.
    destruct (load_leaf nd nfd nf a f par s bty i ow m) as (ok & giv' & s1 & bty1 & Erun & HI1 & HP1 & Hok); try done.
    rewrite Hrun in Erun. injection Erun as <- <- <-. destruct (Hok eq_refl) as (H1 & H2 & H3 & H4).
    split; [done|]. split; [done|]. split; [done|].
    intros x e b t' Hx He Ha. rewrite subtree_unfold in Hx. apply elem_of_cons in Hx as [->|Hx].
    - destruct H2 as (e' & He' & Ha'). rewrite He in He'. injection He' as <-. rewrite Ha in Ha'. injection Ha' as -> ->.
      split; [unfold kids_placed; fold t; by destruct (s_kind t)|by apply H4].
    - exfalso. assert (Hne : n_idx x ∉ [n_idx nd]).
      { intros Hin. apply elem_of_list_singleton in Hin. rewrite idxs_sub in HN.
        apply NoDup_cons in HN as [Hnot _]. apply Hnot. rewrite <- Hin. by apply elem_of_list_fmap_1. }
      rewrite (p_frame _ _ _ _ _ _ HP1) in He by done.
      destruct (HF x) as (e' & He' & _ & Hn'); [rewrite subtree_unfold; by constructor|]. congruence. }
  destruct (HF nd (subtree_self nd)) as (e & He & Hnode & Hnone).
  destruct (HL nd (subtree_self nd)) as [Hidx Hkids].
  assert (Hlen : (n_idx nd < length (ra s))%nat) by by eapply lookup_lt_Some.
  destruct nd as [idx par' id nfd' typed null ref val kids].
  set (nd := Node idx par' id nfd' typed null ref val kids) in *.
  unfold nd in Hrun. cbn [load] in Hrun. fold nd in Hrun. clearbody nd.
  destruct (Nat.ltb_spec 0 (n_idx nd)); [|lia].
  destruct (Nat.ltb_spec (n_idx nd) (length (ra s))); [|lia]. cbn [andb negb] in Hrun.
  destruct (accepts f nd nfd) eqn:Eacc; cbn [negb] in Hrun; [|done].
  fold t in Hrun.
  change (set_entry s (n_idx nd) _) with (set_entry s (n_idx nd) (at_entry a t)) in Hrun.
  set (s1 := set_entry s (n_idx nd) (at_entry a t)) in *.
  assert (HI1 : Inv bty i s1).
  { eapply inv_at; [exact HI|done|done|done|done|]. rewrite Hnode. exact Hpar. }
  assert (Hpl1 : placed (ra s1) nd a t).
  { exists (at_entry a t e). split; [|done]. cbn. by rewrite list_lookup_alter, He. }
  assert (HNk : NoDup (idxs (n_kids nd)) /\ n_idx nd ∉ idxs (n_kids nd)).
  { rewrite idxs_sub in HN. by apply NoDup_cons in HN as [? HN]. }
  assert (HFk : forall x, x ∈ concat (map subtree (n_kids nd)) ->
            exists e, ra s1 !! n_idx x = Some e /\ e_node e = x /\ e_at e = None).
  { intros x Hx. destruct (HF x) as (ex & Hex & Hn1 & Hn2); [rewrite subtree_unfold; by constructor|].
    exists ex. split; [|done]. cbn. rewrite list_lookup_alter_ne; [done|].
    intros E. destruct HNk as [_ Hnot]. apply Hnot. rewrite E. by apply elem_of_list_fmap_1. }
  assert (HT : s_kind t <> Pointer -> Todo env leaf alloc (n_kids nd) ow i s1).
  { intros Hkp. split.
    - apply Forall_forall. intros k _. by apply load_is_good.
    - apply HNk.
    - intros k Hk. destruct (Hkids k Hk) as [Hp1 Hp2].
      split; [|split; [|split]].
      + intros x Hx. apply HFk. apply elem_of_concat_map. by exists k.
      + by eapply links_kid.
      + lia.
      + right. rewrite Hp1. split; [lia|]. exists (at_entry a t e).
        split; [cbn; by rewrite list_lookup_alter, He|]. split; [done|].
        unfold loaded_as. cbn. intros HH. destruct (s_kind t); done. }
  assert (HNRk : Forall (noref s1) (n_kids nd)).
  { apply Forall_forall. intros k Hk x ex Hx Hex. cbn [s1 set_entry ra] in Hex.
    rewrite list_lookup_alter_ne in Hex.
    - eapply Href; [|done]. by eapply subtree_kid.
    - intros E. destruct HNk as [_ Hnot]. apply Hnot. rewrite E. apply elem_of_list_fmap_1.
      apply elem_of_concat_map. by exists k. }
  (* the entry of [nd] after the values *)
  assert (Hfin : forall bty' js, Post js a bty s1 bty' s' -> placed (ra s') nd a t).
  { intros bty' js HP. eapply placed_mono; [by eapply post_grows|done]. }
  assert (Hput : forall bty' js, Post js a bty s1 bty' s' -> n_idx nd ∉ js -> s_kind t <> Str -> kids_placed env (ra s') nd a t ->
            all_placed (ra s') (concat (map subtree (n_kids nd))) -> all_placed (ra s') (subtree nd)).
  { intros bty' js HP Hjs Hks Hk Ha x e' b t' Hx He' Ha'. rewrite subtree_unfold in Hx.
    apply elem_of_cons in Hx as [->|Hx]; [|by eapply Ha].
    destruct (Hfin _ _ HP) as (e2 & He2 & Ha2). rewrite He' in He2. injection He2 as <-.
    rewrite Ha' in Ha2. injection Ha2 as -> ->. split; [done|].
    rewrite (p_frame _ _ _ _ _ _ HP) in He' by done.
    cbn [s1 set_entry ra] in He'. rewrite list_lookup_alter, He in He'. cbn in He'. injection He' as <-.
    split; [done|]. intros _. cbn. by eapply Href; [apply subtree_self|]. }
  assert (Hstruct : s_kind t = Struct \/ s_kind t = NamedAnon ->
    match get_td env (s_td t) with
      | Some d => values (load env leaf alloc) (t_fields d) a (n_kids nd) None None s1
      | None => Some (false, None, s1)
      end = Some (true, giv, s') ->
    placed (ra s') nd a t /\ giv = None /\ all_placed (ra s') (subtree nd)).
  { intros Hk Hv. destruct (get_td env (s_td t)) as [d|] eqn:ET; [|done].
    assert (HTk : Todo env leaf alloc (n_kids nd) ow i s1) by (apply HT; destruct Hk as [-> | ->]; done).
    destruct (good_values env leaf alloc t d a ow m i Hk ET (n_kids nd) None None s1 bty)
      as (ok2 & giv2 & s2 & bty2 & Erun2 & HI2 & HP2); [done..|].
    rewrite Hv in Erun2. injection Erun2 as <- <- <-.
    destruct (values_layout t d a ow m i Hk ET (n_kids nd) None None s1 bty giv s') as (H1 & H2 & H3); [done..|].
    split; [by eapply Hfin|]. split; [done|]. eapply Hput; [exact HP2|apply HNk|by destruct Hk as [-> | ->]| |done].
    unfold kids_placed. destruct Hk as [-> | ->]; [|right]; by exists d. }
  destruct (s_kind t) eqn:Hk; try (by apply Hleaf).
  - destruct (Hstruct (or_introl eq_refl) Hrun) as (H1 & H2 & H3). done.
  - destruct (_ && _ && nf) eqn:Eh.
    + injection Hrun as <- <-. split; [done|]. split; [done|]. split; [done|].
      eapply Hput; [apply (Post_refl [])|by intros ?%elem_of_nil|done| |].
      * unfold kids_placed. rewrite Hk. left. apply andb_prop in Eh as [Eh _]. apply andb_prop in Eh as [Eh _].
        by destruct (n_kids nd).
      * apply all_placed_fresh. intros x Hx. destruct (HFk x Hx) as (ex & ? & _ & ?). by exists ex.
    + destruct (Hstruct (or_intror eq_refl) Hrun) as (H1 & H2 & H3). done.
  - pose proof (place_type env Henv _ _ _ _ (i_ty _ _ _ _ HI) Hpl) as [Hsz0 Hok].
    rewrite Hk in Hok. destruct Hok as (esz & Hd & Hdims & _).
    destruct (s_dims t) as [|c ds] eqn:ED; [done|]. cbn [lookup list_lookup mbind option_bind] in Hrun.
    pose proof (Forall_inv Hdims) as Hc0.
    destruct (Z.eqb_spec c 0) as [->|Hc].
    + injection Hrun as Hnil <- <-. destruct (n_kids nd) eqn:Ek; [|done].
      split; [done|]. split; [done|]. split; [done|].
      eapply Hput; [apply (Post_refl [])|by intros ?%elem_of_nil|done| |].
      * unfold kids_placed. rewrite Hk, Ek, ED. exists 0. split; [done|]. split; [done|].
        intros j k Hj. by rewrite lookup_nil in Hj.
      * intros x ex b t' Hx. by apply elem_of_nil in Hx.
    + destruct (Z.eqb_spec (s_size t) 0); [done|].
      assert (HTk : Todo env leaf alloc (n_kids nd) ow i s1) by by apply HT.
      assert (ED0 : s_dims t !! 0%nat = Some c) by by rewrite ED.
      destruct (good_elements env leaf alloc t c f a ow m i Hk ED0 eq_refl (n_kids nd) 0 None s1 bty)
        as (ok2 & giv2 & s2 & bty2 & Erun2 & HI2 & HP2); [done..|].
      rewrite Hrun in Erun2. injection Erun2 as <- <- <-.
      destruct (elements_layout t c f a ow m i Hk ED0 eq_refl (n_kids nd) 0 None s1 bty giv s') as (H1 & H2 & H3 & H4);
        [done..|].
      split; [done|]. split; [by eapply Hfin|]. split; [done|]. eapply Hput; [exact HP2|apply HNk|done| |done].
      unfold kids_placed. rewrite Hk. exists c. split; [done|]. split; [lia|].
      intros j k Hj. specialize (H3 j k Hj). by rewrite Z.add_0_l in H3.
Qed.
End env.
