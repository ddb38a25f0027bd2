(** Saving to a document of libxml2 and loading it. *)
From stdpp Require Import sets.
From Verif Require Import Base Ptrs NumStr NumStrProof Enum DfsProof PruneProof Parse ParseProof Json JsonSpec Cinit Xml XmlSpec Xml2 Xml2Parse Xml2Spec Xml2Explain Xml2Save.
Local Open Scope Z_scope.

(** ** Loading *)
Lemma xml2_loaded known x :
  match xml2_load_doc known x with
  | Some (p, inf) => is_elem x = true /\ Forall (elem_ok known) (elems x) /\
      length (ra p) = S (length (elems x)) /\ length inf = S (length (elems x)) /\
      (exists t, tree_at (ra p) 0 0 t /\ nodes t = seq 1 (length (elems x)) /\ mirrors t x) /\
      forall k e, elems x !! k = Some e -> exists m r, ra p !! S k = Some m /\ inf !! S k = Some r /\ elem_read e m r
  | None => ~ (is_elem x = true /\ Forall (elem_ok known) (elems x))
  end.
Proof.
  pose proof (wdoc_explained known x) as W. destruct (wdoc known x) as [d|] eqn:E.
  - destruct (load_some known x d E) as (c & ->). destruct W as (W1 & W2 & W3 & W4 & W5). cbn [ra].
    assert (dsize d = length (elems x)) as Ds by (apply Forall2_length in W3; by rewrite dinfos_length in W3).
    do 2 (split; [done|]). split; [cbn [length]; by rewrite table_length, Ds|]. split; [cbn [length]; by rewrite dinfos_length, Ds|]. split.
    + exists (number_doc 1 d). split; [|split; [|done]].
      * pose proof (table_tree wfin d [fresh_node] 0 0 [] W4 ltac:(done)) as Tt. by rewrite app_nil_r in Tt.
      * by rewrite number_nodes, Ds.
    + intros k e Ek. destruct (Forall2_lookup_l _ _ _ _ _ W3 Ek) as (a & Ea & Ra).
      destruct (wtable_pay d 0 1 0 k a Ea) as (p & nx & fc & Et). exists (wfin a (1 + k)%nat (blank p nx fc)), (winf a).
      split; [exact Et|]. split; [|by apply (wrel_read known)].
      change (dinfos winf d !! k = Some (winf a)). rewrite winfos_pay. change (map winf (dinfos id d)) with (winf <$> dinfos id d). rewrite list_lookup_fmap, Ea. done.
  - rewrite (load_none known x E). intros [H1 H2]. by apply (W H1).
Qed.

(** ** Shapes *)
Scheme mirrors_mut := Minimality for mirrors Sort Prop with mirror_kids_mut := Minimality for mirror_kids Sort Prop.

Lemma mirrors_elems t x : mirrors t x -> length (nodes t) = length (elems x).
Proof.
  revert t x. apply (mirrors_mut (fun t x => length (nodes t) = length (elems x)) (fun ts ks => length (concat (map nodes ts)) = length (concat (map elems ks)))); cbn [nodes elems map concat length]; intros; rewrite ?app_length in *; cbn; lia.
Qed.
Lemma mirrors_same t x : mirrors t x -> forall t' f, mirrors t' x -> (forall k i, nodes t !! k = Some i -> nodes t' !! k = Some (f i)) -> t' = rename f t.
Proof.
  revert t x. apply (mirrors_mut (fun t x => forall t' f, mirrors t' x -> (forall k i, nodes t !! k = Some i -> nodes t' !! k = Some (f i)) -> t' = rename f t)
    (fun ts ks => forall ts' f, mirror_kids ts' ks -> (forall k i, concat (map nodes ts) !! k = Some i -> concat (map nodes ts') !! k = Some (f i)) -> ts' = map (rename f) ts)).
  - intros i ts j nm ps ks _ IH t' f M H. inversion M; subst. cbn [rename]. f_equal.
    + specialize (H 0%nat i eq_refl). cbn in H. by injection H.
    + apply IH; [done|]. intros k y E. exact (H (S k) y E).
  - intros ts' f M _. by inversion M.
  - intros ts b c ks _ IH ts' f M H. inversion M as [|? ? ? ? M'|? ? ? ? M1]; subst; [by apply IH|]. inversion M1.
  - intros t ts x ks M0 IH0 _ IH ts' f M H. inversion M as [|? ? ? ? M'|t' ts2 ? ? M1 M2]; subst; [inversion M0|].
    assert (length (nodes t) = length (nodes t')) as L by (by rewrite (mirrors_elems _ _ M0), (mirrors_elems _ _ M1)).
    cbn [map concat] in *. f_equal.
    + apply IH0; [done|]. intros k y E. pose proof (lookup_lt_Some _ _ _ E) as Lk. specialize (H k y). rewrite !lookup_app_l in H by lia. auto.
    + apply IH; [done|]. intros k y E. specialize (H (length (nodes t) + k)%nat y). rewrite !lookup_app_r in H by lia. rewrite L in H.
      replace (length (nodes t') + k - length (nodes t'))%nat with k in H by lia. auto.
Qed.

(** ** Formatting *)
Scheme formatted_mut := Minimality for formatted Sort Prop with formatted_kids_mut := Minimality for formatted_kids Sort Prop.

Lemma leaf_elems ks : Forall (fun k => is_elem k = false) ks -> concat (map elems ks) = [].
Proof. induction 1 as [|k ks H _ IH]; [done|]. destruct k; [done|]. cbn. exact IH. Qed.

Definition same_elem (e e' : xdoc) : Prop :=
  exists i j nm ps ks ks', e = XE i nm ps ks /\ e' = XE j nm ps ks' /\
    ((Forall (fun k => is_elem k = false) ks /\ ks' = ks) \/ (Forall (fun k => k = XLeaf false (Some [])) ks /\ ks' = []) \/
     (ks <> [] /\ Forall (fun k => is_elem k = true) ks /\ Forall (fun k => is_elem k = true \/ layout k) ks')).
Lemma formatted_elems x x' : formatted x x' -> Forall2 same_elem (elems x) (elems x').
Proof.
  revert x x'. apply (formatted_mut (fun x x' => Forall2 same_elem (elems x) (elems x')) (fun ks ks' => Forall2 same_elem (concat (map elems ks)) (concat (map elems ks')))).
  - intros i j nm ps ks F. cbn [elems]. rewrite leaf_elems by done. constructor; [|constructor]. exists i, j, nm, ps, ks, ks. do 2 (split; [done|]). by left.
  - intros i j nm ps ks F. cbn [elems map concat]. rewrite leaf_elems by (eapply Forall_impl; [exact F|]; by intros ? ->). constructor; [|constructor].
    exists i, j, nm, ps, ks, []. do 2 (split; [done|]). right; by left.
  - intros i j nm ps ks ks' Ne F K IH. cbn [elems]. constructor; [|done]. exists i, j, nm, ps, ks, ks'. do 2 (split; [done|]). right; right. split; [done|]. split; [done|].
    clear Ne IH. induction K as [|w ks ks' L K IH|x x' ks ks' Fx K IH]; [constructor|constructor; [by right|auto]|]. apply Forall_cons in F as [_ F]. constructor; [|auto].
    left. by destruct Fx.
  - constructor.
  - intros w ks ks' (t & -> & _) _ IH. exact IH.
  - intros x x' ks ks' _ H _ IH. cbn [map concat]. by apply Forall2_app.
Qed.
Lemma formatted_mirrors x x' : formatted x x' -> forall t, mirrors t x -> mirrors t x'.
Proof.
  revert x x'. apply (formatted_mut (fun x x' => forall t, mirrors t x -> mirrors t x') (fun ks ks' => forall ts, mirror_kids ts ks -> mirror_kids ts ks')).
  - intros i j nm ps ks _ t M. inversion M; subst. by constructor.
  - intros i j nm ps ks F t M. inversion M as [? ts ? ? ? ? Mk]; subst. constructor. clear M. induction Mk as [|ts b c ks _ IH|t ts x ks Mt]; [constructor| |].
    + apply Forall_cons in F as [_ F]. auto.
    + apply Forall_cons in F as [-> _]. inversion Mt.
  - intros i j nm ps ks ks' _ _ _ IH t M. inversion M; subst. constructor. auto.
  - done.
  - intros w ks ks' (s & -> & _) _ IH ts M. constructor. auto.
  - intros x x' ks ks' Fx IHx _ IH ts M. inversion M as [|? ? ? ? M'|? ? ? ? M1 M2]; subst; [inversion Fx|]. constructor; auto.
Qed.
Lemma formatted_elem x x' : formatted x x' -> is_elem x' = true.
Proof. by destruct 1. Qed.

Section Read.
  Context (known : list Z -> bool) (ns : list node) (js : list xinfo).

  Lemma first_leaf ks c : Forall (fun x => forall b' c', x <> XLeaf b' (Some c')) ks -> first_content ks c -> c = [].
  Proof.
    intros F [(a & b & k & -> & _)|[-> _]]; [|done]. apply Forall_app in F as [_ F]. apply Forall_cons in F as [F _]. by destruct (F b c).
  Qed.
  Lemma first_single b s c : first_content [XLeaf b (Some s)] c -> c = s.
  Proof.
    intros [(a & b' & k & E & F)|[_ F]].
    - destruct a as [|y a]; [by injection E as _ -> _|]. injection E as <- _. apply Forall_cons in F as [F _]. by destruct (F b s).
    - apply Forall_cons in F as [F _]. by destruct (F b s).
  Qed.
  Lemma first_layout ks c : Forall (fun k => is_elem k = true \/ layout k) ks -> first_content ks c -> Forall (fun c => c = 10 \/ c = 32) c.
  Proof.
    intros F [(a & b & k & -> & _)|[-> _]]; [|constructor]. apply Forall_app in F as [_ F]. apply Forall_cons in F as [[F|(w & E & Fw)] _]; [done|]. injection E as -> ->. done.
  Qed.

  Lemma row_ok i e e' : srow known ns js i e -> same_elem e e' -> elem_ok known e'.
  Proof.
    intros (n & d & ps & txt & xs & -> & En & Ed & K & G1 & G2 & G3 & Fx & Ht & B) (i' & j & nm & qs & ks & ks' & [= <- <- <- <-] & -> & D). cbn [elem_ok].
    split; [done|]. split.
    - intros a v Ha Hp. apply get_prop_some in Hp. destruct Ha as [->|[->| ->]].
      + destruct (referenced n); [|congruence]. destruct G3 as (v' & E1 & E2). rewrite Hp in E1. injection E1 as <-. apply prop_value_number in E2. by eexists.
      + destruct (is_ref n); [|destruct G2; congruence]. destruct G2 as (g & v' & _ & E2 & E3 & _). destruct (x_cref d); [congruence|]. rewrite Hp in E3. injection E3 as <-. apply prop_value_number in E2. by eexists.
      + destruct (is_ref n); [|destruct G2; congruence]. destruct G2 as (g & v' & _ & E2 & _ & E3). destruct (x_cref d); [|congruence]. rewrite Hp in E3. injection E3 as <-. apply prop_value_number in E2. by eexists.
    - intros a v Ha Hp. apply get_prop_some in Hp. assert (is_ref n = true) as R by (destruct (is_ref n); [done|]; destruct Ha as [->| ->], G2; congruence).
      rewrite R, orb_true_r in B. destruct B as [-> ->]. cbn [app] in D. destruct D as [[_ ->]|[[_ ->]|[D _]]]; [constructor|constructor|done].
  Qed.
  Lemma row_read i e e' m r : srow known ns js i e -> same_elem e e' -> elem_read e' m r -> exists n d, ns !! i = Some n /\ js !! i = Some d /\ wnode_read ns n d m r.
  Proof.
    intros (n & d & ps & txt & xs & -> & En & Ed & K & G1 & G2 & G3 & Fx & Ht & B) (i' & j & nm & qs & ks & ks' & [= <- <- <- <-] & -> & D) R.
    exists n, d. split; [done|]. split; [done|]. cbn [elem_read] in R. destruct R as (R1 & R2 & R3 & R4 & R5 & R6 & R7 & R8 & R9 & R10).
    assert (forall a v, get_prop ps a = Some v -> has_prop ps a v) as Hp by (intros a v; apply get_prop_some).
    assert (forall a, get_prop ps a = None -> forall v, ~ has_prop ps a v) as Hn by (intros a; apply get_prop_none).
    assert (forall v a b, has_number v a -> prop_value v = Some b -> a = b) as Hu by (intros v a b N E; apply prop_value_number in N; congruence).
    assert (forall b c : bool, (b = true <-> c = true) -> b = c) as Bb by (intros [|] [|]; intuition congruence).
    assert (w_cref r = is_ref n && x_cref d) as Ec.
    { apply Bb. rewrite R4. destruct (is_ref n); cbn [andb].
      - destruct G2 as (g & v & _ & _ & _ & E). destruct (x_cref d); [split; [done|]; intros _; exists v; by apply Hp|]. split; [intros [w H]; by destruct (Hn _ E w)|done].
      - destruct G2 as [_ E]. split; [intros [w H]; by destruct (Hn _ E w)|done]. }
    split; [done|]. split; [done|]. split; [|split; [|split; [|split; [|split]]]].
    - apply Bb. rewrite R3. destruct (x_null d); [split; [done|]; intros _; eexists; by apply Hp|]. split; [intros [w H]; by destruct (Hn _ G1 w)|done].
    - apply Bb. rewrite R5. destruct (is_ref n).
      + split; [done|]. intros _. destruct G2 as (g & v & _ & _ & E1 & E2). exists v. destruct (x_cref d); [right|left]; by apply Hp.
      + destruct G2 as [E1 E2]. split; [|done]. intros [w [H|H]]; [by destruct (Hn _ E1 w)|by destruct (Hn _ E2 w)].
    - apply Bb. rewrite R8. destruct (referenced n).
      + destruct G3 as (v & E & _). split; [done|]. intros _. exists v. by apply Hp.
      + split; [intros [w H]; by destruct (Hn _ G3 w)|done].
    - destruct (referenced n).
      + destruct G3 as (v & E & Ev). eapply Hu; [|exact Ev]. apply R9. by apply Hp.
      + apply R10. by apply Hn.
    - intros Rn. rewrite Rn in *. destruct G2 as (g & v & Eg & Ev & E1 & E2). exists g. split; [done|]. eapply Hu; [|exact Ev]. cbn [andb] in Ec.
      destruct (x_cref d); [apply R6; by apply Hp|apply R7; [by apply Hp|done]].
    - destruct (x_null d || is_ref n).
      + destruct B as [-> ->]. cbn [app] in D. eapply first_leaf; [|exact R2]. destruct D as [[_ ->]|[[_ ->]|[D _]]]; [constructor|constructor|done].
      + destruct (Nat.eqb (first_child n) 0); cbn [negb].
        * destruct B as [-> Sy]. rewrite app_nil_r in D. destruct Ht as [->|[s ->]]; cbn [leaf_text] in Sy.
          -- assert (w_text r = []) as ->; [|done]. eapply first_leaf; [|exact R2]. destruct D as [[_ ->]|[[_ ->]|[D _]]]; [constructor|constructor|done].
          -- destruct D as [[_ ->]|[[D ->]|[_ [D _]]]].
             ++ apply first_single in R2. by rewrite R2.
             ++ apply Forall_cons in D as [D _]. injection D as ->. apply first_leaf in R2; [|constructor]. by rewrite R2.
             ++ apply Forall_cons in D as [D _]. done.
        * destruct B as (-> & Ne & Ek). cbn [app] in D. rewrite Ek. cbn [says]. destruct D as [[D _]|[[D _]|(_ & _ & D)]].
          -- destruct xs as [|x xs]; [done|]. apply Forall_cons in D as [D _]. apply Forall_cons in Fx as [Fx _]. congruence.
          -- destruct xs as [|x xs]; [done|]. apply Forall_cons in D as [-> _]. apply Forall_cons in Fx as [Fx _]. done.
          -- by eapply first_layout.
  Qed.
End Read.

(** ** Saving *)
Section Both.
  Context (known : list Z -> bool) (isprint : Z -> bool) (wrapv : bool) (buf : list Z) (ns : list node) (js : list xinfo).

  Lemma xml2_roundtrip t : length buf = print_buffer -> isprint 0 = false ->
    tree_at ns 0 0 t -> root t = 1%nat -> NoDup (nodes t) -> numbered ns t -> Z.of_nat (length (nodes t)) < 2 ^ 32 ->
    (forall i, i ∈ nodes t -> wnode_ok known isprint wrapv ns js t i) ->
    exists x, (exists fuel, forall fuel', (fuel <= fuel')%nat -> xml2_save isprint wrapv buf js fuel' ns = Some x) /\
      mirrors t x /\
      forall x', formatted x x' -> exists p inf, xml2_load_doc known x' = Some (p, inf) /\
        length (ra p) = S (length (nodes t)) /\ length inf = S (length (nodes t)) /\
        tree_at (ra p) 0 0 (rename (public ns) t) /\
        forall i, i ∈ nodes t -> exists n d m r, ns !! i = Some n /\ js !! i = Some d /\
          ra p !! pub_idx n = Some m /\ inf !! pub_idx n = Some r /\ wnode_read ns n d m r.
  Proof.
    intros Hb Hp A R1 Nd Num Sz Ok.
    assert (forall i, i ∈ nodes t -> exists m, ns !! i = Some m) as Hin by (intros i I; destruct (Ok i I) as (m & _ & E & _); by exists m).
    assert (forall i m, i ∈ nodes t -> ns !! i = Some m -> Z.of_nat (pub_idx m) < 2 ^ 32) as Hpub.
    { intros i m I E. apply elem_of_list_lookup in I as [k I]. rewrite (Num k i m I E). apply lookup_lt_Some in I. lia. }
    destruct (wtree_ok known isprint wrapv buf ns js Hb Hp t Hpub Hin t 0 0 A Nd ltac:(auto)) as (x & X1 & X2 & X3 & X4 & X5).
    exists x. split.
    { destruct t as [i ks]. cbn [root] in R1. subst i.
      destruct (dfs_tree (xml2_save_node isprint wrapv buf js)) with (start := 1%nat) (ns0 := ns) (i := 1%nat) (ks := ks) (par := 0%nat) (nxt := 0%nat) (c := [] : list xdoc) as [fuel Fu]; [|done|done|done|by right|].
      - intros ns0 c i l o b ns' c' E. unfold xml2_save_node in E. destruct o.
        + destruct (xml2_pre isprint wrapv buf js ns0 c i); [|done]. cbn in E. by injection E as _ <- _.
        + by injection E as _ <- _.
      - exists fuel. intros fuel' L. unfold xml2_save. rewrite Fu by done. rewrite X5 by (intros; apply not_elem_of_nil). cbn.
        destruct x as [j nm ps xs|]; [|done]. cbn [ids nodes] in X2. injection X2 as -> _. done. }
    split; [done|]. intros x' Fx. pose proof (formatted_elems x x' Fx) as Fe. pose proof (formatted_mirrors x x' Fx t X3) as Mx.
    pose proof (xml2_loaded known x') as L.
    assert (length (elems x') = length (nodes t)) as Le by (symmetry; by apply mirrors_elems).
    destruct (xml2_load_doc known x') as [[p inf]|].
    2: { exfalso. apply L. split; [by eapply formatted_elem|]. apply Forall_forall. intros e' He'. apply elem_of_list_lookup in He' as [k Ek].
         destruct (Forall2_lookup_r _ _ _ _ _ Fe Ek) as (e & Ee & Se). destruct (Forall2_lookup_r _ _ _ _ _ X1 Ee) as (i & _ & Ri). by eapply row_ok. }
    destruct L as (_ & _ & L1 & L2 & (t' & T1 & T2 & T3) & L3). exists p, inf. split; [done|]. rewrite Le in *. split; [done|]. split; [done|]. split.
    - assert (t' = rename (public ns) t) as <-; [|done]. eapply mirrors_same; [exact Mx|exact T3|]. intros k i E. rewrite T2.
      destruct (Hin i) as [m Em]; [by eapply elem_of_list_lookup_2|]. unfold public. rewrite Em, (Num k i m E Em).
      apply lookup_seq. split; [lia|]. apply lookup_lt_Some in E. lia.
    - intros i I. apply elem_of_list_lookup in I as [k Ek]. destruct (Forall2_lookup_l _ _ _ _ _ X1 Ek) as (e & Ee & Re). destruct (Forall2_lookup_l _ _ _ _ _ Fe Ee) as (e' & Ee' & Se).
      destruct (L3 k e' Ee') as (m & r & Em & Er & Rr). destruct (row_read _ _ _ _ _ _ _ _ Re Se Rr) as (n & d & En & Ed & W). exists n, d, m, r. rewrite (Num k i n Ek En). done.
  Qed.
End Both.
