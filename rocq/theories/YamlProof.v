(** Documents, events and tables: what P_Yaml.v needs. *)
From stdpp Require Import sets.
From Verif Require Import Base Ptrs NumStr NumStrProof Enum Parse ParseProof DfsProof PruneProof Json LexProof JsonLex JsonSpec JsonSave Cinit Xml Yaml YamlSpec YamlParse YamlSave YamlMissed.

Lemma infos_pay (d : ydoc) : dinfos yinf d = map yinf (dinfos id d).
Proof.
  induction d as [a ks IH] using doc_ind'. cbn [dinfos map id]. f_equal.
  induction IH as [|t ts Ht _ IH]; [done|]. cbn [map concat]. by rewrite map_app, Ht, IH.
Qed.
Lemma table_pay (d : ydoc) : forall p k nx j n, table yfin p k nx d !! j = Some n -> exists a p' nx' fc', dinfos id d !! j = Some a /\ n = yfin a (k + j) (blank p' nx' fc').
Proof.
  induction d as [a ks IH] using doc_ind'. intros p k nx j n. rewrite table_eq. cbn [dinfos id]. destruct j as [|j]; cbn [lookup].
  - cbn. intros [= <-]. rewrite Nat.add_0_r. by eexists a, _, _, _.
  - cbn. replace (k + S j) with (S k + j) by lia. generalize (S k) as m. intros m. revert m j.
    induction IH as [|t ts Ht _ IH]; intros m j; [done|]. cbn [tables map concat].
    intros E. destruct (decide (j < dsize t)).
    + rewrite lookup_app_l in E by (by rewrite table_length). destruct (Ht _ _ _ _ _ E) as (a' & p' & nx' & fc' & Ea & ->).
      exists a', p', nx', fc'. split; [|done]. by apply lookup_app_l_Some.
    + rewrite lookup_app_r, table_length in E by (rewrite table_length; lia). destruct (IH _ _ E) as (a' & p' & nx' & fc' & Ea & ->).
      exists a', p', nx', fc'. split; [|f_equal; lia]. rewrite lookup_app_r, dinfos_length by (rewrite dinfos_length; lia). done.
Qed.

Lemma good_plain known d : doc_all (ygood known) d -> doc_all (plain_links yfin) d.
Proof.
  induction d as [a ks IH] using doc_ind'. rewrite !doc_all_eq. intros [G Gs]. split.
  - intros k p nx. cbn zeta. split; [by rewrite yfin_parent|]. unfold ygood in G. unfold yfin.
    assert (forall an n, next (read_anchor an n) = next n) as Nx.
    { intros an n. unfold read_anchor. destruct an; [|done]. by destruct (scan_template _ _). }
    destruct (p_body a) as [an v|an|an|al].
    + subst ks. rewrite Nx. split; [done|]. unfold expandable. by rewrite read_anchor_first.
    + rewrite Nx. split; [done|]. unfold expandable. rewrite read_anchor_first, read_anchor_ref. by destruct ks.
    + rewrite Nx. split; [done|]. unfold expandable. rewrite read_anchor_first, read_anchor_ref. by destruct ks.
    + subst ks. unfold read_alias, expandable. destruct (scan_template _ _); [cbn; by rewrite andb_false_r|]. destruct (scan_template _ _); [cbn; by rewrite andb_false_r|]. by destruct (decide _).
  - rewrite Forall_forall in *. auto.
Qed.

(** ** One node *)
Section Node.
  Context (ns : list node) (js : list yinfo).

  Lemma alias_ref (c : bool) ds v n r : plain ds -> numeral_value 10 ds = Z.of_nat v -> (Z.of_nat v < 2 ^ 32)%Z ->
    read_alias ((if c then txt_anchor_content else txt_anchor) ++ ds) n r = (set_ref v n, if c then YRead (r_val r) (r_null r) (r_unnamed r) true (r_name r) else r).
  Proof.
    intros P V L. unfold read_alias. destruct c.
    - by rewrite (scan_own _ _ v P V L).
    - by rewrite scan_other, (scan_own _ _ v P V L).
  Qed.
  Lemma anchor_num n an m : anchor_ok n an -> (Z.of_nat (pub_idx n) < 2 ^ 32)%Z ->
    read_anchor an m = if referenced n then set_idx (pub_idx n) m else m.
  Proof.
    unfold anchor_ok. destruct (referenced n); [|by intros ->]. intros (ds & -> & P & V) L. unfold read_anchor. by rewrite (scan_own _ _ _ P V L).
  Qed.

  Definition anchored (n : node) (d : yinfo) : bool := referenced n && negb (is_ref n) && negb (y_null d).

  Lemma pay_read n d a k p nx fc : pay_node ns js n d a -> (Z.of_nat (pub_idx n) < 2 ^ 32)%Z ->
    (forall m, ns !! first_child n = Some m -> is_ref n = true -> (Z.of_nat (pub_idx m) < 2 ^ 32)%Z) ->
    ynode_read js n d (yfin a k (blank p nx fc)) (yinf a) /\
    pub_idx (yfin a k (blank p nx fc)) = (if anchored n d then pub_idx n else 0) /\
    (is_ref n = true -> exists m, ns !! first_child n = Some m /\ first_child (yfin a k (blank p nx fc)) = pub_idx m).
  Proof.
    intros [Ek Eb] L Lm. unfold ynode_read, anchored, yfin, yinf, yinf0.
    destruct (is_ref n) eqn:Er.
    - destruct Eb as (m & ds & Em & -> & P & V). rewrite !(alias_ref _ _ _ _ _ P V (Lm m Em eq_refl)). cbn [fst snd].
      rewrite Ek, andb_false_r. cbn [orb andb negb]. split; [|split; [done|intros _; by exists m]].
      destruct (y_cref d), (in_map js n); cbn; by repeat split.
    - destruct (y_null d) eqn:En.
      + rewrite Eb, !alias_null, Ek. cbn [fst snd orb andb negb]. rewrite !andb_false_r. split; [|done]. destruct (in_map js n); cbn; by repeat split.
      + destruct Eb as (an & Aok & Eb). cbn [orb].
        assert (forall m, is_ref (read_anchor an m) = is_ref m) as Hr by (intros; apply read_anchor_ref).
        assert (pub_idx (read_anchor an (blank p nx fc)) = if referenced n && negb false && negb false then pub_idx n else 0) as Hp.
        { rewrite (anchor_num n an _ Aok L). by destruct (referenced n). }
        destruct (has_members (y_kind d)) eqn:Hm.
        * rewrite Eb, Hr, Ek. split; [|by split]. destruct (in_map js n); cbn; repeat split; try done; by destruct (y_kind d).
        * destruct (has_elements (y_kind d)) eqn:He.
          -- rewrite Eb, Hr, Ek. split; [|by split]. destruct (in_map js n); cbn; repeat split; done.
          -- destruct Eb as (s & O & Eb). rewrite Eb, Hr, Ek. split; [|by split]. destruct (in_map js n); cbn; repeat split; try done; by exists s.
  Qed.
End Node.

(** ** What is kept *)
Lemma kept_sub js t : sublist (concat (map nodes (kept js t))) (nodes t).
Proof.
  induction t as [i ks IH] using tree_ind'. cbn [kept nodes]. destruct (void js i); cbn [map concat nodes]; [apply sublist_nil_l|].
  rewrite app_nil_r. apply sublist_skip. induction IH as [|t ts Ht _ IH]; [done|]. cbn [map concat]. rewrite map_app, concat_app. by apply sublist_app.
Qed.
Lemma kept_all js t : (forall i, i ∈ nodes t -> void js i = false) -> kept js t = [t].
Proof.
  induction t as [i ks IH] using tree_ind'. intros H. cbn [kept]. rewrite H by (by left). f_equal. f_equal.
  assert (forall x, x ∈ concat (map nodes ks) -> void js x = false) as H' by (intros x Hx; apply H; by right). clear H.
  induction IH as [|t ts Ht _ IH]; [done|]. cbn [map concat] in *. rewrite Ht, IH; [done| |]; intros x Hx; apply H'; apply elem_of_app; auto.
Qed.
Lemma kept_root js i ks : void js i = false -> kept js (T i ks) = [T i (concat (map (kept js) ks))].
Proof. intros V. cbn [kept]. by rewrite V. Qed.
Lemma kept_void js t i : i ∈ concat (map nodes (kept js t)) -> void js i = false.
Proof.
  induction t as [x ks IH] using tree_ind'. cbn [kept]. destruct (void js x) eqn:V; cbn [map concat nodes]; [by intros H%elem_of_nil|].
  rewrite app_nil_r. intros [-> | H]%elem_of_cons; [done|]. induction IH as [|t ts Ht _ IH]; [by apply elem_of_nil in H|].
  cbn [map concat] in H. rewrite map_app, concat_app in H. apply elem_of_app in H as [H|H]; auto.
Qed.
Lemma sub_elem {A} (l k : list A) x : sublist l k -> x ∈ l -> x ∈ k.
Proof. induction 1 as [|y l k _ IH|y l k _ IH]; [done| |intros; right; auto]. intros [-> | H]%elem_of_cons; [by left|right; auto]. Qed.
Lemma sub_NoDup {A} (l k : list A) : sublist l k -> NoDup k -> NoDup l.
Proof.
  induction 1 as [|y l k S IH|y l k S IH]; intros N; [done| |].
  - apply NoDup_cons in N as [N1 N2]. constructor; [|auto]. intros H. apply N1. by eapply sub_elem.
  - apply NoDup_cons in N as [_ N2]. auto.
Qed.

(** ** Saving and loading *)
Section Save.
  Context (known utf8 : list Z -> bool) (wrapv : bool) (buf : list Z) (ns : list node) (js : list yinfo) (t : tree).
  Context (Hbuf : length buf = print_buffer) (Hutf : forall s, Forall (fun c => (0 < c < 128)%Z) s -> utf8 s = true).
  Context (A : tree_at ns 0 0 t) (R1 : root t = 1) (Nd : NoDup (nodes t)) (Num : numbered ns t) (Sz : (Z.of_nat (length (nodes t)) < 2 ^ 31)%Z).
  Context (Ok : forall i, i ∈ nodes t -> ynode_ok known utf8 wrapv ns js t i) (Vd : void js 1 = false).

  Lemma in_nodes i : i ∈ nodes t -> exists m, ns !! i = Some m.
  Proof using Ok. intros I. destruct (Ok i I) as (m & _ & E & _). by exists m. Qed.
  Lemma pub_small i m : i ∈ nodes t -> ns !! i = Some m -> (Z.of_nat (pub_idx m) < 2 ^ 31)%Z /\ pub_idx m <> 0.
  Proof using Num Sz. intros I E. apply elem_of_list_lookup in I as [k I]. rewrite (Num k i m I E). apply lookup_lt_Some in I. revert I Sz. clear. lia. Qed.
  Lemma pub_inj i j m m' : i ∈ nodes t -> j ∈ nodes t -> ns !! i = Some m -> ns !! j = Some m' -> pub_idx m = pub_idx m' -> i = j.
  Proof using Num.
    intros I J Ei Ej E. apply elem_of_list_lookup in I as [k I], J as [k' J]. rewrite (Num k i m I Ei), (Num k' j m' J Ej) in E. injection E as ->. congruence.
  Qed.

  Lemma ysaved : exists t' d, kept js t = [t'] /\ doc_all (ystrict known) d /\ p_key (pay d) = None /\
    (exists fuel, forall fuel', fuel <= fuel' -> yaml_save utf8 wrapv buf js fuel' ns = Some (Some (stream d))) /\
    Forall2 (pay_ok ns js) (nodes t') (dinfos id d) /\ dsize d = length (nodes t') /\
    forall f, (forall j i, nodes t' !! j = Some i -> f i = S j) -> rename f t' = number_doc 1 d.
  Proof using All.
    destruct (forest_tree known utf8 wrapv buf ns js Hbuf Hutf t) with (t := t) (par := 0) (nxt := 0) as (ds & G & N & L & P & Z & F & E).
    { intros i m I Em. destruct (pub_small i m I Em). lia. }
    { apply in_nodes. }
    { done. } { by left. } { intros i I. split; [done|]. by apply Ok. }
    destruct t as [i ks] eqn:Et. cbn [root] in R1. subst i. cbn [map concat] in *. rewrite (kept_root js 1 ks Vd) in *. rewrite app_nil_r in *. cbn [length] in L.
    set (t' := T 1 (concat (map (kept js) ks))) in *.
    destruct ds as [|d ds]; [done|]. destruct ds; [|done]. exists t', d. split; [done|].
    cbn [map concat] in P, Z, F. rewrite !app_nil_r in P. rewrite app_nil_r in Z. rewrite dsizes_one in Z.
    apply Forall_cons in G as [G _], N as [N _].
    destruct (tree_at_root _ _ _ _ A) as (_ & n & En & Pn & _). cbn [root] in En, N. rewrite En in N.
    assert (in_map js n = false) as Im by (unfold in_map, parent_kind; by rewrite Pn). rewrite Im in N.
    split; [done|]. split; [destruct (p_key (pay d)) as [[]|]; [by destruct N|done]|].
    split; [|split; [done|split; [done|]]].
    - destruct (dfs_tree (yaml_print_node utf8 wrapv buf js)) with (start := 1) (ns0 := ns) (i := 1) (ks := ks) (par := 0) (nxt := 0) (c := [EStreamStart; EDocStart]) as [fuel Fu]; [|done|done|done|by right|].
      + intros ns0 c i l o b ns' c' Ex. unfold yaml_print_node in Ex. destruct o.
        * destruct (yaml_pre utf8 wrapv buf js ns0 i); [|done]. cbn in Ex. by injection Ex as _ <- _.
        * destruct (yaml_post js ns0 i); [|done]. cbn in Ex. by injection Ex as _ <- _.
      + exists fuel. intros fuel' Lf. unfold yaml_save. rewrite Fu by done. rewrite E. cbn [map concat]. rewrite app_nil_r. done.
    - intros f Hf. specialize (F f 1). cbn [map concat number_docs] in F. rewrite app_nil_r in F.
      assert ([rename f t'] = [number_doc 1 d]) as [= Hr]; [|done]. apply F. intros j i Ej. rewrite (Hf j i Ej). lia.
  Qed.

  (** The table before the missed numbers are given. *)
  Lemma raw_at (t' : tree) (d : ydoc) k m : kept js t = [t'] -> Forall2 (pay_ok ns js) (nodes t') (dinfos id d) -> table yfin 0 1 0 d !! k = Some m ->
    exists i n dd r, nodes t' !! k = Some i /\ i ∈ nodes t /\ ns !! i = Some n /\ js !! i = Some dd /\ dinfos yinf d !! k = Some r /\
      ynode_read js n dd m r /\ pub_idx m = (if anchored n dd then pub_idx n else 0) /\
      (is_ref n = true -> first_child n ∈ nodes t /\ exists mt, ns !! first_child n = Some mt /\ first_child m = pub_idx mt).
  Proof using Num Ok Sz.
    intros Kt P E. destruct (table_pay d 0 1 0 k m E) as (a & p & nx & fc & Ea & ->).
    destruct (Forall2_lookup_r _ _ _ _ _ P Ea) as (i & Ei & n & dd & En & Ed & Pn).
    assert (i ∈ nodes t) as It.
    { eapply sub_elem; [apply (kept_sub js t)|]. rewrite Kt. cbn. rewrite app_nil_r. by eapply elem_of_list_lookup_2. }
    assert (void js i = false) as Vi.
    { eapply kept_void. rewrite Kt. cbn. rewrite app_nil_r. by eapply elem_of_list_lookup_2. }
    assert (is_ref n = true -> first_child n ∈ nodes t) as Rf.
    { intros H. destruct (Ok i It) as (n2 & d2 & En2 & Ed2 & O). rewrite Vi in O. rewrite En in En2. injection En2 as <-. destruct O as (_ & _ & _ & _ & O). by rewrite H in O. }
    destruct (pay_read ns js n dd a (1 + k) p nx fc Pn) as (X1 & X2 & X3).
    { destruct (pub_small i n It En) as [H _]. revert H. clear. lia. }
    { intros mt Et H. destruct (pub_small _ _ (Rf H) Et) as [Hs _]. revert Hs. clear. lia. }
    exists i, n, dd, (yinf a). split; [done|]. split; [done|]. split; [done|]. split; [done|].
    split; [rewrite infos_pay; change (yinf <$> dinfos id d) with (map yinf (dinfos id d)) in *; change (map yinf (dinfos id d)) with (yinf <$> dinfos id d); by rewrite list_lookup_fmap, Ea|].
    split; [done|]. split; [done|]. intros H. split; [by apply Rf|]. by apply X3.
  Qed.

  Lemma yloaded : exists t' evs, kept js t = [t'] /\ wf_stream evs /\
    (exists fuel, forall fuel', fuel <= fuel' -> yaml_save utf8 wrapv buf js fuel' ns = Some (Some evs)) /\
    exists s, yaml_load known evs = Some s /\ l_cur s = 0 /\
      length (ra (l_ptrs s)) = S (length (nodes t')) /\ length (l_info s) = S (length (nodes t')) /\
      (forall f, (forall k i, nodes t' !! k = Some i -> f i = S k) -> tree_at (ra (l_ptrs s)) 0 0 (rename f t')) /\
      (forall k i, nodes t' !! k = Some i -> exists n d m r, ns !! i = Some n /\ js !! i = Some d /\
         ra (l_ptrs s) !! S k = Some m /\ l_info s !! S k = Some r /\ ynode_read js n d m r) /\
      (forall k i n m j g dg, nodes t' !! k = Some i -> ns !! i = Some n -> is_ref n = true -> ra (l_ptrs s) !! S k = Some m ->
         nodes t' !! j = Some (first_child n) -> ns !! first_child n = Some g -> js !! first_child n = Some dg ->
         (referenced g = true /\ is_ref g = false /\ y_null dg = false) \/ (forall x, x ∈ nodes t -> void js x = false) ->
         forall p mp, p <> 0 -> ra (l_ptrs s) !! p = Some mp -> pub_idx mp = first_child m <-> p = S j).
  Proof using All.
    destruct ysaved as (t' & d & Kt & St & Nk & Sv & P & Ds & Rn).
    assert (NoDup (nodes t')) as Nd'.
    { apply (sub_NoDup _ (nodes t)); [|done]. pose proof (kept_sub js t) as H. rewrite Kt in H. cbn in H. by rewrite app_nil_r in H. }
    exists t', (stream d). split; [done|]. split.
    { exists (devs d). split; [|done]. rewrite devs_body. unfold key_evs. rewrite Nk. by apply (strict_wf known). }
    split; [done|]. pose proof (strict_good known d St) as G.
    destruct (yload_doc known d G) as (c & Rd); [unfold yfits; rewrite Nk; by left|].
    set (raw := fresh_node :: table yfin 0 1 0 d) in *.
    assert (forall k m, raw !! S k = Some m -> table yfin 0 1 0 d !! k = Some m) as Rw by done.
    destruct (missed_ok raw) as (ns2 & Ms & Ln & Af).
    { done. }
    { intros [|k] m; [done|]. intros _ E Hr. destruct (raw_at t' d k m Kt P (Rw k m E)) as (i & n & dd & r & Ei & It & En & Ed & _ & (_ & Xr & _) & _ & Xf).
      rewrite Hr in Xr. symmetry in Xr. destruct (Xf Xr) as (Ig & g & Eg & ->). destruct (pub_small _ _ Ig Eg). done. }
    { intros [|k] m; [done|]. intros _ E. destruct (raw_at t' d k m Kt P (Rw k m E)) as (i & n & dd & r & Ei & It & En & Ed & _ & _ & -> & _).
      destruct (anchored n dd); [|done]. by destruct (pub_small _ _ It En). }
    exists (LSt (Ptrs ns2 c) (yread0 :: dinfos yinf d) 0). split; [unfold yaml_load; rewrite Rd; cbn [mbind option_bind l_ptrs ra]; by rewrite Ms|].
    cbn [l_ptrs ra l_info l_cur length]. split; [done|]. split; [rewrite Ln; unfold raw; cbn [length]; by rewrite table_length, Ds|].
    split; [by rewrite dinfos_length, Ds|].
    assert (length raw = S (length (nodes t'))) as Lr by (unfold raw; cbn [length]; by rewrite table_length, Ds).
    (* a node of the table *)
    assert (forall k m2, ns2 !! S k = Some m2 -> exists m i n dd r, raw !! S k = Some m /\ nodes t' !! k = Some i /\ i ∈ nodes t /\ ns !! i = Some n /\ js !! i = Some dd /\
      dinfos yinf d !! k = Some r /\ ynode_read js n dd m r /\ pub_idx m = (if anchored n dd then pub_idx n else 0) /\
      (is_ref n = true -> first_child n ∈ nodes t /\ exists mt, ns !! first_child n = Some mt /\ first_child m = pub_idx mt) /\
      ((missed raw (length raw) (S k) m /\ m2 = set_idx (S k) m) \/ (~ missed raw (length raw) (S k) m /\ m2 = m))) as At.
    { intros k m2 E2. destruct (raw !! S k) as [m|] eqn:E.
      2:{ apply lookup_lt_Some in E2. apply lookup_ge_None in E. revert E E2 Ln. clear. lia. }
      destruct (raw_at t' d k m Kt P (Rw k m E)) as (i & n & dd & r & H1 & H2 & H3 & H4 & H5 & H6 & H7 & H8).
      exists m, i, n, dd, r. do 9 (split; [done|]). destruct (Af (S k) m E) as (m3 & E3 & Hm). rewrite E2 in E3. injection E3 as <-. done. }
    split; [|split].
    - intros f Hf. rewrite (Rn f Hf). apply (tree_at_links raw); [by apply missed_links|].
      pose proof (table_tree yfin d [fresh_node] 0 0 [] (good_plain known d G) ltac:(done)) as Tt. by rewrite app_nil_r in Tt.
    - intros k i Ei. assert (S k < length ns2) as Lk by (apply lookup_lt_Some in Ei; revert Ei Ln Lr; clear; lia).
      destruct (lookup_lt_is_Some_2 ns2 (S k) Lk) as [m2 E2]. destruct (At k m2 E2) as (m & i2 & n & dd & r & _ & Ei2 & _ & En & Ed & Er & Xr & _ & _ & Hm).
      rewrite Ei in Ei2. injection Ei2 as <-. exists n, dd, m2, r. do 4 (split; [done|]).
      destruct Hm as [[_ ->]|[_ ->]]; done.
    - intros k i n m2 j g dg Ei En Hr E2 Ej Eg Edg Hc p mp Zp Ep.
      destruct (At k m2 E2) as (m & i2 & n2 & dd & r & Em & Ei2 & It & En2 & Ed & _ & Xr & _ & Xf & Hm).
      rewrite Ei in Ei2. injection Ei2 as <-. rewrite En in En2. injection En2 as <-.
      destruct (Xf Hr) as (Ig & g2 & Eg2 & Fm). rewrite Eg in Eg2. injection Eg2 as <-.
      assert (first_child m2 = pub_idx g) as F2 by (destruct Hm as [[_ ->]|[_ ->]]; done). rewrite F2.
      assert (is_ref m = true) as Hrm by (destruct Xr as (_ & -> & _); done).
      destruct (pub_small _ _ Ig Eg) as [_ Zg].
      (* who has the number in the table *)
      assert (forall q mq, q <> 0 -> raw !! q = Some mq -> pub_idx mq = pub_idx g -> q = S j /\ anchored g dg = true) as Who.
      { intros [|q] mq; [done|]. intros _ Eq Hq. destruct (raw_at t' d q mq Kt P (Rw q mq Eq)) as (iq & nq & dq & rq & Eiq & Iq & Enq & Edq & _ & _ & Pq & _).
        rewrite Hq in Pq. destruct (anchored nq dq) eqn:Aq; [|by destruct Zg].
        assert (first_child n = iq) as <- by (by apply (pub_inj _ _ g nq)).
        rewrite Eg in Enq. injection Enq as <-. rewrite Edg in Edq. injection Edq as <-. split; [|done].
        f_equal. by apply (NoDup_lookup (nodes t') _ _ (first_child n)). }
      (* the node of the target *)
      assert (S j < length ns2) as Lj by (apply lookup_lt_Some in Ej; revert Ej Ln Lr; clear; lia).
      destruct (lookup_lt_is_Some_2 ns2 (S j) Lj) as [g3 E3]. destruct (At j g3 E3) as (g1 & ig & n1 & d1 & r1 & Eg1 & Eig & _ & En1 & Ed1 & _ & _ & Pg1 & _ & Hg).
      rewrite Ej in Eig. injection Eig as <-. rewrite Eg in En1. injection En1 as <-. rewrite Edg in Ed1. injection Ed1 as <-.
      assert (wanted raw (length raw) (pub_idx g)) as W.
      { exists (S k), m. split; [done|]. split; [by eapply lookup_lt_Some|]. done. }
      assert (anchored g dg = true \/ (anchored g dg = false /\ pub_idx g = S j)) as [Ag|[Ag Pj]].
      { destruct (anchored g dg) eqn:Ag; [by left|right; split; [done|]]. destruct Hc as [(H1 & H2 & H3)|Hv].
        - unfold anchored in Ag. by rewrite H1, H2, H3 in Ag.
        - rewrite (kept_all js t Hv) in Kt. injection Kt as <-. by apply (Num j (first_child n) g). }
      + (* the number is an anchor *)
        rewrite Ag in Pg1.
        assert (g3 = g1) as -> by (destruct Hg as [[(_ & H0 & _) _]|[_ ->]]; [congruence|done]).
        split.
        * intros Hp. destruct p as [|p]; [done|]. destruct (At p mp Ep) as (mr & ip & np & dp & rp & Emr & _ & _ & _ & _ & _ & _ & _ & _ & [[Mi ->]|[_ ->]]).
          -- exfalso. cbn in Hp. destruct Mi as (_ & _ & _ & Nt). apply Nt. exists (S j), g1. split; [done|]. split; [done|]. congruence.
          -- by apply (Who (S p) mr).
        * intros ->. rewrite E3 in Ep. injection Ep as <-. done.
      + (* it is the position *)
        rewrite Ag in Pg1.
        assert (~ taken raw (pub_idx g)) as Nt.
        { intros (q & mq & Zq & Eq & Hq). destruct (Who q mq Zq Eq Hq) as [_ H]. congruence. }
        assert (g3 = set_idx (S j) g1) as ->.
        { destruct Hg as [[_ ->]|[H _]]; [done|]. exfalso. apply H. split; [done|]. split; [done|]. by rewrite <- Pj. }
        split.
        * intros Hp. destruct p as [|p]; [done|]. destruct (At p mp Ep) as (mr & ip & np & dp & rp & Emr & _ & _ & _ & _ & _ & _ & _ & _ & [[Mi ->]|[_ ->]]).
          -- cbn in Hp. congruence.
          -- destruct (Who (S p) mr ltac:(done) Emr Hp) as [_ H]. congruence.
        * intros ->. rewrite E3 in Ep. injection Ep as <-. cbn. done.
  Qed.
End Save.
