(** Documents, texts and tables: what P_Xml.v needs. *)
From Verif Require Import Base Ptrs NumStr NumStrProof Parse ParseProof Json JsonParse LexProof JsonLex JsonSpec JsonSave Value ValueProof Cinit CinitParse CinitSpec CinitLex CinitSave ScmLex ScmSave Xml XmlParse XmlSpec XmlLex XmlSave DfsProof PruneProof.
From stdpp Require Import sets.

Section Load.
  Context {F : Type} `{FL : Floats F}.
  Context (known : list Z -> bool).
  Notation good := (doc_all (xgood (F := F) known)).
  Notation calm := (doc_all xcalm).
  Notation shaped := (doc_all xshape).
  Notation xload := (xml1_load (F := F) known).
  Notation run := (xrun (F := F) known).
  Notation pays := (dinfos (fun a : xpay => a)).

  Lemma xload_accept text ps d s : shaped d -> xml_lex text = Some (toptoks ps d) -> run d (lstart cinfo0) = Some s -> xload text s.
  Proof.
    intros Sh L R. exists (toptoks ps d). split; [done|]. unfold toptoks. eapply XD_xml; [apply xaccept_docprops|].
    pose proof (xaccept known d Sh _ _ [] R) as D. by rewrite app_nil_r in D.
  Qed.

  Lemma xload_explain text s : xload text s -> exists ps d, shaped d /\ xml_lex text = Some (toptoks ps d) /\ run d (lstart cinfo0) = Some s.
  Proof.
    intros (ts & L & D). apply xexplain in D as (ps & d & Sh & -> & R). rewrite app_nil_r in L. by exists ps, d.
  Qed.

  Lemma toptoks_inj ps ps' d d' : shaped d -> shaped d' -> toptoks ps d = toptoks ps' d' -> d = d'.
  Proof.
    unfold toptoks. intros Sh Sh' E. injection E as E. apply ptoks_split in E as [_ E]; [|done|done]. injection E as E.
    destruct (xunambiguous d d' [] [] Sh Sh') as [-> _]; [by rewrite !app_nil_r|done].
  Qed.

  Lemma xload_same text ps d s : shaped d -> xml_lex text = Some (toptoks ps d) -> xload text s -> run d (lstart cinfo0) = Some s.
  Proof.
    intros Sh L H. destruct (xload_explain text s H) as (ps' & d' & Sh' & L' & R). rewrite L in L'. apply (inj Some) in L'.
    by rewrite (toptoks_inj _ _ d d' Sh Sh' L').
  Qed.

  Definition xloaded (d : doc xpay) (s : lst (@cinfo F)) : Prop :=
    ra (l_ptrs s) = fresh_node :: table xfin 0 1 0 d /\ l_info s = cinfo0 :: dinfos xinf d /\ l_cur s = 0.

  Lemma calm_loaded d : good d -> calm d -> exists s, run d (lstart cinfo0) = Some s /\ xloaded d s.
  Proof.
    intros G C. destruct (xrun_calm known d G C [] fresh_node [] 0 [cinfo0]) as (c' & E & _); [done|apply cached_nil|by right|done|].
    eexists. split; [exact E|]. split; [|done]. unfold opened, opened_ns. cbn [l_ptrs ra app tables length own]. by rewrite app_nil_r.
  Qed.

  Lemma good_shaped d : good d -> shaped d.
  Proof.
    induction d as [a ks IH] using doc_ind'. rewrite !doc_all_eq. intros [[Sh _] Gs]. split; [done|]. clear Sh.
    induction IH as [|t ts Ht _ IH]; [constructor|]. apply Forall_cons in Gs as [Gt Gs]. constructor; [by apply Ht|by apply IH].
  Qed.

  Lemma calm_links a ks : xcalm a ks -> plain_links xfin a ks.
  Proof.
    intros C k p nx. cbv zeta. rewrite xfin_parent. split; [done|]. split.
    - pose proof (xfin_next a k (blank p nx (match ks with [] => 0 | _ => S k end)) nx) as E. apply (f_equal next) in E. cbn in E. symmetry. exact E.
    - destruct ks as [|t ks].
      + unfold expandable, xfin. assert (forall l n, (first_child n = 0 \/ is_ref n = true) -> first_child (foldl prop_node n l) = 0 \/ is_ref (foldl prop_node n l) = true) as H.
        { induction l as [|x l IH]; intros n H; [done|]. cbn [foldl]. apply IH. unfold prop_node. repeat case_decide; auto. }
        destruct (H (x_props a) (blank p nx 0) (or_introl eq_refl)) as [-> | ->]; [done|]. by rewrite andb_false_r.
      + specialize (C ltac:(done)). destruct (calm_first (x_props a) (blank p nx (S k)) 0 C) as [_ E]. split; [exact E|]. unfold xfin. clear E.
        assert (forall n, is_ref n = false -> is_ref (foldl prop_node n (x_props a)) = false) as H.
        { induction C as [|x l [N1 N2] _ IH]; intros n H; [done|]. cbn [foldl]. apply IH. unfold prop_node. by repeat case_decide. }
        by apply H.
  Qed.
  Lemma calm_plain d : calm d -> doc_all (plain_links xfin) d.
  Proof.
    induction d as [a ks IH] using doc_ind'. rewrite !doc_all_eq. intros [C Cs]. split; [by apply calm_links|]. clear C.
    induction IH as [|t ts Ht _ IH]; [constructor|]. apply Forall_cons in Cs as [Ct Cs]. constructor; [by apply Ht|by apply IH].
  Qed.

  Lemma xloaded_tree d s : calm d -> xloaded d s -> tree_at (ra (l_ptrs s)) 0 0 (number_doc 1 d).
  Proof.
    intros C (-> & _ & _). pose proof (table_tree xfin d [fresh_node] 0 0 [] (calm_plain d C) ltac:(done)) as A.
    rewrite app_nil_r in A. exact A.
  Qed.

  Lemma xinfos_pays d : dinfos (xinf (F := F)) d = map xinf (pays d).
  Proof.
    induction d as [a ks IH] using doc_ind'. cbn [dinfos map]. f_equal.
    induction IH as [|t ts Ht _ IH]; [done|]. cbn [map concat]. by rewrite map_app, <- Ht, IH.
  Qed.

  Lemma xtable_pay d : forall p k nx j a, pays d !! j = Some a -> exists p' nx' fc', table xfin p k nx d !! j = Some (xfin a (k + j) (blank p' nx' fc')).
  Proof.
    induction d as [a0 ks IH] using doc_ind'. intros p k nx j a. rewrite table_eq. cbn [dinfos]. destruct j as [|j]; cbn [lookup].
    - intros [= <-]. cbn. rewrite Nat.add_0_r. eauto.
    - cbn. intros E. replace (k + S j) with (S k + j) by lia. revert E. generalize (S k) as m. intros m. revert m j.
      induction IH as [|t ts Ht _ IH]; intros m j E; [done|]. cbn [tables map concat] in *. apply lookup_app_Some in E as [E|[L E]].
      + destruct (Ht k m (match ts with [] => 0 | _ => m + dsize t end) _ _ E) as (p' & nx' & fc' & X). exists p', nx', fc'. by apply lookup_app_l_Some.
      + rewrite dinfos_length in L, E. destruct (IH (m + dsize t) _ E) as (p' & nx' & fc' & X). exists p', nx', fc'. cbn [Nat.add] in *.
        rewrite lookup_app_r, table_length by (rewrite table_length; lia). rewrite X. do 2 f_equal; lia.
  Qed.

  (** Parents. *)
  Lemma xtable_parent d : forall p k nx j m, table xfin p k nx d !! j = Some m ->
    (j = 0 /\ parent m = p) \/ exists j', parent m = k + j' /\ j' < j.
  Proof.
    induction d as [a ks IH] using doc_ind'. intros p k nx j m. rewrite table_eq. destruct j as [|j]; cbn [lookup].
    - intros [= <-]. left. split; [done|]. by rewrite xfin_parent.
    - cbn. intros E. right.
      assert (forall o, tables xfin k (S k + o) 0 ks !! j = Some m -> exists j', parent m = k + j' /\ j' < S (o + j)) as Gn.
      { clear E. revert j. induction IH as [|t ts Ht _ IH]; intros j o E; [done|]. cbn [tables] in E. apply lookup_app_Some in E as [E|[L E]].
        - destruct (Ht _ _ _ _ _ E) as [[-> ->]|(j1 & -> & Lj)]; [exists 0; lia|]. exists (S (o + j1)). lia.
        - rewrite table_length in L, E. replace (S k + o + dsize t) with (S k + (o + dsize t)) in E by lia.
          destruct (IH _ _ E) as (j1 & -> & Lj). exists j1. lia. }
      destruct (Gn 0) as (j' & ? & ?); [by rewrite Nat.add_0_r|]. exists j'. lia.
  Qed.

  (** Names and values. *)
  Lemma xinfos_ok d : good d -> forall j p, dinfos (xinf (F := F)) d !! j = Some p ->
    (exists nm, c_name p = Some nm /\ known nm = true) /\ c_type p = None /\ exists txt, holds (c_val p) txt.
  Proof.
    assert (forall l (x : cinfo (F := F)), c_type (foldl prop_info x l) = c_type x) as At.
    { induction l as [|y l IHl]; intros x; [done|]. cbn [foldl]. rewrite IHl. unfold prop_info. by repeat case_decide. }
    induction d as [a ks IH] using doc_ind'. rewrite doc_all_eq. intros [(Sh & _ & Kn & _ & [v Ev]) Gs] j p. cbn [dinfos].
    destruct j as [|j]; cbn [lookup].
    - intros [= <-]. unfold xinf. rewrite Ev. cbn [default cset_val cset_name c_name c_type c_val]. split; [by eexists|]. split; [apply At|].
      destruct (x_body a) as [w|c w]; cbn [x_value] in Ev.
      + injection Ev as <-. exists []. right. by right.
      + unfold xml_value in Ev. case_match.
        * apply bind_Some in Ev as (r & _ & Ev). eexists. left. by injection Ev as <-.
        * injection Ev as <-. exists c. right. by left.
    - cbn. intros E. clear Sh Kn Ev. revert j E. induction IH as [|t ts Ht _ IH]; intros j E; [done|]. apply Forall_cons in Gs as [Gt Gs].
      cbn [map concat] in E. apply lookup_app_Some in E as [E|[_ E]]; [by apply (Ht Gt _ _ E)|by apply (IH Gs _ E)].
  Qed.

  (** Shape, when no reference has anything inside. *)
  Lemma xtable_calm (L : list node) d : (forall i n j m, L !! i = Some n -> L !! j = Some m -> is_ref n = true -> parent m <> i) ->
    forall p k nx, (forall j x, table xfin p k nx d !! j = Some x -> L !! (k + j) = Some x) -> calm d.
  Proof.
    intros H. induction d as [a ks IH] using doc_ind'. intros p k nx Hs. rewrite table_eq in Hs. rewrite doc_all_eq. split.
    - intros Ne. destruct ks as [|[b us] ks]; [done|]. pose proof (Hs 0 _ eq_refl) as H0. pose proof (Hs 1 _ eq_refl) as H1.
      cbn [tables] in H1. rewrite Nat.add_0_r in H0. specialize (H _ _ _ _ H0 H1).
      eapply (ref_calm (x_props a) (blank p nx (S k))). change (is_ref (xfin a k (blank p nx (S k))) = false).
      destruct (is_ref (xfin a k (blank p nx (S k)))) eqn:E; [|done]. exfalso. apply H; [done|by rewrite xfin_parent].
    - assert (forall j x, tables xfin k (S k) 0 ks !! j = Some x -> L !! (S k + j) = Some x) as Ht.
      { intros j x E. replace (S k + j) with (k + S j) by lia. by apply Hs. }
      clear Hs. revert Ht. generalize (S k) as m. induction IH as [|t ts Hi _ IH]; intros m Ht; [constructor|]. cbn [tables] in Ht. constructor.
      + eapply Hi. intros j x E. apply Ht. by apply lookup_app_l_Some.
      + apply (IH (m + dsize t)). intros j x E. replace (m + dsize t + j) with (m + (dsize t + j)) by lia. apply Ht.
        rewrite lookup_app_r, table_length by (rewrite table_length; lia). by replace (dsize t + j - dsize t) with j by lia.
  Qed.

  Lemma core_lookup l l' i n : map core l = map core l' -> l !! i = Some n -> exists n', l' !! i = Some n' /\ core n' = core n.
  Proof.
    intros E H. assert (map core l !! i = Some (core n)) as H' by (change (map core l) with (core <$> l); by rewrite list_lookup_fmap, H).
    rewrite E in H'. change (map core l') with (core <$> l') in H'. rewrite list_lookup_fmap in H'. destruct (l' !! i) as [n'|]; [|done]. exists n'. split; [done|]. by apply (inj Some) in H'.
  Qed.

  (** What every accepted text leaves. *)
  Lemma run_core d s : run d (lstart cinfo0) = Some s ->
    map core (ra (l_ptrs s)) = map core (fresh_node :: table xfin 0 1 0 d) /\ l_info s = cinfo0 :: dinfos xinf d /\ l_cur s = 0.
  Proof. intros R. destruct (xrun_leaves known d (lstart cinfo0) s eq_refl R) as (C & I & U). done. Qed.
End Load.

Section Save.
  Context {F : Type} `{FL : Floats F}.
  Context (isprint : Z -> bool) (known : list Z -> bool) (wrapv : bool).
  Context (buf : list Z) (ns : list node) (js : list xinfo).

  Lemma xsave_load t : length buf = print_buffer -> isprint 0%Z = false ->
    tree_at ns 0 0 t -> root t = 1 -> NoDup (nodes t) -> numbered ns t -> (Z.of_nat (length (nodes t)) < 2 ^ 32)%Z ->
    (forall i, i ∈ nodes t -> xnode_ok known wrapv ns js t i) ->
    exists text (d : doc xpay) ps, (exists fuel, forall fuel', fuel <= fuel' -> xml1_save isprint wrapv buf js fuel' ns = Some text) /\
      Forall (fun c => c <> 0%Z) text /\ doc_all (xgood (F := F) known) d /\ doc_all xcalm d /\ lexes xml_rules text (toptoks ps d) /\
      rename (public ns) t = number_doc 1 d /\ Forall2 (xreads (F := F) ns js) (nodes t) (dinfos (fun a => a) d) /\ dsize d = length (nodes t).
  Proof.
    intros Hb Hp A R1 Nd Num Sz Ok.
    assert (forall i, i ∈ nodes t -> exists m, ns !! i = Some m) as Hin by (intros i I; destruct (Ok i I) as (m & _ & E & _); by exists m).
    assert (forall i m, i ∈ nodes t -> ns !! i = Some m -> (Z.of_nat (pub_idx m) < 2 ^ 32)%Z) as Hpub.
    { intros i m I E. apply elem_of_list_lookup in I as [k I]. rewrite (Num k i m I E). apply lookup_lt_Some in I. lia. }
    destruct (xtree_ok (F := F) isprint known wrapv buf ns js Hb Hp t Hpub Hin t 0 0 A Nd ltac:(auto) 0%Z) as (body & extra & Nz & _ & Ev & X).
    destruct (X [10%Z]) as (d & G & C & Rd & Rn & Ds & Lx); [repeat constructor; by right|].
    exists (txt_header ++ xml_line 0 ++ (60 :: body) ++ [10])%Z, d, [([118; 101; 114; 115; 105; 111; 110], [49; 46; 48])]%Z.
    split.
    { destruct t as [i ks]. cbn [root] in R1. subst i.
      destruct (dfs_tree (xml_print_node isprint wrapv buf js)) with (start := 1) (ns0 := ns) (i := 1) (ks := ks) (par := 0) (nxt := 0) (c := (txt_header, [] : list (nat * bool))) as [fuel Fu]; [|done|done|done|by right|].
      - intros ns0 c i l o b ns' c' E. unfold xml_print_node in E. destruct o.
        + destruct (xml_pre isprint wrapv buf js ns0 c i l); [|done]. cbn in E. by injection E as _ <- _.
        + destruct (xml_post js ns0 c i l); [|done]. cbn in E. by injection E as _ <- _.
      - exists fuel. intros fuel' L. unfold xml1_save. rewrite Fu by done. rewrite Ev. cbn. by rewrite <- ?app_assoc. }
    split.
    { change (nz (txt_header ++ xml_line 0 ++ (60 :: body) ++ [10%Z])%Z). rewrite !nz_app. split; [repeat constructor; discriminate|]. split; [repeat constructor; discriminate|]. split; [done|]. repeat constructor; discriminate. }
    split; [done|]. split; [done|]. split.
    { unfold toptoks, ptoks. cbn [map concat fst snd app].
      change (txt_header ++ xml_line 0 ++ (60 :: body) ++ [10])%Z with
        ([60; 63; 120; 109; 108] ++ xml_attr [118; 101; 114; 115; 105; 111; 110] [49; 46; 48] ++ [63; 62] ++ [10] ++ 60 :: body ++ [10])%Z.
      apply (xlexes_docopen (xml_attr [118; 101; 114; 115; 105; 111; 110] [49; 46; 48] ++ [63; 62] ++ [10] ++ 60 :: body ++ [10])%Z).
      apply (xlexes_prop [118; 101; 114; 115; 105; 111; 110]%Z [49; 46; 48]%Z ([63; 62] ++ [10] ++ 60 :: body ++ [10])%Z); [apply xident_null|repeat constructor; discriminate|]. apply (xlexes_docclose [10%Z]); [repeat constructor; discriminate|done|].
      pose proof (Lx [] [] I (lexes_nil _)) as Y. by rewrite !app_nil_r in Y. }
    split; [|by split].
    apply Rn. intros j i E. destruct (Hin i) as [m Em]; [by eapply elem_of_list_lookup_2|].
    unfold public. rewrite Em, (Num j i m E Em). lia.
  Qed.
End Save.
