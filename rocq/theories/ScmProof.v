(** Documents, texts and tables: what P_Scm.v needs. *)
From Verif Require Import Base Ptrs NumStr NumStrProof Parse ParseProof Json JsonParse LexProof JsonLex JsonSpec JsonSave Value ValueProof Cinit CinitParse CinitSpec CinitLex CinitSave Scm ScmParse ScmSpec ScmLex ScmSave DfsProof PruneProof.
From stdpp Require Import sets.

Section Load.
  Context {F : Type} `{FL : Floats F}.
  Context (known : list Z -> bool).
  Notation good := (doc_all (mgood (F := F) known)).
  Notation mload := (scm_load (F := F) known).
  Notation pays := (dinfos (fun a : mpay (F := F) => a)).

  Definition mloaded (d : doc (mpay (F := F))) (s : lst cinfo) : Prop :=
    ra (l_ptrs s) = fresh_node :: table mfin 0 1 0 d /\ l_info s = cinfo0 :: dinfos minf d /\ l_cur s = 0.

  Lemma mload_accept text d b1 b2 : good d -> scm_lex text = Some (toptoks b1 b2 d) -> exists s, mload text s /\ mloaded d s.
  Proof.
    intros G L. destruct (maccept known d G [] fresh_node [] 0 [cinfo0] (wstoks b2)) as (c' & D & _); [done|apply cached_nil|by right|done|].
    eexists. split.
    - exists (toptoks b1 b2 d). split; [done|]. unfold toptoks. eapply MD_top; [apply maccept_ws|exact D|]. pose proof (fun s => maccept_ws (F := F) known b2 [] s) as W. setoid_rewrite app_nil_r in W. apply W.
    - split; [|done]. unfold opened, opened_ns. cbn [l_ptrs ra app tables length own]. by rewrite app_nil_r.
  Qed.

  Lemma mload_explain text s : mload text s -> exists d b1 b2, good d /\ scm_lex text = Some (toptoks b1 b2 d) /\ mloaded d s.
  Proof.
    intros (ts & L & D). apply mexplain in D.
    destruct (D [] fresh_node [] 0 [cinfo0]) as (b1 & b2 & d & c' & G & -> & -> & _); [done|done|apply cached_nil|by right|done|].
    exists d, b1, b2. split; [done|]. split; [by rewrite app_nil_r in L|]. split; [|done]. unfold opened, opened_ns. cbn [l_ptrs ra app tables length own].
    by rewrite app_nil_r.
  Qed.

  Lemma toptoks_inj d d' b1 b2 b1' b2' : good d -> good d' -> toptoks b1 b2 d = toptoks b1' b2' d' -> d = d'.
  Proof.
    intros G G' E. unfold toptoks in E. destruct (mtoks_head d) as (x & m & Ex & Hx), (mtoks_head d') as (x' & m' & Ex' & Hx').
    assert (mtoks d ++ wstoks b2 = mtoks d' ++ wstoks b2') as E'.
    { destruct b1, b1'; cbn [wstoks app] in E; try done; [by injection E|..]; rewrite ?Ex, ?Ex' in E; cbn [app] in E; [injection E as <- _|injection E as -> _]; done. }
    by destruct (munambiguous known d d' _ _ G G' E') as [-> _].
  Qed.

  Lemma mload_same text d b1 b2 s : scm_lex text = Some (toptoks b1 b2 d) -> good d -> mload text s -> mloaded d s.
  Proof.
    intros L G H. destruct (mload_explain text s H) as (d' & b1' & b2' & G' & L' & X). rewrite L in L'. injection L' as E.
    by rewrite (toptoks_inj d d' _ _ _ _ G G' E).
  Qed.

  Lemma mloaded_tree d s : doc_all (plain_links mfin) d -> mloaded d s -> tree_at (ra (l_ptrs s)) 0 0 (number_doc 1 d).
  Proof.
    intros G (-> & _ & _). pose proof (table_tree mfin d [fresh_node] 0 0 [] G ltac:(done)) as A.
    rewrite app_nil_r in A. exact A.
  Qed.

  Lemma minfos_pays d : dinfos minf d = map minf (pays d).
  Proof.
    induction d as [a ks IH] using doc_ind'. cbn [dinfos map]. f_equal.
    induction IH as [|t ts Ht _ IH]; [done|]. cbn [map concat]. by rewrite map_app, <- Ht, IH.
  Qed.

  Lemma mtable_pay d : forall p k nx j a, pays d !! j = Some a -> exists p' nx' fc', table mfin p k nx d !! j = Some (mfin a (k + j) (blank p' nx' fc')).
  Proof.
    induction d as [a0 ks IH] using doc_ind'. intros p k nx j a. rewrite table_eq. cbn [dinfos]. destruct j as [|j]; cbn [lookup].
    - intros [= <-]. cbn. rewrite Nat.add_0_r. eauto.
    - cbn. intros E. replace (k + S j) with (S k + j) by lia. revert E. generalize (S k) as m. intros m. revert m j.
      induction IH as [|t ts Ht _ IH]; intros m j E; [done|]. cbn [tables map concat] in *. apply lookup_app_Some in E as [E|[L E]].
      + destruct (Ht k m (match ts with [] => 0 | _ => m + dsize t end) _ _ E) as (p' & nx' & fc' & X). exists p', nx', fc'. by apply lookup_app_l_Some.
      + rewrite dinfos_length in L, E. destruct (IH (m + dsize t) _ E) as (p' & nx' & fc' & X). exists p', nx', fc'. cbn [Nat.add] in *.
        rewrite lookup_app_r, table_length by (rewrite table_length; lia). rewrite X. do 2 f_equal; lia.
  Qed.

  (** Parents. *)
  Lemma mtable_parent d : good d -> forall p k nx j m, table mfin p k nx d !! j = Some m ->
    (j = 0 /\ parent m = p) \/ exists j' i, parent m = k + j' /\ j' < j /\ dinfos minf d !! j' = Some i /\ c_val i = VVoid /\ c_null i = false.
  Proof.
    induction d as [a ks IH] using doc_ind'. rewrite doc_all_eq. intros [G Gs] p k nx j m. rewrite table_eq. cbn [dinfos]. destruct j as [|j]; cbn [lookup].
    - intros [= <-]. left. split; [done|]. by rewrite mfin_parent.
    - cbn. intros E. right.
      assert (exists j', parent m = k + j' /\ ((j' = 0 /\ ks <> []) \/ exists j0 i, j' = S j0 /\ j0 < j /\ concat (map (dinfos minf) ks) !! j0 = Some i /\ c_val i = VVoid /\ c_null i = false)) as (j' & Ep & Hj).
      { replace (S k) with (S k + 0) in E by lia.
        assert (forall o, tables mfin k (S k + o) 0 ks !! j = Some m -> exists j', parent m = k + j' /\ ((j' = 0 /\ ks <> []) \/ exists j0 i, j' = S (o + j0) /\ j0 < j /\ concat (map (dinfos minf) ks) !! j0 = Some i /\ c_val i = VVoid /\ c_null i = false)) as Gn.
        { clear E G. revert j. induction IH as [|t ts Ht _ IH]; intros j o E; [done|]. apply Forall_cons in Gs as [Gt Gs]. cbn [tables map concat] in *.
          apply lookup_app_Some in E as [E|[L E]].
          - destruct (Ht Gt _ _ _ _ _ E) as [[-> ->]|(j1 & i & -> & Lj & Ei & V)]; [exists 0; split; [lia|by left]|].
            exists (S (o + j1)). split; [lia|]. right. exists j1, i. split; [done|]. split; [done|]. split; [by apply lookup_app_l_Some|done].
          - rewrite table_length in L, E. replace (S k + o + dsize t) with (S k + (o + dsize t)) in E by lia.
            destruct (IH Gs _ _ E) as (j1 & -> & [[-> _]|(j0 & i & -> & Lj & Ei & V)]); [exists 0; split; [done|by left]|].
            eexists. split; [reflexivity|]. right. exists (dsize t + j0), i. split; [lia|]. split; [lia|]. split; [|done].
            rewrite lookup_app_r, dinfos_length by (rewrite dinfos_length; lia). by replace (dsize t + j0 - dsize t) with j0 by lia. }
        apply Gn in E as (j' & -> & [?|(j0 & i & -> & H)]); [exists j'; auto|]. exists (S j0). split; [done|]. right. eauto. }
      exists j'. destruct Hj as [[-> Ne]|(j0 & i & -> & Lj & Ei & V)].
      + exists (minf a). split; [done|]. split; [lia|]. split; [done|].
        assert (exists ws, p_value a = SList ws) as [ws Ev] by (destruct G as [_ G]; destruct (p_value a); [by eexists|by destruct G|by destruct G|by destruct G|done]).
        assert (forall l (x : cinfo (F := F)), c_val (foldr attr_info x l) = c_val x /\ c_null (foldr attr_info x l) = c_null x) as At.
        { intros l x. induction l as [|y l IHl]; [done|]. cbn [foldr]. unfold attr_info at 1 3. by repeat case_decide. }
        assert (forall l (x : cinfo (F := F)), c_val (named_info l x) = c_val x /\ c_null (named_info l x) = c_null x) as An.
        { intros l x. induction l as [|y l IHl]; [done|]. done. }
        unfold minf. rewrite (proj1 (At _ _)), (proj2 (At _ _)), (proj1 (An _ _)), (proj2 (An _ _)), Ev. done.
      + exists i. split; [done|]. split; [lia|]. by split.
  Qed.

  (** Names. *)
  Lemma minfos_known d : good d -> forall j p, dinfos minf d !! j = Some p ->
    (forall nm, c_name p = Some nm -> known nm = true) /\ c_type p = None.
  Proof.
    induction d as [a ks IH] using doc_ind'. rewrite doc_all_eq. intros [G Gs] j p. cbn [dinfos].
    assert (forall l (x : cinfo (F := F)), c_name (foldr attr_info x l) = c_name x /\ c_type (foldr attr_info x l) = c_type x) as At.
    { intros l x. induction l as [|y l IHl]; [done|]. cbn [foldr]. unfold attr_info at 1 3. by repeat case_decide. }
    destruct j as [|j]; cbn [lookup].
    - intros [= <-]. unfold minf. rewrite (proj1 (At _ _)), (proj2 (At _ _)). destruct G as [G _].
      assert (c_name (mval_info (p_value a)) = None /\ c_type (mval_info (p_value a)) = None) as [V1 V2] by (by destruct (p_value a)).
      destruct (p_names a) as [|nm nms]; cbn [named_info foldr].
      + rewrite V1. by split.
      + apply Forall_cons in G as [K G]. cbn. split; [by intros ? [= <-]|]. clear G K. induction nms as [|y l IHl]; [done|]. done.
    - cbn. intros E. clear G. revert j E. induction IH as [|t ts Ht _ IH]; intros j E; [done|]. apply Forall_cons in Gs as [Gt Gs].
      cbn [map concat] in E. apply lookup_app_Some in E as [E|[_ E]]; [by apply (Ht Gt _ _ E)|by apply (IH Gs _ E)].
  Qed.

  (** Shape, when no reference has members. *)
  Lemma mfin_ref (a : mpay (F := F)) k p nx fc k' p' nx' fc' : is_ref (mfin a k (blank p nx fc)) = is_ref (mfin a k' (blank p' nx' fc')).
  Proof. unfold mfin. induction (p_attrs a) as [|[nm v] l IH]; [done|]. cbn [foldr]. unfold attr_node at 1 3. repeat case_decide; [done|done|exact IH|exact IH]. Qed.

  Lemma mtable_plain (L : list node) d : (forall i n j m, L !! i = Some n -> L !! j = Some m -> is_ref n = true -> parent m <> i) ->
    forall p k nx, (forall j x, table mfin p k nx d !! j = Some x -> L !! (k + j) = Some x) -> doc_all (plain_links (mfin (F := F))) d.
  Proof.
    intros H. induction d as [a ks IH] using doc_ind'. intros p k nx Hs. rewrite table_eq in Hs. rewrite doc_all_eq. split.
    - apply mfin_plain. intros Ne k' p' nx' fc'. destruct (is_ref (mfin a k' (blank p' nx' fc'))) eqn:E; [|done]. exfalso.
      destruct ks as [|[b us] ks]; [done|].
      pose proof (Hs 0 _ eq_refl) as H0. pose proof (Hs 1 _ eq_refl) as H1. cbn [tables] in H1. rewrite Nat.add_0_r in H0.
      apply (H _ _ _ _ H0 H1); [by rewrite <- E; apply mfin_ref|by rewrite mfin_parent].
    - assert (forall j x, tables mfin k (S k) 0 ks !! j = Some x -> L !! (S k + j) = Some x) as Ht.
      { intros j x E. replace (S k + j) with (k + S j) by lia. by apply Hs. }
      clear Hs. revert Ht. generalize (S k) as m. induction IH as [|t ts Hi _ IH]; intros m Ht; [constructor|]. cbn [tables] in Ht. constructor.
      + eapply Hi. intros j x E. apply Ht. by apply lookup_app_l_Some.
      + apply (IH (m + dsize t)). intros j x E. replace (m + dsize t + j) with (m + (dsize t + j)) by lia. apply Ht.
        rewrite lookup_app_r, table_length by (rewrite table_length; lia). by replace (dsize t + j - dsize t) with j by lia.
  Qed.
End Load.

Section Save.
  Context {F : Type} `{FL : Floats F}.
  Context (isprint : Z -> bool) (known : list Z -> bool) (wrapv : bool).
  Context (buf : list Z) (ns : list node) (js : list minfo).

  Lemma msave_load t : length buf = print_buffer -> isprint 0%Z = false -> isprint 10%Z = false ->
    tree_at ns 0 0 t -> root t = 1 -> NoDup (nodes t) -> numbered ns t -> (Z.of_nat (length (nodes t)) < 2 ^ 32)%Z ->
    (forall i, i ∈ nodes t -> mnode_ok known wrapv ns js t i) ->
    exists text (d : doc (mpay (F := F))) b, (exists fuel, forall fuel', fuel <= fuel' -> scm_save isprint wrapv buf js fuel' ns = Some text) /\
      Forall (fun c => c <> 0%Z) text /\ doc_all (mgood known) d /\ doc_all (plain_links mfin) d /\ lexes scm_rules text (toptoks false b d) /\
      rename (public ns) t = number_doc 1 d /\ Forall2 (mreads ns js) (nodes t) (dinfos (fun a => a) d) /\ dsize d = length (nodes t).
  Proof.
    intros Hb Hp Hn A R1 Nd Num Sz Ok.
    assert (forall i, i ∈ nodes t -> exists m, ns !! i = Some m) as Hin by (intros i I; destruct (Ok i I) as (m & _ & E & _); by exists m).
    assert (forall i m, i ∈ nodes t -> ns !! i = Some m -> (Z.of_nat (pub_idx m) < 2 ^ 32)%Z) as Hpub.
    { intros i m I E. apply elem_of_list_lookup in I as [k I]. rewrite (Num k i m I E). apply lookup_lt_Some in I. lia. }
    destruct (mtree_ok (F := F) isprint known wrapv buf ns js Hb Hp Hn t Hpub Hin t 0 0 A Nd ltac:(by left) ltac:(auto)) as (d & mark & q & G & Pl & Rd & Rn & Ds & X).
    destruct (X 0%Z) as (body & Nz & Nb & Bb & Rb & Ev & Lx). exists (body ++ pend q), d, q.
    split.
    { destruct t as [i ks]. cbn [root] in R1. subst i.
      destruct (dfs_tree (scm_print_node isprint wrapv buf js)) with (start := 1) (ns0 := ns) (i := 1) (ks := ks) (par := 0) (nxt := 0) (c := [10%Z]) as [fuel Fu]; [|done|done|done|by right|].
      - intros ns0 c i l o b ns' c' E. unfold scm_print_node in E. destruct o.
        + destruct (scm_pre isprint wrapv buf js ns0 c i l); [|done]. cbn in E. by injection E as _ <- _.
        + destruct (scm_post js ns0 c i l); [|done]. cbn in E. by injection E as _ <- _.
      - exists fuel. intros fuel' L. unfold scm_save. rewrite Fu by done. pose proof (Ev [] true (fun ns txt => Done true ns txt) ltac:(by left)) as E. cbn [app pend] in E. rewrite E. done. }
    split; [apply nz_app; split; [done|destruct q; repeat constructor; discriminate]|]. split; [done|]. split; [done|]. split.
    { unfold toptoks. cbn [wstoks app]. apply Lx; [destruct q; cbn; auto|]. destruct q; cbn [pend wstoks]; [|apply lexes_nil].
      apply (mlexes_ws [10%Z] []); [done|repeat constructor; by right|done|apply lexes_nil]. }
    split; [|by split].
    apply Rn. intros j i E. destruct (Hin i) as [m Em]; [by eapply elem_of_list_lookup_2|].
    unfold public. rewrite Em, (Num j i m E Em). lia.
  Qed.
End Save.
