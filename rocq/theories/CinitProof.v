(** Documents, texts and tables: what P_Cinit.v needs. *)
From Verif Require Import Base Ptrs NumStr NumStrProof Parse ParseProof Json JsonParse LexProof JsonLex JsonSpec JsonSave Value ValueProof Cinit CinitParse CinitSpec CinitLex CinitSave DfsProof PruneProof.
From stdpp Require Import sets.

Section Load.
  Context {F : Type} `{FL : Floats F}.
  Context (known : option (list Z) -> list Z -> bool) (ktype : list Z -> bool) (wrapv : bool) (e : env).
  Notation good := (doc_all (cgood (F := F) known ktype wrapv e)).
  Notation inf := (cinf (F := F) wrapv e).
  Notation cload := (cinit_load (F := F) known ktype wrapv e).
  Notation pays := (dinfos (fun a : cpay (F := F) => a)).

  Definition loaded (d : doc cpay) (s : lst cinfo) : Prop :=
    ra (l_ptrs s) = fresh_node :: table cfin 0 1 0 d /\ l_info s = cinfo0 :: dinfos inf d /\ l_cur s = 0.

  Lemma load_accept text d : good d -> dname d = None -> lexes cinit_rules text (dtoks d) -> exists s, cload text s /\ loaded d s.
  Proof.
    intros G N L. destruct (accept known ktype wrapv e d G [] fresh_node [] 0 [cinfo0] []) as (c' & D & _); [done|apply cached_nil|by right|done|].
    rewrite anon_id, app_nil_r in D by done.
    eexists. split; [exists (dtoks d); split; [by apply L|exact D]|]. split; [|done]. unfold opened, opened_ns. cbn [l_ptrs ra app tables length own].
    by rewrite app_nil_r.
  Qed.

  Lemma load_explain text s : cload text s -> exists d, good d /\ dname d = None /\ cinit_lex text = Some (dtoks d) /\ loaded d s.
  Proof.
    intros (ts & L & D). apply explain in D.
    destruct (D [] fresh_node [] 0 [cinfo0]) as (d & c' & G & N & -> & -> & _); [done|done|apply cached_nil|by right|done|].
    exists d. split; [done|]. split; [done|]. split; [by rewrite app_nil_r in L|]. split; [|done]. unfold opened, opened_ns. cbn [l_ptrs ra app tables length own].
    by rewrite app_nil_r.
  Qed.

  Lemma load_same text d s : cinit_lex text = Some (dtoks d) -> good d -> dname d = None -> cload text s -> loaded d s.
  Proof.
    intros L G N H. destruct (load_explain text s H) as (d' & G' & N' & L' & X). rewrite L in L'. injection L' as E.
    destruct (unambiguous known ktype wrapv e d d' [] [] G G') as [-> _]; [congruence|done|done|by rewrite !app_nil_r|done].
  Qed.

  Lemma loaded_tree d s : doc_all (plain_links cfin) d -> loaded d s -> tree_at (ra (l_ptrs s)) 0 0 (number_doc 1 d).
  Proof.
    intros G (-> & _ & _). pose proof (table_tree cfin d [fresh_node] 0 0 [] G ltac:(done)) as A.
    rewrite app_nil_r in A. exact A.
  Qed.

  Lemma infos_pays d : dinfos inf d = map inf (pays d).
  Proof.
    induction d as [a ks IH] using doc_ind'. cbn [dinfos map]. f_equal.
    induction IH as [|t ts Ht _ IH]; [done|]. cbn [map concat]. by rewrite map_app, <- Ht, IH.
  Qed.

  Lemma table_pay d : forall p k nx j a, pays d !! j = Some a -> exists p' nx' fc', table cfin p k nx d !! j = Some (cfin a (k + j) (blank p' nx' fc')).
  Proof.
    induction d as [a0 ks IH] using doc_ind'. intros p k nx j a. rewrite table_eq. cbn [dinfos]. destruct j as [|j]; cbn [lookup].
    - intros [= <-]. cbn. rewrite Nat.add_0_r. eauto.
    - cbn. intros E. replace (k + S j) with (S k + j) by lia. revert E. generalize (S k) as m. intros m. revert m j.
      induction IH as [|t ts Ht _ IH]; intros m j E; [done|]. cbn [tables map concat] in *. apply lookup_app_Some in E as [E|[L E]].
      + destruct (Ht k m (match ts with [] => 0 | _ => m + dsize t end) _ _ E) as (p' & nx' & fc' & X). exists p', nx', fc'. by apply lookup_app_l_Some.
      + rewrite dinfos_length in L, E. destruct (IH (m + dsize t) _ E) as (p' & nx' & fc' & X). exists p', nx', fc'. cbn [Nat.add] in *.
        rewrite lookup_app_r, table_length by (rewrite table_length; lia). rewrite X. do 2 f_equal; lia.
  Qed.

  (** Parents. *)
  Lemma table_parent d : good d -> forall p k nx j m, table cfin p k nx d !! j = Some m ->
    (j = 0 /\ parent m = p) \/ exists j' i, parent m = k + j' /\ j' < j /\ dinfos inf d !! j' = Some i /\ c_val i = VVoid /\ c_null i = false.
  Proof.
    induction d as [a ks IH] using doc_ind'. rewrite doc_all_eq. intros [G Gs] p k nx j m. rewrite table_eq. cbn [dinfos]. destruct j as [|j]; cbn [lookup].
    - intros [= <-]. left. split; [done|]. by rewrite fin_parent.
    - cbn. intros E. right.
      assert (exists j', parent m = k + j' /\ ((j' = 0 /\ ks <> []) \/ exists j0 i, j' = S j0 /\ j0 < j /\ concat (map (dinfos inf) ks) !! j0 = Some i /\ c_val i = VVoid /\ c_null i = false)) as (j' & Ep & Hj).
      { replace (S k) with (S k + 0) in E by lia.
        assert (forall o, tables cfin k (S k + o) 0 ks !! j = Some m -> exists j', parent m = k + j' /\ ((j' = 0 /\ ks <> []) \/ exists j0 i, j' = S (o + j0) /\ j0 < j /\ concat (map (dinfos inf) ks) !! j0 = Some i /\ c_val i = VVoid /\ c_null i = false)) as Gn.
        { clear E G. revert j. induction IH as [|t ts Ht _ IH]; intros j o E; [done|]. apply Forall_cons in Gs as [Gt Gs]. cbn [tables map concat] in *.
          apply lookup_app_Some in E as [E|[L E]].
          - destruct (Ht Gt _ _ _ _ _ E) as [[-> ->]|(j1 & i & -> & Lj & Ei & V)]; [exists 0; split; [lia|by left]|].
            exists (S (o + j1)). split; [lia|]. right. exists j1, i. split; [done|]. split; [done|]. split; [by apply lookup_app_l_Some|done].
          - rewrite table_length in L, E. replace (S k + o + dsize t) with (S k + (o + dsize t)) in E by lia.
            destruct (IH Gs _ _ E) as (j1 & -> & [[-> _]|(j0 & i & -> & Lj & Ei & V)]); [exists 0; split; [done|by left]|].
            eexists. split; [reflexivity|]. right. exists (dsize t + j0), i. split; [lia|]. split; [lia|]. split; [|done].
            rewrite lookup_app_r, dinfos_length by (rewrite dinfos_length; lia). by replace (dsize t + j0 - dsize t) with j0 by lia. }
        apply Gn in E as (j' & -> & [?|(j0 & i & -> & H)]); [exists j'; auto|]. exists (S j0). split; [done|]. right. eauto. }
      exists j'. destruct Hj as [[-> Ne]|(j0 & i & -> & Lj & Ei & V)].
      + exists (inf a). split; [done|]. split; [lia|]. split; [done|].
        assert (exists tr, d_val a = DBlock tr) as [tr Ev] by (destruct G as [_ G]; destruct (d_val a); [by eexists|by destruct G|done|by destruct G|by destruct G]).
        assert (forall l (x : cinfo (F := F)), c_val (foldr attr_info x l) = c_val x /\ c_null (foldr attr_info x l) = c_null x) as At.
        { intros l x. induction l as [|y l IHl]; [done|]. cbn [foldr]. unfold attr_info at 1 3. by repeat case_decide. }
        assert (c_val (cbody wrapv e a) = VVoid /\ c_null (cbody wrapv e a) = false) as [V1 V2].
        { unfold cbody. rewrite !(proj1 (At _ _)), !(proj2 (At _ _)), Ev. unfold cast_info. destruct (d_cast a); [by case_decide|done]. }
        unfold cinf. by destruct (d_name a).
      + exists i. split; [done|]. split; [lia|]. by split.
  Qed.

  (** Names and types. *)
  Lemma infos_known d : good d -> cname_ok known wrapv e d -> forall j p, dinfos inf d !! j = Some p ->
    (forall nm, c_name p = Some nm -> known (c_type p) nm = true) /\ (forall ty, c_type p = Some ty -> ktype ty = true).
  Proof.
    induction d as [a ks IH] using doc_ind'. rewrite doc_all_eq. intros [G Gs] N j p. cbn [dinfos].
    assert (forall l (x : cinfo (F := F)), c_name (foldr attr_info x l) = c_name x /\ c_type (foldr attr_info x l) = c_type x) as At.
    { intros l x. induction l as [|y l IHl]; [done|]. cbn [foldr]. unfold attr_info at 1 3. by repeat case_decide. }
    destruct j as [|j]; cbn [lookup].
    - intros [= <-].
      assert (c_name (cbody wrapv e a) = None /\ forall ty, c_type (cbody wrapv e a) = Some ty -> ktype ty = true) as [B1 B2].
      { unfold cbody. rewrite !(proj1 (At _ _)), !(proj2 (At _ _)). destruct G as [G _].
        assert (c_name (val_info (F := F) wrapv e (d_val a)) = None /\ c_type (val_info (F := F) wrapv e (d_val a)) = None) as [V1 V2] by (by destruct (d_val a)).
        unfold cast_info. destruct (d_cast a) as [ty|]; [case_decide|].
        - by rewrite V1, V2.
        - cbn. rewrite V1. split; [done|]. intros ? [= <-]. by destruct G.
        - by rewrite V1, V2. }
      unfold cinf. unfold cname_ok in N. cbn [dname dtype] in N. destruct (d_name a) as [nm|]; cbn.
      + destruct N as [?|(nm' & [= <-] & K)]; [done|]. split; [by intros ? [= <-]|done].
      + split; [by rewrite B1|done].
    - cbn. intros E. assert (Forall (cname_ok known wrapv e) ks) as K.
      { destruct G as [_ G]. destruct (d_val a); [apply G|by destruct G as [-> _]|by subst ks|by destruct G as [-> _]|by destruct G as [-> _]]. }
      clear G N. revert j E. induction IH as [|t ts Ht _ IH]; intros j E; [done|]. apply Forall_cons in Gs as [Gt Gs], K as [Kt Ks].
      cbn [map concat] in E. apply lookup_app_Some in E as [E|[_ E]]; [by apply (Ht Gt Kt _ _ E)|by apply (IH Gs Ks _ E)].
  Qed.

  (** Shape, when no reference has members. *)
  Lemma cfin_ref (a : cpay (F := F)) k p nx fc k' p' nx' fc' : is_ref (cfin a k (blank p nx fc)) = is_ref (cfin a k' (blank p' nx' fc')).
  Proof. unfold cfin. induction (d_attrs a) as [|[nm v] l IH]; [done|]. cbn [foldr]. unfold attr_node at 1 3. repeat case_decide; [done|done|exact IH|exact IH]. Qed.

  Lemma table_plain (L : list node) d : (forall i n j m, L !! i = Some n -> L !! j = Some m -> is_ref n = true -> parent m <> i) ->
    forall p k nx, (forall j x, table cfin p k nx d !! j = Some x -> L !! (k + j) = Some x) -> doc_all (plain_links (cfin (F := F))) d.
  Proof.
    intros H. induction d as [a ks IH] using doc_ind'. intros p k nx Hs. rewrite table_eq in Hs. rewrite doc_all_eq. split.
    - apply cfin_plain. intros Ne k' p' nx' fc'. destruct (is_ref (cfin a k' (blank p' nx' fc'))) eqn:E; [|done]. exfalso.
      destruct ks as [|[b us] ks]; [done|].
      pose proof (Hs 0 _ eq_refl) as H0. pose proof (Hs 1 _ eq_refl) as H1. cbn [tables] in H1. rewrite Nat.add_0_r in H0.
      apply (H _ _ _ _ H0 H1); [by rewrite <- E; apply cfin_ref|by rewrite fin_parent].
    - assert (forall j x, tables cfin k (S k) 0 ks !! j = Some x -> L !! (S k + j) = Some x) as Ht.
      { intros j x E. replace (S k + j) with (k + S j) by lia. by apply Hs. }
      clear Hs. revert Ht. generalize (S k) as m. induction IH as [|t ts Hi _ IH]; intros m Ht; [constructor|]. cbn [tables] in Ht. constructor.
      + eapply Hi. intros j x E. apply Ht. by apply lookup_app_l_Some.
      + apply (IH (m + dsize t)). intros j x E. replace (m + dsize t + j) with (m + (dsize t + j)) by lia. apply Ht.
        rewrite lookup_app_r, table_length by (rewrite table_length; lia). by replace (dsize t + j - dsize t) with j by lia.
  Qed.
End Load.

Section Save.
  Context {F : Type} `{FL : Floats F}.
  Context (isprint : Z -> bool) (known : option (list Z) -> list Z -> bool) (ktype : list Z -> bool) (wrapv : bool) (e : env).
  Context (buf : list Z) (ns : list node) (js : list sinfo).

  Lemma save_load t : length buf = print_buffer -> isprint 0%Z = false ->
    tree_at ns 0 0 t -> root t = 1 -> NoDup (nodes t) -> numbered ns t -> (Z.of_nat (length (nodes t)) < 2 ^ 32)%Z ->
    (forall i, i ∈ nodes t -> node_ok isprint known ktype wrapv e ns js t i) ->
    exists text (d : doc (cpay (F := F))), (exists fuel, forall fuel', fuel <= fuel' -> cinit_save isprint wrapv buf js fuel' ns = Some text) /\
      Forall (fun c => c <> 0%Z) text /\ doc_all (cgood known ktype wrapv e) d /\ doc_all (plain_links cfin) d /\ dname d = None /\ lexes cinit_rules text (dtoks d) /\
      rename (public ns) t = number_doc 1 d /\ Forall2 (creads wrapv e ns js) (nodes t) (dinfos (fun a => a) d) /\ dsize d = length (nodes t).
  Proof.
    intros Hb Hp A R1 Nd Num Sz Ok.
    assert (forall i, i ∈ nodes t -> exists m, ns !! i = Some m) as Hin by (intros i I; destruct (Ok i I) as (m & _ & E & _); by exists m).
    assert (forall i m, i ∈ nodes t -> ns !! i = Some m -> (Z.of_nat (pub_idx m) < 2 ^ 32)%Z) as Hpub.
    { intros i m I E. apply elem_of_list_lookup in I as [k I]. rewrite (Num k i m I E). apply lookup_lt_Some in I. lia. }
    destruct (ctree_ok (F := F) isprint known ktype wrapv e buf ns js Hb Hp t Hpub Hin t 0 0 A Nd ltac:(auto)) as (d & G & Pl & N & N0 & Rd & Rn & Ds & X).
    destruct (X 0%Z) as (txt & RR & Nz & _ & Ev & Lx). exists txt, d.
    pose proof (N0 eq_refl) as Dn.
    split.
    { destruct t as [i ks]. cbn [root] in R1. subst i.
      destruct (dfs_tree (cinit_print_node isprint wrapv buf js)) with (start := 1) (ns0 := ns) (i := 1) (ks := ks) (par := 0) (nxt := 0) (c := ([], []) : jctx) as [fuel Fu]; [|done|done|done|by right|].
      - intros ns0 c i l o b ns' c' E. unfold cinit_print_node in E. destruct o.
        + destruct (cinit_pre isprint wrapv buf js ns0 c i l); [|done]. cbn in E. by injection E as _ <- _.
        + destruct (json_post ns0 c i l); [|done]. cbn in E. by injection E as _ <- _.
      - exists fuel. intros fuel' L. unfold cinit_save. rewrite Fu by done. rewrite Ev. done. }
    split; [done|]. split; [done|]. split; [done|]. split; [done|]. split.
    { specialize (Lx [] [] ltac:(apply lexes_nil)). unfold etoks in Lx. rewrite Dn in Lx. cbn [ccomma nametoks app] in Lx. rewrite !app_nil_r in Lx. exact Lx. }
    split; [|by split].
    apply Rn. intros j i E. destruct (Hin i) as [m Em]; [by eapply elem_of_list_lookup_2|].
    unfold public. rewrite Em, (Num j i m E Em). lia.
  Qed.
End Save.
