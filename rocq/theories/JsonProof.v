(** Documents, texts and tables: what P_Json.v needs. *)
From Verif Require Import Base Ptrs NumStr NumStrProof Parse ParseProof Json JsonParse LexProof JsonLex JsonSpec JsonSave DfsProof PruneProof.
From stdpp Require Import sets.

Section Load.
  Context (known : list Z -> bool).
  Notation good := (doc_all (jgood known)).

  Definition loaded (d : jdoc) (s : lst pinfo) : Prop :=
    ra (l_ptrs s) = fresh_node :: table jfin 0 1 0 d /\ l_info s = pinfo0 :: dinfos jinf d /\ l_cur s = 0.

  Lemma start_opened : lstart pinfo0 = jopened [] fresh_node [] 0 [pinfo0].
  Proof. done. Qed.

  Lemma load_accept text d : good d -> dname d = None -> jlexes text (dtoks d) -> exists s, json_load known text s /\ loaded d s.
  Proof.
    intros G N L. assert (good (anon d)) as G' by (by rewrite anon_id).
    destruct (accept known d G' [] fresh_node [] 0 [pinfo0] []) as (c' & D & _); [done|apply cached_nil|by right|done|].
    rewrite anon_id, app_nil_r in D by done.
    eexists. split; [exists (dtoks d); split; [by apply L|exact D]|]. split; [|done]. unfold opened, opened_ns. cbn [l_ptrs ra app tables length own].
    by rewrite app_nil_r.
  Qed.

  Lemma load_explain text s : json_load known text s -> exists d, good d /\ dname d = None /\ json_lex text = Some (dtoks d) /\ loaded d s.
  Proof.
    intros (ts & L & D). apply explain in D.
    destruct (D [] fresh_node [] 0 [pinfo0]) as (d & c' & G & N & -> & -> & _); [done|done|apply cached_nil|by right|done|].
    exists d. split; [done|]. split; [done|]. split; [by rewrite app_nil_r in L|]. split; [|done]. unfold opened, opened_ns. cbn [l_ptrs ra app tables length own].
    by rewrite app_nil_r.
  Qed.

  Lemma load_same text d s : json_lex text = Some (dtoks d) -> good d -> dname d = None -> json_load known text s -> loaded d s.
  Proof.
    intros L G N H. destruct (load_explain text s H) as (d' & G' & N' & L' & X). rewrite L in L'. injection L' as E.
    destruct (unambiguous known d d' [] [] G G') as [-> _]; [congruence|by rewrite !app_nil_r|done].
  Qed.

  Lemma good_plain d : good d -> doc_all (plain_links jfin) d.
  Proof.
    induction d as [a ks IH] using doc_ind'. rewrite !doc_all_eq. intros [_ G]. split.
    - intros k p nx. by destruct ks.
    - rewrite Forall_forall in *. auto.
  Qed.

  Lemma loaded_tree d s : good d -> loaded d s -> tree_at (ra (l_ptrs s)) 0 0 (number_doc 1 d).
  Proof.
    intros G (-> & _ & _). pose proof (table_tree jfin d [fresh_node] 0 0 [] (good_plain d G) ltac:(done)) as A.
    rewrite app_nil_r in A. exact A.
  Qed.

  Lemma table_index (d : jdoc) : forall p k nx j n, table jfin p k nx d !! j = Some n -> pub_idx n = k + j.
  Proof.
    induction d as [a ks IH] using doc_ind'. intros p k nx j n. rewrite table_eq. destruct j as [|j]; cbn [lookup].
    - intros [= <-]. cbn. lia.
    - cbn. intros E. replace (k + S j) with (S k + j) by lia. revert E. generalize (S k) as m. intros m. revert m j.
      induction IH as [|t ts Ht _ IH]; intros m j; [done|]. cbn [tables]. rewrite lookup_app_Some, table_length.
      intros [E|[L E]]; [by apply (Ht _ _ _ _ _ E)|]. rewrite (IH _ _ E). lia.
  Qed.

  Lemma infos_known d : good d -> (dname d = None \/ exists nm, dname d = Some nm /\ known nm = true) -> forall j p nm, dinfos jinf d !! j = Some p -> p_name p = Some nm -> known nm = true.
  Proof.
    induction d as [a ks IH] using doc_ind'. rewrite doc_all_eq. intros [G Gs] N j p nm. cbn [dinfos].
    destruct j as [|j]; cbn [lookup].
    - intros [= <-] E. assert (a_name a = Some nm) as Ea by (unfold jinf in E; by destruct (a_val a)).
      cbn [dname] in N. rewrite Ea in N. destruct N as [?|(nm' & [= ->] & ?)]; done.
    - cbn. intros E En. assert (Forall (fun d => dname d = None \/ exists nm, dname d = Some nm /\ known nm = true) ks) as K.
      { unfold jgood in G. destruct (a_val a).
        - eapply Forall_impl; [exact G|]. cbn. auto.
        - eapply Forall_impl; [exact G|]. cbn. auto.
        - destruct G as [-> _]. constructor.
        - subst ks. constructor.
        - subst ks. constructor. }
      clear G N. revert j E. induction IH as [|t ts Ht _ IH]; intros j E; [done|]. apply Forall_cons in Gs as [Gt Gs], K as [Kt Ks].
      cbn [map concat] in E. apply lookup_app_Some in E as [E|[_ E]]; [by apply (Ht Gt Kt _ _ _ E)|by apply (IH Gs Ks _ E)].
  Qed.

  (** Values are at leaves. *)
  Lemma table_leaf (d : jdoc) : good d -> forall p k nx j n i, table jfin p k nx d !! j = Some n -> dinfos jinf d !! j = Some i -> first_child n <> 0 -> p_val i = LNone /\ p_null i = false.
  Proof.
    induction d as [a ks IH] using doc_ind'. rewrite doc_all_eq. intros [G Gs] p k nx j n i. rewrite table_eq. cbn [dinfos]. destruct j as [|j]; cbn [lookup].
    - intros [= <-] [= <-]. cbn. destruct ks as [|t ts]; [done|]. intros _. unfold jgood in G. unfold jinf. destruct (a_val a); try done. by destruct G.
    - cbn. clear G. generalize (S k) as m. intros m. revert m j.
      induction IH as [|t ts Ht _ IH]; intros m j; [done|]. apply Forall_cons in Gs as [Gt Gs]. cbn [tables map concat].
      intros E1 E2. destruct (decide (j < dsize t)).
      + rewrite lookup_app_l in E1 by (by rewrite table_length). rewrite lookup_app_l in E2 by (by rewrite dinfos_length). by apply (Ht Gt _ _ _ _ _ _ E1 E2).
      + rewrite lookup_app_r, table_length in E1 by (rewrite table_length; lia). rewrite lookup_app_r, dinfos_length in E2 by (rewrite dinfos_length; lia). by apply (IH Gs _ _ E1 E2).
  Qed.

  Lemma loaded_nodes (d : jdoc) : nodes (number_doc 1 d) = seq 1 (dsize d).
  Proof. apply number_nodes. Qed.
End Load.

Section Save.
  Context (known : list Z -> bool) (isprint : Z -> bool) (wrapv : bool) (buf : list Z) (ns : list node) (js : list jinfo).

  Lemma save_load t : length buf = print_buffer -> isprint 0%Z = false ->
    tree_at ns 0 0 t -> root t = 1 -> NoDup (nodes t) -> numbered ns t -> (Z.of_nat (length (nodes t)) < 2 ^ 32)%Z ->
    (forall i, i ∈ nodes t -> node_ok known wrapv ns js t i) ->
    exists text d, (exists fuel, forall fuel', fuel <= fuel' -> json_save isprint wrapv buf js fuel' ns = Some text) /\
      Forall (fun c => c <> 0%Z) text /\ doc_all (jgood known) d /\ dname d = None /\ jlexes text (dtoks d) /\
      rename (public ns) t = number_doc 1 d /\ Forall2 (reads ns js) (nodes t) (dinfos jinf d) /\ dsize d = length (nodes t).
  Proof.
    intros Hb Hp A R1 Nd Num Sz Ok.
    assert (forall i, i ∈ nodes t -> exists m, ns !! i = Some m) as Hin by (intros i I; destruct (Ok i I) as (m & _ & E & _); by exists m).
    assert (forall i m, i ∈ nodes t -> ns !! i = Some m -> (Z.of_nat (pub_idx m) < 2 ^ 32)%Z) as Hpub.
    { intros i m I E. apply elem_of_list_lookup in I as [k I]. rewrite (Num k i m I E). apply lookup_lt_Some in I. lia. }
    destruct (tree_ok known isprint wrapv buf ns js Hb Hp t Hpub Hin t 0 0 A ltac:(by left) Nd Ok) as (b & d & Eb & G & N & Rd & Rn & Ds & X).
    assert (b = false) as ->.
    { destruct (tree_at_root _ _ _ _ A) as (_ & n & En & P & _). rewrite En in Eb. rewrite <- Eb. unfold in_struct. by rewrite P. }
    destruct (X 0%Z) as (txt & RR & Nz & _ & Ev & Lx). exists txt, d.
    assert (dname d = None) as Dn by (destruct (dname d); [by destruct N|done]).
    split.
    { destruct t as [i ks]. cbn [root] in R1. subst i.
      destruct (dfs_tree (json_print_node isprint wrapv buf js)) with (start := 1) (ns0 := ns) (i := 1) (ks := ks) (par := 0) (nxt := 0) (c := ([], []) : jctx) as [fuel F]; [|done|done|done|by right|].
      - intros ns0 c i l o b ns' c' E. unfold json_print_node in E. destruct o.
        + destruct (json_pre isprint wrapv buf js ns0 c i l); [|done]. cbn in E. by injection E as _ <- _.
        + destruct (json_post ns0 c i l); [|done]. cbn in E. by injection E as _ <- _.
      - exists fuel. intros fuel' L. unfold json_save. rewrite F by done. rewrite Ev. done. }
    split; [done|]. split; [done|]. split; [done|]. split.
    { specialize (Lx [] [] ltac:(apply lexes_nil)). cbn [comma ktoks app] in Lx. rewrite !app_nil_r in Lx. exact Lx. }
    split; [|by split].
    apply Rn. intros j i E. destruct (Hin i) as [m Em]; [by eapply elem_of_list_lookup_2|].
    unfold public. rewrite Em, (Num j i m E Em). lia.
  Qed.
End Save.
