(** Theorems about the YAML format: src/yaml_save.c, src/yaml_load.c. *)
From stdpp Require Import sets.
From Verif Require Import Base Ptrs NumStr NumStrProof Enum DfsProof PruneProof Parse ParseProof Json JsonSpec Cinit Xml Yaml YamlSpec YamlParse YamlSave YamlMissed YamlProof YamlExplain.
Local Open Scope Z_scope.

(** C80.  A numbered tree of nodes is saved to YAML completely, apart from the nodes of
    type void, for which nothing is printed.  The events form a stream with one
    document, and the events of that document are loaded: the tree read has the same
    shape without the void nodes; names, values, NULL and references are those that
    were printed.  A number of a reference is that of exactly one node read, the copy
    of the target, if the target was printed with an anchor or there are no void
    nodes. *)
Theorem C80_yaml_document_roundtrip known utf8 wrapv buf ns js t :
  length buf = print_buffer -> (forall s, Forall (fun c => 0 < c < 128) s -> utf8 s = true) ->
  tree_at ns 0 0 t -> root t = 1%nat -> NoDup (nodes t) -> numbered ns t -> Z.of_nat (length (nodes t)) < 2 ^ 31 ->
  (forall i, i ∈ nodes t -> ynode_ok known utf8 wrapv ns js t i) -> void js 1 = false ->
  exists t' evs, kept js t = [t'] /\ wf_stream evs /\
    (exists fuel, forall fuel', (fuel <= fuel')%nat -> yaml_save utf8 wrapv buf js fuel' ns = Some (Some evs)) /\
    exists s, yaml_load known evs = Some s /\ l_cur s = 0%nat /\
      length (ra (l_ptrs s)) = S (length (nodes t')) /\ length (l_info s) = S (length (nodes t')) /\
      (forall f, (forall k i, nodes t' !! k = Some i -> f i = S k) -> tree_at (ra (l_ptrs s)) 0 0 (rename f t')) /\
      (forall k i, nodes t' !! k = Some i -> exists n d m r, ns !! i = Some n /\ js !! i = Some d /\
         ra (l_ptrs s) !! S k = Some m /\ l_info s !! S k = Some r /\ ynode_read js n d m r) /\
      (forall k i n m j g dg, nodes t' !! k = Some i -> ns !! i = Some n -> is_ref n = true -> ra (l_ptrs s) !! S k = Some m ->
         nodes t' !! j = Some (first_child n) -> ns !! first_child n = Some g -> js !! first_child n = Some dg ->
         (referenced g = true /\ is_ref g = false /\ y_null dg = false) \/ (forall x, x ∈ nodes t -> void js x = false) ->
         forall p mp, p <> 0%nat -> ra (l_ptrs s) !! p = Some mp -> pub_idx mp = first_child m <-> p = S j).
Proof. exact (yloaded known utf8 wrapv buf ns js t). Qed.
Print Assumptions C80_yaml_document_roundtrip.

(** An example: a structure with a = -5, s (a text that is referenced), a void member,
    l = [ '\x07' ], r (a reference to the content of s) and p = NULL. *)
Definition ex_ns : list node :=
  [ fresh_node; Node 0 0 2 1 false false false false; Node 1 3 0 2 false false false false; Node 1 4 0 3 false true false false;
    Node 1 5 0 4 false false false false; Node 1 7 6 5 false false false false; Node 5 0 0 6 false false false false;
    Node 1 8 3 7 true false false false; Node 1 0 0 8 false false false false ].
Definition ex_js : list yinfo :=
  [ YInfo YVoid true false false None; YInfo YStruct true false false None;
    YInfo (YInt I32 (2 ^ 32 - 5)) false false false (Some [97]); YInfo (YStr [120; 34; 121]) false false false (Some [115]);
    YInfo YVoid false false false (Some [118]); YInfo YPointer false false false (Some [108]); YInfo (YChar 7) true false false None;
    YInfo YPointer false false true (Some [114]); YInfo YPointer false true false (Some [112]) ].
Definition ex_tree : tree := T 1 [T 2 []; T 3 []; T 4 []; T 5 [T 6 []]; T 7 []; T 8 []].
Definition ex_known (nm : list Z) : bool := existsb (fun c => match nm with [x] => x =? c | _ => false end) [97; 115; 118; 108; 114; 112].
Definition ex_utf8 (s : list Z) : bool := forallb (fun c => (0 <? c) && (c <? 128)) s.
Definition ex_buf : list Z := repeat 0 print_buffer.

Lemma ex_utf8_ok s : Forall (fun c => 0 < c < 128) s -> ex_utf8 s = true.
Proof. intros F. apply forallb_forall. intros x Hx. rewrite Forall_forall in F. apply elem_of_list_In in Hx. specialize (F x Hx). cbn in F. lia. Qed.

Ltac solve_nodes := match goal with |- _ ∈ _ => apply elem_of_list_In; cbn; tauto | _ => idtac end.
Lemma ex_ok : forall i, i ∈ nodes ex_tree -> ynode_ok ex_known ex_utf8 false ex_ns ex_js ex_tree i.
Proof.
  intros i I. apply elem_of_list_In in I. cbn in I.
  destruct I as [<-|[<-|[<-|[<-|[<-|[<-|[<-|[<-|[]]]]]]]]]; (eexists _, _; split; [reflexivity|]; split; [reflexivity|]); cbn; repeat split; try done; try lia; auto; try (right; lia); solve_nodes.
Qed.
Lemma ex_numbered : numbered ex_ns ex_tree.
Proof.
  intros k i n. do 8 (destruct k as [|k]; [intros [= <-] [= <-]; reflexivity|]). intros [=].
Qed.
Example C80_yaml_document_roundtrip_example : exists t' evs s,
  kept ex_js ex_tree = [t'] /\ length (nodes t') = 7%nat /\ yaml_save ex_utf8 false ex_buf ex_js 100 ex_ns = Some (Some evs) /\
  yaml_load ex_known evs = Some s /\ (exists m g, ra (l_ptrs s) !! 6%nat = Some m /\ first_child m = 3%nat /\ ra (l_ptrs s) !! 3%nat = Some g /\ pub_idx g = 3%nat) /\
  r_val <$> (l_info s !! 2%nat) = Some (Some [45; 53]) /\ r_val <$> (l_info s !! 5%nat) = Some (Some [48; 120; 48; 55]).
Proof.
  destruct (C80_yaml_document_roundtrip ex_known ex_utf8 false ex_buf ex_ns ex_js ex_tree) as (t' & evs & _); [reflexivity|apply ex_utf8_ok| |done| |apply ex_numbered|done|apply ex_ok|done|].
  - cbn. repeat (eexists; repeat split; try done).
  - apply NoDup_ListNoDup. cbn. repeat constructor; cbn; lia.
  - eexists _, _, _. split; [reflexivity|]. split; [reflexivity|]. split; [vm_compute; reflexivity|]. split; [vm_compute; reflexivity|].
    split; [eexists _, _; repeat split; reflexivity|]. split; reflexivity.
Qed.

(** C80, the restriction.  For a void node nothing is printed, and the anchor of a
    target that is NULL (or a reference) is not printed either.  The reader then takes
    the number for the position of the node, and positions are shifted by the void
    node: the reference of this tree to the NULL pointer [p] leads to the number [n]
    behind it. *)
Definition sh_ns : list node :=
  [ fresh_node; Node 0 0 2 1 false false false false; Node 1 3 0 2 false false false false; Node 1 4 0 3 false true false false;
    Node 1 5 0 4 false false false false; Node 1 0 3 5 true false false false ].
Definition sh_js : list yinfo :=
  [ YInfo YVoid true false false None; YInfo YStruct true false false None; YInfo YVoid false false false (Some [118]);
    YInfo YPointer false true false (Some [112]); YInfo (YInt I32 7) false false false (Some [97]); YInfo YPointer false false false (Some [114]) ].
Definition sh_tree : tree := T 1 [T 2 []; T 3 []; T 4 []; T 5 []].
Theorem C80_void_shifts_numbers_refuted :
  tree_at sh_ns 0 0 sh_tree /\ NoDup (nodes sh_tree) /\ numbered sh_ns sh_tree /\
  (forall i, i ∈ nodes sh_tree -> ynode_ok ex_known ex_utf8 false sh_ns sh_js sh_tree i) /\ void sh_js 1 = false /\
  exists evs s, yaml_save ex_utf8 false ex_buf sh_js 100 sh_ns = Some (Some evs) /\ yaml_load ex_known evs = Some s /\
    (* the copies of nodes 3, 4 and 5 *)
    exists p n r, ra (l_ptrs s) !! 2%nat = Some p /\ ra (l_ptrs s) !! 3%nat = Some n /\ ra (l_ptrs s) !! 4%nat = Some r /\
      r_name <$> (l_info s !! 2%nat) = Some (Some [112]) /\ r_name <$> (l_info s !! 3%nat) = Some (Some [97]) /\
      is_ref r = true /\ pub_idx n = first_child r /\ pub_idx p <> first_child r.
Proof.
  split; [cbn; repeat (eexists; repeat split; try done)|]. split; [apply NoDup_ListNoDup; cbn; repeat constructor; cbn; lia|].
  split; [intros k i n; do 5 (destruct k as [|k]; [intros [= <-] [= <-]; reflexivity|]); intros [=]|]. split.
  { intros i I. apply elem_of_list_In in I. cbn in I.
    destruct I as [<-|[<-|[<-|[<-|[<-|[]]]]]]; (eexists _, _; split; [reflexivity|]; split; [reflexivity|]); cbn; repeat split; try done; try lia; auto; try (right; lia); solve_nodes. }
  split; [done|]. eexists _, _. split; [vm_compute; reflexivity|]. split; [vm_compute; reflexivity|].
  eexists _, _, _. repeat split; try reflexivity. discriminate.
Qed.
Print Assumptions C80_void_shifts_numbers_refuted.

(** C81.  Whatever stream of events with one document is accepted: the nodes read form
    one tree, numbered by position in the order of reading; names are known and values
    and names are scalars of the document, values being at leaves; and nothing is
    left out, every scalar, alias, mapping and sequence is a node or the name of one. *)
Theorem C81_yaml_accepted known evs s : wf_stream evs -> yaml_load known evs = Some s ->
  l_cur s = 0%nat /\ length (l_info s) = length (ra (l_ptrs s)) /\
  (exists t, tree_at (ra (l_ptrs s)) 0 0 t /\ nodes t = seq 1 (length (ra (l_ptrs s)) - 1)) /\
  (forall j m r, ra (l_ptrs s) !! S j = Some m -> l_info s !! S j = Some r ->
     (forall nm, r_name r = Some nm -> known nm = true /\ exists an, EScalar an nm ∈ evs) /\
     (forall v, r_val r = Some v -> is_ref m = false /\ first_child m = 0%nat /\ exists an, EScalar an v ∈ evs)) /\
  count starts evs = (length (ra (l_ptrs s)) - 1 + count has_name (l_info s))%nat.
Proof.
  intros W. unfold yaml_load. destruct (read_events known evs (lstart yread0)) as [s0|] eqn:R; [|done]. cbn [mbind option_bind].
  destruct (explain known evs s0 W R) as (d & G & K & ->).
  destruct (yload_doc known d G) as (c & Rd); [unfold yfits; rewrite K; by left|]. rewrite R in Rd. injection Rd as ->. cbn [l_ptrs ra l_info l_cur cache].
  destruct (add_missed_crossrefs (fresh_node :: table yfin 0 1 0 d)) as [ns2|] eqn:Ms; [|done]. cbn [mbind option_bind]. intros [= <-]. cbn [l_ptrs ra l_info l_cur].
  pose proof (missed_links _ _ Ms) as Lk.
  assert (length ns2 = S (dsize d)) as Ln.
  { rewrite <- (map_length links ns2), Lk, map_length. cbn [length]. by rewrite table_length. }
  split; [done|]. split; [cbn [length]; by rewrite dinfos_length, Ln|]. split.
  { exists (number_doc 1 d). split.
    - apply (tree_at_links (fresh_node :: table yfin 0 1 0 d)); [done|].
      pose proof (table_tree yfin d [fresh_node] 0 0 [] (good_plain known d G) ltac:(done)) as Tt. by rewrite app_nil_r in Tt.
    - rewrite number_nodes, Ln. f_equal. lia. }
  split.
  - intros j m r Em Er. change (dinfos yinf d !! j = Some r) in Er. rewrite infos_pay in Er. change (map yinf (dinfos id d)) with (yinf <$> dinfos id d) in Er. rewrite list_lookup_fmap in Er.
    destruct (dinfos id d !! j) as [a|] eqn:Ea; [|done]. cbn in Er. injection Er as <-.
    destruct (links_lookup ns2 (fresh_node :: table yfin 0 1 0 d) (S j) m ltac:(done) Em) as (m0 & Em0 & Lm).
    destruct (table_pay d 0 1 0 j m0 Em0) as (a' & p & nx & fc & Ea' & E0). rewrite Ea in Ea'. injection Ea' as <-.
    assert (a ∈ dinfos id d) as Ia by (by eapply elem_of_list_lookup_2).
    destruct (pay_events known d G a Ia) as [P1 P2].
    assert (forall e, e ∈ devs d -> e ∈ stream d) as St by (intros e He; unfold stream; do 2 right; apply elem_of_app; by left).
    split.
    + intros nm. rewrite yinf_name. destruct (p_key a) as [[an nm']|] eqn:Ek; [|done]. cbn. intros [= <-].
      split; [by apply (pay_known known d G K a an)|]. exists an. by apply St, P2.
    + intros v. rewrite yinf_val. destruct (p_body a) as [an w| | |] eqn:Eb; try done. intros [= <-].
      assert (is_ref m0 = false /\ first_child m0 = 0%nat) as [H1 H2].
      { split; [rewrite E0; unfold yfin; rewrite Eb; by rewrite read_anchor_ref|]. apply (scalar_leaf known d G 0%nat 1%nat 0%nat j m0 a); [done|done|by rewrite Eb]. }
      unfold links in Lm. injection Lm as _ _ L1 L2. split; [congruence|]. split; [congruence|]. exists an. by apply St.
  - unfold stream. rewrite !count_cons, count_app. cbn [starts]. rewrite (count_starts known d G), Ln.
    rewrite count_cons. change (count starts [EDocEnd; EStreamEnd]) with 0%nat. change (has_name yread0) with false. change (starts EDocEnd) with false. change (count starts [EStreamEnd]) with 0%nat. lia.
Qed.
Print Assumptions C81_yaml_accepted.

(** C81, the other direction.  A document without anchors and aliases whose keys are
    names the library knows is accepted. *)
Theorem C81_yaml_plain_accepted known body : plain_node known body ->
  exists s, yaml_load known (EStreamStart :: EDocStart :: body ++ [EDocEnd; EStreamEnd]) = Some s.
Proof.
  intros P. destruct (plain_doc known body P None) as (d & K & G & N & E).
  assert (EStreamStart :: EDocStart :: body ++ [EDocEnd; EStreamEnd] = stream d) as ->.
  { unfold stream. rewrite E. unfold key_evs. by rewrite K. }
  destruct (yload_doc known d G) as (c & Rd); [unfold yfits; rewrite K; by left|].
  assert (forall j m, j <> 0%nat -> (fresh_node :: table yfin 0 1 0 d) !! j = Some m -> is_ref m = false /\ pub_idx m = 0%nat) as H.
  { intros [|j] m; [done|]. intros _ Em. destruct (table_pay d 0 1 0 j m Em) as (a & p & nx & fc & Ea & ->).
    rewrite Forall_forall in N. specialize (N a ltac:(by eapply elem_of_list_lookup_2)). unfold no_anchor in N. unfold yfin.
    destruct (p_body a); try done; by subst an. }
  destruct (missed_ok (fresh_node :: table yfin 0 1 0 d)) as (ns2 & Ms & _).
  { done. }
  { intros i n Zi Ei Hr. destruct (H i n Zi Ei). congruence. }
  { intros i n Zi Ei. destruct (H i n Zi Ei) as [_ ->]. done. }
  unfold yaml_load. rewrite Rd. cbn [mbind option_bind l_ptrs ra]. rewrite Ms. by eexists.
Qed.
Print Assumptions C81_yaml_plain_accepted.

(** Examples: { a: x, l: [ y, { } ] }; and { a: x, l: *isnull } with an alias. *)
Definition ex_plain : list yev :=
  [EMap None; EScalar None [97]; EScalar None [120]; EScalar None [108]; ESeq None; EScalar None [121]; EMap None; EMapEnd; ESeqEnd; EMapEnd].
Example C81_yaml_plain_accepted_example : plain_node ex_known ex_plain.
Proof.
  change ex_plain with (EMap None :: (EScalar None [97] :: [EScalar None [120]] ++ EScalar None [108] :: (ESeq None :: ([EScalar None [121]] ++ (EMap None :: [] ++ [EMapEnd]) ++ []) ++ [ESeqEnd]) ++ []) ++ [EMapEnd]).
  repeat (constructor; try reflexivity).
Qed.
Example C81_yaml_accepted_example :
  let evs := [EStreamStart; EDocStart; EMap None; EScalar None [97]; EScalar (Some (txt_anchor ++ [55])) [120]; EScalar None [108]; EAlias (txt_anchor ++ [55]); EMapEnd; EDocEnd; EStreamEnd] in
  wf_stream evs /\ exists s, yaml_load ex_known evs = Some s /\ length (ra (l_ptrs s)) = 4%nat /\ count starts evs = 5%nat /\
    pub_idx <$> (ra (l_ptrs s) !! 2%nat) = Some 7%nat /\ first_child <$> (ra (l_ptrs s) !! 3%nat) = Some 7%nat.
Proof.
  cbv zeta. split.
  - exists (EMap None :: ([EScalar None [97]] ++ [EScalar (Some (txt_anchor ++ [55])) [120]] ++ [EScalar None [108]] ++ [EAlias (txt_anchor ++ [55])] ++ []) ++ [EMapEnd]).
    split; [repeat constructor|done].
  - eexists. split; [vm_compute; reflexivity|]. repeat split; reflexivity.
Qed.
