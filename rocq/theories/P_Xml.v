(** Theorems about whole XML1 documents: src/xml_save.c:248-372, src/xml1_load.l,
    src/xml1_load.y. *)
From stdpp Require Import sets.
From Verif Require Import Base Ptrs NumStr NumStrProof Enum Quote QuoteProof DfsProof PruneProof Parse ParseProof Json JsonParse LexProof JsonLex JsonSpec JsonSave Value ValueProof Cinit CinitParse CinitSpec Xml XmlParse XmlSpec XmlLex XmlSave XmlProof.
Local Open Scope Z_scope.

(** C68.  A numbered tree of nodes is printed completely, the text has no character
    0 and is a document the library accepts.  Whatever the parser makes of it has the
    same shape, every node being at the index which is its public number; names,
    texts of values, NULL, references and the numbers of referenced nodes are those
    that were printed. *)
Theorem C68_xml1_document_roundtrip {F : Type} `{FL : Floats F} isprint known wrapv buf ns js t :
  length buf = print_buffer -> isprint 0 = false ->
  tree_at ns 0 0 t -> root t = 1%nat -> NoDup (nodes t) -> numbered ns t -> Z.of_nat (length (nodes t)) < 2 ^ 32 ->
  (forall i, i ∈ nodes t -> xnode_ok known wrapv ns js t i) ->
  exists text,
    (exists fuel, forall fuel', (fuel <= fuel')%nat -> xml1_save isprint wrapv buf js fuel' ns = Some text) /\
    Forall (fun c => c <> 0) text /\
    (exists s : lst (@cinfo F), xml1_load known text s) /\
    forall s : lst (@cinfo F), xml1_load known text s ->
      l_cur s = 0%nat /\
      length (ra (l_ptrs s)) = S (length (nodes t)) /\ length (l_info s) = S (length (nodes t)) /\
      tree_at (ra (l_ptrs s)) 0 0 (rename (public ns) t) /\
      forall i, i ∈ nodes t -> exists n d q p, ns !! i = Some n /\ js !! i = Some d /\
        ra (l_ptrs s) !! pub_idx n = Some q /\ l_info s !! pub_idx n = Some p /\ xnode_read ns n d q p.
Proof.
  intros Hb Hp A R Nd Num Sz Ok.
  destruct (xsave_load (F := F) isprint known wrapv buf ns js t Hb Hp A R Nd Num Sz Ok) as (text & d & ps & Sv & Nz & G & C & Lx & Rn & Rd & Ds).
  exists text. split; [done|]. split; [done|]. pose proof (Lx _ (Nat.le_refl _) : xml_lex text = Some (toptoks ps d)) as Lt.
  destruct (calm_loaded known d G C) as (s0 & R0 & X0). pose proof (good_shaped known d G) as Sh. split.
  { exists s0. by eapply xload_accept. }
  intros s L. pose proof (xload_same known text ps d s Sh Lt L) as Rs. rewrite R0 in Rs. injection Rs as <-.
  pose proof (xloaded_tree d s0 C X0) as T. destruct X0 as (E1 & E2 & E3).
  split; [done|]. split; [rewrite E1; cbn [length]; rewrite table_length; by rewrite Ds|].
  split; [rewrite E2; cbn [length]; rewrite dinfos_length; by rewrite Ds|]. split; [by rewrite Rn|].
  intros i I. apply elem_of_list_lookup in I as [k I].
  destruct (Forall2_lookup_l _ _ _ _ _ Rd I) as (a & Ea & n & dd & En & Ed & Rp).
  destruct (xtable_pay d 0 1 0 k a Ea) as (p' & nx' & fc' & Et).
  exists n, dd, (xfin a (1 + k) (blank p' nx' fc')), (xinf a). split; [done|]. split; [done|].
  rewrite (Num k i n I En), E1, E2. split; [exact Et|]. split; [|by apply Rp].
  change (dinfos xinf d !! k = Some (xinf (F := F) a)). rewrite xinfos_pays. change (map xinf) with (fmap (M := list) (xinf (F := F))). rewrite list_lookup_fmap. by rewrite Ea.
Qed.
Print Assumptions C68_xml1_document_roundtrip.

(** ** An example *)
Local Instance ints_as_floats : Floats Z := {|
  f_of_int z := z; f_to_int z := Some z; f_neg := Z.opp; f_is_zero z := z =? 0;
  f_add := Z.add; f_sub := Z.sub; f_mul := Z.mul; f_div := Z.quot;
  c_mul a b := (a.1 * b.1 - a.2 * b.2, a.1 * b.2 + a.2 * b.1); c_div a b := a; strtold s := (15, 7%nat) |}.

(** A structure x with members a = -5, c = '\n', s = "x<y" (referred to), m = RED | LOW,
    p, an array true, NULL and an empty structure, r, a reference to the content
    of s, and f, a function at 0x1f without a name. *)
Definition ex_ns : list node :=
  [ fresh_node; Node 0 0 2 1 false false false false; Node 1 3 0 2 false false false false; Node 1 4 0 3 false false false false;
    Node 1 5 0 4 false true false false; Node 1 6 0 5 false false false false; Node 1 10 7 6 false false false false;
    Node 6 8 0 7 false false false false; Node 6 9 0 8 false false false false; Node 6 0 0 9 false false false false;
    Node 1 11 4 10 true false false false; Node 1 0 0 11 false false false false ].
Definition ex_js : list xinfo :=
  [ XInfo XNothing false false None; XInfo XNothing false false (Some [120]);
    XInfo (XInt I32 (2 ^ 32 - 5)) false false (Some [97]); XInfo (XChar 10) false false (Some [99]);
    XInfo (XText [120; 60; 121]) false false (Some [115]); XInfo (XPlain [82; 69; 68; 32; 124; 32; 76; 79; 87]) false false (Some [109]);
    XInfo XNothing false false (Some [112]); XInfo (XBool true) false false (Some [112]);
    XInfo XNothing true false (Some [112]); XInfo XNothing false false None;
    XInfo (XText []) false true (Some [114]); XInfo (XAddr 31) false false (Some [102]) ].
Definition ex_tree : tree := T 1 [T 2 []; T 3 []; T 4 []; T 5 []; T 6 [T 7 []; T 8 []; T 9 []]; T 10 []; T 11 []].
Definition ex_known (nm : list Z) : bool :=
  existsb (fun n => bool_decide (nm = n)) [[97]; [99]; [115]; [109]; [112]; [114]; [102]; [120]; txt_entity].
Definition ex_isprint (c : Z) : bool := (32 <=? c) && (c <? 127).
Definition ex_buf : list Z := repeat 0 print_buffer.

Lemma ex_word c l : ident_start c -> Forall ident_char l -> identifier (c :: l).
Proof. intros H1 H2. exists c, l. done. Qed.

Lemma ex_ok : forall i, i ∈ nodes ex_tree -> xnode_ok ex_known false ex_ns ex_js ex_tree i.
Proof.
  assert (forall i n d, ex_ns !! i = Some n -> ex_js !! i = Some d -> identifier (tag_name d) -> ex_known (tag_name d) = true ->
    (if is_ref n then first_child n ∈ nodes ex_tree
     else if x_null d then first_child n = 0%nat
     else xkind_ok false (x_kind d) /\ (first_child n <> 0%nat -> x_kind d = XNothing)) ->
    xnode_ok ex_known false ex_ns ex_js ex_tree i) as H by (intros i n d; exists n, d; done).
  intros i I. apply elem_of_list_In in I. cbn in I.
  destruct I as [<-|[<-|[<-|[<-|[<-|[<-|[<-|[<-|[<-|[<-|[<-|[]]]]]]]]]]]]; eapply H; try reflexivity;
    try (apply ex_word; [unfold ident_start; lia|repeat constructor; unfold ident_char, ident_start; lia]); cbn.
  - by split.
  - split; [|done]. split; [done|]. right. lia.
  - split; [lia|done].
  - split; [repeat constructor; lia|done].
  - split; [repeat constructor; lia|done].
  - by split.
  - by split.
  - by split.
  - mem.
  - split; [lia|done].
Qed.

Example C68_xml1_document_roundtrip_example :
  tree_at ex_ns 0 0 ex_tree /\ NoDup (nodes ex_tree) /\ numbered ex_ns ex_tree /\
  (forall i, i ∈ nodes ex_tree -> xnode_ok ex_known false ex_ns ex_js ex_tree i) /\
  xml1_save ex_isprint false ex_buf ex_js 60 ex_ns = Some
    (txt_header ++ [10] ++
     [60; 120; 62; 10] ++                                                                        (* <x> *)
     [32; 32; 60; 97; 62; 45; 53; 60; 47; 97; 62; 10] ++                                         (* <a>-5</a> *)
     [32; 32; 60; 99; 62; 38; 35; 120; 48; 65; 59; 60; 47; 99; 62; 10] ++                        (* <c>&#x0A;</c> *)
     [32; 32; 60; 115; 32; 114; 101; 102; 95; 105; 100; 120; 61; 34; 52; 34; 62] ++              (* <s ref_idx=4> *)
     [120; 38; 108; 116; 59; 121; 60; 47; 115; 62; 10] ++                                        (* x&lt;y</s> *)
     [32; 32; 60; 109; 62; 82; 69; 68; 32; 124; 32; 76; 79; 87; 60; 47; 109; 62; 10] ++
     [32; 32; 60; 112; 62; 10] ++
     [32; 32; 32; 32; 60; 112; 62; 116; 114; 117; 101; 60; 47; 112; 62; 10] ++
     [32; 32; 32; 32; 60; 112; 32; 105; 115; 110; 117; 108; 108; 61; 34; 116; 114; 117; 101; 34; 47; 62; 10] ++
     [32; 32; 32; 32; 60; 101; 110; 116; 105; 116; 121; 47; 62; 10] ++                           (* <entity/> *)
     [32; 32; 60; 47; 112; 62; 10] ++
     [32; 32; 60; 114; 32; 114; 101; 102; 95; 99; 111; 110; 116; 101; 110; 116; 61; 34; 52; 34; 47; 62; 10] ++
     [32; 32; 60; 102; 62; 48; 120; 49; 102; 60; 47; 102; 62; 10] ++                             (* <f>0x1f</f> *)
     [60; 47; 120; 62; 10]).
Proof.
  split; [|split; [|split; [|split; [apply ex_ok|vm_compute; reflexivity]]]].
  - cbn. repeat match goal with |- exists _, _ => eexists; split; [reflexivity|]; cbn | |- _ /\ _ => split | |- _ => done end.
  - cbn. apply (bool_decide_unpack _). vm_compute. done.
  - intros k i n E. cbn in E. do 11 (destruct k as [|k]; [injection E as <-; cbn; intros [= <-]; done|]). done.
Qed.

(** C69.  Whatever text the parser accepts, the nodes below the NULL node are numbered
    from 1 with parents before their children; all have names the library knows and
    no type, and the value of each is a text; when no node marked as a reference has
    others inside they form one well-formed tree; and the text determines everything. *)
Theorem C69_xml1_load_is_a_tree {F : Type} `{FL : Floats F} known text (s : lst (@cinfo F)) :
  xml1_load known text s ->
  l_cur s = 0%nat /\
  (exists k, length (ra (l_ptrs s)) = S (S k) /\ length (l_info s) = S (S k) /\
     ((forall i n j m, ra (l_ptrs s) !! i = Some n -> ra (l_ptrs s) !! j = Some m -> is_ref n = true -> parent m <> i) ->
      exists t, tree_at (ra (l_ptrs s)) 0 0 t /\ nodes t = seq 1 (S k))) /\
  (forall i n, ra (l_ptrs s) !! i = Some n -> (parent n = 0 /\ i <= 1 \/ 0 < parent n < i)%nat) /\
  (forall i p, l_info s !! S i = Some p ->
     (exists nm, c_name p = Some nm /\ known nm = true) /\ c_type p = None /\ exists txt, holds (c_val p) txt) /\
  (forall s', xml1_load known text s' -> s' = s).
Proof.
  intros H. destruct (xload_explain known text s H) as (ps & d & Sh & L & R).
  pose proof (xrun_good known d Sh _ _ R) as G. destruct (run_core known d s R) as (E1 & E2 & E3).
  assert (length (ra (l_ptrs s)) = S (dsize d)) as Ls.
  { apply (f_equal length) in E1. rewrite !map_length in E1. cbn [length] in E1. by rewrite table_length in E1. }
  split; [done|]. split; [|split; [|split]].
  - exists (pred (dsize d)). pose proof (dsize_pos d). replace (S (pred (dsize d))) with (dsize d) by lia.
    split; [done|]. split; [rewrite E2; cbn [length]; by rewrite dinfos_length|]. intros Hr.
    assert (doc_all xcalm d) as C.
    { eapply (xtable_calm (fresh_node :: table xfin 0 1 0 d) d) with (p := 0%nat) (k := 1%nat) (nx := 0%nat); [|intros j x E; exact E].
      intros i n j m Ei Ej Er. destruct (core_lookup _ _ _ _ (eq_sym E1) Ei) as (n' & Ei' & Cn), (core_lookup _ _ _ _ (eq_sym E1) Ej) as (m' & Ej' & Cm).
      unfold core in Cn, Cm. injection Cn as _ Cr _ _. injection Cm as Cp _ _ _. rewrite <- Cp. apply (Hr i n' j m' Ei' Ej'). by rewrite Cr. }
    destruct (calm_loaded known d G C) as (s0 & R0 & X0). rewrite R in R0. injection R0 as <-.
    exists (number_doc 1 d). split; [by apply xloaded_tree|apply number_nodes].
  - intros i n E. destruct (core_lookup _ _ _ _ E1 E) as (n' & E' & Cn). unfold core in Cn. injection Cn as Cp _ _ _. rewrite <- Cp.
    destruct i as [|i]; [injection E' as <-; left; cbn; lia|]. cbn in E'.
    destruct (xtable_parent d _ _ _ _ _ E') as [[-> ->]|(j & -> & Lj)]; [left; lia|right; lia].
  - intros i p Ep. rewrite E2 in Ep. by apply (xinfos_ok known d G i).
  - intros s' H'. apply (xload_same known text ps d s' Sh L) in H'. rewrite R in H'. by injection H' as <-.
Qed.
Print Assumptions C69_xml1_load_is_a_tree.

(** <?xml?><x:a>1&amp;<c ref="1" /></x:a> with a line feed *)
Definition ex_text : list Z :=
  [60; 63; 120; 109; 108; 63; 62; 60; 120; 58; 97; 62; 49; 38; 97; 109; 112; 59; 60; 99; 32; 114; 101; 102; 61; 34; 49; 34; 32; 47; 62; 60; 47; 120; 58; 97; 62; 10].
Definition ex_doc : doc xpay :=
  Doc (XPay [120; 58; 97] [] (XBFull [49; 38; 97; 109; 112; 59] [10])) [ Doc (XPay [99] [(txt_ref, [49])] (XBEmpty [])) [] ].
Example C69_xml1_load_is_a_tree_example : exists s : lst (@cinfo Z), xml1_load ex_known ex_text s /\
  map is_ref (ra (l_ptrs s)) = [false; false; true] /\ map parent (ra (l_ptrs s)) = [0; 0; 1]%nat /\
  l_info s = [cinfo0; CInfo (VString [49; 38; 0]) false false (Some [97]) None; CInfo (VSubstr [0] 0) false false (Some [99]) None].
Proof.
  assert (exists s : lst (@cinfo Z), xrun ex_known ex_doc (lstart cinfo0) = Some s /\ map is_ref (ra (l_ptrs s)) = [false; false; true] /\
    map parent (ra (l_ptrs s)) = [0; 0; 1]%nat /\ l_info s = [cinfo0; CInfo (VString [49; 38; 0]) false false (Some [97]) None; CInfo (VSubstr [0] 0) false false (Some [99]) None]) as (s & R & X)
    by (eexists; split; [vm_compute; reflexivity|]; split; [reflexivity|]; split; reflexivity).
  exists s. split; [|exact X]. apply (xload_accept ex_known ex_text [] ex_doc s); [|vm_compute; reflexivity|exact R].
  cbn. repeat constructor.
Qed.

(** ** What does not hold *)

(** The properties of a tag are applied before what is inside is read, and a reference
    is kept in first_child, where the children are looked for.  Here the parser has
    read <?xml?><a ref="100">, node 1 is open with first_child 100 in a table of two
    nodes, and the next tag makes mr_add_child read element 100 (undefined).
    src/xml1_load.y:158-166, 170-192, src/metaresc.c:624-643. *)
Theorem C69_reference_with_members_refuted {F : Type} `{FL : Floats F} known :
  let text := [60; 63; 120; 109; 108; 63; 62; 60; 97; 32; 114; 101; 102; 61; 34; 49; 48; 48; 34; 62; 60; 98; 47; 62; 60; 47; 97; 62] in
  exists ts1 ts2 s1, exists s2 : lst (@cinfo F),
    xml_lex text = Some (XtDocOpen :: XtDocClose :: XtOpen [97] :: ts1) /\
    lpush cinfo0 (lstart (cinfo0 (F := F))) = Some s1 /\
    xderives known NProps ts1 s1 (XtContent [] :: XtOpen [98] :: ts2) s2 /\
    length (ra (l_ptrs s2)) = 2%nat /\ l_cur s2 = 1%nat /\ map first_child (ra (l_ptrs s2)) = [0; 100]%nat /\
    lpush cinfo0 s2 = None /\ (forall s : lst (@cinfo F), ~ xml1_load known text s).
Proof.
  cbv zeta. set (text := [60; 63; _; _; _; _; _; _; _; _; _; _; _; _; _; _; _; _; _; _; _; _; _; _; _; _; _; _]).
  assert (xml_lex text = Some (toptoks [] (Doc (XPay [97] [(txt_ref, [49; 48; 48])] (XBFull [] [])) [Doc (XPay [98] [] (XBEmpty [])) []]))) as L by (vm_compute; reflexivity).
  assert (exists s1 s2 : lst (@cinfo F), lpush cinfo0 (lstart (cinfo0 (F := F))) = Some s1 /\ props_run [(txt_ref, [49; 48; 48])] s1 = Some s2 /\
    length (ra (l_ptrs s2)) = 2%nat /\ l_cur s2 = 1%nat /\ map first_child (ra (l_ptrs s2)) = [0; 100]%nat /\ lpush cinfo0 s2 = None) as (s1 & s2 & P & R & E1 & E2 & E3 & E4).
  { eexists _, _. split; [reflexivity|]. split; [vm_compute; reflexivity|]. by repeat split. }
  eexists _, [XtEmpty []; XtClose [97]; XtContent []], s1, s2. split; [exact L|]. split; [exact P|].
  split; [apply (xaccept_props known [(txt_ref, [49; 48; 48])]); exact R|]. do 4 (split; [done|]).
  intros s H. eapply (xload_same known text _ _ s) in H; [|  |exact L]; [|cbn; repeat constructor].
  rewrite xrun_eq, P in H. cbn [mbind option_bind x_props] in H. rewrite R in H. cbn [mbind option_bind xruns] in H. rewrite xrun_eq, E4 in H. done.
Qed.
Print Assumptions C69_reference_with_members_refuted.

(** With a number in range the text is accepted, but the nodes inside become siblings of
    the target of the reference: <?xml?><a ref="1"><b/></a> makes node 2 the
    sibling of node 1, its parent.  src/metaresc.c:645-673. *)
Theorem C69_reference_chain_refuted {F : Type} `{FL : Floats F} known : known [97] = true -> known [98] = true ->
  exists text, exists s : lst (@cinfo F), xml1_load known text s /\ map parent (ra (l_ptrs s)) = [0; 0; 1]%nat /\
    map next (ra (l_ptrs s)) = [0; 2; 0]%nat /\ forall t, root t = 1%nat -> ~ tree_at (ra (l_ptrs s)) 0 0 t.
Proof.
  intros K1 K2. exists [60; 63; 120; 109; 108; 63; 62; 60; 97; 32; 114; 101; 102; 61; 34; 49; 34; 62; 60; 98; 47; 62; 60; 47; 97; 62].
  set (d := Doc (XPay [97] [(txt_ref, [49])] (XBFull [] [])) [Doc (XPay [98] [] (XBEmpty [])) []]).
  assert (exists s : lst (@cinfo F), xrun known d (lstart cinfo0) = Some s /\ map parent (ra (l_ptrs s)) = [0; 0; 1]%nat /\ map next (ra (l_ptrs s)) = [0; 2; 0]%nat) as (s & R & E1 & E2).
  { set (kn := fun nm : list Z => bool_decide (nm = [97]) || bool_decide (nm = [98])).
    assert (forall v w s s', close_tag (F := F) kn [97] w v s = Some s' -> close_tag known [97] w v s = Some s') as C1.
    { intros v w s s'. unfold close_tag. change (local_name [97]) with [97]. rewrite K1. by destruct (forallb isspace w). }
    assert (forall v w s s', close_tag (F := F) kn [98] w v s = Some s' -> close_tag known [98] w v s = Some s') as C2.
    { intros v w s s'. unfold close_tag. change (local_name [98]) with [98]. rewrite K2. by destruct (forallb isspace w). }
    assert (forall s s' : lst (@cinfo F), xrun kn d s = Some s' -> xrun known d s = Some s') as M.
    { intros s s' R. unfold d in *. rewrite xrun_eq in R |- *. apply bind_Some in R as (s1 & -> & R). cbn [mbind option_bind].
      apply bind_Some in R as (s2 & -> & R). cbn [mbind option_bind]. apply bind_Some in R as (s3 & R3 & R). cbn [xruns] in *. rewrite xrun_eq in R3 |- *.
      apply bind_Some in R3 as (s4 & R3 & R4). injection R4 as <-. apply bind_Some in R3 as (s5 & -> & R3). cbn [mbind option_bind].
      apply bind_Some in R3 as (s6 & -> & R3). cbn [mbind option_bind xruns x_body x_value x_after x_tag] in *. apply C2 in R3 as ->. cbn [mbind option_bind].
      apply bind_Some in R as (v & -> & R). cbn [mbind option_bind]. by apply C1. }
    assert (exists s : lst (@cinfo F), xrun kn d (lstart cinfo0) = Some s /\ map parent (ra (l_ptrs s)) = [0; 0; 1]%nat /\ map next (ra (l_ptrs s)) = [0; 2; 0]%nat) as (s & R & X)
      by (eexists; split; [vm_compute; reflexivity|]; split; reflexivity).
    exists s. split; [by apply M|done]. }
  exists s. split; [apply (xload_accept known _ [] d s); [cbn; repeat constructor|vm_compute; reflexivity|exact R]|]. split; [done|]. split; [done|].
  intros [i ks] Er A. cbn in Er. subst i. rewrite tree_at_eq in A. destruct A as (n & En & _ & _ & Nx & _).
  assert (map next (ra (l_ptrs s)) !! 1%nat = Some (next n)) as E by (change (map next) with (fmap (M := list) next); by rewrite list_lookup_fmap, En).
  rewrite E2 in E. injection E as E. rewrite Nx in E. discriminate.
Qed.
Print Assumptions C69_reference_chain_refuted.

(** isnull makes a node NULL whatever its value, "false" as well.
    src/xml1_load.y:180-181. *)
Theorem C69_isnull_false_refuted {F : Type} `{FL : Floats F} known v : known [97] = true -> Forall (fun c => c <> 34) v ->
  exists s : lst (@cinfo F), xml1_load known ([60; 63; 120; 109; 108; 63; 62; 60; 97] ++ xml_attr txt_isnull v ++ [47; 62]) s /\
    map c_null (l_info s) = [false; true].
Proof.
  intros K N. set (d := Doc (XPay [97] [(txt_isnull, v)] (XBEmpty [])) []).
  assert (doc_all (xgood (F := F) known) d) as G.
  { unfold d. rewrite doc_all_eq. split; [|constructor]. split; [done|]. split; [|split; [done|split; [constructor|by eexists]]].
    constructor; [|constructor]. intros I. rewrite !elem_of_cons, elem_of_nil in I. destruct I as [?|[?|[?|[]]]]; done. }
  assert (doc_all xcalm d) as C by (unfold d; rewrite doc_all_eq; split; [intros E; by destruct E|constructor]).
  destruct (calm_loaded known d G C) as (s & R & _ & E2 & _). exists s. split; [|rewrite E2; reflexivity].
  apply (xload_accept known _ [] d s); [by eapply good_shaped| |exact R].
  change ([60; 63; 120; 109; 108; 63; 62; 60; 97] ++ xml_attr txt_isnull v ++ [47; 62]) with
    ([60; 63; 120; 109; 108] ++ [63; 62] ++ [] ++ 60 :: [97] ++ xml_attr txt_isnull v ++ [47; 62]).
  assert (lexes xml_rules ([60; 63; 120; 109; 108] ++ [63; 62] ++ [] ++ 60 :: [97] ++ xml_attr txt_isnull v ++ [47; 62]) (toptoks [] d)) as Lx; [|exact (Lx _ (Nat.le_refl _))].
  apply (xlexes_docopen ([63; 62] ++ [] ++ 60 :: [97] ++ xml_attr txt_isnull v ++ [47; 62])).
  apply (xlexes_docclose []); [constructor|done|].
  apply (xlexes_open [97]); [apply ex_word; [unfold ident_start; lia|constructor]|done|].
  apply (xlexes_prop txt_isnull v [47; 62] [XtEmpty []]); [apply xident_null|done|].
  apply (xlexes_empty [] []); [constructor|done|apply lexes_nil].
Qed.
Print Assumptions C69_isnull_false_refuted.

Example C69_isnull_false_refuted_example : ex_known [97] = true /\ Forall (fun c => c <> 34) [102; 97; 108; 115; 101].
Proof. split; [reflexivity|repeat constructor; discriminate]. Qed.

(** ** Prefixes of names *)

(** C69.  A tag with a prefix is accepted when the name without it is known, and this is
    the name of the node.  src/xml1_load.l:23, src/xml1_load.y:119-132. *)
Theorem C69_prefix_dropped {F : Type} `{FL : Floats F} known pre nm v : known nm = true -> identifier pre -> identifier nm ->
  Forall (fun c => c <> 60 /\ c <> 38) v ->
  exists s : lst (@cinfo F),
    xml1_load known ([60; 63; 120; 109; 108; 63; 62; 60] ++ pre ++ [58] ++ nm ++ [62] ++ v ++ [60; 47] ++ pre ++ [58] ++ nm ++ [62]) s /\
    map c_name (l_info s) = [None; Some nm] /\ (exists p, l_info s !! 1%nat = Some p /\ holds (c_val p) v).
Proof.
  intros K I1 I2 N. set (tag := pre ++ 58 :: nm). set (d := Doc (XPay tag [] (XBFull v [])) []).
  assert (local_name tag = nm) as Ln.
  { unfold local_name, tag. apply CinitLex.identifier_chars in I1. assert (existsb (Z.eqb 58) (pre ++ 58 :: nm) = true) as ->.
    { apply existsb_exists. exists 58. split; [apply in_or_app; right; by left|done]. }
    apply ScmLex.after_char_ok. eapply Forall_impl; [exact I1|]. intros c Hc ->. apply CinitLex.ident_char_is in Hc. done. }
  assert (existsb (Z.eqb 38) v = false) as A.
  { clear -N. induction v as [|c l IH]; [done|]. apply Forall_cons in N as [[_ Hc] N]. cbn [existsb]. rewrite (IH N). destruct (Z.eqb_spec 38 c); [lia|reflexivity]. }
  assert (doc_all (xgood (F := F) known) d) as G.
  { unfold d. rewrite doc_all_eq. split; [|constructor]. split; [done|]. split; [constructor|]. cbn [x_tag]. rewrite Ln. split; [done|].
    split; [constructor|]. cbn. unfold xml_value. rewrite A. by eexists. }
  assert (doc_all xcalm d) as C by (unfold d; rewrite doc_all_eq; split; [intros E; by destruct E|constructor]).
  destruct (calm_loaded known d G C) as (s & R & _ & E2 & _). exists s. split; [|rewrite E2; cbn; rewrite Ln; split; [done|]].
  2: { eexists. split; [reflexivity|]. cbn. unfold xml_value. rewrite A. cbn. right. by left. }
  apply (xload_accept known _ [] d s); [by eapply good_shaped| |exact R].
  replace ([60; 63; 120; 109; 108; 63; 62; 60] ++ pre ++ [58] ++ nm ++ [62] ++ v ++ [60; 47] ++ pre ++ [58] ++ nm ++ [62]) with
    ([60; 63; 120; 109; 108] ++ [63; 62] ++ [] ++ 60 :: tag ++ 62 :: v ++ [60; 47] ++ tag ++ 62 :: [] ++ []) by (unfold tag; cbn; by rewrite <- !app_assoc).
  match goal with |- xml_lex ?t = _ => assert (lexes xml_rules t (toptoks [] d)) as Lx; [|exact (Lx _ (Nat.le_refl _))] end.
  assert (exists c t, tag = c :: t /\ ident_start c) as Hd by (destruct I1 as (c & t & -> & Hc & _); by exists c, (t ++ 58 :: nm)).
  assert (Forall (fun c => c <> 60) v) as N1 by (eapply Forall_impl; [exact N|]; by intros ? []).
  apply xlexes_docopen.
  apply (xlexes_docclose []); [constructor|done|].
  apply (xlexes_open_ tag); [done|by apply m_xid_prefix|].
  apply (xlexes_content v); [done|done|].
  apply (xlexes_close_ tag); [by apply m_xid_prefix|].
  apply (xlexes_content []); [constructor|done|apply lexes_nil].
Qed.
Print Assumptions C69_prefix_dropped.

Example C69_prefix_dropped_example : ex_known [97] = true /\ identifier [120; 121] /\ identifier [97] /\
  Forall (fun c => c <> 60 /\ c <> 38) [49; 32; 62].
Proof.
  split; [reflexivity|]. split; [apply ex_word; [unfold ident_start; lia|repeat constructor; unfold ident_char; lia]|].
  split; [apply ex_word; [unfold ident_start; lia|constructor]|repeat constructor; discriminate].
Qed.
