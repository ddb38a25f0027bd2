(** Theorems about the XML2 format: src/xml_save.c:376-486, src/xml2_load.c. *)
From stdpp Require Import sets.
From Verif Require Import Base Ptrs NumStr NumStrProof Enum DfsProof PruneProof Parse ParseProof Json JsonSpec Cinit CinitSpec Xml XmlSpec Xml2 Xml2Parse Xml2Spec Xml2Explain Xml2Save Xml2Proof.
Local Open Scope Z_scope.

(** C82.  A numbered tree of nodes is saved to a document of libxml2 completely, one
    element for each node, nested as the nodes.  Printing the document with
    indentation and parsing it again does not matter: from any document that differs
    in layout only the reader makes the same tree, every node being at the index which
    is its public number; names, texts of values, NULL, references and the numbers of
    referenced nodes are those that were saved. *)
Theorem C82_xml2_document_roundtrip known isprint wrapv buf ns js t :
  length buf = print_buffer -> isprint 0 = false ->
  tree_at ns 0 0 t -> root t = 1%nat -> NoDup (nodes t) -> numbered ns t -> Z.of_nat (length (nodes t)) < 2 ^ 32 ->
  (forall i, i ∈ nodes t -> wnode_ok known isprint wrapv ns js t i) ->
  exists x, (exists fuel, forall fuel', (fuel <= fuel')%nat -> xml2_save isprint wrapv buf js fuel' ns = Some x) /\
    mirrors t x /\
    forall x', formatted x x' -> exists p inf, xml2_load_doc known x' = Some (p, inf) /\
      length (ra p) = S (length (nodes t)) /\ length inf = S (length (nodes t)) /\
      tree_at (ra p) 0 0 (rename (public ns) t) /\
      forall i, i ∈ nodes t -> exists n d m r, ns !! i = Some n /\ js !! i = Some d /\
        ra p !! pub_idx n = Some m /\ inf !! pub_idx n = Some r /\ wnode_read ns n d m r.
Proof. exact (xml2_roundtrip known isprint wrapv buf ns js t). Qed.
Print Assumptions C82_xml2_document_roundtrip.

(** An example: a structure x with a = -5, s = "x<" (referred to), p, an array with
    '\n' and NULL, and r, a reference to the content of s. *)
Definition ex_ns : list node :=
  [ fresh_node; Node 0 0 2 1 false false false false; Node 1 3 0 2 false false false false; Node 1 4 0 3 false true false false;
    Node 1 7 5 4 false false false false; Node 4 6 0 5 false false false false; Node 4 0 0 6 false false false false;
    Node 1 0 3 7 true false false false ].
Definition ex_js : list xinfo :=
  [ XInfo XNothing false false None; XInfo XNothing false false (Some [120]);
    XInfo (XInt I32 (2 ^ 32 - 5)) false false (Some [97]); XInfo (XText [120; 60]) false false (Some [115]);
    XInfo XNothing false false (Some [112]); XInfo (XChar 10) false false None; XInfo XNothing true false (Some [112]);
    XInfo (XText []) false true (Some [114]) ].
Definition ex_tree : tree := T 1 [T 2 []; T 3 []; T 4 [T 5 []; T 6 []]; T 7 []].
Definition ex_known (nm : list Z) : bool := existsb (fun n => bool_decide (nm = n)) [[97]; [115]; [112]; [114]; [120]; txt_entity].
Definition ex_isprint (c : Z) : bool := (32 <=? c) && (c <? 127).
Definition ex_buf : list Z := repeat 0 print_buffer.

Lemma ex_ok : forall i, i ∈ nodes ex_tree -> wnode_ok ex_known ex_isprint false ex_ns ex_js ex_tree i.
Proof.
  intros i I. apply elem_of_list_In in I. cbn in I.
  destruct I as [<-|[<-|[<-|[<-|[<-|[<-|[<-|[]]]]]]]]; (eexists _, _; split; [reflexivity|]; split; [reflexivity|]; split; [reflexivity|]); cbn; repeat split; try done; try lia; auto; try (right; lia); try (apply elem_of_list_In; cbn; tauto); repeat constructor; try lia.
Qed.
Lemma ex_numbered : numbered ex_ns ex_tree.
Proof. intros k i n. do 7 (destruct k as [|k]; [intros [= <-] [= <-]; reflexivity|]). intros [=]. Qed.

(** The document, and the same as parsed from a print with line breaks. *)
Definition ex_doc : xdoc :=
  XE 1 [120] [] [ XE 2 [97] [] [XLeaf false (Some [45; 53])]; XE 3 [115] [(txt_ref_idx, [51])] [XLeaf false (Some [120; 60])];
    XE 4 [112] [] [XE 5 txt_entity [] [XLeaf false (Some [10])]; XE 6 [112] [(txt_isnull, Json.txt_true)] []];
    XE 7 [114] [(txt_ref_content, [51])] [] ].
Definition nl (n : nat) : xdoc := XLeaf false (Some (10 :: repeat 32 n)).
Definition ex_parsed : xdoc :=
  XE 0 [120] [] [ nl 2; XE 0 [97] [] [XLeaf false (Some [45; 53])]; nl 2; XE 0 [115] [(txt_ref_idx, [51])] [XLeaf false (Some [120; 60])];
    nl 2; XE 0 [112] [] [nl 4; XE 0 txt_entity [] [XLeaf false (Some [10])]; nl 4; XE 0 [112] [(txt_isnull, Json.txt_true)] []; nl 2];
    nl 2; XE 0 [114] [(txt_ref_content, [51])] []; nl 0 ].
Lemma layout_nl n : layout (nl n).
Proof. exists (10 :: repeat 32 n). split; [done|]. constructor; [by left|]. induction n; [constructor|]. constructor; [by right|done]. Qed.
Lemma ex_formatted : formatted ex_doc ex_parsed.
Proof.
  repeat first [ apply layout_nl | apply F_text; by repeat constructor | apply F_inner; [done|by repeat constructor|] | apply FK_layout; [apply layout_nl|] | apply FK_elem | apply FK_nil ].
Qed.

Example C82_xml2_document_roundtrip_example :
  xml2_save ex_isprint false ex_buf ex_js 100 ex_ns = Some ex_doc /\ formatted ex_doc ex_parsed /\
  exists p inf, xml2_load_doc ex_known ex_parsed = Some (p, inf) /\ tree_at (ra p) 0 0 ex_tree /\
    (* the copy of r refers to number 3, the number of s *)
    first_child <$> (ra p !! 7%nat) = Some 3%nat /\ pub_idx <$> (ra p !! 3%nat) = Some 3%nat /\ w_cref <$> (inf !! 7%nat) = Some true /\
    w_text <$> (inf !! 3%nat) = Some [120; 60].
Proof.
  destruct (C82_xml2_document_roundtrip ex_known ex_isprint false ex_buf ex_ns ex_js ex_tree) as (x & (fuel & S) & _ & L);
    [reflexivity|reflexivity|cbn; repeat (eexists; repeat split; try done)|done|apply NoDup_ListNoDup; cbn; repeat constructor; cbn; lia|apply ex_numbered|done|apply ex_ok|].
  split; [vm_compute; reflexivity|]. split; [apply ex_formatted|]. eexists _, _. split; [vm_compute; reflexivity|].
  split; [cbn; repeat (eexists; repeat split; try done)|]. repeat split; reflexivity.
Qed.

(** C82, the restriction to texts whose characters above 127 libc prints.  In the C
    locale none is; each is written as a character reference, which libxml2 reads as
    a Unicode character and stores as two bytes.  So the UTF-8 text "é" does not
    survive, although XML1 keeps it. *)
Definition u8_ns : list node := [ fresh_node; Node 0 0 0 1 false false false false ].
Definition u8_js : list xinfo := [ XInfo XNothing false false None; XInfo (XText [195; 169]) false false (Some [115]) ].
Theorem C82_non_ascii_refuted :
  tree_at u8_ns 0 0 (T 1 []) /\ numbered u8_ns (T 1 []) /\ xnode_ok ex_known false u8_ns u8_js (T 1 []) 1 /\
  exists x p inf, xml2_save ex_isprint false ex_buf u8_js 100 u8_ns = Some x /\ formatted x x /\
    xml2_load_doc ex_known x = Some (p, inf) /\ w_text <$> (inf !! 1%nat) = Some [195; 131; 194; 169].
Proof.
  split; [cbn; repeat (eexists; repeat split; try done)|]. split; [intros k i n; destruct k as [|k]; [intros [= <-] [= <-]; reflexivity|intros [=]]|]. split.
  { eexists _, _. do 2 (split; [reflexivity|]). split; [exists 115, []; split; [done|]; split; [unfold ident_start; lia|constructor]|]. split; [reflexivity|]. cbn. split; [repeat constructor; lia|done]. }
  eexists _, _, _. split; [vm_compute; reflexivity|]. split; [apply F_text; by repeat constructor|]. split; [vm_compute; reflexivity|]. reflexivity.
Qed.
Print Assumptions C82_non_ascii_refuted.

(** C83.  Whatever document of libxml2 is given: it is accepted exactly if every
    element has a name the library knows, the properties ref_idx, ref and ref_content
    are numbers, and references have no elements inside.  Then the nodes form a tree of
    the shape of the document, numbered in the order of the opening tags, and each has
    name, content and properties of its element. *)
Theorem C83_xml2_accepted known x :
  (exists r, xml2_load_doc known x = Some r) <-> is_elem x = true /\ Forall (elem_ok known) (elems x).
Proof.
  pose proof (xml2_loaded known x) as L. destruct (xml2_load_doc known x) as [[p inf]|].
  - split; [intros _; split; apply L|intros _; by eexists].
  - split; [by intros [r ?]|intros H; by destruct (L H)].
Qed.
Print Assumptions C83_xml2_accepted.

Theorem C83_xml2_read known x p inf : xml2_load_doc known x = Some (p, inf) ->
  length (ra p) = S (length (elems x)) /\ length inf = S (length (elems x)) /\
  (exists t, tree_at (ra p) 0 0 t /\ nodes t = seq 1 (length (elems x)) /\ mirrors t x) /\
  forall k e, elems x !! k = Some e -> exists m r, ra p !! S k = Some m /\ inf !! S k = Some r /\ elem_read e m r.
Proof. intros E. pose proof (xml2_loaded known x) as L. rewrite E in L. destruct L as (_ & _ & L). exact L. Qed.
Print Assumptions C83_xml2_read.

(** Examples: <x a="1"><s ref_idx=" 0x10"> t<!-- c --></s><p ref="3 "/></x>, and the same
    with "3x" for the number. *)
Definition ex_in (num : list Z) : xdoc :=
  XE 0 [120] [([97], [49])] [ nl 1; XE 0 [115] [(txt_ref_idx, [32; 48; 120; 49; 48])] [XLeaf false (Some [32; 116]); XLeaf true (Some [99])];
    XE 0 [112] [(txt_ref, num)] [] ].
Example C83_xml2_accepted_example :
  Forall (elem_ok ex_known) (elems (ex_in [51; 32])) /\ ~ Forall (elem_ok ex_known) (elems (ex_in [51; 120])).
Proof.
  split.
  - apply (C83_xml2_accepted ex_known (ex_in [51; 32])). eexists. vm_compute. reflexivity.
  - intros F. destruct (proj2 (C83_xml2_accepted ex_known (ex_in [51; 120]))) as [r E]; [by split|]. vm_compute in E. discriminate.
Qed.
Example C83_xml2_read_example : exists p inf, xml2_load_doc ex_known (ex_in [51; 32]) = Some (p, inf) /\
  length (ra p) = 4%nat /\ pub_idx <$> (ra p !! 2%nat) = Some 16%nat /\ first_child <$> (ra p !! 3%nat) = Some 3%nat /\ w_text <$> (inf !! 2%nat) = Some [32; 116].
Proof. eexists _, _. split; [vm_compute; reflexivity|]. repeat split; reflexivity. Qed.

(** C83, a consequence one would not expect: for <s><!-- note -->7</s> the text of the
    comment is taken for the value, not the 7 behind it. *)
Theorem C83_comment_refuted : exists p inf,
  xml2_load_doc ex_known (XE 0 [115] [] [XLeaf true (Some [32; 110; 111; 116; 101; 32]); XLeaf false (Some [55])]) = Some (p, inf) /\
  w_text <$> (inf !! 1%nat) = Some [32; 110; 111; 116; 101; 32].
Proof. eexists _, _. split; [vm_compute; reflexivity|]. reflexivity. Qed.
Print Assumptions C83_comment_refuted.
