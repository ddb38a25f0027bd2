(** Theorems about whole JSON documents: src/json_save.c, src/json_load.l, src/json_load.y. *)
From stdpp Require Import sets.
From Verif Require Import Base Ptrs NumStr NumStrProof Enum DfsProof PruneProof Parse ParseProof Json JsonParse LexProof JsonLex JsonSpec JsonSave JsonProof.
Local Open Scope Z_scope.

(** C62.  A numbered tree of nodes is printed completely, the text has no character
    0 and is a JSON document the library accepts.  Whatever the parser makes of it
    has the same shape, every node being at the index which is its public number;
    names, values, NULL and references are those that were printed, a reference
    being the index of its target. *)
Theorem C62_json_document_roundtrip known isprint wrapv buf ns js t :
  length buf = print_buffer -> isprint 0 = false ->
  tree_at ns 0 0 t -> root t = 1%nat -> NoDup (nodes t) -> numbered ns t -> Z.of_nat (length (nodes t)) < 2 ^ 32 ->
  (forall i, i ∈ nodes t -> node_ok known wrapv ns js t i) ->
  exists text,
    (exists fuel, forall fuel', (fuel <= fuel')%nat -> json_save isprint wrapv buf js fuel' ns = Some text) /\
    Forall (fun c => c <> 0) text /\
    (exists s, json_load known text s) /\
    forall s, json_load known text s ->
      l_cur s = 0%nat /\
      length (ra (l_ptrs s)) = S (length (nodes t)) /\ length (l_info s) = S (length (nodes t)) /\
      tree_at (ra (l_ptrs s)) 0 0 (rename (public ns) t) /\
      (forall j m, ra (l_ptrs s) !! j = Some m -> pub_idx m = j) /\
      forall i, i ∈ nodes t -> exists n d p, ns !! i = Some n /\ js !! i = Some d /\
        l_info s !! pub_idx n = Some p /\ node_read ns js n d p.
Proof.
  intros Hb Hp A R Nd Num Sz Ok.
  destruct (save_load known isprint wrapv buf ns js t Hb Hp A R Nd Num Sz Ok) as (text & d & Sv & Nz & G & N & Lx & Rn & Rd & Ds).
  exists text. split; [done|]. split; [done|]. split.
  { destruct (load_accept known text d G N Lx) as (s & L & _). by exists s. }
  intros s L. pose proof (load_same known text d s (Lx _ (Nat.le_refl _)) G N L) as X.
  pose proof (loaded_tree known d s G X) as T. destruct X as (E1 & E2 & E3).
  split; [done|]. split; [rewrite E1; cbn [length]; rewrite table_length; by rewrite Ds|].
  split; [rewrite E2; cbn [length]; rewrite dinfos_length; by rewrite Ds|]. split; [by rewrite Rn|]. split.
  { intros [|j] m; rewrite E1; [by intros [= <-]|]. intros H. by apply (table_index d) in H. }
  intros i I. apply elem_of_list_lookup in I as [k I].
  destruct (Forall2_lookup_l _ _ _ _ _ Rd I) as (p & Ep & n & dd & En & Ed & Rp). exists n, dd, p.
  split; [done|]. split; [done|]. split; [|done]. rewrite (Num k i n I En), E2. done.
Qed.
Print Assumptions C62_json_document_roundtrip.

(** An example: a structure with members a = -5, s (a text with a quote inside),
    l = [ 1.5e+10, null ] and r, a reference to the content of s. *)
Definition ex_ns : list node :=
  [ fresh_node; Node 0 0 2 1 false false false false; Node 1 3 0 2 false false false false; Node 1 4 0 3 false true false false;
    Node 1 7 5 4 false false false false; Node 4 6 0 5 false false false false; Node 4 0 0 6 false false false false;
    Node 1 0 3 7 true false false false ].
Definition ex_js : list jinfo :=
  [ JInfo KNone true false false []; JInfo KStruct true false false [];
    JInfo (KInt I32 (2 ^ 32 - 5)) false false false [97]; JInfo (KStr [120; 34; 121]) false false false [115];
    JInfo KList false false false [108]; JInfo (KFloat [49; 46; 53; 101; 43; 49; 48]) true false false [];
    JInfo KList true true false []; JInfo KList false false true [114] ].
Definition ex_tree : tree := T 1 [T 2 []; T 3 []; T 4 [T 5 []; T 6 []]; T 7 []].
Definition ex_known (nm : list Z) : bool := existsb (fun c => match nm with [x] => x =? c | _ => false end) [97; 115; 108; 114].
Definition ex_isprint (c : Z) : bool := (32 <=? c) && (c <? 127).
Definition ex_buf : list Z := repeat 0 print_buffer.

Lemma ex_ok : forall i, i ∈ nodes ex_tree -> node_ok ex_known false ex_ns ex_js ex_tree i.
Proof.
  assert (forall i n d, ex_ns !! i = Some n -> ex_js !! i = Some d ->
    (if in_struct ex_js n then Forall unquotable (j_name d) /\ ex_known (j_name d) = true else j_unnamed d = true) ->
    (if is_ref n then first_child n ∈ nodes ex_tree
       else kind_ok false (j_kind d) /\
         (first_child n = 0%nat \/ (j_null d = false /\ (j_kind d = KStruct \/ j_kind d = KList)))) ->
    node_ok ex_known false ex_ns ex_js ex_tree i) as H by (intros i n d; exists n, d; done).
  assert (forall c, 97 <= c < 127 -> Forall unquotable [c]) as Hc.
  { intros c Hc. constructor; [|constructor]. unfold unquotable. lia. }
  intros i I. apply elem_of_list_In in I. cbn in I.
  destruct I as [<-|[<-|[<-|[<-|[<-|[<-|[<-|[]]]]]]]]; eapply H; try reflexivity.
  - cbn. auto 6.
  - cbn. split; [apply Hc; lia|done].
  - cbn. split; [|by left]. split; [done|]. right. lia.
  - cbn. split; [apply Hc; lia|done].
  - cbn. split; [|by left]. repeat constructor; lia.
  - cbn. split; [apply Hc; lia|done].
  - cbn. auto 6.
  - cbn. split; [|by left]. change [49; 46; 53; 101; 43; 49; 48] with (minus false ++ [49] ++ [46; 53] ++ [101; 43; 49; 48]). apply F_frac.
    + split; [done|]. split; [|done]. repeat constructor; lia.
    + right. eexists. split; [done|]. repeat constructor; lia.
    + right. eexists _, _. split; [done|]. split; [by left|]. split; [done|]. repeat constructor; lia.
    + by left.
  - cbn. auto 6.
  - cbn. split; [apply Hc; lia|done].
  - cbn. mem.
Qed.

Example C62_json_document_roundtrip_example :
  tree_at ex_ns 0 0 ex_tree /\ NoDup (nodes ex_tree) /\ numbered ex_ns ex_tree /\
  (forall i, i ∈ nodes ex_tree -> node_ok ex_known false ex_ns ex_js ex_tree i) /\
  json_save ex_isprint false ex_buf ex_js 40 ex_ns = Some
    ([123; 10] ++
     [32; 32; 34; 97; 34; 58; 32; 45; 53; 44; 10] ++
     [32; 32; 34; 115; 34; 58; 32; 34; 120; 92; 34; 121; 34; 44; 10] ++
     [32; 32; 34; 108; 34; 58; 32; 91; 10] ++
     [32; 32; 32; 32; 49; 46; 53; 101; 43; 49; 48; 44; 10] ++
     [32; 32; 32; 32; 110; 117; 108; 108; 10] ++
     [32; 32; 93; 44; 10] ++
     [32; 32; 34; 114; 34; 58; 32; 45; 51; 10] ++
     [125; 10]).
Proof.
  split; [|split; [|split; [|split; [apply ex_ok|vm_compute; reflexivity]]]].
  - cbn. repeat match goal with |- exists _, _ => eexists; split; [reflexivity|]; cbn | |- _ /\ _ => split | |- _ => done end.
  - cbn. apply (bool_decide_unpack _). vm_compute. done.
  - intros k i n E. cbn in E. do 7 (destruct k as [|k]; [injection E as <-; cbn; intros [= <-]; done|]). done.
Qed.

(** C63.  Whatever text the parser accepts, the result is one well-formed tree below
    the NULL node, numbered from 1 in the order of the text; only nodes without
    children have a value, all names are known; and the text determines it. *)
Theorem C63_json_load_is_a_tree known text s : json_load known text s ->
  l_cur s = 0%nat /\
  (exists t k, tree_at (ra (l_ptrs s)) 0 0 t /\ nodes t = seq 1 (S k) /\
     length (ra (l_ptrs s)) = S (S k) /\ length (l_info s) = S (S k)) /\
  (forall i n p, i <> 0%nat -> ra (l_ptrs s) !! i = Some n -> l_info s !! i = Some p ->
     pub_idx n = i /\ is_ref n = false /\
     (first_child n <> 0%nat -> p_val p = LNone /\ p_null p = false) /\
     (forall nm, p_name p = Some nm -> known nm = true)) /\
  (forall s', json_load known text s' -> ra (l_ptrs s') = ra (l_ptrs s) /\ l_info s' = l_info s).
Proof.
  intros H. destruct (load_explain known text s H) as (d & G & N & L & X). pose proof (loaded_tree known d s G X) as T.
  pose proof (fun s' => load_same known text d s' L G N) as U. destruct X as (E1 & E2 & E3).
  split; [done|]. split; [|split].
  - exists (number_doc 1 d), (pred (dsize d)). pose proof (dsize_pos d). split; [done|].
    replace (S (pred (dsize d))) with (dsize d) by lia. split; [apply loaded_nodes|]. rewrite E1, E2. cbn [length]. rewrite table_length, dinfos_length. done.
  - intros i n p Ni En Ep. rewrite E1 in En. rewrite E2 in Ep. destruct i as [|i]; [done|]. cbn in En, Ep.
    split; [rewrite (table_index d _ _ _ _ _ En); lia|]. split; [|split].
    + clear -En. revert En. generalize 0%nat at 1 as p0. generalize 1%nat as k. generalize 0%nat as nx. revert i n.
      induction d as [a ks IH] using doc_ind'. intros i n nx k p0. rewrite table_eq. destruct i as [|i]; cbn [lookup]; [by intros [= <-]|]. cbn.
      generalize (S k) as m. revert i. induction IH as [|t ts Ht _ IH]; intros i m; [done|]. cbn [tables]. rewrite lookup_app_Some.
      intros [E|[_ E]]; [by eapply Ht|by eapply IH].
    + by apply (table_leaf known d G _ _ _ _ _ _ En Ep).
    + intros nm. by apply (infos_known known d G (or_introl N) _ _ nm Ep).
  - intros s' H'. destruct (U s' H') as (E1' & E2' & _). by rewrite E1, E2, E1', E2'.
Qed.
Print Assumptions C63_json_load_is_a_tree.

(** An array of 1, an empty object, and the letter A as an escape. *)
Definition ex_text : list Z := [91; 49; 44; 123; 125; 44; 34; 92; 117; 48; 48; 52; 49; 34; 93].
Example C63_json_load_is_a_tree_example : exists s, json_load ex_known ex_text s /\
  l_info s = [pinfo0; PInfo LNone false None; PInfo (LInt 1) false None; PInfo LNone false None; PInfo (LStr [65]) false None].
Proof.
  pose (d := Doc (JPay None VArr) [Doc (JPay None (VNum (LInt 1))) []; Doc (JPay None VObj) []; Doc (JPay None (VStr [92; 117; 48; 48; 52; 49])) []]).
  assert (doc_all (jgood ex_known) d) as G.
  { subst d. rewrite doc_all_eq. split; [by repeat constructor|]. repeat constructor. eexists. vm_compute. done. }
  destruct (accept ex_known d G [] fresh_node [] 0%nat [pinfo0] []) as (c' & D & _); [done|apply cached_nil|by right|done|].
  eexists. split.
  - exists (dtoks d). split; [vm_compute; reflexivity|]. rewrite app_nil_r in D. exact D.
  - vm_compute. reflexivity.
Qed.

(** The sign of a negative zero does not survive: printf gives "-0", which is the
    numeral of the integer 0.  src/mr_stringify.c:39-45, src/json_load.l:26, 36. *)
Theorem C62_negative_zero_refuted known isprint wrapv buf : length buf = print_buffer -> isprint 0 = false ->
  exists ns js js' text text',
    map j_kind js <> map j_kind js' /\
    json_save isprint wrapv buf js 10 ns = Some text /\ json_save isprint wrapv buf js' 10 ns = Some text' /\
    (exists s, json_load known text s) /\ (exists s, json_load known text' s) /\
    forall s s', json_load known text s -> json_load known text' s' ->
      ra (l_ptrs s) = ra (l_ptrs s') /\ l_info s = l_info s'.
Proof.
  intros Hb Hp.
  exists [fresh_node; Node 0 0 0 1 false false false false], [JInfo KNone true false false []; JInfo (KFloat [45; 48]) true false false []],
    [JInfo KNone true false false []; JInfo (KFloat [48]) true false false []], [45; 48; 10], [48; 10].
  split; [done|]. split; [reflexivity|]. split; [reflexivity|].
  set (d := Doc (JPay None (VNum (LInt 0))) [] : jdoc).
  assert (doc_all (jgood known) d) as G by (apply doc_all_eq; split; [done|constructor]).
  assert (forall text, json_lex text = Some (dtoks d) -> exists s, json_load known text s) as Ac.
  { intros text L. destruct (accept known d G [] fresh_node [] 0%nat [pinfo0] []) as (c' & D & _); [done|apply cached_nil|by right|done|].
    eexists. exists (dtoks d). split; [done|]. rewrite app_nil_r in D. exact D. }
  assert (json_lex [45; 48; 10] = Some (dtoks d)) as L1 by (vm_compute; reflexivity).
  assert (json_lex [48; 10] = Some (dtoks d)) as L2 by (vm_compute; reflexivity).
  split; [by apply Ac|]. split; [by apply Ac|]. intros s s' H H'.
  destruct (load_same known _ d s L1 G eq_refl H) as (E1 & E2 & _), (load_same known _ d s' L2 G eq_refl H') as (E1' & E2' & _).
  clear -E1 E2 E1' E2'. rewrite E1, E2, E1', E2'. split; reflexivity.
Qed.
Print Assumptions C62_negative_zero_refuted.

(** A node of type MR_TYPE_NONE is printed as nothing, so the text is no document:
    the condition on kinds is needed.  src/json_save.c:169. *)
Theorem C62_none_type_refuted known isprint wrapv buf :
  exists ns js t text, tree_at ns 0 0 t /\ root t = 1%nat /\ numbered ns t /\
    json_save isprint wrapv buf js 10 ns = Some text /\ forall s, ~ json_load known text s.
Proof.
  exists [fresh_node; Node 0 0 0 1 false false false false], [JInfo KNone true false false []; JInfo KNone true false false []], (T 1 []), [10].
  split; [by eexists|]. split; [done|]. split.
  { intros k i n E. destruct k; [|done]. injection E as <-. by intros [= <-]. }
  split; [reflexivity|]. intros s H. destruct (load_explain known _ s H) as (d & _ & _ & L & _).
  assert (json_lex [10] = Some []) as L' by (vm_compute; reflexivity). rewrite L' in L. injection L as L.
  destruct (dtoks_head d) as (x & l & E & _). clear -E L. rewrite E in L. discriminate L.
Qed.
Print Assumptions C62_none_type_refuted.
