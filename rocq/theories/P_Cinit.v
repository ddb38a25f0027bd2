(** Theorems about whole CINIT documents: src/cinit_save.c, src/cinit_load.l, src/cinit_load.y. *)
From stdpp Require Import sets.
From Verif Require Import Base Ptrs NumStr NumStrProof Enum Quote QuoteProof DfsProof PruneProof Parse ParseProof Json JsonParse LexProof JsonLex JsonSpec JsonSave Value ValueProof Cinit CinitParse CinitSpec CinitLex CinitSave CinitProof.
Local Open Scope Z_scope.

(** C64.  A numbered tree of nodes is printed completely, the text has no character
    0 and is an initializer the library accepts.  Whatever the parser makes of it has
    the same shape, every node being at the index which is its public number; names,
    types, values, NULL, references and the numbers of referenced nodes are those
    that were printed. *)
Theorem C64_cinit_document_roundtrip {F : Type} `{FL : Floats F} isprint known ktype wrapv e buf ns js t :
  length buf = print_buffer -> isprint 0 = false ->
  tree_at ns 0 0 t -> root t = 1%nat -> NoDup (nodes t) -> numbered ns t -> Z.of_nat (length (nodes t)) < 2 ^ 32 ->
  (forall i, i ∈ nodes t -> node_ok isprint known ktype wrapv e ns js t i) ->
  exists text,
    (exists fuel, forall fuel', (fuel <= fuel')%nat -> cinit_save isprint wrapv buf js fuel' ns = Some text) /\
    Forall (fun c => c <> 0) text /\
    (exists s : lst (@cinfo F), cinit_load known ktype wrapv e text s) /\
    forall s : lst (@cinfo F), cinit_load known ktype wrapv e text s ->
      l_cur s = 0%nat /\
      length (ra (l_ptrs s)) = S (length (nodes t)) /\ length (l_info s) = S (length (nodes t)) /\
      tree_at (ra (l_ptrs s)) 0 0 (rename (public ns) t) /\
      forall i, i ∈ nodes t -> exists n d q p, ns !! i = Some n /\ js !! i = Some d /\
        ra (l_ptrs s) !! pub_idx n = Some q /\ l_info s !! pub_idx n = Some p /\ node_read e ns n d q p.
Proof.
  intros Hb Hp A R Nd Num Sz Ok.
  destruct (save_load (F := F) isprint known ktype wrapv e buf ns js t Hb Hp A R Nd Num Sz Ok) as (text & d & Sv & Nz & G & Pl & N & Lx & Rn & Rd & Ds).
  exists text. split; [done|]. split; [done|]. split.
  { destruct (load_accept known ktype wrapv e text d G N Lx) as (s & L & _). by exists s. }
  intros s L. pose proof (load_same known ktype wrapv e text d s (Lx _ (Nat.le_refl _)) G N L) as X.
  pose proof (loaded_tree wrapv e d s Pl X) as T. destruct X as (E1 & E2 & E3).
  split; [done|]. split; [rewrite E1; cbn [length]; rewrite table_length; by rewrite Ds|].
  split; [rewrite E2; cbn [length]; rewrite dinfos_length; by rewrite Ds|]. split; [by rewrite Rn|].
  intros i I. apply elem_of_list_lookup in I as [k I].
  destruct (Forall2_lookup_l _ _ _ _ _ Rd I) as (a & Ea & n & dd & En & Ed & Rp).
  destruct (table_pay d 0 1 0 k a Ea) as (p' & nx' & fc' & Et).
  exists n, dd, (cfin a (1 + k) (blank p' nx' fc')), (cinf wrapv e a). split; [done|]. split; [done|].
  rewrite (Num k i n I En), E1, E2. split; [exact Et|]. split; [|by apply Rp].
  change (dinfos (cinf wrapv e) d !! k = Some (cinf wrapv e a)). rewrite infos_pays. change (map (cinf wrapv e)) with (fmap (M := list) (cinf wrapv e)). rewrite list_lookup_fmap. by rewrite Ea.
Qed.
Print Assumptions C64_cinit_document_roundtrip.

(** ** An example *)
Local Instance ints_as_floats : Floats Z := {|
  f_of_int z := z; f_to_int z := Some z; f_neg := Z.opp; f_is_zero z := z =? 0;
  f_add := Z.add; f_sub := Z.sub; f_mul := Z.mul; f_div := Z.quot;
  c_mul a b := (a.1 * b.1 - a.2 * b.2, a.1 * b.2 + a.2 * b.1); c_div a b := a; strtold s := (15, 7%nat) |}.

(** A structure with members a = -5, c = '\n', s (a text with a quote inside, referred
    to), m = RED | LOW | 16, p = (t[]){ 1.5e+10, NULL } and r, a reference to the
    content of s. *)
Definition ex_ns : list node :=
  [ fresh_node; Node 0 0 2 1 false false false false; Node 1 3 0 2 false false false false; Node 1 4 0 3 false false false false;
    Node 1 5 0 4 false true false false; Node 1 6 0 5 false false false false; Node 1 9 7 6 false false false false;
    Node 6 8 0 7 false false false false; Node 6 0 0 8 false false false false; Node 1 0 4 9 true false false false ].
Definition ex_js : list sinfo :=
  [ SInfo CNone true false false []; SInfo CStruct true false false [];
    SInfo (CInt I32 (2 ^ 32 - 5)) false false false [97]; SInfo (CChar 10) false false false [99];
    SInfo (CStr [120; 34; 121]) false false false [115]; SInfo (CNames [[82; 69; 68]; [76; 79; 87]] (Some (U8, 16))) false false false [109];
    SInfo (CPtr [116]) false false false [112]; SInfo (CFloat [49; 46; 53; 101; 43; 49; 48]) true false false [];
    SInfo (CPtr [116; 42]) true true false []; SInfo (CPtr [99; 104; 97; 114]) false false true [114] ].
Definition ex_tree : tree := T 1 [T 2 []; T 3 []; T 4 []; T 5 []; T 6 [T 7 []; T 8 []]; T 9 []].
Definition ex_known (type : option (list Z)) (nm : list Z) : bool :=
  existsb (fun c => match nm with [x] => x =? c | _ => false end) [97; 99; 115; 109; 112; 114].
Definition ex_ktype (ty : list Z) : bool := match ty with [116] => true | _ => false end.
Definition ex_isprint (c : Z) : bool := (32 <=? c) && (c <? 127).
Definition ex_buf : list Z := repeat 0 print_buffer.
Definition ex_env : env := [([82; 69; 68], Unsigned 3); ([76; 79; 87], Signed (-128))].

Lemma ex_letter c : c ∈ [97; 99; 115; 109; 112; 114] -> usable [c].
Proof.
  intros I. apply elem_of_list_In in I. split.
  - exists c, []. split; [done|]. split; [|constructor]. unfold ident_start. cbn in I. lia.
  - unfold reserved. cbn in I. destruct I as [<-|[<-|[<-|[<-|[<-|[<-|[]]]]]]]; apply (bool_decide_unpack _); vm_compute; done.
Qed.

Lemma ex_word l : Forall (fun c => 65 <= c <= 90) l -> l <> [] -> l ∈ [[82; 69; 68]; [76; 79; 87]] -> usable l.
Proof.
  intros H Ne I. split.
  - destruct H as [|c l Hc H]; [done|]. exists c, l. split; [done|]. split; [unfold ident_start; lia|]. eapply Forall_impl; [exact H|]. unfold ident_char, ident_start. cbn. intros; lia.
  - apply elem_of_list_In in I. unfold reserved. destruct I as [<-|[<-|[]]]; apply (bool_decide_unpack _); vm_compute; done.
Qed.

Lemma ex_ok : forall i, i ∈ nodes ex_tree -> node_ok ex_isprint ex_known ex_ktype false ex_env ex_ns ex_js ex_tree i.
Proof.
  assert (forall i n d, ex_ns !! i = Some n -> ex_js !! i = Some d ->
    (if s_unnamed d then True else usable (s_name d) /\ ex_known (node_type n d) (s_name d) = true /\ parent n <> 0%nat) ->
    (if is_ref n then first_child n ∈ nodes ex_tree
     else kind_ok ex_isprint ex_ktype false ex_env (s_kind d) /\
       (first_child n = 0%nat \/ (s_null d = false /\ (s_kind d = CStruct \/ exists type, s_kind d = CPtr type)))) ->
    node_ok ex_isprint ex_known ex_ktype false ex_env ex_ns ex_js ex_tree i) as H by (intros i n d; exists n, d; done).
  assert (forall c n d, c ∈ [97; 99; 115; 109; 112; 114] -> parent n = 1%nat -> s_name d = [c] ->
    if s_unnamed d then True else usable (s_name d) /\ ex_known (node_type n d) (s_name d) = true /\ parent n <> 0%nat) as Hn.
  { intros c n d I -> ->. destruct (s_unnamed d); [done|]. split; [by apply ex_letter|]. split; [|done].
    apply elem_of_list_In in I. cbn in I. destruct I as [<-|[<-|[<-|[<-|[<-|[<-|[]]]]]]]; done. }
  assert (identifier [116]) as Ht.
  { exists 116, []. split; [done|]. split; [unfold ident_start; lia|constructor]. }
  intros i I. apply elem_of_list_In in I. cbn in I.
  destruct I as [<-|[<-|[<-|[<-|[<-|[<-|[<-|[<-|[<-|[]]]]]]]]]]; eapply H; try reflexivity.
  - cbn. auto 6.
  - eapply (Hn 97); [mem|done|done].
  - cbn. split; [|by left]. split; [done|]. right. lia.
  - eapply (Hn 99); [mem|done|done].
  - cbn. split; [lia|by left].
  - eapply (Hn 115); [mem|done|done].
  - cbn. split; [|by left]. split; [repeat constructor; lia|]. intros i c d Ei Ej P. do 3 (destruct i as [|i]; [injection Ei as <-; discriminate P|]). discriminate Ei.
  - eapply (Hn 109); [mem|done|done].
  - cbn. split; [|by left]. split; [done|]. split; [|split].
    + constructor; [|constructor; [|constructor]]; apply ex_word; try done; try mem; repeat constructor; lia.
    + split; [done|]. right. lia.
    + right. constructor; [|constructor; [|constructor]].
      * exists 3. split; [by repeat constructor|]. split; [cbn; lia|]. right; right. do 2 (split; [done|]).
        exists [], (Unsigned 3), [([76; 79; 87], Signed (-128))]. split; [done|]. split; [cbn; by apply not_elem_of_nil|cbn; lia].
      * exists (-128). split; [by repeat constructor|]. split; [cbn; lia|]. right; right. do 2 (split; [done|]).
        exists [([82; 69; 68], Unsigned 3)], (Signed (-128)), []. split; [done|]. split; [cbn; by rewrite elem_of_list_singleton|cbn; lia].
  - eapply (Hn 112); [mem|done|done].
  - cbn. split; [|right; split; [done|]; right; by eexists]. split; [|done]. exists [[116]]. split; [done|]. split; [|done]. constructor; [exact Ht|constructor].
  - cbn. split; [|by left]. split; [|intros ds [=]].
    change [49; 46; 53; 101; 43; 49; 48] with (minus false ++ [49] ++ [46; 53] ++ [101; 43; 49; 48]). apply F_frac.
    + split; [done|]. split; [|done]. repeat constructor; lia.
    + right. eexists. split; [done|]. repeat constructor; lia.
    + right. eexists _, _. split; [done|]. split; [by left|]. split; [done|]. repeat constructor; lia.
    + by left.
  - cbn. split; [|by left]. split; [|done]. exists [[116]]. split; [done|]. split; [|done]. constructor; [exact Ht|constructor].
  - eapply (Hn 114); [mem|done|done].
  - cbn. mem.
Qed.

Example C64_cinit_document_roundtrip_example :
  tree_at ex_ns 0 0 ex_tree /\ NoDup (nodes ex_tree) /\ numbered ex_ns ex_tree /\
  (forall i, i ∈ nodes ex_tree -> node_ok ex_isprint ex_known ex_ktype false ex_env ex_ns ex_js ex_tree i) /\
  cinit_save ex_isprint false ex_buf ex_js 40 ex_ns = Some
    ([123; 10] ++                                                                    (* { *)
     [32; 32; 46; 97; 32; 61; 32; 45; 53; 44; 10] ++                                 (* .a = -5, *)
     [32; 32; 46; 99; 32; 61; 32; 39; 92; 110; 39; 44; 10] ++                        (* .c = '\n', *)
     [32; 32; 46; 115; 32; 61; 32; 47; 42; 32; 114; 101; 102; 95; 105; 100; 120; 32; 61; 32; 52; 32; 42; 47; 32] ++
       [34; 120; 92; 34; 121; 34; 44; 10] ++
     [32; 32; 46; 109; 32; 61; 32; 82; 69; 68; 32; 124; 32; 76; 79; 87; 32; 124; 32; 49; 54; 44; 10] ++
     [32; 32; 46; 112; 32; 61; 32; 40; 116; 91; 93; 41; 123; 10] ++                  (* .p = (t[]){ *)
     [32; 32; 32; 32; 49; 46; 53; 101; 43; 49; 48; 44; 10] ++
     [32; 32; 32; 32; 78; 85; 76; 76; 10] ++
     [32; 32; 125; 44; 10] ++
     [32; 32; 46; 114; 32; 61; 32; 47; 42; 32; 114; 101; 102; 95; 99; 111; 110; 116; 101; 110; 116; 32; 61; 32; 52; 32; 42; 47; 32] ++
       [78; 85; 76; 76; 10] ++
     [125; 10]).
Proof.
  split; [|split; [|split; [|split; [apply ex_ok|vm_compute; reflexivity]]]].
  - cbn. repeat match goal with |- exists _, _ => eexists; split; [reflexivity|]; cbn | |- _ /\ _ => split | |- _ => done end.
  - cbn. apply (bool_decide_unpack _). vm_compute. done.
  - intros k i n E. cbn in E. do 9 (destruct k as [|k]; [injection E as <-; cbn; intros [= <-]; done|]). done.
Qed.

(** C65.  Whatever text the parser accepts, the nodes below the NULL node are numbered
    from 1 with parents before their children; only nodes without members have a value
    or are NULL, all names and types are known; when no node marked as a reference has
    members they form one well-formed tree; and the text determines everything. *)
Theorem C65_cinit_load_is_a_tree {F : Type} `{FL : Floats F} known ktype wrapv e text (s : lst (@cinfo F)) :
  cinit_load known ktype wrapv e text s ->
  l_cur s = 0%nat /\
  (exists k, length (ra (l_ptrs s)) = S (S k) /\ length (l_info s) = S (S k) /\
     ((forall i n j m, ra (l_ptrs s) !! i = Some n -> ra (l_ptrs s) !! j = Some m -> is_ref n = true -> parent m <> i) ->
      exists t, tree_at (ra (l_ptrs s)) 0 0 t /\ nodes t = seq 1 (S k))) /\
  (forall i n, ra (l_ptrs s) !! i = Some n -> (parent n = 0 /\ i <= 1 \/ 0 < parent n < i)%nat) /\
  (forall i m p, ra (l_ptrs s) !! i = Some m -> l_info s !! parent m = Some p -> c_val p = VVoid /\ c_null p = false) /\
  (forall i p, l_info s !! i = Some p ->
     (forall nm, c_name p = Some nm -> known (c_type p) nm = true) /\ (forall ty, c_type p = Some ty -> ktype ty = true)) /\
  (forall s', cinit_load known ktype wrapv e text s' -> ra (l_ptrs s') = ra (l_ptrs s) /\ l_info s' = l_info s).
Proof.
  intros H. destruct (load_explain known ktype wrapv e text s H) as (d & G & N & L & X).
  pose proof (fun s' => load_same known ktype wrapv e text d s' L G N) as U. pose proof (fun P => loaded_tree wrapv e d s P X) as T. destruct X as (E1 & E2 & E3).
  split; [done|]. split; [|split; [|split; [|split]]].
  - exists (pred (dsize d)). pose proof (dsize_pos d). replace (S (pred (dsize d))) with (dsize d) by lia.
    rewrite E1, E2. cbn [length]. rewrite table_length, dinfos_length. split; [done|]. split; [done|]. intros Hr. exists (number_doc 1 d).
    split; [|apply number_nodes]. rewrite <- E1. apply T. eapply (table_plain (fresh_node :: table cfin 0 1 0 d) d Hr 0 1 0). intros j x E. exact E.
  - intros i n E. rewrite E1 in E. destruct i as [|i]; [injection E as <-; left; cbn; lia|]. cbn in E.
    destruct (table_parent known ktype wrapv e d G _ _ _ _ _ E) as [[-> ->]|(j & p & -> & Lj & _)]; [left; lia|right; lia].
  - intros i m p E Ep. rewrite E1 in E. rewrite E2 in Ep. destruct i as [|i]; [injection E as <-; by injection Ep as <-|]. cbn in E.
    destruct (table_parent known ktype wrapv e d G _ _ _ _ _ E) as [[-> Er]|(j & p' & Er & Lj & Ei & V)]; rewrite Er in Ep; [by injection Ep as <-|].
    change (dinfos (cinf wrapv e) d !! j = Some p) in Ep. rewrite Ei in Ep. by injection Ep as <-.
  - intros i p Ep. rewrite E2 in Ep. destruct i as [|i]; [by injection Ep as <-|]. cbn in Ep. by apply (infos_known known ktype wrapv e d G (or_introl N) _ _ Ep).
  - intros s' H'. destruct (U s' H') as (E1' & E2' & _). by rewrite E1, E2, E1', E2'.
Qed.
Print Assumptions C65_cinit_load_is_a_tree.

(** { 1, .a = -2 * 3, {}, } *)
Definition ex_text : list Z := [123; 49; 44; 46; 97; 61; 45; 50; 32; 42; 32; 51; 44; 123; 125; 44; 125].
Definition ex_doc : doc (cpay (F := Z)) :=
  Doc (CPay None [] None (DBlock true))
    [ Doc (CPay None [] None (DExpr [CtNum (Num 1)] (Num 1))) [];
      Doc (CPay (Some [97]) [] None (DExpr [CtOp OpMinus; CtNum (Num 2); CtOp OpMul; CtNum (Num 3)] (Arith Mul (Neg (Num 2)) (Num 3)))) [];
      Doc (CPay None [] None (DBlock false)) [] ].
Example C65_cinit_load_is_a_tree_example : exists s : lst (@cinfo Z), cinit_load ex_known ex_ktype false ex_env ex_text s /\
  map is_ref (ra (l_ptrs s)) = [false; false; false; false; false] /\
  l_info s = [cinfo0; cinfo0; CInfo (VInt 1) false false None None; CInfo (VInt (-6)) false false (Some [97]) None; cinfo0].
Proof.
  assert (doc_all (cgood ex_known ex_ktype false ex_env) ex_doc) as G.
  { unfold ex_doc. rewrite doc_all_eq. split.
    - split; [done|]. cbn. split; [done|]. constructor; [by left|]. constructor; [right; by exists [97]|]. constructor; [by left|constructor].
    - constructor; [|constructor; [|constructor; [|constructor]]]; rewrite doc_all_eq; (split; [split; [done|]; cbn|constructor]).
      + split; [done|]. split; [|by eexists]. apply phrase_top, P_num.
      + split; [done|]. split; [|by eexists]. do 2 (apply P_up; [lia|]).
        apply (P_op OpMul [CtOp OpMinus; CtNum (Num 2)] [CtNum (Num 3)] (Neg (Num 2)) (Num 3)); [|apply P_num]. apply P_up; [cbn; lia|]. apply P_neg, P_num.
      + by split. }
  destruct (accept ex_known ex_ktype false ex_env ex_doc G [] fresh_node [] 0%nat [cinfo0] []) as (c' & D & _); [done|apply cached_nil|by right|done|].
  eexists. split.
  - exists (dtoks ex_doc). split; [vm_compute; reflexivity|]. rewrite app_nil_r in D. exact D.
  - vm_compute. split; reflexivity.
Qed.

(** ** What does not hold *)

(** Members of a node marked as a reference get lost: slash-star ref = 1 star-slash
    followed by { 1, 2 } is accepted, the two members have node 1 for their parent, but
    the only tree there is has one node.  src/cinit_load.y:127-131 write the number
    of the target over first_child. *)
Theorem C65_reference_with_members_refuted {F : Type} `{FL : Floats F} known ktype wrapv e :
  exists text, exists s : lst (@cinfo F), cinit_load known ktype wrapv e text s /\ length (ra (l_ptrs s)) = 4%nat /\
    map parent (ra (l_ptrs s)) = [0; 0; 1; 1]%nat /\
    forall t, tree_at (ra (l_ptrs s)) 0 0 t -> root t = 1%nat -> nodes t = [1%nat].
Proof.
  exists [47; 42; 32; 114; 101; 102; 32; 61; 32; 49; 32; 42; 47; 32; 123; 49; 44; 50; 125].
  set (d := Doc (CPay None [(txt_ref, 1)] None (DBlock false))
    [Doc (CPay None [] None (DExpr [CtNum (Num 1)] (Num (F := F) 1))) []; Doc (CPay None [] None (DExpr [CtNum (Num 2)] (Num 2))) []]).
  assert (doc_all (cgood known ktype wrapv e) d) as G.
  { unfold d. rewrite doc_all_eq. split.
    - split; [done|]. cbn. split; [done|]. constructor; [by left|]. constructor; [by left|constructor].
    - constructor; [|constructor; [|constructor]]; rewrite doc_all_eq; (split; [split; [done|]; cbn|constructor]).
      + split; [done|]. split; [|by eexists]. apply phrase_top, P_num.
      + split; [done|]. split; [|by eexists]. apply phrase_top, P_num. }
  destruct (accept known ktype wrapv e d G [] fresh_node [] 0%nat [cinfo0] []) as (c' & D & _); [done|apply cached_nil|by right|done|].
  eexists. split; [exists (dtoks d); split; [vm_compute; reflexivity|rewrite app_nil_r in D; exact D]|]. clear.
  split; [done|]. split; [reflexivity|]. intros [i ks] A R. cbn [root] in R. subst i. rewrite tree_at_eq in A. destruct A as (n & En & _ & _ & _ & X).
  assert (expandable n = false) as Ex by (injection En as <-; vm_compute; reflexivity). rewrite Ex in X. by subst ks.
Qed.
Print Assumptions C65_reference_with_members_refuted.

(** A field the lexer has another use for, here "i", is printed but cannot be read:
    after the dot comes an imaginary number.  src/cinit_save.c:208-217,
    src/cinit_load.l:64. *)
Theorem C64_reserved_name_refuted {F : Type} `{FL : Floats F} isprint known ktype wrapv e buf : length buf = print_buffer ->
  exists ns js t text, tree_at ns 0 0 t /\ root t = 1%nat /\ numbered ns t /\
    cinit_save isprint wrapv buf js 10 ns = Some text /\ forall s : lst (@cinfo F), ~ cinit_load known ktype wrapv e text s.
Proof.
  intros Hb.
  exists [fresh_node; Node 0 0 2 1 false false false false; Node 1 0 0 2 false false false false],
    [SInfo CNone true false false []; SInfo CStruct true false false []; SInfo (CBool true) false false false [105]], (T 1 [T 2 []]),
    [123; 10; 32; 32; 46; 105; 32; 61; 32; 116; 114; 117; 101; 10; 125; 10].
  split; [cbn; repeat match goal with |- exists _, _ => eexists; split; [reflexivity|]; cbn | |- _ /\ _ => split | |- _ => done end|].
  split; [done|]. split.
  { intros k i n E. do 2 (destruct k as [|k]; [injection E as <-; by intros [= <-]|]). done. }
  split; [reflexivity|]. intros s H. destruct (load_explain known ktype wrapv e _ s H) as (d & G & _ & L & _).
  assert (exists x r, cinit_lex (F := F) [123; 10; 32; 32; 46; 105; 32; 61; 32; 116; 114; 117; 101; 10; 125; 10] = Some (CtLBrace :: CtDot :: CtNum x :: r)) as (x & r & L').
  { eexists _, _. vm_compute. reflexivity. }
  rewrite L' in L. injection L as L. clear L' H s.
  destruct d as [[nm ats ca v] ks]. rewrite doc_all_eq in G. destruct G as [G Gs]. rewrite dtoks_eq in L. cbn [d_attrs d_cast d_val] in L.
  destruct ats as [|? ats]; [|discriminate L]. destruct ca; [discriminate L|]. cbn [atoks map casttoks app] in L.
  destruct v as [tr|? | |?|tx y]; cbn [vtoks] in L; try discriminate L.
  - injection L as L. destruct ks as [|[[nm' ats' ca' v'] us] ks]; [discriminate L|]. apply Forall_cons in Gs as [Gk _].
    assert (exists l, ltoks (map etoks (Doc (CPay nm' ats' ca' v') us :: ks)) tr = etoks (Doc (CPay nm' ats' ca' v') us) ++ l) as [l El].
    { cbn [map ltoks]. destruct (map etoks ks); eexists; reflexivity. }
    rewrite El in L. unfold etoks in L. cbn [dname d_name] in L. destruct nm' as [nm'|]; [discriminate L|]. cbn [nametoks app] in L.
    destruct (dtoks_head known ktype wrapv e _ Gk) as (z & m & Ez & V). rewrite Ez in L. injection L as <- _. done.
  - destruct G as [_ (_ & Ph & _)]. apply phrase_toks in Ph as [Ne Ph]. destruct tx as [|z tx]; [done|]. injection L as <- _. by apply Forall_cons in Ph as [Ph _].
Qed.
Print Assumptions C64_reserved_name_refuted.

(** A pointer to a pointer without a type descriptor is printed with the cast
    (void-star-star[]), which the lexer has no rule for: the opening square bracket is
    an error.  src/cinit_save.c:122-124, src/cinit_load.l:94. *)
Theorem C64_untyped_pointer_refuted {F : Type} `{FL : Floats F} isprint known ktype wrapv e buf :
  exists ns js t text, tree_at ns 0 0 t /\ root t = 1%nat /\ numbered ns t /\
    cinit_save isprint wrapv buf js 10 ns = Some text /\ forall s : lst (@cinfo F), ~ cinit_load known ktype wrapv e text s.
Proof.
  exists [fresh_node; Node 0 0 2 1 false false false false; Node 1 0 0 2 false false false false],
    [SInfo CNone true false false []; SInfo (CPtr [118; 111; 105; 100; 42; 42]) true false false []; SInfo (CBool true) true true false []], (T 1 [T 2 []]),
    [40; 118; 111; 105; 100; 42; 42; 91; 93; 41; 123; 10; 32; 32; 78; 85; 76; 76; 10; 125; 10].
  split; [cbn; repeat match goal with |- exists _, _ => eexists; split; [reflexivity|]; cbn | |- _ /\ _ => split | |- _ => done end|].
  split; [done|]. split.
  { intros k i n E. do 2 (destruct k as [|k]; [injection E as <-; by intros [= <-]|]). done. }
  split; [reflexivity|]. intros s H. destruct (load_explain known ktype wrapv e _ s H) as (d & G & _ & L & _).
  assert (exists r, CtErr ∈ r /\ cinit_lex (F := F) [40; 118; 111; 105; 100; 42; 42; 91; 93; 41; 123; 10; 32; 32; 78; 85; 76; 76; 10; 125; 10] = Some (CtLParen :: r)) as (r & I & L').
  { eexists. split; [|vm_compute; reflexivity]. mem. }
  rewrite L' in L. injection L as L. clear L' H s.
  destruct d as [[nm ats ca v] ks]. rewrite doc_all_eq in G. destruct G as [G _]. rewrite dtoks_eq in L. cbn [d_attrs d_cast d_val] in L.
  destruct ats as [|? ats]; [|discriminate L]. destruct ca; [discriminate L|]. cbn [atoks map casttoks app] in L.
  destruct v as [tr|? | |?|tx y]; cbn [vtoks] in L; try discriminate L.
  destruct G as [_ (_ & Ph & _)]. apply phrase_toks in Ph as [_ Ph]. rewrite <- L in Ph. apply Forall_cons in Ph as [_ Ph].
  rewrite Forall_forall in Ph. by specialize (Ph _ I).
Qed.
Print Assumptions C64_untyped_pointer_refuted.

(** The sign of a negative zero does not survive, as with JSON. *)
Theorem C64_negative_zero_refuted {F : Type} `{FL : Floats F} isprint known ktype wrapv e buf :
  exists ns js js' text text',
    map s_kind js <> map s_kind js' /\
    cinit_save isprint wrapv buf js 10 ns = Some text /\ cinit_save isprint wrapv buf js' 10 ns = Some text' /\
    (exists s : lst (@cinfo F), cinit_load known ktype wrapv e text s) /\ (exists s : lst (@cinfo F), cinit_load known ktype wrapv e text' s) /\
    forall s s' : lst (@cinfo F), cinit_load known ktype wrapv e text s -> cinit_load known ktype wrapv e text' s' ->
      ra (l_ptrs s) = ra (l_ptrs s') /\ l_info s = l_info s'.
Proof.
  exists [fresh_node; Node 0 0 0 1 false false false false], [SInfo CNone true false false []; SInfo (CFloat [45; 48]) true false false []],
    [SInfo CNone true false false []; SInfo (CFloat [48]) true false false []], [45; 48; 10], [48; 10].
  split; [done|]. split; [reflexivity|]. split; [reflexivity|].
  set (d := Doc (CPay None [] None (DExpr [CtOp OpMinus; CtNum (Num 0)] (Neg (Num (F := F) 0)))) []).
  set (d' := Doc (CPay None [] None (DExpr [CtNum (Num 0)] (Num (F := F) 0))) []).
  assert (doc_all (cgood known ktype wrapv e) d) as G.
  { apply doc_all_eq. split; [|constructor]. split; [done|]. cbn. split; [done|]. split; [apply phrase_top, P_neg, P_num|]. by eexists. }
  assert (doc_all (cgood known ktype wrapv e) d') as G'.
  { apply doc_all_eq. split; [|constructor]. split; [done|]. cbn. split; [done|]. split; [apply phrase_top, P_num|]. by eexists. }
  assert (cinit_lex [45; 48; 10] = Some (dtoks d)) as L1 by (vm_compute; reflexivity).
  assert (cinit_lex [48; 10] = Some (dtoks d')) as L2 by (vm_compute; reflexivity).
  assert (forall d text, doc_all (cgood known ktype wrapv e) d -> dname d = None -> cinit_lex text = Some (dtoks d) -> exists s : lst (@cinfo F), cinit_load known ktype wrapv e text s) as Ac.
  { intros d0 text G0 N0 L. destruct (accept known ktype wrapv e d0 G0 [] fresh_node [] 0%nat [cinfo0] []) as (c' & D & _); [done|apply cached_nil|by right|done|].
    eexists. exists (dtoks d0). split; [done|]. rewrite (anon_id d0 N0), app_nil_r in D. exact D. }
  split; [by apply (Ac d)|]. split; [by apply (Ac d')|]. intros s s' H H'.
  destruct (load_same known ktype wrapv e _ d s L1 G eq_refl H) as (E1 & E2 & _), (load_same known ktype wrapv e _ d' s' L2 G' eq_refl H') as (E1' & E2' & _).
  clear -E1 E2 E1' E2'. rewrite E1, E2, E1', E2'. split; reflexivity.
Qed.
Print Assumptions C64_negative_zero_refuted.
