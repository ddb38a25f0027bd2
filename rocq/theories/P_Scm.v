(** Theorems about whole SCM documents: src/scm_save.c, src/scm_load.l, src/scm_load.y. *)
From stdpp Require Import sets.
From Verif Require Import Base Ptrs NumStr NumStrProof Enum Quote QuoteProof DfsProof PruneProof Parse ParseProof Json JsonParse LexProof JsonLex JsonSpec JsonSave Value ValueProof Cinit CinitParse CinitSpec Scm ScmParse ScmSpec ScmLex ScmSave ScmProof.
Local Open Scope Z_scope.

(** C66.  A numbered tree of nodes is printed completely, the text has no character
    0 and is a document the library accepts.  Whatever the parser makes of it has the
    same shape, every node being at the index which is its public number; names,
    values, NULL, references and the numbers of referenced nodes are those that were
    printed. *)
Theorem C66_scm_document_roundtrip {F : Type} `{FL : Floats F} isprint known wrapv buf ns js t :
  length buf = print_buffer -> isprint 0 = false -> isprint 10 = false ->
  tree_at ns 0 0 t -> root t = 1%nat -> NoDup (nodes t) -> numbered ns t -> Z.of_nat (length (nodes t)) < 2 ^ 32 ->
  (forall i, i ∈ nodes t -> mnode_ok known wrapv ns js t i) ->
  exists text,
    (exists fuel, forall fuel', (fuel <= fuel')%nat -> scm_save isprint wrapv buf js fuel' ns = Some text) /\
    Forall (fun c => c <> 0) text /\
    (exists s : lst (@cinfo F), scm_load known text s) /\
    forall s : lst (@cinfo F), scm_load known text s ->
      l_cur s = 0%nat /\
      length (ra (l_ptrs s)) = S (length (nodes t)) /\ length (l_info s) = S (length (nodes t)) /\
      tree_at (ra (l_ptrs s)) 0 0 (rename (public ns) t) /\
      forall i, i ∈ nodes t -> exists n d q p, ns !! i = Some n /\ js !! i = Some d /\
        ra (l_ptrs s) !! pub_idx n = Some q /\ l_info s !! pub_idx n = Some p /\ mnode_read ns n d q p.
Proof.
  intros Hb Hp Hnl A R Nd Num Sz Ok.
  destruct (msave_load (F := F) isprint known wrapv buf ns js t Hb Hp Hnl A R Nd Num Sz Ok) as (text & d & b & Sv & Nz & G & Pl & Lx & Rn & Rd & Ds).
  exists text. split; [done|]. split; [done|]. pose proof (Lx _ (Nat.le_refl _) : scm_lex text = Some (toptoks false b d)) as Lt. split.
  { destruct (mload_accept known text d _ _ G Lt) as (s & L & _). by exists s. }
  intros s L. pose proof (mload_same known text d _ _ s Lt G L) as X.
  pose proof (mloaded_tree d s Pl X) as T. destruct X as (E1 & E2 & E3).
  split; [done|]. split; [rewrite E1; cbn [length]; rewrite table_length; by rewrite Ds|].
  split; [rewrite E2; cbn [length]; rewrite dinfos_length; by rewrite Ds|]. split; [by rewrite Rn|].
  intros i I. apply elem_of_list_lookup in I as [k I].
  destruct (Forall2_lookup_l _ _ _ _ _ Rd I) as (a & Ea & n & dd & En & Ed & Rp).
  destruct (mtable_pay d 0 1 0 k a Ea) as (p' & nx' & fc' & Et).
  exists n, dd, (mfin a (1 + k) (blank p' nx' fc')), (minf a). split; [done|]. split; [done|].
  rewrite (Num k i n I En), E1, E2. split; [exact Et|]. split; [|by apply Rp].
  change (dinfos minf d !! k = Some (minf a)). rewrite minfos_pays. change (map minf) with (fmap (M := list) (minf (F := F))). rewrite list_lookup_fmap. by rewrite Ea.
Qed.
Print Assumptions C66_scm_document_roundtrip.

(** ** An example *)
Local Instance ints_as_floats : Floats Z := {|
  f_of_int z := z; f_to_int z := Some z; f_neg := Z.opp; f_is_zero z := z =? 0;
  f_add := Z.add; f_sub := Z.sub; f_mul := Z.mul; f_div := Z.quot;
  c_mul a b := (a.1 * b.1 - a.2 * b.2, a.1 * b.2 + a.2 * b.1); c_div a b := a; strtold s := (15, 7%nat) |}.

(** A structure with members a = -5, c = '\n', s (a text with a quote inside, referred
    to), m = RED | LOW, p, an array 1.5e+10, true, NULL, {}, and r, a reference to the
    content of s, and f, a function at 0x1f without a name. *)
Definition ex_ns : list node :=
  [ fresh_node; Node 0 0 2 1 false false false false; Node 1 3 0 2 false false false false; Node 1 4 0 3 false false false false;
    Node 1 5 0 4 false true false false; Node 1 6 0 5 false false false false; Node 1 11 7 6 false false false false;
    Node 6 8 0 7 false false false false; Node 6 9 0 8 false false false false; Node 6 10 0 9 false false false false;
    Node 6 0 0 10 false false false false; Node 1 12 4 11 true false false false; Node 1 0 0 12 false false false false ].
Definition ex_js : list minfo :=
  [ MInfo MNothing true false false []; MInfo MComp true false false [];
    MInfo (MInt I32 (2 ^ 32 - 5)) false false false [97]; MInfo (MChar 10) false false false [99];
    MInfo (MString [120; 34; 121]) false false false [115]; MInfo (MQuoted [82; 69; 68; 32; 124; 32; 76; 79; 87]) false false false [109];
    MInfo MPtr false false false [112]; MInfo (MFloat [49; 46; 53; 101; 43; 49; 48]) true false false [];
    MInfo (MBool true) true false false []; MInfo MPtr true true false []; MInfo MComp true false false [];
    MInfo (MString []) false false true [114]; MInfo (MFunc None 31) false false false [102] ].
Definition ex_tree : tree := T 1 [T 2 []; T 3 []; T 4 []; T 5 []; T 6 [T 7 []; T 8 []; T 9 []; T 10 []]; T 11 []; T 12 []].
Definition ex_known (nm : list Z) : bool :=
  existsb (fun c => match nm with [x] => x =? c | _ => false end) [97; 99; 115; 109; 112; 114; 102].
Definition ex_isprint (c : Z) : bool := (32 <=? c) && (c <? 127).
Definition ex_buf : list Z := repeat 0 print_buffer.

Lemma ex_letter c : c ∈ [97; 99; 115; 109; 112; 114; 102] -> musable [c].
Proof.
  intros I. apply elem_of_list_In in I. split.
  - exists c, []. split; [done|]. split; [|constructor]. unfold ident_start. cbn in I. lia.
  - unfold mreserved. cbn in I. destruct I as [<-|[<-|[<-|[<-|[<-|[<-|[<-|[]]]]]]]]; apply (bool_decide_unpack _); vm_compute; done.
Qed.

Lemma ex_ok : forall i, i ∈ nodes ex_tree -> mnode_ok ex_known false ex_ns ex_js ex_tree i.
Proof.
  assert (forall i n d, ex_ns !! i = Some n -> ex_js !! i = Some d ->
    (m_unnamed d = true \/ musable (m_name d) /\ ex_known (m_name d) = true) ->
    (if is_ref n then first_child n ∈ nodes ex_tree /\ (m_kind d = MPtr \/ exists s, m_kind d = MString s)
     else mkind_ok false (m_kind d) /\
       (if decide (first_child n = 0%nat) then m_kind d = MPtr -> m_null d = true
        else m_kind d = MComp \/ (m_kind d = MPtr /\ m_null d = false))) ->
    mnode_ok ex_known false ex_ns ex_js ex_tree i) as H by (intros i n d; exists n, d; done).
  assert (forall c d, c ∈ [97; 99; 115; 109; 112; 114; 102] -> m_name d = [c] -> m_unnamed d = true \/ musable (m_name d) /\ ex_known (m_name d) = true) as Hn.
  { intros c d I ->. right. split; [by apply ex_letter|]. apply elem_of_list_In in I. cbn in I. destruct I as [<-|[<-|[<-|[<-|[<-|[<-|[<-|[]]]]]]]]; done. }
  intros i I. apply elem_of_list_In in I. cbn in I.
  destruct I as [<-|[<-|[<-|[<-|[<-|[<-|[<-|[<-|[<-|[<-|[<-|[<-|[]]]]]]]]]]]]]; eapply H; try reflexivity; try (by left).
  - cbn. split; [done|by left].
  - eapply (Hn 97); [mem|done].
  - cbn. split; [|done]. split; [done|]. right. lia.
  - eapply (Hn 99); [mem|done].
  - cbn. split; [lia|done].
  - eapply (Hn 115); [mem|done].
  - cbn. split; [repeat constructor; lia|done].
  - eapply (Hn 109); [mem|done].
  - cbn. split; [|done]. unfold unquotable. repeat constructor; lia.
  - eapply (Hn 112); [mem|done].
  - cbn. split; [done|by right].
  - cbn. split; [|done].
    change [49; 46; 53; 101; 43; 49; 48] with (minus false ++ [49] ++ [46; 53] ++ [101; 43; 49; 48]). apply F_frac.
    + split; [done|]. split; [|done]. repeat constructor; lia.
    + right. eexists. split; [done|]. repeat constructor; lia.
    + right. eexists _, _. split; [done|]. split; [by left|]. split; [done|]. repeat constructor; lia.
    + by left.
  - cbn. by split.
  - cbn. by split.
  - cbn. by split.
  - eapply (Hn 114); [mem|done].
  - cbn. split; [mem|]. right. by eexists.
  - eapply (Hn 102); [mem|done].
  - cbn. split; [lia|done].
Qed.

Example C66_scm_document_roundtrip_example :
  tree_at ex_ns 0 0 ex_tree /\ NoDup (nodes ex_tree) /\ numbered ex_ns ex_tree /\
  (forall i, i ∈ nodes ex_tree -> mnode_ok ex_known false ex_ns ex_js ex_tree i) /\
  scm_save ex_isprint false ex_buf ex_js 60 ex_ns = Some
    ([40; 10] ++                                                                        (* ( *)
     [32; 32; 40; 97; 32; 46; 32; 45; 53; 41; 10] ++                                    (* (a . -5) *)
     [32; 32; 40; 99; 32; 46; 32; 35; 92; 120; 48; 97; 41; 10] ++                       (* (c . #\x0a) *)
     [32; 32; 59; 40; 114; 101; 102; 95; 105; 100; 120; 32; 46; 32; 52; 41; 10] ++      (* ;(ref_idx . 4) *)
     [32; 32; 40; 115; 32; 46; 32; 34; 120; 92; 34; 121; 34; 41; 10] ++
     [32; 32; 40; 109; 32; 46; 32; 34; 82; 69; 68; 32; 124; 32; 76; 79; 87; 34; 41; 10] ++
     [32; 32; 40; 112; 32; 46; 32; 40; 49; 46; 53; 101; 43; 49; 48; 32; 116; 32; 110; 105; 108; 32; 40; 41; 41; 41; 10] ++
     [32; 32; 59; 40; 114; 101; 102; 95; 99; 111; 110; 116; 101; 110; 116; 32; 46; 32; 52; 41; 10] ++
     [32; 32; 40; 114; 32; 46; 32; 110; 105; 108; 41; 10] ++                            (* (r . nil) *)
     [32; 32; 40; 102; 32; 46; 32; 35; 120; 49; 102; 41; 10] ++                         (* (f . #x1f) *)
     [41; 10]).
Proof.
  split; [|split; [|split; [|split; [apply ex_ok|vm_compute; reflexivity]]]].
  - cbn. repeat match goal with |- exists _, _ => eexists; split; [reflexivity|]; cbn | |- _ /\ _ => split | |- _ => done end.
  - cbn. apply (bool_decide_unpack _). vm_compute. done.
  - intros k i n E. cbn in E. do 12 (destruct k as [|k]; [injection E as <-; cbn; intros [= <-]; done|]). done.
Qed.

(** C67.  Whatever text the parser accepts, the nodes below the NULL node are numbered
    from 1 with parents before their children; only nodes without members have a value
    or are NULL, all names are known; when no node marked as a reference has members
    they form one well-formed tree; and the text determines everything. *)
Theorem C67_scm_load_is_a_tree {F : Type} `{FL : Floats F} known text (s : lst (@cinfo F)) :
  scm_load known text s ->
  l_cur s = 0%nat /\
  (exists k, length (ra (l_ptrs s)) = S (S k) /\ length (l_info s) = S (S k) /\
     ((forall i n j m, ra (l_ptrs s) !! i = Some n -> ra (l_ptrs s) !! j = Some m -> is_ref n = true -> parent m <> i) ->
      exists t, tree_at (ra (l_ptrs s)) 0 0 t /\ nodes t = seq 1 (S k))) /\
  (forall i n, ra (l_ptrs s) !! i = Some n -> (parent n = 0 /\ i <= 1 \/ 0 < parent n < i)%nat) /\
  (forall i m p, ra (l_ptrs s) !! i = Some m -> l_info s !! parent m = Some p -> c_val p = VVoid /\ c_null p = false) /\
  (forall i p, l_info s !! i = Some p -> forall nm, c_name p = Some nm -> known nm = true) /\
  (forall s', scm_load known text s' -> ra (l_ptrs s') = ra (l_ptrs s) /\ l_info s' = l_info s).
Proof.
  intros H. destruct (mload_explain known text s H) as (d & b1 & b2 & G & L & X).
  pose proof (fun s' => mload_same known text d b1 b2 s' L G) as U. pose proof (fun P => mloaded_tree d s P X) as T. destruct X as (E1 & E2 & E3).
  split; [done|]. split; [|split; [|split; [|split]]].
  - exists (pred (dsize d)). pose proof (dsize_pos d). replace (S (pred (dsize d))) with (dsize d) by lia.
    rewrite E1, E2. cbn [length]. rewrite table_length, dinfos_length. split; [done|]. split; [done|]. intros Hr. exists (number_doc 1 d).
    split; [|apply number_nodes]. rewrite <- E1. apply T. eapply (mtable_plain (fresh_node :: table mfin 0 1 0 d) d Hr 0 1 0). intros j x E. exact E.
  - intros i n E. rewrite E1 in E. destruct i as [|i]; [injection E as <-; left; cbn; lia|]. cbn in E.
    destruct (mtable_parent known d G _ _ _ _ _ E) as [[-> ->]|(j & p & -> & Lj & _)]; [left; lia|right; lia].
  - intros i m p E Ep. rewrite E1 in E. rewrite E2 in Ep. destruct i as [|i]; [injection E as <-; by injection Ep as <-|]. cbn in E.
    destruct (mtable_parent known d G _ _ _ _ _ E) as [[-> Er]|(j & p' & Er & Lj & Ei & V)]; rewrite Er in Ep; [by injection Ep as <-|].
    change (dinfos minf d !! j = Some p) in Ep. rewrite Ei in Ep. by injection Ep as <-.
  - intros i p Ep. rewrite E2 in Ep. destruct i as [|i]; [by injection Ep as <-|]. cbn in Ep. by apply (minfos_known known d G _ _ Ep).
  - intros s' H'. destruct (U s' H') as (E1' & E2' & _). by rewrite E1, E2, E1', E2'.
Qed.
Print Assumptions C67_scm_load_is_a_tree.

(** (1 ; comment
    (a . (c . #x1f))()) *)
Definition ex_text : list Z := [40; 49; 32; 59; 99; 10; 40; 97; 32; 46; 32; 40; 99; 32; 46; 32; 35; 120; 49; 102; 41; 41; 40; 41; 41].
Definition ex_doc : doc (mpay (F := Z)) :=
  Doc (MPay [] [] (SList [true; false; false]))
    [ Doc (MPay [] [] (SNum (VInt 1))) []; Doc (MPay [[97]; [99]] [] (SNum (VInt 31))) []; Doc (MPay [] [] (SList [])) [] ].
Example C67_scm_load_is_a_tree_example : exists s : lst (@cinfo Z), scm_load ex_known ex_text s /\
  map is_ref (ra (l_ptrs s)) = [false; false; false; false; false] /\
  l_info s = [cinfo0; cinfo0; CInfo (VInt 1) false false None None; CInfo (VInt 31) false false (Some [97]) None; cinfo0].
Proof.
  assert (doc_all (mgood ex_known) ex_doc) as G.
  { unfold ex_doc. rewrite doc_all_eq. split; [split; [constructor|done]|].
    constructor; [|constructor; [|constructor; [|constructor]]]; rewrite doc_all_eq; (split; [split; [cbn; repeat constructor|done]|constructor]). }
  destruct (mload_accept ex_known ex_text ex_doc false false G) as (s & H & E1 & E2 & _); [vm_compute; reflexivity|].
  exists s. split; [done|]. rewrite E1, E2. split; reflexivity.
Qed.

(** ** What does not hold *)

(** Nothing but a statement starts with an identifier, a closing parenthesis, a dot or
    an error. *)
Local Lemma no_scm {F : Type} `{FL : Floats F} known x ts (s : lst (@cinfo F)) ts' s' :
  match x with MtId _ | MtRp | MtDot | MtErr | MtWs => True | _ => False end -> ~ mderives known NScm (x :: ts) s ts' s'.
Proof.
  intros Hx D. inversion D as [|? ? s1 ? s2 ? _ D1 _| | | | | | | | | | | |]; subst. clear D. inversion D1 as [| |? ? ? ? D2| | | | | | | | | | |]; subst; [|done].
  inversion D2; subst; done.
Qed.

(** Members of a node marked as a reference get lost: ;(ref . 1) followed by (1 2)
    is accepted, the two members have node 1 for their parent, but the only tree there
    is has one node.  src/scm_load.y:121-141 write the number of the target over
    first_child. *)
Theorem C67_reference_with_members_refuted {F : Type} `{FL : Floats F} known :
  exists text, exists s : lst (@cinfo F), scm_load known text s /\ length (ra (l_ptrs s)) = 4%nat /\
    map parent (ra (l_ptrs s)) = [0; 0; 1; 1]%nat /\
    forall t, tree_at (ra (l_ptrs s)) 0 0 t -> root t = 1%nat -> nodes t = [1%nat].
Proof.
  exists [59; 40; 114; 101; 102; 32; 46; 32; 49; 41; 10; 40; 49; 32; 50; 41].
  set (d := Doc (MPay [] [(txt_ref, 1)] (SList [true; false]))
    [Doc (MPay [] [] (SNum (VInt (F := F) 1))) []; Doc (MPay [] [] (SNum (VInt 2))) []]).
  assert (doc_all (mgood known) d) as G.
  { unfold d. rewrite doc_all_eq. split; [split; [constructor|done]|].
    constructor; [|constructor; [|constructor]]; rewrite doc_all_eq; (split; [split; [constructor|done]|constructor]). }
  destruct (mload_accept known [59; 40; 114; 101; 102; 32; 46; 32; 49; 41; 10; 40; 49; 32; 50; 41] d false false G) as (s & H & E1 & E2 & _); [vm_compute; reflexivity|].
  exists s. split; [done|]. rewrite E1. clear. split; [done|]. split; [reflexivity|].
  intros [i ks] A R. cbn [root] in R. subst i. rewrite tree_at_eq in A. destruct A as (n & En & _ & _ & _ & X).
  assert (expandable n = false) as Ex by (injection En as <-; vm_compute; reflexivity). rewrite Ex in X. by subst ks.
Qed.
Print Assumptions C67_reference_with_members_refuted.

(** A field the lexer has another use for, here "t", is printed but cannot be read:
    after the parenthesis comes the number 1.  src/scm_save.c:270-274,
    src/scm_load.l:65. *)
Theorem C66_reserved_name_refuted {F : Type} `{FL : Floats F} isprint known wrapv buf : length buf = print_buffer ->
  exists ns js t text, tree_at ns 0 0 t /\ root t = 1%nat /\ numbered ns t /\
    scm_save isprint wrapv buf js 10 ns = Some text /\ forall s : lst (@cinfo F), ~ scm_load known text s.
Proof.
  intros Hb.
  exists [fresh_node; Node 0 0 2 1 false false false false; Node 1 0 0 2 false false false false],
    [MInfo MNothing true false false []; MInfo MComp true false false []; MInfo (MBool true) false false false [116]], (T 1 [T 2 []]),
    [40; 10; 32; 32; 40; 116; 32; 46; 32; 116; 41; 10; 41; 10].
  split; [cbn; repeat match goal with |- exists _, _ => eexists; split; [reflexivity|]; cbn | |- _ /\ _ => split | |- _ => done end|].
  split; [done|]. split.
  { intros k i n E. do 2 (destruct k as [|k]; [injection E as <-; by intros [= <-]|]). done. }
  split; [reflexivity|]. intros s (ts & L & D).
  assert (scm_lex (F := F) [40; 10; 32; 32; 40; 116; 32; 46; 32; 116; 41; 10; 41; 10] = Some [MtLp; MtLp; MtNum (VInt 1); MtDot; MtNum (VInt 1); MtRp; MtRp; MtWs]) as L'
    by (vm_compute; reflexivity).
  rewrite L' in L. injection L as <-. clear L'.
  assert (forall ts s ts' s', ~ mderives known NValue (MtLp :: MtNum (VInt (F := F) 1) :: MtDot :: ts) s ts' s') as Bad.
  { clear D s. intros ts s ts' s' D. inversion D as [| | | |? ? ? ? D1| | | | | | | | |]; subst.
    inversion D1 as [| | | | | | | | | | |? ? ? ? ? ? ? ? D2 D3 D4| |]; subst. 
    inversion D2 as [|? ? ? ? ? ? _ D5 _| | | | | | | | | | | |]; subst. inversion D5 as [| |? ? ? ? D6| | | | | | | | | | |]; subst.
    inversion D6; subst. inversion D3; subst. inversion D4 as [| | | | | | | | | | |? ? ? ? ? ? ? ? D7 _ _| |]; subst. by apply no_scm in D7. }
  inversion D as [? ? ? ? ? ? ? ? D1 D2 D3| | | | | | | | | | | | |]; subst. inversion D1; subst.
  inversion D2 as [|? ? ? ? ? ? _ D5 _| | | | | | | | | | | |]; subst. inversion D5 as [| |? ? ? ? D6| | | | | | | | | | |]; subst.
  inversion D6 as [| | | |? ? ? ? D7| | | | | | | | |]; subst. inversion D7 as [| | | | | | | | | | |? ? ? ? ? ? ? ? D8 _ _| |]; subst.
  inversion D8 as [|? ? ? ? ? ? _ D9 _| | | | | | | | | | | |]; subst. inversion D9 as [| |? ? ? ? D10| | | | | | | | | | |]; subst.
  by apply Bad in D10.
Qed.
Print Assumptions C66_reserved_name_refuted.

(** A field of type void and a pointer that is not NULL but has no children are printed
    as a name with nothing after the dot, which cannot be read.  src/scm_save.c:162-181,
    src/scm_load.y:190. *)
Theorem C66_nothing_printed_refuted {F : Type} `{FL : Floats F} isprint known wrapv buf k : k = MNothing \/ k = MPtr -> length buf = print_buffer ->
  exists ns js t text, tree_at ns 0 0 t /\ root t = 1%nat /\ numbered ns t /\ map m_kind js = [MNothing; MComp; k] /\ map m_null js = [false; false; false] /\
    scm_save isprint wrapv buf js 10 ns = Some text /\ forall s : lst (@cinfo F), ~ scm_load known text s.
Proof.
  intros Hk Hb.
  exists [fresh_node; Node 0 0 2 1 false false false false; Node 1 0 0 2 false false false false],
    [MInfo MNothing true false false []; MInfo MComp true false false []; MInfo k false false false [120]], (T 1 [T 2 []]),
    [40; 10; 32; 32; 40; 120; 32; 46; 32; 41; 10; 41; 10].
  split; [cbn; repeat match goal with |- exists _, _ => eexists; split; [reflexivity|]; cbn | |- _ /\ _ => split | |- _ => done end|].
  split; [done|]. split.
  { intros j i n E. do 2 (destruct j as [|j]; [injection E as <-; by intros [= <-]|]). done. }
  do 2 (split; [reflexivity|]).
  split; [destruct Hk as [-> | ->]; reflexivity|]. intros s (ts & L & D).
  assert (scm_lex (F := F) [40; 10; 32; 32; 40; 120; 32; 46; 32; 41; 10; 41; 10] = Some [MtLp; MtLp; MtId [120]; MtDot; MtRp; MtRp; MtWs]) as L'
    by (vm_compute; reflexivity).
  rewrite L' in L. injection L as <-. clear L' Hk.
  inversion D as [? ? ? ? ? ? ? ? D1 D2 D3| | | | | | | | | | | | |]; subst. inversion D1; subst.
  inversion D2 as [|? ? ? ? ? ? _ D5 _| | | | | | | | | | | |]; subst. inversion D5 as [| |? ? ? ? D6| | | | | | | | | | |]; subst.
  inversion D6 as [| | | |? ? ? ? D7| | | | | | | | |]; subst. inversion D7 as [| | | | | | | | | | |? ? ? ? ? ? ? ? D8 _ _| |]; subst.
  inversion D8 as [|? ? ? ? ? ? _ D9 _| | | | | | | | | | | |]; subst. inversion D9 as [| |? ? ? ? D10| | | | | | | | | | |]; subst.
  inversion D10 as [| | | |? ? ? ? D11|? ? ? ? ? ? D11 _| | | | | | | |]; subst.
  - inversion D11 as [| | | | | | | | | | |? ? ? ? ? ? ? ? D12 _ _| |]; subst. by apply no_scm in D12.
  - inversion D11.
Qed.
Print Assumptions C66_nothing_printed_refuted.

(** The sign of a negative zero does not survive, as with JSON. *)
Theorem C66_negative_zero_refuted {F : Type} `{FL : Floats F} isprint known wrapv buf :
  exists ns js js' text text',
    map m_kind js <> map m_kind js' /\
    scm_save isprint wrapv buf js 10 ns = Some text /\ scm_save isprint wrapv buf js' 10 ns = Some text' /\
    (exists s : lst (@cinfo F), scm_load known text s) /\ (exists s : lst (@cinfo F), scm_load known text' s) /\
    forall s s' : lst (@cinfo F), scm_load known text s -> scm_load known text' s' ->
      ra (l_ptrs s) = ra (l_ptrs s') /\ l_info s = l_info s'.
Proof.
  exists [fresh_node; Node 0 0 0 1 false false false false], [MInfo MNothing true false false []; MInfo (MFloat [45; 48]) true false false []],
    [MInfo MNothing true false false []; MInfo (MFloat [48]) true false false []], [45; 48], [48].
  split; [done|]. split; [reflexivity|]. split; [reflexivity|].
  set (d := Doc (MPay [] [] (SNum (VInt (F := F) 0))) []).
  assert (doc_all (mgood known) d) as G.
  { apply doc_all_eq. split; [|constructor]. split; [constructor|done]. }
  assert (scm_lex [45; 48] = Some (toptoks false false d)) as L1 by (vm_compute; reflexivity).
  assert (scm_lex [48] = Some (toptoks false false d)) as L2 by (vm_compute; reflexivity).
  split; [destruct (mload_accept known _ d _ _ G L1) as (s & H & _); by exists s|].
  split; [destruct (mload_accept known _ d _ _ G L2) as (s & H & _); by exists s|]. intros s s' H H'.
  destruct (mload_same known _ d _ _ s L1 G H) as (E1 & E2 & _), (mload_same known _ d _ _ s' L2 G H') as (E1' & E2' & _).
  clear -E1 E2 E1' E2'. rewrite E1, E2, E1', E2'. split; reflexivity.
Qed.
Print Assumptions C66_negative_zero_refuted.

(** No octal number is ever read although the lexer has a rule for them: the pattern of
    src/scm_load.l:27 has the digits in two pairs of square brackets, for flex one
    character out of a digit and an opening bracket, then closing brackets. *)
Theorem C67_octal_number_refuted {F : Type} `{FL : Floats F} known ds (s : lst (@cinfo F)) :
  Forall (fun c => 48 <= c <= 55) ds -> ~ scm_load known ([35; 111] ++ ds) s.
Proof.
  intros H (ts & L & D).
  assert (exists r, ts = MtErr :: r) as [r ->].
  { assert (m_soct ([35; 111] ++ ds) = None) as E.
    { clear L D. cbn. destruct H as [|x ds Hx H]; [done|]. cbn. destruct ((x =? 91) || _); [|done].
      destruct H as [|y ds Hy H]; [done|]. cbn. destruct y as [|y|y]; [done| |done]. destruct (Pos.eqb_spec 93 y) as [<-|]; [lia|done]. }
    assert (select scm_rules ([35; 111] ++ ds) None = Some (1%nat, fun _ => Some (Some (MtErr (F := F))))) as Es.
    { assert (forall T (m : list Z -> option nat) (act : list Z -> option T) rules text best, m text = None -> select ((m, act) :: rules) text best = select rules text best) as Step
        by (intros * Em; cbn [select]; by rewrite Em).
      unfold scm_rules. do 3 (rewrite Step by reflexivity). rewrite (Step _ m_soct) by exact E. do 12 (rewrite Step by reflexivity). reflexivity. }
    unfold scm_lex in L. cbn [app length lex] in L, Es. rewrite Es in L. cbn [mbind option_bind Nat.eqb] in L.
    match type of L with ?x ≫= _ = _ => destruct x as [r|]; [|discriminate L] end. injection L as <-. by exists r. }
  inversion D as [? ? ? ? ? ? ? ? D1 D2 D3| | | | | | | | | | | | |]; subst. inversion D1; subst. by apply no_scm in D2.
Qed.
Print Assumptions C67_octal_number_refuted.

Example C67_octal_number_refuted_example :
  Forall (fun c => 48 <= c <= 55) [49; 55] /\ scm_lex (F := Z) ([35; 111] ++ [49; 55]) = Some [MtErr; MtId [111; 49; 55]].
Proof. split; [repeat constructor; lia|vm_compute; reflexivity]. Qed.
