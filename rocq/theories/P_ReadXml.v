(** C38: reading one XML document from a stream (src/metaresc.c:2089-2168). *)
From Coq Require Import String Ascii.
From Verif Require Import Base ReadXml ReadXmlProof.
Local Open Scope list_scope.
Local Open Scope Z_scope.

(** C38: a document that consists of two parts (a declaration "<?xml ... ?>" and
    an element, say), nested to any depth, with white space before each, is read
    up to its last character, whatever follows it in the stream, and the buffer
    is never overrun however it has to grow ([None] would be a store outside
    of it). *)
Theorem C38_reads_document : forall junk w1 x1 w2 x2 rest,
  (forall n, length (junk n) = n) ->
  Forall (fun c => isspace c = true) w1 -> Forall (fun c => isspace c = true) w2 -> part x1 -> part x2 ->
  let text := w1 ++ render x1 ++ w2 ++ render x2 in
  Z.of_nat (length (text ++ rest)) < 2 ^ 30 ->
  exists buf, read_xml_doc junk (text ++ rest) = Some (Doc buf) /\ holds buf text.
Proof.
  intros junk w1 x1 w2 x2 rest Hj H1 H2 P1 P2 text Hl.
  pose proof (loop_ok junk Hj (text ++ rest) init [] _ init_inv) as H. cbn [length Z.of_nat] in H. specialize (H ltac:(lia)).
  assert (E : runa (Ast 0 (-1) 0 2) (text ++ rest) = Some (length text)).
  { unfold text. rewrite <- !app_assoc. rewrite run_space by done. rewrite run_part by done. cbn [cnt]. unfold after at 1.
    cbn [Z.eqb Z.sub]. change (2 - 1) with 1. rewrite run_space by done. rewrite run_part by done. cbn [cnt]. unfold after.
    change (0 =? 0) with true. change (1 - 1 =? 0) with true. change (1 =? 0) with false. cbv iota. cbn [shift]. f_equal. rewrite !app_length. lia. }
  rewrite E in H. destruct H as (buf & Hb & Hh). exists buf. split; [exact Hb|]. cbn [app] in Hh. by rewrite take_app in Hh.
Qed.
Print Assumptions C38_reads_document.

(** C38: on every stream (of less than 2^30 characters) the function either
    refuses or returns a prefix of the stream, which ends with ">", contains no
    NUL and is NUL terminated in the buffer; the same prefix is returned whatever
    follows in the stream, and no shorter prefix of it would have been accepted. *)
Theorem C38_result_is_prefix : forall junk stream,
  (forall n, length (junk n) = n) -> Z.of_nat (length stream) < 2 ^ 30 ->
  read_xml_doc junk stream = Some Refused \/
  exists buf text rest, read_xml_doc junk stream = Some (Doc buf) /\ holds buf text /\ stream = text ++ rest /\
    Forall (fun c => c <> 0) text /\ (exists p, text = p ++ [62]) /\
    (forall rest', Z.of_nat (length (text ++ rest')) < 2 ^ 30 ->
       exists buf', read_xml_doc junk (text ++ rest') = Some (Doc buf') /\ holds buf' text) /\
    (forall m, (m < length text)%nat -> read_xml_doc junk (take m text) = Some Refused).
Proof.
  intros junk s Hj Hl.
  pose proof (loop_ok junk Hj s init [] _ init_inv ltac:(cbn [length Z.of_nat]; lia)) as H.
  destruct (runa (Ast 0 (-1) 0 2) s) as [n|] eqn:E; [|by left].
  destruct H as (buf & Hb & Hh). cbn [app] in Hh. right. exists buf, (take n s), (drop n s).
  apply runa_spec in E as (Hn & H1 & H2 & H3 & H4).
  assert (Hlen : length (take n s) = n) by (rewrite take_length; lia).
  split; [exact Hb|]. split; [exact Hh|]. split; [by rewrite take_drop|]. split; [done|]. split; [done|]. split.
  - intros s' Hl'. pose proof (loop_ok junk Hj (take n s ++ s') init [] _ init_inv ltac:(cbn [length Z.of_nat]; lia)) as H.
    rewrite H3 in H. destruct H as (buf' & Hb' & Hh'). exists buf'. split; [exact Hb'|].
    cbn [app] in Hh'. rewrite take_app_alt in Hh' by lia. done.
  - intros m Hm. rewrite take_take, Nat.min_l by lia.
    pose proof (loop_ok junk Hj (take m s) init [] _ init_inv ltac:(cbn [length Z.of_nat]; rewrite take_length; lia)) as H.
    rewrite H4 in H by lia. exact H.
Qed.
Print Assumptions C38_result_is_prefix.

Definition codes (s : string) : list Z := map (fun c => Z.of_nat (nat_of_ascii c)) (list_ascii_of_string s).

(** Comments (and document type declarations) are not recognised: they count as
    tags that have to be closed, so a document with one is refused at its end. *)
Theorem C38_comment_refuted : exists stream,
  stream = codes "<?xml version='1.0'?><!-- c --><a></a>" /\
  forall junk, (forall n, length (junk n) = n) -> read_xml_doc junk stream = Some Refused.
Proof.
  eexists. split; [reflexivity|]. intros junk Hj.
  pose proof (loop_ok junk Hj (codes "<?xml version='1.0'?><!-- c --><a></a>") init [] _ init_inv ltac:(vm_compute; reflexivity)) as H.
  replace (runa _ _) with (@None nat) in H by (vm_compute; reflexivity). exact H.
Qed.
Print Assumptions C38_comment_refuted.

(** Without the bound on the length: the size of the buffer is an [int] and
    overflows. *)
Lemma lots_of_lt junk : (forall n, length (junk n) = n) -> forall (n : nat) v dn a s,
  inv v dn a -> op a + 2 * Z.of_nat n < 2 ^ 31 -> Z.of_nat (length dn) + Z.of_nat n < 2 ^ 30 -> tc a = -1 ->
  exists v' a', loop junk v (replicate n 60 ++ s) = loop junk v' s /\ inv v' (dn ++ replicate n 60) a' /\ tc a' = -1.
Proof.
  intros Hj. induction n as [|n IH]; intros v dn a s Hi Ho Hl Ht.
  - exists v, a. rewrite app_nil_r. done.
  - cbn [replicate app loop]. change (60 =? 0) with false. cbv iota.
    destruct (store_ok junk Hj v dn a 60 Hi ltac:(lia)) as (v' & -> & (g & Hg) & Hlen & Hs & Hlt & Hp & Hm & E1 & E2 & E3 & E4).
    cbn [mbind option_bind]. destruct Hi as (_ & _ & _ & _ & _ & _ & Hop & Htc & Hpc & Hc & Hr & Htr).
    change (60 =? 60) with true. cbn [orb negb andb]. rewrite andb_false_r.
    rewrite (add_int_ok (opened_tags v') 2) by (unfold int_max; lia). cbn [mbind option_bind].
    change (60 =? 62) with false. change (60 =? 47) with false. rewrite !andb_false_r. cbv iota zeta.
    change (isspace 60) with false. cbv iota.
    destruct (IH (Vars (str v') (size v') (max_size v') 60 (opened_tags v' + 2) (tags_to_close v') (count v'))
                 (dn ++ [60]) (Ast (op a + 2) (-1) 60 (cnt a)) s) as (v2 & a2 & E & Hi2 & Ht2).
    + unfold inv. cbn [str size max_size opened_tags tags_to_close c_ count op tc pc cnt]. rewrite app_length. cbn [length].
      split; [by exists g|]. split; [exact Hlen|]. split; [lia|]. split; [lia|]. split; [exact Hp|]. split; [exact Hm|].
      split; [lia|]. split; [lia|]. split; [done|]. split; [lia|]. split; lia.
    + cbn. lia.
    + rewrite app_length. cbn. lia.
    + done.
    + exists v2, a2. split; [exact E|]. rewrite <- app_assoc in Hi2. done.
Qed.
Theorem C38_int_overflow_refuted : forall junk, (forall n, length (junk n) = n) ->
  exists stream, Forall (fun c => 0 < c < 256) stream /\ Z.of_nat (length stream) = 2 ^ 30 /\ read_xml_doc junk stream = None.
Proof.
  intros junk Hj. set (n := Z.to_nat (2 ^ 30 - 1)). assert (Hn : Z.of_nat n = 2 ^ 30 - 1) by (unfold n; rewrite Z2Nat.id; lia).
  clearbody n. exists (replicate n 60 ++ [60]). split; [|split].
  - apply Forall_app. split; [apply Forall_replicate; lia|]. repeat constructor; lia.
  - rewrite app_length, replicate_length. cbn [length]. lia.
  - unfold read_xml_doc.
    destruct (lots_of_lt junk Hj n init [] _ [60] init_inv) as (v & a & -> & Hi & _); [cbn; lia|cbn; lia|done|].
    destruct Hi as ((g & Hg) & Hlen & Hs & Hlt & (k & Hk) & Hm & _). cbn [app] in *. rewrite replicate_length in *.
    assert (Emax : max_size v = 2 ^ 30) by lia.
    cbn [loop]. change (60 =? 0) with false. cbv iota. unfold store.
    rewrite add_int_ok by (unfold int_max; lia). cbn [mbind option_bind]. rewrite wr_Some by lia. cbn [mbind option_bind].
    rewrite Hs, Emax. replace (Z.of_nat n - 1 + 1 =? 2 ^ 30 - 1) with true by lia.
    change (2 ^ 30 * 2 <=? int_max) with false. done.
Qed.
Print Assumptions C38_int_overflow_refuted.

(** *** A case *)
Definition ex_root : node :=
  Elem (codes "root a='1'") [Text (codes "x / y"); Empty (codes "b ") (codes " "); Markup (codes "pi");
    Elem (codes "c") [Elem (codes "d e='f?'") [] (codes "d ")] (codes " c")] (codes "root").
Example C38_case :
  part (Markup (codes "xml version='1.0'")) /\ part ex_root /\
  codes "<?xml version='1.0'?>" ++ [10] ++ codes "<root a='1'>x / y<b / ><?pi?><c><d e='f?'></d ></ c></root>"
  = [] ++ render (Markup (codes "xml version='1.0'")) ++ [10] ++ render ex_root /\
  (forall junk, (forall n, length (junk n) = n) -> exists buf,
     read_xml_doc junk (codes "<?xml version='1.0'?>" ++ [10] ++ codes "<root a='1'>x / y<b / ><?pi?><c><d e='f?'></d ></ c></root>" ++ codes "<more>") = Some (Doc buf) /\
     holds buf (codes "<?xml version='1.0'?>" ++ [10] ++ codes "<root a='1'>x / y<b / ><?pi?><c><d e='f?'></d ></ c></root>")).
Proof.
  assert (Hp : forall t, forallb (fun c => negb (c =? 0) && negb (c =? 60) && negb (c =? 62)) t = true -> plain t).
  { intros t Ht. apply Forall_forall. intros c Hc. apply elem_of_list_In in Hc.
    rewrite forallb_forall in Ht. apply Ht in Hc. lia. }
  assert (P1 : part (Markup (codes "xml version='1.0'"))) by (by apply Hp).
  assert (P2 : part ex_root).
  { cbn [part ex_root okn fold_right map]. unfold ends_plain.
    repeat match goal with
      | |- _ /\ _ => split
      | |- plain _ => by apply Hp
      | |- True => exact I
      | |- Forall _ _ => by repeat constructor
      | |- exists c, _ => eexists; split; [vm_compute; reflexivity|vm_compute; discriminate]
      | |- _ => vm_compute; discriminate
      end. }
  split; [exact P1|]. split; [exact P2|]. split; [vm_compute; reflexivity|]. intros junk Hj.
  destruct (C38_reads_document junk [] (Markup (codes "xml version='1.0'")) [10] ex_root (codes "<more>") Hj) as (buf & E & H);
    [constructor|by repeat constructor|exact P1|exact P2|vm_compute; reflexivity|].
  exists buf. split; [|exact H]. rewrite <- E. f_equal.
Qed.
